(** Hexadecimal text, UTF-8, lexicographic order.  Independent of the model. *)
From Coq Require Import NArith List Bool.
From Coq Require Import Init.Byte Strings.Byte Strings.String.
From Verif Require Import SpecBase.
Import ListNotations.
Open Scope N_scope.
Open Scope list_scope.

Definition text := list byte.
Definition digits : text := list_byte_of_string "0123456789abcdef".
Definition DIGITS : text := list_byte_of_string "0123456789ABCDEF".

(** The two characters of an octet, high nibble first. *)
Definition hex_pair (ds : text) (b : byte) : text :=
  [nth (N.to_nat (Byte.to_N b / 16)) ds x00; nth (N.to_nat (Byte.to_N b mod 16)) ds x00].
Definition hex_text (ds : text) (l : list byte) : text := List.concat (map (hex_pair ds) l).

(** [v] is the value of the character [ch] as a hexadecimal digit, of either case. *)
Definition digit_is (ch : byte) (v : N) : Prop :=
  nth_error digits (N.to_nat v) = Some ch \/ nth_error DIGITS (N.to_nat v) = Some ch.
Definition hex_digit (ch : byte) : Prop := exists v, digit_is ch v.

(** The octet string denoted by a text of hexadecimal digits. *)
Inductive denotes : text -> list byte -> Prop :=
| den_nil : denotes [] []
| den_cons hi lo v w s b l : digit_is hi v -> digit_is lo w -> Byte.to_N b = 16 * v + w ->
    denotes s l -> denotes (hi :: lo :: s) (b :: l).

(** Lexicographic order: at the first difference, or when one is a proper
    prefix of the other. *)
Definition lex_lt (a b : list byte) : Prop :=
  (exists p x y s t, a = p ++ x :: s /\ b = p ++ y :: t /\ Byte.to_N x < Byte.to_N y) \/
  (exists y t, b = a ++ y :: t).

(** Unicode scalar values and their UTF-8 encoding (RFC 3629). *)
Definition scalar (x : N) : Prop := x < 0xd800 \/ (0xe000 <= x /\ x < 0x110000).
Definition utf8_char (x : N) : list byte :=
  if x <? 0x80 then [octet x]
  else if x <? 0x800 then [octet (0xc0 + x / 64); octet (0x80 + x mod 64)]
  else if x <? 0x10000 then [octet (0xe0 + x / 4096); octet (0x80 + x / 64 mod 64); octet (0x80 + x mod 64)]
  else [octet (0xf0 + x / 262144); octet (0x80 + x / 4096 mod 64); octet (0x80 + x / 64 mod 64);
        octet (0x80 + x mod 64)].
Definition utf8 (s : list N) : list byte := List.concat (map utf8_char s).
