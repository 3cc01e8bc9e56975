(** Decimal numerals.  Independent of the model. *)
From Coq Require Import NArith List Bool.
From Coq Require Import Init.Byte Strings.Byte Strings.String.
From Verif Require Import SpecText.
Import ListNotations.
Open Scope N_scope.
Open Scope list_scope.

Definition decimal_digit (ch : byte) (d : N) : Prop :=
  nth_error (list_byte_of_string "0123456789") (N.to_nat d) = Some ch.
(** [positional ds n]: the digits [ds], most significant first, have the value [n]. *)
Inductive positional : text -> N -> Prop :=
| pos_nil : positional [] 0
| pos_snoc ds n ch d : positional ds n -> decimal_digit ch d -> positional (ds ++ [ch]) (10 * n + d).
(** The numeral people write: no superfluous zeros in front. *)
Definition numeral (s : text) (n : N) : Prop :=
  positional s n /\ s <> [] /\ (hd_error s = Some x30 -> s = [x30]).
