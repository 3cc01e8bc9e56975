(** SipHash-2-4 (Aumasson, Bernstein 2012), HMAC (RFC 2104), tagged hashes
    (BIP-340). Independent of the model. *)
From Coq Require Import NArith ZArith List Bool.
From Coq Require Import Init.Byte Strings.Byte.
From Verif Require Import SpecBase SpecSha2.
Import ListNotations.
Open Scope N_scope.

(** ** SipHash-2-4 *)

(** SipRound, figure 2.1 of the paper *)
Definition sip_round (v : N * N * N * N) : N * N * N * N :=
  let '(a, b, c, d) := v in
  let a := add 64 a b in           let c := add 64 c d in
  let b := ROTL 64 13 b in         let d := ROTL 64 16 d in
  let b := N.lxor b a in           let d := N.lxor d c in
  let a := ROTL 64 32 a in
  let c := add 64 c b in           let a := add 64 a d in
  let b := ROTL 64 17 b in         let d := ROTL 64 21 d in
  let b := N.lxor b c in           let d := N.lxor d a in
  let c := ROTL 64 32 c in
  (a, b, c, d).

Definition sip_init (k0 k1 : N) : N * N * N * N :=
  (N.lxor k0 0x736f6d6570736575, N.lxor k1 0x646f72616e646f6d,
   N.lxor k0 0x6c7967656e657261, N.lxor k1 0x7465646279746573).

(** Compression of one word, c = 2 *)
Definition sip_word (v : N * N * N * N) (m : N) : N * N * N * N :=
  let '(a, b, c, d) := v in
  let '(a, b, c, d) := Nat.iter 2 sip_round (a, b, c, N.lxor d m) in
  (N.lxor a m, b, c, d).

(** The message followed by the least number of null bytes and a final byte
    encoding its length mod 256, as little-endian 64-bit words *)
Definition sip_parse (m : list byte) : list N :=
  le_words 8 (m ++ repeat x00 (Z.to_nat ((7 - Z.of_nat (length m)) mod 8))
                ++ [octet (N.of_nat (length m))]).

(** Compression of the parsed message from state [v], then finalization, d = 4 *)
Definition sip_from (v : N * N * N * N) (m : list byte) : N :=
  let '(a, b, c, d) := fold_left sip_word (sip_parse m) v in
  let '(a, b, c, d) := Nat.iter 4 sip_round (a, b, N.lxor c 0xff, d) in
  N.lxor (N.lxor (N.lxor a b) c) d.
Definition siphash24 (k0 k1 : N) (m : list byte) : N := sip_from (sip_init k0 k1) m.

(** ** HMAC, RFC 2104 section 2 *)

Section Hmac.
  Context (H : list byte -> list byte) (B : nat).

  Definition xor_pad (p : byte) (K : list byte) : list byte :=
    map (fun b => octet (N.lxor (Byte.to_N b) (Byte.to_N p))) K.

  (** "append zeros to the end of K to create a B byte string"; "keys longer
      than B bytes are first hashed" *)
  Definition hmac_key (K : list byte) : list byte :=
    let K' := if Nat.ltb B (length K) then H K else K in
    K' ++ repeat x00 (B - length K').

  Definition HMAC (K text : list byte) : list byte :=
    H (xor_pad x5c (hmac_key K) ++ H (xor_pad x36 (hmac_key K) ++ text)).
End Hmac.

(** ** BIP-340 tagged hash *)
Definition tagged_hash (tag msg : list byte) : list byte :=
  SHA256 (SHA256 tag ++ SHA256 tag ++ msg).
