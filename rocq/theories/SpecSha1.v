(** FIPS 180-4: SHA-1. Independent of the model. *)
From Coq Require Import NArith ZArith List Bool.
From Coq Require Import Init.Byte Strings.Byte.
From Verif Require Import SpecBase.
Import ListNotations.
Open Scope N_scope.

(** (4.1) *)
Definition f (t : nat) (x y z : N) : N :=
  if Nat.ltb t 20 then N.lxor (N.land x y) (N.land (NOT 32 x) z)
  else if Nat.ltb t 40 then N.lxor (N.lxor x y) z
  else if Nat.ltb t 60 then
    N.lxor (N.lxor (N.land x y) (N.land x z)) (N.land y z)
  else N.lxor (N.lxor x y) z.

(** Section 4.2.1 *)
Definition K (t : nat) : N :=
  if Nat.ltb t 20 then 0x5a827999
  else if Nat.ltb t 40 then 0x6ed9eba1
  else if Nat.ltb t 60 then 0x8f1bbcdc
  else 0xca62c1d6.

(** Section 6.1.2 step 1 *)
Definition next_word (W : list N) : N :=
  let t := length W in
  ROTL 32 1 (N.lxor (N.lxor (N.lxor (nth (t - 3) W 0) (nth (t - 8) W 0))
                            (nth (t - 14) W 0)) (nth (t - 16) W 0)).
Fixpoint extend (n : nat) (W : list N) : list N :=
  match n with O => W | S n' => extend n' (W ++ [next_word W]) end.
Definition schedule (block : list byte) : list N := extend 64 (be_words 4 block).

(** Step 3 *)
Definition round (s : N * N * N * N * N) (tw : nat * N) : N * N * N * N * N :=
  let '(a, b, c, d, e) := s in
  let '(t, wt) := tw in
  (sum 32 [ROTL 32 5 a; f t b c d; e; K t; wt], a, ROTL 32 30 b, c, d).

Definition compress (H : list N) (block : list byte) : list N :=
  match H with
  | [a; b; c; d; e] =>
      let '(a', b', c', d', e') :=
        fold_left round (combine (seq 0 80) (schedule block)) (a, b, c, d, e) in
      [add 32 a a'; add 32 b b'; add 32 c c'; add 32 d d'; add 32 e e']
  | _ => H
  end.

(** Section 5.1.1 *)
Definition zero_count (n : nat) : nat := Z.to_nat ((55 - Z.of_nat n) mod 64).
Definition pad_with (bitlen : N) (M : list byte) : list byte :=
  M ++ [x80] ++ repeat x00 (zero_count (length M)) ++ be_octets 8 bitlen.
Definition pad (M : list byte) : list byte := pad_with (8 * N.of_nat (length M)) M.

(** Section 5.3.1 *)
Definition H0 : list N := [0x67452301; 0xefcdab89; 0x98badcfe; 0x10325476; 0xc3d2e1f0].

Definition iterate (H : list N) (l : list byte) : list N := fold_left compress (blocks 64 l) H.
Definition output (H : list N) : list byte := concat (map (be_octets 4) H).
Definition SHA1 (M : list byte) : list byte := output (iterate H0 (pad M)).
