(** RIPEMD-160 a second time, on bit strings and with the tables and constants
    as they are printed in the pseudo-code of the paper (appendix A).  Words
    are lists of bits, most significant first; the octets of a message word,
    of the length field and of the digest come in the opposite order.
    Independent of the model and of SpecRipemd. *)
From Coq Require Import Arith NArith List Bool.
From Verif Require Import SpecBits.
Import ListNotations.
Open Scope N_scope.

(** The octets of a bit string in reverse order *)
Definition swap_octets (x : bits) : bits := concat (rev (groups 8 x)).

Definition bor : bits -> bits -> bits := zip orb.
Definition rb_f (j : nat) (x y z : bits) : bits :=
  if Nat.ltb j 16 then bxor (bxor x y) z
  else if Nat.ltb j 32 then bor (band x y) (band (bnot x) z)
  else if Nat.ltb j 48 then bxor (bor x (bnot y)) z
  else if Nat.ltb j 64 then bor (band x z) (band y (bnot z))
  else bxor x (bor y (bnot z)).
Definition rb_K (j : nat) : N :=
  if Nat.ltb j 16 then 0x00000000 else if Nat.ltb j 32 then 0x5A827999
  else if Nat.ltb j 48 then 0x6ED9EBA1 else if Nat.ltb j 64 then 0x8F1BBCDC else 0xA953FD4E.
Definition rb_K' (j : nat) : N :=
  if Nat.ltb j 16 then 0x50A28BE6 else if Nat.ltb j 32 then 0x5C4DD124
  else if Nat.ltb j 48 then 0x6D703EF3 else if Nat.ltb j 64 then 0x7A6D76E9 else 0x00000000.

(** Selection of message word *)
Definition rb_r : list nat :=
  [0; 1; 2; 3; 4; 5; 6; 7; 8; 9; 10; 11; 12; 13; 14; 15;
   7; 4; 13; 1; 10; 6; 15; 3; 12; 0; 9; 5; 2; 14; 11; 8;
   3; 10; 14; 4; 9; 15; 8; 1; 2; 7; 0; 6; 13; 11; 5; 12;
   1; 9; 11; 10; 0; 8; 12; 4; 13; 3; 7; 15; 14; 5; 6; 2;
   4; 0; 5; 9; 7; 12; 2; 10; 14; 1; 3; 8; 11; 6; 15; 13]%nat.
Definition rb_r' : list nat :=
  [5; 14; 7; 0; 9; 2; 11; 4; 13; 6; 15; 8; 1; 10; 3; 12;
   6; 11; 3; 7; 0; 13; 5; 10; 14; 15; 8; 12; 4; 9; 1; 2;
   15; 5; 1; 3; 7; 14; 6; 9; 11; 8; 12; 2; 10; 0; 4; 13;
   8; 6; 4; 1; 3; 11; 15; 0; 5; 12; 2; 13; 9; 7; 10; 14;
   12; 15; 10; 4; 1; 5; 8; 7; 6; 2; 13; 14; 0; 3; 9; 11]%nat.
(** Amount for rotate left *)
Definition rb_s : list nat :=
  [11; 14; 15; 12; 5; 8; 7; 9; 11; 13; 14; 15; 6; 7; 9; 8;
   7; 6; 8; 13; 11; 9; 7; 15; 7; 12; 15; 9; 11; 7; 13; 12;
   11; 13; 6; 7; 14; 9; 13; 15; 14; 8; 13; 6; 5; 12; 7; 5;
   11; 12; 14; 15; 14; 15; 9; 8; 9; 14; 5; 6; 8; 6; 5; 12;
   9; 15; 5; 11; 6; 8; 13; 12; 5; 12; 13; 14; 11; 8; 5; 6]%nat.
Definition rb_s' : list nat :=
  [8; 9; 9; 11; 13; 15; 15; 5; 7; 7; 8; 11; 14; 14; 12; 6;
   9; 13; 15; 7; 12; 8; 9; 11; 7; 7; 12; 7; 6; 15; 13; 11;
   9; 7; 15; 11; 8; 6; 6; 14; 12; 13; 5; 14; 13; 13; 7; 5;
   15; 5; 8; 11; 14; 14; 6; 14; 6; 9; 12; 9; 12; 5; 15; 8;
   8; 5; 12; 9; 12; 5; 14; 6; 8; 13; 6; 5; 15; 13; 11; 11]%nat.
Definition rb_h : list N := [0x67452301; 0xEFCDAB89; 0x98BADCFE; 0x10325476; 0xC3D2E1F0].

(** The body of the loop over j, one line:
    T := rol_s(A + f(B,C,D) + X + K) + E; A := E; E := D; D := rol_10(C); C := B; B := T *)
Definition rb_step (f : bits -> bits -> bits -> bits) (X K : bits) (s : nat)
    (v : bits * bits * bits * bits * bits) : bits * bits * bits * bits * bits :=
  let '(A, B, C, D, E) := v in
  let T := badd (brotl s (badd (badd (badd A (f B C D)) X) K)) E in
  (E, T, B, brotl 10 C, D).
Definition rb_left (X : list bits) v (j : nat) :=
  rb_step (rb_f j) (nth (nth j rb_r 0%nat) X []) (repr 32 (rb_K j)) (nth j rb_s 0%nat) v.
Definition rb_right (X : list bits) v (j : nat) :=
  rb_step (rb_f (79 - j)) (nth (nth j rb_r' 0%nat) X []) (repr 32 (rb_K' j)) (nth j rb_s' 0%nat) v.
Definition rb_compress (H : list bits) (block : bits) : list bits :=
  match H with
  | [h0; h1; h2; h3; h4] =>
      let X := map swap_octets (groups 32 block) in
      let '(A, B, C, D, E) := fold_left (rb_left X) (seq 0 80) (h0, h1, h2, h3, h4) in
      let '(A', B', C', D', E') := fold_left (rb_right X) (seq 0 80) (h0, h1, h2, h3, h4) in
      [badd (badd h1 C) D'; badd (badd h2 D) E'; badd (badd h3 E) A'; badd (badd h4 A) B'; badd (badd h0 B) C']
  | _ => H
  end.

(** Padding: as few zero bits as possible, 64 bits of length *)
Definition rip_padded (m p : bits) : Prop :=
  exists k, p = m ++ [true] ++ repeat false k ++ swap_octets (repr 64 (N.of_nat (length m))) /\
    ((length m + 1 + k) mod 512 = 448)%nat /\
    (forall k', ((length m + 1 + k') mod 512 = 448)%nat -> (k <= k')%nat).
Definition rb_hash (p : bits) : bits :=
  concat (map swap_octets (fold_left rb_compress (groups 512 p) (map (repr 32) rb_h))).
Definition paper_rip (m d : bits) : Prop := exists p, rip_padded m p /\ d = rb_hash p.
