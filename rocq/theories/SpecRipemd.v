(** RIPEMD-160 (Dobbertin, Bosselaers, Preneel 1996). Independent of the model. *)
From Coq Require Import NArith ZArith List Bool.
From Coq Require Import Init.Byte Strings.Byte.
From Verif Require Import SpecBase.
Import ListNotations.
Open Scope N_scope.

(** Nonlinear functions at bit level, round 0..4 *)
Definition f (r : nat) (x y z : N) : N :=
  match r with
  | 0%nat => N.lxor (N.lxor x y) z
  | 1%nat => N.lor (N.land x y) (N.land (NOT 32 x) z)
  | 2%nat => N.lxor (N.lor x (NOT 32 y)) z
  | 3%nat => N.lor (N.land x z) (N.land y (NOT 32 z))
  | _ => N.lxor x (N.lor y (NOT 32 z))
  end.

(** Added constants: integer parts of 2^30 times the square (left line) and
    cube (right line) roots of 2, 3, 5, 7 *)
Definition KL (r : nat) : N :=
  match r with
  | 0%nat => 0
  | 1%nat => scaled_root 30 2 2 | 2%nat => scaled_root 30 2 3
  | 3%nat => scaled_root 30 2 5 | _ => scaled_root 30 2 7
  end.
Definition KR (r : nat) : N :=
  match r with
  | 0%nat => scaled_root 30 3 2 | 1%nat => scaled_root 30 3 3
  | 2%nat => scaled_root 30 3 5 | 3%nat => scaled_root 30 3 7
  | _ => 0
  end.

(** Selection of message word: the permutation rho, and pi(i) = 9i+5 mod 16;
    left line rho^r, right line rho^r after pi *)
Definition rho (i : nat) : nat :=
  nth i [7; 4; 13; 1; 10; 6; 15; 3; 12; 0; 9; 5; 2; 14; 11; 8]%nat 0%nat.
Definition pi (i : nat) : nat := ((9 * i + 5) mod 16)%nat.
Definition rL (r i : nat) : nat := Nat.iter r rho i.
Definition rR (r i : nat) : nat := Nat.iter r rho (pi i).

(** Amounts for rotate left, by round and message word X_0 .. X_15 *)
Definition shift_table : list (list N) :=
  [ [11; 14; 15; 12;  5;  8;  7;  9; 11; 13; 14; 15;  6;  7;  9;  8];
    [12; 13; 11; 15;  6;  9;  9;  7; 12; 15; 11; 13;  7;  8;  7;  7];
    [13; 15; 14; 11;  7;  7;  6;  8; 13; 14; 13; 12;  5;  5;  6;  9];
    [14; 11; 12; 14;  8;  6;  5;  5; 15; 12; 15; 14;  9;  9;  8;  6];
    [15; 12; 13; 13;  9;  5;  8;  6; 14; 11; 12; 11;  8;  6;  5;  5] ].
Definition shift (r word : nat) : N := nth word (nth r shift_table []) 0.

(** One step j (0..79) of a line, given its function, constant and word *)
Definition step (fn : N -> N -> N -> N) (k : N) (x s : N)
    (v : N * N * N * N * N) : N * N * N * N * N :=
  let '(A, B, C, D, E) := v in
  let T := add 32 (ROTL 32 s (sum 32 [A; fn B C D; x; k])) E in
  (E, T, B, ROTL 32 10 C, D).

Definition left_step (X : list N) (v : N * N * N * N * N) (j : nat) : N * N * N * N * N :=
  let r := (j / 16)%nat in
  let word := rL r (j mod 16) in
  step (f r) (KL r) (nth word X 0) (shift r word) v.
Definition right_step (X : list N) (v : N * N * N * N * N) (j : nat) : N * N * N * N * N :=
  let r := (j / 16)%nat in
  let word := rR r (j mod 16) in
  step (f (4 - r)) (KR r) (nth word X 0) (shift r word) v.

Definition compress (H : list N) (block : list byte) : list N :=
  match H with
  | [h0; h1; h2; h3; h4] =>
      let X := le_words 4 block in
      let '(A, B, C, D, E) := fold_left (left_step X) (seq 0 80) (h0, h1, h2, h3, h4) in
      let '(A', B', C', D', E') := fold_left (right_step X) (seq 0 80) (h0, h1, h2, h3, h4) in
      [sum 32 [h1; C; D']; sum 32 [h2; D; E']; sum 32 [h3; E; A'];
       sum 32 [h4; A; B']; sum 32 [h0; B; C']]
  | _ => H
  end.

(** Padding as in MD4: like SHA-1 but the length is little-endian *)
Definition zero_count (n : nat) : nat := Z.to_nat ((55 - Z.of_nat n) mod 64).
Definition pad_with (bitlen : N) (M : list byte) : list byte :=
  M ++ [x80] ++ repeat x00 (zero_count (length M)) ++ le_octets 8 bitlen.
Definition pad (M : list byte) : list byte := pad_with (8 * N.of_nat (length M)) M.

Definition H0 : list N := [0x67452301; 0xefcdab89; 0x98badcfe; 0x10325476; 0xc3d2e1f0].

Definition iterate (H : list N) (l : list byte) : list N := fold_left compress (blocks 64 l) H.
Definition output (H : list N) : list byte := concat (map (le_octets 4) H).
Definition RIPEMD160 (M : list byte) : list byte := output (iterate H0 (pad M)).
