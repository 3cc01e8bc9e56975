(** FIPS 180-4: SHA-256, SHA-512, SHA-384, SHA-512/256.
    Independent of the model. *)
From Coq Require Import NArith ZArith List Bool.
From Coq Require Import Init.Byte Strings.Byte String.
From Verif Require Import SpecBase.
Import ListNotations.
Open Scope N_scope.

(** Section 4.1.2, 4.1.3 *)
Definition Ch (w x y z : N) : N := N.lxor (N.land x y) (N.land (NOT w x) z).
Definition Maj (x y z : N) : N := N.lxor (N.lxor (N.land x y) (N.land x z)) (N.land y z).

(** Everything that distinguishes the 32-bit and the 64-bit functions. *)
Record sha2_params : Type := {
  width : N;              (* bits per word *)
  wbytes : nat;           (* bytes per word *)
  rounds : nat;
  S0 : N -> N;            (* capital sigma 0 *)
  S1 : N -> N;
  s0 : N -> N;            (* small sigma 0 *)
  s1 : N -> N;
  K : list N
}.

(** (4.4)-(4.7); section 4.2.2: the first 32 bits of the fractional parts of
    the cube roots of the first 64 primes *)
Definition params256 : sha2_params := {|
  width := 32; wbytes := 4; rounds := 64;
  S0 := fun x => N.lxor (N.lxor (ROTR 32 2 x) (ROTR 32 13 x)) (ROTR 32 22 x);
  S1 := fun x => N.lxor (N.lxor (ROTR 32 6 x) (ROTR 32 11 x)) (ROTR 32 25 x);
  s0 := fun x => N.lxor (N.lxor (ROTR 32 7 x) (ROTR 32 18 x)) (SHR 3 x);
  s1 := fun x => N.lxor (N.lxor (ROTR 32 17 x) (ROTR 32 19 x)) (SHR 10 x);
  K := map (frac_root 32 3) (first_primes 64) |}.

(** (4.10)-(4.13); section 4.2.3: the first 64 bits of the fractional parts of
    the cube roots of the first 80 primes *)
Definition params512 : sha2_params := {|
  width := 64; wbytes := 8; rounds := 80;
  S0 := fun x => N.lxor (N.lxor (ROTR 64 28 x) (ROTR 64 34 x)) (ROTR 64 39 x);
  S1 := fun x => N.lxor (N.lxor (ROTR 64 14 x) (ROTR 64 18 x)) (ROTR 64 41 x);
  s0 := fun x => N.lxor (N.lxor (ROTR 64 1 x) (ROTR 64 8 x)) (SHR 7 x);
  s1 := fun x => N.lxor (N.lxor (ROTR 64 19 x) (ROTR 64 61 x)) (SHR 6 x);
  K := map (frac_root 64 3) (first_primes 80) |}.

Section Sha2.
  Context (P : sha2_params).
  Let w := width P.

  (** 6.2.2 / 6.4.2 step 1: the message schedule; [W] holds W_0 .. W_{t-1}. *)
  Definition next_word (W : list N) : N :=
    let t := List.length W in
    sum w [s1 P (nth (t - 2) W 0); nth (t - 7) W 0; s0 P (nth (t - 15) W 0); nth (t - 16) W 0].
  Fixpoint extend (n : nat) (W : list N) : list N :=
    match n with O => W | S n' => extend n' (W ++ [next_word W]) end.
  Definition schedule (block : list byte) : list N :=
    extend (rounds P - 16) (be_words (wbytes P) block).

  (** Step 3: one round on the working variables a..h *)
  Definition round (s : N * N * N * N * N * N * N * N) (kw : N * N)
      : N * N * N * N * N * N * N * N :=
    let '(a, b, c, d, e, f, g, h) := s in
    let '(k, wt) := kw in
    let T1 := sum w [h; S1 P e; Ch w e f g; k; wt] in
    let T2 := add w (S0 P a) (Maj a b c) in
    (add w T1 T2, a, b, c, add w d T1, e, f, g).

  (** Steps 2-4: the new hash value from the old one and a block. *)
  Definition compress (H : list N) (block : list byte) : list N :=
    match H with
    | [a; b; c; d; e; f; g; h] =>
        let '(a', b', c', d', e', f', g', h') :=
          fold_left round (combine (K P) (schedule block)) (a, b, c, d, e, f, g, h) in
        [add w a a'; add w b b'; add w c c'; add w d d';
         add w e e'; add w f f'; add w g g'; add w h h']
    | _ => H
    end.

  (** Section 5.1: append the bit 1, the least number of zero bits so that the
      length field ends a block, and the length field (twice the word size,
      here with the bit count [bitlen] in it). On octet strings: 0x80, then
      [k] zero octets. *)
  Definition block_bytes : nat := 16 * wbytes P.
  Definition zero_count (n : nat) : nat :=
    Z.to_nat ((Z.of_nat block_bytes - 2 * Z.of_nat (wbytes P) - 1 - Z.of_nat n)
              mod Z.of_nat block_bytes).
  Definition pad_with (bitlen : N) (M : list byte) : list byte :=
    M ++ [x80] ++ repeat x00 (zero_count (List.length M))
      ++ be_octets (2 * wbytes P) bitlen.
  Definition pad (M : list byte) : list byte := pad_with (8 * N.of_nat (List.length M)) M.

  (** Section 6.2.2 / 6.4.2: iterate over the blocks. *)
  Definition iterate (H : list N) (l : list byte) : list N :=
    fold_left compress (blocks block_bytes l) H.
  Definition output (H : list N) : list byte := List.concat (map (be_octets (wbytes P)) H).
  Definition hash_from (H : list N) (M : list byte) : list byte :=
    output (iterate H (pad M)).
End Sha2.

(** Section 5.3: initial values *)
Definition H256 : list N := map (frac_root 32 2) (first_primes 8).
Definition H512 : list N := map (frac_root 64 2) (first_primes 8).
Definition H384 : list N := map (frac_root 64 2) (skipn 8 (first_primes 16)).

(** Section 6.2, 6.4, 6.5 *)
Definition SHA256 (M : list byte) : list byte := hash_from params256 H256 M.
Definition SHA512 (M : list byte) : list byte := hash_from params512 H512 M.
Definition SHA384 (M : list byte) : list byte := firstn 48 (hash_from params512 H384 M).

(** Section 5.3.6: the SHA-512/t IV generation function *)
Definition H512_256 : list N :=
  be_words 8 (hash_from params512
                (map (fun h => N.lxor h 0xa5a5a5a5a5a5a5a5) H512)
                (list_byte_of_string "SHA-512/256")).
Definition SHA512_256 (M : list byte) : list byte := firstn 32 (hash_from params512 H512_256 M).
