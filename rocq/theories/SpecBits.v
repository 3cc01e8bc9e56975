(** FIPS 180-4 read on bit strings: messages, words and digests are lists of
    bits, most significant first.  Integers appear only in the addition modulo
    2^w, in the length field and in the constants.  Independent of the model;
    of the octet-level specifications only the constants are used. *)
From Coq Require Import Arith NArith List Bool.
From Coq Require Import Init.Byte Strings.Byte.
From Verif Require Import SpecBase SpecMD.
From Verif Require SpecSha2 SpecSha1.
Import ListNotations.
Open Scope N_scope.

Definition bits := list bool.

(** Octets and bits *)
Definition octet_bits (b : byte) : bits := map (N.testbit (Byte.to_N b)) [7; 6; 5; 4; 3; 2; 1; 0].
Definition bits_of (l : list byte) : bits := flat_map octet_bits l.

(** 3.1: integers and words *)
Definition num (x : bits) : N := fold_left (fun acc (b : bool) => 2 * acc + (if b then 1 else 0)) x 0.
Fixpoint repr (w : nat) (n : N) : bits :=
  match w with O => [] | S w => N.testbit n (N.of_nat w) :: repr w n end.

(** 3.2: operations on words *)
Definition zip (f : bool -> bool -> bool) (x y : bits) : bits := map (fun p => f (fst p) (snd p)) (combine x y).
Definition bxor : bits -> bits -> bits := zip xorb.
Definition band : bits -> bits -> bits := zip andb.
Definition bnot : bits -> bits := map negb.
Definition badd (x y : bits) : bits := repr (length x) (num x + num y).
(** the last [n] bits move to the front *)
Definition brotr (n : nat) (x : bits) : bits := skipn (length x - n) x ++ firstn (length x - n) x.
(** the first [n] bits move to the end *)
Definition brotl (n : nat) (x : bits) : bits := skipn n x ++ firstn n x.
Definition bshr (n : nat) (x : bits) : bits := repeat false n ++ firstn (length x - n) x.

(** 5.2: parsing *)
Definition groups (n : nat) (l : bits) : list bits :=
  map (fun i => firstn n (skipn (i * n) l)) (seq 0 (length l / n)).

(** 5.1: padding to blocks of [B] bits with a length field of [F] bits *)
Definition fips_padded (B F : nat) (m p : bits) : Prop :=
  exists k, p = m ++ [true] ++ repeat false k ++ repr F (N.of_nat (length m)) /\
    ((length m + 1 + k) mod B = B - F)%nat /\
    (forall k', ((length m + 1 + k') mod B = B - F)%nat -> (k <= k')%nat).

(** 4.1: functions *)
Definition bCh (x y z : bits) : bits := bxor (band x y) (band (bnot x) z).
Definition bMaj (x y z : bits) : bits := bxor (bxor (band x y) (band x z)) (band y z).
Definition bParity (x y z : bits) : bits := bxor (bxor x y) z.

(** SHA-2: word size, rounds, constants, the four sigma functions *)
Record sha2_bits : Type := {
  b_w : nat; b_rounds : nat; b_K : list bits;
  b_S0 : bits -> bits; b_S1 : bits -> bits; b_s0 : bits -> bits; b_s1 : bits -> bits
}.
Definition three (f g h : bits -> bits) (x : bits) : bits := bxor (bxor (f x) (g x)) (h x).
Definition bits256 : sha2_bits := {|
  b_w := 32; b_rounds := 64; b_K := map (repr 32) (SpecSha2.K SpecSha2.params256);
  b_S0 := three (brotr 2) (brotr 13) (brotr 22); b_S1 := three (brotr 6) (brotr 11) (brotr 25);
  b_s0 := three (brotr 7) (brotr 18) (bshr 3); b_s1 := three (brotr 17) (brotr 19) (bshr 10) |}.
Definition bits512 : sha2_bits := {|
  b_w := 64; b_rounds := 80; b_K := map (repr 64) (SpecSha2.K SpecSha2.params512);
  b_S0 := three (brotr 28) (brotr 34) (brotr 39); b_S1 := three (brotr 14) (brotr 18) (brotr 41);
  b_s0 := three (brotr 1) (brotr 8) (bshr 7); b_s1 := three (brotr 19) (brotr 61) (bshr 6) |}.

Section Sha2.
  Context (P : sha2_bits).
  (** 6.2.2 / 6.4.2, step 1 *)
  Definition b_next (W : list bits) : bits :=
    let t := length W in
    badd (badd (badd (b_s1 P (nth (t - 2) W [])) (nth (t - 7) W [])) (b_s0 P (nth (t - 15) W [])))
         (nth (t - 16) W []).
  Fixpoint b_extend (n : nat) (W : list bits) : list bits :=
    match n with O => W | S n => b_extend n (W ++ [b_next W]) end.
  Definition b_schedule (block : bits) : list bits := b_extend (b_rounds P - 16) (groups (b_w P) block).
  (** step 3 *)
  Definition b_round (s : bits * bits * bits * bits * bits * bits * bits * bits) (kw : bits * bits) :=
    let '(a, b, c, d, e, f, g, h) := s in
    let '(k, w) := kw in
    let T1 := badd (badd (badd (badd h (b_S1 P e)) (bCh e f g)) k) w in
    let T2 := badd (b_S0 P a) (bMaj a b c) in
    (badd T1 T2, a, b, c, badd d T1, e, f, g).
  (** steps 2 and 4 *)
  Definition b_compress (H : list bits) (block : bits) : list bits :=
    match H with
    | [a; b; c; d; e; f; g; h] =>
        let '(a', b', c', d', e', f', g', h') :=
          fold_left b_round (combine (b_K P) (b_schedule block)) (a, b, c, d, e, f, g, h) in
        [badd a a'; badd b b'; badd c c'; badd d d'; badd e e'; badd f f'; badd g g'; badd h h']
    | _ => H
    end.
End Sha2.

(** SHA-1 *)
Definition b1_f (t : nat) (x y z : bits) : bits :=
  if Nat.ltb t 20 then bCh x y z
  else if Nat.ltb t 40 then bParity x y z
  else if Nat.ltb t 60 then bMaj x y z
  else bParity x y z.
Definition b1_next (W : list bits) : bits :=
  let t := length W in
  brotl 1 (bxor (bxor (bxor (nth (t - 3) W []) (nth (t - 8) W [])) (nth (t - 14) W [])) (nth (t - 16) W [])).
Fixpoint b1_extend (n : nat) (W : list bits) : list bits :=
  match n with O => W | S n => b1_extend n (W ++ [b1_next W]) end.
Definition b1_round (s : bits * bits * bits * bits * bits) (tw : nat * bits) :=
  let '(a, b, c, d, e) := s in
  let '(t, w) := tw in
  (badd (badd (badd (badd (brotl 5 a) (b1_f t b c d)) e) (repr 32 (SpecSha1.K t))) w, a, brotl 30 b, c, d).
Definition b1_compress (H : list bits) (block : bits) : list bits :=
  match H with
  | [a; b; c; d; e] =>
      let '(a', b', c', d', e') :=
        fold_left b1_round (combine (seq 0 80) (b1_extend 64 (groups 32 block))) (a, b, c, d, e) in
      [badd a a'; badd b b'; badd c c'; badd d d'; badd e e']
  | _ => H
  end.

(** 6.1-6.7: the hash of a padded message; [d] bits of the final value. *)
Definition b_hash (compress : list bits -> bits -> list bits) (B : nat) (iv : list bits) (d : nat) (p : bits) : bits :=
  firstn d (concat (fold_left compress (groups B p) iv)).

Inductive sha : Set := FSha1 | FSha256 | FSha384 | FSha512 | FSha512_256.
Definition sha_algo (s : sha) : algo :=
  match s with FSha1 => Sha1 | FSha256 => Sha256 | FSha384 => Sha384 | FSha512 => Sha512 | FSha512_256 => Sha512_256 end.
Definition b_block (s : sha) : nat := match s with FSha1 | FSha256 => 512 | _ => 1024 end.
Definition b_field (s : sha) : nat := match s with FSha1 | FSha256 => 64 | _ => 128 end.
Definition b_sha (s : sha) (p : bits) : bits :=
  match s with
  | FSha1 => b_hash b1_compress 512 (map (repr 32) SpecSha1.H0) 160 p
  | FSha256 => b_hash (b_compress bits256) 512 (map (repr 32) SpecSha2.H256) 256 p
  | FSha384 => b_hash (b_compress bits512) 1024 (map (repr 64) SpecSha2.H384) 384 p
  | FSha512 => b_hash (b_compress bits512) 1024 (map (repr 64) SpecSha2.H512) 512 p
  | FSha512_256 => b_hash (b_compress bits512) 1024 (map (repr 64) SpecSha2.H512_256) 256 p
  end.
(** The standard's function, as a relation between a message and its digest. *)
Definition fips_sha (s : sha) (m d : bits) : Prop :=
  exists p, fips_padded (b_block s) (b_field s) m p /\ d = b_sha s p.
