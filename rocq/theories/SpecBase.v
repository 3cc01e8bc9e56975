(** Specification vocabulary.  Imports nothing from the model. *)
From Coq Require Import NArith ZArith List Bool.
From Coq Require Import Init.Byte Strings.Byte.
Import ListNotations.
Open Scope N_scope.

(** ** Octets and integers *)

Definition octet (n : N) : byte :=
  match Byte.of_N (n mod 256) with Some b => b | None => x00 end.

(** The integer denoted by an octet string, most significant octet first. *)
Definition be_int (l : list byte) : N := fold_left (fun acc b => 256 * acc + Byte.to_N b) l 0.

(** ... least significant octet first. *)
Definition le_int (l : list byte) : N := be_int (rev l).

(** The [k] low octets of [x], octet number [i] being [x / 256^i mod 256]. *)
Definition le_octets (k : nat) (x : N) : list byte :=
  map (fun i => octet (x / 256 ^ N.of_nat i)) (seq 0 k).
Definition be_octets (k : nat) (x : N) : list byte := rev (le_octets k x).

(** The complete blocks of [n] octets of a string. *)
Definition blocks (n : nat) (l : list byte) : list (list byte) :=
  map (fun i => firstn n (skipn (i * n) l)) (seq 0 (length l / n)).

Definition be_words (n : nat) (block : list byte) : list N := map be_int (blocks n block).
Definition le_words (n : nat) (block : list byte) : list N := map le_int (blocks n block).

(** ** Words of [w] bits (FIPS 180-4, section 3.2) *)

Definition add (w x y : N) : N := (x + y) mod 2 ^ w.
Definition SHR (n x : N) : N := x / 2 ^ n.
Definition ROTR (w n x : N) : N := x / 2 ^ n + (x mod 2 ^ n) * 2 ^ (w - n).
Definition ROTL (w n x : N) : N := ROTR w (w - n) x.
Definition NOT (w x : N) : N := 2 ^ w - 1 - x.

(** [sum w [x1; ..; xn]] modulo 2^w *)
Definition sum (w : N) (l : list N) : N := fold_left (add w) l 0.

(** all words below 2^w *)
Definition bounded (w : N) (l : list N) : Prop := Forall (fun x => x < 2 ^ w) l.

(** ** Integer roots, for the constants *)

(** The largest [r] below [2^bits] with [r^k <= x], by bits from the top. *)
Fixpoint iroot_bits (bits : nat) (k x acc : N) : N :=
  match bits with
  | O => acc
  | S b => let acc' := acc + 2 ^ N.of_nat b in
           iroot_bits b k x (if acc' ^ k <=? x then acc' else acc)
  end.
Definition iroot (k x : N) : N := iroot_bits (S (N.size_nat x)) k x 0.

(** [floor (2^w * k-th root of p)] and its fractional part's first [w] bits *)
Definition scaled_root (w k p : N) : N := iroot k (p * 2 ^ (k * w)).
Definition frac_root (w k p : N) : N := scaled_root w k p mod 2 ^ w.

Definition is_prime (p : N) : bool :=
  (2 <=? p) &&
  forallb (fun d => negb (p mod N.of_nat d =? 0)) (seq 2 (N.to_nat p - 2)).

(** The first [n] primes (for n <= 80; the 80th prime is 409). *)
Definition first_primes (n : nat) : list N :=
  firstn n (filter is_prime (map N.of_nat (seq 2 450))).
