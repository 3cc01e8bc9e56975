(** What the constants of the standards are, as relations: no computation of
    roots, no list of primes. *)
From Coq Require Import NArith ZArith Znumtheory List Sorted Bool.
From Coq Require Import Init.Byte Strings.Byte Strings.String.
From Verif Require Import SpecBase ModelRipemdRound ModelSimd.
From Verif Require SpecRipemd.
Import ListNotations.
Open Scope N_scope.

(** [l] is the list of the first [n] primes, in order. *)
Definition first_n_primes (n : nat) (l : list N) : Prop :=
  List.length l = n /\ StronglySorted N.lt l /\
  (forall p, In p l -> prime (Z.of_N p)) /\
  (forall p q, In p l -> prime (Z.of_N q) -> q < p -> In q l).

(** [x] is the integer part of [2^w] times the [k]-th root of [p]. *)
Definition floor_root (w k p x : N) : Prop := x ^ k <= p * 2 ^ (k * w) /\ p * 2 ^ (k * w) < (x + 1) ^ k.

(** [x] is the first [w] bits of the fractional part of the [k]-th root of [p]. *)
Definition frac_bits (w k p x : N) : Prop := x < 2 ^ w /\ exists i, floor_root w k p (i * 2 ^ w + x).

(** The bytes 01 23 45 67 89 ab cd ef fe dc ba 98 76 54 32 10 f0 e1 d2 c3. *)
Definition counting_bytes : list byte :=
  map octet [0x01; 0x23; 0x45; 0x67; 0x89; 0xab; 0xcd; 0xef; 0xfe; 0xdc; 0xba; 0x98; 0x76; 0x54; 0x32; 0x10;
             0xf0; 0xe1; 0xd2; 0xc3].
Definition sip_text : list byte := list_byte_of_string "somepseudorandomlygeneratedbytes".
Definition sha512_256_name : list byte := list_byte_of_string "SHA-512/256".

(** The constants of the SIMD program, from the low lane to the high one. *)
Definition simd_constants (i : instr) : list N :=
  match i with
  | AddK _ _ hi lo => [lo mod 2 ^ 32; lo / 2 ^ 32; hi mod 2 ^ 32; hi / 2 ^ 32]
  | _ => []
  end.

(** Step [j] of a line of RIPEMD-160 is in round [j / 16], takes the message
    word the permutation of the round gives, and rotates by the shift of that
    word in that round. *)
Definition ripemd_row_is (words : nat -> nat -> nat) (j : nat) (r : ripemd_row) : Prop :=
  rw_round r = S (j / 16) /\ rw_data r = words (j / 16)%nat (j mod 16)%nat /\
  rw_shift r = SpecRipemd.shift (j / 16) (words (j / 16)%nat (j mod 16)%nat).
