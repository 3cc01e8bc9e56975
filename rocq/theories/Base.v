(** Vocabulary of the model: Rust outcomes, integers, slices.

    Nothing here is a property; these are the meanings given to the Rust
    primitives the crate uses (core library functions and panicking
    operators). *)
From Coq Require Export NArith List Bool.
From Coq Require Export Init.Byte.
From Coq Require Import Strings.Byte.
Export ListNotations.
#[global] Open Scope N_scope.

(** ** Outcomes of a Rust expression *)

Inductive panic_kind : Set :=
| POverflow      (* arithmetic overflow with overflow-checks on *)
| PIndex         (* slice index / range / copy_from_slice length failure *)
| PAssert        (* assert! or debug_assert! *)
| PExpect        (* Option/Result::expect *)
| PUnreachable   (* unreachable! *)
| PUndefined     (* an unchecked (unsafe) access outside its object: UB *)
| POutOfFuel.    (* model artefact: the loop bound of the model was too small *)

Inductive res (A : Type) : Type :=
| Ok (a : A)
| Panic (p : panic_kind).
Arguments Ok {A} _.
Arguments Panic {A} _.

Definition bind {A B} (x : res A) (f : A -> res B) : res B :=
  match x with Ok a => f a | Panic p => Panic p end.

Notation "'let*' x ':=' e 'in' k" := (bind e (fun x => k))
  (at level 200, x pattern, e at level 100, k at level 200).

Definition rmap {A B} (f : A -> B) (x : res A) : res B :=
  match x with Ok a => Ok (f a) | Panic p => Panic p end.

Definition is_ok {A} (x : res A) : bool :=
  match x with Ok _ => true | Panic _ => false end.

(** ** Build configuration

    Everything outside the source text that changes what the code does. *)
Record config : Type := {
  usize_bits : N;          (* target pointer width *)
  overflow_checks : bool;  (* -C overflow-checks *)
  debug_assertions : bool; (* -C debug-assertions *)
  small_hash : bool;       (* cargo feature "small-hash" *)
  sha_ni : bool;           (* std + x86 + sse2, ssse3, sse4.1, sha detected *)
  big_endian : bool        (* target byte order *)
}.

(** Rust targets have 16, 32 or 64 bit pointers. *)
Definition wf_config (c : config) : Prop :=
  usize_bits c = 16 \/ usize_bits c = 32 \/ usize_bits c = 64.

(** ** Bytes and lists *)

Definition bytes := list byte.

Definition len {A} (l : list A) : N := N.of_nat (length l).

(** [x as u8]: truncation. *)
Definition u8 (x : N) : byte :=
  match Byte.of_N (x mod 256) with Some b => b | None => x00 end.

(** [b as u32], [b as u64]. *)
Definition b2n (b : byte) : N := Byte.to_N b.

(** [[x; n]] *)
Definition array {A} (x : A) (n : N) : list A := repeat x (N.to_nat n).

(** [a ^ b] on u8 *)
Definition u8_xor (a b : byte) : byte := u8 (N.lxor (b2n a) (b2n b)).

(** ** Unsigned integers of width [w] *)

Definition wrapping_add (w x y : N) : N := (x + y) mod 2 ^ w.

(** [x.rotate_left(n)], for 0 < n < w. *)
Definition rotate_left (w n x : N) : N :=
  N.lor ((N.shiftl x n) mod 2 ^ w) (N.shiftr x (w - n)).

(** [!x] *)
Definition bit_not (w x : N) : N := N.lxor x (N.ones w).

(** [a + b], [a - b], [a * b] on width [w], panicking or wrapping. *)
Definition checked_add (c : config) (w a b : N) : res N :=
  if a + b <? 2 ^ w then Ok (a + b)
  else if overflow_checks c then Panic POverflow else Ok ((a + b) mod 2 ^ w).

Definition checked_sub (c : config) (w a b : N) : res N :=
  if b <=? a then Ok (a - b)
  else if overflow_checks c then Panic POverflow else Ok (a + 2 ^ w - b).

Definition checked_mul (c : config) (w a b : N) : res N :=
  if a * b <? 2 ^ w then Ok (a * b)
  else if overflow_checks c then Panic POverflow else Ok ((a * b) mod 2 ^ w).

Definition usize_add (c : config) := checked_add c (usize_bits c).
Definition usize_sub (c : config) := checked_sub c (usize_bits c).
Definition usize_mul (c : config) := checked_mul c (usize_bits c).

(** ** Byte order conversions of the core library *)

(** [x.to_le_bytes()] for a [k]-byte integer. *)
Fixpoint to_le_bytes (k : nat) (x : N) : bytes :=
  match k with
  | O => []
  | S k' => u8 x :: to_le_bytes k' (x / 256)
  end.

(** [x.to_be_bytes()] *)
Definition to_be_bytes (k : nat) (x : N) : bytes := rev (to_le_bytes k x).

Fixpoint le_value (l : bytes) : N :=
  match l with
  | [] => 0
  | b :: r => b2n b + 256 * le_value r
  end.

(** [uK::from_le_bytes(sl.try_into().expect("..."))]: the conversion of a
    slice to a [k]-byte array fails unless its length is exactly [k]. *)
Definition from_le_bytes (k : nat) (l : bytes) : res N :=
  if Nat.eqb (length l) k then Ok (le_value l) else Panic PExpect.

(** [uK::from_be_bytes(sl.try_into().expect("..."))] *)
Definition from_be_bytes (k : nat) (l : bytes) : res N :=
  if Nat.eqb (length l) k then Ok (le_value (rev l)) else Panic PExpect.

(** ** Slices *)

(** [&l[..n]] *)
Definition slice_to {A} (n : N) (l : list A) : res (list A) :=
  if n <=? len l then Ok (firstn (N.to_nat n) l) else Panic PIndex.

(** [&l[n..]] *)
Definition slice_from {A} (n : N) (l : list A) : res (list A) :=
  if n <=? len l then Ok (skipn (N.to_nat n) l) else Panic PIndex.

(** [&l[i..j]] *)
Definition slice_range {A} (i j : N) (l : list A) : res (list A) :=
  if (i <=? j) && (j <=? len l)
  then Ok (firstn (N.to_nat (j - i)) (skipn (N.to_nat i) l))
  else Panic PIndex.

(** [l[i]] *)
Definition index {A} (l : list A) (i : N) : res A :=
  match nth_error l (N.to_nat i) with Some x => Ok x | None => Panic PIndex end.

(** [l[i] = x] *)
Definition store {A} (l : list A) (i : N) (x : A) : res (list A) :=
  if i <? len l
  then Ok (firstn (N.to_nat i) l ++ x :: skipn (S (N.to_nat i)) l)
  else Panic PIndex.

(** [dst[i..j].copy_from_slice(src)] *)
Definition copy_range {A} (dst : list A) (i j : N) (src : list A) : res (list A) :=
  if (i <=? j) && (j <=? len dst) then
    if len src =? j - i
    then Ok (firstn (N.to_nat i) dst ++ src ++ skipn (N.to_nat j) dst)
    else Panic PIndex
  else Panic PIndex.

(** [dst.copy_from_slice(src)] *)
Definition copy_from_slice {A} (dst src : list A) : res (list A) :=
  if len src =? len dst then Ok src else Panic PIndex.

(** [l.chunks_exact(n)] (n > 0): the complete chunks of [n] elements. *)
Fixpoint chunks_exact_fuel {A} (fuel : nat) (n : nat) (l : list A) : list (list A) :=
  match fuel with
  | O => []
  | S f => if Nat.ltb (length l) n then []
           else firstn n l :: chunks_exact_fuel f n (skipn n l)
  end.
Definition chunks_exact {A} (n : nat) (l : list A) : list (list A) :=
  chunks_exact_fuel (length l) n l.

(** [for (d, s) in dst.iter_mut().zip(src) { *d = conv(s) }] *)
Fixpoint zip_assign {A B} (dst : list A) (src : list B) (conv : B -> res A) : res (list A) :=
  match dst, src with
  | _ :: ds, s :: ss =>
      let* v := conv s in
      let* r := zip_assign ds ss conv in
      Ok (v :: r)
  | _, _ => Ok dst
  end.

(** [for (v, c) in vals.iter().zip(ret.chunks_exact_mut(n)) { c.copy_from_slice(v) }] *)
Fixpoint zip_copy (vals : list bytes) (n : nat) (ret : bytes) : res bytes :=
  match vals with
  | [] => Ok ret
  | v :: vs =>
      if Nat.ltb (length ret) n then Ok ret
      else
        let* c := copy_from_slice (firstn n ret) v in
        let* r := zip_copy vs n (skipn n ret) in
        Ok (c ++ r)
  end.

(** ** Assertions *)
Definition assert (b : bool) : res unit := if b then Ok tt else Panic PAssert.
Definition debug_assert (c : config) (b : bool) : res unit :=
  if debug_assertions c then assert b else Ok tt.

(** ** Loops

    [for i in start..start+n { body }], and the equivalent [while] loops with
    a counter. *)
Fixpoint for_loop {S} (n : nat) (start : N) (body : N -> S -> res S) (s : S) : res S :=
  match n with
  | O => Ok s
  | Datatypes.S n' => let* s' := body start s in for_loop n' (start + 1) body s'
  end.
