(** Meanings of the constructs that the text written by tools/rs2v.py in its
    trace mode (files Trace*.v) uses besides those of GenBase.v: each records what
    a machine reveals while it runs.  The second component of every definition is
    the construct that does not record. *)
From Verif Require Import Base ModelSimd ModelSip ModelEngine GenBase.

(** What is revealed.  Positions count elements of the array or slice in question;
    which array it is follows from the point of the program that has been reached. *)
Inductive event : Set :=
| EBranch (b : bool)      (* the outcome of a comparison that decides what is executed next *)
| ERead (i n : N)         (* [n] elements read, from position [i] on *)
| EWrite (i n : N)        (* [n] elements written, from position [i] on *)
| ESlice (i j : N)        (* the subslice from [i] to [j] taken *)
| EMul (a b : N)          (* a multiplication, *)
| EDiv (a b : N)          (* a division by something that is not a literal, *)
| EShift (n : N).         (* a shift by something that is not a literal: operations whose
                             time depends on the operands on some machines *)

Definition tm (A : Type) : Type := (list event * res A)%type.
Definition tret {A} (a : A) : tm A := ([], Ok a).
Definition tlift {A} (x : res A) : tm A := ([], x).
Definition tbind {A B} (x : tm A) (f : A -> tm B) : tm B :=
  (fst x ++ match snd x with Ok a => fst (f a) | Panic _ => [] end,
   bind (snd x) (fun a => snd (f a))).
Notation "'let!' x := e 'in' k" := (tbind e (fun x => k))
  (at level 200, x pattern, e at level 100, k at level 200).
Definition record {A} (e : event) (x : res A) : tm A := ([e], x).

(** [if], also as the short-circuiting [&&] and [||] *)
Definition t_if {A} (b : bool) (x y : tm A) : tm A :=
  (EBranch b :: (if b then fst x else fst y), if b then snd x else snd y).
(** [cmp::min(a, b)], as a comparison, src/internal_macros.rs:27 *)
Definition t_min (a b : N) : tm N := record (EBranch (a <=? b)) (Ok (N.min a b)).

Definition t_assert (b : bool) : tm unit := record (EBranch b) (assert b).
Definition t_debug_assert (c : config) (b : bool) : tm unit :=
  (if debug_assertions c then [EBranch b] else [], debug_assert c b).

Definition t_index {A} (l : list A) (i : N) : tm A := record (ERead i 1) (index l i).
Definition t_store {A} (l : list A) (i : N) (x : A) : tm (list A) := record (EWrite i 1) (store l i x).
Definition t_slice_to {A} (n : N) (l : list A) : tm (list A) := record (ESlice 0 n) (slice_to n l).
Definition t_slice_from {A} (n : N) (l : list A) : tm (list A) := record (ESlice n (len l)) (slice_from n l).
Definition t_slice_range {A} (i j : N) (l : list A) : tm (list A) := record (ESlice i j) (slice_range i j l).
(** [dst.copy_from_slice(src)] compares the lengths, then copies *)
Definition t_copy_from_slice {A} (dst src : list A) : tm (list A) :=
  ([EBranch (len dst =? len src); ERead 0 (len src); EWrite 0 (len src)], copy_from_slice dst src).
Definition t_load_native (c : config) (k : nat) (buf : bytes) (i : N) : tm N :=
  record (ERead i (N.of_nat k)) (load_native c k buf i).
Definition t_get_unchecked (l : bytes) (i : N) : tm byte := record (ERead i 1) (get_unchecked l i).
Definition t_load_m128_words (l : list N) (off : N) : tm m128 := record (ERead off 4) (load_m128_words l off).
Definition t_load_m128_bytes (l : bytes) (off : N) : tm m128 := record (ERead off 16) (load_m128_bytes l off).
Definition t_store_m128_words (l : list N) (off : N) (v : m128) : tm (list N) :=
  record (EWrite off 4) (store_m128_words l off v).

Definition t_usize_mul (c : config) (a b : N) : tm N := record (EMul a b) (usize_mul c a b).
Definition t_checked_mul (c : config) (w a b : N) : tm N := record (EMul a b) (checked_mul c w a b).
Definition t_checked_div (a b : N) : tm N := record (EDiv a b) (checked_div a b).
Definition t_checked_rem (a b : N) : tm N := record (EDiv a b) (checked_rem a b).
Definition t_checked_shl (c : config) (w x n : N) : tm N := record (EShift n) (checked_shl c w x n).
Definition t_checked_shr (c : config) (w x n : N) : tm N := record (EShift n) (checked_shr c w x n).

(** The loops: [EBranch true] before every round, [EBranch false] at the end. *)
Fixpoint for_trace {S} (n : nat) (start : N) (body : N -> S -> tm S) (s : S) : list event :=
  match n with
  | O => [EBranch false]
  | Datatypes.S n' =>
      EBranch true :: fst (body start s) ++
      match snd (body start s) with Ok s' => for_trace n' (start + 1) body s' | Panic _ => [] end
  end.
Definition t_for_loop {S} (n : nat) (start : N) (body : N -> S -> tm S) (s : S) : tm S :=
  (for_trace n start body s, for_loop n start (fun i s => snd (body i s)) s).

Fixpoint each_trace {A S} (xs : list A) (body : A -> S -> tm S) (s : S) : list event :=
  match xs with
  | [] => [EBranch false]
  | x :: xs =>
      EBranch true :: fst (body x s) ++
      match snd (body x s) with Ok s' => each_trace xs body s' | Panic _ => [] end
  end.
Definition t_for_each {A S} (xs : list A) (body : A -> S -> tm S) (s : S) : tm S :=
  (each_trace xs body s, for_each xs (fun x s => snd (body x s)) s).

Fixpoint enum_trace {A S} (xs : list A) (i : N) (body : N -> A -> S -> tm S) (s : S) : list event :=
  match xs with
  | [] => [EBranch false]
  | x :: xs =>
      EBranch true :: ERead i 1 :: fst (body i x s) ++
      match snd (body i x s) with Ok s' => enum_trace xs (i + 1) body s' | Panic _ => [] end
  end.
Definition t_for_enum {A S} (xs : list A) (i : N) (body : N -> A -> S -> tm S) (s : S) : tm S :=
  (enum_trace xs i body s, for_enum xs i (fun i x s => snd (body i x s)) s).

(** Every element that is visited is read, and the first of each pair written. *)
Fixpoint zip_trace {A B} (i : N) (dst : list A) (src : list B) (body : A -> B -> tm A) : list event :=
  match dst, src with
  | d :: ds, s :: ss =>
      EBranch true :: ERead i 1 :: ERead i 1 :: fst (body d s) ++
      match snd (body d s) with
      | Ok _ => EWrite i 1 :: zip_trace (i + 1) ds ss body
      | Panic _ => []
      end
  | _, _ => [EBranch false]
  end.
Definition t_zip_iter_mut {A B} (dst : list A) (src : list B) (body : A -> B -> tm A) : tm (list A) :=
  (zip_trace 0 dst src body, zip_iter_mut dst src (fun d s => snd (body d s))).

Fixpoint chunks_trace {A B} (i : N) (xs : list A) (n : N) (ret : list B)
    (body : A -> list B -> tm (list B)) : list event :=
  match xs with
  | [] => [EBranch false]
  | x :: xs =>
      if len ret <? n then [EBranch false]
      else
        EBranch true :: ERead i 1 :: fst (body x (firstn (N.to_nat n) ret)) ++
        match snd (body x (firstn (N.to_nat n) ret)) with
        | Ok _ => chunks_trace (i + 1) xs n (skipn (N.to_nat n) ret) body
        | Panic _ => []
        end
  end.
Definition t_zip_chunks_mut {A B} (xs : list A) (n : N) (ret : list B)
    (body : A -> list B -> tm (list B)) : tm (list B) :=
  (chunks_trace 0 xs n ret body, zip_chunks_mut xs n ret (fun x c => snd (body x c))).

(** An implementation of the trait [HashEngine] (src/lib.rs:137-193) that records;
    [n_bytes_hashed] reads one field. *)
Record tengine (E : HashEngine) : Type := mk_tengine {
  te_default : tm (he_state E);
  te_input : he_state E -> bytes -> tm (he_state E);
  te_finalize : he_state E -> tm bytes;
  te_midstate : he_state E -> tm (he_mid E);
  te_from_midstate : he_mid E -> N -> tm (he_state E)
}.
Arguments te_default {E}.
Arguments te_input {E}.
Arguments te_finalize {E}.
Arguments te_midstate {E}.
Arguments te_from_midstate {E}.
