(** src/cmp.rs *)
From Verif Require Import Base.

(** What the body of [fixed_time_eq] does, in order, as visible outside the
    registers: element reads of the two slices, volatile accesses of the
    accumulator, and arithmetic. *)
Inductive event : Set :=
| ReadLhs (i : N)      (* lhs[i] *)
| ReadRhs (i : N)      (* rhs[i] *)
| VolatileRead         (* core::ptr::read_volatile(&r) *)
| VolatileWrite        (* core::ptr::write_volatile(&mut r, _) *)
| Xor | Or | Shr (k : N) | And (k : N) | CompareZero.

(** A computation that performs events, ending in a value or a panic. *)
Definition traced (A : Type) : Type := (list event * res A)%type.
Definition tret {A} (a : A) : traced A := ([], Ok a).
Definition tbind {A B} (x : traced A) (f : A -> traced B) : traced B :=
  match x with
  | (l, Ok a) => let (l', r) := f a in (l ++ l', r)
  | (l, Panic p) => (l, Panic p)
  end.
Definition emit (e : event) : traced unit := ([e], Ok tt).
Definition lift {A} (x : res A) : traced A := ([], x).

Notation "'do' x '<-' e ';' k" := (tbind e (fun x => k))
  (at level 200, x pattern, e at level 100, k at level 200).

(** u8 operations *)
Definition u8_or (a b : byte) : byte := u8 (N.lor (b2n a) (b2n b)).
Definition u8_shr (a : byte) (k : N) : byte := u8 (N.shiftr (b2n a) k).

(** The body of the [for] loop, lines 25-29. *)
Definition eq_step (lhs rhs : bytes) (i : N) (r : byte) : traced byte :=
  do _ <- emit VolatileRead;
  do _ <- emit (ReadLhs i);
  do x <- lift (index lhs i);
  do _ <- emit (ReadRhs i);
  do y <- lift (index rhs i);
  do _ <- emit Xor;
  do _ <- emit Or;
  let rs := u8_or r (u8_xor x y) in
  do _ <- emit VolatileWrite;
  tret rs.

(** [for i in 0..count], line 24 *)
Fixpoint eq_loop (n : nat) (i : N) (lhs rhs : bytes) (r : byte) : traced byte :=
  match n with
  | O => tret r
  | S n' => do r' <- eq_step lhs rhs i r; eq_loop n' (i + 1) lhs rhs r'
  end.

(** One of the three folding blocks, lines 31-37, 38-44, 45-51. *)
Definition eq_fold (k : N) (r : byte) : traced byte :=
  do _ <- emit VolatileRead;
  do _ <- emit (Shr k);
  do _ <- emit Or;
  let t := u8_or r (u8_shr r k) in
  do _ <- emit VolatileWrite;
  tret t.

(** fixed_time_eq, src/cmp.rs:17-53 *)
Definition fixed_time_eq (a b : bytes) : traced bool :=
  do _ <- lift (assert (len a =? len b));
  let count := len a in
  do lhs <- lift (slice_to count a);
  do rhs <- lift (slice_to count b);
  do r <- eq_loop (N.to_nat count) 0 lhs rhs x00;
  do r <- eq_fold 4 r;
  do r <- eq_fold 2 r;
  do r <- eq_fold 1 r;
  do _ <- emit VolatileRead;
  do _ <- emit (And 1);
  do _ <- emit CompareZero;
  tret (N.land (b2n r) 1 =? 0).

Definition trace {A} (x : traced A) : list event := fst x.
Definition outcome {A} (x : traced A) : res A := snd x.
