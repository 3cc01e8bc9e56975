(** fixed_time_eq *)
From Coq Require Import NArith Arith List Bool Lia.
From Verif Require Import Base ModelCmp ProofBase.
Import ListNotations.
Open Scope N_scope.

Definition step_events (i : N) : list event :=
  [VolatileRead; ReadLhs i; ReadRhs i; Xor; Or; VolatileWrite].
Definition fold_events (k : N) : list event := [VolatileRead; Shr k; Or; VolatileWrite].
(** The whole trace, for slices of length [n]. *)
Definition eq_events (n : nat) : list event :=
  List.concat (map (fun i => step_events (N.of_nat i)) (seq 0 n)) ++
  fold_events 4 ++ fold_events 2 ++ fold_events 1 ++ [VolatileRead; And 1; CompareZero].

Lemma b2n_u8_or a b : b2n (u8_or a b) = N.lor (b2n a) (b2n b).
Proof.
  unfold u8_or. rewrite b2n_u8. apply N.mod_small.
  assert (Ha := b2n_lt a). assert (Hb := b2n_lt b).
  destruct (N.eq_dec (N.lor (b2n a) (b2n b)) 0) as [->|Hn]; [reflexivity|].
  apply N.log2_lt_pow2 with (b := 8); [lia|]. rewrite N.log2_lor.
  apply N.max_lub_lt.
  - destruct (N.eq_dec (b2n a) 0) as [->|]; [reflexivity|]. apply N.log2_lt_pow2; [lia|exact Ha].
  - destruct (N.eq_dec (b2n b) 0) as [->|]; [reflexivity|]. apply N.log2_lt_pow2; [lia|exact Hb].
Qed.

Lemma b2n_u8_xor a b : b2n (u8_xor a b) = N.lxor (b2n a) (b2n b).
Proof.
  unfold u8_xor. rewrite b2n_u8. apply N.mod_small.
  assert (Ha := b2n_lt a). assert (Hb := b2n_lt b).
  destruct (N.eq_dec (N.lxor (b2n a) (b2n b)) 0) as [->|Hn]; [reflexivity|].
  apply N.log2_lt_pow2 with (b := 8); [lia|]. eapply N.le_lt_trans; [apply N.log2_lxor|].
  apply N.max_lub_lt.
  - destruct (N.eq_dec (b2n a) 0) as [->|]; [reflexivity|]. apply N.log2_lt_pow2; [lia|exact Ha].
  - destruct (N.eq_dec (b2n b) 0) as [->|]; [reflexivity|]. apply N.log2_lt_pow2; [lia|exact Hb].
Qed.

Lemma b2n_inj a b : b2n a = b2n b -> a = b.
Proof. intros E. rewrite <- (u8_b2n a), <- (u8_b2n b). now rewrite E. Qed.

Lemma u8_or_0 a b : u8_or a b = x00 <-> a = x00 /\ b = x00.
Proof.
  split.
  - intros E. apply (f_equal b2n) in E. rewrite b2n_u8_or in E. change (b2n x00) with 0 in E.
    apply N.lor_eq_0_iff in E as [H1 H2]. split; apply b2n_inj; assumption.
  - intros [-> ->]. reflexivity.
Qed.

Lemma u8_xor_0 a b : u8_xor a b = x00 <-> a = b.
Proof.
  split.
  - intros E. apply (f_equal b2n) in E. rewrite b2n_u8_xor in E. change (b2n x00) with 0 in E.
    apply N.lxor_eq in E. now apply b2n_inj.
  - intros ->. apply b2n_inj. rewrite b2n_u8_xor. apply N.lxor_nilpotent.
Qed.

Lemma eq_step_ok lhs rhs i r x y : index lhs i = Ok x -> index rhs i = Ok y ->
  eq_step lhs rhs i r = (step_events i, Ok (u8_or r (u8_xor x y))).
Proof. intros Hx Hy. unfold eq_step, lift. cbn. rewrite Hx. cbn. rewrite Hy. reflexivity. Qed.

Lemma eq_loop_ok n : forall i lhs rhs r, (i + n <= length lhs)%nat -> (i + n <= length rhs)%nat ->
  exists r', eq_loop n (N.of_nat i) lhs rhs r
    = (List.concat (map (fun i => step_events (N.of_nat i)) (seq i n)), Ok r') /\
    (r' = x00 <-> r = x00 /\ firstn n (skipn i lhs) = firstn n (skipn i rhs)).
Proof.
  induction n as [|n IH]; intros i lhs rhs r Hl Hr.
  - exists r. split; [reflexivity|]. cbn. tauto.
  - destruct (nth_error lhs i) as [x|] eqn:Ex; [|apply nth_error_None in Ex; lia].
    destruct (nth_error rhs i) as [y|] eqn:Ey; [|apply nth_error_None in Ey; lia].
    assert (Ix : index lhs (N.of_nat i) = Ok x) by (unfold index; now rewrite Nat2N.id, Ex).
    assert (Iy : index rhs (N.of_nat i) = Ok y) by (unfold index; now rewrite Nat2N.id, Ey).
    destruct (IH (S i) lhs rhs (u8_or r (u8_xor x y))) as (r' & E & Hr'); [lia|lia|].
    exists r'. split.
    + cbn [eq_loop]. rewrite (eq_step_ok _ _ _ _ _ _ Ix Iy). cbn [tbind].
      replace (N.of_nat i + 1) with (N.of_nat (S i)) by lia. rewrite E. reflexivity.
    + rewrite Hr', u8_or_0, u8_xor_0.
      assert (Sx : forall (l : bytes) z, nth_error l i = Some z ->
                firstn (S n) (skipn i l) = z :: firstn n (skipn (S i) l)).
      { intros l z Hz. replace (skipn i l) with (z :: skipn (S i) l); [reflexivity|].
        clear - Hz. revert i Hz. induction l as [|u l IHl]; intros [|i] Hz; try discriminate.
        - cbn in Hz. injection Hz as ->. reflexivity.
        - cbn [skipn]. now rewrite <- (IHl i Hz). }
      rewrite (Sx lhs x Ex), (Sx rhs y Ey). split.
      * intros [[-> ->] ->]. now split.
      * intros [-> E']. split; [split; [reflexivity|congruence]|congruence].
Qed.

Lemma eq_fold_ok k r : eq_fold k r = (fold_events k, Ok (u8_or r (u8_shr r k))).
Proof. reflexivity. Qed.

Lemma fold_bit r :
  let r1 := u8_or r (u8_shr r 4) in
  let r2 := u8_or r1 (u8_shr r1 2) in
  let r3 := u8_or r2 (u8_shr r2 1) in
  (N.land (b2n r3) 1 =? 0) = true <-> r = x00.
Proof. cbv zeta. destruct r; vm_compute; split; congruence. Qed.

Lemma fixed_time_eq_ok a b : length a = length b ->
  exists r, fixed_time_eq a b = (eq_events (length a), Ok r) /\ (r = true <-> a = b).
Proof.
  intros Hl.
  destruct (eq_loop_ok (length a) 0 a b x00 (le_n _)) as (r & E & Hr); [lia|].
  eexists. split.
  - unfold fixed_time_eq, lift. unfold slice_to, len. rewrite <- Hl, N.eqb_refl, N.leb_refl.
    cbn [assert tbind app]. rewrite !Nat2N.id, firstn_all, Hl, firstn_all, <- Hl.
    change 0 with (N.of_nat 0). rewrite E. cbn [tbind].
    rewrite eq_fold_ok. cbn [tbind]. rewrite eq_fold_ok. cbn [tbind]. rewrite eq_fold_ok. cbn [tbind].
    cbn [emit tbind tret app]. unfold eq_events. reflexivity.
  - rewrite fold_bit, Hr. cbn [skipn]. rewrite firstn_all, Hl, firstn_all. tauto.
Qed.

Lemma fixed_time_eq_mismatch a b : length a <> length b -> fixed_time_eq a b = ([], Panic PAssert).
Proof.
  intros Hl. unfold fixed_time_eq, lift. destruct (N.eqb_spec (len a) (len b)) as [E|_]; [|reflexivity].
  unfold len in E. lia.
Qed.

Lemma cmp_decides a b : length a = length b ->
  exists r, outcome (fixed_time_eq a b) = Ok r /\ (r = true <-> a = b).
Proof. intros H. destruct (fixed_time_eq_ok a b H) as (r & -> & Hr). now exists r. Qed.

Lemma cmp_panics a b : is_ok (outcome (fixed_time_eq a b)) = false <-> length a <> length b.
Proof.
  destruct (Nat.eq_dec (length a) (length b)) as [E|Hn].
  - destruct (fixed_time_eq_ok a b E) as (r & -> & _). cbn. split; [discriminate|contradiction].
  - rewrite fixed_time_eq_mismatch by exact Hn. cbn. tauto.
Qed.

Lemma cmp_no_index a b : outcome (fixed_time_eq a b) <> Panic PIndex.
Proof.
  destruct (Nat.eq_dec (length a) (length b)) as [E|Hn].
  - destruct (fixed_time_eq_ok a b E) as (r & -> & _). discriminate.
  - rewrite fixed_time_eq_mismatch by exact Hn. discriminate.
Qed.

Lemma cmp_trace a b a' b' : length a = length a' -> length b = length b' ->
  trace (fixed_time_eq a b) = trace (fixed_time_eq a' b').
Proof.
  intros Ha Hb. destruct (Nat.eq_dec (length a) (length b)) as [E|Hn].
  - destruct (fixed_time_eq_ok a b E) as (r & -> & _).
    destruct (fixed_time_eq_ok a' b') as (r' & -> & _); [congruence|]. cbn. now rewrite Ha.
  - rewrite !fixed_time_eq_mismatch; congruence.
Qed.

(** Every position of both slices is read, in order. *)
Lemma cmp_reads a b i : length a = length b -> (i < length a)%nat ->
  In (ReadLhs (N.of_nat i)) (trace (fixed_time_eq a b)) /\
  In (ReadRhs (N.of_nat i)) (trace (fixed_time_eq a b)).
Proof.
  intros E Hi. destruct (fixed_time_eq_ok a b E) as (r & -> & _). cbn [trace fst].
  assert (H : In (step_events (N.of_nat i)) (map (fun i => step_events (N.of_nat i)) (seq 0 (length a)))).
  { apply in_map_iff. exists i. split; [reflexivity|]. apply in_seq. lia. }
  unfold eq_events. split; apply in_or_app; left; apply in_concat; exists (step_events (N.of_nat i));
    (split; [exact H|cbn; tauto]).
Qed.
