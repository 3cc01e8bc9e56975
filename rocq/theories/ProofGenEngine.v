(** What the engine-level proofs on the generated text share: values of the
    struct types stay values of the struct types. *)
From Coq Require Import Arith Lia.
From Verif Require Import Base ModelEngine ModelSha2Round TablesSha2 ModelSha256 ModelSha512 ModelSha1 ModelRipemd
  ModelAll SpecMD SpecBits GenBase SpecGen ProofBase ProofMD ProofGenBase.

Lemma Ok_inj {A} (x y : A) : Ok x = Ok y -> x = y.
Proof. now injection 1. Qed.

Definition block_n (a : algo) : N := N.of_nat (md_block (md_of a)).

Lemma typed_inv a e : typed a e <-> inv (block_n a) (good_h (md_of a)) e.
Proof.
  unfold typed, inv, block_n, len. split; intros [H1 H2]; (split; [lia|exact H2]).
Qed.

Lemma pb_typed c a e e' : len (e_buffer e) = block_n a -> good_h (md_of a) (e_h e) -> block_fn c a e = Ok e' ->
  len (e_buffer e') = block_n a /\ good_h (md_of a) (e_h e').
Proof.
  intros Hb Hh. rewrite block_fn_ok; [|unfold len, block_n in Hb; lia|exact Hh].
  intros E. apply Ok_inj in E. subst e'. cbn [e_buffer e_h]. split; [exact Hb|].
  apply (mo_compress _ (md_of_ok a)). exact Hh.
Qed.

Lemma input_typed c a e d e' : typed a e -> engine_input c (block_n a) (block_fn c a) e d = Ok e' -> typed a e'.
Proof.
  intros H E. apply typed_inv. apply typed_inv in H.
  exact (engine_input_inv c (block_n a) (block_fn c a) (good_h (md_of a)) (pb_typed c a) e d e' H E).
Qed.

Lemma from_midstate_typed a chunk conv m n e :
  (forall b x, conv b = Ok x -> x < 2 ^ (8 * N.of_nat (md_wbytes (md_of a)))) ->
  from_midstate_bytes (block_n a) chunk (N.of_nat (md_nwords (md_of a))) conv m n = Ok e -> typed a e.
Proof.
  intros Hc. unfold from_midstate_bytes. destruct (assert _); [|discriminate]. cbn [bind].
  destruct (zip_assign _ _ _) as [ws|] eqn:E; [|discriminate]. cbn [bind]. intros E2. apply Ok_inj in E2. subst e.
  split; cbn [e_buffer e_h].
  - unfold array, block_n. rewrite repeat_length. lia.
  - assert (Hz : Forall (fun x => x < 2 ^ (8 * N.of_nat (md_wbytes (md_of a)))) (array 0 (N.of_nat (md_nwords (md_of a))))).
    { unfold array. apply Forall_forall. intros x Hx. apply repeat_spec in Hx. subst x.
      apply N.neq_0_lt_0. apply N.pow_nonzero. discriminate. }
    assert (Hl : length (array 0 (N.of_nat (md_nwords (md_of a)))) = md_nwords (md_of a))
      by (unfold array; rewrite repeat_length; lia).
    unfold good_h. rewrite <- Hl. clear Hl. revert Hz E.
    generalize (array 0 (N.of_nat (md_nwords (md_of a)))). generalize (chunks_exact chunk m).
    intros ch dst. revert ch ws. induction dst as [|x dst IH]; intros [|b ch] r Hz; cbn [zip_assign].
    1-3: intros E; apply Ok_inj in E. 1-3: subst r; split; [reflexivity|exact Hz].
    destruct (conv b) eqn:Eb; [|discriminate]. cbn [bind].
    destruct (zip_assign dst ch conv) eqn:Ez; [|discriminate]. cbn [bind].
    intros E; apply Ok_inj in E; subst r. inversion Hz; subst.
    destruct (IH _ _ H2 Ez) as [Hl Hb]. split; [cbn [length]; now f_equal|].
    constructor; [exact (Hc _ _ Eb)|exact Hb].
Qed.

Lemma be_lt k b x : from_be_bytes k b = Ok x -> x < 2 ^ (8 * N.of_nat k).
Proof.
  unfold from_be_bytes. destruct (Nat.eqb_spec (length b) k) as [<-|]; [|discriminate].
  intros E. apply Ok_inj in E. subst x. rewrite <- rev_length. apply le_value_lt.
Qed.

Ltac default_typed :=
  split; [reflexivity|split; [reflexivity|]]; unfold SpecBase.bounded; cbn [e_h];
  repeat (constructor; [reflexivity|]); constructor.

(** On well typed states [input] has one panic: the overflow of the counter. *)
Lemma step_panics c a e inp : wf_config c -> typed a e -> inp <> [] ->
  match input_step c (block_n a) (block_fn c a) e inp with
  | Ok (e', rest) => typed a e' /\ (length rest < length inp)%nat
  | Panic p => p = POverflow
  end.
Proof.
  intros WF T Hne. pose proof T as [Hb Hh]. unfold input_step.
  assert (HB : block_n a = 64 \/ block_n a = 128) by (unfold block_n; destruct a; cbn; auto).
  assert (HW : 256 < 2 ^ usize_bits c) by (destruct WF as [-> | [-> | ->]]; reflexivity).
  assert (Hm : e_length e mod block_n a < block_n a) by (apply N.mod_lt; lia).
  revert Hm. generalize (e_length e mod block_n a). intros i Hi.
  assert (Hlen : len inp <> 0) by (destruct inp; [now elim Hne|unfold len; cbn [length]; lia]).
  unfold usize_sub, checked_sub. destruct (N.leb_spec i (block_n a)); [|lia]. cbn [bind].
  set (w := N.min (block_n a - i) (len inp)).
  assert (Hw : 0 < w /\ i + w <= block_n a /\ w <= len inp) by (subst w; lia).
  unfold usize_add at 1. unfold checked_add at 1. destruct (N.ltb_spec (i + w) (2 ^ usize_bits c)); [|lia]. cbn [bind].
  unfold slice_to. destruct (N.leb_spec w (len inp)); [|lia]. cbn [bind].
  assert (Hl : len (firstn (N.to_nat w) inp) = w) by (unfold len in *; rewrite firstn_length; lia).
  assert (Hbl : len (e_buffer e) = block_n a) by (unfold len, block_n; lia).
  destruct (copy_range (e_buffer e) i (i + w) (firstn (N.to_nat w) inp)) as [buf|p] eqn:Ec.
  2:{ unfold copy_range in Ec. destruct (N.leb_spec i (i + w)); [|lia].
      destruct (N.leb_spec (i + w) (len (e_buffer e))); [|lia]. cbn [andb] in Ec.
      rewrite Hl in Ec. destruct (N.eqb_spec w (i + w - i)); [discriminate|lia]. }
  apply copy_range_len in Ec. cbn [bind].
  destruct (usize_add c (e_length e) w) as [l|p] eqn:El.
  2:{ unfold usize_add, checked_add in El. destruct (_ <? _) in El; [discriminate|].
      destruct (overflow_checks c) in El; [|discriminate]. cbn [bind]. congruence. }
  cbn [bind].
  assert (T1 : typed a (mk_engine buf (e_h e) l)).
  { split; cbn [e_buffer e_h]; [|exact Hh]. unfold len, block_n in *. lia. }
  assert (T2 : exists e2, (if l mod block_n a =? 0 then block_fn c a (mk_engine buf (e_h e) l) else Ok (mk_engine buf (e_h e) l)) = Ok e2
             /\ typed a e2).
  { destruct (_ =? _); [|eexists; split; [reflexivity|exact T1]].
    destruct T1 as [T1 T1']. rewrite block_fn_ok by assumption. eexists. split; [reflexivity|].
    split; [exact T1|]. apply (mo_compress _ (md_of_ok a)). exact T1'. }
  destruct T2 as (e2 & -> & T2). cbn [bind].
  unfold slice_from. destruct (N.leb_spec w (len inp)); [|lia]. cbn [bind]. split; [exact T2|].
  rewrite skipn_length. unfold len in *. lia.
Qed.

Lemma input_panics c a e d p : wf_config c -> typed a e ->
  engine_input c (block_n a) (block_fn c a) e d = Panic p -> p = POverflow.
Proof.
  intros WF. unfold engine_input. assert (Hf : (length d <= length d)%nat) by lia. revert Hf.
  generalize (length d) at 2 3. intros f. revert e d. induction f as [|f IH]; intros e d Hf T.
  - destruct d; [discriminate|cbn [length] in Hf; lia].
  - destruct d as [|b d]; [discriminate|]. cbn [input_loop].
    assert (H := step_panics c a e (b :: d) WF T ltac:(discriminate)).
    destruct input_step as [[e' rest]|q]; cbn [bind]; [|congruence].
    destruct H as [T' Hl]. apply IH; [cbn [length] in *; lia|exact T'].
Qed.

Lemma mul_panics c w x y p : checked_mul c w x y = Panic p -> p = POverflow.
Proof.
  unfold checked_mul. destruct (_ <? _); [discriminate|]. destruct (overflow_checks c); [|discriminate].
  congruence.
Qed.

(** Two steps that can only fail in one way can be exchanged. *)
Lemma bind_swap {A B C} (x : res A) (y : res B) (k : A -> B -> res C) q :
  (forall p, x = Panic p -> p = q) -> (forall p, y = Panic p -> p = q) ->
  (let* a := x in let* b := y in k a b) = (let* b := y in let* a := x in k a b).
Proof.
  intros Hx Hy. destruct x as [a|p], y as [b|p']; cbn [bind]; try reflexivity.
  - rewrite (Hx p), (Hy p') by reflexivity. reflexivity.
Qed.
