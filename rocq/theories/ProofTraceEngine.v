(** Proofs about the traced engines with a buffer (C76). *)
From Coq Require Import Lia.
From Verif Require Import Base SpecBase SpecMD ModelEngine ModelAll ModelStore SpecStore SpecMore SpecGen
  GenBase GenSha1 GenSha256 GenSha512 GenSha384 GenRipemd
  TraceBase TraceSha1 TraceSha256 TraceSha512 TraceSha384 TraceRipemd SpecTrace
  ProofBase ProofMD ProofGenBase ProofGenEngine ProofGenMac ProofGenProgram ProofTraceBase ProofTraceBlock ProofTraceConst.
From Verif Require ProofLeak.
Open Scope N_scope.

(** ** Erasure *)

#[export] Hint Resolve er_sha1 er_ripemd er_sha256 er_sha512_soft : erase.

Lemma er_sha1_loop fuel : forall c e d, snd (t_sha1_Engine_input_loop1 fuel c e d) = g_sha1_Engine_input_loop1 fuel c e d.
Proof. induction fuel as [|f IH]; intros c e d; cbn [t_sha1_Engine_input_loop1 g_sha1_Engine_input_loop1]; er. Qed.
#[export] Hint Resolve er_sha1_loop : erase.
Lemma er_sha1_input c e d : snd (t_sha1_Engine_input c e d) = g_sha1_Engine_input c e d.
Proof. er_def t_sha1_Engine_input g_sha1_Engine_input. Qed.
#[export] Hint Resolve er_sha1_input : erase.
Lemma er_sha1_midstate e : snd (t_sha1_Engine_midstate e) = g_sha1_Engine_midstate e.
Proof. er_def t_sha1_Engine_midstate g_sha1_Engine_midstate. Qed.
#[export] Hint Resolve er_sha1_midstate : erase.
Lemma er_sha1_finalize c e : snd (t_sha1_Engine_finalize c e) = g_sha1_Engine_finalize c e.
Proof. er_def t_sha1_Engine_finalize g_sha1_Engine_finalize. Qed.
#[export] Hint Resolve er_sha1_finalize : erase.
Lemma er_sha1_from m n : snd (t_sha1_Engine_from_midstate m n) = g_sha1_Engine_from_midstate m n.
Proof. er_def t_sha1_Engine_from_midstate g_sha1_Engine_from_midstate. Qed.
#[export] Hint Resolve er_sha1_from : erase.

Lemma er_sha256_loop fuel : forall c e d, snd (t_sha256_Engine_input_loop1 fuel c e d) = g_sha256_Engine_input_loop1 fuel c e d.
Proof. induction fuel as [|f IH]; intros c e d; cbn [t_sha256_Engine_input_loop1 g_sha256_Engine_input_loop1]; er. Qed.
#[export] Hint Resolve er_sha256_loop : erase.
Lemma er_sha256_input c e d : snd (t_sha256_Engine_input c e d) = g_sha256_Engine_input c e d.
Proof. er_def t_sha256_Engine_input g_sha256_Engine_input. Qed.
#[export] Hint Resolve er_sha256_input : erase.
Lemma er_sha256_midstate e : snd (t_sha256_Engine_midstate e) = g_sha256_Engine_midstate e.
Proof. er_def t_sha256_Engine_midstate g_sha256_Engine_midstate. Qed.
#[export] Hint Resolve er_sha256_midstate : erase.
Lemma er_sha256_finalize c e : snd (t_sha256_Engine_finalize c e) = g_sha256_Engine_finalize c e.
Proof. er_def t_sha256_Engine_finalize g_sha256_Engine_finalize. Qed.
#[export] Hint Resolve er_sha256_finalize : erase.
Lemma er_sha256_from m n : snd (t_sha256_Engine_from_midstate_trait m n) = g_sha256_Engine_from_midstate_trait m n.
Proof. er_def t_sha256_Engine_from_midstate_trait g_sha256_Engine_from_midstate_trait. Qed.
#[export] Hint Resolve er_sha256_from : erase.

Lemma er_sha512_loop fuel : forall c e d, snd (t_sha512_Engine_input_loop1 fuel c e d) = g_sha512_Engine_input_loop1 fuel c e d.
Proof. induction fuel as [|f IH]; intros c e d; cbn [t_sha512_Engine_input_loop1 g_sha512_Engine_input_loop1]; er. Qed.
#[export] Hint Resolve er_sha512_loop : erase.
Lemma er_sha512_input c e d : snd (t_sha512_Engine_input c e d) = g_sha512_Engine_input c e d.
Proof. er_def t_sha512_Engine_input g_sha512_Engine_input. Qed.
#[export] Hint Resolve er_sha512_input : erase.
Lemma er_sha512_midstate e : snd (t_sha512_Engine_midstate e) = g_sha512_Engine_midstate e.
Proof. er_def t_sha512_Engine_midstate g_sha512_Engine_midstate. Qed.
#[export] Hint Resolve er_sha512_midstate : erase.
Lemma er_sha512_finalize c e : snd (t_sha512_Engine_finalize c e) = g_sha512_Engine_finalize c e.
Proof. er_def t_sha512_Engine_finalize g_sha512_Engine_finalize. Qed.
#[export] Hint Resolve er_sha512_finalize : erase.
Lemma er_sha512_from m n : snd (t_sha512_Engine_from_midstate m n) = g_sha512_Engine_from_midstate m n.
Proof. er_def t_sha512_Engine_from_midstate g_sha512_Engine_from_midstate. Qed.
#[export] Hint Resolve er_sha512_from : erase.

Lemma er_ripemd160_loop fuel : forall c e d, snd (t_ripemd160_Engine_input_loop1 fuel c e d) = g_ripemd160_Engine_input_loop1 fuel c e d.
Proof. induction fuel as [|f IH]; intros c e d; cbn [t_ripemd160_Engine_input_loop1 g_ripemd160_Engine_input_loop1]; er. Qed.
#[export] Hint Resolve er_ripemd160_loop : erase.
Lemma er_ripemd160_input c e d : snd (t_ripemd160_Engine_input c e d) = g_ripemd160_Engine_input c e d.
Proof. er_def t_ripemd160_Engine_input g_ripemd160_Engine_input. Qed.
#[export] Hint Resolve er_ripemd160_input : erase.
Lemma er_ripemd160_midstate e : snd (t_ripemd160_Engine_midstate e) = g_ripemd160_Engine_midstate e.
Proof. er_def t_ripemd160_Engine_midstate g_ripemd160_Engine_midstate. Qed.
#[export] Hint Resolve er_ripemd160_midstate : erase.
Lemma er_ripemd160_finalize c e : snd (t_ripemd160_Engine_finalize c e) = g_ripemd160_Engine_finalize c e.
Proof. er_def t_ripemd160_Engine_finalize g_ripemd160_Engine_finalize. Qed.
#[export] Hint Resolve er_ripemd160_finalize : erase.
Lemma er_ripemd160_from m n : snd (t_ripemd160_Engine_from_midstate m n) = g_ripemd160_Engine_from_midstate m n.
Proof. er_def t_ripemd160_Engine_from_midstate g_ripemd160_Engine_from_midstate. Qed.
#[export] Hint Resolve er_ripemd160_from : erase.
Lemma er_sha384_input c e d : snd (t_sha384_Engine_input c e d) = g_sha384_Engine_input c e d.
Proof. er_def t_sha384_Engine_input g_sha384_Engine_input. Qed.
#[export] Hint Resolve er_sha384_input : erase.
Lemma er_sha384_finalize c e : snd (t_sha384_Engine_finalize c e) = g_sha384_Engine_finalize c e.
Proof. er_def t_sha384_Engine_finalize g_sha384_Engine_finalize. Qed.
#[export] Hint Resolve er_sha384_finalize : erase.
Lemma er_sha384_midstate e : snd (t_sha384_Engine_midstate e) = g_sha384_Engine_midstate e.
Proof. er_def t_sha384_Engine_midstate g_sha384_Engine_midstate. Qed.
#[export] Hint Resolve er_sha384_midstate : erase.
Lemma er_sha384_from_midstate m n : snd (t_sha384_Engine_from_midstate m n) = g_sha384_Engine_from_midstate m n.
Proof. er_def t_sha384_Engine_from_midstate g_sha384_Engine_from_midstate. Qed.
#[export] Hint Resolve er_sha384_from_midstate : erase.
Lemma er_sha512_256_input c e d : snd (t_sha512_256_Engine_input c e d) = g_sha512_256_Engine_input c e d.
Proof. er_def t_sha512_256_Engine_input g_sha512_256_Engine_input. Qed.
#[export] Hint Resolve er_sha512_256_input : erase.
Lemma er_sha512_256_finalize c e : snd (t_sha512_256_Engine_finalize c e) = g_sha512_256_Engine_finalize c e.
Proof. er_def t_sha512_256_Engine_finalize g_sha512_256_Engine_finalize. Qed.
#[export] Hint Resolve er_sha512_256_finalize : erase.
Lemma er_sha512_256_midstate e : snd (t_sha512_256_Engine_midstate e) = g_sha512_256_Engine_midstate e.
Proof. er_def t_sha512_256_Engine_midstate g_sha512_256_Engine_midstate. Qed.
#[export] Hint Resolve er_sha512_256_midstate : erase.
Lemma er_sha512_256_from_midstate m n : snd (t_sha512_256_Engine_from_midstate m n) = g_sha512_256_Engine_from_midstate m n.
Proof. er_def t_sha512_256_Engine_from_midstate g_sha512_256_Engine_from_midstate. Qed.
#[export] Hint Resolve er_sha512_256_from_midstate : erase.

(** A tracing engine that computes what the engine does. *)
Record erases {E} (L : tengine E) : Prop := {
  ers_default : snd (te_default L) = he_default E;
  ers_input : forall s d, snd (te_input L s d) = he_input E s d;
  ers_finalize : forall s, snd (te_finalize L s) = he_finalize E s;
  ers_midstate : forall s, snd (te_midstate L s) = he_midstate E s;
  ers_from : forall m n, snd (te_from_midstate L m n) = he_from_midstate E m n
}.
Lemma algo_erases c a : erases (trace_engine c a).
Proof.
  destruct a; split; intros; cbn [trace_engine gen_engine t_sha1_Engine_dict t_sha256_Engine_dict t_sha384_Engine_dict
    t_sha512_Engine_dict t_sha512_256_Engine_dict t_ripemd160_Engine_dict
    g_sha1_Engine_dict g_sha256_Engine_dict g_sha384_Engine_dict
    g_sha512_Engine_dict g_sha512_256_Engine_dict g_ripemd160_Engine_dict
    te_default te_input te_finalize te_midstate te_from_midstate
    he_default he_input he_finalize he_midstate he_from_midstate he_state he_mid]; try solve [auto with erase nocore]; try reflexivity.
  - apply er_sha1_finalize.
  - apply er_sha256_finalize.
  - apply er_sha384_finalize.
  - apply er_sha512_finalize.
  - apply er_sha512_256_finalize.
  - apply er_ripemd160_finalize.
Qed.

(** ** Two runs *)

Notation lo := ProofLeak.lo.

Lemma lo_typed a e e' : lo a e e' <-> e_length e = e_length e' /\ typed a e /\ typed a e'.
Proof. unfold ProofLeak.lo, ProofLeak.both_len, typed. tauto. Qed.

Lemma block_trace c a e e' : wf_config c ->
  length (e_buffer e) = md_block (md_of a) -> length (e_h e) = md_nwords (md_of a) ->
  length (e_buffer e') = md_block (md_of a) -> length (e_h e') = md_nwords (md_of a) ->
  fst (trace_block c a e) = fst (trace_block c a e').
Proof.
  intros WF Hb Hh Hb' Hh'. destruct a; cbn in Hb, Hb', Hh, Hh'; cbn [trace_block].
  - rewrite (sha1_const c e), (sha1_const c e') by assumption. reflexivity.
  - rewrite (sha256_const c e), (sha256_const c e') by assumption. reflexivity.
  - rewrite (sha512_const c e), (sha512_const c e') by assumption. reflexivity.
  - rewrite (sha512_const c e), (sha512_const c e') by assumption. reflexivity.
  - rewrite (sha512_const c e), (sha512_const c e') by assumption. reflexivity.
  - rewrite (ripemd_const c e), (ripemd_const c e') by assumption. reflexivity.
Qed.

Lemma block_rel c a e e' : wf_config c -> lo a e e' -> same_trace (lo a) (trace_block c a e) (trace_block c a e').
Proof.
  intros WF H. pose proof (proj1 (lo_typed a e e') H) as (Hl & T & T'). pose proof T as [Hb Hh]. pose proof T' as [Hb' Hh'].
  split.
  - exact (block_trace c a e e' WF Hb (proj1 Hh) Hb' (proj1 Hh')).
  - replace (snd (trace_block c a e)) with (gen_block c a e)
      by (symmetry; destruct a; [apply er_sha1|apply er_sha256|apply er_sha512_soft|apply er_sha512_soft|apply er_sha512_soft|apply er_ripemd]).
    replace (snd (trace_block c a e')) with (gen_block c a e')
      by (symmetry; destruct a; [apply er_sha1|apply er_sha256|apply er_sha512_soft|apply er_sha512_soft|apply er_sha512_soft|apply er_ripemd]).
    rewrite !gen_block_compress by assumption. cbn [res_rel]. apply lo_typed. unfold typed. cbn [e_length e_buffer e_h].
    repeat split; auto; apply (mo_compress _ (md_of_ok a)); assumption.
Qed.

Lemma splice_length A i j (l x : list A) : i <= j <= len l -> len x = j - i -> length (splice i j l x) = length l.
Proof. intros H Hx. unfold splice, len in *. rewrite !app_length, firstn_length, skipn_length. lia. Qed.

Ltac st := eapply st_bind; [apply st_refl; congruence|intros ? ? <-].


Lemma sha1_loop_rel c fuel : wf_config c -> forall e e' d d', lo Sha1 e e' -> same_length d d' ->
  same_trace (fun p q => lo Sha1 (fst p) (fst q) /\ same_length (snd p) (snd q))
    (t_sha1_Engine_input_loop1 fuel c e d) (t_sha1_Engine_input_loop1 fuel c e' d').
Proof.
  intros WF. induction fuel as [|f IH]; intros e e' d d' He Hd; cbn [t_sha1_Engine_input_loop1];
    rewrite <- (same_length_len _ _ _ Hd); (apply st_if; intros _; [|apply st_ret; split; assumption]).
  - now apply st_lift.
  - pose proof (proj1 (lo_typed Sha1 e e') He) as (Hl & T & T').
    cbv zeta. cbn [e_length e_buffer e_h]. rewrite <- Hl.
    st. st. st.
    eapply st_bind; [apply slice_range_rel; unfold same_length; rewrite (proj1 T), (proj1 T'); reflexivity
                    |intros b b' (Hij & Hb & Hb')].
    eapply st_bind; [apply slice_to_rel; exact Hd|intros s s' Hs].
    eapply st_bind; [apply copy_rel; [congruence|exact Hs]|intros x x' [Hx Hx']].
    eapply st_bind; [apply st_refl; congruence|intros n ? <-].
    eapply (st_bind _ _ (lo Sha1)).
    + apply st_if; intros _; [apply (block_rel _ Sha1); [exact WF|]|apply st_ret];
        (apply lo_typed; destruct T as [T1 T2], T' as [T1' T2']; split; [reflexivity|];
         split; (split; cbn [e_buffer e_h]; [rewrite splice_length; [assumption|unfold len in *; lia|congruence]|assumption])).
    + intros e2 e2' H2. eapply st_bind; [apply slice_from_rel; exact Hd|intros r r' Hr]. now apply IH.
Qed.
Lemma sha1_input_rel c e e' d d' : wf_config c -> lo Sha1 e e' -> same_length d d' ->
  same_trace (lo Sha1) (t_sha1_Engine_input c e d) (t_sha1_Engine_input c e' d').
Proof.
  intros WF He Hd. unfold t_sha1_Engine_input. pose proof Hd as Hd'. unfold same_length in Hd'. rewrite Hd'.
  eapply st_bind; [apply sha1_loop_rel; eassumption|]. intros [e1 r] [e1' r'] [H _]. now apply st_ret.
Qed.

Lemma sha256_loop_rel c fuel : wf_config c -> forall e e' d d', lo Sha256 e e' -> same_length d d' ->
  same_trace (fun p q => lo Sha256 (fst p) (fst q) /\ same_length (snd p) (snd q))
    (t_sha256_Engine_input_loop1 fuel c e d) (t_sha256_Engine_input_loop1 fuel c e' d').
Proof.
  intros WF. induction fuel as [|f IH]; intros e e' d d' He Hd; cbn [t_sha256_Engine_input_loop1];
    rewrite <- (same_length_len _ _ _ Hd); (apply st_if; intros _; [|apply st_ret; split; assumption]).
  - now apply st_lift.
  - pose proof (proj1 (lo_typed Sha256 e e') He) as (Hl & T & T').
    cbv zeta. cbn [e_length e_buffer e_h]. rewrite <- Hl.
    st. st. st.
    eapply st_bind; [apply slice_range_rel; unfold same_length; rewrite (proj1 T), (proj1 T'); reflexivity
                    |intros b b' (Hij & Hb & Hb')].
    eapply st_bind; [apply slice_to_rel; exact Hd|intros s s' Hs].
    eapply st_bind; [apply copy_rel; [congruence|exact Hs]|intros x x' [Hx Hx']].
    eapply st_bind; [apply st_refl; congruence|intros n ? <-].
    eapply (st_bind _ _ (lo Sha256)).
    + apply st_if; intros _; [apply (block_rel _ Sha256); [exact WF|]|apply st_ret];
        (apply lo_typed; destruct T as [T1 T2], T' as [T1' T2']; split; [reflexivity|];
         split; (split; cbn [e_buffer e_h]; [rewrite splice_length; [assumption|unfold len in *; lia|congruence]|assumption])).
    + intros e2 e2' H2. eapply st_bind; [apply slice_from_rel; exact Hd|intros r r' Hr]. now apply IH.
Qed.
Lemma sha256_input_rel c e e' d d' : wf_config c -> lo Sha256 e e' -> same_length d d' ->
  same_trace (lo Sha256) (t_sha256_Engine_input c e d) (t_sha256_Engine_input c e' d').
Proof.
  intros WF He Hd. unfold t_sha256_Engine_input. pose proof Hd as Hd'. unfold same_length in Hd'. rewrite Hd'.
  eapply st_bind; [apply sha256_loop_rel; eassumption|]. intros [e1 r] [e1' r'] [H _]. now apply st_ret.
Qed.

Lemma sha512_loop_rel c fuel : wf_config c -> forall e e' d d', lo Sha512 e e' -> same_length d d' ->
  same_trace (fun p q => lo Sha512 (fst p) (fst q) /\ same_length (snd p) (snd q))
    (t_sha512_Engine_input_loop1 fuel c e d) (t_sha512_Engine_input_loop1 fuel c e' d').
Proof.
  intros WF. induction fuel as [|f IH]; intros e e' d d' He Hd; cbn [t_sha512_Engine_input_loop1];
    rewrite <- (same_length_len _ _ _ Hd); (apply st_if; intros _; [|apply st_ret; split; assumption]).
  - now apply st_lift.
  - pose proof (proj1 (lo_typed Sha512 e e') He) as (Hl & T & T').
    cbv zeta. cbn [e_length e_buffer e_h]. rewrite <- Hl.
    st. st. st.
    eapply st_bind; [apply slice_range_rel; unfold same_length; rewrite (proj1 T), (proj1 T'); reflexivity
                    |intros b b' (Hij & Hb & Hb')].
    eapply st_bind; [apply slice_to_rel; exact Hd|intros s s' Hs].
    eapply st_bind; [apply copy_rel; [congruence|exact Hs]|intros x x' [Hx Hx']].
    eapply st_bind; [apply st_refl; congruence|intros n ? <-].
    eapply (st_bind _ _ (lo Sha512)).
    + apply st_if; intros _; [apply (block_rel _ Sha512); [exact WF|]|apply st_ret];
        (apply lo_typed; destruct T as [T1 T2], T' as [T1' T2']; split; [reflexivity|];
         split; (split; cbn [e_buffer e_h]; [rewrite splice_length; [assumption|unfold len in *; lia|congruence]|assumption])).
    + intros e2 e2' H2. eapply st_bind; [apply slice_from_rel; exact Hd|intros r r' Hr]. now apply IH.
Qed.
Lemma sha512_input_rel c e e' d d' : wf_config c -> lo Sha512 e e' -> same_length d d' ->
  same_trace (lo Sha512) (t_sha512_Engine_input c e d) (t_sha512_Engine_input c e' d').
Proof.
  intros WF He Hd. unfold t_sha512_Engine_input. pose proof Hd as Hd'. unfold same_length in Hd'. rewrite Hd'.
  eapply st_bind; [apply sha512_loop_rel; eassumption|]. intros [e1 r] [e1' r'] [H _]. now apply st_ret.
Qed.

Lemma sha384_loop_rel c fuel : wf_config c -> forall e e' d d', lo Sha384 e e' -> same_length d d' ->
  same_trace (fun p q => lo Sha384 (fst p) (fst q) /\ same_length (snd p) (snd q))
    (t_sha512_Engine_input_loop1 fuel c e d) (t_sha512_Engine_input_loop1 fuel c e' d').
Proof.
  intros WF. induction fuel as [|f IH]; intros e e' d d' He Hd; cbn [t_sha512_Engine_input_loop1];
    rewrite <- (same_length_len _ _ _ Hd); (apply st_if; intros _; [|apply st_ret; split; assumption]).
  - now apply st_lift.
  - pose proof (proj1 (lo_typed Sha384 e e') He) as (Hl & T & T').
    cbv zeta. cbn [e_length e_buffer e_h]. rewrite <- Hl.
    st. st. st.
    eapply st_bind; [apply slice_range_rel; unfold same_length; rewrite (proj1 T), (proj1 T'); reflexivity
                    |intros b b' (Hij & Hb & Hb')].
    eapply st_bind; [apply slice_to_rel; exact Hd|intros s s' Hs].
    eapply st_bind; [apply copy_rel; [congruence|exact Hs]|intros x x' [Hx Hx']].
    eapply st_bind; [apply st_refl; congruence|intros n ? <-].
    eapply (st_bind _ _ (lo Sha384)).
    + apply st_if; intros _; [apply (block_rel _ Sha384); [exact WF|]|apply st_ret];
        (apply lo_typed; destruct T as [T1 T2], T' as [T1' T2']; split; [reflexivity|];
         split; (split; cbn [e_buffer e_h]; [rewrite splice_length; [assumption|unfold len in *; lia|congruence]|assumption])).
    + intros e2 e2' H2. eapply st_bind; [apply slice_from_rel; exact Hd|intros r r' Hr]. now apply IH.
Qed.
Lemma sha384_input_rel c e e' d d' : wf_config c -> lo Sha384 e e' -> same_length d d' ->
  same_trace (lo Sha384) (t_sha512_Engine_input c e d) (t_sha512_Engine_input c e' d').
Proof.
  intros WF He Hd. unfold t_sha512_Engine_input. pose proof Hd as Hd'. unfold same_length in Hd'. rewrite Hd'.
  eapply st_bind; [apply sha384_loop_rel; eassumption|]. intros [e1 r] [e1' r'] [H _]. now apply st_ret.
Qed.

Lemma sha512_256_loop_rel c fuel : wf_config c -> forall e e' d d', lo Sha512_256 e e' -> same_length d d' ->
  same_trace (fun p q => lo Sha512_256 (fst p) (fst q) /\ same_length (snd p) (snd q))
    (t_sha512_Engine_input_loop1 fuel c e d) (t_sha512_Engine_input_loop1 fuel c e' d').
Proof.
  intros WF. induction fuel as [|f IH]; intros e e' d d' He Hd; cbn [t_sha512_Engine_input_loop1];
    rewrite <- (same_length_len _ _ _ Hd); (apply st_if; intros _; [|apply st_ret; split; assumption]).
  - now apply st_lift.
  - pose proof (proj1 (lo_typed Sha512_256 e e') He) as (Hl & T & T').
    cbv zeta. cbn [e_length e_buffer e_h]. rewrite <- Hl.
    st. st. st.
    eapply st_bind; [apply slice_range_rel; unfold same_length; rewrite (proj1 T), (proj1 T'); reflexivity
                    |intros b b' (Hij & Hb & Hb')].
    eapply st_bind; [apply slice_to_rel; exact Hd|intros s s' Hs].
    eapply st_bind; [apply copy_rel; [congruence|exact Hs]|intros x x' [Hx Hx']].
    eapply st_bind; [apply st_refl; congruence|intros n ? <-].
    eapply (st_bind _ _ (lo Sha512_256)).
    + apply st_if; intros _; [apply (block_rel _ Sha512_256); [exact WF|]|apply st_ret];
        (apply lo_typed; destruct T as [T1 T2], T' as [T1' T2']; split; [reflexivity|];
         split; (split; cbn [e_buffer e_h]; [rewrite splice_length; [assumption|unfold len in *; lia|congruence]|assumption])).
    + intros e2 e2' H2. eapply st_bind; [apply slice_from_rel; exact Hd|intros r r' Hr]. now apply IH.
Qed.
Lemma sha512_256_input_rel c e e' d d' : wf_config c -> lo Sha512_256 e e' -> same_length d d' ->
  same_trace (lo Sha512_256) (t_sha512_Engine_input c e d) (t_sha512_Engine_input c e' d').
Proof.
  intros WF He Hd. unfold t_sha512_Engine_input. pose proof Hd as Hd'. unfold same_length in Hd'. rewrite Hd'.
  eapply st_bind; [apply sha512_256_loop_rel; eassumption|]. intros [e1 r] [e1' r'] [H _]. now apply st_ret.
Qed.

Lemma ripemd160_loop_rel c fuel : wf_config c -> forall e e' d d', lo Ripemd160 e e' -> same_length d d' ->
  same_trace (fun p q => lo Ripemd160 (fst p) (fst q) /\ same_length (snd p) (snd q))
    (t_ripemd160_Engine_input_loop1 fuel c e d) (t_ripemd160_Engine_input_loop1 fuel c e' d').
Proof.
  intros WF. induction fuel as [|f IH]; intros e e' d d' He Hd; cbn [t_ripemd160_Engine_input_loop1];
    rewrite <- (same_length_len _ _ _ Hd); (apply st_if; intros _; [|apply st_ret; split; assumption]).
  - now apply st_lift.
  - pose proof (proj1 (lo_typed Ripemd160 e e') He) as (Hl & T & T').
    cbv zeta. cbn [e_length e_buffer e_h]. rewrite <- Hl.
    st. st. st.
    eapply st_bind; [apply slice_range_rel; unfold same_length; rewrite (proj1 T), (proj1 T'); reflexivity
                    |intros b b' (Hij & Hb & Hb')].
    eapply st_bind; [apply slice_to_rel; exact Hd|intros s s' Hs].
    eapply st_bind; [apply copy_rel; [congruence|exact Hs]|intros x x' [Hx Hx']].
    eapply st_bind; [apply st_refl; congruence|intros n ? <-].
    eapply (st_bind _ _ (lo Ripemd160)).
    + apply st_if; intros _; [apply (block_rel _ Ripemd160); [exact WF|]|apply st_ret];
        (apply lo_typed; destruct T as [T1 T2], T' as [T1' T2']; split; [reflexivity|];
         split; (split; cbn [e_buffer e_h]; [rewrite splice_length; [assumption|unfold len in *; lia|congruence]|assumption])).
    + intros e2 e2' H2. eapply st_bind; [apply slice_from_rel; exact Hd|intros r r' Hr]. now apply IH.
Qed.
Lemma ripemd160_input_rel c e e' d d' : wf_config c -> lo Ripemd160 e e' -> same_length d d' ->
  same_trace (lo Ripemd160) (t_ripemd160_Engine_input c e d) (t_ripemd160_Engine_input c e' d').
Proof.
  intros WF He Hd. unfold t_ripemd160_Engine_input. pose proof Hd as Hd'. unfold same_length in Hd'. rewrite Hd'.
  eapply st_bind; [apply ripemd160_loop_rel; eassumption|]. intros [e1 r] [e1' r'] [H _]. now apply st_ret.
Qed.

(** ** midstate, finalize, from_midstate *)

Lemma st_and A (R : A -> A -> Prop) (P Q : A -> Prop) (x y : tm A) : same_trace R x y ->
  (forall a, snd x = Ok a -> P a) -> (forall a, snd y = Ok a -> Q a) -> same_trace (fun a b => R a b /\ P a /\ Q b) x y.
Proof.
  intros [H1 H2] HP HQ. split; [exact H1|]. destruct (snd x), (snd y); cbn [res_rel] in *; auto.
Qed.
Lemma st_weaken A (R S : A -> A -> Prop) (x y : tm A) : (forall a b, R a b -> S a b) -> same_trace R x y -> same_trace S x y.
Proof. intros H [H1 H2]. split; [exact H1|]. destruct (snd x), (snd y); cbn [res_rel] in *; auto. Qed.

Lemma chunks_fuel_rel k fuel : forall m m' : bytes, same_length m m' ->
  Forall2 same_length (chunks_exact_fuel fuel k m) (chunks_exact_fuel fuel k m').
Proof.
  unfold same_length. induction fuel as [|f IH]; intros m m' H; cbn [chunks_exact_fuel]; [constructor|]. rewrite H.
  destruct (Nat.ltb _ _); constructor; [unfold same_length; rewrite !firstn_length; congruence|].
  apply IH. rewrite !skipn_length. congruence.
Qed.
Lemma chunks_exact_rel k (m m' : bytes) : same_length m m' -> Forall2 same_length (chunks_exact k m) (chunks_exact k m').
Proof. intros H. unfold chunks_exact. pose proof H as H'. unfold same_length in H'. rewrite H'. now apply chunks_fuel_rel. Qed.
Lemma be_rel k (b b' : bytes) : same_length b b' -> res_rel any (from_be_bytes k b) (from_be_bytes k b').
Proof. intros H. unfold from_be_bytes. rewrite H. destruct (Nat.eqb _ _); [exact I|reflexivity]. Qed.

Lemma midstate_copy k (f : N -> bytes) : (forall x, length (f x) = k) -> forall (x x' : N) (c c' : bytes), same_length c c' ->
  same_trace same_length (t_copy_from_slice c (f x)) (t_copy_from_slice c' (f x')).
Proof.
  intros Hf x x' c c' H. eapply st_weaken; [|apply copy_rel; [now apply same_length_len|unfold same_length; congruence]].
  intros a b [Ha Hb]. unfold same_length, len in *. lia.
Qed.
Lemma be_len k x : length (to_be_bytes k x) = k.
Proof. apply length_to_be_bytes. Qed.
Lemma le_len k x : length (to_le_bytes k x) = k.
Proof. apply length_to_le_bytes. Qed.
Lemma to_byte_array_rel x y : same_length x y -> same_trace same_length (tret (g_sha256_Midstate_to_byte_array x)) (tret (g_sha256_Midstate_to_byte_array y)).
Proof. intros H. now apply st_ret. Qed.

Lemma sha1_midstate_rel e e' : lo Sha1 e e' -> same_trace same_length (t_sha1_Engine_midstate e) (t_sha1_Engine_midstate e').
Proof.
  intros H. apply lo_typed in H. destruct H as (_ & [_ [H _]] & [_ [H' _]]). unfold t_sha1_Engine_midstate. cbv zeta.
  apply chunks_rel; [|unfold same_length; congruence|reflexivity].
  apply (midstate_copy 4 (to_be_bytes 4)). intros. apply be_len.
Qed.
Lemma sha1_finalize_rel c e e' : wf_config c -> lo Sha1 e e' ->
  same_trace same_length (t_sha1_Engine_finalize c e) (t_sha1_Engine_finalize c e').
Proof.
  intros WF He. unfold t_sha1_Engine_finalize. cbv zeta. destruct He as [Hl He']. rewrite <- Hl.
  assert (He : lo Sha1 e e') by (now split). clear He'.
  eapply st_bind; [apply sha1_input_rel; [exact WF|exact He|reflexivity]|intros e1 e1' [L1 H1]].
  rewrite <- L1. assert (G1 : lo Sha1 e1 e1') by (now split).
  eapply (st_bind _ _ (lo Sha1)).
  { apply st_if; intros _; [apply sha1_input_rel; [exact WF|exact G1|reflexivity]|now apply st_ret]. }
  intros e2 e2' [L2 H2]. rewrite <- L2. assert (G2 : lo Sha1 e2 e2') by (now split).
  st. st. eapply st_bind; [apply sha1_input_rel; [exact WF|exact G2|reflexivity]|intros e3 e3' [L3 H3]].
  rewrite <- L3. assert (G3 : lo Sha1 e3 e3') by (now split).
  st. 
  st. eapply st_bind; [apply sha1_input_rel; [exact WF|exact G3|reflexivity]|intros e4 e4' [L4 H4]].
  rewrite <- L4. assert (G4 : lo Sha1 e4 e4') by (now split).
  st. now apply sha1_midstate_rel.
Qed.
Lemma sha1_from_typed c m n e : wf_config c -> g_sha1_Engine_from_midstate m n = Ok e -> typed Sha1 e.
Proof.
  intros WF He. pose proof (ag_from _ _ _ _ _ (engines_agree c Sha1 WF) m m n eq_refl) as T.
  change (he_from_midstate (gen_engine c Sha1) m n) with (g_sha1_Engine_from_midstate m n) in T. rewrite He in T.
  destruct (he_from_midstate (algo_engine c Sha1) m n); [exact (proj2 T)|contradiction].
Qed.
Lemma sha1_from_rel c m m' n : wf_config c -> same_length m m' ->
  same_trace (lo Sha1) (t_sha1_Engine_from_midstate m n) (t_sha1_Engine_from_midstate m' n).
Proof.
  intros WF H.
  enough (same_trace (fun e e' => e_length e = e_length e') (t_sha1_Engine_from_midstate m n) (t_sha1_Engine_from_midstate m' n)) as G.
  { eapply st_weaken; [|eapply st_and; [exact G| |]].
    - intros e e' H'. apply lo_typed. exact H'.
    - rewrite er_sha1_from. intros e. now apply (sha1_from_typed c).
    - rewrite er_sha1_from. intros e. now apply (sha1_from_typed c). }
  unfold t_sha1_Engine_from_midstate. cbv zeta. st.
  eapply st_bind; [apply zip_rel with (P := same_length); [|reflexivity|now apply chunks_exact_rel]|].
  - intros d s d' s' Hs. eapply st_bind; [apply st_lift, be_rel, Hs|]. intros x x' _. now apply st_ret.
  - intros r r' _. now apply st_ret.
Qed.

Lemma sha256_midstate_rel e e' : lo Sha256 e e' -> same_trace same_length (t_sha256_Engine_midstate e) (t_sha256_Engine_midstate e').
Proof.
  intros H. apply lo_typed in H. destruct H as (_ & [_ [H _]] & [_ [H' _]]). unfold t_sha256_Engine_midstate. cbv zeta.
  apply chunks_rel; [|unfold same_length; congruence|reflexivity].
  apply (midstate_copy 4 (to_be_bytes 4)). intros. apply be_len.
Qed.
Lemma sha256_finalize_rel c e e' : wf_config c -> lo Sha256 e e' ->
  same_trace same_length (t_sha256_Engine_finalize c e) (t_sha256_Engine_finalize c e').
Proof.
  intros WF He. unfold t_sha256_Engine_finalize. cbv zeta. destruct He as [Hl He']. rewrite <- Hl.
  assert (He : lo Sha256 e e') by (now split). clear He'.
  eapply st_bind; [apply sha256_input_rel; [exact WF|exact He|reflexivity]|intros e1 e1' [L1 H1]].
  rewrite <- L1. assert (G1 : lo Sha256 e1 e1') by (now split).
  eapply (st_bind _ _ (lo Sha256)).
  { apply st_if; intros _; [apply sha256_input_rel; [exact WF|exact G1|reflexivity]|now apply st_ret]. }
  intros e2 e2' [L2 H2]. rewrite <- L2. assert (G2 : lo Sha256 e2 e2') by (now split).
  st. st. eapply st_bind; [apply sha256_input_rel; [exact WF|exact G2|reflexivity]|intros e3 e3' [L3 H3]].
  rewrite <- L3. assert (G3 : lo Sha256 e3 e3') by (now split).
  st. 
  st. eapply st_bind; [apply sha256_input_rel; [exact WF|exact G3|reflexivity]|intros e4 e4' [L4 H4]].
  rewrite <- L4. assert (G4 : lo Sha256 e4 e4') by (now split).
  st. eapply st_bind; [apply sha256_midstate_rel, G4|]. apply to_byte_array_rel.
Qed.
Lemma sha256_from_typed c m n e : wf_config c -> g_sha256_Engine_from_midstate_trait m n = Ok e -> typed Sha256 e.
Proof.
  intros WF He. pose proof (ag_from _ _ _ _ _ (engines_agree c Sha256 WF) m m n eq_refl) as T.
  change (he_from_midstate (gen_engine c Sha256) m n) with (g_sha256_Engine_from_midstate_trait m n) in T. rewrite He in T.
  destruct (he_from_midstate (algo_engine c Sha256) m n); [exact (proj2 T)|contradiction].
Qed.
Lemma sha256_from_rel c m m' n : wf_config c -> same_length m m' ->
  same_trace (lo Sha256) (t_sha256_Engine_from_midstate_trait m n) (t_sha256_Engine_from_midstate_trait m' n).
Proof.
  intros WF H.
  enough (same_trace (fun e e' => e_length e = e_length e') (t_sha256_Engine_from_midstate_trait m n) (t_sha256_Engine_from_midstate_trait m' n)) as G.
  { eapply st_weaken; [|eapply st_and; [exact G| |]].
    - intros e e' H'. apply lo_typed. exact H'.
    - rewrite er_sha256_from. intros e. now apply (sha256_from_typed c).
    - rewrite er_sha256_from. intros e. now apply (sha256_from_typed c). }
  unfold t_sha256_Engine_from_midstate_trait. cbv zeta. st.
  eapply st_bind; [apply zip_rel with (P := same_length); [|reflexivity|now apply chunks_exact_rel]|].
  - intros d s d' s' Hs. eapply st_bind; [apply st_lift, be_rel, Hs|]. intros x x' _. now apply st_ret.
  - intros r r' _. now apply st_ret.
Qed.

Lemma sha512_midstate_rel e e' : lo Sha512 e e' -> same_trace same_length (t_sha512_Engine_midstate e) (t_sha512_Engine_midstate e').
Proof.
  intros H. apply lo_typed in H. destruct H as (_ & [_ [H _]] & [_ [H' _]]). unfold t_sha512_Engine_midstate. cbv zeta.
  apply chunks_rel; [|unfold same_length; congruence|reflexivity].
  apply (midstate_copy 8 (to_be_bytes 8)). intros. apply be_len.
Qed.
Lemma sha512_finalize_rel c e e' : wf_config c -> lo Sha512 e e' ->
  same_trace same_length (t_sha512_Engine_finalize c e) (t_sha512_Engine_finalize c e').
Proof.
  intros WF He. unfold t_sha512_Engine_finalize. cbv zeta. destruct He as [Hl He']. rewrite <- Hl.
  assert (He : lo Sha512 e e') by (now split). clear He'.
  eapply st_bind; [apply sha512_input_rel; [exact WF|exact He|reflexivity]|intros e1 e1' [L1 H1]].
  rewrite <- L1. assert (G1 : lo Sha512 e1 e1') by (now split).
  eapply (st_bind _ _ (lo Sha512)).
  { apply st_if; intros _; [apply sha512_input_rel; [exact WF|exact G1|reflexivity]|now apply st_ret]. }
  intros e2 e2' [L2 H2]. rewrite <- L2. assert (G2 : lo Sha512 e2 e2') by (now split).
  st. st. eapply st_bind; [apply sha512_input_rel; [exact WF|exact G2|reflexivity]|intros e3 e3' [L3 H3]].
  rewrite <- L3. assert (G3 : lo Sha512 e3 e3') by (now split).
  st. eapply st_bind; [apply sha512_input_rel; [exact WF|exact G3|reflexivity]|clear e3 e3' L3 H3 G3; intros e3 e3' G3].
  st. eapply st_bind; [apply sha512_input_rel; [exact WF|exact G3|reflexivity]|intros e4 e4' [L4 H4]].
  rewrite <- L4. assert (G4 : lo Sha512 e4 e4') by (now split).
  st. now apply sha512_midstate_rel.
Qed.
Lemma sha512_from_typed c m n e : wf_config c -> g_sha512_Engine_from_midstate m n = Ok e -> typed Sha512 e.
Proof.
  intros WF He. pose proof (ag_from _ _ _ _ _ (engines_agree c Sha512 WF) m m n eq_refl) as T.
  change (he_from_midstate (gen_engine c Sha512) m n) with (g_sha512_Engine_from_midstate m n) in T. rewrite He in T.
  destruct (he_from_midstate (algo_engine c Sha512) m n); [exact (proj2 T)|contradiction].
Qed.
Lemma sha512_from_rel c m m' n : wf_config c -> same_length m m' ->
  same_trace (lo Sha512) (t_sha512_Engine_from_midstate m n) (t_sha512_Engine_from_midstate m' n).
Proof.
  intros WF H.
  enough (same_trace (fun e e' => e_length e = e_length e') (t_sha512_Engine_from_midstate m n) (t_sha512_Engine_from_midstate m' n)) as G.
  { eapply st_weaken; [|eapply st_and; [exact G| |]].
    - intros e e' H'. apply lo_typed. exact H'.
    - rewrite er_sha512_from. intros e. now apply (sha512_from_typed c).
    - rewrite er_sha512_from. intros e. now apply (sha512_from_typed c). }
  unfold t_sha512_Engine_from_midstate. cbv zeta. st.
  eapply st_bind; [apply zip_rel with (P := same_length); [|reflexivity|now apply chunks_exact_rel]|].
  - intros d s d' s' Hs. eapply st_bind; [apply st_lift, be_rel, Hs|]. intros x x' _. now apply st_ret.
  - intros r r' _. now apply st_ret.
Qed.

Lemma sha384_midstate_rel e e' : lo Sha384 e e' -> same_trace same_length (t_sha512_Engine_midstate e) (t_sha512_Engine_midstate e').
Proof.
  intros H. apply lo_typed in H. destruct H as (_ & [_ [H _]] & [_ [H' _]]). unfold t_sha512_Engine_midstate. cbv zeta.
  apply chunks_rel; [|unfold same_length; congruence|reflexivity].
  apply (midstate_copy 8 (to_be_bytes 8)). intros. apply be_len.
Qed.
Lemma sha384_finalize_rel c e e' : wf_config c -> lo Sha384 e e' ->
  same_trace same_length (t_sha512_Engine_finalize c e) (t_sha512_Engine_finalize c e').
Proof.
  intros WF He. unfold t_sha512_Engine_finalize. cbv zeta. destruct He as [Hl He']. rewrite <- Hl.
  assert (He : lo Sha384 e e') by (now split). clear He'.
  eapply st_bind; [apply sha384_input_rel; [exact WF|exact He|reflexivity]|intros e1 e1' [L1 H1]].
  rewrite <- L1. assert (G1 : lo Sha384 e1 e1') by (now split).
  eapply (st_bind _ _ (lo Sha384)).
  { apply st_if; intros _; [apply sha384_input_rel; [exact WF|exact G1|reflexivity]|now apply st_ret]. }
  intros e2 e2' [L2 H2]. rewrite <- L2. assert (G2 : lo Sha384 e2 e2') by (now split).
  st. st. eapply st_bind; [apply sha384_input_rel; [exact WF|exact G2|reflexivity]|intros e3 e3' [L3 H3]].
  rewrite <- L3. assert (G3 : lo Sha384 e3 e3') by (now split).
  st. eapply st_bind; [apply sha384_input_rel; [exact WF|exact G3|reflexivity]|clear e3 e3' L3 H3 G3; intros e3 e3' G3].
  st. eapply st_bind; [apply sha384_input_rel; [exact WF|exact G3|reflexivity]|intros e4 e4' [L4 H4]].
  rewrite <- L4. assert (G4 : lo Sha384 e4 e4') by (now split).
  st. now apply sha384_midstate_rel.
Qed.
Lemma sha384_from_typed c m n e : wf_config c -> g_sha512_Engine_from_midstate m n = Ok e -> typed Sha384 e.
Proof.
  intros WF He. pose proof (ag_from _ _ _ _ _ (engines_agree c Sha384 WF) m m n eq_refl) as T.
  change (he_from_midstate (gen_engine c Sha384) m n) with (g_sha512_Engine_from_midstate m n) in T. rewrite He in T.
  destruct (he_from_midstate (algo_engine c Sha384) m n); [exact (proj2 T)|contradiction].
Qed.
Lemma sha384_from_rel c m m' n : wf_config c -> same_length m m' ->
  same_trace (lo Sha384) (t_sha512_Engine_from_midstate m n) (t_sha512_Engine_from_midstate m' n).
Proof.
  intros WF H.
  enough (same_trace (fun e e' => e_length e = e_length e') (t_sha512_Engine_from_midstate m n) (t_sha512_Engine_from_midstate m' n)) as G.
  { eapply st_weaken; [|eapply st_and; [exact G| |]].
    - intros e e' H'. apply lo_typed. exact H'.
    - rewrite er_sha512_from. intros e. now apply (sha384_from_typed c).
    - rewrite er_sha512_from. intros e. now apply (sha384_from_typed c). }
  unfold t_sha512_Engine_from_midstate. cbv zeta. st.
  eapply st_bind; [apply zip_rel with (P := same_length); [|reflexivity|now apply chunks_exact_rel]|].
  - intros d s d' s' Hs. eapply st_bind; [apply st_lift, be_rel, Hs|]. intros x x' _. now apply st_ret.
  - intros r r' _. now apply st_ret.
Qed.

Lemma sha512_256_midstate_rel e e' : lo Sha512_256 e e' -> same_trace same_length (t_sha512_Engine_midstate e) (t_sha512_Engine_midstate e').
Proof.
  intros H. apply lo_typed in H. destruct H as (_ & [_ [H _]] & [_ [H' _]]). unfold t_sha512_Engine_midstate. cbv zeta.
  apply chunks_rel; [|unfold same_length; congruence|reflexivity].
  apply (midstate_copy 8 (to_be_bytes 8)). intros. apply be_len.
Qed.
Lemma sha512_256_finalize_rel c e e' : wf_config c -> lo Sha512_256 e e' ->
  same_trace same_length (t_sha512_Engine_finalize c e) (t_sha512_Engine_finalize c e').
Proof.
  intros WF He. unfold t_sha512_Engine_finalize. cbv zeta. destruct He as [Hl He']. rewrite <- Hl.
  assert (He : lo Sha512_256 e e') by (now split). clear He'.
  eapply st_bind; [apply sha512_256_input_rel; [exact WF|exact He|reflexivity]|intros e1 e1' [L1 H1]].
  rewrite <- L1. assert (G1 : lo Sha512_256 e1 e1') by (now split).
  eapply (st_bind _ _ (lo Sha512_256)).
  { apply st_if; intros _; [apply sha512_256_input_rel; [exact WF|exact G1|reflexivity]|now apply st_ret]. }
  intros e2 e2' [L2 H2]. rewrite <- L2. assert (G2 : lo Sha512_256 e2 e2') by (now split).
  st. st. eapply st_bind; [apply sha512_256_input_rel; [exact WF|exact G2|reflexivity]|intros e3 e3' [L3 H3]].
  rewrite <- L3. assert (G3 : lo Sha512_256 e3 e3') by (now split).
  st. eapply st_bind; [apply sha512_256_input_rel; [exact WF|exact G3|reflexivity]|clear e3 e3' L3 H3 G3; intros e3 e3' G3].
  st. eapply st_bind; [apply sha512_256_input_rel; [exact WF|exact G3|reflexivity]|intros e4 e4' [L4 H4]].
  rewrite <- L4. assert (G4 : lo Sha512_256 e4 e4') by (now split).
  st. now apply sha512_256_midstate_rel.
Qed.
Lemma sha512_256_from_typed c m n e : wf_config c -> g_sha512_Engine_from_midstate m n = Ok e -> typed Sha512_256 e.
Proof.
  intros WF He. pose proof (ag_from _ _ _ _ _ (engines_agree c Sha512_256 WF) m m n eq_refl) as T.
  change (he_from_midstate (gen_engine c Sha512_256) m n) with (g_sha512_Engine_from_midstate m n) in T. rewrite He in T.
  destruct (he_from_midstate (algo_engine c Sha512_256) m n); [exact (proj2 T)|contradiction].
Qed.
Lemma sha512_256_from_rel c m m' n : wf_config c -> same_length m m' ->
  same_trace (lo Sha512_256) (t_sha512_Engine_from_midstate m n) (t_sha512_Engine_from_midstate m' n).
Proof.
  intros WF H.
  enough (same_trace (fun e e' => e_length e = e_length e') (t_sha512_Engine_from_midstate m n) (t_sha512_Engine_from_midstate m' n)) as G.
  { eapply st_weaken; [|eapply st_and; [exact G| |]].
    - intros e e' H'. apply lo_typed. exact H'.
    - rewrite er_sha512_from. intros e. now apply (sha512_256_from_typed c).
    - rewrite er_sha512_from. intros e. now apply (sha512_256_from_typed c). }
  unfold t_sha512_Engine_from_midstate. cbv zeta. st.
  eapply st_bind; [apply zip_rel with (P := same_length); [|reflexivity|now apply chunks_exact_rel]|].
  - intros d s d' s' Hs. eapply st_bind; [apply st_lift, be_rel, Hs|]. intros x x' _. now apply st_ret.
  - intros r r' _. now apply st_ret.
Qed.

Lemma ripemd160_midstate_rel e e' : lo Ripemd160 e e' -> same_trace same_length (t_ripemd160_Engine_midstate e) (t_ripemd160_Engine_midstate e').
Proof.
  intros H. apply lo_typed in H. destruct H as (_ & [_ [H _]] & [_ [H' _]]). unfold t_ripemd160_Engine_midstate. cbv zeta.
  apply chunks_rel; [|unfold same_length; congruence|reflexivity].
  apply (midstate_copy 4 (to_le_bytes 4)). intros. apply le_len.
Qed.
Lemma ripemd160_finalize_rel c e e' : wf_config c -> lo Ripemd160 e e' ->
  same_trace same_length (t_ripemd160_Engine_finalize c e) (t_ripemd160_Engine_finalize c e').
Proof.
  intros WF He. unfold t_ripemd160_Engine_finalize. cbv zeta. destruct He as [Hl He']. rewrite <- Hl.
  assert (He : lo Ripemd160 e e') by (now split). clear He'.
  eapply st_bind; [apply ripemd160_input_rel; [exact WF|exact He|reflexivity]|intros e1 e1' [L1 H1]].
  rewrite <- L1. assert (G1 : lo Ripemd160 e1 e1') by (now split).
  eapply (st_bind _ _ (lo Ripemd160)).
  { apply st_if; intros _; [apply ripemd160_input_rel; [exact WF|exact G1|reflexivity]|now apply st_ret]. }
  intros e2 e2' [L2 H2]. rewrite <- L2. assert (G2 : lo Ripemd160 e2 e2') by (now split).
  st. st. eapply st_bind; [apply ripemd160_input_rel; [exact WF|exact G2|reflexivity]|intros e3 e3' [L3 H3]].
  rewrite <- L3. assert (G3 : lo Ripemd160 e3 e3') by (now split).
  st. 
  st. eapply st_bind; [apply ripemd160_input_rel; [exact WF|exact G3|reflexivity]|intros e4 e4' [L4 H4]].
  rewrite <- L4. assert (G4 : lo Ripemd160 e4 e4') by (now split).
  st. now apply ripemd160_midstate_rel.
Qed.
Lemma ripemd160_from_typed c m n e : wf_config c -> g_ripemd160_Engine_from_midstate m n = Ok e -> typed Ripemd160 e.
Proof.
  intros WF He. pose proof (ag_from _ _ _ _ _ (engines_agree c Ripemd160 WF) m m n eq_refl) as T.
  change (he_from_midstate (gen_engine c Ripemd160) m n) with (g_ripemd160_Engine_from_midstate m n) in T. rewrite He in T.
  destruct (he_from_midstate (algo_engine c Ripemd160) m n); [exact (proj2 T)|contradiction].
Qed.
Lemma ripemd160_from_rel c m m' n : wf_config c -> same_length m m' ->
  same_trace (lo Ripemd160) (t_ripemd160_Engine_from_midstate m n) (t_ripemd160_Engine_from_midstate m' n).
Proof.
  intros WF H.
  enough (same_trace (fun e e' => e_length e = e_length e') (t_ripemd160_Engine_from_midstate m n) (t_ripemd160_Engine_from_midstate m' n)) as G.
  { eapply st_weaken; [|eapply st_and; [exact G| |]].
    - intros e e' H'. apply lo_typed. exact H'.
    - rewrite er_ripemd160_from. intros e. now apply (ripemd160_from_typed c).
    - rewrite er_ripemd160_from. intros e. now apply (ripemd160_from_typed c). }
  unfold t_ripemd160_Engine_from_midstate. cbv zeta. st.
  eapply st_bind; [apply zip_rel with (P := same_length); [|reflexivity|now apply chunks_exact_rel]|].
  - intros d s d' s' Hs. eapply st_bind; [apply st_lift, be_rel, Hs|]. intros x x' _. now apply st_ret.
  - intros r r' _. now apply st_ret.
Qed.

(** A relation on states, and one on midstates, that runs preserve and that hide
    everything secret. *)
Record hides {E} (L : tengine E) (R : he_state E -> he_state E -> Prop) (M : he_mid E -> he_mid E -> Prop) : Prop := {
  hd_default : same_trace R (te_default L) (te_default L);
  hd_input : forall s s' d d', R s s' -> same_length d d' -> same_trace R (te_input L s d) (te_input L s' d');
  hd_finalize : forall s s', R s s' -> same_trace same_length (te_finalize L s) (te_finalize L s');
  hd_midstate : forall s s', R s s' -> same_trace M (te_midstate L s) (te_midstate L s');
  hd_from : forall m m' n, M m m' -> same_trace R (te_from_midstate L m n) (te_from_midstate L m' n)
}.
Lemma cut_rel n x y : same_length x y ->
  same_trace same_length (let! t := t_slice_to n x in t_copy_from_slice (array x00 n) t)
    (let! t := t_slice_to n y in t_copy_from_slice (array x00 n) t).
Proof.
  intros H. eapply st_bind; [apply slice_to_rel; exact H|]. intros u v R.
  eapply st_weaken; [|apply copy_rel; [reflexivity|exact R]]. intros a b [Ha Hb]. unfold same_length, len in *. lia.
Qed.
Lemma algo_hides c a : wf_config c -> exists R M, hides (trace_engine c a) R M.
Proof.
  intros WF. destruct a.
  1: exists (lo Sha1), (@same_length byte). 2: exists (lo Sha256), (@same_length byte). 3: exists (lo Sha384), (@same_length byte).
  4: exists (lo Sha512), (@same_length byte). 5: exists (lo Sha512_256), (@same_length byte). 6: exists (lo Ripemd160), (@same_length byte).
  all: split; cbn [trace_engine gen_engine t_sha1_Engine_dict t_sha256_Engine_dict t_sha384_Engine_dict
    t_sha512_Engine_dict t_sha512_256_Engine_dict t_ripemd160_Engine_dict
    g_sha1_Engine_dict g_sha256_Engine_dict g_sha384_Engine_dict
    g_sha512_Engine_dict g_sha512_256_Engine_dict g_ripemd160_Engine_dict
    te_default te_input te_finalize te_midstate te_from_midstate he_state he_mid].
  all: try (apply st_ret; refine (ProofLeak.start_lo _ 0)).
  - intros. now apply sha1_input_rel.
  - intros. now apply sha1_finalize_rel.
  - intros. now apply sha1_midstate_rel.
  - intros. now apply (sha1_from_rel c).
  - intros. now apply sha256_input_rel.
  - intros. now apply sha256_finalize_rel.
  - intros. now apply sha256_midstate_rel.
  - intros. now apply (sha256_from_rel c).
  - intros. now apply sha384_input_rel.
  - intros. unfold t_sha384_Engine_finalize. cbv zeta.
    eapply st_bind; [apply sha384_finalize_rel; eassumption|apply cut_rel].
  - intros. now apply sha384_midstate_rel.
  - intros. now apply (sha384_from_rel c).
  - intros. now apply sha512_input_rel.
  - intros. now apply sha512_finalize_rel.
  - intros. now apply sha512_midstate_rel.
  - intros. now apply (sha512_from_rel c).
  - intros. now apply sha512_256_input_rel.
  - intros. unfold t_sha512_256_Engine_finalize. cbv zeta.
    eapply st_bind; [apply sha512_256_finalize_rel; eassumption|apply cut_rel].
  - intros. now apply sha512_256_midstate_rel.
  - intros. now apply (sha512_256_from_rel c).
  - intros. now apply ripemd160_input_rel.
  - intros. now apply ripemd160_finalize_rel.
  - intros. now apply ripemd160_midstate_rel.
  - intros. now apply (ripemd160_from_rel c).
Qed.
