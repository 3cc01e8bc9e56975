(** Many engines: C40.  Digest lengths of every kind of engine: C29. *)
From Coq Require Import NArith Arith List Bool Lia.
From Verif Require Import Base SpecBase SpecMD SpecMac ModelEngine ModelSha256 ModelSip ModelHmac ModelAll ModelTypes ModelIo SpecIo ModelStore
  SpecApi SpecStore ProofBase ProofMD ProofApi ProofMid ProofConst ProofSip ProofHmac ProofSplit ProofHash ProofMac ProofTypes ProofIo.
Import ListNotations.
Open Scope N_scope.

(** ** The tag engines *)
Lemma store_len {A} (l l' : list A) i x : store l i x = Ok l' -> length l' = length l.
Proof.
  unfold store. destruct (N.ltb_spec i (len l)) as [H|]; [|discriminate]. intros E. apply Ok_inj in E. subst l'.
  unfold len in H. rewrite app_length, firstn_length. cbn [length]. rewrite skipn_length. lia.
Qed.

Lemma for_loop_inv {A} (P : A -> Prop) (body : N -> A -> res A) :
  (forall i s s', P s -> body i s = Ok s' -> P s') ->
  forall n i s s', P s -> for_loop n i body s = Ok s' -> P s'.
Proof.
  intros HB. induction n as [|n IH]; intros i s s' Hs E; cbn [for_loop] in E.
  - apply Ok_inj in E. now subst.
  - apply bind_ok in E. destruct E as (s1 & E1 & E2). exact (IH _ _ _ (HB _ _ _ Hs E1) E2).
Qed.

Lemma midstate_const_hash_length c l f m : midstate_const_hash c l f = Ok m -> length m = 32%nat.
Proof.
  unfold midstate_const_hash. intros E.
  apply bind_ok in E. destruct E as (n & _ & E). apply bind_ok in E. destruct E as (n' & _ & E).
  apply bind_ok in E. destruct E as (st & _ & E).
  revert E. apply (for_loop_inv (fun o : bytes => length o = 32%nat)); [|reflexivity].
  intros i o o' Ho E. apply bind_ok in E. destruct E as (s & _ & E).
  apply bind_ok in E. destruct E as (o1 & E1 & E). apply bind_ok in E. destruct E as (o2 & E2 & E).
  apply bind_ok in E. destruct E as (o3 & E3 & E).
  apply store_len in E1, E2, E3, E. congruence.
Qed.

Lemma tag_engine_reach c tag e : wf_config c -> tag_engine c tag = Ok e ->
  algo_reachable c Sha256 e /\ e_length e = 64.
Proof.
  intros WF E. unfold tag_engine in E. apply bind_ok in E. destruct E as (mid & Em & E).
  assert (Hm : length mid = 32%nat).
  { unfold hash_tag in Em. apply bind_ok in Em. destruct Em as (h & _ & Em).
    apply bind_ok in Em. destruct Em as (b & _ & Em). exact (midstate_const_hash_length _ _ _ _ Em). }
  destruct (wf_M c WF) as [H256 _]. split.
  - exact (reach_mid c (sha256_engine c) (algo_mid_ok c Sha256) mid 64 e Hm ltac:(lia) E).
  - unfold sha256_from_midstate, from_midstate_bytes in E.
    repeat (apply bind_ok in E; destruct E as (? & _ & E)). apply Ok_inj in E. now subst e.
Qed.

(** ** Every kind *)
Section Kinds.
  Context (c : config) (WF : wf_config c).
  Notation M := (2 ^ usize_bits c).

  Lemma kind_block_le k : (kind_block k <= 128)%nat.
  Proof. induction k as [a| | |k IH]; cbn [kind_block]; [destruct a; cbn| | |]; lia. Qed.
  Lemma kind_digest_le k : (kind_digest k <= kind_block k)%nat.
  Proof. induction k as [a| | |k IH]; cbn [kind_block kind_digest]; [destruct a; cbn| | |]; lia. Qed.
  Lemma kind_block_size k : he_block_size (kind_engine c k) = N.of_nat (kind_block k).
  Proof. induction k as [a| | |k IH]; [apply algo_block|reflexivity|reflexivity|exact IH]. Qed.

  Lemma kind_hash_length k m : length (kind_hash k m) = kind_digest k.
  Proof.
    revert m. induction k as [a| |tag|k IH]; intros m; cbn [kind_hash kind_digest].
    - apply hash_of_length.
    - apply length_le_octets.
    - apply (hash_of_length Sha256).
    - unfold HMAC. apply IH.
  Qed.

  Lemma kind_lawful k : lawful (kind_engine c k) (kind_hash k) (kind_fits c k).
  Proof.
    induction k as [a| |tag|k IH].
    - now apply algo_lawful.
    - now apply sip_lawful.
    - intros chunks (H1 & H2 & H3). now apply tagged_standard.
    - exact (hmac_lawful c (kind_engine c k) (kind_hash k) (kind_fits c k) IH (kind_block k) (kind_digest k)
               (kind_block_size k) (kind_block_le k) (kind_hash_length k) (kind_digest_le k)).
  Qed.

  (** States a program can hold *)
  Fixpoint kind_reach (k : ekind) : he_state (kind_engine c k) -> Prop :=
    match k return he_state (kind_engine c k) -> Prop with
    | KAlgo a => algo_reachable c a
    | KSip => sip_reachable c
    | KTag _ => algo_reachable c Sha256
    | KHmac k => fun s => kind_reach k (iengine s) /\ kind_reach k (oengine s)
    end.

  Lemma kind_reach_input k : forall s d s', kind_reach k s -> slice c d ->
    he_input (kind_engine c k) s d = Ok s' ->
    kind_reach k s' /\
    he_n_bytes_hashed (kind_engine c k) s' = (he_n_bytes_hashed (kind_engine c k) s + len d) mod M.
  Proof.
    induction k as [a| |tag|k IH]; intros s d s' HR Hd E.
    - split; [exact (reach_input _ _ _ _ _ _ HR Hd E)|exact (algo_input_count c WF a s d s' HR E)].
    - split; [exact (sip_reach_input c s d s' HR Hd E)|].
      pose proof (sip_inputs_count c WF s [d] s' HR ltac:(constructor; [exact Hd|constructor])) as H.
      cbn [he_inputs List.concat] in H. cbn [kind_engine] in E. rewrite E in H. cbn [bind] in H.
      rewrite app_nil_r in H. exact (proj1 (H eq_refl)).
    - split; [exact (reach_input c (sha256_engine c) (algo_mid_ok c Sha256) s d s' HR Hd E)
             |exact (algo_input_count c WF Sha256 s d s' HR E)].
    - destruct HR as [Hi Ho]. cbn [kind_engine hmac_engine he_input] in E.
      apply bind_ok in E. destruct E as (i & Ei & E). apply Ok_inj in E. subst s'.
      destruct (IH _ _ _ Hi Hd Ei) as [Hi' Hn]. split; [split; assumption|exact Hn].
  Qed.

  Lemma kind_hmac_new k key s :
    (forall e, he_default (kind_engine c k) = Ok e ->
       kind_reach k e /\ he_n_bytes_hashed (kind_engine c k) e = N.of_nat (kind_prefix k) mod M) ->
    hmac_new c (kind_engine c k) key = Ok s ->
    kind_reach (KHmac k) s /\
    he_n_bytes_hashed (kind_engine c (KHmac k)) s = N.of_nat (kind_prefix (KHmac k)) mod M.
  Proof.
    intros HD Es. destruct (hmac_new_parts c (kind_engine c k) key s Es) as (e0 & ib & ob & E0 & Hi & Ho & HB & Ei & Eo).
    destruct (HD e0 E0) as [HR Hn]. destruct (wf_M c WF) as [H256 _].
    assert (Sib : slice c ib) by (unfold slice; lia). assert (Sob : slice c ob) by (unfold slice; lia).
    destruct (kind_reach_input k e0 ib _ HR Sib Ei) as [Hri Hni].
    destruct (kind_reach_input k e0 ob _ HR Sob Eo) as [Hro _].
    split; [split; assumption|]. cbn [kind_engine hmac_engine he_n_bytes_hashed kind_prefix].
    rewrite Hni, Hn, Hi, kind_block_size, Nat2N.inj_add. apply N.add_mod_idemp_l. apply N.pow_nonzero. discriminate.
  Qed.

  Lemma kind_default k : forall e, he_default (kind_engine c k) = Ok e ->
    kind_reach k e /\ he_n_bytes_hashed (kind_engine c k) e = N.of_nat (kind_prefix k) mod M.
  Proof.
    destruct (wf_M c WF) as [H256 _].
    induction k as [a| |tag|k IH]; intros e E.
    - split; [exact (reach_new _ _ _ _ E)|]. cbn [kind_prefix N.of_nat]. rewrite N.mod_0_l by lia.
      destruct a; cbn in E; apply Ok_inj in E; subst e; reflexivity.
    - cbn [kind_engine siphash24_engine he_default] in E. apply Ok_inj in E. subst e.
      split; [exact (sip_reach_keys c 0 0 eq_refl eq_refl)|]. cbn [kind_prefix N.of_nat]. now rewrite N.mod_0_l by lia.
    - destruct (tag_engine_reach c tag e WF E) as [HR Hn]. split; [exact HR|].
      cbn [kind_prefix]. change (N.of_nat 64) with 64. rewrite N.mod_small by lia. exact Hn.
    - exact (kind_hmac_new k [] e IH E).
  Qed.

  Lemma kind_digest_length k : forall s d, kind_reach k s -> he_finalize (kind_engine c k) s = Ok d ->
    length d = kind_digest k.
  Proof.
    induction k as [a| |tag|k IH]; intros s d HR E.
    - exact (algo_digest_length c WF a s d HR E).
    - cbn [kind_engine siphash24_engine he_finalize] in E. apply Ok_inj in E. subst d. apply length_to_le_bytes.
    - exact (algo_digest_length c WF Sha256 s d HR E).
    - destruct HR as [Hi Ho]. cbn [kind_engine hmac_engine he_finalize] in E.
      apply bind_ok in E. destruct E as (ih & Ei & E). apply bind_ok in E. destruct E as (o & Eo & E).
      apply (IH o); [|exact E]. apply (proj1 (kind_reach_input k (oengine s) ih o Ho
         ltac:(unfold slice, len; rewrite (IH _ _ Hi Ei); pose proof (kind_digest_le k); pose proof (kind_block_le k);
               destruct (wf_M c WF); lia) Eo)).
  Qed.

  (** ** Origins *)
  Lemma start_reach o s : origin_ok o -> start c o = Ok s ->
    kind_reach (origin_kind o) s /\
    he_n_bytes_hashed (kind_engine c (origin_kind o)) s = N.of_nat (origin_prefix o) mod M.
  Proof.
    destruct (wf_M c WF) as [H256 _].
    destruct o as [k|k key|k0 k1]; cbn [origin_ok start origin_kind origin_prefix]; intros Ho E.
    - now apply kind_default.
    - apply (kind_hmac_new k key s (kind_default k) E).
    - apply Ok_inj in E. subst s. split; [now constructor|]. cbn [N.of_nat]. now rewrite N.mod_0_l by lia.
  Qed.

  Lemma inputs_reach k l : forall s s', kind_reach k s -> Forall (slice c) l ->
    he_inputs (kind_engine c k) s l = Ok s' ->
    kind_reach k s' /\
    he_n_bytes_hashed (kind_engine c k) s' =
      (match l with [] => he_n_bytes_hashed (kind_engine c k) s
       | _ => (he_n_bytes_hashed (kind_engine c k) s + len (List.concat l)) mod M end).
  Proof.
    induction l as [|d l IH]; intros s s' HR HF E; cbn [he_inputs] in E.
    - apply Ok_inj in E. subst. now split.
    - inversion HF as [|? ? Hd HF']; subst. apply bind_ok in E. destruct E as (s1 & E1 & E2).
      destruct (kind_reach_input k s d s1 HR Hd E1) as [HR1 Hn1].
      destruct (IH s1 s' HR1 HF' E2) as [HR2 Hn2]. split; [exact HR2|]. rewrite Hn2.
      cbn [List.concat]. destruct l as [|d' l].
      + cbn [List.concat]. rewrite app_nil_r. exact Hn1.
      + rewrite Hn1. rewrite N.add_mod_idemp_l by (apply N.pow_nonzero; discriminate).
        unfold len. rewrite (app_length d), Nat2N.inj_add. now rewrite N.add_assoc.
  Qed.

  (** A state holds a message *)
  Definition holds (o : origin) (m : bytes) (s : he_state (kind_engine c (origin_kind o))) : Prop :=
    exists s0 l, start c o = Ok s0 /\ Forall (slice c) l /\ List.concat l = m /\
      he_inputs (kind_engine c (origin_kind o)) s0 l = Ok s.

  Lemma holds_count o m s : origin_ok o -> holds o m s ->
    he_n_bytes_hashed (kind_engine c (origin_kind o)) s = (N.of_nat (origin_prefix o) + len m) mod M.
  Proof.
    intros Ho (s0 & l & E0 & HF & <- & E). destruct (start_reach o s0 Ho E0) as [HR Hn].
    destruct (inputs_reach _ l s0 s HR HF E) as [_ ->]. rewrite Hn. destruct l as [|d l].
    - cbn [List.concat]. change (len (@nil byte)) with 0. now rewrite N.add_0_r.
    - apply N.add_mod_idemp_l. apply N.pow_nonzero. discriminate.
  Qed.

  Lemma holds_input o m s d s' : holds o m s -> slice c d ->
    he_input (kind_engine c (origin_kind o)) s d = Ok s' -> holds o (m ++ d) s'.
  Proof.
    intros (s0 & l & E0 & HF & <- & E) Hd E'. exists s0, (l ++ [d]). split; [exact E0|].
    split; [apply Forall_app; split; [exact HF|constructor; [exact Hd|constructor]]|].
    split; [rewrite concat_app; cbn [List.concat]; now rewrite app_nil_r|].
    rewrite he_inputs_app, E. cbn [bind he_inputs]. now rewrite E'.
  Qed.

  (** Whole runs of one engine *)
  Lemma origin_run o l : origin_ok o -> Forall (slice c) l -> origin_fits c o (length (List.concat l)) ->
    (let* s := start c o in
     let* s := he_inputs (kind_engine c (origin_kind o)) s l in
     he_finalize (kind_engine c (origin_kind o)) s) = Ok (origin_hash o (List.concat l)).
  Proof.
    destruct o as [k|k key|k0 k1]; cbn [origin_ok start origin_kind origin_fits origin_hash]; intros Ho HF Hf.
    - exact (kind_lawful k l Hf).
    - destruct Hf as [[Hi Hd] Hk].
      exact (hmac_lawful_law c (kind_engine c k) (kind_hash k) (kind_fits c k) (kind_block k) (kind_digest k)
               (kind_lawful k) (kind_block_size k) (kind_block_le k) (kind_hash_length k) (kind_digest_le k)
               key l Hk Hi Hd).
    - destruct Ho as [H0 H1]. cbn [bind].
      pose proof (siphash_digest c k0 k1 l WF H0 H1 HF) as E. rewrite (proj2 (N.leb_gt _ _)), andb_false_r in E.
      + exact E.
      + exact Hf.
  Qed.

  Lemma holds_finalize o m s : origin_ok o -> holds o m s -> origin_fits c o (length m) ->
    he_finalize (kind_engine c (origin_kind o)) s = Ok (origin_hash o m).
  Proof.
    intros Ho (s0 & l & E0 & HF & <- & E) Hf. pose proof (origin_run o l Ho HF Hf) as H.
    rewrite E0 in H. cbn [bind] in H. rewrite E in H. exact H.
  Qed.

  Lemma kind_ty_len k : ty_len (kind_ty k) = N.of_nat (kind_digest k).
  Proof.
    induction k as [[]| |tag|k IH]; try reflexivity. cbn [kind_ty kind_digest]. rewrite ty_len_hmac. exact IH.
  Qed.

  Lemma holds_length o m s d : origin_ok o -> holds o m s ->
    he_finalize (kind_engine c (origin_kind o)) s = Ok d -> len d = ty_len (origin_ty o).
  Proof.
    intros Ho (s0 & l & E0 & HF & _ & E) Ed. destruct (start_reach o s0 Ho E0) as [HR _].
    destruct (inputs_reach _ l s0 s HR HF E) as [HR' _].
    pose proof (kind_digest_length _ s d HR' Ed) as HL. unfold len. rewrite HL, <- kind_ty_len. now destruct o.
  Qed.

  Lemma fits_input o m s d : origin_ok o -> holds o m s -> slice c d -> origin_fits c o (length (m ++ d)) ->
    exists s', he_input (kind_engine c (origin_kind o)) s d = Ok s'.
  Proof.
    intros Ho (s0 & l & E0 & HF & <- & E) Hd Hf.
    pose proof (origin_run o (l ++ [d]) Ho) as H. rewrite concat_app in H. cbn [List.concat] in H.
    rewrite app_nil_r in H.
    specialize (H ltac:(apply Forall_app; split; [exact HF|constructor; [exact Hd|constructor]]) Hf).
    rewrite E0 in H. cbn [bind] in H. rewrite he_inputs_app, E in H. cbn [bind he_inputs] in H.
    destruct (he_input (kind_engine c (origin_kind o)) s d) as [s'|p]; [now exists s'|discriminate].
  Qed.

  Lemma fits_start o : origin_ok o -> origin_fits c o 0 -> exists s, start c o = Ok s.
  Proof.
    intros Ho Hf. pose proof (origin_run o [] Ho ltac:(constructor) Hf) as H.
    destruct (start c o) as [s|p]; [now exists s|discriminate].
  Qed.

  (** ** Writers *)
  Lemma kind_split k : forall s, kind_reach k s -> split_insensitive c (kind_engine c k) s.
  Proof.
    induction k as [a| |tag|k IH]; intros s HR.
    - exact (splits_insensitive c _ s (algo_splits c a s WF HR)).
    - exact (sip_split c WF s HR).
    - intros l l' HF HF' E. cbn [kind_engine]. rewrite !(sha256t_inputs c (tag_engine c tag) s).
      exact (splits_insensitive c (sha256_engine c) s (algo_splits c Sha256 s WF HR) l l' HF HF' E).
    - exact (hmac_split c (kind_engine c k) s (IH _ (proj1 HR))).
  Qed.

  Lemma origin_write_any o s ops chunks : origin_ok o -> start c o = Ok s -> Forall (op_ok c) ops ->
    Forall (slice c) chunks -> List.concat chunks = List.concat (map written ops) ->
    run_ops (kind_engine c (origin_kind o)) s ops
    = let* s' := he_inputs (kind_engine c (origin_kind o)) s chunks in Ok (s', map reported ops).
  Proof.
    intros Ho Es HF HFc HC. apply (run_ops_written c); try assumption.
    apply kind_split. exact (proj1 (start_reach o s Ho Es)).
  Qed.

  Lemma origin_write o ops : origin_ok o -> Forall (op_ok c) ops ->
    origin_fits c o (length (List.concat (map written ops))) ->
    exists s s', start c o = Ok s /\
      run_ops (kind_engine c (origin_kind o)) s ops = Ok (s', map reported ops) /\
      he_finalize (kind_engine c (origin_kind o)) s' = Ok (origin_hash o (List.concat (map written ops))).
  Proof.
    intros Ho HF Hf. pose proof (origin_run o (List.concat (map op_pieces ops)) Ho (ops_slices c ops HF)) as H.
    rewrite ops_concat in H. specialize (H Hf).
    destruct (start c o) as [s|p] eqn:Es; [|discriminate]. cbn [bind] in H.
    destruct (start_reach o s Ho Es) as [HR _].
    pose proof (run_ops_pieces c (kind_engine c (origin_kind o)) ops s (kind_split _ s HR) HF) as E.
    destruct (he_inputs (kind_engine c (origin_kind o)) s (List.concat (map op_pieces ops))) as [s'|p]; [|discriminate].
    exists s, s'. split; [reflexivity|]. split; [exact E|exact H].
  Qed.

  (** ** Stores *)
  Definition slot_ok (v : var) (e : slot c) : Prop :=
    match v, e with
    | None, None => True
    | Some (o, m), Some e => origin_ok o /\ exists s, holds o m s /\ e = existT _ (origin_kind o) s
    | _, _ => False
    end.

  Lemma get_ok vs st i : Forall2 slot_ok vs st ->
    match get vs i, get st i with
    | None, None => True
    | Some (o, m), Some e => origin_ok o /\ exists s, holds o m s /\ e = existT _ (origin_kind o) s
    | _, _ => False
    end.
  Proof.
    unfold get. intros H. revert i. induction H as [|v e vs st Hve H IH]; intros [|i]; cbn [nth_error]; try exact I.
    - destruct v as [[o m]|], e; try exact Hve; exact I.
    - apply IH.
  Qed.

  Lemma set_ok vs st i v e : Forall2 slot_ok vs st -> slot_ok v e -> Forall2 slot_ok (set_nth i v vs) (set_nth i e st).
  Proof.
    intros H Hve. revert i. induction H as [|v' e' vs st Hve' H IH]; intros [|i]; cbn [set_nth]; constructor; auto.
  Qed.

  Lemma app_ok vs st v e : Forall2 slot_ok vs st -> slot_ok v e -> Forall2 slot_ok (vs ++ [v]) (st ++ [e]).
  Proof. intros H Hve. apply Forall2_app; [exact H|constructor; [exact Hve|constructor]]. Qed.

  Lemma holds_start o s : start c o = Ok s -> holds o [] s.
  Proof. intros E. exists s, []. repeat split; [exact E|constructor]. Qed.

  Lemma step_sim vs st op st' out : Forall2 slot_ok vs st -> store_op_ok c op -> step c st op = Ok (st', out) ->
    Forall2 slot_ok (fst (spec_step vs op)) st' /\ meets c out (snd (spec_step vs op)).
  Proof.
    intros HS Hop E. destruct op as [k|k key|k0 k1|i|i d|i|i]; cbn [step spec_step store_op_ok] in *.
    - apply bind_ok in E. destruct E as (s & Es & E). apply Ok_inj in E.
      assert (st' = st ++ [Some (existT _ k s)] /\ out = ONone) as [-> ->] by (split; congruence).
      split; [|exact I]. apply app_ok; [exact HS|]. split; [exact I|]. exists s. split; [|reflexivity].
      exact (holds_start (FromNew k) s Es).
    - apply bind_ok in E. destruct E as (s & Es & E). apply Ok_inj in E.
      assert (st' = st ++ [Some (existT (fun k => he_state (kind_engine c k)) (KHmac k) s)] /\ out = ONone)
        as [-> ->] by (split; congruence).
      split; [|exact I]. apply app_ok; [exact HS|]. split; [exact I|]. exists s. split; [|reflexivity].
      exact (holds_start (FromKey k key) s Es).
    - apply Ok_inj in E.
      assert (st' = st ++ [Some (existT (fun k => he_state (kind_engine c k)) KSip (with_keys k0 k1))] /\ out = ONone)
        as [-> ->] by (split; congruence).
      split; [|exact I]. apply app_ok; [exact HS|]. split; [exact Hop|]. exists (with_keys k0 k1). split; [|reflexivity].
      exact (holds_start (FromKeys k0 k1) (with_keys k0 k1) eq_refl).
    - pose proof (get_ok vs st i HS) as HG. destruct (get vs i) as [[o m]|], (get st i) as [e|]; try contradiction;
        apply Ok_inj in E.
      + assert (st' = st ++ [Some e] /\ out = ONone) as [-> ->] by (split; congruence).
        split; [|exact I]. apply app_ok; [exact HS|exact HG].
      + assert (st' = st /\ out = ORejected) as [-> ->] by (split; congruence). split; [exact HS|exact I].
    - pose proof (get_ok vs st i HS) as HG. destruct (get vs i) as [[o m]|], (get st i) as [e|]; try contradiction.
      + destruct HG as (Ho & s & Hh & ->). apply bind_ok in E. destruct E as (s' & Es & E). apply Ok_inj in E.
        assert (st' = set_nth i (Some (existT _ (origin_kind o) s')) st /\ out = ONone) as [-> ->] by (split; congruence).
        split; [|exact I]. apply set_ok; [exact HS|]. split; [exact Ho|]. exists s'. split; [|reflexivity].
        exact (holds_input o m s d s' Hh Hop Es).
      + apply Ok_inj in E. assert (st' = st /\ out = ORejected) as [-> ->] by (split; congruence).
        split; [exact HS|exact I].
    - pose proof (get_ok vs st i HS) as HG. destruct (get vs i) as [[o m]|], (get st i) as [e|]; try contradiction.
      + destruct HG as (Ho & s & Hh & ->). apply Ok_inj in E.
        assert (st' = st /\ out = OCount (he_n_bytes_hashed (kind_engine c (origin_kind o)) s)) as [-> ->]
          by (split; congruence).
        split; [exact HS|]. exact (holds_count o m s Ho Hh).
      + apply Ok_inj in E. assert (st' = st /\ out = ORejected) as [-> ->] by (split; congruence).
        split; [exact HS|exact I].
    - pose proof (get_ok vs st i HS) as HG. destruct (get vs i) as [[o m]|], (get st i) as [e|]; try contradiction.
      + destruct HG as (Ho & s & Hh & ->). apply bind_ok in E. destruct E as (d & Ed & E). apply Ok_inj in E.
        assert (st' = set_nth i None st /\ out = ODigest d) as [-> ->] by (split; congruence).
        split; [apply set_ok; [exact HS|exact I]|]. split; [exact (holds_length o m s d Ho Hh Ed)|]. intros Hf.
        pose proof (holds_finalize o m s Ho Hh Hf) as E'. congruence.
      + apply Ok_inj in E. assert (st' = st /\ out = ORejected) as [-> ->] by (split; congruence).
        split; [exact HS|exact I].
  Qed.

  Lemma run_sim ops : forall vs st st' outs, Forall2 slot_ok vs st -> Forall (store_op_ok c) ops ->
    run c st ops = Ok (st', outs) ->
    Forall2 slot_ok (fst (spec_run vs ops)) st' /\ Forall2 (meets c) outs (snd (spec_run vs ops)).
  Proof.
    induction ops as [|op ops IH]; intros vs st st' outs HS HF E; cbn [run spec_run] in *.
    - apply Ok_inj in E. assert (st' = st /\ outs = []) as [-> ->] by (split; congruence). split; [exact HS|constructor].
    - inversion HF as [|? ? Hop HF']; subst. apply bind_ok in E. destruct E as ([st1 o] & E1 & E).
      apply bind_ok in E. destruct E as ([st2 os] & E2 & E). apply Ok_inj in E.
      assert (st' = st2 /\ outs = o :: os) as [-> ->] by (split; congruence).
      destruct (step_sim vs st op st1 o HS Hop E1) as [HS1 Ho]. destruct (spec_step vs op) as [vs1 x]. cbn [fst snd] in *.
      destruct (IH vs1 st1 st2 os HS1 HF' E2) as [HS2 Hos]. destruct (spec_run vs1 ops) as [vs2 xs]. cbn [fst snd] in *.
      split; [exact HS2|constructor; assumption].
  Qed.

  Lemma get_fits vs i o m : vars_fit c vs -> get vs i = Some (o, m) -> origin_fits c o (length m).
  Proof.
    unfold get, vars_fit, var in *. intros H E. destruct (nth_error vs i) as [v|] eqn:En; [|discriminate].
    assert (v = Some (o, m)) as -> by (destruct v; [exact E|discriminate]).
    apply nth_error_In in En. rewrite Forall_forall in H. exact (H _ En).
  Qed.

  Lemma last_fits vs o m : vars_fit c (vs ++ [Some (o, m)]) -> origin_fits c o (length m).
  Proof. unfold vars_fit. intros H. apply Forall_app in H as [_ H]. inversion H; subst. assumption. Qed.

  Lemma set_fits vs i o m o' m' : get vs i = Some (o, m) -> vars_fit c (set_nth i (Some (o', m')) vs) ->
    origin_fits c o' (length m').
  Proof.
    unfold get, vars_fit, var in *. revert i. induction vs as [|v vs IH]; intros [|i] E H; cbn [nth_error set_nth] in *; try discriminate.
    - inversion H; subst. assumption.
    - inversion H; subst. now apply (IH i).
  Qed.

  Lemma run_fits_head vs ops : run_fits c vs ops -> vars_fit c vs.
  Proof. destruct ops; cbn; tauto. Qed.

  Lemma run_total ops : forall vs st, Forall2 slot_ok vs st -> Forall (store_op_ok c) ops -> run_fits c vs ops ->
    exists st' outs, run c st ops = Ok (st', outs).
  Proof.
    induction ops as [|op ops IH]; intros vs st HS HF HR; cbn [run]; [eexists; eexists; reflexivity|].
    inversion HF as [|? ? Hop HF']; subst. destruct HR as [HV HR]. pose proof (run_fits_head _ _ HR) as HV1.
    assert (Hst : exists st1 o, step c st op = Ok (st1, o)).
    { destruct op as [k|k key|k0 k1|i|i d|i|i]; cbn [step spec_step store_op_ok fst] in *.
      - destruct (fits_start (FromNew k) I (last_fits _ _ _ HV1)) as (s & Es). cbn [start] in Es. rewrite Es.
        eexists; eexists; reflexivity.
      - destruct (fits_start (FromKey k key) I (last_fits _ _ _ HV1)) as (s & Es). cbn [start] in Es. rewrite Es.
        eexists; eexists; reflexivity.
      - eexists; eexists; reflexivity.
      - destruct (get st i); eexists; eexists; reflexivity.
      - pose proof (get_ok vs st i HS) as HG. destruct (get vs i) as [[o m]|] eqn:Eg, (get st i) as [e|]; try contradiction.
        + destruct HG as (Ho & s & Hh & ->). cbn [fst] in HV1. pose proof (set_fits vs i o m o _ Eg HV1) as Hf.
          destruct (fits_input o m s d Ho Hh Hop Hf) as (s' & Es). rewrite Es. eexists; eexists; reflexivity.
        + eexists; eexists; reflexivity.
      - destruct (get st i) as [[k s]|]; eexists; eexists; reflexivity.
      - pose proof (get_ok vs st i HS) as HG. destruct (get vs i) as [[o m]|] eqn:Eg, (get st i) as [e|]; try contradiction.
        + destruct HG as (Ho & s & Hh & ->). pose proof (get_fits vs i o m HV Eg) as Hf.
          rewrite (holds_finalize o m s Ho Hh Hf). eexists; eexists; reflexivity.
        + eexists; eexists; reflexivity. }
    destruct Hst as (st1 & o & E1). rewrite E1. cbn [bind].
    destruct (step_sim vs st op st1 o HS Hop E1) as [HS1 _].
    destruct (IH _ st1 HS1 HF' HR) as (st' & outs & E). rewrite E. cbn [bind]. eexists; eexists; reflexivity.
  Qed.
End Kinds.

Lemma store_correct c ops st outs : wf_config c -> Forall (store_op_ok c) ops ->
  run c [] ops = Ok (st, outs) -> Forall2 (meets c) outs (snd (spec_run [] ops)).
Proof. intros WF HF E. exact (proj2 (run_sim c WF ops [] [] st outs ltac:(constructor) HF E)). Qed.

Lemma store_digest_length c ops st outs i d : wf_config c -> Forall (store_op_ok c) ops ->
  run c [] ops = Ok (st, outs) -> nth_error outs i = Some (ODigest d) ->
  exists o m, nth_error (snd (spec_run [] ops)) i = Some (XDigest o m) /\ len d = ty_len (origin_ty o).
Proof.
  intros WF HF E Hi. pose proof (store_correct c ops st outs WF HF E) as H.
  clear E. revert i Hi. induction H as [|x y xs ys Hxy H IH]; intros [|i] Hi; cbn [nth_error] in *; try discriminate.
  - injection Hi as ->. cbn [meets] in Hxy. destruct y as [|o m|o m|]; try contradiction.
    exists o, m. split; [reflexivity|exact (proj1 Hxy)].
  - exact (IH i Hi).
Qed.

Lemma store_total c ops : wf_config c -> Forall (store_op_ok c) ops -> run_fits c [] ops ->
  exists st outs, run c [] ops = Ok (st, outs).
Proof. intros WF HF HR. exact (run_total c WF ops [] [] ltac:(constructor) HF HR). Qed.

(** No operation touches a variable other than its own. *)

Lemma nth_error_set_other {A} i j (x : A) l : i <> j -> nth_error (set_nth i x l) j = nth_error l j.
Proof.
  revert i j. induction l as [|y l IH]; intros [|i] [|j] H; cbn; try reflexivity; try contradiction.
  apply IH. congruence.
Qed.

Lemma store_frame c st op st' out j : step c st op = Ok (st', out) -> (j < length st)%nat ->
  target_of op <> Some j -> nth_error st' j = nth_error st j.
Proof.
  intros E Hj Ht.
  assert (Happ : forall e, nth_error (st ++ [e]) j = nth_error st j) by (intros e; now apply nth_error_app1).
  destruct op as [k|k key|k0 k1|i|i d|i|i]; cbn [step target_of] in *.
  - apply bind_ok in E. destruct E as (s & Es & E). apply Ok_inj in E.
    assert (st' = st ++ [Some (existT _ k s)]) as -> by congruence. apply Happ.
  - apply bind_ok in E. destruct E as (s & Es & E). apply Ok_inj in E.
    assert (st' = st ++ [Some (existT (fun k => he_state (kind_engine c k)) (KHmac k) s)]) as -> by congruence. apply Happ.
  - apply Ok_inj in E. apply (f_equal fst) in E. cbn [fst] in E. rewrite <- E. apply Happ.
  - destruct (get st i) as [e|]; apply Ok_inj in E; apply (f_equal fst) in E; cbn [fst] in E; rewrite <- E;
      [apply Happ|reflexivity].
  - destruct (get st i) as [[k s]|].
    + apply bind_ok in E. destruct E as (s' & Es & E). apply Ok_inj in E. apply (f_equal fst) in E. cbn [fst] in E.
      rewrite <- E. apply nth_error_set_other. congruence.
    + apply Ok_inj in E. apply (f_equal fst) in E. cbn [fst] in E. now rewrite <- E.
  - destruct (get st i) as [[k s]|]; apply Ok_inj in E; apply (f_equal fst) in E; cbn [fst] in E; now rewrite <- E.
  - destruct (get st i) as [[k s]|].
    + apply bind_ok in E. destruct E as (s' & Es & E). apply Ok_inj in E. apply (f_equal fst) in E. cbn [fst] in E.
      rewrite <- E. apply nth_error_set_other. congruence.
    + apply Ok_inj in E. apply (f_equal fst) in E. cbn [fst] in E. now rewrite <- E.
Qed.
