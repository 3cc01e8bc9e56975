(** Proofs about what the traced text reveals (C76, C77). *)
From Coq Require Import Lia.
From Verif Require Import Base SpecBase SpecMD ModelEngine ModelSip ModelHmac ModelAll ModelStore SpecStore SpecMore SpecLeak SpecGen
  GenBase GenCmp GenLib GenSip GenSha256 GenSha256t GenHmac
  TraceBase TraceCmp TraceLib TraceSip TraceSha256 TraceSha256t TraceHmac SpecTrace
  ProofGenBase ProofGenMac ProofGenProgram ProofTraceBase ProofTraceBlock ProofTraceEngine.
From Verif Require ProofLeak ModelCmp.
Open Scope N_scope.

(** ** Erasure *)

Lemma er_u8to64 c b s n : snd (t_siphash24_u8to64_le c b s n) = g_siphash24_u8to64_le c b s n.
Proof. er_def t_siphash24_u8to64_le g_siphash24_u8to64_le. Qed.
#[export] Hint Resolve er_u8to64 : erase.
Lemma er_sip_loop fuel : forall c d n l s i,
  snd (t_siphash24_Engine_input_loop1 fuel c d n l s i) = g_siphash24_Engine_input_loop1 fuel c d n l s i.
Proof.
  induction fuel as [|f IH]; intros c d n l s i; cbn [t_siphash24_Engine_input_loop1 g_siphash24_Engine_input_loop1]; er.
Qed.
#[export] Hint Resolve er_sip_loop : erase.
Lemma er_sip_input c e d : snd (t_siphash24_Engine_input c e d) = g_siphash24_Engine_input c e d.
Proof. er_def t_siphash24_Engine_input g_siphash24_Engine_input. Qed.
Lemma sip_erases c : erases (t_siphash24_Engine_dict c).
Proof. split; intros; try reflexivity. apply er_sip_input. Qed.

Lemma er_sha256_from_midstate m n : snd (t_sha256_Engine_from_midstate m n) = g_sha256_Engine_from_midstate m n.
Proof. er_def t_sha256_Engine_from_midstate g_sha256_Engine_from_midstate. Qed.
Lemma tag_erases c t : erases (t_sha256t_Engine_dict c t).
Proof.
  split; intros.
  - reflexivity.
  - apply er_sha256_input.
  - apply er_sha256_finalize.
  - apply er_sha256_midstate.
  - apply er_sha256_from_midstate.
Qed.

Section Generic.
  Context {E : HashEngine} (L : tengine E) (H : erases L).

  Lemma er_hash d : snd (t_lib_HashEngine_hash L d) = g_lib_HashEngine_hash E d.
  Proof.
    destruct H as [H1 H2 H3 H4 H5]. er_def @t_lib_HashEngine_hash g_lib_HashEngine_hash.
  Qed.
  Lemma er_chunks l : snd (t_lib_HashEngine_hash_byte_chunks L l) = g_lib_HashEngine_hash_byte_chunks E l.
  Proof.
    destruct H as [H1 H2 H3 H4 H5]. er_def @t_lib_HashEngine_hash_byte_chunks g_lib_HashEngine_hash_byte_chunks.
  Qed.
  Lemma er_hmac_new c key : snd (t_hmac_Engine_new c L key) = g_hmac_Engine_new c E key.
  Proof.
    pose proof er_hash as H0. destruct H as [H1 H2 H3 H4 H5]. er_def @t_hmac_Engine_new g_hmac_Engine_new.
  Qed.
  Lemma hmac_erases c : erases (t_hmac_Engine_dict c L).
  Proof.
    pose proof (er_hmac_new c) as H0. destruct H as [H1 H2 H3 H4 H5].
    split; intros; cbn [t_hmac_Engine_dict g_hmac_Engine_dict te_default te_input te_finalize te_midstate te_from_midstate
      he_default he_input he_finalize he_midstate he_from_midstate].
    - apply H0.
    - er_def @t_hmac_Engine_input g_hmac_Engine_input.
    - er_def @t_hmac_Engine_finalize g_hmac_Engine_finalize.
    - er_def @t_hmac_Engine_midstate g_hmac_Engine_midstate.
    - er_def @t_hmac_Engine_from_midstate g_hmac_Engine_from_midstate.
  Qed.
  Lemma er_acts l : forall s, snd (trace_acts L s l) = gen_acts E s l.
  Proof.
    destruct H as [H1 H2 H3 H4 H5]. induction l as [|[d| |n] l IH]; intros s; cbn [trace_acts gen_acts]; er.
  Qed.
End Generic.

Lemma kind_erases c k : erases (trace_kind c k).
Proof.
  induction k as [a| |tag|k IH]; cbn [trace_kind gen_kind].
  - apply algo_erases.
  - apply sip_erases.
  - exact (tag_erases c (tlift (gen_tag_engine c tag))).
  - now apply hmac_erases.
Qed.

Lemma trace_erase c o l : result (trace_run c o l) = gen_run c o l.
Proof.
  unfold result, trace_run, gen_run. apply erase_tbind.
  - destruct o as [k|k key|k0 k1]; cbn [trace_start gen_start].
    + apply kind_erases.
    + apply er_hmac_new, kind_erases.
    + reflexivity.
  - intros s. apply erase_tbind; [apply er_acts, kind_erases|]. intros s'. apply kind_erases.
Qed.

(** ** Two runs: SipHash *)

Definition sip_lo (e e' : sip_engine) : Prop := sip_length e = sip_length e' /\ sip_ntail e = sip_ntail e'.

Lemma load_rel c k (buf buf' : bytes) i : same_length buf buf' ->
  same_trace any (t_load_native c k buf i) (t_load_native c k buf' i).
Proof.
  intros H. apply st_record. unfold load_native. rewrite (same_length_len _ _ _ H). destruct (_ <=? _); [exact I|reflexivity].
Qed.
Lemma shl_rel c w x x' n : same_trace any (t_checked_shl c w x n) (t_checked_shl c w x' n).
Proof.
  apply st_record. unfold checked_shl. destruct (_ <? _); [exact I|]. destruct (overflow_checks c); [reflexivity|exact I].
Qed.
Lemma get_rel (buf buf' : bytes) i : same_length buf buf' -> same_trace any (t_get_unchecked buf i) (t_get_unchecked buf' i).
Proof.
  intros H. apply st_record. unfold get_unchecked. unfold same_length in H.
  destruct (nth_error buf (N.to_nat i)) eqn:E.
  - assert (N.to_nat i < length buf)%nat by (apply nth_error_Some; congruence).
    destruct (nth_error buf' (N.to_nat i)) eqn:E'; [exact I|]. apply nth_error_None in E'. lia.
  - apply nth_error_None in E. destruct (nth_error buf' (N.to_nat i)) eqn:E'; [|reflexivity].
    assert (N.to_nat i < length buf')%nat by (apply nth_error_Some; congruence). lia.
Qed.

Ltac st := eapply st_bind; [apply st_refl; congruence|intros ? ? <-].

Lemma u8to64_rel c buf buf' s n : same_length buf buf' ->
  same_trace any (t_siphash24_u8to64_le c buf s n) (t_siphash24_u8to64_le c buf' s n).
Proof.
  intros H. unfold t_siphash24_u8to64_le. cbv zeta. rewrite <- (same_length_len _ _ _ H). st. st.
  eapply (st_bind _ _ (fun p q => fst p = fst q)).
  { apply st_if; intros _; [|now apply st_ret]. st. st. eapply st_bind; [apply load_rel, H|intros x x' _].
    st. now apply st_ret. }
  intros [i o] [i' o'] Hi. cbn [fst] in Hi. subst i'. st.
  eapply (st_bind _ _ (fun p q => fst p = fst q)).
  { apply st_if; intros _; [|now apply st_ret]. st. st. eapply st_bind; [apply load_rel, H|intros x x' _].
    st. eapply st_bind; [apply shl_rel|intros y y' _]. st. now apply st_ret. }
  clear o o'. intros [i2 o] [i2' o'] Hi. cbn [fst] in Hi. subst i2'.
  eapply (st_bind _ _ (fun p q => fst p = fst q)).
  { apply st_if; intros _; [|now apply st_ret]. st. eapply st_bind; [apply get_rel, H|intros x x' _].
    st. eapply st_bind; [apply shl_rel|intros y y' _]. st. now apply st_ret. }
  clear o o'. intros [i3 o] [i3' o'] Hi. cbn [fst] in Hi. subst i3'. st. now apply st_ret.
Qed.

Lemma sip_loop_rel fuel c data data' n left : same_length data data' -> forall i s s', sip_lo s s' ->
  same_trace (fun p q => sip_lo (fst p) (fst q) /\ snd p = snd q)
    (t_siphash24_Engine_input_loop1 fuel c data n left s i) (t_siphash24_Engine_input_loop1 fuel c data' n left s' i).
Proof.
  intros H. induction fuel as [|f IH]; intros i s s' Hs; cbn [t_siphash24_Engine_input_loop1];
    cbv zeta; try rewrite <- (same_length_len _ _ _ H).
  - st. apply st_if; intros _; [now apply st_lift|now apply st_ret].
  - st. apply st_if; intros _; [|now apply st_ret].
    st. eapply st_bind; [apply load_rel, H|intros m m' _]. st. apply IH. exact Hs.
Qed.

Lemma sip_input_rel c e e' d d' : sip_lo e e' -> same_length d d' ->
  same_trace sip_lo (t_siphash24_Engine_input c e d) (t_siphash24_Engine_input c e' d').
Proof.
  intros [Hl Hn] Hd. unfold t_siphash24_Engine_input. cbv zeta. cbn [sip_length sip_ntail sip_st sip_tail sip_k0 sip_k1].
  pose proof Hd as Hd'. unfold same_length in Hd'. rewrite <- (same_length_len _ _ _ Hd), <- Hl, <- Hn, <- Hd'. st.
  apply st_if; intros _.
  - st. st. eapply st_bind; [apply u8to64_rel, Hd|intros x x' _]. st.
    eapply st_bind; [apply shl_rel|intros y y' _]. apply st_if; intros _.
    + st. apply st_ret. now split.
    + st. eapply st_bind; [apply sip_loop_rel; [exact Hd|now split]|].
      intros [s i] [s' i'] [[G1 G2] G3]. cbn [fst snd] in *. subst i'.
      eapply st_bind; [apply u8to64_rel, Hd|intros t t' _]. apply st_ret. now split.
  - st. eapply st_bind; [apply sip_loop_rel; [exact Hd|now split]|].
    intros [s i] [s' i'] [[G1 G2] G3]. cbn [fst snd] in *. subst i'.
    eapply st_bind; [apply u8to64_rel, Hd|intros t t' _]. apply st_ret. now split.
Qed.
Lemma sip_hides c : hides (t_siphash24_Engine_dict c) sip_lo any.
Proof.
  split; cbn [t_siphash24_Engine_dict g_siphash24_Engine_dict te_default te_input te_finalize te_midstate te_from_midstate he_state he_mid].
  - now apply st_ret.
  - intros. now apply sip_input_rel.
  - intros. now apply st_ret.
  - intros. now apply st_ret.
  - intros. now apply st_ret.
Qed.

(** ** sha256t *)

Lemma sha256_from_midstate_rel c m m' n : wf_config c -> same_length m m' ->
  same_trace (lo Sha256) (t_sha256_Engine_from_midstate m n) (t_sha256_Engine_from_midstate m' n).
Proof. exact (sha256_from_rel c m m' n). Qed.
Lemma tag_hides c tag : wf_config c -> kind_real c (KTag tag) ->
  hides (t_sha256t_Engine_dict c (tlift (gen_tag_engine c tag))) (lo Sha256) (@same_length byte).
Proof.
  intros WF [Hl H8]. split;
    cbn [t_sha256t_Engine_dict g_sha256t_Engine_dict te_default te_input te_finalize te_midstate te_from_midstate he_state he_mid].
  - apply st_lift. rewrite tag_engine_gen by exact WF. destruct (tag_engine c tag) as [e|p] eqn:He; [|reflexivity].
    cbn [res_rel]. exact (ProofLeak.tag_lo c tag e WF Hl H8 He).
  - intros. now apply sha256_input_rel.
  - intros. now apply sha256_finalize_rel.
  - intros. now apply sha256_midstate_rel.
  - intros. now apply (sha256_from_midstate_rel c).
Qed.

(** ** HMAC *)

Definition hmac_lo {E} (R : he_state E -> he_state E -> Prop) (s s' : hmac_state E) : Prop :=
  R (iengine s) (iengine s') /\ R (oengine s) (oengine s').
Definition pair_lo {A} (M : A -> A -> Prop) (m m' : A * A) : Prop := M (fst m) (fst m') /\ M (snd m) (snd m').

Lemma xor_rel (pad key key' : bytes) (f g : byte -> byte -> byte) : same_length key key' ->
  same_trace (fun x y => same_length x y /\ length x = length pad)
    (t_zip_iter_mut pad key (fun a b => tret (f a b))) (t_zip_iter_mut pad key' (fun a b => tret (g a b))).
Proof.
  intros H. apply zip_rel with (P := any); [|reflexivity|now apply any_all]. intros. now apply st_ret.
Qed.

Section Hmac.
  Context (c : config) {E : HashEngine} (L : tengine E) (R : he_state E -> he_state E -> Prop)
    (M : he_mid E -> he_mid E -> Prop) (HL : hides L R M).

  Lemma hash_rel d d' : same_length d d' -> same_trace same_length (t_lib_HashEngine_hash L d) (t_lib_HashEngine_hash L d').
  Proof.
    intros H. unfold t_lib_HashEngine_hash, t_lib_HashEngine_new.
    eapply st_bind; [apply (hd_default _ _ _ HL)|intros s s' Hs].
    eapply st_bind; [apply (hd_input _ _ _ HL); [exact Hs|exact H]|intros t t' Ht]. now apply (hd_finalize _ _ _ HL).
  Qed.
  Lemma hash_chunks_rel l l' : Forall2 same_length l l' ->
    same_trace same_length (t_lib_HashEngine_hash_byte_chunks L l) (t_lib_HashEngine_hash_byte_chunks L l').
  Proof.
    intros H. unfold t_lib_HashEngine_hash_byte_chunks, t_lib_HashEngine_new.
    eapply st_bind; [apply (hd_default _ _ _ HL)|intros s s' Hs].
    eapply (st_bind _ _ R); [|intros t t' Ht; now apply (hd_finalize _ _ _ HL)].
    apply (each_rel _ _ same_length R); [|exact H|exact Hs]. intros x x' u u' Hx Hu. now apply (hd_input _ _ _ HL).
  Qed.

  Lemma hmac_new_rel key key' : same_length key key' ->
    same_trace (hmac_lo R) (t_hmac_Engine_new c L key) (t_hmac_Engine_new c L key').
  Proof.
    intros H. unfold t_hmac_Engine_new. cbv zeta. rewrite <- (same_length_len _ _ _ H). st.
    eapply st_bind; [apply (hd_default _ _ _ HL)|intros ie ie' Hi].
    eapply st_bind; [apply (hd_default _ _ _ HL)|intros oe oe' Ho].
    eapply (st_bind _ _ (fun p q => same_length (fst p) (fst q) /\ same_length (snd p) (snd q))).
    { apply st_if; intros _.
      - eapply st_bind; [apply hash_rel, H|intros h h' Hh].
        eapply st_bind; [apply xor_rel; exact Hh|intros i i' [Hx _]].
        eapply st_bind; [apply xor_rel; exact Hh|intros o o' [Hy _]]. now apply st_ret.
      - eapply st_bind; [apply xor_rel; exact H|intros i i' [Hx _]].
        eapply st_bind; [apply xor_rel; exact H|intros o o' [Hy _]]. now apply st_ret. }
    intros [ip op] [ip' op'] [Hip Hop]. cbn [fst snd iengine oengine] in *.
    eapply st_bind; [apply slice_to_rel, Hip|intros ib ib' Hib].
    eapply st_bind; [apply (hd_input _ _ _ HL); [exact Hi|exact Hib]|intros ie2 ie2' Hi2].
    eapply st_bind; [apply slice_to_rel, Hop|intros ob ob' Hob].
    eapply st_bind; [apply (hd_input _ _ _ HL); [exact Ho|exact Hob]|intros oe2 oe2' Ho2].
    apply st_ret. now split.
  Qed.

  Lemma hmac_hides : hides (t_hmac_Engine_dict c L) (hmac_lo R) (pair_lo M).
  Proof.
    split; cbn [t_hmac_Engine_dict te_default te_input te_finalize te_midstate te_from_midstate].
    - now apply hmac_new_rel.
    - intros s s' d d' [Hi Ho] Hd. unfold t_hmac_Engine_input. cbv zeta.
      eapply st_bind; [apply (hd_input _ _ _ HL); [exact Hi|exact Hd]|intros t t' Ht]. apply st_ret. now split.
    - intros s s' [Hi Ho]. unfold t_hmac_Engine_finalize. cbv zeta. cbn [oengine].
      eapply st_bind; [apply (hd_finalize _ _ _ HL), Hi|intros h h' Hh].
      eapply st_bind; [apply (hd_input _ _ _ HL); [exact Ho|exact Hh]|intros t t' Ht]. now apply (hd_finalize _ _ _ HL).
    - intros s s' [Hi Ho]. unfold t_hmac_Engine_midstate.
      eapply st_bind; [apply (hd_midstate _ _ _ HL), Hi|intros h h' Hh].
      eapply st_bind; [apply (hd_midstate _ _ _ HL), Ho|intros t t' Ht]. apply st_ret. now split.
    - intros m m' n [Hi Ho]. unfold t_hmac_Engine_from_midstate.
      eapply st_bind; [apply (hd_from _ _ _ HL), Hi|intros h h' Hh].
      eapply st_bind; [apply (hd_from _ _ _ HL), Ho|intros t t' Ht]. apply st_ret. now split.
  Qed.

  Lemma acts_rel l : forall l' s s', R s s' -> Forall2 same_act l l' ->
    same_trace R (trace_acts L s l) (trace_acts L s' l').
  Proof.
    induction l as [|x l IH]; intros l' s s' Hs Hl; inversion Hl as [|? y ? l2 Hxy Hl2]; subst; cbn [trace_acts]; [now apply st_ret|].
    destruct x as [d| |n], y as [d'| |n']; cbn [same_act] in Hxy; try contradiction.
    - eapply st_bind; [apply (hd_input _ _ _ HL); [exact Hs|exact Hxy]|intros t t' Ht]. now apply IH.
    - eapply st_bind; [apply (hd_midstate _ _ _ HL), Hs|intros m m' _]. now apply IH.
    - subst n'. eapply st_bind; [apply (hd_midstate _ _ _ HL), Hs|intros m m' Hm].
      eapply st_bind; [apply (hd_from _ _ _ HL), Hm|intros t t' Ht]. now apply IH.
  Qed.
End Hmac.

Lemma kind_hides c k : wf_config c -> kind_real c k -> exists R M, hides (trace_kind c k) R M.
Proof.
  intros WF. induction k as [a| |tag|k IH]; intros Hk; cbn [trace_kind gen_kind].
  - now apply algo_hides.
  - exists sip_lo, any. apply sip_hides.
  - exists (lo Sha256), (@same_length byte). now apply tag_hides.
  - destruct (IH Hk) as (R & M & HR). exists (hmac_lo R), (pair_lo M). now apply hmac_hides.
Qed.

Lemma run_rel E (L : tengine E) R M m m' l l' : hides L R M -> same_trace R m m' -> Forall2 same_act l l' ->
  same_trace same_length (let! s := m in let! s := trace_acts L s l in te_finalize L s)
    (let! s := m' in let! s := trace_acts L s l' in te_finalize L s).
Proof.
  intros H Hm Hl. eapply st_bind; [exact Hm|intros s s' Hs].
  eapply st_bind; [apply (acts_rel L R M H); [exact Hs|exact Hl]|intros t t' Ht]. now apply (hd_finalize _ _ _ H).
Qed.

Lemma trace_lengths c o o' l l' : wf_config c -> origin_real c o -> same_public o o' -> Forall2 same_act l l' ->
  events (trace_run c o l) = events (trace_run c o' l') /\
  same_shape (result (trace_run c o l)) (result (trace_run c o' l')).
Proof.
  intros WF Ho Hp Hl. change (same_trace same_length (trace_run c o l) (trace_run c o' l')).
  destruct o as [k|k key|k0 k1], o' as [k'|k' key'|k0' k1']; cbn [same_public] in Hp; try contradiction;
    cbn [origin_real] in Ho.
  - subst k'. destruct (kind_hides c k WF Ho) as (R & M & HR).
    apply (run_rel _ (trace_kind c k) R M); [exact HR|apply (hd_default _ _ _ HR)|exact Hl].
  - destruct Hp as [<- Hk]. destruct (kind_hides c k WF (proj1 Ho)) as (R & M & HR).
    apply (run_rel _ (t_hmac_Engine_dict c (trace_kind c k)) (hmac_lo R) (pair_lo M));
      [now apply hmac_hides|now apply (hmac_new_rel _ _ R M)|exact Hl].
  - apply (run_rel _ (t_siphash24_Engine_dict c) sip_lo any); [apply sip_hides| |exact Hl]. now apply st_ret.
Qed.

Lemma er_to_u64 e : snd (t_siphash24_Hash_from_engine_to_u64 e) = Ok (g_siphash24_Hash_from_engine_to_u64 e).
Proof.
  unfold t_siphash24_Hash_from_engine_to_u64, g_siphash24_Hash_from_engine_to_u64. cbv zeta.
  cbn [tret fst snd]. reflexivity.
Qed.
Lemma er_keyed c k0 k1 d :
  snd (t_siphash24_Hash_hash_with_keys c k0 k1 d) = g_siphash24_Hash_hash_with_keys c k0 k1 d /\
  snd (t_siphash24_Hash_hash_to_u64_with_keys c k0 k1 d) = g_siphash24_Hash_hash_to_u64_with_keys c k0 k1 d.
Proof.
  split.
  - unfold t_siphash24_Hash_hash_with_keys, g_siphash24_Hash_hash_with_keys, t_siphash24_Engine_with_keys, g_siphash24_Engine_with_keys.
    cbv zeta. cbn [tbind tret fst snd bind]. now rewrite er_sip_input.
  - unfold t_siphash24_Hash_hash_to_u64_with_keys, g_siphash24_Hash_hash_to_u64_with_keys, t_siphash24_Engine_with_keys, g_siphash24_Engine_with_keys.
    cbv zeta. cbn [tbind tret fst snd bind]. rewrite er_sip_input.
    destruct (g_siphash24_Engine_input _ _ _) as [e|q]; cbn [bind]; [apply er_to_u64|reflexivity].
Qed.
Lemma keyed_rel c k0 k1 k0' k1' d d' : same_length d d' ->
  fst (t_siphash24_Hash_hash_with_keys c k0 k1 d) = fst (t_siphash24_Hash_hash_with_keys c k0' k1' d') /\
  fst (t_siphash24_Hash_hash_to_u64_with_keys c k0 k1 d) = fst (t_siphash24_Hash_hash_to_u64_with_keys c k0' k1' d').
Proof.
  intros H. split.
  - refine (proj1 (_ : same_trace any _ _)). unfold t_siphash24_Hash_hash_with_keys.
    eapply (st_bind _ _ sip_lo); [now apply st_ret|intros e e' He].
    eapply st_bind; [apply sip_input_rel; [exact He|exact H]|intros f f' Hf]. now apply st_ret.
  - refine (proj1 (_ : same_trace any _ _)). unfold t_siphash24_Hash_hash_to_u64_with_keys.
    eapply (st_bind _ _ sip_lo); [now apply st_ret|intros e e' He].
    eapply st_bind; [apply sip_input_rel; [exact He|exact H]|intros f f' Hf]. now apply st_ret.
Qed.
Lemma trace_keyed c k0 k1 k0' k1' d d' : length d = length d' ->
  let r := t_siphash24_Hash_hash_with_keys c in let u := t_siphash24_Hash_hash_to_u64_with_keys c in
  result (r k0 k1 d) = g_siphash24_Hash_hash_with_keys c k0 k1 d /\ events (r k0 k1 d) = events (r k0' k1' d') /\
  result (u k0 k1 d) = g_siphash24_Hash_hash_to_u64_with_keys c k0 k1 d /\ events (u k0 k1 d) = events (u k0' k1' d').
Proof.
  intros H. cbv zeta. unfold result, events.
  destruct (er_keyed c k0 k1 d) as [H1 H2], (keyed_rel c k0 k1 k0' k1' d d' H) as [H3 H4].
  split; [exact H1|]. split; [exact H3|]. split; [exact H2|exact H4].
Qed.
Lemma trace_digest c k d d' : wf_config c -> kind_real c k -> length d = length d' ->
  result (t_lib_HashEngine_hash (trace_kind c k) d) = g_lib_HashEngine_hash (gen_kind c k) d /\
  events (t_lib_HashEngine_hash (trace_kind c k) d) = events (t_lib_HashEngine_hash (trace_kind c k) d').
Proof.
  intros WF Hk H. split; [apply er_hash, kind_erases|]. destruct (kind_hides c k WF Hk) as (R & M & HR).
  exact (proj1 (hash_rel _ R M HR d d' H)).
Qed.

Lemma trace_hash c k l l' : wf_config c -> kind_real c k -> map (@length byte) l = map (@length byte) l' ->
  result (t_lib_HashEngine_hash_byte_chunks (trace_kind c k) l) = g_lib_HashEngine_hash_byte_chunks (gen_kind c k) l /\
  events (t_lib_HashEngine_hash_byte_chunks (trace_kind c k) l) = events (t_lib_HashEngine_hash_byte_chunks (trace_kind c k) l').
Proof.
  intros WF Hk H. split; [apply er_chunks, kind_erases|]. destruct (kind_hides c k WF Hk) as (R & M & HR).
  refine (proj1 (hash_chunks_rel _ R M HR l l' _)). clear -H. revert l' H.
  induction l as [|x l IH]; intros [|y l'] H; try discriminate H; constructor; injection H as H1 H2; [exact H1|auto].
Qed.

Lemma trace_blocks c a e e' : wf_config c -> typed a e -> typed a e' ->
  result (trace_block c a e) = gen_block c a e /\
  events (trace_block c a e) = events (trace_block c a e').
Proof.
  intros WF [Hb Hh] [Hb' Hh']. split.
  - destruct a; [apply er_sha1|apply er_sha256|apply er_sha512_soft|apply er_sha512_soft|apply er_sha512_soft|apply er_ripemd].
  - exact (block_trace c a e e' WF Hb (proj1 Hh) Hb' (proj1 Hh')).
Qed.

(** ** fixed_time_eq *)

Lemma er_cmp a b : snd (t_cmp_fixed_time_eq a b) = g_cmp_fixed_time_eq a b.
Proof. er_def t_cmp_fixed_time_eq g_cmp_fixed_time_eq. Qed.

Lemma index_rel A (l l' : list A) i : same_length l l' -> same_trace any (t_index l i) (t_index l' i).
Proof.
  intros H. apply st_record. unfold index. unfold same_length in H.
  destruct (nth_error l (N.to_nat i)) eqn:E.
  - assert (N.to_nat i < length l)%nat by (apply nth_error_Some; congruence).
    destruct (nth_error l' (N.to_nat i)) eqn:E'; [exact I|]. apply nth_error_None in E'. lia.
  - apply nth_error_None in E. destruct (nth_error l' (N.to_nat i)) eqn:E'; [|reflexivity].
    assert (N.to_nat i < length l')%nat by (apply nth_error_Some; congruence). lia.
Qed.

Lemma cmp_lengths a b a' b' : length a = length a' -> length b = length b' ->
  events (t_cmp_fixed_time_eq a b) = events (t_cmp_fixed_time_eq a' b').
Proof.
  intros Ha Hb. refine (proj1 (_ : same_trace any (t_cmp_fixed_time_eq a b) (t_cmp_fixed_time_eq a' b'))).
  unfold t_cmp_fixed_time_eq. cbv zeta.
  rewrite <- (same_length_len _ a a' Ha), <- (same_length_len _ b b' Hb). st.
  eapply st_bind; [apply slice_to_rel, Ha|intros l l' Hl]. eapply st_bind; [apply slice_to_rel, Hb|intros r r' Hr].
  eapply st_bind; [|intros x x' _; now apply st_ret].
  apply (for_rel _ any); [|exact I]. intros i s s' _.
  eapply st_bind; [apply index_rel, Hl|intros x x' _]. eapply st_bind; [apply index_rel, Hr|intros y y' _]. now apply st_ret.
Qed.

Lemma cmp_exact a b : length a = length b ->
  events (t_cmp_fixed_time_eq a b) =
  [EBranch true; ESlice 0 (len a); ESlice 0 (len a)] ++
  flat_map (fun i => [EBranch true; ERead (N.of_nat i) 1; ERead (N.of_nat i) 1]) (seq 0 (length a)) ++ [EBranch false].
Proof.
  intros H. unfold events, t_cmp_fixed_time_eq. cbv zeta.
  assert (Hl : len b = len a) by (unfold len; congruence). rewrite Hl, N.eqb_refl.
  assert (SA : slice_to (len a) a = Ok a).
  { unfold slice_to, len. rewrite N.leb_refl, Nat2N.id, firstn_all. reflexivity. }
  assert (SB : slice_to (len a) b = Ok b).
  { rewrite <- Hl. unfold slice_to, len. rewrite N.leb_refl, Nat2N.id, firstn_all. reflexivity. }
  cbn [tbind t_assert record fst snd assert bind app]. unfold t_slice_to, record. rewrite SA, SB. cbn [tbind fst snd bind app].
  do 3 f_equal. rewrite N.sub_0_r. unfold t_for_loop. cbn [fst snd].
  match goal with |- ?x ++ ?y = _ => replace y with (@nil event) end.
  2: { destruct (for_loop _ _ _ _); reflexivity. }
  rewrite app_nil_r. replace (N.to_nat (len a)) with (length a) by (unfold len; lia).
  assert (G : forall n i r, (i + n <= length a)%nat ->
    for_trace n (N.of_nat i) (fun v_i v_r => let! t3 := t_index a v_i in let! t4 := t_index b v_i in
      tret (ModelCmp.u8_or v_r (u8_xor t3 t4))) r =
    flat_map (fun i => [EBranch true; ERead (N.of_nat i) 1; ERead (N.of_nat i) 1]) (seq i n) ++ [EBranch false]).
  { induction n as [|n IH]; intros i r Hn; [reflexivity|].
    destruct (nth_error a i) as [x|] eqn:Ex; [|apply nth_error_None in Ex; lia].
    destruct (nth_error b i) as [y|] eqn:Ey; [|apply nth_error_None in Ey; lia].
    cbn [for_trace seq flat_map]. unfold t_index, record, index. rewrite !Nat2N.id, Ex, Ey. cbn [tbind fst snd bind app tret].
    replace (N.of_nat i + 1) with (N.of_nat (S i)) by lia. do 3 f_equal. apply IH. lia. }
  apply (G (length a) 0%nat x00). lia.
Qed.
