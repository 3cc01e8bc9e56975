(** Generated cmp.rs, the provided methods of lib.rs, hmac.rs and sha256t.rs;
    agreement of all engines. *)
From Coq Require Import Arith Lia.
From Verif Require Import Base ModelEngine ModelSha2Round TablesSha2 ModelSha256 ModelSha512 ModelSha1 ModelRipemd
  ModelHmac ModelCmp ModelAll SpecMD GenBase GenLib GenCmp GenSha1 GenSha256 GenSha512 GenSha384 GenRipemd GenHmac
  GenSha256t SpecGen ProofBase ProofMD ProofGenBase ProofGenEngine
  ProofGenSha1E ProofGenSha256 ProofGenSha512 ProofGenRipemdE.

(** ** cmp.rs *)
Lemma outcome_bind {A B} (x : traced A) (f : A -> traced B) :
  outcome (tbind x f) = let* a := outcome x in outcome (f a).
Proof.
  unfold outcome. destruct x as [l [a|p]]; cbn [tbind snd bind]; [|reflexivity]. destruct (f a). reflexivity.
Qed.

Lemma eq_loop_gen (lhs rhs : bytes) n : forall i r,
  outcome (eq_loop n i lhs rhs r) =
  for_loop n i (fun v_i v_r =>
      let v_rs := v_r in
      let* t3 := index lhs v_i in
      let* t4 := index rhs v_i in
      let v_rs := ModelCmp.u8_or v_rs (u8_xor t3 t4) in
      let v_r := v_rs in
      Ok v_r) r.
Proof.
  induction n as [|n IH]; intros i r; cbn [eq_loop for_loop]; [reflexivity|].
  rewrite outcome_bind. unfold eq_step. repeat rewrite outcome_bind. cbv zeta. cbn [outcome emit snd bind].
  unfold outcome at 1. unfold lift at 1. cbn [snd].
  destruct (index lhs i); [|reflexivity]. cbn [bind]. repeat rewrite outcome_bind. cbn [outcome emit lift snd bind].
  repeat rewrite outcome_bind. cbn [outcome emit lift snd bind].
  destruct (index rhs i); [|reflexivity]. cbn [bind]. repeat (rewrite outcome_bind; cbn [outcome emit lift snd bind]).
  cbn [tret snd bind]. apply IH.
Qed.

Theorem cmp_gen a b : g_cmp_fixed_time_eq a b = outcome (fixed_time_eq a b).
Proof.
  unfold g_cmp_fixed_time_eq, fixed_time_eq. cbv zeta.
  rewrite outcome_bind. cbn [outcome lift snd]. apply bind_ext. intros u _.
  rewrite outcome_bind. cbn [outcome lift snd]. apply bind_ext. intros lhs _.
  rewrite outcome_bind. cbn [outcome lift snd]. apply bind_ext. intros rhs _.
  rewrite outcome_bind, eq_loop_gen. rewrite N.sub_0_r. apply bind_ext. intros r _.
  rewrite outcome_bind. unfold eq_fold at 1. cbn [tbind emit outcome snd app bind tret].
  rewrite outcome_bind. unfold eq_fold at 1. cbn [tbind emit outcome snd app bind tret].
  rewrite outcome_bind. unfold eq_fold at 1. cbn [tbind emit outcome snd app bind tret].
  match goal with |- Ok (b2n (u8_and ?t _) =? _) = _ => generalize t end.
  intros t. destruct t; reflexivity.
Qed.

(** ** lib.rs: the provided methods *)
Theorem lib_hash_gen E m : g_lib_HashEngine_hash E m = he_hash E m.
Proof. reflexivity. Qed.

Lemma for_each_inputs E l : forall s,
  for_each l (fun v_slice v_engine => he_input E v_engine v_slice) s = he_inputs E s l.
Proof. induction l as [|d l IH]; intros s; [reflexivity|]. cbn [for_each he_inputs]. apply bind_ext. intros. apply IH. Qed.

Theorem lib_chunks_gen E l : g_lib_HashEngine_hash_byte_chunks E l = he_hash_byte_chunks E l.
Proof.
  unfold g_lib_HashEngine_hash_byte_chunks, he_hash_byte_chunks, g_lib_HashEngine_new.
  apply bind_ext. intros s _. now rewrite for_each_inputs.
Qed.

(** ** hmac.rs: the text for a given inner engine *)
Lemma xor_zip_gen pad key :
  zip_iter_mut pad key (fun v_b_i v_b_h => let v_b_i := u8_xor v_b_i v_b_h in Ok v_b_i) = Ok (xor_zip pad key).
Proof.
  revert key. induction pad as [|p pad IH]; intros [|k key]; try reflexivity.
  cbn [zip_iter_mut xor_zip bind]. rewrite IH. reflexivity.
Qed.

Theorem hmac_new_gen c E key : g_hmac_Engine_new c E key = hmac_new c E key.
Proof.
  unfold g_hmac_Engine_new, hmac_new. apply bind_ext. intros u _. cbv zeta.
  apply bind_ext. intros i _. apply bind_ext. intros o _. rewrite !xor_zip_gen. cbn [bind iengine oengine].
  destruct (_ <? _).
  - rewrite lib_hash_gen. rewrite !bind_bind. apply bind_ext. intros h _. rewrite !xor_zip_gen. reflexivity.
  - reflexivity.
Qed.

Theorem hmac_dict_gen c E : g_hmac_Engine_dict c E = hmac_engine c E.
Proof.
  unfold g_hmac_Engine_dict, hmac_engine, g_hmac_Engine_default, g_hmac_Engine_input, g_hmac_Engine_n_bytes_hashed,
    g_hmac_Engine_finalize, g_hmac_Engine_midstate, g_hmac_Engine_from_midstate.
  rewrite hmac_new_gen. reflexivity.
Qed.

(** ** Digests are arrays of at most 64 bytes *)
Lemma zip_copy_len vals n : forall ret r, zip_copy vals n ret = Ok r -> length r = length ret.
Proof.
  induction vals as [|v vals IH]; intros ret r; cbn [zip_copy]; [congruence|].
  destruct (Nat.ltb_spec (length ret) n); [congruence|].
  unfold copy_from_slice. destruct (_ =? _) eqn:El; [|discriminate]. cbn [bind].
  destruct (zip_copy vals n (skipn n ret)) as [r'|] eqn:Ez; [|discriminate]. cbn [bind]. intros E. apply Ok_inj in E. subst r.
  apply IH in Ez. apply N.eqb_eq in El. unfold len in El. rewrite skipn_length in Ez. rewrite firstn_length in El.
  rewrite app_length. lia.
Qed.
Lemma small_slice c (d : bytes) : wf_config c -> (length d <= 64)%nat -> slice c d.
Proof. intros WF H. unfold slice, len. destruct WF as [-> | [-> | ->]]; lia. Qed.
Lemma midstate_len to k n e r : midstate_bytes to k n e = Ok r -> length r = N.to_nat n.
Proof. unfold midstate_bytes. intros E. apply zip_copy_len in E. unfold array in E. now rewrite repeat_length in E. Qed.
Lemma algo_digest_len c a e d : he_finalize (algo_engine c a) e = Ok d -> (length d <= 64)%nat.
Proof.
  assert (X : forall B pb R tail to k n (e : engine) d,
    (let* e := finalize_pad c B pb R tail e in midstate_bytes to k n e) = Ok d -> length d = N.to_nat n).
  { intros B pb R tail to k n e0 d0 E. destruct (finalize_pad c B pb R tail e0) as [e1|]; [|discriminate]. cbn [bind] in E.
    exact (midstate_len _ _ _ _ _ E). }
  assert (Y : forall n (e : engine) d, truncated_finalize c n e = Ok d -> length d = N.to_nat n).
  { intros n e0 d0. unfold truncated_finalize. destruct (sha512_finalize c e0); [|discriminate]. cbn [bind].
    destruct (slice_to n a0) as [t|]; [|discriminate]. cbn [bind]. unfold copy_from_slice.
    destruct (N.eqb_spec (len t) (len (array x00 n))) as [El|]; [|discriminate]. intros E. apply Ok_inj in E. subst d0.
    unfold len, array in El. rewrite repeat_length in El. lia. }
  destruct a; cbn [algo_engine sha1_engine sha256_engine sha384_engine sha512_engine sha512_256_engine ripemd160_engine he_finalize]; intros E.
  3,5: rewrite (Y _ _ _ E); cbn; lia.
  - rewrite (X 64 (sha1_process_block c) 8 _ to_be_bytes 4%nat 20 _ _ E); cbn; lia.
  - rewrite (X 64 (sha256_process_block c) 8 _ to_be_bytes 4%nat 32 _ _ E); cbn; lia.
  - rewrite (X 128 (sha512_process_block c) 16 _ to_be_bytes 8%nat 64 _ _ E); cbn; lia.
  - rewrite (X 64 (ripemd_process_block c) 8 _ to_le_bytes 4%nat 20 _ _ E); cbn; lia.
Qed.

(** ** Agreement *)
Lemma rel_of_eq {A} (P : A -> Prop) (x y : res A) : x = y -> (forall v, y = Ok v -> P v) ->
  res_rel (fun s t => s = t /\ P s) x y.
Proof. intros -> H. destruct y as [v|p]; cbn [res_rel]; [|reflexivity]. split; [reflexivity|now apply H]. Qed.
Lemma rel_refl {A} (x : res A) : res_rel eq x x.
Proof. now destruct x. Qed.
Lemma rel_eq {A} (x y : res A) : x = y -> res_rel eq x y.
Proof. intros ->. apply rel_refl. Qed.

Lemma sha256_agree c : wf_config c ->
  forall (D D' : res engine), D = D' -> (forall e, D' = Ok e -> typed Sha256 e) ->
  agree c (g_sha256t_Engine_dict c D) (sha256t_engine c D') (fun s t : engine => s = t /\ typed Sha256 s)
    (fun m m' : bytes => m = m').
Proof.
  intros WF D D' HD HT. constructor;
    cbn [he_block_size he_default he_input he_n_bytes_hashed he_finalize he_midstate he_from_midstate he_state he_mid
         g_sha256t_Engine_dict sha256t_engine].
  - reflexivity.
  - apply rel_of_eq; [exact HD|exact HT].
  - intros s t d [-> T] _. apply rel_of_eq; [exact (sha256_input_gen c WF t d T)|].
    intros v E. exact (sha256_input_typed c t d v T E).
  - intros s t [-> _]. reflexivity.
  - intros s t [-> T]. exact (sha256_finalize_gen c WF t T).
  - intros s t d [-> T] E. apply small_slice; [exact WF|]. apply (algo_digest_len c Sha256 t).
    refine (eq_trans (eq_sym _) E). exact (sha256_finalize_gen c WF t T).
  - intros s t [-> T]. apply rel_eq. exact (sha256_midstate_gen t).
  - intros m m' n ->. apply rel_of_eq; [exact (sha256_from_midstate_gen m' n)|].
    intros v E. exact (sha256_from_midstate_typed m' n v E).
Qed.

Theorem engines_agree c a : wf_config c -> agree c (gen_engine c a) (algo_engine c a) (gen_rel c a) (gen_mid c a).
Proof.
  intros WF. destruct a; (constructor; cbn [gen_engine algo_engine gen_rel gen_mid];
  cbn [he_default he_input he_n_bytes_hashed he_finalize he_midstate he_from_midstate he_state he_mid
    g_sha1_Engine_dict g_sha256_Engine_dict g_sha384_Engine_dict g_sha512_Engine_dict g_sha512_256_Engine_dict
    g_ripemd160_Engine_dict sha1_engine sha256_engine sha384_engine sha512_engine sha512_256_engine ripemd160_engine];
  [reflexivity| | | | | | |]).
  (* default *)
  1: exact (conj eq_refl sha1_default_typed).
  7: exact (conj eq_refl sha256_default_typed).
  13: exact (conj eq_refl sha384_default_typed).
  19: exact (conj eq_refl sha512_default_typed).
  25: exact (conj eq_refl sha512_256_default_typed).
  31: exact (conj eq_refl ripemd_default_typed).
  (* n_bytes_hashed *)
  all: try (intros s t [-> _]; reflexivity).
  (* input *)
  all: try (intros s t d [-> T] _; apply rel_of_eq;
    [first [exact (sha1_input_gen c t d T)|exact (sha256_input_gen c WF t d T)
           |exact (sha512_input_gen c t d T)|exact (ripemd_input_gen c t d T)]
    |intros v E; first [exact (sha1_input_typed c t d v T E)|exact (sha256_input_typed c t d v T E)
           |exact (sha512_input_typed c t d v T E)|exact (ripemd_input_typed c t d v T E)]]).
  (* finalize *)
  all: try (intros s t [-> T]; first [exact (sha1_finalize_gen c t T)|exact (sha256_finalize_gen c WF t T)
     |exact (sha384_finalize_gen c WF t T)|exact (sha512_256_finalize_gen c WF t T)
     |exact (sha512_finalize_gen c WF t T)|exact (ripemd_finalize_gen c t T)]).
  (* digest *)
  all: try (intros s t d [-> T] E; apply small_slice; [exact WF|];
    match type of E with
    | g_sha1_Engine_finalize _ _ = _ => apply (algo_digest_len c Sha1 t); refine (eq_trans (eq_sym _) E); exact (sha1_finalize_gen c t T)
    | g_sha256_Engine_finalize _ _ = _ => apply (algo_digest_len c Sha256 t); refine (eq_trans (eq_sym _) E); exact (sha256_finalize_gen c WF t T)
    | g_sha384_Engine_finalize _ _ = _ => apply (algo_digest_len c Sha384 t); refine (eq_trans (eq_sym _) E); exact (sha384_finalize_gen c WF t T)
    | g_sha512_Engine_finalize _ _ = _ => apply (algo_digest_len c Sha512 t); refine (eq_trans (eq_sym _) E); exact (sha512_finalize_gen c WF t T)
    | g_sha512_256_Engine_finalize _ _ = _ => apply (algo_digest_len c Sha512_256 t); refine (eq_trans (eq_sym _) E); exact (sha512_256_finalize_gen c WF t T)
    | g_ripemd160_Engine_finalize _ _ = _ => apply (algo_digest_len c Ripemd160 t); refine (eq_trans (eq_sym _) E); exact (ripemd_finalize_gen c t T)
    end).
  (* midstate *)
  all: try (intros s t [-> T]; apply rel_eq; first [exact (sha1_midstate_gen t)|exact (sha256_midstate_gen t)
     |exact (sha512_midstate_gen t)|exact (ripemd_midstate_gen t)]).
  (* from_midstate *)
  all: intros m m' n ->; apply rel_of_eq;
    [first [exact (sha1_from_midstate_gen m' n)|exact (sha256_from_midstate_gen m' n)
           |exact (sha512_from_midstate_gen m' n)|exact (ripemd_from_midstate_gen m' n)]
    |intros v E; first [exact (sha1_from_midstate_typed m' n v E)|exact (sha256_from_midstate_typed m' n v E)
           |exact (sha512_from_midstate_typed m' n v E)|exact (ripemd_from_midstate_typed m' n v E)]].
Qed.

(** ** HMAC over engines that agree *)
Lemma rel_bind {A B A' B'} (R : A -> B -> Prop) (R' : A' -> B' -> Prop) x y f g :
  res_rel R x y -> (forall a b, x = Ok a -> y = Ok b -> R a b -> res_rel R' (f a) (g b)) -> res_rel R' (bind x f) (bind y g).
Proof. destruct x, y; cbn [res_rel bind]; intros H K; try contradiction; [now apply K|exact H]. Qed.
Lemma rel_eq_inv {A} (x y : res A) : res_rel eq x y -> x = y.
Proof. destruct x, y; cbn [res_rel]; try contradiction; now intros ->. Qed.
Lemma eq_bind {A B C} (R : A -> B -> Prop) (x : res A) (y : res B) (f : A -> res C) (g : B -> res C) :
  res_rel R x y -> (forall a b, x = Ok a -> y = Ok b -> R a b -> f a = g b) -> bind x f = bind y g.
Proof. destruct x, y; cbn [res_rel bind]; intros H K; try contradiction; [now apply K|now subst]. Qed.

Section Hmac.
  Context (c : config) (WF : wf_config c) (E F : HashEngine) (R : he_state E -> he_state F -> Prop)
    (M : he_mid E -> he_mid F -> Prop) (AG : agree c E F R M).

  Lemma agree_hash m : slice c m -> he_hash E m = he_hash F m.
  Proof.
    intros Hm. unfold he_hash. apply (eq_bind R); [exact (ag_default _ _ _ _ _ AG)|]. intros s t _ _ H.
    apply (eq_bind R); [exact (ag_input _ _ _ _ _ AG s t m H Hm)|]. intros s' t' _ _ H'.
    exact (ag_finalize _ _ _ _ _ AG s' t' H').
  Qed.
  Lemma agree_inputs l : Forall (slice c) l -> forall s t, R s t -> res_rel R (he_inputs E s l) (he_inputs F t l).
  Proof.
    induction 1 as [|d l Hd _ IH]; intros s t H; cbn [he_inputs]; [exact H|].
    apply (rel_bind R); [exact (ag_input _ _ _ _ _ AG s t d H Hd)|]. intros. now apply IH.
  Qed.
  Lemma agree_chunks l : Forall (slice c) l -> he_hash_byte_chunks E l = he_hash_byte_chunks F l.
  Proof.
    intros Hl. unfold he_hash_byte_chunks. apply (eq_bind R); [exact (ag_default _ _ _ _ _ AG)|]. intros s t _ _ H.
    apply (eq_bind R); [exact (agree_inputs l Hl s t H)|]. intros s' t' _ _ H'.
    exact (ag_finalize _ _ _ _ _ AG s' t' H').
  Qed.
  Lemma digest_hash m d : slice c m -> he_hash E m = Ok d -> slice c d.
  Proof.
    intros Hm. unfold he_hash. destruct (he_default E) as [s|] eqn:Es; [|discriminate]. cbn [bind].
    pose proof (ag_default _ _ _ _ _ AG) as H. rewrite Es in H. destruct (he_default F) as [t|]; [|contradiction].
    pose proof (ag_input _ _ _ _ _ AG s t m H Hm) as H1.
    destruct (he_input E s m) as [s1|]; [|discriminate]. destruct (he_input F t m) as [t1|]; [|contradiction]. cbn [bind].
    exact (ag_digest _ _ _ _ _ AG s1 t1 d H1).
  Qed.

  Lemma pad_slice n (l b : bytes) : (length l <= 128)%nat -> slice_to n l = Ok b -> slice c b.
  Proof.
    intros Hl. unfold slice_to. destruct (_ <=? _); [|discriminate]. intros X. apply Ok_inj in X. subst b.
    unfold slice, len. rewrite firstn_length. destruct WF as [-> | [-> | ->]]; lia.
  Qed.
  Lemma xor_zip_len pad : forall key, length (xor_zip pad key) = length pad.
  Proof. induction pad as [|p pad IH]; intros [|k key]; cbn [xor_zip length]; try reflexivity. now rewrite IH. Qed.

  Theorem hmac_new_agree key : slice c key ->
    res_rel (hmac_rel R) (g_hmac_Engine_new c E key) (hmac_new c F key).
  Proof.
    intros Hk. rewrite hmac_new_gen. unfold hmac_new. rewrite <- (ag_block _ _ _ _ _ AG).
    apply (rel_bind eq); [apply rel_refl|]. intros u u' _ _ _. cbv zeta.
    apply (rel_bind R); [exact (ag_default _ _ _ _ _ AG)|]. intros i i' _ _ Hi.
    apply (rel_bind R); [exact (ag_default _ _ _ _ _ AG)|]. intros o o' _ _ Ho.
    rewrite <- (agree_hash key Hk).
    apply (rel_bind eq); [apply rel_refl|]. intros [ip op] [ip' op'] Ep _ EE. injection EE as <- <-.
    assert (HL : (length ip <= 128)%nat /\ (length op <= 128)%nat).
    { destruct (_ <? _) in Ep.
      - destruct (he_hash E key); [|discriminate]. cbn [bind] in Ep. apply Ok_inj, pair_equal_spec in Ep; destruct Ep as [<- <-].
        rewrite !xor_zip_len. unfold array. rewrite !repeat_length. split; apply Nat.le_refl.
      - apply Ok_inj, pair_equal_spec in Ep; destruct Ep as [<- <-]. rewrite !xor_zip_len. unfold array. rewrite !repeat_length. split; apply Nat.le_refl. }
    destruct HL as [HLi HLo].
    apply (rel_bind eq); [apply rel_refl|]. intros ib ib' Eib _ <-. apply pad_slice in Eib; [|exact HLi].
    apply (rel_bind R); [exact (ag_input _ _ _ _ _ AG i i' ib Hi Eib)|]. intros i1 i1' _ _ Hi1.
    apply (rel_bind eq); [apply rel_refl|]. intros ob ob' Eob _ <-. apply pad_slice in Eob; [|exact HLo].
    apply (rel_bind R); [exact (ag_input _ _ _ _ _ AG o o' ob Ho Eob)|]. intros o1 o1' _ _ Ho1.
    split; assumption.
  Qed.

  Theorem hmac_agree : agree c (g_hmac_Engine_dict c E) (hmac_engine c F) (hmac_rel R) (pair_rel M).
  Proof.
    constructor;
    cbn [he_block_size he_default he_input he_n_bytes_hashed he_finalize he_midstate he_from_midstate he_state he_mid
         g_hmac_Engine_dict hmac_engine].
    - exact (ag_block _ _ _ _ _ AG).
    - apply hmac_new_agree. unfold slice, len. cbn. destruct WF as [-> | [-> | ->]]; reflexivity.
    - intros s t d [Hi Ho] Hd. unfold g_hmac_Engine_input.
      apply (rel_bind R); [exact (ag_input _ _ _ _ _ AG _ _ d Hi Hd)|]. intros i i' _ _ Hi'. split; assumption.
    - intros s t [Hi Ho]. exact (ag_count _ _ _ _ _ AG _ _ Hi).
    - intros s t [Hi Ho]. unfold g_hmac_Engine_finalize. rewrite <- (ag_finalize _ _ _ _ _ AG _ _ Hi).
      apply bind_ext. intros d Ed. pose proof (ag_digest _ _ _ _ _ AG _ _ d Hi Ed) as Hd.
      apply (eq_bind R); [exact (ag_input _ _ _ _ _ AG _ _ d Ho Hd)|]. intros o o' _ _ Ho'.
      exact (ag_finalize _ _ _ _ _ AG o o' Ho').
    - intros s t d [Hi Ho]. unfold g_hmac_Engine_finalize.
      destruct (he_finalize E (iengine s)) as [h|] eqn:Eh; [|discriminate]. cbn [bind].
      pose proof (ag_digest _ _ _ _ _ AG _ _ h Hi Eh) as Hh. pose proof (ag_input _ _ _ _ _ AG _ _ h Ho Hh) as H1.
      destruct (he_input E (oengine s) h) as [o|]; [|discriminate]. destruct (he_input F (oengine t) h) as [o'|]; [|contradiction].
      cbn [bind oengine]. exact (ag_digest _ _ _ _ _ AG o o' d H1).
    - intros s t [Hi Ho]. unfold g_hmac_Engine_midstate.
      apply (rel_bind M); [exact (ag_midstate _ _ _ _ _ AG _ _ Hi)|]. intros m m' _ _ Hm.
      apply (rel_bind M); [exact (ag_midstate _ _ _ _ _ AG _ _ Ho)|]. intros m1 m1' _ _ Hm1. split; assumption.
    - intros m m' n [Hi Ho]. unfold g_hmac_Engine_from_midstate.
      apply (rel_bind R); [exact (ag_from _ _ _ _ _ AG _ _ n Hi)|]. intros i i' _ _ Hi'.
      apply (rel_bind R); [exact (ag_from _ _ _ _ _ AG _ _ n Ho)|]. intros o o' _ _ Ho'. split; assumption.
  Qed.
End Hmac.
