(** With overflow checks every digest that is returned is the right one. *)
From Coq Require Import NArith ZArith List Bool Lia.
From Coq Require Import ZifyBool ZifyNat ZifyN.
From Verif Require Import Base SpecBase SpecMD SpecMac ModelEngine ModelSha256 ModelSip ModelHmac ModelAll ModelTypes
  ModelStore SpecApi SpecStore SpecMore ProofBase ProofMD ProofApi ProofConst ProofSip ProofHmac ProofSplit ProofHash ProofMac
  ProofStore.
Import ListNotations.
Open Scope N_scope.

(** Any digest returned is that of [H]. *)
Definition sound (c : config) (E : HashEngine) (H : bytes -> bytes) : Prop :=
  forall chunks d, Forall (slice c) chunks -> he_hash_byte_chunks E chunks = Ok d -> d = H (List.concat chunks).

Section Hmac.
  Context (c : config) (WF : wf_config c) (E : HashEngine) (H : bytes -> bytes) (SOUND : sound c E H).
  Context (B D : nat) (HB : he_block_size E = N.of_nat B) (H128 : (B <= 128)%nat).
  Context (HD : forall m, length (H m) = D) (HDB : (D <= B)%nat).

  Let small (b : bytes) : (length b <= 128)%nat -> slice c b.
  Proof.
    intros Hb. unfold slice, len. destruct WF as [-> | [-> | ->]]; lia.
  Qed.

  Lemma sound_new key s : slice c key -> hmac_new c E key = Ok s -> hmac_from E (hmac_key H B key) = Ok s.
  Proof.
    intros Hs Es. unfold hmac_key. destruct (Nat.ltb_spec B (length key)) as [Hlt|Hge].
    - destruct (he_hash E key) as [h|p] eqn:Eh.
      + assert (h = H key).
        { rewrite he_hash_chunks in Eh. apply SOUND in Eh; [|repeat constructor; exact Hs].
          cbn [List.concat] in Eh. now rewrite app_nil_r in Eh. }
        subst h. rewrite <- Es. symmetry. apply hmac_new_long; try assumption. rewrite HD. exact HDB.
      + exfalso. unfold hmac_new in Es. rewrite HB in Es.
        rewrite debug_assert_ok in Es by (apply N.leb_le; lia). cbn [bind] in Es.
        destruct (he_default E) as [s0|p0]; cbn [bind] in Es; [|discriminate].
        destruct (N.ltb_spec (N.of_nat B) (len key)) as [_|Hx]; [|unfold len in Hx; lia].
        rewrite Eh in Es. discriminate.
    - rewrite <- Es. symmetry. now apply hmac_new_short.
  Qed.

  Lemma sound_hmac_key key chunks d : slice c key -> Forall (slice c) chunks ->
    (let* s := hmac_new c E key in
     let* s := he_inputs (hmac_engine c E) s chunks in
     he_finalize (hmac_engine c E) s) = Ok d -> d = HMAC H B key (List.concat chunks).
  Proof.
    intros Hk HF Ed. apply bind_ok in Ed. destruct Ed as (s & Es & Ed).
    apply sound_new in Es; [|exact Hk]. unfold HMAC.
    assert (Hkl : length (hmac_key H B key) = B) by (unfold hmac_key; rewrite app_length, repeat_length;
      destruct (Nat.ltb_spec B (length key)); [rewrite HD|]; lia).
    set (k := hmac_key H B key) in *. unfold hmac_from in Es.
    apply bind_ok in Es. destruct Es as (i0 & Ei0 & Es). apply bind_ok in Es. destruct Es as (i1 & Ei1 & Es).
    apply bind_ok in Es. destruct Es as (o0 & Eo0 & Es). apply bind_ok in Es. destruct Es as (o1 & Eo1 & Es).
    apply Ok_inj in Es. subst s. rewrite hmac_inputs in Ed. cbn [iengine oengine] in Ed.
    apply bind_ok in Ed. destruct Ed as (s2 & E2 & Ed). apply bind_ok in E2. destruct E2 as (i2 & Ei2 & E2).
    apply Ok_inj in E2. subst s2. cbn [hmac_engine he_finalize iengine oengine] in Ed.
    apply bind_ok in Ed. destruct Ed as (ih & Eih & Ed).
    assert (Hih : ih = H (xor_pad x36 k ++ List.concat chunks)).
    { apply (SOUND (xor_pad x36 k :: chunks)).
      - constructor; [apply small; unfold xor_pad; rewrite map_length; lia|exact HF].
      - unfold he_hash_byte_chunks. rewrite Ei0. cbn [bind he_inputs]. rewrite Ei1. cbn [bind]. now rewrite Ei2. }
    rewrite <- Hih.
    assert (Hd := SOUND [xor_pad x5c k; ih] d). cbn [List.concat] in Hd. rewrite app_nil_r in Hd. apply Hd.
    - constructor; [apply small; unfold xor_pad; rewrite map_length; lia|]. constructor; [|constructor].
      apply small. rewrite Hih, HD. lia.
    - unfold he_hash_byte_chunks. rewrite Eo0. cbn [bind he_inputs]. rewrite Eo1. cbn [bind].
      apply bind_ok in Ed. destruct Ed as (o2 & Eo2 & Ed). rewrite Eo2. exact Ed.
  Qed.

  Lemma sound_hmac : sound c (hmac_engine c E) (HMAC H B []).
  Proof.
    intros chunks d HF Ed. apply sound_hmac_key; try assumption. apply small. cbn. lia.
  Qed.
End Hmac.

Section Kinds.
  Context (c : config) (WF : wf_config c) (Hc : overflow_checks c = true).
  Notation M := (2 ^ usize_bits c).

  Lemma sound_algo a : sound c (algo_engine c a) (hash_of a).
  Proof.
    intros chunks d _ E. rewrite hash_byte_chunks_exact, Hc in E by exact WF.
    destruct (_ || _); [discriminate|]. now apply Ok_inj in E.
  Qed.

  Lemma sound_sip_keys k0 k1 chunks d : k0 < 2 ^ 64 -> k1 < 2 ^ 64 -> Forall (slice c) chunks ->
    (let* s := he_inputs (siphash24_engine c) (with_keys k0 k1) chunks in he_finalize (siphash24_engine c) s) = Ok d ->
    d = le_octets 8 (siphash24 k0 k1 (List.concat chunks)).
  Proof.
    intros H0 H1 HF E. rewrite siphash_digest in E by assumption.
    destruct (_ && _); [discriminate|]. now apply Ok_inj in E.
  Qed.

  Lemma sound_tag tag : kind_real c (KTag tag) -> sound c (kind_engine c (KTag tag)) (tagged_hash tag).
  Proof.
    intros [Hl H8] chunks d HF E. cbn [kind_engine] in *.
    destruct (tag_engine_ok c tag WF Hl H8) as (e & Ee & HR).
    assert (Hn : e_length e = 64) by (exact (proj2 (tag_engine_reach c tag e WF Ee))).
    assert (Hfit : fits c Sha256 (64 + length (List.concat chunks))).
    { unfold he_hash_byte_chunks in E. cbn [sha256t_engine he_default] in E. rewrite Ee in E. cbn [bind] in E.
      rewrite (sha256t_inputs c (Ok e) e chunks) in E. cbn [he_finalize sha256t_engine] in E.
      apply bind_ok in E. destruct E as (s & Es & Ed).
      assert (HRs : algo_reachable c Sha256 s) by exact (reachable_inputs c (sha256_engine c) _ e chunks s HR Es HF).
      assert (Hi : he_input (algo_engine c Sha256) e (List.concat chunks) = Ok s).
      { rewrite <- (algo_splits c Sha256 e WF HR chunks). exact Es. }
      pose proof (algo_input_ok c WF Sha256 e (List.concat chunks) HR) as Hi'. rewrite Hi, Hc in Hi'.
      cbn [is_ok andb] in Hi'.
      pose proof (algo_input_count c WF Sha256 e _ s HR Hi) as Hcnt.
      change (he_n_bytes_hashed (algo_engine c Sha256) e) with (e_length e) in Hi', Hcnt. rewrite Hn in Hi', Hcnt.
      destruct (N.leb_spec M (64 + len (List.concat chunks))) as [|Hlt]; [discriminate|].
      rewrite N.mod_small in Hcnt by exact Hlt.
      pose proof (algo_finalize_ok c WF Sha256 s HRs) as Hf. rewrite Hcnt, Hc in Hf.
      change (he_finalize (algo_engine c Sha256) s) with (sha256_finalize c s) in Hf. rewrite Ed in Hf.
      cbn [is_ok andb] in Hf. unfold fits. rewrite Hc.
      replace (N.to_nat (64 + len (List.concat chunks))) with (64 + length (List.concat chunks))%nat in Hf
        by (unfold len; lia).
      unfold len in *. destruct (N.leb_spec M (N.of_nat (md_padded (md_of Sha256) (64 + length (List.concat chunks)))));
        [discriminate|]. cbn [orb] in Hf.
      destruct (N.leb_spec (2 ^ 64) (8 * (64 + N.of_nat (length (List.concat chunks))))); [discriminate|]. lia. }
    rewrite tagged_standard in E by assumption. now apply Ok_inj in E.
  Qed.

  Lemma sound_kind k : kind_real c k -> sound c (kind_engine c k) (kind_hash k).
  Proof.
    induction k as [a| |tag|k IH]; intros Hk.
    - apply sound_algo.
    - intros chunks d HF E. exact (sound_sip_keys 0 0 chunks d eq_refl eq_refl HF E).
    - now apply sound_tag.
    - exact (sound_hmac c WF (kind_engine c k) (kind_hash k) (IH Hk) (kind_block k) (kind_digest k)
        (kind_block_size c k) (kind_block_le k) (kind_hash_length k) (kind_digest_le k)).
  Qed.

  Lemma checked_digest o chunks d : origin_real c o -> Forall (slice c) chunks ->
    digest_of c o chunks = Ok d -> d = origin_hash o (List.concat chunks).
  Proof.
    intros Ho HF E. destruct o as [k|k key|k0 k1]; cbn [origin_real origin_hash] in *.
    - exact (sound_kind k Ho chunks d HF E).
    - destruct Ho as [Hk Hs].
      exact (sound_hmac_key c WF (kind_engine c k) (kind_hash k) (sound_kind k Hk) (kind_block k) (kind_digest k)
        (kind_block_size c k) (kind_block_le k) (kind_hash_length k) (kind_digest_le k) key chunks d Hs HF E).
    - destruct Ho as [H0 H1]. exact (sound_sip_keys k0 k1 chunks d H0 H1 HF E).
  Qed.
End Kinds.

Lemma real_ok c o : origin_real c o -> origin_ok o.
Proof. destruct o; cbn; tauto. Qed.

Lemma digest_fits c o chunks : wf_config c -> origin_ok o -> Forall (slice c) chunks ->
  origin_fits c o (length (List.concat chunks)) -> digest_of c o chunks = Ok (origin_hash o (List.concat chunks)).
Proof. intros WF Ho HF Hf. exact (origin_run c WF o chunks Ho HF Hf). Qed.

Lemma digest_portable c c' o chunks chunks' d d' : wf_config c -> wf_config c' ->
  origin_real c o -> origin_real c' o -> Forall (slice c) chunks -> Forall (slice c') chunks' ->
  List.concat chunks = List.concat chunks' ->
  overflow_checks c = true \/ origin_fits c o (length (List.concat chunks)) ->
  overflow_checks c' = true \/ origin_fits c' o (length (List.concat chunks)) ->
  digest_of c o chunks = Ok d -> digest_of c' o chunks' = Ok d' -> d = d'.
Proof.
  intros WF WF' Ho Ho' HF HF' EC Hc Hc' E E'.
  assert (d = origin_hash o (List.concat chunks)).
  { destruct Hc as [Hc|Hc]; [exact (checked_digest c WF Hc o chunks d Ho HF E)|].
    rewrite digest_fits in E by (try assumption; eapply real_ok; eassumption). now apply Ok_inj in E. }
  assert (d' = origin_hash o (List.concat chunks')).
  { rewrite EC in Hc'.
    destruct Hc' as [Hc'|Hc']; [exact (checked_digest c' WF' Hc' o chunks' d' Ho' HF' E')|].
    rewrite digest_fits in E' by (try assumption; eapply real_ok; eassumption). now apply Ok_inj in E'. }
  congruence.
Qed.
