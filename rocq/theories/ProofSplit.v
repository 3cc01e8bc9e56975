(** Lemmas behind the properties of reachable states, for every engine. *)
From Coq Require Import NArith ZArith List Bool Lia.
From Coq Require Import ZifyBool ZifyNat ZifyN.
From Verif Require Import Base SpecBase SpecMD SpecMac ModelEngine ModelSha256 ModelSha512 ModelSha1 ModelRipemd
  ModelSip ModelHmac ModelAll SpecApi
  ProofBase ProofEngine ProofMD ProofApi ProofMid ProofConst ProofSip ProofHmac.
Import ListNotations.
Open Scope N_scope.

(** ** Merkle-Damgard engines *)

Lemma algo_splits c a s : wf_config c -> algo_reachable c a s -> splits (algo_engine c a) s.
Proof.
  intros WF HR. destruct a;
    [exact (gen_splits c Sha1 WF s HR)|exact (gen_splits c Sha256 WF s HR)|exact (gen_splits c Sha384 WF s HR)
    |exact (gen_splits c Sha512 WF s HR)|exact (gen_splits c Sha512_256 WF s HR)|exact (gen_splits c Ripemd160 WF s HR)].
Qed.

Lemma splits_insensitive c E s : splits E s -> split_insensitive c E s.
Proof. intros H l l' _ _ EC. now rewrite !H, EC. Qed.

Definition bytes_fed (E : HashEngine) (s : he_state E) : N := he_n_bytes_hashed E s.

Section Transport.
  Context (c : config) (WF : wf_config c).
  Notation M := (2 ^ usize_bits c).

  Lemma algo_input_ok a s d : algo_reachable c a s ->
    is_ok (he_input (algo_engine c a) s d)
    = negb (overflow_checks c && (M <=? he_n_bytes_hashed (algo_engine c a) s + len d)).
  Proof.
    intros HR. destruct a;
      [exact (gen_input_ok c Sha1 WF s HR d)|exact (gen_input_ok c Sha256 WF s HR d)
      |exact (gen_input_ok c Sha384 WF s HR d)|exact (gen_input_ok c Sha512 WF s HR d)
      |exact (gen_input_ok c Sha512_256 WF s HR d)|exact (gen_input_ok c Ripemd160 WF s HR d)].
  Qed.

  Lemma algo_input_count a s d s' : algo_reachable c a s -> he_input (algo_engine c a) s d = Ok s' ->
    he_n_bytes_hashed (algo_engine c a) s' = (he_n_bytes_hashed (algo_engine c a) s + len d) mod M.
  Proof.
    intros HR. destruct a;
      [exact (gen_input_count c Sha1 WF s HR d s')|exact (gen_input_count c Sha256 WF s HR d s')
      |exact (gen_input_count c Sha384 WF s HR d s')|exact (gen_input_count c Sha512 WF s HR d s')
      |exact (gen_input_count c Sha512_256 WF s HR d s')|exact (gen_input_count c Ripemd160 WF s HR d s')].
  Qed.

  Lemma algo_count_lt a s : algo_reachable c a s -> he_n_bytes_hashed (algo_engine c a) s < M.
  Proof.
    intros HR. destruct a;
      [exact (gen_count_lt c Sha1 WF s HR)|exact (gen_count_lt c Sha256 WF s HR)
      |exact (gen_count_lt c Sha384 WF s HR)|exact (gen_count_lt c Sha512 WF s HR)
      |exact (gen_count_lt c Sha512_256 WF s HR)|exact (gen_count_lt c Ripemd160 WF s HR)].
  Qed.

  Lemma algo_finalize_ok a s : algo_reachable c a s ->
    is_ok (he_finalize (algo_engine c a) s) =
    negb (overflow_checks c &&
      ((M <=? N.of_nat (md_padded (md_of a) (N.to_nat (he_n_bytes_hashed (algo_engine c a) s))))
       || (2 ^ 64 <=? 8 * he_n_bytes_hashed (algo_engine c a) s))).
  Proof.
    intros HR. destruct a;
      [exact (gen_finalize_ok c Sha1 WF s HR)|exact (gen_finalize_ok c Sha256 WF s HR)
      |exact (gen_finalize_ok c Sha384 WF s HR)|exact (gen_finalize_ok c Sha512 WF s HR)
      |exact (gen_finalize_ok c Sha512_256 WF s HR)|exact (gen_finalize_ok c Ripemd160 WF s HR)].
  Qed.

  Lemma algo_input_panic a s d p : algo_reachable c a s ->
    he_input (algo_engine c a) s d = Panic p -> p = POverflow.
  Proof.
    intros HR. destruct a;
      [exact (gen_input_panic c Sha1 WF s HR d p)|exact (gen_input_panic c Sha256 WF s HR d p)
      |exact (gen_input_panic c Sha384 WF s HR d p)|exact (gen_input_panic c Sha512 WF s HR d p)
      |exact (gen_input_panic c Sha512_256 WF s HR d p)|exact (gen_input_panic c Ripemd160 WF s HR d p)].
  Qed.
  Lemma algo_finalize_panic a s p : algo_reachable c a s ->
    he_finalize (algo_engine c a) s = Panic p -> p = POverflow.
  Proof.
    intros HR. destruct a;
      [exact (gen_finalize_panic c Sha1 WF s HR p)|exact (gen_finalize_panic c Sha256 WF s HR p)
      |exact (gen_finalize_panic c Sha384 WF s HR p)|exact (gen_finalize_panic c Sha512 WF s HR p)
      |exact (gen_finalize_panic c Sha512_256 WF s HR p)|exact (gen_finalize_panic c Ripemd160 WF s HR p)].
  Qed.
  Lemma algo_midstate_total a s : algo_reachable c a s -> is_ok (he_midstate (algo_engine c a) s) = true.
  Proof.
    intros HR. destruct a;
    [destruct (gen_midstate_ok c Sha1 WF s HR) as (m & E & _)|destruct (gen_midstate_ok c Sha256 WF s HR) as (m & E & _)
    |destruct (gen_midstate_ok c Sha384 WF s HR) as (m & E & _)|destruct (gen_midstate_ok c Sha512 WF s HR) as (m & E & _)
    |destruct (gen_midstate_ok c Sha512_256 WF s HR) as (m & E & _)|destruct (gen_midstate_ok c Ripemd160 WF s HR) as (m & E & _)];
    exact (f_equal is_ok E).
  Qed.
  Lemma algo_digest_length a s d : algo_reachable c a s ->
    he_finalize (algo_engine c a) s = Ok d -> length d = digest_len a.
  Proof.
    intros HR. destruct a;
      [exact (gen_digest_length c Sha1 WF s HR d)|exact (gen_digest_length c Sha256 WF s HR d)
      |exact (gen_digest_length c Sha384 WF s HR d)|exact (gen_digest_length c Sha512 WF s HR d)
      |exact (gen_digest_length c Sha512_256 WF s HR d)|exact (gen_digest_length c Ripemd160 WF s HR d)].
  Qed.
End Transport.

Lemma reachable_inputs c E ok s chunks s' : reachable c E ok s -> he_inputs E s chunks = Ok s' ->
  Forall (slice c) chunks -> reachable c E ok s'.
Proof.
  revert s. induction chunks as [|d ds IH]; intros s HR Es HF; cbn [he_inputs] in Es.
  - now apply Ok_inj in Es; subst.
  - apply bind_ok in Es. destruct Es as (s1 & E1 & Es). inversion HF as [|? ? Hd Hds]; subst.
    apply (IH s1); [|exact Es|exact Hds]. exact (reach_input c E ok s d s1 HR Hd E1).
Qed.

Lemma algo_inputs_count c a s chunks s' : wf_config c -> algo_reachable c a s ->
  he_inputs (algo_engine c a) s chunks = Ok s' ->
  he_n_bytes_hashed (algo_engine c a) s'
  = (he_n_bytes_hashed (algo_engine c a) s + len (List.concat chunks)) mod 2 ^ usize_bits c.
Proof.
  intros WF HR Es. rewrite (algo_splits c a s WF HR) in Es. exact (algo_input_count c WF a s _ s' HR Es).
Qed.

(** no panic below the limit *)
Lemma algo_no_panic c a s chunks : wf_config c -> algo_reachable c a s ->
  let n := he_n_bytes_hashed (algo_engine c a) s + len (List.concat chunks) in
  N.of_nat (md_padded (md_of a) (N.to_nat n)) < 2 ^ usize_bits c -> 8 * n < 2 ^ 64 ->
  exists s' d, he_inputs (algo_engine c a) s chunks = Ok s' /\
    is_ok (he_midstate (algo_engine c a) s') = true /\
    he_finalize (algo_engine c a) s' = Ok d /\ length d = digest_len a.
Proof.
  intros WF HR n Hp H8.
  assert (Hn : n < 2 ^ usize_bits c).
  { pose proof (md_padded_ge (md_of a) (N.to_nat n)). lia. }
  assert (Hsl : slice c (List.concat chunks)) by (unfold slice; lia).
  pose proof (algo_input_ok c WF a s (List.concat chunks) HR) as Ei. fold n in Ei.
  destruct (N.leb_spec (2 ^ usize_bits c) n); [lia|]. rewrite andb_false_r in Ei.
  destruct (he_input (algo_engine c a) s (List.concat chunks)) as [s'|p] eqn:Es; [|discriminate].
  assert (HR' : algo_reachable c a s') by exact (reach_input _ _ _ _ _ _ HR Hsl Es).
  assert (Ec := algo_input_count c WF a s _ s' HR Es). fold n in Ec. rewrite N.mod_small in Ec by exact Hn.
  pose proof (algo_finalize_ok c WF a s' HR') as Ef. rewrite Ec in Ef.
  destruct (N.leb_spec (2 ^ usize_bits c) (N.of_nat (md_padded (md_of a) (N.to_nat n)))); [lia|].
  destruct (N.leb_spec (2 ^ 64) (8 * n)); [lia|]. rewrite andb_false_r in Ef.
  destruct (he_finalize (algo_engine c a) s') as [d|p] eqn:Ed; [|discriminate].
  exists s', d. split; [now rewrite (algo_splits c a s WF HR)|].
  split; [exact (algo_midstate_total c WF a s' HR')|]. split; [exact Ed|].
  exact (algo_digest_length c WF a s' d HR' Ed).
Qed.

(** ** SipHash *)

Section SipReach.
  Context (c : config) (WF : wf_config c).
  Notation M := (2 ^ usize_bits c).

  Lemma sip_reachable_at s : sip_reachable c s ->
    exists k0 k1 v msg, vb v /\ s = sip_at c k0 k1 v msg.
  Proof.
    destruct (wf_M c WF) as [H256 _].
    intros H. induction H as [k0 k1 H0 H1|m n (H0 & H1 & H2 & H3) Hn|s d s' H IH Hd E].
    - exists k0, k1, (sip_init k0 k1), []. split; [now apply sip_init_vb|]. apply sip_with_keys_at.
    - exists 0, 0, (v0 m, v1 m, v2 m, v3 m), []. split; [repeat split; assumption|].
      destruct m. reflexivity.
    - destruct IH as (k0 & k1 & v & msg & Hv & ->). rewrite sip_input_exact in E by assumption.
      destruct (_ && _); [discriminate|]. exists k0, k1, v, (msg ++ d). split; [exact Hv|].
      symmetry. now apply Ok_inj in E.
  Qed.

  Lemma sip_split s : sip_reachable c s -> split_insensitive c (siphash24_engine c) s.
  Proof.
    intros HR l l' HF HF' E. destruct (sip_reachable_at s HR) as (k0 & k1 & v & msg & Hv & ->).
    destruct (wf_M c WF) as [H256 _].
    rewrite !sip_inputs_exact by assumption. now rewrite E.
  Qed.

  Lemma sip_inputs_ok s chunks : sip_reachable c s -> Forall (slice c) chunks ->
    is_ok (he_inputs (siphash24_engine c) s chunks)
    = negb (overflow_checks c && (M <=? sip_length s + len (List.concat chunks))).
  Proof.
    intros HR HF. destruct (sip_reachable_at s HR) as (k0 & k1 & v & msg & Hv & ->).
    destruct (wf_M c WF) as [H256 _]. rewrite sip_inputs_exact by assumption. cbn [sip_at sip_length].
    destruct (overflow_checks c && _); reflexivity.
  Qed.

  Lemma sip_inputs_panic s chunks p : sip_reachable c s -> Forall (slice c) chunks ->
    he_inputs (siphash24_engine c) s chunks = Panic p -> p = POverflow.
  Proof.
    intros HR HF. destruct (sip_reachable_at s HR) as (k0 & k1 & v & msg & Hv & ->).
    destruct (wf_M c WF) as [H256 _]. rewrite sip_inputs_exact by assumption.
    destruct (overflow_checks c && _); congruence.
  Qed.

  Lemma sip_inputs_count s chunks s' : sip_reachable c s -> Forall (slice c) chunks ->
    he_inputs (siphash24_engine c) s chunks = Ok s' ->
    sip_length s' = (sip_length s + len (List.concat chunks)) mod M /\ sip_keys s' = sip_keys s.
  Proof.
    intros HR HF. destruct (sip_reachable_at s HR) as (k0 & k1 & v & msg & Hv & ->).
    destruct (wf_M c WF) as [H256 _]. rewrite sip_inputs_exact by assumption.
    destruct (overflow_checks c && _); intros E; [discriminate|]. apply Ok_inj in E. subst s'.
    cbn [sip_at sip_length sip_keys sip_k0 sip_k1]. split; [|reflexivity].
    rewrite len_app, N.add_mod_idemp_l by lia. reflexivity.
  Qed.
End SipReach.

(** ** HMAC *)

Lemma xor_zip_length : forall p k, length (xor_zip p k) = length p.
Proof. induction p as [|x p IH]; intros [|y k]; try reflexivity. cbn [xor_zip length]. now rewrite IH. Qed.

Lemma slice_to_len n (b r : bytes) : slice_to n b = Ok r -> len r = n /\ n <= len b.
Proof.
  unfold slice_to. destruct (N.leb_spec n (len b)); [|discriminate]. intros E. apply Ok_inj in E. subst r.
  unfold len in *. rewrite firstn_length_le by lia. lia.
Qed.

Lemma hmac_new_parts c E key s : hmac_new c E key = Ok s ->
  exists e0 ib ob, he_default E = Ok e0 /\ len ib = he_block_size E /\ len ob = he_block_size E /\
    he_block_size E <= 128 /\ he_input E e0 ib = Ok (iengine s) /\ he_input E e0 ob = Ok (oengine s).
Proof.
  intros Es. unfold hmac_new in Es.
  apply bind_ok in Es. destruct Es as (u & _ & Es).
  apply bind_ok in Es. destruct Es as (i0 & Ei & Es). apply bind_ok in Es. destruct Es as (o0 & Eo & Es).
  apply bind_ok in Es. destruct Es as ([ip op] & Ep & Es).
  apply bind_ok in Es. destruct Es as (ib & Eib & Es). apply bind_ok in Es. destruct Es as (i1 & Ei1 & Es).
  apply bind_ok in Es. destruct Es as (ob & Eob & Es). apply bind_ok in Es. destruct Es as (o1 & Eo1 & Es).
  apply Ok_inj in Es. subst s. cbn [iengine oengine].
  assert (o0 = i0) by congruence. subst o0.
  destruct (slice_to_len _ _ _ Eib) as [Hib Hip]. destruct (slice_to_len _ _ _ Eob) as [Hob Hop].
  exists i0, ib, ob. repeat (split; [assumption|]).
  assert (Hl : len ip = 128).
  { destruct (he_block_size E <? len key).
    - apply bind_ok in Ep. destruct Ep as (h & _ & Ep). assert (Ei' : ip = xor_zip (array x36 128) h) by congruence.
      rewrite Ei'. unfold len. now rewrite xor_zip_length.
    - assert (Ei' : ip = xor_zip (array x36 128) key) by congruence.
      rewrite Ei'. unfold len. now rewrite xor_zip_length. }
  split; [lia|]. split; assumption.
Qed.

Lemma hmac_new_reachable c E ok key s : wf_config c -> hmac_new c E key = Ok s ->
  reachable c E ok (iengine s) /\ reachable c E ok (oengine s).
Proof.
  intros WF Es. destruct (hmac_new_parts c E key s Es) as (e0 & ib & ob & E0 & Hi & Ho & HB & Ei & Eo).
  destruct (wf_M c WF) as [H256 _].
  split; [apply (reach_input _ _ _ e0 ib); [exact (reach_new _ _ _ _ E0)|unfold slice; lia|exact Ei]
         |apply (reach_input _ _ _ e0 ob); [exact (reach_new _ _ _ _ E0)|unfold slice; lia|exact Eo]].
Qed.

Lemma hmac_reachable_parts c E ok s : wf_config c -> hmac_reachable c E ok s ->
  reachable c E ok (iengine s) /\ reachable c E ok (oengine s).
Proof.
  intros WF H. induction H as [key s Es|m n s [Hm1 Hm2] Hn Es|s d s' H IH Hd Es].
  - exact (hmac_new_reachable c E ok key s WF Es).
  - cbn [hmac_engine he_from_midstate] in Es.
    apply bind_ok in Es. destruct Es as (i & Ei & Es). apply bind_ok in Es. destruct Es as (o & Eo & Es).
    apply Ok_inj in Es. subst s. cbn [iengine oengine].
    split; [exact (reach_mid _ _ _ _ _ _ Hm1 Hn Ei)|exact (reach_mid _ _ _ _ _ _ Hm2 Hn Eo)].
  - cbn [hmac_engine he_input] in Es. apply bind_ok in Es. destruct Es as (i & Ei & Es).
    apply Ok_inj in Es. subst s'. cbn [iengine oengine]. destruct IH as [IH1 IH2].
    split; [exact (reach_input _ _ _ _ _ _ IH1 Hd Ei)|exact IH2].
Qed.

(** The states of the trait (without [HmacEngine::new]) are among them. *)
Lemma reachable_hmac c E ok s : reachable c (hmac_engine c E) (hmac_mid_ok ok) s -> hmac_reachable c E ok s.
Proof.
  intros H. induction H as [s Es|m n s Hm Hn Es|s d s' H IH Hd Es].
  - exact (hmac_reach_new c E ok [] s Es).
  - exact (hmac_reach_mid c E ok m n s Hm Hn Es).
  - exact (hmac_reach_input c E ok s d s' IH Hd Es).
Qed.
Lemma reachable_sip c s : reachable c (siphash24_engine c) sip_mid_ok s -> sip_reachable c s.
Proof.
  intros H. induction H as [s Es|m n s Hm Hn Es|s d s' H IH Hd Es].
  - apply Ok_inj in Es. subst s. apply sip_reach_keys; reflexivity.
  - apply Ok_inj in Es. subst s. now apply sip_reach_mid.
  - exact (sip_reach_input c s d s' IH Hd Es).
Qed.

Lemma hmac_split c E s : split_insensitive c E (iengine s) -> split_insensitive c (hmac_engine c E) s.
Proof. intros H l l' HF HF' EC. rewrite !hmac_inputs. now rewrite (H l l' HF HF' EC). Qed.

Lemma hmac_inputs_count c E s chunks s' : he_inputs (hmac_engine c E) s chunks = Ok s' ->
  he_inputs E (iengine s) chunks = Ok (iengine s') /\ oengine s' = oengine s.
Proof.
  rewrite hmac_inputs. intros Es. apply bind_ok in Es. destruct Es as (i & Ei & Es).
  apply Ok_inj in Es. subst s'. now split.
Qed.

Lemma hmac_new_count c a key s : wf_config c -> hmac_new c (algo_engine c a) key = Ok s ->
  he_n_bytes_hashed (hmac_engine c (algo_engine c a)) s = N.of_nat (block_len a).
Proof.
  intros WF Es. destruct (hmac_new_parts c _ key s Es) as (e0 & ib & ob & E0 & Hi & Ho & HB & Ei & Eo).
  cbn [hmac_engine he_n_bytes_hashed].
  assert (HR : algo_reachable c a e0) by exact (reach_new _ _ _ _ E0).
  rewrite (algo_input_count c WF a e0 ib _ HR Ei), Hi, algo_block.
  assert (En : he_n_bytes_hashed (algo_engine c a) e0 = 0).
  { destruct a; cbn in E0; apply Ok_inj in E0; subst e0; reflexivity. }
  rewrite En, N.add_0_l. apply N.mod_small.
  destruct (wf_M c WF) as [H256 _]. destruct a; cbn [block_len] in *; lia.
Qed.

(** ** Tagged SHA-256 *)

Lemma sha256t_reachable c t s : (forall e, t = Ok e -> algo_reachable c Sha256 e) ->
  reachable c (sha256t_engine c t) (fun m : bytes => length m = 32%nat) s -> algo_reachable c Sha256 s.
Proof.
  intros Ht H. induction H as [s Es|m n s Hm Hn Es|s d s' H IH Hd Es].
  - now apply Ht.
  - exact (reach_mid c (sha256_engine c) (algo_mid_ok c Sha256) m n s Hm Hn Es).
  - exact (reach_input c (sha256_engine c) (algo_mid_ok c Sha256) s d s' IH Hd Es).
Qed.

Lemma sha256t_split c t s : wf_config c -> (forall e, t = Ok e -> algo_reachable c Sha256 e) ->
  reachable c (sha256t_engine c t) (fun m : bytes => length m = 32%nat) s ->
  split_insensitive c (sha256t_engine c t) s.
Proof.
  intros WF Ht HR l l' HF HF' E. rewrite !(sha256t_inputs c t s).
  apply (splits_insensitive c (sha256_engine c)); try assumption.
  exact (algo_splits c Sha256 s WF (sha256t_reachable c t s Ht HR)).
Qed.

(** ** hash_byte_chunks is hash of the concatenation *)
Lemma hash_byte_chunks_concat c E chunks :
  (forall s, he_default E = Ok s -> split_insensitive c E s) ->
  Forall (slice c) chunks -> slice c (List.concat chunks) ->
  he_hash_byte_chunks E chunks = he_hash E (List.concat chunks).
Proof.
  intros H HF HC. unfold he_hash_byte_chunks, he_hash. destruct (he_default E) as [s|p]; [|reflexivity].
  cbn [bind]. rewrite (H s eq_refl chunks [List.concat chunks]); [| exact HF | constructor; [exact HC|constructor] | ].
  - cbn [he_inputs]. now rewrite bind_assoc.
  - cbn [List.concat]. now rewrite app_nil_r.
Qed.

