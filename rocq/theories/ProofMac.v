(** Lemmas cited by PropMac.v. *)
From Coq Require Import NArith ZArith List Bool Lia.
From Coq Require Import ZifyBool ZifyNat ZifyN.
From Verif Require Import Base SpecBase SpecMD SpecMac ModelEngine ModelSha256 ModelSha512 ModelSha1 ModelRipemd
  ModelSip ModelHmac ModelAll SpecApi
  ProofBase ProofMD ProofApi ProofMid ProofConst ProofSip ProofHmac ProofSplit ProofHash.
From Verif Require SpecSha2.
Import ListNotations.
Open Scope N_scope.

(** ** SipHash *)

Lemma u64_octets_8 x : to_le_bytes 8 x = le_octets 8 x.
Proof. apply to_le_bytes_octets. Qed.

Lemma siphash_digest c k0 k1 chunks : wf_config c -> k0 < 2 ^ 64 -> k1 < 2 ^ 64 ->
  Forall (slice c) chunks ->
  (let* e := he_inputs (siphash24_engine c) (with_keys k0 k1) chunks in he_finalize (siphash24_engine c) e)
  = if overflow_checks c && (2 ^ usize_bits c <=? len (List.concat chunks)) then Panic POverflow
    else Ok (le_octets 8 (siphash24 k0 k1 (List.concat chunks))).
Proof.
  intros WF H0 H1 HF. pose proof (siphash_exact c k0 k1 chunks WF H0 H1 HF) as E.
  destruct (he_inputs (siphash24_engine c) (with_keys k0 k1) chunks) as [e|p]; cbn [bind] in *.
  - destruct (overflow_checks c && _); [discriminate|]. apply Ok_inj in E. rewrite <- E.
    cbn [siphash24_engine he_finalize]. now rewrite sip_finalize_u64, to_le_bytes_octets.
  - destruct (overflow_checks c && _); congruence.
Qed.

Lemma siphash_keys_digest c k0 k1 data : wf_config c -> k0 < 2 ^ 64 -> k1 < 2 ^ 64 -> slice c data ->
  hash_with_keys c k0 k1 data = Ok (le_octets 8 (siphash24 k0 k1 data)) /\
  hash_to_u64_with_keys c k0 k1 data = Ok (siphash24 k0 k1 data).
Proof.
  intros WF H0 H1 Hd.
  assert (HF : Forall (slice c) [data]) by (constructor; [exact Hd|constructor]).
  pose proof (siphash_digest c k0 k1 [data] WF H0 H1 HF) as E.
  pose proof (siphash_exact c k0 k1 [data] WF H0 H1 HF) as E'.
  cbn [List.concat he_inputs] in E, E'. rewrite app_nil_r in E, E'.
  destruct (N.leb_spec (2 ^ usize_bits c) (len data)) as [Hx|_]; [unfold slice in Hd; lia|].
  rewrite andb_false_r in E, E'. unfold hash_with_keys, hash_to_u64_with_keys.
  change (he_input (siphash24_engine c)) with (sip_input c) in E, E'.
  destruct (sip_input c (with_keys k0 k1) data); [split; [exact E|exact E']|discriminate].
Qed.

Lemma sip_from_lt v m : vb v -> sip_from v m < 2 ^ 64.
Proof.
  intros Hv. unfold sip_from.
  assert (HP : vb (fold_left sip_word (sip_parse m) v)).
  { apply (sip_words_ok (sip_parse m) v Hv). apply le_words8_bounded. }
  destruct (fold_left sip_word (sip_parse m) v) as [[[a b] c] d]. destruct HP as (Ha & Hb & Hc & Hd).
  assert (HV : vb (a, b, N.lxor c 255, d)) by (repeat split; try assumption; apply lxor_lt; [assumption|reflexivity]).
  destruct (d_rounds_ok _ HV) as [_ HV']. destruct (Nat.iter 4 sip_round _) as [[[a' b'] c'] d'].
  destruct HV' as (Ha' & Hb' & Hc' & Hd'). repeat apply lxor_lt; assumption.
Qed.

Lemma as_u64_octets x : x < 2 ^ 64 -> as_u64 (le_octets 8 x) = x.
Proof.
  intros Hx. unfold as_u64. rewrite <- to_le_bytes_octets, le_value_to_le_bytes. now apply N.mod_small.
Qed.

Lemma sip_interfaces c k0 k1 data : wf_config c -> k0 < 2 ^ 64 -> k1 < 2 ^ 64 -> slice c data ->
  hash_to_u64_with_keys c k0 k1 data = let* h := hash_with_keys c k0 k1 data in Ok (as_u64 h).
Proof.
  intros WF H0 H1 Hd. destruct (siphash_keys_digest c k0 k1 data WF H0 H1 Hd) as [-> ->].
  cbn [bind]. now rewrite as_u64_octets by (apply sip_from_lt; now apply sip_init_vb).
Qed.

Lemma sip_engine_interfaces c s : wf_config c -> sip_reachable c s ->
  he_finalize (siphash24_engine c) s = Ok (from_u64 (from_engine_to_u64 s)) /\
  as_u64 (sip_finalize s) = from_engine_to_u64 s.
Proof.
  intros WF HR. destruct (sip_reachable_at c WF s HR) as (k0 & k1 & v & msg & Hv & ->).
  destruct (wf_M c WF) as [H256 Hq].
  split; [cbn [siphash24_engine he_finalize]; now rewrite sip_finalize_u64|].
  rewrite sip_finalize_u64, to_le_bytes_octets. apply as_u64_octets.
  rewrite sip_u64_exact by assumption. now apply sip_from_lt.
Qed.

Lemma sip_u64_inverse : (forall x, x < 2 ^ 64 -> as_u64 (from_u64 x) = x) /\
  (forall h, length h = 8%nat -> from_u64 (as_u64 h) = h /\ as_u64 h < 2 ^ 64).
Proof.
  split.
  - intros x Hx. unfold as_u64, from_u64. rewrite le_value_to_le_bytes. now apply N.mod_small.
  - intros h Hh. unfold as_u64, from_u64. rewrite <- Hh at 1. split; [apply to_le_bytes_le_value|].
    pose proof (le_value_lt h) as H. now rewrite Hh in H.
Qed.

Lemma sip_keys_inputs c k0 k1 chunks s : wf_config c -> k0 < 2 ^ 64 -> k1 < 2 ^ 64 -> Forall (slice c) chunks ->
  he_inputs (siphash24_engine c) (with_keys k0 k1) chunks = Ok s -> sip_keys s = (k0, k1).
Proof.
  intros WF H0 H1 HF E.
  exact (proj2 (sip_inputs_count c WF _ chunks s (sip_reach_keys c k0 k1 H0 H1) HF E)).
Qed.

(** Midstates *)
Lemma sip_resume_exact c m n chunks : wf_config c -> sip_mid_ok m -> Forall (slice c) chunks ->
  (let* s := he_from_midstate (siphash24_engine c) m n in
   let* s := he_inputs (siphash24_engine c) s chunks in
   Ok (he_finalize (siphash24_engine c) s, he_n_bytes_hashed (siphash24_engine c) s, sip_keys s))
  = if overflow_checks c && (2 ^ usize_bits c <=? len (List.concat chunks)) then Panic POverflow
    else Ok (Ok (le_octets 8 (sip_from (v0 m, v1 m, v2 m, v3 m) (List.concat chunks))),
             len (List.concat chunks) mod 2 ^ usize_bits c, (0, 0)).
Proof.
  intros WF (H0 & H1 & H2 & H3) HF. destruct (wf_M c WF) as [H256 Hq].
  assert (Hv : vb (v0 m, v1 m, v2 m, v3 m)) by (repeat split; assumption).
  assert (Es : sip_from_midstate m n = sip_at c 0 0 (v0 m, v1 m, v2 m, v3 m) []).
  { unfold sip_at. change (len []) with 0. rewrite N.mod_0_l by lia. destruct m. reflexivity. }
  cbn [siphash24_engine he_from_midstate bind]. rewrite Es.
  rewrite (sip_inputs_exact c 0 0 _ Hv H256 chunks [] HF).
  change (len []) with 0. rewrite N.mod_0_l, N.add_0_l by lia. cbn [app].
  destruct (overflow_checks c && _); [reflexivity|]. cbn [bind siphash24_engine he_finalize he_n_bytes_hashed].
  rewrite sip_finalize_u64, to_le_bytes_octets, sip_u64_exact by assumption. reflexivity.
Qed.

Lemma sip_resume_forgets c s : he_n_bytes_hashed (siphash24_engine c) s <> 0 ->
  exists s', resume (siphash24_engine c) s = Ok s' /\ observe (siphash24_engine c) s' [] <> observe (siphash24_engine c) s [].
Proof.
  intros Hn. eexists. split; [reflexivity|]. unfold observe. cbn [he_inputs bind siphash24_engine he_n_bytes_hashed] in *.
  intros E. apply Ok_inj in E. apply Hn. symmetry. exact (f_equal (fun p => snd (fst p)) E).
Qed.

Lemma sip_resume_digest_witness : exists c s s', wf_config c /\ sip_reachable c s /\
  sip_length s = 8 /\ resume (siphash24_engine c) s = Ok s' /\
  he_finalize (siphash24_engine c) s' <> he_finalize (siphash24_engine c) s.
Proof.
  exists (target 64 true). do 2 eexists. split; [right; right; reflexivity|].
  split; [eapply (sip_reach_input _ (with_keys 1 2) (repeat x61 8)); [now apply sip_reach_keys|reflexivity|vm_compute; reflexivity]|].
  split; [reflexivity|]. split; [reflexivity|]. vm_compute. discriminate.
Qed.

(** Unchecked loads *)
Lemma sip_loads c s d : wf_config c -> sip_reachable c s -> slice c d ->
  sip_input c s d <> Panic PUndefined /\
  forall big, sip_input (with_byte_order big c) s d = sip_input c s d.
Proof.
  intros WF HR Hd. destruct (sip_reachable_at c WF s HR) as (k0 & k1 & v & msg & Hv & ->).
  destruct (wf_M c WF) as [H256 _]. split.
  - rewrite sip_input_exact by assumption. destruct (_ && _); discriminate.
  - intros big. rewrite sip_input_exact by assumption.
    exact (sip_input_exact (with_byte_order big c) k0 k1 v msg d Hv Hd H256).
Qed.

(** ** HMAC *)

Lemma hmac_lawful_law c E H fits B D : lawful E H fits -> he_block_size E = N.of_nat B -> (B <= 128)%nat ->
  (forall m, length (H m) = D) -> (D <= B)%nat -> forall key chunks,
  ((B < length key)%nat -> fits (length key)) ->
  fits (B + length (List.concat chunks))%nat -> fits (B + D)%nat ->
  (let* s := hmac_new c E key in
   let* s := he_inputs (hmac_engine c E) s chunks in
   he_finalize (hmac_engine c E) s)
  = Ok (HMAC H B key (List.concat chunks)).
Proof. intros LAW HB H128 HD HDB. exact (hmac_law c E H fits LAW B D HB H128 HD HDB). Qed.

Lemma digest_le_block a : (digest_len a <= block_len a)%nat.
Proof. destruct a; cbn; lia. Qed.

Lemma hmac_algo c a key chunks : wf_config c -> fits c a (length key) ->
  fits c a (block_len a + length (List.concat chunks)) -> fits c a (block_len a + digest_len a) ->
  (let* s := hmac_new c (algo_engine c a) key in
   let* s := he_inputs (hmac_engine c (algo_engine c a)) s chunks in
   he_finalize (hmac_engine c (algo_engine c a)) s)
  = Ok (HMAC (hash_of a) (block_len a) key (List.concat chunks)).
Proof.
  intros WF Hk Hi Ho. apply (hmac_lawful_law c _ _ (fits c a) _ (digest_len a)); try assumption.
  - now apply algo_lawful.
  - apply algo_block.
  - destruct a; cbn; lia.
  - apply hash_of_length.
  - apply digest_le_block.
  - intros _. exact Hk.
Qed.

Lemma hmac_siphash c key chunks : wf_config c -> slice c key ->
  32 + len (List.concat chunks) < 2 ^ usize_bits c ->
  (let* s := hmac_new c (siphash24_engine c) key in
   let* s := he_inputs (hmac_engine c (siphash24_engine c)) s chunks in
   he_finalize (hmac_engine c (siphash24_engine c)) s)
  = Ok (HMAC (fun m => le_octets 8 (siphash24 0 0 m)) 32 key (List.concat chunks)).
Proof.
  intros WF Hk Hi. destruct (wf_M c WF) as [H256 _].
  apply (hmac_lawful_law c _ _ (fun n => N.of_nat n < 2 ^ usize_bits c) _ 8); try (unfold len in *; lia).
  - now apply sip_lawful.
  - reflexivity.
  - intros m. apply length_le_octets.
  - intros _. exact Hk.
Qed.

Lemma hmac_stacked c a key chunks : wf_config c ->
  fits c a (block_len a + length key) ->
  fits c a (block_len a + (block_len a + length (List.concat chunks))) ->
  fits c a (block_len a + (block_len a + digest_len a)) -> fits c a (block_len a + digest_len a) ->
  let E := hmac_engine c (algo_engine c a) in
  (let* s := hmac_new c E key in
   let* s := he_inputs (hmac_engine c E) s chunks in
   he_finalize (hmac_engine c E) s)
  = Ok (HMAC (HMAC (hash_of a) (block_len a) []) (block_len a) key (List.concat chunks)).
Proof.
  intros WF Hk Hi Ho Hd E.
  apply (hmac_lawful_law c E _ (fun n => fits c a (block_len a + n) /\ fits c a (block_len a + digest_len a)) _ (digest_len a)).
  - apply hmac_lawful; [now apply algo_lawful|apply algo_block|destruct a; cbn; lia|apply hash_of_length|apply digest_le_block].
  - apply (algo_block c a).
  - destruct a; cbn; lia.
  - intros m. apply hash_of_length.
  - apply digest_le_block.
  - intros _. split; assumption.
  - split; assumption.
  - split; assumption.
Qed.

Lemma hmac_key_zeros c E key z : (he_block_size E <= 128) -> len key + N.of_nat z <= he_block_size E ->
  hmac_new c E (key ++ repeat x00 z) = hmac_new c E key.
Proof.
  intros H128 Hk. unfold len in Hk. set (B := N.to_nat (he_block_size E)).
  assert (HB : he_block_size E = N.of_nat B) by (unfold B; lia).
  rewrite (hmac_new_short c E B HB (key ++ repeat x00 z)) by (rewrite ?app_length, ?repeat_length; lia).
  rewrite (hmac_new_short c E B HB key) by lia. f_equal. rewrite <- app_assoc. f_equal.
  rewrite app_length, repeat_length, <- repeat_app. f_equal. lia.
Qed.

Lemma hmac_key_hashed c E key h : he_block_size E <= 128 -> he_block_size E < len key ->
  he_hash E key = Ok h -> len h <= he_block_size E -> hmac_new c E key = hmac_new c E h.
Proof.
  intros H128 Hk Eh Hh. unfold len in *. set (B := N.to_nat (he_block_size E)).
  assert (HB : he_block_size E = N.of_nat B) by (unfold B; lia).
  rewrite (hmac_new_long c E B HB key h) by (try assumption; lia).
  rewrite (hmac_new_short c E B HB h) by lia. reflexivity.
Qed.

Lemma hmac_new_panics c E key : (forall s, he_default E = Ok s -> forall d, len d <= 128 -> is_ok (he_input E s d) = true) ->
  is_ok (he_default E) = true -> is_ok (he_hash E key) = true ->
  is_ok (hmac_new c E key) = (he_block_size E <=? 128).
Proof.
  intros Hi Hd Hh. destruct (N.leb_spec (he_block_size E) 128) as [HB|HB].
  - unfold hmac_new. destruct (N.leb_spec (he_block_size E) 128); [|lia].
    rewrite debug_assert_ok by reflexivity. cbn [bind].
    destruct (he_default E) as [s0|p] eqn:E0; [|discriminate]. cbn [bind].
    destruct (he_hash E key) as [h|p]; [|discriminate].
    assert (HL : forall p k, exists b, slice_to (he_block_size E) (xor_zip (array p 128) k) = Ok b /\ len b <= 128).
    { intros p k. unfold slice_to, len at 1. rewrite xor_zip_length.
      change (N.of_nat (length (array p 128))) with 128. destruct (N.leb_spec (he_block_size E) 128); [|lia].
      eexists. split; [reflexivity|]. unfold len.
      pose proof (firstn_le_length (N.to_nat (he_block_size E)) (xor_zip (array p 128) k)).
      rewrite firstn_length. lia. }
    assert (HK : forall k, is_ok (let* ib := slice_to (he_block_size E) (xor_zip (array x36 128) k) in
      let* ie := he_input E s0 ib in
      let* ob := slice_to (he_block_size E) (xor_zip (array x5c 128) k) in
      let* oe := he_input E s0 ob in Ok (mk_hmac ie oe)) = true).
    { intros k. destruct (HL x36 k) as (ib & -> & Hib). destruct (HL x5c k) as (ob & -> & Hob). cbn [bind].
      pose proof (Hi s0 eq_refl ib Hib) as H1. destruct (he_input E s0 ib); [|discriminate]. cbn [bind].
      pose proof (Hi s0 eq_refl ob Hob) as H2. destruct (he_input E s0 ob); [reflexivity|discriminate]. }
    destruct (he_block_size E <? len key); cbn [bind]; apply HK.
  - destruct (hmac_new c E key) as [s|p] eqn:Es; [|reflexivity]. exfalso.
    apply (hmac_new_large c E (N.to_nat (he_block_size E)) ltac:(lia) key s ltac:(lia) Es).
Qed.

(** Midstates *)
Lemma hmac_observe c E (s s' : hmac_state E) :
  (forall l, observe E (iengine s') l = observe E (iengine s) l) ->
  (forall l, observe E (oengine s') l = observe E (oengine s) l) ->
  forall l, observe (hmac_engine c E) s' l = observe (hmac_engine c E) s l.
Proof.
  intros Hi Ho l. unfold observe. rewrite !hmac_inputs. specialize (Hi l). unfold observe in Hi.
  destruct (he_inputs E (iengine s) l) as [i|p], (he_inputs E (iengine s') l) as [i'|p']; cbn [bind] in *;
    try congruence.
  apply Ok_inj in Hi.
  assert (E1 : he_midstate E i' = he_midstate E i) by exact (f_equal (fun p => fst (fst p)) Hi).
  assert (E2 : he_n_bytes_hashed E i' = he_n_bytes_hashed E i) by exact (f_equal (fun p => snd (fst p)) Hi).
  assert (E3 : he_finalize E i' = he_finalize E i) by exact (f_equal snd Hi).
  assert (E4 : he_midstate E (oengine s') = he_midstate E (oengine s)).
  { specialize (Ho []). unfold observe in Ho. cbn [he_inputs bind] in Ho. apply Ok_inj in Ho.
    exact (f_equal (fun p => fst (fst p)) Ho). }
  f_equal. cbn [hmac_engine he_midstate he_n_bytes_hashed he_finalize iengine oengine].
  rewrite E1, E2, E3, E4. f_equal. destruct (he_finalize E i) as [ih|p]; [|reflexivity]. cbn [bind].
  specialize (Ho [ih]). unfold observe in Ho. cbn [he_inputs] in Ho.
  destruct (he_input E (oengine s) ih), (he_input E (oengine s') ih); cbn [bind] in *; try congruence.
Qed.

Lemma hmac_resume_gen c E s i' o' mi mo :
  he_midstate E (iengine s) = Ok mi -> he_midstate E (oengine s) = Ok mo ->
  he_from_midstate E mi (he_n_bytes_hashed E (iengine s)) = Ok i' ->
  he_from_midstate E mo (he_n_bytes_hashed E (iengine s)) = Ok o' ->
  resume (hmac_engine c E) s = Ok (mk_hmac i' o').
Proof.
  intros E1 E2 E3 E4. unfold resume. cbn [hmac_engine he_midstate he_from_midstate he_n_bytes_hashed].
  rewrite E1, E2. cbn [bind fst snd]. rewrite E3, E4. reflexivity.
Qed.

Lemma resume_parts E s s' : resume E s = Ok s' ->
  exists m, he_midstate E s = Ok m /\ he_from_midstate E m (he_n_bytes_hashed E s) = Ok s'.
Proof. unfold resume. apply bind_ok. Qed.

Lemma algo_resume c a s : a = Sha1 \/ a = Sha256 -> wf_config c -> algo_reachable c a s ->
  he_n_bytes_hashed (algo_engine c a) s mod 64 = 0 ->
  exists s', resume (algo_engine c a) s = Ok s' /\
    forall chunks, observe (algo_engine c a) s' chunks = observe (algo_engine c a) s chunks.
Proof.
  intros [-> | ->] WF HR H; [exact (sha1_resume c s WF HR H)|exact (sha256_resume c s WF HR H)].
Qed.

Lemma hmac_resume_fresh c a key s : a = Sha1 \/ a = Sha256 -> wf_config c ->
  hmac_new c (algo_engine c a) key = Ok s ->
  exists s', resume (hmac_engine c (algo_engine c a)) s = Ok s' /\
    forall chunks, observe (hmac_engine c (algo_engine c a)) s' chunks
                   = observe (hmac_engine c (algo_engine c a)) s chunks.
Proof.
  intros Ha WF Es. destruct (hmac_new_reachable c _ (algo_mid_ok c a) key s WF Es) as [HRi HRo].
  assert (Hni : he_n_bytes_hashed (algo_engine c a) (iengine s) = N.of_nat (block_len a))
    by exact (hmac_new_count c a key s WF Es).
  assert (Hno : he_n_bytes_hashed (algo_engine c a) (oengine s) = N.of_nat (block_len a)).
  { destruct (hmac_new_parts c _ key s Es) as (e0 & ib & ob & E0 & Hi & Ho & HB & Ei & Eo).
    assert (HR0 : algo_reachable c a e0) by exact (reach_new _ _ _ _ E0).
    rewrite (algo_input_count c WF a e0 ob _ HR0 Eo), Ho, algo_block, (algo_new_count c a e0 E0), N.add_0_l.
    apply N.mod_small. destruct (wf_M c WF) as [H256 _]. destruct a; cbn [block_len] in *; lia. }
  assert (HB : N.of_nat (block_len a) mod 64 = 0) by (destruct Ha as [-> | ->]; reflexivity).
  destruct (algo_resume c a (iengine s) Ha WF HRi ltac:(now rewrite Hni)) as (i' & Ri & Oi).
  destruct (algo_resume c a (oengine s) Ha WF HRo ltac:(now rewrite Hno)) as (o' & Ro & Oo).
  destruct (resume_parts _ _ _ Ri) as (mi & Mi & Fi). destruct (resume_parts _ _ _ Ro) as (mo & Mo & Fo).
  exists (mk_hmac i' o'). split.
  - apply (hmac_resume_gen c _ s i' o' mi mo); try assumption. now rewrite Hni, <- Hno.
  - now apply hmac_observe.
Qed.

(** [vm_compute] must not normalise a term of type [hmac_state _], which
    contains the engine's functions: only a boolean is computed. *)
Definition resume_differs (E : HashEngine) (r : res (he_state E)) : res bool :=
  let* s := r in
  let* s' := resume E s in
  let* d := he_finalize E s in
  let* d' := he_finalize E s' in
  Ok (negb (if list_eq_dec Byte.byte_eq_dec d' d then true else false)).

Lemma resume_differs_spec E r : resume_differs E r = Ok true ->
  exists s s', r = Ok s /\ resume E s = Ok s' /\ he_finalize E s' <> he_finalize E s.
Proof.
  unfold resume_differs. intros W.
  apply bind_ok in W as (s & Es & W). apply bind_ok in W as (s' & Es' & W).
  apply bind_ok in W as (d & Ed & W). apply bind_ok in W as (d' & Ed' & W).
  exists s, s'. split; [exact Es|]. split; [exact Es'|].
  intros He. destruct (list_eq_dec Byte.byte_eq_dec d' d); [discriminate|]. congruence.
Qed.

Lemma hmac_resume_witness : exists c key m s s', wf_config c /\ length m = 64%nat /\
  (let* s := hmac_new c (sha256_engine c) key in
   he_input (hmac_engine c (sha256_engine c)) s m) = Ok s /\
  resume (hmac_engine c (sha256_engine c)) s = Ok s' /\
  he_finalize (hmac_engine c (sha256_engine c)) s' <> he_finalize (hmac_engine c (sha256_engine c)) s.
Proof.
  set (c := target 64 true).
  assert (W : resume_differs (hmac_engine c (sha256_engine c))
    (let* s := hmac_new c (sha256_engine c) [x6b] in
     he_input (hmac_engine c (sha256_engine c)) s (repeat x61 64)) = Ok true)
    by (vm_cast_no_check (@eq_refl (res bool) (Ok true))).
  destruct (resume_differs_spec _ _ W) as (s & s' & H).
  exists c, [x6b], (repeat x61 64), s, s'.
  split; [right; right; reflexivity|]. split; [reflexivity|]. exact H.
Qed.

(** ** Tags *)

Lemma tag_engine_ok c tag : wf_config c -> len tag < 2 ^ (usize_bits c - 1) -> 8 * len tag < 2 ^ 64 ->
  exists e, tag_engine c tag = Ok e /\ algo_reachable c Sha256 e.
Proof.
  intros WF Hl H8. destruct (slice_room c _ WF Hl) as [Ha _].
  unfold tag_engine. rewrite (hash_tag_ok c tag WF Ha H8). cbn [bind].
  set (mid := md_words _ _).
  assert (Hm : length mid = 32%nat).
  { unfold mid. rewrite md_words_length by apply (mo_word _ (md_of_ok Sha256)).
    destruct (md_iterate_good _ _ (hash_of Sha256 tag ++ hash_of Sha256 tag) (md_of_ok Sha256)
                (mo_iv _ (md_of_ok Sha256))) as [-> _]. reflexivity. }
  pose proof (from_midstate_ok c Sha256 mid 64 Hm) as E. cbn [algo_engine sha256_engine he_from_midstate] in E.
  destruct (sha256_from_midstate mid 64) as [e|p] eqn:Ee; [|discriminate].
  exists e. split; [reflexivity|]. destruct (wf_M c WF) as [H256 _].
  exact (reach_mid c (sha256_engine c) (algo_mid_ok c Sha256) mid 64 e Hm ltac:(lia) Ee).
Qed.

Lemma tagged_standard c tag chunks : wf_config c -> len tag < 2 ^ (usize_bits c - 1) -> 8 * len tag < 2 ^ 64 ->
  fits c Sha256 (64 + length (List.concat chunks)) ->
  he_hash_byte_chunks (sha256t_engine c (tag_engine c tag)) chunks = Ok (tagged_hash tag (List.concat chunks)).
Proof.
  intros WF Hl H8 Hf. destruct (slice_room c _ WF Hl) as [Ha _].
  destruct (tag_engine_ok c tag WF Hl H8) as (e & Ee & _). rewrite Ee. unfold tag_engine in Ee.
  apply bind_ok in Ee. destruct Ee as (mid & Em & Ee).
  exact (tagged_ok c tag mid e chunks WF Ha H8 Em Ee Hf).
Qed.

Lemma app_inv_length {A} (a b a' b' : list A) : length a = length a' -> a ++ b = a' ++ b' -> a = a' /\ b = b'.
Proof.
  revert a'. induction a as [|x a IH]; intros [|x' a'] Hl E; try discriminate; [now split|].
  injection Hl as Hl. cbn [app] in E. injection E as -> E. destruct (IH a' Hl E) as [-> ->]. now split.
Qed.

Lemma tagged_injective tag msg tag' msg' :
  (tag, msg) <> (tag', msg') -> tagged_hash tag msg = tagged_hash tag' msg' ->
  exists x x', x <> x' /\ SpecSha2.SHA256 x = SpecSha2.SHA256 x' /\
    ((x, x') = (tag, tag') \/
     (x, x') = (SpecSha2.SHA256 tag ++ SpecSha2.SHA256 tag ++ msg,
                SpecSha2.SHA256 tag' ++ SpecSha2.SHA256 tag' ++ msg')).
Proof.
  intros Hne E. unfold tagged_hash in E.
  set (x := SpecSha2.SHA256 tag ++ SpecSha2.SHA256 tag ++ msg) in *.
  set (x' := SpecSha2.SHA256 tag' ++ SpecSha2.SHA256 tag' ++ msg') in *.
  destruct (list_eq_dec Byte.byte_eq_dec x x') as [Ex|Ex].
  - assert (Hl := hash_of_length Sha256 tag). assert (Hl' := hash_of_length Sha256 tag').
    cbn [hash_of digest_len] in Hl, Hl'. unfold x, x' in Ex. clearbody x x'.
    remember (SpecSha2.SHA256 tag) as t eqn:Et. remember (SpecSha2.SHA256 tag') as t' eqn:Et'.
    assert (Htt : t = t' /\ t ++ msg = t' ++ msg').
    { apply app_inv_length; [congruence|exact Ex]. }
    destruct Htt as [<- Em]. apply app_inv_head in Em. subst msg'.
    exists tag, tag'. split; [intros ->; now apply Hne|]. split; [congruence|]. now left.
  - exists x, x'. split; [exact Ex|]. split; [exact E|]. now right.
Qed.

Lemma tagged_separated c tag msg tag' msg' : wf_config c ->
  len tag < 2 ^ (usize_bits c - 1) -> 8 * len tag < 2 ^ 64 ->
  len tag' < 2 ^ (usize_bits c - 1) -> 8 * len tag' < 2 ^ 64 ->
  fits c Sha256 (64 + length msg) -> fits c Sha256 (64 + length msg') ->
  (tag, msg) <> (tag', msg') ->
  he_hash (sha256t_engine c (tag_engine c tag)) msg = he_hash (sha256t_engine c (tag_engine c tag')) msg' ->
  exists x x', x <> x' /\ SpecSha2.SHA256 x = SpecSha2.SHA256 x' /\
    ((x, x') = (tag, tag') \/
     (x, x') = (SpecSha2.SHA256 tag ++ SpecSha2.SHA256 tag ++ msg,
                SpecSha2.SHA256 tag' ++ SpecSha2.SHA256 tag' ++ msg')).
Proof.
  intros WF Ht H8 Ht' H8' Hf Hf' Hne E. apply tagged_injective; [exact Hne|].
  rewrite !he_hash_chunks in E.
  rewrite !tagged_standard in E; cbn [List.concat] in *; rewrite ?app_nil_r in *; try assumption.
  exact (Ok_inj _ _ E).
Qed.

Lemma hmac_sha256t c tag key chunks : wf_config c ->
  len tag < 2 ^ (usize_bits c - 1) -> 8 * len tag < 2 ^ 64 ->
  fits c Sha256 (64 + length key) -> fits c Sha256 (64 + (64 + length (List.concat chunks))) ->
  fits c Sha256 (64 + (64 + 32)) ->
  let E := sha256t_engine c (tag_engine c tag) in
  (let* s := hmac_new c E key in
   let* s := he_inputs (hmac_engine c E) s chunks in
   he_finalize (hmac_engine c E) s)
  = Ok (HMAC (tagged_hash tag) 64 key (List.concat chunks)).
Proof.
  intros WF Hl H8 Hk Hi Ho E.
  apply (hmac_lawful_law c E _ (fun n => fits c Sha256 (64 + n)) 64 32); try assumption; try lia.
  - intros l Hf. now apply tagged_standard.
  - reflexivity.
  - intros m. apply (hash_of_length Sha256).
  - intros _. exact Hk.
Qed.

Lemma load_int_le_value c k buf i : i + N.of_nat k <= len buf ->
  load_int_le c k buf i = Ok (le_int (firstn k (skipn (N.to_nat i) buf))).
Proof. intros H. rewrite load_int_le_ok by exact H. now rewrite le_value_le_int. Qed.

Lemma hmac_new_large_N c E key s : 128 < he_block_size E -> hmac_new c E key <> Ok s.
Proof. intros H. apply (hmac_new_large c E (N.to_nat (he_block_size E)) ltac:(lia) key s). lia. Qed.

Lemma hmac_new_crate c a key : wf_config c -> fits c a (length key) ->
  is_ok (hmac_new c (algo_engine c a) key) = true.
Proof.
  intros WF Hf. rewrite hmac_new_panics.
  - rewrite algo_block. destruct a; reflexivity.
  - intros s Es d Hd. rewrite (algo_input_ok c WF a s d (reach_new _ _ _ _ Es)), (algo_new_count c a s Es).
    destruct (wf_M c WF) as [H256 _]. destruct (N.leb_spec (2 ^ usize_bits c) (0 + len d)); [lia|].
    now rewrite andb_false_r.
  - destruct a; reflexivity.
  - rewrite (hash_standard c a key WF Hf). reflexivity.
Qed.
