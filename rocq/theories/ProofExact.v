(** What every engine returns, for every build and every message length. *)
From Coq Require Import NArith ZArith List Bool Lia.
From Coq Require Import ZifyBool ZifyNat ZifyN.
From Verif Require Import Base SpecBase SpecMD SpecMac ModelEngine ModelSha256 ModelSip ModelHmac ModelAll ModelTypes
  ModelStore SpecApi SpecStore SpecMore SpecExact ProofBase ProofEngine ProofMD ProofApi ProofConst ProofMid ProofSip ProofHmac
  ProofSplit ProofHash ProofMac ProofStore ProofSound.
Import ListNotations.
Open Scope N_scope.

Definition exact (c : config) (E : HashEngine) (R : bytes -> option bytes) : Prop :=
  forall chunks, Forall (slice c) chunks -> he_hash_byte_chunks E chunks = result_of (R (List.concat chunks)).

Section Hmac.
  Context (c : config) (WF : wf_config c) (E : HashEngine) (R : bytes -> option bytes) (EX : exact c E R).
  Context (B D : nat) (HB : he_block_size E = N.of_nat B) (H128 : (B <= 128)%nat).
  Context (HD : forall m d, R m = Some d -> length d = D) (HDB : (D <= B)%nat).

  Let small (b : bytes) : (length b <= 128)%nat -> slice c b.
  Proof. intros Hb. unfold slice, len. destruct WF as [-> | [-> | ->]]; lia. Qed.

  Let res_panic x p : result_of x = Panic p -> x = None /\ p = POverflow.
  Proof. destruct x; cbn; intros e; [discriminate|]. now injection e as <-. Qed.

  (** The part after the key has been brought to block length. *)
  Lemma exact_from k chunks : length k = B -> Forall (slice c) chunks ->
    (let* s := hmac_from E k in
     let* s := he_inputs (hmac_engine c E) s chunks in
     he_finalize (hmac_engine c E) s)
    = result_of (obind (R (xor_pad x36 k ++ List.concat chunks)) (fun ih => R (xor_pad x5c k ++ ih))).
  Proof.
    intros Hk HF.
    assert (Hp : forall p, slice c (xor_pad p k)) by (intros p; apply small; unfold xor_pad; rewrite map_length; lia).
    pose proof (EX (xor_pad x36 k :: chunks) ltac:(constructor; [apply Hp|exact HF])) as EI. cbn [List.concat] in EI.
    assert (EO : forall ih, length ih = D ->
      he_hash_byte_chunks E [xor_pad x5c k; ih] = result_of (R (xor_pad x5c k ++ ih))).
    { intros ih Hih. rewrite (EX [xor_pad x5c k; ih]).
      - cbn [List.concat]. now rewrite app_nil_r.
      - constructor; [apply Hp|]. constructor; [apply small; lia|constructor]. }
    unfold he_hash_byte_chunks in EI, EO. cbn [he_inputs] in EI, EO. unfold hmac_from.
    destruct (he_default E) as [s0|p0] eqn:E0; cbn [bind] in *.
    2:{ symmetry in EI. apply res_panic in EI. destruct EI as [-> ->]. reflexivity. }
    destruct (he_input E s0 (xor_pad x36 k)) as [i1|p1] eqn:E1; cbn [bind] in *.
    2:{ symmetry in EI. apply res_panic in EI. destruct EI as [-> ->]. reflexivity. }
    destruct (he_input E s0 (xor_pad x5c k)) as [o1|p1] eqn:E2; cbn [bind] in *.
    - rewrite hmac_inputs. cbn [iengine oengine].
      destruct (he_inputs E i1 chunks) as [i2|p2] eqn:E3; cbn [bind hmac_engine he_finalize iengine oengine] in *.
      2:{ symmetry in EI. apply res_panic in EI. destruct EI as [-> ->]. reflexivity. }
      rewrite EI. destruct (R (xor_pad x36 k ++ List.concat chunks)) as [ih|] eqn:ER; cbn [result_of bind obind]; [|reflexivity].
      rewrite <- (EO ih (HD _ _ ER)). destruct (he_input E o1 ih); reflexivity.
    - destruct (R (xor_pad x36 k ++ List.concat chunks)) as [ih|] eqn:ER; cbn [result_of obind].
      + rewrite <- (EO ih (HD _ _ ER)). reflexivity.
      + specialize (EO (repeat x00 D) (repeat_length _ _)). symmetry in EO. apply res_panic in EO. destruct EO as [_ ->]. reflexivity.
  Qed.

  Lemma exact_hmac_key key chunks : slice c key -> Forall (slice c) chunks ->
    (let* s := hmac_new c E key in
     let* s := he_inputs (hmac_engine c E) s chunks in
     he_finalize (hmac_engine c E) s) = result_of (hmac_result R B key (List.concat chunks)).
  Proof.
    intros Hk HF. unfold hmac_result. destruct (Nat.ltb_spec B (length key)) as [Hlt|Hge].
    - assert (EK : he_hash E key = result_of (R key)).
      { rewrite he_hash_chunks, (EX [key]) by (repeat constructor; exact Hk). cbn [List.concat]. now rewrite app_nil_r. }
      destruct (R key) as [h|] eqn:ER; cbn [obind result_of] in *.
      + rewrite (hmac_new_long c E B HB key h) by (try assumption; rewrite (HD _ _ ER); lia).
        apply exact_from; [|exact HF]. rewrite app_length, repeat_length, (HD _ _ ER). lia.
      + enough (HN : hmac_new c E key = Panic POverflow) by now rewrite HN.
        unfold hmac_new. rewrite HB, debug_assert_ok by (apply N.leb_le; lia). cbn [bind].
        unfold he_hash in EK. destruct (he_default E) as [s0|p0] eqn:E0; cbn [bind] in *; [|now injection EK as ->].
        destruct (N.ltb_spec (N.of_nat B) (len key)) as [_|Hx]; [|unfold len in Hx; lia].
        unfold he_hash. rewrite E0. cbn [bind]. now rewrite EK.
    - cbn [obind]. rewrite (hmac_new_short c E B HB key) by lia.
      apply exact_from; [|exact HF]. rewrite app_length, repeat_length. lia.
  Qed.

  Lemma hmac_result_length key m d : hmac_result R B key m = Some d -> length d = D.
  Proof.
    unfold hmac_result. destruct (if (Nat.ltb B (length key)) then R key else Some key); cbn [obind]; [|discriminate].
    destruct (R (xor_pad x36 _ ++ m)); cbn [obind]; [|discriminate]. apply HD.
  Qed.

  Lemma exact_hmac : exact c (hmac_engine c E) (hmac_result R B []).
  Proof. intros chunks HF. apply exact_hmac_key; [apply small; cbn; lia|exact HF]. Qed.
End Hmac.

(** ** The engines with a block function *)
Lemma exact_algo c a : wf_config c -> exact c (algo_engine c a) (algo_result c a).
Proof.
  intros WF chunks _. rewrite hash_byte_chunks_exact by exact WF. unfold algo_result, md_result. rewrite !N.add_0_l.
  destruct (overflow_checks c); [|reflexivity].
  set (m := List.concat chunks).
  destruct (N.leb_spec (2 ^ usize_bits c) (N.of_nat (md_padded (md_of a) (length m))));
    destruct (N.ltb_spec (N.of_nat (md_padded (md_of a) (length m))) (2 ^ usize_bits c)); try lia; [reflexivity|].
  cbn [orb andb]. destruct (N.leb_spec (2 ^ 64) (8 * len m)); destruct (N.ltb_spec (8 * len m) (2 ^ 64)); try lia;
    [reflexivity|]. cbn [result_of]. f_equal. symmetry. apply md_hash_standard.
Qed.

Lemma exact_sip c k0 k1 chunks : wf_config c -> k0 < 2 ^ 64 -> k1 < 2 ^ 64 -> Forall (slice c) chunks ->
  (let* s := he_inputs (siphash24_engine c) (with_keys k0 k1) chunks in he_finalize (siphash24_engine c) s)
  = result_of (sip_result c k0 k1 (List.concat chunks)).
Proof.
  intros WF H0 H1 HF. rewrite siphash_digest by assumption. unfold sip_result.
  destruct (overflow_checks c); [|reflexivity].
  destruct (N.leb_spec (2 ^ usize_bits c) (len (List.concat chunks)));
    destruct (N.ltb_spec (len (List.concat chunks)) (2 ^ usize_bits c)); try lia; reflexivity.
Qed.

(** ** A tag whose engine is resumed from any midstate *)
Lemma tag_mid_exact c m n e chunks : wf_config c -> length m = 32%nat -> n < 2 ^ usize_bits c ->
  sha256_from_midstate m n = Ok e ->
  he_hash_byte_chunks (sha256t_engine c (Ok e)) chunks
  = result_of (md_result c Sha256 (be_words 4 m) n (List.concat chunks)).
Proof.
  intros WF Hm Hn Ee.
  destruct (from_to_mid c Sha256 m n e Hm Hn Ee) as [HF _].
  unfold he_hash_byte_chunks. cbn [sha256t_engine he_default bind].
  rewrite (sha256t_inputs c (Ok e) e chunks). cbn [he_finalize].
  change (sha256_finalize c) with (he_finalize (generic_engine c Sha256)).
  change (sha256_engine c) with (generic_engine c Sha256).
  rewrite (splits_from_to c Sha256 WF _ _ _ _ HF). set (msg := List.concat chunks).
  destruct HF as (Hh & HL & HM & ->). cbn [generic_engine he_input he_finalize].
  rewrite algo_input_exact by assumption.
  assert (HC0 : counter c n (len (@nil byte)) = n)
    by (unfold counter; change (len (@nil byte)) with 0; rewrite N.add_0_r; now apply N.mod_small).
  rewrite HC0. unfold md_result.
  change (he_finalize (sha256t_engine c (Ok (state_at c Sha256 (be_words 4 m) n [])))) with (algo_finalize c Sha256).
  pose proof (md_padded_ge (md_of Sha256) (length msg)) as Hge.
  destruct (overflow_checks c) eqn:Ec; cbn [andb].
  - destruct (N.leb_spec (2 ^ usize_bits c) (n + len msg)) as [Ho|Ho]; cbn [bind].
    + destruct (N.ltb_spec (n + N.of_nat (md_padded (md_of Sha256) (length msg))) (2 ^ usize_bits c)) as [Hx|]; [|reflexivity].
      unfold len in Ho. lia.
    + cbn [app]. rewrite algo_finalize_exact by assumption. unfold finalize_overflows, bits_at, counter. rewrite Ec. cbn [andb].
      rewrite (N.mod_small (n + len msg)) by exact Ho.
      replace (n + len msg + (1 + N.of_nat (md_zeros (md_of Sha256) (length msg)) + N.of_nat (md_field (md_of Sha256))))
        with (n + N.of_nat (md_padded (md_of Sha256) (length msg))) by (unfold md_padded, len; lia).
      set (P := n + N.of_nat _).
      destruct (N.leb_spec (2 ^ usize_bits c) P); destruct (N.ltb_spec P (2 ^ usize_bits c)); try lia; [reflexivity|].
      cbn [orb andb]. set (Q := 8 * (n + len msg)).
      destruct (N.leb_spec (2 ^ 64) Q); destruct (N.ltb_spec Q (2 ^ 64)); try lia; [reflexivity|].
      now rewrite N.mod_small by assumption.
  - cbn [bind app]. rewrite algo_finalize_exact by assumption. unfold finalize_overflows. rewrite Ec. reflexivity.
Qed.

Lemma exact_tag c tag : wf_config c -> kind_real c (KTag tag) ->
  exact c (kind_engine c (KTag tag)) (kind_result c (KTag tag)).
Proof.
  intros WF [Hl H8] chunks HF. cbn [kind_engine kind_result].
  destruct (slice_room c _ WF Hl) as [Ha _].
  destruct (tag_engine_ok c tag WF Hl H8) as (e & Ee & _). rewrite Ee. unfold tag_engine in Ee.
  apply bind_ok in Ee. destruct Ee as (mid & Em & Ee).
  rewrite hash_tag_ok in Em by assumption. apply Ok_inj in Em. subst mid.
  assert (Hh := hash_of_length Sha256 tag). cbn [digest_len] in Hh.
  set (h := hash_of Sha256 tag) in *.
  assert (Hl2 : length (h ++ h) = 64%nat) by (rewrite app_length; lia).
  assert (Hg : good_h (md_of Sha256) (md_iterate (md_of Sha256) (md_iv (md_of Sha256)) (h ++ h))).
  { apply md_iterate_good; [apply md_of_ok|apply (mo_iv _ (md_of_ok Sha256))]. }
  assert (H64 : 64 < 2 ^ usize_bits c) by (destruct WF as [-> | [-> | ->]]; reflexivity).
  match type of Ee with sha256_from_midstate ?m _ = _ =>
    rewrite (tag_mid_exact c m 64 e chunks WF); try assumption end.
  - rewrite be_words_md_words by (try exact Hg; now right). f_equal.
    unfold algo_result, md_result. set (msg := List.concat chunks). rewrite !(app_assoc h h).
    replace (0 + len ((h ++ h) ++ msg)) with (64 + len msg) by (unfold len; rewrite app_length, Hl2; lia).
    replace (0 + N.of_nat (md_padded (md_of Sha256) (length ((h ++ h) ++ msg))))
      with (64 + N.of_nat (md_padded (md_of Sha256) (length msg))).
    + rewrite !md_hash_from_app by (rewrite Hl2; reflexivity). reflexivity.
    + rewrite app_length, Hl2. unfold md_padded.
      rewrite (md_zeros_congr Sha256 (64 + length msg) (length msg)); [lia|].
      cbn [md_of md_block]. rewrite Nat.add_mod, Nat.mod_same by lia. cbn [Nat.add]. apply Nat.mod_mod. lia.
  - rewrite md_words_length by apply (mo_word _ (md_of_ok Sha256)). destruct Hg as [-> _]. reflexivity.
Qed.

(** ** All engines *)
Lemma md_result_length c a h n m d : good_h (md_of a) h -> md_result c a h n m = Some d -> length d = md_digest (md_of a).
Proof.
  intros Hh. unfold md_result. destruct (overflow_checks c); [destruct (_ && _)|]; intros e; try discriminate;
    injection e as <-; apply md_hash_from_length; try assumption; apply md_of_ok.
Qed.
Lemma kind_result_length c k m d : kind_result c k m = Some d -> length d = kind_digest k.
Proof.
  revert m d. induction k as [a| |tag|k IH]; intros m d e; cbn [kind_result kind_digest] in *.
  - apply md_result_length in e; [|apply (mo_iv _ (md_of_ok a))]. rewrite e. destruct a; reflexivity.
  - unfold sip_result in e. destruct (_ && _); [discriminate|]. injection e as <-. apply length_le_octets.
  - apply md_result_length in e; [|apply (mo_iv _ (md_of_ok Sha256))]. exact e.
  - exact (hmac_result_length (kind_result c k) (kind_block k) (kind_digest k) IH [] m d e).
Qed.

Lemma exact_kind c k : wf_config c -> kind_real c k -> exact c (kind_engine c k) (kind_result c k).
Proof.
  intros WF. induction k as [a| |tag|k IH]; intros Hk.
  - now apply exact_algo.
  - intros chunks HF. exact (exact_sip c 0 0 chunks WF eq_refl eq_refl HF).
  - now apply exact_tag.
  - exact (exact_hmac c WF (kind_engine c k) (kind_result c k) (IH Hk) (kind_block k) (kind_digest k)
      (kind_block_size c k) (kind_block_le k) (kind_result_length c k) (kind_digest_le k)).
Qed.

Lemma exact_digest c o chunks : wf_config c -> origin_real c o -> Forall (slice c) chunks ->
  digest_of c o chunks = result_of (origin_result c o (List.concat chunks)).
Proof.
  intros WF Ho HF. destruct o as [k|k key|k0 k1]; cbn [origin_real origin_result] in *.
  - exact (exact_kind c k WF Ho chunks HF).
  - destruct Ho as [Hk Hs].
    exact (exact_hmac_key c WF (kind_engine c k) (kind_result c k) (exact_kind c k WF Hk) (kind_block k) (kind_digest k)
      (kind_block_size c k) (kind_block_le k) (kind_result_length c k) (kind_digest_le k) key chunks Hs HF).
  - destruct Ho as [H0 H1]. exact (exact_sip c k0 k1 chunks WF H0 H1 HF).
Qed.

(** ** With and without overflow checks *)
Lemma algo_result_checked c a m : overflow_checks c = true ->
  (algo_result c a m <> None <-> fits c a (length m)).
Proof.
  intros Hc. unfold algo_result, md_result, fits. rewrite Hc, !N.add_0_l. unfold len.
  set (P := N.of_nat (md_padded _ _)). set (Q := 8 * _).
  destruct (N.ltb_spec P (2 ^ usize_bits c)); destruct (N.ltb_spec Q (2 ^ 64)); cbn [andb]; split; intros h;
    try (split; assumption); try discriminate; try (now elim h); destruct h; lia.
Qed.

Lemma hmac_result_some H B D key m : (forall m d, H m = Some d -> length d = D) ->
  forall fits : nat -> Prop, (forall m, H m <> None <-> fits (length m)) -> (D <= B)%nat ->
  (hmac_result H B key m <> None <->
   (fits (B + length m)%nat /\ fits (B + D)%nat) /\ ((B < length key)%nat -> fits (length key))).
Proof.
  intros HD fits HF HDB. unfold hmac_result.
  assert (Hpad : forall p (k m : bytes), (length k <= B)%nat ->
    length (xor_pad p (k ++ repeat x00 (B - length k)%nat) ++ m) = (B + length m)%nat).
  { intros p k m' Hk. rewrite app_length. unfold xor_pad. rewrite map_length, app_length, repeat_length. lia. }
  assert (HK : forall k, (length k <= B)%nat ->
    (obind (H (xor_pad x36 (k ++ repeat x00 (B - length k)%nat) ++ m))
       (fun ih => H (xor_pad x5c (k ++ repeat x00 (B - length k)%nat) ++ ih)) <> None
     <-> fits (B + length m)%nat /\ fits (B + D)%nat)).
  { intros k Hk.
    pose proof (HF (xor_pad x36 (k ++ repeat x00 (B - length k)%nat) ++ m)) as H1. rewrite Hpad in H1 by exact Hk.
    destruct (H (xor_pad x36 (k ++ repeat x00 (B - length k)%nat) ++ m)) as [ih|] eqn:Ei; cbn [obind].
    - pose proof (HF (xor_pad x5c (k ++ repeat x00 (B - length k)%nat) ++ ih)) as H2.
      rewrite Hpad, (HD _ _ Ei) in H2 by exact Hk. rewrite H2. split; [|tauto]. intros h. split; [|exact h].
      apply H1. discriminate.
    - split; [congruence|]. intros [h _]. apply H1 in h. now elim h. }
  destruct (Nat.ltb_spec B (length key)) as [Hlt|Hge].
  - pose proof (HF key) as H0. destruct (H key) as [h|] eqn:Eh; cbn [obind].
    + rewrite HK by (rewrite (HD _ _ Eh); exact HDB). split; [|tauto]. intros h'. split; [exact h'|].
      intros _. apply H0. discriminate.
    + split; [congruence|]. intros [_ h]. apply h, H0 in Hlt. now elim Hlt.
  - cbn [obind]. rewrite HK by exact Hge. split; [|tauto]. intros h. split; [exact h|lia].
Qed.

Lemma kind_result_checked c k m : overflow_checks c = true -> kind_real c k ->
  (kind_result c k m <> None <-> kind_fits c k (length m)).
Proof.
  intros Hc. revert m. induction k as [a| |tag|k IH]; intros m Hk; cbn [kind_result kind_fits kind_real] in *.
  - now apply algo_result_checked.
  - unfold sip_result. rewrite Hc. unfold len. destruct (N.ltb_spec (N.of_nat (length m)) (2 ^ usize_bits c)); cbn [andb negb];
      split; intros h; try assumption; try discriminate; [now elim h|lia].
  - rewrite algo_result_checked by exact Hc. rewrite !app_length, !hash_of_length. cbn [digest_len].
    replace (32 + (32 + length m))%nat with (64 + length m)%nat by lia. tauto.
  - rewrite (hmac_result_some (kind_result c k) (kind_block k) (kind_digest k) [] m (kind_result_length c k)
      (kind_fits c k) (fun m => IH m Hk) (kind_digest_le k)).
    cbn [length]. split; [tauto|]. intros h. split; [exact h|lia].
Qed.

Lemma origin_result_checked c o m : overflow_checks c = true -> origin_real c o ->
  (origin_result c o m <> None <-> origin_fits c o (length m)).
Proof.
  intros Hc Ho. destruct o as [k|k key|k0 k1]; cbn [origin_result origin_fits origin_real] in *.
  - now apply kind_result_checked.
  - destruct Ho as [Hk _]. cbn [kind_fits].
    exact (hmac_result_some (kind_result c k) (kind_block k) (kind_digest k) key m (kind_result_length c k)
      (kind_fits c k) (fun m => kind_result_checked c k m Hc Hk) (kind_digest_le k)).
  - unfold sip_result. rewrite Hc. unfold len. destruct (N.ltb_spec (N.of_nat (length m)) (2 ^ usize_bits c)); cbn [andb negb];
      split; intros h; try assumption; try discriminate; [now elim h|lia].
Qed.

Lemma checked_exact c o chunks : wf_config c -> overflow_checks c = true -> origin_real c o -> Forall (slice c) chunks ->
  (origin_fits c o (length (List.concat chunks)) -> digest_of c o chunks = Ok (origin_hash o (List.concat chunks))) /\
  (~ origin_fits c o (length (List.concat chunks)) -> digest_of c o chunks = Panic POverflow).
Proof.
  intros WF Hc Ho HF. split; intros Hf.
  - exact (digest_fits c o chunks WF (real_ok c o Ho) HF Hf).
  - rewrite exact_digest by assumption. pose proof (origin_result_checked c o (List.concat chunks) Hc Ho) as H.
    destruct (origin_result c o (List.concat chunks)); [|reflexivity]. elim Hf. apply H. discriminate.
Qed.

Lemma hmac_result_total H B key m : (forall m, H m <> None) -> hmac_result H B key m <> None.
Proof.
  intros HT. unfold hmac_result. destruct (Nat.ltb B (length key)).
  - pose proof (HT key). destruct (H key); [|congruence]. cbn [obind].
    match goal with |- context [H (xor_pad x36 ?k ++ m)] => pose proof (HT (xor_pad x36 k ++ m)); destruct (H (xor_pad x36 k ++ m)) end;
      [apply HT|congruence].
  - cbn [obind].
    match goal with |- context [H (xor_pad x36 ?k ++ m)] => pose proof (HT (xor_pad x36 k ++ m)); destruct (H (xor_pad x36 k ++ m)) end;
      [apply HT|congruence].
Qed.
Lemma kind_result_unchecked c k m : overflow_checks c = false -> kind_result c k m <> None.
Proof.
  intros Hc. revert m. induction k as [a| |tag|k IH]; intros m; cbn [kind_result].
  - unfold algo_result, md_result. rewrite Hc. discriminate.
  - unfold sip_result. rewrite Hc. discriminate.
  - unfold algo_result, md_result. rewrite Hc. discriminate.
  - now apply hmac_result_total.
Qed.
Lemma unchecked_total c o chunks : wf_config c -> overflow_checks c = false -> origin_real c o -> Forall (slice c) chunks ->
  is_ok (digest_of c o chunks) = true.
Proof.
  intros WF Hc Ho HF. rewrite exact_digest by assumption.
  assert (H : origin_result c o (List.concat chunks) <> None).
  { destruct o as [k|k key|k0 k1]; cbn [origin_result].
    - now apply kind_result_unchecked.
    - apply hmac_result_total. intros m. now apply kind_result_unchecked.
    - unfold sip_result. rewrite Hc. discriminate. }
  destruct (origin_result c o (List.concat chunks)); [reflexivity|congruence].
Qed.

(** ** Tags whose engine has been fed already *)
Lemma tag_any_midstate c m n e0 pre e chunks : wf_config c -> length m = 32%nat -> n < 2 ^ usize_bits c ->
  sha256_from_midstate m n = Ok e0 -> he_inputs (sha256_engine c) e0 pre = Ok e ->
  he_hash_byte_chunks (sha256t_engine c (Ok e)) chunks
  = result_of (md_result c Sha256 (be_words 4 m) n (List.concat pre ++ List.concat chunks)).
Proof.
  intros WF Hm Hn E0 Ep. replace (List.concat pre ++ List.concat chunks) with (List.concat (pre ++ chunks)) by apply concat_app.
  rewrite <- (tag_mid_exact c m n e0 (pre ++ chunks) WF Hm Hn E0).
  unfold he_hash_byte_chunks. cbn [sha256t_engine he_default bind].
  rewrite (sha256t_inputs c (Ok e) e chunks), (sha256t_inputs c (Ok e0) e0 (pre ++ chunks)), he_inputs_app.
  change (he_state (sha256_engine c)) with engine in *. now rewrite Ep.
Qed.
Lemma tag_any_fresh c e0 pre e chunks : wf_config c -> he_default (sha256_engine c) = Ok e0 ->
  Forall (slice c) pre -> Forall (slice c) chunks ->
  he_inputs (sha256_engine c) e0 pre = Ok e ->
  he_hash_byte_chunks (sha256t_engine c (Ok e)) chunks
  = result_of (algo_result c Sha256 (List.concat pre ++ List.concat chunks)).
Proof.
  intros WF E0 HP HF Ep. replace (List.concat pre ++ List.concat chunks) with (List.concat (pre ++ chunks)) by apply concat_app.
  rewrite <- (exact_algo c Sha256 WF (pre ++ chunks)) by now apply Forall_app.
  unfold he_hash_byte_chunks. cbn [sha256t_engine he_default bind].
  rewrite (sha256t_inputs c (Ok e) e chunks). change (algo_engine c Sha256) with (sha256_engine c).
  rewrite E0. cbn [bind]. rewrite he_inputs_app.
  change (he_state (sha256_engine c)) with engine in *. now rewrite Ep.
Qed.

(** ** Counts and absence of panics for every engine *)
Lemma origin_count c o s chunks s' : wf_config c -> origin_ok o -> start c o = Ok s -> Forall (slice c) chunks ->
  he_inputs (kind_engine c (origin_kind o)) s chunks = Ok s' ->
  he_n_bytes_hashed (kind_engine c (origin_kind o)) s'
  = (N.of_nat (origin_prefix o) + len (List.concat chunks)) mod 2 ^ usize_bits c.
Proof. intros WF Ho E HF E'. apply (holds_count c WF o); [exact Ho|]. exists s, chunks. now repeat split. Qed.

Lemma origin_no_panic c o chunks : wf_config c -> origin_ok o -> Forall (slice c) chunks ->
  origin_fits c o (length (List.concat chunks)) ->
  exists s s' d, start c o = Ok s /\ he_inputs (kind_engine c (origin_kind o)) s chunks = Ok s' /\
    he_finalize (kind_engine c (origin_kind o)) s' = Ok d /\ len d = ty_len (origin_ty o).
Proof.
  intros WF Ho HF Hf. pose proof (digest_fits c o chunks WF Ho HF Hf) as E. unfold digest_of in E.
  apply bind_ok in E. destruct E as (s & E0 & E). apply bind_ok in E. destruct E as (s' & E1 & E).
  exists s, s', (origin_hash o (List.concat chunks)). repeat split; try assumption.
  apply (holds_length c WF o (List.concat chunks) s'); [exact Ho| |exact E]. exists s, chunks. now repeat split.
Qed.

Lemma sip_overflow_exact c k0 k1 chunks : wf_config c -> k0 < 2 ^ 64 -> k1 < 2 ^ 64 -> Forall (slice c) chunks ->
  let m := List.concat chunks in
  digest_of c (FromKeys k0 k1) chunks =
  if overflow_checks c && (2 ^ usize_bits c <=? len m) then Panic POverflow else Ok (le_octets 8 (siphash24 k0 k1 m)).
Proof.
  intros WF H0 H1 Hs m. rewrite exact_digest by (auto; now split). cbn [origin_result]. unfold sip_result. fold m.
  destruct (overflow_checks c), (N.ltb_spec (len m) (2 ^ usize_bits c)), (N.leb_spec (2 ^ usize_bits c) (len m));
    cbn [andb negb result_of]; lia || reflexivity.
Qed.
