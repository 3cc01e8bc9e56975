(** The generated text against the model and the specification, for every kind
    of engine and for programs over the whole API. *)
From Coq Require Import Arith Lia.
From Verif Require Import Base SpecBase SpecMD SpecMac ModelEngine ModelSha256 ModelSip ModelHmac ModelCmp ModelAll ModelTypes ModelStore
  SpecApi SpecStore SpecMore ModelProgram SpecProgram GenBase GenLib GenCmp GenSip GenSha1 GenSha256 GenSha512 GenSha384 GenRipemd
  GenHmac GenSha256t GenSha256Const SpecGen ProofBase ProofProgram ProofGenBase ProofGenEngine ProofGenSha256 ProofGenConstAll
  ProofGenMac ProofGenSip ProofMD ProofGenSha1E ProofGenSha512 ProofGenRipemdE ProofApi ProofStore ProofConst ProofMac ProofCmp.

Theorem tag_engine_gen c tag : wf_config c -> gen_tag_engine c tag = tag_engine c tag.
Proof.
  intros WF. unfold gen_tag_engine, tag_engine. rewrite (hash_tag_gen c WF tag). apply bind_ext. intros m _.
  apply sha256_from_midstate_inherent_gen.
Qed.

Theorem kinds_agree c k : wf_config c -> agree c (gen_kind c k) (kind_engine c k) (kind_rel c k) (kind_mid c k).
Proof.
  intros WF. induction k as [a| |tag|k IH]; cbn [gen_kind kind_engine kind_rel kind_mid].
  - exact (engines_agree c a WF).
  - exact (sip_agree c WF).
  - apply (sha256_agree c WF); [exact (tag_engine_gen c tag WF)|].
    intros e. unfold tag_engine. destruct hash_tag as [m|]; [|discriminate]. cbn [bind].
    apply sha256_from_midstate_typed.
  - exact (hmac_agree c WF _ _ _ _ IH).
Qed.

Lemma kind_mid_out c k : forall m m', kind_mid c k m m' -> gmid_out c k m = mid_out c k m'.
Proof.
  induction k as [a| |tag|k IH].
  - destruct a; intros m m' H; exact H.
  - intros m m' H; exact H.
  - intros m m' H; exact H.
  - intros m m' [H1 H2]. exact (f_equal2 pair (IH _ _ H1) (IH _ _ H2)).
Qed.
Lemma kind_mid_in c k : forall m, kind_mid c k (gmid_in c k m) (mid_in c k m).
Proof.
  induction k as [a| |tag|k IH].
  - destruct a; intros m; exact (@eq_refl bytes m).
  - intros m. exact (@eq_refl sip_state m).
  - intros m. exact (@eq_refl bytes m).
  - intros m. split; apply IH.
Qed.

Section Programs.
  Context (c : config) (WF : wf_config c).

  Lemma gen_new k : kind_real c k -> ProofProgram.res_rel (kind_rel c k) (a_new (gen_api c) k) (a_new (code_api c) k).
  Proof. intros _. exact (ag_default _ _ _ _ _ (kinds_agree c k WF)). Qed.
  Lemma gen_hmac k key : kind_real c k -> slice c key ->
    ProofProgram.res_rel (kind_rel c (KHmac k)) (a_hmac (gen_api c) k key) (a_hmac (code_api c) k key).
  Proof. intros _ Hk. exact (hmac_new_agree c WF _ _ _ _ (kinds_agree c k WF) key Hk). Qed.
  Lemma gen_keys k0 k1 : k0 < 2 ^ 64 -> k1 < 2 ^ 64 ->
    kind_rel c KSip (a_with_keys (gen_api c) k0 k1) (a_with_keys (code_api c) k0 k1).
  Proof.
    intros _ _. cbn [kind_rel gen_api code_api a_with_keys].
    split; [exact (sip_with_keys_gen k0 k1)|]. rewrite sip_with_keys_gen. exact (@eq_refl comparison Lt).
  Qed.
  Lemma gen_from k m n : mid_real k m -> n < 2 ^ usize_bits c ->
    ProofProgram.res_rel (kind_rel c k) (a_from_midstate (gen_api c) k m n) (a_from_midstate (code_api c) k m n).
  Proof. intros _ _. exact (ag_from _ _ _ _ _ (kinds_agree c k WF) _ _ n (kind_mid_in c k m)). Qed.
  Lemma gen_in k s t d : kind_rel c k s t -> slice c d ->
    ProofProgram.res_rel (kind_rel c k) (a_input (gen_api c) k s d) (a_input (code_api c) k t d).
  Proof. exact (ag_input _ _ _ _ _ (kinds_agree c k WF) s t d). Qed.
  Lemma gen_count k s t : kind_rel c k s t -> a_count (gen_api c) k s = a_count (code_api c) k t.
  Proof. exact (ag_count _ _ _ _ _ (kinds_agree c k WF) s t). Qed.
  Lemma gen_mid_out k s t : kind_rel c k s t -> a_midstate (gen_api c) k s = a_midstate (code_api c) k t.
  Proof.
    intros H. cbn [gen_api code_api a_midstate]. apply (eq_bind (kind_mid c k)).
    - exact (ag_midstate _ _ _ _ _ (kinds_agree c k WF) s t H).
    - intros m m' _ _ Hm. now rewrite (kind_mid_out c k m m' Hm).
  Qed.
  Lemma gen_get_keys s t : kind_rel c KSip s t -> a_keys (gen_api c) s = a_keys (code_api c) t.
  Proof. intros [-> _]. exact (sip_keys_gen t). Qed.
  Lemma gen_fin k s t : kind_rel c k s t -> a_finalize (gen_api c) k s = a_finalize (code_api c) k t.
  Proof. exact (ag_finalize _ _ _ _ _ (kinds_agree c k WF) s t). Qed.
  Lemma gen_u64 s t : kind_rel c KSip s t -> a_to_u64 (gen_api c) s = a_to_u64 (code_api c) t.
  Proof. intros [-> _]. exact (sip_to_u64_gen t). Qed.

  Lemma gen_chunks k chunks : kind_real c k -> Forall (slice c) chunks ->
    a_hash_chunks (gen_api c) k chunks = a_hash_chunks (code_api c) k chunks.
  Proof.
    intros _ HF. cbn [gen_api code_api a_hash_chunks]. rewrite lib_chunks_gen.
    exact (agree_chunks c _ _ _ _ (kinds_agree c k WF) chunks HF).
  Qed.
  Lemma gen_hash_call k d : kind_real c k -> slice c d -> a_hash (gen_api c) k d = a_hash (code_api c) k d.
  Proof.
    intros _ Hd. cbn [gen_api code_api a_hash]. rewrite lib_hash_gen. exact (agree_hash c _ _ _ _ (kinds_agree c k WF) d Hd).
  Qed.

  Theorem gen_programs ops : Forall (api_op_real c) ops -> behaviour (gen_api c) ops = behaviour (spec_api c) ops.
  Proof.
    intros H. rewrite <- (program_refines c WF ops H). unfold behaviour.
    apply (run_rel c (gen_api c) (code_api c) (kind_rel c) gen_new gen_hmac gen_keys gen_from gen_in gen_count
      gen_mid_out gen_get_keys gen_fin gen_u64 gen_hash_call gen_chunks); [constructor|exact H].
  Qed.
  Theorem gen_adaptive n next : (forall seen, api_op_real c (next seen)) ->
    adaptive (gen_api c) n next [] [] = adaptive (spec_api c) n next [] [].
  Proof.
    intros H. rewrite <- (adaptive_refines c WF n next H).
    apply (adaptive_rel c (gen_api c) (code_api c) (kind_rel c) gen_new gen_hmac gen_keys gen_from gen_in gen_count
      gen_mid_out gen_get_keys gen_fin gen_u64 gen_hash_call gen_chunks); [exact H|constructor].
  Qed.
End Programs.

(** ** Digests *)
Lemma fits_slice c a (d : bytes) : fits c a (length d) -> slice c d.
Proof.
  intros [_ H]. unfold slice, len. destruct (overflow_checks c); [|exact H].
  eapply N.le_lt_trans; [|exact H]. unfold md_padded. lia.
Qed.
Lemma gen_hash_is c a m : gen_hash c a m = he_hash (gen_engine c a) m.
Proof. destruct a; reflexivity. Qed.
Theorem gen_hash_standard c a m : wf_config c -> fits c a (length m) -> gen_hash c a m = Ok (hash_of a m).
Proof.
  intros WF Hf. rewrite gen_hash_is, (agree_hash c _ _ _ _ (engines_agree c a WF)) by exact (fits_slice c a m Hf).
  exact (hash_standard c a m WF Hf).
Qed.
Lemma chunks_slices c chunks : slice c (List.concat chunks) -> Forall (slice c) chunks.
Proof.
  unfold slice, len. induction chunks as [|d l IH]; cbn [List.concat]; [constructor|].
  rewrite app_length. intros H. constructor; [lia|]. apply IH. lia.
Qed.
Theorem gen_chunks_standard c k chunks : wf_config c -> kind_fits c k (length (List.concat chunks)) ->
  g_lib_HashEngine_hash_byte_chunks (gen_kind c k) chunks = Ok (kind_hash k (List.concat chunks)).
Proof.
  intros WF Hf. rewrite lib_chunks_gen, (agree_chunks c _ _ _ _ (kinds_agree c k WF)).
  - exact (kind_lawful c WF k chunks Hf).
  - apply chunks_slices. revert Hf. unfold slice, len. generalize (length (List.concat chunks)). clear chunks.
    induction k as [a| |tag|k IH]; intros n Hf; cbn [kind_fits] in Hf.
    + destruct Hf as [_ Hf]. destruct (overflow_checks c); [|exact Hf]. unfold md_padded in Hf. lia.
    + exact Hf.
    + destruct Hf as (_ & _ & _ & Hf). destruct (overflow_checks c); [|lia]. unfold md_padded in Hf. lia.
    + destruct Hf as [Hf _]. apply IH in Hf. lia.
Qed.
Theorem gen_keyed_standard c k0 k1 m : wf_config c -> k0 < 2 ^ 64 -> k1 < 2 ^ 64 -> slice c m ->
  g_siphash24_Hash_hash_with_keys c k0 k1 m = Ok (le_octets 8 (siphash24 k0 k1 m)) /\
  g_siphash24_Hash_hash_to_u64_with_keys c k0 k1 m = Ok (siphash24 k0 k1 m).
Proof.
  intros WF H0 H1 Hm. destruct (sip_hash_with_keys_gen c k0 k1 m WF Hm) as [-> ->].
  exact (siphash_keys_digest c k0 k1 m WF H0 H1 Hm).
Qed.
Theorem gen_const_standard c m : wf_config c -> len m + 72 < 2 ^ usize_bits c -> 8 * len m < 2 ^ 64 ->
  g_sha256_Hash_const_hash c m = Ok (hash_of Sha256 m).
Proof. intros WF H1 H2. rewrite (hash_const_gen c WF). now apply const_hash_ok. Qed.

(** ** Comparison *)
Theorem gen_cmp_decides a b : length a = length b -> exists r, g_cmp_fixed_time_eq a b = Ok r /\ (r = true <-> a = b).
Proof. intros H. rewrite cmp_gen. now apply cmp_decides. Qed.
Theorem gen_cmp_refuses a b : length a <> length b -> g_cmp_fixed_time_eq a b = Panic PAssert.
Proof.
  intros H. unfold g_cmp_fixed_time_eq, assert. destruct (N.eqb_spec (len a) (len b)); [|reflexivity]. unfold len in *. lia.
Qed.

(** ** Block functions *)
Theorem gen_block_compress c a e : wf_config c -> typed a e ->
  gen_block c a e = Ok (mk_engine (e_buffer e) (md_compress (md_of a) (e_h e) (e_buffer e)) (e_length e)).
Proof.
  intros WF [Hb Hh]. rewrite <- (block_fn_ok c a e Hb Hh).
  assert (Hl : forall n, length (e_buffer e) = n -> len (e_buffer e) = N.of_nat n) by (intros n <-; reflexivity).
  destruct a; apply Hl in Hb.
  - exact (sha1_pb_typed c e Hb Hh).
  - exact (sha256_pb_typed c WF e Hb Hh).
  - exact (sha512_pb_typed c e Hb Hh).
  - exact (sha512_pb_typed c e Hb Hh).
  - exact (sha512_pb_typed c e Hb Hh).
  - exact (ripemd_pb_typed c e Hb Hh).
Qed.
