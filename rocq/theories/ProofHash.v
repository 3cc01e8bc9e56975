(** Lemmas cited by PropHash.v. *)
From Coq Require Import NArith ZArith List Bool Lia.
From Coq Require Import ZifyBool ZifyNat ZifyN.
From Verif Require Import Base SpecBase SpecMD ModelEngine ModelSha256 ModelSha512 ModelSha1 ModelRipemd
  ModelSip ModelHmac ModelAll SpecApi
  ProofBase ProofSimd ProofMD ProofApi ProofMid ProofConst ProofSip ProofHmac ProofSplit.
From Verif Require SpecSha2 SpecSha1 SpecRipemd.
Import ListNotations.
Open Scope N_scope.

Lemma algo_split c a s : wf_config c -> algo_reachable c a s ->
  forall chunks chunks', List.concat chunks = List.concat chunks' ->
  he_inputs (algo_engine c a) s chunks = he_inputs (algo_engine c a) s chunks'.
Proof. intros WF HR l l' E. rewrite !(algo_splits c a s WF HR). now rewrite E. Qed.

Lemma hmac_split_all c E mid_ok : wf_config c ->
  (forall s, reachable c E mid_ok s -> split_insensitive c E s) ->
  forall s, hmac_reachable c E mid_ok s -> split_insensitive c (hmac_engine c E) s.
Proof.
  intros WF H s HR. apply hmac_split, H. exact (proj1 (hmac_reachable_parts c E mid_ok s WF HR)).
Qed.

Lemma hash_byte_chunks_reach c E mid_ok chunks :
  (forall s, reachable c E mid_ok s -> split_insensitive c E s) ->
  Forall (slice c) chunks -> slice c (List.concat chunks) ->
  he_hash_byte_chunks E chunks = he_hash E (List.concat chunks).
Proof.
  intros H. apply hash_byte_chunks_concat. intros s Es. apply H. exact (reach_new c E mid_ok s Es).
Qed.

Lemma algo_new_count c a s : he_default (algo_engine c a) = Ok s ->
  he_n_bytes_hashed (algo_engine c a) s = 0.
Proof. destruct a; cbn; intros E; apply Ok_inj in E; subst s; reflexivity. Qed.

Lemma algo_mid_count c a m n s : algo_mid_ok c a m ->
  he_from_midstate (algo_engine c a) m n = Ok s -> he_n_bytes_hashed (algo_engine c a) s = n.
Proof.
  assert (H : forall a (m : bytes) s, length m = mid_len a -> algo_from_midstate a m n = Ok s -> e_length s = n).
  { intros a0 m0 s0 Hm E. rewrite from_midstate_exact in E by exact Hm.
    destruct (_ =? 0); [|discriminate]. destruct (resumable a0); [|discriminate].
    apply Ok_inj in E. subst s0. destruct a0; reflexivity. }
  destruct a; intros Hm E; [exact (H Sha1 m s Hm E)|exact (H Sha256 m s Hm E)|exact (H Sha384 m s Hm E)
    |exact (H Sha512 m s Hm E)|exact (H Sha512_256 m s Hm E)|exact (H Ripemd160 m s Hm E)].
Qed.

Lemma sip_count c s chunks s' : wf_config c -> sip_reachable c s ->
  Forall (slice c) chunks -> he_inputs (siphash24_engine c) s chunks = Ok s' ->
  he_n_bytes_hashed (siphash24_engine c) s'
  = (he_n_bytes_hashed (siphash24_engine c) s + len (List.concat chunks)) mod 2 ^ usize_bits c.
Proof. intros WF HR HF E. exact (proj1 (sip_inputs_count c WF s chunks s' HR HF E)). Qed.

Lemma hmac_count c a key s chunks s' : wf_config c ->
  hmac_new c (algo_engine c a) key = Ok s ->
  he_inputs (hmac_engine c (algo_engine c a)) s chunks = Ok s' ->
  he_n_bytes_hashed (hmac_engine c (algo_engine c a)) s'
  = (N.of_nat (block_len a) + len (List.concat chunks)) mod 2 ^ usize_bits c.
Proof.
  intros WF Es E. destruct (hmac_inputs_count c _ s chunks s' E) as [Ei _].
  pose proof (hmac_new_count c a key s WF Es) as En. cbn [hmac_engine he_n_bytes_hashed] in *.
  rewrite <- En. apply (algo_inputs_count c a _ chunks); [exact WF| |exact Ei].
  exact (proj1 (hmac_new_reachable c _ (algo_mid_ok c a) key s WF Es)).
Qed.

Lemma sip_no_panic c s chunks : wf_config c -> sip_reachable c s ->
  Forall (slice c) chunks ->
  he_n_bytes_hashed (siphash24_engine c) s + len (List.concat chunks) < 2 ^ usize_bits c ->
  exists s' d, he_inputs (siphash24_engine c) s chunks = Ok s' /\
    he_finalize (siphash24_engine c) s' = Ok d /\ length d = 8%nat.
Proof.
  intros WF HR HF Hn. pose proof (sip_inputs_ok c WF s chunks HR HF) as E.
  cbn [siphash24_engine he_n_bytes_hashed] in Hn.
  destruct (N.leb_spec (2 ^ usize_bits c) (sip_length s + len (List.concat chunks))); [lia|].
  rewrite andb_false_r in E. destruct (he_inputs (siphash24_engine c) s chunks) as [s'|p]; [|discriminate].
  exists s', (sip_finalize s'). split; [reflexivity|]. split; [reflexivity|].
  unfold sip_finalize. apply length_to_le_bytes.
Qed.

Lemma algo_input_ok' c a s d : wf_config c -> algo_reachable c a s ->
  is_ok (he_input (algo_engine c a) s d)
  = negb (overflow_checks c && (2 ^ usize_bits c <=? he_n_bytes_hashed (algo_engine c a) s + len d)).
Proof. intros WF. exact (algo_input_ok c WF a s d). Qed.
Lemma algo_finalize_ok' c a s : wf_config c -> algo_reachable c a s ->
  is_ok (he_finalize (algo_engine c a) s) =
  negb (overflow_checks c &&
    ((2 ^ usize_bits c <=? N.of_nat (md_padded (md_of a) (N.to_nat (he_n_bytes_hashed (algo_engine c a) s))))
     || (2 ^ 64 <=? 8 * he_n_bytes_hashed (algo_engine c a) s))).
Proof. intros WF. exact (algo_finalize_ok c WF a s). Qed.
Lemma algo_only_overflow c a s p : wf_config c -> algo_reachable c a s ->
  (exists d, he_input (algo_engine c a) s d = Panic p) \/ he_finalize (algo_engine c a) s = Panic p ->
  p = POverflow.
Proof.
  intros WF HR [[d E]|E]; [exact (algo_input_panic c WF a s d p HR E)|exact (algo_finalize_panic c WF a s p HR E)].
Qed.

(** ** Code paths *)
Lemma sha_ni_block c e : length (e_buffer e) = 64%nat -> good_h (md_of Sha256) (e_h e) ->
  simd_process_block e = software_process_block c e /\
  simd_process_block e
  = Ok (mk_engine (e_buffer e) (SpecSha2.compress SpecSha2.params256 (e_h e) (e_buffer e)) (e_length e)).
Proof.
  intros Hb Hh. rewrite (software_block c e Hb Hh), (simd_block e Hb Hh). split; reflexivity.
Qed.

Lemma sha_ni_hash c chunks : wf_config c ->
  he_hash_byte_chunks (sha256_engine (with_sha_ni c)) chunks = he_hash_byte_chunks (sha256_engine c) chunks.
Proof.
  intros WF. pose proof (hash_byte_chunks_exact c Sha256 chunks WF) as E.
  pose proof (hash_byte_chunks_exact (with_sha_ni c) Sha256 chunks WF) as E'.
  cbn [with_sha_ni usize_bits overflow_checks] in E'. exact (eq_trans E' (eq_sym E)).
Qed.

Lemma small_hash_block c a e : length (e_buffer e) = block_len a ->
  good_h (md_of a) (e_h e) -> block_fn (with_small_hash c) a e = block_fn c a e.
Proof.
  intros Hb Hh. assert (HB : md_block (md_of a) = block_len a) by (destruct a; reflexivity).
  rewrite !block_fn_ok; try assumption; try reflexivity; now rewrite HB.
Qed.

Lemma small_hash_hash c a chunks : wf_config c ->
  he_hash_byte_chunks (algo_engine (with_small_hash c) a) chunks = he_hash_byte_chunks (algo_engine c a) chunks.
Proof.
  intros WF. pose proof (hash_byte_chunks_exact c a chunks WF) as E.
  pose proof (hash_byte_chunks_exact (with_small_hash c) a chunks WF) as E'.
  cbn [with_small_hash usize_bits overflow_checks] in E'. exact (eq_trans E' (eq_sym E)).
Qed.

(** ** const_hash *)
Lemma slice_room c n : wf_config c -> n < 2 ^ (usize_bits c - 1) ->
  n + 72 < 2 ^ usize_bits c /\ n < 2 ^ usize_bits c.
Proof.
  intros [E|[E|E]]; rewrite E; cbn; lia.
Qed.

Lemma const_hash_is_hash c bytes : wf_config c ->
  len bytes < 2 ^ (usize_bits c - 1) -> 8 * len bytes < 2 ^ 64 ->
  const_hash c bytes = he_hash (sha256_engine c) bytes.
Proof.
  intros WF Hl H8. destruct (slice_room c _ WF Hl) as [Ha Hb].
  rewrite (const_hash_ok c bytes Ha H8). symmetry. apply (hash_standard c Sha256); [exact WF|].
  split; [exact H8|]. destruct (overflow_checks c); [|exact Hb].
  assert (Hp : (md_padded (md_of Sha256) (length bytes) <= length bytes + 72)%nat).
  { unfold md_padded. rewrite zeros256. cbn [md_of md_field].
    pose proof (Nat.mod_upper_bound (length bytes) 64 ltac:(discriminate)) as Hu.
    remember (length bytes mod 64)%nat as r eqn:Er. clear Er. destruct (Nat.leb_spec r 55); lia. }
  unfold len in Ha. clear - Ha Hp. lia.
Qed.

Lemma hash_tag_midstate c tag : wf_config c -> len tag < 2 ^ (usize_bits c - 1) -> 8 * len tag < 2 ^ 64 ->
  exists mid, hash_tag c tag = Ok mid /\
  (let* s := he_default (sha256_engine c) in
   let* s := he_input (sha256_engine c) s (SpecSha2.SHA256 tag ++ SpecSha2.SHA256 tag) in
   he_midstate (sha256_engine c) s) = Ok mid.
Proof.
  intros WF Hl H8. destruct (slice_room c _ WF Hl) as [Ha _].
  exists (md_words (md_of Sha256)
    (md_iterate (md_of Sha256) (md_iv (md_of Sha256)) (hash_of Sha256 tag ++ hash_of Sha256 tag))).
  split; [exact (hash_tag_ok c tag WF Ha H8)|].
  change (SpecSha2.SHA256 tag) with (hash_of Sha256 tag).
  assert (Hh := hash_of_length Sha256 tag). cbn [digest_len] in Hh.
  remember (hash_of Sha256 tag) as h eqn:Eh. clear Eh.
  change (sha256_engine c) with (generic_engine c Sha256).
  pose proof (from_to_default c Sha256) as HF. destruct HF as (Hg & HL & HM & E0).
  cbn [generic_engine he_default he_input he_midstate bind]. rewrite E0.
  rewrite algo_input_exact by assumption.
  assert (HC0 : counter c 0 (len (@nil byte)) = 0) by (apply N.mod_small; apply M_pos).
  rewrite HC0, N.add_0_l.
  assert (Hlen : len (h ++ h) = 64) by (unfold len; rewrite app_length, Hh; reflexivity).
  rewrite Hlen. destruct (wf_M c WF) as [H256 _].
  destruct (N.leb_spec (2 ^ usize_bits c) 64); [lia|]. rewrite andb_false_r. cbn [bind].
  rewrite algo_midstate_exact by assumption. reflexivity.
Qed.

(** ** Midstates *)
Lemma sha256_resume c s : wf_config c -> algo_reachable c Sha256 s ->
  he_n_bytes_hashed (sha256_engine c) s mod 64 = 0 ->
  exists s', resume (sha256_engine c) s = Ok s' /\
    forall chunks, observe (sha256_engine c) s' chunks = observe (sha256_engine c) s chunks.
Proof. intros WF HR H. exact (gen_resume c Sha256 WF s (or_intror eq_refl) HR H). Qed.
Lemma sha1_resume c s : wf_config c -> algo_reachable c Sha1 s ->
  he_n_bytes_hashed (sha1_engine c) s mod 64 = 0 ->
  exists s', resume (sha1_engine c) s = Ok s' /\
    forall chunks, observe (sha1_engine c) s' chunks = observe (sha1_engine c) s chunks.
Proof. intros WF HR H. exact (gen_resume c Sha1 WF s (or_introl eq_refl) HR H). Qed.

Lemma ripemd_resume_witness : exists c s s', wf_config c /\ algo_reachable c Ripemd160 s /\
  he_n_bytes_hashed (ripemd160_engine c) s mod 64 = 0 /\
  resume (ripemd160_engine c) s = Ok s' /\
  he_finalize (ripemd160_engine c) s' <> he_finalize (ripemd160_engine c) s.
Proof.
  exists (target 64 true). do 2 eexists. split; [right; right; reflexivity|].
  split; [eapply (reach_input _ (algo_engine _ Ripemd160) _ _ (repeat x61 64));
    [apply reach_new; reflexivity | reflexivity | vm_compute; reflexivity]|].
  split; [reflexivity|]. split; [vm_compute; reflexivity|]. vm_compute. discriminate.
Qed.

Lemma from_midstate_gen_ok (a : algo) (m : bytes) n : length m = mid_len a ->
  is_ok (algo_from_midstate a m n) = ((n mod N.of_nat (md_block (md_of a)) =? 0) && resumable a).
Proof.
  intros Hm. rewrite from_midstate_exact by exact Hm.
  destruct (_ =? 0); [|reflexivity]. destruct (resumable a); reflexivity.
Qed.

Lemma from_midstate_ok c a m n : algo_mid_ok c a m ->
  is_ok (he_from_midstate (algo_engine c a) m n) =
  match a with
  | Sha1 | Sha256 | Ripemd160 => n mod 64 =? 0
  | Sha384 | Sha512 | Sha512_256 => false
  end.
Proof.
  destruct a; intros Hm; cbv beta iota.
  - rewrite <- (andb_true_r (n mod 64 =? 0)). exact (from_midstate_gen_ok Sha1 m n Hm).
  - rewrite <- (andb_true_r (n mod 64 =? 0)). exact (from_midstate_gen_ok Sha256 m n Hm).
  - rewrite <- (andb_false_r (n mod 128 =? 0)). exact (from_midstate_gen_ok Sha384 m n Hm).
  - rewrite <- (andb_false_r (n mod 128 =? 0)). exact (from_midstate_gen_ok Sha512 m n Hm).
  - rewrite <- (andb_false_r (n mod 128 =? 0)). exact (from_midstate_gen_ok Sha512_256 m n Hm).
  - rewrite <- (andb_true_r (n mod 64 =? 0)). exact (from_midstate_gen_ok Ripemd160 m n Hm).
Qed.

Lemma sha512_from_midstate_never c a : a = Sha512 \/ a = Sha384 \/ a = Sha512_256 ->
  forall m n s, algo_mid_ok c a m -> he_from_midstate (algo_engine c a) m n <> Ok s.
Proof.
  intros Ha m n s Hm E. pose proof (from_midstate_ok c a m n Hm) as H. rewrite E in H.
  destruct Ha as [-> | [-> | ->]]; discriminate.
Qed.

Lemma sip_from_midstate_ok c m n : is_ok (he_from_midstate (siphash24_engine c) m n) = true.
Proof. reflexivity. Qed.

(** ** Collisions *)
Lemma engine_collision c a m m' :
  wf_config c -> fits c a (length m) -> fits c a (length m') -> m <> m' ->
  he_hash (algo_engine c a) m = he_hash (algo_engine c a) m' ->
  call_collision c a (calls_with a (8 * len m) m) (calls_with a (8 * len m') m') \/
  (digest_len a <> mid_len a /\ final_with a (8 * len m) m <> final_with a (8 * len m') m').
Proof.
  intros WF Hf Hf' Hne E. rewrite !hash_standard in E by assumption. apply Ok_inj in E.
  rewrite <- !md_hash_standard in E. destruct Hf as [H8 _], Hf' as [H8' _].
  apply digest_collision; try assumption.
  destruct (Nat.eq_dec (length m) (length m')) as [El|Nl]; [now left|]. right. unfold len. lia.
Qed.

Lemma engine_collision_full c a m m' : a = Sha1 \/ a = Sha256 \/ a = Sha512 \/ a = Ripemd160 ->
  wf_config c -> fits c a (length m) -> fits c a (length m') -> m <> m' ->
  he_hash (algo_engine c a) m = he_hash (algo_engine c a) m' ->
  call_collision c a (calls_with a (8 * len m) m) (calls_with a (8 * len m') m').
Proof.
  intros Ha WF Hf Hf' Hne E.
  destruct (engine_collision c a m m' WF Hf Hf' Hne E) as [H|[H _]]; [exact H|].
  elim H. destruct Ha as [-> | [-> | [-> | ->]]]; reflexivity.
Qed.

(** ** Wrapped counters *)
Lemma overflow_differs c a m : wf_config c -> overflow_checks c = false ->
  2 ^ usize_bits c <= len m -> 8 * len m < 2 ^ 64 ->
  he_hash (algo_engine c a) m = Ok (hash_of a m) ->
  let wrapped := 8 * (len m mod 2 ^ usize_bits c) in
  call_collision c a (calls_with a wrapped m) (calls_with a (8 * len m) m) \/
  (digest_len a <> mid_len a /\ final_with a wrapped m <> final_with a (8 * len m) m).
Proof.
  intros WF Ho Hl H8 E wrapped. rewrite he_hash_chunks in E.
  pose proof (hash_byte_chunks_exact c a [m] WF) as X. cbv zeta in X.
  apply (eq_trans (eq_sym X)) in E. clear X. cbn [List.concat] in E. rewrite app_nil_r, Ho in E. apply Ok_inj in E.
  assert (Hm : len m mod 2 ^ usize_bits c < 2 ^ usize_bits c) by (apply N.mod_lt, N.pow_nonzero; discriminate).
  fold wrapped in E. assert (Hw : wrapped < 8 * len m) by (unfold wrapped; lia).
  rewrite N.mod_small in E by lia. rewrite <- md_hash_standard in E.
  apply digest_collision; try assumption; [lia|]. right. lia.
Qed.

Lemma overflow_witness : exists c e e', wf_config c /\
  he_from_midstate (sha256_engine c) (repeat x00 32) 65472 = Ok e /\
  he_input (sha256_engine c) e (repeat x00 64) = Ok e' /\
  he_finalize (sha256_engine c) e' <>
  Ok (md_words (md_of Sha256) (md_iterate (md_of Sha256) (repeat 0 8)
        (repeat x00 64 ++ md_padding (md_of Sha256) (N.to_nat 65536) (8 * 65536)))).
Proof.
  exists (target 16 false). do 2 eexists. split; [left; reflexivity|].
  split; [vm_compute; reflexivity|]. split; [vm_compute; reflexivity|]. vm_compute. discriminate.
Qed.

(** ** Length extension *)
Lemma length_extension c a m ext : a = Sha1 \/ a = Sha256 -> wf_config c ->
  let n := md_padded (md_of a) (length m) in
  fits c a (n + length ext) ->
  (let* s := algo_from_midstate a (hash_of a m) (N.of_nat n) in
   let* s := algo_input c a s ext in
   algo_finalize c a s)
  = Ok (hash_of a (md_pad_with (md_of a) (8 * len m) m ++ ext)).
Proof.
  intros Ha WF n Hf. pose proof (md_padded_ge (md_of a) (length m)) as Hge. fold n in Hge.
  assert (H8 : 8 * len m < 2 ^ 64) by (destruct Hf as [Hf _]; unfold len; lia).
  assert (Hn : N.of_nat n < 2 ^ usize_bits c).
  { destruct Hf as [_ Hf]. pose proof (md_padded_ge (md_of a) (n + length ext)).
    destruct (overflow_checks c); lia. }
  assert (Hm : mid_valid a (hash_of a m)).
  { unfold mid_valid. rewrite hash_of_length. destruct Ha as [-> | ->]; reflexivity. }
  assert (Hmod : N.of_nat n mod N.of_nat (md_block (md_of a)) = 0).
  { rewrite <- Nat2N.inj_mod. unfold n. now rewrite md_padded_mod. }
  pose proof (from_midstate_exact a (hash_of a m) (N.of_nat n) Hm) as E.
  rewrite Hmod, N.eqb_refl, (resumable_be a Ha) in E. rewrite E. cbn [bind].
  exact (gen_extend c a WF m ext _ Ha H8 Hn E Hf).
Qed.

Lemma length_extension_sha256 c m ext : wf_config c ->
  let n := md_padded (md_of Sha256) (length m) in
  fits c Sha256 (n + length ext) ->
  (let* s := he_from_midstate (sha256_engine c) (SpecSha2.SHA256 m) (N.of_nat n) in
   let* s := he_input (sha256_engine c) s ext in
   he_finalize (sha256_engine c) s)
  = Ok (SpecSha2.SHA256 (SpecSha2.pad SpecSha2.params256 m ++ ext)).
Proof. exact (length_extension c Sha256 m ext (or_intror eq_refl)). Qed.
Lemma length_extension_sha1 c m ext : wf_config c ->
  let n := md_padded (md_of Sha1) (length m) in
  fits c Sha1 (n + length ext) ->
  (let* s := he_from_midstate (sha1_engine c) (SpecSha1.SHA1 m) (N.of_nat n) in
   let* s := he_input (sha1_engine c) s ext in
   he_finalize (sha1_engine c) s)
  = Ok (SpecSha1.SHA1 (SpecSha1.pad m ++ ext)).
Proof. exact (length_extension c Sha1 m ext (or_introl eq_refl)). Qed.
