(** The properties of the Merkle-Damgard engines: C01-C06, C10-C21, C24, C44,
    C46.  Each theorem only cites the lemma that proves it; the statements use
    the specification files (Spec*.v) and the model functions they are about. *)
From Coq Require Import NArith ZArith List Bool Lia.
From Verif Require Import Base SpecBase SpecMD ModelEngine ModelSha256 ModelSha512 ModelSha1 ModelRipemd
  ModelSip ModelHmac ModelAll SpecApi
  ProofBase ProofMD ProofApi ProofMid ProofConst ProofSip ProofHmac ProofSplit ProofHash.
From Verif Require SpecSha2 SpecSha1 SpecRipemd.
Import ListNotations.
Open Scope N_scope.

(** C01 *)
Theorem C01_sha256_standard : forall c chunks, wf_config c -> fits c Sha256 (length (List.concat chunks)) ->
  he_hash_byte_chunks (sha256_engine c) chunks = Ok (SpecSha2.SHA256 (List.concat chunks)).
Proof. intros c. exact (hash_chunks_standard c Sha256). Qed.
Print Assumptions C01_sha256_standard.
Theorem C01_sha256_hash_standard : forall c data, wf_config c -> fits c Sha256 (length data) ->
  he_hash (sha256_engine c) data = Ok (SpecSha2.SHA256 data).
Proof. intros c. exact (hash_standard c Sha256). Qed.
Print Assumptions C01_sha256_hash_standard.
Example C01_case : wf_config (target 16 true) /\ fits (target 16 true) Sha256 3 /\
  he_hash_byte_chunks (sha256_engine (target 16 true)) [[x61]; []; [x62; x63]]
  = Ok (be_octets 32 0xba7816bf8f01cfea414140de5dae2223b00361a396177a9cb410ff61f20015ad).
Proof. unfold wf_config, fits. vm_compute. tauto. Qed.

(** C02 *)
Theorem C02_sha1_standard : forall c chunks, wf_config c -> fits c Sha1 (length (List.concat chunks)) ->
  he_hash_byte_chunks (sha1_engine c) chunks = Ok (SpecSha1.SHA1 (List.concat chunks)).
Proof. intros c. exact (hash_chunks_standard c Sha1). Qed.
Print Assumptions C02_sha1_standard.
Theorem C02_sha1_hash_standard : forall c data, wf_config c -> fits c Sha1 (length data) ->
  he_hash (sha1_engine c) data = Ok (SpecSha1.SHA1 data).
Proof. intros c. exact (hash_standard c Sha1). Qed.
Print Assumptions C02_sha1_hash_standard.
Example C02_case : wf_config (target 16 true) /\ fits (target 16 true) Sha1 3 /\
  he_hash_byte_chunks (sha1_engine (target 16 true)) [[x61]; []; [x62; x63]]
  = Ok (be_octets 20 0xa9993e364706816aba3e25717850c26c9cd0d89d).
Proof. unfold wf_config, fits. vm_compute. tauto. Qed.

(** C03 *)
Theorem C03_sha512_standard : forall c chunks, wf_config c -> fits c Sha512 (length (List.concat chunks)) ->
  he_hash_byte_chunks (sha512_engine c) chunks = Ok (SpecSha2.SHA512 (List.concat chunks)).
Proof. intros c. exact (hash_chunks_standard c Sha512). Qed.
Print Assumptions C03_sha512_standard.
Theorem C03_sha512_hash_standard : forall c data, wf_config c -> fits c Sha512 (length data) ->
  he_hash (sha512_engine c) data = Ok (SpecSha2.SHA512 data).
Proof. intros c. exact (hash_standard c Sha512). Qed.
Print Assumptions C03_sha512_hash_standard.
Example C03_case : wf_config (target 16 true) /\ fits (target 16 true) Sha512 3 /\
  he_hash_byte_chunks (sha512_engine (target 16 true)) [[x61]; []; [x62; x63]]
  = Ok (be_octets 64 0xddaf35a193617abacc417349ae20413112e6fa4e89a97ea20a9eeee64b55d39a2192992a274fc1a836ba3c23a3feebbd454d4423643ce80e2a9ac94fa54ca49f).
Proof. unfold wf_config, fits. vm_compute. tauto. Qed.

(** C04 *)
Theorem C04_sha384_standard : forall c chunks, wf_config c -> fits c Sha384 (length (List.concat chunks)) ->
  he_hash_byte_chunks (sha384_engine c) chunks = Ok (SpecSha2.SHA384 (List.concat chunks)).
Proof. intros c. exact (hash_chunks_standard c Sha384). Qed.
Print Assumptions C04_sha384_standard.
Theorem C04_sha384_hash_standard : forall c data, wf_config c -> fits c Sha384 (length data) ->
  he_hash (sha384_engine c) data = Ok (SpecSha2.SHA384 data).
Proof. intros c. exact (hash_standard c Sha384). Qed.
Print Assumptions C04_sha384_hash_standard.
Example C04_case : wf_config (target 16 true) /\ fits (target 16 true) Sha384 3 /\
  he_hash_byte_chunks (sha384_engine (target 16 true)) [[x61]; []; [x62; x63]]
  = Ok (be_octets 48 0xcb00753f45a35e8bb5a03d699ac65007272c32ab0eded1631a8b605a43ff5bed8086072ba1e7cc2358baeca134c825a7).
Proof. unfold wf_config, fits. vm_compute. tauto. Qed.

(** C05 *)
Theorem C05_sha512_256_standard : forall c chunks, wf_config c -> fits c Sha512_256 (length (List.concat chunks)) ->
  he_hash_byte_chunks (sha512_256_engine c) chunks = Ok (SpecSha2.SHA512_256 (List.concat chunks)).
Proof. intros c. exact (hash_chunks_standard c Sha512_256). Qed.
Print Assumptions C05_sha512_256_standard.
Theorem C05_sha512_256_hash_standard : forall c data, wf_config c -> fits c Sha512_256 (length data) ->
  he_hash (sha512_256_engine c) data = Ok (SpecSha2.SHA512_256 data).
Proof. intros c. exact (hash_standard c Sha512_256). Qed.
Print Assumptions C05_sha512_256_hash_standard.
Example C05_case : wf_config (target 16 true) /\ fits (target 16 true) Sha512_256 3 /\
  he_hash_byte_chunks (sha512_256_engine (target 16 true)) [[x61]; []; [x62; x63]]
  = Ok (be_octets 32 0x53048e2681941ef99b2e29b76b4c7dabe4c2d0c634fc6d46e0e2f13107e7af23).
Proof. unfold wf_config, fits. vm_compute. tauto. Qed.

(** C06 *)
Theorem C06_ripemd160_standard : forall c chunks, wf_config c -> fits c Ripemd160 (length (List.concat chunks)) ->
  he_hash_byte_chunks (ripemd160_engine c) chunks = Ok (SpecRipemd.RIPEMD160 (List.concat chunks)).
Proof. intros c. exact (hash_chunks_standard c Ripemd160). Qed.
Print Assumptions C06_ripemd160_standard.
Theorem C06_ripemd160_hash_standard : forall c data, wf_config c -> fits c Ripemd160 (length data) ->
  he_hash (ripemd160_engine c) data = Ok (SpecRipemd.RIPEMD160 data).
Proof. intros c. exact (hash_standard c Ripemd160). Qed.
Print Assumptions C06_ripemd160_hash_standard.
Example C06_case : wf_config (target 16 true) /\ fits (target 16 true) Ripemd160 3 /\
  he_hash_byte_chunks (ripemd160_engine (target 16 true)) [[x61]; []; [x62; x63]]
  = Ok (be_octets 20 0x8eb208f7e05d987a9b044a8e98c6b087f15a0bfc).
Proof. unfold wf_config, fits. vm_compute. tauto. Qed.


(** C10 *)
Theorem C10_split_algo : forall c a s, wf_config c -> algo_reachable c a s ->
  forall chunks chunks', List.concat chunks = List.concat chunks' ->
  he_inputs (algo_engine c a) s chunks = he_inputs (algo_engine c a) s chunks'.
Proof. exact algo_split. Qed.
Print Assumptions C10_split_algo.
Theorem C10_split_siphash : forall c s, wf_config c -> sip_reachable c s ->
  split_insensitive c (siphash24_engine c) s.
Proof. intros c s WF. exact (sip_split c WF s). Qed.
Print Assumptions C10_split_siphash.
Theorem C10_split_sha256t : forall c tag s, wf_config c ->
  (forall e, tag = Ok e -> algo_reachable c Sha256 e) ->
  reachable c (sha256t_engine c tag) (fun m : bytes => length m = 32%nat) s ->
  split_insensitive c (sha256t_engine c tag) s.
Proof. exact sha256t_split. Qed.
Print Assumptions C10_split_sha256t.
(** HMAC over any engine with the property; hence over each of the above and
    over HMAC itself. *)
Theorem C10_split_hmac : forall c E mid_ok, wf_config c ->
  (forall s, reachable c E mid_ok s -> split_insensitive c E s) ->
  forall s, hmac_reachable c E mid_ok s -> split_insensitive c (hmac_engine c E) s.
Proof. exact hmac_split_all. Qed.
Print Assumptions C10_split_hmac.
Theorem C10_hash_byte_chunks : forall c E mid_ok chunks,
  (forall s, reachable c E mid_ok s -> split_insensitive c E s) ->
  Forall (slice c) chunks -> slice c (List.concat chunks) ->
  he_hash_byte_chunks E chunks = he_hash E (List.concat chunks).
Proof. exact hash_byte_chunks_reach. Qed.
Print Assumptions C10_hash_byte_chunks.
Example C10_case : exists s,
  algo_reachable (target 64 true) Sha512 s /\ e_length s = 3 /\
  List.concat [[x61]; []; [x62]] = List.concat [[x61; x62]].
Proof.
  eexists. split; [eapply (reach_input _ (algo_engine _ Sha512) _ _ [x61; x62; x63]);
    [apply reach_new; reflexivity | reflexivity | vm_compute; reflexivity] | split; reflexivity].
Qed.

(** C11 *)
Theorem C11_count_algo : forall c a s chunks s', wf_config c -> algo_reachable c a s ->
  he_inputs (algo_engine c a) s chunks = Ok s' ->
  he_n_bytes_hashed (algo_engine c a) s'
  = (he_n_bytes_hashed (algo_engine c a) s + len (List.concat chunks)) mod 2 ^ usize_bits c.
Proof. exact algo_inputs_count. Qed.
Print Assumptions C11_count_algo.
Theorem C11_count_new : forall c a s, he_default (algo_engine c a) = Ok s ->
  he_n_bytes_hashed (algo_engine c a) s = 0.
Proof. exact algo_new_count. Qed.
Print Assumptions C11_count_new.
Theorem C11_count_from_midstate : forall c a m n s, algo_mid_ok c a m ->
  he_from_midstate (algo_engine c a) m n = Ok s -> he_n_bytes_hashed (algo_engine c a) s = n.
Proof. exact algo_mid_count. Qed.
Print Assumptions C11_count_from_midstate.
Theorem C11_count_siphash : forall c s chunks s', wf_config c -> sip_reachable c s ->
  Forall (slice c) chunks -> he_inputs (siphash24_engine c) s chunks = Ok s' ->
  he_n_bytes_hashed (siphash24_engine c) s'
  = (he_n_bytes_hashed (siphash24_engine c) s + len (List.concat chunks)) mod 2 ^ usize_bits c.
Proof. exact sip_count. Qed.
Print Assumptions C11_count_siphash.
Theorem C11_count_hmac : forall c a key s chunks s', wf_config c ->
  hmac_new c (algo_engine c a) key = Ok s ->
  he_inputs (hmac_engine c (algo_engine c a)) s chunks = Ok s' ->
  he_n_bytes_hashed (hmac_engine c (algo_engine c a)) s'
  = (N.of_nat (block_len a) + len (List.concat chunks)) mod 2 ^ usize_bits c.
Proof. exact hmac_count. Qed.
Print Assumptions C11_count_hmac.
Example C11_case : (let* s := hmac_new (target 64 true) (sha256_engine (target 64 true)) [x61] in
  let* s := he_inputs (hmac_engine _ (sha256_engine (target 64 true))) s [[x62; x63]] in
  Ok (he_n_bytes_hashed (hmac_engine (target 64 true) (sha256_engine (target 64 true))) s)) = Ok 66.
Proof. vm_compute. reflexivity. Qed.

(** C12 *)
Theorem C12_no_panic : forall c a s chunks, wf_config c -> algo_reachable c a s ->
  let n := he_n_bytes_hashed (algo_engine c a) s + len (List.concat chunks) in
  N.of_nat (md_padded (md_of a) (N.to_nat n)) < 2 ^ usize_bits c -> 8 * n < 2 ^ 64 ->
  exists s' d, he_inputs (algo_engine c a) s chunks = Ok s' /\
    is_ok (he_midstate (algo_engine c a) s') = true /\
    he_finalize (algo_engine c a) s' = Ok d /\ length d = digest_len a.
Proof. exact algo_no_panic. Qed.
Print Assumptions C12_no_panic.
Theorem C12_no_panic_siphash : forall c s chunks, wf_config c -> sip_reachable c s ->
  Forall (slice c) chunks ->
  he_n_bytes_hashed (siphash24_engine c) s + len (List.concat chunks) < 2 ^ usize_bits c ->
  exists s' d, he_inputs (siphash24_engine c) s chunks = Ok s' /\
    he_finalize (siphash24_engine c) s' = Ok d /\ length d = 8%nat.
Proof. exact sip_no_panic. Qed.
Print Assumptions C12_no_panic_siphash.
(** The only panic of input and finalize is the counter's, and exactly when: *)
Theorem C12_input_panics_iff : forall c a s d, wf_config c -> algo_reachable c a s ->
  is_ok (he_input (algo_engine c a) s d)
  = negb (overflow_checks c && (2 ^ usize_bits c <=? he_n_bytes_hashed (algo_engine c a) s + len d)).
Proof. exact algo_input_ok'. Qed.
Print Assumptions C12_input_panics_iff.
Theorem C12_finalize_panics_iff : forall c a s, wf_config c -> algo_reachable c a s ->
  is_ok (he_finalize (algo_engine c a) s) =
  negb (overflow_checks c &&
    ((2 ^ usize_bits c <=? N.of_nat (md_padded (md_of a) (N.to_nat (he_n_bytes_hashed (algo_engine c a) s))))
     || (2 ^ 64 <=? 8 * he_n_bytes_hashed (algo_engine c a) s))).
Proof. exact algo_finalize_ok'. Qed.
Print Assumptions C12_finalize_panics_iff.
Theorem C12_only_overflow : forall c a s p, wf_config c -> algo_reachable c a s ->
  (exists d, he_input (algo_engine c a) s d = Panic p) \/ he_finalize (algo_engine c a) s = Panic p ->
  p = POverflow.
Proof. exact algo_only_overflow. Qed.
Print Assumptions C12_only_overflow.
Example C12_case : exists s, algo_reachable (target 16 true) Sha1 s /\
  (let n := he_n_bytes_hashed (algo_engine (target 16 true) Sha1) s + len [x61; x62] in
   N.of_nat (md_padded (md_of Sha1) (N.to_nat n)) < 2 ^ 16 /\ 8 * n < 2 ^ 64).
Proof. eexists. split; [apply reach_new; reflexivity | vm_compute; split; reflexivity]. Qed.

(** C13 *)
Theorem C13_overflow_exact : forall c a chunks, wf_config c ->
  let m := List.concat chunks in
  he_hash_byte_chunks (algo_engine c a) chunks =
  if overflow_checks c
  then if (2 ^ usize_bits c <=? N.of_nat (md_padded (md_of a) (length m))) || (2 ^ 64 <=? 8 * len m)
       then Panic POverflow else Ok (hash_of a m)
  else Ok (md_hash_from (md_of a) (md_iv (md_of a))
             ((8 * (len m mod 2 ^ usize_bits c)) mod 2 ^ 64) m).
Proof. exact hash_byte_chunks_exact. Qed.
Print Assumptions C13_overflow_exact.
(** Where the counter wraps, the digest is not the standard one, unless two
    different calls made to compute the two digests of this very message are a
    collision of the block function (or, for the digests that are cut off, the
    two final chaining values agree on the digest). *)
Theorem C13_overflow_differs : forall c a m, wf_config c -> overflow_checks c = false ->
  2 ^ usize_bits c <= len m -> 8 * len m < 2 ^ 64 ->
  he_hash (algo_engine c a) m = Ok (hash_of a m) ->
  let wrapped := 8 * (len m mod 2 ^ usize_bits c) in
  call_collision c a (calls_with a wrapped m) (calls_with a (8 * len m) m) \/
  (digest_len a <> mid_len a /\ final_with a wrapped m <> final_with a (8 * len m) m).
Proof. exact overflow_differs. Qed.
Print Assumptions C13_overflow_differs.
(** A concrete wrap, on an engine resumed 64 bytes below the limit of a 16-bit
    target: the digest is not the one with the true length. *)
Theorem C13_wrap_refuted : exists c e e', wf_config c /\
  he_from_midstate (sha256_engine c) (repeat x00 32) 65472 = Ok e /\
  he_input (sha256_engine c) e (repeat x00 64) = Ok e' /\
  he_finalize (sha256_engine c) e' <>
  Ok (md_words (md_of Sha256) (md_iterate (md_of Sha256) (repeat 0 8)
        (repeat x00 64 ++ md_padding (md_of Sha256) (N.to_nat 65536) (8 * 65536)))).
Proof. exact overflow_witness. Qed.
Print Assumptions C13_wrap_refuted.
Example C13_case : wf_config (target 32 false) /\ overflow_checks (target 32 false) = false /\
  exists n, 2 ^ 32 <= len (repeat x00 n) /\ 8 * len (repeat x00 n) < 2 ^ 64.
Proof.
  split; [right; left; reflexivity|]. split; [reflexivity|].
  exists (N.to_nat (2 ^ 32)). unfold len. rewrite repeat_length, N2Nat.id. split; [apply N.le_refl|reflexivity].
Qed.

(** C14 *)
Theorem C14_sha_ni : forall c e, length (e_buffer e) = 64%nat -> good_h (md_of Sha256) (e_h e) ->
  simd_process_block e = software_process_block c e /\
  simd_process_block e
  = Ok (mk_engine (e_buffer e) (SpecSha2.compress SpecSha2.params256 (e_h e) (e_buffer e)) (e_length e)).
Proof. exact sha_ni_block. Qed.
Print Assumptions C14_sha_ni.
Theorem C14_sha_ni_hash : forall c chunks, wf_config c ->
  he_hash_byte_chunks (sha256_engine (with_sha_ni c)) chunks = he_hash_byte_chunks (sha256_engine c) chunks.
Proof. exact sha_ni_hash. Qed.
Print Assumptions C14_sha_ni_hash.
Example C14_case : length (repeat x80 64) = 64%nat /\ good_h (md_of Sha256) sha256_iv /\
  simd_process_block (mk_engine (repeat x80 64) sha256_iv 64)
  = software_process_block (target 64 false) (mk_engine (repeat x80 64) sha256_iv 64).
Proof.
  split; [reflexivity|]. split; [split; [reflexivity|]|vm_compute; reflexivity].
  repeat (apply Forall_cons; [reflexivity|]). apply Forall_nil.
Qed.

(** C15 *)
Theorem C15_small_hash_block : forall c a e, length (e_buffer e) = block_len a ->
  good_h (md_of a) (e_h e) -> block_fn (with_small_hash c) a e = block_fn c a e.
Proof. exact small_hash_block. Qed.
Print Assumptions C15_small_hash_block.
Theorem C15_small_hash : forall c a chunks, wf_config c ->
  he_hash_byte_chunks (algo_engine (with_small_hash c) a) chunks = he_hash_byte_chunks (algo_engine c a) chunks.
Proof. exact small_hash_hash. Qed.
Print Assumptions C15_small_hash.
Example C15_case : length (repeat x80 128) = block_len Sha512 /\ good_h (md_of Sha512) sha512_iv.
Proof.
  split; [reflexivity|]. split; [reflexivity|]. repeat (apply Forall_cons; [reflexivity|]). apply Forall_nil.
Qed.

(** C16 *)
Theorem C16_const_hash : forall c bytes, len bytes + 72 < 2 ^ usize_bits c -> 8 * len bytes < 2 ^ 64 ->
  const_hash c bytes = Ok (SpecSha2.SHA256 bytes).
Proof. exact const_hash_ok. Qed.
Print Assumptions C16_const_hash.
(** Slices have at most isize::MAX bytes; then both functions agree. *)
Theorem C16_const_hash_is_hash : forall c bytes, wf_config c ->
  len bytes < 2 ^ (usize_bits c - 1) -> 8 * len bytes < 2 ^ 64 ->
  const_hash c bytes = he_hash (sha256_engine c) bytes.
Proof. exact const_hash_is_hash. Qed.
Print Assumptions C16_const_hash_is_hash.
Example C16_case : 3 < 2 ^ (16 - 1) /\ const_hash (target 16 true) [x61; x62; x63]
  = Ok (be_octets 32 0xba7816bf8f01cfea414140de5dae2223b00361a396177a9cb410ff61f20015ad).
Proof. vm_compute. split; reflexivity. Qed.

(** C17 *)
Theorem C17_hash_tag : forall c tag, wf_config c -> len tag < 2 ^ (usize_bits c - 1) -> 8 * len tag < 2 ^ 64 ->
  exists mid, hash_tag c tag = Ok mid /\
  (let* s := he_default (sha256_engine c) in
   let* s := he_input (sha256_engine c) s (SpecSha2.SHA256 tag ++ SpecSha2.SHA256 tag) in
   he_midstate (sha256_engine c) s) = Ok mid.
Proof. exact hash_tag_midstate. Qed.
Print Assumptions C17_hash_tag.
Example C17_case : len [x61; x62; x63] < 2 ^ (64 - 1) /\
  exists mid, hash_tag (target 64 true) [x61; x62; x63] = Ok mid /\ length mid = 32%nat.
Proof. split; [reflexivity|]. eexists. split; [vm_compute; reflexivity|reflexivity]. Qed.

(** C18, C19 *)
Theorem C18_sha256_resume : forall c s, wf_config c -> algo_reachable c Sha256 s ->
  he_n_bytes_hashed (sha256_engine c) s mod 64 = 0 ->
  exists s', resume (sha256_engine c) s = Ok s' /\
    forall chunks, observe (sha256_engine c) s' chunks = observe (sha256_engine c) s chunks.
Proof. exact sha256_resume. Qed.
Print Assumptions C18_sha256_resume.
Theorem C19_sha1_resume : forall c s, wf_config c -> algo_reachable c Sha1 s ->
  he_n_bytes_hashed (sha1_engine c) s mod 64 = 0 ->
  exists s', resume (sha1_engine c) s = Ok s' /\
    forall chunks, observe (sha1_engine c) s' chunks = observe (sha1_engine c) s chunks.
Proof. exact sha1_resume. Qed.
Print Assumptions C19_sha1_resume.
Example C18_case : exists s, algo_reachable (target 64 true) Sha256 s /\ e_length s = 64.
Proof.
  eexists. split; [eapply (reach_input _ (algo_engine _ Sha256) _ _ (repeat x61 64));
    [apply reach_new; reflexivity | reflexivity | vm_compute; reflexivity] | reflexivity].
Qed.
Example C19_case : exists s, algo_reachable (target 64 true) Sha1 s /\ e_length s = 64.
Proof.
  eexists. split; [eapply (reach_input _ (algo_engine _ Sha1) _ _ (repeat x61 64));
    [apply reach_new; reflexivity | reflexivity | vm_compute; reflexivity] | reflexivity].
Qed.

(** C20: violated.  What from_midstate does instead: every 4-byte group of the
    midstate comes back reversed. *)
Theorem C20_ripemd160_resume_refuted : exists c s s', wf_config c /\ algo_reachable c Ripemd160 s /\
  he_n_bytes_hashed (ripemd160_engine c) s mod 64 = 0 /\
  resume (ripemd160_engine c) s = Ok s' /\
  he_finalize (ripemd160_engine c) s' <> he_finalize (ripemd160_engine c) s.
Proof. exact ripemd_resume_witness. Qed.
Print Assumptions C20_ripemd160_resume_refuted.
Theorem C20_ripemd160_midstate_reversed : forall c m n s, wf_config c -> length m = 20%nat ->
  n < 2 ^ usize_bits c -> he_from_midstate (ripemd160_engine c) m n = Ok s ->
  he_midstate (ripemd160_engine c) s = Ok (List.concat (map (@rev byte) (blocks 4 m))).
Proof. exact ripemd_swaps. Qed.
Print Assumptions C20_ripemd160_midstate_reversed.

(** C21: violated on every input. *)
Theorem C21_sha512_resume_refuted : forall c a, a = Sha512 \/ a = Sha384 \/ a = Sha512_256 ->
  forall m n s, algo_mid_ok c a m -> he_from_midstate (algo_engine c a) m n <> Ok s.
Proof. exact sha512_from_midstate_never. Qed.
Print Assumptions C21_sha512_resume_refuted.
Example C21_case : algo_mid_ok (target 64 true) Sha512 (repeat x00 64).
Proof. reflexivity. Qed.

(** C24 *)
Theorem C24_from_midstate_panics : forall c a m n, algo_mid_ok c a m ->
  is_ok (he_from_midstate (algo_engine c a) m n) =
  match a with
  | Sha1 | Sha256 | Ripemd160 => n mod 64 =? 0
  | Sha384 | Sha512 | Sha512_256 => false
  end.
Proof. exact from_midstate_ok. Qed.
Print Assumptions C24_from_midstate_panics.
Theorem C24_from_midstate_siphash : forall c m n, is_ok (he_from_midstate (siphash24_engine c) m n) = true.
Proof. exact sip_from_midstate_ok. Qed.
Print Assumptions C24_from_midstate_siphash.
Example C24_case : algo_mid_ok (target 64 true) Sha256 (repeat x01 32) /\
  is_ok (he_from_midstate (sha256_engine (target 64 true)) (repeat x01 32) 65) = false /\
  is_ok (he_from_midstate (sha256_engine (target 64 true)) (repeat x01 32) 128) = true.
Proof. vm_compute. auto. Qed.

(** C44.  [calls_with a (8 * len m) m] are the calls of the compression
    function that hash [m]: the collision is found among them.  (That the
    compression function has collisions somewhere is no news.) *)
Theorem C44_collision : forall c a m m', a = Sha1 \/ a = Sha256 \/ a = Sha512 \/ a = Ripemd160 ->
  wf_config c -> fits c a (length m) -> fits c a (length m') -> m <> m' ->
  he_hash (algo_engine c a) m = he_hash (algo_engine c a) m' ->
  call_collision c a (calls_with a (8 * len m) m) (calls_with a (8 * len m') m').
Proof. exact engine_collision_full. Qed.
Print Assumptions C44_collision.
(** All six; the digests of SHA-384 and SHA-512/256 may also agree because the
    final chaining values differ only in what is cut off. *)
Theorem C44_collision_truncated : forall c a m m',
  wf_config c -> fits c a (length m) -> fits c a (length m') -> m <> m' ->
  he_hash (algo_engine c a) m = he_hash (algo_engine c a) m' ->
  call_collision c a (calls_with a (8 * len m) m) (calls_with a (8 * len m') m') \/
  (digest_len a <> mid_len a /\ final_with a (8 * len m) m <> final_with a (8 * len m') m').
Proof. exact engine_collision. Qed.
Print Assumptions C44_collision_truncated.
(** The hypotheses but the last (no collision of these functions at hand), and
    the calls of a two-block message. *)
Example C44_case : fits (target 64 true) Sha256 3 /\ fits (target 64 true) Sha256 60 /\ [x61] <> [x62] /\
  length (calls_with Sha256 (8 * 60) (repeat x61 60)) = 2%nat /\
  ~ call_collision (target 64 true) Sha256 (calls_with Sha256 24 [x61; x62; x63]) (calls_with Sha256 24 [x61; x62; x64]).
Proof.
  unfold fits. split; [vm_compute; tauto|]. split; [vm_compute; tauto|]. split; [discriminate|].
  split; [vm_compute; reflexivity|].
  intros (p & p' & y & H1 & H2 & _ & Ho & Ho').
  destruct H1 as [<-|[]]. destruct H2 as [<-|[]]. pose proof (eq_trans Ho (eq_sym Ho')) as E.
  revert E. vm_compute. discriminate.
Qed.

(** C46 *)
Theorem C46_length_extension_sha256 : forall c m ext, wf_config c ->
  let n := md_padded (md_of Sha256) (length m) in
  fits c Sha256 (n + length ext) ->
  (let* s := he_from_midstate (sha256_engine c) (SpecSha2.SHA256 m) (N.of_nat n) in
   let* s := he_input (sha256_engine c) s ext in
   he_finalize (sha256_engine c) s)
  = Ok (SpecSha2.SHA256 (SpecSha2.pad SpecSha2.params256 m ++ ext)).
Proof. exact length_extension_sha256. Qed.
Print Assumptions C46_length_extension_sha256.
Theorem C46_length_extension_sha1 : forall c m ext, wf_config c ->
  let n := md_padded (md_of Sha1) (length m) in
  fits c Sha1 (n + length ext) ->
  (let* s := he_from_midstate (sha1_engine c) (SpecSha1.SHA1 m) (N.of_nat n) in
   let* s := he_input (sha1_engine c) s ext in
   he_finalize (sha1_engine c) s)
  = Ok (SpecSha1.SHA1 (SpecSha1.pad m ++ ext)).
Proof. exact length_extension_sha1. Qed.
Print Assumptions C46_length_extension_sha1.
Example C46_case : fits (target 16 true) Sha256 (md_padded (md_of Sha256) 3 + 5) /\
  md_padded (md_of Sha256) 3 = length (SpecSha2.pad SpecSha2.params256 [x61; x62; x63]).
Proof. unfold fits. vm_compute. tauto. Qed.
