(** SipHash, HMAC and tagged SHA-256: C07-C09, C22, C23, C38, C39, C41-C43, C45. *)
From Coq Require Import NArith ZArith List Bool Lia.
From Coq Require Import Strings.Byte Strings.String.
From Verif Require Import Base SpecBase SpecMD SpecMac ModelEngine ModelSha256 ModelSha512 ModelSha1 ModelRipemd
  ModelSip ModelHmac ModelAll SpecApi
  ProofBase ProofMD ProofApi ProofMid ProofConst ProofSip ProofHmac ProofSplit ProofHash ProofMac.
From Verif Require SpecSha2.
Import ListNotations.
Open Scope N_scope.
Open Scope list_scope.

(** C07 *)
Theorem C07_siphash_standard : forall c k0 k1 chunks, wf_config c -> k0 < 2 ^ 64 -> k1 < 2 ^ 64 ->
  Forall (slice c) chunks ->
  (let* e := he_inputs (siphash24_engine c) (with_keys k0 k1) chunks in he_finalize (siphash24_engine c) e)
  = if overflow_checks c && (2 ^ usize_bits c <=? len (List.concat chunks)) then Panic POverflow
    else Ok (le_octets 8 (siphash24 k0 k1 (List.concat chunks))).
Proof. exact siphash_digest. Qed.
Print Assumptions C07_siphash_standard.
Theorem C07_hash_with_keys : forall c k0 k1 data, wf_config c -> k0 < 2 ^ 64 -> k1 < 2 ^ 64 -> slice c data ->
  hash_with_keys c k0 k1 data = Ok (le_octets 8 (siphash24 k0 k1 data)) /\
  hash_to_u64_with_keys c k0 k1 data = Ok (siphash24 k0 k1 data).
Proof. exact siphash_keys_digest. Qed.
Print Assumptions C07_hash_with_keys.
(** The example of the paper's appendix: key 00 01 .. 0f, message 00 01 .. 0e. *)
Example C07_case : slice (target 64 true) (map octet (map N.of_nat (seq 0 15))) /\
  (let* e := he_inputs (siphash24_engine (target 64 true)) (with_keys 0x0706050403020100 0x0f0e0d0c0b0a0908)
     [map octet (map N.of_nat (seq 0 3)); map octet (map N.of_nat (seq 3 12))] in
   Ok (from_engine_to_u64 e)) = Ok 0xa129ca6149be45e5.
Proof. vm_compute. split; reflexivity. Qed.

(** C08 *)
Theorem C08_hmac_rfc2104 : forall c E H fits B D,
  lawful E H fits -> he_block_size E = N.of_nat B -> (B <= 128)%nat ->
  (forall m, length (H m) = D) -> (D <= B)%nat ->
  forall key chunks,
  ((B < length key)%nat -> fits (length key)) ->
  fits (B + length (List.concat chunks))%nat -> fits (B + D)%nat ->
  (let* s := hmac_new c E key in
   let* s := he_inputs (hmac_engine c E) s chunks in
   he_finalize (hmac_engine c E) s)
  = Ok (HMAC H B key (List.concat chunks)).
Proof. exact hmac_lawful_law. Qed.
Print Assumptions C08_hmac_rfc2104.
Theorem C08_hmac_algo : forall c a key chunks, wf_config c -> fits c a (length key) ->
  fits c a (block_len a + length (List.concat chunks)) -> fits c a (block_len a + digest_len a) ->
  (let* s := hmac_new c (algo_engine c a) key in
   let* s := he_inputs (hmac_engine c (algo_engine c a)) s chunks in
   he_finalize (hmac_engine c (algo_engine c a)) s)
  = Ok (HMAC (hash_of a) (block_len a) key (List.concat chunks)).
Proof. exact hmac_algo. Qed.
Print Assumptions C08_hmac_algo.
Theorem C08_hmac_siphash : forall c key chunks, wf_config c -> slice c key ->
  32 + len (List.concat chunks) < 2 ^ usize_bits c ->
  (let* s := hmac_new c (siphash24_engine c) key in
   let* s := he_inputs (hmac_engine c (siphash24_engine c)) s chunks in
   he_finalize (hmac_engine c (siphash24_engine c)) s)
  = Ok (HMAC (fun m => le_octets 8 (siphash24 0 0 m)) 32 key (List.concat chunks)).
Proof. exact hmac_siphash. Qed.
Print Assumptions C08_hmac_siphash.
Theorem C08_hmac_sha256t : forall c tag key chunks, wf_config c ->
  len tag < 2 ^ (usize_bits c - 1) -> 8 * len tag < 2 ^ 64 ->
  fits c Sha256 (64 + length key) -> fits c Sha256 (64 + (64 + length (List.concat chunks))) ->
  fits c Sha256 (64 + (64 + 32)) ->
  let E := sha256t_engine c (tag_engine c tag) in
  (let* s := hmac_new c E key in
   let* s := he_inputs (hmac_engine c E) s chunks in
   he_finalize (hmac_engine c E) s)
  = Ok (HMAC (tagged_hash tag) 64 key (List.concat chunks)).
Proof. exact hmac_sha256t. Qed.
Print Assumptions C08_hmac_sha256t.
Theorem C08_hmac_stacked : forall c a key chunks, wf_config c ->
  fits c a (block_len a + length key) ->
  fits c a (block_len a + (block_len a + length (List.concat chunks))) ->
  fits c a (block_len a + (block_len a + digest_len a)) -> fits c a (block_len a + digest_len a) ->
  let E := hmac_engine c (algo_engine c a) in
  (let* s := hmac_new c E key in
   let* s := he_inputs (hmac_engine c E) s chunks in
   he_finalize (hmac_engine c E) s)
  = Ok (HMAC (HMAC (hash_of a) (block_len a) []) (block_len a) key (List.concat chunks)).
Proof. exact hmac_stacked. Qed.
Print Assumptions C08_hmac_stacked.
(** RFC 4231 test case 2: key "Jefe", data "what do ya want for nothing?" *)
Example C08_case : let c := target 16 true in
  let data := list_byte_of_string "what do ya want for nothing?" in
  fits c Sha256 4 /\ fits c Sha256 (64 + length data) /\ fits c Sha256 (64 + 32) /\
  (let* s := hmac_new c (sha256_engine c) (list_byte_of_string "Jefe") in
   let* s := he_inputs (hmac_engine c (sha256_engine c)) s [firstn 5 data; skipn 5 data] in
   he_finalize (hmac_engine c (sha256_engine c)) s)
  = Ok (be_octets 32 0x5bdcc146bf60754e6a042426089575c75a003f089d2739839dec58b964ec3843).
Proof. unfold fits. vm_compute. tauto. Qed.

(** C09 *)
Theorem C09_tagged_standard : forall c tag chunks, wf_config c ->
  len tag < 2 ^ (usize_bits c - 1) -> 8 * len tag < 2 ^ 64 ->
  fits c Sha256 (64 + length (List.concat chunks)) ->
  he_hash_byte_chunks (sha256t_engine c (tag_engine c tag)) chunks = Ok (tagged_hash tag (List.concat chunks)).
Proof. exact tagged_standard. Qed.
Print Assumptions C09_tagged_standard.
(** BIP-340's "BIP0340/challenge" of the empty message, computed independently. *)
Example C09_case : fits (target 16 true) Sha256 (64 + 0) /\
  he_hash_byte_chunks (sha256t_engine (target 16 true)
      (tag_engine (target 16 true) (list_byte_of_string "BIP0340/challenge"))) [[]; []]
  = Ok (be_octets 32 0xc216d352f5818b7b4beacd4ae0a26fe888080823d2a598856661bcd54f1b3713).
Proof. unfold fits. vm_compute. tauto. Qed.

(** C22: violated.  What resuming does instead: the key and the length are
    forgotten, and so is the partial word; the digest is SipHash from the
    state, of the bytes fed after resuming only. *)
Theorem C22_siphash_resume_exact : forall c m n chunks, wf_config c -> sip_mid_ok m -> Forall (slice c) chunks ->
  (let* s := he_from_midstate (siphash24_engine c) m n in
   let* s := he_inputs (siphash24_engine c) s chunks in
   Ok (he_finalize (siphash24_engine c) s, he_n_bytes_hashed (siphash24_engine c) s, sip_keys s))
  = if overflow_checks c && (2 ^ usize_bits c <=? len (List.concat chunks)) then Panic POverflow
    else Ok (Ok (le_octets 8 (sip_from (v0 m, v1 m, v2 m, v3 m) (List.concat chunks))),
             len (List.concat chunks) mod 2 ^ usize_bits c, (0, 0)).
Proof. exact sip_resume_exact. Qed.
Print Assumptions C22_siphash_resume_exact.
Theorem C22_siphash_resume_always_wrong : forall c s, he_n_bytes_hashed (siphash24_engine c) s <> 0 ->
  exists s', resume (siphash24_engine c) s = Ok s' /\
    observe (siphash24_engine c) s' [] <> observe (siphash24_engine c) s [].
Proof. exact sip_resume_forgets. Qed.
Print Assumptions C22_siphash_resume_always_wrong.
Theorem C22_siphash_resume_refuted : exists c s s', wf_config c /\ sip_reachable c s /\
  sip_length s = 8 /\ resume (siphash24_engine c) s = Ok s' /\
  he_finalize (siphash24_engine c) s' <> he_finalize (siphash24_engine c) s.
Proof. exact sip_resume_digest_witness. Qed.
Print Assumptions C22_siphash_resume_refuted.

(** C23 *)
Theorem C23_hmac_resume_fresh : forall c a key s, a = Sha1 \/ a = Sha256 -> wf_config c ->
  hmac_new c (algo_engine c a) key = Ok s ->
  exists s', resume (hmac_engine c (algo_engine c a)) s = Ok s' /\
    forall chunks, observe (hmac_engine c (algo_engine c a)) s' chunks
                   = observe (hmac_engine c (algo_engine c a)) s chunks.
Proof. exact hmac_resume_fresh. Qed.
Print Assumptions C23_hmac_resume_fresh.
Theorem C23_hmac_resume_refuted : exists c key m s s', wf_config c /\ length m = 64%nat /\
  (let* s := hmac_new c (sha256_engine c) key in
   he_input (hmac_engine c (sha256_engine c)) s m) = Ok s /\
  resume (hmac_engine c (sha256_engine c)) s = Ok s' /\
  he_finalize (hmac_engine c (sha256_engine c)) s' <> he_finalize (hmac_engine c (sha256_engine c)) s.
Proof. exact hmac_resume_witness. Qed.
Print Assumptions C23_hmac_resume_refuted.
Example C23_case : is_ok (hmac_new (target 64 true) (algo_engine (target 64 true) Sha1) [x01; x02]) = true /\
  is_ok (let* s := hmac_new (target 64 true) (algo_engine (target 64 true) Sha1) [x01; x02] in
         resume (hmac_engine (target 64 true) (algo_engine (target 64 true) Sha1)) s) = true.
Proof. vm_compute. split; reflexivity. Qed.

(** C38 *)
Theorem C38_interfaces_agree : forall c k0 k1 data, wf_config c -> k0 < 2 ^ 64 -> k1 < 2 ^ 64 -> slice c data ->
  hash_to_u64_with_keys c k0 k1 data = let* h := hash_with_keys c k0 k1 data in Ok (as_u64 h).
Proof. exact sip_interfaces. Qed.
Print Assumptions C38_interfaces_agree.
Theorem C38_engine_interfaces_agree : forall c s, wf_config c -> sip_reachable c s ->
  he_finalize (siphash24_engine c) s = Ok (from_u64 (from_engine_to_u64 s)) /\
  as_u64 (sip_finalize s) = from_engine_to_u64 s.
Proof. exact sip_engine_interfaces. Qed.
Print Assumptions C38_engine_interfaces_agree.
Theorem C38_u64_inverse : (forall x, x < 2 ^ 64 -> as_u64 (from_u64 x) = x) /\
  (forall h, length h = 8%nat -> from_u64 (as_u64 h) = h /\ as_u64 h < 2 ^ 64).
Proof. exact sip_u64_inverse. Qed.
Print Assumptions C38_u64_inverse.
Example C38_case : sip_reachable (target 32 true) (with_keys 1 2) /\
  hash_to_u64_with_keys (target 32 true) 1 2 [x61] = Ok 0x4795cb2ed678fcf6.
Proof. split; [now apply sip_reach_keys|vm_compute; reflexivity]. Qed.

(** C39 *)
Theorem C39_keys_preserved : forall c k0 k1 chunks s, wf_config c -> k0 < 2 ^ 64 -> k1 < 2 ^ 64 ->
  Forall (slice c) chunks ->
  he_inputs (siphash24_engine c) (with_keys k0 k1) chunks = Ok s -> sip_keys s = (k0, k1).
Proof. exact sip_keys_inputs. Qed.
Print Assumptions C39_keys_preserved.
Example C39_case : exists s,
  he_inputs (siphash24_engine (target 32 true)) (with_keys 7 9) [repeat x61 11; [x62]] = Ok s /\ sip_keys s = (7, 9).
Proof. eexists. split; [vm_compute; reflexivity|reflexivity]. Qed.

(** C41: the model returns [Panic PUndefined] for an unchecked access outside
    the slice. *)
Theorem C41_loads_in_bounds : forall c s d, wf_config c -> sip_reachable c s -> slice c d ->
  sip_input c s d <> Panic PUndefined /\
  forall big, sip_input (with_byte_order big c) s d = sip_input c s d.
Proof. exact sip_loads. Qed.
Print Assumptions C41_loads_in_bounds.
Theorem C41_load_value : forall c k buf i, i + N.of_nat k <= len buf ->
  load_int_le c k buf i = Ok (le_int (firstn k (skipn (N.to_nat i) buf))).
Proof. exact load_int_le_value. Qed.
Print Assumptions C41_load_value.
Example C41_case : load_int_le (with_byte_order true (target 64 true)) 4 [x00; x01; x02; x03; x04; x05] 1
  = Ok 0x04030201 /\ load_int_le (target 64 false) 4 [x00; x01] 1 = Panic PUndefined.
Proof. vm_compute. split; reflexivity. Qed.

(** C42 *)
Theorem C42_zero_padding : forall c E key z, he_block_size E <= 128 ->
  len key + N.of_nat z <= he_block_size E ->
  hmac_new c E (key ++ repeat x00 z) = hmac_new c E key.
Proof. exact hmac_key_zeros. Qed.
Print Assumptions C42_zero_padding.
Theorem C42_long_key : forall c E key h, he_block_size E <= 128 -> he_block_size E < len key ->
  he_hash E key = Ok h -> len h <= he_block_size E -> hmac_new c E key = hmac_new c E h.
Proof. exact hmac_key_hashed. Qed.
Print Assumptions C42_long_key.
(** A key of exactly the block size is used as is, also when it ends in zeros:
    it differs from the longer key. *)
Example C42_case : let c := target 64 true in
  he_block_size (sha1_engine c) <= 128 /\ len (repeat x61 65) = 65 /\
  exists h, he_hash (sha1_engine c) (repeat x61 65) = Ok h /\ len h <= he_block_size (sha1_engine c).
Proof.
  cbv zeta. split; [discriminate|]. split; [reflexivity|].
  eexists. split; [vm_compute; reflexivity|]. vm_compute. discriminate.
Qed.

(** C43 *)
Theorem C43_hmac_new_panics : forall c E key,
  (forall s, he_default E = Ok s -> forall d, len d <= 128 -> is_ok (he_input E s d) = true) ->
  is_ok (he_default E) = true -> is_ok (he_hash E key) = true ->
  is_ok (hmac_new c E key) = (he_block_size E <=? 128).
Proof. exact hmac_new_panics. Qed.
Print Assumptions C43_hmac_new_panics.
(** Whatever the engine, no value is returned for a larger block. *)
Theorem C43_hmac_new_large : forall c E key s, 128 < he_block_size E -> hmac_new c E key <> Ok s.
Proof. exact hmac_new_large_N. Qed.
Print Assumptions C43_hmac_new_large.
Theorem C43_hmac_new_crate : forall c a key, wf_config c -> fits c a (length key) ->
  is_ok (hmac_new c (algo_engine c a) key) = true.
Proof. exact hmac_new_crate. Qed.
Print Assumptions C43_hmac_new_crate.
(** An engine with a 129-byte block, otherwise like SHA-512. *)
Definition big_block_engine (c : config) : HashEngine :=
  {| he_state := engine; he_mid := bytes; he_block_size := 129;
     he_default := he_default (sha512_engine c); he_input := sha512_input c;
     he_n_bytes_hashed := e_length; he_finalize := sha512_finalize c;
     he_midstate := sha512_midstate; he_from_midstate := sha512_from_midstate |}.
Example C43_case : is_ok (hmac_new (target 64 false) (big_block_engine (target 64 false)) []) = false /\
  is_ok (hmac_new (target 64 true) (big_block_engine (target 64 true)) []) = false /\
  is_ok (hmac_new (target 64 true) (sha512_engine (target 64 true)) []) = true.
Proof. vm_compute. auto. Qed.

(** C45 *)
Theorem C45_domain_separation : forall c tag msg tag' msg', wf_config c ->
  len tag < 2 ^ (usize_bits c - 1) -> 8 * len tag < 2 ^ 64 ->
  len tag' < 2 ^ (usize_bits c - 1) -> 8 * len tag' < 2 ^ 64 ->
  fits c Sha256 (64 + length msg) -> fits c Sha256 (64 + length msg') ->
  (tag, msg) <> (tag', msg') ->
  he_hash (sha256t_engine c (tag_engine c tag)) msg = he_hash (sha256t_engine c (tag_engine c tag')) msg' ->
  exists x x', x <> x' /\ SpecSha2.SHA256 x = SpecSha2.SHA256 x' /\
    ((x, x') = (tag, tag') \/
     (x, x') = (SpecSha2.SHA256 tag ++ SpecSha2.SHA256 tag ++ msg,
                SpecSha2.SHA256 tag' ++ SpecSha2.SHA256 tag' ++ msg')).
Proof. exact tagged_separated. Qed.
Print Assumptions C45_domain_separation.
Example C45_case : fits (target 32 true) Sha256 (64 + 10) /\ ([x61], [x62]) <> ([x61; x62], @nil byte).
Proof. unfold fits. vm_compute. split; [tauto|discriminate]. Qed.
