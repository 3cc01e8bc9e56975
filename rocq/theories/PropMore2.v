(** C23 (exact behaviour), C54-C59. *)
From Coq Require Import NArith ZArith List Bool Lia.
From Coq Require Import Strings.Byte Strings.String.
From Verif Require Import Base SpecBase SpecMD SpecMac ModelEngine ModelSip ModelHmac ModelAll ModelTypes ModelStore
  ModelValues SpecApi SpecText SpecStore SpecMore SpecValues SpecPerm
  ModelRipemdRound TablesRipemd ProofHmacMid ProofValues ProofUtf8 ProofPerm ProofPermMore.
Import ListNotations.
Open Scope N_scope.
Open Scope list_scope.

(** C23: the outer hash of a resumed HMAC engine is computed with a length
    field that counts the [m] bytes fed before the midstate ... *)
Theorem C23_hmac_resume_exact : forall c a key chunks chunks', a = Sha1 \/ a = Sha256 -> wf_config c ->
  let E := hmac_engine c (algo_engine c a) in
  let m := List.concat chunks in let m' := List.concat chunks' in
  let D := digest_len a in
  (List.length m mod 64 = 0)%nat ->
  ((64 < List.length key)%nat -> fits c a (List.length key)) ->
  fits c a (64 + List.length m + List.length m') -> fits c a (64 + List.length m + D) ->
  (let* s := hmac_new c (algo_engine c a) key in
   let* s := he_inputs E s chunks in
   let* s := resume E s in
   let* s := he_inputs E s chunks' in
   he_finalize E s)
  = Ok (md_hash_from (md_of a) (md_iv (md_of a)) (8 * (64 + len m + N.of_nat D)) (outer_msg a key (m ++ m'))).
Proof. exact hmac_resume_exact. Qed.
Print Assumptions C23_hmac_resume_exact.
(** ... so that with a non-empty [m] the MAC is wrong, unless two different calls
    of the block function, made to hash the same outer message with the two
    length fields, return the same chaining value. *)
Theorem C23_hmac_resume_wrong : forall c a key chunks chunks', a = Sha1 \/ a = Sha256 -> wf_config c ->
  let E := hmac_engine c (algo_engine c a) in
  let m := List.concat chunks in let m' := List.concat chunks' in
  let D := digest_len a in
  (List.length m mod 64 = 0)%nat -> m <> [] ->
  ((64 < List.length key)%nat -> fits c a (List.length key)) ->
  fits c a (64 + List.length m + List.length m') -> fits c a (64 + List.length m + D) ->
  (let* s := hmac_new c (algo_engine c a) key in
   let* s := he_inputs E s chunks in
   let* s := resume E s in
   let* s := he_inputs E s chunks' in
   he_finalize E s) = Ok (HMAC (hash_of a) 64 key (m ++ m')) ->
  call_collision c a (calls_with a (8 * (64 + len m + N.of_nat D)) (outer_msg a key (m ++ m')))
                     (calls_with a (8 * (64 + N.of_nat D)) (outer_msg a key (m ++ m'))).
Proof. exact hmac_resume_wrong. Qed.
Print Assumptions C23_hmac_resume_wrong.
Example C23_exact_case : let c := target 32 true in
  wf_config c /\ fits c Sha256 (64 + 64 + 3) /\ fits c Sha256 (64 + 64 + digest_len Sha256) /\ (64 mod 64 = 0)%nat.
Proof. vm_compute. repeat split; right; left; reflexivity. Qed.

(** C54 *)
Theorem C54_inherent_hash : forall c k m, wf_config c -> slice c m -> kind_fits c k (List.length m) ->
  ty_hash c k m = Ok (kind_hash k m).
Proof. exact ty_hash_ok. Qed.
Print Assumptions C54_inherent_hash.
Theorem C54_inherent_is_trait : forall c k m, ty_hash c k m = he_hash (kind_engine c k) m.
Proof. exact ty_hash_trait. Qed.
Print Assumptions C54_inherent_is_trait.
Theorem C54_from_engine : forall c o chunks, wf_config c -> origin_ok o -> Forall (slice c) chunks ->
  origin_fits c o (List.length (List.concat chunks)) ->
  exists s, (let* s := start c o in he_inputs (kind_engine c (origin_kind o)) s chunks) = Ok s /\
    ty_from_engine c (origin_kind o) s = Ok (origin_hash o (List.concat chunks)).
Proof. exact ty_from_engine_ok. Qed.
Print Assumptions C54_from_engine.
Example C54_case : let c := target 16 true in
  wf_config c /\ slice c [x61] /\ kind_fits c (KHmac (KAlgo Sha1)) 1 /\
  origin_fits c (FromKey (KAlgo Sha1) [x62]) 1 /\ origin_ok (FromKey (KAlgo Sha1) [x62]).
Proof.
  cbv zeta. split; [left; reflexivity|]. split; [reflexivity|]. split; [vm_compute; repeat split|].
  split; [split; [split; vm_compute; repeat split|intros H; vm_compute in H; exfalso; lia]|exact I].
Qed.

(** C55: equal hashes hash alike, with any hasher; the calls of [Hasher] and the
    bytes seen by one that keeps the provided [write_usize] determine the value,
    whatever is hashed after it. *)
Theorem C55_equal_hash : forall t a b, hash_eq t a b = true ->
  forall S wu w (s : S), run_hasher wu w (hash_hash t a) s = run_hasher wu w (hash_hash t b) s.
Proof. exact hash_hash_eq. Qed.
Print Assumptions C55_equal_hash.
Theorem C55_prefix_free : forall t t' a b r r',
  hash_hash t a ++ r = hash_hash t' b ++ r' -> a = b /\ r = r'.
Proof. exact hash_hash_inj. Qed.
Print Assumptions C55_prefix_free.
Theorem C55_bytes_prefix_free : forall c t t' a b r r', wf_config c -> slice c a -> slice c b ->
  hasher_bytes c (hash_hash t a) ++ r = hasher_bytes c (hash_hash t' b) ++ r' -> a = b /\ r = r'.
Proof. exact hasher_bytes_inj. Qed.
Print Assumptions C55_bytes_prefix_free.
Example C55_case :
  hash_eq TSha1 (repeat x07 20) (repeat x07 20) = true /\
  run_hasher (fun s n => s + n) (fun s b => s * len b) (hash_hash TSha1 (repeat x07 20)) 3 = 460 /\
  hasher_bytes (target 16 true) (hash_hash TSiphash24 (repeat x07 8)) = [x08; x00] ++ repeat x07 8.
Proof. vm_compute. repeat split. Qed.

(** C56 *)
Theorem C56_error_text : forall e, exists s s', numeral s (invalid_length e) /\ numeral s' (expected_length e) /\
  fse_display e = list_byte_of_string "invalid slice length " ++ s ++ list_byte_of_string " (expected " ++ s' ++
                  list_byte_of_string ")".
Proof. exact fse_display_ok. Qed.
Print Assumptions C56_error_text.
Theorem C56_numeral_unique : forall s s' n, numeral s n -> numeral s' n -> s = s'.
Proof. exact numeral_unique. Qed.
Print Assumptions C56_numeral_unique.
Theorem C56_error_text_injective : forall e e', fse_display e = fse_display e' -> e = e'.
Proof. exact fse_display_inj. Qed.
Print Assumptions C56_error_text_injective.
Example C56_case : numeral (list_byte_of_string "120") 120 /\
  exists e, from_slice TSha1 (repeat x00 120) = Ok (RErr e) /\
  fse_display e = list_byte_of_string "invalid slice length 120 (expected 20)".
Proof.
  split.
  - split; [|split; discriminate].
    change (positional ((([] ++ [x31]) ++ [x32]) ++ [x30]) (10 * (10 * (10 * 0 + 1) + 2) + 0)).
    repeat constructor.
  - eexists. split; vm_compute; reflexivity.
Qed.

(** C57 *)
Theorem C57_utf8 : forall s, from_utf8 s = true <-> exists text, Forall scalar text /\ s = utf8 text.
Proof. exact from_utf8_exact. Qed.
Print Assumptions C57_utf8.
Theorem C57_visit_bytes_errors : forall t v,
  (hex_visit_bytes t v = RErr DeNotUtf8 <-> ~ exists text, Forall scalar text /\ v = utf8 text) /\
  (forall e, hex_visit_bytes t v = RErr (DeHex e) <->
     (exists text, Forall scalar text /\ v = utf8 text) /\ from_str t v = RErr e).
Proof. exact visit_bytes_exact. Qed.
Print Assumptions C57_visit_bytes_errors.
Example C57_case : from_utf8 [xe2; x82; xac] = true /\ utf8 [0x20ac] = [xe2; x82; xac] /\
  from_utf8 [xed; xa0; x80] = false /\ from_utf8 [xc0; x80] = false /\
  hex_visit_bytes TSiphash24 [xff] = RErr DeNotUtf8.
Proof. vm_compute. repeat split. Qed.

(** C58 *)
Theorem C58_rounds_permute :
  permutes sip_mid_ok sip_compress /\ permutes sip_mid_ok c_rounds /\ permutes sip_mid_ok d_rounds /\
  forall m, m < 2 ^ 64 -> permutes sip_mid_ok (fun s => sip_absorb s m).
Proof. exact (conj sip_compress_perm (conj c_rounds_perm (conj d_rounds_perm sip_absorb_perm))). Qed.
Print Assumptions C58_rounds_permute.
Theorem C58_keys_never_merge : forall c k0 k1 k0' k1' chunks s s', wf_config c ->
  k0 < 2 ^ 64 -> k1 < 2 ^ 64 -> k0' < 2 ^ 64 -> k1' < 2 ^ 64 -> Forall (slice c) chunks ->
  (k0, k1) <> (k0', k1') ->
  he_inputs (siphash24_engine c) (with_keys k0 k1) chunks = Ok s ->
  he_inputs (siphash24_engine c) (with_keys k0' k1') chunks = Ok s' -> sip_st s <> sip_st s'.
Proof. exact sip_keys_differ. Qed.
Print Assumptions C58_keys_never_merge.
Theorem C58_midstates_never_merge : forall c m m' n n' chunks s s', wf_config c -> sip_mid_ok m -> sip_mid_ok m' ->
  Forall (slice c) chunks -> m <> m' ->
  he_inputs (siphash24_engine c) (sip_from_midstate m n) chunks = Ok s ->
  he_inputs (siphash24_engine c) (sip_from_midstate m' n') chunks = Ok s' -> sip_st s <> sip_st s'.
Proof. exact sip_midstates_differ. Qed.
Print Assumptions C58_midstates_never_merge.
Example C58_case : sip_compress (mk_sip 1 2 3 4) <> sip_compress (mk_sip 1 2 3 5) /\
  is_ok (he_inputs (siphash24_engine (target 16 true)) (with_keys 7 8) [repeat x00 9; [x01]]) = true.
Proof. split; [intros H; vm_compute in H; discriminate H|vm_compute; reflexivity]. Qed.

(** C59: what a block does is to add a permuted copy of the chaining value. *)
Theorem C59_rounds_permute : forall c a block, wf_config c -> sha_family a -> List.length block = md_block (md_of a) ->
  exists F, permutes (good_h (md_of a)) F /\
    forall h, good_h (md_of a) h -> block_out c a (h, block) = Ok (add_words (word_bits a) h (F h)).
Proof. exact sha_rounds_permute. Qed.
Print Assumptions C59_rounds_permute.
Theorem C59_fixed_points : forall c a block, wf_config c -> sha_family a -> List.length block = md_block (md_of a) ->
  exists! h, good_h (md_of a) h /\ block_out c a (h, block) = Ok h.
Proof. exact sha_fixed_point. Qed.
Print Assumptions C59_fixed_points.
Example C59_case : let h := [589888211; 1964022592; 1058149505; 48357110; 3486994072] in
  good_h (md_of Sha1) h /\ block_out (target 64 true) Sha1 (h, repeat x00 64) = Ok h.
Proof. cbv zeta. split; [split; [reflexivity|repeat constructor]|vm_compute; reflexivity]. Qed.
(** RIPEMD-160: not the block function but each of its two lines is a
    permutation, for every 16 message words. *)
Theorem C59_ripemd_lines : forall c X, List.length X = 16%nat -> bounded 32 X ->
  permutes (good_h (md_of Ripemd160)) (run_line c left_fn left_k X left_rows) /\
  permutes (good_h (md_of Ripemd160)) (run_line c right_fn right_k X right_rows).
Proof. exact rip_lines_code. Qed.
Print Assumptions C59_ripemd_lines.
Example C59_ripemd_case : let c := target 32 false in let X := repeat 7 16 in
  bounded 32 X /\
  run_line c left_fn left_k X left_rows [1; 2; 3; 4; 5] <> run_line c left_fn left_k X left_rows [1; 2; 3; 4; 6] /\
  run_line c left_fn left_k X left_rows [1; 2; 3; 4; 5] <> run_line c right_fn right_k X right_rows [1; 2; 3; 4; 5].
Proof. split; [repeat constructor|split; intros H; vm_compute in H; discriminate H]. Qed.
