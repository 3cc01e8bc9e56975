(** The build for fuzzing ([--cfg hashes_fuzz]): C87.

    As written the compiler rejects that build, because of one undeclared
    variable.  With that variable read as [self] (the only value of its type in
    the function) the functions below are the translation of the text. *)
From Coq Require Import Arith Permutation Strings.Byte Strings.String.
From Verif Require Import Base SpecBase SpecMD SpecMac SpecApi ModelEngine ModelAll GenLib GenSha256Const GenFuzz ScopeBase GenScope SpecFuzz ProofFuzz.
Import ListNotations.
Open Scope list_scope.
Open Scope N_scope.

Theorem C87_declared : forall fuzz,
  (forall f, In f scopes -> compiled fuzz (sc_when f) = true -> declared f) <-> fuzz = false.
Proof. exact scopes_declared. Qed.
Print Assumptions C87_declared.
Theorem C87_undeclared : forall f x, In f scopes -> free x (sc_body f) ->
  sc_file f = "sha256"%string /\ sc_trait f = "HashEngine"%string /\ sc_fn f = "finalize"%string /\ sc_when f = OnlyFuzz /\
  x = "e"%string.
Proof. exact scopes_undeclared. Qed.
Print Assumptions C87_undeclared.

Theorem C87_digest : forall c a, wf_config c ->
  (forall chunks, fits c a (length (List.concat chunks)) ->
     g_lib_HashEngine_hash_byte_chunks (fuzz_engine c a) chunks = Ok (fuzz_hash a (List.concat chunks))) /\
  (forall m, fits c a (length m) -> fuzz_hash_fn c a m = Ok (fuzz_hash a m)).
Proof. exact fuzz_digest. Qed.
Print Assumptions C87_digest.
Theorem C87_keyed : forall c k0 k1 chunks, wf_config c -> k0 < 2 ^ 64 -> k1 < 2 ^ 64 -> slice c (List.concat chunks) ->
  (let* e := he_inputs (f_siphash24_Engine_dict c) (f_siphash24_Engine_with_keys k0 k1) chunks in
   he_finalize (f_siphash24_Engine_dict c) e) = Ok (le_octets 8 (fuzz_sip k0 k1 (List.concat chunks))).
Proof. exact fuzz_sip_keyed. Qed.
Print Assumptions C87_keyed.
Theorem C87_hmac : forall c a key chunks, wf_config c -> fits c a (length key) ->
  fits c a (block_len a + length (List.concat chunks)) -> fits c a (block_len a + digest_len a) ->
  (let* s := f_hmac_Engine_new c (fuzz_engine c a) key in
   let* s := he_inputs (f_hmac_Engine_dict c (fuzz_engine c a)) s chunks in
   he_finalize (f_hmac_Engine_dict c (fuzz_engine c a)) s)
  = Ok (HMAC (fuzz_hash a) (block_len a) key (List.concat chunks)).
Proof. exact fuzz_hmac. Qed.
Print Assumptions C87_hmac.
(** Tags make no difference: the midstate is not looked at *)
Theorem C87_tagged : forall c mid n chunks, wf_config c -> length mid = 32%nat -> n mod 64 = 0 ->
  n + len (List.concat chunks) < 2 ^ usize_bits c ->
  g_lib_HashEngine_hash_byte_chunks (f_sha256t_Engine_dict c (f_sha256_Engine_from_midstate mid n)) chunks =
  Ok (fuzz_hash Sha256 (List.concat chunks)).
Proof. exact fuzz_tagged. Qed.
Print Assumptions C87_tagged.
Theorem C87_resume : forall c mid n chunks, wf_config c -> length mid = 32%nat -> n mod 64 = 0 ->
  n + len (List.concat chunks) < 2 ^ usize_bits c ->
  (let* e := he_from_midstate (f_sha256_Engine_dict c) mid n in
   let* e := he_inputs (f_sha256_Engine_dict c) e chunks in
   he_finalize (f_sha256_Engine_dict c) e) = Ok (fuzz_hash Sha256 (List.concat chunks)).
Proof. exact fuzz_resume. Qed.
Print Assumptions C87_resume.

(** The comments of the source: never the zero key, and SHA-512 apart from SHA-256 *)
Theorem C87_never_zero : forall m, fuzz_hash Sha256 m <> repeat x00 32.
Proof. exact fuzz_never_zero. Qed.
Print Assumptions C87_never_zero.
Theorem C87_apart : forall m, fuzz_hash Sha256 m <> fuzz_hash Sha512_256 m.
Proof. exact fuzz_apart. Qed.
Print Assumptions C87_apart.
(** What is lost: the order of octets of message and key, the last partial word *)
Theorem C87_order : forall a m m', Permutation m m' -> fuzz_hash a m = fuzz_hash a m'.
Proof. exact fuzz_hash_perm. Qed.
Print Assumptions C87_order.
Theorem C87_key_order : forall a k k' m m', Permutation k k' -> Permutation m m' ->
  HMAC (fuzz_hash a) (block_len a) k m = HMAC (fuzz_hash a) (block_len a) k' m'.
Proof. exact fuzz_HMAC_perm. Qed.
Print Assumptions C87_key_order.
Theorem C87_tail : forall k0 k1 m t, (length m mod 8 = 0)%nat -> (length t < 8)%nat -> fuzz_sip k0 k1 (m ++ t) = fuzz_sip k0 k1 m.
Proof. exact fuzz_sip_tail. Qed.
Print Assumptions C87_tail.

(** Equations of the ordinary build (C18, C16, C38) that fail in this one *)
Theorem C87_resume_refuted : forall c, wf_config c ->
  exists mid, (let* e := he_default (f_sha256_Engine_dict c) in
               let* e := he_input (f_sha256_Engine_dict c) e two in
               he_midstate (f_sha256_Engine_dict c) e) = Ok mid /\
    (let* e := he_from_midstate (f_sha256_Engine_dict c) mid 64 in he_finalize (f_sha256_Engine_dict c) e) <>
    g_lib_HashEngine_hash_byte_chunks (f_sha256_Engine_dict c) [two].
Proof. exact fuzz_resume_refuted. Qed.
Print Assumptions C87_resume_refuted.
Theorem C87_const_refuted : forall c, wf_config c -> g_sha256_Hash_const_hash c [] <> f_sha256_Hash_hash c [].
Proof. exact fuzz_const_refuted. Qed.
Print Assumptions C87_const_refuted.
Theorem C87_to_u64 : forall c k0 k1 m, wf_config c -> k0 < 2 ^ 64 -> k1 < 2 ^ 64 -> slice c m ->
  f_siphash24_Hash_hash_with_keys c k0 k1 m = Ok (le_octets 8 (fuzz_sip k0 k1 m)) /\
  f_siphash24_Hash_hash_to_u64_with_keys c k0 k1 m = Ok (siphash24 k0 k1 m).
Proof. exact fuzz_sip_u64. Qed.
Print Assumptions C87_to_u64.
Theorem C87_to_u64_refuted : forall c, wf_config c ->
  f_siphash24_Hash_hash_to_u64_with_keys c 0 0 [] <>
  let* h := f_siphash24_Hash_hash_with_keys c 0 0 [] in Ok (le_int h).
Proof. exact fuzz_sip_u64_refuted. Qed.
Print Assumptions C87_to_u64_refuted.

(** Messages, keys and a function that meet the hypotheses *)
Example C87_case :
  fits (target 16 true) Sha1 3 /\ fits (target 16 true) Sha256 (64 + 32) /\
  fuzz_hash_fn (target 16 true) Sha256 [x61; x62; x63] = Ok (x60 :: repeat x00 31) /\
  fuzz_hash_fn (target 16 true) Sha256 [x61; x61] = Ok (x01 :: repeat x00 31) /\
  fuzz_hash_fn (target 16 true) Sha512 [x61; x62; x63] = Ok (x9f :: repeat x00 63) /\
  fuzz_hash_fn (target 16 true) Ripemd160 [x61; x62; x63] = Ok (x63 :: repeat x00 19) /\
  fuzz_hash_fn (target 16 true) Sha1 [x61; x62; x63] = Ok (xf8 :: repeat x00 19) /\
  Permutation [x61; x62] [x62; x61] /\
  (exists f, In f scopes /\ sc_when f = OnlyFuzz /\ free "e" (sc_body f)) /\
  (exists f, In f scopes /\ sc_when f = OnlyFuzz /\ declared f).
Proof.
  do 2 (split; [split; reflexivity|]). do 5 (split; [reflexivity|]). split; [apply perm_swap|]. split.
  - exact scope_case_free.
  - exact scope_case_declared.
Qed.
