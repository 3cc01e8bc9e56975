(** The text of the crate as translated by tools/rs2v.py: C70, C71, C72, C73. *)
From Coq Require Import NArith ZArith List Bool Lia.
From Coq Require Import Strings.Byte.
From Verif Require Import Base SpecBase SpecMD SpecMac ModelEngine ModelSip ModelHmac ModelAll ModelTypes ModelStore
  SpecApi SpecStore SpecMore ModelProgram SpecProgram GenBase GenLib GenCmp GenSip GenSha256 GenHmac GenSha256Const SpecGen
  ProofGenSip ProofGenProgram ProofGenMac.
Import ListNotations.
Open Scope N_scope.

(** C70 *)
Theorem C70_programs : forall c, wf_config c -> forall ops, Forall (api_op_real c) ops ->
  behaviour (gen_api c) ops = behaviour (spec_api c) ops.
Proof. exact gen_programs. Qed.
Print Assumptions C70_programs.
Theorem C70_adaptive : forall c, wf_config c -> forall n next, (forall seen, api_op_real c (next seen)) ->
  adaptive (gen_api c) n next [] [] = adaptive (spec_api c) n next [] [].
Proof. exact gen_adaptive. Qed.
Print Assumptions C70_adaptive.
Definition C70_program : list api_op :=
  [PWithKeys 1 2; PInput 0 [x61; x62; x63]; PMidstate 0; PKeys 0; PClone 0; PCount 1; PToU64 1; PFinalize 0; PCount 0;
   PFromMidstate (KHmac KSip) (mk_sip 1 2 3 4, mk_sip 5 6 7 8) 3; PKeys 2; PCount 2; PInput 2 [x64]; PFinalize 2;
   PHash (KHmac KSip) [x61]; PHashChunks KSip [[x61; x62]; []; [x63]];
   PFromMidstate (KAlgo Sha512) (repeat x00 64) 128; PNew (KAlgo Sha1)].
Example C70_case : Forall (api_op_real (target 64 true)) C70_program /\
  behaviour (gen_api (target 64 true)) C70_program =
  ([RNone; RNone;
    RMidstate KSip (mk_sip 8317987319222330740 7237128888997146479 7816392313619706464 8387220255154660721);
    RKeys 1 2; RNone; RCount 3; RU64 15085598991770005917;
    RDigest [x9d; x31; x71; x28; x5b; xd0; x5a; xd1]; RRejected;
    RNone; RRejected; RCount 0; RNone; RDigest [xc5; x1c; x89; x21; xec; xeb; xb6; x29];
    RDigest [xc2; xcf; xa9; xbe; x0b; x1d; x34; x3b]; RDigest [xde; xee; x70; x47; x96; x84; xc8; x3f]],
   Some PExpect).
Proof. split; [repeat constructor|vm_compute; reflexivity]. Qed.

(** C71 *)
Theorem C71_hash : forall c a m, wf_config c -> fits c a (length m) -> gen_hash c a m = Ok (hash_of a m).
Proof. exact gen_hash_standard. Qed.
Print Assumptions C71_hash.
Theorem C71_chunks : forall c k chunks, wf_config c -> kind_fits c k (length (List.concat chunks)) ->
  g_lib_HashEngine_hash_byte_chunks (gen_kind c k) chunks = Ok (kind_hash k (List.concat chunks)).
Proof. exact gen_chunks_standard. Qed.
Print Assumptions C71_chunks.
Theorem C71_keyed : forall c k0 k1 m, wf_config c -> k0 < 2 ^ 64 -> k1 < 2 ^ 64 -> slice c m ->
  g_siphash24_Hash_hash_with_keys c k0 k1 m = Ok (le_octets 8 (siphash24 k0 k1 m)) /\
  g_siphash24_Hash_hash_to_u64_with_keys c k0 k1 m = Ok (siphash24 k0 k1 m).
Proof. exact gen_keyed_standard. Qed.
Print Assumptions C71_keyed.
Theorem C71_const : forall c m, wf_config c -> len m + 72 < 2 ^ usize_bits c -> 8 * len m < 2 ^ 64 ->
  g_sha256_Hash_const_hash c m = Ok (hash_of Sha256 m).
Proof. exact gen_const_standard. Qed.
Print Assumptions C71_const.
Example C71_case : fits (target 16 true) Sha1 3 /\
  gen_hash (target 16 true) Sha1 [x61; x62; x63] = Ok (be_octets 20 0xa9993e364706816aba3e25717850c26c9cd0d89d) /\
  kind_fits (target 16 true) (KHmac KSip) 3.
Proof. unfold fits, kind_fits. vm_compute. tauto. Qed.

(** C72 *)
Theorem C72_decides : forall a b, length a = length b ->
  exists r, g_cmp_fixed_time_eq a b = Ok r /\ (r = true <-> a = b).
Proof. exact gen_cmp_decides. Qed.
Print Assumptions C72_decides.
Theorem C72_refuses : forall a b, length a <> length b -> g_cmp_fixed_time_eq a b = Panic PAssert.
Proof. exact gen_cmp_refuses. Qed.
Print Assumptions C72_refuses.
Example C72_case : g_cmp_fixed_time_eq [x01; xff] [x01; xff] = Ok true /\
  g_cmp_fixed_time_eq [x01; xff] [x01; x7f] = Ok false /\ g_cmp_fixed_time_eq [x01] [] = Panic PAssert.
Proof. vm_compute. tauto. Qed.

(** C73 *)
Theorem C73_kinds : forall c k, wf_config c ->
  agree c (gen_kind c k) (kind_engine c k) (kind_rel c k) (kind_mid c k).
Proof. exact kinds_agree. Qed.
Print Assumptions C73_kinds.
Theorem C73_hmac : forall c E F R M, wf_config c -> agree c E F R M ->
  agree c (g_hmac_Engine_dict c E) (hmac_engine c F) (hmac_rel R) (pair_rel M) /\
  forall key, slice c key -> res_rel (hmac_rel R) (g_hmac_Engine_new c E key) (hmac_new c F key).
Proof. intros c E F R M WF H. exact (conj (hmac_agree c WF E F R M H) (hmac_new_agree c WF E F R M H)). Qed.
Print Assumptions C73_hmac.
Theorem C73_block : forall c a e, wf_config c -> typed a e ->
  gen_block c a e = Ok (mk_engine (e_buffer e) (md_compress (md_of a) (e_h e) (e_buffer e)) (e_length e)).
Proof. exact gen_block_compress. Qed.
Print Assumptions C73_block.
Theorem C73_keyed : forall c k0 k1 d, wf_config c -> slice c d ->
  g_siphash24_Engine_with_keys k0 k1 = with_keys k0 k1 /\
  g_siphash24_Hash_hash_with_keys c k0 k1 d = hash_with_keys c k0 k1 d /\
  g_siphash24_Hash_hash_to_u64_with_keys c k0 k1 d = hash_to_u64_with_keys c k0 k1 d.
Proof. intros c k0 k1 d WF Hd. exact (conj (sip_with_keys_gen k0 k1) (sip_hash_with_keys_gen c k0 k1 d WF Hd)). Qed.
Print Assumptions C73_keyed.
Example C73_case : exists e, typed Ripemd160 e /\ is_ok (gen_block (target 32 false) Ripemd160 e) = true /\
  e_h e = [1; 2; 3; 4; 5].
Proof.
  exists (mk_engine (repeat x61 64) [1; 2; 3; 4; 5] 7).
  split; [split; [reflexivity|split; [reflexivity|repeat constructor]]|].
  split; [vm_compute; reflexivity|reflexivity].
Qed.
