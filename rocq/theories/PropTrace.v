(** What the text of the crate, as translated by tools/rs2v.py in its trace mode,
    reveals while it runs: C76, C77. *)
From Coq Require Import NArith ZArith List Bool Lia.
From Coq Require Import Strings.Byte.
From Verif Require Import Base SpecBase SpecMD ModelEngine ModelSip ModelHmac ModelAll ModelStore SpecStore SpecMore SpecLeak SpecApi SpecGen
  GenBase GenLib GenCmp GenSip TraceBase TraceLib TraceCmp TraceSip SpecTrace ProofTrace.
From Verif Require ModelSha256.
Import ListNotations.
Open Scope N_scope.

(** C76 *)
Theorem C76_lengths_only : forall c o o' l l',
  wf_config c -> origin_real c o -> same_public o o' -> Forall2 same_act l l' ->
  events (trace_run c o l) = events (trace_run c o' l') /\
  same_shape (result (trace_run c o l)) (result (trace_run c o' l')).
Proof. exact trace_lengths. Qed.
Print Assumptions C76_lengths_only.
Example C76_case : let c := target 64 true in
  wf_config c /\ origin_real c (FromKey (KTag [x74]) [x6b]) /\
  same_public (FromKey (KTag [x74]) [x6b]) (FromKey (KTag [x74]) [x00]) /\
  Forall2 same_act [Feed [x61]; Peek; Resume 64] [Feed [x62]; Peek; Resume 64] /\
  events (trace_run c (FromKeys 1 2) [Feed [x61; x62; x63]; Resume 3; Feed [x64]]) =
    [EBranch false; EBranch false; EBranch true; EBranch false; EBranch true; EBranch true; EBranch true;
     ERead 0 2; EMul 0 8; EShift 0; EBranch true; ERead 2 1; EMul 2 8; EShift 16; EBranch true;
     EBranch false; EBranch false; EBranch true; EBranch false; EBranch false; EBranch true;
     ERead 0 1; EMul 0 8; EShift 0; EBranch true].
Proof.
  cbv zeta. split; [right; right; reflexivity|]. split; [split; [split; reflexivity|reflexivity]|].
  split; [split; reflexivity|]. split; [repeat constructor|]. lazy. reflexivity.
Qed.
(** Other lengths are told apart. *)
Example C76_length_case : let c := target 64 true in
  events (trace_run c (FromKeys 1 2) [Feed [x61]]) <> events (trace_run c (FromKeys 1 2) [Feed [x61; x62; x63]]).
Proof. cbv zeta. intros H. apply (f_equal (@length event)) in H. lazy in H. discriminate H. Qed.

(** Recording changes nothing: the results are those of the text without it. *)
Theorem C76_erase : forall c o l, result (trace_run c o l) = gen_run c o l.
Proof. exact trace_erase. Qed.
Print Assumptions C76_erase.
Theorem C76_hash : forall c k l l', wf_config c -> kind_real c k -> map (@length byte) l = map (@length byte) l' ->
  result (t_lib_HashEngine_hash_byte_chunks (trace_kind c k) l) = g_lib_HashEngine_hash_byte_chunks (gen_kind c k) l /\
  events (t_lib_HashEngine_hash_byte_chunks (trace_kind c k) l) = events (t_lib_HashEngine_hash_byte_chunks (trace_kind c k) l').
Proof. exact trace_hash. Qed.
Print Assumptions C76_hash.

Theorem C76_digest : forall c k d d', wf_config c -> kind_real c k -> length d = length d' ->
  result (t_lib_HashEngine_hash (trace_kind c k) d) = g_lib_HashEngine_hash (gen_kind c k) d /\
  events (t_lib_HashEngine_hash (trace_kind c k) d) = events (t_lib_HashEngine_hash (trace_kind c k) d').
Proof. exact trace_digest. Qed.
Print Assumptions C76_digest.
Theorem C76_keyed : forall c k0 k1 k0' k1' d d', length d = length d' ->
  let r := t_siphash24_Hash_hash_with_keys c in let u := t_siphash24_Hash_hash_to_u64_with_keys c in
  result (r k0 k1 d) = g_siphash24_Hash_hash_with_keys c k0 k1 d /\ events (r k0 k1 d) = events (r k0' k1' d') /\
  result (u k0 k1 d) = g_siphash24_Hash_hash_to_u64_with_keys c k0 k1 d /\ events (u k0 k1 d) = events (u k0' k1' d').
Proof. exact trace_keyed. Qed.
Print Assumptions C76_keyed.
Example C76_keyed_case :
  result (t_siphash24_Hash_hash_to_u64_with_keys (target 64 true) 1 2 [x61; x62; x63]) = Ok 15085598991770005917 /\
  length (events (t_siphash24_Hash_hash_to_u64_with_keys (target 64 true) 1 2 [x61; x62; x63])) = 15%nat.
Proof. split; lazy; reflexivity. Qed.

(** The block functions on their own: for every chaining value and every block the
    same branches, the same indices and the same operands where they matter. *)
Theorem C76_block : forall c a e e', wf_config c -> typed a e -> typed a e' ->
  result (trace_block c a e) = gen_block c a e /\
  events (trace_block c a e) = events (trace_block c a e').
Proof. exact trace_blocks. Qed.
Print Assumptions C76_block.
Example C76_block_case : let t := events (trace_block (target 64 true) Sha256 ModelSha256.sha256_default) in
  typed Sha256 ModelSha256.sha256_default /\
  firstn 9 t = [EBranch false; EBranch false; EBranch false; EBranch false; EBranch true; EBranch true;
                ERead 0 1; ERead 0 1; EWrite 0 1] /\
  length t = 398%nat.
Proof.
  cbv zeta. split; [split; [reflexivity|split; [reflexivity|repeat constructor]]|]. split; lazy; reflexivity.
Qed.

(** C77 *)
Theorem C77_exact : forall a b, length a = length b ->
  events (t_cmp_fixed_time_eq a b) =
  [EBranch true; ESlice 0 (len a); ESlice 0 (len a)] ++
  flat_map (fun i => [EBranch true; ERead (N.of_nat i) 1; ERead (N.of_nat i) 1]) (seq 0 (length a)) ++ [EBranch false].
Proof. exact cmp_exact. Qed.
Print Assumptions C77_exact.
Theorem C77_lengths_only : forall a b a' b', length a = length a' -> length b = length b' ->
  events (t_cmp_fixed_time_eq a b) = events (t_cmp_fixed_time_eq a' b').
Proof. exact cmp_lengths. Qed.
Print Assumptions C77_lengths_only.
Theorem C77_erase : forall a b, result (t_cmp_fixed_time_eq a b) = g_cmp_fixed_time_eq a b.
Proof. exact er_cmp. Qed.
Print Assumptions C77_erase.
Example C77_case :
  t_cmp_fixed_time_eq [x00; x01] [x02; x01] =
  ([EBranch true; ESlice 0 2; ESlice 0 2; EBranch true; ERead 0 1; ERead 0 1; EBranch true; ERead 1 1; ERead 1 1; EBranch false],
   Ok false).
Proof. lazy. reflexivity. Qed.
