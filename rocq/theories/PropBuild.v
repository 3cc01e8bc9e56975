(** Conditional compilation and the choice of the SHA-256 block function:
    C85, C86. *)
From Coq Require Import Strings.Byte Strings.String.
From Verif Require Import Base SpecBase ModelEngine SpecMD SpecGen GenBase GenSha256 BuildBase GenBuild SpecBuild ProofGenProgram ProofBuild.
Open Scope list_scope.

(** C85: for every build, every CPU, every state *)
Theorem C85_no_illegal_instruction : forall b cpu c e, exists r, g_process_block_on b cpu c e = Runs r.
Proof. exact dispatch_total. Qed.
Print Assumptions C85_no_illegal_instruction.
Theorem C85_detected : forall b cpu, g_process_block_cond b cpu = true <-> forall f, In f g_simd_features -> cpu f = true.
Proof. exact cond_iff. Qed.
Print Assumptions C85_detected.
Theorem C85_declared : forall i, In i g_simd_intrinsics -> exists f, intrinsic_feature i = Some f /\ In f g_simd_features.
Proof. exact intrinsics_covered. Qed.
Print Assumptions C85_declared.
Theorem C85_exact : forall b cpu c e, sha_ni c = accelerated b cpu ->
  g_process_block_on b cpu c e = Runs (g_sha256_Engine_process_block c e).
Proof. exact dispatch_exact. Qed.
Print Assumptions C85_exact.
Theorem C85_same : forall b cpu c e, wf_config c -> sha_ni c = accelerated b cpu -> typed Sha256 e ->
  g_process_block_on b cpu c e = Runs (Ok (mk_engine (e_buffer e) (md_compress (md_of Sha256) (e_h e) (e_buffer e)) (e_length e))).
Proof. exact dispatch_same. Qed.
Print Assumptions C85_same.
(** A machine that takes the fast path, one that lacks a single extension, a
    build without std; and a call that would not be allowed *)
Definition pc (std : bool) : build := mk_build (fun f => std && String.eqb f "std") "x86_64" (fun _ => false).
Example C85_case : let all := fun _ : string => true in let but := fun f => negb (String.eqb f "ssse3") in
  accelerated (pc true) all = true /\ accelerated (pc true) but = false /\ accelerated (pc false) all = false /\
  run_unsafe (pc true) but g_simd_cfg g_simd_features g_simd_intrinsics (Ok 0) = IllegalInstruction /\
  run_unsafe (pc false) all g_simd_cfg g_simd_features g_simd_intrinsics (Ok 0) = NotCompiled /\
  typed Sha256 (mk_engine (repeat x61 64) [1; 2; 3; 4; 5; 6; 7; 8] 7).
Proof. cbv zeta. do 5 (split; [reflexivity|]). split; [reflexivity|split; [reflexivity|repeat constructor]]. Qed.

(** C86 *)
Theorem C86_once : defined_once g_source.
Proof. exact crate_defined_once. Qed.
Print Assumptions C86_once.
Theorem C86_names : forall b, resolves g_source b <->
  ((b_feature b "alloc" = true -> b_feature b "std" = true \/ b_flag b "test" = true) /\
   (b_feature b "schemars" = true -> b_feature b "std" = true \/ b_flag b "test" = true) /\
   ~ (b_flag b "test" = true /\ b_arch b = "wasm32"%string)).
Proof. exact resolves_exact. Qed.
Print Assumptions C86_names.
(** Nothing else is missing in the builds that do not resolve *)
Theorem C86_missing : forall b f l i n, In (f, l) g_crate -> In i l -> compiled b i = true -> In n (i_needs i) -> ~ available g_source b n ->
  (i_name i = "to_bytes"%string /\ n = NPrelude "Vec" /\ b_feature b "alloc" = true /\ b_feature b "std" = false) \/
  (In (i_name i) ["schema_name"; "json_schema"]%string /\ (n = NRoot "std" \/ exists x, n = NPrelude x) /\
   b_feature b "schemars" = true /\ b_feature b "std" = false) \/
  (n = NRoot "wasm_bindgen_test" /\ b_flag b "test" = true /\ b_arch b = "wasm32"%string).
Proof. exact missing_exact. Qed.
Print Assumptions C86_missing.
Theorem C86_cargo : forall req b, cargo_build g_source req b -> b_flag b "test" = false ->
  (resolves g_source b <-> asked req ["std"; "default"]%string \/ (~ In "alloc"%string req /\ ~ In "schemars"%string req)).
Proof. exact cargo_resolves. Qed.
Print Assumptions C86_cargo.
(** README: "should always compile with any combination of features" *)
Theorem C86_any_features_refuted : exists req b, cargo_build g_source req b /\ b_flag b "test" = false /\
  (forall f, In f req -> In f (map fst g_features)) /\ ~ resolves g_source b.
Proof. exact cargo_alloc_refuted. Qed.
Print Assumptions C86_any_features_refuted.
(** Cargo.toml: "If you want I/O you must enable either std or io" *)
Theorem C86_write : forall req b i, cargo_build g_source req b ->
  (impl_item "impls" "impl < E : HashEngine > bitcoin_io :: Write for hmac :: Engine < E >" i ->
    (compiled b i = true <-> asked req ["default"; "std"; "io"; "bitcoin-io"]%string)) /\
  (impl_item "impls" "impl < E : HashEngine > std :: io :: Write for hmac :: Engine < E >" i ->
    (compiled b i = true <-> asked req ["default"; "std"]%string)).
Proof. exact write_impls. Qed.
Print Assumptions C86_write.
(** The default build is one Cargo makes and its names resolve; there are two
    definitions of [finalize] in sha256.rs, and items that need something *)
Example C86_case :
  cargo_build g_source ["default"; "serde"]%string
    (mk_build (fun f => existsb (String.eqb f) ["default"; "std"; "alloc"; "bitcoin-io"; "serde"]%string) "aarch64" (fun _ => false)) /\
  (exists i j, definitions g_source ["sha256"%string] KFn "finalize" = [i; j] /\ same_name i j) /\
  (exists i, impl_item "impls" "impl < E : HashEngine > bitcoin_io :: Write for hmac :: Engine < E >" i) /\
  (exists i, impl_item "impls" "impl < E : HashEngine > std :: io :: Write for hmac :: Engine < E >" i) /\
  Nat.leb 150 (List.length (flat_map (fun f => flat_map i_needs (snd f)) g_crate)) = true.
Proof.
  split; [exact default_serde_build|]. split.
  - eexists _, _. split; [vm_compute; reflexivity|]. repeat split.
  - split; [eexists; unfold impl_item; match goal with |- In _ ?l => let m := eval vm_compute in l in change l with m end; left; reflexivity|].
    split; [eexists; unfold impl_item; match goal with |- In _ ?l => let m := eval vm_compute in l in change l with m end; left; reflexivity|].
    vm_compute. reflexivity.
Qed.
