(** Which types have which traits: C88.

    [b] is any build (features, target, flags); [U] is any set of facts about
    types of other crates, closed under what the traits imply.  [sat]: what
    follows from the impls, derives and structs as they stand in the source. *)
From Coq Require Import Strings.String.
From Verif Require Import Base BuildBase TraitBase GenTrait SpecTrait ProofTrait ProofTraitExact.
Open Scope list_scope. Open Scope string_scope.

(** ** The compiler's checks *)
Theorem C88_implied : forall b U g h, world U -> sat b g_program U g -> In h (g_implied g) -> sat b g_program U h.
Proof. exact (fun b U g h HU Hg => has_implied b U g HU Hg h). Qed.
Print Assumptions C88_implied.
Theorem C88_headers : forall b U i, world U -> In i (all_impls g_struct_table g_impl_table) -> compiled b (im_cfg i) ->
  accepted b U (im_bounds i) (header_goals g_struct_table g_trait_table i).
Proof. exact headers_accepted. Qed.
Print Assumptions C88_headers.
Theorem C88_derives : forall b U i, world U -> In i (flat_map derived g_struct_table) -> compiled b (im_cfg i) ->
  accepted b U (im_bounds i) (derive_goals g_struct_table i).
Proof. exact derives_accepted. Qed.
Print Assumptions C88_derives.
Theorem C88_structs : forall b U d, world U -> In d g_struct_table -> compiled b (sd_cfg d) ->
  accepted b U (sd_bounds d) (struct_goals g_struct_table d).
Proof. exact structs_accepted. Qed.
Print Assumptions C88_structs.
(** No two impls meet, for any parameters; every impl is for a type of the crate *)
Theorem C88_coherent : forall i j x y s s', i <> j ->
  nth_error (all_impls g_struct_table g_impl_table) i = Some x -> nth_error (all_impls g_struct_table g_impl_table) j = Some y ->
  gsubst s (im_for x, im_trait x) <> gsubst s' (im_for y, im_trait y).
Proof. exact impls_disjoint. Qed.
Print Assumptions C88_coherent.
Theorem C88_local : forall i, In i (all_impls g_struct_table g_impl_table) ->
  exists n l, im_for i = TCon n l /\ In n (map sd_name g_struct_table).
Proof. exact impls_local. Qed.
Print Assumptions C88_local.

(** What a user has to provide for a tag, an engine: this and no more *)
Theorem C88_requirements : forall t h,
  (In h (g_implied (t, t0 "Tag")) <-> In h (tag_requires t)) /\
  (In h (g_implied (t, t0 "HashEngine")) <-> In h (engine_requires t)) /\
  (In h (g_implied (t, t0 "SerdeHash")) <-> In h (serde_requires t)).
Proof. exact requirements. Qed.
Print Assumptions C88_requirements.

(** ** The traits of each type, exactly *)
Theorem C88_engines : forall b U t, world U -> has b U t (t0 "HashEngine") <-> is_engine U t.
Proof. exact (fun b U t HU => engine_iff b U HU t). Qed.
Print Assumptions C88_engines.
Theorem C88_engine : forall b U f r, world U -> engine_name f -> has b U (engine f) r <-> engine_has b f r.
Proof. exact (fun b U f r HU => engine_exact b U HU f r). Qed.
Print Assumptions C88_engine.
Theorem C88_tagged : forall b U t r, world U -> has b U (tagged t) r <-> tagged_has b U t r.
Proof. exact (fun b U t r HU => tagged_exact b U HU t r). Qed.
Print Assumptions C88_tagged.
Theorem C88_hmac : forall b U t r, world U -> has b U (hmac t) r <-> hmac_has b U t r.
Proof. exact (fun b U t r HU => hmac_exact b U HU t r). Qed.
Print Assumptions C88_hmac.
Theorem C88_hash : forall b U f n r, world U -> hash_size f = Some n -> has b U (hash f) r <-> auto r \/ hash_has b U n r.
Proof. exact (fun b U f n r HU => hash_exact b U HU f n r). Qed.
Print Assumptions C88_hash.
Theorem C88_tagged_hash : forall b U t r, world U -> has b U (TCon "sha256t::Hash" [t]) r <-> tagged_hash_has b U t r.
Proof. exact (fun b U t r HU => tagged_hash_exact b U HU t r). Qed.
Print Assumptions C88_tagged_hash.
Theorem C88_hmac_hash : forall b U n r, world U -> has b U (TCon "hmac::Hash" [n]) r <-> auto r \/ hmac_hash_has b r.
Proof. exact (fun b U n r HU => hmac_hash_exact b U HU n r). Qed.
Print Assumptions C88_hmac_hash.
Theorem C88_midstate : forall b U r, world U -> has b U (TCon "sha256::Midstate" []) r <-> auto r \/ midstate_has b U r.
Proof. exact (fun b U r HU => midstate_exact b U HU r). Qed.
Print Assumptions C88_midstate.
Theorem C88_error : forall b U r, world U -> has b U (TCon "lib::FromSliceError" []) r <-> auto r \/ error_has b r.
Proof. exact (fun b U r HU => error_exact b U HU r). Qed.
Print Assumptions C88_error.
Theorem C88_state : forall b U r, world U -> has b U (TCon "siphash24::State" []) r <-> auto r \/ In r [t0 "Debug"; t0 "Clone"].
Proof. exact (fun b U r HU => state_exact b U HU r). Qed.
Print Assumptions C88_state.
(** No trait but the auto traits: a saved HMAC state cannot even be cloned *)
Theorem C88_hmac_midstate : forall b U t r, world U ->
  has b U (TCon "hmac::Midstate" [t]) r <-> auto r /\ has b U (TProj t "Midstate") r.
Proof. exact (fun b U t r HU => hmac_midstate_exact b U HU t r). Qed.
Print Assumptions C88_hmac_midstate.
(** The struct of nearly the same name, which no function uses *)
Theorem C88_hmac_MidState : forall b U t r, world U ->
  has b U (TCon "hmac::MidState" [t]) r <-> auto r /\ has b U (TProj t "Midstate") r.
Proof. exact (fun b U t r HU => hmac_MidState_exact b U HU t r). Qed.
Print Assumptions C88_hmac_MidState.

(** ** The digest and midstate types of every engine *)
Theorem C88_digest : forall b U t v, world U -> value b U t "Digest" v <-> exists n, digest_size U t n /\ v = bytes_ty n.
Proof. exact (fun b U t v HU => digest_iff b U HU t v). Qed.
Print Assumptions C88_digest.
Theorem C88_state_type : forall b U t v, world U -> value b U t "Midstate" v <-> midstate_type U t v.
Proof. exact (fun b U t v HU => midstate_iff b U HU t v). Qed.
Print Assumptions C88_state_type.

(** Another crate with a tag that is not [Send] (say, a struct with an [Rc]): a
    world; HMAC over its tagged engine is an engine; its hash is [Copy], and is
    not [Send], although it is 32 octets. *)
Example C88_case : world tag_world /\
  has plain_build tag_world (hmac (tagged (TUser 0))) (t0 "HashEngine") /\
  has plain_build tag_world (TCon "sha256t::Hash" [TUser 0]) (t0 "Copy") /\
  ~ has plain_build tag_world (TCon "sha256t::Hash" [TUser 0]) (t0 "Send") /\
  has plain_build tag_world (hash "sha512") (t0 "Ord") /\ ~ has plain_build tag_world (hash "sha512") (t0 "Serialize") /\
  ~ has plain_build tag_world (engine "sha256") (t0 "Debug") /\
  ~ has plain_build tag_world (TCon "hmac::Midstate" [engine "sha256"]) (t0 "Clone") /\
  value plain_build tag_world (hmac (tagged (TUser 0))) "Digest" (bytes_ty 32) /\
  List.length (all_impls g_struct_table g_impl_table) = 240%nat.
Proof. exact tag_case. Qed.
