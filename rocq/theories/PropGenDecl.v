(** The declarations in the source text, their reference casts and what
    [derive] makes of them: C82 to C84. *)
From Coq Require Import Strings.Byte Strings.String.
From Verif Require Import Base ModelEngine ModelTypes ModelValues ModelSip ModelMem SpecText SpecTypes SpecValues SpecMem
  SpecGenTypes DeclBase GenDecl SpecGenDecl ProofGenDecl.
Open Scope list_scope.

(** C82: under every layout allowed for the struct as declared *)
Theorem C82_accepted : forall T t, accepted (gm_decl (gen_me T t)).
Proof. exact gen_accepted. Qed.
Print Assumptions C82_accepted.
Theorem C82_cast : forall T t l a n f, plain_hash t -> allowed (gm_decl (gen_me T t)) l -> In (n, f) (gm_casts (gen_me T t)) ->
  n = octets_of t /\ f l (ref_to a n) = Ok (ref_to a n).
Proof. exact gen_cast. Qed.
Print Assumptions C82_cast.
Theorem C82_view : forall T t l a r, plain_hash t -> allowed (gm_decl (gen_me T t)) l -> In r (gm_refs (gen_me T t)) ->
  r l (ref_to a (octets_of t)) = ref_to a (octets_of t).
Proof. exact gen_view. Qed.
Print Assumptions C82_view.
Theorem C82_write : forall T t l a x m, plain_hash t -> allowed (gm_decl (gen_me T t)) l -> len x = octets_of t ->
  (exists m', written_through l (ref_to a (octets_of t)) x m m') /\
  forall m', written_through l (ref_to a (octets_of t)) x m m' ->
    load_bytes m' a (octets_of t) = x /\
    forall b k, apart b k a (octets_of t) -> load_bytes m' b k = load_bytes m b k.
Proof. exact gen_write. Qed.
Print Assumptions C82_write.
(** Every type, hmac::Hash and Midstate included *)
Theorem C82_inside : forall T t l a r, allowed (gm_decl (gen_me T t)) l -> In r (gm_refs (gen_me T t)) ->
  exists b, r l (ref_to a (s_size l)) = ref_to b (octets_of t) /\ a <= b /\ b + octets_of t <= a + s_size l.
Proof. exact gen_inside. Qed.
Print Assumptions C82_inside.
Theorem C82_hmac_exact : forall T n l a k f, allowed (gm_decl (gen_me T (THmac n))) l -> In (k, f) (gm_casts (gen_me T (THmac n))) ->
  k = n /\ ((exists p, f l (ref_to a n) = Ok p) <-> (s_size l = n /\ a mod s_align l = 0)).
Proof. exact gen_hmac_exact. Qed.
Print Assumptions C82_hmac_exact.
Theorem C82_hmac_refuted : forall T n, exists l, allowed (gm_decl (gen_me T (THmac n))) l /\
  forall k f a, In (k, f) (gm_casts (gen_me T (THmac n))) -> f l (ref_to a n) = Panic PUndefined.
Proof. exact gen_hmac_refuted. Qed.
Print Assumptions C82_hmac_refuted.
Example C82_case : forall T, let g := gen_me T TSha256t in
  plain_hash TSha256t /\ d_fields (gm_decl g) = [FBytes 32; FPhantom] /\ allowed (gm_decl g) (array_slayout 32) /\
  List.length (gm_casts g) = 2%nat /\ List.length (gm_casts (gen_me T (THmac 7))) = 2%nat /\
  map (fun c => snd c (array_slayout 32) (ref_to 100 32)) (gm_casts g) = [Ok (ref_to 100 32); Ok (ref_to 100 32)] /\
  map (fun c => snd c (array_slayout 32) (ref_to 100 31)) (gm_casts g) = [Panic PUndefined; Panic PUndefined].
Proof.
  intros T. cbv zeta. split; [exact I|]. split; [reflexivity|]. split; [|repeat split; reflexivity].
  unfold allowed. cbn [gen_me gm_decl g_sha256t_Hash_decl d_repr d_fields]. unfold transparent_layout, rust_layout, array_slayout.
  cbn [s_align s_size s_offset]. split; [|split].
  - split; [exists 0; reflexivity|]. split; [reflexivity|]. split.
    + intros [|[|[|k]]] f E; cbn in E; try discriminate; injection E as <-; repeat split; try reflexivity; vm_compute; discriminate.
    + intros [|[|[|j]]] [|[|[|k]]] f g L E F; cbn in E, F; try discriminate; try (exfalso; inversion L; fail);
        injection E as <-; injection F as <-; try (right; vm_compute; discriminate); exfalso; inversion L; inversion H0.
  - intros [|[|[|k]]] f E F; cbn in E; try discriminate; injection E as <-; [split; reflexivity|discriminate].
  - discriminate.
Qed.

(** C83 *)
Theorem C83_order : forall T t a b c,
  (gr_eq (gen_tr T t) a b = true <-> a = b) /\
  (gr_cmp (gen_tr T t) a b = Eq <-> a = b) /\
  (gr_cmp (gen_tr T t) a b = Lt <-> lex_lt a b) /\
  (gr_cmp (gen_tr T t) a b = Gt <-> lex_lt b a) /\
  (gr_cmp (gen_tr T t) a b = Lt -> gr_cmp (gen_tr T t) b c = Lt -> gr_cmp (gen_tr T t) a c = Lt) /\
  gr_partial_cmp (gen_tr T t) a b = Some (gr_cmp (gen_tr T t) a b).
Proof. exact gen_total_order. Qed.
Print Assumptions C83_order.
Theorem C83_hash : forall T t a b, gr_eq (gen_tr T t) a b = true <->
  forall S wu w (s : S), run_hasher wu w (gr_hash (gen_tr T t) a) s = run_hasher wu w (gr_hash (gen_tr T t) b) s.
Proof. exact gen_hash_eq. Qed.
Print Assumptions C83_hash.
Theorem C83_prefix_free : forall T t t' a b r r',
  gr_hash (gen_tr T t) a ++ r = gr_hash (gen_tr T t') b ++ r' -> a = b /\ r = r'.
Proof. exact gen_hash_inj. Qed.
Print Assumptions C83_prefix_free.
Theorem C83_clone : forall T t h, gr_clone (gen_tr T t) h = h.
Proof. exact gen_clone. Qed.
Print Assumptions C83_clone.
Theorem C83_default : forall T t d, gr_default (gen_tr T t) = Some d -> d = repeat x00 (N.to_nat (octets_of t)).
Proof. exact gen_default. Qed.
Print Assumptions C83_default.
(** Hashes are Copy, engines are not. *)
Theorem C83_copy : forall m s, has_trait DCopy m s -> s = "Hash"%string \/ s = "Midstate"%string.
Proof. exact only_values_copy. Qed.
Print Assumptions C83_copy.
Example C83_case : forall T, gr_eq (gen_tr T (THmac 2)) [x01; xff] [x01; xff] = true /\
  gr_cmp (gen_tr T (THmac 2)) [x01; xff] [x02; x00] = Lt /\ lex_lt [x01; xff] [x02; x00] /\
  gr_hash (gen_tr T (THmac 2)) [x01; xff] = [WriteUsize 2; Write [x01; xff]] /\
  gr_default (gen_tr T TMidstate) = Some (repeat x00 32) /\ has_trait DCopy "hmac" "Hash".
Proof.
  intros T. do 2 (split; [reflexivity|]). split; [left; exists [], x01, x02, [xff], [x00]; repeat split; reflexivity|].
  do 2 (split; [reflexivity|]). eexists. split; [unfold g_structs; cbn [In]; do 16 right; left; reflexivity|left; reflexivity].
Qed.

(** C84: [{:?}] of a SipHash engine is the fields in decimal, the key first; the
    text (and that of [{:#?}]) determines them. *)
Theorem C84_text : forall e, exists s, framed engine_frame (engine_fields e) s /\
  debug_text (g_siphash24_Engine_debug e) = s ++ list_byte_of_string " }".
Proof. exact engine_text. Qed.
Print Assumptions C84_text.
Theorem C84_hidden_key_refuted : forall e e', debug_text (g_siphash24_Engine_debug e) = debug_text (g_siphash24_Engine_debug e') -> e = e'.
Proof. exact engine_text_inj. Qed.
Print Assumptions C84_hidden_key_refuted.
Theorem C84_pretty_refuted : forall e e', debug_pretty (g_siphash24_Engine_debug e) = debug_pretty (g_siphash24_Engine_debug e') -> e = e'.
Proof. exact engine_pretty_inj. Qed.
Print Assumptions C84_pretty_refuted.
(** No other engine has Debug. *)
Theorem C84_others : forall m, has_trait DDebug m "Engine" <-> m = "siphash24"%string.
Proof. exact debug_engines. Qed.
Print Assumptions C84_others.
Theorem C84_error : forall x, exists s s', numeral s (expected_length x) /\ numeral s' (invalid_length x) /\
  debug_text (g_lib_FromSliceError_debug x) =
    list_byte_of_string "FromSliceError { expected: " ++ s ++ list_byte_of_string ", got: " ++ s' ++ list_byte_of_string " }".
Proof. exact error_debug. Qed.
Print Assumptions C84_error.
Example C84_case : debug_text (g_siphash24_Engine_debug (mk_sip_engine 12 7 0 (mk_sip 1 2 3 4) 0 0)) =
    list_byte_of_string "Engine { k0: 12, k1: 7, length: 0, state: State { v0: 1, v2: 3, v1: 2, v3: 4 }, tail: 0, ntail: 0 }" /\
  debug_pretty (g_siphash24_State_debug (mk_sip 1 2 3 4)) =
    list_byte_of_string "State {
    v0: 1,
    v2: 3,
    v1: 2,
    v3: 4,
}".
Proof. split; vm_compute; reflexivity. Qed.
