(** The translated declarations: C82 to C84. *)
From Coq Require Import Arith Lia ZifyBool ZifyNat ZifyN.
From Coq Require Import Strings.Byte Strings.String.
From Verif Require Import Base SpecBase ModelEngine ModelTypes ModelValues ModelSip ModelMem SpecText SpecTypes SpecValues SpecMem
  GenTypes SpecGenTypes GenText DeclBase GenDecl SpecGenDecl ProofBase ProofTypes ProofValues ProofMem ProofGenTypes ProofGenText.
Open Scope list_scope.
Open Scope N_scope.

(** ** Casts *)
Lemma plain_layout T t l : plain_hash t -> allowed (gm_decl (gen_me T t)) l ->
  s_size l = octets_of t /\ s_align l = 1 /\ s_offset l 0 = 0.
Proof.
  intros Ht HL.
  assert (E : exists fs, gm_decl (gen_me T t) = mk_decl ReprTransparent (FBytes (octets_of t) :: fs) /\ 0 < octets_of t)
    by (destruct t; try contradiction; eexists; (split; [reflexivity|vm_compute; reflexivity])).
  destruct E as (fs & E & P). rewrite E in HL. cbn [allowed d_repr d_fields] in HL. unfold transparent_layout in HL.
  destruct HL as ((_ & _ & H & _) & H1 & _).
  destruct (H 0%nat _ eq_refl) as (H2 & _). destruct (H1 0%nat _ eq_refl) as (H3 & H4).
  - unfold trivial_field. cbn [field_size field_align]. lia.
  - cbn [field_size field_align] in *. split; [exact H3|]. split; [exact H4|]. lia.
Qed.
Lemma gen_accepted T t : accepted (gm_decl (gen_me T t)).
Proof. destruct t; try exact I; vm_compute; lia. Qed.

Lemma cast_here l a n : s_size l = n -> s_align l = 1 -> slayout_cast l (ref_to a n) = Ok (ref_to a n).
Proof.
  intros E1 E2. unfold slayout_cast, ref_cast. cbn [l_size l_align p_addr ref_to]. rewrite E1, E2.
  fold (ref_to a n). now rewrite N.mod_1_r, in_range_self.
Qed.
Theorem gen_cast T t l a n f : plain_hash t -> allowed (gm_decl (gen_me T t)) l -> In (n, f) (gm_casts (gen_me T t)) ->
  n = octets_of t /\ f l (ref_to a n) = Ok (ref_to a n).
Proof.
  intros Ht HL HI. destruct (plain_layout T t l Ht HL) as (E1 & E2 & E3).
  destruct t; try contradiction; cbn [gen_me gm_casts In] in HI;
    (repeat destruct HI as [HI|HI]; [..|contradiction]; injection HI as <- <-; (split; [reflexivity|]); now apply cast_here).
Qed.
(** References to the bytes *)
Lemma gen_refs T t r l p : In r (gm_refs (gen_me T t)) -> r l p = field_ref l 0 (octets_of t) p.
Proof.
  intros HI. destruct t; cbn [gen_me gm_refs In] in HI; (repeat destruct HI as [HI|HI]; [..|contradiction]; now subst r).
Qed.
Theorem gen_view T t l a r : plain_hash t -> allowed (gm_decl (gen_me T t)) l -> In r (gm_refs (gen_me T t)) ->
  r l (ref_to a (octets_of t)) = ref_to a (octets_of t).
Proof.
  intros Ht HL HI. rewrite (gen_refs T t r l _ HI). destruct (plain_layout T t l Ht HL) as (_ & _ & E).
  unfold field_ref. cbn [p_addr ref_to]. now rewrite E, N.add_0_r.
Qed.
Lemma load_ext m m' a n : (forall b, a <= b -> b < a + n -> m b = m' b) -> load_bytes m a n = load_bytes m' a n.
Proof. intros H. unfold load_bytes. apply map_ext_in. intros i Hi. apply in_seq in Hi. apply H; lia. Qed.
Theorem gen_write T t l a x m : plain_hash t -> allowed (gm_decl (gen_me T t)) l -> len x = octets_of t ->
  (exists m', written_through l (ref_to a (octets_of t)) x m m') /\
  forall m', written_through l (ref_to a (octets_of t)) x m m' ->
    load_bytes m' a (octets_of t) = x /\
    forall b k, apart b k a (octets_of t) -> load_bytes m' b k = load_bytes m b k.
Proof.
  intros Ht HL Hx. destruct (plain_layout T t l Ht HL) as (E1 & E2 & E3).
  unfold written_through. cbn [p_addr ref_to]. fold (ref_to a (octets_of t)). rewrite E1, E3, N.add_0_r. split.
  - exists (store_bytes m a x). split; [apply in_range_self|]. split; [apply load_store|].
    intros b Hb. unfold store_bytes.
    replace ((a <=? b) && (b <? a + len x)) with false by lia. reflexivity.
  - intros m' (_ & H1 & H2). rewrite Hx in H1. split; [exact H1|]. intros b k Hb. apply load_ext. intros i Hi Hi'.
    apply H2. unfold apart in Hb. lia.
Qed.
(** Every type: the bytes are inside the value *)
Lemma layout_inside T t l : allowed (gm_decl (gen_me T t)) l -> s_offset l 0 + octets_of t <= s_size l.
Proof.
  intros HL.
  assert (D : plain_hash t \/ gm_decl (gen_me T t) = mk_decl ReprRust [FBytes (octets_of t)]) by (destruct t; auto; left; exact I).
  destruct D as [D|D].
  - destruct (plain_layout T t l D HL) as (-> & _ & ->). lia.
  - rewrite D in HL. destruct HL as (_ & _ & H & _). apply (H 0%nat _ eq_refl).
Qed.
Theorem gen_inside T t l a r : allowed (gm_decl (gen_me T t)) l -> In r (gm_refs (gen_me T t)) ->
  exists b, r l (ref_to a (s_size l)) = ref_to b (octets_of t) /\ a <= b /\ b + octets_of t <= a + s_size l.
Proof.
  intros HL HI. rewrite (gen_refs T t r l _ HI). pose proof (layout_inside T t l HL).
  exists (a + s_offset l 0). split; [reflexivity|]. lia.
Qed.
(** hmac::Hash *)
Lemma hmac_casts T n k f : In (k, f) (gm_casts (gen_me T (THmac n))) -> k = n /\ forall l p, f l p = slayout_cast l p.
Proof.
  intros HI. cbn [gen_me gm_casts In] in HI. repeat destruct HI as [HI|HI]; [..|contradiction]; injection HI as <- <-; split; reflexivity.
Qed.
Theorem gen_hmac_exact T n l a k f : allowed (gm_decl (gen_me T (THmac n))) l -> In (k, f) (gm_casts (gen_me T (THmac n))) ->
  k = n /\ ((exists p, f l (ref_to a n) = Ok p) <-> (s_size l = n /\ a mod s_align l = 0)).
Proof.
  intros HL HI. destruct (hmac_casts T n k f HI) as (-> & F). split; [reflexivity|]. rewrite F.
  pose proof (layout_inside T (THmac n) l HL) as HS. cbn [octets_of] in HS.
  unfold slayout_cast, ref_cast, in_range. cbn [p_addr p_lo p_hi ref_to l_size l_align].
  replace ((a <=? a) && (a + s_size l <=? a + n)) with (s_size l =? n) by lia.
  destruct (N.eqb_spec (a mod s_align l) 0), (N.eqb_spec (s_size l) n); cbn [andb]; split; intros H; try (destruct H as (? & H)); try discriminate; try contradiction; eauto.
Qed.
Theorem gen_hmac_refuted T n : exists l, allowed (gm_decl (gen_me T (THmac n))) l /\
  forall k f a, In (k, f) (gm_casts (gen_me T (THmac n))) -> f l (ref_to a n) = Panic PUndefined.
Proof.
  exists (mk_slayout (n + 1) 1 (fun _ => 0)). split.
  - unfold gen_me, gm_decl, g_hmac_Hash_decl, allowed, d_repr, d_fields, rust_layout. cbn [s_align s_size s_offset].
    split; [exists 0; reflexivity|]. split; [apply N.mod_1_r|]. split.
    + intros [|[|k]] f [= <-]. cbn [field_size field_align]. rewrite !N.mod_1_r. lia.
    + intros j [|[|k]] f g Hjk _ Hk; [lia|discriminate..].
  - intros k f a HI. destruct (hmac_casts T n k f HI) as (_ & ->).
    unfold slayout_cast, ref_cast, in_range. cbn [p_addr p_lo p_hi ref_to l_size l_align s_size s_align].
    replace ((a mod 1 =? 0) && ((a <=? a) && (a + (n + 1) <=? a + n))) with false; [reflexivity|].
    symmetry. rewrite andb_false_iff. right. lia.
Qed.

(** ** Comparison, hash, clone, default *)
Lemma gen_traits_are T t : gr_eq (gen_tr T t) = hash_eq t /\ gr_cmp (gen_tr T t) = hash_cmp t /\
  gr_partial_cmp (gen_tr T t) = hash_partial_cmp t /\ gr_hash (gen_tr T t) = hash_hash t.
Proof. destruct t; repeat split; reflexivity. Qed.
Theorem gen_total_order T t a b c :
  (gr_eq (gen_tr T t) a b = true <-> a = b) /\
  (gr_cmp (gen_tr T t) a b = Eq <-> a = b) /\
  (gr_cmp (gen_tr T t) a b = Lt <-> lex_lt a b) /\
  (gr_cmp (gen_tr T t) a b = Gt <-> lex_lt b a) /\
  (gr_cmp (gen_tr T t) a b = Lt -> gr_cmp (gen_tr T t) b c = Lt -> gr_cmp (gen_tr T t) a c = Lt) /\
  gr_partial_cmp (gen_tr T t) a b = Some (gr_cmp (gen_tr T t) a b).
Proof. destruct (gen_traits_are T t) as (-> & -> & -> & _). exact (order_laws t a b c). Qed.
Theorem gen_hash_eq T t a b : gr_eq (gen_tr T t) a b = true <->
  forall S wu w (s : S), run_hasher wu w (gr_hash (gen_tr T t) a) s = run_hasher wu w (gr_hash (gen_tr T t) b) s.
Proof.
  destruct (gen_traits_are T t) as (-> & _ & _ & ->). split.
  - exact (hash_hash_eq t a b).
  - intros H. specialize (H _ (fun l n => l ++ [WriteUsize n]) (fun l b => l ++ [Write b]) []).
    apply (order_laws t a b a). cbn in H. congruence.
Qed.
Theorem gen_hash_inj T t t' a b r r' : gr_hash (gen_tr T t) a ++ r = gr_hash (gen_tr T t') b ++ r' -> a = b /\ r = r'.
Proof.
  destruct (gen_traits_are T t) as (_ & _ & _ & ->). destruct (gen_traits_are T t') as (_ & _ & _ & ->).
  exact (hash_hash_inj t t' a b r r').
Qed.
Theorem gen_clone T t h : gr_clone (gen_tr T t) h = h.
Proof. destruct t; reflexivity. Qed.
Theorem gen_default T t d : gr_default (gen_tr T t) = Some d -> d = repeat x00 (N.to_nat (octets_of t)).
Proof. destruct t; intros [= <-]; reflexivity. Qed.

(** ** Debug *)
Definition nondigit (b : byte) : bool := negb ((48 <=? b2n b) && (b2n b <=? 57)).
Lemma decimal_char ch d : decimal_digit ch d -> nondigit ch = false.
Proof.
  intros H. pose proof (digit_lt _ _ H) as L. apply digit_of_char in H; [|assumption]. subst ch.
  unfold nondigit. rewrite b2n_u8, N.mod_small by lia. lia.
Qed.
Lemma numeral_digits s n : numeral s n -> forallb (fun b => negb (nondigit b)) s = true.
Proof.
  intros (Hp & _). clear - Hp. induction Hp as [|ds n ch d Hp IH Hd]; [reflexivity|].
  rewrite forallb_app, IH. cbn [forallb]. now rewrite (decimal_char ch d Hd).
Qed.
Definition starts_other (s : bytes) : Prop := match s with [] => False | b :: _ => nondigit b = true end.
Lemma digits_split a : forall b r r', forallb (fun b => negb (nondigit b)) a = true -> forallb (fun b => negb (nondigit b)) b = true ->
  starts_other r -> starts_other r' -> a ++ r = b ++ r' -> a = b /\ r = r'.
Proof.
  induction a as [|x a IH]; intros [|y b] r r' Ha Hb Hr Hr' E; cbn [app] in E; cbn [forallb] in *.
  - auto.
  - subst r. cbn [starts_other] in Hr. rewrite Hr in Hb. discriminate.
  - subst r'. cbn [starts_other] in Hr'. rewrite Hr' in Ha. discriminate.
  - injection E as -> E. apply andb_prop in Ha, Hb. destruct (IH b r r') as [-> ->]; tauto.
Qed.
Lemma framed_starts ts : forall ns s r, framed ts ns s -> Forall starts_other ts -> starts_other r -> starts_other (s ++ r).
Proof.
  intros ns s r H HF Hr. destruct H as [|t ts n ns d s Hd H]; [exact Hr|].
  inversion HF as [|? ? Ht]; subst. destruct t as [|b t]; [contradiction|]. exact Ht.
Qed.
Lemma framed_inj ts : forall ns ns' s s' r, framed ts ns s -> framed ts ns' s' -> Forall starts_other (tl ts) -> starts_other r ->
  s ++ r = s' ++ r -> ns = ns'.
Proof.
  induction ts as [|t ts IH]; intros ns ns' s s' r H H' HF Hr E.
  - inversion H; inversion H'; reflexivity.
  - inversion H as [|? ? n ms d u Hd Hu]; subst. inversion H' as [|? ? n' ms' d' u' Hd' Hu']; subst. cbn [tl] in HF.
    rewrite <- !app_assoc in E. apply app_inv_head in E.
    apply digits_split in E; try (eapply numeral_digits; eassumption); try (eapply framed_starts; eassumption).
    destruct E as [-> E]. f_equal.
    + destruct Hd as [Hd _], Hd' as [Hd' _]. eauto using positional_fun.
    + apply (IH ms ms' u u' r); try assumption. destruct ts; [constructor|]. inversion HF; assumption.
Qed.

Lemma framed_one t n : framed [t] [n] (t ++ fmt_usize n).
Proof. rewrite <- (app_nil_r (fmt_usize n)). constructor; [apply fmt_usize_ok|constructor]. Qed.
Theorem engine_text e : exists s, framed engine_frame (engine_fields e) s /\
  debug_text (g_siphash24_Engine_debug e) = s ++ list_byte_of_string " }".
Proof.
  unfold engine_frame, engine_fields. cbn [map].
  eexists. split.
  - repeat (eapply framed_cons; [apply fmt_usize_ok|]). constructor.
  - unfold g_siphash24_Engine_debug, g_siphash24_State_debug. cbn [debug_text joined].
    cbn -[fmt_usize]. repeat (rewrite <- ?app_assoc; cbn -[fmt_usize]). reflexivity.
Qed.
Lemma fields_inj e e' : engine_fields e = engine_fields e' -> e = e'.
Proof.
  destruct e as [k0 k1 l [a b c d] t n], e' as [k0' k1' l' [a' b' c' d'] t' n']. unfold engine_fields.
  cbn [sip_k0 sip_k1 sip_length sip_st sip_tail sip_ntail v0 v1 v2 v3]. intros [= -> -> -> -> -> -> -> -> ->]. reflexivity.
Qed.
Theorem engine_text_inj e e' : debug_text (g_siphash24_Engine_debug e) = debug_text (g_siphash24_Engine_debug e') -> e = e'.
Proof.
  destruct (engine_text e) as (s & H & ->). destruct (engine_text e') as (s' & H' & ->). intros E.
  apply fields_inj. apply (framed_inj engine_frame _ _ s s' _ H H') in E; [exact E| |reflexivity].
  repeat constructor.
Qed.
(** [{:#?}] *)
Lemma padded_digits d : forall t, forallb (fun b => negb (nondigit b)) d = true -> padded false (d ++ t) = d ++ padded false t.
Proof.
  induction d as [|b d IH]; intros t H; [reflexivity|]. cbn [forallb] in H. apply andb_prop in H as [Hb Hd].
  cbn [app padded]. destruct (Byte.eqb b newline) eqn:E; [|now rewrite IH].
  apply Byte.byte_dec_bl in E. subst b. discriminate.
Qed.
Lemma padded_num n t : padded false (fmt_usize n ++ t) = fmt_usize n ++ padded false t.
Proof. apply padded_digits. apply (numeral_digits _ n), fmt_usize_ok. Qed.
Definition indent : bytes := list_byte_of_string "    ".
Definition line (s : string) : bytes := indent ++ list_byte_of_string s.
Definition pretty_frame : list bytes :=
  let nl := [x2c; newline] in
  [list_byte_of_string "Engine {" ++ [newline] ++ line "k0: "; nl ++ line "k1: "; nl ++ line "length: ";
   nl ++ line "state: State {" ++ [newline] ++ indent ++ line "v0: ";
   nl ++ indent ++ line "v2: "; nl ++ indent ++ line "v1: "; nl ++ indent ++ line "v3: ";
   nl ++ line "}" ++ nl ++ line "tail: "; nl ++ line "ntail: "].
Lemma engine_pretty e : exists s, framed pretty_frame (engine_fields e) s /\
  debug_pretty (g_siphash24_Engine_debug e) = s ++ [x2c; newline; x7d].
Proof.
  unfold pretty_frame, engine_fields. cbv zeta.
  eexists. split.
  - repeat (eapply framed_cons; [apply fmt_usize_ok|]). constructor.
  - unfold g_siphash24_Engine_debug, g_siphash24_State_debug, line, indent, newline.
    cbn -[fmt_usize].
    repeat (rewrite <- ?app_assoc; rewrite ?padded_num; cbn -[fmt_usize]). reflexivity.
Qed.
Theorem engine_pretty_inj e e' : debug_pretty (g_siphash24_Engine_debug e) = debug_pretty (g_siphash24_Engine_debug e') -> e = e'.
Proof.
  destruct (engine_pretty e) as (s & H & ->). destruct (engine_pretty e') as (s' & H' & ->). intros E.
  apply fields_inj. apply (framed_inj pretty_frame _ _ s s' _ H H') in E; [exact E| |reflexivity].
  repeat constructor.
Qed.
Theorem error_debug x : exists s s', numeral s (expected_length x) /\ numeral s' (invalid_length x) /\
  debug_text (g_lib_FromSliceError_debug x) =
    list_byte_of_string "FromSliceError { expected: " ++ s ++ list_byte_of_string ", got: " ++ s' ++ list_byte_of_string " }".
Proof.
  exists (fmt_usize (expected x)), (fmt_usize (got x)). split; [apply fmt_usize_ok|]. split; [apply fmt_usize_ok|].
  unfold g_lib_FromSliceError_debug. cbn -[fmt_usize]. repeat (rewrite <- ?app_assoc; cbn -[fmt_usize]). reflexivity.
Qed.

(** ** Which structs have which traits *)
Lemma string_bytes s s' : list_byte_of_string s = list_byte_of_string s' -> s = s'.
Proof. intros E. rewrite <- (string_of_list_byte_of_string s), E. apply string_of_list_byte_of_string. Qed.
Theorem only_values_copy m s : has_trait DCopy m s -> s = "Hash"%string \/ s = "Midstate"%string.
Proof.
  intros (ts & HI & HD). unfold g_structs in HI. cbn [In] in HI.
  repeat destruct HI as [HI|HI]; try contradiction; apply pair_equal_spec in HI as [HI E3]; apply pair_equal_spec in HI as [E1 E2]; subst ts;
    (first [left; apply string_bytes; symmetry; exact E2 | right; apply string_bytes; symmetry; exact E2
           | exfalso; cbn [In] in HD; repeat destruct HD as [HD|HD]; try discriminate; contradiction]).
Qed.
Theorem debug_engines m : has_trait DDebug m "Engine" <-> m = "siphash24"%string.
Proof.
  split.
  - intros (ts & HI & HD). unfold g_structs in HI. cbn [In] in HI.
    repeat destruct HI as [HI|HI]; try contradiction; apply pair_equal_spec in HI as [HI E3]; apply pair_equal_spec in HI as [E1 E2]; subst ts;
      (first [discriminate E2 | apply string_bytes; symmetry; exact E1
             | exfalso; cbn [In] in HD; repeat destruct HD as [HD|HD]; try discriminate; contradiction]).
  - intros ->. eexists. split; [unfold g_structs; cbn [In]; do 15 right; left; reflexivity|]. cbn [In]. auto.
Qed.
