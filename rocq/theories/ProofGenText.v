(** The translated formatting, serde and JSON-schema code: C78 to C81. *)
From Coq Require Import Arith Lia.
From Coq Require Import Strings.Byte Strings.String.
From Verif Require Import Base SpecBase ModelEngine ModelTypes ModelFmt ModelValues SpecText SpecTypes SpecFmt SpecValues
  GenTypes SpecGenTypes TextBase GenText SpecGenText ProofBase ProofTypes ProofFmt ProofUtf8 ProofValues ProofGenTypes.
Open Scope list_scope.
Open Scope N_scope.

(** ** Text *)
Lemma fmt_exact_ok f n h cs : len h = n -> fmt_exact f n h cs = Ok (fmt_hex_exact f cs h).
Proof. intros <-. unfold fmt_exact. now rewrite N.eqb_refl. Qed.
Lemma gen_fmt T t f h : exact_width t -> len h = octets_of t ->
  gx_lower (gen_tx T t) h f = Ok (lower_hex_fmt f h) /\ gx_upper (gen_tx T t) h f = Ok (upper_hex_fmt f h) /\
  gx_display (gen_tx T t) h f = Ok (display_fmt f h) /\ gx_debug (gen_tx T t) h f = Ok (debug_fmt f h).
Proof.
  intros He Hl.
  destruct t; try contradiction; cbn [octets_of] in Hl; cbn [gen_tx gx_lower gx_upper gx_display gx_debug];
    (split; [|split; [|split]]); exact (fmt_exact_ok _ _ h _ Hl).
Qed.
Theorem gen_formatted T t f x h : exact_width t -> f_fill f = utf8_char x -> len h = octets_of t ->
  exists lo up di de,
    gx_lower (gen_tx T t) h f = Ok lo /\ formatted digits (f_plus f) (f_alternate f) (f_zero f) (f_want f) x (f_side f) h lo /\
    gx_upper (gen_tx T t) h f = Ok up /\ formatted DIGITS (f_plus f) (f_alternate f) (f_zero f) (f_want f) x (f_side f) h up /\
    gx_display (gen_tx T t) h f = Ok di /\ formatted digits (f_plus f) (f_alternate f) (f_zero f) (f_want f) x (f_side f) h di /\
    gx_debug (gen_tx T t) h f = Ok de /\ de = [x30; x78] ++ hex_text digits h.
Proof.
  intros He Hf Hl. destruct (gen_fmt T t f h He Hl) as (E1 & E2 & E3 & E4).
  destruct (fmt_impls f x h Hf) as (F1 & F2 & F3 & _).
  do 4 eexists. split; [exact E1|]. split; [exact F1|]. split; [exact E2|]. split; [exact F2|]. split; [exact E3|]. split; [exact F3|].
  split; [exact E4|]. rewrite debug_any. apply text_forms.
Qed.
(** Every type, hmac::Hash included, with no option but [#] *)
Theorem gen_plain T t al h : len h = octets_of t ->
  gx_lower (gen_tx T t) h (plain al) = Ok ((if al then [x30; x78] else []) ++ hex_text digits h) /\
  gx_upper (gen_tx T t) h (plain al) = Ok ((if al then [x30; x78] else []) ++ hex_text DIGITS h) /\
  gx_display (gen_tx T t) h (plain al) = Ok ((if al then [x30; x78] else []) ++ hex_text digits h) /\
  forall f, gx_debug (gen_tx T t) h f = Ok ([x30; x78] ++ hex_text digits h).
Proof.
  intros Hl.
  assert (D : forall cs, fmt_hex al cs h = (if al then [x30; x78] else []) ++ hex_text (case_digits cs) h)
    by (intros cs; unfold fmt_hex; now rewrite put_bytes_hex_text).
  assert (E : forall cs, fmt_hex true cs h = [x30; x78] ++ hex_text (case_digits cs) h)
    by (intros cs; unfold fmt_hex; now rewrite put_bytes_hex_text).
  destruct t; try
   (match goal with |- context [gen_tx T ?t] =>
      destruct (gen_fmt T t (plain al) h I Hl) as (E1 & E2 & E3 & _);
      rewrite E1, E2, E3; destruct (fmt_plain_impls al h) as (P1 & P2 & P3 & _); rewrite P1, P2, P3;
      split; [exact (f_equal _ (D Lower))|]; split; [exact (f_equal _ (D Upper))|]; split; [exact (f_equal _ (D Lower))|];
      intros f; destruct (gen_fmt T t f h I Hl) as (_ & _ & _ & E4); rewrite E4, debug_any; exact (f_equal _ (E Lower))
    end).
  split; [exact (f_equal _ (D Lower))|]. split; [exact (f_equal _ (D Upper))|]. split; [exact (f_equal _ (D Lower))|].
  intros f. exact (f_equal _ (E Lower)).
Qed.
Theorem gen_parse T t h : len h = octets_of t -> exists s u,
  gx_display (gen_tx T t) h (plain false) = Ok s /\ gt_from_str (gen_ty T t) s = ROk h /\
  gx_upper (gen_tx T t) h (plain false) = Ok u /\ gt_from_str (gen_ty T t) u = ROk h.
Proof.
  intros Hl. destruct (gen_plain T t false h Hl) as (_ & E2 & E3 & _).
  do 2 eexists. split; [exact E3|]. rewrite octets_ty in Hl. destruct (from_str_display t h Hl) as (P1 & _ & P3).
  destruct (text_forms h) as (F1 & _ & F3 & _). rewrite !gen_from_str_is. cbn [app]. rewrite <- F1.
  split; [exact P1|]. split; [exact E2|]. cbn [app]. rewrite <- F3. exact P3.
Qed.
Theorem gen_error_text e f : exists s s' out, numeral s (g_lib_FromSliceError_invalid_length e) /\
  numeral s' (g_lib_FromSliceError_expected_length e) /\ g_lib_FromSliceError_Display_fmt e f = Ok out /\
  out = list_byte_of_string "invalid slice length " ++ s ++ list_byte_of_string " (expected " ++ s' ++ list_byte_of_string ")".
Proof.
  destruct (fse_display_ok e) as (s & s' & H1 & H2 & H3). exists s, s'. eexists. split; [exact H1|]. split; [exact H2|].
  split; [reflexivity|]. rewrite <- H3. reflexivity.
Qed.

(** ** Serde *)
Lemma gen_serialize T c t h hr : len h = octets_of t -> gx_serialize (gen_tx T t) c h hr = serialize c hr h.
Proof.
  intros Hl. destruct hr.
  - destruct (gen_plain T t false h Hl) as (_ & _ & E & _).
    transitivity (collect_str (gx_display (gen_tx T t) h (plain false))); [destruct t; reflexivity|].
    rewrite E. cbn [app]. destruct (text_forms h) as (F1 & _). rewrite <- F1. reflexivity.
  - destruct t; reflexivity.
Qed.
Lemma hex_answer_of t s : hex_answer (octets_of t) s
  (match from_str t s with ROk h => ROk h | RErr e => RErr (ECustom e) end).
Proof.
  rewrite octets_ty. destruct (from_str t s) eqn:E.
  - left. eexists. apply from_str_ok in E as [H1 H2]. eauto.
  - right. eexists. split; [|reflexivity]. exact (from_str_error t s _ E).
Qed.
Theorem gen_deserialize T c t d : exists r, gx_deserialize (gen_tx T t) c d = Ok r /\
  answers (octets_of t) (d_human d) (d_hand d (asked (d_human d))) r.
Proof.
  pose (dict := mk_serde_hash (octets_of t) (gt_from_slice (gen_ty T t)) (fun s => Ok (gt_from_str (gen_ty T t) s))
                 (gx_display (gen_tx T t)) (fun h i => hash_index c h i)).
  assert (E : gx_deserialize (gen_tx T t) c d = g_serde_macros_SerdeHash_deserialize dict d) by (destruct t; reflexivity).
  rewrite E. clear E. unfold g_serde_macros_SerdeHash_deserialize, asked, ask.
  assert (S : forall s, g_serde_macros_HexVisitor_visit_str dict s = Ok (match from_str t s with ROk h => ROk h | RErr e => RErr (ECustom e) end)).
  { intros s. unfold g_serde_macros_HexVisitor_visit_str, map_err, dict. cbn [sh_from_str bind]. now rewrite gen_from_str_is. }
  destruct (d_human d).
  - generalize (d_hand d AskStr). intros v. destruct v as [s|b|s|]; cbn [visit g_serde_macros_HexVisitor vi_str vi_bytes answers].
    + eexists. split; [exact (S s)|apply hex_answer_of].
    + unfold g_serde_macros_HexVisitor_visit_bytes, str_from_utf8, is_utf8. destruct (from_utf8 b) eqn:U.
      * eexists. split; [exact (S b)|]. left. split; [now apply from_utf8_exact|apply hex_answer_of].
      * eexists. split; [reflexivity|]. right. split; [|reflexivity]. rewrite <- from_utf8_exact, U. discriminate.
    + eexists. split; [exact (S s)|apply hex_answer_of].
    + eexists. split; reflexivity.
  - generalize (d_hand d AskBytes). intros v. destruct v as [s|b|s|]; cbn [visit g_serde_macros_BytesVisitor vi_str vi_bytes answers];
      try (eexists; split; reflexivity).
    unfold g_serde_macros_BytesVisitor_visit_bytes, map_err, dict. cbn [sh_from_slice_delegated].
    destruct (gen_from_slice T t b) as [[H1 H2]|(H1 & e & H2 & _)]; rewrite H2; cbn [bind]; eexists; (split; [reflexivity|]); [left|right]; now split.
Qed.
Lemma first_bad p ch q p' ch' q' : p ++ ch :: q = p' ++ ch' :: q' -> Forall hex_digit p -> Forall hex_digit p' ->
  ~ hex_digit ch -> ~ hex_digit ch' -> ch = ch'.
Proof.
  revert p'. induction p as [|a p IH]; intros [|a' p'] E F F' N1 N2; cbn in E; injection E as -> E.
  - reflexivity.
  - inversion F'; subst. contradiction.
  - inversion F; subst. contradiction.
  - inversion F; inversion F'; subst. eapply IH; eassumption.
Qed.
Lemma hex_fault_fun n s e e' : hex_fault n s e -> hex_fault n s e' -> e = e'.
Proof.
  assert (P : forall k, (2 * k) mod 2 = 0) by (intros k; rewrite N.mul_comm; apply N.mod_mul; discriminate).
  intros [[A ->]|[(A & B & ->)|(A & p & ch & q & E & F & G & ->)]] [[A' ->]|[(A' & B' & ->)|(A' & p' & ch' & q' & E' & F' & G' & ->)]];
    try reflexivity; try contradiction; try (rewrite A' in A; rewrite P in A; contradiction); try (rewrite A in A'; rewrite P in A'; contradiction).
  f_equal. rewrite E in E'. eapply first_bad; eassumption.
Qed.
Lemma hex_fault_denotes n s e h : hex_fault n s e -> len s = 2 * n -> denotes s h -> False.
Proof.
  intros [[A ->]|[(A & B & ->)|(A & p & ch & q & E & F & G & ->)]] L D.
  - rewrite L, N.mul_comm, N.mod_mul in A by discriminate. contradiction.
  - contradiction.
  - apply denotes_digits in D. rewrite E in D. apply Forall_app in D as [_ D]. inversion D. contradiction.
Qed.
Lemma hex_answer_fun n s r r' : hex_answer n s r -> hex_answer n s r' -> r = r'.
Proof.
  intros [(h & A & B & ->)|(e & A & ->)] [(h' & A' & B' & ->)|(e' & A' & ->)].
  - f_equal. eapply denotes_fun; eassumption.
  - exfalso. eapply hex_fault_denotes; eassumption.
  - exfalso. eapply hex_fault_denotes; eassumption.
  - do 2 f_equal. eapply hex_fault_fun; eassumption.
Qed.
Theorem answers_fun n hr v r r' : answers n hr v r -> answers n hr v r' -> r = r'.
Proof.
  destruct hr, v as [s|b|s|]; cbn [answers].
  - apply hex_answer_fun.
  - intros [[A B]|[A ->]] [[A' B']|[A' ->]]; try contradiction; [eapply hex_answer_fun; eassumption|reflexivity].
  - apply hex_answer_fun.
  - now intros -> ->.
  - now intros -> ->.
  - intros [[A ->]|[A ->]] [[A' ->]|[A' ->]]; try contradiction; reflexivity.
  - now intros -> ->.
  - now intros -> ->.
Qed.
Theorem gen_serde_roundtrip T c t hr h : len h = octets_of t ->
  exists o, gx_serialize (gen_tx T t) c h hr = Ok o /\
    o = (if hr then CollectStr (hex_text digits h) else SerializeBytes h) /\
    forall c' d, d_human d = hr -> d_hand d (asked hr) = handed o -> gx_deserialize (gen_tx T t) c' d = Ok (ROk h).
Proof.
  intros Hl. rewrite (gen_serialize T c t h hr Hl).
  exists (if hr then CollectStr (hex_text digits h) else SerializeBytes h).
  split. { destruct hr; [|reflexivity]. cbn [serialize]. destruct (text_forms h) as (F1 & _). unfold serialize. now rewrite F1. }
  split; [reflexivity|]. intros c' d Hd Hv.
  destruct (gen_deserialize T c' t d) as (r & E & A). rewrite E. f_equal.
  eapply answers_fun; [exact A|]. rewrite Hd, Hv. destruct hr; cbn [handed answers].
  - left. exists h. split; [|split; [exact (hex_text_denotes Lower h)|reflexivity]].
    unfold len. rewrite hex_text_length. unfold len in Hl. lia.
  - left. now split.
Qed.
Theorem gen_serde_n T c t : gx_n (gen_tx T t) c = octets_of t.
Proof. destruct t; reflexivity. Qed.

(** ** JSON schema *)
Definition hex_pattern : bytes := list_byte_of_string "[0-9a-fA-F]+".
Lemma gen_schema_is T t sc c : gx_schema (gen_tx T t) = Some sc -> octets_of t < 2 ^ 31 ->
  sc c = Ok (mk_schema (Some (mk_validation (Some (2 * octets_of t)) (Some (2 * octets_of t)) (Some hex_pattern)))).
Proof.
  assert (S : forall x y : config -> res schema, Some x = Some y -> y = x) by (intros x y H; congruence).
  destruct t; cbn [gen_tx gx_schema octets_of]; intros H L; try discriminate; apply S in H; subst sc; try reflexivity.
  unfold g_hmac_Hash_json_schema, checked_mul. rewrite (N.mod_small n) by (pose proof (N.pow_lt_mono_r 2 31 32 ltac:(lia) ltac:(lia)); lia).
  replace (n * 2 <? 2 ^ 32) with true by (symmetry; apply N.ltb_lt; change (2 ^ 32) with (2 ^ 31 * 2); nia).
  cbn [bind]. rewrite (N.mul_comm n 2). reflexivity.
Qed.
Lemma hex_code_range ch : hex_code ch <-> (48 <= ch <= 57 \/ 97 <= ch <= 102 \/ 65 <= ch <= 70).
Proof.
  split.
  - intros (d & [v H] & <-). revert H. unfold digit_is.
    assert (B : forall l k, nth_error l k = Some d -> In d l) by (intros l k; apply nth_error_In).
    intros [H|H]; apply B in H; vm_compute in H; repeat (destruct H as [H|H]; [subst d; cbn [Byte.to_N]; lia|]); contradiction.
  - intros H.
    assert (K : forall l, Forall hex_digit l -> forall x, In x (map Byte.to_N l) -> hex_code x).
    { intros l F x I. apply in_map_iff in I as (d & <- & I). exists d. split; [|reflexivity]. rewrite Forall_forall in F. now apply F. }
    assert (D : Forall hex_digit (digits ++ DIGITS)).
    { apply Forall_forall. intros d I. apply in_app_or in I as [I|I]; apply In_nth_error in I as [k I]; exists (N.of_nat k);
        [left|right]; now rewrite Nat2N.id. }
    apply (K _ D).
    vm_compute. lia.
Qed.
Lemma hex_pattern_found s : found hex_pattern s <-> exists ch, In ch s /\ hex_code ch.
Proof.
  assert (P : pattern_class hex_pattern = Some [(48, 57); (97, 102); (65, 70)]) by reflexivity.
  unfold found. split.
  - intros (l & ch & lo & hi & E & I & J & L & H). rewrite P in E.
    assert (l = [(48, 57); (97, 102); (65, 70)]) as -> by congruence.
    exists ch. split; [exact I|]. apply hex_code_range.
    destruct J as [J|[J|[J|[]]]]; injection J as <- <-; lia.
  - intros (ch & I & H). apply hex_code_range in H.
    destruct H as [H|[H|H]]; [exists [(48, 57); (97, 102); (65, 70)], ch, 48, 57|exists [(48, 57); (97, 102); (65, 70)], ch, 97, 102|
      exists [(48, 57); (97, 102); (65, 70)], ch, 65, 70]; (split; [exact P|]; split; [exact I|]; split; [cbn; tauto|lia]).
Qed.
Theorem gen_schema T t sc c : gx_schema (gen_tx T t) = Some sc -> octets_of t < 2 ^ 31 -> exists s, sc c = Ok s /\
  forall x, admits s x <-> (len x = 2 * octets_of t /\ exists ch, In ch x /\ hex_code ch).
Proof.
  intros H L. eexists. split; [exact (gen_schema_is T t sc c H L)|]. intros x. unfold admits. cbn [sc_string]. split.
  - intros A. destruct (A _ eq_refl) as (A1 & A2 & A3). cbn [va_max va_min va_pattern] in *.
    specialize (A1 _ eq_refl). specialize (A2 _ eq_refl). specialize (A3 _ eq_refl). rewrite hex_pattern_found in A3. split; [lia|exact A3].
  - assert (S : forall (A : Type) (a b : A), Some a = Some b -> b = a) by (intros; congruence).
    intros [E F] v V. apply S in V. subst v. cbn [va_max va_min va_pattern].
    split; [intros n V; apply S in V; lia|]. split; [intros n V; apply S in V; lia|].
    intros p V. apply S in V. subst p. now apply hex_pattern_found.
Qed.
Lemma text_codes ds h : len (codes (hex_text ds h)) = 2 * len h.
Proof. unfold len, codes. rewrite map_length, hex_text_length. lia. Qed.
(** The texts that [serialize] writes are admitted. *)
Theorem gen_schema_own T t sc c h : gx_schema (gen_tx T t) = Some sc -> octets_of t < 2 ^ 31 -> 0 < octets_of t -> len h = octets_of t ->
  exists s text, sc c = Ok s /\ gx_serialize (gen_tx T t) c h true = Ok (CollectStr (utf8 text)) /\ admits s text.
Proof.
  intros Hs L H0 Hl. destruct (gen_schema T t sc c Hs L) as (s & E & A). exists s, (codes (hex_text digits h)). split; [exact E|].
  destruct (gen_serde_roundtrip T c t true h Hl) as (o & E1 & E2 & _). rewrite E1, E2.
  rewrite (utf8_codes (hex_text digits h)) by exact (hex_text_ascii Lower h). split; [reflexivity|].
  apply A. rewrite text_codes, Hl. split; [reflexivity|].
  assert (D : Forall hex_digit (hex_text digits h)) by exact (denotes_digits _ _ (hex_text_denotes Lower h)).
  destruct (hex_text digits h) as [|d r] eqn:X.
  - pose proof (hex_text_length digits h) as Y. rewrite X in Y. cbn in Y. unfold len in Hl. lia.
  - exists (Byte.to_N d). split; [now left|]. exists d. inversion D. now split.
Qed.
(** Not every text that is admitted can be read. *)
Theorem gen_schema_converse T t sc c : gx_schema (gen_tx T t) = Some sc -> octets_of t < 2 ^ 31 -> 0 < octets_of t ->
  exists s text, sc c = Ok s /\ Forall scalar text /\ admits s text /\
    forall c' d h, d_human d = true -> d_hand d AskStr = VisitStr (utf8 text) -> gx_deserialize (gen_tx T t) c' d <> Ok (ROk h).
Proof.
  intros Hs L H0. destruct (gen_schema T t sc c Hs L) as (s & E & A).
  set (k := N.to_nat (2 * octets_of t - 1)). exists s, (repeat 122 k ++ [97]).
  assert (Hk : (0 < k)%nat) by (unfold k; lia).
  split; [exact E|]. split; [|split].
  - apply Forall_app. split; [|repeat constructor]. apply Forall_forall. intros x Hx. apply repeat_spec in Hx. subst x. now left.
  - apply A. split.
    + unfold len. rewrite app_length, repeat_length. cbn [List.length]. unfold k. lia.
    + exists 97. split; [apply in_or_app; right; now left|]. apply hex_code_range. lia.
  - intros c' d h Hd Hv X. destruct (gen_deserialize T c' t d) as (r & E' & A'). rewrite E' in X. assert (r = ROk h) as -> by congruence.
    rewrite Hd in A'. cbn [asked] in A'. rewrite Hv in A'. cbn [answers] in A'.
    destruct A' as [(h' & _ & D & _)|(e & _ & Z)]; [|discriminate].
    apply denotes_digits in D. destruct k as [|k]; [lia|]. unfold utf8 in D. cbn [repeat app map List.concat] in D.
    inversion D as [|? ? [v Hx] _]; subst. apply to_digit16_spec in Hx. discriminate Hx.
Qed.
(** hmac::Hash of 2^31 octets or more: the lengths are computed in u32. *)
Theorem gen_schema_large T n sc c h : gx_schema (gen_tx T (THmac n)) = Some sc -> 2 ^ 31 <= n -> len h = n ->
  match sc c with
  | Panic _ => overflow_checks c = true
  | Ok s => ~ admits s (codes (hex_text digits h))
  end.
Proof.
  assert (S : forall x y : config -> res schema, Some x = Some y -> y = x) by (intros x y H; congruence).
  cbn [gen_tx gx_schema]. intros H L Hl. apply S in H. subst sc. unfold g_hmac_Hash_json_schema, checked_mul.
  assert (B : forall m, m < 2 ^ 32 -> ~ admits (mk_schema (Some (mk_validation (Some m) (Some m) (Some hex_pattern)))) (codes (hex_text digits h))).
  { intros m Hm A. destruct (A _ eq_refl) as (A1 & _). specialize (A1 _ eq_refl). rewrite text_codes, Hl in A1.
    change (2 ^ 32) with (2 * 2 ^ 31) in Hm. lia. }
  destruct (N.ltb_spec (n mod 2 ^ 32 * 2) (2 ^ 32)) as [X|X]; cbn [bind].
  - exact (B _ X).
  - destruct (overflow_checks c); cbn [bind]; [reflexivity|]. apply B. apply N.mod_lt. discriminate.
Qed.
(** All of them have the same name. *)
Theorem gen_schema_names T t t' : gx_schema (gen_tx T t) <> None -> gx_schema (gen_tx T t') <> None ->
  gx_name (gen_tx T t) = gx_name (gen_tx T t') /\ gx_name (gen_tx T t) <> None.
Proof. destruct t, t'; cbn [gen_tx gx_schema gx_name]; intros A B; try contradiction; split; try reflexivity; discriminate. Qed.

(** ** core::hash::Hash of sha256t::Hash *)
Theorem gen_core_hash_eq T a b : g_sha256t_Hash_eq T a b = true <->
  forall S wu w (s : S), run_hasher wu w (g_sha256t_Hash_core_hash T a) s = run_hasher wu w (g_sha256t_Hash_core_hash T b) s.
Proof.
  split.
  - intros H. exact (hash_hash_eq TSha256t a b H).
  - intros H. specialize (H _ (fun l n => l ++ [WriteUsize n]) (fun l b => l ++ [Write b]) []).
    apply (gen_order T a b). cbn in H. congruence.
Qed.
Theorem gen_core_hash_inj T a b r r' : g_sha256t_Hash_core_hash T a ++ r = g_sha256t_Hash_core_hash T b ++ r' -> a = b /\ r = r'.
Proof. exact (hash_hash_inj TSha256t TSha256t a b r r'). Qed.
