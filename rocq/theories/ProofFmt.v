(** Formatting: the padded forms. *)
From Coq Require Import NArith ZArith List Bool Lia.
From Coq Require Import Strings.Byte.
From Coq Require Import ZifyBool ZifyNat ZifyN.
From Verif Require Import Base SpecBase ModelTypes SpecText ProofBase ProofTypes ProofUtf8 ModelFmt SpecFmt.
Import ListNotations.
Open Scope N_scope.
Open Scope list_scope.

Lemma utf8_app a b : utf8 (a ++ b) = utf8 a ++ utf8 b.
Proof. unfold utf8. now rewrite map_app, concat_app. Qed.
Lemma utf8_repeat x n : utf8 (repeat x n) = List.concat (repeat (utf8_char x) n).
Proof. unfold utf8. induction n as [|n IH]; cbn; [reflexivity|]. now f_equal. Qed.

Lemma utf8_codes s : Forall (fun ch => b2n ch < 128) s -> utf8 (codes s) = s.
Proof. exact (utf8_scalars s). Qed.

Lemma hex_text_ascii cs h : Forall (fun ch => b2n ch < 128) (hex_text (case_digits cs) h).
Proof.
  eapply Forall_impl; [|exact (denotes_digits _ _ (hex_text_denotes cs h))].
  intros ch H. now apply hex_digit_ascii.
Qed.

Lemma head_utf8 p a : utf8 (head_text p a) = (if p then [x2b] else []) ++ (if a then [x30; x78] else []).
Proof. destruct p, a; reflexivity. Qed.

Lemma pad_formatted f x cs h : f_fill f = utf8_char x ->
  formatted (case_digits cs) (f_plus f) (f_alternate f) (f_zero f) (f_want f) x (f_side f) h (fmt_hex_exact f cs h).
Proof.
  intros Hf. unfold fmt_hex_exact, pad_integral, formatted, f_want, f_side.
  rewrite put_bytes_hex_text.
  pose proof (hex_text_length (case_digits cs) h) as HL.
  pose proof (utf8_codes _ (hex_text_ascii cs h)) as HU.
  assert (Hnat : natural (f_plus f) (f_alternate f) h =
    N.to_nat (let w := len (hex_text (case_digits cs) h) in
      let w := if f_plus f then w + 1 else w in if f_alternate f then w + len [x30; x78] else w)).
  { unfold natural, len. rewrite HL. destruct (f_plus f), (f_alternate f); cbn [head_text app length]; lia. }
  cbv zeta in Hnat. rewrite Hnat. clear Hnat.
  set (w := if f_alternate f then _ else _).
  assert (Hplain : (if f_plus f then [x2b] else []) ++ (if f_alternate f then [x30; x78] else []) ++ hex_text (case_digits cs) h =
    utf8 (repeat x 0 ++ head_text (f_plus f) (f_alternate f) ++ repeat 48 0 ++ codes (hex_text (case_digits cs) h) ++ repeat x 0)).
  { rewrite !utf8_app, head_utf8, HU. cbn [repeat utf8 map List.concat app]. now rewrite app_nil_r, <- app_assoc. }
  destruct (f_width f) as [min|].
  2:{ exists 0%nat, 0%nat, 0%nat. split; [exact Hplain|]. repeat split; try lia. destruct (f_align f) as [[]|]; lia. }
  destruct (min <=? w) eqn:E.
  { exists 0%nat, 0%nat, 0%nat. split; [exact Hplain|]. repeat split; try lia. destruct (f_align f) as [[]|]; lia. }
  apply N.leb_gt in E. clearbody w. clear Hplain.
  destruct (f_zero f) eqn:Ez.
  - exists 0%nat, (N.to_nat (min - w)), 0%nat. unfold padding. cbn [f_align f_fill].
    split.
    { rewrite !utf8_app, head_utf8, HU, !utf8_repeat. unfold write_chars.
      cbn [repeat List.concat app N.to_nat]. rewrite <- !app_assoc. reflexivity. }
    repeat split; try lia; discriminate.
  - unfold padding. rewrite Hf.
    destruct (f_align f) as [[]|]; cbn [fst snd].
    + exists 0%nat, 0%nat, (N.to_nat (min - w)). split; [|repeat split; try lia; discriminate].
      rewrite !utf8_app, head_utf8, HU, !utf8_repeat. unfold write_chars. rewrite <- !app_assoc. reflexivity.
    + exists (N.to_nat (min - w)), 0%nat, 0%nat. split; [|repeat split; try lia; discriminate].
      rewrite !utf8_app, head_utf8, HU, !utf8_repeat. unfold write_chars. rewrite <- !app_assoc. reflexivity.
    + exists (N.to_nat ((min - w) / 2)), 0%nat, (N.to_nat ((min - w + 1) / 2)).
      assert (Hd : (min - w) / 2 + (min - w + 1) / 2 = min - w /\
                   (min - w) / 2 <= (min - w + 1) / 2 <= (min - w) / 2 + 1)
        by (Z.div_mod_to_equations; lia).
      split; [|repeat split; try lia; discriminate].
      rewrite !utf8_app, head_utf8, HU, !utf8_repeat. unfold write_chars. rewrite <- !app_assoc. reflexivity.
    + exists (N.to_nat (min - w)), 0%nat, 0%nat. split; [|repeat split; try lia; discriminate].
      rewrite !utf8_app, head_utf8, HU, !utf8_repeat. unfold write_chars. rewrite <- !app_assoc. reflexivity.
Qed.

(** The description leaves no choice. *)
Lemma formatted_unique ds p a z w x s h o o' :
  formatted ds p a z w x s h o -> formatted ds p a z w x s h o' -> o = o'.
Proof.
  intros (l & k & r & -> & Hs & Hz & Hn) (l' & k' & r' & -> & Hs' & Hz' & Hn').
  assert (l = l' /\ k = k' /\ r = r') as (-> & -> & ->); [|reflexivity].
  destruct z.
  - specialize (Hz eq_refl). specialize (Hz' eq_refl). lia.
  - specialize (Hn eq_refl). specialize (Hn' eq_refl). destruct s; lia.
Qed.

(** Number of characters *)
Lemma formatted_count ds p a z w x s h o : formatted ds p a z w x s h o -> scalar x ->
  exists t, Forall scalar t /\ o = utf8 t /\ length t = Nat.max w (natural p a h).
Proof.
  intros (l & k & r & -> & Hs & _) Hx. eexists; split; [|split; [reflexivity|]].
  - rewrite !Forall_app. repeat split.
    + apply Forall_forall. intros y Hy. apply repeat_spec in Hy. now subst.
    + destruct p, a; repeat constructor; unfold scalar; lia.
    + apply Forall_forall. intros y Hy. apply repeat_spec in Hy. subst. unfold scalar; lia.
    + apply Forall_forall. intros y Hy. unfold codes in Hy. apply in_map_iff in Hy. destruct Hy as (b & <- & _).
      pose proof (to_N_lt b). unfold scalar; lia.
    + apply Forall_forall. intros y Hy. apply repeat_spec in Hy. now subst.
  - rewrite !app_length, !repeat_length. unfold codes. rewrite map_length, hex_text_length.
    unfold natural in *. lia.
Qed.

(** Without options, and when the width is not reached, it is the plain text. *)
Lemma fmt_plain al cs h : fmt_hex_exact (plain al) cs h = fmt_hex al cs h.
Proof. reflexivity. Qed.
Lemma fmt_narrow f cs h : f_plus f = false -> (f_want f <= natural false (f_alternate f) h)%nat ->
  fmt_hex_exact f cs h = fmt_hex (f_alternate f) cs h.
Proof.
  intros Hp Hw. unfold fmt_hex_exact, pad_integral, fmt_hex, f_want in *. rewrite Hp.
  destruct (f_width f) as [min|]; [|reflexivity].
  assert (min <=? (if f_alternate f then len (put_bytes cs h) + len [x30; x78] else len (put_bytes cs h)) = true) as ->;
    [|reflexivity].
  apply N.leb_le. rewrite put_bytes_hex_text. unfold len. rewrite hex_text_length.
  unfold natural in Hw. destruct (f_alternate f); cbn [head_text app length] in *; lia.
Qed.
Lemma debug_any f h : debug_fmt f h = debug h.
Proof. reflexivity. Qed.

(** A formatted hash is read back as itself or refused. *)
Lemma fmt_parse t f x cs h : f_fill f = utf8_char x -> len h = ty_len t ->
  (f_plus f = false /\ f_alternate f = false /\ (f_want f <= 2 * length h)%nat ->
     from_str t (fmt_hex_exact f cs h) = ROk h) /\
  (~ (f_plus f = false /\ f_alternate f = false /\ (f_want f <= 2 * length h)%nat) ->
     exists e, from_str t (fmt_hex_exact f cs h) = RErr e).
Proof.
  intros Hf Hl. split.
  - intros (Hp & Ha & Hw). rewrite fmt_narrow by (rewrite ?Ha; auto). rewrite Ha.
    exact (from_str_text t cs h Hl).
  - intros Hn. destruct (from_str t (fmt_hex_exact f cs h)) as [b|e] eqn:E; [|now exists e].
    exfalso. apply Hn. apply from_str_ok in E. destruct E as (E & _).
    destruct (pad_formatted f x cs h Hf) as (l & z & r & Ho & Hs & _). rewrite Ho in E.
    unfold len in E, Hl.
    match type of E with N.of_nat (length (utf8 ?t)) = _ => pose proof (utf8_length t) as HU end.
    rewrite !app_length, !repeat_length in HU. unfold codes in HU, E. rewrite map_length, hex_text_length in HU.
    unfold natural in Hs.
    assert (HH : (length (head_text (f_plus f) (f_alternate f)) = 0 /\ l + z + r = 0)%nat) by (unfold bytes in *; lia).
    destruct HH as (HH & H0). destruct (f_plus f), (f_alternate f); cbn in HH; try discriminate.
    cbn in Hs. repeat split; lia.
Qed.

(** The impls *)
Lemma fmt_impls f x h : f_fill f = utf8_char x ->
  formatted digits (f_plus f) (f_alternate f) (f_zero f) (f_want f) x (f_side f) h (lower_hex_fmt f h) /\
  formatted DIGITS (f_plus f) (f_alternate f) (f_zero f) (f_want f) x (f_side f) h (upper_hex_fmt f h) /\
  formatted digits (f_plus f) (f_alternate f) (f_zero f) (f_want f) x (f_side f) h (display_fmt f h) /\
  formatted digits false true false 0 32 OnLeft h (debug_fmt f h).
Proof.
  intros H. split; [exact (pad_formatted f x Lower h H)|].
  split; [exact (pad_formatted f x Upper h H)|].
  split; [exact (pad_formatted f x Lower h H)|].
  exact (pad_formatted (plain true) 32 Lower h eq_refl).
Qed.
Lemma fmt_plain_impls al h :
  lower_hex_fmt (plain al) h = lower_hex al h /\ upper_hex_fmt (plain al) h = upper_hex al h /\
  display_fmt (plain al) h = display al h /\ debug_fmt (plain al) h = debug h.
Proof. repeat split. Qed.
Lemma fmt_parse_impls t f x h s : f_fill f = utf8_char x -> len h = ty_len t ->
  s = display_fmt f h \/ s = lower_hex_fmt f h \/ s = upper_hex_fmt f h ->
  (f_plus f = false /\ f_alternate f = false /\ (f_want f <= 2 * length h)%nat -> from_str t s = ROk h) /\
  (~ (f_plus f = false /\ f_alternate f = false /\ (f_want f <= 2 * length h)%nat) ->
     exists e, from_str t s = RErr e).
Proof.
  intros Hf Hl [->|[->| ->]].
  - exact (fmt_parse t f x Lower h Hf Hl).
  - exact (fmt_parse t f x Lower h Hf Hl).
  - exact (fmt_parse t f x Upper h Hf Hl).
Qed.
Lemma fmt_count f x h : scalar x -> f_fill f = utf8_char x -> exists t, Forall scalar t /\ display_fmt f h = utf8 t /\
  length t = Nat.max (f_want f) (natural (f_plus f) (f_alternate f) h).
Proof. intros Hx Hf. exact (formatted_count _ _ _ _ _ _ _ _ _ (pad_formatted f x Lower h Hf) Hx). Qed.
