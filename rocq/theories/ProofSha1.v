(** The SHA-1 block function computes the FIPS 180-4 compression function. *)
From Coq Require Import NArith ZArith List Bool Lia.
From Coq Require Import ZifyBool ZifyNat ZifyN.
From Verif Require Import Base SpecBase ModelEngine ModelSha2Round ModelSha1 ProofBase ProofSha2.
From Verif Require SpecSha1.
Import ListNotations.
Open Scope N_scope.

Lemma list5 (l : list N) : length l = 5%nat -> exists a b c d e, l = [a; b; c; d; e].
Proof.
  intros H. do 5 (destruct l as [|? l]; [discriminate|]). destruct l; [|discriminate].
  repeat eexists.
Qed.

Lemma debug_assert_true {A} c (k : unit -> res A) : bind (debug_assert c true) k = k tt.
Proof. unfold debug_assert, assert. now destruct (debug_assertions c). Qed.

(** ** index and store *)
Lemma index_ok {A} (l : list A) i d : (N.to_nat i < length l)%nat -> index l i = Ok (nth (N.to_nat i) l d).
Proof.
  intros H. unfold index. now rewrite (nth_error_nth' l d H).
Qed.

Lemma store_app {A} (l r : list A) i x y : N.to_nat i = length l ->
  store (l ++ y :: r) i x = Ok (l ++ x :: r).
Proof.
  intros E. unfold store. unfold len. rewrite app_length. cbn [length].
  destruct (N.ltb_spec i (N.of_nat (length l + S (length r)))) as [_|]; [|lia].
  rewrite E, firstn_app, firstn_all, Nat.sub_diag, firstn_O, app_nil_r.
  do 2 f_equal. rewrite skipn_app.
  rewrite skipn_all2 by lia. replace (S (length l) - length l)%nat with 1%nat by lia.
  reflexivity.
Qed.

(** ** Schedule *)

Lemma extend1_length n W : length (SpecSha1.extend n W) = (n + length W)%nat.
Proof.
  revert W. induction n as [|n IH]; intros W; [reflexivity|].
  cbn [SpecSha1.extend]. rewrite IH, app_length. cbn. lia.
Qed.

Lemma next1_lt W : bounded 32 W -> SpecSha1.next_word W < 2 ^ 32.
Proof.
  intros HW. unfold SpecSha1.next_word.
  assert (HN : forall j, nth j W 0 < 2 ^ 32).
  { intros j. destruct (Nat.lt_ge_cases j (length W)) as [Hj|Hj].
    - apply (proj1 (Forall_nth _ _) HW). exact Hj.
    - rewrite nth_overflow by exact Hj. now compute. }
  apply ROTL_lt. repeat apply lxor_lt; apply HN.
Qed.

Lemma extend1_bounded n W : bounded 32 W -> bounded 32 (SpecSha1.extend n W).
Proof.
  revert W. induction n as [|n IH]; intros W HW; [exact HW|].
  cbn [SpecSha1.extend]. apply IH. apply Forall_app. split; [exact HW|].
  constructor; [|constructor]. now apply next1_lt.
Qed.

Lemma sha1_expand_aux n : forall W, (16 <= length W)%nat -> bounded 32 W ->
  for_loop n (N.of_nat (length W)) (fun i w =>
    let* w3 := index w (i - 3) in
    let* w8 := index w (i - 8) in
    let* w14 := index w (i - 14) in
    let* w16 := index w (i - 16) in
    store w i (rotate_left 32 1 (N.lxor (N.lxor (N.lxor w3 w8) w14) w16)))
    (W ++ repeat 0 n) = Ok (SpecSha1.extend n W).
Proof.
  induction n as [|n IH]; intros W HW HB.
  - cbn. now rewrite app_nil_r.
  - cbn [for_loop SpecSha1.extend repeat].
    rewrite !(index_ok _ _ 0) by (rewrite app_length; cbn [length]; lia). cbn [bind].
    rewrite !app_nth1 by lia.
    rewrite store_app by lia. cbn [bind].
    assert (HN : forall j, nth j W 0 < 2 ^ 32).
    { intros j. destruct (Nat.lt_ge_cases j (length W)) as [Hj|Hj].
      - apply (proj1 (Forall_nth _ _) HB). exact Hj.
      - rewrite nth_overflow by exact Hj. now compute. }
    rewrite rotate_left_ROTL by (try reflexivity; repeat apply lxor_lt; apply HN).
    replace (N.to_nat (N.of_nat (length W) - 3)) with (length W - 3)%nat by lia.
    replace (N.to_nat (N.of_nat (length W) - 8)) with (length W - 8)%nat by lia.
    replace (N.to_nat (N.of_nat (length W) - 14)) with (length W - 14)%nat by lia.
    replace (N.to_nat (N.of_nat (length W) - 16)) with (length W - 16)%nat by lia.
    fold (SpecSha1.next_word W).
    change (SpecSha1.next_word W :: repeat 0 n) with ([SpecSha1.next_word W] ++ repeat 0 n).
    rewrite app_assoc.
    replace (N.of_nat (length W) + 1) with (N.of_nat (length (W ++ [SpecSha1.next_word W])))
      by (rewrite app_length; cbn [length]; lia).
    apply IH.
    + rewrite app_length. lia.
    + apply Forall_app. split; [exact HB|]. constructor; [|constructor]. now apply next1_lt.
Qed.

(** ** Rounds *)

Lemma parity_f t b c d : b < 2 ^ 32 -> c < 2 ^ 32 -> d < 2 ^ 32 -> (t < 80)%nat ->
  sha1_f_k (N.of_nat t) b c d = Ok (SpecSha1.f t b c d, SpecSha1.K t).
Proof.
  intros Hb Hc Hd Ht. unfold sha1_f_k, SpecSha1.f, SpecSha1.K.
  destruct (N.leb_spec (N.of_nat t) 19) as [H|H]; destruct (Nat.ltb_spec t 20) as [H'|H']; try lia.
  { do 2 f_equal. apply N.bits_inj. intros i. rewrite bit_not_NOT by assumption.
    rewrite N.lor_spec, N.lxor_spec, !N.land_spec, NOT_testbit by assumption.
    destruct (i <? 32); now destruct (N.testbit b i), (N.testbit c i), (N.testbit d i). }
  clear H H'.
  destruct (N.leb_spec (N.of_nat t) 39) as [H|H]; destruct (Nat.ltb_spec t 40) as [H'|H']; try lia.
  { reflexivity. }
  clear H H'.
  destruct (N.leb_spec (N.of_nat t) 59) as [H|H]; destruct (Nat.ltb_spec t 60) as [H'|H']; try lia.
  { do 2 f_equal. apply N.bits_inj. intros i.
    rewrite !N.lor_spec, !N.lxor_spec, !N.land_spec.
    now destruct (N.testbit b i), (N.testbit c i), (N.testbit d i). }
  destruct (N.leb_spec (N.of_nat t) 79) as [H2|H2]; [|lia]. reflexivity.
Qed.

Definition tuple5 (s : N * N * N * N * N) : list N :=
  let '(a, b, c, d, e) := s in [a; b; c; d; e].

Lemma sha1_rounds_spec ws : forall t s, bounded 32 (tuple5 s) -> bounded 32 ws ->
  (t + length ws <= 80)%nat ->
  sha1_rounds (N.of_nat t) ws s
  = Ok (fold_left SpecSha1.round (combine (seq t (length ws)) ws) s)
  /\ bounded 32 (tuple5 (fold_left SpecSha1.round (combine (seq t (length ws)) ws) s)).
Proof.
  induction ws as [|x ws IH]; intros t s Hs Hw Ht; [split; [reflexivity|exact Hs]|].
  destruct s as [[[[a b] c] d] e]. cbn [length seq combine fold_left sha1_rounds].
  cbn [length] in Ht.
  assert (HB : forall y, In y [a; b; c; d; e] -> y < 2 ^ 32) by (apply Forall_forall; exact Hs).
  rewrite parity_f by (first [apply HB; cbn; tauto | lia]). cbn [bind].
  inversion Hw as [|? ? Hx Hw']; subst.
  replace (N.of_nat t + 1) with (N.of_nat (S t)) by lia.
  rewrite wadd5.
  rewrite !rotate_left_ROTL by (first [reflexivity | apply HB; cbn; tauto]).
  set (s' := SpecSha1.round (a, b, c, d, e) (t, x)).
  assert (Es : s' = ((ROTL 32 5 a + SpecSha1.f t b c d + e + SpecSha1.K t + x) mod 2 ^ 32, a,
                     ROTL 32 30 b, c, d)).
  { unfold s', SpecSha1.round. now rewrite sum5. }
  rewrite <- Es. apply IH; [|exact Hw'|lia].
  rewrite Es. cbn [tuple5]. repeat constructor; try (apply HB; cbn; tauto).
  - apply N.mod_lt. discriminate.
  - apply ROTL_lt. apply HB; cbn; tauto.
Qed.

Lemma sha1_block c e :
  length (e_buffer e) = 64%nat -> length (e_h e) = 5%nat /\ bounded 32 (e_h e) ->
  sha1_process_block c e
  = Ok (mk_engine (e_buffer e) (SpecSha1.compress (e_h e) (e_buffer e)) (e_length e)).
Proof.
  intros Hb [Hh Hbd]. unfold sha1_process_block. unfold len. rewrite Hb.
  change (N.of_nat 64 =? BLOCK_SIZE_SHA1) with true. rewrite debug_assert_true.
  destruct e as [buf h L]. cbn [e_buffer e_h e_length] in *.
  assert (EW : zip_assign (array 0 80) (chunks_exact 4 buf) (from_be_bytes 4)
               = Ok (be_words 4 buf ++ repeat 0 64)).
  { pose proof (load_words 4 16 buf ltac:(lia) Hb) as E.
    change (array 0 80) with (array 0 (N.of_nat 16) ++ repeat 0 64).
    assert (G : forall (d1 d2 : list N) (src : list bytes) conv r, length d1 = length src ->
       zip_assign d1 src conv = Ok r -> zip_assign (d1 ++ d2) src conv = Ok (r ++ d2)).
    { clear. induction d1 as [|x d1 IH]; intros d2 [|y src] conv r Hl E; try discriminate Hl.
      - cbn in E |- *. injection E as <-. destruct d2; reflexivity.
      - cbn [app zip_assign] in *. destruct (conv y); cbn [bind] in *; [|discriminate].
        destruct (zip_assign d1 src conv) as [r'|] eqn:E'; cbn [bind] in E; [|discriminate].
        injection E as <-. rewrite (IH d2 src conv r'); [reflexivity| now injection Hl | exact E']. }
    apply G; [|exact E].
    rewrite length_array, chunks_exact_blocks, blocks_length, Hb by lia. reflexivity. }
  rewrite EW. cbn [bind]. unfold sha1_expand.
  assert (Hl16 : length (be_words 4 buf) = 16%nat) by (apply be_words_length; [lia|exact Hb]).
  assert (HbW : bounded 32 (be_words 4 buf)) by (apply (be_words_bounded 4); lia).
  pose proof (sha1_expand_aux 64 (be_words 4 buf) ltac:(lia) HbW) as EX.
  rewrite Hl16 in EX. change (N.of_nat 16) with 16 in EX. 
  assert (Es : SpecSha1.schedule buf = SpecSha1.extend 64 (be_words 4 buf)) by reflexivity.
  rewrite <- Es in EX. clear Es.
  rewrite EX. cbn [bind]. clear EX EW.
  assert (HlW : length (SpecSha1.schedule buf) = 80%nat)
    by (unfold SpecSha1.schedule; rewrite extend1_length; lia).
  destruct (list5 h Hh) as (h0 & h1 & h2 & h3 & h4 & ->).
  cbn [index nth_error N.to_nat bind].
  change (index [h0; h1; h2; h3; h4] 1) with (@Ok N h1).
  change (index [h0; h1; h2; h3; h4] 2) with (@Ok N h2).
  change (index [h0; h1; h2; h3; h4] 3) with (@Ok N h3).
  change (index [h0; h1; h2; h3; h4] 4) with (@Ok N h4). cbn [bind].
  destruct (sha1_rounds_spec (SpecSha1.schedule buf) 0 (h0, h1, h2, h3, h4)) as [E _].
  - exact Hbd.
  - unfold SpecSha1.schedule. apply extend1_bounded. exact HbW.
  - lia.
  - change (N.of_nat 0) with 0 in E. rewrite E, HlW. cbn [bind]. unfold SpecSha1.compress.
    destruct (fold_left SpecSha1.round (combine (seq 0 80) (SpecSha1.schedule buf))
                (h0, h1, h2, h3, h4)) as [[[[a' b'] c'] d'] e']. reflexivity.
Qed.

Lemma compress1_good h b : length h = 5%nat ->
  length (SpecSha1.compress h b) = 5%nat /\ bounded 32 (SpecSha1.compress h b).
Proof.
  intros H. destruct (list5 h H) as (?&?&?&?&?&->). unfold SpecSha1.compress.
  match goal with |- context [fold_left ?f ?l ?x] => destruct (fold_left f l x) as [[[[? ?] ?] ?] ?] end.
  split; [reflexivity|]. repeat constructor; apply add_lt.
Qed.
