(** The RIPEMD-160 block function computes the published compression function. *)
From Coq Require Import NArith ZArith List Bool Lia.
From Coq Require Import ZifyBool ZifyNat ZifyN.
From Verif Require Import Base SpecBase ModelEngine ModelSha2Round ModelRipemdRound TablesRipemd
  ModelRipemd ProofBase ProofSha2 ProofSha1.
From Verif Require SpecRipemd.
Import ListNotations.
Open Scope N_scope.

(** ** The tables are regular *)

Definition perm5 (j : nat) : list nat := map (fun i => (i + 5 - j mod 5) mod 5)%nat (seq 0 5).

Definition gen_left (j : nat) : ripemd_row :=
  let r := (j / 16)%nat in
  let word := SpecRipemd.rL r (j mod 16) in
  mk_rrow (S r) (perm5 j) word (SpecRipemd.shift r word).
Definition gen_right (j : nat) : ripemd_row :=
  let r := (j / 16)%nat in
  let word := SpecRipemd.rR r (j mod 16) in
  mk_rrow (S r) (perm5 j) word (SpecRipemd.shift r word).

Lemma left_rows_gen : left_rows = map gen_left (seq 0 80).
Proof. vm_compute. reflexivity. Qed.
Lemma right_rows_gen : right_rows = map gen_right (seq 0 80).
Proof. vm_compute. reflexivity. Qed.

(** Constants *)
Lemma left_k_spec r : (r < 5)%nat -> left_k (S r) = SpecRipemd.KL r.
Proof. intros H. do 5 (destruct r as [|r]; [vm_compute; reflexivity|]). lia. Qed.
Lemma right_k_spec r : (r < 5)%nat -> right_k (S r) = SpecRipemd.KR r.
Proof. intros H. do 5 (destruct r as [|r]; [vm_compute; reflexivity|]). lia. Qed.

(** Functions *)
Lemma rf_spec r b c d : b < 2 ^ 32 -> c < 2 ^ 32 -> d < 2 ^ 32 -> (r < 5)%nat ->
  left_fn (S r) b c d = SpecRipemd.f r b c d /\
  right_fn (S r) b c d = SpecRipemd.f (4 - r) b c d.
Proof.
  intros Hb Hc Hd Hr.
  do 5 (destruct r as [|r];
    [cbn [left_fn right_fn SpecRipemd.f Nat.sub]; unfold rf1, rf2, rf3, rf4, rf5;
     rewrite ?bit_not_NOT by assumption; split; reflexivity|]). lia.
Qed.

Lemma f_lt r b c d : b < 2 ^ 32 -> c < 2 ^ 32 -> d < 2 ^ 32 -> SpecRipemd.f r b c d < 2 ^ 32.
Proof.
  intros Hb Hc Hd. unfold SpecRipemd.f.
  destruct r as [|[|[|[|r]]]];
    repeat first [assumption | apply NOT_lt | apply lxor_lt | apply lor_lt | apply land_lt].
Qed.

(** ** small-hash *)
Lemma perm5_distinct j : let o := perm5 j in
  (nth 0 o O < 5)%nat /\ (nth 2 o O < 5)%nat /\ (nth 4 o O < 5)%nat /\
  nth 0 o O <> nth 2 o O /\ nth 0 o O <> nth 4 o O.
Proof.
  unfold perm5. pose proof (Nat.mod_upper_bound j 5 ltac:(lia)) as H.
  revert H. generalize (j mod 5)%nat as r. intros r H.
  do 5 (destruct r as [|r]; [cbn; lia|]). lia.
Qed.

Lemma rip_round_fast c v j x bits k f : length v = 5%nat ->
  rip_round c v (perm5 j) x bits k f = rip_fast_round v (perm5 j) x bits k f.
Proof.
  intros Hv. unfold rip_round. destruct (small_hash c); [|reflexivity].
  unfold rip_small_round, rip_fast_round, rip_small_fn.
  destruct (perm5_distinct j) as (H0 & H2 & H4 & H02 & H04).
  set (a := nth 0 (perm5 j) O) in *. set (c' := nth 2 (perm5 j) O) in *.
  set (e := nth 4 (perm5 j) O) in *.
  rewrite (get_set_eq v a) by lia.
  rewrite (get_set_ne v a e) by lia.
  assert (SS : forall u i y z, (i < length u)%nat -> set (set u i y) i z = set u i z).
  { clear. intros u i y z Hi. unfold set.
    assert (Hf : length (firstn i u) = i) by (rewrite firstn_length_le; lia).
    rewrite firstn_app, Hf, Nat.sub_diag, firstn_firstn, Nat.min_id, firstn_O, app_nil_r.
    f_equal. f_equal. rewrite skipn_app, Hf. rewrite skipn_all2 by lia.
    replace (S i - i)%nat with 1%nat by lia. reflexivity. }
  rewrite SS by lia. rewrite (get_set_ne v a c') by lia. reflexivity.
Qed.

(** ** One step *)

Definition view5 (j : nat) (v : list N) : list N := map (get v) (perm5 j).

Lemma perm5_mod t : perm5 (t mod 5) = perm5 t.
Proof. unfold perm5. now rewrite Nat.mod_mod by lia. Qed.
Lemma perm5_S_mod t : perm5 (S t) = perm5 (S (t mod 5)).
Proof.
  unfold perm5. replace (S (t mod 5) mod 5)%nat with (S t mod 5)%nat; [reflexivity|].
  rewrite <- (Nat.add_1_l (t mod 5)), Nat.add_mod_idemp_r by lia. reflexivity.
Qed.

Lemma fast_view j v x bits k f A B C D E :
  length v = 5%nat -> view5 j v = [A; B; C; D; E] ->
  let v' := rip_fast_round v (perm5 j) x bits k f in
  length v' = 5%nat /\
  view5 (S j) v' =
    [E; wrapping_add 32 (rotate_left 32 bits
          (wrapping_add 32 (wrapping_add 32 (wrapping_add 32 A f) x) k)) E;
     B; rotate_left 32 10 C; D].
Proof.
  intros Hl Hv v'. unfold v'. clear v'. unfold view5 in *. rewrite perm5_S_mod. rewrite <- (perm5_mod j) in Hv |- *.
  pose proof (Nat.mod_upper_bound j 5 ltac:(lia)) as Hr.
  destruct (list5 v Hl) as (y0 & y1 & y2 & y3 & y4 & ->).
  unfold rip_fast_round.
  revert Hv Hr. generalize (j mod 5)%nat as r. intros r Hv Hr.
  generalize (wrapping_add 32) as ad. generalize (rotate_left 32) as ro. intros ro ad.
  do 5 (destruct r as [|r]; [cbn in Hv; injection Hv as <- <- <- <- <-;
    split; reflexivity|]). lia.
Qed.

Lemma view5_nth j v A B C D E : view5 j v = [A; B; C; D; E] ->
  get v (nth 1 (perm5 j) O) = B /\ get v (nth 2 (perm5 j) O) = C /\ get v (nth 3 (perm5 j) O) = D.
Proof.
  intros H. unfold view5, perm5 in *. cbn [seq map nth] in *.
  injection H as H0 H1 H2 H3 H4. repeat split; assumption.
Qed.

Section Line.
  Context (c : config) (X : list N) (HX : bounded 32 X).
  Context (fn : nat -> N -> N -> N -> N) (kf : nat -> N).
  Context (sfn : nat -> N -> N -> N -> N) (skf : nat -> N) (wsel : nat -> nat).
  Context (Hfn : forall r b c d, b < 2 ^ 32 -> c < 2 ^ 32 -> d < 2 ^ 32 -> (r < 5)%nat ->
             fn (S r) b c d = sfn r b c d /\ sfn r b c d < 2 ^ 32).
  Context (Hkf : forall r, (r < 5)%nat -> kf (S r) = skf r).
  Context (gen : nat -> ripemd_row).
  Context (Hgen : forall j, gen j = mk_rrow (S (j / 16)) (perm5 j) (wsel j)
             (SpecRipemd.shift (j / 16) (wsel j))).
  Context (Hshift : forall j, (j < 80)%nat ->
             0 < SpecRipemd.shift (j / 16) (wsel j) < 32).

  Definition spec_step (v : N * N * N * N * N) (j : nat) :=
    SpecRipemd.step (sfn (j / 16)) (skf (j / 16)) (nth (wsel j) X 0)
      (SpecRipemd.shift (j / 16) (wsel j)) v.

  Definition sim5 (j : nat) (v : list N) (s : N * N * N * N * N) : Prop :=
    length v = 5%nat /\ view5 j v = tuple5 s /\ bounded 32 (tuple5 s).

  Lemma step_sim j v s : sim5 j v s -> (j < 80)%nat ->
    sim5 (S j)
      (let r := gen j in
       let o := rw_order r in
       rip_round c v o (get X (rw_data r)) (rw_shift r) (kf (rw_round r))
         (fn (rw_round r) (get v (nth 1 o O)) (get v (nth 2 o O)) (get v (nth 3 o O))))
      (spec_step s j).
  Proof.
    intros (Hl & Hv & Hb) Hj. cbv zeta. rewrite Hgen.
    cbn [rw_order rw_data rw_shift rw_round].
    rewrite rip_round_fast by exact Hl.
    destruct s as [[[[A B] C] D] E]. cbn [tuple5] in *.
    destruct (view5_nth _ _ _ _ _ _ _ Hv) as (-> & -> & ->).
    assert (HB : forall y, In y [A; B; C; D; E] -> y < 2 ^ 32) by (apply Forall_forall; exact Hb).
    assert (Hr5 : (j / 16 < 5)%nat) by (apply Nat.div_lt_upper_bound; lia).
    destruct (Hfn (j / 16)%nat B C D) as [EF Hlt]; try (apply HB; cbn; tauto); [exact Hr5|].
    rewrite EF, Hkf by exact Hr5.
    destruct (fast_view j v (get X (wsel j)) (SpecRipemd.shift (j / 16) (wsel j))
                (skf (j / 16)%nat) (sfn (j / 16)%nat B C D) A B C D E Hl Hv) as [Hl' Hv'].
    cbv zeta in Hl', Hv'.
    unfold sim5, spec_step, SpecRipemd.step. cbn [tuple5].
    split; [exact Hl'|]. split.
    - rewrite Hv'. pose proof (Hshift j Hj).
      rewrite wadd4, sum4.
      rewrite !rotate_left_ROTL
        by (first [reflexivity | lia | apply N.mod_lt; discriminate | apply HB; cbn; tauto]).
      reflexivity.
    - repeat constructor; try (apply HB; cbn; tauto); [apply add_lt | apply ROTL_lt; apply HB; cbn; tauto].
  Qed.

  Lemma line_sim n : forall j v s, sim5 j v s -> (j + n <= 80)%nat ->
    sim5 (j + n) (run_line c fn kf X (map gen (seq j n)) v) (fold_left spec_step (seq j n) s).
  Proof.
    induction n as [|n IH]; intros j v s Hs Hj.
    - rewrite Nat.add_0_r. exact Hs.
    - cbn [seq map fold_left]. unfold run_line. cbn [fold_left].
      replace (j + S n)%nat with (S j + n)%nat by lia.
      apply IH; [|lia]. apply step_sim; [exact Hs|lia].
  Qed.
End Line.

Lemma shifts_ok : forallb (fun j => let r := (j / 16)%nat in
    (0 <? SpecRipemd.shift r (SpecRipemd.rL r (j mod 16))) &&
    (SpecRipemd.shift r (SpecRipemd.rL r (j mod 16)) <? 32) &&
    (0 <? SpecRipemd.shift r (SpecRipemd.rR r (j mod 16))) &&
    (SpecRipemd.shift r (SpecRipemd.rR r (j mod 16)) <? 32)) (seq 0 80) = true.
Proof. vm_compute. reflexivity. Qed.

Lemma shifts_ok' j : (j < 80)%nat ->
  0 < SpecRipemd.shift (j / 16) (SpecRipemd.rL (j / 16) (j mod 16)) < 32 /\
  0 < SpecRipemd.shift (j / 16) (SpecRipemd.rR (j / 16) (j mod 16)) < 32.
Proof.
  intros H. pose proof shifts_ok as HS. rewrite forallb_forall in HS.
  specialize (HS j ltac:(apply in_seq; lia)). cbv zeta in HS.
  rewrite !andb_true_iff, !N.ltb_lt in HS. tauto.
Qed.

Lemma sum3 w x y z : sum w [x; y; z] = (x + y + z) mod 2 ^ w.
Proof.
  pose proof (pow2_pos w).
  unfold sum, add. cbn [fold_left]. rewrite N.add_0_l. addmod. reflexivity.
Qed.
Lemma wadd3 w x y z : wrapping_add w (wrapping_add w x y) z = (x + y + z) mod 2 ^ w.
Proof. pose proof (pow2_pos w). unfold wrapping_add. addmod. reflexivity. Qed.

Lemma ripemd_block c e :
  length (e_buffer e) = 64%nat -> length (e_h e) = 5%nat /\ bounded 32 (e_h e) ->
  ripemd_process_block c e
  = Ok (mk_engine (e_buffer e) (SpecRipemd.compress (e_h e) (e_buffer e)) (e_length e)).
Proof.
  intros Hb [Hh Hbd]. unfold ripemd_process_block. unfold len. rewrite Hb.
  change (N.of_nat 64 =? BLOCK_SIZE_RIPEMD) with true. rewrite debug_assert_true.
  destruct e as [buf h L]. cbn [e_buffer e_h e_length] in *.
  pose proof (load_words_le 4 16 buf ltac:(lia) Hb) as E. change (N.of_nat 16) with 16 in E.
  rewrite E. cbn [bind]. clear E.
  set (X := le_words 4 buf).
  assert (HX : bounded 32 X) by (apply (le_words_bounded 4); lia).
  destruct (list5 h Hh) as (h0 & h1 & h2 & h3 & h4 & ->).
  assert (S0 : sim5 0 [h0; h1; h2; h3; h4] (h0, h1, h2, h3, h4)).
  { split; [reflexivity|]. split; [reflexivity|exact Hbd]. }
  pose proof (line_sim c X left_fn left_k SpecRipemd.f SpecRipemd.KL
    (fun j => SpecRipemd.rL (j / 16) (j mod 16))
    (fun r b c d H1 H2 H3 H4 => conj (proj1 (rf_spec r b c d H1 H2 H3 H4)) (f_lt r b c d H1 H2 H3))
    left_k_spec gen_left (fun j => eq_refl) (fun j H => proj1 (shifts_ok' j H)) 80 0 _ _ S0
    (le_n 80)) as HL.
  pose proof (line_sim c X right_fn right_k (fun r => SpecRipemd.f (4 - r)) SpecRipemd.KR
    (fun j => SpecRipemd.rR (j / 16) (j mod 16))
    (fun r b c d H1 H2 H3 H4 => conj (proj2 (rf_spec r b c d H1 H2 H3 H4)) (f_lt (4 - r) b c d H1 H2 H3))
    right_k_spec gen_right (fun j => eq_refl) (fun j H => proj2 (shifts_ok' j H)) 80 0 _ _ S0
    (le_n 80)) as HR.
  rewrite <- left_rows_gen in HL. rewrite <- right_rows_gen in HR.
  change (fold_left (spec_step X SpecRipemd.f SpecRipemd.KL
            (fun j => SpecRipemd.rL (j / 16) (j mod 16))))
    with (fold_left (SpecRipemd.left_step X)) in HL.
  change (fold_left (spec_step X (fun r => SpecRipemd.f (4 - r)) SpecRipemd.KR
            (fun j => SpecRipemd.rR (j / 16) (j mod 16))))
    with (fold_left (SpecRipemd.right_step X)) in HR.
  unfold SpecRipemd.compress. fold X.
  destruct (fold_left (SpecRipemd.left_step X) (seq 0 80) (h0, h1, h2, h3, h4))
    as [[[[A B] C] D] EE].
  destruct (fold_left (SpecRipemd.right_step X) (seq 0 80) (h0, h1, h2, h3, h4))
    as [[[[A' B'] C'] D'] EE'].
  destruct HL as (HLl & HLv & _). destruct HR as (HRl & HRv & _).
  set (bb := run_line c left_fn left_k X left_rows [h0; h1; h2; h3; h4]) in *.
  set (bbb := run_line c right_fn right_k X right_rows [h0; h1; h2; h3; h4]) in *.
  clearbody bb bbb.
  destruct (list5 bb HLl) as (b0 & b1 & b2 & b3 & b4 & ->).
  destruct (list5 bbb HRl) as (d0 & d1 & d2 & d3 & d4 & ->).
  cbn [tuple5] in HLv, HRv.
  change (view5 (0 + 80) [b0; b1; b2; b3; b4]) with [b0; b1; b2; b3; b4] in HLv.
  change (view5 (0 + 80) [d0; d1; d2; d3; d4]) with [d0; d1; d2; d3; d4] in HRv.
  injection HLv as -> -> -> -> ->. injection HRv as -> -> -> -> ->.
  unfold rip_combine, set, get. cbn [nth firstn skipn app].
  rewrite !wadd3, !sum3.
  do 2 f_equal. repeat (f_equal; try lia).
Qed.

Lemma compress_rip_good h b : length h = 5%nat ->
  length (SpecRipemd.compress h b) = 5%nat /\ bounded 32 (SpecRipemd.compress h b).
Proof.
  intros H. destruct (list5 h H) as (?&?&?&?&?&->). unfold SpecRipemd.compress. cbv zeta.
  match goal with |- context [fold_left (SpecRipemd.left_step ?X) ?l ?x] =>
    destruct (fold_left (SpecRipemd.left_step X) l x) as [[[[? ?] ?] ?] ?];
    destruct (fold_left (SpecRipemd.right_step X) l x) as [[[[? ?] ?] ?] ?] end.
  split; [reflexivity|]. repeat constructor; apply sum_lt.
Qed.
