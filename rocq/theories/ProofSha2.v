(** The SHA-2 block functions compute the FIPS 180-4 compression function. *)
From Coq Require Import NArith ZArith List Bool Lia.
From Coq Require Import ZifyBool ZifyNat ZifyN.
From Verif Require Import Base SpecBase ModelSha2Round TablesSha2 ProofBase.
From Verif Require SpecSha2.
Import ListNotations.
Open Scope N_scope.

(** ** get and set *)

Lemma length_set l i x : (i < length l)%nat -> length (set l i x) = length l.
Proof.
  intros H. unfold set. rewrite app_length. cbn [length].
  rewrite firstn_length_le, skipn_length by lia. lia.
Qed.

Lemma get_set_eq l i x : (i < length l)%nat -> get (set l i x) i = x.
Proof.
  intros H. unfold get, set. rewrite app_nth2; rewrite firstn_length_le by lia; [|lia].
  now rewrite Nat.sub_diag.
Qed.

Lemma get_set_ne l i j x : (i < length l)%nat -> i <> j -> get (set l i x) j = get l j.
Proof.
  intros H Hij. unfold get, set.
  destruct (Nat.lt_ge_cases j i) as [Hj|Hj].
  - rewrite app_nth1 by (rewrite firstn_length_le; lia).
    rewrite <- (firstn_skipn i l) at 2. rewrite app_nth1; [reflexivity|].
    rewrite firstn_length_le; lia.
  - rewrite app_nth2; rewrite firstn_length_le by lia; [|lia].
    destruct (j - i)%nat as [|k] eqn:E; [lia|]. cbn [nth].
    rewrite <- (firstn_skipn (S i) l) at 2.
    rewrite app_nth2; rewrite firstn_length_le by lia; [|lia].
    f_equal. lia.
Qed.

(** ** Agreement of the round functions *)

Lemma Ch_spec w x y z : x < 2 ^ w -> y < 2 ^ w -> z < 2 ^ w ->
  Ch x y z = SpecSha2.Ch w x y z.
Proof.
  intros Hx Hy Hz. apply N.bits_inj. intros i. unfold Ch, SpecSha2.Ch.
  rewrite !N.lxor_spec, !N.land_spec, !N.lxor_spec, NOT_testbit by assumption.
  destruct (N.ltb_spec i w) as [Hi|Hi].
  - now destruct (N.testbit x i), (N.testbit y i), (N.testbit z i).
  - rewrite (lt_pow2_bits x w), (lt_pow2_bits y w), (lt_pow2_bits z w) by assumption. reflexivity.
Qed.

Lemma Maj_spec x y z : Maj x y z = SpecSha2.Maj x y z.
Proof.
  apply N.bits_inj. intros i. unfold Maj, SpecSha2.Maj.
  rewrite !N.lor_spec, !N.lxor_spec, !N.land_spec, !N.lor_spec.
  now destruct (N.testbit x i), (N.testbit y i), (N.testbit z i).
Qed.

(** What the generic proof needs of a pair of function sets. *)
Record fns_agree (F : sha2_fns) (P : SpecSha2.sha2_params) : Prop := {
  ag_width : f_width F = SpecSha2.width P;
  ag_Ch : forall x y z, x < 2 ^ f_width F -> y < 2 ^ f_width F -> z < 2 ^ f_width F ->
            f_Ch F x y z = SpecSha2.Ch (f_width F) x y z;
  ag_Maj : forall x y z, f_Maj F x y z = SpecSha2.Maj x y z;
  ag_S0 : forall x, x < 2 ^ f_width F -> f_Sigma0 F x = SpecSha2.S0 P x;
  ag_S1 : forall x, x < 2 ^ f_width F -> f_Sigma1 F x = SpecSha2.S1 P x;
  ag_s0 : forall x, x < 2 ^ f_width F -> f_sigma0 F x = SpecSha2.s0 P x;
  ag_s1 : forall x, x < 2 ^ f_width F -> f_sigma1 F x = SpecSha2.s1 P x
}.

Ltac rot := repeat first
  [ rewrite SHR_shiftr
  | match goal with
    | |- context [rotate_left ?w ?n ?x] =>
        rewrite (rotate_left_ROTR w n (w - n) x) by (assumption || reflexivity)
    end ].

Lemma agree256 : fns_agree fns256 SpecSha2.params256.
Proof.
  constructor; cbn [f_width f_Ch f_Maj f_Sigma0 f_Sigma1 f_sigma0 f_sigma1 fns256
    SpecSha2.width SpecSha2.S0 SpecSha2.S1 SpecSha2.s0 SpecSha2.s1 SpecSha2.params256]; intros.
  - reflexivity.
  - now apply Ch_spec.
  - apply Maj_spec.
  - unfold Sigma0_256. rot. reflexivity.
  - unfold Sigma1_256. rot. reflexivity.
  - unfold sigma0_256. rot. reflexivity.
  - unfold sigma1_256. rot. reflexivity.
Qed.

Lemma agree512 : fns_agree fns512 SpecSha2.params512.
Proof.
  constructor; cbn [f_width f_Ch f_Maj f_Sigma0 f_Sigma1 f_sigma0 f_sigma1 fns512
    SpecSha2.width SpecSha2.S0 SpecSha2.S1 SpecSha2.s0 SpecSha2.s1 SpecSha2.params512]; intros.
  - reflexivity.
  - now apply Ch_spec.
  - apply Maj_spec.
  - unfold Sigma0_512. rot. reflexivity.
  - unfold Sigma1_512. rot. reflexivity.
  - unfold sigma0_512. rot. reflexivity.
  - unfold sigma1_512. rot. reflexivity.
Qed.

(** ** The tables are regular *)

Definition perm (t : nat) : list nat := map (fun i => (i + 8 - t mod 8) mod 8)%nat (seq 0 8).
Definition gen_row (K : list N) (t : nat) : round_row :=
  mk_row (perm t) (nth t K 0) (t mod 16)
    (if Nat.ltb t 16 then None
     else Some ((t + 14) mod 16, (t + 9) mod 16, (t + 1) mod 16)%nat).

Lemma software_rows_gen : software_rows = map (gen_row (SpecSha2.K SpecSha2.params256)) (seq 0 64).
Proof. vm_compute. reflexivity. Qed.
Lemma const_rows_gen : const_rows = map (gen_row (SpecSha2.K SpecSha2.params256)) (seq 0 64).
Proof. vm_compute. reflexivity. Qed.
Lemma sha512_rows_gen : sha512_rows = map (gen_row (SpecSha2.K SpecSha2.params512)) (seq 0 80).
Proof. vm_compute. reflexivity. Qed.

(** ** small-hash rounds are the default rounds *)

Lemma round_macro_fast c F r vars w : (rr_w r < length w)%nat ->
  round_macro c F r (vars, w) = fast_round F r (vars, w).
Proof.
  intros H. unfold round_macro. destruct (small_hash c); [|reflexivity].
  unfold small_round, fast_round. destruct (rr_later r) as [[[i1 i2] i3]|].
  - unfold small_later_round_fn, small_round_fn, fast_round1.
    rewrite get_set_eq by assumption. reflexivity.
  - reflexivity.
Qed.

(** ** Spec schedule *)

Section Schedule.
  Context (P : SpecSha2.sha2_params).

  Lemma extend_length n W : length (SpecSha2.extend P n W) = (n + length W)%nat.
  Proof.
    revert W. induction n as [|n IH]; intros W; [reflexivity|].
    cbn [SpecSha2.extend]. rewrite IH, app_length. cbn. lia.
  Qed.

  Lemma extend_prefix n W : exists X, SpecSha2.extend P n W = W ++ X.
  Proof.
    revert W. induction n as [|n IH]; intros W.
    - exists []. symmetry. apply app_nil_r.
    - cbn [SpecSha2.extend]. destruct (IH (W ++ [SpecSha2.next_word P W])) as [X ->].
      exists (SpecSha2.next_word P W :: X). now rewrite <- app_assoc.
  Qed.

  Lemma extend_nth n W t : (16 <= length W)%nat -> (length W <= t < length W + n)%nat ->
    let V := SpecSha2.extend P n W in
    nth t V 0 = sum (SpecSha2.width P)
      [SpecSha2.s1 P (nth (t - 2) V 0); nth (t - 7) V 0;
       SpecSha2.s0 P (nth (t - 15) V 0); nth (t - 16) V 0].
  Proof.
    revert W. induction n as [|n IH]; intros W HW Ht V; [lia|].
    unfold V. cbn [SpecSha2.extend].
    destruct (Nat.eq_dec t (length W)) as [->|Hne].
    - destruct (extend_prefix n (W ++ [SpecSha2.next_word P W])) as [X ->].
      rewrite <- app_assoc.
      rewrite (app_nth2 W _ 0 (le_n (length W))), Nat.sub_diag.
      rewrite !(app_nth1 W) by lia. reflexivity.
    - apply IH; rewrite app_length; cbn [length]; lia.
  Qed.

  Lemma extend_nth_init n W t : (t < length W)%nat -> nth t (SpecSha2.extend P n W) 0 = nth t W 0.
  Proof. intros H. destruct (extend_prefix n W) as [X ->]. now rewrite app_nth1. Qed.
End Schedule.

(** ** Sums *)

Ltac addmod := repeat (rewrite N.add_mod_idemp_l by lia; rewrite <- ?N.add_assoc).

Lemma sum4 w x y z u : sum w [x; y; z; u] = (x + y + z + u) mod 2 ^ w.
Proof.
  pose proof (pow2_pos w).
  unfold sum, add. cbn [fold_left]. rewrite N.add_0_l.
  addmod. reflexivity.
Qed.
Lemma sum5 w x y z u v : sum w [x; y; z; u; v] = (x + y + z + u + v) mod 2 ^ w.
Proof.
  pose proof (pow2_pos w).
  unfold sum, add. cbn [fold_left]. rewrite N.add_0_l.
  addmod. reflexivity.
Qed.
Lemma wadd4 w x y z u :
  wrapping_add w (wrapping_add w (wrapping_add w x y) z) u = (x + y + z + u) mod 2 ^ w.
Proof.
  pose proof (pow2_pos w). unfold wrapping_add. addmod. reflexivity.
Qed.
Lemma wadd5 w x y z u v :
  wrapping_add w (wrapping_add w (wrapping_add w (wrapping_add w x y) z) u) v
  = (x + y + z + u + v) mod 2 ^ w.
Proof.
  pose proof (pow2_pos w). unfold wrapping_add. addmod. reflexivity.
Qed.

(** ** One round *)

Definition view (t : nat) (vars : list N) : list N := map (get vars) (perm t).
Definition tuple8 (s : N * N * N * N * N * N * N * N) : list N :=
  let '(a, b, c, d, e, f, g, h) := s in [a; b; c; d; e; f; g; h].

Lemma perm_mod t : perm (t mod 8) = perm t.
Proof. unfold perm. now rewrite Nat.mod_mod by lia. Qed.
Lemma perm_S_mod t : perm (S t) = perm (S (t mod 8)).
Proof.
  unfold perm. replace (S (t mod 8) mod 8)%nat with (S t mod 8)%nat; [reflexivity|].
  rewrite <- (Nat.add_1_l (t mod 8)), Nat.add_mod_idemp_r by lia. reflexivity.
Qed.

Lemma list8 (l : list N) : length l = 8%nat ->
  exists a b c d e f g h, l = [a; b; c; d; e; f; g; h].
Proof.
  intros H. do 8 (destruct l as [|? l]; [discriminate|]). destruct l; [|discriminate].
  repeat eexists.
Qed.

Definition T1m F (h e f g k w : N) :=
  wrapping_add (f_width F) (wrapping_add (f_width F) (wrapping_add (f_width F)
    (wrapping_add (f_width F) h (f_Sigma1 F e)) (f_Ch F e f g)) k) w.
Definition T2m F (a b c : N) := wrapping_add (f_width F) (f_Sigma0 F a) (f_Maj F a b c).

Lemma fast_round1_view F t k wi vars w a b c d e f g h :
  length vars = 8%nat -> view t vars = [a; b; c; d; e; f; g; h] ->
  exists vars',
    fast_round1 F (perm t) k wi (vars, w) = (vars', w) /\
    length vars' = 8%nat /\
    view (S t) vars' =
      [wrapping_add (f_width F) (T1m F h e f g k (get w wi)) (T2m F a b c); a; b; c;
       wrapping_add (f_width F) d (T1m F h e f g k (get w wi)); e; f; g].
Proof.
  intros Hl Hv. unfold view in *. rewrite perm_S_mod. rewrite <- (perm_mod t) in Hv |- *.
  pose proof (Nat.mod_upper_bound t 8 ltac:(lia)) as Hr.
  destruct (list8 vars Hl) as (v0 & v1 & v2 & v3 & v4 & v5 & v6 & v7 & ->).
  eexists. split; [unfold fast_round1; reflexivity|].
  set (G := get w wi). clearbody G.
  unfold T1m, T2m. generalize (wrapping_add (f_width F)) as ad. intros ad.
  revert Hv Hr. generalize (t mod 8)%nat as r. intros r Hv Hr.
  do 8 (destruct r as [|r]; [cbn in Hv; injection Hv as <- <- <- <- <- <- <- <-;
    split; reflexivity|]). lia.
Qed.

(** ** All rounds *)

Section Rounds.
  Context (F : sha2_fns) (P : SpecSha2.sha2_params) (c : config).
  Context (AG : fns_agree F P).
  Let w := f_width F.

  (* The model state after [t] rounds against the spec's working variables
     and full schedule [W]. *)
  Definition sim (t : nat) (W : list N) (m : rstate)
      (s : N * N * N * N * N * N * N * N) : Prop :=
    length (fst m) = 8%nat /\ length (snd m) = 16%nat /\
    view t (fst m) = tuple8 s /\ bounded w (tuple8 s) /\
    (forall j, (Nat.max t 16 - 16 <= j < Nat.max t 16)%nat ->
       get (snd m) (j mod 16) = nth j W 0).

  Lemma mod16_inj i j : (i mod 16 = j mod 16 -> i - 16 < j -> j <= i -> i = j)%nat.
  Proof.
    intros H H1 H2. pose proof (Nat.div_mod i 16). pose proof (Nat.div_mod j 16). lia.
  Qed.

  Lemma round_sim t W m s k :
    sim t W m s -> bounded w W -> (t < length W)%nat ->
    ((16 <= t)%nat -> nth t W 0 = sum w
      [SpecSha2.s1 P (nth (t - 2) W 0); nth (t - 7) W 0;
       SpecSha2.s0 P (nth (t - 15) W 0); nth (t - 16) W 0]) ->
    forall row, row = mk_row (perm t) k (t mod 16)
      (if Nat.ltb t 16 then None
       else Some ((t + 14) mod 16, (t + 9) mod 16, (t + 1) mod 16)%nat) ->
    sim (S t) W (round_macro c F row m) (SpecSha2.round P s (k, nth t W 0)).
  Proof.
    intros (Hl8 & Hl16 & Hv & Hb & Hw) HbW HtW Hsched row ->.
    destruct m as [vars wm]. cbn [fst snd] in *.
    assert (Htm : (t mod 16 < 16)%nat) by (apply Nat.mod_upper_bound; lia).
    rewrite round_macro_fast by (cbn [rr_w]; lia).
    destruct s as [[[[[[[a b] c'] d] e] f] g] h]. cbn [tuple8] in *.
    (* the schedule word *)
    assert (HW : exists wm', length wm' = 16%nat /\
      get wm' (t mod 16) = nth t W 0 /\
      (forall j, (Nat.max (S t) 16 - 16 <= j < Nat.max (S t) 16)%nat ->
          get wm' (j mod 16) = nth j W 0) /\
      fast_round F (mk_row (perm t) k (t mod 16)
        (if Nat.ltb t 16 then None
         else Some ((t + 14) mod 16, (t + 9) mod 16, (t + 1) mod 16)%nat)) (vars, wm)
      = fast_round1 F (perm t) k (t mod 16) (vars, wm')).
    { destruct (Nat.ltb_spec t 16) as [Hlt|Hge].
      - exists wm. repeat split; try assumption.
        + apply Hw. lia.
        + intros j Hj. apply Hw. lia.
      - unfold fast_round. cbn [rr_later rr_w rr_vars rr_k].
        match goal with |- context [set wm (t mod 16) ?x] => set (nw := x) end.
        assert (Enw : nw = nth t W 0).
        { rewrite (Hsched Hge). unfold nw. rewrite wadd4, sum4.
          pose proof (Hw (t - 16)%nat ltac:(lia)) as E16.
          pose proof (Hw (t - 2)%nat ltac:(lia)) as E2.
          pose proof (Hw (t - 7)%nat ltac:(lia)) as E7.
          pose proof (Hw (t - 15)%nat ltac:(lia)) as E15.
          replace ((t - 16) mod 16)%nat with (t mod 16)%nat in E16
            by (clear -Hge; dlia).
          replace ((t - 2) mod 16)%nat with ((t + 14) mod 16)%nat in E2
            by (clear -Hge; dlia).
          replace ((t - 7) mod 16)%nat with ((t + 9) mod 16)%nat in E7
            by (clear -Hge; dlia).
          replace ((t - 15) mod 16)%nat with ((t + 1) mod 16)%nat in E15
            by (clear -Hge; dlia).
          rewrite E16, E2, E7, E15.
          assert (HN : forall j, nth j W 0 < 2 ^ w).
          { intros j. destruct (Nat.lt_ge_cases j (length W)) as [Hj|Hj].
            - apply (proj1 (Forall_nth _ _) HbW). exact Hj.
            - rewrite nth_overflow by exact Hj. apply pow2_pos. }
          rewrite (ag_s1 F P AG), (ag_s0 F P AG) by apply HN.
          f_equal. lia. }
        exists (set wm (t mod 16) nw). repeat split.
        + rewrite length_set; lia.
        + rewrite get_set_eq by lia. exact Enw.
        + intros j Hj. destruct (Nat.eq_dec j t) as [->|Hne].
          * rewrite get_set_eq by lia. exact Enw.
          * rewrite get_set_ne; [apply Hw; lia | lia |].
            intros E. apply Hne. symmetry. apply mod16_inj; lia. }
    destruct HW as (wm' & Hl16' & Hgw & Hw' & ->).
    destruct (fast_round1_view F t k (t mod 16) vars wm' a b c' d e f g h Hl8 Hv)
      as (vars' & -> & Hl8' & Hv').
    rewrite Hgw in Hv'.
    assert (HB : forall x, In x [a; b; c'; d; e; f; g; h] -> x < 2 ^ f_width F).
    { apply Forall_forall. exact Hb. }
    assert (ET1 : T1m F h e f g k (nth t W 0)
      = sum (SpecSha2.width P) [h; SpecSha2.S1 P e; SpecSha2.Ch (SpecSha2.width P) e f g; k; nth t W 0]).
    { unfold T1m. rewrite wadd5, sum5.
      rewrite (ag_S1 F P AG), (ag_Ch F P AG), <- (ag_width F P AG) by (apply HB; cbn; tauto).
      reflexivity. }
    assert (ET2 : T2m F a b c' = add (SpecSha2.width P) (SpecSha2.S0 P a) (SpecSha2.Maj a b c')).
    { unfold T2m. rewrite (ag_S0 F P AG), (ag_Maj F P AG), <- (ag_width F P AG) by (apply HB; cbn; tauto).
      reflexivity. }
    rewrite ET1, ET2 in Hv'.
    unfold sim. cbn [fst snd SpecSha2.round tuple8].
    split; [exact Hl8'|]. split; [exact Hl16'|].
    split; [|split].
    - rewrite Hv', (ag_width F P AG). reflexivity.
    - unfold w. repeat constructor; try (apply HB; cbn; tauto);
      rewrite (ag_width F P AG); apply add_lt.
    - exact Hw'.
  Qed.

  Lemma rounds_sim (K W : list N) n : forall t m s,
    sim t W m s -> bounded w W -> (t + n <= length W)%nat ->
    (forall j, (16 <= j < length W)%nat -> nth j W 0 = sum w
      [SpecSha2.s1 P (nth (j - 2) W 0); nth (j - 7) W 0;
       SpecSha2.s0 P (nth (j - 15) W 0); nth (j - 16) W 0]) ->
    sim (t + n) W (fold_left (fun s r => round_macro c F r s) (map (gen_row K) (seq t n)) m)
      (fold_left (SpecSha2.round P) (map (fun j => (nth j K 0, nth j W 0)) (seq t n)) s).
  Proof.
    induction n as [|n IH]; intros t m s Hs HW Hlen Hsched.
    - rewrite Nat.add_0_r. exact Hs.
    - cbn [seq map fold_left]. replace (t + S n)%nat with (S t + n)%nat by lia.
      apply IH; try assumption; [|lia].
      eapply round_sim; try eassumption; try reflexivity; [lia|].
      intros Hge. apply Hsched. lia.
  Qed.
End Rounds.

Lemma combine_nth_map (K W : list N) n : length K = n -> length W = n ->
  combine K W = map (fun j => (nth j K 0, nth j W 0)) (seq 0 n).
Proof.
  revert K W. induction n as [|n IH]; intros K W HK HW.
  - destruct K; [reflexivity|discriminate].
  - destruct K as [|k K]; [discriminate|]. destruct W as [|x W]; [discriminate|].
    cbn [combine seq map]. f_equal. rewrite <- seq_shift, map_map.
    cbn in HK, HW. apply IH; lia.
Qed.

Lemma sum_lt w x l : sum w (x :: l) < 2 ^ w.
Proof.
  unfold sum. cbn [fold_left]. generalize (add_lt w 0 x).
  generalize (add w 0 x) as a.
  induction l as [|y l IH]; intros a Ha; [exact Ha|].
  cbn [fold_left]. apply IH. apply add_lt.
Qed.

Lemma extend_bounded P n W : bounded (SpecSha2.width P) W ->
  bounded (SpecSha2.width P) (SpecSha2.extend P n W).
Proof.
  revert W. induction n as [|n IH]; intros W HW; [exact HW|].
  cbn [SpecSha2.extend]. apply IH. apply Forall_app. split; [exact HW|].
  constructor; [|constructor]. apply sum_lt.
Qed.

Lemma add_all_eq w h v : length h = 8%nat -> length v = 8%nat ->
  add_all w h v = map (fun p => add w (fst p) (snd p)) (combine h v).
Proof.
  intros Hh Hv. destruct (list8 h Hh) as (?&?&?&?&?&?&?&?&->).
  destruct (list8 v Hv) as (?&?&?&?&?&?&?&?&->). reflexivity.
Qed.

(** What the proof needs of a parameter set, beyond the functions. *)
Record params_ok (P : SpecSha2.sha2_params) : Prop := {
  po_rounds : exists q, SpecSha2.rounds P = (8 * q)%nat /\ (16 <= SpecSha2.rounds P)%nat;
  po_K : length (SpecSha2.K P) = SpecSha2.rounds P;
  po_bytes : (0 < SpecSha2.wbytes P)%nat /\ 8 * N.of_nat (SpecSha2.wbytes P) = SpecSha2.width P
}.

Lemma params256_ok : params_ok SpecSha2.params256.
Proof.
  constructor; [exists 8%nat; split; [reflexivity|cbn; lia] | vm_compute; reflexivity | split; [cbn; lia|reflexivity]].
Qed.
Lemma params512_ok : params_ok SpecSha2.params512.
Proof.
  constructor; [exists 10%nat; split; [reflexivity|cbn; lia] | vm_compute; reflexivity | split; [cbn; lia|reflexivity]].
Qed.

Lemma sha2_block F P c h block :
  fns_agree F P -> params_ok P ->
  length h = 8%nat -> bounded (SpecSha2.width P) h ->
  length block = SpecSha2.block_bytes P ->
  add_all (f_width F) h
    (fst (run_rows c F (map (gen_row (SpecSha2.K P)) (seq 0 (SpecSha2.rounds P)))
            (h, be_words (SpecSha2.wbytes P) block)))
  = SpecSha2.compress P h block.
Proof.
  intros AG PO Hh Hb Hl.
  destruct (po_bytes P PO) as [Hk Hkw]. destruct (po_rounds P PO) as (q & Hq & H16).
  set (W := SpecSha2.schedule P block).
  set (W0 := be_words (SpecSha2.wbytes P) block).
  assert (HW0 : length W0 = 16%nat).
  { apply be_words_length; [exact Hk|]. rewrite Hl. unfold SpecSha2.block_bytes. lia. }
  assert (HWl : length W = SpecSha2.rounds P).
  { unfold W, SpecSha2.schedule. rewrite extend_length. fold W0. lia. }
  assert (HWb : bounded (SpecSha2.width P) W).
  { apply extend_bounded. rewrite <- Hkw. now apply be_words_bounded. }
  destruct (list8 h Hh) as (a & b & c0 & d & e & f & g & hh & ->).
  assert (S0 : sim F 0 W ([a; b; c0; d; e; f; g; hh], W0) (a, b, c0, d, e, f, g, hh)).
  { unfold sim. cbn [fst snd tuple8]. split; [reflexivity|]. split; [exact HW0|].
    split; [reflexivity|]. split; [rewrite (ag_width F P AG); exact Hb|].
    intros j Hj. rewrite Nat.mod_small by lia. unfold W, SpecSha2.schedule.
    rewrite extend_nth_init by (fold W0; lia). reflexivity. }
  pose proof (rounds_sim F P c AG (SpecSha2.K P) W (SpecSha2.rounds P) 0 _ _ S0) as HS.
  rewrite <- (ag_width F P AG) in HWb.
  specialize (HS HWb ltac:(lia)).
  assert (Hsched : forall j, (16 <= j < length W)%nat -> nth j W 0 = sum (f_width F)
      [SpecSha2.s1 P (nth (j - 2) W 0); nth (j - 7) W 0;
       SpecSha2.s0 P (nth (j - 15) W 0); nth (j - 16) W 0]).
  { intros j Hj. rewrite (ag_width F P AG). unfold W, SpecSha2.schedule.
    apply extend_nth; fold W0; lia. }
  specialize (HS Hsched).
  unfold SpecSha2.compress. fold W.
  rewrite (combine_nth_map (SpecSha2.K P) W (SpecSha2.rounds P)) by (try apply (po_K P PO); exact HWl).
  unfold run_rows.
  match type of HS with sim _ _ _ ?m ?s => set (M := m) in *; set (S := s) in * end.
  destruct HS as (Hm8 & _ & Hview & _ & _).
  fold W0. fold M. fold S.
  assert (Hview0 : view (0 + SpecSha2.rounds P) (fst M) = fst M).
  { destruct (list8 (fst M) Hm8) as (?&?&?&?&?&?&?&?&E).
    unfold view. rewrite <- perm_mod. cbn [Nat.add]. rewrite Hq, Nat.mul_comm, Nat.mod_mul by lia.
    rewrite E. reflexivity. }
  rewrite Hview0 in Hview. rewrite Hview.
  destruct S as [[[[[[[a' b'] c'] d'] e'] f'] g'] h'].
  cbn [tuple8 add_all]. rewrite (ag_width F P AG). reflexivity.
Qed.

Lemma compress_length P h b : length h = 8%nat -> length (SpecSha2.compress P h b) = 8%nat.
Proof.
  intros H. destruct (list8 h H) as (?&?&?&?&?&?&?&?&->). unfold SpecSha2.compress.
  match goal with |- context [fold_left ?f ?l ?x] => destruct (fold_left f l x) as [[[[[[[? ?] ?] ?] ?] ?] ?] ?] end.
  reflexivity.
Qed.

Lemma compress_bounded P h b : length h = 8%nat ->
  bounded (SpecSha2.width P) (SpecSha2.compress P h b).
Proof.
  intros H. destruct (list8 h H) as (?&?&?&?&?&?&?&?&->). unfold SpecSha2.compress.
  match goal with |- context [fold_left ?f ?l ?x] => destruct (fold_left f l x) as [[[[[[[? ?] ?] ?] ?] ?] ?] ?] end.
  repeat constructor; apply add_lt.
Qed.
