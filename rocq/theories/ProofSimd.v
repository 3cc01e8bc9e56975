(** The SHA-NI block function computes the FIPS 180-4 compression function. *)
From Coq Require Import NArith ZArith List Bool Lia.
From Coq Require Import ZifyBool ZifyNat ZifyN.
From Verif Require Import Base SpecBase ModelEngine ModelSha2Round ModelSimd TablesSimd ModelSha256
  ProofBase ProofSha2.
From Verif Require SpecSha2.
Import ListNotations.
Open Scope N_scope.

Notation P256 := SpecSha2.params256.

(** ** The scalar functions *)

Lemma x_ror_ROTR n x : 0 < n -> n < 32 -> x < 2 ^ 32 -> x_ror n x = ROTR 32 n x.
Proof.
  intros Hn Hn' Hx. rewrite <- (rotate_left_ROTR 32 (32 - n) n x) by lia.
  unfold x_ror, rotate_left. replace (32 - (32 - n)) with n by lia. apply N.lor_comm.
Qed.

Lemma x_S0_spec x : x < 2 ^ 32 -> x_S0 x = SpecSha2.S0 P256 x.
Proof. intros H. unfold x_S0. rewrite !x_ror_ROTR by (assumption || reflexivity). reflexivity. Qed.
Lemma x_S1_spec x : x < 2 ^ 32 -> x_S1 x = SpecSha2.S1 P256 x.
Proof. intros H. unfold x_S1. rewrite !x_ror_ROTR by (assumption || reflexivity). reflexivity. Qed.
Lemma x_s0_spec x : x < 2 ^ 32 -> x_s0 x = SpecSha2.s0 P256 x.
Proof.
  intros H. unfold x_s0. rewrite !x_ror_ROTR by (assumption || reflexivity).
  rewrite <- SHR_shiftr. reflexivity.
Qed.
Lemma x_s1_spec x : x < 2 ^ 32 -> x_s1 x = SpecSha2.s1 P256 x.
Proof.
  intros H. unfold x_s1. rewrite !x_ror_ROTR by (assumption || reflexivity).
  rewrite <- SHR_shiftr. reflexivity.
Qed.
Lemma x_ch_spec x y z : x < 2 ^ 32 -> x_ch x y z = SpecSha2.Ch 32 x y z.
Proof.
  intros H. unfold x_ch, SpecSha2.Ch.
  change (N.lxor x (N.ones 32)) with (bit_not 32 x). now rewrite bit_not_NOT.
Qed.

Lemma x_round_spec s k w : bounded 32 (tuple8 s) ->
  x_round s ((w + k) mod 2 ^ 32) = SpecSha2.round P256 s (k, w).
Proof.
  destruct s as [[[[[[[a b] c] d] e] f] g] h]. intros Hb.
  assert (HB : forall x, In x [a; b; c; d; e; f; g; h] -> x < 2 ^ 32)
    by (apply Forall_forall; exact Hb).
  unfold x_round, SpecSha2.round.
  rewrite x_ch_spec, x_S1_spec, x_S0_spec by (apply HB; cbn; tauto).
  change (x_maj a b c) with (SpecSha2.Maj a b c).
  change (SpecSha2.width P256) with 32. rewrite sum5.
  set (S1e := SpecSha2.S1 P256 e). set (S0a := SpecSha2.S0 P256 a).
  set (ch := SpecSha2.Ch 32 e f g). set (mj := SpecSha2.Maj a b c).
  assert (ET : x_add (x_add (x_add ch S1e) ((w + k) mod 2 ^ 32)) h
             = (h + S1e + ch + k + w) mod 2 ^ 32).
  { unfold x_add.
    rewrite N.add_mod_idemp_r by discriminate.
    rewrite N.add_mod_idemp_l by discriminate.
    rewrite (N.add_mod ((ch + S1e) mod 2 ^ 32 + (w + k))) by discriminate.
    rewrite (N.add_mod_idemp_l (ch + S1e)) by discriminate.
    rewrite <- N.add_mod by discriminate.
    f_equal. lia. }
  rewrite ET. set (T := (h + S1e + ch + k + w) mod 2 ^ 32).
  assert (E1 : x_add (x_add T mj) S0a = add 32 T (add 32 S0a mj)).
  { unfold x_add, add. rewrite N.add_mod_idemp_l, N.add_mod_idemp_r by discriminate.
    f_equal. lia. }
  rewrite E1. f_equal; try reflexivity. do 3 (f_equal; try reflexivity). unfold x_add, add.
  f_equal. lia.
Qed.

Lemma round_bounded s kw : bounded 32 (tuple8 s) ->
  bounded 32 (tuple8 (SpecSha2.round P256 s kw)).
Proof.
  destruct s as [[[[[[[a b] c] d] e] f] g] h]. destruct kw as [k w]. intros Hb.
  assert (HB : forall x, In x [a; b; c; d; e; f; g; h] -> x < 2 ^ 32)
    by (apply Forall_forall; exact Hb).
  cbn [SpecSha2.round tuple8].
  repeat constructor; try (apply HB; cbn; tauto); apply add_lt.
Qed.

(** ** The vector operations on explicit lanes *)

Lemma le4 x : exists p q r s, to_le_bytes 4 x = [p; q; r; s].
Proof. cbn [to_le_bytes]. repeat eexists. Qed.

Lemma le_value_4 x p q r s : x < 2 ^ 32 -> to_le_bytes 4 x = [p; q; r; s] ->
  le_value [p; q; r; s] = x.
Proof.
  intros H E. rewrite <- E, le_value_to_le_bytes. now apply N.mod_small.
Qed.

Ltac lanes := repeat match goal with
  | |- context [to_le_bytes 4 ?x] =>
      let p := fresh "p" in let q := fresh "p" in let r := fresh "p" in let s := fresh "p" in
      let E := fresh "E" in
      destruct (le4 x) as (p & q & r & s & E); rewrite E
  end.

Definition bd (x : N) : Prop := x < 2 ^ 32.

Lemma alignr4 a0 a1 a2 a3 b0 b1 b2 b3 :
  bd a0 -> bd b1 -> bd b2 -> bd b3 ->
  alignr_epi8 [a0; a1; a2; a3] [b0; b1; b2; b3] 4 = [b1; b2; b3; a0].
Proof.
  intros. unfold alignr_epi8, m_bytes. cbn [map]. lanes.
  unfold m_of_bytes. cbn [List.concat app repeat].
  change (N.to_nat 4) with 4%nat. cbn [skipn firstn].
  unfold chunks_exact. cbn [length chunks_exact_fuel Nat.ltb Nat.leb firstn skipn map].
  rewrite (le_value_4 b1), (le_value_4 b2), (le_value_4 b3), (le_value_4 a0) by assumption.
  reflexivity.
Qed.

Lemma alignr8 a0 a1 a2 a3 b0 b1 b2 b3 :
  bd a0 -> bd a1 -> bd b2 -> bd b3 ->
  alignr_epi8 [a0; a1; a2; a3] [b0; b1; b2; b3] 8 = [b2; b3; a0; a1].
Proof.
  intros. unfold alignr_epi8, m_bytes. cbn [map]. lanes.
  unfold m_of_bytes. cbn [List.concat app repeat].
  change (N.to_nat 8) with 8%nat. cbn [skipn firstn].
  unfold chunks_exact. cbn [length chunks_exact_fuel Nat.ltb Nat.leb firstn skipn map].
  rewrite (le_value_4 b2), (le_value_4 b3), (le_value_4 a0), (le_value_4 a1) by assumption.
  reflexivity.
Qed.

Lemma blendF0 a0 a1 a2 a3 b0 b1 b2 b3 :
  bd a0 -> bd a1 -> bd b2 -> bd b3 ->
  blend_epi16 [a0; a1; a2; a3] [b0; b1; b2; b3] 0xF0 = [a0; a1; b2; b3].
Proof.
  intros. unfold blend_epi16, words16, m_bytes. cbn [map]. lanes.
  cbn [List.concat app]. unfold chunks_exact at 1 2.
  cbn [length chunks_exact_fuel Nat.ltb Nat.leb firstn skipn].
  cbn [seq map nth N.of_nat N.testbit Pos.testbit Pos.of_succ_nat Pos.succ Pos.pred_N Pos.pred_double Pos.pred Pos.compare].
  cbn [List.concat app].
  unfold m_of_bytes, chunks_exact. cbn [length chunks_exact_fuel Nat.ltb Nat.leb firstn skipn map].
  rewrite (le_value_4 a0), (le_value_4 a1), (le_value_4 b2), (le_value_4 b3) by assumption.
  reflexivity.
Qed.

Lemma shuf_B1 a0 a1 a2 a3 : shuffle_epi32 [a0; a1; a2; a3] 0xB1 = [a1; a0; a3; a2].
Proof. reflexivity. Qed.
Lemma shuf_1B a0 a1 a2 a3 : shuffle_epi32 [a0; a1; a2; a3] 0x1B = [a3; a2; a1; a0].
Proof. reflexivity. Qed.
Lemma shuf_0E a0 a1 a2 a3 : shuffle_epi32 [a0; a1; a2; a3] 0x0E = [a2; a3; a0; a0].
Proof. reflexivity. Qed.

Lemma list16 {A} (l : list A) : length l = 16%nat -> exists a b c d e f g h i j k m n o p q,
  l = [a; b; c; d; e; f; g; h; i; j; k; m; n; o; p; q].
Proof.
  intros H. do 16 (destruct l as [|? l]; [discriminate|]). destruct l; [|discriminate].
  repeat eexists.
Qed.

Lemma shuffle_load l : length l = 16%nat ->
  shuffle_epi8 (m_of_bytes l) (set_epi64x (fst simd_mask) (snd simd_mask)) = be_words 4 l.
Proof.
  intros H. destruct (list16 l H) as (a&b&c&d&e&f&g&h&i&j&k&m&n&o&p&q&->).
  assert (Em : m_bytes (m_of_bytes [a;b;c;d;e;f;g;h;i;j;k;m;n;o;p;q])
               = [a;b;c;d;e;f;g;h;i;j;k;m;n;o;p;q]).
  { unfold m_of_bytes, chunks_exact.
    cbn [length chunks_exact_fuel Nat.ltb Nat.leb firstn skipn map].
    unfold m_bytes. cbn [map].
    change 4%nat with (length [a; b; c; d]) at 1. rewrite to_le_bytes_le_value.
    change 4%nat with (length [e; f; g; h]) at 1. rewrite to_le_bytes_le_value.
    change 4%nat with (length [i; j; k; m]) at 1. rewrite to_le_bytes_le_value.
    change 4%nat with (length [n; o; p; q]) at 1. rewrite to_le_bytes_le_value.
    reflexivity. }
  unfold shuffle_epi8. rewrite Em.
  assert (Ek : m_bytes (set_epi64x (fst simd_mask) (snd simd_mask))
    = [x03; x02; x01; x00; x07; x06; x05; x04; x0b; x0a; x09; x08; x0f; x0e; x0d; x0c])
    by (vm_compute; reflexivity).
  rewrite Ek. cbn [map].
  match goal with |- m_of_bytes ?l = _ =>
    replace l with [d; c; b; a; h; g; f; e; m; k; j; i; q; p; o; n] by reflexivity end.
  unfold m_of_bytes, chunks_exact.
  cbn [length chunks_exact_fuel Nat.ltb Nat.leb firstn skipn map].
  unfold be_words, blocks. cbn [length Nat.div Nat.divmod fst seq map Nat.mul Nat.add skipn firstn].
  rewrite !le_value_be_int. reflexivity.
Qed.

(** ** Programs by group of four rounds *)

Definition Kn (t : nat) : N := nth t (SpecSha2.K P256) 0.
Definition khi (q : nat) : N := Kn (4 * q + 3) * 2 ^ 32 + Kn (4 * q + 2).
Definition klo (q : nat) : N := Kn (4 * q + 1) * 2 ^ 32 + Kn (4 * q).

Definition mreg (q : nat) : reg :=
  match (q mod 4)%nat with 0%nat => R_msg0 | 1%nat => R_msg1 | 2%nat => R_msg2 | _ => R_msg3 end.

Definition rounds_a (q : nat) : list instr :=
  [AddK R_msg (mreg q) (khi q) (klo q); Rnds2 R_state1 R_state1 R_state0 R_msg].
Definition rounds_b : list instr :=
  [Shuf32 R_msg R_msg 0x0E; Rnds2 R_state0 R_state0 R_state1 R_msg].
Definition schedule_part (q : nat) : list instr :=
  [Alignr8 R_tmp (mreg q) (mreg (q + 3)) 4;
   Add32 (mreg (q + 1)) (mreg (q + 1)) R_tmp;
   Msg2 (mreg (q + 1)) (mreg (q + 1)) (mreg q)].
Definition group (q : nat) : list instr :=
  rounds_a q ++ schedule_part q ++ rounds_b ++ [Msg1 (mreg (q + 3)) (mreg (q + 3)) (mreg q)].
Definition group_nomsg1 (q : nat) : list instr := rounds_a q ++ schedule_part q ++ rounds_b.

Definition prologue : list instr :=
  [LoadH R_tmp 0; LoadH R_state1 4; Shuf32 R_tmp R_tmp 0xB1; Shuf32 R_state1 R_state1 0x1B;
   Alignr8 R_state0 R_tmp R_state1 8; Blend16 R_state1 R_state1 R_tmp 0xF0;
   Mov R_abef_save R_state0; Mov R_cdgh_save R_state1].
Definition g0 : list instr := [LoadBuf R_msg 0; Shuf8Mask R_msg0 R_msg] ++ rounds_a 0 ++ rounds_b.
Definition g1 : list instr := [LoadBuf R_msg1 16; Shuf8Mask R_msg1 R_msg1] ++ rounds_a 1 ++ rounds_b
  ++ [Msg1 R_msg0 R_msg0 R_msg1].
Definition g2 : list instr := [LoadBuf R_msg2 32; Shuf8Mask R_msg2 R_msg2] ++ rounds_a 2 ++ rounds_b
  ++ [Msg1 R_msg1 R_msg1 R_msg2].
Definition g3 : list instr := [LoadBuf R_msg3 48; Shuf8Mask R_msg3 R_msg3].
Definition epilogue : list instr :=
  [Add32 R_state0 R_state0 R_abef_save; Add32 R_state1 R_state1 R_cdgh_save;
   Shuf32 R_tmp R_state0 0x1B; Shuf32 R_state1 R_state1 0xB1; Blend16 R_state0 R_tmp R_state1 0xF0;
   Alignr8 R_state1 R_state1 R_tmp 8; StoreH 0 R_state0; StoreH 4 R_state1].

Lemma program_gen : simd_program =
  prologue ++ g0 ++ g1 ++ g2 ++ g3 ++ List.concat (map group (seq 3 10)) ++
  group_nomsg1 13 ++ group_nomsg1 14 ++ (rounds_a 15 ++ rounds_b) ++ epilogue.
Proof. vm_compute. reflexivity. Qed.

Lemma run_app mask p q s : run_program mask (p ++ q) s
  = let* s' := run_program mask p s in run_program mask q s'.
Proof.
  revert s. induction p as [|i p IH]; intros s; [reflexivity|].
  cbn [app run_program]. destruct (step mask i s); cbn [bind]; [apply IH|reflexivity].
Qed.

(** ** Simulation *)

Section Sim.
  Context (W : list N) (HW : length W = 64%nat) (HbW : bounded 32 W).
  Context (Hsched : forall j, (16 <= j < 64)%nat -> nth j W 0 = sum 32
      [SpecSha2.s1 P256 (nth (j - 2) W 0); nth (j - 7) W 0;
       SpecSha2.s0 P256 (nth (j - 15) W 0); nth (j - 16) W 0]).

  Definition w (t : nat) : N := nth t W 0.
  Lemma w_lt t : bd (w t).
  Proof.
    unfold bd, w. destruct (Nat.lt_ge_cases t (length W)) as [Hj|Hj].
    - apply (proj1 (Forall_nth _ _) HbW). exact Hj.
    - rewrite nth_overflow by exact Hj. now compute.
  Qed.

  Definition quad (q : nat) : m128 := [w (4 * q); w (4 * q + 1); w (4 * q + 2); w (4 * q + 3)].
  (* after sha256msg1 on quad (q-4) and quad (q-3) *)
  Definition half (q : nat) : m128 :=
    [x_add (w (4 * q - 16)) (x_s0 (w (4 * q - 15))); x_add (w (4 * q - 15)) (x_s0 (w (4 * q - 14)));
     x_add (w (4 * q - 14)) (x_s0 (w (4 * q - 13))); x_add (w (4 * q - 13)) (x_s0 (w (4 * q - 12)))].

  Definition spec_at (s0 : N * N * N * N * N * N * N * N) (t : nat) :=
    fold_left (SpecSha2.round P256) (map (fun j => (Kn j, w j)) (seq 0 t)) s0.

  Lemma spec_at_S s0 t : spec_at s0 (S t) = SpecSha2.round P256 (spec_at s0 t) (Kn t, w t).
  Proof. unfold spec_at. rewrite seq_S, map_app, fold_left_app. reflexivity. Qed.

  Lemma spec_at_bounded s0 t : bounded 32 (tuple8 s0) -> bounded 32 (tuple8 (spec_at s0 t)).
  Proof.
    intros H. induction t as [|t IH]; [exact H|]. rewrite spec_at_S. now apply round_bounded.
  Qed.

  Definition abef (s : N * N * N * N * N * N * N * N) : m128 :=
    let '(a, b, c, d, e, f, g, h) := s in [f; e; b; a].
  Definition cdgh (s : N * N * N * N * N * N * N * N) : m128 :=
    let '(a, b, c, d, e, f, g, h) := s in [h; g; d; c].

  Lemma rnds2_spec s k0 k1 w0 w1 x y : bounded 32 (tuple8 s) ->
    let s2 := SpecSha2.round P256 (SpecSha2.round P256 s (k0, w0)) (k1, w1) in
    sha256rnds2 (cdgh s) (abef s) [(w0 + k0) mod 2 ^ 32; (w1 + k1) mod 2 ^ 32; x; y] = abef s2
    /\ cdgh s2 = abef s.
  Proof.
    intros Hb s2. destruct s as [[[[[[[a b] c] d] e] f] g] h].
    unfold sha256rnds2. cbn [cdgh abef lane nth].
    rewrite (x_round_spec (a, b, c, d, e, f, g, h)) by exact Hb.
    rewrite x_round_spec by (apply round_bounded; exact Hb).
    unfold s2. split.
    - destruct (SpecSha2.round P256 (SpecSha2.round P256 (a, b, c, d, e, f, g, h) (k0, w0)) (k1, w1))
        as [[[[[[[a2 b2] c2] d2] e2] f2] g2] h2]. reflexivity.
    - reflexivity.
  Qed.

  Lemma K_lt t : Kn t < 2 ^ 32.
  Proof.
    unfold Kn. destruct (Nat.lt_ge_cases t 64) as [Ht|Ht].
    - assert (H : forallb (fun k => k <? 2 ^ 32) (SpecSha2.K P256) = true) by (vm_compute; reflexivity).
      rewrite forallb_forall in H. apply N.ltb_lt, H, nth_In.
      rewrite (po_K P256 params256_ok). exact Ht.
    - rewrite nth_overflow; [now compute|]. rewrite (po_K P256 params256_ok). exact Ht.
  Qed.

  Lemma add_k q : add_epi32 (quad q) (set_epi64x (khi q) (klo q)) =
    [(w (4 * q) + Kn (4 * q)) mod 2 ^ 32; (w (4 * q + 1) + Kn (4 * q + 1)) mod 2 ^ 32;
     (w (4 * q + 2) + Kn (4 * q + 2)) mod 2 ^ 32; (w (4 * q + 3) + Kn (4 * q + 3)) mod 2 ^ 32].
  Proof.
    unfold add_epi32, quad, set_epi64x, khi, klo. cbn [combine map fst snd].
    assert (HH : forall x y, y < 2 ^ 32 -> (x * 2 ^ 32 + y) mod 2 ^ 32 = y /\ (x * 2 ^ 32 + y) / 2 ^ 32 = x).
    { intros x y Hy. rewrite N.add_comm, N.mod_add, N.div_add by discriminate.
      rewrite N.mod_small, N.div_small by exact Hy. split; reflexivity. }
    destruct (HH (Kn (4 * q + 3)) (Kn (4 * q + 2)) (K_lt _)) as [-> ->].
    destruct (HH (Kn (4 * q + 1)) (Kn (4 * q)) (K_lt _)) as [-> ->].
    reflexivity.
  Qed.

  Context (s0 : N * N * N * N * N * N * N * N) (Hs0 : bounded 32 (tuple8 s0)).
  Context (h0 : list N) (buf : bytes).

  (* registers holding the working state at round t, and everything preserved *)
  Definition at_round (t : nat) (m : simd_state) : Prop :=
    s_regs m R_state0 = abef (spec_at s0 t) /\ s_regs m R_state1 = cdgh (spec_at s0 t) /\
    s_regs m R_abef_save = abef s0 /\ s_regs m R_cdgh_save = cdgh s0 /\
    s_h m = h0 /\ s_buf m = buf.

  (* message registers before group q (4 <= q): quad q, quad (q-1), half (q+1), half (q+2) *)
  Definition msgs (q : nat) (m : simd_state) : Prop :=
    s_regs m (mreg q) = quad q /\ s_regs m (mreg (q + 3)) = quad (q - 1) /\
    s_regs m (mreg (q + 1)) = half (q + 1) /\ s_regs m (mreg (q + 2)) = half (q + 2).

  Lemma mreg_cases q : 
    let r := (mreg q, mreg (q + 1), mreg (q + 2), mreg (q + 3)) in
    r = (R_msg0, R_msg1, R_msg2, R_msg3) \/ r = (R_msg1, R_msg2, R_msg3, R_msg0) \/
    r = (R_msg2, R_msg3, R_msg0, R_msg1) \/ r = (R_msg3, R_msg0, R_msg1, R_msg2).
  Proof.
    unfold mreg. rewrite (Nat.add_mod q 1), (Nat.add_mod q 2), (Nat.add_mod q 3) by lia.
    pose proof (Nat.mod_upper_bound q 4 ltac:(lia)) as H. revert H.
    generalize (q mod 4)%nat as r. intros r H.
    do 4 (destruct r as [|r]; [cbn; tauto|]). lia.
  Qed.

  Lemma four_rounds q :
    spec_at s0 (4 * q + 4) =
    SpecSha2.round P256 (SpecSha2.round P256 (SpecSha2.round P256 (SpecSha2.round P256
      (spec_at s0 (4 * q)) (Kn (4 * q), w (4 * q))) (Kn (4 * q + 1), w (4 * q + 1)))
      (Kn (4 * q + 2), w (4 * q + 2))) (Kn (4 * q + 3), w (4 * q + 3)).
  Proof.
    replace (4 * q + 4)%nat with (S (S (S (S (4 * q))))) by lia.
    rewrite !spec_at_S.
    replace (S (4 * q)) with (4 * q + 1)%nat by lia.
    replace (S (4 * q + 1)) with (4 * q + 2)%nat by lia.
    replace (S (4 * q + 2)) with (4 * q + 3)%nat by lia. reflexivity.
  Qed.

  (* The two SHA256RNDS2 of a group *)
  Lemma rnds_group q :
    let k := add_epi32 (quad q) (set_epi64x (khi q) (klo q)) in
    let st := spec_at s0 (4 * q) in
    let st4 := spec_at s0 (4 * q + 4) in
    let n1 := sha256rnds2 (cdgh st) (abef st) k in
    n1 = cdgh st4 /\
    sha256rnds2 (abef st) (cdgh st4) (shuffle_epi32 k 0x0E) = abef st4.
  Proof.
    cbv zeta. rewrite add_k, shuf_0E.
    pose proof (spec_at_bounded s0 (4 * q) Hs0) as Hb.
    destruct (rnds2_spec (spec_at s0 (4 * q)) (Kn (4 * q)) (Kn (4 * q + 1)) (w (4 * q)) (w (4 * q + 1))
      ((w (4 * q + 2) + Kn (4 * q + 2)) mod 2 ^ 32) ((w (4 * q + 3) + Kn (4 * q + 3)) mod 2 ^ 32) Hb)
      as [E1 E1'].
    set (s2 := SpecSha2.round P256 (SpecSha2.round P256 (spec_at s0 (4 * q))
        (Kn (4 * q), w (4 * q))) (Kn (4 * q + 1), w (4 * q + 1))) in *.
    assert (Hb2 : bounded 32 (tuple8 s2)) by (unfold s2; do 2 apply round_bounded; exact Hb).
    rewrite E1. rewrite <- E1'.
    destruct (rnds2_spec s2 (Kn (4 * q + 2)) (Kn (4 * q + 3)) (w (4 * q + 2)) (w (4 * q + 3))
      ((w (4 * q) + Kn (4 * q)) mod 2 ^ 32) ((w (4 * q) + Kn (4 * q)) mod 2 ^ 32) Hb2)
      as [E2 E2'].
    rewrite four_rounds. fold s2. split; [symmetry; exact E2'|rewrite E2'; exact E2].
  Qed.

  (* The schedule: half (q+1) + alignr, then msg2, is quad (q+1) *)
  Lemma msg2_spec q : (3 <= q < 15)%nat ->
    sha256msg2 (add_epi32 (half (q + 1)) (alignr_epi8 (quad q) (quad (q - 1)) 4)) (quad q) = quad (q + 1).
  Proof.
    intros Hq. unfold quad at 1 2. rewrite alignr4 by apply w_lt.
    unfold half, add_epi32. cbn [combine map fst snd].
    unfold sha256msg2, quad at 1. cbn [lane nth].
    assert (Hj : forall j, (16 <= j < 64)%nat ->
      w j = x_add ((x_add (w (j - 16)) (x_s0 (w (j - 15))) + w (j - 7)) mod 2 ^ 32) (x_s1 (w (j - 2)))).
    { intros j Hj. unfold w at 1. rewrite Hsched by exact Hj. rewrite sum4.
      rewrite x_s0_spec, x_s1_spec by apply w_lt.
      fold (w (j - 2)) (w (j - 7)) (w (j - 15)) (w (j - 16)).
      unfold x_add. rewrite (N.add_mod_idemp_l (w (j - 16) + _)) by discriminate.
      rewrite (N.add_mod_idemp_l) by discriminate. f_equal. lia. }
    unfold quad. cbn [lane nth].
    pose proof (Hj (4 * (q + 1))%nat ltac:(lia)) as J0.
    pose proof (Hj (4 * (q + 1) + 1)%nat ltac:(lia)) as J1.
    pose proof (Hj (4 * (q + 1) + 2)%nat ltac:(lia)) as J2.
    pose proof (Hj (4 * (q + 1) + 3)%nat ltac:(lia)) as J3.
    replace (4 * (q + 1) + 1 - 16)%nat with (4 * (q + 1) - 15)%nat in J1 by lia.
    replace (4 * (q + 1) + 1 - 15)%nat with (4 * (q + 1) - 14)%nat in J1 by lia.
    replace (4 * (q + 1) + 2 - 16)%nat with (4 * (q + 1) - 14)%nat in J2 by lia.
    replace (4 * (q + 1) + 2 - 15)%nat with (4 * (q + 1) - 13)%nat in J2 by lia.
    replace (4 * (q + 1) + 3 - 16)%nat with (4 * (q + 1) - 13)%nat in J3 by lia.
    replace (4 * (q + 1) + 3 - 15)%nat with (4 * (q + 1) - 12)%nat in J3 by lia.
    replace (4 * (q + 1) - 7)%nat with (4 * (q - 1) + 1)%nat in J0 by lia.
    replace (4 * (q + 1) + 1 - 7)%nat with (4 * (q - 1) + 2)%nat in J1 by lia.
    replace (4 * (q + 1) + 2 - 7)%nat with (4 * (q - 1) + 3)%nat in J2 by lia.
    replace (4 * (q + 1) + 3 - 7)%nat with (4 * q)%nat in J3 by lia.
    replace (4 * (q + 1) - 2)%nat with (4 * q + 2)%nat in J0 by lia.
    replace (4 * (q + 1) + 1 - 2)%nat with (4 * q + 3)%nat in J1 by lia.
    replace (4 * (q + 1) + 2 - 2)%nat with (4 * (q + 1))%nat in J2 by lia.
    replace (4 * (q + 1) + 3 - 2)%nat with (4 * (q + 1) + 1)%nat in J3 by lia.
    rewrite <- J0, <- J1, <- J2, <- J3. reflexivity.
  Qed.

  Lemma msg1_spec q : (4 <= q)%nat ->
    sha256msg1 (quad (q - 4)) (quad (q - 3)) = half q.
  Proof.
    intros Hq. unfold sha256msg1, quad, half. cbn [lane nth].
    replace (4 * (q - 4))%nat with (4 * q - 16)%nat by lia.
    replace (4 * q - 16 + 1)%nat with (4 * q - 15)%nat by lia.
    replace (4 * q - 16 + 2)%nat with (4 * q - 14)%nat by lia.
    replace (4 * q - 16 + 3)%nat with (4 * q - 13)%nat by lia.
    replace (4 * (q - 3))%nat with (4 * q - 12)%nat by lia. reflexivity.
  Qed.

  Ltac exec := cbn [run_program step bind app s_regs s_h s_buf].
  Ltac lookup := cbn [upd reg_eqb].

  Lemma group_sim q m : (3 <= q < 13)%nat -> at_round (4 * q) m -> msgs q m ->
    exists m', run_program simd_mask (group q) m = Ok m' /\ at_round (4 * (q + 1)) m' /\ msgs (q + 1) m'.
  Proof.
    intros Hq (R0 & R1 & RS & RT & RH & RB) (M0 & M3 & M1 & M2).
    destruct (rnds_group q) as [G1 G2]. cbv zeta in G1, G2.
    pose proof (msg2_spec q ltac:(lia)) as G3.
    pose proof (msg1_spec (q + 3) ltac:(lia)) as G4.
    replace (q + 3 - 4)%nat with (q - 1)%nat in G4 by lia.
    replace (q + 3 - 3)%nat with q in G4 by lia.
    replace (4 * (q + 1))%nat with (4 * q + 4)%nat by lia.
    unfold group, rounds_a, rounds_b, schedule_part, msgs.
    replace (q + 1 + 3)%nat with (q + 4)%nat by lia.
    replace (q + 1 + 1)%nat with (q + 2)%nat by lia.
    replace (q + 1 + 2)%nat with (q + 3)%nat by lia.
    replace (q + 1 - 1)%nat with q by lia.
    assert (E4 : mreg (q + 4) = mreg q).
    { unfold mreg. replace (q + 4)%nat with (q + 1 * 4)%nat by lia. now rewrite Nat.mod_add by lia. }
    rewrite E4.
    destruct (mreg_cases q) as [E|[E|[E|E]]]; injection E as E0 E1 E2 E3;
    rewrite E0, E1, E2, E3 in *;
    (eexists; split; [exec; reflexivity|]);
    unfold at_round; cbn [s_regs s_h s_buf]; lookup;
    rewrite M0, M1, M2, M3, R0, R1, G1, G2, G3, G4; repeat split; assumption.
  Qed.

  Lemma group_nomsg1_sim q m : (3 <= q < 15)%nat -> at_round (4 * q) m ->
    s_regs m (mreg q) = quad q -> s_regs m (mreg (q + 3)) = quad (q - 1) ->
    s_regs m (mreg (q + 1)) = half (q + 1) ->
    exists m', run_program simd_mask (group_nomsg1 q) m = Ok m' /\ at_round (4 * (q + 1)) m' /\
      s_regs m' (mreg (q + 1)) = quad (q + 1) /\ s_regs m' (mreg q) = quad q /\
      s_regs m' (mreg (q + 2)) = s_regs m (mreg (q + 2)).
  Proof.
    intros Hq (R0 & R1 & RS & RT & RH & RB) M0 M3 M1.
    destruct (rnds_group q) as [G1 G2]. cbv zeta in G1, G2.
    pose proof (msg2_spec q ltac:(lia)) as G3.
    replace (4 * (q + 1))%nat with (4 * q + 4)%nat by lia.
    unfold group_nomsg1, rounds_a, rounds_b, schedule_part.
    destruct (mreg_cases q) as [E|[E|[E|E]]]; injection E as E0 E1 E2 E3;
    rewrite E0, E1, E2, E3 in *;
    (eexists; split; [exec; reflexivity|]);
    unfold at_round; cbn [s_regs s_h s_buf]; lookup;
    rewrite M0, M1, M3, R0, R1, G1, G2, G3; repeat split; assumption.
  Qed.

  Lemma last_group_sim q m : at_round (4 * q) m -> s_regs m (mreg q) = quad q ->
    exists m', run_program simd_mask (rounds_a q ++ rounds_b) m = Ok m' /\ at_round (4 * (q + 1)) m'.
  Proof.
    intros (R0 & R1 & RS & RT & RH & RB) M0.
    destruct (rnds_group q) as [G1 G2]. cbv zeta in G1, G2.
    replace (4 * (q + 1))%nat with (4 * q + 4)%nat by lia.
    unfold rounds_a, rounds_b.
    destruct (mreg_cases q) as [E|[E|[E|E]]]; injection E as E0 E1 E2 E3;
    rewrite E0 in *;
    (eexists; split; [exec; reflexivity|]);
    unfold at_round; cbn [s_regs s_h s_buf]; lookup;
    rewrite M0, R0, R1, G1, G2; repeat split; assumption.
  Qed.

  Lemma groups_sim n : forall q m, (3 <= q)%nat -> (q + n <= 13)%nat -> at_round (4 * q) m -> msgs q m ->
    exists m', run_program simd_mask (List.concat (map group (seq q n))) m = Ok m' /\
      at_round (4 * (q + n)) m' /\ msgs (q + n) m'.
  Proof.
    induction n as [|n IH]; intros q m Hq Hn HA HM.
    - exists m. rewrite Nat.add_0_r. cbn. tauto.
    - cbn [seq map List.concat]. rewrite run_app.
      destruct (group_sim q m ltac:(lia) HA HM) as (m1 & -> & HA1 & HM1). cbn [bind].
      replace (q + S n)%nat with (S q + n)%nat by lia.
      replace (q + 1)%nat with (S q) in * by lia.
      apply IH; try assumption; lia.
  Qed.

  Context (Hbuf : length buf = 64%nat).
  Context (Hw : forall q, (q < 4)%nat -> quad q = be_words 4 (firstn 16 (skipn (16 * q) buf))).

  Lemma load_quad q : (q < 4)%nat ->
    (N.of_nat (16 * q) + 16 <=? len buf) = true /\
    shuffle_epi8 (m_of_bytes (firstn 16 (skipn (16 * q) buf)))
      (set_epi64x (fst simd_mask) (snd simd_mask)) = quad q.
  Proof.
    intros Hq. split.
    - apply N.leb_le. unfold len. rewrite Hbuf. lia.
    - rewrite shuffle_load; [symmetry; now apply Hw|].
      rewrite firstn_length_le; [reflexivity|]. rewrite skipn_length. lia.
  Qed.


  Lemma run_load dst q m : s_buf m = buf -> (q < 4)%nat ->
    step simd_mask (LoadBuf dst (N.of_nat (16 * q))) m
    = Ok (mk_simd (upd (s_regs m) dst (m_of_bytes (firstn 16 (skipn (16 * q) buf)))) (s_h m) buf).
  Proof.
    intros E Hq. destruct (load_quad q Hq) as [L _]. cbn [step]. rewrite E, L, Nat2N.id. reflexivity.
  Qed.

  Definition has (m : simd_state) (r : reg) (v : m128) : Prop := s_regs m r = v.

  Ltac grp L2 G1 G2 G3 :=
    unfold at_round, has; cbn [s_regs s_h s_buf]; lookup; rewrite L2;
    try match goal with H : s_regs _ _ = quad _ |- _ => rewrite H end;
    repeat match goal with H : s_regs _ _ = _ |- _ => rewrite H end;
    rewrite ?G1, ?G2, ?G3; repeat split; assumption || reflexivity.

  Lemma g0_sim m : at_round 0 m ->
    exists m', run_program simd_mask g0 m = Ok m' /\ at_round 4 m' /\ has m' R_msg0 (quad 0).
  Proof.
    intros (R0 & R1 & RS & RT & RH & RB).
    destruct (rnds_group 0) as [G1 G2].
    change (4 * 0 + 4)%nat with 4%nat in G1, G2. change (4 * 0)%nat with 0%nat in G1, G2. destruct (load_quad 0 ltac:(lia)) as [_ L2].
    unfold g0. change 0 with (N.of_nat (16 * 0)) at 1.
    cbn [app run_program]. rewrite (run_load _ 0 m RB) by lia.
    unfold rounds_a, rounds_b. change (mreg 0) with R_msg0.
    eexists. split; [exec; reflexivity|].
    grp L2 G1 G2 G1.
  Qed.

  Lemma g1_sim m : at_round 4 m -> has m R_msg0 (quad 0) ->
    exists m', run_program simd_mask g1 m = Ok m' /\ at_round 8 m' /\ has m' R_msg0 (half 4) /\ has m' R_msg1 (quad 1).
  Proof.
    intros (R0 & R1 & RS & RT & RH & RB) M0. unfold has in M0.
    destruct (rnds_group 1) as [G1 G2].
    change (4 * 1 + 4)%nat with 8%nat in G1, G2. change (4 * 1)%nat with 4%nat in G1, G2. destruct (load_quad 1 ltac:(lia)) as [_ L2].
    pose proof (msg1_spec 4 ltac:(lia)) as G3. cbn [Nat.sub] in G3.
    unfold g1. change 16 with (N.of_nat (16 * 1)) at 1.
    cbn [app run_program]. rewrite (run_load _ 1 m RB) by lia.
    unfold rounds_a, rounds_b. change (mreg 1) with R_msg1.
    eexists. split; [exec; reflexivity|].
    grp L2 G1 G2 G3.
  Qed.

  Lemma g2_sim m : at_round 8 m -> has m R_msg0 (half 4) -> has m R_msg1 (quad 1) ->
    exists m', run_program simd_mask g2 m = Ok m' /\ at_round 12 m' /\ has m' R_msg0 (half 4)
      /\ has m' R_msg1 (half 5) /\ has m' R_msg2 (quad 2).
  Proof.
    intros (R0 & R1 & RS & RT & RH & RB) M0 M1. unfold has in M0, M1.
    destruct (rnds_group 2) as [G1 G2].
    change (4 * 2 + 4)%nat with 12%nat in G1, G2. change (4 * 2)%nat with 8%nat in G1, G2. destruct (load_quad 2 ltac:(lia)) as [_ L2].
    pose proof (msg1_spec 5 ltac:(lia)) as G3. cbn [Nat.sub] in G3.
    unfold g2. change 32 with (N.of_nat (16 * 2)) at 1.
    cbn [app run_program]. rewrite (run_load _ 2 m RB) by lia.
    unfold rounds_a, rounds_b. change (mreg 2) with R_msg2.
    eexists. split; [exec; reflexivity|].
    grp L2 G1 G2 G3.
  Qed.

  Lemma g3_sim m : at_round 12 m -> has m R_msg0 (half 4) -> has m R_msg1 (half 5) -> has m R_msg2 (quad 2) ->
    exists m', run_program simd_mask g3 m = Ok m' /\ at_round 12 m' /\ msgs 3 m'.
  Proof.
    intros (R0 & R1 & RS & RT & RH & RB) M0 M1 M2. unfold has in M0, M1, M2.
    destruct (load_quad 3 ltac:(lia)) as [_ L2].
    unfold g3. change 48 with (N.of_nat (16 * 3)) at 1.
    cbn [app run_program]. rewrite (run_load _ 3 m RB) by lia.
    eexists. split; [exec; reflexivity|]. unfold msgs.
    change (mreg 3) with R_msg3. change (mreg (3 + 1)) with R_msg0.
    change (mreg (3 + 2)) with R_msg1. change (mreg (3 + 3)) with R_msg2.
    unfold at_round, has; cbn [s_regs s_h s_buf]; lookup. rewrite L2. repeat split; assumption.
  Qed.

  Lemma rounds_program m : at_round 0 m ->
    exists m', run_program simd_mask (g0 ++ g1 ++ g2 ++ g3 ++ List.concat (map group (seq 3 10)) ++
      group_nomsg1 13 ++ group_nomsg1 14 ++ (rounds_a 15 ++ rounds_b)) m = Ok m' /\ at_round 64 m'.
  Proof.
    intros H.
    destruct (g0_sim m H) as (m0 & E0 & A0 & B0).
    destruct (g1_sim m0 A0 B0) as (m1 & E1 & A1 & B1 & B1').
    destruct (g2_sim m1 A1 B1 B1') as (m2 & E2 & A2 & B2 & B2' & B2'').
    destruct (g3_sim m2 A2 B2 B2' B2'') as (m3 & E3 & A3 & B3).
    destruct (groups_sim 10 3 m3 ltac:(lia) ltac:(lia) A3 B3) as (m4 & E4 & A4 & B4).
    change (3 + 10)%nat with 13%nat in *.
    destruct B4 as (B40 & B43 & B41 & B42).
    destruct (group_nomsg1_sim 13 m4 ltac:(lia) A4 B40 B43 B41) as (m5 & E5 & A5 & B5 & B5' & B5'').
    change (13 + 1)%nat with 14%nat in *. change (13 + 2)%nat with 15%nat in *.
    destruct (group_nomsg1_sim 14 m5 ltac:(lia) A5 B5 B5') as (m6 & E6 & A6 & B6 & _ & _).
    { change (14 + 1)%nat with 15%nat. rewrite B5''. exact B42. }
    change (14 + 1)%nat with 15%nat in *.
    destruct (last_group_sim 15 m6 A6 B6) as (m7 & E7 & A7).
    change (4 * (15 + 1))%nat with 64%nat in *.
    exists m7. split; [|exact A7].
    rewrite run_app, E0. cbn [bind]. rewrite run_app, E1. cbn [bind]. rewrite run_app, E2. cbn [bind].
    rewrite run_app, E3. cbn [bind]. rewrite run_app, E4. cbn [bind]. rewrite run_app, E5. cbn [bind].
    rewrite run_app, E6. cbn [bind]. exact E7.
  Qed.
End Sim.

Lemma blocks_16 (b : bytes) q : length b = 64%nat -> (q < 4)%nat ->
  be_words 4 (firstn 16 (skipn (16 * q) b))
  = map (fun j => nth j (be_words 4 b) 0) [4 * q; 4 * q + 1; 4 * q + 2; 4 * q + 3]%nat.
Proof.
  intros Hb Hq. do 64 (destruct b as [|? b]; [discriminate|]). destruct b; [|discriminate].
  unfold be_words, blocks.
  do 4 (destruct q as [|q]; [reflexivity|]). lia.
Qed.

Lemma firstn4 {A} (a b c d e f g h : A) : firstn 4 [a; b; c; d; e; f; g; h] = [a; b; c; d].
Proof. reflexivity. Qed.

Theorem simd_block e :
  length (e_buffer e) = 64%nat -> length (e_h e) = 8%nat /\ bounded 32 (e_h e) ->
  simd_process_block e
  = Ok (mk_engine (e_buffer e) (SpecSha2.compress P256 (e_h e) (e_buffer e)) (e_length e)).
Proof.
  destruct e as [buf h0 L]. cbn [e_buffer e_h e_length]. intros Hbuf [Hh Hb].
  destruct (list8 h0 Hh) as (a & b & c & d & e & f & g & h & ->).
  set (W := SpecSha2.schedule P256 buf).
  assert (HW0 : length (be_words 4 buf) = 16%nat) by (apply be_words_length; [lia|rewrite Hbuf; reflexivity]).
  assert (HWl : length W = 64%nat).
  { unfold W, SpecSha2.schedule. rewrite extend_length. cbn [SpecSha2.rounds P256 SpecSha2.wbytes].
    rewrite HW0. reflexivity. }
  assert (HWb : bounded 32 W).
  { apply (extend_bounded P256). change (SpecSha2.width P256) with (8 * N.of_nat 4).
    apply be_words_bounded. cbn. lia. }
  assert (Hsched : forall j, (16 <= j < 64)%nat -> nth j W 0 = sum 32
      [SpecSha2.s1 P256 (nth (j - 2) W 0); nth (j - 7) W 0;
       SpecSha2.s0 P256 (nth (j - 15) W 0); nth (j - 16) W 0]).
  { intros j Hj. unfold W, SpecSha2.schedule.
    apply (extend_nth P256); cbn [SpecSha2.rounds P256 SpecSha2.wbytes]; rewrite HW0; lia. }
  assert (Hw : forall q, (q < 4)%nat -> quad W q = be_words 4 (firstn 16 (skipn (16 * q) buf))).
  { intros q Hq. rewrite blocks_16 by assumption. unfold quad, w, W, SpecSha2.schedule. cbn [map].
    rewrite !extend_nth_init; [reflexivity|..]; cbn [SpecSha2.wbytes P256]; rewrite HW0; lia. }
  assert (HB : forall x, In x [a; b; c; d; e; f; g; h] -> bd x) by (apply Forall_forall; exact Hb).
  unfold simd_process_block. cbn [e_buffer e_h e_length]. rewrite program_gen.
  set (s0 := (a, b, c, d, e, f, g, h)).
  assert (HP : exists m, run_program simd_mask prologue (simd_init [a; b; c; d; e; f; g; h] buf) = Ok m
      /\ at_round W s0 [a; b; c; d; e; f; g; h] buf 0 m).
  { eexists. split.
    - unfold prologue, simd_init. cbn [run_program step bind s_regs s_h s_buf].
      change (0 + 4 <=? len [a; b; c; d; e; f; g; h]) with true.
      change (4 + 4 <=? len [a; b; c; d; e; f; g; h]) with true.
      cbn [run_program step bind s_regs s_h s_buf]. reflexivity.
    - unfold at_round. cbn [s_regs s_h s_buf upd reg_eqb].
      change (firstn 4 (skipn (N.to_nat 0) [a; b; c; d; e; f; g; h])) with [a; b; c; d].
      change (firstn 4 (skipn (N.to_nat 4) [a; b; c; d; e; f; g; h])) with [e; f; g; h].
      rewrite shuf_B1, shuf_1B, alignr8, blendF0 by (apply HB; cbn; tauto).
      cbn [spec_at seq map fold_left abef cdgh s0]. tauto. }
  destruct HP as (m1 & E1 & A1). rewrite run_app, E1. cbn [bind].
  destruct (rounds_program W HWl HWb Hsched s0 Hb _ buf Hbuf Hw m1 A1) as (m2 & E2 & A2).
  rewrite !app_assoc in E2. rewrite !app_assoc. rewrite run_app, E2. cbn [bind].
  unfold SpecSha2.compress. fold W. fold s0.
  rewrite (combine_nth_map (SpecSha2.K P256) W 64 (po_K P256 params256_ok) HWl).
  assert (ES : spec_at W s0 64 = fold_left (SpecSha2.round P256)
    (map (fun j => (nth j (SpecSha2.K P256) 0, nth j W 0)) (seq 0 64)) s0)
    by (unfold spec_at, Kn, w; reflexivity).
  rewrite <- ES.
  pose proof (spec_at_bounded W s0 64 Hb) as Hb64.
  destruct A2 as (R0 & R1 & RS & RT & RH & RB).
  destruct (spec_at W s0 64) as [[[[[[[a' b'] c'] d'] e'] f'] g'] h'].
  cbn [abef cdgh s0] in R0, R1, RS, RT.
  unfold epilogue. cbn [run_program step bind s_regs s_h s_buf upd reg_eqb].
  rewrite RH. change (0 + 4 <=? len [a; b; c; d; e; f; g; h]) with true.
  cbn [run_program step bind s_regs s_h s_buf upd reg_eqb].
  change (firstn (N.to_nat 0) [a; b; c; d; e; f; g; h]) with (@nil N).
  change (skipn (N.to_nat 0 + 4) [a; b; c; d; e; f; g; h]) with [e; f; g; h].
  rewrite R0, R1, RS, RT. unfold add_epi32. cbn [combine map fst snd].
  assert (HM : forall x y, bd ((x + y) mod 2 ^ 32)) by (intros; apply N.mod_lt; discriminate).
  rewrite shuf_1B, shuf_B1, blendF0, alignr8 by apply HM.
  cbn [app]. change (4 + 4 <=? len _) with true.
  cbn [bind s_h e_buffer e_length].
  change (N.to_nat 4) with 4%nat. change (4 + 4)%nat with 8%nat.
  cbn [firstn skipn app]. unfold add. change (SpecSha2.width P256) with 32.
  rewrite (N.add_comm a), (N.add_comm b), (N.add_comm c), (N.add_comm d),
    (N.add_comm e), (N.add_comm f), (N.add_comm g), (N.add_comm h). reflexivity.
Qed.
