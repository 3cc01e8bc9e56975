(** SipHash-2-4: complete behaviour of the engine. *)
From Coq Require Import NArith ZArith List Bool Lia.
From Coq Require Import ZifyBool ZifyNat ZifyN.
From Verif Require Import Base SpecBase SpecMac ModelEngine ModelSip ModelAll SpecApi ProofBase ProofApi ProofConst.
Import ListNotations.
Open Scope N_scope.

Definition st_of (v : N * N * N * N) : sip_state :=
  let '(a, b, c, d) := v in mk_sip a b c d.
Definition vb (v : N * N * N * N) : Prop :=
  let '(a, b, c, d) := v in a < 2 ^ 64 /\ b < 2 ^ 64 /\ c < 2 ^ 64 /\ d < 2 ^ 64.

Lemma sip_compress_ok v : vb v -> sip_compress (st_of v) = st_of (sip_round v) /\ vb (sip_round v).
Proof.
  destruct v as [[[a b] c] d]. intros (Ha & Hb & Hc & Hd).
  unfold st_of, sip_compress, sip_round. rewrite !wrapping_add_add.
  assert (HA : forall x y, add 64 x y < 2 ^ 64) by (intros; apply add_lt).
  assert (HX : forall x y, x < 2 ^ 64 -> y < 2 ^ 64 -> N.lxor x y < 2 ^ 64) by (intros; now apply lxor_lt).
  assert (HR : forall n x, x < 2 ^ 64 -> ROTL 64 n x < 2 ^ 64) by (intros; now apply ROTL_lt).
  repeat match goal with
  | |- context [rotate_left 64 ?n ?x] =>
      rewrite (rotate_left_ROTL 64 n x) by (try reflexivity; auto 6)
  end.
  split; [reflexivity|]. unfold vb. auto 10.
Qed.

Lemma c_rounds_ok v : vb v -> c_rounds (st_of v) = st_of (Nat.iter 2 sip_round v) /\ vb (Nat.iter 2 sip_round v).
Proof.
  intros H. unfold c_rounds. cbn [Nat.iter nat_rect].
  destruct (sip_compress_ok v H) as [-> H1]. now apply sip_compress_ok.
Qed.

Lemma d_rounds_ok v : vb v -> d_rounds (st_of v) = st_of (Nat.iter 4 sip_round v) /\ vb (Nat.iter 4 sip_round v).
Proof.
  intros H. unfold d_rounds. cbn [Nat.iter nat_rect].
  destruct (sip_compress_ok v H) as [-> H1]. destruct (sip_compress_ok _ H1) as [-> H2].
  destruct (sip_compress_ok _ H2) as [-> H3]. now apply sip_compress_ok.
Qed.

Lemma sip_absorb_ok v m : vb v -> m < 2 ^ 64 -> sip_absorb (st_of v) m = st_of (sip_word v m) /\ vb (sip_word v m).
Proof.
  destruct v as [[[a b] c] d]. intros (Ha & Hb & Hc & Hd) Hm.
  unfold sip_absorb, sip_word. cbn [st_of v0 v1 v2 v3].
  assert (HV : vb (a, b, c, N.lxor d m)) by (repeat split; try assumption; now apply lxor_lt).
  destruct (c_rounds_ok _ HV) as [E H]. cbn [st_of] in E. rewrite E. clear E.
  destruct (Nat.iter 2 sip_round (a, b, c, N.lxor d m)) as [[[a' b'] c'] d'].
  cbn [st_of v0 v1 v2 v3]. destruct H as (Ha' & Hb' & Hc' & Hd').
  split; [reflexivity|]. repeat split; try assumption. now apply lxor_lt.
Qed.

Lemma sip_words_ok ws : forall v, vb v -> bounded 64 ws ->
  fold_left sip_absorb ws (st_of v) = st_of (fold_left sip_word ws v) /\ vb (fold_left sip_word ws v).
Proof.
  induction ws as [|m ws IH]; intros v Hv Hb; [now split|]. inversion Hb; subst.
  cbn [fold_left]. destruct (sip_absorb_ok v m Hv) as [-> H']; [assumption|]. now apply IH.
Qed.

(** ** Loads *)

Lemma le_value_app a b : le_value (a ++ b) = le_value a + 2 ^ (8 * len a) * le_value b.
Proof.
  induction a as [|x a IH].
  - change (len []) with 0. cbn [app le_value]. change (2 ^ (8 * 0)) with 1. lia.
  - cbn [app le_value]. rewrite IH. unfold len. cbn [length].
    replace (8 * N.of_nat (S (length a))) with (8 + 8 * N.of_nat (length a)) by lia.
    rewrite N.pow_add_r. change (2 ^ 8) with 256. lia.
Qed.

Lemma load_int_le_ok c k buf i : i + N.of_nat k <= len buf ->
  load_int_le c k buf i = Ok (le_value (firstn k (skipn (N.to_nat i) buf))).
Proof.
  intros H. unfold load_int_le. assert (E : (i + N.of_nat k <=? len buf) = true) by (now apply N.leb_le).
  rewrite E. unfold debug_assert, assert. replace (if debug_assertions c then Ok tt else Ok tt) with (@Ok unit tt)
    by (destruct (debug_assertions c); reflexivity). cbn [bind].
  assert (HL : length (firstn k (skipn (N.to_nat i) buf)) = k).
  { apply firstn_length_le. rewrite skipn_length. unfold len in H. lia. }
  set (raw := firstn k (skipn (N.to_nat i) buf)) in *. destruct (big_endian c); [|reflexivity].
  unfold swap_bytes. rewrite <- HL at 1. rewrite <- (rev_length raw), to_le_bytes_le_value, rev_involutive.
  reflexivity.
Qed.

Lemma debug_assert_ok c b : b = true -> debug_assert c b = Ok tt.
Proof. intros ->. unfold debug_assert. destruct (debug_assertions c); reflexivity. Qed.

Lemma lor_add x y n : x < 2 ^ n -> N.lor x (y * 2 ^ n) = x + 2 ^ n * y.
Proof. intros H. rewrite N.lor_comm, lor_shift_add by exact H. lia. Qed.

Lemma shl64_ok c x n : n < 64 -> x * 2 ^ n < 2 ^ 64 -> shl64 c x n = Ok (x * 2 ^ n).
Proof.
  intros Hn Hx. unfold shl64. destruct (N.ltb_spec n 64); [|lia].
  rewrite N.shiftl_mul_pow2, N.mod_small by exact Hx. reflexivity.
Qed.

Lemma u8to64_le_ok c buf start n : n < 8 -> start + n <= len buf ->
  u8to64_le c buf start n = Ok (le_value (firstn (N.to_nat n) (skipn (N.to_nat start) buf))).
Proof.
  intros Hn Hl. unfold u8to64_le. rewrite debug_assert_ok by (now apply N.ltb_lt). cbn [bind].
  set (s := skipn (N.to_nat start) buf).
  assert (Hs : n <= len s) by (unfold s, len in *; rewrite skipn_length; lia).
  (* the three kinds of access, in terms of [s] *)
  assert (HL : forall k i, i + N.of_nat k <= n -> load_int_le c k buf (start + i) = Ok (le_value (firstn k (skipn (N.to_nat i) s)))).
  { intros k i Hi. rewrite load_int_le_ok by lia. unfold s. rewrite skipn_skipn'.
    do 4 f_equal. lia. }
  assert (HG : forall i, i < n -> get_unchecked buf (start + i) = Ok (nth (N.to_nat i) s x00)).
  { intros i Hi. unfold get_unchecked.
    assert (E : index buf (start + i) = Ok (nth (N.to_nat i) s x00)).
    { apply index_skipn. fold s. apply nth_error_nth'. unfold len in Hs. lia. }
    unfold index in E. destruct (nth_error buf (N.to_nat (start + i))); [exact E|discriminate]. }
  clearbody s. clear Hl.
  assert (HV : forall l, le_value l < 2 ^ (8 * len l)) by (intros; apply le_value_lt).
  assert (Hlen : forall k i, i + N.of_nat k <= n -> len (firstn k (skipn (N.to_nat i) s)) = N.of_nat k).
  { intros k i Hi. unfold len in *. rewrite firstn_length_le; [reflexivity|]. rewrite skipn_length. lia. }
  (* finish from partial value *)
  assert (Hsplit : forall k i, i + N.of_nat k <= n ->
    le_value (firstn (N.to_nat i + k) s) =
    le_value (firstn (N.to_nat i) s) + 2 ^ (8 * i) * le_value (firstn k (skipn (N.to_nat i) s))).
  { intros k i Hi.
    assert (E : firstn (N.to_nat i + k) s = firstn (N.to_nat i) s ++ firstn k (skipn (N.to_nat i) s)).
    { rewrite <- (firstn_skipn (N.to_nat i) s) at 1.
      rewrite firstn_app. rewrite firstn_firstn.
      replace (Nat.min (N.to_nat i + k) (N.to_nat i)) with (N.to_nat i) by lia.
      rewrite firstn_length_le by (unfold len in Hs; lia).
      replace (N.to_nat i + k - N.to_nat i)%nat with k by lia. reflexivity. }
    rewrite E, le_value_app. do 3 f_equal. unfold len in *. rewrite firstn_length_le by lia. lia. }
  assert (Hbnd : forall i, i <= n -> le_value (firstn (N.to_nat i) s) < 2 ^ (8 * i)).
  { intros i Hi. specialize (HV (firstn (N.to_nat i) s)). unfold len in *.
    rewrite firstn_length_le in HV by lia. now rewrite N2Nat.id in HV. }
  assert (HB1 : forall i, i < n -> firstn 1 (skipn (N.to_nat i) s) = [nth (N.to_nat i) s x00]).
  { intros i Hi. rewrite (skipn_nth x00) by (unfold len in Hs; lia). reflexivity. }
  (* state after each step: value of the first i bytes *)
  assert (S1 : (if 0 + 3 <? n then let* x := load_int_le c 4 buf (start + 0) in Ok (x, 4) else Ok (0, 0))
    = Ok (let i := if 3 <? n then 4 else 0 in (le_value (firstn (N.to_nat i) s), i))).
  { rewrite N.add_0_l. destruct (N.ltb_spec 3 n) as [H3|H3]; [|reflexivity].
    rewrite (HL 4%nat 0) by lia. reflexivity. }
  rewrite S1. cbn [bind]. set (i1 := if 3 <? n then 4 else 0).
  assert (Hi1 : i1 <= n /\ n < i1 + 4 /\ (i1 = 0 \/ i1 = 4)) by (unfold i1; destruct (N.ltb_spec 3 n); lia).
  clearbody i1. clear S1.
  assert (S2 : (if i1 + 1 <? n then
      let* x := load_int_le c 2 buf (start + i1) in
      let* x := shl64 c x (i1 * 8) in
      Ok (N.lor (le_value (firstn (N.to_nat i1) s)) x, i1 + 2)
    else Ok (le_value (firstn (N.to_nat i1) s), i1))
    = Ok (let i := if i1 + 1 <? n then i1 + 2 else i1 in (le_value (firstn (N.to_nat i) s), i))).
  { destruct (N.ltb_spec (i1 + 1) n) as [H|H]; [|reflexivity].
    rewrite (HL 2%nat i1) by lia. cbn [bind].
    assert (Hx := HV (firstn 2 (skipn (N.to_nat i1) s))). rewrite (Hlen 2%nat i1) in Hx by lia.
    change (2 ^ (8 * N.of_nat 2)) with 65536 in Hx.
    rewrite shl64_ok; [| lia |].
    2: { destruct Hi1 as (_ & _ & [-> | ->]); [change (2 ^ (0 * 8)) with 1|change (2 ^ (4 * 8)) with (2 ^ 32)]; lia. }
    cbn [bind]. rewrite (N.mul_comm i1 8), lor_add by (apply Hbnd; lia).
    cbn zeta. replace (N.to_nat (i1 + 2)) with (N.to_nat i1 + 2)%nat by lia.
    rewrite Hsplit by lia. reflexivity. }
  rewrite S2. cbn [bind]. set (i2 := if i1 + 1 <? n then i1 + 2 else i1).
  assert (Hi2 : i2 <= n /\ n <= i2 + 1 /\ i2 <= 6) by (unfold i2; destruct (N.ltb_spec (i1 + 1) n); lia).
  clearbody i2. clear S2.
  assert (S3 : (if i2 <? n then
      let* b := get_unchecked buf (start + i2) in
      let* x := shl64 c (b2n b) (i2 * 8) in
      Ok (N.lor (le_value (firstn (N.to_nat i2) s)) x, i2 + 1)
    else Ok (le_value (firstn (N.to_nat i2) s), i2))
    = Ok (le_value (firstn (N.to_nat n) s), n)).
  { destruct (N.ltb_spec i2 n) as [H|H].
    - rewrite HG by lia. cbn [bind]. pose proof (b2n_lt (nth (N.to_nat i2) s x00)) as Hb.
      rewrite shl64_ok; [| lia |].
      2: { assert (HP : 2 ^ (i2 * 8) <= 2 ^ 48) by (apply N.pow_le_mono_r; lia).
           change (2 ^ 64) with (256 * (256 * 2 ^ 48)).
           assert (b2n (nth (N.to_nat i2) s x00) * 2 ^ (i2 * 8) <= 255 * 2 ^ 48)
             by (apply N.mul_le_mono; lia). lia. }
      cbn [bind]. rewrite (N.mul_comm i2 8), lor_add by (apply Hbnd; lia).
      do 2 f_equal; [|lia]. replace (N.to_nat n) with (N.to_nat i2 + 1)%nat by lia.
      rewrite Hsplit by lia. rewrite HB1 by lia. cbn [le_value]. lia.
    - do 2 f_equal; [|lia]. do 2 f_equal. lia. }
  rewrite S3. cbn [bind]. rewrite debug_assert_ok by apply N.eqb_refl. reflexivity.
Qed.

(** ** The absorbing loop *)

Lemma le_words_values l : le_words 8 l = map le_value (blocks 8 l).
Proof. unfold le_words. apply map_ext. intros x. symmetry. apply le_value_le_int. Qed.

Lemma le_words_app a b : (length a mod 8 = 0)%nat -> le_words 8 (a ++ b) = le_words 8 a ++ le_words 8 b.
Proof. intros H. unfold le_words. rewrite blocks_app by (try exact H; lia). apply map_app. Qed.

Lemma le_words_cons a b : length a = 8%nat -> le_words 8 (a ++ b) = le_value a :: le_words 8 b.
Proof.
  intros H. rewrite !le_words_values, blocks_cons by (try exact H; lia). reflexivity.
Qed.

Lemma sip_loop_ok c data stop : len data < 2 ^ usize_bits c -> forall fuel i q s,
  i + 8 * N.of_nat q <= len data -> i + 8 * N.of_nat q < stop + 8 -> stop <= i + 8 * N.of_nat q ->
  (q <= fuel)%nat ->
  sip_loop fuel c data stop i s =
  Ok (fold_left sip_absorb (le_words 8 (firstn (8 * q) (skipn (N.to_nat i) data))) s, i + 8 * N.of_nat q).
Proof.
  intros HM. induction fuel as [|f IH]; intros i q s H1 H2 H3 Hq.
  - assert (q = 0)%nat by lia. subst q. cbn [sip_loop]. destruct (N.ltb_spec i stop); [lia|].
    cbn [Nat.mul firstn]. unfold le_words. rewrite blocks_nil. do 2 f_equal. lia.
  - cbn [sip_loop]. destruct (N.ltb_spec i stop) as [Hlt|Hge].
    + destruct q as [|q]; [lia|]. rewrite load_int_le_ok by lia. cbn [bind].
      rewrite usize_add_ok by lia. cbn [bind].
      rewrite (IH (i + 8) q) by lia.
      set (t := skipn (N.to_nat i) data).
      assert (Ht : (8 + 8 * q <= length t)%nat) by (unfold t, len in *; rewrite skipn_length; lia).
      assert (E : firstn (8 * S q) t = firstn 8 t ++ firstn (8 * q) (skipn (N.to_nat (i + 8)) data)).
      { replace (skipn (N.to_nat (i + 8)) data) with (skipn 8 t).
        2: { unfold t. rewrite skipn_skipn'. f_equal. lia. }
        replace (8 * S q)%nat with (8 + 8 * q)%nat by lia.
        rewrite <- (firstn_skipn 8 t) at 1. rewrite firstn_app, firstn_firstn, firstn_length_le by lia.
        replace (Nat.min (8 + 8 * q) 8) with 8%nat by lia.
        replace (8 + 8 * q - 8)%nat with (8 * q)%nat by lia. reflexivity. }
      rewrite E, le_words_cons by (apply firstn_length_le; lia). cbn [fold_left].
      do 2 f_equal. lia.
    + assert (q = 0)%nat by lia. subst q.
      cbn [Nat.mul firstn]. unfold le_words. rewrite blocks_nil. do 2 f_equal. lia.
Qed.

(** the complete words of a string and what is left over *)
Definition whole (l : bytes) : bytes := firstn (8 * (length l / 8)) l.
Definition over (l : bytes) : bytes := skipn (8 * (length l / 8)) l.

Lemma whole_over l : whole l ++ over l = l. Proof. apply firstn_skipn. Qed.
Lemma whole_length l : length (whole l) = (8 * (length l / 8))%nat.
Proof. apply firstn_length_le. apply Nat.mul_div_le. lia. Qed.
Lemma whole_mod l : (length (whole l) mod 8 = 0)%nat.
Proof. rewrite whole_length, Nat.mul_comm. apply Nat.mod_mul. lia. Qed.
Lemma over_length l : length (over l) = (length l mod 8)%nat.
Proof. unfold over. rewrite skipn_length. rewrite (Nat.div_mod (length l) 8) at 1 by lia. lia. Qed.
Lemma over_lt l : (length (over l) < 8)%nat.
Proof. rewrite over_length. apply Nat.mod_upper_bound. lia. Qed.
Lemma split_unique a b : (length a mod 8 = 0)%nat -> (length b < 8)%nat ->
  whole (a ++ b) = a /\ over (a ++ b) = b.
Proof.
  intros Ha Hb.
  assert (E : (8 * (length (a ++ b) / 8) = length a)%nat).
  { rewrite app_length. apply Nat.mod_divides in Ha; [|lia]. destruct Ha as (k & ->).
    rewrite (Nat.mul_comm 8 k), Nat.div_add_l by lia. rewrite (Nat.div_small (length b)) by lia. lia. }
  unfold whole, over. rewrite E. split; [now apply firstn_app_exact|now apply skipn_app_exact].
Qed.
Lemma le_words_whole l : le_words 8 (whole l) = le_words 8 l.
Proof.
  rewrite <- (whole_over l) at 2. rewrite le_words_app by apply whole_mod.
  unfold le_words at 3. rewrite blocks_short by apply over_lt. now rewrite app_nil_r.
Qed.

Lemma sip_input_rest_ok c data needed e : len data < 2 ^ usize_bits c -> needed <= 7 -> needed <= len data ->
  let d := skipn (N.to_nat needed) data in
  sip_input_rest c data needed e =
  Ok (mk_sip_engine (sip_k0 e) (sip_k1 e) (sip_length e)
        (fold_left sip_absorb (le_words 8 d) (sip_st e)) (le_value (over d)) (len (over d))).
Proof.
  intros HM Hn Hd d.
  assert (Hld : len d = len data - needed) by (unfold d, len in *; rewrite skipn_length; lia).
  assert (Eleft : N.land (len data - needed) 7 = len (over d)).
  { rewrite <- Hld. change 7 with (N.ones 3). rewrite N.land_ones. change (2 ^ 3) with 8.
    unfold len. rewrite over_length, Nat2N.inj_mod. reflexivity. }
  assert (Hw : len d = len (whole d) + len (over d)) by (rewrite <- len_app, whole_over; reflexivity).
  assert (Hw8 : len (whole d) = 8 * N.of_nat (length d / 8)).
  { unfold len. rewrite whole_length. lia. }
  assert (Ho : len (over d) < 8) by (unfold len; pose proof (over_lt d); lia).
  unfold sip_input_rest, usize_sub, checked_sub.
  destruct (N.leb_spec needed (len data)); [|lia]. cbn [bind]. rewrite Eleft.
  destruct (N.leb_spec (len (over d)) (len data - needed)); [|lia]. cbn [bind].
  rewrite (sip_loop_ok c data _ HM (length data) needed (length d / 8)).
  - cbn [bind]. fold d. replace (firstn (8 * (length d / 8)) d) with (whole d) by reflexivity.
    rewrite le_words_whole. rewrite u8to64_le_ok by lia. cbn [bind].
    do 3 f_equal. rewrite len_nat.
    replace (N.to_nat (needed + 8 * N.of_nat (length d / 8))) with (N.to_nat needed + 8 * (length d / 8))%nat by lia.
    rewrite <- skipn_skipn'. fold d. fold (over d). apply firstn_all.
  - lia.
  - lia.
  - lia.
  - unfold len in Hld. pose proof (Nat.div_le_upper_bound (length d) 8 (length d) ltac:(lia)). lia.
Qed.

(** ** The states *)

Section Sip.
  Context (c : config).
  Notation M := (2 ^ usize_bits c).

  (** after [msg], from internal state [v] and keys [k0], [k1] *)
  Definition sip_at (k0 k1 : N) (v : N * N * N * N) (msg : bytes) : sip_engine :=
    mk_sip_engine k0 k1 (len msg mod M)
      (st_of (fold_left sip_word (le_words 8 msg) v)) (le_value (over msg)) (len (over msg)).

  Lemma le_words8_bounded l : bounded 64 (le_words 8 l).
  Proof. apply (le_words_bounded 8). lia. Qed.

  Lemma sip_fold_vb v l : vb v -> vb (fold_left sip_word (le_words 8 l) v).
  Proof. intros H. apply (sip_words_ok _ v H). apply le_words8_bounded. Qed.

  Lemma sip_input_exact k0 k1 v msg data : vb v -> len data < M -> 256 <= M ->
    sip_input c (sip_at k0 k1 v msg) data =
    if overflow_checks c && (M <=? len msg mod M + len data) then Panic POverflow
    else Ok (sip_at k0 k1 v (msg ++ data)).
  Proof.
    intros Hv Hd H256. unfold sip_input. cbn [sip_at sip_length sip_ntail sip_st sip_tail sip_k0 sip_k1].
    assert (HM0 : M <> 0) by lia.
    assert (EL : usize_add c (len msg mod M) (len data) =
      if overflow_checks c && (M <=? len msg mod M + len data) then Panic POverflow
      else Ok (len (msg ++ data) mod M)).
    { unfold usize_add, checked_add. rewrite len_app.
      rewrite <- (N.add_mod_idemp_l (len msg) (len data) M) by exact HM0.
      destruct (N.ltb_spec (len msg mod M + len data) M) as [H|H];
        destruct (N.leb_spec M (len msg mod M + len data)); try lia.
      - rewrite andb_false_r, (N.mod_small (len msg mod M + len data)) by exact H. reflexivity.
      - rewrite andb_true_r. destruct (overflow_checks c); reflexivity. }
    rewrite EL. clear EL. destruct (overflow_checks c && _); [reflexivity|]. cbn [bind].
    set (s := fold_left sip_word (le_words 8 msg) v).
    assert (Hs : vb s) by (apply sip_fold_vb; exact Hv).
    pose proof (over_lt msg) as Ho. pose proof (whole_mod msg) as Hwm.
    pose proof (whole_over msg) as Hwo. set (t := over msg) in *. set (w := whole msg) in *.
    assert (HD : forall d, vb s -> fold_left sip_absorb (le_words 8 d) (st_of s) = st_of (fold_left sip_word (le_words 8 d) s)).
    { intros d Hs'. apply sip_words_ok; [exact Hs'|apply le_words8_bounded]. }
    assert (Es : s = fold_left sip_word (le_words 8 w) v) by (unfold s, w; now rewrite le_words_whole).
    assert (Hfin : forall r, msg ++ data = r ++ over (msg ++ data) -> (length r mod 8 = 0)%nat ->
       le_words 8 (msg ++ data) = le_words 8 r).
    { intros r E Hr. rewrite E. rewrite le_words_app by exact Hr.
      unfold le_words at 2. rewrite blocks_short by apply over_lt. apply app_nil_r. }
    destruct (N.eqb_spec (len t) 0) as [Ht0|Ht0]; cbn [negb].
    - (* nothing buffered *)
      assert (Et : t = []) by (destruct t; [reflexivity|unfold len in Ht0; cbn in Ht0; lia]).
      rewrite sip_input_rest_ok by lia.
      cbn [N.to_nat skipn sip_k0 sip_k1 sip_length sip_st].
      rewrite HD by exact Hs. unfold sip_at.
      assert (Em : msg = w) by (rewrite <- Hwo, Et; apply app_nil_r).
      assert (Hd2 : msg ++ data = (w ++ whole data) ++ over data).
      { rewrite <- app_assoc, whole_over, <- Em. reflexivity. }
      assert (Hm2 : (length (w ++ whole data) mod 8 = 0)%nat).
      { rewrite app_length, Nat.add_mod, Hwm, whole_mod by lia. reflexivity. }
      destruct (split_unique (w ++ whole data) (over data) Hm2 (over_lt data)) as [_ E2].
      rewrite <- Hd2 in E2. rewrite E2. do 2 f_equal.
      rewrite Em, le_words_app, fold_left_app, <- Es by exact Hwm. reflexivity.
    - (* something buffered *)
      assert (Ht : 0 < len t < 8) by (unfold len in *; lia).
      unfold usize_sub at 1, checked_sub at 1. destruct (N.leb_spec (len t) 8); [|lia]. cbn [bind].
      rewrite u8to64_le_ok by lia. cbn [bind N.to_nat skipn].
      set (needed := 8 - len t).
      set (d1 := firstn (N.to_nat (N.min (len data) needed)) data).
      assert (Hd1 : len d1 = N.min (len data) needed).
      { unfold d1, len in *. rewrite firstn_length_le; lia. }
      assert (Htd : len (t ++ d1) <= 8) by (rewrite len_app; lia).
      assert (Hvt : le_value t < 2 ^ (8 * len t)) by apply le_value_lt.
      assert (Hvd : le_value d1 < 2 ^ (8 * len d1)) by apply le_value_lt.
      assert (Htot : le_value d1 * 2 ^ (8 * len t) < 2 ^ 64).
      { assert (2 ^ (8 * len d1) * 2 ^ (8 * len t) <= 2 ^ 64).
        { rewrite <- N.pow_add_r. apply N.pow_le_mono_r; [lia|]. rewrite len_app in Htd. lia. }
        pose proof (pow2_pos (8 * len t)).
        assert (le_value d1 * 2 ^ (8 * len t) < 2 ^ (8 * len d1) * 2 ^ (8 * len t))
          by (apply N.mul_lt_mono_pos_r; assumption). lia. }
      rewrite shl64_ok by (try exact Htot; lia). cbn [bind].
      rewrite lor_add by exact Hvt. rewrite <- le_value_app.
      destruct (N.ltb_spec (len data) needed) as [Hshort|Hlong].
      + (* still not a word *)
        rewrite usize_add_ok by lia. cbn [bind].
        assert (Ed1 : d1 = data) by (unfold d1; apply firstn_all2; unfold len in *; lia).
        rewrite Ed1. unfold sip_at.
        assert (Hd2 : msg ++ data = w ++ (t ++ data)) by (rewrite app_assoc, Hwo; reflexivity).
        destruct (split_unique w (t ++ data) Hwm) as [_ E2]; [rewrite app_length; unfold len in *; lia|].
        rewrite <- Hd2 in E2. rewrite (Hfin w) by (try exact Hwm; rewrite E2; exact Hd2).
        rewrite E2, <- Es, !len_app. reflexivity.
      + (* completes a word *)
        assert (Ed1 : d1 = firstn (N.to_nat needed) data) by (unfold d1; do 2 f_equal; lia).
        rewrite sip_input_rest_ok by lia. cbn [sip_k0 sip_k1 sip_length sip_st].
        set (d := skipn (N.to_nat needed) data).
        assert (Ed : data = d1 ++ d) by (rewrite Ed1; symmetry; apply firstn_skipn).
        assert (H8 : length (t ++ d1) = 8%nat).
        { rewrite app_length. unfold len in *. lia. }
        assert (Hx : le_value (t ++ d1) < 2 ^ 64).
        { pose proof (le_value_lt (t ++ d1)) as HH. rewrite H8 in HH. exact HH. }
        destruct (sip_absorb_ok s (le_value (t ++ d1)) Hs Hx) as [-> Hs'].
        destruct (sip_words_ok (le_words 8 d) _ Hs' (le_words8_bounded d)) as [-> _].
        unfold sip_at.
        assert (Hd2 : msg ++ data = (w ++ (t ++ d1) ++ whole d) ++ over d).
        { rewrite <- !app_assoc, whole_over, <- Ed, app_assoc, Hwo. reflexivity. }
        assert (Hm2 : (length (w ++ (t ++ d1) ++ whole d) mod 8 = 0)%nat).
        { rewrite app_length, Nat.add_mod, Hwm by lia. rewrite app_length, H8.
          rewrite (Nat.add_mod 8), whole_mod by lia. reflexivity. }
        destruct (split_unique (w ++ (t ++ d1) ++ whole d) (over d) Hm2 (over_lt d)) as [_ E2].
        rewrite <- Hd2 in E2. rewrite E2.
        rewrite (Hfin (w ++ (t ++ d1) ++ whole d)) by (try exact Hm2; rewrite E2; exact Hd2).
        rewrite le_words_app by exact Hwm. rewrite le_words_cons by exact H8.
        rewrite fold_left_app, <- Es, le_words_whole. reflexivity.
  Qed.

  Lemma sip_with_keys_at k0 k1 : with_keys k0 k1 = sip_at k0 k1 (sip_init k0 k1) [].
  Proof. reflexivity. Qed.

  (** finalization *)
  Definition sip_final (v : N * N * N * N) (b : N) : N :=
    let '(a, b, c, d) := sip_word v b in
    let '(a, b, c, d) := Nat.iter 4 sip_round (a, b, N.lxor c 0xff, d) in
    N.lxor (N.lxor (N.lxor a b) c) d.

  Lemma sip_last_word msg : 256 <= M -> (exists q, M = 256 * q) ->
    N.lor (N.shiftl (N.land (len msg mod M) 255) 56 mod 2 ^ 64) (le_value (over msg))
    = le_value (over msg ++ repeat x00 (Z.to_nat ((7 - Z.of_nat (length msg)) mod 8)) ++ [octet (len msg)]).
  Proof.
    intros HM (q & Eq). change 255 with (N.ones 8). rewrite N.land_ones. change (2 ^ 8) with 256.
    assert (EL : (len msg mod M) mod 256 = len msg mod 256).
    { rewrite Eq. rewrite N.mod_mul_r by (intros ?; subst; lia).
      rewrite N.mul_comm, N.mod_add by lia. apply N.mod_mod. lia. }
    rewrite EL. pose proof (N.mod_lt (len msg) 256 ltac:(lia)) as Hm.
    rewrite N.shiftl_mul_pow2, N.mod_small.
    2: { change (2 ^ 64) with (256 * 2 ^ 56). apply N.mul_lt_mono_pos_r; [reflexivity|exact Hm]. }
    pose proof (over_lt msg) as Ho. pose proof (over_length msg) as El.
    assert (Hz : Z.to_nat ((7 - Z.of_nat (length msg)) mod 8) = (7 - length (over msg))%nat).
    { rewrite El. pose proof (Nat.div_mod (length msg) 8 ltac:(lia)) as D.
      pose proof (Nat.mod_upper_bound (length msg) 8 ltac:(lia)).
      rewrite D at 1.
      replace (7 - Z.of_nat (8 * (length msg / 8) + length msg mod 8))%Z
        with ((7 - Z.of_nat (length msg mod 8)) + (- Z.of_nat (length msg / 8)) * 8)%Z by lia.
      rewrite Z.mod_add by lia. rewrite Z.mod_small by lia. lia. }
    rewrite Hz. rewrite !le_value_app.
    assert (Hv0 : forall n, le_value (repeat x00 n) = 0).
    { induction n as [|n IH]; [reflexivity|]. cbn [repeat le_value]. rewrite IH. reflexivity. }
    rewrite Hv0, N.add_0_l. cbn [le_value].
    change (b2n (octet (len msg))) with (Byte.to_N (octet (len msg))). rewrite to_N_octet.
    assert (Hlt : le_value (over msg) < 2 ^ 56).
    { eapply N.lt_le_trans; [apply le_value_lt|]. apply N.pow_le_mono_r; lia. }
    rewrite lor_shift_add by exact Hlt.
    rewrite N.mul_assoc, <- N.pow_add_r.
    replace (8 * len (over msg) + 8 * len (repeat x00 (7 - length (over msg)))) with 56.
    2: { unfold len. rewrite repeat_length. lia. }
    lia.
  Qed.

  Lemma sip_parse_eq msg : sip_parse msg = le_words 8 msg ++
    [le_value (over msg ++ repeat x00 (Z.to_nat ((7 - Z.of_nat (length msg)) mod 8)) ++ [octet (len msg)])].
  Proof.
    unfold sip_parse. set (z := repeat x00 _ ++ [octet (N.of_nat (length msg))]).
    rewrite <- (whole_over msg) at 1. rewrite <- app_assoc, le_words_app by apply whole_mod.
    rewrite le_words_whole. f_equal. fold z. change (octet (len msg)) with (octet (N.of_nat (length msg))).
    fold z. rewrite <- (app_nil_r (over msg ++ z)) at 1. rewrite le_words_cons; [unfold le_words; now rewrite blocks_nil|].
    unfold z. rewrite !app_length, repeat_length. cbn [length].
    pose proof (over_lt msg) as Ho. pose proof (over_length msg) as El.
    pose proof (Nat.div_mod (length msg) 8 ltac:(lia)) as D.
    replace (7 - Z.of_nat (length msg))%Z
      with ((7 - Z.of_nat (length msg mod 8)) + (- Z.of_nat (length msg / 8)) * 8)%Z by lia.
    rewrite Z.mod_add by lia. rewrite Z.mod_small by lia. lia.
  Qed.

  Lemma sip_u64_exact k0 k1 v msg : vb v -> 256 <= M -> (exists q, M = 256 * q) ->
    from_engine_to_u64 (sip_at k0 k1 v msg) =
    let '(a, b, c, d) := fold_left sip_word (sip_parse msg) v in
    let '(a, b, c, d) := Nat.iter 4 sip_round (a, b, N.lxor c 0xff, d) in
    N.lxor (N.lxor (N.lxor a b) c) d.
  Proof.
    intros Hv HM Hq. unfold from_engine_to_u64. cbn [sip_at sip_st sip_length sip_tail].
    rewrite sip_last_word by assumption. rewrite sip_parse_eq, fold_left_app. cbn [fold_left].
    set (b := le_value (over msg ++ _)).
    assert (Hb : b < 2 ^ 64).
    { pose proof (le_words8_bounded (over msg ++ repeat x00 (Z.to_nat ((7 - Z.of_nat (length msg)) mod 8)) ++ [octet (len msg)])) as HB.
      assert (In b (sip_parse msg)) by (rewrite sip_parse_eq; apply in_or_app; right; now left).
      unfold sip_parse in H. pose proof (le_words8_bounded (msg ++
             repeat x00 (Z.to_nat ((7 - Z.of_nat (length msg)) mod 8)) ++ [octet (N.of_nat (length msg))])) as HB2.
      unfold bounded in HB2. rewrite Forall_forall in HB2. now apply HB2. }
    set (s := fold_left sip_word (le_words 8 msg) v).
    assert (Hs : vb s) by (now apply sip_fold_vb).
    pose proof (sip_absorb_ok s b Hs Hb) as [E Hs'].
    unfold sip_absorb in E. rewrite E.
    destruct (sip_word s b) as [[[a' b'] c'] d']. cbn [st_of v0 v1 v2 v3].
    destruct Hs' as (Ha & Hb' & Hc & Hd).
    assert (HV : vb (a', b', N.lxor c' 255, d')).
    { repeat split; try assumption. apply lxor_lt; [exact Hc|reflexivity]. }
    destruct (d_rounds_ok _ HV) as [E2 _]. cbn [st_of] in E2. rewrite E2.
    destruct (Nat.iter 4 sip_round (a', b', N.lxor c' 255, d')) as [[[a2 b2] c2] d2]. reflexivity.
  Qed.

  Lemma sip_finalize_u64 e : sip_finalize e = to_le_bytes 8 (from_engine_to_u64 e).
  Proof. unfold sip_finalize, from_engine_to_u64. reflexivity. Qed.

  Lemma sip_inputs_exact k0 k1 v : vb v -> 256 <= M -> forall chunks msg,
    Forall (fun d : bytes => len d < M) chunks ->
    he_inputs (siphash24_engine c) (sip_at k0 k1 v msg) chunks =
    if overflow_checks c && (M <=? len msg mod M + len (List.concat chunks)) then Panic POverflow
    else Ok (sip_at k0 k1 v (msg ++ List.concat chunks)).
  Proof.
    intros Hv H256. induction chunks as [|d ds IH]; intros msg HF; cbn [he_inputs List.concat].
    - change (len []) with 0. rewrite N.add_0_r, app_nil_r.
      pose proof (N.mod_lt (len msg) M ltac:(lia)).
      destruct (N.leb_spec M (len msg mod M)); [lia|]. now rewrite andb_false_r.
    - inversion HF; subst. cbn [siphash24_engine he_input]. rewrite sip_input_exact by assumption.
      pose proof (N.mod_lt (len msg) M ltac:(lia)).
      rewrite len_app, app_assoc.
      assert (EC : len (msg ++ d) mod M = (len msg mod M + len d) mod M).
      { rewrite len_app, N.add_mod_idemp_l by lia. reflexivity. }
      destruct (overflow_checks c); cbn [andb bind].
      + destruct (N.leb_spec M (len msg mod M + len d)) as [Ho|Ho]; cbn [bind].
        * destruct (N.leb_spec M (len msg mod M + (len d + len (List.concat ds)))) as [Hx|Hx]; [reflexivity|].
          exfalso. revert Ho Hx. clear. generalize (len msg mod M) as x, M as m. intros; lia.
        * rewrite (IH _ H2), EC, N.mod_small, N.add_assoc by exact Ho. reflexivity.
      + rewrite (IH _ H2). reflexivity.
  Qed.

  Lemma wf_M : wf_config c -> 256 <= M /\ exists q, M = 256 * q.
  Proof.
    intros [-> | [-> | ->]]; (split; [discriminate|]).
    - exists 256. reflexivity. - exists (2 ^ 24). reflexivity. - exists (2 ^ 56). reflexivity.
  Qed.

  Lemma sip_init_vb k0 k1 : k0 < 2 ^ 64 -> k1 < 2 ^ 64 -> vb (sip_init k0 k1).
  Proof. intros H0 H1. repeat split; apply lxor_lt; try assumption; reflexivity. Qed.

  Lemma siphash_exact k0 k1 chunks : wf_config c -> k0 < 2 ^ 64 -> k1 < 2 ^ 64 ->
    Forall (fun d : bytes => len d < M) chunks ->
    (let* e := he_inputs (siphash24_engine c) (with_keys k0 k1) chunks in Ok (from_engine_to_u64 e))
    = if overflow_checks c && (M <=? len (List.concat chunks)) then Panic POverflow
      else Ok (siphash24 k0 k1 (List.concat chunks)).
  Proof.
    intros WF H0 H1 HF. destruct (wf_M WF) as [H256 Hq].
    rewrite sip_with_keys_at.
    rewrite (sip_inputs_exact k0 k1 _ (sip_init_vb k0 k1 H0 H1) H256 chunks [] HF).
    change (len []) with 0. rewrite N.mod_0_l, N.add_0_l by lia. cbn [app].
    destruct (overflow_checks c && _); [reflexivity|]. cbn [bind].
    rewrite sip_u64_exact by (try assumption; now apply sip_init_vb). reflexivity.
  Qed.
End Sip.
