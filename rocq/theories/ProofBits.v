(** The octet-level specifications compute what FIPS 180-4 says on bits. *)
From Coq Require Import Arith NArith ZArith List Bool Lia.
From Coq Require Import Strings.Byte.
From Coq Require Import ZifyBool ZifyNat ZifyN.
From Verif Require Import Base SpecBase SpecMD SpecBits ModelEngine ModelAll SpecApi ProofBase ProofMD ProofApi.
From Verif Require SpecSha2 SpecSha1.
Import ListNotations.
Open Scope N_scope.

(** ** Words *)

Lemma repr_length w n : length (repr w n) = w.
Proof. induction w; cbn; congruence. Qed.

Lemma repr_bits w n m : (forall i, i < N.of_nat w -> N.testbit n i = N.testbit m i) -> repr w n = repr w m.
Proof.
  induction w as [|w IH]; intros H; cbn; [reflexivity|]. rewrite H by lia. f_equal. apply IH. intros i Hi. apply H. lia.
Qed.
Lemma repr_mod w n : repr w (n mod 2 ^ N.of_nat w) = repr w n.
Proof. apply repr_bits. intros i Hi. now apply N.mod_pow2_bits_low. Qed.
Lemma repr_cong w n m : n mod 2 ^ N.of_nat w = m mod 2 ^ N.of_nat w -> repr w n = repr w m.
Proof. intros H. now rewrite <- repr_mod, H, repr_mod. Qed.

Lemma num_acc w n : forall acc, fold_left (fun acc (b : bool) => 2 * acc + (if b then 1 else 0)) (repr w n) acc =
  acc * 2 ^ N.of_nat w + n mod 2 ^ N.of_nat w.
Proof.
  induction w as [|w IH]; intros acc; cbn [repr fold_left].
  - cbn [N.of_nat]. rewrite N.pow_0_r, N.mod_1_r. lia.
  - rewrite IH. rewrite Nat2N.inj_succ, N.pow_succ_r'.
    rewrite (N.mul_comm 2 (2 ^ N.of_nat w)), N.mod_mul_r by (try apply N.pow_nonzero; lia).
    rewrite <- N.testbit_spec'. destruct (N.testbit n (N.of_nat w)); cbn [N.b2n]; lia.
Qed.
Lemma num_repr w n : num (repr w n) = n mod 2 ^ N.of_nat w.
Proof. unfold num. now rewrite num_acc. Qed.

Lemma repr_zip f g w n m : (forall x y i, N.testbit (g x y) i = f (N.testbit x i) (N.testbit y i)) ->
  repr w (g n m) = zip f (repr w n) (repr w m).
Proof. intros H. unfold zip. induction w as [|w IH]; cbn; [reflexivity|]. rewrite H. f_equal. exact IH. Qed.
Lemma repr_lxor w n m : repr w (N.lxor n m) = bxor (repr w n) (repr w m).
Proof. apply repr_zip, N.lxor_spec. Qed.
Lemma repr_land w n m : repr w (N.land n m) = band (repr w n) (repr w m).
Proof. apply repr_zip, N.land_spec. Qed.
Lemma repr_NOT_le w v n : n < 2 ^ N.of_nat v -> (w <= v)%nat -> repr w (NOT (N.of_nat v) n) = bnot (repr w n).
Proof.
  intros H. induction w as [|w IH]; intros Hw; cbn; [reflexivity|].
  rewrite NOT_testbit by exact H. f_equal; [|apply IH; lia].
  destruct (N.ltb_spec (N.of_nat w) (N.of_nat v)); [reflexivity|lia].
Qed.
Lemma repr_NOT w n : n < 2 ^ N.of_nat w -> repr w (NOT (N.of_nat w) n) = bnot (repr w n).
Proof. intros H. apply repr_NOT_le; [exact H|lia]. Qed.
Lemma repr_add w n m : repr w (add (N.of_nat w) n m) = badd (repr w n) (repr w m).
Proof.
  unfold badd, add. rewrite repr_length, !num_repr. apply repr_cong.
  rewrite N.mod_mod by (apply N.pow_nonzero; lia). rewrite N.add_mod by (apply N.pow_nonzero; lia). reflexivity.
Qed.
Lemma repr_add0 w n : repr w (add (N.of_nat w) 0 n) = repr w n.
Proof. unfold add. rewrite N.add_0_l. apply repr_mod. Qed.

Lemma badd_0 w n : badd (repr w 0) (repr w n) = repr w n.
Proof. now rewrite <- repr_add, repr_add0. Qed.

Lemma repr_app a b n : repr (a + b) n = repr a (n / 2 ^ N.of_nat b) ++ repr b n.
Proof.
  induction a as [|a IH]; cbn [repr Nat.add app]; [reflexivity|]. f_equal; [|exact IH].
  rewrite N.div_pow2_bits. f_equal. lia.
Qed.
Lemma firstn_exact {A} n (a b : list A) : length a = n -> firstn n (a ++ b) = a.
Proof. intros <-. rewrite firstn_app, firstn_all, Nat.sub_diag. cbn. apply app_nil_r. Qed.
Lemma skipn_exact {A} n (a b : list A) : length a = n -> skipn n (a ++ b) = b.
Proof. intros <-. rewrite skipn_app, skipn_all, Nat.sub_diag. reflexivity. Qed.

Lemma repr_ROTR w k n : (k <= w)%nat -> n < 2 ^ N.of_nat w ->
  repr w (ROTR (N.of_nat w) (N.of_nat k) n) = brotr k (repr w n).
Proof.
  intros Hk Hn. unfold brotr. rewrite repr_length.
  assert (Hs : repr w n = repr (w - k) (n / 2 ^ N.of_nat k) ++ repr k n).
  { rewrite <- repr_app. f_equal. lia. }
  rewrite Hs, firstn_exact, skipn_exact by apply repr_length.
  set (r := ROTR _ _ _).
  replace (repr w r) with (repr (k + (w - k)) r) by (f_equal; lia).
  rewrite repr_app. unfold r, ROTR.
  replace (N.of_nat w - N.of_nat k) with (N.of_nat (w - k)) by lia.
  assert (Hq : n / 2 ^ N.of_nat k < 2 ^ N.of_nat (w - k)).
  { apply N.div_lt_upper_bound; [apply N.pow_nonzero; lia|]. rewrite <- N.pow_add_r.
    replace (N.of_nat k + N.of_nat (w - k)) with (N.of_nat w) by lia. exact Hn. }
  assert (Hp : 2 ^ N.of_nat (w - k) <> 0) by (apply N.pow_nonzero; lia).
  f_equal.
  - rewrite N.div_add, N.div_small by assumption. cbn [N.add]. apply repr_mod.
  - apply repr_cong. now rewrite N.mod_add.
Qed.
Lemma repr_ROTL w k n : (k <= w)%nat -> n < 2 ^ N.of_nat w ->
  repr w (ROTL (N.of_nat w) (N.of_nat k) n) = brotl k (repr w n).
Proof.
  intros Hk Hn. unfold ROTL. replace (N.of_nat w - N.of_nat k) with (N.of_nat (w - k)) by lia.
  rewrite repr_ROTR by (assumption || lia). unfold brotr, brotl. rewrite repr_length.
  replace (w - (w - k))%nat with k by lia. reflexivity.
Qed.
Lemma repr_0 w : repr w 0 = repeat false w.
Proof. induction w; cbn; congruence. Qed.
Lemma repr_SHR w k n : (k <= w)%nat -> n < 2 ^ N.of_nat w -> repr w (SHR (N.of_nat k) n) = bshr k (repr w n).
Proof.
  intros Hk Hn. unfold bshr, SHR. rewrite repr_length.
  assert (Hs : repr w n = repr (w - k) (n / 2 ^ N.of_nat k) ++ repr k n).
  { rewrite <- repr_app. f_equal. lia. }
  rewrite Hs, firstn_exact by apply repr_length.
  set (r := n / _).
  replace (repr w r) with (repr (k + (w - k)) r) by (f_equal; lia).
  rewrite repr_app. f_equal. unfold r. rewrite N.div_div by (apply N.pow_nonzero; lia). rewrite <- N.pow_add_r.
  replace (N.of_nat k + N.of_nat (w - k)) with (N.of_nat w) by lia.
  rewrite N.div_small by exact Hn. apply repr_0.
Qed.

(** ** Octets *)

Lemma bits_of_app a b : bits_of (a ++ b) = bits_of a ++ bits_of b.
Proof. apply flat_map_app. Qed.
Lemma bits_of_length l : length (bits_of l) = (8 * length l)%nat.
Proof. induction l as [|b l IH]; [reflexivity|]. change (bits_of (b :: l)) with (octet_bits b ++ bits_of l). rewrite app_length, IH. cbn [octet_bits map length]. lia. Qed.
Lemma octet_repr b : octet_bits b = repr 8 (Byte.to_N b).
Proof. reflexivity. Qed.
Lemma bits_of_be l : bits_of l = repr (8 * length l) (be_int l).
Proof.
  induction l as [|b l IH] using rev_ind; [reflexivity|].
  rewrite bits_of_app, be_int_snoc, app_length, IH.
  replace (8 * (length l + length [b]))%nat with (8 * length l + 8)%nat by (cbn; lia).
  rewrite repr_app. pose proof (to_N_lt b). f_equal.
  - f_equal. change (2 ^ N.of_nat 8) with 256. rewrite N.mul_comm, N.div_add_l by lia. rewrite N.div_small by exact H. lia.
  - cbn [bits_of flat_map]. rewrite app_nil_r, octet_repr. apply repr_cong. change (2 ^ N.of_nat 8) with 256.
    rewrite N.add_comm, N.mul_comm, N.mod_add by lia. reflexivity.
Qed.
Lemma bits_of_octets k x : bits_of (be_octets k x) = repr (8 * k) x.
Proof.
  rewrite bits_of_be, length_be_octets, be_int_be_octets.
  replace (8 * N.of_nat k) with (N.of_nat (8 * k)) by lia. apply repr_mod.
Qed.
Lemma bits_of_inj a : forall b, bits_of a = bits_of b -> a = b.
Proof.
  intros b H. assert (HL : length a = length b).
  { apply (f_equal (@length bool)) in H. rewrite !bits_of_length in H. lia. }
  rewrite !bits_of_be, HL in H. apply (f_equal num) in H. rewrite !num_repr in H.
  pose proof (be_int_lt a) as Ha. pose proof (be_int_lt b) as Hb. rewrite HL in Ha.
  replace (8 * N.of_nat (length b)) with (N.of_nat (8 * length b)) in * by lia.
  rewrite !N.mod_small in H by assumption.
  rewrite <- (be_octets_be_int a), <- (be_octets_be_int b). now rewrite HL, H.
Qed.
Lemma bits_firstn n : forall l, firstn (8 * n) (bits_of l) = bits_of (firstn n l).
Proof.
  induction n as [|n IH]; intros [|b l]; try reflexivity.
  replace (8 * S n)%nat with (8 + 8 * n)%nat by lia. cbn [firstn].
  change (bits_of (b :: l)) with (octet_bits b ++ bits_of l).
  change (bits_of (b :: firstn n l)) with (octet_bits b ++ bits_of (firstn n l)).
  change (firstn (8 + 8 * n) (octet_bits b ++ bits_of l)) with (octet_bits b ++ firstn (8 * n) (bits_of l)).
  now rewrite IH.
Qed.
Lemma bits_skipn n : forall l, skipn (8 * n) (bits_of l) = bits_of (skipn n l).
Proof.
  induction n as [|n IH]; intros [|b l]; try reflexivity.
  replace (8 * S n)%nat with (8 + 8 * n)%nat by lia. cbn [skipn].
  change (bits_of (b :: l)) with (octet_bits b ++ bits_of l).
  change (skipn (8 + 8 * n) (octet_bits b ++ bits_of l)) with (skipn (8 * n) (bits_of l)).
  now rewrite IH.
Qed.
Lemma groups_blocks n l : (0 < n)%nat -> groups (8 * n) (bits_of l) = map bits_of (blocks n l).
Proof.
  intros Hn. unfold groups, blocks. rewrite map_map, bits_of_length, Nat.div_mul_cancel_l by lia.
  apply map_ext. intros i. replace (i * (8 * n))%nat with (8 * (i * n))%nat by lia.
  now rewrite bits_skipn, bits_firstn.
Qed.
Lemma groups_words k l : (0 < k)%nat -> groups (8 * k) (bits_of l) = map (repr (8 * k)) (be_words k l).
Proof.
  intros Hk. rewrite groups_blocks by exact Hk. unfold be_words. rewrite map_map.
  apply map_ext_in. intros b Hb. pose proof (blocks_Forall k l Hk) as F. rewrite Forall_forall in F.
  rewrite bits_of_be. now rewrite (F b Hb).
Qed.
Lemma bits_of_concat ls : bits_of (concat ls) = concat (map bits_of ls).
Proof. induction ls as [|l ls IH]; cbn [concat map]; [reflexivity|]. now rewrite bits_of_app, IH. Qed.
Lemma bits_of_words k H : bits_of (concat (map (be_octets k) H)) = concat (map (repr (8 * k)) H).
Proof.
  rewrite bits_of_concat, map_map. f_equal. apply map_ext. intros x. apply bits_of_octets.
Qed.

Lemma nth_repr w i W : (i < length W)%nat -> nth i (map (repr w) W) [] = repr w (nth i W 0).
Proof.
  intros H. rewrite (nth_indep _ [] (repr w 0)) by (now rewrite map_length). apply map_nth.
Qed.
Lemma nth_bounded w W i : bounded w W -> nth i W 0 < 2 ^ w.
Proof.
  intros H. destruct (Nat.lt_ge_cases i (length W)) as [Hi|Hi].
  - unfold bounded in H. rewrite Forall_forall in H. apply H. now apply nth_In.
  - rewrite nth_overflow by exact Hi. apply pow2_pos.
Qed.

(** ** SHA-2 *)

Record match_params (P : SpecSha2.sha2_params) (Q : sha2_bits) : Prop := {
  mp_w : SpecSha2.width P = N.of_nat (b_w Q);
  mp_wb : b_w Q = (8 * SpecSha2.wbytes P)%nat;
  mp_pos : (0 < SpecSha2.wbytes P)%nat;
  mp_r : SpecSha2.rounds P = b_rounds Q;
  mp_K : b_K Q = map (repr (b_w Q)) (SpecSha2.K P);
  mp_S0 : forall x, x < 2 ^ N.of_nat (b_w Q) -> repr (b_w Q) (SpecSha2.S0 P x) = b_S0 Q (repr (b_w Q) x);
  mp_S1 : forall x, x < 2 ^ N.of_nat (b_w Q) -> repr (b_w Q) (SpecSha2.S1 P x) = b_S1 Q (repr (b_w Q) x);
  mp_s0 : forall x, x < 2 ^ N.of_nat (b_w Q) -> repr (b_w Q) (SpecSha2.s0 P x) = b_s0 Q (repr (b_w Q) x);
  mp_s1 : forall x, x < 2 ^ N.of_nat (b_w Q) -> repr (b_w Q) (SpecSha2.s1 P x) = b_s1 Q (repr (b_w Q) x)
}.

Lemma match256 : match_params SpecSha2.params256 bits256.
Proof.
  constructor; try reflexivity; [cbn; lia| | | |]; intros x Hx; unfold SpecSha2.params256, bits256 in *;
  cbn [b_w SpecSha2.S0 SpecSha2.S1 SpecSha2.s0 SpecSha2.s1 b_S0 b_S1 b_s0 b_s1] in *;
  unfold three; rewrite !repr_lxor; f_equal; try f_equal;
  first [ apply (repr_ROTR 32 _ x); [lia|exact Hx]
        | match goal with |- repr 32 (ROTR 32 ?k x) = brotr ?j _ =>
            change (ROTR 32 k x) with (ROTR (N.of_nat 32) (N.of_nat j) x); apply repr_ROTR; [lia|exact Hx] end
        | match goal with |- repr 32 (SHR ?k x) = bshr ?j _ =>
            change (SHR k x) with (SHR (N.of_nat j) x); apply repr_SHR; [lia|exact Hx] end ].
Qed.
Lemma match512 : match_params SpecSha2.params512 bits512.
Proof.
  constructor; try reflexivity; [cbn; lia| | | |]; intros x Hx; unfold SpecSha2.params512, bits512 in *;
  cbn [b_w SpecSha2.S0 SpecSha2.S1 SpecSha2.s0 SpecSha2.s1 b_S0 b_S1 b_s0 b_s1] in *;
  unfold three; rewrite !repr_lxor; f_equal; try f_equal;
  first [ match goal with |- repr 64 (ROTR 64 ?k x) = brotr ?j _ =>
            change (ROTR 64 k x) with (ROTR (N.of_nat 64) (N.of_nat j) x); apply repr_ROTR; [lia|exact Hx] end
        | match goal with |- repr 64 (SHR ?k x) = bshr ?j _ =>
            change (SHR k x) with (SHR (N.of_nat j) x); apply repr_SHR; [lia|exact Hx] end ].
Qed.

Section Sha2.
  Context (P : SpecSha2.sha2_params) (Q : sha2_bits) (MP : match_params P Q).
  Let w := b_w Q.
  Let M := 2 ^ N.of_nat w.
  Local Notation R := (repr w).

  Lemma next_bits W : (16 <= length W)%nat -> bounded (N.of_nat w) W -> b_next Q (map R W) = R (SpecSha2.next_word P W).
  Proof.
    intros HL HB. unfold b_next, SpecSha2.next_word, sum. rewrite (mp_w P Q MP). cbn [fold_left].
    fold w. rewrite !repr_add, badd_0, map_length, !nth_repr by lia.
    unfold w in *. rewrite (mp_s0 P Q MP), (mp_s1 P Q MP) by now apply nth_bounded. reflexivity.
  Qed.
  Lemma next_lt W : SpecSha2.next_word P W < M.
  Proof. unfold SpecSha2.next_word, sum, M, w. rewrite (mp_w P Q MP). cbn [fold_left]. apply add_lt. Qed.
  Lemma extend_bits n : forall W, (16 <= length W)%nat -> bounded (N.of_nat w) W ->
    b_extend Q n (map R W) = map R (SpecSha2.extend P n W).
  Proof.
    induction n as [|n IH]; intros W HL HB; [reflexivity|]. cbn [b_extend SpecSha2.extend].
    rewrite next_bits by assumption. change [R (SpecSha2.next_word P W)] with (map R [SpecSha2.next_word P W]).
    rewrite <- map_app. apply IH.
    - rewrite app_length. lia.
    - unfold bounded in *. rewrite Forall_app. split; [exact HB|]. constructor; [apply next_lt|constructor].
  Qed.
  Lemma schedule_bits b : length b = (16 * SpecSha2.wbytes P)%nat -> b_schedule Q (bits_of b) = map R (SpecSha2.schedule P b).
  Proof.
    intros Hb. unfold b_schedule, SpecSha2.schedule. pose proof (mp_pos P Q MP) as Hp. pose proof (mp_wb P Q MP) as Hw.
    rewrite <- (mp_r P Q MP). rewrite Hw at 1. rewrite groups_words by exact Hp. rewrite <- Hw. apply extend_bits.
    - rewrite (be_words_length (SpecSha2.wbytes P) 16) by lia. lia.
    - replace (N.of_nat w) with (8 * N.of_nat (SpecSha2.wbytes P)) by (unfold w; lia). now apply be_words_bounded.
  Qed.

  Definition R8 (s : N * N * N * N * N * N * N * N) :=
    let '(a, b, c, d, e, f, g, h) := s in (R a, R b, R c, R d, R e, R f, R g, R h).
  Definition B8 (s : N * N * N * N * N * N * N * N) : Prop :=
    let '(a, b, c, d, e, f, g, h) := s in
    a < M /\ b < M /\ c < M /\ d < M /\ e < M /\ f < M /\ g < M /\ h < M.

  Lemma round_bits s k x : B8 s ->
    b_round Q (R8 s) (R k, R x) = R8 (SpecSha2.round P s (k, x)) /\ B8 (SpecSha2.round P s (k, x)).
  Proof.
    destruct s as [[[[[[[a b] c] d] e] f] g] h]. cbn [B8 R8]. intros (Ha & Hb & Hc & Hd & He & Hf & Hg & Hh).
    cbn [SpecSha2.round b_round]. unfold sum. rewrite (mp_w P Q MP). fold w. cbn [fold_left]. split.
    - cbn [R8]. rewrite !repr_add, !badd_0. unfold SpecSha2.Ch, SpecSha2.Maj, bCh, bMaj.
      rewrite !repr_lxor, !repr_land, repr_NOT by exact He. unfold w, M in *.
      rewrite (mp_S0 P Q MP), (mp_S1 P Q MP) by assumption. reflexivity.
    - cbn [B8]. unfold M. repeat split; auto using add_lt.
  Qed.
  Lemma rounds_bits kw : forall s, B8 s ->
    fold_left (b_round Q) (map (fun p => (R (fst p), R (snd p))) kw) (R8 s) = R8 (fold_left (SpecSha2.round P) kw s).
  Proof.
    induction kw as [|[k x] kw IH]; intros s Hs; [reflexivity|]. cbn [map fold_left fst snd].
    destruct (round_bits s k x Hs) as [-> Hs']. now apply IH.
  Qed.
  Lemma combine_map (l m : list N) : combine (map R l) (map R m) = map (fun p => (R (fst p), R (snd p))) (combine l m).
  Proof. revert m. induction l as [|a l IH]; intros [|b m]; cbn; [reflexivity..|]. now rewrite IH. Qed.

  Lemma compress_bits H b : length H = 8%nat -> bounded (N.of_nat w) H -> length b = (16 * SpecSha2.wbytes P)%nat ->
    b_compress Q (map R H) (bits_of b) = map R (SpecSha2.compress P H b).
  Proof.
    intros HL HB Hb. do 9 (destruct H as [|? H]; try discriminate HL). clear HL.
    unfold bounded in HB. repeat match goal with HB : Forall _ (_ :: _) |- _ => inversion_clear HB end.
    cbn [map b_compress SpecSha2.compress]. rewrite (mp_K P Q MP). fold w.
    rewrite schedule_bits by exact Hb. rewrite combine_map.
    match goal with |- context [fold_left (b_round Q) ?l ?s] =>
      match goal with |- context [fold_left (SpecSha2.round P) ?l' ?s'] =>
        change s with (R8 s'); rewrite (rounds_bits l' s') by (cbn [B8]; auto 10) end end.
    destruct (fold_left (SpecSha2.round P) _ _) as [[[[[[[a' b'] c'] d'] e'] f'] g'] h'].
    cbn [R8 map]. rewrite (mp_w P Q MP). fold w. now rewrite !repr_add.
  Qed.
End Sha2.

(** ** SHA-1 *)

Lemma next1_bits W : (16 <= length W)%nat -> bounded 32 W -> b1_next (map (repr 32) W) = repr 32 (SpecSha1.next_word W).
Proof.
  intros HL HB. unfold b1_next, SpecSha1.next_word. rewrite map_length, !nth_repr by lia. rewrite <- !repr_lxor.
  symmetry. apply (repr_ROTL 32 1); [lia|]. change (2 ^ N.of_nat 32) with (2 ^ 32).
  repeat apply lxor_lt; now apply nth_bounded.
Qed.
Lemma next1_lt W : bounded 32 W -> SpecSha1.next_word W < 2 ^ 32.
Proof. intros HB. unfold SpecSha1.next_word. apply ROTL_lt. repeat apply lxor_lt; now apply nth_bounded. Qed.
Lemma extend1_bits n : forall W, (16 <= length W)%nat -> bounded 32 W ->
  b1_extend n (map (repr 32) W) = map (repr 32) (SpecSha1.extend n W).
Proof.
  induction n as [|n IH]; intros W HL HB; [reflexivity|]. cbn [b1_extend SpecSha1.extend].
  rewrite next1_bits by assumption.
  change [repr 32 (SpecSha1.next_word W)] with (map (repr 32) [SpecSha1.next_word W]).
  rewrite <- map_app. apply IH.
  - rewrite app_length. lia.
  - unfold bounded in *. rewrite Forall_app. split; [exact HB|]. constructor; [now apply next1_lt|constructor].
Qed.
Definition R5 (s : N * N * N * N * N) :=
  let '(a, b, c, d, e) := s in (repr 32 a, repr 32 b, repr 32 c, repr 32 d, repr 32 e).
Definition B5 (s : N * N * N * N * N) : Prop :=
  let '(a, b, c, d, e) := s in a < 2 ^ 32 /\ b < 2 ^ 32 /\ c < 2 ^ 32 /\ d < 2 ^ 32 /\ e < 2 ^ 32.
Lemma f1_bits t x y z : x < 2 ^ 32 -> b1_f t (repr 32 x) (repr 32 y) (repr 32 z) = repr 32 (SpecSha1.f t x y z).
Proof.
  intros Hx. unfold b1_f, SpecSha1.f, bCh, bParity, bMaj.
  destruct (Nat.ltb t 20); [|destruct (Nat.ltb t 40); [|destruct (Nat.ltb t 60)]]; rewrite !repr_lxor, ?repr_land;
    try reflexivity.
  pose proof (repr_NOT 32 x Hx) as E. change (N.of_nat 32) with 32 in E. now rewrite E.
Qed.
Lemma round1_bits s t x : B5 s ->
  b1_round (R5 s) (t, repr 32 x) = R5 (SpecSha1.round s (t, x)) /\ B5 (SpecSha1.round s (t, x)).
Proof.
  destruct s as [[[[a b] c] d] e]. cbn [B5 R5]. intros (Ha & Hb & Hc & Hd & He).
  cbn [SpecSha1.round b1_round]. unfold sum. cbn [fold_left]. split.
  - cbn [R5]. rewrite f1_bits by exact Hb.
    pose proof (repr_ROTL 32 5 a ltac:(lia) Ha) as H5. pose proof (repr_ROTL 32 30 b ltac:(lia) Hb) as H30.
    change (N.of_nat 5) with 5 in H5. change (N.of_nat 30) with 30 in H30. change (N.of_nat 32) with 32 in H5, H30.
    rewrite H30, <- H5.
    pose proof (repr_add 32) as Ha32. change (N.of_nat 32) with 32 in Ha32.
    now rewrite !Ha32, badd_0.
  - cbn [B5]. repeat split; auto using add_lt, ROTL_lt.
Qed.
Lemma rounds1_bits tw : forall s, B5 s ->
  fold_left b1_round (map (fun p => (fst p, repr 32 (snd p))) tw) (R5 s) = R5 (fold_left SpecSha1.round tw s).
Proof.
  induction tw as [|[t x] tw IH]; intros s Hs; [reflexivity|]. cbn [map fold_left fst snd].
  destruct (round1_bits s t x Hs) as [-> Hs']. now apply IH.
Qed.
Lemma combine_map1 (l : list nat) : forall m, combine l (map (repr 32) m) = map (fun p => (fst p, repr 32 (snd p))) (combine l m).
Proof. induction l as [|a l IH]; intros [|b m]; cbn; [reflexivity..|]. now rewrite IH. Qed.
Lemma compress1_bits H b : length H = 5%nat -> bounded 32 H -> length b = 64%nat ->
  b1_compress (map (repr 32) H) (bits_of b) = map (repr 32) (SpecSha1.compress H b).
Proof.
  intros HL HB Hb. do 6 (destruct H as [|? H]; try discriminate HL). clear HL.
  unfold bounded in HB. repeat match goal with HB : Forall _ (_ :: _) |- _ => inversion_clear HB end.
  cbn [map b1_compress SpecSha1.compress]. unfold SpecSha1.schedule.
  pose proof (groups_words 4 b ltac:(lia)) as HG. change (8 * 4)%nat with 32%nat in HG. rewrite HG.
  rewrite extend1_bits.
  2:{ rewrite (be_words_length 4 16) by lia. lia. }
  2:{ apply (be_words_bounded 4 b). lia. }
  rewrite combine_map1.
  match goal with |- context [fold_left b1_round ?l ?s] =>
    match goal with |- context [fold_left SpecSha1.round ?l' ?s'] =>
      change s with (R5 s'); rewrite (rounds1_bits l' s') by (cbn [B5]; auto 10) end end.
  destruct (fold_left SpecSha1.round _ _) as [[[[a' b'] c'] d'] e'].
  cbn [R5 map].
  pose proof (repr_add 32) as Ha32. change (N.of_nat 32) with 32 in Ha32. now rewrite !Ha32.
Qed.

(** ** Whole messages *)

Lemma iterate_bits (C : list N -> list byte -> list N) (D : list bits -> bits -> list bits) w n (good : list N -> Prop) :
  (0 < n)%nat ->
  (forall H b, good H -> length b = n -> D (map (repr w) H) (bits_of b) = map (repr w) (C H b) /\ good (C H b)) ->
  forall p H, good H ->
  fold_left D (groups (8 * n) (bits_of p)) (map (repr w) H) = map (repr w) (fold_left C (blocks n p) H).
Proof.
  intros Hn HD p. rewrite groups_blocks by exact Hn. pose proof (blocks_Forall n p Hn) as F.
  induction (blocks n p) as [|b bs IH]; intros H HG; [reflexivity|]. inversion_clear F. cbn [map fold_left].
  destruct (HD H b HG) as [-> HG']; [assumption|]. now apply IH.
Qed.

Lemma padded_bits B F m : (0 < F)%nat -> (F < B)%nat ->
  fips_padded (8 * B) (8 * F) (bits_of m)
    (bits_of (m ++ [x80] ++ repeat x00 (Z.to_nat ((Z.of_nat B - Z.of_nat F - 1 - Z.of_nat (length m)) mod Z.of_nat B))
                ++ be_octets F (8 * N.of_nat (length m)))).
Proof.
  intros HF HB. set (z := Z.to_nat _). exists (7 + 8 * z)%nat.
  assert (Hz : ((length m + 1 + z + F) mod B = 0)%nat /\ (z < B)%nat).
  { unfold z. pose proof (Z.mod_pos_bound (Z.of_nat B - Z.of_nat F - 1 - Z.of_nat (length m)) (Z.of_nat B)).
    split; [|lia].
    apply Nat2Z.inj. rewrite Nat2Z.inj_mod, !Nat2Z.inj_add, Z2Nat.id by lia.
    rewrite <- Z.add_assoc, (Z.add_comm _ (Z.of_nat F)), Z.add_assoc, Z.add_mod_idemp_r by lia.
    replace (Z.of_nat (length m) + Z.of_nat 1 + Z.of_nat F + (Z.of_nat B - Z.of_nat F - 1 - Z.of_nat (length m)))%Z
      with (Z.of_nat B) by lia.
    apply Z.mod_same. lia. }
  destruct Hz as [Hz Hlt]. clearbody z. rewrite bits_of_length.
  apply Nat.mod_divide in Hz; [|lia]. destruct Hz as [q Hq].
  assert (Hq0 : (0 < q)%nat) by (destruct q; lia).
  split; [|split].
  - rewrite !bits_of_app, bits_of_octets. f_equal.
    change (bits_of [x80]) with ([true] ++ repeat false 7). rewrite <- app_assoc. f_equal.
    rewrite repeat_app, <- app_assoc. f_equal. f_equal.
    + clear. induction z as [|z IH]; [reflexivity|].
      change (bits_of (repeat x00 (S z))) with (repeat false 8 ++ bits_of (repeat x00 z)).
      rewrite IH, <- repeat_app. f_equal. lia.
    + f_equal. lia.
  - symmetry. apply (Nat.mod_unique _ _ (q - 1)); nia.
  - intros k' Hk'. pose proof (Nat.div_mod (8 * length m + 1 + k') (8 * B)) as E. rewrite Hk' in E.
    set (r := ((8 * length m + 1 + k') / (8 * B))%nat) in E. clearbody r.
    destruct (Nat.le_gt_cases q (r + 1)); nia.
Qed.

Lemma padded_unique B F m p p' : fips_padded B F m p -> fips_padded B F m p' -> p = p'.
Proof.
  intros (k & -> & Hk & Hm) (k' & -> & Hk' & Hm'). assert (k = k') as ->; [|reflexivity].
  pose proof (Hm k' Hk'). pose proof (Hm' k Hk). lia.
Qed.

Lemma md_bits A (D : list bits -> bits -> list bits) m : md_ok A ->
  md_lenfield A = be_octets (md_field A) -> md_word A = be_octets (md_wbytes A) ->
  (forall H b, good_h A H -> length b = md_block A ->
     D (map (repr (8 * md_wbytes A)) H) (bits_of b) = map (repr (8 * md_wbytes A)) (md_compress A H b)) ->
  exists p, fips_padded (8 * md_block A) (8 * md_field A) (bits_of m) p /\
    b_hash D (8 * md_block A) (map (repr (8 * md_wbytes A)) (md_iv A)) (8 * md_digest A) p = bits_of (md_hash A m).
Proof.
  intros OK HF HW HD. pose proof (mo_field A OK) as F1. pose proof (mo_block A OK) as B1.
  exists (bits_of (md_pad_with A (8 * N.of_nat (length m)) m)). split.
  - unfold md_pad_with, md_padding, md_zeros. rewrite HF. apply padded_bits; lia.
  - unfold b_hash, md_hash, md_hash_from, md_words, md_iterate.
    rewrite <- bits_firstn, HW, bits_of_words. f_equal. f_equal.
    apply (iterate_bits _ _ _ _ (good_h A)); [lia| |exact (mo_iv A OK)].
    intros H b HG Hb. split; [now apply HD|now apply (mo_compress A OK)].
Qed.

Lemma iv256 : md_iv (md_of Sha256) = SpecSha2.H256. Proof. reflexivity. Qed.
Lemma iv384 : md_iv (md_of Sha384) = SpecSha2.H384. Proof. reflexivity. Qed.
Lemma iv512 : md_iv (md_of Sha512) = SpecSha2.H512. Proof. reflexivity. Qed.
Lemma iv512_256 : md_iv (md_of Sha512_256) = SpecSha2.H512_256. Proof. reflexivity. Qed.

Lemma md_bits_at A (D : list bits -> bits -> list bits) m B F w d iv : md_iv A = iv -> md_ok A ->
  md_lenfield A = be_octets (md_field A) -> md_word A = be_octets (md_wbytes A) ->
  (8 * md_block A)%nat = B -> (8 * md_field A)%nat = F -> (8 * md_wbytes A)%nat = w -> (8 * md_digest A)%nat = d ->
  (forall H b, good_h A H -> length b = md_block A -> D (map (repr w) H) (bits_of b) = map (repr w) (md_compress A H b)) ->
  exists p, fips_padded B F (bits_of m) p /\ b_hash D B (map (repr w) iv) d p = bits_of (md_hash A m).
Proof. intros <- OK HF HW <- <- <- <-. now apply md_bits. Qed.

Lemma fips_exact s m d : fips_sha s (bits_of m) d <-> d = bits_of (hash_of (sha_algo s) m).
Proof.
  assert (E : exists p, fips_padded (b_block s) (b_field s) (bits_of m) p /\ b_sha s p = bits_of (hash_of (sha_algo s) m)).
  { rewrite <- md_hash_standard. pose proof (md_of_ok (sha_algo s)) as OK.
    destruct s; cbn [sha_algo] in *; unfold b_sha, b_block, b_field.
    - apply (md_bits_at (md_of Sha1) b1_compress m 512 64 32 160 _ eq_refl OK eq_refl eq_refl eq_refl eq_refl eq_refl eq_refl).
      intros H b [Hl Hb]. now apply compress1_bits.
    - apply (md_bits_at (md_of Sha256) (b_compress bits256) m 512 64 32 256 _ iv256 OK eq_refl eq_refl eq_refl eq_refl eq_refl eq_refl).
      intros H b [Hl Hb]. now apply (compress_bits _ _ match256).
    - apply (md_bits_at (md_of Sha384) (b_compress bits512) m 1024 128 64 384 _ iv384 OK eq_refl eq_refl eq_refl eq_refl eq_refl eq_refl).
      intros H b [Hl Hb]. now apply (compress_bits _ _ match512).
    - apply (md_bits_at (md_of Sha512) (b_compress bits512) m 1024 128 64 512 _ iv512 OK eq_refl eq_refl eq_refl eq_refl eq_refl eq_refl).
      intros H b [Hl Hb]. now apply (compress_bits _ _ match512).
    - apply (md_bits_at (md_of Sha512_256) (b_compress bits512) m 1024 128 64 256 _ iv512_256 OK eq_refl eq_refl eq_refl eq_refl eq_refl eq_refl).
      intros H b [Hl Hb]. now apply (compress_bits _ _ match512). }
  destruct E as (p & Hp & <-). unfold fips_sha. split.
  - intros (p' & Hp' & ->). f_equal. exact (padded_unique _ _ _ _ _ Hp' Hp).
  - intros ->. now exists p.
Qed.

Lemma code_bits c s chunks : wf_config c -> fits c (sha_algo s) (length (List.concat chunks)) ->
  exists d, he_hash_byte_chunks (algo_engine c (sha_algo s)) chunks = Ok d /\
    forall y, fips_sha s (bits_of (List.concat chunks)) y <-> y = bits_of d.
Proof.
  intros WF HF. exists (hash_of (sha_algo s) (List.concat chunks)). split.
  - now apply hash_chunks_standard.
  - intros y. apply fips_exact.
Qed.
