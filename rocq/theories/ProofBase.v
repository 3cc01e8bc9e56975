(** Lemmas about the vocabulary: model primitives against specification
    vocabulary. *)
From Coq Require Import NArith ZArith List Bool Lia.
From Coq Require Import ZifyBool ZifyNat ZifyN.
From Coq Require Import Init.Byte Strings.Byte.
From Verif Require Import Base SpecBase.
Import ListNotations.
Open Scope N_scope.

(* [lia] with div/mod: use [dlia]. *)
Ltac dlia := zify; Z.to_euclidean_division_equations; lia.

(** ** Bytes *)

Lemma to_N_lt b : Byte.to_N b < 256.
Proof. pose proof (Byte.to_N_bounded b). lia. Qed.

Lemma b2n_lt b : b2n b < 256.
Proof. apply to_N_lt. Qed.

Lemma u8_octet x : u8 x = octet x.
Proof. reflexivity. Qed.

Lemma to_N_octet x : Byte.to_N (octet x) = x mod 256.
Proof.
  unfold octet. destruct (Byte.of_N (x mod 256)) as [b|] eqn:E.
  - apply Byte.to_of_N in E. congruence.
  - apply Byte.of_N_None_iff in E.
    pose proof (N.mod_lt x 256). lia.
Qed.

Lemma octet_to_N b : octet (Byte.to_N b) = b.
Proof.
  unfold octet. rewrite N.mod_small by apply to_N_lt. now rewrite Byte.of_to_N.
Qed.

Lemma octet_mod x : octet (x mod 256) = octet x.
Proof. unfold octet. now rewrite N.mod_mod by lia. Qed.

Lemma to_N_inj a b : Byte.to_N a = Byte.to_N b -> a = b.
Proof. intros H. rewrite <- (octet_to_N a), <- (octet_to_N b). now rewrite H. Qed.

Lemma b2n_u8 x : b2n (u8 x) = x mod 256.
Proof. apply to_N_octet. Qed.

Lemma u8_b2n b : u8 (b2n b) = b.
Proof. apply octet_to_N. Qed.

(** ** Lists *)

Lemma len_app {A} (a b : list A) : len (a ++ b) = len a + len b.
Proof. unfold len. rewrite app_length. lia. Qed.

Lemma len_nat {A} (a : list A) : N.to_nat (len a) = length a.
Proof. unfold len. lia. Qed.

Lemma length_array {A} (x : A) n : length (array x n) = N.to_nat n.
Proof. apply repeat_length. Qed.

Lemma len_array {A} (x : A) n : len (array x n) = n.
Proof. unfold len. rewrite length_array. lia. Qed.

(** ** Byte order conversions *)

Lemma to_le_bytes_octets k x : to_le_bytes k x = le_octets k x.
Proof.
  unfold le_octets. revert x.
  induction k as [|k IH]; intros x; [reflexivity|].
  cbn [to_le_bytes seq map]. f_equal.
  - rewrite u8_octet. f_equal. change (256 ^ N.of_nat 0) with 1. now rewrite N.div_1_r.
  - rewrite IH, <- seq_shift, map_map. apply map_ext. intros i. f_equal.
    rewrite N.div_div by (try apply N.pow_nonzero; lia). f_equal.
    rewrite Nnat.Nat2N.inj_succ, N.pow_succ_r'. reflexivity.
Qed.

Lemma to_be_bytes_octets k x : to_be_bytes k x = be_octets k x.
Proof. unfold to_be_bytes, be_octets. now rewrite to_le_bytes_octets. Qed.

Lemma length_le_octets k x : length (le_octets k x) = k.
Proof. unfold le_octets. rewrite map_length. apply seq_length. Qed.
Lemma length_be_octets k x : length (be_octets k x) = k.
Proof. unfold be_octets. rewrite rev_length. apply length_le_octets. Qed.

Lemma be_int_snoc l b : be_int (l ++ [b]) = 256 * be_int l + Byte.to_N b.
Proof. unfold be_int. now rewrite fold_left_app. Qed.

Lemma le_value_be_int l : le_value l = be_int (rev l).
Proof.
  induction l as [|b l IH]; [reflexivity|].
  cbn [le_value rev]. rewrite be_int_snoc, IH. unfold b2n. lia.
Qed.

Lemma le_value_le_int l : le_value l = le_int l.
Proof. apply le_value_be_int. Qed.

Lemma le_value_rev l : le_value (rev l) = be_int l.
Proof. rewrite le_value_be_int. now rewrite rev_involutive. Qed.

Lemma le_value_lt l : le_value l < 2 ^ (8 * N.of_nat (length l)).
Proof.
  induction l as [|b l IH]; [now compute|].
  cbn [le_value length].
  replace (8 * N.of_nat (S (length l))) with (8 + 8 * N.of_nat (length l)) by lia.
  rewrite N.pow_add_r. change (2 ^ 8) with 256. pose proof (b2n_lt b). nia.
Qed.

Lemma be_int_lt l : be_int l < 2 ^ (8 * N.of_nat (length l)).
Proof. rewrite <- le_value_rev, <- (rev_length l). apply le_value_lt. Qed.

Lemma le_value_to_le_bytes k x : le_value (to_le_bytes k x) = x mod 2 ^ (8 * N.of_nat k).
Proof.
  revert x. induction k as [|k IH]; intros x.
  - cbn [to_le_bytes le_value]. change (2 ^ (8 * N.of_nat 0)) with 1. now rewrite N.mod_1_r.
  - cbn [to_le_bytes le_value]. rewrite IH, b2n_u8.
    replace (8 * N.of_nat (S k)) with (8 + 8 * N.of_nat k) by lia.
    rewrite N.pow_add_r. change (2 ^ 8) with 256.
    rewrite N.mod_mul_r by (try apply N.pow_nonzero; lia). reflexivity.
Qed.

Lemma to_le_bytes_le_value l : to_le_bytes (length l) (le_value l) = l.
Proof.
  induction l as [|b l IH]; [reflexivity|].
  cbn [length to_le_bytes le_value].
  pose proof (b2n_lt b).
  replace ((b2n b + 256 * le_value l) / 256) with (le_value l) by dlia.
  rewrite IH. f_equal.
  rewrite u8_octet. rewrite <- octet_mod.
  replace ((b2n b + 256 * le_value l) mod 256) with (b2n b) by dlia.
  apply octet_to_N.
Qed.

Lemma length_to_le_bytes k x : length (to_le_bytes k x) = k.
Proof. rewrite to_le_bytes_octets. apply length_le_octets. Qed.
Lemma length_to_be_bytes k x : length (to_be_bytes k x) = k.
Proof. rewrite to_be_bytes_octets. apply length_be_octets. Qed.

Lemma be_int_be_octets k x : be_int (be_octets k x) = x mod 2 ^ (8 * N.of_nat k).
Proof.
  rewrite <- le_value_rev. unfold be_octets. rewrite rev_involutive.
  rewrite <- to_le_bytes_octets. apply le_value_to_le_bytes.
Qed.

Lemma be_octets_be_int l : be_octets (length l) (be_int l) = l.
Proof.
  unfold be_octets. rewrite <- to_le_bytes_octets, <- le_value_rev, <- (rev_length l).
  rewrite to_le_bytes_le_value. apply rev_involutive.
Qed.

Lemma le_int_le_octets k x : le_int (le_octets k x) = x mod 2 ^ (8 * N.of_nat k).
Proof. rewrite <- le_value_le_int, <- to_le_bytes_octets. apply le_value_to_le_bytes. Qed.

Lemma le_octets_le_int l : le_octets (length l) (le_int l) = l.
Proof. rewrite <- le_value_le_int, <- to_le_bytes_octets. apply to_le_bytes_le_value. Qed.

Lemma from_be_bytes_ok k l : length l = k -> from_be_bytes k l = Ok (be_int l).
Proof.
  intros <-. unfold from_be_bytes. rewrite Nat.eqb_refl. now rewrite le_value_rev.
Qed.
Lemma from_le_bytes_ok k l : length l = k -> from_le_bytes k l = Ok (le_int l).
Proof.
  intros <-. unfold from_le_bytes. rewrite Nat.eqb_refl. now rewrite le_value_le_int.
Qed.

(** ** Blocks *)

Lemma skipn_skipn' {A} n m (l : list A) : skipn n (skipn m l) = skipn (m + n) l.
Proof.
  revert l. induction m as [|m IH]; intros l; [reflexivity|].
  destruct l; cbn; [apply skipn_nil | apply IH].
Qed.

Lemma blocks_nil n : blocks n [] = [].
Proof. unfold blocks. cbn [length]. destruct n; reflexivity. Qed.

Lemma blocks_short n l : (length l < n)%nat -> blocks n l = [].
Proof. intros H. unfold blocks. now rewrite Nat.div_small by exact H. Qed.

Lemma blocks_cons n b l : (0 < n)%nat -> length b = n -> blocks n (b ++ l) = b :: blocks n l.
Proof.
  intros Hn Hb. unfold blocks.
  rewrite app_length, Hb.
  replace ((n + length l) / n)%nat with (S (length l / n)).
  2:{ replace (n + length l)%nat with (1 * n + length l)%nat by lia.
      rewrite Nat.div_add_l by lia. lia. }
  cbn [seq map]. f_equal.
  - cbn [Nat.mul skipn]. rewrite firstn_app, Hb, Nat.sub_diag. cbn [firstn].
    rewrite app_nil_r. apply firstn_all2. lia.
  - rewrite <- seq_shift, map_map. apply map_ext. intros i. f_equal.
    rewrite skipn_app, Hb. rewrite skipn_all2 by lia. cbn [app]. f_equal. lia.
Qed.

Lemma blocks_step n l : (0 < n)%nat -> (n <= length l)%nat ->
  blocks n l = firstn n l :: blocks n (skipn n l).
Proof.
  intros Hn Hl. rewrite <- (firstn_skipn n l) at 1. apply blocks_cons; [exact Hn|].
  apply firstn_length_le. exact Hl.
Qed.

Lemma blocks_app n a b : (0 < n)%nat -> (length a mod n = 0)%nat ->
  blocks n (a ++ b) = blocks n a ++ blocks n b.
Proof.
  intros Hn. remember (length a) as la eqn:Hla. revert a Hla.
  induction la as [la IH] using (well_founded_induction lt_wf).
  intros a Hla Hm. destruct (Nat.lt_ge_cases la n) as [Hlt|Hge].
  - rewrite Nat.mod_small in Hm by lia. subst la.
    destruct a; [|discriminate]. cbn [app]. now rewrite blocks_nil.
  - rewrite (blocks_step n a) by lia.
    rewrite (blocks_step n (a ++ b)) by (try rewrite app_length; lia).
    rewrite firstn_app, skipn_app.
    replace (n - length a)%nat with 0%nat by lia. cbn [firstn skipn].
    rewrite app_nil_r. cbn [app]. f_equal.
    apply (IH (la - n)%nat); [lia | rewrite skipn_length; lia | ].
    replace la with (la - n + 1 * n)%nat in Hm by lia.
    rewrite Nat.mod_add in Hm by lia. exact Hm.
Qed.

Lemma blocks_firstn n l : (0 < n)%nat ->
  blocks n l = blocks n (firstn (length l / n * n) l).
Proof.
  intros Hn.
  assert (Hle : (length l / n * n <= length l)%nat).
  { rewrite Nat.mul_comm. apply Nat.mul_div_le. lia. }
  rewrite <- (firstn_skipn (length l / n * n) l) at 1.
  rewrite blocks_app; [|lia|].
  2:{ rewrite firstn_length_le by exact Hle. apply Nat.mod_mul. lia. }
  rewrite (blocks_short n (skipn _ _)); [apply app_nil_r|].
  rewrite skipn_length.
  rewrite (Nat.div_mod (length l) n) at 1 by lia.
  pose proof (Nat.mod_upper_bound (length l) n). nia.
Qed.

Lemma blocks_length n l : length (blocks n l) = (length l / n)%nat.
Proof. unfold blocks. now rewrite map_length, seq_length. Qed.

Lemma blocks_Forall n l : (0 < n)%nat -> Forall (fun b => length b = n) (blocks n l).
Proof.
  intros Hn. apply Forall_forall. intros b Hb. unfold blocks in Hb.
  apply in_map_iff in Hb. destruct Hb as [i [<- Hi]]. apply in_seq in Hi.
  apply firstn_length_le. rewrite skipn_length.
  pose proof (Nat.mul_div_le (length l) n). nia.
Qed.

Lemma blocks_concat n bs : (0 < n)%nat -> Forall (fun b => length b = n) bs ->
  blocks n (List.concat bs) = bs.
Proof.
  intros Hn H. induction H as [|b bs Hb H IH]; [apply blocks_nil|].
  cbn [List.concat]. rewrite blocks_cons by assumption. now rewrite IH.
Qed.

Lemma concat_blocks n l : (0 < n)%nat -> (length l mod n = 0)%nat ->
  List.concat (blocks n l) = l.
Proof.
  intros Hn. remember (length l) as k eqn:Hk. revert l Hk.
  induction k as [k IH] using (well_founded_induction lt_wf). intros l Hk Hm.
  destruct (Nat.lt_ge_cases k n) as [Hlt|Hge].
  - rewrite Nat.mod_small in Hm by lia. subst. destruct l; [|discriminate].
    now rewrite blocks_nil.
  - rewrite blocks_step by lia. cbn [List.concat].
    rewrite (IH (k - n)%nat); [apply firstn_skipn | lia | rewrite skipn_length; lia |].
    replace k with (k - n + 1 * n)%nat in Hm by lia.
    rewrite Nat.mod_add in Hm by lia. exact Hm.
Qed.

Lemma chunks_exact_blocks n l : (0 < n)%nat -> chunks_exact n l = blocks n l.
Proof.
  intros Hn. unfold chunks_exact.
  assert (G : forall fuel l, (length l <= fuel)%nat -> chunks_exact_fuel fuel n l = blocks n l).
  { clear l. induction fuel as [|f IH]; intros l Hf.
    - destruct l; [|cbn in Hf; lia]. cbn. now rewrite blocks_nil.
    - cbn [chunks_exact_fuel]. destruct (Nat.ltb_spec (length l) n) as [Hlt|Hge].
      + now rewrite blocks_short.
      + rewrite IH by (rewrite skipn_length; lia). now rewrite <- blocks_step by lia. }
  apply G. lia.
Qed.

(** ** Words *)

Lemma lt_pow2_bits x w : x < 2 ^ w -> forall i, w <= i -> N.testbit x i = false.
Proof.
  intros H i Hi. destruct (N.eq_dec x 0) as [->|Hx]; [apply N.bits_0|].
  apply N.bits_above_log2. apply N.log2_lt_pow2 in H; lia.
Qed.

Lemma bits_lt_pow2 x w : (forall i, w <= i -> N.testbit x i = false) -> x < 2 ^ w.
Proof.
  intros H. destruct (N.eq_dec x 0) as [->|Hx].
  - apply N.neq_0_lt_0. apply N.pow_nonzero. lia.
  - apply N.log2_lt_pow2; [lia|].
    destruct (N.lt_ge_cases (N.log2 x) w) as [|Hge]; [assumption|].
    apply H in Hge. rewrite N.bit_log2 in Hge by assumption. discriminate.
Qed.

Lemma lxor_lt w x y : x < 2 ^ w -> y < 2 ^ w -> N.lxor x y < 2 ^ w.
Proof.
  intros Hx Hy. apply bits_lt_pow2. intros i Hi. rewrite N.lxor_spec.
  now rewrite (lt_pow2_bits x w), (lt_pow2_bits y w) by assumption.
Qed.
Lemma lor_lt w x y : x < 2 ^ w -> y < 2 ^ w -> N.lor x y < 2 ^ w.
Proof.
  intros Hx Hy. apply bits_lt_pow2. intros i Hi. rewrite N.lor_spec.
  now rewrite (lt_pow2_bits x w), (lt_pow2_bits y w) by assumption.
Qed.
Lemma land_lt w x y : x < 2 ^ w -> N.land x y < 2 ^ w.
Proof.
  intros Hx. apply bits_lt_pow2. intros i Hi. rewrite N.land_spec.
  now rewrite (lt_pow2_bits x w) by assumption.
Qed.
Lemma land_lt_r w x y : y < 2 ^ w -> N.land x y < 2 ^ w.
Proof. rewrite N.land_comm. apply land_lt. Qed.
Lemma shiftr_lt w n x : x < 2 ^ w -> N.shiftr x n < 2 ^ w.
Proof.
  intros H. rewrite N.shiftr_div_pow2. apply N.le_lt_trans with x; [|assumption].
  apply N.div_le_upper_bound; [apply N.pow_nonzero; lia|].
  assert (0 < 2 ^ n) by (apply N.neq_0_lt_0, N.pow_nonzero; lia). nia.
Qed.

Lemma pow2_pos w : 0 < 2 ^ w.
Proof. apply N.neq_0_lt_0, N.pow_nonzero. lia. Qed.

Lemma add_lt w x y : add w x y < 2 ^ w.
Proof. unfold add. apply N.mod_lt. pose proof (pow2_pos w). lia. Qed.
Lemma wrapping_add_lt w x y : wrapping_add w x y < 2 ^ w.
Proof. apply add_lt. Qed.
Lemma wrapping_add_add w x y : wrapping_add w x y = add w x y.
Proof. reflexivity. Qed.

Lemma NOT_testbit w x i : x < 2 ^ w ->
  N.testbit (NOT w x) i = (i <? w) && negb (N.testbit x i).
Proof.
  intros Hx.
  assert (E : NOT w x = N.lxor x (N.ones w)).
  { transitivity (N.lnot x w); [|reflexivity].
    destruct (N.eq_dec x 0) as [->|Hx0].
    - unfold NOT. rewrite N.lnot_0_l. rewrite N.ones_equiv, N.sub_0_r. lia.
    - rewrite N.lnot_sub_low.
      + unfold NOT. rewrite N.ones_equiv. lia.
      + apply N.log2_lt_pow2; lia. }
  rewrite E, N.lxor_spec.
  destruct (N.ltb_spec i w) as [Hi|Hi].
  - rewrite N.ones_spec_low by assumption. now destruct (N.testbit x i).
  - rewrite N.ones_spec_high by assumption. now rewrite (lt_pow2_bits x w).
Qed.

Lemma bit_not_NOT w x : x < 2 ^ w -> bit_not w x = NOT w x.
Proof.
  intros Hx. apply N.bits_inj. intros i. rewrite NOT_testbit by assumption.
  unfold bit_not. rewrite N.lxor_spec.
  destruct (N.ltb_spec i w) as [Hi|Hi].
  - rewrite N.ones_spec_low by assumption. now destruct (N.testbit x i).
  - rewrite N.ones_spec_high by assumption. now rewrite (lt_pow2_bits x w).
Qed.

Lemma NOT_lt w x : NOT w x < 2 ^ w.
Proof. unfold NOT. pose proof (pow2_pos w). lia. Qed.

(** rotate_left is the specification's ROTL, and ROTR by the complement *)

Lemma lor_shift_add a b n : b < 2 ^ n -> N.lor (a * 2 ^ n) b = a * 2 ^ n + b.
Proof.
  intros Hb. rewrite <- N.lxor_lor, <- N.add_nocarry_lxor; [reflexivity| |];
  apply N.bits_inj; intros i; rewrite N.land_spec, N.bits_0;
  (destruct (N.lt_ge_cases i n) as [Hi|Hi];
   [ rewrite N.mul_pow2_bits_low by assumption; reflexivity
   | rewrite (lt_pow2_bits b n) by assumption; apply andb_false_r ]).
Qed.

Lemma rotate_left_ROTR w n m x : n + m = w -> 0 < n -> 0 < m -> x < 2 ^ w ->
  rotate_left w n x = ROTR w m x.
Proof.
  intros E Hn Hm Hx. subst w. unfold rotate_left, ROTR.
  replace (n + m - n) with m by lia. replace (n + m - m) with n by lia.
  rewrite N.shiftr_div_pow2, N.shiftl_mul_pow2.
  rewrite N.pow_add_r in *. rewrite (N.mul_comm (2 ^ n) (2 ^ m)) in *.
  rewrite N.mul_mod_distr_r by (apply N.pow_nonzero; lia).
  rewrite N.add_comm.
  assert (Hq : x / 2 ^ m < 2 ^ n).
  { apply N.div_lt_upper_bound; [apply N.pow_nonzero; lia|]. lia. }
  apply lor_shift_add. exact Hq.
Qed.

Lemma rotate_left_ROTL w n x : 0 < n -> n < w -> x < 2 ^ w ->
  rotate_left w n x = ROTL w n x.
Proof. intros. unfold ROTL. apply rotate_left_ROTR; lia. Qed.

Lemma ROTR_lt w n x : n <= w -> x < 2 ^ w -> ROTR w n x < 2 ^ w.
Proof.
  intros Hn Hx. unfold ROTR.
  replace w with (n + (w - n)) in Hx |- * at 2 by lia.
  replace w with (n + (w - n)) in Hx by lia.
  rewrite N.pow_add_r in *.
  assert (Hq : x / 2 ^ n < 2 ^ (w - n)).
  { apply N.div_lt_upper_bound; [apply N.pow_nonzero; lia|].
    replace (n + (w - n) - n) with (w - n) in Hx by lia. lia. }
  pose proof (N.mod_lt x (2 ^ n)). pose proof (pow2_pos n). nia.
Qed.
Lemma ROTL_lt w n x : x < 2 ^ w -> ROTL w n x < 2 ^ w.
Proof. intros. apply ROTR_lt; [lia|assumption]. Qed.

Lemma SHR_shiftr n x : SHR n x = N.shiftr x n.
Proof. symmetry. apply N.shiftr_div_pow2. Qed.

(** Sums modulo 2^w *)
Lemma add_mod_l w x y : add w (x mod 2 ^ w) y = add w x y.
Proof. unfold add. apply N.add_mod_idemp_l. pose proof (pow2_pos w); lia. Qed.
Lemma add_assoc w x y z : add w (add w x y) z = (x + y + z) mod 2 ^ w.
Proof. unfold add. apply N.add_mod_idemp_l. pose proof (pow2_pos w); lia. Qed.
Lemma add_comm w x y : add w x y = add w y x.
Proof. unfold add. now rewrite N.add_comm. Qed.


Lemma be_words_bounded k l : (0 < k)%nat -> bounded (8 * N.of_nat k) (be_words k l).
Proof.
  intros Hk. unfold be_words, bounded. apply Forall_map.
  eapply Forall_impl; [|apply blocks_Forall; exact Hk].
  intros b Hb. cbv beta. rewrite <- Hb. apply be_int_lt.
Qed.
Lemma le_words_bounded k l : (0 < k)%nat -> bounded (8 * N.of_nat k) (le_words k l).
Proof.
  intros Hk. unfold le_words, bounded. apply Forall_map.
  eapply Forall_impl; [|apply blocks_Forall; exact Hk].
  intros b Hb. cbv beta. rewrite <- Hb, <- le_value_le_int. apply le_value_lt.
Qed.

(** zip_assign over an exactly matching list *)
Lemma zip_assign_ok {A B} (dst : list A) (src : list B) conv f :
  length dst = length src -> (forall s, In s src -> conv s = Ok (f s)) ->
  zip_assign dst src conv = Ok (map f src).
Proof.
  revert src. induction dst as [|d dst IH]; intros [|s src] Hl Hc; try discriminate; [reflexivity|].
  cbn [zip_assign map]. rewrite Hc by now left. cbn [bind].
  rewrite IH; [reflexivity| now injection Hl | intros; apply Hc; now right].
Qed.

Lemma load_words k n l : (0 < k)%nat -> length l = (k * n)%nat ->
  zip_assign (array 0 (N.of_nat n)) (chunks_exact k l) (from_be_bytes k) = Ok (be_words k l).
Proof.
  intros Hk Hl. rewrite chunks_exact_blocks by exact Hk. unfold be_words.
  apply zip_assign_ok.
  - rewrite length_array, blocks_length, Hl, Nat.mul_comm, Nat.div_mul by lia. lia.
  - intros s Hs. apply from_be_bytes_ok.
    pose proof (blocks_Forall k l Hk) as HF. rewrite Forall_forall in HF. now apply HF.
Qed.
Lemma load_words_le k n l : (0 < k)%nat -> length l = (k * n)%nat ->
  zip_assign (array 0 (N.of_nat n)) (chunks_exact k l) (from_le_bytes k) = Ok (le_words k l).
Proof.
  intros Hk Hl. rewrite chunks_exact_blocks by exact Hk. unfold le_words.
  apply zip_assign_ok.
  - rewrite length_array, blocks_length, Hl, Nat.mul_comm, Nat.div_mul by lia. lia.
  - intros s Hs. apply from_le_bytes_ok.
    pose proof (blocks_Forall k l Hk) as HF. rewrite Forall_forall in HF. now apply HF.
Qed.

Lemma be_words_length k n l : (0 < k)%nat -> length l = (k * n)%nat -> length (be_words k l) = n.
Proof.
  intros Hk Hl. unfold be_words. rewrite map_length, blocks_length, Hl, Nat.mul_comm.
  apply Nat.div_mul. lia.
Qed.
Lemma le_words_length k n l : (0 < k)%nat -> length l = (k * n)%nat -> length (le_words k l) = n.
Proof.
  intros Hk Hl. unfold le_words. rewrite map_length, blocks_length, Hl, Nat.mul_comm.
  apply Nat.div_mul. lia.
Qed.

(** zip_copy over an exactly matching array *)
Lemma zip_copy_ok vals n ret : (0 < n)%nat -> Forall (fun v => length v = n) vals ->
  length ret = (n * length vals)%nat -> zip_copy vals n ret = Ok (List.concat vals).
Proof.
  intros Hn H. revert ret. induction H as [|v vals Hv H IH]; intros ret Hr.
  - cbn in Hr. rewrite Nat.mul_0_r in Hr. destruct ret; [reflexivity|discriminate].
  - cbn [length] in Hr. cbn [zip_copy List.concat].
    destruct (Nat.ltb_spec (length ret) n) as [Hlt|Hge]; [lia|].
    unfold copy_from_slice, len. rewrite firstn_length_le by exact Hge. rewrite Hv, N.eqb_refl.
    cbn [bind]. rewrite IH; [reflexivity|]. rewrite skipn_length. lia.
Qed.
