(** The octet-level RIPEMD-160 is the pseudo-code of the paper on bits. *)
From Coq Require Import Arith NArith ZArith List Bool Lia.
From Coq Require Import Strings.Byte.
From Verif Require Import Base SpecBase SpecMD SpecBits SpecBitsRip ModelEngine ModelAll SpecApi ProofBase ProofMD ProofApi ProofBits.
From Verif Require SpecRipemd.
Import ListNotations.
Open Scope N_scope.

Lemma repr_lor w n m : repr w (N.lor n m) = bor (repr w n) (repr w m).
Proof. apply repr_zip, N.lor_spec. Qed.

(** ** Reversed octets *)

Lemma blocks_one (l : list byte) : blocks 1 l = map (fun b => [b]) l.
Proof.
  induction l as [|b l IH]; [reflexivity|]. change (b :: l) with ([b] ++ l).
  rewrite blocks_cons by (reflexivity || lia). rewrite IH. reflexivity.
Qed.
Lemma swap_bits_of l : swap_octets (bits_of l) = bits_of (rev l).
Proof.
  unfold swap_octets. pose proof (groups_blocks 1 l ltac:(lia)) as E. change (8 * 1)%nat with 8%nat in E. rewrite E.
  rewrite blocks_one, map_map, <- map_rev. unfold bits_of at 2. rewrite flat_map_concat_map.
  reflexivity.
Qed.
Lemma swap_repr k x : swap_octets (repr (8 * k) x) = bits_of (le_octets k x).
Proof. rewrite <- bits_of_octets, swap_bits_of. unfold be_octets. now rewrite rev_involutive. Qed.
Lemma swap_word b : swap_octets (bits_of b) = repr (8 * length b) (le_int b).
Proof.
  now rewrite swap_bits_of, bits_of_be, rev_length.
Qed.
Lemma swap_groups k l : (0 < k)%nat -> map swap_octets (groups (8 * k) (bits_of l)) = map (repr (8 * k)) (le_words k l).
Proof.
  intros Hk. rewrite groups_blocks by exact Hk. unfold le_words. rewrite !map_map.
  apply map_ext_in. intros b Hb. pose proof (blocks_Forall k l Hk) as F. rewrite Forall_forall in F.
  rewrite swap_word. now rewrite (F b Hb).
Qed.

(** ** Steps *)

Lemma f_bits j x y z : x < 2 ^ 32 -> y < 2 ^ 32 -> z < 2 ^ 32 -> (j < 80)%nat ->
  rb_f j (repr 32 x) (repr 32 y) (repr 32 z) = repr 32 (SpecRipemd.f (j / 16) x y z).
Proof.
  intros Hx Hy Hz Hj. pose proof (repr_NOT 32) as E. change (N.of_nat 32) with 32 in E.
  unfold rb_f.
  destruct (Nat.ltb_spec j 16); [replace (j / 16)%nat with 0%nat by (symmetry; apply Nat.div_small; lia)|
  destruct (Nat.ltb_spec j 32); [replace (j / 16)%nat with 1%nat by (apply (Nat.div_unique _ _ _ (j - 16)); lia)|
  destruct (Nat.ltb_spec j 48); [replace (j / 16)%nat with 2%nat by (apply (Nat.div_unique _ _ _ (j - 32)); lia)|
  destruct (Nat.ltb_spec j 64); [replace (j / 16)%nat with 3%nat by (apply (Nat.div_unique _ _ _ (j - 48)); lia)|
    replace (j / 16)%nat with 4%nat by (apply (Nat.div_unique _ _ _ (j - 64)); lia)]]]];
  cbn [SpecRipemd.f]; rewrite ?repr_lxor, ?repr_lor, ?repr_land, ?repr_lor, ?E by assumption; reflexivity.
Qed.
Lemma f_lt r x y z : x < 2 ^ 32 -> y < 2 ^ 32 -> z < 2 ^ 32 -> SpecRipemd.f r x y z < 2 ^ 32.
Proof.
  intros Hx Hy Hz. destruct r as [|[|[|[|r]]]]; cbn [SpecRipemd.f];
  auto 6 using lxor_lt, lor_lt, land_lt, NOT_lt.
Qed.

Lemma step_bits F f x k s v : B5 v -> (s <= 32)%nat ->
  (forall a b c, a < 2 ^ 32 -> b < 2 ^ 32 -> c < 2 ^ 32 -> F (repr 32 a) (repr 32 b) (repr 32 c) = repr 32 (f a b c)) ->
  rb_step F (repr 32 x) (repr 32 k) s (R5 v) = R5 (SpecRipemd.step f k x (N.of_nat s) v) /\
  B5 (SpecRipemd.step f k x (N.of_nat s) v).
Proof.
  destruct v as [[[[a b] c] d] e]. cbn [B5 R5]. intros (Ha & Hb & Hc & Hd & He) Hs HF.
  unfold SpecRipemd.step, rb_step, sum. cbn [fold_left]. split.
  - cbn [R5]. rewrite HF by assumption.
    pose proof (repr_add 32) as H1. pose proof (repr_ROTL 32) as H2. change (N.of_nat 32) with 32 in H1, H2.
    rewrite <- (H2 10%nat c) by (assumption || lia).
    rewrite H1, (H2 s) by (apply add_lt || lia). rewrite !H1, badd_0. reflexivity.
  - cbn [B5]. repeat split; auto using add_lt, ROTL_lt.
Qed.

(** The printed tables are the ones described by rho, pi and the shifts. *)
Definition left_row (j : nat) : bool :=
  let r := (j / 16)%nat in let word := SpecRipemd.rL r (j mod 16) in
  Nat.eqb (nth j rb_r 0%nat) word && N.eqb (N.of_nat (nth j rb_s 0%nat)) (SpecRipemd.shift r word) &&
  N.eqb (rb_K j) (SpecRipemd.KL r) && Nat.ltb word 16 && Nat.leb (nth j rb_s 0%nat) 32.
Definition right_row (j : nat) : bool :=
  let r := (j / 16)%nat in let word := SpecRipemd.rR r (j mod 16) in
  Nat.eqb (nth j rb_r' 0%nat) word && N.eqb (N.of_nat (nth j rb_s' 0%nat)) (SpecRipemd.shift r word) &&
  N.eqb (rb_K' j) (SpecRipemd.KR r) && Nat.ltb word 16 && Nat.leb (nth j rb_s' 0%nat) 32 &&
  Nat.eqb ((79 - j) / 16) (4 - r).
Lemma rows_ok : forallb left_row (seq 0 80) && forallb right_row (seq 0 80) = true.
Proof. reflexivity. Qed.

Lemma left_bits X v j : length X = 16%nat -> B5 v -> In j (seq 0 80) ->
  rb_left (map (repr 32) X) (R5 v) j = R5 (SpecRipemd.left_step X v j) /\ B5 (SpecRipemd.left_step X v j).
Proof.
  intros HX Hv Hj. pose proof rows_ok as R. apply andb_true_iff in R. destruct R as [R _].
  rewrite forallb_forall in R. specialize (R j Hj). unfold left_row in R.
  rewrite !andb_true_iff, !Nat.eqb_eq, !N.eqb_eq, Nat.ltb_lt, Nat.leb_le in R.
  destruct R as ((((R1 & R2) & R3) & R4) & R5).
  unfold rb_left, SpecRipemd.left_step. rewrite <- R2, <- R3, R1, nth_repr by lia.
  apply step_bits; [exact Hv|exact R5|]. intros a b c Ha Hb Hc. apply f_bits; try assumption.
  apply in_seq in Hj. lia.
Qed.
Lemma right_bits X v j : length X = 16%nat -> B5 v -> In j (seq 0 80) ->
  rb_right (map (repr 32) X) (R5 v) j = R5 (SpecRipemd.right_step X v j) /\ B5 (SpecRipemd.right_step X v j).
Proof.
  intros HX Hv Hj. pose proof rows_ok as R. apply andb_true_iff in R. destruct R as [_ R].
  rewrite forallb_forall in R. specialize (R j Hj). unfold right_row in R.
  rewrite !andb_true_iff, !Nat.eqb_eq, !N.eqb_eq, Nat.ltb_lt, Nat.leb_le in R.
  destruct R as (((((R1 & R2) & R3) & R4) & R5) & R6).
  unfold rb_right, SpecRipemd.right_step. rewrite <- R2, <- R3, R1, nth_repr by lia. rewrite <- R6.
  apply step_bits; [exact Hv|exact R5|]. intros a b c Ha Hb Hc. apply f_bits; try assumption.
  apply in_seq in Hj. lia.
Qed.
Lemma fold_bits (F : bits * bits * bits * bits * bits -> nat -> bits * bits * bits * bits * bits) G l :
  (forall v j, B5 v -> In j l -> F (R5 v) j = R5 (G v j) /\ B5 (G v j)) ->
  forall v, B5 v -> fold_left F l (R5 v) = R5 (fold_left G l v).
Proof.
  induction l as [|j l IH]; intros H v Hv; [reflexivity|]. cbn [fold_left].
  destruct (H v j Hv (or_introl eq_refl)) as [-> Hv']. apply IH; [|exact Hv'].
  intros v' j' H1 H2. apply H; [exact H1|now right].
Qed.
Lemma compress_rip_bits H b : length H = 5%nat -> bounded 32 H -> length b = 64%nat ->
  rb_compress (map (repr 32) H) (bits_of b) = map (repr 32) (SpecRipemd.compress H b).
Proof.
  intros HL HB Hb. do 6 (destruct H as [|? H]; try discriminate HL). clear HL.
  unfold bounded in HB. repeat match goal with HB : Forall _ (_ :: _) |- _ => inversion_clear HB end.
  cbn [map rb_compress SpecRipemd.compress].
  pose proof (swap_groups 4 b ltac:(lia)) as HG. change (8 * 4)%nat with 32%nat in HG. rewrite HG.
  assert (HX : length (le_words 4 b) = 16%nat) by (apply le_words_length; lia).
  revert HX. generalize (le_words 4 b). clear HG b Hb. intros X HX.
  match goal with |- context [fold_left (rb_left _) ?l ?s] =>
    match goal with |- context [fold_left (SpecRipemd.left_step _) ?l' ?s'] =>
      change s with (R5 s');
      rewrite (fold_bits (rb_left (map (repr 32) X)) (SpecRipemd.left_step X) l');
      [rewrite (fold_bits (rb_right (map (repr 32) X)) (SpecRipemd.right_step X) l')|..] end end.
  2: intros v j Hv Hj; now apply right_bits.
  2,4: cbn [B5]; auto 10.
  2: intros v j Hv Hj; now apply left_bits.
  destruct (fold_left (SpecRipemd.left_step _) _ _) as [[[[a b] c] d] e].
  destruct (fold_left (SpecRipemd.right_step _) _ _) as [[[[a' b'] c'] d'] e'].
  cbn [R5 map]. unfold sum. cbn [fold_left].
  pose proof (repr_add 32) as Ha32. change (N.of_nat 32) with 32 in Ha32. now rewrite !Ha32, !badd_0.
Qed.

(** ** Whole messages *)

Lemma rip_padded_bits m : rip_padded (bits_of m) (bits_of (SpecRipemd.pad m)).
Proof.
  destruct (padded_bits 64 8 m ltac:(lia) ltac:(lia)) as (k & E & H1 & H2).
  change (8 * 64)%nat with 512%nat in *. change (512 - 8 * 8)%nat with 448%nat in *.
  exists k. split; [|now split]. clear H1 H2.
  unfold SpecRipemd.pad, SpecRipemd.pad_with, SpecRipemd.zero_count.
  change (Z.of_nat 64 - Z.of_nat 8 - 1)%Z with 55%Z in E. change (Z.of_nat 64) with 64%Z in E.
  pose proof (swap_repr 8 (N.of_nat (length (bits_of m)))) as S. change (8 * 8)%nat with 64%nat in *. rewrite S.
  rewrite bits_of_length in *. replace (N.of_nat (8 * length m)) with (8 * N.of_nat (length m)) in * by lia.
  revert E. generalize (repeat x00 (Z.to_nat ((55 - Z.of_nat (length m)) mod 64))). intros z E.
  rewrite !app_assoc in E. rewrite bits_of_app in E. rewrite bits_of_octets in E.
  apply app_inv_tail in E. rewrite !app_assoc, bits_of_app. rewrite E. reflexivity.
Qed.
Lemma rip_padded_unique m p p' : rip_padded m p -> rip_padded m p' -> p = p'.
Proof.
  intros (k & -> & Hk & Hm) (k' & -> & Hk' & Hm'). assert (k = k') as ->; [|reflexivity].
  pose proof (Hm k' Hk'). pose proof (Hm' k Hk). lia.
Qed.
Lemma swap_output H : concat (map swap_octets (map (repr 32) H)) = bits_of (concat (map (le_octets 4) H)).
Proof.
  rewrite bits_of_concat, !map_map. f_equal. apply map_ext. intros x. apply (swap_repr 4).
Qed.
Lemma rip_hash_bits m : rb_hash (bits_of (SpecRipemd.pad m)) = bits_of (SpecRipemd.RIPEMD160 m).
Proof.
  unfold rb_hash, SpecRipemd.RIPEMD160, SpecRipemd.output, SpecRipemd.iterate.
  rewrite <- swap_output. f_equal. f_equal. change rb_h with SpecRipemd.H0.
  pose proof (md_of_ok Ripemd160) as OK.
  apply (iterate_bits SpecRipemd.compress rb_compress 32 64 (good_h (md_of Ripemd160))); [lia| |exact (mo_iv _ OK)].
  intros H b HG Hb. split; [destruct HG; now apply compress_rip_bits|now apply (mo_compress _ OK)].
Qed.
Lemma rip_exact m d : paper_rip (bits_of m) d <-> d = bits_of (SpecRipemd.RIPEMD160 m).
Proof.
  pose proof (rip_padded_bits m) as HP. rewrite <- rip_hash_bits. unfold paper_rip. split.
  - intros (p & Hp & ->). f_equal. exact (rip_padded_unique _ _ _ Hp HP).
  - intros ->. now exists (bits_of (SpecRipemd.pad m)).
Qed.
Lemma rip_code_bits c chunks : wf_config c -> fits c Ripemd160 (length (List.concat chunks)) ->
  exists d, he_hash_byte_chunks (algo_engine c Ripemd160) chunks = Ok d /\
    forall y, paper_rip (bits_of (List.concat chunks)) y <-> y = bits_of d.
Proof.
  intros WF HF. exists (SpecRipemd.RIPEMD160 (List.concat chunks)). split.
  - now apply (hash_chunks_standard c Ripemd160).
  - intros y. apply rip_exact.
Qed.
