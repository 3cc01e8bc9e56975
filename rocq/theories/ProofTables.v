(** The tables: C47 *)
From Coq Require Import NArith ZArith Znumtheory List Sorted Bool Lia.
From Verif Require Import Base SpecBase SpecTables ModelSha2Round ModelRipemdRound ModelSimd TablesSha2 TablesRipemd
  TablesSimd ModelSha256 ModelSha512 ModelSha1 ModelRipemd ModelSip ProofMD.
From Verif Require SpecSha2 SpecRipemd.
Import ListNotations.
Open Scope N_scope.

Definition primes80 : list N :=
  [2; 3; 5; 7; 11; 13; 17; 19; 23; 29; 31; 37; 41; 43; 47; 53; 59; 61; 67; 71; 73; 79; 83; 89; 97; 101; 103; 107;
   109; 113; 127; 131; 137; 139; 149; 151; 157; 163; 167; 173; 179; 181; 191; 193; 197; 199; 211; 223; 227; 229; 233;
   239; 241; 251; 257; 263; 269; 271; 277; 281; 283; 293; 307; 311; 313; 317; 331; 337; 347; 349; 353; 359; 367; 373;
   379; 383; 389; 397; 401; 409].

(** No divisor from 2 to 20, for a number below 441 *)
Definition no_small_divisor (p : N) : bool :=
  forallb (fun d => (p <=? d) || negb (p mod d =? 0)) (map N.of_nat (seq 2 19)).
Definition small_divisor (q : N) : bool :=
  existsb (fun d => (d <? q) && (q mod d =? 0)) [2; 3; 5; 7; 11; 13; 17; 19].

Lemma no_divisor_prime p : 2 <= p -> p < 441 -> no_small_divisor p = true -> prime (Z.of_N p).
Proof.
  intros H2 H441 H. apply prime_alt. split; [lia|]. intros n Hn [q Hq].
  unfold no_small_divisor in H. rewrite forallb_forall in H.
  assert (Hc : forall d, (1 < d <= 20)%Z -> (d < Z.of_N p)%Z -> ~ (d | Z.of_N p)%Z).
  { intros d Hd Hdp Hdiv. specialize (H (Z.to_N d)).
    assert (Hin : In (Z.to_N d) (map N.of_nat (seq 2 19))).
    { apply in_map_iff. exists (Z.to_nat d). split; [lia|]. apply in_seq. lia. }
    specialize (H Hin). apply orb_true_iff in H as [H|H].
    - apply N.leb_le in H. lia.
    - apply negb_true_iff, N.eqb_neq in H. apply H. apply Z.mod_divide in Hdiv; [|lia].
      rewrite <- (Z2N.id d) in Hdiv by lia. rewrite <- N2Z.inj_mod in Hdiv. lia. }
  assert (Hq1 : (1 < q)%Z) by nia. assert (Hqp : (q < Z.of_N p)%Z) by nia.
  destruct (Z_le_gt_dec n 20) as [Hle|Hgt].
  - apply (Hc n); [lia|lia|]. exists q. exact Hq.
  - assert (q <= 20)%Z by nia. apply (Hc q); [lia|lia|]. exists n. lia.
Qed.

Lemma small_divisor_composite q : small_divisor q = true -> ~ prime (Z.of_N q).
Proof.
  unfold small_divisor. intros H Hp. apply existsb_exists in H as (d & Hd & H).
  apply andb_true_iff in H as [H1 H2]. apply N.ltb_lt in H1. apply N.eqb_eq in H2.
  assert (Hd1 : 1 < d) by (cbn in Hd; lia).
  apply prime_alt in Hp as [_ Hp]. apply (Hp (Z.of_N d)); [lia|]. apply Z.mod_divide; [lia|].
  rewrite <- N2Z.inj_mod. now rewrite H2.
Qed.

Lemma strong_lt l : forallb (fun xy => fst xy <? snd xy) (combine l (skipn 1 l)) = true -> StronglySorted N.lt l.
Proof.
  intros H. apply Sorted_StronglySorted; [exact N.lt_trans|].
  induction l as [|x [|y l] IH]; [constructor|repeat constructor|].
  cbn [skipn combine forallb fst snd] in H. apply andb_true_iff in H as [H1 H2]. apply N.ltb_lt in H1.
  constructor; [|constructor; exact H1]. apply IH. exact H2.
Qed.

Lemma sorted_firstn n (l : list N) : StronglySorted N.lt l -> StronglySorted N.lt (firstn n l).
Proof.
  intros H. revert n. induction H as [|x l HS IH HF]; intros [|n]; cbn [firstn]; try constructor.
  - apply IH.
  - rewrite Forall_forall in *. intros y Hy. apply HF. apply (firstn_skipn n) with (l := l) in Hy || idtac.
    revert Hy. clear. revert n. induction l as [|z l IH]; intros [|n]; cbn; try tauto. intros [->|H]; eauto.
Qed.

Lemma sorted_prefix n (l : list N) p q : StronglySorted N.lt l -> In p (firstn n l) -> In q l -> q < p -> In q (firstn n l).
Proof.
  intros H. revert n. induction H as [|x l HS IH HF]; intros [|n] Hp Hq Hlt; cbn [firstn] in *; try contradiction.
  destruct Hq as [->|Hq]; [now left|]. right. destruct Hp as [->|Hp].
  - rewrite Forall_forall in HF. specialize (HF q Hq). lia.
  - now apply IH.
Qed.

Lemma primes_ok : forallb (fun p => (2 <=? p) && (p <? 441) && no_small_divisor p) primes80 = true.
Proof. vm_compute. reflexivity. Qed.
Lemma primes_all : forallb (fun q => existsb (N.eqb q) primes80 || small_divisor q) (map N.of_nat (seq 2 408)) = true.
Proof. vm_compute. reflexivity. Qed.

Lemma primes_first n : (n <= 80)%nat -> first_n_primes n (firstn n primes80).
Proof.
  intros Hn.
  assert (HS : StronglySorted N.lt primes80) by (apply strong_lt; vm_compute; reflexivity).
  assert (Hin : forall p, In p (firstn n primes80) -> In p primes80).
  { intros p Hp. rewrite <- (firstn_skipn n primes80). apply in_or_app. now left. }
  assert (HP : forall p, In p primes80 -> prime (Z.of_N p) /\ p < 441).
  { intros p Hp. pose proof primes_ok as H. rewrite forallb_forall in H. specialize (H p Hp).
    apply andb_true_iff in H as [H H3]. apply andb_true_iff in H as [H1 H2].
    apply N.leb_le in H1. apply N.ltb_lt in H2. split; [now apply no_divisor_prime|exact H2]. }
  assert (Hmax : forall p, In p primes80 -> p <= 409).
  { intros p Hp. assert (H : forallb (fun p => p <=? 409) primes80 = true) by (vm_compute; reflexivity).
    rewrite forallb_forall in H. apply N.leb_le. now apply H. }
  split; [|split; [|split]].
  - apply firstn_length_le. change (length primes80) with 80%nat. exact Hn.
  - now apply sorted_firstn.
  - intros p Hp. apply HP. now apply Hin.
  - intros p q Hp Hq Hlt. apply (sorted_prefix n primes80 p q); try assumption.
    pose proof primes_all as H. rewrite forallb_forall in H.
    assert (Hq2 := prime_ge_2 _ Hq). assert (Hp9 := Hmax p (Hin p Hp)).
    specialize (H q). assert (Hqin : In q (map N.of_nat (seq 2 408))).
    { apply in_map_iff. exists (N.to_nat q). split; [lia|]. apply in_seq. lia. }
    specialize (H Hqin). apply orb_true_iff in H as [H|H].
    + apply existsb_exists in H as (x & Hx & E). apply N.eqb_eq in E. now subst.
    + exfalso. exact (small_divisor_composite q H Hq).
Qed.

(** Deciding the relations *)
Definition floor_root_b (w k p x : N) : bool := (x ^ k <=? p * 2 ^ (k * w)) && (p * 2 ^ (k * w) <? (x + 1) ^ k).
Lemma floor_root_ok w k p x : floor_root_b w k p x = true -> floor_root w k p x.
Proof. unfold floor_root_b. intros H. apply andb_true_iff in H as [H1 H2]. split; [now apply N.leb_le|now apply N.ltb_lt]. Qed.
Definition frac_bits_b (w k p x : N) : bool :=
  (x <? 2 ^ w) && existsb (fun i => floor_root_b w k p (i * 2 ^ w + x)) (map N.of_nat (seq 1 8)).
Lemma frac_bits_ok w k p x : frac_bits_b w k p x = true -> frac_bits w k p x.
Proof.
  unfold frac_bits_b. intros H. apply andb_true_iff in H as [H1 H2]. split; [now apply N.ltb_lt|].
  apply existsb_exists in H2 as (i & _ & H2). exists i. now apply floor_root_ok.
Qed.
Fixpoint forall2b {A B} (f : A -> B -> bool) (l : list A) (l' : list B) : bool :=
  match l, l' with
  | [], [] => true
  | x :: l, y :: l' => f x y && forall2b f l l'
  | _, _ => false
  end.
Lemma forall2b_ok {A B} (f : A -> B -> bool) (P : A -> B -> Prop) :
  (forall x y, f x y = true -> P x y) -> forall l l', forall2b f l l' = true -> Forall2 P l l'.
Proof.
  intros H. induction l as [|x l IH]; intros [|y l'] E; try discriminate; constructor.
  - apply H. now apply andb_true_iff in E.
  - apply IH. now apply andb_true_iff in E.
Qed.

Lemma roots_ok w k n l : (n <= 80)%nat -> forall2b (frac_bits_b w k) (firstn n primes80) l = true ->
  exists ps, first_n_primes n ps /\ Forall2 (frac_bits w k) ps l.
Proof.
  intros Hn H. exists (firstn n primes80). split; [now apply primes_first|].
  revert H. apply forall2b_ok. apply frac_bits_ok.
Qed.

(** SHA-2 round constants *)
Lemma k256_table : exists ps, first_n_primes 64 ps /\ Forall2 (frac_bits 32 3) ps (map rr_k software_rows).
Proof. apply roots_ok; [lia|]. vm_compute. reflexivity. Qed.
Lemma k256_const : map rr_k const_rows = map rr_k software_rows.
Proof. vm_compute. reflexivity. Qed.
Lemma k256_simd : List.concat (map simd_constants simd_program) = map rr_k software_rows.
Proof. vm_compute. reflexivity. Qed.
Lemma k512_table : exists ps, first_n_primes 80 ps /\ Forall2 (frac_bits 64 3) ps (map rr_k sha512_rows).
Proof. apply roots_ok; [lia|]. vm_compute. reflexivity. Qed.

(** Initial values *)
Lemma iv256_table : exists ps, first_n_primes 8 ps /\ Forall2 (frac_bits 32 2) ps sha256_iv.
Proof. apply roots_ok; [lia|]. vm_compute. reflexivity. Qed.
Lemma iv256_const : const_iv = sha256_iv.
Proof. reflexivity. Qed.
Lemma iv512_table : exists ps, first_n_primes 8 ps /\ Forall2 (frac_bits 64 2) ps sha512_iv.
Proof. apply roots_ok; [lia|]. vm_compute. reflexivity. Qed.
Lemma iv384_table : exists ps, first_n_primes 16 ps /\ Forall2 (frac_bits 64 2) (skipn 8 ps) sha384_iv.
Proof.
  exists (firstn 16 primes80). split; [apply primes_first; lia|].
  apply (forall2b_ok _ _ (frac_bits_ok 64 2)). vm_compute. reflexivity.
Qed.

(** RIPEMD-160 and SHA-1 *)
Lemma ripemd_constants :
  left_k 1 = 0 /\ floor_root 30 2 2 (left_k 2) /\ floor_root 30 2 3 (left_k 3) /\
  floor_root 30 2 5 (left_k 4) /\ floor_root 30 2 7 (left_k 5) /\
  floor_root 30 3 2 (right_k 1) /\ floor_root 30 3 3 (right_k 2) /\ floor_root 30 3 5 (right_k 3) /\
  floor_root 30 3 7 (right_k 4) /\ right_k 5 = 0.
Proof. repeat split; try (vm_compute; congruence). Qed.

Definition ripemd_row_ok (words : nat -> nat -> nat) (j : nat) (r : ripemd_row) : bool :=
  let rnd := (j / 16)%nat in
  let word := words rnd (j mod 16)%nat in
  Nat.eqb (rw_round r) (S rnd) && Nat.eqb (rw_data r) word && (rw_shift r =? SpecRipemd.shift rnd word).
Lemma ripemd_rows_ok words rows : forall2b (ripemd_row_ok words) (seq 0 80) rows = true ->
  Forall2 (ripemd_row_is words) (seq 0 80) rows.
Proof.
  apply forall2b_ok. intros j r H. unfold ripemd_row_ok in H. apply andb_true_iff in H as [H H3].
  apply andb_true_iff in H as [H1 H2]. apply Nat.eqb_eq in H1, H2. apply N.eqb_eq in H3. now repeat split.
Qed.
Lemma ripemd_order :
  Forall2 (ripemd_row_is SpecRipemd.rL) (seq 0 80) left_rows /\
  Forall2 (ripemd_row_is SpecRipemd.rR) (seq 0 80) right_rows.
Proof. split; apply ripemd_rows_ok; vm_compute; reflexivity. Qed.

Lemma sha1_constants : forall i b c d, i < 80 -> exists f k, sha1_f_k i b c d = Ok (f, k) /\
  floor_root 30 2 (nth (N.to_nat (i / 20)) [2; 3; 5; 10] 0) k.
Proof.
  intros i b c d Hi. unfold sha1_f_k. pose proof (N.div_mod' i 20) as D. pose proof (N.mod_lt i 20 ltac:(discriminate)) as Hm.
  destruct (N.leb_spec i 19) as [H|H].
  { replace (i / 20) with 0 by lia. eexists _, _. split; [reflexivity|]. apply floor_root_ok. vm_compute. reflexivity. }
  destruct (N.leb_spec i 39) as [H'|H'].
  { replace (i / 20) with 1 by lia. eexists _, _. split; [reflexivity|]. apply floor_root_ok. vm_compute. reflexivity. }
  destruct (N.leb_spec i 59) as [H''|H''].
  { replace (i / 20) with 2 by lia. eexists _, _. split; [reflexivity|]. apply floor_root_ok. vm_compute. reflexivity. }
  destruct (N.leb_spec i 79) as [_|]; [|lia].
  replace (i / 20) with 3 by lia. eexists _, _. split; [reflexivity|]. apply floor_root_ok. vm_compute. reflexivity.
Qed.

Lemma counting_ivs :
  List.concat (map (le_octets 4) sha1_iv) = counting_bytes /\ List.concat (map (le_octets 4) ripemd_iv) = counting_bytes.
Proof. split; vm_compute; reflexivity. Qed.

Lemma sip_constants : let s := sip_st (with_keys 0 0) in
  List.concat (map (be_octets 8) [v0 s; v1 s; v2 s; v3 s]) = sip_text.
Proof. vm_compute. reflexivity. Qed.

(** SHA-512/256: the IV generation function of FIPS 180-4, 5.3.6 *)
Lemma iv512_256 : sha512_256_iv
  = be_words 8 (SpecSha2.hash_from SpecSha2.params512 (map (fun h => N.lxor h 0xa5a5a5a5a5a5a5a5) sha512_iv) sha512_256_name).
Proof. rewrite H512_256_eq, H512_eq. reflexivity. Qed.
