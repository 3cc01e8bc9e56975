(** Generated [const_hash] and [hash_tag] against ModelSha256.v *)
From Coq Require Import Arith Lia.
From Verif Require Import Base GenBase ModelEngine ModelSha2Round TablesSha2 ModelSha256 GenSha256 GenSha256Const ProofBase ProofGenBase ProofGenSha2 ProofGenConst ProofGenConstFast ProofGenConstSmall.

Section C.
  Context (cfg : config) (Hcfg : wf_config cfg).
  Notation M := (2 ^ usize_bits cfg).

  Definition out_body (state : list N) (i : N) (output : bytes) : res bytes :=
    let* s := index state i in
    let* output := store output (i * 4 + 0) (u8 (N.shiftr s 24)) in
    let* output := store output (i * 4 + 1) (u8 (N.shiftr s 16)) in
    let* output := store output (i * 4 + 2) (u8 (N.shiftr s 8)) in
    store output (i * 4 + 3) (u8 (N.shiftr s 0)).

  Lemma loop3_fast state n : forall i o fuel, (n <= fuel)%nat -> i + N.of_nat n = 8 ->
    g_sha256_Midstate_const_hash_fast_loop3 fuel cfg state o i
    = let* o' := for_loop n i (out_body state) o in Ok (o', 8).
  Proof.
    pose proof (wf_M cfg Hcfg) as HM.
    induction n as [|n IH]; intros i o fuel Hf Hi.
    - assert (i = 8) by lia. subst i. now destruct fuel.
    - destruct fuel as [|fuel]; [lia|]. cbn [g_sha256_Midstate_const_hash_fast_loop3 for_loop].
      destruct (N.ltb_spec i 8); [|lia]. unfold out_body at 1.
      rewrite !umul_ok by (try assumption; lia). cbn [bind]. rewrite !uadd_ok by (try assumption; lia). cbn [bind].
      rewrite (N.add_0_r i). destruct (index state i) as [s|]; [|reflexivity]. cbn [bind].
      rewrite !bind_bind. apply bind_ext. intros o1 _. rewrite !bind_bind. apply bind_ext. intros o2 _.
      rewrite !bind_bind. apply bind_ext. intros o3 _. apply bind_ext. intros o4 _. apply IH; lia.
  Qed.
  Lemma loop3_small state n : forall i o fuel, (n <= fuel)%nat -> i + N.of_nat n = 8 ->
    g_sha256_Midstate_const_hash_small_loop3 fuel cfg state o i
    = let* o' := for_loop n i (out_body state) o in Ok (o', 8).
  Proof.
    pose proof (wf_M cfg Hcfg) as HM.
    induction n as [|n IH]; intros i o fuel Hf Hi.
    - assert (i = 8) by lia. subst i. now destruct fuel.
    - destruct fuel as [|fuel]; [lia|]. cbn [g_sha256_Midstate_const_hash_small_loop3 for_loop].
      destruct (N.ltb_spec i 8); [|lia]. unfold out_body at 1.
      rewrite !umul_ok by (try assumption; lia). cbn [bind]. rewrite !uadd_ok by (try assumption; lia). cbn [bind].
      rewrite (N.add_0_r i). destruct (index state i) as [s|]; [|reflexivity]. cbn [bind].
      rewrite !bind_bind. apply bind_ext. intros o1 _. rewrite !bind_bind. apply bind_ext. intros o2 _.
      rewrite !bind_bind. apply bind_ext. intros o3 _. apply bind_ext. intros o4 _. apply IH; lia.
  Qed.

  Lemma uadd_lt a b s : usize_add cfg a b = Ok s -> s < M.
  Proof.
    unfold usize_add, checked_add. destruct (N.ltb_spec (a + b) M); [congruence|].
    destruct overflow_checks; [discriminate|]. intros E. injection E as <-. apply N.mod_lt.
    pose proof (wf_M cfg Hcfg). lia.
  Qed.

  Lemma bind_pair_fst {A B C} (r : res (A * B)) (k : A -> res C) :
    (let* (a, _) := r in k a) = let* a := fst_res r in k a.
  Proof. now destruct r as [[a b]|]. Qed.

  Lemma const_hash_gen l fin : g_sha256_Midstate_const_hash cfg l fin = midstate_const_hash cfg l fin.
  Proof.
    unfold g_sha256_Midstate_const_hash, midstate_const_hash.
    assert (H64 : forall n, n < M -> n / 64 * 64 < M).
    { intros n Hn. pose proof (N.mul_div_le n 64). lia. }
    destruct (small_hash cfg) eqn:Hs.
    - unfold g_sha256_Midstate_const_hash_small. cbv zeta.
      apply bind_ext. intros n1 _. apply bind_ext. intros n En. apply uadd_lt in En.
      rewrite (bind_pair_fst (g_sha256_Midstate_const_hash_small_loop1 _ _ _ _ _ _ _)).
      rewrite const_loop_small by (try assumption; try reflexivity; now apply H64).
      apply bind_ext. intros st _. rewrite (loop3_small st 8) by (try lia; reflexivity).
      rewrite bind_bind. cbn [bind]. apply bind_ret.
    - unfold g_sha256_Midstate_const_hash_fast. cbv zeta.
      apply bind_ext. intros n1 _. apply bind_ext. intros n En. apply uadd_lt in En.
      rewrite (bind_pair_fst (g_sha256_Midstate_const_hash_fast_loop1 _ _ _ _ _ _ _)).
      rewrite const_loop_fast by (try assumption; try reflexivity; now apply H64).
      apply bind_ext. intros st _. rewrite (loop3_fast st 8) by (try lia; reflexivity).
      rewrite bind_bind. cbn [bind]. apply bind_ret.
  Qed.

  Lemma for_loop_len {A} (f : N -> list A -> res (list A)) :
    (forall i l l', f i l = Ok l' -> length l' = length l) ->
    forall n i l l', for_loop n i f l = Ok l' -> length l' = length l.
  Proof.
    intros H. induction n as [|n IH]; intros i l l'; cbn [for_loop]; [congruence|].
    destruct (f i l) eqn:E; [|discriminate]. cbn [bind]. intros E2. rewrite (IH _ _ _ E2). exact (H _ _ _ E).
  Qed.

  Lemma const_hash_len l fin h : midstate_const_hash cfg l fin = Ok h -> length h = 32%nat.
  Proof.
    unfold midstate_const_hash. destruct usize_add; [|discriminate]. cbn [bind].
    destruct usize_add; [|discriminate]. cbn [bind]. destruct const_loop; [|discriminate]. cbn [bind].
    intros E. apply for_loop_len in E; [exact E|]. clear.
    intros i l l'. destruct index; [|discriminate]. cbn [bind].
    destruct (store l _ _) as [o1|] eqn:E1; [|discriminate]. cbn [bind].
    destruct (store o1 _ _) as [o2|] eqn:E2; [|discriminate]. cbn [bind].
    destruct (store o2 _ _) as [o3|] eqn:E3; [|discriminate]. cbn [bind]. intros E4.
    now rewrite (store_len _ _ _ _ E4), (store_len _ _ _ _ E3), (store_len _ _ _ _ E2), (store_len _ _ _ _ E1).
  Qed.

  Lemma tag_loop_gen h n : length h = 32%nat -> forall i buf fuel, (n <= fuel)%nat -> i + N.of_nat n = 64 ->
    length buf = 64%nat ->
    g_sha256_Midstate_hash_tag_loop1 fuel cfg h buf i
    = let* buf := for_loop n i (fun i buf =>
        let* b := index h (i mod len h) in
        store buf i b) buf in Ok (buf, 64).
  Proof.
    intros Hh. pose proof (wf_M cfg Hcfg) as HM.
    induction n as [|n IH]; intros i buf fuel Hf Hi Hb.
    - assert (i = 64) by lia. subst i. destruct fuel; cbn [g_sha256_Midstate_hash_tag_loop1 for_loop bind];
        unfold len; rewrite Hb; reflexivity.
    - destruct fuel as [|fuel]; [lia|]. cbn [g_sha256_Midstate_hash_tag_loop1 for_loop].
      replace (i <? len buf) with true by (symmetry; apply N.ltb_lt; unfold len; rewrite Hb; lia).
      unfold checked_rem. replace (len h =? 0) with false by (unfold len; now rewrite Hh). cbn [bind].
      rewrite !bind_bind. apply bind_ext. intros b _. apply bind_ext. intros buf1 E1.
      rewrite uadd_ok by (try assumption; lia). cbn [bind]. apply IH; try lia.
      now rewrite (store_len _ _ _ _ E1).
  Qed.

  Lemma hash_const_gen l : g_sha256_Hash_const_hash cfg l = const_hash cfg l.
  Proof. exact (const_hash_gen l true). Qed.

  Lemma hash_tag_gen tag : g_sha256_Midstate_hash_tag cfg tag = hash_tag cfg tag.
  Proof.
    unfold g_sha256_Midstate_hash_tag, hash_tag. rewrite hash_const_gen. apply bind_ext. intros h Eh.
    apply const_hash_len in Eh. cbv zeta. rewrite (tag_loop_gen h 64 Eh) by (try lia; reflexivity).
    rewrite bind_bind. apply bind_ext. intros buf _. cbn [bind]. apply const_hash_gen.
  Qed.
End C.
