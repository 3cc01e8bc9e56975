(** Generated const implementation of SHA-256 with the feature small-hash off: the
    loop over the chunks *)
From Coq Require Import Lia.
From Verif Require Import Base GenBase ModelEngine ModelSha2Round TablesSha2 ModelSha256 GenSha256 GenSha256Const ProofBase ProofGenBase ProofGenSha2 ProofGenConst.

Lemma const_loop_fast cfg l fin num : wf_config cfg -> small_hash cfg = false -> num * 64 < 2 ^ usize_bits cfg ->
  forall fuel state chunk, length state = 8%nat ->
  fst_res (g_sha256_Midstate_const_hash_fast_loop1 fuel cfg l fin num state chunk)
  = const_loop fuel cfg l fin num chunk state.
Proof.
  intros Hcfg Hs Hn. pose proof (wf_M cfg Hcfg) as HM.
  induction fuel as [|fuel IH]; intros state chunk Hst;
    cbn [g_sha256_Midstate_const_hash_fast_loop1 const_loop]; destruct (N.ltb_spec chunk num) as [Hc|Hc]; try reflexivity.
  refine (eq_trans (f_equal fst_res (const_prefix cfg Hcfg g_sha256_Midstate_const_hash_fast_loop2 l fin num state chunk _
            (fun fuel off i buf => loop2_gen_fast cfg l off fuel i buf) Hc Hn)) _).
  rewrite !(uadd_ok cfg chunk 1) by lia. cbn [bind]. destruct (negb fin && (chunk + 1 =? num)); [reflexivity|].
  destruct (const_chunk cfg l num chunk) as [w|] eqn:Ew; [|reflexivity].
  assert (Hw : length w = 16%nat).
  { unfold const_chunk in Ew. rewrite (umul_ok cfg chunk 64), (uadd_ok cfg chunk 1), (uadd_ok cfg chunk 2) in Ew by lia.
    cbn [bind] in Ew. rewrite (uadd_ok cfg (chunk * 64) 64) in Ew by lia. cbn [bind] in Ew.
    destruct (chunk * 64 + 64 <=? len l); [exact (copy_w_len _ _ _ _ Ew)|].
    destruct fill_buf as [[b i]|]; [|discriminate]. cbn [bind] in Ew.
    match type of Ew with bind ?x _ = _ => destruct x; [|discriminate] end. cbn [bind] in Ew.
    match type of Ew with bind ?x _ = _ => destruct x; [|discriminate] end. cbn [bind] in Ew.
    exact (copy_w_len _ _ _ _ Ew). }
  clear Ew. cbn [bind]. cbv zeta.
  sha2_start state Hst w Hw.
  match goal with |- _ = match ?s with pair _ _ => const_loop fuel cfg l fin num ?ch (add_all ?w ?h _) end =>
    change (match s with pair vars _ => const_loop fuel cfg l fin num ch (add_all w h vars) end)
      with (rows_end (fun vars => const_loop fuel cfg l fin num ch (add_all w h vars)) s)
  end.
  unfold run_rows, round_macro, const_rows. rewrite Hs.
  do 64 sha2_round.
  do 16 sha2_left. rewrite IH by reflexivity. reflexivity.
Qed.
