(** GenRipemd: the block function with the feature small-hash off *)
From Verif Require Import Base GenBase ModelEngine ModelSha2Round ModelRipemdRound TablesRipemd ModelRipemd GenRipemd ProofBase ProofGenBase ProofGenSha2 ProofGenRipemd.

Lemma ripemd_pb_fast cfg e : small_hash cfg = false -> length (e_h e) = 5%nat ->
  g_ripemd160_Engine_process_block_fast cfg e = ripemd_process_block cfg e.
Proof.
  intros Hs Hh. unfold g_ripemd160_Engine_process_block_fast, ripemd_process_block, BLOCK_SIZE_RIPEMD.
  apply bind_ext. intros u _. clear u. cbv zeta. rewrite zip_iter_mut_assign. apply bind_ext. intros w Ew.
  assert (Hw : length w = 16%nat) by now rewrite (zip_assign_len _ _ _ _ Ew). clear Ew.
  destruct e as [buf h n]. cbn [e_h e_buffer e_length] in *.
  destruct (list5 h Hh) as (h0 & h1 & h2 & h3 & h4 & ->).
  destruct (list16 w Hw) as (?w & ?w & ?w & ?w & ?w & ?w & ?w & ?w & ?w & ?w & ?w & ?w & ?w & ?w & ?w & ?w & ->).
  match goal with |- _ = Ok (mk_engine ?b (rip_combine ?h ?l ?r) ?m) =>
    change (Ok (mk_engine b (rip_combine h l r) m)) with (lines_end (fun x y => Ok (mk_engine b (rip_combine h x y) m)) l r)
  end.
  unfold run_line, rip_round, left_rows, right_rows. rewrite Hs.
  do 16 rip_left.
  unfold g_ripemd160_Engine_process_block_fast_part1. cbv zeta. do 16 rip_left.
  unfold g_ripemd160_Engine_process_block_fast_part2. cbv zeta. do 16 rip_left.
  unfold g_ripemd160_Engine_process_block_fast_part3. cbv zeta. do 16 rip_left.
  unfold g_ripemd160_Engine_process_block_fast_part4. cbv zeta. do 16 rip_left.
  unfold g_ripemd160_Engine_process_block_fast_part5. cbv zeta. do 16 rip_right.
  unfold g_ripemd160_Engine_process_block_fast_part6. cbv zeta. do 16 rip_right.
  unfold g_ripemd160_Engine_process_block_fast_part7. cbv zeta. do 16 rip_right.
  unfold g_ripemd160_Engine_process_block_fast_part8. cbv zeta. do 16 rip_right.
  unfold g_ripemd160_Engine_process_block_fast_part9. cbv zeta. do 16 rip_right.
  unfold g_ripemd160_Engine_process_block_fast_part10. cbv zeta. reflexivity.
Qed.
