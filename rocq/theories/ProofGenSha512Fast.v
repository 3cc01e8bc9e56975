(** GenSha512: the block function with the feature small-hash off *)
From Verif Require Import Base GenBase ModelEngine ModelSha2Round TablesSha2 ModelSha512 GenSha512 ProofBase ProofGenBase ProofGenSha2.

Lemma sha512_pb_fast cfg e : small_hash cfg = false -> length (e_h e) = 8%nat ->
  g_sha512_Engine_process_block_fast cfg e = sha512_process_block cfg e.
Proof.
  intros Hs Hh. unfold g_sha512_Engine_process_block_fast, sha512_process_block, BLOCK_SIZE_512.
  apply bind_ext. intros u _. clear u. cbv zeta. rewrite zip_iter_mut_assign. apply bind_ext. intros w Ew.
  assert (Hw : length w = 16%nat) by now rewrite (zip_assign_len _ _ _ _ Ew). clear Ew.
  destruct e as [buf h n]. cbn [e_h e_buffer e_length] in *.
  sha2_start h Hh w Hw.
  match goal with |- _ = match ?s with pair _ _ => Ok (mk_engine ?b (add_all ?w ?h _) ?l) end =>
    change (match s with pair vars _ => Ok (mk_engine b (add_all w h vars) l) end)
      with (rows_end (fun vars => Ok (mk_engine b (add_all w h vars) l)) s)
  end.
  unfold run_rows, round_macro, sha512_rows. rewrite Hs.
  do 16 sha2_round.
  unfold g_sha512_Engine_process_block_fast_part1. cbv zeta. do 16 sha2_round.
  unfold g_sha512_Engine_process_block_fast_part2. cbv zeta. do 16 sha2_round.
  unfold g_sha512_Engine_process_block_fast_part3. cbv zeta. do 16 sha2_round.
  unfold g_sha512_Engine_process_block_fast_part4. cbv zeta. do 16 sha2_round.
  unfold g_sha512_Engine_process_block_fast_part5. cbv zeta. reflexivity.
Qed.
