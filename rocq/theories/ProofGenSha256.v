(** Generated sha256.rs: the engine, against ModelSha256.v *)
From Coq Require Import Arith Lia.
From Verif Require Import Base ModelEngine ModelSha2Round TablesSha2 ModelSha256 ModelSha512 ModelSha1 ModelRipemd
  ModelAll SpecMD GenBase GenLib GenSha256 SpecGen ProofBase ProofMD ProofGenBase ProofGenEngine ProofGenSha256Fast ProofGenSha256Small ProofGenSimd.


Lemma sha256_soft_gen cfg e : length (e_h e) = 8%nat ->
  g_sha256_Engine_software_process_block cfg e = software_process_block cfg e.
Proof.
  intros H. unfold g_sha256_Engine_software_process_block. destruct (small_hash cfg) eqn:E.
  - exact (sha256_soft_small cfg e E H).
  - exact (sha256_soft_fast cfg e E H).
Qed.

Section C.
  Context (cfg : config) (WF : wf_config cfg).

  Lemma sha256_pb_typed e : len (e_buffer e) = 64 -> good_h (md_of Sha256) (e_h e) ->
    g_sha256_Engine_process_block cfg e = block_fn cfg Sha256 e.
  Proof.
    intros Hb Hh. unfold g_sha256_Engine_process_block. cbn [block_fn]. unfold sha256_process_block.
    rewrite !Bool.andb_diag. destruct (sha_ni cfg); cbn [andb].
    - exact (simd_gen cfg e WF).
    - exact (sha256_soft_gen cfg e (proj1 Hh)).
  Qed.

  Lemma sha256_loop_gen fuel : forall e inp,
    g_sha256_Engine_input_loop1 fuel cfg e inp = gen_loop cfg 64 (g_sha256_Engine_process_block cfg) fuel e inp.
  Proof.
    induction fuel as [|fuel IH]; intros e inp; [reflexivity|].
    cbn [g_sha256_Engine_input_loop1 gen_loop]. destruct (negb _); [|reflexivity].
    cbv zeta. repeat (apply bind_ext; intros). apply IH.
  Qed.

  Lemma sha256_gen_input e inp :
    g_sha256_Engine_input cfg e inp = gen_input cfg 64 (g_sha256_Engine_process_block cfg) e inp.
  Proof. unfold g_sha256_Engine_input, gen_input. now rewrite sha256_loop_gen. Qed.

  Theorem sha256_input_gen e inp : typed Sha256 e -> g_sha256_Engine_input cfg e inp = sha256_input cfg e inp.
  Proof.
    intros H. apply typed_inv in H. rewrite sha256_gen_input.
    exact (gen_input_eq cfg 64 _ _ _ sha256_pb_typed (pb_typed cfg Sha256) e inp H).
  Qed.

  Theorem sha256_input_typed e inp e' : typed Sha256 e -> sha256_input cfg e inp = Ok e' -> typed Sha256 e'.
  Proof. exact (input_typed cfg Sha256 e inp e'). Qed.

  Theorem sha256_midstate_gen e : g_sha256_Engine_midstate e = sha256_midstate e.
  Proof. exact (zip_chunks_copy (e_h e) 4 _ (to_be_bytes 4)). Qed.

  Theorem sha256_finalize_gen e : typed Sha256 e -> g_sha256_Engine_finalize cfg e = sha256_finalize cfg e.
  Proof.
    intros H. apply typed_inv in H. unfold sha256_finalize.
    etransitivity; [|refine (eq_trans (gen_finalize_eq cfg 64 _ _ _ sha256_pb_typed (pb_typed cfg Sha256) 8
      (fun bits => [to_be_bytes 8 bits]) g_sha256_Engine_midstate e H) _)].
    - unfold g_sha256_Engine_finalize, gen_finalize. cbn [gen_inputs].
      repeat first [rewrite sha256_gen_input | rewrite bind_ret | rewrite bind_bind | reflexivity | apply bind_ext; intros].
    - apply bind_ext. intros. apply sha256_midstate_gen.
  Qed.

  Theorem sha256_from_midstate_gen m n : g_sha256_Engine_from_midstate_trait m n = sha256_from_midstate m n.
  Proof.
    unfold g_sha256_Engine_from_midstate_trait, sha256_from_midstate, from_midstate_bytes.
    apply bind_ext. intros u _. rewrite zip_iter_mut_assign. reflexivity.
  Qed.

  Theorem sha256_from_midstate_typed m n e : sha256_from_midstate m n = Ok e -> typed Sha256 e.
  Proof. apply (from_midstate_typed Sha256). intros b x. exact (be_lt 4 b x). Qed.

  Theorem sha256_default_gen : g_sha256_Engine_default = sha256_default.
  Proof. reflexivity. Qed.

  Theorem sha256_default_typed : typed Sha256 sha256_default.
  Proof. default_typed. Qed.

  Theorem sha256_from_midstate_inherent_gen m n : g_sha256_Engine_from_midstate m n = sha256_from_midstate m n.
  Proof. exact (sha256_from_midstate_gen m n). Qed.
End C.
