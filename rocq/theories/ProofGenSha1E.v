(** Generated sha1.rs: the engine, against ModelSha1.v *)
From Coq Require Import Arith Lia.
From Verif Require Import Base ModelEngine ModelSha2Round TablesSha2 ModelSha256 ModelSha512 ModelSha1 ModelRipemd
  ModelAll SpecMD GenBase GenLib GenSha1 SpecGen ProofBase ProofMD ProofGenBase ProofGenEngine ProofGenSha1.


Section C.
  Context (cfg : config) (WF : wf_config cfg).

  Lemma sha1_pb_typed e : len (e_buffer e) = 64 -> good_h (md_of Sha1) (e_h e) ->
    g_sha1_Engine_process_block cfg e = block_fn cfg Sha1 e.
  Proof.
    intros Hb Hh. apply sha1_pb_gen. exact (proj1 Hh).
  Qed.

  Lemma sha1_loop_gen fuel : forall e inp,
    g_sha1_Engine_input_loop1 fuel cfg e inp = gen_loop cfg 64 (g_sha1_Engine_process_block cfg) fuel e inp.
  Proof.
    induction fuel as [|fuel IH]; intros e inp; [reflexivity|].
    cbn [g_sha1_Engine_input_loop1 gen_loop]. destruct (negb _); [|reflexivity].
    cbv zeta. repeat (apply bind_ext; intros). apply IH.
  Qed.

  Lemma sha1_gen_input e inp :
    g_sha1_Engine_input cfg e inp = gen_input cfg 64 (g_sha1_Engine_process_block cfg) e inp.
  Proof. unfold g_sha1_Engine_input, gen_input. now rewrite sha1_loop_gen. Qed.

  Theorem sha1_input_gen e inp : typed Sha1 e -> g_sha1_Engine_input cfg e inp = sha1_input cfg e inp.
  Proof.
    intros H. apply typed_inv in H. rewrite sha1_gen_input.
    exact (gen_input_eq cfg 64 _ _ _ sha1_pb_typed (pb_typed cfg Sha1) e inp H).
  Qed.

  Theorem sha1_input_typed e inp e' : typed Sha1 e -> sha1_input cfg e inp = Ok e' -> typed Sha1 e'.
  Proof. exact (input_typed cfg Sha1 e inp e'). Qed.

  Theorem sha1_midstate_gen e : g_sha1_Engine_midstate e = sha1_midstate e.
  Proof. exact (zip_chunks_copy (e_h e) 4 _ (to_be_bytes 4)). Qed.

  Theorem sha1_finalize_gen e : typed Sha1 e -> g_sha1_Engine_finalize cfg e = sha1_finalize cfg e.
  Proof.
    intros H. apply typed_inv in H. unfold sha1_finalize.
    etransitivity; [|refine (eq_trans (gen_finalize_eq cfg 64 _ _ _ sha1_pb_typed (pb_typed cfg Sha1) 8
      (fun bits => [to_be_bytes 8 bits]) g_sha1_Engine_midstate e H) _)].
    - unfold g_sha1_Engine_finalize, gen_finalize. cbn [gen_inputs].
      repeat first [rewrite sha1_gen_input | rewrite bind_ret | rewrite bind_bind | reflexivity | apply bind_ext; intros].
    - apply bind_ext. intros. apply sha1_midstate_gen.
  Qed.

  Theorem sha1_from_midstate_gen m n : g_sha1_Engine_from_midstate m n = sha1_from_midstate m n.
  Proof.
    unfold g_sha1_Engine_from_midstate, sha1_from_midstate, from_midstate_bytes.
    apply bind_ext. intros u _. rewrite zip_iter_mut_assign. reflexivity.
  Qed.

  Theorem sha1_from_midstate_typed m n e : sha1_from_midstate m n = Ok e -> typed Sha1 e.
  Proof. apply (from_midstate_typed Sha1). intros b x. exact (be_lt 4 b x). Qed.

  Theorem sha1_default_gen : g_sha1_Engine_default = sha1_default.
  Proof. reflexivity. Qed.

  Theorem sha1_default_typed : typed Sha1 sha1_default.
  Proof. default_typed. Qed.
End C.
