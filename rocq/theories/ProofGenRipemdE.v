(** Generated ripemd160.rs: the engine, against ModelRipemd.v *)
From Coq Require Import Arith Lia.
From Verif Require Import Base ModelEngine ModelSha2Round TablesSha2 ModelSha256 ModelSha512 ModelSha1 ModelRipemd
  ModelAll SpecMD GenBase GenLib GenRipemd SpecGen ProofBase ProofMD ProofGenBase ProofGenEngine ProofGenRipemdFast ProofGenRipemdSmall.


Section C.
  Context (cfg : config) (WF : wf_config cfg).

  Lemma ripemd_pb_typed e : len (e_buffer e) = 64 -> good_h (md_of Ripemd160) (e_h e) ->
    g_ripemd160_Engine_process_block cfg e = block_fn cfg Ripemd160 e.
  Proof.
    intros Hb Hh. unfold g_ripemd160_Engine_process_block. cbn [block_fn]. destruct (small_hash cfg) eqn:E.
    - exact (ripemd_pb_small cfg e E (proj1 Hh)).
    - exact (ripemd_pb_fast cfg e E (proj1 Hh)).
  Qed.

  Lemma ripemd_loop_gen fuel : forall e inp,
    g_ripemd160_Engine_input_loop1 fuel cfg e inp = gen_loop cfg 64 (g_ripemd160_Engine_process_block cfg) fuel e inp.
  Proof.
    induction fuel as [|fuel IH]; intros e inp; [reflexivity|].
    cbn [g_ripemd160_Engine_input_loop1 gen_loop]. destruct (negb _); [|reflexivity].
    cbv zeta. repeat (apply bind_ext; intros). apply IH.
  Qed.

  Lemma ripemd_gen_input e inp :
    g_ripemd160_Engine_input cfg e inp = gen_input cfg 64 (g_ripemd160_Engine_process_block cfg) e inp.
  Proof. unfold g_ripemd160_Engine_input, gen_input. now rewrite ripemd_loop_gen. Qed.

  Theorem ripemd_input_gen e inp : typed Ripemd160 e -> g_ripemd160_Engine_input cfg e inp = ripemd_input cfg e inp.
  Proof.
    intros H. apply typed_inv in H. rewrite ripemd_gen_input.
    exact (gen_input_eq cfg 64 _ _ _ ripemd_pb_typed (pb_typed cfg Ripemd160) e inp H).
  Qed.

  Theorem ripemd_input_typed e inp e' : typed Ripemd160 e -> ripemd_input cfg e inp = Ok e' -> typed Ripemd160 e'.
  Proof. exact (input_typed cfg Ripemd160 e inp e'). Qed.

  Theorem ripemd_midstate_gen e : g_ripemd160_Engine_midstate e = ripemd_midstate e.
  Proof. exact (zip_chunks_copy (e_h e) 4 _ (to_le_bytes 4)). Qed.

  Theorem ripemd_finalize_gen e : typed Ripemd160 e -> g_ripemd160_Engine_finalize cfg e = ripemd_finalize cfg e.
  Proof.
    intros H. apply typed_inv in H. unfold ripemd_finalize.
    etransitivity; [|refine (eq_trans (gen_finalize_eq cfg 64 _ _ _ ripemd_pb_typed (pb_typed cfg Ripemd160) 8
      (fun bits => [to_le_bytes 8 bits]) g_ripemd160_Engine_midstate e H) _)].
    - unfold g_ripemd160_Engine_finalize, gen_finalize. cbn [gen_inputs].
      repeat first [rewrite ripemd_gen_input | rewrite bind_ret | rewrite bind_bind | reflexivity | apply bind_ext; intros].
    - apply bind_ext. intros. apply ripemd_midstate_gen.
  Qed.

  Theorem ripemd_from_midstate_gen m n : g_ripemd160_Engine_from_midstate m n = ripemd_from_midstate m n.
  Proof.
    unfold g_ripemd160_Engine_from_midstate, ripemd_from_midstate, from_midstate_bytes.
    apply bind_ext. intros u _. rewrite zip_iter_mut_assign. reflexivity.
  Qed.

  Theorem ripemd_from_midstate_typed m n e : ripemd_from_midstate m n = Ok e -> typed Ripemd160 e.
  Proof. apply (from_midstate_typed Ripemd160). intros b x. exact (be_lt 4 b x). Qed.

  Theorem ripemd_default_gen : g_ripemd160_Engine_default = ripemd_default.
  Proof. reflexivity. Qed.

  Theorem ripemd_default_typed : typed Ripemd160 ripemd_default.
  Proof. default_typed. Qed.
End C.
