(** Generated sha512.rs, sha384.rs and sha512_256.rs: the engine, against ModelSha512.v *)
From Coq Require Import Arith Lia.
From Verif Require Import Base ModelEngine ModelSha2Round TablesSha2 ModelSha256 ModelSha512 ModelSha1 ModelRipemd
  ModelAll SpecMD GenBase GenLib GenSha512 GenSha384 SpecGen ProofBase ProofMD ProofGenBase ProofGenEngine ProofGenSha512Fast ProofGenSha512Small.


Section C.
  Context (cfg : config) (WF : wf_config cfg).

  Lemma sha512_pb_typed e : len (e_buffer e) = 128 -> good_h (md_of Sha512) (e_h e) ->
    g_sha512_Engine_process_block cfg e = block_fn cfg Sha512 e.
  Proof.
    intros Hb Hh. unfold g_sha512_Engine_process_block. cbn [block_fn]. destruct (small_hash cfg) eqn:E.
    - exact (sha512_pb_small cfg e E (proj1 Hh)).
    - exact (sha512_pb_fast cfg e E (proj1 Hh)).
  Qed.

  Lemma sha512_loop_gen fuel : forall e inp,
    g_sha512_Engine_input_loop1 fuel cfg e inp = gen_loop cfg 128 (g_sha512_Engine_process_block cfg) fuel e inp.
  Proof.
    induction fuel as [|fuel IH]; intros e inp; [reflexivity|].
    cbn [g_sha512_Engine_input_loop1 gen_loop]. destruct (negb _); [|reflexivity].
    cbv zeta. repeat (apply bind_ext; intros). apply IH.
  Qed.

  Lemma sha512_gen_input e inp :
    g_sha512_Engine_input cfg e inp = gen_input cfg 128 (g_sha512_Engine_process_block cfg) e inp.
  Proof. unfold g_sha512_Engine_input, gen_input. now rewrite sha512_loop_gen. Qed.

  Theorem sha512_input_gen e inp : typed Sha512 e -> g_sha512_Engine_input cfg e inp = sha512_input cfg e inp.
  Proof.
    intros H. apply typed_inv in H. rewrite sha512_gen_input.
    exact (gen_input_eq cfg 128 _ _ _ sha512_pb_typed (pb_typed cfg Sha512) e inp H).
  Qed.

  Theorem sha512_input_typed e inp e' : typed Sha512 e -> sha512_input cfg e inp = Ok e' -> typed Sha512 e'.
  Proof. exact (input_typed cfg Sha512 e inp e'). Qed.

  Theorem sha512_midstate_gen e : g_sha512_Engine_midstate e = sha512_midstate e.
  Proof. exact (zip_chunks_copy (e_h e) 8 _ (to_be_bytes 8)). Qed.

  Theorem sha512_finalize_gen e : typed Sha512 e -> g_sha512_Engine_finalize cfg e = sha512_finalize cfg e.
  Proof.
    intros H. apply typed_inv in H. unfold sha512_finalize.
    etransitivity; [|refine (eq_trans (gen_finalize_eq cfg 128 _ _ _ sha512_pb_typed (pb_typed cfg Sha512) 16
      (fun bits => [array x00 8; to_be_bytes 8 bits]) g_sha512_Engine_midstate e H) _)].
    - unfold g_sha512_Engine_finalize, gen_finalize. cbn [gen_inputs].
      pose (gi := gen_input cfg 128 (g_sha512_Engine_process_block cfg)). fold gi.
      assert (G : forall e d, inv 128 (good_h (md_of Sha512)) e -> gi e d = sha512_input cfg e d).
      { intros e0 d H0. exact (gen_input_eq cfg 128 _ _ _ sha512_pb_typed (pb_typed cfg Sha512) e0 d H0). }
      assert (T : forall e d e', inv 128 (good_h (md_of Sha512)) e -> gi e d = Ok e' -> inv 128 (good_h (md_of Sha512)) e').
      { intros e0 d e' H0 E. rewrite G in E by exact H0.
        exact (engine_input_inv cfg 128 _ _ (pb_typed cfg Sha512) e0 d e' H0 E). }
      rewrite sha512_gen_input. fold gi. apply bind_ext. intros e1 E1. apply T in E1; [|exact H].
      assert (E2 : forall z, (if len z <? e_length e1 mod 128 then g_sha512_Engine_input cfg e1 z else Ok e1)
                 = (if len z <? e_length e1 mod 128 then gi e1 z else Ok e1)).
      { intros z. destruct (_ <? _); [apply sha512_gen_input|reflexivity]. }
      rewrite E2. clear E2. apply bind_ext. intros e2 E2.
      assert (I2 : inv 128 (good_h (md_of Sha512)) e2).
      { destruct (_ <? _) in E2; [exact (T _ _ _ E1 E2)|congruence]. }
      apply bind_ext. intros p _. apply bind_ext. intros z _. rewrite sha512_gen_input. fold gi.
      apply bind_ext. intros e3 E3. apply T in E3; [|exact I2]. apply bind_ext. intros u _.
      rewrite sha512_gen_input. fold gi.
      refine (eq_trans (bind_swap _ _ _ POverflow _ _) _).
      + intros q E. rewrite G in E by exact E3.
        apply (input_panics cfg Sha512 e3 (array x00 8) q WF); [|exact E]. apply typed_inv. exact E3.
      + apply mul_panics.
      + apply bind_ext. intros bits _. rewrite bind_bind. apply bind_ext. intros e4 _.
        rewrite sha512_gen_input, bind_ret. reflexivity.
    - apply bind_ext. intros. apply sha512_midstate_gen.
  Qed.

  Theorem sha512_from_midstate_gen m n : g_sha512_Engine_from_midstate m n = sha512_from_midstate m n.
  Proof.
    unfold g_sha512_Engine_from_midstate, sha512_from_midstate, from_midstate_bytes.
    apply bind_ext. intros u _. rewrite zip_iter_mut_assign. reflexivity.
  Qed.

  Theorem sha512_from_midstate_typed m n e : sha512_from_midstate m n = Ok e -> typed Sha512 e.
  Proof. apply (from_midstate_typed Sha512). intros b x. exact (be_lt 8 b x). Qed.

  Theorem sha512_default_gen : g_sha512_Engine_default = (sha512_start sha512_iv).
  Proof. reflexivity. Qed.

  Theorem sha512_default_typed : typed Sha512 (sha512_start sha512_iv).
  Proof. default_typed. Qed.

  Theorem sha384_finalize_gen e : typed Sha512 e -> g_sha384_Engine_finalize cfg e = truncated_finalize cfg 48 e.
  Proof. intros H. unfold g_sha384_Engine_finalize, truncated_finalize. now rewrite sha512_finalize_gen. Qed.

  Theorem sha512_256_finalize_gen e : typed Sha512 e -> g_sha512_256_Engine_finalize cfg e = truncated_finalize cfg 32 e.
  Proof. intros H. unfold g_sha512_256_Engine_finalize, truncated_finalize. now rewrite sha512_finalize_gen. Qed.

  Theorem sha384_default_gen : g_sha384_Engine_default = sha512_start sha384_iv.
  Proof. reflexivity. Qed.
  Theorem sha384_default_typed : typed Sha384 (sha512_start sha384_iv).
  Proof. default_typed. Qed.
  Theorem sha512_256_default_typed : typed Sha512_256 (sha512_start sha512_256_iv).
  Proof. default_typed. Qed.
  Theorem sha512_256_default_gen : g_sha512_256_Engine_default = sha512_start sha512_256_iv.
  Proof. reflexivity. Qed.
End C.
