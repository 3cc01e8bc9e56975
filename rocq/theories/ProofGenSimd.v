(** Generated [process_block_simd_x86_intrinsics] against the instruction list
    of TablesSimd.v *)
From Coq Require Import Lia.
From Verif Require Import Base GenBase ModelEngine ModelSimd TablesSimd ModelSha256 GenSha256 ProofBase ProofGenBase.

Definition rf (s0 s1 msg tmp m0 m1 m2 m3 ab cd : m128) (r : reg) : m128 :=
  match r with
  | R_state0 => s0 | R_state1 => s1 | R_msg => msg | R_tmp => tmp | R_msg0 => m0 | R_msg1 => m1
  | R_msg2 => m2 | R_msg3 => m3 | R_abef_save => ab | R_cdgh_save => cd
  end.

Definition run_h (p : list instr) (g : reg -> m128) (h : list N) (buf : bytes) : res (list N) :=
  let* s := run_program simd_mask p (mk_simd g h buf) in Ok (s_h s).

Lemma upd_ext f g d v w : (forall r, f r = g r) -> v = w -> forall r, upd f d v r = upd g d w r.
Proof. intros H -> r. unfold upd. now rewrite H. Qed.

Lemma run_h_ext p : forall g g' h buf, (forall r, g r = g' r) -> run_h p g h buf = run_h p g' h buf.
Proof.
  induction p as [|i p IH]; intros g g' h buf H; [reflexivity|].
  unfold run_h in *. cbn [run_program].
  destruct i; cbn [step s_regs s_h s_buf];
    try (cbn [bind]; apply IH; apply upd_ext; [exact H|]; rewrite ?H; reflexivity).
  - destruct (_ <=? _); [|reflexivity]. cbn [bind]. apply IH. now apply upd_ext.
  - destruct (_ <=? _); [|reflexivity]. cbn [bind]. apply IH. now apply upd_ext.
  - destruct (_ <=? _); [|reflexivity]. cbn [bind]. rewrite H. apply IH. exact H.
Qed.

Lemma run_put i p g h buf g' g'' :
  step simd_mask i (mk_simd g h buf) = Ok (mk_simd g' h buf) -> (forall r, g' r = g'' r) ->
  run_h (i :: p) g h buf = run_h p g'' h buf.
Proof.
  intros E H. transitivity (run_h p g' h buf); [|now apply run_h_ext].
  unfold run_h. cbn [run_program]. rewrite E. reflexivity.
Qed.

(** One instruction that only changes a register. *)
Ltac put_to v tac :=
  match goal with |- _ = bind (run_h (?i :: ?p) (rf ?s0 ?s1 ?msg ?tmp ?m0 ?m1 ?m2 ?m3 ?ab ?cd) ?h ?buf) ?k =>
    let g := constr:(rf s0 s1 msg tmp m0 m1 m2 m3 ab cd) in
    let d := match i with
      | Mov ?d _ => d | Shuf32 ?d _ _ => d | Shuf8Mask ?d _ => d | Alignr8 ?d _ _ _ => d | Blend16 ?d _ _ _ => d
      | AddK ?d _ _ _ => d | Add32 ?d _ _ => d | Rnds2 ?d _ _ _ => d | Msg1 ?d _ _ => d | Msg2 ?d _ _ => d end in
    let g2 := match d with
      | R_state0 => constr:(rf v s1 msg tmp m0 m1 m2 m3 ab cd)
      | R_state1 => constr:(rf s0 v msg tmp m0 m1 m2 m3 ab cd)
      | R_msg => constr:(rf s0 s1 v tmp m0 m1 m2 m3 ab cd)
      | R_tmp => constr:(rf s0 s1 msg v m0 m1 m2 m3 ab cd)
      | R_msg0 => constr:(rf s0 s1 msg tmp v m1 m2 m3 ab cd)
      | R_msg1 => constr:(rf s0 s1 msg tmp m0 v m2 m3 ab cd)
      | R_msg2 => constr:(rf s0 s1 msg tmp m0 m1 v m3 ab cd)
      | R_msg3 => constr:(rf s0 s1 msg tmp m0 m1 m2 v ab cd)
      | R_abef_save => constr:(rf s0 s1 msg tmp m0 m1 m2 m3 v cd)
      | R_cdgh_save => constr:(rf s0 s1 msg tmp m0 m1 m2 m3 ab v) end in
    refine (eq_trans _ (eq_sym (f_equal (fun x => bind x k)
      (run_put i p g h buf (upd g d v) g2 eq_refl
        (fun r => match r with R_state0 | R_state1 | R_msg | R_tmp | R_msg0 | R_msg1 | R_msg2 | R_msg3 | R_abef_save | R_cdgh_save => eq_refl end)))));
    cbv beta; tac tt
  end.

Ltac simd_left E k :=
  match goal with |- _ = ?rhs =>
    refine (eq_trans (bind_ok (Ok E) E k eq_refl) _); cbv beta; generalize E; intro
  end.
Ltac simd_one :=
  match goal with
  | |- _ = bind (run_h (Mov ?d ?r :: _) ?g _ _) _ =>
      let v := eval cbv [rf] in (g r) in put_to v ltac:(fun _ => idtac)
  | |- bind (Ok ?E) ?k = _ => put_to E ltac:(fun _ => simd_left E k)
  end.

Lemma run_loadh d off p g h buf :
  run_h (LoadH d off :: p) g h buf
  = let* v := load_m128_words h off in run_h p (upd g d v) h buf.
Proof.
  unfold run_h, load_m128_words. cbn [run_program step s_regs s_h s_buf]. now destruct (_ <=? _).
Qed.
Lemma run_loadbuf d off p g h buf :
  run_h (LoadBuf d off :: p) g h buf
  = let* v := load_m128_bytes buf off in run_h p (upd g d v) h buf.
Proof.
  unfold run_h, load_m128_bytes. cbn [run_program step s_regs s_h s_buf]. now destruct (_ <=? _).
Qed.
Lemma run_store off r p g h buf :
  run_h (StoreH off r :: p) g h buf
  = let* h := store_m128_words h off (g r) in run_h p g h buf.
Proof.
  unfold run_h, store_m128_words. cbn [run_program step s_regs s_h s_buf]. now destruct (_ <=? _).
Qed.

(** The register file with [v] in [d]. *)
Ltac rf_to d v :=
  match goal with |- _ = bind (run_h ?p (upd (rf ?s0 ?s1 ?msg ?tmp ?m0 ?m1 ?m2 ?m3 ?ab ?cd) d v) ?h ?buf) ?k =>
    let g2 := match d with
      | R_state0 => constr:(rf v s1 msg tmp m0 m1 m2 m3 ab cd)
      | R_state1 => constr:(rf s0 v msg tmp m0 m1 m2 m3 ab cd)
      | R_msg => constr:(rf s0 s1 v tmp m0 m1 m2 m3 ab cd)
      | R_tmp => constr:(rf s0 s1 msg v m0 m1 m2 m3 ab cd)
      | R_msg0 => constr:(rf s0 s1 msg tmp v m1 m2 m3 ab cd)
      | R_msg1 => constr:(rf s0 s1 msg tmp m0 v m2 m3 ab cd)
      | R_msg2 => constr:(rf s0 s1 msg tmp m0 m1 v m3 ab cd)
      | R_msg3 => constr:(rf s0 s1 msg tmp m0 m1 m2 v ab cd) end in
    rewrite (run_h_ext p _ g2 h buf) by (intros []; reflexivity)
  end.
Ltac simd_load :=
  match goal with
  | |- _ = bind (run_h (LoadH ?d ?o :: ?p) ?g ?h ?buf) _ => rewrite (run_loadh d o p g h buf)
  | |- _ = bind (run_h (LoadBuf ?d ?o :: ?p) ?g ?h ?buf) _ => rewrite (run_loadbuf d o p g h buf)
  end;
  rewrite bind_bind; apply bind_ext;
  let v := fresh "v" in intros v _;
  match goal with |- _ = bind (run_h _ (upd _ ?d _) _ _) _ => rf_to d v end.

Lemma simd_gen cfg e : wf_config cfg ->
  g_sha256_Engine_process_block_simd_x86_intrinsics cfg e = simd_process_block e.
Proof.
  intros Hcfg. destruct e as [buf h n].
  assert (H16 : forall k, k <= 48 -> usize_add cfg 0 k = Ok k).
  { intros k Hk. unfold usize_add, checked_add. rewrite N.add_0_l.
    replace (k <? _) with true; [reflexivity|]. symmetry. apply N.ltb_lt.
    apply N.le_lt_trans with (1 := Hk). destruct Hcfg as [->|[->| ->]]; reflexivity. }
  unfold g_sha256_Engine_process_block_simd_x86_intrinsics, simd_process_block. cbn [e_h e_buffer e_length]. cbv zeta.
  rewrite (H16 16), (H16 32), (H16 48) by lia.
  transitivity (let* h' := run_h simd_program (rf [0;0;0;0] [0;0;0;0] [0;0;0;0] [0;0;0;0] [0;0;0;0] [0;0;0;0] [0;0;0;0] [0;0;0;0] [0;0;0;0] [0;0;0;0]) h buf in Ok (mk_engine buf h' n)).
  2: { erewrite run_h_ext with (g' := fun _ => [0;0;0;0]) by (intros []; reflexivity).
       unfold run_h. rewrite bind_bind. reflexivity. }
  unfold simd_program.
  refine (eq_trans (bind_ok (Ok _) _ _ eq_refl) _). cbv beta.
  repeat first
    [ simd_one
    | match goal with |- bind (Ok ?a) ?k = bind (run_h (LoadBuf _ _ :: _) _ _ _) _ =>
        refine (eq_trans (bind_ok (Ok a) a k eq_refl) _); cbv beta end
    | simd_load
    | progress unfold g_sha256_Engine_process_block_simd_x86_intrinsics_part1; cbv zeta
    | progress unfold g_sha256_Engine_process_block_simd_x86_intrinsics_part2; cbv zeta
    | progress unfold g_sha256_Engine_process_block_simd_x86_intrinsics_part3; cbv zeta ].
  rewrite run_store. cbv [rf]. rewrite bind_bind. apply bind_ext. intros h1 _. cbn [e_h e_buffer e_length].
  rewrite run_store. rewrite bind_bind. apply bind_ext. intros h2 _. reflexivity.
Qed.
