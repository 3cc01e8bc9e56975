(** Writers: C37 *)
From Coq Require Import NArith Arith List Bool Lia.
From Verif Require Import Base SpecBase SpecMD ModelEngine ModelSip ModelHmac ModelAll ModelTypes ModelIo SpecMac SpecApi SpecIo
  ProofBase ProofMD ProofApi ProofSip ProofHmac ProofSplit ProofHash ProofMac.
Import ListNotations.
Open Scope N_scope.

Lemma slice_nil c : slice c [].
Proof. unfold slice. change (len (@nil byte)) with 0. apply N.neq_0_lt_0. apply N.pow_nonzero. discriminate. Qed.

Section Writer.
  Context (c : config) (E : HashEngine).

  Lemma insensitive_nil s : split_insensitive c E s -> he_input E s [] = Ok s.
  Proof.
    intros H. specialize (H [[]] [] ltac:(constructor; [apply slice_nil|constructor]) ltac:(constructor) eq_refl).
    cbn [he_inputs] in H. destruct (he_input E s []) as [s'|p]; cbn [bind] in H; congruence.
  Qed.

  Lemma insensitive_step s d s' : split_insensitive c E s -> slice c d -> he_input E s d = Ok s' ->
    split_insensitive c E s'.
  Proof.
    intros H Hd E1 l l' HF HF' HC.
    specialize (H (d :: l) (d :: l') ltac:(now constructor) ltac:(now constructor)).
    cbn [he_inputs List.concat] in H. rewrite E1 in H. cbn [bind] in H. apply H. now rewrite HC.
  Qed.

  Lemma insensitive_inputs l : forall s s', split_insensitive c E s -> Forall (slice c) l ->
    he_inputs E s l = Ok s' -> split_insensitive c E s'.
  Proof.
    induction l as [|d l IH]; intros s s' H HF E1.
    - cbn in E1. apply Ok_inj in E1. now subst.
    - cbn [he_inputs] in E1. apply bind_ok in E1. destruct E1 as (s1 & E1 & E2).
      inversion HF; subst. apply (IH s1); try assumption. now apply (insensitive_step s d).
  Qed.

  (** What one operation feeds: the pieces, in order *)
  Fixpoint read_pieces (reads : list read_result) : list bytes :=
    match reads with
    | ReadData [] :: _ | ReadError :: _ | [] => []
    | ReadData b :: reads => b :: read_pieces reads
    | ReadInterrupted :: reads => read_pieces reads
    end.
  Definition op_pieces (op : io_op) : list bytes :=
    match op with OpCopy reads => read_pieces reads | _ => [written op] end.

  Lemma op_pieces_concat op : List.concat (op_pieces op) = written op.
  Proof.
    destruct op; cbn [op_pieces List.concat]; try apply app_nil_r.
    cbn [written]. induction reads as [|[[|x b]| |] reads IH]; try reflexivity.
    - cbn [read_pieces List.concat read_before_end]. now rewrite IH.
    - exact IH.
  Qed.

  Lemma op_pieces_slices op : op_ok c op -> Forall (slice c) (op_pieces op).
  Proof.
    destruct op; cbn [op_ok op_pieces written]; intros H; try (constructor; [assumption|constructor]).
    - constructor; [|constructor]. induction H as [|[|x b] bs Hb HF IH].
      + apply slice_nil.
      + exact IH.
      + exact Hb.
    - constructor; [apply slice_nil|constructor].
    - induction H as [|[[|x b]| |] reads Hb HF IH]; try (constructor; fail).
      + constructor; [exact Hb|exact IH].
      + exact IH.
  Qed.

  Lemma write_all_input s buf : split_insensitive c E s -> slice c buf ->
    write_all E s buf = let* s' := he_input E s buf in Ok (s', ROk tt).
  Proof.
    intros H Hb. unfold write_all. destruct buf as [|x buf].
    - cbn [write_all_fuel length]. now rewrite insensitive_nil.
    - cbn [length write_all_fuel io_write]. unfold io_write.
      destruct (he_input E s (x :: buf)) as [s'|p]; cbn [bind]; [|reflexivity].
      destruct (N.eqb_spec (len (x :: buf)) 0) as [E0|_]; [unfold len in E0; cbn in E0; lia|].
      unfold slice_from. rewrite N.leb_refl. cbn [bind].
      unfold len. rewrite Nat2N.id, skipn_all. now destruct (length buf).
  Qed.

  Lemma find_nonempty bs :
    match find (fun b => negb (len b =? 0)) bs with Some b => b | None => [] end = first_nonempty bs.
  Proof. induction bs as [|[|x b] bs IH]; [reflexivity|exact IH|reflexivity]. Qed.

  Lemma io_copy_inputs reads : forall s n, split_insensitive c E s ->
    Forall (fun r => match r with ReadData b => slice c b | _ => True end) reads ->
    io_copy E s reads n = let* s' := he_inputs E s (read_pieces reads) in
      Ok (s', if read_fails reads then RErr Other else ROk (n + len (read_before_end reads))).
  Proof.
    induction reads as [|[[|x b]| |] reads IH]; intros s n H HF; cbn [io_copy read_pieces read_fails read_before_end].
    - cbn [he_inputs bind]. change (len (@nil byte)) with 0. now rewrite N.add_0_r.
    - cbn [he_inputs bind]. change (len (@nil byte)) with 0. now rewrite N.add_0_r.
    - inversion HF as [|? ? Hb HF']; subst. rewrite write_all_input by assumption. cbn [he_inputs].
      destruct (he_input E s (x :: b)) as [s'|p] eqn:E1; cbn [bind]; [|reflexivity].
      rewrite IH; [|now apply (insensitive_step s (x :: b))|exact HF'].
      destruct (he_inputs E s' (read_pieces reads)); cbn [bind]; [|reflexivity].
      unfold len. rewrite app_length, Nat2N.inj_add. now rewrite N.add_assoc.
    - inversion HF; subst. now apply IH.
    - reflexivity.
  Qed.

  Lemma run_op_inputs s op : split_insensitive c E s -> op_ok c op ->
    run_op E s op = let* s' := he_inputs E s (op_pieces op) in Ok (s', reported op).
  Proof.
    intros H Hop. destruct op; cbn [run_op op_pieces written reported he_inputs].
    - unfold io_write. now destruct (he_input E s b).
    - rewrite write_all_input by assumption. now destruct (he_input E s b).
    - unfold write_vectored, io_write. rewrite find_nonempty. now destruct (he_input E s (first_nonempty bs)).
    - unfold io_flush. now rewrite insensitive_nil.
    - rewrite io_copy_inputs by assumption. reflexivity.
    - now destruct (he_input E s b).
  Qed.

  Lemma he_inputs_app l l' : forall s,
    he_inputs E s (l ++ l') = let* s' := he_inputs E s l in he_inputs E s' l'.
  Proof.
    induction l as [|d l IH]; intros s; [reflexivity|]. cbn [he_inputs app].
    destruct (he_input E s d); [apply IH|reflexivity].
  Qed.

  Lemma run_ops_pieces ops : forall s, split_insensitive c E s -> Forall (op_ok c) ops ->
    run_ops E s ops = let* s' := he_inputs E s (List.concat (map op_pieces ops)) in Ok (s', map reported ops).
  Proof.
    induction ops as [|op ops IH]; intros s H HF; [reflexivity|].
    inversion HF as [|? ? Hop HF']; subst. cbn [run_ops map List.concat].
    rewrite run_op_inputs, he_inputs_app by assumption.
    destruct (he_inputs E s (op_pieces op)) as [s'|p] eqn:E1; cbn [bind]; [|reflexivity].
    rewrite IH; [|apply (insensitive_inputs (op_pieces op) s); try assumption; now apply op_pieces_slices|exact HF'].
    destruct (he_inputs E s' (List.concat (map op_pieces ops))); reflexivity.
  Qed.

  Lemma ops_concat ops : List.concat (List.concat (map op_pieces ops)) = List.concat (map written ops).
  Proof.
    induction ops as [|op ops IH]; [reflexivity|]. cbn [map List.concat].
    now rewrite concat_app, op_pieces_concat, IH.
  Qed.

  Lemma ops_slices ops : Forall (op_ok c) ops -> Forall (slice c) (List.concat (map op_pieces ops)).
  Proof.
    induction 1 as [|op ops Hop HF IH]; [constructor|]. cbn [map List.concat].
    apply Forall_app. split; [now apply op_pieces_slices|exact IH].
  Qed.

  Lemma run_ops_written s ops chunks : split_insensitive c E s -> Forall (op_ok c) ops ->
    Forall (slice c) chunks -> List.concat chunks = List.concat (map written ops) ->
    run_ops E s ops = let* s' := he_inputs E s chunks in Ok (s', map reported ops).
  Proof.
    intros H HF HFc HC. rewrite run_ops_pieces by assumption.
    rewrite (H (List.concat (map op_pieces ops)) chunks (ops_slices ops HF) HFc); [reflexivity|].
    rewrite ops_concat. now symmetry.
  Qed.
End Writer.

Lemma write_total E s buf s' : he_input E s buf = Ok s' ->
  io_write E s buf = Ok (s', ROk (len buf)) /\ io_flush E s = Ok (s, ROk tt).
Proof. intros H. unfold io_write. rewrite H. split; reflexivity. Qed.

(** Digests of what was written *)
Lemma run_ops_digest c E H fits s ops : he_default E = Ok s -> split_insensitive c E s -> lawful E H fits ->
  Forall (op_ok c) ops -> fits (length (List.concat (map written ops))) ->
  exists s', run_ops E s ops = Ok (s', map reported ops) /\
    he_finalize E s' = Ok (H (List.concat (map written ops))).
Proof.
  intros Ed HS HL HF Hf. rewrite (run_ops_pieces c E ops s HS HF).
  specialize (HL (List.concat (map op_pieces ops))). rewrite ops_concat in HL. specialize (HL Hf).
  unfold he_hash_byte_chunks in HL. rewrite Ed in HL. cbn [bind] in HL.
  destruct (he_inputs E s (List.concat (map op_pieces ops))) as [s'|p]; cbn [bind] in HL; [|discriminate].
  exists s'. split; [reflexivity|exact HL].
Qed.

Lemma run_ops_algo c a s ops : wf_config c -> he_default (algo_engine c a) = Ok s -> Forall (op_ok c) ops ->
  fits c a (length (List.concat (map written ops))) ->
  exists s', run_ops (algo_engine c a) s ops = Ok (s', map reported ops) /\
    he_finalize (algo_engine c a) s' = Ok (hash_of a (List.concat (map written ops))).
Proof.
  intros WF Ed HF Hf. apply (run_ops_digest c _ (hash_of a) (fits c a)); try assumption.
  - apply splits_insensitive. apply algo_splits; [exact WF|]. now apply reach_new.
  - intros chunks Hc. now apply hash_chunks_standard.
Qed.

(** HMAC: digest of the bytes written through the writer *)
Lemma run_ops_hmac c a key ops : wf_config c -> fits c a (length key) -> Forall (op_ok c) ops ->
  fits c a (block_len a + length (List.concat (map written ops))) -> fits c a (block_len a + digest_len a) ->
  exists s s', hmac_new c (algo_engine c a) key = Ok s /\
    run_ops (hmac_engine c (algo_engine c a)) s ops = Ok (s', map reported ops) /\
    he_finalize (hmac_engine c (algo_engine c a)) s' = Ok (HMAC (hash_of a) (block_len a) key (List.concat (map written ops))).
Proof.
  intros WF Hk HF Hf Hd.
  pose proof (hmac_algo c a key (List.concat (map op_pieces ops)) WF Hk) as HH. rewrite ops_concat in HH.
  specialize (HH Hf Hd).
  destruct (hmac_new c (algo_engine c a) key) as [s|p] eqn:En; cbn [bind] in HH; [|discriminate].
  exists s.
  assert (HS : split_insensitive c (hmac_engine c (algo_engine c a)) s).
  { apply (hmac_split_all c (algo_engine c a) (algo_mid_ok c a) WF).
    - intros s0 H0. apply splits_insensitive. now apply algo_splits.
    - exact (hmac_reach_new _ _ _ _ _ En). }
  rewrite (run_ops_pieces c (hmac_engine c (algo_engine c a)) ops s HS HF).
  destruct (he_inputs (hmac_engine c (algo_engine c a)) s (List.concat (map op_pieces ops))) as [s'|p]; cbn [bind] in HH;
    [|discriminate].
  exists s'. split; [reflexivity|]. split; [reflexivity|exact HH].
Qed.

(** SipHash *)
Lemma run_ops_siphash c k0 k1 ops : wf_config c -> k0 < 2 ^ 64 -> k1 < 2 ^ 64 -> Forall (op_ok c) ops ->
  len (List.concat (map written ops)) < 2 ^ usize_bits c ->
  exists s', run_ops (siphash24_engine c) (with_keys k0 k1) ops = Ok (s', map reported ops) /\
    he_finalize (siphash24_engine c) s' = Ok (le_octets 8 (SpecMac.siphash24 k0 k1 (List.concat (map written ops)))).
Proof.
  intros WF H0 H1 HF Hl.
  pose proof (siphash_digest c k0 k1 (List.concat (map op_pieces ops)) WF H0 H1 (ops_slices c ops HF)) as HH.
  rewrite ops_concat in HH. rewrite (proj2 (N.leb_gt _ _) Hl), andb_false_r in HH.
  assert (HS : split_insensitive c (siphash24_engine c) (with_keys k0 k1)).
  { apply sip_split; [exact WF|]. now constructor. }
  rewrite (run_ops_pieces c (siphash24_engine c) ops (with_keys k0 k1) HS HF).
  destruct (he_inputs (siphash24_engine c) (with_keys k0 k1) (List.concat (map op_pieces ops))) as [s'|p];
    cbn [bind] in HH; [|discriminate].
  exists s'. split; [reflexivity|exact HH].
Qed.
