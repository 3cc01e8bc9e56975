(** The translated value types and [Write] implementations: C74, C75. *)
From Coq Require Import Arith Lia.
From Verif Require Import Base SpecBase SpecMD SpecMac ModelEngine ModelSip ModelHmac ModelAll ModelTypes ModelStore ModelIo
  SpecApi SpecText SpecTypes SpecIo SpecStore ModelValues ModelWriter GenBase GenLib GenSip GenSha1 GenSha256 GenSha512 GenSha384 GenRipemd
  GenHmac GenSha256t GenTypes GenIo SpecGen SpecGenTypes ProofBase ProofGenEngine ProofTypes ProofIo ProofStore ProofValues ProofGenBase ProofGenMac
  ProofGenSip ProofGenProgram.

(** ** Values *)
Lemma octets_ty t : octets_of t = ty_len t.
Proof. destruct t; try reflexivity. unfold ty_len, macro_bits, octets_of. rewrite N.mul_comm, N.div_mul; [reflexivity|discriminate]. Qed.

Lemma gen_from_slice_is T t sl : gt_from_slice (gen_ty T t) sl = from_slice t sl.
Proof. destruct t; reflexivity. Qed.
Theorem gen_from_slice T t sl :
  (len sl = octets_of t /\ gt_from_slice (gen_ty T t) sl = Ok (ROk sl)) \/
  (len sl <> octets_of t /\ exists e, gt_from_slice (gen_ty T t) sl = Ok (RErr e) /\
     g_lib_FromSliceError_expected_length e = octets_of t /\ g_lib_FromSliceError_invalid_length e = len sl).
Proof. rewrite gen_from_slice_is, octets_ty. exact (from_slice_cases t sl). Qed.

Lemma gen_from_str_is T t s : gt_from_str (gen_ty T t) s = from_str t s.
Proof.
  destruct t; try reflexivity.
  rewrite from_str_array. rewrite <- octets_ty. cbn [gen_ty gt_from_str octets_of]. unfold g_hmac_Hash_from_str, g_hmac_Hash_from_byte_array.
  now destruct array_from_hex.
Qed.
Theorem gen_from_str T t s b : gt_from_str (gen_ty T t) s = ROk b <-> (len s = 2 * octets_of t /\ denotes s b).
Proof. rewrite gen_from_str_is, octets_ty. exact (from_str_ok t s b). Qed.
Theorem gen_from_str_error T t s e : gt_from_str (gen_ty T t) s = RErr e ->
  (len s mod 2 <> 0 /\ e = OddLengthString (len s)) \/
  (len s mod 2 = 0 /\ len s <> 2 * octets_of t /\ e = InvalidLength (2 * octets_of t) (len s)) \/
  (len s = 2 * octets_of t /\ exists p ch q,
     s = p ++ ch :: q /\ Forall hex_digit p /\ ~ hex_digit ch /\ e = InvalidChar ch).
Proof. rewrite gen_from_str_is, octets_ty. exact (from_str_error t s e). Qed.

Theorem gen_views T t f h : In f (gt_views (gen_ty T t)) -> f h = h.
Proof. destruct t; cbn [gen_ty gt_views In]; intuition (subst; reflexivity). Qed.
Theorem gen_zeros T t z : In z (gt_zeros (gen_ty T t)) -> z = repeat x00 (N.to_nat (octets_of t)).
Proof. destruct t; cbn [gen_ty gt_zeros In]; intuition (subst; reflexivity). Qed.
Theorem gen_len T t n : gt_len (gen_ty T t) = Some n -> n = octets_of t.
Proof. destruct t; cbn [gen_ty gt_len]; try discriminate; intros H; apply (f_equal (fun o => match o with Some x => x | None => 0 end)) in H; now rewrite <- H. Qed.

Lemma gen_index_is T t c h ix r : gt_index (gen_ty T t) c h ix = Some r -> r = hash_index c h ix.
Proof.
  assert (S : forall x y : res bytes, Some x = Some y -> y = x) by (intros x y H; congruence).
  destruct t; cbn [gen_ty gt_index]; intros H; try (apply S in H; exact H).
  destruct ix; cbn [hmac_index] in H; try discriminate; apply S in H; exact H.
Qed.
Theorem gen_index T t c h ix r : len h < 2 ^ usize_bits c -> gt_index (gen_ty T t) c h ix = Some r ->
  let (i, j) := bounds h ix in
  (forall b, r = Ok b <-> part h i j b) /\ (is_ok r = true <-> i <= j /\ j <= len h) /\
  (is_ok r = false -> r = Panic PIndex).
Proof. intros Hl H. rewrite (gen_index_is T t c h ix r H). exact (hash_index_ok c h ix Hl). Qed.

Theorem gen_order T a b :
  (g_sha256t_Hash_eq T a b = true <-> a = b) /\
  (g_sha256t_Hash_cmp T a b = Eq <-> a = b) /\
  (g_sha256t_Hash_cmp T a b = Lt <-> lex_lt a b) /\
  (g_sha256t_Hash_cmp T a b = Gt <-> lex_lt b a) /\
  g_sha256t_Hash_partial_cmp T a b = Some (g_sha256t_Hash_cmp T a b).
Proof.
  destruct (order_laws TSha256t a b a) as (H1 & H2 & H3 & H4 & _ & H6).
  exact (conj H1 (conj H2 (conj H3 (conj H4 H6)))).
Qed.

(** ** Engines of the types *)
Lemma gen_ty_engine_is c k : gen_ty_engine c k = he_default (gen_kind c k).
Proof. destruct k as [[]| | |]; reflexivity. Qed.
Lemma gen_from_engine_is c k s : gen_from_engine c k s = he_finalize (gen_kind c k) s.
Proof.
  destruct k as [[]| | |k]; try reflexivity.
  assert (B : forall x : res bytes, (let* d := x in Ok d) = x) by (intros [x|]; reflexivity).
  exact (B (he_finalize (gen_kind c (KHmac k)) s)).
Qed.
Lemma gen_ty_hash_is c k f m : gen_ty_hash c k = Some f -> f m = he_hash (gen_kind c k) m.
Proof.
  assert (S : forall x y : bytes -> res bytes, Some x = Some y -> y = x) by (intros x y H; congruence).
  destruct k as [a| | |]; cbn [gen_ty_hash]; intros H; try discriminate; apply S in H; subst f.
  - exact (gen_hash_is c a m).
  - unfold g_siphash24_Hash_hash, he_hash. cbn [gen_kind g_siphash24_Engine_dict he_default he_input he_finalize he_state bind].
    reflexivity.
  - reflexivity.
Qed.
Lemma gen_start_rel c o : wf_config c -> origin_slice c o ->
  res_rel (kind_rel c (origin_kind o)) (gen_start c o) (start c o).
Proof.
  intros WF Ho. destruct o as [k|k key|k0 k1]; cbn [gen_start start origin_kind].
  - rewrite gen_ty_engine_is. exact (ag_default _ _ _ _ _ (kinds_agree c k WF)).
  - exact (hmac_new_agree c WF _ _ _ _ (kinds_agree c k WF) key Ho).
  - cbn [res_rel]. exact (conj (sip_with_keys_gen k0 k1) (@eq_refl comparison Lt)).
Qed.
Theorem gen_ty_hash_ok c k f m : wf_config c -> slice c m -> kind_fits c k (length m) -> gen_ty_hash c k = Some f ->
  f m = Ok (kind_hash k m).
Proof.
  intros WF Hm Hf H. rewrite (gen_ty_hash_is c k f m H), (agree_hash c _ _ _ _ (kinds_agree c k WF) m Hm).
  rewrite <- ty_hash_trait. exact (ty_hash_ok c k m WF Hm Hf).
Qed.
Theorem gen_from_engine_ok c o chunks : wf_config c -> origin_ok o -> origin_slice c o -> Forall (slice c) chunks ->
  origin_fits c o (length (List.concat chunks)) ->
  exists s, (let* s := gen_start c o in he_inputs (gen_kind c (origin_kind o)) s chunks) = Ok s /\
    gen_from_engine c (origin_kind o) s = Ok (origin_hash o (List.concat chunks)).
Proof.
  intros WF Ho Hs HF Hf. destruct (ty_from_engine_ok c o chunks WF Ho HF Hf) as (t & E1 & E2).
  pose proof (gen_start_rel c o WF Hs) as HR.
  destruct (start c o) as [t0|] eqn:Et; [|discriminate]. destruct (gen_start c o) as [s0|]; [|contradiction].
  cbn [bind] in *. cbn [res_rel] in HR.
  pose proof (agree_inputs c _ _ _ _ (kinds_agree c (origin_kind o) WF) chunks HF s0 t0 HR) as HI.
  rewrite E1 in HI. destruct (he_inputs (gen_kind c (origin_kind o)) s0 chunks) as [s|]; [|contradiction]. cbn [res_rel] in HI.
  exists s. split; [reflexivity|]. rewrite gen_from_engine_is, (ag_finalize _ _ _ _ _ (kinds_agree c (origin_kind o) WF) s t HI).
  unfold ty_from_engine in E2. destruct (he_finalize (kind_engine c (origin_kind o)) t); [|discriminate]. exact E2.
Qed.

(** ** Writers *)
Section Drive.
  Context (E : HashEngine) (w : writer (he_state E)).
  Context (Hw : forall s b, w_write w s b = let* (s, r) := io_write E s b in Ok (r, s)).
  Context (Hf : forall s, w_flush w s = (ROk tt, s)).

  Lemma drive_write_all fuel : forall s b, w_write_all_fuel w fuel s b = let* (s, r) := write_all_fuel E fuel s b in Ok (r, s).
  Proof.
    induction fuel as [|fuel IH]; intros s [|x b]; cbn [w_write_all_fuel write_all_fuel bind]; try reflexivity.
    rewrite Hw. destruct (io_write E s (x :: b)) as [[s' r]|]; [|reflexivity]. cbn [bind].
    destruct r as [n|[]]; cbn [bind]; try reflexivity; [|apply IH].
    destruct (n =? 0); [reflexivity|]. destruct (slice_from n (x :: b)); [|reflexivity]. cbn [bind]. apply IH.
  Qed.
  Lemma drive_copy reads : forall s n, w_copy w s reads n = let* (s, r) := io_copy E s reads n in Ok (r, s).
  Proof.
    induction reads as [|[[|x b]| |] reads IH]; intros s n; cbn [w_copy io_copy bind]; try reflexivity; [|apply IH].
    unfold w_write_all, write_all. rewrite drive_write_all.
    destruct (write_all_fuel E (length (x :: b)) s (x :: b)) as [[s' [r|e]]|]; cbn [bind]; try reflexivity. apply IH.
  Qed.
  Lemma drive_step s op : w_step w (he_input E) s op = let* (s, r) := run_op E s op in Ok (r, s).
  Proof.
    destruct op; cbn [w_step run_op].
    - apply Hw.
    - unfold w_write_all, write_all. rewrite drive_write_all. now destruct (write_all_fuel E (length b) s b) as [[s' r]|].
    - unfold w_write_vectored, write_vectored. apply Hw.
    - rewrite Hf. reflexivity.
    - apply drive_copy.
    - now destruct (he_input E s b).
  Qed.
  Lemma drive_run ops : forall s, drive w (he_input E) s ops = let* (s, r) := run_ops E s ops in Ok (r, s).
  Proof.
    induction ops as [|op ops IH]; intros s; cbn [drive run_ops bind]; [reflexivity|].
    rewrite drive_step. destruct (run_op E s op) as [[s' r]|]; [|reflexivity]. cbn [bind]. rewrite IH.
    now destruct (run_ops E s' ops) as [[s'' rs]|].
  Qed.
End Drive.

Lemma gen_writers_ok c k w : In w (gen_writers c k) ->
  (forall s b, w_write w s b = let* (s, r) := io_write (gen_kind c k) s b in Ok (r, s)) /\
  (forall s, w_flush w s = (ROk tt, s)).
Proof.
  assert (B : forall A (x : res A) (n : N), (let* s := x in Ok (@ROk N io_error n, s)) =
    (let* (s, r) := (let* s := x in Ok (s, @ROk N io_error n)) in Ok (r, s))) by (intros A [x|] n; reflexivity).
  destruct k as [[]| | |k]; cbn [gen_writers In]; intros H; repeat (destruct H as [<-|H]); try contradiction;
    (split; [intros s b; unfold io_write; cbn [w_write]; apply B|intros s; reflexivity]).
Qed.

(** Related engines run a program of writes alike. *)
Section Rel.
  Context (c : config) (E F : HashEngine) (R : he_state E -> he_state F -> Prop) (M : he_mid E -> he_mid F -> Prop).
  Context (A : agree c E F R M).
  Definition out_rel {X} (a : he_state E * X) (b : he_state F * X) : Prop := R (fst a) (fst b) /\ snd a = snd b.

  Lemma io_write_rel s t b : R s t -> slice c b -> res_rel out_rel (io_write E s b) (io_write F t b).
  Proof.
    intros H Hb. unfold io_write. pose proof (ag_input _ _ _ _ _ A s t b H Hb) as H'.
    destruct (he_input E s b), (he_input F t b); cbn [res_rel bind] in *; try assumption. split; [exact H'|reflexivity].
  Qed.
  Lemma write_all_rel fuel : forall s t b, R s t -> slice c b ->
    res_rel out_rel (write_all_fuel E fuel s b) (write_all_fuel F fuel t b).
  Proof.
    induction fuel as [|fuel IH]; intros s t [|x b] H Hb; cbn [write_all_fuel];
      try (split; [exact H|reflexivity]); try reflexivity.
    pose proof (io_write_rel s t (x :: b) H Hb) as H'.
    destruct (io_write E s (x :: b)) as [[s' r]|], (io_write F t (x :: b)) as [[t' r']|]; cbn [res_rel bind] in *; try assumption; try contradiction.
    destruct H' as [H1 H2]. cbn [fst snd] in H1, H2. subst r'.
    destruct r as [n|[]]; try (split; [exact H1|reflexivity]).
    - destruct (n =? 0); [split; [exact H1|reflexivity]|].
      destruct (slice_from n (x :: b)) as [b'|] eqn:Eb; [|reflexivity]. cbn [bind]. apply IH; [exact H1|].
      unfold slice_from in Eb. destruct (n <=? len (x :: b)); [|discriminate]. apply Ok_inj in Eb. subst b'.
      unfold slice in *. eapply N.le_lt_trans; [|exact Hb]. unfold len. rewrite skipn_length. clear. lia.
    - apply IH; assumption.
  Qed.
  Lemma copy_rel reads : forall s t n, R s t -> op_ok c (OpCopy reads) ->
    res_rel out_rel (io_copy E s reads n) (io_copy F t reads n).
  Proof.
    induction reads as [|[[|x b]| |] reads IH]; intros s t n H Ho; cbn [io_copy];
      try (split; [exact H|reflexivity]); cbn [op_ok] in Ho; apply Forall_cons_iff in Ho as [Hb Ho].
    - unfold write_all. pose proof (write_all_rel (length (x :: b)) s t (x :: b) H Hb) as H'.
      destruct (write_all_fuel E (length (x :: b)) s (x :: b)) as [[s' r]|], (write_all_fuel F (length (x :: b)) t (x :: b)) as [[t' r']|];
        cbn [res_rel bind] in *; try assumption; try contradiction.
      destruct H' as [H1 H2]. cbn [fst snd] in H1, H2. subst r'.
      destruct r; [apply IH; assumption|split; [exact H1|reflexivity]].
    - apply IH; assumption.
  Qed.
  Lemma find_slice bs : Forall (slice c) bs -> slice c (match find (fun b => negb (len b =? 0)) bs with Some b => b | None => [] end).
  Proof.
    intros H. destruct (find (fun b => negb (len b =? 0)) bs) eqn:Ef; [|apply slice_nil]. apply find_some in Ef as [Hi _].
    rewrite Forall_forall in H. now apply H.
  Qed.
  Lemma run_op_rel s t op : R s t -> op_ok c op -> res_rel out_rel (run_op E s op) (run_op F t op).
  Proof.
    intros H Ho. destruct op; cbn [run_op]; cbn [op_ok] in Ho.
    - now apply io_write_rel.
    - unfold write_all. pose proof (write_all_rel (length b) s t b H Ho) as H'.
      destruct (write_all_fuel E (length b) s b) as [[s' r]|], (write_all_fuel F (length b) t b) as [[t' r']|];
        cbn [res_rel bind] in *; try assumption; try contradiction.
      destruct H' as [H1 H2]. cbn [fst snd] in H1, H2. subst r'. split; [exact H1|reflexivity].
    - unfold write_vectored. apply io_write_rel; [exact H|now apply find_slice].
    - split; [exact H|reflexivity].
    - now apply copy_rel.
    - pose proof (ag_input _ _ _ _ _ A s t b H Ho) as H'.
      destruct (he_input E s b), (he_input F t b); cbn [res_rel bind] in *; try assumption. split; [exact H'|reflexivity].
  Qed.
  Lemma run_ops_rel ops : Forall (op_ok c) ops -> forall s t, R s t -> res_rel out_rel (run_ops E s ops) (run_ops F t ops).
  Proof.
    induction 1 as [|op ops Ho _ IH]; intros s t H; cbn [run_ops]; [split; [exact H|reflexivity]|].
    pose proof (run_op_rel s t op H Ho) as H'.
    destruct (run_op E s op) as [[s' r]|], (run_op F t op) as [[t' r']|]; cbn [res_rel bind] in *; try assumption; try contradiction.
    destruct H' as [H1 H2]. cbn [fst snd] in H1, H2. subst r'. specialize (IH s' t' H1).
    destruct (run_ops E s' ops) as [[s'' rs]|], (run_ops F t' ops) as [[t'' rs']|]; cbn [res_rel bind] in *; try assumption; try contradiction.
    destruct IH as [H3 H4]. cbn [fst snd] in H3, H4. subst rs'. split; [exact H3|reflexivity].
  Qed.
End Rel.

Theorem gen_write_digest c o w ops : wf_config c -> origin_ok o -> origin_slice c o -> In w (gen_writers c (origin_kind o)) ->
  Forall (op_ok c) ops -> origin_fits c o (length (List.concat (map written ops))) ->
  exists s s', gen_start c o = Ok s /\
    drive w (he_input (gen_kind c (origin_kind o))) s ops = Ok (map reported ops, s') /\
    gen_from_engine c (origin_kind o) s' = Ok (origin_hash o (List.concat (map written ops))).
Proof.
  intros WF Ho Hs Hw HF Hf. destruct (origin_write c WF o ops Ho HF Hf) as (t & t' & E1 & E2 & E3).
  pose proof (gen_start_rel c o WF Hs) as HR. rewrite E1 in HR.
  destruct (gen_start c o) as [s|]; [|contradiction]. cbn [res_rel] in HR.
  destruct (gen_writers_ok c _ w Hw) as [W1 W2].
  pose proof (run_ops_rel c _ _ _ _ (kinds_agree c (origin_kind o) WF) ops HF s t HR) as H. rewrite E2 in H.
  pose proof (drive_run (gen_kind c (origin_kind o)) w W1 W2 ops s) as HD.
  destruct (run_ops (gen_kind c (origin_kind o)) s ops) as [[s' rs]|]; [|contradiction]. cbn [res_rel bind] in H, HD.
  destruct H as [H1 H2]. cbn [fst snd] in H1, H2. subst rs.
  exists s, s'. split; [reflexivity|]. split; [exact HD|].
  rewrite gen_from_engine_is, (ag_finalize _ _ _ _ _ (kinds_agree c (origin_kind o) WF) s' t' H1). exact E3.
Qed.

(** Related to the same, so equal *)
Lemma kind_rel_inj c k : forall s s' t, kind_rel c k s t -> kind_rel c k s' t -> s = s'.
Proof.
  induction k as [a| |tag|k IH].
  - destruct a; intros s s' t [H _] [H' _]; exact (eq_trans H (eq_sym H')).
  - intros s s' t [H _] [H' _]. exact (eq_trans H (eq_sym H')).
  - intros s s' t [H _] [H' _]. exact (eq_trans H (eq_sym H')).
  - intros [i o] [i' o'] t [H1 H2] [H3 H4]. cbn [iengine oengine] in *.
    rewrite (IH _ _ _ H1 H3), (IH _ _ _ H2 H4). reflexivity.
Qed.

(** Panics included: a program of writes is the inputs of the same bytes. *)
Theorem gen_writes_are_inputs c o w s ops chunks : wf_config c -> origin_ok o -> origin_slice c o ->
  In w (gen_writers c (origin_kind o)) -> gen_start c o = Ok s -> Forall (op_ok c) ops ->
  Forall (slice c) chunks -> List.concat chunks = List.concat (map written ops) ->
  drive w (he_input (gen_kind c (origin_kind o))) s ops
  = let* s' := he_inputs (gen_kind c (origin_kind o)) s chunks in Ok (map reported ops, s').
Proof.
  intros WF Ho Hs Hw Es HF HC Hcat. pose proof (gen_start_rel c o WF Hs) as HR. rewrite Es in HR.
  destruct (start c o) as [t|] eqn:Et; [|contradiction]. cbn [res_rel] in HR.
  pose proof (origin_write_any c WF o t ops chunks Ho Et HF HC Hcat) as HM.
  destruct (gen_writers_ok c _ w Hw) as [W1 W2].
  pose proof (run_ops_rel c _ _ _ _ (kinds_agree c (origin_kind o) WF) ops HF s t HR) as H. rewrite HM in H.
  rewrite (drive_run (gen_kind c (origin_kind o)) w W1 W2 ops s).
  pose proof (agree_inputs c _ _ _ _ (kinds_agree c (origin_kind o) WF) chunks HC s t HR) as HI.
  destruct (he_inputs (kind_engine c (origin_kind o)) t chunks) as [t'|p], (he_inputs (gen_kind c (origin_kind o)) s chunks) as [s'|p'];
    cbn [res_rel bind] in *; try contradiction.
  - destruct (run_ops (gen_kind c (origin_kind o)) s ops) as [[s2 rs]|]; [|contradiction]. cbn [res_rel bind] in *.
    destruct H as [H1 H2]. cbn [fst snd] in *. now rewrite H2, (kind_rel_inj c _ s2 s' t' H1 HI).
  - destruct (run_ops (gen_kind c (origin_kind o)) s ops) as [[s2 rs]|]; [contradiction|]. cbn [res_rel bind] in *. congruence.
Qed.

Lemma gen_error_new : forall got expected,
  g_lib_FromSliceError_invalid_length (g_lib_FromSliceError_new got expected) = got /\
  g_lib_FromSliceError_expected_length (g_lib_FromSliceError_new got expected) = expected.
Proof. intros. split; reflexivity. Qed.
