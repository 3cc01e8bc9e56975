(** The code and the specification of programs behave alike. *)
From Coq Require Import NArith ZArith List Bool Lia.
From Coq Require Import ZifyBool ZifyNat ZifyN.
From Verif Require Import Base SpecBase SpecMD SpecMac ModelEngine ModelSha256 ModelSip ModelHmac ModelAll ModelTypes
  ModelStore SpecApi SpecStore SpecMore ModelProgram SpecProgram ProofBase ProofEngine ProofMD ProofApi ProofConst ProofMid
  ProofSip ProofHmac ProofSplit ProofHash ProofMac ProofStore ProofSound ProofExact.
Import ListNotations.
Open Scope N_scope.

(** ** Two implementations that simulate each other *)
Definition res_rel {A B : Type} (R : A -> B -> Prop) (x : res A) (y : res B) : Prop :=
  match x, y with Ok a, Ok b => R a b | Panic p, Panic q => p = q | _, _ => False end.

Lemma res_rel_bind {A B A' B' : Type} (R : A -> B -> Prop) (R' : A' -> B' -> Prop) x y f g :
  res_rel R x y -> (forall a b, x = Ok a -> R a b -> res_rel R' (f a) (g b)) -> res_rel R' (bind x f) (bind y g).
Proof. destruct x, y; cbn; intros H K; try contradiction; [now apply K|exact H]. Qed.

Section Sim.
  Context (c : config) (A B : api) (R : forall k, a_state A k -> a_state B k -> Prop).
  Context (Hnew : forall k, kind_real c k -> res_rel (R k) (a_new A k) (a_new B k)).
  Context (Hhmac : forall k key, kind_real c k -> slice c key -> res_rel (R (KHmac k)) (a_hmac A k key) (a_hmac B k key)).
  Context (Hkeys : forall k0 k1, k0 < 2 ^ 64 -> k1 < 2 ^ 64 -> R KSip (a_with_keys A k0 k1) (a_with_keys B k0 k1)).
  Context (Hmid : forall k m n, mid_real k m -> n < 2 ^ usize_bits c ->
             res_rel (R k) (a_from_midstate A k m n) (a_from_midstate B k m n)).
  Context (Hinput : forall k s t d, R k s t -> slice c d -> res_rel (R k) (a_input A k s d) (a_input B k t d)).
  Context (Hcount : forall k s t, R k s t -> a_count A k s = a_count B k t).
  Context (Hmidstate : forall k s t, R k s t -> a_midstate A k s = a_midstate B k t).
  Context (Hk : forall s t, R KSip s t -> a_keys A s = a_keys B t).
  Context (Hfin : forall k s t, R k s t -> a_finalize A k s = a_finalize B k t).
  Context (Hu64 : forall s t, R KSip s t -> a_to_u64 A s = a_to_u64 B t).
  Context (Hhash : forall k d, kind_real c k -> slice c d -> a_hash A k d = a_hash B k d).
  Context (Hchunks : forall k chunks, kind_real c k -> Forall (slice c) chunks -> a_hash_chunks A k chunks = a_hash_chunks B k chunks).

  Inductive var_rel : avar A -> avar B -> Prop :=
  | var_moved : var_rel None None
  | var_live k s t : R k s t -> var_rel (Some (existT _ k s)) (Some (existT _ k t)).

  Lemma get_rel st st' i : Forall2 var_rel st st' -> var_rel (get st i) (get st' i).
  Proof.
    unfold get. intros H. revert i. induction H as [|x y st st' Hx H IH]; intros [|i]; cbn [nth_error]; try constructor.
    - destruct Hx; now constructor.
    - apply IH.
  Qed.
  Lemma set_rel st st' i x y : Forall2 var_rel st st' -> var_rel x y -> Forall2 var_rel (set_nth i x st) (set_nth i y st').
  Proof.
    intros H Hx. revert i. induction H; intros [|i]; cbn [set_nth]; constructor; try assumption. apply IHForall2.
  Qed.

  Definition same (x : list (avar A) * api_out) (y : list (avar B) * api_out) : Prop :=
    Forall2 var_rel (fst x) (fst y) /\ snd x = snd y.

  Lemma step_rel st st' op : Forall2 var_rel st st' -> api_op_real c op -> res_rel same (api_step A st op) (api_step B st' op).
  Proof.
    intros H Hop.
    assert (Hadd : forall k s t, R k s t -> same (st ++ [Some (existT _ k s)], RNone) (st' ++ [Some (existT _ k t)], RNone)).
    { intros k s t Hs. split; [|reflexivity]. apply Forall2_app; [exact H|]. repeat constructor. exact Hs. }
    assert (Hrej : forall o, same (st, o) (st', o)) by (intros o; split; [exact H|reflexivity]).
    destruct op as [k|k key|k0 k1|k m n|i|i d|i|i|i|i|i|k d|k chunks]; cbn [api_step api_op_real] in *.
    - apply (res_rel_bind (R k)); [now apply Hnew|]. intros a b _ Hab. now apply Hadd.
    - destruct Hop. apply (res_rel_bind (R (KHmac k))); [now apply Hhmac|]. intros a b _ Hab. now apply Hadd.
    - destruct Hop. now apply Hadd, Hkeys.
    - destruct Hop. apply (res_rel_bind (R k)); [now apply Hmid|]. intros a b _ Hab. now apply Hadd.
    - destruct (get_rel st st' i H) as [|k s t Hs]; [apply Hrej|]. now apply Hadd.
    - destruct (get_rel st st' i H) as [|k s t Hs]; [apply Hrej|].
      apply (res_rel_bind (R k)); [now apply Hinput|]. intros a b _ Hab. split; [|reflexivity].
      apply set_rel; [exact H|now constructor].
    - destruct (get_rel st st' i H) as [|k s t Hs]; [apply Hrej|]. rewrite (Hcount k s t Hs). apply Hrej.
    - destruct (get_rel st st' i H) as [|k s t Hs]; [apply Hrej|]. rewrite (Hmidstate k s t Hs).
      destruct (a_midstate B k t); [apply Hrej|reflexivity].
    - destruct (get_rel st st' i H) as [|k s t Hs]; [apply Hrej|]. destruct k; try apply Hrej.
      rewrite (Hk s t Hs). destruct (a_keys B t). apply Hrej.
    - destruct (get_rel st st' i H) as [|k s t Hs]; [apply Hrej|]. rewrite (Hfin k s t Hs).
      destruct (a_finalize B k t); [|reflexivity]. split; [|reflexivity]. apply set_rel; [exact H|constructor].
    - destruct (get_rel st st' i H) as [|k s t Hs]; [apply Hrej|]. destruct k; try apply Hrej.
      rewrite (Hu64 s t Hs). split; [|reflexivity]. apply set_rel; [exact H|constructor].
    - destruct Hop as [Hr Hd]. rewrite (Hhash k d Hr Hd). destruct (a_hash B k d); [apply Hrej|reflexivity].
    - destruct Hop as [Hr HF]. rewrite (Hchunks k chunks Hr HF). destruct (a_hash_chunks B k chunks); [apply Hrej|reflexivity].
  Qed.

  Lemma run_rel ops : forall st st', Forall2 var_rel st st' -> Forall (api_op_real c) ops -> api_run A st ops = api_run B st' ops.
  Proof.
    induction ops as [|op ops IH]; intros st st' H HF; [reflexivity|]. inversion HF as [|? ? Hop HF']; subst. cbn [api_run].
    pose proof (step_rel st st' op H Hop) as Hs.
    destruct (api_step A st op) as [[s o]|p], (api_step B st' op) as [[s' o']|p']; cbn [res_rel] in Hs; try contradiction.
    - destruct Hs as [Hs Ho]. cbn [fst snd] in *. subst o'. now rewrite (IH s s' Hs HF').
    - now subst.
  Qed.
  Lemma adaptive_rel n next : (forall seen, api_op_real c (next seen)) -> forall seen st st', Forall2 var_rel st st' ->
    adaptive A n next seen st = adaptive B n next seen st'.
  Proof.
    intros Hn. induction n as [|n IH]; intros seen st st' H; [reflexivity|]. cbn [adaptive].
    pose proof (step_rel st st' (next seen) H (Hn seen)) as Hs.
    destruct (api_step A st (next seen)) as [[s o]|p], (api_step B st' (next seen)) as [[s' o']|p']; cbn [res_rel] in Hs; try contradiction.
    - destruct Hs as [Hs Ho]. cbn [fst snd] in *. subst o'. now apply IH.
    - now subst.
  Qed.
End Sim.

(** ** The code against the specification *)
Section Code.
  Context (c : config) (WF : wf_config c).
  Notation M := (2 ^ usize_bits c).

  Definition md_rel (a : algo) (s : engine) (t : md_abs) : Prop := from_to c a (d_chain t) (d_count t) (d_msg t) s.
  Definition sip_rel (s : sip_engine) (t : sip_abs) : Prop :=
    vb (s_init t) /\ s = sip_at c (fst (s_keys t)) (snd (s_keys t)) (s_init t) (s_msg t).
  Fixpoint rel (k : ekind) : he_state (kind_engine c k) -> abs_state k -> Prop :=
    match k return he_state (kind_engine c k) -> abs_state k -> Prop with
    | KAlgo a => match a return he_state (algo_engine c a) -> md_abs -> Prop with
                 | Sha1 => md_rel Sha1 | Sha256 => md_rel Sha256 | Sha384 => md_rel Sha384
                 | Sha512 => md_rel Sha512 | Sha512_256 => md_rel Sha512_256 | Ripemd160 => md_rel Ripemd160
                 end
    | KSip => sip_rel
    | KTag _ => md_rel Sha256
    | KHmac k => fun s t => rel k (iengine s) (fst t) /\ rel k (oengine s) (snd t)
    end.

  Lemma md_input_rel a s t d : md_rel a s t -> res_rel (md_rel a) (algo_input c a s d) (md_feed c t d).
  Proof.
    intros HF. pose proof HF as (Hh & HL & HM & ->). rewrite algo_input_exact by assumption. unfold md_feed, overflows, md_seen.
    unfold counter. destruct (_ && _); [reflexivity|]. cbn [res_rel]. unfold md_rel. cbn [d_chain d_count d_msg].
    repeat split; assumption || apply Hh.
  Qed.
  Lemma md_finalize_rel a s t : md_rel a s t -> algo_finalize c a s = md_close c a t.
  Proof.
    intros (Hh & HL & HM & ->). rewrite algo_finalize_exact by assumption.
    unfold finalize_overflows, md_close, overflows, md_seen, bits_at, counter.
    replace (N.of_nat (md_padded (md_of a) (length (d_msg t)) - length (d_msg t)))
      with (1 + N.of_nat (md_zeros (md_of a) (length (d_msg t))) + N.of_nat (md_field (md_of a)))
      by (unfold md_padded; lia).
    rewrite andb_orb_distrib_r. reflexivity.
  Qed.
  Lemma md_midstate_rel a s t : md_rel a s t -> algo_midstate a s = Ok (md_mid a t).
  Proof. intros (Hh & HL & HM & ->). now apply algo_midstate_exact. Qed.
  Lemma md_mid_rel a m n : length m = mid_len a -> n < M ->
    res_rel (md_rel a) (algo_from_midstate a m n)
      (match md_refuses a n with Some p => Panic p | None => Ok (mk_md_abs (be_words 4 m) n []) end).
  Proof.
    intros Hm Hn. pose proof (from_midstate_exact a m n Hm) as E.
    destruct (algo_from_midstate a m n) as [s|p] eqn:Es.
    - destruct (from_to_mid c a m n s Hm Hn Es) as [HF Hr].
      assert (Hx : md_refuses a n = None); [|now rewrite Hx].
      unfold md_refuses. replace (block_len a) with (md_block (md_of a)) by (destruct a; reflexivity).
      destruct (n mod N.of_nat (md_block (md_of a)) =? 0); [|discriminate]. destruct a; try discriminate; reflexivity.
    - unfold md_refuses. replace (block_len a) with (md_block (md_of a)) by (destruct a; reflexivity).
      destruct (n mod N.of_nat (md_block (md_of a)) =? 0); [|now injection E as ->].
      destruct a; cbn [resumable] in E; try discriminate; now injection E as ->.
  Qed.

  Lemma small_slice (b : bytes) : (length b <= 128)%nat -> slice c b.
  Proof. intros Hb. unfold slice, len. destruct WF as [-> | [-> | ->]]; lia. Qed.

  Lemma input_rel k s t d : rel k s t -> slice c d ->
    res_rel (rel k) (he_input (kind_engine c k) s d) (abs_input c k t d).
  Proof.
    induction k as [a| |tag|k IH]; intros H Hd.
    - destruct a; exact (md_input_rel _ s t d H).
    - destruct H as [Hv ->]. destruct (wf_M c WF) as [H256 _].
      cbn [kind_engine siphash24_engine he_input abs_input]. rewrite sip_input_exact by assumption.
      unfold sip_feed, overflows, sip_seen. destruct (_ && _); [reflexivity|]. split; [exact Hv|reflexivity].
    - exact (md_input_rel Sha256 s t d H).
    - destruct H as [Hi Ho]. cbn [kind_engine hmac_engine he_input abs_input].
      apply (res_rel_bind (rel k)); [now apply IH|]. intros a b _ Hab. split; assumption.
  Qed.
  Lemma count_rel k s t : rel k s t -> he_n_bytes_hashed (kind_engine c k) s = abs_count c k t.
  Proof.
    induction k as [a| |tag|k IH]; intros H.
    - destruct a; exact (from_to_counter c _ _ _ _ s H).
    - destruct H as [_ ->]. reflexivity.
    - exact (from_to_counter c Sha256 _ _ _ s H).
    - destruct H as [Hi _]. exact (IH _ _ Hi).
  Qed.
  Lemma hmac_mid (E : HashEngine) (X : Type) (f : he_mid E -> X) (s : hmac_state E) x y :
    (let* m := he_midstate E (iengine s) in Ok (f m)) = Ok x -> (let* m := he_midstate E (oengine s) in Ok (f m)) = Ok y ->
    (let* m := he_midstate (hmac_engine c E) s in Ok (f (fst m), f (snd m))) = Ok (x, y).
  Proof.
    cbn [hmac_engine he_midstate]. destruct (he_midstate E (iengine s)); cbn [bind]; intros H; [|discriminate].
    destruct (he_midstate E (oengine s)); cbn [bind fst snd]; intros H'; [|discriminate].
    apply Ok_inj in H. apply Ok_inj in H'. now subst.
  Qed.
  Lemma midstate_rel k s t : rel k s t ->
    (let* m := he_midstate (kind_engine c k) s in Ok (mid_out c k m)) = Ok (abs_midstate k t).
  Proof.
    induction k as [a| |tag|k IH]; intros H.
    - destruct a; cbn [kind_engine mid_out abs_midstate]; match goal with |- context [md_mid ?a _] =>
        pose proof (md_midstate_rel a s t H) as E; change (he_midstate (algo_engine c a) s) with (algo_midstate a s); rewrite E; reflexivity end.
    - destruct H as [_ ->]. cbn [kind_engine siphash24_engine he_midstate bind mid_out abs_midstate]. unfold sip_midstate, sip_mid.
      cbn [sip_at sip_st]. destruct (fold_left sip_word (le_words 8 (s_msg t)) (s_init t)) as [[[? ?] ?] ?]. reflexivity.
    - pose proof (md_midstate_rel Sha256 s t H) as E. cbn [kind_engine mid_out abs_midstate].
      change (he_midstate (sha256t_engine c (tag_engine c tag)) s) with (algo_midstate Sha256 s). rewrite E. reflexivity.
    - destruct H as [Hi Ho]. specialize (IH (iengine s) (fst t) Hi) as Ei. specialize (IH (oengine s) (snd t) Ho) as Eo.
      exact (hmac_mid (kind_engine c k) _ (mid_out c k) s _ _ Ei Eo).
  Qed.
  Lemma rel_digest_length k s t d : rel k s t -> he_finalize (kind_engine c k) s = Ok d -> length d = kind_digest k.
  Proof.
    assert (HMD : forall a s t d, md_rel a s t -> algo_finalize c a s = Ok d -> length d = md_digest (md_of a)).
    { intros a s' t' d' (Hh & HL & HM & ->) E. rewrite algo_finalize_exact in E by assumption.
      destruct (finalize_overflows _ _ _ _); [discriminate|]. apply Ok_inj in E. subst d'.
      apply md_hash_from_length; [apply md_of_ok|exact Hh]. }
    revert d. induction k as [a| |tag|k IH]; intros d H E.
    - destruct a; exact (HMD _ s t d H E).
    - cbn [kind_engine siphash24_engine he_finalize] in E. apply Ok_inj in E. subst d. apply length_to_le_bytes.
    - exact (HMD Sha256 s t d H E).
    - destruct H as [Hi Ho]. cbn [kind_engine hmac_engine he_finalize kind_digest] in *.
      apply bind_ok in E. destruct E as (ih & Ei & E). apply bind_ok in E. destruct E as (o & Eo & E).
      pose proof (IH _ _ ih Hi Ei) as Hl.
      assert (Hs : slice c ih).
      { apply small_slice. rewrite Hl. pose proof (kind_digest_le k). pose proof (kind_block_le k). lia. }
      pose proof (input_rel k (oengine s) (snd t) ih Ho Hs) as HI. rewrite Eo in HI.
      destruct (abs_input c k (snd t) ih) as [o'|]; [|contradiction]. exact (IH o o' d HI E).
  Qed.
  Lemma finalize_rel k s t : rel k s t -> he_finalize (kind_engine c k) s = abs_finalize c k t.
  Proof.
    induction k as [a| |tag|k IH]; intros H.
    - destruct a; exact (md_finalize_rel _ s t H).
    - destruct H as [Hv ->]. destruct (wf_M c WF) as [H256 Hq].
      cbn [kind_engine siphash24_engine he_finalize abs_finalize].
      rewrite sip_finalize_u64, to_le_bytes_octets, sip_u64_exact by assumption. reflexivity.
    - exact (md_finalize_rel Sha256 s t H).
    - revert s t H.
      enough (HF : forall (s : hmac_state (kind_engine c k)) (t : abs_state k * abs_state k),
        rel k (iengine s) (fst t) -> rel k (oengine s) (snd t) ->
        (let* h := he_finalize (kind_engine c k) (iengine s) in
         let* o := he_input (kind_engine c k) (oengine s) h in he_finalize (kind_engine c k) o) =
        (let* h := abs_finalize c k (fst t) in let* o := abs_input c k (snd t) h in abs_finalize c k o))
        by (intros s t [Hi Ho]; exact (HF s t Hi Ho)).
      intros s t Hi Ho. rewrite <- (IH _ _ Hi). destruct (he_finalize (kind_engine c k) (iengine s)) as [ih|] eqn:Ei; cbn [bind]; [|reflexivity].
      pose proof (rel_digest_length k _ _ ih Hi Ei) as Hl.
      assert (Hs : slice c ih).
      { apply small_slice. rewrite Hl. pose proof (kind_digest_le k). pose proof (kind_block_le k). lia. }
      pose proof (input_rel k (oengine s) (snd t) ih Ho Hs) as HI.
      destruct (he_input (kind_engine c k) (oengine s) ih) as [o|], (abs_input c k (snd t) ih) as [o'|]; cbn [res_rel bind] in *;
        try contradiction; [now apply IH|now subst].
  Qed.
  Lemma from_mid_rel k m n : mid_real k m -> n < M ->
    res_rel (rel k) (he_from_midstate (kind_engine c k) (mid_in c k m) n) (abs_from_midstate k m n).
  Proof.
    intros Hm Hn. induction k as [a| |tag|k IH].
    - destruct a; exact (md_mid_rel _ m n Hm Hn).
    - cbn [kind_engine siphash24_engine he_from_midstate]. unfold abs_from_midstate. cbn [refuses abs_mid_start mid_in res_rel].
      destruct Hm as (H0 & H1 & H2 & H3). split; [repeat split; assumption|]. cbn [s_init s_keys s_msg fst snd].
      unfold sip_at. change (len []) with 0. rewrite N.mod_0_l by (pose proof (M_pos c); lia). destruct m. reflexivity.
    - exact (md_mid_rel Sha256 m n Hm Hn).
    - destruct Hm as [Hi Ho]. specialize (IH (fst m) Hi) as Ei. specialize (IH (snd m) Ho) as Eo. unfold abs_from_midstate in *.
      cbn [kind_engine hmac_engine he_from_midstate mid_in fst snd refuses abs_mid_start].
      destruct (refuses k n) as [p|]; cbn [res_rel] in *.
      + destruct (he_from_midstate (kind_engine c k) (mid_in c k (fst m)) n); [contradiction|]. exact Ei.
      + destruct (he_from_midstate (kind_engine c k) (mid_in c k (fst m)) n); [|contradiction].
        destruct (he_from_midstate (kind_engine c k) (mid_in c k (snd m)) n); [|contradiction]. split; assumption.
  Qed.

  (** *** Constructors *)
  Lemma hmac_new_rel k key : (res_rel (rel k) (he_default (kind_engine c k)) (abs_new c k)) -> slice c key ->
    res_rel (rel (KHmac k)) (hmac_new c (kind_engine c k) key) (abs_hmac c k key).
  Proof.
    intros Hnew Hk.
    pose proof (kind_block_size c k) as HB. pose proof (kind_block_le k) as H128. pose proof (kind_digest_le k) as HDB.
    assert (HF : forall k', (length k' = kind_block k)%nat ->
      res_rel (rel (KHmac k)) (hmac_from (kind_engine c k) k')
        (let* i := let* s := abs_new c k in abs_input c k s (xor_pad x36 k') in
         let* o := let* s := abs_new c k in abs_input c k s (xor_pad x5c k') in Ok (i, o))).
    { intros k' Hk'. unfold hmac_from.
      assert (Hp : forall p, slice c (xor_pad p k')) by (intros p; apply small_slice; unfold xor_pad; rewrite map_length; lia).
      destruct (he_default (kind_engine c k)) as [s|p], (abs_new c k) as [t|q]; cbn [res_rel bind] in *; try contradiction;
        [|exact Hnew].
      apply (res_rel_bind (rel k)); [now apply input_rel|]. intros i i' _ Hi.
      apply (res_rel_bind (rel k)); [now apply input_rel|]. intros o o' _ Ho. split; assumption. }
    unfold abs_hmac, abs_hmac_new, abs_hmac_key.
    destruct (Nat.ltb_spec (kind_block k) (length key)) as [Hlt|Hge].
    - assert (EK : he_hash (kind_engine c k) key =
        (let* s := abs_new c k in let* s := abs_input c k s key in abs_finalize c k s)).
      { unfold he_hash. destruct (he_default (kind_engine c k)) as [s|p], (abs_new c k) as [t|q]; cbn [res_rel bind] in *;
          try contradiction; [|now subst].
        pose proof (input_rel k s t key Hnew Hk) as HI.
        destruct (he_input (kind_engine c k) s key) as [s1|], (abs_input c k t key) as [t1|]; cbn [res_rel bind] in *;
          try contradiction; [now apply finalize_rel|now subst]. }
      rewrite <- EK. destruct (he_hash (kind_engine c k) key) as [h|p] eqn:Eh; cbn [bind].
      + assert (Hh : length h = kind_digest k).
        { unfold he_hash in Eh. apply bind_ok in Eh. destruct Eh as (s & E0 & Eh). apply bind_ok in Eh. destruct Eh as (s1 & E1 & Eh).
          rewrite E0 in Hnew. destruct (abs_new c k) as [t|]; [|contradiction].
          pose proof (input_rel k s t key Hnew Hk) as HI. rewrite E1 in HI.
          destruct (abs_input c k t key) as [t1|]; [|contradiction]. exact (rel_digest_length k s1 t1 h HI Eh). }
        rewrite (hmac_new_long c (kind_engine c k) (kind_block k) HB key h) by (try assumption; lia).
        apply HF. rewrite app_length, repeat_length. lia.
      + enough (HN : hmac_new c (kind_engine c k) key = Panic p) by (rewrite HN; reflexivity).
        unfold hmac_new. rewrite HB, debug_assert_ok by (apply N.leb_le; lia). cbn [bind].
        unfold he_hash in Eh. destruct (he_default (kind_engine c k)) as [s0|p0] eqn:E0; cbn [bind] in *; [|now injection Eh as ->].
        destruct (N.ltb_spec (N.of_nat (kind_block k)) (len key)) as [_|Hx]; [|unfold len in Hx; lia].
        unfold he_hash. rewrite E0. cbn [bind]. now rewrite Eh.
    - cbn [bind]. rewrite (hmac_new_short c (kind_engine c k) (kind_block k) HB key) by lia.
      apply HF. rewrite app_length, repeat_length. lia.
  Qed.

  Lemma new_rel k : kind_real c k -> res_rel (rel k) (he_default (kind_engine c k)) (abs_new c k).
  Proof.
    induction k as [a| |tag|k IH]; intros Hr.
    - destruct a; exact (from_to_default c _).
    - split; [now apply sip_init_vb|]. apply sip_with_keys_at.
    - destruct Hr as [Hl H8]. destruct (slice_room c _ WF Hl) as [Ha _].
      cbn [kind_engine sha256t_engine he_default abs_new].
      destruct (tag_engine_ok c tag WF Hl H8) as (e & Ee & _). rewrite Ee. unfold tag_engine in Ee.
      apply bind_ok in Ee. destruct Ee as (mid & Em & Ee).
      rewrite hash_tag_ok in Em by assumption. apply Ok_inj in Em. subst mid.
      set (h := hash_of Sha256 tag) in *.
      assert (Hg : good_h (md_of Sha256) (md_iterate (md_of Sha256) (md_iv (md_of Sha256)) (h ++ h))).
      { apply md_iterate_good; [apply md_of_ok|apply (mo_iv _ (md_of_ok Sha256))]. }
      assert (H64 : 64 < M) by (destruct WF as [-> | [-> | ->]]; reflexivity).
      match type of Ee with sha256_from_midstate ?m _ = _ => assert (Hm : length m = mid_len Sha256) end.
      { rewrite md_words_length by apply (mo_word _ (md_of_ok Sha256)). destruct Hg as [-> _]. reflexivity. }
      destruct (from_to_mid c Sha256 _ 64 e Hm H64 Ee) as [HF _].
      rewrite be_words_md_words in HF by (try exact Hg; now right). exact HF.
    - exact (hmac_new_rel k [] (IH Hr) (small_slice [] ltac:(cbn; lia))).
  Qed.

  Lemma inputs_rel k chunks : forall s t, rel k s t -> Forall (slice c) chunks ->
    res_rel (rel k) (he_inputs (kind_engine c k) s chunks) (abs_inputs c k t chunks).
  Proof.
    induction chunks as [|d ds IH]; intros s t HR HF; cbn [he_inputs abs_inputs]; [exact HR|].
    inversion HF as [|? ? Hd HF']; subst. apply (res_rel_bind (rel k)); [exact (input_rel k s t d HR Hd)|].
    intros a b _ Hab. now apply IH.
  Qed.
  Lemma chunks_rel k chunks : kind_real c k -> Forall (slice c) chunks ->
    a_hash_chunks (code_api c) k chunks = a_hash_chunks (spec_api c) k chunks.
  Proof.
    intros Hr HF. cbn [code_api spec_api a_hash_chunks]. unfold he_hash_byte_chunks, abs_hash_chunks.
    pose proof (new_rel k Hr) as HN. cbn [code_api spec_api a_new] in HN.
    destruct (he_default (kind_engine c k)) as [s|p], (abs_new c k) as [t|q]; cbn [res_rel] in HN; try contradiction; cbn [bind]; [|now subst].
    pose proof (inputs_rel k chunks s t HN HF) as HI.
    destruct (he_inputs (kind_engine c k) s chunks) as [s'|p], (abs_inputs c k t chunks) as [t'|q]; cbn [res_rel] in HI; try contradiction;
      cbn [bind]; [|now subst]. exact (finalize_rel k s' t' HI).
  Qed.
  Lemma hash_rel k d : kind_real c k -> slice c d -> a_hash (code_api c) k d = a_hash (spec_api c) k d.
  Proof.
    intros Hr Hd. pose proof (chunks_rel k [d] Hr (Forall_cons _ Hd (Forall_nil _))) as E.
    change (a_hash (spec_api c) k d) with (a_hash_chunks (spec_api c) k [d]). rewrite <- E.
    cbn [code_api a_hash a_hash_chunks]. unfold he_hash, he_hash_byte_chunks. cbn [he_inputs]. destruct (he_default (kind_engine c k)) as [s|]; [cbn [bind]|reflexivity].
    destruct (he_input (kind_engine c k) s d); reflexivity.
  Qed.

  Lemma program_refines ops : Forall (api_op_real c) ops -> behaviour (code_api c) ops = behaviour (spec_api c) ops.
  Proof.
    intros HF. unfold behaviour. apply (run_rel c (code_api c) (spec_api c) rel).
    - exact new_rel.
    - intros k key Hk Hs. exact (hmac_new_rel k key (new_rel k Hk) Hs).
    - intros k0 k1 H0 H1. split; [now apply sip_init_vb|]. apply sip_with_keys_at.
    - exact from_mid_rel.
    - exact input_rel.
    - exact count_rel.
    - exact midstate_rel.
    - intros s t [_ ->]. cbn. now destruct (s_keys t).
    - exact finalize_rel.
    - intros s t [Hv ->]. destruct (wf_M c WF) as [H256 Hq]. cbn [code_api spec_api a_to_u64].
      now rewrite sip_u64_exact by assumption.
    - exact hash_rel.
    - exact chunks_rel.
    - constructor.
    - exact HF.
  Qed.
  Lemma adaptive_refines n next : (forall seen, api_op_real c (next seen)) ->
    adaptive (code_api c) n next [] [] = adaptive (spec_api c) n next [] [].
  Proof.
    intros HF. apply (adaptive_rel c (code_api c) (spec_api c) rel).
    - exact new_rel.
    - intros k key Hk Hs. exact (hmac_new_rel k key (new_rel k Hk) Hs).
    - intros k0 k1 H0 H1. split; [now apply sip_init_vb|]. apply sip_with_keys_at.
    - exact from_mid_rel.
    - exact input_rel.
    - exact count_rel.
    - exact midstate_rel.
    - intros s t [_ ->]. cbn. now destruct (s_keys t).
    - exact finalize_rel.
    - intros s t [Hv ->]. destruct (wf_M c WF) as [H256 Hq]. cbn [code_api spec_api a_to_u64].
      now rewrite sip_u64_exact by assumption.
    - exact hash_rel.
    - exact chunks_rel.
    - exact HF.
    - constructor.
  Qed.
End Code.

(** ** Panics *)
Section Panics.
  Context (c : config).
  Notation ovf := (fun p => p = POverflow /\ overflow_checks c = true).

  Lemma overflows_checked x : overflows c x = true -> overflow_checks c = true.
  Proof. unfold overflows. intros H. apply andb_prop in H. tauto. Qed.

  Lemma abs_input_panic k s d p : abs_input c k s d = Panic p -> ovf p.
  Proof.
    induction k as [a| |tag|k IH]; cbn [abs_input]; intros H.
    1,3: unfold md_feed in H; destruct (overflows c _) eqn:E; [|discriminate]; injection H as <-; split; [reflexivity|]; exact (overflows_checked _ E).
    - unfold sip_feed in H. destruct (overflows c _) eqn:E; [|discriminate]. injection H as <-. split; [reflexivity|]. exact (overflows_checked _ E).
    - destruct (abs_input c k (fst s) d) eqn:E; [discriminate|]. injection H as ->. exact (IH _ E).
  Qed.
  Lemma md_close_panic a s p : md_close c a s = Panic p -> ovf p.
  Proof.
    unfold md_close. destruct (_ || _) eqn:E; [|discriminate]. intros H. injection H as <-. split; [reflexivity|].
    apply orb_prop in E. destruct E as [E|E]; [exact (overflows_checked _ E)|]. apply andb_prop in E. tauto.
  Qed.
  Lemma abs_finalize_panic k s p : abs_finalize c k s = Panic p -> ovf p.
  Proof.
    revert p. induction k as [a| |tag|k IH]; cbn [abs_finalize]; intros p H.
    1,3: now apply md_close_panic in H.
    - discriminate.
    - destruct (abs_finalize c k (fst s)) as [h|] eqn:E; cbn [bind] in H; [|injection H as ->; exact (IH _ _ E)].
      destruct (abs_input c k (snd s) h) as [o|] eqn:E2; cbn [bind] in H; [exact (IH _ _ H)|].
      injection H as ->. exact (abs_input_panic _ _ _ _ E2).
  Qed.
  Lemma abs_hmac_panic k key p : (forall p, abs_new c k = Panic p -> ovf p) -> abs_hmac c k key = Panic p -> ovf p.
  Proof.
    intros Hn. unfold abs_hmac, abs_hmac_new.
    assert (HI : forall d q, (let* s := abs_new c k in abs_input c k s d) = Panic q -> ovf q).
    { intros d q H. destruct (abs_new c k) as [s|] eqn:E; cbn [bind] in H; [exact (abs_input_panic _ _ _ _ H)|].
      injection H as ->. now apply Hn. }
    destruct (abs_hmac_key _ _ _ _ _ key) as [k'|q] eqn:EK; cbn [bind].
    - intros H.
      destruct (let* s := abs_new c k in abs_input c k s (xor_pad x36 k')) as [i|] eqn:Ei; cbn [bind] in H;
        [|injection H as ->; exact (HI _ _ Ei)].
      destruct (let* s := abs_new c k in abs_input c k s (xor_pad x5c k')) as [o|] eqn:Eo; cbn [bind] in H; [discriminate|].
      injection H as ->. exact (HI _ _ Eo).
    - intros H. injection H as ->. unfold abs_hmac_key in EK. destruct (Nat.ltb _ _); [|discriminate].
      destruct (abs_new c k) as [s|] eqn:En; cbn [bind] in EK; [|injection EK as ->; now apply Hn].
      destruct (abs_input c k s key) as [s1|] eqn:Es; cbn [bind] in EK;
        [|injection EK as ->; exact (abs_input_panic _ _ _ _ Es)].
      destruct (abs_finalize c k s1) eqn:Ef; cbn [bind] in EK; [discriminate|]. injection EK as ->.
      exact (abs_finalize_panic _ _ _ Ef).
  Qed.
  Lemma abs_new_panic k p : abs_new c k = Panic p -> ovf p.
  Proof.
    revert p. induction k as [a| |tag|k IH]; cbn [abs_new]; intros p H; try discriminate.
    exact (abs_hmac_panic k [] p IH H).
  Qed.

  Lemma abs_inputs_panic k chunks : forall s p, abs_inputs c k s chunks = Panic p -> ovf p.
  Proof.
    induction chunks as [|d ds IH]; intros s q; cbn [abs_inputs]; [discriminate|].
    destruct (abs_input c k s d) eqn:Ed; cbn [bind]; [apply IH|]. intros Hq. injection Hq as ->.
    exact (abs_input_panic _ _ _ _ Ed).
  Qed.
  Lemma abs_hash_panic k chunks p : abs_hash_chunks c k chunks = Panic p -> ovf p.
  Proof.
    unfold abs_hash_chunks. intros H.
    destruct (abs_new c k) as [s|] eqn:E; cbn [bind] in H; [|injection H as ->; exact (abs_new_panic _ _ E)].
    destruct (abs_inputs c k s chunks) as [s1|] eqn:Es; cbn [bind] in H; [|injection H as ->; exact (abs_inputs_panic _ _ _ _ Es)].
    exact (abs_finalize_panic _ _ _ H).
  Qed.

  Lemma abs_step_panic st op p : api_step (spec_api c) st op = Panic p ->
    ovf p \/ exists k m n, op = PFromMidstate k m n /\ refuses k n = Some p.
  Proof.
    destruct op as [k|k key|k0 k1|k m n|i|i d|i|i|i|i|i|k d|k chunks]; cbn [api_step spec_api a_new a_hmac a_from_midstate a_input
      a_midstate a_finalize a_hash a_hash_chunks bind]; intros H.
    - left. destruct (abs_new c k) eqn:E; [discriminate|]. injection H as ->. exact (abs_new_panic _ _ E).
    - left. destruct (abs_hmac c k key) eqn:E; [discriminate|]. injection H as ->.
      exact (abs_hmac_panic k key _ (abs_new_panic k) E).
    - discriminate.
    - right. unfold abs_from_midstate in H. destruct (refuses k n) as [q|] eqn:E; [|discriminate]. injection H as ->. eauto.
    - destruct (get st i); discriminate.
    - left. destruct (get st i) as [[k s]|]; [|discriminate]. destruct (abs_input c k s d) eqn:E; [discriminate|].
      injection H as ->. exact (abs_input_panic _ _ _ _ E).
    - destruct (get st i) as [[k s]|]; discriminate.
    - destruct (get st i) as [[k s]|]; discriminate.
    - destruct (get st i) as [[[a| |tag|k] s]|]; try discriminate. destruct (a_keys _ _); discriminate.
    - left. destruct (get st i) as [[k s]|]; [|discriminate]. destruct (abs_finalize c k s) eqn:E; [discriminate|].
      injection H as ->. exact (abs_finalize_panic _ _ _ E).
    - destruct (get st i) as [[[a| |tag|k] s]|]; discriminate.
    - left. destruct (abs_hash_chunks c k [d]) eqn:E; [discriminate|]. injection H as ->.
      exact (abs_hash_panic _ _ _ E).
    - left. destruct (abs_hash_chunks c k chunks) eqn:E; [discriminate|]. injection H as ->.
      exact (abs_hash_panic _ _ _ E).
  Qed.

  Lemma abs_run_panic ops : forall st p, snd (api_run (spec_api c) st ops) = Some p -> ovf p \/ refused ops p.
  Proof.
    induction ops as [|op ops IH]; intros st p; cbn [api_run]; [discriminate|].
    destruct (api_step (spec_api c) st op) as [[st' o]|q] eqn:E.
    - specialize (IH st'). destruct (api_run (spec_api c) st' ops) as [os q]. cbn [snd] in *. intros Hp.
      destruct (IH p Hp) as [|(k & m & n & Hin & Hr)]; [now left|]. right. exists k, m, n. split; [now right|exact Hr].
    - cbn [snd]. intros H. injection H as <-. destruct (abs_step_panic _ _ _ E) as [|(k & m & n & -> & Hr)]; [now left|].
      right. exists k, m, n. split; [now left|exact Hr].
  Qed.
  Lemma abs_run_total ops : forall st, snd (api_run (spec_api c) st ops) = None ->
    length (fst (api_run (spec_api c) st ops)) = length ops.
  Proof.
    induction ops as [|op ops IH]; intros st; cbn [api_run]; [reflexivity|].
    destruct (api_step (spec_api c) st op) as [[st' o]|q]; [|discriminate].
    specialize (IH st'). destruct (api_run (spec_api c) st' ops). cbn [fst snd length] in *. intros H. now rewrite IH.
  Qed.
End Panics.

Lemma refuses_kind k n p : refuses k n = Some p -> p = PAssert \/ p = PExpect.
Proof.
  assert (H : forall a, md_refuses a n = Some p -> p = PAssert \/ p = PExpect).
  { intros a. unfold md_refuses. destruct (_ =? 0); [destruct a|]; intros E; try discriminate; injection E as <-; tauto. }
  induction k as [a| |tag|k IH]; cbn [refuses]; try apply H; [discriminate|exact IH].
Qed.

Lemma program_panics c ops p : wf_config c -> Forall (api_op_real c) ops ->
  snd (behaviour (code_api c) ops) = Some p ->
  (p = POverflow /\ overflow_checks c = true) \/ ((p = PAssert \/ p = PExpect) /\ refused ops p).
Proof.
  intros WF HF H. rewrite program_refines in H by assumption. destruct (abs_run_panic c ops [] p H) as [|Hr]; [now left|].
  right. split; [|exact Hr]. destruct Hr as (k & m & n & _ & Hr). exact (refuses_kind k n p Hr).
Qed.
Lemma program_total c ops : wf_config c -> Forall (api_op_real c) ops -> overflow_checks c = false ->
  (forall p, ~ refused ops p) ->
  snd (behaviour (code_api c) ops) = None /\ length (fst (behaviour (code_api c) ops)) = length ops.
Proof.
  intros WF HF Hc Hr.
  assert (HN : snd (behaviour (code_api c) ops) = None).
  { destruct (snd (behaviour (code_api c) ops)) as [p|] eqn:E; [|reflexivity].
    destruct (program_panics c ops p WF HF E) as [[_ H]|[_ H]]; [congruence|]. now elim (Hr p). }
  split; [exact HN|]. rewrite program_refines in * by assumption. now apply abs_run_total.
Qed.

(** ** Cutting one input into two, anywhere in a program *)
Section Cut.
  Context (c : config) (WF : wf_config c).
  Notation M := (2 ^ usize_bits c).

  Lemma cut_overflow n d1 d2 : overflow_checks c = true ->
    overflows c (n mod M + d1) = false -> overflows c ((n + d1) mod M + d2) = overflows c (n mod M + (d1 + d2)).
  Proof.
    unfold overflows. intros -> H. cbn [andb] in *. apply N.leb_gt in H. pose proof (M_pos c).
    rewrite <- (N.add_mod_idemp_l n) by lia. rewrite (N.mod_small (n mod M + d1)) by exact H. now rewrite N.add_assoc.
  Qed.
  Lemma cut_overflow_first n d1 d2 : overflows c (n mod M + d1) = true -> overflows c (n mod M + (d1 + d2)) = true.
  Proof. unfold overflows. destruct (overflow_checks c); [|discriminate]. cbn [andb]. intros H. apply N.leb_le in H. apply N.leb_le. lia. Qed.

  Lemma abs_input_cut k s d1 d2 :
    (let* s := abs_input c k s d1 in abs_input c k s d2) = abs_input c k s (d1 ++ d2).
  Proof.
    assert (HO : forall n d, overflow_checks c = false -> overflows c (n + d) = false) by (unfold overflows; intros n d ->; reflexivity).
    induction k as [a| |tag|k IH]; cbn [abs_input].
    1,3: unfold md_feed, md_seen; rewrite len_app;
      destruct (overflows c ((d_count s + len (d_msg s)) mod M + len d1)) eqn:E1; cbn [bind];
      [now rewrite cut_overflow_first|]; unfold md_feed, md_seen; cbn [d_chain d_count d_msg];
      rewrite len_app, N.add_assoc, app_assoc; destruct (overflow_checks c) eqn:Ec;
      [now rewrite cut_overflow|now rewrite !HO].
    - unfold sip_feed, sip_seen. rewrite len_app.
      destruct (overflows c (len (s_msg s) mod M + len d1)) eqn:E1; cbn [bind]; [now rewrite cut_overflow_first|].
      unfold sip_feed, sip_seen. cbn [s_keys s_init s_msg]. rewrite len_app, app_assoc.
      destruct (overflow_checks c) eqn:Ec; [now rewrite cut_overflow|now rewrite !HO].
    - rewrite <- (IH (fst s)). destruct (abs_input c k (fst s) d1); reflexivity.
  Qed.

  Lemma get_set {A} (st : list (option A)) i x y : get st i = Some x -> get (set_nth i (Some y) st) i = Some y.
  Proof.
    unfold get. revert i. induction st as [|z st IH]; intros [|i]; cbn [nth_error set_nth]; try discriminate; [reflexivity|apply IH].
  Qed.
  Lemma set_set {A} (st : list (option A)) i x y : set_nth i x (set_nth i y st) = set_nth i x st.
  Proof. revert i. induction st as [|z st IH]; intros [|i]; cbn [set_nth]; try reflexivity. now rewrite IH. Qed.

  Lemma spec_cut st i d1 d2 post :
    visible (api_run (spec_api c) st (PInput i d1 :: PInput i d2 :: post)) =
    visible (api_run (spec_api c) st (PInput i (d1 ++ d2) :: post)).
  Proof.
    cbn [api_run api_step]. destruct (get st i) as [[k s]|] eqn:Eg.
    - cbn [spec_api a_input]. rewrite <- abs_input_cut. destruct (abs_input c k s d1) as [s1|] eqn:E1; cbn [bind]; [|reflexivity].
      rewrite (get_set st i _ _ Eg). destruct (abs_input c k s1 d2) as [s2|] eqn:E2; cbn [bind]; [|reflexivity].
      rewrite set_set. destruct (api_run _ _ post). reflexivity.
    - rewrite Eg. destruct (api_run _ _ post). reflexivity.
  Qed.
  Lemma run_app ops ops' ops'' :
    (forall st, visible (api_run (spec_api c) st ops') = visible (api_run (spec_api c) st ops'')) ->
    forall st, visible (api_run (spec_api c) st (ops ++ ops')) = visible (api_run (spec_api c) st (ops ++ ops'')).
  Proof.
    intros H. induction ops as [|op ops IH]; intros st; [apply H|]. cbn [app api_run].
    destruct (api_step (spec_api c) st op) as [[st' o]|]; [|reflexivity]. specialize (IH st'). unfold visible in *.
    destruct (api_run _ st' (ops ++ ops')), (api_run _ st' (ops ++ ops'')). cbn [fst snd filter] in *.
    injection IH as -> ->. reflexivity.
  Qed.
End Cut.

Lemma program_cut c pre i d1 d2 post : wf_config c ->
  Forall (api_op_real c) (pre ++ PInput i (d1 ++ d2) :: post) ->
  visible (behaviour (code_api c) (pre ++ PInput i d1 :: PInput i d2 :: post)) =
  visible (behaviour (code_api c) (pre ++ PInput i (d1 ++ d2) :: post)).
Proof.
  intros WF HF.
  assert (HF2 : Forall (api_op_real c) (pre ++ PInput i d1 :: PInput i d2 :: post)).
  { apply Forall_app in HF. destruct HF as [Hp HF]. apply Forall_app. split; [exact Hp|].
    inversion HF as [|? ? Hd HF']; subst. cbn [api_op_real] in Hd. unfold slice in Hd. rewrite len_app in Hd.
    repeat constructor; try exact HF'; cbn [api_op_real]; unfold slice; lia. }
  rewrite !program_refines by assumption. apply run_app. intros st. apply spec_cut.
Qed.
