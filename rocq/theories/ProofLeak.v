(** Proofs about what hashing reveals (C67). *)
From Coq Require Import Lia.
From Verif Require Import Base SpecBase SpecMD ModelEngine ModelSha256 ModelSip ModelHmac ModelAll ModelStore
  SpecStore SpecMore ModelLeak SpecLeak ProofBase ProofMD ProofApi ProofHash ProofConst ProofMac
  ProofLeakBlock.
Open Scope N_scope.

(** ** Erasure *)

Lemma min_branch r n : (if n <? r then n else r) = N.min r n.
Proof. destruct (N.ltb_spec n r); lia. Qed.

Ltac erase := repeat (rewrite erase_bind || (apply bind_ext; intros)); cbn [bind snd branch tell llift lret].

Lemma erase_step c B pb pb' e inp : (forall e, snd (pb e) = pb' e) ->
  snd (l_input_step c B pb e inp) = input_step c B pb' e inp.
Proof.
  intros H. unfold l_input_step, input_step.
  rewrite erase_bind. cbn [llift snd]. apply bind_ext. intros r.
  rewrite erase_bind. cbn [branch snd bind]. rewrite min_branch.
  rewrite erase_bind. cbn [llift snd]. apply bind_ext. intros hi.
  rewrite erase_bind. cbn [llift snd]. apply bind_ext. intros src.
  rewrite erase_bind. cbn [tell snd bind].
  rewrite erase_bind. cbn [tell snd bind].
  rewrite erase_bind. cbn [llift snd]. apply bind_ext. intros buf.
  rewrite erase_bind. cbn [llift snd]. apply bind_ext. intros n.
  rewrite erase_bind. cbn [branch snd bind].
  rewrite erase_bind. destruct (n mod B =? 0); rewrite ?H; cbn [lret snd]; apply bind_ext; intros e2;
    rewrite erase_bind; reflexivity.
Qed.

Lemma erase_loop fuel c B pb pb' : (forall e, snd (pb e) = pb' e) -> forall e inp,
  snd (l_input_loop fuel c B pb e inp) = input_loop fuel c B pb' e inp.
Proof.
  intros H. induction fuel as [|f IH]; intros e [|b inp]; try reflexivity.
  cbn [l_input_loop input_loop]. rewrite erase_bind. cbn [branch snd bind].
  rewrite erase_bind, (erase_step c B pb pb') by exact H. apply bind_ext. intros [e' r]. apply IH.
Qed.

Lemma erase_input c B pb pb' e inp : (forall e, snd (pb e) = pb' e) ->
  snd (l_engine_input c B pb e inp) = engine_input c B pb' e inp.
Proof. intros H. now apply erase_loop. Qed.

Lemma erase_inputs c B pb pb' l : (forall e, snd (pb e) = pb' e) -> forall e,
  snd (l_engine_inputs c B pb e l) = engine_inputs c B pb' e l.
Proof.
  intros H. induction l as [|d l IH]; intros e; [reflexivity|]. cbn [l_engine_inputs engine_inputs].
  rewrite erase_bind, (erase_input c B pb pb') by exact H. apply bind_ext. intros e'. apply IH.
Qed.

Lemma erase_pad c B pb pb' R t e : (forall e, snd (pb e) = pb' e) ->
  snd (l_finalize_pad c B pb R t e) = finalize_pad c B pb' R t e.
Proof.
  intros H. unfold l_finalize_pad, finalize_pad.
  rewrite erase_bind, (erase_input c B pb pb') by exact H. apply bind_ext. intros e1.
  rewrite erase_bind. cbn [branch snd bind].
  rewrite erase_bind.
  replace (snd _) with (if len (array x00 (B - R)) <? e_length e1 mod B
    then engine_input c B pb' e1 (array x00 (B - R)) else Ok e1)
    by (destruct (_ <? _); [now rewrite (erase_input c B pb pb')|reflexivity]).
  apply bind_ext. intros e2.
  rewrite erase_bind. apply bind_ext. intros p.
  rewrite erase_bind. apply bind_ext. intros pad.
  rewrite erase_bind, (erase_input c B pb pb') by exact H. apply bind_ext. intros e3.
  rewrite erase_bind, erase_debug. apply bind_ext. intros _.
  rewrite erase_bind. apply bind_ext. intros bits.
  rewrite erase_bind, (erase_inputs c B pb pb') by exact H. apply bind_ext. intros e4.
  rewrite erase_bind, erase_debug. reflexivity.
Qed.

Lemma erase_finalize c a B R t tr e :
  snd (l_algo_finalize c a B R t tr e) =
  let* e := finalize_pad c B (block_fn c a) R t e in let* d := algo_midstate a e in snd (tr d).
Proof.
  unfold l_algo_finalize. rewrite erase_bind, (erase_pad c B _ (block_fn c a)) by apply erase_block.
  apply bind_ext. intros e'. now rewrite erase_bind, erase_midstate.
Qed.

Definition cut (n : N) (d : bytes) : res bytes :=
  let* t := slice_to n d in copy_from_slice (array x00 n) t.
Lemma erase_cut n d : snd (l_cut n d) = cut n d.
Proof. unfold l_cut, cut. rewrite erase_bind. reflexivity. Qed.

Definition faithful {E} (L : leaky E) : Prop :=
  snd (lk_default L) = he_default E /\
  (forall s d, snd (lk_input L s d) = he_input E s d) /\
  (forall s, snd (lk_finalize L s) = he_finalize E s).

Lemma bind_ret A (x : res A) : (let* d := x in Ok d) = x.
Proof. destruct x; reflexivity. Qed.

Lemma bind_assoc A B C (x : res A) (f : A -> res B) (g : B -> res C) :
  (let* y := (let* a := x in f a) in g y) = (let* a := x in let* y := f a in g y).
Proof. destruct x; reflexivity. Qed.

Lemma algo_faithful c a : faithful (algo_leaky c a).
Proof.
  destruct a; (split; [reflexivity|split]; cbn [algo_leaky lk_input lk_finalize algo_engine]).
  all: try (intros s d; exact (erase_input c _ _ _ s d (erase_block c _))).
  all: intros s; rewrite erase_finalize; cbn [lret snd].
  - apply bind_ext. intros e. apply bind_ret.
  - apply bind_ext. intros e. apply bind_ret.
  - cbn [ModelSha512.sha384_engine he_finalize]. unfold ModelSha512.truncated_finalize, ModelSha512.sha512_finalize.
    rewrite bind_assoc. apply bind_ext. intros e. apply bind_ext. intros d. apply erase_cut.
  - apply bind_ext. intros e. apply bind_ret.
  - cbn [ModelSha512.sha512_256_engine he_finalize]. unfold ModelSha512.truncated_finalize, ModelSha512.sha512_finalize.
    rewrite bind_assoc. apply bind_ext. intros e. apply bind_ext. intros d. apply erase_cut.
  - apply bind_ext. intros e. apply bind_ret.
Qed.

Lemma tag_faithful c tag : faithful (tag_leaky c tag).
Proof.
  split; [reflexivity|]. split.
  - intros s d. exact (erase_input c _ _ _ s d (erase_block c Sha256)).
  - intros s. cbn [tag_leaky lk_finalize]. rewrite erase_finalize. apply bind_ext. intros e. apply bind_ret.
Qed.

Lemma erase_load c k buf i : snd (l_load_int_le c k buf i) = load_int_le c k buf i.
Proof. reflexivity. Qed.

Lemma erase_u8to64 c buf st n : snd (l_u8to64_le c buf st n) = u8to64_le c buf st n.
Proof.
  unfold l_u8to64_le, u8to64_le.
  rewrite erase_bind, erase_debug. apply bind_ext. intros _.
  rewrite erase_bind. cbn [branch snd bind]. rewrite erase_bind.
  replace (snd _) with (if 0 + 3 <? n then let* x := load_int_le c 4 buf (st + 0) in Ok (x, 4) else Ok (0, 0))
    by (destruct (_ <? _); [now rewrite erase_bind|reflexivity]).
  apply bind_ext. intros [out i].
  rewrite erase_bind. cbn [branch snd bind]. rewrite erase_bind.
  replace (snd _) with (if i + 1 <? n then
      let* x := load_int_le c 2 buf (st + i) in
      let* x := shl64 c x (i * 8) in
      Ok (N.lor out x, i + 2)
    else Ok (out, i))
    by (destruct (_ <? _); [rewrite erase_bind; apply bind_ext; intros x; now rewrite erase_bind|reflexivity]).
  apply bind_ext. clear. intros [out i].
  rewrite erase_bind. cbn [branch snd bind]. rewrite erase_bind.
  replace (snd _) with (if i <? n then
      let* b := get_unchecked buf (st + i) in
      let* x := shl64 c (b2n b) (i * 8) in
      Ok (N.lor out x, i + 1)
    else Ok (out, i))
    by (destruct (_ <? _); [rewrite erase_bind; cbn [tell snd bind]; rewrite erase_bind; apply bind_ext;
        intros x; now rewrite erase_bind|reflexivity]).
  apply bind_ext. clear. intros [out i].
  now rewrite erase_bind, erase_debug.
Qed.

Lemma erase_sip_loop fuel c data stop : forall i s,
  snd (l_sip_loop fuel c data stop i s) = sip_loop fuel c data stop i s.
Proof.
  induction fuel as [|f IH]; intros i s; cbn [l_sip_loop sip_loop]; rewrite erase_bind; cbn [branch snd bind];
    destruct (i <? stop); try reflexivity.
  rewrite erase_bind. apply bind_ext. intros m. rewrite erase_bind. cbn [tell snd bind].
  rewrite erase_bind. apply bind_ext. intros i'. apply IH.
Qed.

Lemma erase_sip_rest c data needed e : snd (l_sip_input_rest c data needed e) = sip_input_rest c data needed e.
Proof.
  unfold l_sip_input_rest, sip_input_rest.
  rewrite erase_bind. apply bind_ext. intros ln. rewrite erase_bind. apply bind_ext. intros stop.
  rewrite erase_bind, erase_sip_loop. apply bind_ext. intros [s i].
  now rewrite erase_bind, erase_u8to64.
Qed.

Lemma sip_faithful c : faithful (sip_leaky c).
Proof.
  split; [reflexivity|]. split; [|reflexivity].
  intros e data. cbn [sip_leaky lk_input siphash24_engine he_input]. unfold l_sip_input, sip_input.
  rewrite erase_bind. apply bind_ext. intros nl. rewrite erase_bind. cbn [branch snd bind].
  destruct (negb _); [|apply erase_sip_rest].
  rewrite erase_bind. apply bind_ext. intros needed. rewrite erase_bind. cbn [branch snd bind].
  rewrite min_branch, N.min_comm. rewrite erase_bind, erase_u8to64. apply bind_ext. intros x.
  rewrite erase_bind. apply bind_ext. clear x. intros x. rewrite erase_bind. cbn [branch snd bind].
  destruct (_ <? _).
  - now rewrite erase_bind.
  - rewrite erase_bind. cbn [tell snd bind]. apply erase_sip_rest.
Qed.

Lemma erase_xor_zip pad : forall i key, snd (l_xor_zip i pad key) = Ok (xor_zip pad key).
Proof.
  induction pad as [|p pad IH]; intros i [|k key]; try reflexivity.
  cbn [l_xor_zip xor_zip]. rewrite erase_bind. cbn [branch snd bind]. rewrite erase_bind. cbn [tell snd bind].
  rewrite erase_bind. cbn [tell snd bind]. rewrite erase_bind, IH. reflexivity.
Qed.

Lemma erase_hash E (L : leaky E) data : faithful L -> snd (l_hash L data) = he_hash E data.
Proof.
  intros (H1 & H2 & H3). unfold l_hash, he_hash. rewrite erase_bind, H1. apply bind_ext. intros s.
  rewrite erase_bind, H2. apply bind_ext. intros s'. apply H3.
Qed.

Lemma erase_hmac_new c E (L : leaky E) key : faithful L -> snd (l_hmac_new c L key) = hmac_new c E key.
Proof.
  intros H. pose proof H as (H1 & H2 & H3). unfold l_hmac_new, hmac_new.
  rewrite erase_bind, erase_debug. apply bind_ext. intros _.
  rewrite erase_bind, H1. apply bind_ext. intros ie. rewrite erase_bind, H1. apply bind_ext. intros oe.
  rewrite erase_bind. cbn [branch snd bind]. rewrite erase_bind.
  match goal with |- bind (snd ?x) _ = _ => replace (snd x) with (if he_block_size E <? len key then
      let* hash := he_hash E key in
      Ok (xor_zip (array x36 128) hash, xor_zip (array x5c 128) hash)
    else Ok (xor_zip (array x36 128) key, xor_zip (array x5c 128) key)) end.
  2:{ destruct (_ <? _).
      - rewrite erase_bind, (erase_hash _ _ _ H). apply bind_ext. intros h.
        rewrite erase_bind, erase_xor_zip. cbn [bind]. rewrite erase_bind, erase_xor_zip. reflexivity.
      - rewrite erase_bind, erase_xor_zip. cbn [bind]. rewrite erase_bind, erase_xor_zip. reflexivity. }
  apply bind_ext. intros [ip op].
  rewrite erase_bind. apply bind_ext. intros ib. rewrite erase_bind, H2. apply bind_ext. intros ie'.
  rewrite erase_bind. apply bind_ext. intros ob. rewrite erase_bind, H2. reflexivity.
Qed.

Lemma hmac_faithful c E (L : leaky E) : faithful L -> faithful (hmac_leaky c L).
Proof.
  intros H. pose proof H as (H1 & H2 & H3). split; [|split].
  - exact (erase_hmac_new c E L [] H).
  - intros s d. cbn [hmac_leaky lk_input]. rewrite erase_bind, H2. reflexivity.
  - intros s. cbn [hmac_leaky lk_finalize]. rewrite erase_bind, H3.
    cbn [hmac_engine he_finalize]. apply bind_ext. intros h. rewrite erase_bind, H2.
    apply bind_ext. intros o. apply H3.
Qed.

Lemma kind_faithful c k : faithful (kind_leaky c k).
Proof.
  induction k as [a| |tag|k IH].
  - apply algo_faithful.
  - apply sip_faithful.
  - apply tag_faithful.
  - now apply hmac_faithful.
Qed.

Lemma erase_l_inputs E (L : leaky E) chunks : faithful L -> forall s,
  snd (l_inputs L s chunks) = he_inputs E s chunks.
Proof.
  intros (_ & H & _). induction chunks as [|d l IH]; intros s; [reflexivity|].
  cbn [l_inputs he_inputs]. rewrite erase_bind, H. apply bind_ext. intros s'. apply IH.
Qed.

Lemma leak_erase c o chunks : returned (leak_run c o chunks) = digest_of c o chunks.
Proof.
  unfold returned, leak_run, digest_of. rewrite erase_bind.
  replace (snd (leak_start c o)) with (start c o).
  2:{ symmetry. destruct o as [k|k key|k0 k1]; cbn [leak_start start].
      - apply kind_faithful.
      - apply erase_hmac_new, kind_faithful.
      - reflexivity. }
  apply bind_ext. intros s. rewrite erase_bind, erase_l_inputs by apply kind_faithful.
  apply bind_ext. intros s'. apply kind_faithful.
Qed.

(** ** Two runs side by side *)

Definition res_rel {A} (R : A -> A -> Prop) (x y : res A) : Prop :=
  match x, y with Ok a, Ok b => R a b | Panic p, Panic q => p = q | _, _ => False end.
Definition same_leak {A} (R : A -> A -> Prop) (m m' : lk A) : Prop :=
  fst m = fst m' /\ res_rel R (snd m) (snd m').

Lemma sl_bind A B (R : A -> A -> Prop) (S : B -> B -> Prop) m m' f f' :
  same_leak R m m' -> (forall a a', R a a' -> same_leak S (f a) (f' a')) ->
  same_leak S (lbind m f) (lbind m' f').
Proof.
  destruct m as [t [a|p]], m' as [t' [a'|p']]; intros [Ht Hr] Hf; cbn [fst snd res_rel] in *; try contradiction.
  - destruct (Hf a a' Hr) as [H1 H2]. subst. unfold same_leak, lbind. cbn [fst snd]. now rewrite H1.
  - subst. now split.
Qed.

Lemma sl_ret A (R : A -> A -> Prop) a a' : R a a' -> same_leak R (lret a) (lret a').
Proof. now split. Qed.
Lemma sl_lift A (R : A -> A -> Prop) x x' : res_rel R x x' -> same_leak R (llift x) (llift x').
Proof. now split. Qed.
Lemma res_refl A (x : res A) : res_rel eq x x.
Proof. destruct x; reflexivity. Qed.
Lemma sl_lift_eq A (x x' : res A) : x = x' -> same_leak eq (llift x) (llift x').
Proof. intros ->. apply sl_lift, res_refl. Qed.
Lemma sl_refl A (m m' : lk A) : m = m' -> same_leak eq m m'.
Proof. intros ->. split; [reflexivity|apply res_refl]. Qed.
Lemma sl_refl_on A (R : A -> A -> Prop) (m : lk A) : (forall a, snd m = Ok a -> R a a) -> same_leak R m m.
Proof. intros H. split; [reflexivity|]. destruct m as [t [a|p]]; cbn [snd res_rel] in *; auto. Qed.

Ltac seq := eapply sl_bind; [apply sl_refl; congruence|intros ? ? <-].
Ltac seqt := eapply sl_bind; [apply sl_refl; reflexivity|intros ? ? _].

Definition same_len (x y : bytes) : Prop := length x = length y.
Lemma same_len_len x y : same_len x y -> len x = len y.
Proof. unfold same_len, len. congruence. Qed.

Lemma slice_to_rel n x y : same_len x y -> res_rel same_len (slice_to n x) (slice_to n y).
Proof.
  intros H. unfold slice_to. rewrite (same_len_len _ _ H). destruct (_ <=? _); [|reflexivity].
  cbn [res_rel]. unfold same_len in *. rewrite !firstn_length. congruence.
Qed.
Lemma slice_from_rel n x y : same_len x y -> res_rel same_len (slice_from n x) (slice_from n y).
Proof.
  intros H. unfold slice_from. rewrite (same_len_len _ _ H). destruct (_ <=? _); [|reflexivity].
  cbn [res_rel]. unfold same_len in *. rewrite !skipn_length. congruence.
Qed.
Definition both_len (n : nat) (x y : bytes) : Prop := length x = n /\ length y = n.
Lemma copy_range_rel n d d' i j s s' : both_len n d d' -> same_len s s' ->
  res_rel (both_len n) (copy_range d i j s) (copy_range d' i j s').
Proof.
  intros [H H'] Hs. unfold copy_range.
  assert (Hd : len d' = len d) by (unfold len; congruence). rewrite Hd, <- (same_len_len _ _ Hs).
  destruct ((i <=? j) && (j <=? len d)) eqn:E; [|reflexivity].
  destruct (N.eqb_spec (len s) (j - i)) as [El|]; [|reflexivity].
  apply andb_prop in E. destruct E as [E1 E2]. apply N.leb_le in E1, E2.
  cbn [res_rel]. pose proof (same_len_len _ _ Hs) as Hs'.
  unfold both_len, len in *. rewrite !app_length, !firstn_length, !skipn_length. lia.
Qed.

Section Buffered.
  Context (c : config) (a : algo).
  Notation A := (md_of a).
  Notation B := (N.of_nat (md_block A)).

  (** Same counter; both buffers are whole blocks and both states are words. *)
  Definition lo (e e' : engine) : Prop :=
    e_length e = e_length e' /\ both_len (md_block A) (e_buffer e) (e_buffer e') /\
    good_h A (e_h e) /\ good_h A (e_h e').

  Lemma block_rel e e' : lo e e' -> same_leak lo (l_block c a e) (l_block c a e').
  Proof.
    intros (Hl & [Hb Hb'] & Hh & Hh'). split; [now apply block_reveals|]. rewrite !erase_block.
    rewrite !block_fn_ok by assumption. cbn [res_rel]. unfold lo, both_len. cbn [e_length e_buffer e_h].
    repeat split; auto; apply (mo_compress _ (md_of_ok a)); assumption.
  Qed.

  Lemma step_rel e e' inp inp' : lo e e' -> same_len inp inp' ->
    same_leak (fun p q => lo (fst p) (fst q) /\ same_len (snd p) (snd q))
      (l_input_step c B (l_block c a) e inp) (l_input_step c B (l_block c a) e' inp').
  Proof.
    intros (Hl & Hb & Hh & Hh') Hi. unfold l_input_step. rewrite <- Hl, <- (same_len_len _ _ Hi).
    seq. seq. set (w := if _ : bool then _ else _). seq.
    eapply sl_bind; [apply sl_lift, slice_to_rel, Hi|intros s s' Hs].
    seqt. seqt.
    eapply sl_bind; [apply sl_lift, (copy_range_rel (md_block A)); [exact Hb|exact Hs]|intros b b' Hbb].
    eapply sl_bind; [apply sl_refl; congruence|intros n ? <-].
    eapply sl_bind; [apply sl_refl; congruence|intros full ? <-].
    eapply (sl_bind _ _ lo).
    - assert (lo (mk_engine b (e_h e) n) (mk_engine b' (e_h e') n)) by (unfold lo; cbn [e_length e_buffer e_h]; auto).
      destruct full; [now apply block_rel|now apply sl_ret].
    - intros e2 e2' He2. eapply sl_bind; [apply sl_lift, slice_from_rel, Hi|intros r r' Hr].
      apply sl_ret. now split.
  Qed.

  Lemma loop_rel fuel : forall e e' inp inp', lo e e' -> same_len inp inp' ->
    same_leak lo (l_input_loop fuel c B (l_block c a) e inp) (l_input_loop fuel c B (l_block c a) e' inp').
  Proof.
    induction fuel as [|f IH]; intros e e' [|b inp] [|b' inp'] He Hi; try discriminate Hi.
    - cbn [l_input_loop]. seqt. now apply sl_ret.
    - cbn [l_input_loop]. seqt. now apply sl_lift.
    - cbn [l_input_loop]. seqt. now apply sl_ret.
    - cbn [l_input_loop]. seqt.
      eapply sl_bind; [apply step_rel; [exact He|exact Hi]|].
      intros [e1 r1] [e2 r2] [He' Hr]. cbn [fst snd] in *. now apply IH.
  Qed.

  Lemma input_rel e e' inp inp' : lo e e' -> same_len inp inp' ->
    same_leak lo (l_engine_input c B (l_block c a) e inp) (l_engine_input c B (l_block c a) e' inp').
  Proof.
    intros He Hi. unfold l_engine_input. unfold same_len in Hi. rewrite Hi. now apply loop_rel.
  Qed.

  Lemma inputs_rel l : forall e e', lo e e' ->
    same_leak lo (l_engine_inputs c B (l_block c a) e l) (l_engine_inputs c B (l_block c a) e' l).
  Proof.
    induction l as [|d l IH]; intros e e' He; cbn [l_engine_inputs]; [now apply sl_ret|].
    eapply sl_bind; [apply input_rel; [exact He|reflexivity]|]. exact IH.
  Qed.

  Lemma pad_rel R t e e' : lo e e' ->
    same_leak lo (l_finalize_pad c B (l_block c a) R t e) (l_finalize_pad c B (l_block c a) R t e').
  Proof.
    intros He. unfold l_finalize_pad.
    eapply sl_bind; [apply input_rel; [exact He|reflexivity]|intros e1 e1' H1].
    destruct He as [Hl _]. rewrite <- Hl. destruct H1 as [Hl1 H1']. rewrite <- Hl1.
    assert (H1 : lo e1 e1') by now split.
    seq. eapply (sl_bind _ _ lo).
    { destruct a0; [apply input_rel; [exact H1|reflexivity]|now apply sl_ret]. }
    intros e2 e2' H2. destruct H2 as [Hl2 H2']. rewrite <- Hl2. assert (H2 : lo e2 e2') by now split.
    seq. seq. eapply sl_bind; [apply input_rel; [exact H2|reflexivity]|intros e3 e3' H3].
    destruct H3 as [Hl3 H3']. rewrite <- Hl3. assert (H3 : lo e3 e3') by now split.
    seq. seq. eapply sl_bind; [apply inputs_rel; exact H3|intros e4 e4' H4].
    destruct H4 as [Hl4 H4']. rewrite <- Hl4. assert (H4 : lo e4 e4') by now split.
    seq. now apply sl_ret.
  Qed.

  Lemma midstate_rel e e' : lo e e' -> res_rel same_len (algo_midstate a e) (algo_midstate a e').
  Proof.
    intros (_ & _ & Hh & Hh'). rewrite !algo_midstate_ok by assumption. cbn [res_rel]. unfold same_len.
    rewrite !md_words_length by apply (mo_word _ (md_of_ok a)). now rewrite (proj1 Hh), (proj1 Hh').
  Qed.

  Lemma l_midstate_rel e e' : lo e e' -> same_leak same_len (l_midstate a e) (l_midstate a e').
  Proof.
    intros H. pose proof (midstate_rel e e' H) as R. destruct H as (_ & _ & Hh & Hh').
    split; [|rewrite !erase_midstate; exact R].
    refine (ag_midstate a e e' _ _ _ _ _); [now rewrite (proj1 Hh), (proj1 Hh')| |];
      rewrite erase_midstate; now apply algo_midstate_ok.
  Qed.

  Lemma finalize_rel R t tr e e' : (forall x y, same_len x y -> same_leak same_len (tr x) (tr y)) ->
    lo e e' ->
    same_leak same_len (l_algo_finalize c a B R t tr e) (l_algo_finalize c a B R t tr e').
  Proof.
    intros Hc He. unfold l_algo_finalize.
    eapply sl_bind; [apply pad_rel; exact He|intros e1 e1' H1].
    eapply sl_bind; [apply l_midstate_rel; exact H1|exact Hc].
  Qed.
End Buffered.

Lemma cut_rel n x y : same_len x y -> same_leak same_len (l_cut n x) (l_cut n y).
Proof.
  intros H. unfold l_cut. eapply sl_bind; [apply sl_lift, slice_to_rel; exact H|]. intros u v R.
  seqt. seqt. apply sl_lift.
  unfold copy_from_slice. rewrite <- (same_len_len _ _ R). destruct (_ =? _); [exact R|reflexivity].
Qed.
Lemma lret_rel x y : same_len x y -> same_leak same_len (lret x) (lret y).
Proof. apply sl_ret. Qed.

(** A relation on states that runs preserve and that hides everything secret. *)
Record hiding {E} (L : leaky E) (R : he_state E -> he_state E -> Prop) : Prop := {
  hi_default : same_leak R (lk_default L) (lk_default L);
  hi_input : forall s s' d d', R s s' -> same_len d d' -> same_leak R (lk_input L s d) (lk_input L s' d');
  hi_finalize : forall s s', R s s' -> same_leak same_len (lk_finalize L s) (lk_finalize L s')
}.

Lemma start_lo a n : lo a (algo_start a (algo_iv a) n) (algo_start a (algo_iv a) n).
Proof.
  unfold lo, algo_start, both_len. cbn [e_length e_buffer e_h]. rewrite length_array.
  rewrite algo_iv_eq, Nat2N.id. pose proof (mo_iv _ (md_of_ok a)) as H. now split.
Qed.

Lemma algo_hiding c a : exists R, hiding (algo_leaky c a) R.
Proof.
  destruct a.
  1: exists (lo Sha1). 2: exists (lo Sha256). 3: exists (lo Sha384). 4: exists (lo Sha512).
  5: exists (lo Sha512_256). 6: exists (lo Ripemd160).
  all: split; cbn [algo_leaky lk_default lk_input lk_finalize algo_engine he_state].
  all: try (apply sl_lift; cbn; refine (start_lo _ 0)).
  - intros. now apply (input_rel c Sha1).
  - intros. apply (finalize_rel c Sha1); auto using lret_rel.
  - intros. now apply (input_rel c Sha256).
  - intros. apply (finalize_rel c Sha256); auto using lret_rel.
  - intros. now apply (input_rel c Sha384).
  - intros. apply (finalize_rel c Sha384); auto using cut_rel, lret_rel.
  - intros. now apply (input_rel c Sha512).
  - intros. apply (finalize_rel c Sha512); auto using lret_rel.
  - intros. now apply (input_rel c Sha512_256).
  - intros. apply (finalize_rel c Sha512_256); auto using cut_rel, lret_rel.
  - intros. now apply (input_rel c Ripemd160).
  - intros. apply (finalize_rel c Ripemd160); auto using lret_rel.
Qed.

(** SipHash: the counter and the number of bytes waiting are public. *)
Definition sip_lo (e e' : sip_engine) : Prop := sip_length e = sip_length e' /\ sip_ntail e = sip_ntail e'.

Definition any {A} (_ _ : A) : Prop := True.

Lemma load_rel c k buf buf' i : same_len buf buf' ->
  same_leak any (l_load_int_le c k buf i) (l_load_int_le c k buf' i).
Proof.
  intros H. unfold l_load_int_le. seqt. apply sl_lift. unfold load_int_le. rewrite (same_len_len _ _ H).
  unfold debug_assert, assert. destruct (debug_assertions c), (_ <=? _); reflexivity || exact I.
Qed.

Lemma shl_rel c x x' n : res_rel any (shl64 c x n) (shl64 c x' n).
Proof. unfold shl64. destruct (_ <? _); [exact I|]. destruct (overflow_checks c); [reflexivity|exact I]. Qed.

Lemma get_rel buf buf' i : same_len buf buf' -> res_rel any (get_unchecked buf i) (get_unchecked buf' i).
Proof.
  intros H. unfold get_unchecked. unfold same_len in H.
  destruct (nth_error buf (N.to_nat i)) eqn:E.
  - assert (N.to_nat i < length buf)%nat by (apply nth_error_Some; congruence).
    destruct (nth_error buf' (N.to_nat i)) eqn:E'; [exact I|]. apply nth_error_None in E'. lia.
  - apply nth_error_None in E. destruct (nth_error buf' (N.to_nat i)) eqn:E'; [|reflexivity].
    assert (N.to_nat i < length buf')%nat by (apply nth_error_Some; congruence). lia.
Qed.

Lemma u8to64_rel c buf buf' st n : same_len buf buf' ->
  same_leak any (l_u8to64_le c buf st n) (l_u8to64_le c buf' st n).
Proof.
  intros H. unfold l_u8to64_le. seqt. seq.
  eapply (sl_bind _ _ (fun p q => snd p = snd q)).
  { destruct a0; [|now apply sl_ret]. eapply sl_bind; [apply load_rel, H|intros x x' _]. now apply sl_ret. }
  intros [o i] [o' i'] Hi. cbn [snd] in Hi. subst i'. seq.
  eapply (sl_bind _ _ (fun p q => snd p = snd q)).
  { destruct a1; [|now apply sl_ret]. eapply sl_bind; [apply load_rel, H|intros x x' _].
    eapply sl_bind; [apply sl_lift, shl_rel|intros y y' _]. now apply sl_ret. }
  clear o o'. intros [o i2] [o' i2'] Hi. cbn [snd] in Hi. subst i2'. seq.
  eapply (sl_bind _ _ (fun p q => snd p = snd q)).
  { destruct a2; [|now apply sl_ret]. seqt. eapply sl_bind; [apply sl_lift, get_rel, H|intros x x' _].
    eapply sl_bind; [apply sl_lift, shl_rel|intros y y' _]. now apply sl_ret. }
  clear o o'. intros [o i3] [o' i3'] Hi. cbn [snd] in Hi. subst i3'. seqt. now apply sl_ret.
Qed.

Lemma sip_loop_rel fuel c data data' stop : same_len data data' -> forall i s s',
  same_leak (fun p q => snd p = snd q) (l_sip_loop fuel c data stop i s) (l_sip_loop fuel c data' stop i s').
Proof.
  intros H. induction fuel as [|f IH]; intros i s s'; cbn [l_sip_loop].
  - seq. destruct a; [now apply sl_lift|now apply sl_ret].
  - seq. destruct a; [|now apply sl_ret].
    eapply sl_bind; [apply load_rel, H|intros m m' _]. seqt. seq. apply IH.
Qed.

Lemma sip_rest_rel c data data' needed e e' : same_len data data' -> sip_length e = sip_length e' ->
  same_leak sip_lo (l_sip_input_rest c data needed e) (l_sip_input_rest c data' needed e').
Proof.
  intros H He. unfold l_sip_input_rest. rewrite <- (same_len_len _ _ H). pose proof H as H'. unfold same_len in H'.
  rewrite <- H'. seq. seq.
  eapply sl_bind; [apply sip_loop_rel, H|]. intros [s i] [s' i'] Hi. cbn [snd] in Hi. subst i'.
  eapply sl_bind; [apply u8to64_rel, H|intros t t' _]. apply sl_ret. now split.
Qed.

Lemma sip_hiding c : hiding (sip_leaky c) sip_lo.
Proof.
  split; cbn [sip_leaky lk_default lk_input lk_finalize siphash24_engine he_state].
  - now apply sl_ret.
  - intros e e' d d' [Hl Hn] Hd. unfold l_sip_input. rewrite <- Hl, <- Hn, <- (same_len_len _ _ Hd).
    seq. seq. destruct a0; [|apply sip_rest_rel; [exact Hd|reflexivity]].
    seq. seq. eapply sl_bind; [apply u8to64_rel, Hd|intros x x' _].
    eapply sl_bind; [apply sl_lift, shl_rel|intros y y' _]. seq. destruct a2.
    + seq. apply sl_ret. now split.
    + seqt. apply sip_rest_rel; [exact Hd|reflexivity].
  - intros e e' _. seqt. seqt. apply sl_ret. reflexivity.
Qed.

Lemma tag_lo c tag e : wf_config c -> len tag < 2 ^ (usize_bits c - 1) -> 8 * len tag < 2 ^ 64 ->
  tag_engine c tag = Ok e -> lo Sha256 e e.
Proof.
  intros WF Hl H8 He. destruct (slice_room c _ WF Hl) as [Ha _].
  unfold tag_engine in He. rewrite (hash_tag_ok c tag WF Ha H8) in He. cbn [bind] in He.
  set (mid := md_words _ _) in He.
  assert (Hm : length mid = 32%nat).
  { unfold mid. rewrite md_words_length by apply (mo_word _ (md_of_ok Sha256)).
    destruct (md_iterate_good _ _ (hash_of Sha256 tag ++ hash_of Sha256 tag) (md_of_ok Sha256)
                (mo_iv _ (md_of_ok Sha256))) as [-> _]. reflexivity. }
  pose proof (from_midstate_exact Sha256 mid 64 Hm) as E. cbn [algo_from_midstate] in E. rewrite He in E.
  change (64 mod N.of_nat (md_block (md_of Sha256)) =? 0) with true in E. cbn [ProofApi.resumable] in E.
  injection E as ->. pose proof (be_words_good Sha256 mid Hm eq_refl) as G.
  unfold lo, algo_start, both_len. cbn [e_length e_buffer e_h]. rewrite length_array, Nat2N.id. now split.
Qed.

Lemma tag_hiding c tag : wf_config c -> kind_real c (KTag tag) -> hiding (tag_leaky c tag) (lo Sha256).
Proof.
  intros WF [Hl H8]. split; cbn [tag_leaky lk_default lk_input lk_finalize sha256t_engine he_state].
  - apply sl_lift. destruct (tag_engine_ok c tag WF Hl H8) as (e & He & _). rewrite He. cbn [res_rel].
    exact (tag_lo c tag e WF Hl H8 He).
  - intros. now apply (input_rel c Sha256).
  - intros. apply (finalize_rel c Sha256); auto using lret_rel.
Qed.

(** HMAC *)
Definition hmac_lo {E} (R : he_state E -> he_state E -> Prop) (s s' : hmac_state E) : Prop :=
  R (iengine s) (iengine s') /\ R (oengine s) (oengine s').

Lemma xor_zip_rel pad : forall pad' i key key', same_len pad pad' -> same_len key key' ->
  same_leak same_len (l_xor_zip i pad key) (l_xor_zip i pad' key').
Proof.
  induction pad as [|p pad IH]; intros [|p' pad'] i [|k key] [|k' key'] Hp Hk; try discriminate Hp; try discriminate Hk;
    cbn [l_xor_zip].
  1-3: seqt; now apply sl_ret.
  seqt. seqt. seqt. injection Hp as Hp. injection Hk as Hk.
  eapply sl_bind; [apply IH; [exact Hp|exact Hk]|intros r r' Hr]. apply sl_ret. unfold same_len in *. cbn [length]. congruence.
Qed.

Section Hmac.
  Context (c : config) {E : HashEngine} (L : leaky E) (R : he_state E -> he_state E -> Prop) (HL : hiding L R).

  Lemma hash_rel d d' : same_len d d' -> same_leak same_len (l_hash L d) (l_hash L d').
  Proof.
    intros H. unfold l_hash. eapply sl_bind; [apply (hi_default _ _ HL)|intros s s' Hs].
    eapply sl_bind; [apply (hi_input _ _ HL); [exact Hs|exact H]|intros t t' Ht]. now apply (hi_finalize _ _ HL).
  Qed.

  Lemma hmac_new_rel key key' : same_len key key' ->
    same_leak (hmac_lo R) (l_hmac_new c L key) (l_hmac_new c L key').
  Proof.
    intros H. unfold l_hmac_new. rewrite <- (same_len_len _ _ H). seqt.
    eapply sl_bind; [apply (hi_default _ _ HL)|intros ie ie' Hi].
    eapply sl_bind; [apply (hi_default _ _ HL)|intros oe oe' Ho]. seq.
    eapply (sl_bind _ _ (fun p q => same_len (fst p) (fst q) /\ same_len (snd p) (snd q))).
    { destruct a0.
      - eapply sl_bind; [apply hash_rel, H|intros h h' Hh].
        eapply sl_bind; [apply xor_zip_rel; [reflexivity|exact Hh]|intros i i' Hx].
        eapply sl_bind; [apply xor_zip_rel; [reflexivity|exact Hh]|intros o o' Hy]. now apply sl_ret.
      - eapply sl_bind; [apply xor_zip_rel; [reflexivity|exact H]|intros i i' Hx].
        eapply sl_bind; [apply xor_zip_rel; [reflexivity|exact H]|intros o o' Hy]. now apply sl_ret. }
    intros [ip op] [ip' op'] [Hip Hop]. cbn [fst snd] in *.
    eapply sl_bind; [apply sl_lift, slice_to_rel, Hip|intros ib ib' Hib].
    eapply sl_bind; [apply (hi_input _ _ HL); [exact Hi|exact Hib]|intros ie2 ie2' Hi2].
    eapply sl_bind; [apply sl_lift, slice_to_rel, Hop|intros ob ob' Hob].
    eapply sl_bind; [apply (hi_input _ _ HL); [exact Ho|exact Hob]|intros oe2 oe2' Ho2].
    apply sl_ret. now split.
  Qed.

  Lemma hmac_hiding : hiding (hmac_leaky c L) (hmac_lo R).
  Proof.
    split; cbn [hmac_leaky lk_default lk_input lk_finalize].
    - now apply hmac_new_rel.
    - intros s s' d d' [Hi Ho] Hd. eapply sl_bind; [apply (hi_input _ _ HL); [exact Hi|exact Hd]|intros t t' Ht].
      apply sl_ret. now split.
    - intros s s' [Hi Ho]. eapply sl_bind; [apply (hi_finalize _ _ HL), Hi|intros h h' Hh].
      eapply sl_bind; [apply (hi_input _ _ HL); [exact Ho|exact Hh]|intros t t' Ht].
      now apply (hi_finalize _ _ HL).
  Qed.

  Lemma inputs_hiding chunks : forall chunks' s s', R s s' -> map (@length byte) chunks = map (@length byte) chunks' ->
    same_leak R (l_inputs L s chunks) (l_inputs L s' chunks').
  Proof.
    induction chunks as [|d l IH]; intros [|d' l'] s s' Hs Hc; try discriminate Hc; cbn [l_inputs]; [now apply sl_ret|].
    injection Hc as Hd Hc. eapply sl_bind; [apply (hi_input _ _ HL); [exact Hs|exact Hd]|intros t t' Ht]. now apply IH.
  Qed.
End Hmac.

Lemma kind_hiding c k : wf_config c -> kind_real c k -> exists R, hiding (kind_leaky c k) R.
Proof.
  intros WF. induction k as [a| |tag|k IH]; intros Hk.
  - apply algo_hiding.
  - exists sip_lo. apply sip_hiding.
  - exists (lo Sha256). now apply tag_hiding.
  - destruct (IH Hk) as [R HR]. exists (hmac_lo R). now apply hmac_hiding.
Qed.

Lemma run_hiding E (L : leaky E) R m m' chunks chunks' : hiding L R -> same_leak R m m' ->
  map (@length byte) chunks = map (@length byte) chunks' ->
  same_leak same_len (let! s := m in let! s := l_inputs L s chunks in lk_finalize L s)
    (let! s := m' in let! s := l_inputs L s chunks' in lk_finalize L s).
Proof.
  intros H Hm Hc. eapply sl_bind; [exact Hm|intros s s' Hs].
  eapply sl_bind; [apply inputs_hiding; [exact H|exact Hs|exact Hc]|intros t t' Ht]. now apply (hi_finalize _ _ H).
Qed.

Lemma leak_lengths c o o' chunks chunks' : wf_config c -> origin_real c o ->
  same_public o o' -> map (@length byte) chunks = map (@length byte) chunks' ->
  revealed (leak_run c o chunks) = revealed (leak_run c o' chunks') /\
  same_shape (returned (leak_run c o chunks)) (returned (leak_run c o' chunks')).
Proof.
  intros WF Ho Hp Hc. change (same_leak same_len (leak_run c o chunks) (leak_run c o' chunks')).
  destruct o as [k|k key|k0 k1], o' as [k'|k' key'|k0' k1']; cbn [same_public] in Hp; try contradiction;
    cbn [origin_real] in Ho.
  - subst k'. destruct (kind_hiding c k WF Ho) as [R HR].
    apply (run_hiding _ (kind_leaky c k) R); [exact HR|apply (hi_default _ _ HR)|exact Hc].
  - destruct Hp as [<- Hk]. destruct (kind_hiding c k WF (proj1 Ho)) as [R HR].
    apply (run_hiding _ (hmac_leaky c (kind_leaky c k)) (hmac_lo R));
      [now apply hmac_hiding|now apply hmac_new_rel|exact Hc].
  - apply (run_hiding _ (sip_leaky c) sip_lo); [apply sip_hiding| |exact Hc]. now apply sl_ret.
Qed.
