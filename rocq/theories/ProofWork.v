(** The number of calls of the compression functions (C68). *)
From Coq Require Import Lia.
From Verif Require Import Base SpecBase SpecMD ModelEngine ModelSha256 ModelSip ModelHmac ModelAll ModelStore
  SpecStore SpecMore ModelLeak SpecLeak ProofBase ProofMD ProofApi ProofHash ProofMac ProofHmac ProofLeakBlock ProofLeak ProofStore ProofExact.
Open Scope N_scope.

(** A computation that, if it succeeds, makes [w] calls and ends in [Q]. *)
Definition costs {A} (m : lk A) (w : N) (Q : A -> Prop) : Prop :=
  match snd m with Ok a => call_count (fst m) = w /\ Q a | Panic _ => True end.

Lemma call_count_app t u : call_count (t ++ u) = call_count t + call_count u.
Proof. unfold call_count, len. rewrite filter_app, app_length. lia. Qed.

Lemma co_bind A B (m : lk A) (f : A -> lk B) w1 w2 R Q :
  costs m w1 R -> (forall a, R a -> costs (f a) w2 Q) -> costs (lbind m f) (w1 + w2) Q.
Proof.
  destruct m as [t [a|p]]; unfold costs; cbn [fst snd lbind]; [|trivial].
  intros [Ht Ha] H. specialize (H a Ha). destruct (snd (f a)); [|exact I].
  destruct H as [H1 H2]. split; [|exact H2]. rewrite call_count_app. congruence.
Qed.
Lemma co_free A B (m : lk A) (f : A -> lk B) w R Q :
  costs m 0 R -> (forall a, R a -> costs (f a) w Q) -> costs (lbind m f) w Q.
Proof. intros H1 H2. exact (co_bind _ _ m f 0 w R Q H1 H2). Qed.
Lemma co_last A B (m : lk A) (f : A -> lk B) w R Q :
  costs m w R -> (forall a, R a -> costs (f a) 0 Q) -> costs (lbind m f) w Q.
Proof. intros H1 H2. rewrite <- (N.add_0_r w). exact (co_bind _ _ m f w 0 R Q H1 H2). Qed.
Lemma co_ret A (a : A) (Q : A -> Prop) : Q a -> costs (lret a) 0 Q.
Proof. intros H. now split. Qed.
Lemma co_lift A (x : res A) (Q : A -> Prop) : (forall a, x = Ok a -> Q a) -> costs (llift x) 0 Q.
Proof. intros H. unfold costs, llift. cbn [snd fst]. destruct x; [split; auto|exact I]. Qed.
Lemma co_branch b : costs (branch b) 0 (eq b).
Proof. now split. Qed.
Lemma co_tell l : costs (tell l) (if is_call l then 1 else 0) (fun _ => True).
Proof. destruct l; now split. Qed.
Lemma co_debug c b : costs (l_debug_assert c b) 0 (fun _ => True).
Proof.
  unfold l_debug_assert. destruct (debug_assertions c); [|now apply co_ret].
  apply (co_free _ _ _ _ _ _ _ (co_branch b)). intros. now apply co_lift.
Qed.
Lemma co_weaken A (m : lk A) w w' (Q Q' : A -> Prop) : costs m w Q -> w = w' -> (forall a, Q a -> Q' a) ->
  costs m w' Q'.
Proof. unfold costs. destruct (snd m); [|trivial]. intros [H1 H2] <- H. auto. Qed.
Lemma co_and A (m : lk A) w (Q Q' : A -> Prop) : costs m w Q -> (forall a, snd m = Ok a -> Q' a) ->
  costs m w (fun a => Q a /\ Q' a).
Proof. unfold costs. destruct (snd m); [|trivial]. intros [H1 H2] H. auto. Qed.

(** ** Computations without calls *)

(** No event is a call, whether or not the run succeeds. *)
Definition quiet {A} (m : lk A) : Prop := call_count (fst m) = 0.
Lemma qu_bind A B (m : lk A) (f : A -> lk B) : quiet m -> (forall a, quiet (f a)) -> quiet (lbind m f).
Proof.
  destruct m as [t [a|p]]; unfold quiet; cbn [lbind fst]; intros H1 H2; [|exact H1].
  rewrite call_count_app, H1, (H2 a). reflexivity.
Qed.
Lemma qu_lift A (x : res A) : quiet (llift x).
Proof. reflexivity. Qed.
Lemma qu_tells l : call_count l = 0 -> quiet (tells l).
Proof. exact (fun H => H). Qed.
Lemma qu_debug c b : quiet (l_debug_assert c b).
Proof. unfold l_debug_assert. destruct (debug_assertions c); [destruct b; reflexivity|reflexivity]. Qed.
Lemma qu_costs A (m : lk A) (Q : A -> Prop) : quiet m -> (forall a, snd m = Ok a -> Q a) -> costs m 0 Q.
Proof. unfold quiet, costs. intros H1 H2. destruct (snd m); auto. Qed.

Lemma qu_zip_words k conv dst : forall i src, quiet (l_zip_words i k dst src conv).
Proof.
  induction dst as [|d dst IH]; intros i [|s src]; try reflexivity. cbn [l_zip_words].
  do 4 (apply qu_bind; [reflexivity|intros ?]). apply qu_bind; [apply IH|reflexivity].
Qed.
Lemma qu_rows c F rows : forall s, quiet (l_run_rows c F rows s).
Proof.
  induction rows as [|r rows IH]; intros s; [reflexivity|]. cbn [l_run_rows]. apply qu_bind; [|intros; apply IH].
  unfold quiet, tells, row_leak. cbn [fst]. destruct (ModelSha2Round.rr_later r) as [[[? ?] ?]|]; [|reflexivity].
  destruct (small_hash c); reflexivity.
Qed.
Lemma qu_program mask p : forall s, quiet (l_run_program mask p s).
Proof.
  induction p as [|i p IH]; intros s; [reflexivity|]. cbn [l_run_program]. apply qu_bind; [destruct i; reflexivity|].
  intros _. apply qu_bind; [reflexivity|exact IH].
Qed.
Lemma qu_line c A fn k data rows : forall v, quiet (l_run_line c A fn k data rows v).
Proof.
  induction rows as [|r rows IH]; intros v; [reflexivity|]. cbn [l_run_line]. apply qu_bind; [|intros; apply IH].
  unfold quiet, tells, rip_row_leak. cbn [fst]. destruct (small_hash c); reflexivity.
Qed.
Lemma qu_for S n (body : N -> S -> lk S) : (forall i s, quiet (body i s)) -> forall i s, quiet (l_for_loop n i body s).
Proof.
  intros H. induction n as [|n IH]; intros i s; [reflexivity|]. cbn [l_for_loop]. apply qu_bind; [reflexivity|intros _].
  apply qu_bind; [apply H|]. intros. apply IH.
Qed.
Lemma qu_f_k i b c d : quiet (l_sha1_f_k i b c d).
Proof.
  unfold l_sha1_f_k. repeat (apply qu_bind; [reflexivity|intros []; [reflexivity|]]). reflexivity.
Qed.
Lemma qu_rounds ws : forall i s, quiet (l_sha1_rounds i ws s).
Proof.
  induction ws as [|w ws IH]; intros i [[[[a b] c] d] e]; [reflexivity|]. cbn [l_sha1_rounds].
  do 2 (apply qu_bind; [reflexivity|intros _]). apply qu_bind; [apply qu_f_k|]. intros [f k]. apply IH.
Qed.
Lemma qu_body c a e : quiet (l_block_body c a e).
Proof.
  assert (SW : quiet (l_software_block c e)).
  { unfold l_software_block. apply qu_bind; [apply qu_debug|intros _]. apply qu_bind; [apply qu_zip_words|intros w].
    apply qu_bind; [reflexivity|intros _]. apply qu_bind; [apply qu_rows|intros [v ?]]. reflexivity. }
  assert (S512 : quiet (l_sha512_block c e)).
  { unfold l_sha512_block. apply qu_bind; [apply qu_debug|intros _]. apply qu_bind; [apply qu_zip_words|intros w].
    apply qu_bind; [reflexivity|intros _]. apply qu_bind; [apply qu_rows|intros [v ?]]. reflexivity. }
  destruct a; cbn [l_block_body]; auto.
  - unfold l_sha1_block. apply qu_bind; [apply qu_debug|intros _]. apply qu_bind; [apply qu_zip_words|intros w].
    apply qu_bind; [apply qu_for; intros; repeat (apply qu_bind; [reflexivity|intros ?]); reflexivity|intros x].
    do 5 (apply qu_bind; [reflexivity|intros ?]). apply qu_bind; [apply qu_rounds|]. intros [[[[? ?] ?] ?] ?]. reflexivity.
  - unfold l_sha256_block. apply qu_bind; [reflexivity|intros []; [|exact SW]].
    apply qu_bind; [apply qu_program|]. reflexivity.
  - unfold l_ripemd_block. apply qu_bind; [apply qu_debug|intros _]. apply qu_bind; [apply qu_zip_words|intros w].
    do 2 (apply qu_bind; [reflexivity|intros ?]). do 2 (apply qu_bind; [apply qu_line|intros ?]). reflexivity.
Qed.
Lemma qu_zip_copy k vals : forall i ret, quiet (l_zip_copy i vals k ret).
Proof.
  induction vals as [|v vals IH]; intros i ret; [reflexivity|]. cbn [l_zip_copy].
  apply qu_bind; [reflexivity|intros []; [reflexivity|]]. do 3 (apply qu_bind; [reflexivity|intros ?]).
  apply qu_bind; [apply IH|reflexivity].
Qed.
Lemma qu_midstate a e : quiet (l_midstate a e).
Proof. destruct a; apply qu_zip_copy. Qed.

(** ** Arithmetic *)

Lemma div_step B p n : p < B ->
  (if B <=? p + n then 1 else 0) + ((p + N.min (B - p) n) mod B + (n - N.min (B - p) n)) / B = (p + n) / B.
Proof.
  intros Hp. destruct (N.leb_spec B (p + n)) as [H'|H'].
  - replace (p + N.min (B - p) n) with B by lia. rewrite N.mod_same by lia.
    replace (N.min (B - p) n) with (B - p) by lia.
    replace (p + n) with (n - (B - p) + 1 * B) by lia. rewrite N.div_add by lia. rewrite N.add_0_l. apply N.add_comm.
  - replace (N.min (B - p) n) with n by lia. rewrite (N.mod_small (p + n)) by lia.
    replace (p + n + (n - n)) with (p + n) by lia. reflexivity.
Qed.
Lemma min_full B p n : p < B -> B <= p + n -> p + N.min (B - p) n = B.
Proof. lia. Qed.
Lemma min_part B p n : p + n < B -> N.min (B - p) n = n.
Proof. lia. Qed.
Lemma min_rest B p n : p + N.min (B - p) n + (n - N.min (B - p) n) = p + n.
Proof. lia. Qed.
Lemma div_diff B n m : 0 < B -> (n mod B + m) / B = (n + m) / B - n / B.
Proof.
  intros HB. pose proof (N.div_mod n B ltac:(lia)) as E.
  assert (n + m = n mod B + m + n / B * B) as -> by lia.
  rewrite N.div_add by lia. now rewrite N.add_sub.
Qed.
Lemma div_chain B n m k : 0 < B -> (n + m) / B - n / B + ((n + m + k) / B - (n + m) / B) = (n + (m + k)) / B - n / B.
Proof.
  intros HB. rewrite N.add_assoc.
  assert (n / B <= (n + m) / B) by (apply N.div_le_mono; lia).
  assert ((n + m) / B <= (n + m + k) / B) by (apply N.div_le_mono; lia). lia.
Qed.

Lemma fin_short B F n : F + 1 <= B -> 0 < F -> (n + 1) mod B <= B - F ->
  (n + 1) / B - n / B + 1 = (n + F + B) / B - n / B.
Proof.
  intros HF HF0 Hr. pose proof (N.div_mod (n + 1) B ltac:(lia)) as E.
  assert (Hq : n / B <= (n + 1) / B) by (apply N.div_le_mono; lia).
  assert ((n + F + B) / B = (n + 1) / B + 1) as ->.
  - symmetry. apply N.div_unique with (r := (n + 1) mod B + F - 1);
      set (q := (n + 1) / B) in *; set (r := (n + 1) mod B) in *; clearbody q r; clear Hq; lia.
  - revert Hq. generalize (n / B), ((n + 1) / B). clear. lia.
Qed.
Lemma fin_long B F n : 3 * F < B -> 0 < F -> B - F < (n + 1) mod B ->
  (n + 1 + (B - F)) mod B = (n + 1) mod B - F /\
  (n + 1) / B - n / B + ((n + 1 + (B - F)) / B - (n + 1) / B + 1) = (n + F + B) / B - n / B.
Proof.
  intros HF HF0 Hr. pose proof (N.div_mod (n + 1) B ltac:(lia)) as E.
  pose proof (N.mod_lt (n + 1) B ltac:(lia)) as Hlt.
  assert (Hq : n / B <= (n + 1) / B) by (apply N.div_le_mono; lia).
  assert (E2 : (n + 1 + (B - F)) / B = (n + 1) / B + 1).
  { symmetry. apply N.div_unique with (r := (n + 1) mod B - F);
      set (q := (n + 1) / B) in *; set (r := (n + 1) mod B) in *; clearbody q r; clear Hq; lia. }
  split.
  - symmetry. apply N.mod_unique with (q := (n + 1) / B + 1);
      set (q := (n + 1) / B) in *; set (r := (n + 1) mod B) in *; clearbody q r; clear Hq E2; lia.
  - rewrite E2. assert ((n + F + B) / B = (n + 1) / B + 2) as ->.
    + symmetry. apply N.div_unique with (r := (n + 1) mod B + F - 1 - B);
        set (q := (n + 1) / B) in *; set (r := (n + 1) mod B) in *; clearbody q r; clear Hq E2; lia.
    + revert Hq. generalize (n / B), ((n + 1) / B). clear. lia.
Qed.
Lemma last_block B F n : F <= B -> 0 < B -> n mod B <= B - F ->
  (n + (B - F - n mod B)) / B - n / B + ((n + (B - F - n mod B) + F) / B - (n + (B - F - n mod B)) / B) = 1.
Proof.
  intros HF HB Hr. rewrite div_chain by exact HB.
  pose proof (N.div_mod n B ltac:(lia)) as E.
  replace (n + (B - F - n mod B + F)) with (0 + (n / B + 1) * B) by lia.
  rewrite N.div_add by lia. rewrite N.div_0_l by lia. lia.
Qed.

(** ** The engines with a buffer *)

Section Buffered.
  Context (c : config) (a : algo) (WF : wf_config c).
  Notation A := (md_of a).
  Notation B := (N.of_nat (md_block A)).
  Notation F := (N.of_nat (md_field A)).
  Notation M := (2 ^ usize_bits c).

  Lemma B_pos : 0 < B.
  Proof. destruct (mo_block A (md_of_ok a)) as [-> | ->]; reflexivity. Qed.
  Lemma B_le : B <= 128.
  Proof. destruct (mo_block A (md_of_ok a)) as [-> | ->]; lia. Qed.
  Lemma M_B x : (x mod M) mod B = x mod B.
  Proof.
    assert (HM : exists k, k <> 0 /\ M = B * k).
    { destruct (mo_block A (md_of_ok a)) as [-> | ->]; destruct WF as [-> |[-> | ->]].
      - exists (2 ^ 10). now split.
      - exists (2 ^ 26). now split.
      - exists (2 ^ 58). now split.
      - exists (2 ^ 9). now split.
      - exists (2 ^ 25). now split.
      - exists (2 ^ 57). now split. }
    destruct HM as (k & Hk & ->). pose proof B_pos.
    rewrite N.mod_mul_r by lia.
    rewrite N.add_mod by lia. rewrite N.mod_mod by lia.
    rewrite (N.mul_comm B), N.mod_mul by lia. rewrite N.add_0_r. apply N.mod_mod. lia.
  Qed.

  Definition pos (e : engine) : N := e_length e mod B.
  Definition at_pos (p : N) (e : engine) : Prop := lo a e e /\ pos e = p mod B.

  Lemma usize_add_mod x y z : usize_add c x y = Ok z -> z mod B = (x + y) mod B.
  Proof.
    unfold usize_add, checked_add. destruct (x + y <? M); [now intros [= <-]|].
    destruct (overflow_checks c); [discriminate|]. intros [= <-]. apply M_B.
  Qed.
  Lemma usize_sub_ok x y : y <= x -> usize_sub c x y = Ok (x - y).
  Proof. intros H. unfold usize_sub, checked_sub. apply N.leb_le in H. now rewrite H. Qed.

  Lemma self_rel X (R : X -> X -> Prop) (m : lk X) x : same_leak R m m -> snd m = Ok x -> R x x.
  Proof. intros [_ H] E. now rewrite E in H. Qed.

  Lemma co_block e : lo a e e -> costs (l_block c a e) 1 (fun e' => lo a e' e' /\ e_length e' = e_length e).
  Proof.
    intros (Hl & [Hb Hb'] & Hh & Hh'). unfold l_block.
    apply (co_last _ _ _ _ 1 (fun _ => True)); [apply (co_tell LBlock)|]. intros _ _.
    apply qu_costs; [apply qu_body|]. intros e' E. rewrite erase_body in E. split.
    - refine (self_rel _ (lo a) (l_block c a e) e' (block_rel c a e e (conj Hl (conj (conj Hb Hb') (conj Hh Hh')))) _).
      now rewrite erase_block.
    - rewrite block_fn_ok in E by assumption. now injection E as <-.
  Qed.

  Ltac free_tell := apply (co_free _ _ _ _ _ (fun _ => True)); [apply co_tell|intros _ _].

  Lemma slice_from_len (n : N) (x y : bytes) : slice_from n x = Ok y -> len y = len x - n.
  Proof.
    unfold slice_from. destruct (N.leb_spec n (len x)); [|discriminate]. intros [= <-].
    unfold len in *. rewrite skipn_length. lia.
  Qed.

  Lemma co_step e inp p : p < B -> 0 < len inp -> at_pos p e ->
    costs (l_input_step c B (l_block c a) e inp) (if B <=? p + len inp then 1 else 0)
      (fun q => at_pos (p + N.min (B - p) (len inp)) (fst q) /\ len (snd q) = len inp - N.min (B - p) (len inp)).
  Proof.
    intros Hp Hn0 [He Hpos]. unfold pos in Hpos. rewrite (N.mod_small p) in Hpos by exact Hp.
    apply co_weaken with (w := if B <=? p + len inp then 1 else 0) (Q := fun q =>
       (pos (fst q) = (p + N.min (B - p) (len inp)) mod B /\ len (snd q) = len inp - N.min (B - p) (len inp)) /\
       lo a (fst q) (fst q)); [|reflexivity|unfold at_pos; tauto].
    apply co_and.
    2:{ intros q E. apply (self_rel _ _ _ q (step_rel c a e e inp inp He eq_refl) E). }
    unfold l_input_step. rewrite Hpos.
    rewrite usize_sub_ok by lia.
    apply (co_free _ _ _ _ _ (eq (B - p))); [now apply co_ret|intros _ <-].
    apply (co_free _ _ _ _ _ _ _ (co_branch _)). intros _ <-. rewrite min_branch.
    set (w := N.min (B - p) (len inp)).
    apply (co_free _ _ _ _ _ (fun _ => True)); [now apply co_lift|intros hi _].
    apply (co_free _ _ _ _ _ (fun s => slice_to w inp = Ok s)); [now apply co_lift|intros src Hs].
    free_tell. free_tell.
    apply (co_free _ _ _ _ _ (fun b => copy_range (e_buffer e) p hi src = Ok b)); [now apply co_lift|intros buf Hb].
    apply (co_free _ _ _ _ _ (fun n => usize_add c (e_length e) w = Ok n)); [now apply co_lift|intros n Hn].
    assert (Hm : n mod B = (p + w) mod B).
    { rewrite (usize_add_mod _ _ _ Hn). rewrite <- Hpos. pose proof B_pos. rewrite N.add_mod_idemp_l by lia. reflexivity. }
    apply (co_free _ _ _ _ _ _ _ (co_branch _)). intros _ <-. rewrite Hm.
    assert (Hlo : lo a (mk_engine buf (e_h e) n) (mk_engine buf (e_h e) n)).
    { destruct He as (_ & [Hbl _] & Hh & _). unfold lo, both_len. cbn [e_length e_buffer e_h].
      pose proof (copy_range_rel (md_block A) (e_buffer e) (e_buffer e) p hi src src (conj Hbl Hbl) eq_refl) as HR.
      rewrite Hb in HR. exact (conj eq_refl (conj HR (conj Hh Hh))). }
    apply (co_last _ _ _ _ _ (fun e' => e_length e' = n)).
    - destruct (N.leb_spec B (p + len inp)) as [Hfull|Hfull].
      + replace (p + w) with B by (symmetry; now apply min_full). rewrite N.mod_same by (pose proof B_pos as HB; intros HB'; now rewrite HB' in HB). cbn [N.eqb].
        eapply co_weaken; [apply (co_block _ Hlo)|reflexivity|]. now intros e' [_ H].
      + replace w with (len inp) by (symmetry; now apply min_part). rewrite N.mod_small by exact Hfull.
        destruct (N.eqb_spec (p + len inp) 0) as [Hz|Hz]; [|now apply co_ret].
        apply N.eq_add_0 in Hz. destruct Hz as [_ Hz]. now rewrite Hz in Hn0.
    - intros e' He'. apply (co_free _ _ _ _ _ (fun r => slice_from w inp = Ok r)); [now apply co_lift|intros r Hr].
      apply co_ret. cbn [fst snd]. unfold pos. rewrite He'. split; [exact Hm|]. exact (slice_from_len _ _ _ Hr).
  Qed.

  Lemma at_pos_mod p e : at_pos (p mod B) e <-> at_pos p e.
  Proof. unfold at_pos. pose proof B_pos. rewrite N.mod_mod by lia. reflexivity. Qed.

  Lemma co_loop fuel : forall e inp p, p < B -> at_pos p e ->
    costs (l_input_loop fuel c B (l_block c a) e inp) ((p + len inp) / B) (at_pos (p + len inp)).
  Proof.
    pose proof B_pos as HB.
    assert (H0 : forall e p, p < B -> at_pos p e -> costs (let! _ := branch false in lret e) ((p + 0) / B) (at_pos (p + 0))).
    { intros e p Hp He. rewrite N.add_0_r, N.div_small by exact Hp. apply (co_free _ _ _ _ _ _ _ (co_branch _)).
      intros _ _. now apply co_ret. }
    induction fuel as [|f IH]; intros e [|b inp] p Hp He.
    - now apply H0.
    - cbn [l_input_loop]. exact I.
    - now apply H0.
    - cbn [l_input_loop]. apply (co_free _ _ _ _ _ _ _ (co_branch _)). intros _ _.
      set (i := b :: inp) in *. assert (Hi : 0 < len i) by (unfold len, i; cbn [length]; lia).
      rewrite <- (div_step B p (len i) Hp).
      eapply co_bind; [apply (co_step e i p Hp Hi He)|].
      intros [e' r] [He' Hr]. cbn [fst snd] in *.
      apply at_pos_mod in He'.
      eapply co_weaken; [apply (IH e' r _ (N.mod_lt _ _ (N.neq_sym _ _ (N.lt_neq _ _ HB))) He')| |].
      + now rewrite Hr.
      + intros e2. rewrite Hr. rewrite <- at_pos_mod. rewrite <- (at_pos_mod (p + len i)).
        rewrite N.add_mod_idemp_l by lia.
        rewrite min_rest. trivial.
  Qed.

  Lemma co_input e inp n : at_pos n e ->
    costs (l_engine_input c B (l_block c a) e inp) ((n + len inp) / B - n / B) (at_pos (n + len inp)).
  Proof.
    intros He. pose proof B_pos as HB. unfold l_engine_input.
    assert (HnB : n mod B < B) by (apply N.mod_lt; lia).
    eapply co_weaken; [apply (co_loop (length inp) e inp (n mod B) HnB), at_pos_mod, He| |].
    - now apply div_diff.
    - intros e'. rewrite <- at_pos_mod, N.add_mod_idemp_l by lia. now rewrite at_pos_mod.
  Qed.

  Lemma co_inputs l : forall e n, at_pos n e ->
    costs (l_engine_inputs c B (l_block c a) e l) ((n + len (List.concat l)) / B - n / B) (at_pos (n + len (List.concat l))).
  Proof.
    pose proof B_pos as HB.
    induction l as [|d l IH]; intros e n He; cbn [l_engine_inputs List.concat].
    - unfold len. cbn [length]. rewrite N.add_0_r, N.sub_diag. now apply co_ret.
    - replace (len (d ++ List.concat l)) with (len d + len (List.concat l)) by (unfold len; rewrite app_length; lia).
      eapply co_weaken; [eapply co_bind; [apply (co_input e d n He)|intros e' He'; apply (IH e' _ He')]| |].
      + now apply div_chain.
      + intros e'. now rewrite N.add_assoc.
  Qed.

  Lemma F_bounds : 3 * F < B /\ 0 < F.
  Proof. destruct a; cbn [md_of md_block md_field]; split; reflexivity. Qed.

  Lemma len_array (n : N) (b : byte) : len (array b n) = n.
  Proof. unfold len. rewrite length_array. lia. Qed.

  Lemma slice_to_len (n : N) (x y : bytes) : slice_to n x = Ok y -> len y = n.
  Proof.
    unfold slice_to. destruct (N.leb_spec n (len x)); [|discriminate]. intros [= <-].
    unfold len in *. rewrite firstn_length. lia.
  Qed.

  Lemma co_tail_block data_len e n : at_pos n e -> n mod B <= B - F ->
    costs
     (let! pad_length := llift (usize_sub c (len (array x00 (B - F))) (e_length e mod B)) in
      let! pad := llift (slice_to pad_length (array x00 (B - F))) in
      let! e := l_engine_input c B (l_block c a) e pad in
      let! _ := l_debug_assert c (e_length e mod B =? len (array x00 (B - F))) in
      let! bits := llift (checked_mul c 64 8 data_len) in
      let! e := l_engine_inputs c B (l_block c a) e (algo_tail a bits) in
      let! _ := l_debug_assert c (e_length e mod B =? 0) in
      lret e) 1 (fun e => lo a e e).
  Proof.
    intros He Hn. destruct F_bounds as [HF HF0]. pose proof B_pos as HB. rewrite len_array.
    pose proof He as [_ Hp]. unfold pos in Hp. rewrite Hp. rewrite usize_sub_ok by exact Hn.
    rewrite <- (last_block B F n) by (exact HB || exact Hn || (clear - HF; lia)).
    apply (co_free _ _ _ _ _ (eq (B - F - n mod B))); [now apply co_ret|intros _ <-].
    set (w := B - F - n mod B).
    apply (co_free _ _ _ _ _ (fun s => len s = w)); [apply co_lift; intros s Es; exact (slice_to_len _ _ _ Es)|intros pad Hpad].
    rewrite <- Hpad.
    eapply co_bind; [apply (co_input e pad n He)|intros e1 He1].
    apply (co_free _ _ _ _ _ (fun _ => True)); [apply co_debug|intros _ _].
    apply (co_free _ _ _ _ _ (fun _ => True)); [now apply co_lift|intros bits _].
    apply (co_last _ _ _ _ _ (fun e => lo a e e)).
    - eapply co_weaken; [apply (co_inputs (algo_tail a bits) e1 _ He1)| |intros e2 H2; apply H2].
      unfold len at 2. now rewrite algo_tail_length.
    - intros e2 H2. apply (co_free _ _ _ _ _ (fun _ => True)); [apply co_debug|intros _ _]. now apply co_ret.
  Qed.

  Lemma co_pad e n : at_pos n e ->
    costs (l_finalize_pad c B (l_block c a) F (algo_tail a) e) ((n + F + B) / B - n / B) (fun e => lo a e e).
  Proof.
    intros He. destruct F_bounds as [HF HF0]. unfold l_finalize_pad.
    assert (E1 : costs (l_engine_input c B (l_block c a) e [x80]) ((n + 1) / B - n / B) (at_pos (n + 1)))
      by exact (co_input e [x80] n He).
    destruct (N.leb_spec ((n + 1) mod B) (B - F)) as [Hs|Hs].
    - rewrite <- fin_short by (exact Hs || exact HF0 || (clear - HF; lia)).
      eapply co_bind; [exact E1|intros e1 He1].
      apply (co_free _ _ _ _ _ _ _ (co_branch _)). intros _ <-. pose proof He1 as [_ Hp]. unfold pos in Hp.
      assert (Eb : (len (array x00 (B - F)) <? e_length e1 mod B) = false)
        by (rewrite Hp, len_array; now apply N.ltb_ge).
      rewrite Eb. apply (co_free _ _ _ _ _ (eq e1)); [now apply co_ret|intros _ <-].
      now apply (co_tail_block _ _ (n + 1)).
    - destruct (fin_long B F n HF HF0 Hs) as [Hm E]. rewrite <- E.
      eapply co_bind; [exact E1|intros e1 He1].
      apply (co_free _ _ _ _ _ _ _ (co_branch _)). intros _ <-. pose proof He1 as [_ Hp]. unfold pos in Hp.
      assert (Eb : (len (array x00 (B - F)) <? e_length e1 mod B) = true)
        by (rewrite Hp, len_array; now apply N.ltb_lt).
      rewrite Eb.
      pose proof (co_input e1 (array x00 (B - F)) _ He1) as E2. rewrite len_array in E2.
      eapply co_bind; [exact E2|intros e2 He2].
      apply (co_tail_block _ _ (n + 1 + (B - F))); [exact He2|]. rewrite Hm. pose proof (N.mod_lt (n + 1) B). 
      clear - H HF HF0. lia.
  Qed.

  Lemma co_finalize e n cut : at_pos n e -> (forall x, length x = (md_nwords A * md_wbytes A)%nat -> costs (cut x) 0 (fun y => length y = md_digest A)) ->
    costs (l_algo_finalize c a B F (algo_tail a) cut e) ((n + F + B) / B - n / B)
      (fun d => length d = md_digest A).
  Proof.
    intros He Hc. unfold l_algo_finalize.
    apply (co_last _ _ _ _ _ (fun e => lo a e e)); [exact (co_pad e n He)|intros e1 (_ & _ & Hh & _)].
    apply (co_free _ _ _ _ _ (fun d => length d = (md_nwords A * md_wbytes A)%nat)).
    - apply qu_costs; [apply qu_midstate|]. intros d. rewrite erase_midstate, algo_midstate_ok by exact Hh. intros [= <-].
      rewrite md_words_length by apply (mo_word _ (md_of_ok a)). now rewrite (proj1 Hh).
    - exact Hc.
  Qed.
End Buffered.

(** ** SipHash *)

Section Sip.
  Context (c : config) (WF : wf_config c).
  Notation M := (2 ^ usize_bits c).

  Lemma co_load k buf i : costs (l_load_int_le c k buf i) 0 (fun _ => True).
  Proof.
    unfold l_load_int_le. apply (co_free _ _ _ _ _ (fun _ => True)); [apply co_tell|intros _ _]. now apply co_lift.
  Qed.

  Lemma co_u8to64 buf st n : costs (l_u8to64_le c buf st n) 0 (fun _ => True).
  Proof.
    unfold l_u8to64_le.
    apply (co_free _ _ _ _ _ (fun _ => True)); [apply co_debug|intros _ _].
    apply (co_free _ _ _ _ _ _ _ (co_branch _)). intros b _.
    apply (co_free _ _ _ _ _ (fun _ => True)).
    { destruct b; [|now apply co_ret]. apply (co_free _ _ _ _ _ (fun _ => True)); [apply co_load|]. intros. now apply co_ret. }
    intros [o i] _. apply (co_free _ _ _ _ _ _ _ (co_branch _)). intros b2 _.
    apply (co_free _ _ _ _ _ (fun _ => True)).
    { destruct b2; [|now apply co_ret]. apply (co_free _ _ _ _ _ (fun _ => True)); [apply co_load|]. intros.
      apply (co_free _ _ _ _ _ (fun _ => True)); [now apply co_lift|]. intros. now apply co_ret. }
    intros [o2 i2] _. apply (co_free _ _ _ _ _ _ _ (co_branch _)). intros b3 _.
    apply (co_free _ _ _ _ _ (fun _ => True)).
    { destruct b3; [|now apply co_ret]. apply (co_free _ _ _ _ _ (fun _ => True)); [apply co_tell|]. intros.
      apply (co_free _ _ _ _ _ (fun _ => True)); [now apply co_lift|]. intros.
      apply (co_free _ _ _ _ _ (fun _ => True)); [now apply co_lift|]. intros. now apply co_ret. }
    intros [o3 i3] _. apply (co_free _ _ _ _ _ (fun _ => True)); [apply co_debug|intros _ _]. now apply co_ret.
  Qed.

  Lemma co_sip_loop fuel data needed k : needed < 8 -> needed + 8 * k < M -> forall j s, j <= k ->
    costs (l_sip_loop fuel c data (8 * k) (needed + 8 * j) s) (k - j) (fun _ => True).
  Proof.
    intros Hn HM. induction fuel as [|f IH]; intros j s Hj; cbn [l_sip_loop].
    - apply (co_free _ _ _ _ _ _ _ (co_branch _)). intros _ <-. destruct (N.ltb_spec (needed + 8 * j) (8 * k)); [exact I|].
      replace (k - j) with 0 by lia. now apply co_ret.
    - apply (co_free _ _ _ _ _ _ _ (co_branch _)). intros _ <-. destruct (N.ltb_spec (needed + 8 * j) (8 * k)) as [H|H].
      + assert (Hjk : j + 1 <= k) by lia.
        apply (co_free _ _ _ _ _ (fun _ => True)); [apply co_load|intros m _].
        replace (k - j) with (1 + (k - (j + 1))) by lia.
        apply (co_bind _ _ _ _ 1 _ (fun _ => True)); [apply (co_tell LSip)|intros _ _].
        apply (co_free _ _ _ _ _ (eq (needed + 8 * (j + 1)))).
        * apply co_lift. intros x. unfold usize_add, checked_add.
          revert HM. generalize M. intros m' HM.
          destruct (N.ltb_spec (needed + 8 * j + 8) m') as [Hx|Hx]; [|exfalso; clear - Hjk HM Hx; lia].
          replace (needed + 8 * j + 8) with (needed + 8 * (j + 1)) by (clear; lia). intros Ex. congruence.
        * intros _ <-. now apply IH.
      + replace (k - j) with 0 by lia. now apply co_ret.
  Qed.

  Lemma land7 n : N.land n 7 = n mod 8.
  Proof. exact (N.land_ones n 3). Qed.

  Lemma co_sip_rest data needed e : needed < 8 -> needed <= len data -> slice c data ->
    costs (l_sip_input_rest c data needed e) ((len data - needed) / 8)
      (fun e' => sip_ntail e' = (len data - needed) mod 8).
  Proof.
    intros Hn Hl Hs. unfold slice in Hs. unfold l_sip_input_rest.
    rewrite usize_sub_ok by exact Hl.
    apply (co_free _ _ _ _ _ (eq (len data - needed))); [now apply co_ret|intros _ <-].
    set (ln := len data - needed). rewrite land7.
    pose proof (N.div_mod ln 8 ltac:(discriminate)) as E.
    assert (Hle : ln mod 8 <= ln) by (apply N.mod_le; discriminate).
    rewrite usize_sub_ok by exact Hle.
    assert (Est : ln - ln mod 8 = 8 * (ln / 8)) by lia. rewrite Est.
    apply (co_free _ _ _ _ _ (eq (8 * (ln / 8)))); [now apply co_ret|intros _ <-].
    apply (co_last _ _ _ _ _ (fun _ => True)).
    - pose proof (co_sip_loop (length data) data needed (ln / 8) Hn ltac:(lia) 0 (sip_st e) (N.le_0_l _)) as H.
      rewrite N.mul_0_r, N.add_0_r, N.sub_0_r in H. exact H.
    - intros [s i] _. apply (co_free _ _ _ _ _ (fun _ => True)); [apply co_u8to64|intros t _]. now apply co_ret.
  Qed.

  Definition sip_pos (n : N) (e : sip_engine) : Prop := sip_ntail e = n mod 8.

  Lemma sip_cross n d : n mod 8 <> 0 -> 8 - n mod 8 <= d ->
    1 + (d - (8 - n mod 8)) / 8 = (n + d) / 8 - n / 8 /\ (d - (8 - n mod 8)) mod 8 = (n + d) mod 8.
  Proof.
    intros H0 Hd. pose proof (N.div_mod n 8 ltac:(discriminate)) as E.
    pose proof (N.mod_lt n 8 ltac:(discriminate)) as Hlt.
    replace (n + d) with (d - (8 - n mod 8) + (n / 8 + 1) * 8) by lia.
    rewrite N.div_add, N.mod_add by discriminate. split; [|reflexivity].
    generalize (n / 8), ((d - (8 - n mod 8)) / 8). clear. lia.
  Qed.
  Lemma sip_short n d : d < 8 - n mod 8 -> (n + d) / 8 - n / 8 = 0 /\ n mod 8 + d = (n + d) mod 8.
  Proof.
    intros Hd. pose proof (N.div_mod n 8 ltac:(discriminate)) as E.
    replace (n + d) with (n mod 8 + d + n / 8 * 8) by lia.
    rewrite N.div_add, N.mod_add by discriminate. rewrite (N.div_small (n mod 8 + d)), (N.mod_small (n mod 8 + d)) by lia.
    split; [apply N.sub_diag|reflexivity].
  Qed.
  Lemma sip_aligned n d : n mod 8 = 0 -> (d - 0) / 8 = (n + d) / 8 - n / 8 /\ (d - 0) mod 8 = (n + d) mod 8.
  Proof.
    intros H0. pose proof (N.div_mod n 8 ltac:(discriminate)) as E. rewrite N.sub_0_r.
    replace (n + d) with (d + n / 8 * 8) by lia. rewrite N.div_add, N.mod_add by discriminate.
    split; [now rewrite N.add_sub|reflexivity].
  Qed.

  Lemma co_sip_input e data n : sip_pos n e -> slice c data ->
    costs (l_sip_input c e data) ((n + len data) / 8 - n / 8) (sip_pos (n + len data)).
  Proof.
    intros He Hs. unfold sip_pos in *. unfold l_sip_input. rewrite He.
    pose proof (N.mod_lt n 8 ltac:(discriminate)) as Hlt.
    apply (co_free _ _ _ _ _ (fun _ => True)); [now apply co_lift|intros nl _].
    apply (co_free _ _ _ _ _ _ _ (co_branch _)). intros _ <-.
    destruct (N.eqb_spec (n mod 8) 0) as [H0|H0]; cbn [negb].
    - destruct (sip_aligned n (len data) H0) as [<- E2]. rewrite <- E2.
      apply co_sip_rest; [reflexivity|apply N.le_0_l|exact Hs].
    - rewrite usize_sub_ok by lia.
      apply (co_free _ _ _ _ _ (eq (8 - n mod 8))); [now apply co_ret|intros _ <-].
      apply (co_free _ _ _ _ _ _ _ (co_branch _)). intros b _.
      apply (co_free _ _ _ _ _ (fun _ => True)); [apply co_u8to64|intros x _].
      apply (co_free _ _ _ _ _ (fun _ => True)); [now apply co_lift|intros y _].
      apply (co_free _ _ _ _ _ _ _ (co_branch _)). intros _ <-.
      destruct (N.ltb_spec (len data) (8 - n mod 8)) as [Hd|Hd].
      + destruct (sip_short n (len data) Hd) as [-> <-].
        apply (co_free _ _ _ _ _ (eq (n mod 8 + len data))).
        * apply co_lift. intros z. unfold usize_add, checked_add.
          destruct (N.ltb_spec (n mod 8 + len data) M) as [|Hb]; [now intros [= <-]|].
          exfalso. clear - WF Hb Hd Hlt. destruct WF as [E|[E|E]]; rewrite E in Hb; cbn in Hb; lia.
        * intros _ <-. now apply co_ret.
      + destruct (sip_cross n (len data) H0 Hd) as [<- <-].
        apply (co_bind _ _ _ _ 1 _ (fun _ => True)); [apply (co_tell LSip)|intros _ _].
        apply co_sip_rest; [lia|exact Hd|exact Hs].
  Qed.
End Sip.

(** ** Any engine *)

Record metered (c : config) {E} (L : leaky E) (P : N -> he_state E -> Prop) (w0 : N) (cum fin : N -> N) (D : nat) : Prop := {
  me_default : costs (lk_default L) w0 (P 0);
  me_input : forall s n d, P n s -> slice c d ->
    costs (lk_input L s d) (cum (n + len d) - cum n) (P (n + len d));
  me_finalize : forall s n, P n s -> costs (lk_finalize L s) (fin n) (fun d => length d = D);
  me_mono : forall n m, n <= m -> cum n <= cum m;
  me_zero : cum 0 = 0
}.

Lemma cut_len n x y : cut n x = Ok y -> length y = N.to_nat n.
Proof.
  unfold cut. destruct (slice_to n x) as [t|] eqn:E; [|discriminate]. cbn [bind].
  unfold copy_from_slice. destruct (_ =? _); [|discriminate]. intros [= <-].
  pose proof (slice_to_len _ _ _ E) as H. unfold len in H. lia.
Qed.

Lemma co_cut n x : costs (l_cut n x) 0 (fun y => length y = N.to_nat n).
Proof.
  apply qu_costs; [unfold l_cut; do 3 (apply qu_bind; [reflexivity|intros ?]); reflexivity|].
  intros y E. rewrite erase_cut in E. exact (cut_len _ _ _ E).
Qed.

Lemma div_mono B n m : 0 < B -> n <= m -> n / B <= m / B.
Proof. intros. apply N.div_le_mono; lia. Qed.

Lemma start_pos a : at_pos a 0 (algo_start a (algo_iv a) 0).
Proof. split; [apply start_lo|reflexivity]. Qed.

Lemma algo_metered c a : wf_config c -> exists P,
  metered c (algo_leaky c a) P 0 (fun n => n / N.of_nat (block_len a))
    (fun n => algo_work a n - n / N.of_nat (block_len a)) (digest_len a).
Proof.
  intros WF.
  assert (HI : forall a e d n, at_pos a n e -> costs (l_engine_input c (N.of_nat (md_block (md_of a))) (l_block c a) e d)
     ((n + len d) / N.of_nat (md_block (md_of a)) - n / N.of_nat (md_block (md_of a))) (at_pos a (n + len d)))
    by (intros; now apply co_input).
  assert (HF : forall a e n cut, at_pos a n e ->
     (forall x, length x = (md_nwords (md_of a) * md_wbytes (md_of a))%nat -> costs (cut x) 0 (fun y => length y = md_digest (md_of a))) ->
     costs (l_algo_finalize c a (N.of_nat (md_block (md_of a))) (N.of_nat (md_field (md_of a))) (algo_tail a) cut e)
      ((n + N.of_nat (md_field (md_of a)) + N.of_nat (md_block (md_of a))) / N.of_nat (md_block (md_of a)) - n / N.of_nat (md_block (md_of a)))
      (fun d => length d = md_digest (md_of a))) by (intros; now apply co_finalize).
  destruct a.
  1: exists (at_pos Sha1). 2: exists (at_pos Sha256). 3: exists (at_pos Sha384). 4: exists (at_pos Sha512).
  5: exists (at_pos Sha512_256). 6: exists (at_pos Ripemd160).
  all: split; cbn [algo_leaky lk_default lk_input lk_finalize algo_engine he_state block_len digest_len algo_work].
  all: try (intros; now apply div_mono).
  all: try reflexivity.
  all: try (apply co_ret; refine (start_pos _)).
  - intros s n d H _. exact (HI Sha1 s d n H).
  - intros s n H. pose proof (HF Sha1 s n lret H) as G. cbn [md_of md_block md_field md_digest md_nwords md_wbytes] in G.
    eapply co_weaken; [apply G| |intros d Hd; exact Hd]; [intros x Hx; apply co_ret; exact Hx|].
    f_equal. f_equal. lia.
  - intros s n d H _. exact (HI Sha256 s d n H).
  - intros s n H. pose proof (HF Sha256 s n lret H) as G. cbn [md_of md_block md_field md_digest md_nwords md_wbytes] in G.
    eapply co_weaken; [apply G| |intros d Hd; exact Hd]; [intros x Hx; apply co_ret; exact Hx|].
    f_equal. f_equal. lia.
  - intros s n d H _. exact (HI Sha384 s d n H).
  - intros s n H. pose proof (HF Sha384 s n (l_cut 48) H) as G. cbn [md_of md_block md_field md_digest md_nwords md_wbytes] in G.
    eapply co_weaken; [apply G| |intros d Hd; exact Hd]; [intros x Hx; apply co_cut|].
    f_equal. f_equal. lia.
  - intros s n d H _. exact (HI Sha512 s d n H).
  - intros s n H. pose proof (HF Sha512 s n lret H) as G. cbn [md_of md_block md_field md_digest md_nwords md_wbytes] in G.
    eapply co_weaken; [apply G| |intros d Hd; exact Hd]; [intros x Hx; apply co_ret; exact Hx|].
    f_equal. f_equal. lia.
  - intros s n d H _. exact (HI Sha512_256 s d n H).
  - intros s n H. pose proof (HF Sha512_256 s n (l_cut 32) H) as G. cbn [md_of md_block md_field md_digest md_nwords md_wbytes] in G.
    eapply co_weaken; [apply G| |intros d Hd; exact Hd]; [intros x Hx; apply co_cut|].
    f_equal. f_equal. lia.
  - intros s n d H _. exact (HI Ripemd160 s d n H).
  - intros s n H. pose proof (HF Ripemd160 s n lret H) as G. cbn [md_of md_block md_field md_digest md_nwords md_wbytes] in G.
    eapply co_weaken; [apply G| |intros d Hd; exact Hd]; [intros x Hx; apply co_ret; exact Hx|].
    f_equal. f_equal. lia.
Qed.

Lemma tag_engine_length c tag e : tag_engine c tag = Ok e -> e_length e = 64.
Proof.
  unfold tag_engine. intros H. apply bind_ok in H. destruct H as (mid & _ & H).
  unfold sha256_from_midstate, from_midstate_bytes in H. apply bind_ok in H. destruct H as (u & _ & H).
  apply bind_ok in H. destruct H as (r & _ & H). now injection H as <-.
Qed.

Lemma tag_metered c tag : wf_config c -> kind_real c (KTag tag) -> exists P,
  metered c (tag_leaky c tag) P 0 (fun n => n / 64) (fun n => algo_work Sha256 n - n / 64) 32.
Proof.
  intros WF [Hl H8]. exists (at_pos Sha256).
  split; cbn [tag_leaky lk_default lk_input lk_finalize sha256t_engine he_state algo_work].
  - apply co_lift. intros e He. split; [exact (tag_lo c tag e WF Hl H8 He)|].
    unfold pos. rewrite (tag_engine_length c tag e He). reflexivity.
  - intros s n d H _. exact (co_input c Sha256 WF s d n H).
  - intros s n H. pose proof (co_finalize c Sha256 WF s n lret H) as G.
    cbn [md_of md_block md_field md_digest md_nwords md_wbytes] in G.
    eapply co_weaken; [apply G| |intros d Hd; exact Hd]; [intros x Hx; apply co_ret; exact Hx|].
    f_equal. f_equal. lia.
  - intros. now apply div_mono.
  - reflexivity.
Qed.

Lemma sip_metered c : wf_config c ->
  metered c (sip_leaky c) sip_pos 0 (fun n => n / 8) (fun _ => 2) 8.
Proof.
  intros WF. split; cbn [sip_leaky lk_default lk_input lk_finalize siphash24_engine he_state].
  - now apply co_ret.
  - intros s n d H Hd. now apply co_sip_input.
  - intros s n _. apply (co_bind _ _ _ _ 1 1 (fun _ => True)); [apply (co_tell LSip)|intros _ _].
    apply (co_last _ _ _ _ 1 (fun _ => True)); [apply (co_tell LSip)|intros _ _]. now apply co_ret.
  - intros. now apply div_mono.
  - reflexivity.
Qed.

Lemma co_xor_zip pad : forall i key, costs (l_xor_zip i pad key) 0 (fun r => length r = length pad).
Proof.
  induction pad as [|p pad IH]; intros i [|k key]; cbn [l_xor_zip];
    try (apply (co_free _ _ _ _ _ _ _ (co_branch _)); intros _ _; now apply co_ret).
  apply (co_free _ _ _ _ _ _ _ (co_branch _)). intros _ _.
  apply (co_free _ _ _ _ _ (fun _ => True)); [apply co_tell|intros _ _].
  apply (co_free _ _ _ _ _ (fun _ => True)); [apply co_tell|intros _ _].
  apply (co_free _ _ _ _ _ _ _ (IH _ _)). intros r Hr. apply co_ret. cbn [length]. congruence.
Qed.

Lemma small_slice c n (d : bytes) : wf_config c -> (length d <= n)%nat -> (n <= 128)%nat -> slice c d.
Proof.
  intros WF H Hn. unfold slice, len. assert (N.of_nat (length d) <= 128) by lia.
  destruct WF as [-> |[-> | ->]]; cbn; lia.
Qed.

Section Hmac.
  Context (c : config) (WF : wf_config c) {E : HashEngine} (L : leaky E) (P : N -> he_state E -> Prop)
    (w0 : N) (cum fin : N -> N) (D B : nat).
  Context (HM : metered c L P w0 cum fin D) (HB : he_block_size E = N.of_nat B) (HB' : (B <= 128)%nat) (HD : (D <= 128)%nat).

  Definition total (n : N) : N := w0 + cum n + fin n.
  Notation b := (N.of_nat B).
  Notation d := (N.of_nat D).

  Lemma co_hash data : slice c data -> costs (l_hash L data) (total (len data)) (fun h => length h = D).
  Proof.
    intros Hs. unfold l_hash, total. rewrite <- N.add_assoc.
    eapply co_bind; [apply (me_default _ _ _ _ _ _ _ HM)|intros s Hp].
    apply (co_bind _ _ _ _ _ _ (P (len data))); [|intros s'; apply (me_finalize _ _ _ _ _ _ _ HM)].
    pose proof (me_input _ _ _ _ _ _ _ HM s 0 data Hp Hs) as H.
    rewrite (me_zero _ _ _ _ _ _ _ HM), N.sub_0_r, N.add_0_l in H. exact H.
  Qed.

  Definition hmac_pos (n : N) (s : hmac_state E) : Prop := P (b + n) (iengine s) /\ P b (oengine s).
  Definition key_work (key : bytes) : N := if b <? len key then total (len key) else 0.

  Lemma co_hmac_new key : slice c key ->
    costs (l_hmac_new c L key) (key_work key + (2 * w0 + 2 * cum b)) (hmac_pos 0).
  Proof.
    intros Hs. unfold l_hmac_new. rewrite HB.
    replace (key_work key + (2 * w0 + 2 * cum b)) with (w0 + (w0 + (key_work key + (cum b + cum b)))) by lia.
    apply (co_free _ _ _ _ _ (fun _ => True)); [apply co_debug|intros _ _].
    eapply co_bind; [apply (me_default _ _ _ _ _ _ _ HM)|intros ie Hi].
    eapply co_bind; [apply (me_default _ _ _ _ _ _ _ HM)|intros oe Ho].
    apply (co_free _ _ _ _ _ _ _ (co_branch _)). intros _ <-.
    assert (HI : forall s pad p, P 0 s -> slice_to b pad = Ok p ->
      costs (lk_input L s p) (cum b) (P b)).
    { intros s pad p Hp Ep. pose proof (slice_to_len _ _ _ Ep) as Hl.
      pose proof (me_input _ _ _ _ _ _ _ HM s 0 p Hp) as H.
      rewrite (me_zero _ _ _ _ _ _ _ HM), N.sub_0_r, N.add_0_l, Hl in H. apply H.
      apply (small_slice c B); [exact WF| |exact HB']. unfold len in Hl. lia. }
    apply (co_bind _ _ _ _ _ _ (fun _ => True)).
    - unfold key_work. destruct (b <? len key).
      + apply (co_last _ _ _ _ _ (fun _ => True)).
        { eapply co_weaken; [apply co_hash, Hs|reflexivity|trivial]. }
        intros h _. apply (co_free _ _ _ _ _ _ _ (co_xor_zip _ _ _)). intros i _.
        apply (co_free _ _ _ _ _ _ _ (co_xor_zip _ _ _)). intros o _. now apply co_ret.
      + apply (co_free _ _ _ _ _ _ _ (co_xor_zip _ _ _)). intros i _.
        apply (co_free _ _ _ _ _ _ _ (co_xor_zip _ _ _)). intros o _. now apply co_ret.
    - intros [ip op] _.
      apply (co_free _ _ _ _ _ (fun x => slice_to b ip = Ok x)); [now apply co_lift|intros ib Hib].
      apply (co_bind _ _ _ _ _ _ (P b)); [exact (HI ie ip ib Hi Hib)|intros ie' Hi'].
      apply (co_free _ _ _ _ _ (fun x => slice_to b op = Ok x)); [now apply co_lift|intros ob Hob].
      apply (co_last _ _ _ _ _ (P b)); [exact (HI oe op ob Ho Hob)|intros oe' Ho'].
      apply co_ret. split; cbn [iengine oengine]; [now rewrite N.add_0_r|exact Ho'].
  Qed.

  Lemma hmac_metered : metered c (hmac_leaky c L) hmac_pos (2 * w0 + 2 * cum b) (fun n => cum (b + n) - cum b)
    (fun n => fin (b + n) + (cum (b + d) - cum b + fin (b + d))) D.
  Proof.
    pose proof (me_mono _ _ _ _ _ _ _ HM) as Hmono.
    split; cbn [hmac_leaky lk_default lk_input lk_finalize].
    - eapply co_weaken; [apply co_hmac_new; apply (small_slice c 0); [exact WF|reflexivity|lia]| |trivial].
      unfold key_work, len. cbn [length]. destruct (N.ltb_spec b (N.of_nat 0)); lia.
    - intros s n x [Hi Ho] Hx. apply (co_last _ _ _ _ _ (P (b + n + len x))).
      + eapply co_weaken; [apply (me_input _ _ _ _ _ _ _ HM _ _ x Hi Hx)| |trivial].
        pose proof (Hmono b (b + n) ltac:(lia)). rewrite N.add_assoc.
        pose proof (Hmono (b + n) (b + n + len x) ltac:(lia)). lia.
      + intros ie Hie. apply co_ret. split; cbn [iengine oengine]; [now rewrite N.add_assoc|exact Ho].
    - intros s n [Hi Ho]. eapply co_bind; [apply (me_finalize _ _ _ _ _ _ _ HM _ _ Hi)|intros h Hh].
      assert (El : len h = d) by (unfold len; congruence).
      apply (co_bind _ _ _ _ _ _ (P (b + d))).
      + rewrite <- El. apply (me_input _ _ _ _ _ _ _ HM _ _ h Ho). apply (small_slice c D); [exact WF|rewrite Hh; apply le_n|exact HD].
      + intros o. apply (me_finalize _ _ _ _ _ _ _ HM).
    - intros n m Hnm. pose proof (Hmono (b + n) (b + m) ltac:(lia)). lia.
    - rewrite N.add_0_r. lia.
  Qed.

  Lemma hmac_total n :
    2 * w0 + 2 * cum b + (cum (b + n) - cum b) + (fin (b + n) + (cum (b + d) - cum b + fin (b + d))) =
    total (b + n) + total (b + d).
  Proof using HM.
    clear HD HB' HB.
    pose proof (me_mono _ _ _ _ _ _ _ HM b (b + n) ltac:(lia)).
    pose proof (me_mono _ _ _ _ _ _ _ HM b (b + d) ltac:(lia)). unfold total. lia.
  Qed.

  Lemma co_l_inputs chunks : Forall (slice c) chunks -> forall s n, P n s ->
    costs (l_inputs L s chunks) (cum (n + len (List.concat chunks)) - cum n) (P (n + len (List.concat chunks))).
  Proof using HM.
    clear HD HB' HB.
    pose proof (me_mono _ _ _ _ _ _ _ HM) as Hmono.
    induction 1 as [|x l Hx Hl IH]; intros s n Hp; cbn [l_inputs List.concat].
    - change (len []) with 0. rewrite N.add_0_r, N.sub_diag. now apply co_ret.
    - replace (len (x ++ List.concat l)) with (len x + len (List.concat l)) by (unfold len; rewrite app_length; lia).
      rewrite N.add_assoc.
      eapply co_weaken; [eapply co_bind; [apply (me_input _ _ _ _ _ _ _ HM s n x Hp Hx)|intros s' Hs'; apply (IH s' _ Hs')]| |trivial].
      pose proof (Hmono n (n + len x) ltac:(lia)).
      pose proof (Hmono (n + len x) (n + len x + len (List.concat l)) ltac:(lia)). cbv beta. lia.
  Qed.

  Lemma co_run m w chunks : Forall (slice c) chunks -> costs m w (P 0) ->
    costs (let! s := m in let! s := l_inputs L s chunks in lk_finalize L s)
      (w + (cum (len (List.concat chunks)) + fin (len (List.concat chunks)))) (fun x => length x = D).
  Proof using HM.
    clear HD HB' HB.
    intros Hc Hm. eapply co_bind; [exact Hm|intros s Hs].
    apply (co_bind _ _ _ _ _ _ (P (len (List.concat chunks)))); [|intros s'; apply (me_finalize _ _ _ _ _ _ _ HM)].
    pose proof (co_l_inputs chunks Hc s 0 Hs) as H.
    rewrite (me_zero _ _ _ _ _ _ _ HM), N.sub_0_r, N.add_0_l in H. exact H.
  Qed.
End Hmac.

Lemma kind_digest_le' k : (kind_digest k <= 128)%nat.
Proof. pose proof (kind_digest_le k). pose proof (kind_block_le k). lia. Qed.

Lemma algo_work_ge a n : n / N.of_nat (block_len a) <= algo_work a n.
Proof. destruct a; cbn [algo_work block_len]; apply N.div_le_mono; lia. Qed.

Lemma kind_metered c k : wf_config c -> kind_real c k -> exists P w0 cum fin,
  metered c (kind_leaky c k) P w0 cum fin (kind_digest k) /\ forall n, total w0 cum fin n = kind_work k n.
Proof.
  intros WF. induction k as [a| |tag|k IH]; intros Hk.
  - destruct (algo_metered c a WF) as [P HP]. do 4 eexists. split; [exact HP|]. intros n. unfold total.
    cbn [kind_work]. pose proof (algo_work_ge a n). lia.
  - do 4 eexists. split; [exact (sip_metered c WF)|]. intros n. reflexivity.
  - destruct (tag_metered c tag WF Hk) as [P HP]. do 4 eexists. split; [exact HP|]. intros n. unfold total.
    cbn [kind_work]. pose proof (algo_work_ge Sha256 n) as H. cbn [block_len] in H. change (N.of_nat 64) with 64 in H. lia.
  - destruct (IH Hk) as (P & w0 & cum & fin & HP & HT).
    do 4 eexists. split.
    + exact (hmac_metered c WF (kind_leaky c k) P w0 cum fin (kind_digest k) (kind_block k) HP
        (kind_block_size c k) (kind_block_le k) (kind_digest_le' k)).
    + intros n. cbn [kind_work]. rewrite <- !HT.
      exact (hmac_total c (kind_leaky c k) P w0 cum fin (kind_digest k) (kind_block k) HP n).
Qed.

Lemma costs_ok A (m : lk A) w Q a : costs m w Q -> snd m = Ok a -> call_count (fst m) = w.
Proof. unfold costs. intros H E. rewrite E in H. apply H. Qed.

Lemma leak_work c o chunks h : wf_config c -> origin_real c o -> Forall (slice c) chunks ->
  returned (leak_run c o chunks) = Ok h ->
  call_count (revealed (leak_run c o chunks)) = origin_work o (len (List.concat chunks)).
Proof.
  intros WF Ho Hc E. unfold revealed, returned in *.
  destruct o as [k|k key|k0 k1]; cbn [origin_real origin_work] in *.
  - destruct (kind_metered c k WF Ho) as (P & w0 & cum & fin & HP & HT).
    rewrite <- HT. unfold total. rewrite <- N.add_assoc.
    refine (costs_ok _ _ _ _ h (co_run c (kind_leaky c k) P w0 cum fin _ HP _ _ chunks Hc (me_default _ _ _ _ _ _ _ HP)) E).
  - destruct Ho as [Hk Hs]. destruct (kind_metered c k WF Hk) as (P & w0 & cum & fin & HP & HT).
    pose proof (hmac_metered c WF (kind_leaky c k) P w0 cum fin (kind_digest k) (kind_block k) HP
        (kind_block_size c k) (kind_block_le k) (kind_digest_le' k)) as HH.
    pose proof (co_hmac_new c WF (kind_leaky c k) P w0 cum fin (kind_digest k) (kind_block k) HP
        (kind_block_size c k) (kind_block_le k) (kind_digest_le' k) key Hs) as HN.
    refine (eq_trans (costs_ok _ _ _ _ h (co_run c (hmac_leaky c (kind_leaky c k)) _ _ _ _ _ HH _ _ chunks Hc HN) E) _).
    cbn [kind_work]. rewrite <- !HT.
    rewrite <- (hmac_total c (kind_leaky c k) P w0 cum fin (kind_digest k) (kind_block k) HP).
    unfold key_work. rewrite HT. lia.
  - refine (eq_trans (costs_ok _ _ _ _ h (co_run c (sip_leaky c) _ _ _ _ _ (sip_metered c WF) (lret (with_keys k0 k1)) 0 chunks Hc
      (co_ret _ (with_keys k0 k1) (sip_pos 0) eq_refl)) E) _). reflexivity.
Qed.

(** ** Linear time *)
Lemma div_add_le B n m : 0 < B -> (n + m) / B <= n / B + m / B + 1.
Proof.
  intros HB. pose proof (N.div_mod n B ltac:(lia)) as E1. pose proof (N.div_mod m B ltac:(lia)) as E2.
  pose proof (N.mod_lt n B ltac:(lia)). pose proof (N.mod_lt m B ltac:(lia)).
  apply N.lt_succ_r. apply N.div_lt_upper_bound; [lia|].
  set (x := n / B) in *. set (y := m / B) in *. set (u := n mod B) in *. set (v := m mod B) in *.
  clearbody x y u v. nia.
Qed.

Lemma kind_work_linear k n m : kind_work k (n + m) <= kind_work k n + m / 8 + 1.
Proof.
  assert (H : forall B x, 8 <= B -> (x + m) / B <= x / B + m / 8 + 1).
  { intros B x HB. pose proof (div_add_le B x m ltac:(lia)) as H1.
    pose proof (N.div_le_compat_l m 8 B (conj eq_refl HB)) as H2.
    revert H1 H2. generalize ((x + m) / B), (x / B), (m / B), (m / 8). clear. lia. }
  assert (HA : forall a n, algo_work a (n + m) <= algo_work a n + m / 8 + 1).
  { clear n. intros a x. destruct a; cbn [algo_work];
    match goal with |- (x + m + 1 + ?f + ?b) / ?B <= _ =>
      replace (x + m + 1 + f + b) with (x + 1 + f + b + m) by (clear; lia); apply (H B); discriminate end. }
  revert n. induction k as [a| |tag|k IH]; intros n; cbn [kind_work].
  - apply HA.
  - pose proof (div_add_le 8 n m eq_refl) as H1. revert H1. generalize ((n + m) / 8), (n / 8), (m / 8). clear. lia.
  - apply HA.
  - rewrite N.add_assoc. specialize (IH (N.of_nat (kind_block k) + n)).
    revert IH. generalize (kind_work k (N.of_nat (kind_block k) + n + m)), (kind_work k (N.of_nat (kind_block k) + n)),
      (kind_work k (N.of_nat (kind_block k) + N.of_nat (kind_digest k))), (m / 8). clear. lia.
Qed.

Lemma origin_work_linear o n m : origin_work o (n + m) <= origin_work o n + m / 8 + 1.
Proof.
  destruct o as [k|k key|k0 k1]; cbn [origin_work].
  - apply kind_work_linear.
  - pose proof (kind_work_linear (KHmac k) n m) as H. revert H.
    generalize (if N.of_nat (kind_block k) <? len key then kind_work k (len key) else 0),
      (kind_work (KHmac k) (n + m)), (kind_work (KHmac k) n), (m / 8). clear. lia.
  - exact (kind_work_linear KSip n m).
Qed.
