(** Permutations: the SipHash round, the SHA-1 and SHA-2 rounds. *)
From Coq Require Import NArith ZArith List Bool Lia.
From Coq Require Import ZifyBool ZifyNat ZifyN.
From Verif Require Import Base SpecBase SpecMD SpecMac ModelEngine ModelSip ModelAll SpecApi SpecPerm ProofBase ProofApi
  ProofMD ProofMid ProofSip ProofMac.
From Verif Require SpecSha1 SpecSha2.
Import ListNotations.
Open Scope N_scope.

(** ** Words *)
Definition sub (w x y : N) : N := (x + (2 ^ w - y mod 2 ^ w)) mod 2 ^ w.

Lemma pow_pos w : 0 < 2 ^ w.
Proof. apply N.neq_0_lt_0, N.pow_nonzero. lia. Qed.

Lemma sub_lt w x y : sub w x y < 2 ^ w.
Proof. apply N.mod_lt. pose proof (pow_pos w). lia. Qed.

Lemma add_sub w x y : x < 2 ^ w -> add w (sub w x y) y = x.
Proof.
  intros Hx. unfold add, sub. pose proof (pow_pos w) as P. pose proof (N.mod_lt y (2 ^ w) ltac:(lia)) as L.
  rewrite N.add_mod_idemp_l by lia. rewrite <- (N.add_mod_idemp_r _ y) by lia.
  replace (x + (2 ^ w - y mod 2 ^ w) + y mod 2 ^ w) with (x + 1 * 2 ^ w) by lia.
  rewrite N.mod_add by lia. now apply N.mod_small.
Qed.

Lemma sub_add w x y : x < 2 ^ w -> sub w (add w x y) y = x.
Proof.
  intros Hx. unfold add, sub. pose proof (pow_pos w) as P. pose proof (N.mod_lt y (2 ^ w) ltac:(lia)) as L.
  rewrite N.add_mod_idemp_l by lia. rewrite <- (N.add_mod_idemp_l (x + y)) by lia.
  rewrite <- (N.add_mod_idemp_r x y) by lia. rewrite N.add_mod_idemp_l by lia.
  replace (x + y mod 2 ^ w + (2 ^ w - y mod 2 ^ w)) with (x + 1 * 2 ^ w) by lia.
  rewrite N.mod_add by lia. now apply N.mod_small.
Qed.

Lemma add_comm w x y : add w x y = add w y x.
Proof. unfold add. now rewrite N.add_comm. Qed.

Lemma ROTR_inv w n m x : n + m = w -> x < 2 ^ w -> ROTR w n (ROTR w m x) = x.
Proof.
  intros <- Hx. unfold ROTR. replace (n + m - m) with n by lia. replace (n + m - n) with m by lia.
  pose proof (pow_pos n). pose proof (pow_pos m). rewrite N.pow_add_r in Hx.
  pose proof (N.div_mod x (2 ^ m) ltac:(lia)) as E.
  assert (Hq : x / 2 ^ m < 2 ^ n) by (apply N.div_lt_upper_bound; lia).
  rewrite N.div_add, N.div_small, N.mod_add, (N.mod_small (x / 2 ^ m)) by lia. lia.
Qed.

Lemma lxor_cancel x y : N.lxor (N.lxor x y) y = x.
Proof. rewrite N.lxor_assoc, N.lxor_nilpotent. apply N.lxor_0_r. Qed.

(** ** SipHash *)
Definition sip_unround (v : N * N * N * N) : N * N * N * N :=
  let '(a, b, c, d) := v in
  let c := ROTR 64 32 c in
  let d := N.lxor d a in           let b := N.lxor b c in
  let d := ROTR 64 21 d in         let b := ROTR 64 17 b in
  let a := sub 64 a d in           let c := sub 64 c b in
  let a := ROTR 64 32 a in
  let d := N.lxor d c in           let b := N.lxor b a in
  let d := ROTR 64 16 d in         let b := ROTR 64 13 b in
  let c := sub 64 c d in           let a := sub 64 a b in
  (a, b, c, d).

Ltac words :=
  repeat first [ apply add_lt | apply sub_lt | apply lxor_lt | apply ROTL_lt | apply ROTR_lt; [lia|] | assumption ].

Lemma sip_unround_round v : vb v -> sip_unround (sip_round v) = v.
Proof.
  destruct v as [[[a b] c] d]. intros (Ha & Hb & Hc & Hd). unfold sip_round, sip_unround.
  assert (RI : forall n x, n <= 64 -> x < 2 ^ 64 -> ROTR 64 n (ROTL 64 n x) = x).
  { intros n x Hn Hx. unfold ROTL. apply ROTR_inv; [lia|assumption]. }
  rewrite (RI 32) by (try lia; words). rewrite !lxor_cancel.
  rewrite !(RI 21), !(RI 17) by (try lia; words). rewrite !sub_add by words.
  rewrite (RI 32) by (try lia; words). rewrite !lxor_cancel.
  rewrite !(RI 16), !(RI 13) by (try lia; words). rewrite !sub_add by words. reflexivity.
Qed.

Lemma sip_unround_vb v : vb v -> vb (sip_unround v).
Proof.
  destruct v as [[[a b] c] d]. intros (Ha & Hb & Hc & Hd). unfold sip_unround, vb. repeat split; words.
Qed.

Lemma sip_round_unround v : vb v -> sip_round (sip_unround v) = v.
Proof.
  destruct v as [[[a b] c] d]. intros (Ha & Hb & Hc & Hd). unfold sip_round, sip_unround.
  assert (RI : forall n x, n <= 64 -> x < 2 ^ 64 -> ROTL 64 n (ROTR 64 n x) = x).
  { intros n x Hn Hx. unfold ROTL. apply ROTR_inv; [lia|assumption]. }
  rewrite !add_sub by words. rewrite !(RI 16), !(RI 13) by (try lia; words). rewrite !lxor_cancel.
  rewrite !(RI 32) by (try lia; words). rewrite !add_sub by words.
  rewrite !(RI 21), !(RI 17) by (try lia; words). rewrite !lxor_cancel.
  rewrite !(RI 32) by (try lia; words). reflexivity.
Qed.

Lemma permutes_inv {A} (ok : A -> Prop) F G :
  (forall x, ok x -> ok (F x)) -> (forall x, ok x -> ok (G x)) ->
  (forall x, ok x -> G (F x) = x) -> (forall x, ok x -> F (G x) = x) -> permutes ok F.
Proof.
  intros HF HG GF FG. split; [exact HF|]. intros y Hy. exists (G y). split; [split; auto|].
  intros x [Hx <-]. now apply GF.
Qed.

Lemma permutes_comp {A} (ok : A -> Prop) F G : permutes ok F -> permutes ok G -> permutes ok (fun x => F (G x)).
Proof.
  intros [F1 F2] [G1 G2]. split; [auto|]. intros y Hy.
  destruct (F2 y Hy) as (z & [Hz Ez] & Uz). destruct (G2 z Hz) as (x & [Hx Ex] & Ux).
  exists x. split; [split; [assumption|now rewrite Ex]|].
  intros x' [Hx' E]. apply Ux. split; [assumption|]. symmetry. apply Uz. auto.
Qed.

Lemma permutes_ext {A} (ok : A -> Prop) F G : (forall x, ok x -> F x = G x) -> permutes ok F -> permutes ok G.
Proof.
  intros E [F1 F2]. split; [intros x Hx; rewrite <- E by assumption; auto|].
  intros y Hy. destruct (F2 y Hy) as (x & [Hx Ex] & U). exists x. split; [split; [assumption|now rewrite <- E]|].
  intros x' [Hx' E']. apply U. split; [assumption|now rewrite E].
Qed.

Lemma permutes_inj {A} (ok : A -> Prop) F x y : permutes ok F -> ok x -> ok y -> F x = F y -> x = y.
Proof.
  intros [F1 F2] Hx Hy E. destruct (F2 (F x) (F1 x Hx)) as (z & _ & U).
  rewrite <- (U x), <- (U y); auto.
Qed.

Lemma permutes_fold {A B} (ok : A -> Prop) (F : A -> B -> A) l :
  Forall (fun b => permutes ok (fun x => F x b)) l -> permutes ok (fun x => fold_left F l x).
Proof.
  induction 1 as [|b l Hb HF IH].
  - apply (permutes_inv ok _ (fun x => x)); auto.
  - exact (permutes_comp ok (fun x => fold_left F l x) (fun x => F x b) IH Hb).
Qed.

Definition of_st (s : sip_state) : N * N * N * N := (v0 s, v1 s, v2 s, v3 s).
Lemma st_of_of_st s : st_of (of_st s) = s. Proof. now destruct s. Qed.
Lemma vb_of_st s : vb (of_st s) <-> sip_mid_ok s. Proof. reflexivity. Qed.
Lemma ok_st_of v : vb v -> sip_mid_ok (st_of v). Proof. now destruct v as [[[a b] c] d]. Qed.
Lemma of_st_st_of v : of_st (st_of v) = v. Proof. now destruct v as [[[a b] c] d]. Qed.

Lemma sip_compress_perm : permutes sip_mid_ok sip_compress.
Proof.
  assert (E : forall s, sip_mid_ok s -> sip_compress s = st_of (sip_round (of_st s)) /\ vb (sip_round (of_st s))).
  { intros s Hs. rewrite <- (st_of_of_st s) at 1. now apply sip_compress_ok. }
  apply (permutes_inv _ _ (fun s => st_of (sip_unround (of_st s)))).
  - intros s Hs. destruct (E s Hs) as [-> H]. now apply ok_st_of.
  - intros s Hs. apply ok_st_of, sip_unround_vb. exact Hs.
  - intros s Hs. destruct (E s Hs) as [-> H]. rewrite of_st_st_of, sip_unround_round by exact Hs.
    apply st_of_of_st.
  - intros s Hs. assert (V := sip_unround_vb (of_st s) Hs). destruct (E _ (ok_st_of _ V)) as [-> _].
    rewrite of_st_st_of, sip_round_unround by exact Hs. apply st_of_of_st.
Qed.

Lemma c_rounds_perm : permutes sip_mid_ok c_rounds.
Proof. exact (permutes_comp _ _ _ sip_compress_perm sip_compress_perm). Qed.
Lemma d_rounds_perm : permutes sip_mid_ok d_rounds.
Proof. exact (permutes_comp _ _ _ c_rounds_perm c_rounds_perm). Qed.

Lemma sip_absorb_perm m : m < 2 ^ 64 -> permutes sip_mid_ok (fun s => sip_absorb s m).
Proof.
  intros Hm.
  assert (P3 : permutes sip_mid_ok (fun s => mk_sip (v0 s) (v1 s) (v2 s) (N.lxor (v3 s) m))).
  { apply (permutes_inv _ _ (fun s => mk_sip (v0 s) (v1 s) (v2 s) (N.lxor (v3 s) m)));
      try (intros s (H0 & H1 & H2 & H3); repeat split; try assumption; now apply lxor_lt);
      intros [a b c d] _; cbn; now rewrite lxor_cancel. }
  assert (P0 : permutes sip_mid_ok (fun s => mk_sip (N.lxor (v0 s) m) (v1 s) (v2 s) (v3 s))).
  { apply (permutes_inv _ _ (fun s => mk_sip (N.lxor (v0 s) m) (v1 s) (v2 s) (v3 s)));
      try (intros s (H0 & H1 & H2 & H3); repeat split; try assumption; now apply lxor_lt);
      intros [a b c d] _; cbn; now rewrite lxor_cancel. }
  exact (permutes_comp _ _ _ P0 (permutes_comp _ _ _ c_rounds_perm P3)).
Qed.

Lemma sip_states_differ c k0 k1 k0' k1' v v' chunks s s' : wf_config c -> vb v -> vb v' ->
  Forall (slice c) chunks -> v <> v' ->
  he_inputs (siphash24_engine c) (sip_at c k0 k1 v []) chunks = Ok s ->
  he_inputs (siphash24_engine c) (sip_at c k0' k1' v' []) chunks = Ok s' -> sip_st s <> sip_st s'.
Proof.
  intros WF Hv Hv' HF Hne. destruct (wf_M c WF) as [H256 _].
  rewrite !sip_inputs_exact by assumption. destruct (_ && _); [discriminate|]. intros [= <-] [= <-].
  cbn [sip_at sip_st app]. intros E. apply Hne.
  assert (HB := le_words8_bounded (List.concat chunks)).
  rewrite <- (of_st_st_of v), <- (of_st_st_of v'). f_equal.
  rewrite <- (proj1 (sip_words_ok _ v Hv HB)), <- (proj1 (sip_words_ok _ v' Hv' HB)) in E.
  eapply (permutes_inj sip_mid_ok (fun x => fold_left sip_absorb (le_words 8 (List.concat chunks)) x));
    try (apply ok_st_of; assumption); [|exact E].
  apply permutes_fold. eapply Forall_impl; [|exact HB]. exact sip_absorb_perm.
Qed.

Lemma sip_keys_differ c k0 k1 k0' k1' chunks s s' : wf_config c ->
  k0 < 2 ^ 64 -> k1 < 2 ^ 64 -> k0' < 2 ^ 64 -> k1' < 2 ^ 64 -> Forall (slice c) chunks ->
  (k0, k1) <> (k0', k1') ->
  he_inputs (siphash24_engine c) (with_keys k0 k1) chunks = Ok s ->
  he_inputs (siphash24_engine c) (with_keys k0' k1') chunks = Ok s' -> sip_st s <> sip_st s'.
Proof.
  intros WF H0 H1 H0' H1' HF Hne. rewrite !(sip_with_keys_at c).
  apply sip_states_differ; try assumption; try (now apply sip_init_vb).
  intros E. apply Hne. unfold sip_init in E.
  pose proof (f_equal (fun p => fst (fst (fst p))) E) as E0. pose proof (f_equal (fun p => snd (fst (fst p))) E) as E1.
  cbn [fst snd] in E0, E1.
  apply (f_equal (fun x => N.lxor x 0x736f6d6570736575)) in E0. apply (f_equal (fun x => N.lxor x 0x646f72616e646f6d)) in E1.
  rewrite !lxor_cancel in E0, E1. now subst.
Qed.

Lemma sip_midstates_differ c m m' n n' chunks s s' : wf_config c -> sip_mid_ok m -> sip_mid_ok m' ->
  Forall (slice c) chunks -> m <> m' ->
  he_inputs (siphash24_engine c) (sip_from_midstate m n) chunks = Ok s ->
  he_inputs (siphash24_engine c) (sip_from_midstate m' n') chunks = Ok s' -> sip_st s <> sip_st s'.
Proof.
  intros WF Hm Hm' HF Hne. destruct (wf_M c WF) as [H256 _].
  assert (Es : forall m n, sip_from_midstate m n = sip_at c 0 0 (of_st m) []).
  { intros x k. unfold sip_at. change (len []) with 0. rewrite N.mod_0_l by lia. destruct x. reflexivity. }
  rewrite !Es. apply sip_states_differ; try assumption.
  intros E. apply Hne. rewrite <- (st_of_of_st m), <- (st_of_of_st m'). now rewrite E.
Qed.

Lemma add_add w x y z : add w (add w x y) z = add w x (y + z).
Proof. unfold add. pose proof (pow_pos w). rewrite N.add_mod_idemp_l by lia. now rewrite N.add_assoc. Qed.

Lemma add_fixed w x y : x < 2 ^ w -> y < 2 ^ w -> add w x y = x -> y = 0.
Proof.
  intros Hx Hy E. rewrite add_comm in E. apply (f_equal (fun z => sub w z x)) in E. rewrite sub_add in E by assumption.
  rewrite E. unfold sub. rewrite (N.mod_small x) by assumption. replace (x + (2 ^ w - x)) with (2 ^ w) by lia.
  apply N.mod_same. lia.
Qed.

(** ** SHA-2 *)
Section Sha2Rounds.
  Context (P : SpecSha2.sha2_params).
  Notation w := (SpecSha2.width P).
  Definition state8 : Type := (N * N * N * N * N * N * N * N)%type.
  Definition ok8 (s : state8) : Prop :=
    let '(a, b, c, d, e, f, g, h) := s in
    a < 2 ^ w /\ b < 2 ^ w /\ c < 2 ^ w /\ d < 2 ^ w /\ e < 2 ^ w /\ f < 2 ^ w /\ g < 2 ^ w /\ h < 2 ^ w.

  (** T1 without [h] *)
  Definition rest (e f g k wt : N) : N := SpecSha2.S1 P e + SpecSha2.Ch w e f g + k + wt.
  Definition unround (s : state8) (kw : N * N) : state8 :=
    let '(a', a, b, c, e', e, f, g) := s in
    let '(k, wt) := kw in
    let T1 := sub w a' (add w (SpecSha2.S0 P a) (SpecSha2.Maj a b c)) in
    (a, b, c, sub w e' T1, e, f, g, sub w T1 (rest e f g k wt)).

  Lemma T1_split h e f g k wt :
    sum w [h; SpecSha2.S1 P e; SpecSha2.Ch w e f g; k; wt] = add w h (rest e f g k wt).
  Proof. unfold sum, rest. cbn [fold_left]. rewrite !add_add. unfold add. rewrite N.add_0_l. apply (f_equal (fun x => x mod 2 ^ w)). lia. Qed.

  Lemma round_perm kw : permutes ok8 (fun s => SpecSha2.round P s kw).
  Proof.
    destruct kw as [k wt]. apply (permutes_inv _ _ (fun s => unround s (k, wt))).
    - intros [[[[[[[a b] c] d] e] f] g] h] (Ha & Hb & Hc & Hd & He & Hf & Hg & Hh). cbn [SpecSha2.round].
      repeat split; try assumption; apply add_lt.
    - intros [[[[[[[a b] c] d] e] f] g] h] (Ha & Hb & Hc & Hd & He & Hf & Hg & Hh). cbn [unround].
      repeat split; try assumption; apply sub_lt.
    - intros [[[[[[[a b] c] d] e] f] g] h] (Ha & Hb & Hc & Hd & He & Hf & Hg & Hh).
      cbn [SpecSha2.round unround]. rewrite T1_split. rewrite !sub_add by (assumption || apply add_lt). reflexivity.
    - intros [[[[[[[a b] c] d] e] f] g] h] (Ha & Hb & Hc & Hd & He & Hf & Hg & Hh).
      cbn [SpecSha2.round unround]. rewrite T1_split. rewrite !add_sub by (assumption || apply sub_lt). reflexivity.
  Qed.

  Lemma rounds_perm l : permutes ok8 (fun s => fold_left (SpecSha2.round P) l s).
  Proof. apply permutes_fold. apply Forall_forall. intros kw _. apply round_perm. Qed.

  Lemma compress_fixed block : exists! H, (length H = 8%nat /\ bounded w H) /\ SpecSha2.compress P H block = H.
  Proof.
    destruct (rounds_perm (combine (SpecSha2.K P) (SpecSha2.schedule P block))) as [PO PU].
    assert (Z : ok8 (0, 0, 0, 0, 0, 0, 0, 0)) by (pose proof (pow_pos w); repeat split; lia).
    destruct (PU _ Z) as (s & [Hs Es] & U).
    destruct s as [[[[[[[a b] c] d] e] f] g] h].
    exists [a; b; c; d; e; f; g; h]. split.
    - destruct Hs as (Ha & Hb & Hc & Hd & He & Hf & Hg & Hh). split; [split; [reflexivity|repeat constructor; assumption]|].
      unfold SpecSha2.compress. rewrite Es. unfold add. rewrite !N.add_0_r, !N.mod_small by assumption. reflexivity.
    - intros H [[HL HB] E].
      do 8 (destruct H as [|? H]; [discriminate|]). destruct H; [|discriminate].
      repeat match goal with H : Forall _ (_ :: _) |- _ => inversion H; clear H; subst | H : bounded _ (_ :: _) |- _ => inversion H; clear H; subst end.
      assert (Hok : ok8 (n, n0, n1, n2, n3, n4, n5, n6)) by (repeat split; assumption).
      specialize (PO _ Hok). cbv beta in PO. unfold SpecSha2.compress in E.
      destruct (fold_left (SpecSha2.round P) (combine (SpecSha2.K P) (SpecSha2.schedule P block))
                  (n, n0, n1, n2, n3, n4, n5, n6)) as [[[[[[[a' b'] c'] d'] e'] f'] g'] h'] eqn:EF.
      destruct PO as (? & ? & ? & ? & ? & ? & ? & ?).
      assert (E8 : (a', b', c', d', e', f', g', h') = (0, 0, 0, 0, 0, 0, 0, 0)).
      { pose proof (f_equal (fun l => nth 0 l 0) E) as E0. pose proof (f_equal (fun l => nth 1 l 0) E) as E1.
        pose proof (f_equal (fun l => nth 2 l 0) E) as E2. pose proof (f_equal (fun l => nth 3 l 0) E) as E3.
        pose proof (f_equal (fun l => nth 4 l 0) E) as E4. pose proof (f_equal (fun l => nth 5 l 0) E) as E5.
        pose proof (f_equal (fun l => nth 6 l 0) E) as E6. pose proof (f_equal (fun l => nth 7 l 0) E) as E7.
        cbn [nth] in *.
        apply (add_fixed w) in E0, E1, E2, E3, E4, E5, E6, E7; try assumption. now subst. }
      rewrite E8 in EF. specialize (U _ (conj Hok EF)). now injection U; intros; subst.
  Qed.
End Sha2Rounds.

(** ** SHA-1 *)
Definition state5 : Type := (N * N * N * N * N)%type.
Definition ok5 (s : state5) : Prop :=
  let '(a, b, c, d, e) := s in a < 2 ^ 32 /\ b < 2 ^ 32 /\ c < 2 ^ 32 /\ d < 2 ^ 32 /\ e < 2 ^ 32.

Definition rest1 (t : nat) (a b c d wt : N) : N := ROTL 32 5 a + SpecSha1.f t b c d + SpecSha1.K t + wt.
Definition unround1 (s : state5) (tw : nat * N) : state5 :=
  let '(a', a, b', c, d) := s in
  let '(t, wt) := tw in
  let b := ROTR 32 30 b' in (a, b, c, d, sub 32 a' (rest1 t a b c d wt)).

Lemma T_split t a b c d e wt :
  sum 32 [ROTL 32 5 a; SpecSha1.f t b c d; e; SpecSha1.K t; wt] = add 32 e (rest1 t a b c d wt).
Proof. unfold sum, rest1. cbn [fold_left]. rewrite !add_add. unfold add. rewrite N.add_0_l. apply (f_equal (fun x => x mod 2 ^ 32)). lia. Qed.

Lemma round1_perm tw : permutes ok5 (fun s => SpecSha1.round s tw).
Proof.
  destruct tw as [t wt]. apply (permutes_inv _ _ (fun s => unround1 s (t, wt))).
  - intros [[[[a b] c] d] e] (Ha & Hb & Hc & Hd & He). cbn [SpecSha1.round].
    rewrite T_split. repeat split; try assumption; try apply add_lt. apply (ROTR_lt 32); [lia|assumption].
  - intros [[[[a b] c] d] e] (Ha & Hb & Hc & Hd & He). cbn [unround1].
    repeat split; try assumption; try apply sub_lt. apply (ROTR_lt 32); [lia|assumption].
  - intros [[[[a b] c] d] e] (Ha & Hb & Hc & Hd & He). cbn [SpecSha1.round unround1]. rewrite T_split.
    unfold ROTL. rewrite (ROTR_inv 32 30 (32 - 30)) by (lia || assumption).
    rewrite sub_add by assumption. reflexivity.
  - intros [[[[a b] c] d] e] (Ha & Hb & Hc & Hd & He). cbn [SpecSha1.round unround1]. rewrite T_split.
    rewrite !add_sub by (assumption || apply sub_lt).
    unfold ROTL. rewrite (ROTR_inv 32 (32 - 30) 30) by (lia || assumption). reflexivity.
Qed.

Lemma compress1_fixed block : exists! H, (length H = 5%nat /\ bounded 32 H) /\ SpecSha1.compress H block = H.
Proof.
  unfold SpecSha1.compress. generalize (combine (seq 0 80) (SpecSha1.schedule block)). intros l.
  assert (PR : permutes ok5 (fun s => fold_left SpecSha1.round l s)).
  { apply permutes_fold. apply Forall_forall. intros kw _. apply round1_perm. }
  destruct PR as [PO PU].
  assert (Z : ok5 (0, 0, 0, 0, 0)) by (repeat split; lia).
  destruct (PU _ Z) as (s & [Hs Es] & U).
  destruct s as [[[[a b] c] d] e].
  exists [a; b; c; d; e]. split.
  - destruct Hs as (Ha & Hb & Hc & Hd & He). split; [split; [reflexivity|repeat constructor; assumption]|].
    rewrite Es. unfold add. rewrite !N.add_0_r, !N.mod_small by assumption. reflexivity.
  - intros H [[HL HB] E].
    do 5 (destruct H as [|? H]; [discriminate|]). destruct H; [|discriminate].
    repeat match goal with H : Forall _ (_ :: _) |- _ => inversion H; clear H; subst | H : bounded _ (_ :: _) |- _ => inversion H; clear H; subst end.
    assert (Hok : ok5 (n, n0, n1, n2, n3)) by (repeat split; assumption).
    specialize (PO _ Hok). cbv beta in PO.
    destruct (fold_left SpecSha1.round l (n, n0, n1, n2, n3)) as [[[[a' b'] c'] d'] e'] eqn:EF.
    destruct PO as (? & ? & ? & ? & ?).
    assert (E8 : (a', b', c', d', e') = (0, 0, 0, 0, 0)).
    { pose proof (f_equal (fun l => nth 0 l 0) E) as E0. pose proof (f_equal (fun l => nth 1 l 0) E) as E1.
      pose proof (f_equal (fun l => nth 2 l 0) E) as E2. pose proof (f_equal (fun l => nth 3 l 0) E) as E3.
      pose proof (f_equal (fun l => nth 4 l 0) E) as E4.
      cbn [nth] in *.
      apply (add_fixed 32) in E0, E1, E2, E3, E4; try assumption. now subst. }
    rewrite E8 in EF. specialize (U _ (conj Hok EF)). now injection U; intros; subst.
Qed.

(** the 64- or 128-byte block functions of the SHA family in the model *)
Lemma sha_fixed_point c a block : wf_config c -> sha_family a -> length block = md_block (md_of a) ->
  exists! h, good_h (md_of a) h /\ block_out c a (h, block) = Ok h.
Proof.
  intros WF Ha Hb.
  assert (X : exists! h, good_h (md_of a) h /\ md_compress (md_of a) h block = h).
  { destruct a; try contradiction; [exact (compress1_fixed block)|exact (compress_fixed SpecSha2.params256 block)|..];
      exact (compress_fixed SpecSha2.params512 block). }
  destruct X as (h & [Hg E] & U). exists h. split.
  - split; [exact Hg|]. rewrite block_out_ok by assumption. cbn [fst snd]. now rewrite E.
  - intros h' [Hg' E']. apply U. split; [exact Hg'|]. rewrite block_out_ok in E' by assumption. cbn [fst snd] in E'. congruence.
Qed.
