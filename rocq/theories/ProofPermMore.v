(** Each line of RIPEMD-160 permutes the chaining values; the SHA block
    functions add a permutation of the chaining value to it. *)
From Coq Require Import Arith NArith ZArith List Bool Lia.
From Verif Require Import Base SpecBase SpecMD ModelEngine ModelSha2Round ModelRipemdRound TablesRipemd ModelRipemd
  ModelAll SpecApi SpecPerm ProofBase ProofSha1 ProofRipemd ProofMD ProofApi ProofMid ProofPerm.
From Verif Require SpecRipemd.
Import ListNotations.
Open Scope N_scope.

Definition unstep (fn : N -> N -> N -> N) (k x s : N) (v : state5) : state5 :=
  let '(E, T, B, C', D) := v in
  let C := ROTR 32 10 C' in
  (sub 32 (ROTR 32 s (sub 32 T E)) (fn B C D + x + k), B, C, D, E).

Lemma sum_split a f x k : sum 32 [a; f; x; k] = add 32 a (f + x + k).
Proof. unfold sum. cbn [fold_left]. rewrite !add_add. unfold add. rewrite N.add_0_l. apply (f_equal (fun x => x mod 2 ^ 32)). lia. Qed.

Lemma step_perm fn k x s : 0 < s < 32 -> permutes ok5 (SpecRipemd.step fn k x s).
Proof.
  intros Hs. apply (permutes_inv _ _ (unstep fn k x s)).
  - intros [[[[a b] c] d] e] (Ha & Hb & Hc & Hd & He). cbn [SpecRipemd.step].
    repeat split; try assumption; try apply add_lt. now apply ROTL_lt.
  - intros [[[[a b] c] d] e] (Ha & Hb & Hc & Hd & He). cbn [unstep].
    repeat split; try assumption; try apply sub_lt. apply (ROTR_lt 32); [lia|assumption].
  - intros [[[[a b] c] d] e] (Ha & Hb & Hc & Hd & He). cbn [SpecRipemd.step unstep]. rewrite sum_split.
    rewrite sub_add by (apply ROTL_lt, add_lt). unfold ROTL.
    rewrite (ROTR_inv 32 10 (32 - 10)), (ROTR_inv 32 s (32 - s)) by (lia || assumption || apply add_lt).
    now rewrite sub_add by assumption.
  - intros [[[[a b] c] d] e] (Ha & Hb & Hc & Hd & He). cbn [SpecRipemd.step unstep]. rewrite sum_split. unfold ROTL.
    rewrite (add_sub 32 (ROTR 32 s (sub 32 b a))) by (apply (ROTR_lt 32); [lia|apply sub_lt]).
    rewrite (ROTR_inv 32 (32 - 10) 10), (ROTR_inv 32 (32 - s) s) by (lia || assumption || apply sub_lt).
    now rewrite add_sub by assumption.
Qed.

Lemma left_perm X : permutes ok5 (fun v => fold_left (SpecRipemd.left_step X) (seq 0 80) v).
Proof.
  apply permutes_fold, Forall_forall. intros j Hj. apply in_seq in Hj. apply step_perm, shifts_ok'. lia.
Qed.
Lemma right_perm X : permutes ok5 (fun v => fold_left (SpecRipemd.right_step X) (seq 0 80) v).
Proof.
  apply permutes_fold, Forall_forall. intros j Hj. apply in_seq in Hj. apply step_perm, shifts_ok'. lia.
Qed.

(** ** The code *)
Definition words5 (v : list N) : Prop := length v = 5%nat /\ bounded 32 v.

Lemma tuple5_inj a b : tuple5 a = tuple5 b -> a = b.
Proof.
  destruct a as [[[[? ?] ?] ?] ?], b as [[[[? ?] ?] ?] ?]. cbn [tuple5]. intros H. now injection H as -> -> -> -> ->.
Qed.
Lemma words5_tuple v : words5 v -> exists s, v = tuple5 s /\ ok5 s.
Proof.
  intros [HL HB]. destruct (list5 v HL) as (a & b & c & d & e & ->). exists (a, b, c, d, e). split; [reflexivity|].
  unfold bounded in HB. repeat match goal with H : Forall _ (_ :: _) |- _ => inversion_clear H end.
  repeat split; assumption.
Qed.
Lemma tuple_words5 s : ok5 s -> words5 (tuple5 s).
Proof.
  destruct s as [[[[a b] c] d] e]. intros (Ha & Hb & Hc & Hd & He).
  split; [reflexivity|]. repeat constructor; assumption.
Qed.

Lemma permutes_tuple (F : list N -> list N) (G : state5 -> state5) :
  (forall s, ok5 s -> F (tuple5 s) = tuple5 (G s)) -> permutes ok5 G -> permutes words5 F.
Proof.
  intros E [G1 G2]. split.
  - intros v Hv. destruct (words5_tuple v Hv) as (s & -> & Hs). rewrite E by exact Hs. now apply tuple_words5, G1.
  - intros y Hy. destruct (words5_tuple y Hy) as (t & -> & Ht). destruct (G2 t Ht) as (s & [Hs Es] & U).
    exists (tuple5 s). split.
    + split; [now apply tuple_words5|]. rewrite E by exact Hs. now rewrite Es.
    + intros v [Hv Ev]. destruct (words5_tuple v Hv) as (s' & -> & Hs'). f_equal. apply U. split; [exact Hs'|].
      rewrite E in Ev by exact Hs'. now apply tuple5_inj.
Qed.

Lemma view_80 v s : length v = 5%nat -> view5 (0 + 80) v = tuple5 s -> v = tuple5 s.
Proof.
  intros HL. destruct (list5 v HL) as (a & b & c & d & e & ->).
  change (view5 (0 + 80) [a; b; c; d; e]) with [a; b; c; d; e]. auto.
Qed.
Lemma sim_start s : ok5 s -> sim5 0 (tuple5 s) s.
Proof.
  intros Hs. pose proof (tuple_words5 s Hs) as [HL HB]. destruct s as [[[[a b] c] d] e].
  split; [reflexivity|]. split; [reflexivity|exact HB].
Qed.
Lemma rip_lines_perm c X : bounded 32 X ->
  permutes words5 (run_line c left_fn left_k X left_rows) /\
  permutes words5 (run_line c right_fn right_k X right_rows).
Proof.
  intros HX. split.
  - apply (permutes_tuple _ _) with (2 := left_perm X). intros s Hs.
    pose proof (line_sim c X left_fn left_k SpecRipemd.f SpecRipemd.KL
      (fun j => SpecRipemd.rL (j / 16) (j mod 16))
      (fun r b c d H1 H2 H3 H4 => conj (proj1 (rf_spec r b c d H1 H2 H3 H4)) (f_lt r b c d H1 H2 H3))
      left_k_spec gen_left (fun j => eq_refl) (fun j H => proj1 (shifts_ok' j H)) 80 0 _ _ (sim_start s Hs)
      (le_n 80)) as (HL & HV & _).
    rewrite <- left_rows_gen in HL, HV. now apply view_80.
  - apply (permutes_tuple _ _) with (2 := right_perm X). intros s Hs.
    pose proof (line_sim c X right_fn right_k (fun r => SpecRipemd.f (4 - r)) SpecRipemd.KR
      (fun j => SpecRipemd.rR (j / 16) (j mod 16))
      (fun r b c d H1 H2 H3 H4 => conj (proj2 (rf_spec r b c d H1 H2 H3 H4)) (f_lt (4 - r) b c d H1 H2 H3))
      right_k_spec gen_right (fun j => eq_refl) (fun j H => proj2 (shifts_ok' j H)) 80 0 _ _ (sim_start s Hs)
      (le_n 80)) as (HL & HV & _).
    rewrite <- right_rows_gen in HL, HV. now apply view_80.
Qed.
Lemma rip_lines_code c X : length X = 16%nat -> bounded 32 X ->
  permutes (good_h (md_of Ripemd160)) (run_line c left_fn left_k X left_rows) /\
  permutes (good_h (md_of Ripemd160)) (run_line c right_fn right_k X right_rows).
Proof. intros _. exact (rip_lines_perm c X). Qed.

(** ** SHA-1 and SHA-2 *)
Definition untuple5 (v : list N) : state5 :=
  match v with [a; b; c; d; e] => (a, b, c, d, e) | _ => (0, 0, 0, 0, 0) end.
Lemma untuple5_tuple s : untuple5 (tuple5 s) = s.
Proof. now destruct s as [[[[a b] c] d] e]. Qed.
Lemma sha1_shape block : exists F, permutes words5 F /\
  forall h, words5 h -> SpecSha1.compress h block = add_words 32 h (F h).
Proof.
  set (l := combine (seq 0 80) (SpecSha1.schedule block)).
  exists (fun h => tuple5 (fold_left SpecSha1.round l (untuple5 h))). split.
  - apply (permutes_tuple _ (fun s => fold_left SpecSha1.round l s)).
    + intros s _. now rewrite untuple5_tuple.
    + apply permutes_fold, Forall_forall. intros kw _. apply round1_perm.
  - intros h [HL _]. destruct (list5 h HL) as (a & b & c & d & e & ->). cbn [untuple5 SpecSha1.compress]. fold l.
    destruct (fold_left SpecSha1.round l (a, b, c, d, e)) as [[[[a' b'] c'] d'] e']. reflexivity.
Qed.

Definition tuple8 (s : state8) : list N := let '(a, b, c, d, e, f, g, h) := s in [a; b; c; d; e; f; g; h].
Definition untuple8 (v : list N) : state8 :=
  match v with [a; b; c; d; e; f; g; h] => (a, b, c, d, e, f, g, h) | _ => (0, 0, 0, 0, 0, 0, 0, 0) end.
Lemma untuple8_tuple s : untuple8 (tuple8 s) = s.
Proof. now destruct s as [[[[[[[a b] c] d] e] f] g] h]. Qed.

Lemma sha2_shape P block : exists F, permutes (fun v => length v = 8%nat /\ bounded (SpecSha2.width P) v) F /\
  forall h, length h = 8%nat /\ bounded (SpecSha2.width P) h ->
  SpecSha2.compress P h block = add_words (SpecSha2.width P) h (F h).
Proof.
  set (l := combine (SpecSha2.K P) (SpecSha2.schedule P block)).
  assert (T1 : forall v, length v = 8%nat /\ bounded (SpecSha2.width P) v ->
    ok8 P (untuple8 v) /\ tuple8 (untuple8 v) = v).
  { intros v [HL HB]. do 9 (destruct v as [|? v]; try discriminate HL).
    unfold bounded in HB. repeat match goal with H : Forall _ (_ :: _) |- _ => inversion_clear H end.
    split; [repeat split; assumption|reflexivity]. }
  assert (T2 : forall s, ok8 P s -> length (tuple8 s) = 8%nat /\ bounded (SpecSha2.width P) (tuple8 s)).
  { intros [[[[[[[a b] c] d] e] f] g] h] (Ha & Hb & Hc & Hd & He & Hf & Hg & Hh).
    split; [reflexivity|repeat constructor; assumption]. }
  exists (fun h => tuple8 (fold_left (SpecSha2.round P) l (untuple8 h))). split.
  - destruct (rounds_perm P l) as [G1 G2]. split.
    + intros v Hv. apply T2, G1, T1, Hv.
    + intros y Hy. destruct (T1 y Hy) as [Hy1 Hy2]. destruct (G2 _ Hy1) as (s & [Hs Es] & U).
      exists (tuple8 s). split.
      * split; [now apply T2|]. rewrite untuple8_tuple. now rewrite Es.
      * intros v [Hv Ev]. destruct (T1 v Hv) as [Hv1 Hv2]. rewrite <- Hv2. f_equal. apply U.
        split; [exact Hv1|]. rewrite <- Ev. now rewrite untuple8_tuple.
  - intros h [HL _]. do 9 (destruct h as [|? h]; try discriminate HL). cbn [untuple8]. unfold SpecSha2.compress. fold l.
    destruct (fold_left (SpecSha2.round P) l _) as [[[[[[[a' b'] c'] d'] e'] f'] g'] h']. reflexivity.
Qed.

Lemma sha_rounds_permute c a block : wf_config c -> sha_family a -> length block = md_block (md_of a) ->
  exists F, permutes (good_h (md_of a)) F /\
    forall h, good_h (md_of a) h -> block_out c a (h, block) = Ok (add_words (word_bits a) h (F h)).
Proof.
  intros WF Ha Hb.
  assert (X : exists F, permutes (good_h (md_of a)) F /\
    forall h, good_h (md_of a) h -> md_compress (md_of a) h block = add_words (word_bits a) h (F h)).
  { destruct a; try contradiction; [exact (sha1_shape block)|exact (sha2_shape SpecSha2.params256 block)|..];
      exact (sha2_shape SpecSha2.params512 block). }
  destruct X as (F & HF & E). exists F. split; [exact HF|]. intros h Hg.
  rewrite block_out_ok by assumption. cbn [fst snd]. now rewrite E.
Qed.
