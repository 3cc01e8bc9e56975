(** Proofs about the traced text: leaving out what is recorded gives the text that
    does not record. *)
From Coq Require Import Lia.
From Verif Require Import Base ModelSimd ModelSip ModelEngine GenBase TraceBase SpecGen ProofGenBase.
Open Scope N_scope.

Lemma erase_tbind {A B} (m : tm A) (f : A -> tm B) x g :
  snd m = x -> (forall a, snd (f a) = g a) -> snd (tbind m f) = bind x g.
Proof. intros <- H. cbn [tbind snd]. apply bind_ext. intros a _. apply H. Qed.
Lemma erase_if {A} (b : bool) (x y : tm A) x' y' :
  snd x = x' -> snd y = y' -> snd (t_if b x y) = if b then x' else y'.
Proof. intros <- <-. reflexivity. Qed.
Lemma loop_ext {S} (f g : N -> S -> res S) n i s : (forall j s, f j s = g j s) ->
  for_loop n i f s = for_loop n i g s.
Proof. intros H. apply for_loop_ext. intros. apply H. Qed.
Lemma for_each_ext {A S} (f g : A -> S -> res S) xs : (forall x s, f x s = g x s) ->
  forall s, for_each xs f s = for_each xs g s.
Proof. intros H. induction xs as [|x xs IH]; intros s; cbn [for_each]; [reflexivity|]. rewrite H. apply bind_ext. auto. Qed.
Lemma for_enum_ext {A S} (f g : N -> A -> S -> res S) xs : (forall i x s, f i x s = g i x s) ->
  forall i s, for_enum xs i f s = for_enum xs i g s.
Proof. intros H. induction xs as [|x xs IH]; intros i s; cbn [for_enum]; [reflexivity|]. rewrite H. apply bind_ext. auto. Qed.
Lemma zip_iter_ext {A B} (f g : A -> B -> res A) : (forall x s, f x s = g x s) ->
  forall d s, zip_iter_mut d s f = zip_iter_mut d s g.
Proof. intros H. induction d as [|x d IH]; intros [|y s]; cbn [zip_iter_mut]; try reflexivity. rewrite H, IH. reflexivity. Qed.
Lemma zip_chunks_ext {A B} (f g : A -> list B -> res (list B)) n : (forall x s, f x s = g x s) ->
  forall xs r, zip_chunks_mut xs n r f = zip_chunks_mut xs n r g.
Proof. intros H. induction xs as [|x xs IH]; intros r; cbn [zip_chunks_mut]; try reflexivity. rewrite H, IH. reflexivity. Qed.

Create HintDb erase discriminated.
#[export] Hint Constants Opaque : erase.
(** One step through the two texts side by side. *)
Ltac er_let :=
  lazymatch goal with
  | |- snd (let x := ?e in @?f x) = (let y := _ in @?g y) =>
      change ((fun v => snd (f v) = g v) e); generalize e; intro; cbv beta
  | |- snd (let x := ?e in @?f x) = _ =>
      change (snd (f e) = _); cbv beta
  end.
(** [cmp::min]: a plain [let] in the text that does not record *)
Ltac er_min :=
  lazymatch goal with
  | |- snd (tbind (t_min ?a ?b) ?f) = (let x := _ in @?k x) =>
      change (snd (f (N.min a b)) = k (N.min a b)); generalize (N.min a b); intro; cbv beta
  | |- snd (tbind (t_min ?a ?b) ?f) = ?r =>
      change (snd (f (N.min a b)) = r); cbv beta
  end.
Ltac er_pair :=
  repeat lazymatch goal with
  | |- snd (match ?p with (_, _) => _ end) = _ => is_var p; destruct p
  end.
Ltac er_in := intros; cbv beta; er_pair.
Ltac er :=
  er_pair;
  lazymatch goal with
  | |- snd (tbind (t_min _ _) _) = _ => er_min; er
  | |- snd (tbind _ _) = bind _ _ => apply erase_tbind; [er | er_in; er]
  | |- snd (t_if ?b _ _) = (if ?b then _ else _) => apply erase_if; er
  | |- snd (let x := _ in _) = _ => er_let; er
  | |- snd (t_for_loop _ _ _ _) = for_loop _ _ _ _ => apply loop_ext; er_in; er
  | |- snd (t_for_each _ _ _) = for_each _ _ _ => apply for_each_ext; er_in; er
  | |- snd (t_for_enum _ _ _ _) = for_enum _ _ _ _ => apply for_enum_ext; er_in; er
  | |- snd (t_zip_iter_mut _ _ _) = zip_iter_mut _ _ _ => apply zip_iter_ext; er_in; er
  | |- snd (t_zip_chunks_mut _ _ _ _) = zip_chunks_mut _ _ _ _ => apply zip_chunks_ext; er_in; er
  | |- _ => first [solve [auto with erase nocore] | reflexivity | idtac]
  end.

(** ** Two runs side by side: the same events, and related results. *)

Definition same_trace {A} (R : A -> A -> Prop) (x y : tm A) : Prop := fst x = fst y /\ res_rel R (snd x) (snd y).

Lemma st_bind A B (R : A -> A -> Prop) (S : B -> B -> Prop) m m' f f' :
  same_trace R m m' -> (forall a a', R a a' -> same_trace S (f a) (f' a')) ->
  same_trace S (tbind m f) (tbind m' f').
Proof.
  destruct m as [t [a|p]], m' as [t' [a'|p']]; intros [Ht Hr] Hf; cbn [fst snd res_rel] in *; try contradiction.
  - destruct (Hf a a' Hr) as [H1 H2]. subst. unfold same_trace, tbind. cbn [fst snd bind]. now rewrite H1.
  - subst. now split.
Qed.
Lemma st_ret A (R : A -> A -> Prop) a a' : R a a' -> same_trace R (tret a) (tret a').
Proof. now split. Qed.
Lemma st_lift A (R : A -> A -> Prop) x x' : res_rel R x x' -> same_trace R (tlift x) (tlift x').
Proof. now split. Qed.
Lemma st_record A (R : A -> A -> Prop) e x x' : res_rel R x x' -> same_trace R (record e x) (record e x').
Proof. now split. Qed.
Lemma st_refl A (m m' : tm A) : m = m' -> same_trace eq m m'.
Proof. intros ->. split; [reflexivity|]. destruct (snd m'); reflexivity. Qed.
Lemma st_if A (R : A -> A -> Prop) b x y x' y' : (b = true -> same_trace R x x') -> (b = false -> same_trace R y y') ->
  same_trace R (t_if b x y) (t_if b x' y').
Proof. intros H1 H2. destruct b; [destruct (H1 eq_refl)|destruct (H2 eq_refl)]; split; cbn; congruence. Qed.

Definition any {A} (_ _ : A) : Prop := True.
Definition same_length {A} (x y : list A) : Prop := length x = length y.
Lemma same_length_len A (x y : list A) : same_length x y -> len x = len y.
Proof. unfold same_length, len. congruence. Qed.

Lemma slice_to_rel A n (x y : list A) : same_length x y -> same_trace same_length (t_slice_to n x) (t_slice_to n y).
Proof.
  intros H. apply st_record. unfold slice_to. rewrite (same_length_len _ _ _ H). destruct (_ <=? _); [|reflexivity].
  cbn [res_rel]. unfold same_length in *. rewrite !firstn_length. congruence.
Qed.
Lemma slice_from_rel A n (x y : list A) : same_length x y -> same_trace same_length (t_slice_from n x) (t_slice_from n y).
Proof.
  intros H. unfold t_slice_from. rewrite (same_length_len _ _ _ H). apply st_record. unfold slice_from.
  rewrite (same_length_len _ _ _ H). destruct (_ <=? _); [|reflexivity].
  cbn [res_rel]. unfold same_length in *. rewrite !skipn_length. congruence.
Qed.
Lemma slice_range_rel A i j (x y : list A) : same_length x y ->
  same_trace (fun a b => i <= j <= len x /\ len a = j - i /\ len b = j - i) (t_slice_range i j x) (t_slice_range i j y).
Proof.
  intros H. apply st_record. unfold slice_range. rewrite (same_length_len _ _ _ H).
  destruct ((i <=? j) && (j <=? len y)) eqn:E; [|reflexivity]. apply andb_prop in E. destruct E as [E1 E2].
  apply N.leb_le in E1, E2. cbn [res_rel]. split; [easy|].
  unfold same_length, len in *. rewrite !firstn_length, !skipn_length. lia.
Qed.
Lemma copy_rel A (d d' s s' : list A) : len d = len d' -> same_length s s' ->
  same_trace (fun a b => len a = len d /\ len b = len d) (t_copy_from_slice d s) (t_copy_from_slice d' s').
Proof.
  intros Hd Hs. pose proof (same_length_len _ _ _ Hs) as Hl. unfold t_copy_from_slice. rewrite <- Hd, <- Hl.
  split; [reflexivity|]. cbn [snd]. unfold copy_from_slice. rewrite <- Hd, <- Hl.
  destruct (N.eqb_spec (len d) (len s)) as [E|E].
  - rewrite E, N.eqb_refl. cbn [res_rel]. split; congruence.
  - rewrite (proj2 (N.eqb_neq (len s) (len d))) by congruence. reflexivity.
Qed.

Lemma zip_rel A B (P : B -> B -> Prop) (body body' : A -> B -> tm A) :
  (forall d s d' s', P s s' -> same_trace any (body d s) (body' d' s')) ->
  forall dst dst' src src', same_length dst dst' -> Forall2 P src src' ->
  same_trace (fun x y => same_length x y /\ length x = length dst) (t_zip_iter_mut dst src body) (t_zip_iter_mut dst' src' body').
Proof.
  intros H. unfold t_zip_iter_mut.
  enough (forall dst dst' src src' i, same_length dst dst' -> Forall2 P src src' ->
    zip_trace i dst src body = zip_trace i dst' src' body' /\
    res_rel (fun x y => same_length x y /\ length x = length dst)
      (zip_iter_mut dst src (fun d s => snd (body d s))) (zip_iter_mut dst' src' (fun d s => snd (body' d s)))) as G.
  { intros. apply G; assumption. }
  induction dst as [|d dst IH]; intros [|d' dst'] src src' i Hd Hs; try discriminate Hd.
  - inversion Hs; subst; split; now try split.
  - inversion Hs as [|s s' ss ss' Hss Hs']; subst.
    + split; [reflexivity|]. split; [exact Hd|reflexivity].
    + cbn [zip_trace zip_iter_mut]. injection Hd as Hd.
      destruct (H d s d' s' Hss) as [E R]. destruct (IH dst' ss ss' (i + 1) Hd Hs') as [E2 R2]. rewrite E.
      destruct (snd (body d s)) as [v|p], (snd (body' d' s')) as [v'|p']; cbn [res_rel] in R; try contradiction; cbn [bind].
      * rewrite E2. split; [reflexivity|].
        destruct (zip_iter_mut dst ss _), (zip_iter_mut dst' ss' _); cbn [res_rel bind] in *; try contradiction; [|exact R2].
        destruct R2 as [R2 R3]. unfold same_length in *. cbn [length]. split; congruence.
      * subst. split; reflexivity.
Qed.
Lemma any_all A (x y : list A) : same_length x y -> Forall2 any x y.
Proof.
  revert y. induction x as [|a x IH]; intros [|b y] H; try discriminate H; constructor; [exact I|].
  apply IH. now injection H.
Qed.

Lemma chunks_rel A B n (body body' : A -> list B -> tm (list B)) :
  (forall x x' c c', same_length c c' -> same_trace same_length (body x c) (body' x' c')) ->
  forall xs xs' r r', same_length xs xs' -> same_length r r' ->
  same_trace same_length (t_zip_chunks_mut xs n r body) (t_zip_chunks_mut xs' n r' body').
Proof.
  intros H. unfold t_zip_chunks_mut.
  enough (forall xs xs' r r' i, same_length xs xs' -> same_length r r' ->
    chunks_trace i xs n r body = chunks_trace i xs' n r' body' /\
    res_rel same_length (zip_chunks_mut xs n r (fun x c => snd (body x c))) (zip_chunks_mut xs' n r' (fun x c => snd (body' x c)))) as G.
  { intros. apply G; assumption. }
  induction xs as [|x xs IH]; intros [|x' xs'] r r' i Hx Hr; try discriminate Hx; cbn [chunks_trace zip_chunks_mut].
  - now split.
  - rewrite (same_length_len _ _ _ Hr). destruct (_ <? _); [now split|]. injection Hx as Hx.
    assert (Hf : same_length (firstn (N.to_nat n) r) (firstn (N.to_nat n) r'))
      by (unfold same_length in *; rewrite !firstn_length; congruence).
    assert (Hk : same_length (skipn (N.to_nat n) r) (skipn (N.to_nat n) r'))
      by (unfold same_length in *; rewrite !skipn_length; congruence).
    destruct (H x x' _ _ Hf) as [E R]. destruct (IH xs' _ _ (i + 1) Hx Hk) as [E2 R2]. rewrite E.
    destruct (snd (body x _)) as [v|p], (snd (body' x' _)) as [v'|p']; cbn [res_rel] in R; try contradiction; cbn [bind].
    + rewrite E2. split; [reflexivity|].
      destruct (zip_chunks_mut xs n _ _), (zip_chunks_mut xs' n _ _); cbn [res_rel bind] in *; try contradiction; [|exact R2].
      unfold same_length in *. rewrite !app_length. congruence.
    + subst. split; reflexivity.
Qed.

Lemma for_rel S (R : S -> S -> Prop) (body body' : N -> S -> tm S) :
  (forall i s s', R s s' -> same_trace R (body i s) (body' i s')) ->
  forall n i s s', R s s' -> same_trace R (t_for_loop n i body s) (t_for_loop n i body' s').
Proof.
  intros H. unfold t_for_loop. induction n as [|n IH]; intros i s s' Hs; cbn [for_trace for_loop]; [now split|].
  destruct (H i s s' Hs) as [E Q]. unfold same_trace. cbn [fst snd]. rewrite E.
  destruct (snd (body i s)) as [v|p], (snd (body' i s')) as [v'|p']; cbn [res_rel] in Q; try contradiction; cbn [bind].
  - destruct (IH (i + 1) v v' Q) as [E2 Q2]. cbn [fst snd] in E2, Q2. rewrite E2. now split.
  - subst. now split.
Qed.
Lemma each_rel A S (P : A -> A -> Prop) (R : S -> S -> Prop) (body body' : A -> S -> tm S) :
  (forall x x' s s', P x x' -> R s s' -> same_trace R (body x s) (body' x' s')) ->
  forall xs xs' s s', Forall2 P xs xs' -> R s s' -> same_trace R (t_for_each xs body s) (t_for_each xs' body' s').
Proof.
  intros H. unfold t_for_each. induction xs as [|x xs IH]; intros xs' s s' Hx Hs; inversion Hx as [|? x' ? xs2 H1 H2]; subst;
    cbn [each_trace for_each]; [now split|].
  destruct (H x x' s s' H1 Hs) as [E Q]. unfold same_trace. cbn [fst snd]. rewrite E.
  destruct (snd (body x s)) as [v|p], (snd (body' x' s')) as [v'|p']; cbn [res_rel] in Q; try contradiction; cbn [bind].
  - destruct (IH xs2 v v' H2 Q) as [E2 Q2]. cbn [fst snd] in E2, Q2. rewrite E2. now split.
  - subst. now split.
Qed.
