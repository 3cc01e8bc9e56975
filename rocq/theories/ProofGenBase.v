(** The generated text against the hand-written model: what the engines have in
    common. *)
From Coq Require Import Arith Lia.
From Verif Require Import Base GenBase ModelEngine ProofBase.

Lemma bind_ok {A B} (x : res A) (v : A) (k : A -> res B) : x = Ok v -> bind x k = k v.
Proof. now intros ->. Qed.
Lemma bind_ext {A B} (x : res A) (k k' : A -> res B) : (forall v, x = Ok v -> k v = k' v) -> bind x k = bind x k'.
Proof. destruct x; cbn [bind]; auto. Qed.
Lemma bind_bind {A B C} (x : res A) (k : A -> res B) (k' : B -> res C) :
  bind (bind x k) k' = bind x (fun v => bind (k v) k').
Proof. now destruct x. Qed.
Lemma bind_ret {A} (x : res A) : bind x (fun v => Ok v) = x.
Proof. now destruct x. Qed.

Lemma zip_iter_mut_assign {A B} (dst : list A) (src : list B) conv :
  zip_iter_mut dst src (fun _ s => let* t := conv s in Ok t) = zip_assign dst src conv.
Proof.
  revert src. induction dst as [|d ds IH]; intros [|s ss]; try reflexivity.
  cbn [zip_iter_mut zip_assign]. rewrite IH. now destruct (conv s).
Qed.

Lemma zip_chunks_copy {A} (xs : list A) (n : N) ret (f : A -> bytes) :
  zip_chunks_mut xs n ret (fun x c => copy_from_slice c (f x)) = zip_copy (map f xs) (N.to_nat n) ret.
Proof.
  revert ret. induction xs as [|x xs IH]; intros ret; [reflexivity|].
  cbn [zip_chunks_mut zip_copy map].
  assert (E : (len ret <? n) = Nat.ltb (length ret) (N.to_nat n)).
  { destruct (Nat.ltb_spec (length ret) (N.to_nat n)); [apply N.ltb_lt|apply N.ltb_ge]; unfold len; lia. }
  rewrite E. destruct Nat.ltb; [reflexivity|]. apply bind_ext. intros v _. now rewrite IH.
Qed.

Lemma for_loop_ext {S} (f g : N -> S -> res S) n : forall i s,
  (forall j s, i <= j < i + N.of_nat n -> f j s = g j s) -> for_loop n i f s = for_loop n i g s.
Proof.
  induction n as [|n IH]; intros i s H; [reflexivity|]. cbn [for_loop].
  rewrite H by lia. apply bind_ext. intros v _. apply IH. intros. apply H. lia.
Qed.

(** ** The buffering loop *)
Section Loop.
  Context (cfg : config) (B : N) (gpb pb : engine -> res engine) (P : list N -> Prop).
  Context (Hpb : forall e, len (e_buffer e) = B -> P (e_h e) -> gpb e = pb e).
  Context (Hinv : forall e e', len (e_buffer e) = B -> P (e_h e) -> pb e = Ok e' ->
             len (e_buffer e') = B /\ P (e_h e')).

  (** The text of every [g_*_Engine_input_loop1], with the block size and the
      block function as parameters. *)
  Fixpoint gen_loop (fuel : nat) (v_self : engine) (v_inp : list byte) {struct fuel} : res (engine * list byte) :=
    if negb (len v_inp =? 0) then
      match fuel with
      | O => Panic POutOfFuel
      | S fuel =>
        let v_buf_idx := (e_length v_self) mod B in
        let* v_rem_len := usize_sub cfg B v_buf_idx in
        let v_write_len := N.min v_rem_len (len v_inp) in
        let* t2 := usize_add cfg v_buf_idx v_write_len in
        let* t3 := slice_range v_buf_idx t2 (e_buffer v_self) in
        let* t4 := slice_to v_write_len v_inp in
        let* t5 := copy_from_slice t3 t4 in
        let v_self := mk_engine (splice v_buf_idx t2 (e_buffer v_self) t5) (e_h v_self) (e_length v_self) in
        let* t6 := usize_add cfg (e_length v_self) v_write_len in
        let v_self := mk_engine (e_buffer v_self) (e_h v_self) t6 in
        let* v_self := (
          if ((e_length v_self) mod B) =? 0 then gpb v_self
          else Ok v_self) in
        let* t7 := slice_from v_write_len v_inp in
        let v_inp := t7 in
        gen_loop fuel v_self v_inp
      end
    else Ok (v_self, v_inp).

  Definition inv (e : engine) : Prop := len (e_buffer e) = B /\ P (e_h e).

  Lemma copy_both (buf : bytes) i j src :
    (let* t3 := slice_range i j buf in
     let* t5 := copy_from_slice t3 src in
     Ok (splice i j buf t5)) = copy_range buf i j src.
  Proof.
    unfold slice_range, copy_range. destruct (i <=? j) eqn:E1; [|reflexivity].
    destruct (j <=? len buf) eqn:E2; [|reflexivity]. cbn [andb bind]. unfold copy_from_slice.
    apply N.leb_le in E1, E2.
    assert (E : len (firstn (N.to_nat (j - i)) (skipn (N.to_nat i) buf)) = j - i).
    { unfold len in *. rewrite firstn_length, skipn_length. lia. }
    rewrite E. destruct (len src =? j - i); reflexivity.
  Qed.

  Lemma copy_range_len (buf : bytes) i j src b : copy_range buf i j src = Ok b -> len b = len buf.
  Proof.
    unfold copy_range. destruct (i <=? j) eqn:E1; [|discriminate].
    destruct (j <=? len buf) eqn:E2; [|discriminate]. cbn [andb].
    destruct (len src =? j - i) eqn:E3; [|discriminate]. intros E. injection E as <-.
    apply N.leb_le in E1, E2. apply N.eqb_eq in E3. unfold len in *.
    rewrite !app_length, firstn_length, skipn_length. lia.
  Qed.

  (** one iteration *)
  Lemma gen_step e inp (k : engine -> bytes -> res (engine * list byte)) :
    inv e ->
    (let* v_rem_len := usize_sub cfg B (e_length e mod B) in
     let* t2 := usize_add cfg (e_length e mod B) (N.min v_rem_len (len inp)) in
     let* t3 := slice_range (e_length e mod B) t2 (e_buffer e) in
     let* t4 := slice_to (N.min v_rem_len (len inp)) inp in
     let* t5 := copy_from_slice t3 t4 in
     let* t6 := usize_add cfg (e_length e) (N.min v_rem_len (len inp)) in
     let* v_self := (if t6 mod B =? 0 then gpb (mk_engine (splice (e_length e mod B) t2 (e_buffer e) t5) (e_h e) t6)
                     else Ok (mk_engine (splice (e_length e mod B) t2 (e_buffer e) t5) (e_h e) t6)) in
     let* t7 := slice_from (N.min v_rem_len (len inp)) inp in
     k v_self t7)
    = (let* (e', rest) := input_step cfg B pb e inp in k e' rest).
  Proof.
    intros [HB HP]. unfold input_step.
    destruct (usize_sub cfg B (e_length e mod B)) as [r|p]; [|reflexivity]. cbn [bind].
    set (w := N.min r (len inp)).
    destruct (usize_add cfg (e_length e mod B) w) as [hi|p]; [|reflexivity]. cbn [bind].
    assert (Hs : slice_to w inp = Ok (firstn (N.to_nat w) inp)).
    { unfold slice_to. destruct (w <=? len inp) eqn:E; [reflexivity|].
      apply N.leb_gt in E. unfold w in E. lia. }
    rewrite Hs. cbn [bind]. rewrite <- copy_both.
    assert (Hlen := copy_range_len (e_buffer e) (e_length e mod B) hi (firstn (N.to_nat w) inp)).
    rewrite <- copy_both in Hlen.
    destruct (slice_range (e_length e mod B) hi (e_buffer e)) as [t3|p]; [|reflexivity]. cbn [bind] in *.
    destruct (copy_from_slice t3 (firstn (N.to_nat w) inp)) as [t5|p]; [|reflexivity]. cbn [bind] in *.
    specialize (Hlen _ eq_refl). set (b := splice (e_length e mod B) hi (e_buffer e) t5) in *. clearbody b.
    destruct (usize_add cfg (e_length e) w) as [l|p]; [|reflexivity]. cbn [bind].
    rewrite Hpb by (cbn [e_buffer e_h]; congruence).
    destruct (l mod B =? 0).
    - destruct (pb _) as [e2|p]; [|reflexivity]. cbn [bind].
      destruct (slice_from w inp); reflexivity.
    - cbn [bind]. destruct (slice_from w inp); reflexivity.
  Qed.

  Lemma step_inv e inp e' rest : inv e -> input_step cfg B pb e inp = Ok (e', rest) -> inv e'.
  Proof.
    intros [HB HP]. unfold input_step.
    destruct (usize_sub cfg B (e_length e mod B)) as [r|p]; [|discriminate]. cbn [bind].
    set (w := N.min r (len inp)).
    destruct (usize_add cfg (e_length e mod B) w) as [hi|p]; [|discriminate]. cbn [bind].
    destruct (slice_to w inp) as [s|p]; [|discriminate]. cbn [bind].
    destruct (copy_range (e_buffer e) (e_length e mod B) hi s) as [b|p] eqn:Eb; [|discriminate]. cbn [bind].
    apply copy_range_len in Eb.
    destruct (usize_add cfg (e_length e) w) as [l|p]; [|discriminate]. cbn [bind].
    destruct (l mod B =? 0).
    - destruct (pb _) as [e2|p] eqn:E2; [|discriminate]. cbn [bind].
      apply Hinv in E2; [|cbn [e_buffer e_h]; congruence..].
      destruct (slice_from w inp); [|discriminate]. cbn [bind]. intros E. injection E as <- _. exact E2.
    - cbn [bind]. destruct (slice_from w inp); [|discriminate]. cbn [bind]. intros E. injection E as <- _.
      split; cbn [e_buffer e_h]; congruence.
  Qed.

  Lemma gen_loop_eq fuel : forall e inp, inv e ->
    gen_loop fuel e inp = let* e' := input_loop fuel cfg B pb e inp in Ok (e', []).
  Proof.
    induction fuel as [|fuel IH]; intros e inp HI.
    - destruct inp; reflexivity.
    - destruct inp as [|x inp']; [reflexivity|]. remember (x :: inp') as inp eqn:Ei.
      assert (E0 : (len inp =? 0) = false) by (subst; reflexivity).
      cbn [gen_loop]. rewrite E0. cbn [negb].
      transitivity (let* (e', rest) := input_step cfg B pb e inp in gen_loop fuel e' rest).
      { exact (gen_step e inp (fun e' rest => gen_loop fuel e' rest) HI). }
      subst inp. cbn [input_loop]. rewrite bind_bind. apply bind_ext. intros [e' rest] Es.
      apply IH. exact (step_inv _ _ _ _ HI Es).
  Qed.

  Lemma input_inv fuel : forall e inp e', inv e -> input_loop fuel cfg B pb e inp = Ok e' -> inv e'.
  Proof.
    induction fuel as [|fuel IH]; intros e [|x inp] e' HI.
    - cbn. congruence.
    - discriminate.
    - cbn. congruence.
    - cbn [input_loop]. destruct input_step as [[e2 rest]|p] eqn:Es; [|discriminate]. cbn [bind].
      apply IH. exact (step_inv _ _ _ _ HI Es).
  Qed.

  Definition gen_input (e : engine) (inp : bytes) : res engine :=
    let* (v_self, v_inp) := gen_loop (length inp) e inp in Ok v_self.

  Lemma gen_input_eq e inp : inv e -> gen_input e inp = engine_input cfg B pb e inp.
  Proof.
    intros HI. unfold gen_input, engine_input. rewrite gen_loop_eq by exact HI.
    now destruct input_loop.
  Qed.

  Lemma engine_input_inv e inp e' : inv e -> engine_input cfg B pb e inp = Ok e' -> inv e'.
  Proof. apply input_inv. Qed.

  (** ** finalize *)
  Context (R : N) (tail : N -> list bytes) (mid : engine -> res bytes).

  Fixpoint gen_inputs (e : engine) (l : list bytes) : res engine :=
    match l with
    | [] => Ok e
    | d :: ds => let* e' := gen_input e d in gen_inputs e' ds
    end.

  Lemma gen_inputs_eq l : forall e, inv e -> gen_inputs e l = engine_inputs cfg B pb e l.
  Proof.
    induction l as [|d l IH]; intros e HI; [reflexivity|]. cbn [gen_inputs engine_inputs].
    rewrite gen_input_eq by exact HI. apply bind_ext. intros e' E. apply IH.
    exact (engine_input_inv _ _ _ HI E).
  Qed.

  Definition gen_finalize (v_self : engine) : res bytes :=
    let v_data_len := e_length v_self in
    let v_zeroes := array x00 (B - R) in
    let* v_self := gen_input v_self [x80] in
    let* v_self := (
      if (len v_zeroes) <? ((e_length v_self) mod B) then gen_input v_self v_zeroes
      else Ok v_self) in
    let* v_pad_length := usize_sub cfg (len v_zeroes) ((e_length v_self) mod B) in
    let* t2 := slice_to v_pad_length v_zeroes in
    let* v_self := gen_input v_self t2 in
    let* _ := debug_assert cfg (((e_length v_self) mod B) =? (len v_zeroes)) in
    let* t3 := checked_mul cfg 64 8 v_data_len in
    let* v_self := gen_inputs v_self (tail t3) in
    let* _ := debug_assert cfg (((e_length v_self) mod B) =? 0) in
    mid v_self.

  Lemma gen_finalize_eq e : inv e ->
    gen_finalize e = let* e' := finalize_pad cfg B pb R tail e in mid e'.
  Proof.
    intros HI. unfold gen_finalize, finalize_pad.
    rewrite gen_input_eq by exact HI. rewrite bind_bind. apply bind_ext. intros e1 E1.
    apply engine_input_inv in E1; [|exact HI].
    rewrite bind_bind.
    assert (E2 : (if len (array x00 (B - R)) <? e_length e1 mod B then gen_input e1 (array x00 (B - R)) else Ok e1)
               = (if len (array x00 (B - R)) <? e_length e1 mod B
                  then engine_input cfg B pb e1 (array x00 (B - R)) else Ok e1)).
    { destruct (_ <? _); [now apply gen_input_eq|reflexivity]. }
    rewrite E2. apply bind_ext. intros e2 E3.
    assert (I2 : inv e2).
    { destruct (_ <? _) in E3; [exact (engine_input_inv _ _ _ E1 E3)|congruence]. }
    clear E2 E3. rewrite bind_bind. apply bind_ext. intros p _. rewrite bind_bind. apply bind_ext. intros z _.
    rewrite gen_input_eq by exact I2. rewrite bind_bind. apply bind_ext. intros e3 E3.
    apply engine_input_inv in E3; [|exact I2].
    rewrite bind_bind. apply bind_ext. intros u _. rewrite bind_bind. apply bind_ext. intros bits _.
    rewrite gen_inputs_eq by exact E3. rewrite bind_bind. apply bind_ext. intros e4 _.
    rewrite bind_bind. apply bind_ext. intros u' _. reflexivity.
  Qed.
End Loop.
