(** The buffering code: every reachable engine is determined by the bytes fed
    to it. *)
From Coq Require Import NArith ZArith List Bool Lia.
From Coq Require Import ZifyBool ZifyNat ZifyN.
From Verif Require Import Base SpecBase ModelEngine ProofBase.
Import ListNotations.
Open Scope N_scope.

Lemma bits_ge_16 c : wf_config c -> 16 <= usize_bits c.
Proof. unfold wf_config. lia. Qed.

Lemma pow_bits_ge c : wf_config c -> 65536 <= 2 ^ usize_bits c.
Proof.
  intros H. change 65536 with (2 ^ 16). apply N.pow_le_mono_r; [lia|]. now apply bits_ge_16.
Qed.

Lemma pow_bits_split c : wf_config c -> exists q, 2 ^ usize_bits c = 65536 * q /\ 0 < q.
Proof.
  intros H. exists (2 ^ (usize_bits c - 16)). split; [|apply pow2_pos].
  change 65536 with (2 ^ 16). rewrite <- N.pow_add_r. f_equal.
  pose proof (bits_ge_16 c H). lia.
Qed.

(* [lia] with remainders and quotients abstracted: they make it very slow. *)
Ltac gen_mod := repeat
  match goal with
  | |- context [N.modulo ?a ?b] => let x := fresh in set (x := N.modulo a b) in *; clearbody x
  | H : context [N.modulo ?a ?b] |- _ => let x := fresh in set (x := N.modulo a b) in *; clearbody x
  | |- context [Nat.modulo ?a ?b] => let x := fresh in set (x := Nat.modulo a b) in *; clearbody x
  | H : context [Nat.modulo ?a ?b] |- _ => let x := fresh in set (x := Nat.modulo a b) in *; clearbody x
  | H : context [N.pow _ _] |- _ => clear H
  end.
Ltac alia := gen_mod; lia.

Section Engine.
  Context (c : config) (B : nat) (pb : engine -> res engine).
  Context (compress : list N -> bytes -> list N) (good : list N -> Prop).
  Context (WF : wf_config c).
  Context (HB : (64 <= B <= 128)%nat) (HBd : exists q, 65536 = N.of_nat B * q /\ 0 < q).
  Context (Hpb : forall e, length (e_buffer e) = B -> good (e_h e) ->
             pb e = Ok (mk_engine (e_buffer e) (compress (e_h e) (e_buffer e)) (e_length e))).
  Context (Hgood : forall h b, good h -> length b = B -> good (compress h b)).

  Context (M : N) (HMeq : 2 ^ usize_bits c = M).

  (** The engine after feeding [msg] to an engine with buffer [buf0], chaining
      value [h0] and byte counter [L0]. *)
  Definition canon (buf0 : bytes) (h0 : list N) (L0 : N) (msg : bytes) : engine :=
    let rest := skipn (length msg / B * B) msg in
    mk_engine (rest ++ skipn (length rest) (last (blocks B msg) buf0))
              (fold_left compress (blocks B msg) h0)
              ((L0 + len msg) mod M).

  Context (buf0 : bytes) (h0 : list N) (L0 : N).
  Context (Hbuf0 : length buf0 = B) (Hh0 : good h0) (HL0 : L0 mod N.of_nat B = 0).

  Lemma M_div : exists q, M = N.of_nat B * q /\ 0 < q.
  Proof.
    destruct (pow_bits_split c WF) as (q & Hq & Hq0). rewrite <- HMeq, Hq.
    destruct HBd as (r & -> & Hr). exists (r * q). split; [symmetry; apply N.mul_assoc|nia].
  Qed.
  Lemma M_ge : 65536 <= M.
  Proof. rewrite <- HMeq. apply pow_bits_ge. exact WF. Qed.

  Lemma canon_length_mod msg : e_length (canon buf0 h0 L0 msg) mod N.of_nat B = len msg mod N.of_nat B.
  Proof.
    cbn [canon e_length]. destruct M_div as (q & Hq & Hq0). rewrite Hq.
    rewrite N.mod_mul_r by alia.
    rewrite N.mul_comm, N.mod_add by alia.
    rewrite N.mod_mod by alia.
    rewrite <- N.add_mod_idemp_l by alia. now rewrite HL0.
  Qed.

  Lemma blocks_tail dn rest : (length dn mod B = 0)%nat -> (length rest < B)%nat ->
    blocks B (dn ++ rest) = blocks B dn.
  Proof.
    intros Hd Hr. rewrite blocks_app by (try assumption; alia).
    rewrite (blocks_short B rest Hr). apply app_nil_r.
  Qed.

  Lemma tail_eq (dn rest : bytes) : (length dn mod B = 0)%nat -> (length rest < B)%nat ->
    skipn (length (dn ++ rest) / B * B) (dn ++ rest) = rest.
  Proof.
    intros Hd Hr. rewrite app_length.
    assert (E : (length dn = B * (length dn / B))%nat).
    { pose proof (Nat.div_mod (length dn) B). alia. }
    assert (Eq : ((length dn + length rest) / B * B = length dn)%nat).
    { rewrite E at 1. rewrite (Nat.mul_comm B), Nat.div_add_l by alia.
      rewrite (Nat.div_small (length rest) B) by exact Hr. alia. }
    rewrite Eq, skipn_app, skipn_all2, Nat.sub_diag by alia. reflexivity.
  Qed.

  Lemma canon_app dn rest : (length dn mod B = 0)%nat -> (length rest < B)%nat ->
    canon buf0 h0 L0 (dn ++ rest) =
    mk_engine (rest ++ skipn (length rest) (last (blocks B dn) buf0))
              (fold_left compress (blocks B dn) h0)
              ((L0 + len (dn ++ rest)) mod M).
  Proof.
    intros Hd Hr. unfold canon. rewrite tail_eq, blocks_tail by assumption. reflexivity.
  Qed.

  Lemma split_msg (msg : bytes) : exists dn rest, msg = dn ++ rest /\
    (length dn mod B = 0)%nat /\ (length rest < B)%nat.
  Proof.
    exists (firstn (length msg / B * B) msg), (skipn (length msg / B * B) msg).
    assert (Hle : (length msg / B * B <= length msg)%nat).
    { rewrite Nat.mul_comm. apply Nat.mul_div_le. alia. }
    split; [symmetry; apply firstn_skipn|]. split.
    - rewrite firstn_length_le by exact Hle. apply Nat.mod_mul. alia.
    - rewrite skipn_length. pose proof (Nat.div_mod (length msg) B).
      pose proof (Nat.mod_upper_bound (length msg) B). nia.
  Qed.

  Lemma last_block_length dn : length (last (blocks B dn) buf0) = B.
  Proof.
    assert (HF : Forall (fun b => length b = B) (blocks B dn)) by (apply blocks_Forall; alia).
    induction HF as [|b bs Hb HF IH]; [exact Hbuf0|].
    cbn [last]. destruct bs; [exact Hb|exact IH].
  Qed.

  Lemma good_fold bs : Forall (fun b => length b = B) bs -> good (fold_left compress bs h0).
  Proof.
    intros HF. revert h0 Hh0. induction HF as [|b bs Hb HF IH]; intros h Hh; [exact Hh|].
    cbn [fold_left]. apply IH. now apply Hgood.
  Qed.
  Lemma good_blocks dn : good (fold_left compress (blocks B dn) h0).
  Proof. apply good_fold. apply blocks_Forall. alia. Qed.

  Lemma canon_good msg : good (e_h (canon buf0 h0 L0 msg)).
  Proof. cbn [canon e_h]. apply good_blocks. Qed.

  (** One iteration of the loop. *)
  Lemma input_step_canon msg inp :
    (inp <> [])%list ->
    let n := N.to_nat (N.min (N.of_nat B - len msg mod N.of_nat B) (len inp)) in
    (overflow_checks c = false \/ (L0 + len msg) mod M + N.of_nat n < M) ->
    input_step c (N.of_nat B) pb (canon buf0 h0 L0 msg) inp
    = Ok (canon buf0 h0 L0 (msg ++ firstn n inp), skipn n inp).
  Proof.
    intros Hne n Hov. pose proof M_ge as HM.
    unfold input_step. rewrite canon_length_mod.
    destruct (split_msg msg) as (dn & rest & -> & Hd & Hr).
    assert (Eidx : len (dn ++ rest) mod N.of_nat B = len rest).
    { rewrite len_app. unfold len.
      rewrite <- Nnat.Nat2N.inj_add, <- Nnat.Nat2N.inj_mod.
      rewrite <- Nat.add_mod_idemp_l by alia. rewrite Hd. cbn [Nat.add].
      rewrite Nat.mod_small by exact Hr. reflexivity. }
    rewrite Eidx in *. fold n.
    rewrite canon_app by assumption. cbn [e_length e_buffer e_h].
    assert (Hn : N.of_nat n = N.min (N.of_nat B - len rest) (len inp)) by (unfold n; rewrite Eidx; apply Nnat.N2Nat.id). clearbody n.
    assert (Hlr : len rest < N.of_nat B) by (unfold len; alia).
    assert (Hli : 0 < len inp) by (destruct inp; [congruence|unfold len; cbn [length]; alia]).
    unfold usize_sub, checked_sub.
    destruct (N.leb_spec (len rest) (N.of_nat B)) as [_|]; [|alia]. cbn [bind].
    rewrite <- Hn.
    unfold usize_add at 1, checked_add at 1. rewrite HMeq.
    destruct (N.ltb_spec (len rest + N.of_nat n) M) as [_|]; [|alia]. cbn [bind].
    unfold slice_to at 1.
    destruct (N.leb_spec (N.of_nat n) (len inp)) as [_|]; [|alia]. cbn [bind].
    rewrite Nnat.Nat2N.id.
    assert (Hfn : length (firstn n inp) = n) by (apply firstn_length_le; unfold len in *; alia).
    set (lb := last (blocks B dn) buf0). pose proof (last_block_length dn) as Hlb. fold lb in Hlb.
    assert (Hbuf : length (rest ++ skipn (length rest) lb) = B).
    { rewrite app_length, skipn_length. alia. }
    unfold copy_range.
    destruct (N.leb_spec (len rest) (len rest + N.of_nat n)) as [_|]; [|alia].
    replace (len (rest ++ skipn (length rest) lb)) with (N.of_nat B) by (unfold len; alia).
    destruct (N.leb_spec (len rest + N.of_nat n) (N.of_nat B)) as [_|]; [|alia].
    cbn [andb].
    destruct (N.eqb_spec (len (firstn n inp)) (len rest + N.of_nat n - len rest)) as [_|HH];
      [|exfalso; apply HH; unfold len; rewrite Hfn; alia].
    cbn [bind].
    rewrite len_nat.
    replace (N.to_nat (len rest + N.of_nat n)) with (length rest + n)%nat by (unfold len; alia).
    rewrite firstn_app, Nat.sub_diag, firstn_O, firstn_all, app_nil_r.
    rewrite skipn_app, (skipn_all2 rest) by alia.
    replace (length rest + n - length rest)%nat with n by alia. cbn [app].
    rewrite skipn_skipn'.
    assert (Hadd : usize_add c ((L0 + len (dn ++ rest)) mod M) (N.of_nat n)
                   = Ok ((L0 + len (dn ++ rest) + N.of_nat n) mod M)).
    { unfold usize_add, checked_add. rewrite HMeq.
      assert (EM : ((L0 + len (dn ++ rest)) mod M + N.of_nat n) mod M
                 = (L0 + len (dn ++ rest) + N.of_nat n) mod M) by (apply N.add_mod_idemp_l; alia).
      destruct (N.ltb_spec ((L0 + len (dn ++ rest)) mod M + N.of_nat n) M) as [Hlt|Hge].
      - rewrite <- EM. now rewrite (N.mod_small (_ + N.of_nat n)) by exact Hlt.
      - destruct Hov as [Hov|Hov]; [|alia]. rewrite Hov, EM. reflexivity. }
    rewrite Hadd. cbn [bind].
    set (L1 := (L0 + len (dn ++ rest) + N.of_nat n) mod M).
    assert (HL1 : L1 = (L0 + len (dn ++ rest ++ firstn n inp)) mod M).
    { unfold L1. f_equal. unfold len. rewrite !app_length, Hfn. alia. }
    assert (HL1m : L1 mod N.of_nat B = (len rest + N.of_nat n) mod N.of_nat B).
    { replace L1 with (e_length (canon buf0 h0 L0 (dn ++ rest ++ firstn n inp)))
        by (cbn [canon e_length]; now rewrite HL1).
      rewrite canon_length_mod. rewrite app_assoc, len_app.
      rewrite <- N.add_mod_idemp_l by alia. rewrite Eidx. unfold len. now rewrite Hfn. }
    rewrite HL1m.
    unfold slice_from. destruct (N.leb_spec (N.of_nat n) (len inp)) as [_|]; [|alia].
    rewrite Nnat.Nat2N.id.
    rewrite <- (app_assoc dn rest).
    destruct (N.eqb_spec ((len rest + N.of_nat n) mod N.of_nat B) 0) as [Hz|Hnz].
    - (* a block is complete *)
      assert (Hfull : (length rest + n = B)%nat).
      { destruct (N.eq_dec (len rest + N.of_nat n) (N.of_nat B)) as [E|E]; [unfold len in E; alia|].
        rewrite N.mod_small in Hz by alia. alia. }
      rewrite (skipn_all2 lb) by alia. rewrite app_nil_r.
      rewrite Hpb; cbn [e_buffer e_h e_length].
      2:{ rewrite app_length. alia. }
      2:{ apply good_blocks. }
      cbn [bind]. f_equal. f_equal.
      rewrite <- (app_nil_r (dn ++ rest ++ firstn n inp)).
      rewrite canon_app.
      + cbn [length skipn app].
        rewrite blocks_app by (try assumption; alia).
        assert (E1 : blocks B (rest ++ firstn n inp) = [rest ++ firstn n inp]).
        { rewrite <- (app_nil_r (rest ++ firstn n inp)) at 1.
          rewrite blocks_cons by (try rewrite app_length; alia). now rewrite blocks_nil. }
        rewrite E1, fold_left_app, last_last. cbn [fold_left].
        rewrite app_nil_r, HL1. reflexivity.
      + rewrite app_length, app_length, Hfn.
        rewrite <- Nat.add_mod_idemp_l by alia. rewrite Hd, Hfull. apply Nat.mod_same. alia.
      + cbn. alia.
    - assert (Hpart : (length rest + n < B)%nat).
      { destruct (N.eq_dec (len rest + N.of_nat n) (N.of_nat B)) as [E|E].
        - rewrite E, N.mod_same in Hnz by alia. congruence.
        - unfold len in *. alia. }
      cbn [bind]. f_equal. f_equal.
      rewrite canon_app; [|assumption | rewrite app_length; alia].
      rewrite app_length, Hfn, HL1. fold lb. rewrite <- app_assoc. reflexivity.
  Qed.

  (** The whole loop, when the counter does not overflow (or wraps). *)
  Lemma input_loop_canon fuel : forall msg inp,
    (length inp <= fuel)%nat ->
    (overflow_checks c = false \/ (L0 + len msg) mod M + len inp < M) ->
    input_loop fuel c (N.of_nat B) pb (canon buf0 h0 L0 msg) inp
    = Ok (canon buf0 h0 L0 (msg ++ inp)).
  Proof.
    induction fuel as [|fuel IH]; intros msg inp Hf Hov.
    - destruct inp; [|cbn in Hf; alia]. cbn [input_loop]. now rewrite app_nil_r.
    - destruct inp as [|b inp']; [cbn [input_loop]; now rewrite app_nil_r|].
      cbn [input_loop]. set (inp := b :: inp') in *.
      rewrite input_step_canon; [|discriminate | destruct Hov as [|Hov]; [now left|right; alia]].
      set (n := N.to_nat (N.min (N.of_nat B - len msg mod N.of_nat B) (len inp))).
      cbn [bind].
      assert (Hn : (0 < n <= length inp)%nat).
      { assert (0 < length inp)%nat by (unfold inp; cbn; alia).
        pose proof (N.mod_lt (len msg) (N.of_nat B)). unfold n, len in *. alia. }
      rewrite IH.
      + rewrite <- app_assoc, firstn_skipn. reflexivity.
      + rewrite skipn_length. alia.
      + destruct Hov as [Hov|Hov]; [now left|right].
        pose proof M_ge as HM.
        rewrite len_app. unfold len at 2 3. rewrite firstn_length_le, skipn_length by alia.
        rewrite N.add_assoc. rewrite <- N.add_mod_idemp_l by alia.
        rewrite N.mod_small by (unfold len in *; alia). unfold len in *. alia.
  Qed.

  Lemma input_canon msg inp :
    (overflow_checks c = false \/ (L0 + len msg) mod M + len inp < M) ->
    engine_input c (N.of_nat B) pb (canon buf0 h0 L0 msg) inp
    = Ok (canon buf0 h0 L0 (msg ++ inp)).
  Proof. intros H. unfold engine_input. now apply input_loop_canon. Qed.

  (** Overflow of the counter with checks on. *)
  Lemma input_step_panic msg inp :
    (inp <> [])%list ->
    let n := N.to_nat (N.min (N.of_nat B - len msg mod N.of_nat B) (len inp)) in
    overflow_checks c = true -> M <= (L0 + len msg) mod M + N.of_nat n ->
    input_step c (N.of_nat B) pb (canon buf0 h0 L0 msg) inp = Panic POverflow.
  Proof.
    intros Hne n Hc Hov. pose proof M_ge as HM.
    unfold input_step. rewrite canon_length_mod.
    destruct (split_msg msg) as (dn & rest & -> & Hd & Hr).
    assert (Eidx : len (dn ++ rest) mod N.of_nat B = len rest).
    { rewrite len_app. unfold len.
      rewrite <- Nnat.Nat2N.inj_add, <- Nnat.Nat2N.inj_mod.
      rewrite <- Nat.add_mod_idemp_l by alia. rewrite Hd. cbn [Nat.add].
      rewrite Nat.mod_small by exact Hr. reflexivity. }
    rewrite Eidx in *. fold n.
    rewrite canon_app by assumption. cbn [e_length e_buffer e_h].
    assert (Hn : N.of_nat n = N.min (N.of_nat B - len rest) (len inp)) by (unfold n; rewrite Eidx; apply Nnat.N2Nat.id). clearbody n.
    assert (Hlr : len rest < N.of_nat B) by (unfold len; alia).
    unfold usize_sub, checked_sub.
    destruct (N.leb_spec (len rest) (N.of_nat B)) as [_|]; [|alia]. cbn [bind].
    rewrite <- Hn.
    unfold usize_add at 1, checked_add at 1. rewrite HMeq.
    destruct (N.ltb_spec (len rest + N.of_nat n) M) as [_|]; [|alia]. cbn [bind].
    unfold slice_to at 1.
    destruct (N.leb_spec (N.of_nat n) (len inp)) as [_|]; [|alia]. cbn [bind].
    rewrite Nnat.Nat2N.id.
    assert (Hfn : length (firstn n inp) = n) by (apply firstn_length_le; unfold len in *; alia).
    set (lb := last (blocks B dn) buf0). pose proof (last_block_length dn) as Hlb. fold lb in Hlb.
    unfold copy_range.
    destruct (N.leb_spec (len rest) (len rest + N.of_nat n)) as [_|]; [|alia].
    replace (len (rest ++ skipn (length rest) lb)) with (N.of_nat B)
      by (unfold len; rewrite app_length, skipn_length; alia).
    destruct (N.leb_spec (len rest + N.of_nat n) (N.of_nat B)) as [_|]; [|alia].
    cbn [andb].
    destruct (N.eqb_spec (len (firstn n inp)) (len rest + N.of_nat n - len rest)) as [_|HH];
      [|exfalso; apply HH; unfold len; rewrite Hfn; alia].
    cbn [bind]. unfold usize_add, checked_add. rewrite HMeq.
    destruct (N.ltb_spec ((L0 + len (dn ++ rest)) mod M + N.of_nat n) M) as [Hlt|Hge]; [alia|].
    rewrite Hc. reflexivity.
  Qed.

  Lemma input_loop_panic fuel : forall msg inp,
    (length inp <= fuel)%nat ->
    overflow_checks c = true -> M <= (L0 + len msg) mod M + len inp ->
    input_loop fuel c (N.of_nat B) pb (canon buf0 h0 L0 msg) inp = Panic POverflow.
  Proof.
    pose proof M_ge as HM.
    induction fuel as [|fuel IH]; intros msg inp Hf Hc Hov.
    - destruct inp; [|cbn in Hf; alia]. unfold len in Hov at 2. cbn [length] in Hov.
      pose proof (N.mod_lt (L0 + len msg) M). alia.
    - destruct inp as [|b inp'].
      { unfold len in Hov at 2. cbn [length] in Hov. pose proof (N.mod_lt (L0 + len msg) M). alia. }
      cbn [input_loop]. set (inp := b :: inp') in *.
      set (n := N.to_nat (N.min (N.of_nat B - len msg mod N.of_nat B) (len inp))).
      destruct (N.lt_ge_cases ((L0 + len msg) mod M + N.of_nat n) M) as [Hlt|Hge].
      + rewrite input_step_canon; [|discriminate|now right]. fold n. cbn [bind].
        assert (Hn : (0 < n <= length inp)%nat).
        { assert (0 < length inp)%nat by (unfold inp; cbn; alia).
          pose proof (N.mod_lt (len msg) (N.of_nat B)). unfold n, len in *. alia. }
        apply IH; [rewrite skipn_length; alia | exact Hc |].
        rewrite len_app. unfold len at 2 3. rewrite firstn_length_le, skipn_length by alia.
        rewrite N.add_assoc. rewrite <- N.add_mod_idemp_l by alia.
        rewrite N.mod_small by (unfold len in *; alia). unfold len in *. alia.
      + rewrite input_step_panic; [reflexivity|discriminate|exact Hc|exact Hge].
  Qed.

  Lemma input_panic msg inp :
    overflow_checks c = true -> M <= (L0 + len msg) mod M + len inp ->
    engine_input c (N.of_nat B) pb (canon buf0 h0 L0 msg) inp = Panic POverflow.
  Proof. intros H1 H2. unfold engine_input. now apply input_loop_panic. Qed.

  (** The complete behaviour of [input]. *)
  Definition would_overflow (msg inp : bytes) : bool :=
    overflow_checks c && (M <=? (L0 + len msg) mod M + len inp).

  Lemma input_exact msg inp :
    engine_input c (N.of_nat B) pb (canon buf0 h0 L0 msg) inp
    = if would_overflow msg inp then Panic POverflow else Ok (canon buf0 h0 L0 (msg ++ inp)).
  Proof.
    unfold would_overflow. destruct (overflow_checks c) eqn:Ec; cbn [andb].
    - destruct (N.leb_spec M ((L0 + len msg) mod M + len inp)).
      + now apply input_panic.
      + apply input_canon. right. alia.
    - apply input_canon. now left.
  Qed.

  (** Sequences of inputs behave as one input of the concatenation. *)
  Lemma inputs_exact l : forall msg,
    engine_inputs c (N.of_nat B) pb (canon buf0 h0 L0 msg) l
    = if would_overflow msg (List.concat l) then Panic POverflow
      else Ok (canon buf0 h0 L0 (msg ++ List.concat l)).
  Proof.
    pose proof M_ge as HM.
    induction l as [|d l IH]; intros msg; cbn [engine_inputs List.concat].
    - unfold would_overflow. unfold len at 2. cbn [length].
      pose proof (N.mod_lt (L0 + len msg) M).
      destruct (N.leb_spec M ((L0 + len msg) mod M + N.of_nat 0)); [alia|].
      rewrite andb_false_r, app_nil_r. reflexivity.
    - rewrite input_exact. unfold would_overflow in *.
      destruct (overflow_checks c); cbn [andb] in *.
      + destruct (N.leb_spec M ((L0 + len msg) mod M + len d)) as [H1|H1]; cbn [bind].
        * destruct (N.leb_spec M ((L0 + len msg) mod M + len (d ++ List.concat l))) as [|H2];
            [reflexivity|]. rewrite len_app in H2. alia.
        * rewrite IH. rewrite !len_app, N.add_assoc.
          rewrite <- (N.add_mod_idemp_l (L0 + len msg)) by alia.
          rewrite (N.mod_small ((L0 + len msg) mod M + len d)) by alia.
          rewrite <- N.add_assoc, <- app_assoc. reflexivity.
      + cbn [bind]. rewrite IH. now rewrite <- app_assoc.
  Qed.

  (** ** finalize *)

  Context (R : nat) (HR : (8 <= R <= 16)%nat).
  Context (tail : N -> list bytes) (Htail : forall bits, length (List.concat (tail bits)) = R).

  (* number of zero bytes written *)
  Definition zeros (n : nat) : nat :=
    Z.to_nat ((Z.of_nat B - Z.of_nat R - 1 - Z.of_nat n) mod Z.of_nat B).

  Definition padded_len (n : nat) : N := N.of_nat (n + 1 + zeros n + R).

  (* what goes into the length field *)
  Definition bit_field (msg : bytes) : N := (8 * ((L0 + len msg) mod M)) mod 2 ^ 64.

  Definition padding (msg : bytes) : bytes :=
    [x80] ++ repeat x00 (zeros (length msg)) ++ List.concat (tail (bit_field msg)).

  Lemma zeros_cases n :
    let idx := ((n + 1) mod B)%nat in
    zeros n = if Nat.leb idx (B - R) then (B - R - idx)%nat else (B - R + (B - idx))%nat.
  Proof.
    intros idx. unfold zeros.
    assert (Hidx : Z.of_nat idx = ((Z.of_nat n + 1) mod Z.of_nat B)%Z).
    { unfold idx. rewrite Nat2Z.inj_mod. f_equal. alia. }
    pose proof (Z.div_mod (Z.of_nat n + 1) (Z.of_nat B) ltac:(alia)) as HD.
    rewrite <- Hidx in HD.
    pose proof (Nat.mod_upper_bound (n + 1) B ltac:(alia)) as Hub. fold idx in Hub.
    set (q := ((Z.of_nat n + 1) / Z.of_nat B)%Z) in *.
    destruct (Nat.leb_spec idx (B - R)) as [Hle|Hgt].
    - replace (Z.of_nat B - Z.of_nat R - 1 - Z.of_nat n)%Z
        with ((Z.of_nat B - Z.of_nat R - Z.of_nat idx) + (- q) * Z.of_nat B)%Z by alia.
      rewrite Z.mod_add by alia. rewrite Z.mod_small by alia. alia.
    - replace (Z.of_nat B - Z.of_nat R - 1 - Z.of_nat n)%Z
        with ((Z.of_nat B - Z.of_nat R + (Z.of_nat B - Z.of_nat idx)) + (- q - 1) * Z.of_nat B)%Z by alia.
      rewrite Z.mod_add by alia. rewrite Z.mod_small by alia. alia.
  Qed.

  Lemma padded_mod n : ((n + 1 + zeros n + R) mod B = 0)%nat.
  Proof.
    rewrite zeros_cases. set (idx := ((n + 1) mod B)%nat).
    pose proof (Nat.div_mod (n + 1) B ltac:(alia)) as HD. fold idx in HD.
    pose proof (Nat.mod_upper_bound (n + 1) B ltac:(alia)) as Hub. fold idx in Hub.
    set (q := ((n + 1) / B)%nat) in *.
    destruct (Nat.leb_spec idx (B - R)) as [Hle|Hgt].
    - replace (n + 1 + (B - R - idx) + R)%nat with ((q + 1) * B)%nat by alia.
      apply Nat.mod_mul. alia.
    - replace (n + 1 + (B - R + (B - idx)) + R)%nat with ((q + 2) * B)%nat by alia.
      apply Nat.mod_mul. alia.
  Qed.

  Lemma canon_length msg : L0 + len msg < M -> e_length (canon buf0 h0 L0 msg) = L0 + len msg.
  Proof. intros H. cbn [canon e_length]. now apply N.mod_small. Qed.

  Definition no_overflow (msg : bytes) (n : N) : Prop :=
    overflow_checks c = false \/ (L0 + len msg) mod M + n < M.

  Lemma no_overflow_app msg x n : no_overflow msg (len x + n) -> no_overflow (msg ++ x) n.
  Proof.
    pose proof M_ge as HM. unfold no_overflow. intros [H|H]; [now left|right].
    rewrite len_app, N.add_assoc, <- N.add_mod_idemp_l by alia. rewrite N.mod_small; alia.
  Qed.
  Lemma no_overflow_le msg n m : no_overflow msg n -> m <= n -> no_overflow msg m.
  Proof. unfold no_overflow. intros [H|H] Hle; [now left|right; alia]. Qed.

  Lemma finalize_canon msg :
    no_overflow msg (1 + N.of_nat (zeros (length msg)) + N.of_nat R) ->
    (overflow_checks c = true -> 8 * ((L0 + len msg) mod M) < 2 ^ 64) ->
    finalize_pad c (N.of_nat B) pb (N.of_nat R) tail (canon buf0 h0 L0 msg)
    = Ok (canon buf0 h0 L0 (msg ++ padding msg)).
  Proof.
    intros Hov Hbits. pose proof M_ge as HM.
    unfold finalize_pad. rewrite len_array.
    set (Zn := N.of_nat B - N.of_nat R).
    set (dl := e_length (canon buf0 h0 L0 msg)).
    rewrite input_canon by (apply (no_overflow_le _ _ _ Hov); unfold len; cbn [length]; alia).
    cbn [bind]. set (m1 := msg ++ [x80]).
    pose proof (zeros_cases (length msg)) as Hz. cbv zeta in Hz.
    set (idx := ((length msg + 1) mod B)%nat) in *.
    assert (Hm1 : len m1 mod N.of_nat B = N.of_nat idx).
    { unfold m1, len, idx. rewrite app_length. cbn [length]. now rewrite Nnat.Nat2N.inj_mod. }
    assert (Hub : (idx < B)%nat) by (apply Nat.mod_upper_bound; alia).
    assert (Hov1 : no_overflow m1 (N.of_nat (zeros (length msg)) + N.of_nat R)).
    { apply no_overflow_app. apply (no_overflow_le _ _ _ Hov). unfold len; cbn [length]; alia. }
    (* after the optional zero block *)
    assert (Hmid : exists k1,
      ((k1 <= zeros (length msg))%nat /\
       (zeros (length msg) - k1 <= B - R)%nat /\
       len (m1 ++ repeat x00 k1) mod N.of_nat B = Zn - N.of_nat (zeros (length msg) - k1)) /\
      (if Zn <? e_length (canon buf0 h0 L0 m1) mod N.of_nat B
       then engine_input c (N.of_nat B) pb (canon buf0 h0 L0 m1) (array x00 Zn)
       else Ok (canon buf0 h0 L0 m1)) = Ok (canon buf0 h0 L0 (m1 ++ repeat x00 k1))).
    { rewrite canon_length_mod, Hm1.
      destruct (N.ltb_spec Zn (N.of_nat idx)) as [Hlt|Hge].
      - destruct (Nat.leb_spec idx (B - R)) as [Hle|Hgt]; [unfold Zn in *; alia|].
        exists (B - R)%nat. split; [split; [alia|split; [alia|]]|].
        + rewrite len_app. unfold len at 2. rewrite repeat_length.
          rewrite <- N.add_mod_idemp_l by alia. rewrite Hm1.
          replace (N.of_nat idx + N.of_nat (B - R)) with (N.of_nat (idx - R) + 1 * N.of_nat B) by alia.
          rewrite N.mod_add by alia. rewrite N.mod_small by alia. unfold Zn. alia.
        + unfold array. replace (N.to_nat Zn) with (B - R)%nat by (unfold Zn; alia).
          apply input_canon. apply (no_overflow_le _ _ _ Hov1). unfold len. rewrite repeat_length. alia.
      - destruct (Nat.leb_spec idx (B - R)) as [Hle|Hgt]; [|unfold Zn in *; alia].
        exists 0%nat. cbn [repeat]. rewrite app_nil_r. split; [split; [alia|split; [alia|]]|reflexivity].
        rewrite Hm1. unfold Zn. alia. }
    destruct Hmid as (k1 & (Hk1 & Hk1b & Hk1m) & ->). clear Hz Hm1 Hub. cbn [bind].
    rewrite canon_length_mod, Hk1m.
    unfold usize_sub, checked_sub.
    set (k2 := (zeros (length msg) - k1)%nat) in *.
    destruct (N.leb_spec (Zn - N.of_nat k2) Zn) as [_|]; [|alia]. cbn [bind].
    replace (Zn - (Zn - N.of_nat k2)) with (N.of_nat k2) by (unfold Zn; alia).
    unfold slice_to. rewrite len_array.
    destruct (N.leb_spec (N.of_nat k2) Zn) as [_|]; [|unfold Zn in *; alia]. cbn [bind].
    rewrite Nnat.Nat2N.id.
    assert (Ef : firstn k2 (array x00 Zn) = repeat x00 k2).
    { unfold array. replace (N.to_nat Zn) with (k2 + (B - R - k2))%nat by (unfold Zn; alia).
      rewrite repeat_app, firstn_app, repeat_length, Nat.sub_diag, firstn_O, app_nil_r.
      rewrite firstn_all2; [reflexivity|]. rewrite repeat_length. alia. }
    rewrite Ef.
    assert (Hov2 : no_overflow (m1 ++ repeat x00 k1) (N.of_nat k2 + N.of_nat R)).
    { apply no_overflow_app. apply (no_overflow_le _ _ _ Hov1). unfold len. rewrite repeat_length. alia. }
    rewrite input_canon by (apply (no_overflow_le _ _ _ Hov2); unfold len; rewrite repeat_length; alia).
    cbn [bind].
    rewrite <- (app_assoc m1), <- repeat_app.
    replace (k1 + k2)%nat with (zeros (length msg)) by alia.
    set (m2 := m1 ++ repeat x00 (zeros (length msg))).
    assert (Hm2 : len m2 mod N.of_nat B = Zn).
    { unfold m2. rewrite len_app. unfold len at 2. rewrite repeat_length.
      replace (N.of_nat (zeros (length msg))) with (N.of_nat k1 + N.of_nat k2) by alia.
      rewrite len_app in Hk1m. unfold len in Hk1m at 2. rewrite repeat_length in Hk1m.
      rewrite N.add_assoc, <- N.add_mod_idemp_l by alia. rewrite Hk1m.
      rewrite N.mod_small; unfold Zn; alia. }
    rewrite canon_length_mod, Hm2, N.eqb_refl.
    assert (Hda : forall A (k : unit -> res A), bind (debug_assert c true) k = k tt).
    { intros A k. unfold debug_assert, assert. now destruct (debug_assertions c). }
    rewrite Hda.
    assert (Hmul : checked_mul c 64 8 dl = Ok (bit_field msg)).
    { unfold checked_mul, bit_field, dl. cbn [canon e_length].
      destruct (N.ltb_spec (8 * ((L0 + len msg) mod M)) (2 ^ 64)) as [Hlt|Hge].
      - now rewrite (N.mod_small (8 * _)) by exact Hlt.
      - destruct (overflow_checks c); [|reflexivity]. specialize (Hbits eq_refl).
        exfalso. exact (N.lt_irrefl _ (N.lt_le_trans _ _ _ Hbits Hge)). }
    rewrite Hmul. cbn [bind].
    assert (Hov3 : no_overflow m2 (N.of_nat R)).
    { unfold m2. apply no_overflow_app. apply (no_overflow_le _ _ _ Hov1).
      unfold len. rewrite repeat_length. alia. }
    rewrite inputs_exact.
    assert (Ew : would_overflow m2 (List.concat (tail (bit_field msg))) = false).
    { unfold would_overflow. unfold len at 2. rewrite Htail.
      destruct Hov3 as [->|H3]; [reflexivity|].
      destruct (N.leb_spec M ((L0 + len m2) mod M + N.of_nat R)); [alia|]. apply andb_false_r. }
    rewrite Ew. cbn [bind]. rewrite canon_length_mod.
    assert (Efin : len (m2 ++ List.concat (tail (bit_field msg))) mod N.of_nat B = 0).
    { rewrite len_app. unfold len at 2. rewrite Htail, <- N.add_mod_idemp_l, Hm2 by alia.
      unfold Zn. replace (N.of_nat B - N.of_nat R + N.of_nat R) with (N.of_nat B) by alia.
      apply N.mod_same. alia. }
    rewrite Efin, N.eqb_refl, Hda. f_equal. f_equal.
    unfold m2, m1, padding. rewrite <- !app_assoc. reflexivity.
  Qed.

  Lemma padded_length msg : length (msg ++ padding msg) = (length msg + 1 + zeros (length msg) + R)%nat.
  Proof.
    unfold padding. rewrite !app_length, repeat_length, Htail. cbn [length]. alia.
  Qed.

  (** With checks on, every other case panics on overflow. *)
  Lemma finalize_panic msg :
    overflow_checks c = true ->
    (M <= (L0 + len msg) mod M + (1 + N.of_nat (zeros (length msg)) + N.of_nat R)
     \/ 2 ^ 64 <= 8 * ((L0 + len msg) mod M)) ->
    finalize_pad c (N.of_nat B) pb (N.of_nat R) tail (canon buf0 h0 L0 msg) = Panic POverflow.
  Proof.
    intros Hc Hcase. pose proof M_ge as HM.
    match type of Hcase with ?P => change (id P) in Hcase end.
    unfold finalize_pad. rewrite len_array.
    set (Zn := N.of_nat B - N.of_nat R).
    set (dl := e_length (canon buf0 h0 L0 msg)).
    pose proof (zeros_cases (length msg)) as Hz. cbv zeta in Hz.
    set (idx := ((length msg + 1) mod B)%nat) in *.
    set (z := zeros (length msg)) in *.
    rewrite input_exact. unfold would_overflow. rewrite Hc. cbn [andb].
    set (T := (L0 + len msg) mod M) in *.
    destruct (N.leb_spec M (T + len [x80])) as [_|H1]; [reflexivity|]. cbn [bind].
    unfold len in H1. cbn [length] in H1.
    set (m1 := msg ++ [x80]).
    assert (Em1 : (L0 + len m1) mod M = T + 1).
    { unfold m1. rewrite len_app, N.add_assoc, <- N.add_mod_idemp_l by alia. fold T.
      unfold len. cbn [length]. apply N.mod_small. alia. }
    assert (Hm1 : len m1 mod N.of_nat B = N.of_nat idx).
    { unfold m1, len, idx. rewrite app_length. cbn [length]. now rewrite Nnat.Nat2N.inj_mod. }
    assert (Hub : (idx < B)%nat) by (apply Nat.mod_upper_bound; alia).
    rewrite canon_length_mod, Hm1.
    assert (Hmid : exists k1,
      ((k1 <= z)%nat /\ (z - k1 <= B - R)%nat /\
       len (m1 ++ repeat x00 k1) mod N.of_nat B = Zn - N.of_nat (z - k1)) /\
      (if Zn <? N.of_nat idx
       then engine_input c (N.of_nat B) pb (canon buf0 h0 L0 m1) (array x00 Zn)
       else Ok (canon buf0 h0 L0 m1)) =
      (if would_overflow m1 (repeat x00 k1) then Panic POverflow
       else Ok (canon buf0 h0 L0 (m1 ++ repeat x00 k1)))).
    { destruct (N.ltb_spec Zn (N.of_nat idx)) as [Hlt|Hge].
      - destruct (Nat.leb_spec idx (B - R)) as [Hle|Hgt]; [unfold Zn in *; alia|].
        exists (B - R)%nat. split; [split; [alia|split; [alia|]]|].
        + rewrite len_app. unfold len at 2. rewrite repeat_length.
          rewrite <- N.add_mod_idemp_l by alia. rewrite Hm1.
          replace (N.of_nat idx + N.of_nat (B - R)) with (N.of_nat (idx - R) + 1 * N.of_nat B) by alia.
          rewrite N.mod_add by alia. rewrite N.mod_small by alia. unfold Zn. alia.
        + unfold array. replace (N.to_nat Zn) with (B - R)%nat by (unfold Zn; alia).
          apply input_exact.
      - destruct (Nat.leb_spec idx (B - R)) as [Hle|Hgt]; [|unfold Zn in *; alia].
        exists 0%nat. cbn [repeat]. rewrite app_nil_r. split; [split; [alia|split; [alia|]]|].
        + rewrite Hm1. unfold Zn. alia.
        + unfold would_overflow. rewrite Hc, Em1. unfold len. cbn [length andb].
          destruct (N.leb_spec M (T + 1 + N.of_nat 0)); [alia|reflexivity]. }
    destruct Hmid as (k1 & (Hk1 & Hk1b & Hk1m) & ->). clear Hz Hm1 Hub.
    unfold would_overflow at 1. rewrite Hc, Em1. cbn [andb]. unfold len at 1. rewrite repeat_length.
    destruct (N.leb_spec M (T + 1 + N.of_nat k1)) as [_|H2]; [reflexivity|]. cbn [bind].
    rewrite canon_length_mod, Hk1m.
    unfold usize_sub, checked_sub.
    set (k2 := (z - k1)%nat) in *.
    destruct (N.leb_spec (Zn - N.of_nat k2) Zn) as [_|]; [|alia]. cbn [bind].
    replace (Zn - (Zn - N.of_nat k2)) with (N.of_nat k2) by (unfold Zn; alia).
    unfold slice_to. rewrite len_array.
    destruct (N.leb_spec (N.of_nat k2) Zn) as [_|]; [|unfold Zn in *; alia]. cbn [bind].
    rewrite Nnat.Nat2N.id.
    assert (Ef : firstn k2 (array x00 Zn) = repeat x00 k2).
    { unfold array. replace (N.to_nat Zn) with (k2 + (B - R - k2))%nat by (unfold Zn; alia).
      rewrite repeat_app, firstn_app, repeat_length, Nat.sub_diag, firstn_O, app_nil_r.
      rewrite firstn_all2; [reflexivity|]. rewrite repeat_length. alia. }
    rewrite Ef, input_exact.
    assert (Em2 : (L0 + len (m1 ++ repeat x00 k1)) mod M = T + 1 + N.of_nat k1).
    { rewrite len_app, N.add_assoc, <- N.add_mod_idemp_l, Em1 by alia.
      unfold len. rewrite repeat_length. apply N.mod_small. alia. }
    unfold would_overflow at 1. rewrite Hc, Em2. cbn [andb]. unfold len at 1. rewrite repeat_length.
    destruct (N.leb_spec M (T + 1 + N.of_nat k1 + N.of_nat k2)) as [_|H3]; [reflexivity|]. cbn [bind].
    rewrite <- (app_assoc m1), <- repeat_app.
    replace (k1 + k2)%nat with z by alia.
    set (m2 := m1 ++ repeat x00 z).
    assert (Em3 : (L0 + len m2) mod M = T + 1 + N.of_nat z).
    { unfold m2. rewrite len_app, N.add_assoc, <- N.add_mod_idemp_l, Em1 by alia.
      unfold len. rewrite repeat_length. apply N.mod_small. alia. }
    assert (Hm2 : len m2 mod N.of_nat B = Zn).
    { unfold m2. rewrite len_app. unfold len at 2. rewrite repeat_length.
      replace (N.of_nat z) with (N.of_nat k1 + N.of_nat k2) by alia.
      rewrite len_app in Hk1m. unfold len in Hk1m at 2. rewrite repeat_length in Hk1m.
      rewrite N.add_assoc, <- N.add_mod_idemp_l by alia. rewrite Hk1m.
      rewrite N.mod_small; unfold Zn; alia. }
    rewrite canon_length_mod, Hm2, N.eqb_refl.
    assert (Hda : forall A (k : unit -> res A), bind (debug_assert c true) k = k tt).
    { intros A k. unfold debug_assert, assert. now destruct (debug_assertions c). }
    rewrite Hda. unfold checked_mul, dl. cbn [canon e_length]. fold T.
    destruct (N.ltb_spec (8 * T) (2 ^ 64)) as [Hlt|Hge].
    - cbn [bind]. rewrite inputs_exact. unfold would_overflow. rewrite Hc, Em3. cbn [andb].
      unfold len at 1. rewrite Htail.
      destruct (N.leb_spec M (T + 1 + N.of_nat z + N.of_nat R)) as [_|H4]; [reflexivity|].
      unfold id in Hcase. destruct Hcase as [Hc1|Hc2]; [alia|]. exfalso. exact (N.lt_irrefl _ (N.lt_le_trans _ _ _ Hlt Hc2)).
    - rewrite Hc. reflexivity.
  Qed.
End Engine.
