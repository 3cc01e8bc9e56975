(** Left-over buffer contents influence nothing; every block is processed once. *)
From Coq Require Import NArith ZArith List Bool Lia.
From Coq Require Import ZifyBool ZifyNat ZifyN.
From Verif Require Import Base SpecBase SpecMD ModelEngine ModelSha256 ModelSha512 ModelSha1 ModelRipemd
  ModelAll SpecApi SpecMore ProofBase ProofEngine ProofMD ProofApi ProofMid ProofHmac.
Import ListNotations.
Open Scope N_scope.

Definition live_res (B : nat) (r r' : res engine) : Prop :=
  match r, r' with
  | Ok s, Ok s' => same_live B s s'
  | Panic p, Panic p' => p = p'
  | _, _ => False
  end.

Lemma firstn_app_same {A} (n : nat) (a b b' : list A) : (n <= length a)%nat ->
  firstn n (a ++ b) = firstn n (a ++ b').
Proof.
  intros H. rewrite !firstn_app. replace (n - length a)%nat with 0%nat by lia. now rewrite !firstn_O.
Qed.

Section Live.
  Context (c : config) (WF : wf_config c) (B : nat) (HB : B = 64%nat \/ B = 128%nat).
  Context (pb : engine -> res engine).
  (** The block function leaves buffer and counter alone. *)
  Context (Hpb : forall e e', pb e = Ok e' -> e_buffer e' = e_buffer e /\ e_length e' = e_length e).

  Let Mdiv : exists q, 2 ^ usize_bits c = N.of_nat B * q /\ 0 < q.
  Proof.
    destruct (pow_bits_split c WF) as (q & -> & Hq).
    destruct HB as [-> | ->]; [exists (1024 * q)|exists (512 * q)]; split; try lia.
  Qed.

  Lemma add_mod_B x y z : usize_add c x y = Ok z -> z mod N.of_nat B = (x + y) mod N.of_nat B.
  Proof.
    unfold usize_add, checked_add. destruct Mdiv as (q & -> & Hq).
    destruct (_ <? _); [congruence|]. destruct (overflow_checks c); [discriminate|].
    intros E. apply Ok_inj in E. subst z. rewrite N.mod_mul_r by lia.
    rewrite N.mul_comm, N.mod_add by lia. now rewrite N.mod_mod by lia.
  Qed.

  Lemma same_live_refl s : length (e_buffer s) = B -> same_live B s s.
  Proof. intros H. now repeat split. Qed.

  Lemma input_step_live s s' inp : same_live B s s' -> inp <> [] ->
    match input_step c (N.of_nat B) pb s inp, input_step c (N.of_nat B) pb s' inp with
    | Ok (t, r), Ok (t', r') => same_live B t t' /\ r = r'
    | Panic p, Panic p' => p = p'
    | _, _ => False
    end.
  Proof.
    intros (Hb & Hb' & Hh & HL & Hf) Hne. cbn zeta in Hf. unfold input_step. rewrite <- HL, <- Hh.
    assert (HBp : 0 < N.of_nat B) by lia.
    pose proof (N.mod_lt (e_length s) (N.of_nat B) ltac:(lia)) as Hidx.
    remember (e_length s mod N.of_nat B) as idx eqn:Ei.
    unfold usize_sub, checked_sub.
    destruct (N.leb_spec idx (N.of_nat B)) as [_|]; [|lia]. cbn [bind].
    assert (Hli : 0 < len inp) by (destruct inp; [congruence|unfold len; cbn [length]; lia]).
    set (wl := N.min (N.of_nat B - idx) (len inp)).
    assert (Hwl : 0 < wl /\ idx + wl <= N.of_nat B /\ wl <= len inp) by (unfold wl; lia).
    clearbody wl. destruct (usize_add c idx wl) as [hi|p] eqn:Ehi; [|reflexivity]. cbn [bind].
    assert (Hhi : hi = idx + wl).
    { pose proof (pow_bits_ge c WF). unfold usize_add, checked_add in Ehi.
      destruct (N.ltb_spec (idx + wl) (2 ^ usize_bits c)); [now apply Ok_inj in Ehi|].
      destruct HB as [-> | ->]; lia. }
    unfold slice_to. destruct (N.leb_spec wl (len inp)) as [_|]; [|lia]. cbn [bind].
    unfold copy_range.
    replace (len (e_buffer s)) with (N.of_nat B) by (unfold len; now rewrite Hb).
    replace (len (e_buffer s')) with (N.of_nat B) by (unfold len; now rewrite Hb').
    destruct ((idx <=? hi) && (hi <=? N.of_nat B)) eqn:E1; [|reflexivity].
    assert (Hsrc : len (firstn (N.to_nat wl) inp) = wl).
    { unfold len in *. rewrite firstn_length_le by lia. lia. }
    rewrite Hsrc. destruct (N.eqb_spec wl (hi - idx)) as [_|]; [|reflexivity].
    cbn [bind]. rewrite Hf.
    destruct (usize_add c (e_length s) wl) as [L|p] eqn:EL; [|reflexivity]. cbn [bind].
    assert (HLm := add_mod_B _ _ _ EL).
    assert (Esum : (e_length s + wl) mod N.of_nat B = (idx + wl) mod N.of_nat B)
      by (rewrite <- N.add_mod_idemp_l by lia; now rewrite <- Ei).
    rewrite Esum in HLm.
    set (src := firstn (N.to_nat wl) inp) in *.
    set (pre := firstn (N.to_nat idx) (e_buffer s')).
    assert (Hpre : length pre = N.to_nat idx) by (unfold pre; rewrite firstn_length_le; lia).
    assert (Hsl : length src = N.to_nat wl) by (unfold len in Hsrc; lia).
    unfold slice_from. destruct (N.leb_spec wl (len inp)) as [_|]; [|lia].
    destruct (N.eqb_spec (L mod N.of_nat B) 0) as [Hz|Hnz].
    - (* complete *)
      assert (Hfull : hi = N.of_nat B).
      { rewrite HLm in Hz. destruct (N.eq_dec (idx + wl) (N.of_nat B)) as [|Hn]; [lia|].
        rewrite N.mod_small in Hz by lia. lia. }
      rewrite !(skipn_all2 (n:=N.to_nat hi)) by lia.
      destruct (pb _) as [t|p] eqn:Ep; [|reflexivity]. cbn [bind]. split; [|reflexivity].
      apply same_live_refl. apply Hpb in Ep. destruct Ep as [-> _]. cbn [e_buffer].
      rewrite !app_length, Hpre, Hsl. cbn [length]. lia.
    - cbn [bind]. split; [|reflexivity].
      assert (Hpart : idx + wl < N.of_nat B).
      { destruct (N.eq_dec (idx + wl) (N.of_nat B)) as [E|]; [|lia].
        rewrite HLm, E, N.mod_same in Hnz by lia. congruence. }
      rewrite (N.mod_small (idx + wl)) in HLm by exact Hpart.
      unfold same_live. cbn [e_buffer e_h e_length].
      split; [rewrite !app_length, skipn_length, Hpre, Hsl; lia|].
      split; [rewrite !app_length, skipn_length, Hpre, Hsl; lia|].
      repeat split. cbn zeta. rewrite HLm, !app_assoc. apply firstn_app_same.
      rewrite app_length, Hpre, Hsl. lia.
  Qed.

  Lemma input_loop_live fuel : forall s s' inp, same_live B s s' ->
    live_res B (input_loop fuel c (N.of_nat B) pb s inp) (input_loop fuel c (N.of_nat B) pb s' inp).
  Proof.
    induction fuel as [|fuel IH]; intros s s' inp HS; destruct inp as [|b inp]; cbn [input_loop]; try exact HS; [reflexivity|].
    pose proof (input_step_live s s' (b :: inp) HS ltac:(discriminate)) as H.
    destruct (input_step _ _ _ s _) as [[t r]|p], (input_step _ _ _ s' _) as [[t' r']|p']; try contradiction; cbn [bind].
    - destruct H as [HT <-]. now apply IH.
    - exact H.
  Qed.

  Lemma engine_input_live s s' inp : same_live B s s' ->
    live_res B (engine_input c (N.of_nat B) pb s inp) (engine_input c (N.of_nat B) pb s' inp).
  Proof. apply input_loop_live. Qed.

  Lemma live_bind r r' (f f' : engine -> res engine) : live_res B r r' ->
    (forall s s', same_live B s s' -> live_res B (f s) (f' s')) ->
    live_res B (bind r f) (bind r' f').
  Proof. destruct r, r'; cbn; try contradiction; auto. Qed.

  Lemma engine_inputs_live l : forall s s', same_live B s s' ->
    live_res B (engine_inputs c (N.of_nat B) pb s l) (engine_inputs c (N.of_nat B) pb s' l).
  Proof.
    induction l as [|d l IH]; intros s s' HS; cbn [engine_inputs]; [exact HS|].
    apply live_bind; [now apply engine_input_live|exact IH].
  Qed.

  Lemma finalize_pad_live R tail s s' : same_live B s s' ->
    live_res B (finalize_pad c (N.of_nat B) pb R tail s) (finalize_pad c (N.of_nat B) pb R tail s').
  Proof.
    intros HS. unfold finalize_pad.
    assert (EL : e_length s' = e_length s) by (symmetry; apply HS). rewrite EL.
    cbv zeta. remember (e_length s) as dl eqn:Edl. clear Edl.
    apply live_bind; [now apply engine_input_live|]. clear s s' HS EL. intros s s' HS.
    apply live_bind.
    { replace (e_length s') with (e_length s) by apply HS.
      destruct (_ <? _); [now apply engine_input_live|exact HS]. }
    clear s s' HS. intros s s' HS. replace (e_length s') with (e_length s) by apply HS.
    destruct (usize_sub _ _ _) as [n|p]; [|reflexivity]. cbn [bind].
    destruct (slice_to _ _) as [pad|p]; [|reflexivity]. cbn [bind].
    apply live_bind; [now apply engine_input_live|]. clear s s' HS. intros s s' HS.
    replace (e_length s') with (e_length s) by apply HS.
    destruct (debug_assert _ _); [|reflexivity]. cbn [bind].
    destruct (checked_mul _ _ _ _); [|reflexivity]. cbn [bind].
    apply live_bind; [now apply engine_inputs_live|]. clear s s' HS. intros s s' HS.
    replace (e_length s') with (e_length s) by apply HS.
    destruct (debug_assert _ _); [exact HS|reflexivity].
  Qed.
End Live.

Lemma block_fn_frame c a e e' : block_fn c a e = Ok e' ->
  e_buffer e' = e_buffer e /\ e_length e' = e_length e.
Proof.
  assert (H : forall b h n, Ok (mk_engine b h n) = Ok e' -> e_buffer e' = b /\ e_length e' = n).
  { intros b h n E. apply Ok_inj in E. now subst e'. }
  destruct a; cbn [block_fn];
    unfold sha1_process_block, sha256_process_block, simd_process_block, software_process_block,
      sha512_process_block, ripemd_process_block; intros E;
    repeat match type of E with
    | (if ?b then _ else _) = _ => destruct b
    | bind ?x _ = _ => destruct x; cbn [bind] in E; [|discriminate E]
    | (let (_, _) := ?x in _) = _ => destruct x
    | match ?x with (_, _) => _ end = _ => destruct x
    end; try discriminate; try (revert E; apply H).
Qed.

Section LiveAlgo.
  Context (c : config) (WF : wf_config c) (a : algo).
  Notation G := (generic_engine c a).
  Notation B := (md_block (md_of a)).

  Let HB : B = 64%nat \/ B = 128%nat := mo_block _ (md_of_ok a).
  Let Hf : forall e e', block_fn c a e = Ok e' -> e_buffer e' = e_buffer e /\ e_length e' = e_length e
    := block_fn_frame c a.

  Lemma midstate_h (s s' : engine) : e_h s = e_h s' -> algo_midstate a s = algo_midstate a s'.
  Proof.
    intros E. destruct a; cbn [algo_midstate];
      unfold sha1_midstate, sha256_midstate, sha512_midstate, ripemd_midstate, midstate_bytes; now rewrite E.
  Qed.

  Lemma finalize_live s s' : same_live B s s' -> algo_finalize c a s = algo_finalize c a s'.
  Proof.
    intros HS. rewrite !algo_finalize_eq.
    pose proof (finalize_pad_live c WF B HB (block_fn c a) Hf (N.of_nat (md_field (md_of a))) (algo_tail a) s s' HS) as H.
    destruct (finalize_pad _ _ _ _ _ s) as [t|p], (finalize_pad _ _ _ _ _ s') as [t'|p'];
      cbn [live_res] in H; try contradiction; cbn [bind]; [|now subst].
    assert (Hh : e_h t = e_h t') by apply H. now rewrite (midstate_h t t' Hh).
  Qed.

  Lemma gen_inputs_live chunks : forall s s', same_live B s s' ->
    live_res B (he_inputs G s chunks) (he_inputs G s' chunks).
  Proof.
    induction chunks as [|d l IH]; intros s s' HS; [exact HS|].
    change (live_res B (bind (algo_input c a s d) (fun t => he_inputs G t l))
                       (bind (algo_input c a s' d) (fun t => he_inputs G t l))).
    apply live_bind; [|exact IH]. now apply (engine_input_live c WF B HB (block_fn c a) Hf).
  Qed.

  Lemma gen_observe_live s s' chunks : same_live B s s' -> observe G s chunks = observe G s' chunks.
  Proof.
    intros HS. unfold observe. pose proof (gen_inputs_live chunks s s' HS) as H.
    destruct (he_inputs G s chunks) as [t|p], (he_inputs G s' chunks) as [t'|p'];
      cbn [live_res] in H; try contradiction; cbn [bind]; [|now subst].
    change (Ok (algo_midstate a t, e_length t, algo_finalize c a t) =
            Ok (algo_midstate a t', e_length t', algo_finalize c a t')).
    rewrite (finalize_live t t' H). f_equal. f_equal. f_equal; [apply midstate_h|]; apply H.
  Qed.
End LiveAlgo.

Lemma stale_buffer c a s s' chunks : wf_config c -> same_live (block_len a) s s' ->
  observe (algo_engine c a) (engine_state c a s) chunks = observe (algo_engine c a) (engine_state c a s') chunks.
Proof.
  intros WF HS. destruct a;
    [ exact (gen_observe_live c WF Sha1 s s' chunks HS) | exact (gen_observe_live c WF Sha256 s s' chunks HS)
    | exact (gen_observe_live c WF Sha384 s s' chunks HS) | exact (gen_observe_live c WF Sha512 s s' chunks HS)
    | exact (gen_observe_live c WF Sha512_256 s s' chunks HS) | exact (gen_observe_live c WF Ripemd160 s s' chunks HS) ].
Qed.

(** ** Every block once, in order, whatever the block function *)
Lemma every_block c B f R tail h0 L0 buf0 chunks : wf_config c -> B = 64%nat \/ B = 128%nat ->
  (8 <= R <= 16)%nat -> (forall bits, length (List.concat (tail bits)) = R) ->
  length buf0 = B -> L0 mod N.of_nat B = 0 ->
  let m := List.concat chunks in let n := L0 + len m in
  8 * n < 2 ^ 64 -> n + 2 * N.of_nat B <= 2 ^ usize_bits c ->
  exists s s' z,
    engine_inputs c (N.of_nat B) (block_fn_of f) (mk_engine buf0 h0 L0) chunks = Ok s /\
    e_h s = fold_left f (blocks B m) h0 /\ e_length s = n /\
    finalize_pad c (N.of_nat B) (block_fn_of f) (N.of_nat R) tail s = Ok s' /\
    (z < B)%nat /\ ((length m + 1 + z + R) mod B = 0)%nat /\
    e_h s' = fold_left f (blocks B (m ++ [x80] ++ repeat x00 z ++ List.concat (tail (8 * n)))) h0.
Proof.
  intros WF HB HR Ht Hb HL m n H8 HM.
  assert (HBr : (64 <= B <= 128)%nat) by lia.
  assert (HBd : exists q, 65536 = N.of_nat B * q /\ 0 < q)
    by (destruct HB as [-> | ->]; [exists 1024|exists 512]; split; reflexivity).
  assert (Hpb : forall e, length (e_buffer e) = B -> (fun _ : list N => True) (e_h e) ->
    block_fn_of f e = Ok (mk_engine (e_buffer e) (f (e_h e) (e_buffer e)) (e_length e))) by reflexivity.
  assert (Hg : forall h b, (fun _ : list N => True) h -> length b = B -> (fun _ : list N => True) (f h b)) by auto.
  set (M := 2 ^ usize_bits c) in *.
  assert (Hz : (zeros B R (length m) < B)%nat).
  { unfold zeros. pose proof (Z.mod_pos_bound (Z.of_nat B - Z.of_nat R - 1 - Z.of_nat (length m)) (Z.of_nat B)). lia. }
  exists (canon B f M buf0 h0 L0 m), (canon B f M buf0 h0 L0 (m ++ padding B M L0 R tail m)), (zeros B R (length m)).
  assert (E0 : mk_engine buf0 h0 L0 = canon B f M buf0 h0 L0 []).
  { unfold canon. cbn [length]. rewrite Nat.div_0_l, Nat.mul_0_l by lia. cbn [skipn app length].
    replace (blocks B []) with (@nil bytes) by (destruct HB as [-> | ->]; reflexivity).
    cbn [last fold_left]. f_equal. unfold len. cbn [length N.of_nat]. rewrite N.mod_small; lia. }
  split.
  { rewrite E0. rewrite (inputs_exact c B (block_fn_of f) f (fun _ => True) WF HBr HBd Hpb Hg M eq_refl buf0 h0 L0 Hb I HL).
    unfold would_overflow. fold m. unfold len at 1. cbn [length N.of_nat]. rewrite N.add_0_r, N.mod_small by lia.
    destruct (N.leb_spec M (L0 + len m)); [lia|]. rewrite andb_false_r. reflexivity. }
  split; [reflexivity|]. split; [unfold canon; cbn [e_length]; apply N.mod_small; lia|].
  split.
  { apply (finalize_canon c B (block_fn_of f) f (fun _ => True) WF HBr HBd Hpb Hg M eq_refl buf0 h0 L0 Hb I HL R HR tail Ht).
    - right. rewrite N.mod_small by lia. lia.
    - intros _. rewrite N.mod_small by lia. lia. }
  split; [exact Hz|]. split; [apply (padded_mod B f (fun _ => True) HBr Hg buf0 h0 L0 Hb I HL R HR tail Ht)|].
  unfold canon. cbn [e_h]. f_equal. f_equal. unfold padding. f_equal. f_equal. f_equal.
  unfold bit_field. rewrite !N.mod_small; [reflexivity|lia|]. rewrite N.mod_small; lia.
Qed.

Lemma fold_record l : forall h, fold_left record l h = h ++ map be_int l.
Proof.
  induction l as [|b l IH]; intros h; cbn [fold_left map]; [now rewrite app_nil_r|].
  rewrite IH. unfold record. now rewrite <- app_assoc.
Qed.

Lemma blocks_recorded c B R tail buf0 chunks : wf_config c ->
  B = 64%nat \/ B = 128%nat -> (8 <= R <= 16)%nat ->
  (forall bits, length (List.concat (tail bits)) = R) -> length buf0 = B ->
  let m := List.concat chunks in
  8 * len m < 2 ^ 64 -> len m + 2 * N.of_nat B <= 2 ^ usize_bits c ->
  exists s s' z,
    engine_inputs c (N.of_nat B) (block_fn_of record) (mk_engine buf0 [] 0) chunks = Ok s /\
    e_h s = map be_int (blocks B m) /\
    finalize_pad c (N.of_nat B) (block_fn_of record) (N.of_nat R) tail s = Ok s' /\
    (z < B)%nat /\ ((length m + 1 + z + R) mod B = 0)%nat /\
    e_h s' = map be_int (blocks B (m ++ [x80] ++ repeat x00 z ++ List.concat (tail (8 * len m)))).
Proof.
  intros WF HB HR Ht Hb m H64 Hus.
  destruct (every_block c B record R tail [] 0 buf0 chunks WF HB HR Ht Hb) as (s & s' & z & H); fold m.
  - destruct HB; subst B; reflexivity.
  - exact H64.
  - exact Hus.
  - fold m in H. rewrite !fold_record, N.add_0_l in H. cbn [app] in H.
    destruct H as (H1 & H2 & _ & H4 & H5 & H6 & H7). exists s, s', z. repeat split; assumption.
Qed.
