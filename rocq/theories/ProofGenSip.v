(** Generated siphash24.rs against ModelSip.v *)
From Coq Require Import Arith Lia.
From Verif Require Import Base GenBase ModelEngine ModelSip ModelAll GenLib GenSip SpecGen ProofBase ProofGenBase.

(** ** Rounds *)
Theorem sip_c_rounds_gen s : g_siphash24_Engine_c_rounds s = c_rounds s.
Proof. destruct s. reflexivity. Qed.
Theorem sip_d_rounds_gen s : g_siphash24_Engine_d_rounds s = d_rounds s.
Proof. destruct s. reflexivity. Qed.

Theorem sip_finalize_gen e : g_siphash24_Engine_finalize e = sip_finalize e.
Proof.
  unfold g_siphash24_Engine_finalize, sip_finalize. cbv zeta. rewrite sip_c_rounds_gen, sip_d_rounds_gen. reflexivity.
Qed.
Theorem sip_to_u64_gen e : g_siphash24_Hash_from_engine_to_u64 e = from_engine_to_u64 e.
Proof.
  unfold g_siphash24_Hash_from_engine_to_u64, from_engine_to_u64. cbv zeta. rewrite sip_c_rounds_gen, sip_d_rounds_gen. reflexivity.
Qed.

(** ** u8to64_le *)
Section C.
  Context (cfg : config) (WF : wf_config cfg).
  Notation M := (2 ^ usize_bits cfg).

  Lemma M_big : 256 < M.
  Proof. destruct WF as [-> | [-> | ->]]; reflexivity. Qed.
  Lemma add_ok a b : a + b < M -> usize_add cfg a b = Ok (a + b).
  Proof. intros H. unfold usize_add, checked_add. destruct (N.ltb_spec (a + b) M); [reflexivity|lia]. Qed.
  Lemma mul_ok a b : a * b < M -> usize_mul cfg a b = Ok (a * b).
  Proof. intros H. unfold usize_mul, checked_mul. destruct (N.ltb_spec (a * b) M); [reflexivity|lia]. Qed.

  (** The text of the macro load_int_le! at each of its uses. *)

  Lemma load_gen k buf start i {B} (K : N -> res B) : start + i + N.of_nat k < M ->
    (let* _ := (if debug_assertions cfg then
                  let* t2 := usize_add cfg start i in
                  let* t3 := usize_add cfg t2 (N.of_nat k) in
                  assert (t3 <=? len buf)
                else Ok tt) in
     let* t2 := usize_add cfg start i in
     let* d := load_native cfg k buf t2 in
     K (to_le cfg k d)) =
    (let* d := load_int_le cfg k buf (start + i) in K d).
  Proof.
    intros H. rewrite !add_ok by lia. cbn [bind]. rewrite !add_ok by lia. cbn [bind].
    unfold load_int_le, load_native, to_le, debug_assert.
    destruct (debug_assertions cfg); cbn [bind].
    - destruct (start + i + N.of_nat k <=? len buf); cbn [assert bind]; reflexivity.
    - destruct (start + i + N.of_nat k <=? len buf); cbn [assert bind]; reflexivity.
  Qed.

  Lemma bind_pair {A B C} (x y : res (A * B)) (k k' : A -> B -> res C) :
    x = y -> (forall a b, y = Ok (a, b) -> k a b = k' a b) ->
    (let* (a, b) := x in k a b) = (let* (a, b) := y in k' a b).
  Proof. intros -> H. destruct y as [[a b]|p]; cbn [bind]; [now apply H|reflexivity]. Qed.

  (** The three parts of the function, in the order (i, out) of the text and
      (out, i) of the model *)
  Definition swap {A B} (x : res (A * B)) : res (B * A) := let* (a, b) := x in Ok (b, a).

  Lemma u8to64_gen buf start n : n < 8 -> start + n < M ->
    g_siphash24_u8to64_le cfg buf start n = u8to64_le cfg buf start n.
  Proof.
    intros Hn Hs. pose proof M_big as HM. unfold g_siphash24_u8to64_le, u8to64_le.
    apply bind_ext. intros u _. cbv zeta. rewrite add_ok by lia. cbn [bind].
    assert (P1 : (if 0 + 3 <? n
       then
        let* _ := if debug_assertions cfg
              then
               let* t2 := usize_add cfg start 0 in
               let* t3 := usize_add cfg t2 4 in assert (t3 <=? len buf)
              else Ok tt in
        let* t2 := usize_add cfg start 0 in
        let* v_data := load_native cfg 4 buf t2 in
        let* t3 := usize_add cfg 0 4 in Ok (t3, to_le cfg 4 v_data)
       else Ok (0, 0)) =
      swap (if 0 + 3 <? n then let* x := load_int_le cfg 4 buf (start + 0) in Ok (x, 4) else Ok (0, 0))).
    { destruct (N.ltb_spec (0 + 3) n) as [H|H]; [|reflexivity].
      refine (eq_trans (load_gen 4 buf start 0 (fun d => let* t3 := usize_add cfg 0 4 in Ok (t3, d)) _) _); [cbn; lia|].
      unfold swap. rewrite bind_bind. apply bind_ext. intros d _. rewrite add_ok by lia. reflexivity. }
    rewrite P1. clear P1. unfold swap at 1. rewrite bind_bind.
    match goal with |- _ = bind ?x _ => assert (Q : forall o i, x = Ok (o, i) -> i <= n /\ (i = 0 \/ i = 4)) end.
    { intros o i. destruct (N.ltb_spec (0 + 3) n) as [H|H].
      - destruct load_int_le; [|discriminate]. cbn [bind]. intros E. injection E as _ <-. lia.
      - intros E. injection E as _ <-. lia. }
    apply bind_ext. intros [out i] E. apply Q in E. clear Q. destruct E as [Hi Hi4]. cbn [bind].
    rewrite add_ok by lia. cbn [bind].
    match goal with |- bind ?x _ = bind ?y _ => assert (P : x = swap y) end.
    { destruct (N.ltb_spec (i + 1) n) as [H|H]; [|reflexivity].
      refine (eq_trans (load_gen 2 buf start i (fun d => let* t4 := usize_mul cfg i 8 in
        let* t5 := checked_shl cfg 64 d t4 in let* t6 := usize_add cfg i 2 in Ok (t6, N.lor out t5)) _) _); [cbn; lia|].
      unfold swap. rewrite !bind_bind. apply bind_ext. intros d _. rewrite mul_ok by lia. cbn [bind].
      rewrite !bind_bind. apply bind_ext. intros x _. rewrite add_ok by lia. reflexivity. }
    rewrite P. clear P. unfold swap at 1. rewrite bind_bind.
    match goal with |- _ = bind ?x _ => assert (Q : forall o j, x = Ok (o, j) -> j <= n /\ j <= 6) end.
    { intros o j. destruct (N.ltb_spec (i + 1) n) as [H|H].
      - destruct load_int_le; [|discriminate]. cbn [bind]. destruct shl64; [|discriminate]. cbn [bind].
        intros E. injection E as _ <-. lia.
      - intros E. injection E as _ <-. lia. }
    apply bind_ext. intros [out2 j] E. apply Q in E. clear Q. destruct E as [Hj Hj6]. cbn [bind].
    match goal with |- bind ?x _ = bind ?y _ => assert (P : x = swap y) end.
    { destruct (N.ltb_spec j n) as [H|H]; [|reflexivity]. rewrite add_ok by lia. cbn [bind]. unfold swap.
      rewrite !bind_bind. apply bind_ext. intros b _. rewrite mul_ok by lia. cbn [bind].
      rewrite !bind_bind. apply bind_ext. intros x _. rewrite add_ok by lia. reflexivity. }
    rewrite P. clear P. unfold swap. rewrite bind_bind. apply bind_ext. intros [o3 k] _. reflexivity.
  Qed.

  (** ** The loop of input *)
  Definition with_st (e : sip_engine) (s : sip_state) : sip_engine :=
    mk_sip_engine (sip_k0 e) (sip_k1 e) (sip_length e) s (sip_tail e) (sip_ntail e).
  Lemma loop_gen data ln left stop e0 : usize_sub cfg ln left = Ok stop -> slice cfg data ->
    forall fuel i s, stop mod 8 = 0 -> (i mod 8 + stop <= len data) ->
    g_siphash24_Engine_input_loop1 fuel cfg data ln left (with_st e0 s) i =
    let* (s', i') := sip_loop fuel cfg data stop i s in Ok (with_st e0 s', i').
  Proof.
    intros Hstop Hd fuel. unfold slice in Hd. induction fuel as [|fuel IH]; intros i s H8 Hi.
    - cbn [g_siphash24_Engine_input_loop1 sip_loop]. rewrite Hstop. cbn [bind]. destruct (i <? stop); reflexivity.
    - cbn [g_siphash24_Engine_input_loop1 sip_loop]. rewrite Hstop. cbn [bind].
      destruct (N.ltb_spec i stop) as [Hlt|]; [|reflexivity].
      assert (H8' : i + 8 <= len data).
      { pose proof (N.div_mod' i 8). pose proof (N.div_mod' stop 8).
        assert (i / 8 < stop / 8) by (apply N.div_lt_upper_bound; lia). lia. }
      cbv zeta. rewrite !add_ok by lia. cbn [bind]. unfold load_int_le.
      replace (i + N.of_nat 8 <=? len data) with true by (symmetry; apply N.leb_le; cbn; lia).
      replace (i + 8 <=? len data) with true by (symmetry; apply N.leb_le; lia).
      unfold load_native. replace (i + N.of_nat 8 <=? len data) with true by (symmetry; apply N.leb_le; cbn; lia).
      unfold debug_assert. unfold assert.
      destruct (debug_assertions cfg); cbn [bind].
      all: rewrite <- IH; [|exact H8|].
      1,3: cbn [with_st sip_k0 sip_k1 sip_length sip_st sip_tail sip_ntail v0 v1 v2 v3];
        rewrite sip_c_rounds_gen; reflexivity.
      all: replace (i + 8) with (i + 1 * 8) by lia; rewrite N.mod_add by lia; exact Hi.
  Qed.

  Lemma loop_end data stop : slice cfg data -> stop mod 8 = 0 -> forall fuel i s s' i', i mod 8 + stop <= len data ->
    i <= i mod 8 + stop -> sip_loop fuel cfg data stop i s = Ok (s', i') -> i' <= i mod 8 + stop.
  Proof.
    intros Hd H8 fuel. unfold slice in Hd. induction fuel as [|fuel IH]; intros i s s' i' Hi Hle; cbn [sip_loop].
    - destruct (i <? stop); [discriminate|]. intros E. injection E as _ <-. exact Hle.
    - destruct (N.ltb_spec i stop) as [Hlt|]; [|intros E; injection E as _ <-; exact Hle].
      assert (H8' : i / 8 < stop / 8) by (pose proof (N.div_mod' stop 8); apply N.div_lt_upper_bound; lia).
      destruct load_int_le; [|discriminate]. cbn [bind].
      pose proof (N.div_mod' i 8) as E1. pose proof (N.div_mod' stop 8) as E2.
      rewrite add_ok by lia. cbn [bind]. intros E. apply IH in E.
      all: replace (i + 8) with (i + 1 * 8) in * by lia; rewrite N.mod_add in * by lia; lia.
  Qed.

  Lemma rest_gen data needed e : slice cfg data -> needed < 8 -> needed <= len data ->
    (let* v_len := usize_sub cfg (len data) needed in
     let v_left := N.land v_len 7 in
     let v_i := needed in
     let* (v_self, v_i) := g_siphash24_Engine_input_loop1 (length data) cfg data v_len v_left e v_i in
     let* t8 := g_siphash24_u8to64_le cfg data v_i v_left in
     let v_self := mk_sip_engine (sip_k0 v_self) (sip_k1 v_self) (sip_length v_self) (sip_st v_self) t8 (sip_ntail v_self) in
     let v_self := mk_sip_engine (sip_k0 v_self) (sip_k1 v_self) (sip_length v_self) (sip_st v_self) (sip_tail v_self) v_left in
     Ok v_self) = sip_input_rest cfg data needed e.
  Proof.
    intros Hd Hn8 Hn. unfold sip_input_rest. unfold usize_sub at 1 2. unfold checked_sub.
    destruct (N.leb_spec needed (len data)); [|lia]. cbn [bind]. cbv zeta.
    change 7 with (N.ones 3). rewrite N.land_ones. change (2 ^ 3) with 8.
    set (ln := len data - needed). pose proof (N.mod_lt ln 8 ltac:(discriminate)) as Hl. pose proof (N.div_mod' ln 8) as El.
    assert (Hle : ln mod 8 <= ln) by lia.
    assert (E : usize_sub cfg ln (ln mod 8) = Ok (ln - ln mod 8)).
    { unfold usize_sub, checked_sub. destruct (N.leb_spec (ln mod 8) ln); [reflexivity|lia]. }
    rewrite E. cbn [bind].
    assert (H8 : (ln - ln mod 8) mod 8 = 0).
    { replace (ln - ln mod 8) with (ln / 8 * 8) by lia. apply N.mod_mul. discriminate. }
    assert (Hm : needed mod 8 = needed) by (apply N.mod_small; exact Hn8).
    assert (Hi : needed mod 8 + (ln - ln mod 8) <= len data) by (rewrite Hm; subst ln; lia).
    assert (Ee : e = with_st e (sip_st e)) by (destruct e; reflexivity).
    rewrite Ee at 1. rewrite (loop_gen data ln (ln mod 8) _ e E Hd (length data) needed (sip_st e) H8 Hi).
    rewrite bind_bind. apply bind_ext. intros [s' i'] El'. cbn [bind].
    apply loop_end in El'; [|exact Hd|exact H8|exact Hi|rewrite Hm; lia].
    unfold slice in Hd. rewrite u8to64_gen by (subst ln; lia).
    apply bind_ext. intros t _. reflexivity.
  Qed.

  Theorem sip_input_gen e data : sip_typed e -> slice cfg data ->
    g_siphash24_Engine_input cfg e data = sip_input cfg e data.
  Proof.
    intros T Hd. unfold sip_typed in T. pose proof M_big as HM. unfold g_siphash24_Engine_input, sip_input. cbv zeta.
    apply bind_ext. intros l _. cbn [sip_ntail].
    destruct (N.eqb_spec (sip_ntail e) 0) as [Z|Z]; cbn [negb].
    - cbn [sip_k0 sip_k1 sip_length sip_st sip_tail sip_ntail]. apply rest_gen; [exact Hd|lia|apply N.le_0_l].
    - cbn [sip_k0 sip_k1 sip_length sip_st sip_tail sip_ntail v0 v1 v2 v3].
      unfold usize_sub at 1 3. unfold checked_sub. destruct (N.leb_spec (sip_ntail e) 8); [|lia]. cbn [bind].
      unfold slice in Hd. rewrite u8to64_gen by lia. apply bind_ext. intros x _.
      rewrite mul_ok by lia. cbn [bind]. apply bind_ext. intros y _.
      destruct (N.ltb_spec (len data) (8 - sip_ntail e)) as [Hlt|Hge]; [reflexivity|].
      rewrite sip_c_rounds_gen.
      exact (rest_gen data (8 - sip_ntail e) _ Hd ltac:(lia) Hge).
  Qed.

  Theorem sip_input_typed e data e' : sip_typed e -> slice cfg data -> sip_input cfg e data = Ok e' -> sip_typed e'.
  Proof.
    intros T Hd. unfold sip_typed in *.
    assert (R : forall n f e', sip_input_rest cfg data n f = Ok e' -> sip_ntail e' < 8).
    { intros n f r. unfold sip_input_rest. destruct (usize_sub _ _ _) as [ln|]; [|discriminate]. cbn [bind].
      destruct (usize_sub _ _ _); [|discriminate]. cbn [bind]. destruct sip_loop as [[s i]|]; [|discriminate]. cbn [bind].
      destruct u8to64_le; [|discriminate]. cbn [bind]. intros E. injection E as <-. cbn [sip_ntail].
      change 7 with (N.ones 3). rewrite N.land_ones. apply N.mod_lt. discriminate. }
    unfold sip_input. destruct (usize_add _ _ _); [|discriminate]. cbn [bind].
    destruct (N.eqb_spec (sip_ntail e) 0) as [Z|Z]; cbn [negb]; [apply R|].
    unfold usize_sub at 1. unfold checked_sub. destruct (N.leb_spec (sip_ntail e) 8); [|lia]. cbn [bind].
    destruct u8to64_le; [|discriminate]. cbn [bind]. destruct shl64; [|discriminate]. cbn [bind].
    destruct (N.ltb_spec (len data) (8 - sip_ntail e)) as [Hlt|Hge]; [|apply R].
    pose proof M_big. rewrite add_ok by lia. cbn [bind]. intros E. injection E as <-. cbn [sip_ntail]. lia.
  Qed.
End C.

Theorem sip_with_keys_gen k0 k1 : g_siphash24_Engine_with_keys k0 k1 = with_keys k0 k1.
Proof. reflexivity. Qed.
Theorem sip_keys_gen e : g_siphash24_Engine_keys e = sip_keys e.
Proof. reflexivity. Qed.
Theorem sip_from_midstate_gen m n : g_siphash24_Engine_from_midstate m n = sip_from_midstate m n.
Proof. reflexivity. Qed.
Theorem sip_hash_with_keys_gen c k0 k1 d : wf_config c -> slice c d ->
  g_siphash24_Hash_hash_with_keys c k0 k1 d = hash_with_keys c k0 k1 d /\
  g_siphash24_Hash_hash_to_u64_with_keys c k0 k1 d = hash_to_u64_with_keys c k0 k1 d.
Proof.
  intros WF Hd. unfold g_siphash24_Hash_hash_with_keys, hash_with_keys, g_siphash24_Hash_hash_to_u64_with_keys,
    hash_to_u64_with_keys. rewrite sip_with_keys_gen, sip_input_gen by (assumption || reflexivity).
  split; apply bind_ext; intros e _; [rewrite sip_finalize_gen|rewrite sip_to_u64_gen]; reflexivity.
Qed.

Theorem sip_agree c : wf_config c ->
  agree c (g_siphash24_Engine_dict c) (siphash24_engine c) (fun s t : sip_engine => s = t /\ sip_typed s)
    (fun m m' : sip_state => m = m').
Proof.
  intros WF. constructor;
    cbn [he_block_size he_default he_n_bytes_hashed he_midstate he_from_midstate he_state he_mid
      g_siphash24_Engine_dict siphash24_engine].
  - reflexivity.
  - exact (conj eq_refl eq_refl).
  - intros s t d [-> T] Hd. cbn [he_input g_siphash24_Engine_dict siphash24_engine].
    rewrite sip_input_gen by assumption. destruct (sip_input c t d) as [v|p] eqn:E; [|reflexivity].
    split; [reflexivity|exact (sip_input_typed c WF t d v T Hd E)].
  - intros s t [-> _]. reflexivity.
  - intros s t [-> _]. cbn [he_finalize g_siphash24_Engine_dict siphash24_engine]. now rewrite sip_finalize_gen.
  - intros s t d [-> _] E. cbn [he_finalize g_siphash24_Engine_dict] in E. rewrite sip_finalize_gen in E.
    assert (E2 : d = sip_finalize t) by congruence. rewrite E2. unfold slice, len.
    unfold sip_finalize. rewrite length_to_le_bytes. destruct WF as [-> | [-> | ->]]; reflexivity.
  - intros s t [-> _]. reflexivity.
  - intros m m' n ->. exact (conj eq_refl eq_refl).
Qed.
