(** What an HMAC engine computes after its midstate was taken and resumed. *)
From Coq Require Import NArith ZArith List Bool Lia.
From Coq Require Import ZifyBool ZifyNat ZifyN.
From Coq Require Import Strings.Byte.
From Verif Require Import Base SpecBase SpecMD SpecMac ModelEngine ModelHmac ModelAll SpecApi SpecMore
  ProofBase ProofMD ProofApi ProofMid ProofConst ProofHmac ProofMac.
Import ListNotations.
Open Scope N_scope.

Section S.
  Context (c : config) (a : algo) (WF : wf_config c) (Ha : a = Sha1 \/ a = Sha256).
  Notation A := (md_of a).
  Notation G := (generic_engine c a).
  Notation M := (2 ^ usize_bits c).

  Let HB : md_block A = 64%nat. Proof. destruct Ha as [-> | ->]; reflexivity. Qed.
  Let OK := md_of_ok a.

  Lemma at_inputs h0 L0 msg chunks : good_h A h0 -> L0 mod 64 = 0 ->
    L0 + len msg + len (List.concat chunks) < M ->
    he_inputs G (state_at c a h0 L0 msg) chunks = Ok (state_at c a h0 L0 (msg ++ List.concat chunks)).
  Proof.
    intros Hh HL HM. assert (HL' : L0 mod N.of_nat (md_block A) = 0) by (rewrite HB; exact HL).
    rewrite (splits_from_to c a WF h0 L0 msg) by (repeat split; try apply Hh; try assumption; lia).
    cbn [generic_engine he_input]. rewrite algo_input_exact by assumption.
    unfold counter. rewrite N.mod_small by lia.
    destruct (N.leb_spec M (L0 + len msg + len (List.concat chunks))); [lia|]. now rewrite andb_false_r.
  Qed.

  (** the room the padding needs, only in a build with overflow checks *)
  Definition room (L0 : N) (n : nat) : Prop :=
    8 * (L0 + N.of_nat n) < 2 ^ 64 /\
    (if overflow_checks c then L0 + N.of_nat (md_padded A n) else L0 + N.of_nat n) < M.

  Lemma room_lt L0 n : room L0 n -> L0 + N.of_nat n < M.
  Proof. intros [_ H]. pose proof (md_padded_ge A n). destruct (overflow_checks c); lia. Qed.

  Lemma at_finalize h0 L0 msg : good_h A h0 -> L0 mod 64 = 0 -> room L0 (length msg) ->
    he_finalize G (state_at c a h0 L0 msg) = Ok (md_hash_from A h0 (8 * (L0 + len msg)) msg).
  Proof.
    intros Hh HL HR. assert (HL' : L0 mod N.of_nat (md_block A) = 0) by (rewrite HB; exact HL).
    pose proof (room_lt _ _ HR) as Hlt. destruct HR as [H8 HM].
    cbn [generic_engine he_finalize]. rewrite algo_finalize_exact by assumption.
    unfold finalize_overflows, bits_at, counter. unfold len in *. rewrite (N.mod_small (L0 + _)) by exact Hlt.
    rewrite N.mod_small by exact H8.
    destruct (overflow_checks c); cbn [andb]; [|reflexivity].
    destruct (N.leb_spec M (L0 + N.of_nat (length msg) + (1 + N.of_nat (md_zeros A (length msg)) + N.of_nat (md_field A)))) as [Hge|_].
    - exfalso. unfold md_padded in HM. lia.
    - destruct (N.leb_spec (2 ^ 64) (8 * (L0 + N.of_nat (length msg)))); [lia|]. reflexivity.
  Qed.

  Lemma at_resume h0 L0 msg n : good_h A h0 -> L0 mod 64 = 0 -> (length msg mod 64 = 0)%nat -> n mod 64 = 0 -> n < M ->
    (let* m := he_midstate G (state_at c a h0 L0 msg) in he_from_midstate G m n)
    = Ok (state_at c a (md_iterate A h0 msg) n []).
  Proof.
    intros Hh HL Hm Hn HM. assert (HL' : L0 mod N.of_nat (md_block A) = 0) by (rewrite HB; exact HL).
    assert (Hh' : good_h A (md_iterate A h0 msg)) by (apply md_iterate_good; [exact OK|exact Hh]).
    cbn [generic_engine he_midstate he_from_midstate].
    rewrite algo_midstate_exact by assumption. cbn [bind].
    rewrite from_midstate_exact.
    - rewrite HB. change (N.of_nat 64) with 64. rewrite Hn. cbn [N.eqb].
      rewrite state_at_nil by exact HM. now rewrite (resumable_be a Ha), be_words_md_words.
    - unfold mid_valid. rewrite md_words_length by apply (mo_word _ OK).
      destruct Hh' as [-> _]. destruct Ha as [-> | ->]; reflexivity.
  Qed.

  Lemma fits_room m : fits c a m -> room 0 m.
  Proof. intros [H1 H2]. split; [now rewrite N.add_0_l|]. destruct (overflow_checks c); now rewrite N.add_0_l. Qed.

  Lemma fits_room_from k m : (k mod 64 = 0)%nat -> fits c a (k + m) -> room (N.of_nat k) m.
  Proof.
    intros Hk [H1 H2]. split; [lia|]. destruct (overflow_checks c); [|lia].
    replace (N.of_nat k + N.of_nat (md_padded A m)) with (N.of_nat (md_padded A (k + m))); [exact H2|].
    unfold md_padded. rewrite (md_zeros_congr a (k + m) m); [lia|].
    rewrite HB. rewrite Nat.add_mod, Hk by lia. cbn [Nat.add]. apply Nat.mod_mod. lia.
  Qed.

  Lemma hmac_resume_at key chunks chunks' :
    let m := List.concat chunks in let m' := List.concat chunks' in
    let D := digest_len a in
    (length m mod 64 = 0)%nat ->
    ((64 < length key)%nat -> fits c a (length key)) ->
    fits c a (64 + length m + length m') -> fits c a (64 + length m + D) ->
    (let* s := hmac_new c G key in
     let* s := he_inputs (hmac_engine c G) s chunks in
     let* s := resume (hmac_engine c G) s in
     let* s := he_inputs (hmac_engine c G) s chunks' in
     he_finalize (hmac_engine c G) s)
    = Ok (md_hash_from A (md_iv A) (8 * (64 + len m + N.of_nat D)) (outer_msg a key (m ++ m'))).
  Proof.
    intros m m' D Hm Hk Hi Ho. unfold outer_msg, inner_msg.
    assert (EB : block_len a = 64%nat) by (destruct Ha as [-> | ->]; reflexivity). rewrite EB.
    assert (HDH : forall x, length (hash_of a x) = D).
    { intros x. rewrite <- md_hash_standard. unfold md_hash.
      rewrite md_hash_from_length by (try exact OK; apply (mo_iv A OK)). destruct a; reflexivity. }
    assert (HD64 : (D <= 64)%nat) by (destruct Ha as [-> | ->]; cbn; lia).
    assert (HBS : he_block_size G = N.of_nat 64) by (destruct Ha as [-> | ->]; reflexivity).
    assert (LAW : lawful G (hash_of a) (fits c a)).
    { rewrite <- algo_engine_generic. now apply algo_lawful. }
    rewrite (hmac_new_from c G (hash_of a) (fits c a) LAW 64 D HBS ltac:(lia) HDH HD64 key Hk).
    assert (Hkl := hmac_key_length G (hash_of a) 64 D HBS ltac:(lia) HDH HD64 key).
    set (k := hmac_key (hash_of a) 64 key) in *. clearbody k.
    assert (Hiv : good_h A (md_iv A)) by apply (mo_iv A OK).
    pose proof (fits_room _ Hi) as Ri. pose proof (room_lt _ _ Ri) as Li.
    pose proof (fits_room _ Ho) as Ro. pose proof (room_lt _ _ Ro) as Lo.
    unfold hmac_from. set (ip := xor_pad x36 k). set (op := xor_pad x5c k).
    assert (Hip : length ip = 64%nat) by (unfold ip, xor_pad; now rewrite map_length).
    assert (Hop : length op = 64%nat) by (unfold op, xor_pad; now rewrite map_length).
    clearbody ip op.
    assert (E0 : he_default G = Ok (state_at c a (md_iv A) 0 [])).
    { cbn [generic_engine he_default]. now rewrite (default_state c a). }
    assert (EI1 : forall l, length l = 64%nat -> he_input G (state_at c a (md_iv A) 0 []) l = Ok (state_at c a (md_iv A) 0 l)).
    { intros l Hl. pose proof (at_inputs (md_iv A) 0 [] [l] Hiv eq_refl) as E. cbn [List.concat he_inputs] in E.
      rewrite app_nil_r in E. cbn [app] in E. change (len []) with 0 in E. unfold len in E. rewrite Hl in E.
      specialize (E ltac:(lia)). destruct (he_input G _ l); [exact E|discriminate]. }
    rewrite E0. cbn [bind]. rewrite !EI1 by assumption. cbn [bind].
    rewrite hmac_inputs. cbn [iengine oengine].
    rewrite at_inputs by (try exact Hiv; try reflexivity; fold m; unfold len; lia). fold m. cbn [bind].
    assert (Hn : he_n_bytes_hashed G (state_at c a (md_iv A) 0 (ip ++ m)) = 64 + len m).
    { change (counter c 0 (len (ip ++ m)) = 64 + len m). unfold counter.
      rewrite N.add_0_l, len_app. unfold len. rewrite Hip. apply N.mod_small. lia. }
    assert (Hn64 : (64 + len m) mod 64 = 0).
    { assert (Em := Nat2N.inj_mod (length m) 64). rewrite Hm in Em. unfold len. change (N.of_nat 64) with 64 in Em.
      rewrite N.add_mod, <- Em by lia. reflexivity. }
    assert (Hipm : (length (ip ++ m) mod 64 = 0)%nat).
    { rewrite app_length, Hip, Nat.add_mod, Hm by lia. reflexivity. }
    assert (Hopm : (length op mod 64 = 0)%nat) by (rewrite Hop; reflexivity).
    pose proof (at_resume (md_iv A) 0 (ip ++ m) (64 + len m) Hiv eq_refl Hipm Hn64 ltac:(unfold len; lia)) as RI.
    pose proof (at_resume (md_iv A) 0 op (64 + len m) Hiv eq_refl Hopm Hn64 ltac:(unfold len; lia)) as RO.
    apply bind_ok in RI as (mi & Mi & Fi). apply bind_ok in RO as (mo & Mo & Fo).
    erewrite (hmac_resume_gen c G (@mk_hmac G (state_at c a (md_iv A) 0 (ip ++ m)) (state_at c a (md_iv A) 0 op)));
      [|exact Mi|exact Mo|cbn [iengine]; rewrite Hn; exact Fi|cbn [iengine]; rewrite Hn; exact Fo].
    cbn [bind]. rewrite hmac_inputs. cbn [iengine oengine].
    assert (Gi : good_h A (md_iterate A (md_iv A) (ip ++ m))) by (apply md_iterate_good; [exact OK|exact Hiv]).
    assert (Go : good_h A (md_iterate A (md_iv A) op)) by (apply md_iterate_good; [exact OK|exact Hiv]).
    rewrite at_inputs by (try assumption; change (len []) with 0; fold m'; unfold len; lia). fold m'. cbn [bind app].
    cbn [hmac_engine he_finalize iengine oengine].
    assert (E64 : 64 + len m = N.of_nat (64 + length m)) by (unfold len; lia).
    assert (H64m : ((64 + length m) mod 64 = 0)%nat) by (rewrite Nat.add_mod, Hm by lia; reflexivity).
    rewrite at_finalize; [|exact Gi|exact Hn64|rewrite E64; apply fits_room_from; assumption].
    cbn [bind].
    assert (EH : md_hash_from A (md_iterate A (md_iv A) (ip ++ m)) (8 * (64 + len m + len m')) m'
                 = hash_of a (ip ++ m ++ m')).
    { rewrite <- md_hash_from_app by (rewrite HB; exact Hipm). rewrite <- md_hash_standard. unfold md_hash.
      rewrite <- app_assoc, !app_length, Hip. unfold len. do 2 f_equal. lia. }
    rewrite EH. set (ih := hash_of a (ip ++ m ++ m')).
    assert (Hih : length ih = D) by apply HDH. clearbody ih.
    pose proof (at_inputs (md_iterate A (md_iv A) op) (64 + len m) [] [ih] Go Hn64) as E.
    cbn [List.concat he_inputs] in E. rewrite app_nil_r in E. cbn [app] in E. change (len []) with 0 in E.
    unfold len in E at 1 2. rewrite Hih in E. specialize (E ltac:(unfold len; lia)).
    destruct (he_input G (state_at c a (md_iterate A (md_iv A) op) (64 + len m) []) ih) as [s'|]; [|discriminate].
    cbn [bind] in E |- *. apply Ok_inj in E. rewrite E.
    rewrite at_finalize; [|exact Go|exact Hn64|rewrite Hih, E64; apply fits_room_from; assumption].
    f_equal. rewrite (md_hash_from_app a (md_iv A) _ op ih) by (rewrite HB; exact Hopm).
    unfold len. now rewrite Hih.
  Qed.
End S.

Lemma hmac_resume_exact c a key chunks chunks' : a = Sha1 \/ a = Sha256 -> wf_config c ->
  let E := hmac_engine c (algo_engine c a) in
  let m := List.concat chunks in let m' := List.concat chunks' in
  let D := digest_len a in
  (length m mod 64 = 0)%nat ->
  ((64 < length key)%nat -> fits c a (length key)) ->
  fits c a (64 + length m + length m') -> fits c a (64 + length m + D) ->
  (let* s := hmac_new c (algo_engine c a) key in
   let* s := he_inputs E s chunks in
   let* s := resume E s in
   let* s := he_inputs E s chunks' in
   he_finalize E s)
  = Ok (md_hash_from (md_of a) (md_iv (md_of a)) (8 * (64 + len m + N.of_nat D)) (outer_msg a key (m ++ m'))).
Proof.
  intros Ha WF. cbv zeta. rewrite algo_engine_generic. exact (hmac_resume_at c a WF Ha key chunks chunks').
Qed.

(** With a message block consumed before the midstate, the result is the
    standard one only through a collision. *)
Lemma hmac_resume_wrong c a key chunks chunks' : a = Sha1 \/ a = Sha256 -> wf_config c ->
  let E := hmac_engine c (algo_engine c a) in
  let m := List.concat chunks in let m' := List.concat chunks' in
  let D := digest_len a in
  (length m mod 64 = 0)%nat -> m <> [] ->
  ((64 < length key)%nat -> fits c a (length key)) ->
  fits c a (64 + length m + length m') -> fits c a (64 + length m + D) ->
  (let* s := hmac_new c (algo_engine c a) key in
   let* s := he_inputs E s chunks in
   let* s := resume E s in
   let* s := he_inputs E s chunks' in
   he_finalize E s) = Ok (HMAC (hash_of a) 64 key (m ++ m')) ->
  call_collision c a (calls_with a (8 * (64 + len m + N.of_nat D)) (outer_msg a key (m ++ m')))
                     (calls_with a (8 * (64 + N.of_nat D)) (outer_msg a key (m ++ m'))).
Proof.
  intros Ha WF E m m' D Hm Hne Hk Hi Ho Eq.
  unfold E in Eq. rewrite hmac_resume_exact in Eq by assumption. fold m m' D in Eq. apply Ok_inj in Eq.
  assert (EB : block_len a = 64%nat) by (destruct Ha as [-> | ->]; reflexivity).
  assert (HDH : forall x, length (hash_of a x) = D).
  { intros x. rewrite <- md_hash_standard. unfold md_hash.
    rewrite md_hash_from_length by (try apply md_of_ok; apply (mo_iv _ (md_of_ok a))). destruct a; reflexivity. }
  assert (HD64 : (D <= 64)%nat) by (destruct Ha as [-> | ->]; cbn; lia).
  assert (HBS : he_block_size (algo_engine c a) = N.of_nat 64) by (destruct Ha as [-> | ->]; reflexivity).
  assert (HL : length (outer_msg a key (m ++ m')) = (64 + D)%nat).
  { unfold outer_msg. rewrite EB, app_length, HDH. unfold xor_pad.
    rewrite map_length, (hmac_key_length (algo_engine c a) (hash_of a) 64 D HBS ltac:(lia) HDH HD64). reflexivity. }
  assert (EH : HMAC (hash_of a) 64 key (m ++ m')
               = md_hash_from (md_of a) (md_iv (md_of a)) (8 * (64 + N.of_nat D)) (outer_msg a key (m ++ m'))).
  { transitivity (hash_of a (outer_msg a key (m ++ m'))).
    - unfold HMAC, outer_msg, inner_msg. rewrite EB. reflexivity.
    - rewrite <- md_hash_standard. unfold md_hash. rewrite HL. f_equal. lia. }
  rewrite EH in Eq. destruct Ho as [H8 _].
  assert (Hpos : 0 < len m) by (destruct m; [contradiction|unfold len; cbn [length]; lia]).
  apply digest_collision with (c := c) in Eq; [|unfold len; lia|unfold len in *; lia|right; lia].
  destruct Eq as [Eq|[Hd _]]; [exact Eq|]. exfalso. apply Hd. destruct Ha as [-> | ->]; reflexivity.
Qed.
