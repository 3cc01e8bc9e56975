(** Midstates: resumption, length extension; collision reduction. *)
From Coq Require Import NArith ZArith List Bool Lia.
From Coq Require Import ZifyBool ZifyNat ZifyN.
From Verif Require Import Base SpecBase SpecMD ModelEngine ModelSha256 ModelSha512 ModelSha1 ModelRipemd ModelAll SpecApi
  ProofBase ProofEngine ProofMD ProofApi.
Import ListNotations.
Open Scope N_scope.

Lemma blocks_concat_words k (ls : list bytes) : (0 < k)%nat ->
  Forall (fun l => length l = k) ls -> blocks k (List.concat ls) = ls.
Proof.
  intros Hk H. now apply blocks_concat.
Qed.

Lemma be_words_octets k h : (0 < k)%nat -> bounded (8 * N.of_nat k) h ->
  be_words k (List.concat (map (be_octets k) h)) = h.
Proof.
  intros Hk Hb. unfold be_words. rewrite blocks_concat_words; [|exact Hk|].
  - rewrite map_map. rewrite <- (map_id h) at 2. apply map_ext_in. intros x Hx.
    rewrite be_int_be_octets. apply N.mod_small.
    unfold bounded in Hb. rewrite Forall_forall in Hb. specialize (Hb x Hx).
    replace (256 ^ N.of_nat k) with (2 ^ (8 * N.of_nat k)); [exact Hb|].
    rewrite N.pow_mul_r. reflexivity.
  - apply Forall_forall. intros l Hl. apply in_map_iff in Hl. destruct Hl as (x & <- & _).
    apply length_be_octets.
Qed.

(** [iterate] over an aligned prefix *)
Lemma md_iterate_app A h m d : (0 < md_block A)%nat -> (length m mod md_block A = 0)%nat ->
  md_iterate A h (m ++ d) = md_iterate A (md_iterate A h m) d.
Proof.
  intros HB Hm. unfold md_iterate. rewrite blocks_app by assumption. apply fold_left_app.
Qed.

Lemma md_hash_from_app a h bits m d : (length m mod md_block (md_of a) = 0)%nat ->
  md_hash_from (md_of a) h bits (m ++ d) = md_hash_from (md_of a) (md_iterate (md_of a) h m) bits d.
Proof.
  intros Hm. unfold md_hash_from, md_pad_with, md_padding.
  assert (HB := mo_block _ (md_of_ok a)).
  rewrite <- app_assoc, md_iterate_app by (try exact Hm; lia).
  rewrite app_length, (md_zeros_congr a (length m + length d) (length d)); [reflexivity|].
  rewrite Nat.add_mod, Hm by lia. cbn [Nat.add]. apply Nat.mod_mod. lia.
Qed.

Lemma md_padded_mod a n : (md_padded (md_of a) n mod md_block (md_of a) = 0)%nat.
Proof.
  unfold md_padded, md_zeros. apply Nat2Z.inj. rewrite Nat2Z.inj_mod.
  assert (HB := mo_block _ (md_of_ok a)).
  set (B := md_block (md_of a)) in *. set (F := md_field (md_of a)).
  assert (Hz := Z.mod_pos_bound (Z.of_nat B - Z.of_nat F - 1 - Z.of_nat n) (Z.of_nat B) ltac:(lia)).
  rewrite !Nat2Z.inj_add, Z2Nat.id by lia.
  replace (Z.of_nat n + Z.of_nat 1 + (Z.of_nat B - Z.of_nat F - 1 - Z.of_nat n) mod Z.of_nat B + Z.of_nat F)%Z
    with ((Z.of_nat B - Z.of_nat F - 1 - Z.of_nat n) mod Z.of_nat B + (Z.of_nat n + 1 + Z.of_nat F))%Z by lia.
  rewrite Z.add_mod_idemp_l by lia.
  replace (Z.of_nat B - Z.of_nat F - 1 - Z.of_nat n + (Z.of_nat n + 1 + Z.of_nat F))%Z with (Z.of_nat B) by lia.
  apply Z.mod_same. lia.
Qed.

Lemma be_words_md_words a h : a = Sha1 \/ a = Sha256 -> good_h (md_of a) h ->
  be_words 4 (md_words (md_of a) h) = h.
Proof.
  intros [-> | ->] [_ Hb]; (apply (be_words_octets 4); [lia|exact Hb]).
Qed.

Lemma resumable_be a : a = Sha1 \/ a = Sha256 -> resumable a = true.
Proof. intros [-> | ->]; reflexivity. Qed.

Section Resume.
  Context (c : config) (a : algo) (WF : wf_config c).
  Notation A := (md_of a).
  Notation G := (generic_engine c a).
  Notation M := (2 ^ usize_bits c).

  (** Observations depend only on the chaining value and counter reached. *)
  Lemma observe_state h0 L0 msg chunks : good_h A h0 -> L0 mod N.of_nat (md_block A) = 0 -> L0 < M ->
    (length msg mod md_block A = 0)%nat ->
    observe G (state_at c a h0 L0 msg) chunks =
    observe G (state_at c a (md_iterate A h0 msg) (counter c L0 (len msg)) []) chunks.
  Proof.
    intros Hh HL HM Hal.
    assert (HB := mo_block _ (md_of_ok a)).
    assert (HC : counter c L0 (len msg) < M) by (apply N.mod_lt; pose proof (M_pos c); lia).
    assert (HL' : counter c L0 (len msg) mod N.of_nat (md_block A) = 0).
    { pose proof (ProofEngine.canon_length_mod c (md_block A) (md_compress A)
        (good_h A) WF (block_range a) (block_div a)
        (fun h b H _ => mo_compress _ (md_of_ok a) h b H) M eq_refl
        (array x00 (N.of_nat (md_block A))) h0 L0 (buf_len a) Hh HL msg) as E.
      change (counter c L0 (len msg) mod N.of_nat (md_block A) = len msg mod N.of_nat (md_block A)) in E.
      rewrite E. unfold len. rewrite <- Nnat.Nat2N.inj_mod, Hal. reflexivity. }
    assert (Hh' : good_h A (md_iterate A h0 msg)) by (apply md_iterate_good; [apply md_of_ok|exact Hh]).
    assert (EC : forall n, counter c (counter c L0 (len msg)) n = counter c L0 (len msg + n)).
    { intros n. unfold counter. rewrite N.add_mod_idemp_l, N.add_assoc; [reflexivity|].
      pose proof (M_pos c). lia. }
    unfold observe.
    rewrite (splits_from_to c a WF h0 L0 msg) by (repeat split; assumption || apply Hh).
    rewrite (splits_from_to c a WF (md_iterate A h0 msg) (counter c L0 (len msg)) [])
      by (repeat split; try assumption; apply Hh').
    set (d := List.concat chunks).
    cbn [generic_engine he_input he_midstate he_n_bytes_hashed he_finalize].
    rewrite !algo_input_exact by assumption. rewrite EC. unfold len at 3. cbn [length N.of_nat].
    rewrite N.add_0_r.
    destruct (overflow_checks c && _); [reflexivity|]. cbn [bind app].
    rewrite !algo_midstate_exact by assumption.
    rewrite md_iterate_app by (try exact Hal; lia).
    rewrite !state_at_length, EC, <- len_app.
    rewrite !algo_finalize_exact by assumption.
    unfold finalize_overflows, bits_at. rewrite EC, <- len_app.
    rewrite md_hash_from_app by exact Hal.
    rewrite (md_zeros_congr a (length (msg ++ d)) (length d)).
    - reflexivity.
    - rewrite app_length, Nat.add_mod, Hal by lia. cbn [Nat.add]. apply Nat.mod_mod. lia.
  Qed.

  (** Resuming a big-endian engine at a block boundary. *)
  Lemma gen_resume s : a = Sha1 \/ a = Sha256 ->
    reachable c G (mid_valid a) s -> e_length s mod N.of_nat (md_block A) = 0 ->
    exists s', resume G s = Ok s' /\ forall chunks, observe G s' chunks = observe G s chunks.
  Proof.
    intros Ha HR Hal.
    destruct (reachable_from_to c a WF s HR) as (h0 & L0 & msg & (Hh & HL & HM & ->)).
    rewrite state_at_length in Hal.
    assert (HB := mo_block _ (md_of_ok a)).
    assert (HC : counter c L0 (len msg) < M) by (apply N.mod_lt; pose proof (M_pos c); lia).
    assert (Halm : (length msg mod md_block A = 0)%nat).
    { pose proof (ProofEngine.canon_length_mod c (md_block A) (md_compress A)
        (good_h A) WF (block_range a) (block_div a)
        (fun h b H _ => mo_compress _ (md_of_ok a) h b H) M eq_refl
        (array x00 (N.of_nat (md_block A))) h0 L0 (buf_len a) Hh HL msg) as E.
      change (counter c L0 (len msg) mod N.of_nat (md_block A) = len msg mod N.of_nat (md_block A)) in E.
      rewrite Hal in E. unfold len in E. rewrite <- Nnat.Nat2N.inj_mod in E. lia. }
    assert (Hh' : good_h A (md_iterate A h0 msg)) by (apply md_iterate_good; [apply md_of_ok|exact Hh]).
    exists (state_at c a (md_iterate A h0 msg) (counter c L0 (len msg)) []). split.
    - unfold resume. cbn [generic_engine he_midstate he_from_midstate he_n_bytes_hashed].
      rewrite algo_midstate_exact by assumption. cbn [bind]. rewrite state_at_length.
      rewrite from_midstate_exact.
      + rewrite Hal. cbn [N.eqb]. rewrite state_at_nil by exact HC.
        now rewrite (resumable_be a Ha), be_words_md_words.
      + unfold mid_valid. rewrite md_words_length by apply (mo_word _ (md_of_ok a)).
        destruct Hh' as [-> _]. destruct a; reflexivity.
    - intros chunks. symmetry. apply observe_state; assumption.
  Qed.

  (** Length extension *)
  Lemma gen_extend m ext s : a = Sha1 \/ a = Sha256 ->
    let bits := 8 * len m in
    let n := md_padded A (length m) in
    bits < 2 ^ 64 -> N.of_nat n < M ->
    algo_from_midstate a (hash_of a m) (N.of_nat n) = Ok s ->
    fits c a (n + length ext) ->
    (let* s' := he_input G s ext in he_finalize G s')
    = Ok (hash_of a (md_pad_with A bits m ++ ext)).
  Proof.
    intros Ha bits n Hb Hn E [H8 Hf].
    assert (HB := mo_block _ (md_of_ok a)).
    set (p := md_pad_with A bits m).
    assert (Hp : length p = n).
    { unfold p, md_pad_with, md_padding, n, md_padded. rewrite !app_length, repeat_length.
      rewrite (mo_lenfield _ (md_of_ok a)). cbn [length]. lia. }
    assert (Hpm : (length p mod md_block A = 0)%nat).
    { rewrite Hp. unfold n.
      apply md_padded_mod. }
    assert (Hiv := mo_iv _ (md_of_ok a)).
    assert (Hh : good_h A (md_iterate A (md_iv A) p)) by (apply md_iterate_good; [apply md_of_ok|exact Hiv]).
    assert (EH : hash_of a m = md_words A (md_iterate A (md_iv A) p)).
    { rewrite <- md_hash_standard. unfold md_hash. rewrite md_hash_from_full; [reflexivity|apply md_of_ok|exact Hiv|].
      destruct Ha as [-> | ->]; reflexivity. }
    assert (Haln : N.of_nat n mod N.of_nat (md_block A) = 0).
    { rewrite <- Nnat.Nat2N.inj_mod, <- Hp, Hpm. reflexivity. }
    assert (Es : s = state_at c a (md_iterate A (md_iv A) p) (N.of_nat n) []).
    { rewrite state_at_nil by exact Hn. rewrite EH in E. rewrite from_midstate_exact in E.
      - rewrite Haln in E. cbn [N.eqb] in E.
        rewrite (resumable_be a Ha), be_words_md_words in E by assumption. now injection E as <-.
      - unfold mid_valid. rewrite md_words_length by apply (mo_word _ (md_of_ok a)).
        destruct Hh as [-> _]. destruct a; reflexivity. }
    subst s. cbn [generic_engine he_input he_finalize]. rewrite algo_input_exact by assumption.
    unfold counter, len at 1. cbn [length N.of_nat]. rewrite N.add_0_r, (N.mod_small (N.of_nat n)) by exact Hn.
    assert (HT : N.of_nat n + len ext < M).
    { unfold len. destruct (overflow_checks c); [|lia].
      pose proof (md_padded_ge A (n + length ext)). lia. }
    destruct (N.leb_spec M (N.of_nat n + len ext)); [lia|]. rewrite andb_false_r. cbn [bind app].
    rewrite algo_finalize_exact by assumption. unfold finalize_overflows, counter, bits_at, counter.
    rewrite (N.mod_small (N.of_nat n + len ext)) by exact HT.
    rewrite <- (md_zeros_congr a (n + length ext) (length ext)).
    2: { rewrite Nat.add_mod, <- Hp, Hpm by lia. cbn [Nat.add]. apply Nat.mod_mod. lia. }
    replace (overflow_checks c && _) with false.
    - f_equal. rewrite <- md_hash_standard. unfold md_hash. rewrite md_hash_from_app by exact Hpm.
      rewrite N.mod_small by (unfold len in *; lia). rewrite app_length, Hp. unfold len. f_equal. lia.
    - symmetry. destruct (overflow_checks c); [cbn [andb]|reflexivity].
      unfold md_padded in Hf at 1. unfold len.
      apply orb_false_intro; apply N.leb_gt; lia.
  Qed.
End Resume.

(** ** RIPEMD-160: the midstate is read with the wrong byte order *)

Lemma be_words_le_octets h : be_words 4 (List.concat (map (le_octets 4) h))
  = map (fun x => be_int (le_octets 4 x)) h.
Proof.
  unfold be_words. rewrite blocks_concat_words.
  - now rewrite map_map.
  - lia.
  - apply Forall_forall. intros l Hl. apply in_map_iff in Hl. destruct Hl as (x & <- & _).
    apply length_le_octets.
Qed.

(** ** Collisions *)

Lemma calls_app f bs bs' : forall h, calls f h (bs ++ bs') = calls f h bs ++ calls f (fold_left f bs h) bs'.
Proof. induction bs as [|b bs IH]; intros h; [reflexivity|]. cbn. now rewrite IH. Qed.

(** Going backwards from equal final values, the first difference is a
    collision. *)
Lemma calls_collision f bs : forall bs' h, fold_left f bs h = fold_left f bs' h -> bs <> bs' ->
  length bs = length bs' \/ (bs <> [] /\ bs' <> [] /\ last bs [] <> last bs' []) ->
  exists p p', In p (calls f h bs) /\ In p' (calls f h bs') /\ p <> p' /\
    f (fst p) (snd p) = f (fst p') (snd p').
Proof.
  induction bs as [|b bs IH] using rev_ind; intros bs' h E Hne Hc.
  - destruct Hc as [Hl|(Hn & _)]; [|now elim Hn]. destruct bs'; [now elim Hne|discriminate].
  - destruct bs' as [|b' bs' _] using rev_ind.
    { destruct Hc as [Hl|(_ & Hn & _)]; [|now elim Hn]. rewrite app_length in Hl. cbn in Hl. lia. }
    rewrite !fold_left_app in E. cbn [fold_left] in E. rewrite !calls_app. cbn [calls].
    destruct (list_eq_dec N.eq_dec (fold_left f bs h) (fold_left f bs' h)) as [Ex|Nx].
    + destruct (list_eq_dec Byte.byte_eq_dec b b') as [Eb|Nb].
      * subst b'. destruct Hc as [Hl|(_ & _ & Hn)]; [|rewrite !last_last in Hn; now elim Hn].
        rewrite !app_length in Hl. cbn [length] in Hl.
        destruct (IH bs' h Ex) as (p & p' & H1 & H2 & H3 & H4); [congruence|left; lia|].
        exists p, p'. repeat split; try assumption; apply in_or_app; now left.
      * exists (fold_left f bs h, b), (fold_left f bs' h, b').
        split; [apply in_or_app; right; now left|]. split; [apply in_or_app; right; now left|].
        split; [congruence|exact E].
    + exists (fold_left f bs h, b), (fold_left f bs' h, b').
      split; [apply in_or_app; right; now left|]. split; [apply in_or_app; right; now left|].
      split; [congruence|exact E].
Qed.

Lemma calls_good A bs : md_ok A -> Forall (fun b => length b = md_block A) bs -> forall h, good_h A h ->
  forall p, In p (calls (md_compress A) h bs) -> good_h A (fst p) /\ length (snd p) = md_block A.
Proof.
  intros HA HF. induction HF as [|b bs Hb HF IH]; intros h Hh p [].
  - subst p. split; assumption.
  - apply (IH (md_compress A h b)); [now apply (mo_compress _ HA)|assumption].
Qed.

Lemma concat_map_inj (f : N -> bytes) k w h : forall h', length h = length h' ->
  (forall x, length (f x) = k) -> (forall x y, x < 2 ^ w -> y < 2 ^ w -> f x = f y -> x = y) ->
  bounded w h -> bounded w h' ->
  List.concat (map f h) = List.concat (map f h') -> h = h'.
Proof.
  induction h as [|x h IH]; intros [|y h'] Hl Hk Hf Hb Hb' E; try discriminate; [reflexivity|].
  cbn [map List.concat] in E. inversion Hb; inversion Hb'; subst.
  assert (E1 := f_equal (firstn k) E). assert (E2 := f_equal (skipn k) E).
  rewrite !firstn_app, !Hk, Nat.sub_diag, !firstn_O, !app_nil_r in E1.
  rewrite !firstn_all2 in E1 by (rewrite Hk; lia).
  rewrite !skipn_app, !Hk, Nat.sub_diag, !skipn_O in E2.
  rewrite !skipn_all2 in E2 by (rewrite Hk; lia). cbn [app] in E2.
  f_equal; [now apply Hf|]. apply IH; try assumption. cbn [length] in Hl. lia.
Qed.

Lemma be_octets_inj k x y : x < 2 ^ (8 * N.of_nat k) -> y < 2 ^ (8 * N.of_nat k) ->
  be_octets k x = be_octets k y -> x = y.
Proof.
  intros Hx Hy E. apply (f_equal be_int) in E. rewrite !be_int_be_octets in E.
  rewrite !N.mod_small in E by assumption. exact E.
Qed.

Lemma le_octets_inj k x y : x < 2 ^ (8 * N.of_nat k) -> y < 2 ^ (8 * N.of_nat k) ->
  le_octets k x = le_octets k y -> x = y.
Proof.
  intros Hx Hy E. apply (be_octets_inj k); try assumption. unfold be_octets. now rewrite E.
Qed.

Lemma md_word_inj a x y : x < 2 ^ (8 * N.of_nat (md_wbytes (md_of a))) ->
  y < 2 ^ (8 * N.of_nat (md_wbytes (md_of a))) -> md_word (md_of a) x = md_word (md_of a) y -> x = y.
Proof.
  destruct a; try exact (be_octets_inj 4 x y); try exact (be_octets_inj 8 x y); exact (le_octets_inj 4 x y).
Qed.

Lemma md_words_inj a h h' : good_h (md_of a) h -> good_h (md_of a) h' ->
  md_words (md_of a) h = md_words (md_of a) h' -> h = h'.
Proof.
  intros [Hl Hb] [Hl' Hb'] E.
  apply (concat_map_inj (md_word (md_of a)) (md_wbytes (md_of a)) (8 * N.of_nat (md_wbytes (md_of a))));
    try assumption.
  - congruence.
  - apply (mo_word _ (md_of_ok a)).
  - apply md_word_inj.
Qed.

Lemma md_lenfield_inj a x y : x < 2 ^ 64 -> y < 2 ^ 64 ->
  md_lenfield (md_of a) x = md_lenfield (md_of a) y -> x = y.
Proof.
  intros Hx Hy.
  assert (Hx' : x < 2 ^ (8 * N.of_nat 16)) by (change (2 ^ (8 * N.of_nat 16)) with (2 ^ 64 * 2 ^ 64); lia).
  assert (Hy' : y < 2 ^ (8 * N.of_nat 16)) by (change (2 ^ (8 * N.of_nat 16)) with (2 ^ 64 * 2 ^ 64); lia).
  destruct a; try exact (be_octets_inj 8 x y Hx Hy); try exact (be_octets_inj 16 x y Hx' Hy');
    exact (le_octets_inj 8 x y Hx Hy).
Qed.

Lemma length_md_pad a bits m : length (md_pad_with (md_of a) bits m) = md_padded (md_of a) (length m).
Proof.
  unfold md_pad_with, md_padding, md_padded. rewrite !app_length, repeat_length.
  rewrite (mo_lenfield _ (md_of_ok a)). cbn [length]. lia.
Qed.

Lemma tail_of_last_block {B k} (q f b : bytes) (bs : list bytes) :
  q ++ f = List.concat (bs ++ [b]) -> length f = k -> length b = B -> (k <= B)%nat ->
  skipn (B - k) b = f.
Proof.
  intros E Hf Hb Hk. rewrite concat_app in E. cbn [List.concat] in E. rewrite app_nil_r in E.
  apply (f_equal (@rev byte)) in E. rewrite !rev_app_distr in E.
  apply (f_equal (firstn k)) in E.
  rewrite !firstn_app, !rev_length, Hf, Hb in E.
  replace (k - k)%nat with 0%nat in E by lia. replace (k - B)%nat with 0%nat in E by lia.
  rewrite !firstn_O, !app_nil_r in E. rewrite firstn_all2 in E by (rewrite rev_length; lia).
  rewrite firstn_rev in E. apply (f_equal (@rev byte)) in E. rewrite !rev_involutive in E.
  rewrite Hb in E. now symmetry.
Qed.

Lemma fold_good a p h : good_h (md_of a) h -> good_h (md_of a) (fold_left (md_compress (md_of a)) p h).
Proof.
  revert h. induction p as [|b p IH]; intros h Hh; [exact Hh|]. cbn [fold_left]. apply IH.
  now apply (mo_compress _ (md_of_ok a)).
Qed.

Lemma block_out_ok c a p : good_h (md_of a) (fst p) -> length (snd p) = md_block (md_of a) ->
  block_out c a p = Ok (md_compress (md_of a) (fst p) (snd p)).
Proof.
  destruct p as [h b]. intros Hh Hb. unfold block_out. cbn [fst snd] in *.
  rewrite (block_fn_ok c a (mk_engine b h 0)) by assumption. reflexivity.
Qed.

(** Two padded messages with the same final value. *)
Lemma pad_collision c a bits bits' m m' : bits < 2 ^ 64 -> bits' < 2 ^ 64 ->
  (length m = length m' /\ m <> m') \/ bits <> bits' ->
  final_with a bits m = final_with a bits' m' ->
  call_collision c a (calls_with a bits m) (calls_with a bits' m').
Proof.
  intros H8 H8' Hne Ey. unfold final_with, md_iterate in Ey. unfold call_collision, calls_with.
  assert (HB := mo_block _ (md_of_ok a)). assert (Hiv := mo_iv _ (md_of_ok a)).
  assert (EB : block_len a = md_block (md_of a)) by (destruct a; reflexivity). rewrite EB.
  set (p := md_pad_with (md_of a) bits m) in *.
  set (p' := md_pad_with (md_of a) bits' m') in *.
  assert (Hbs := blocks_Forall (md_block (md_of a)) p ltac:(lia)).
  assert (Hbs' := blocks_Forall (md_block (md_of a)) p' ltac:(lia)).
  assert (Hp : (length p mod md_block (md_of a) = 0)%nat) by (unfold p; rewrite length_md_pad; apply md_padded_mod).
  assert (Hp' : (length p' mod md_block (md_of a) = 0)%nat) by (unfold p'; rewrite length_md_pad; apply md_padded_mod).
  assert (HC := concat_blocks (md_block (md_of a)) p ltac:(lia) Hp).
  assert (HC' := concat_blocks (md_block (md_of a)) p' ltac:(lia) Hp').
  assert (HL := blocks_length (md_block (md_of a)) p).
  assert (HL' := blocks_length (md_block (md_of a)) p').
  set (bs := blocks (md_block (md_of a)) p) in *.
  set (bs' := blocks (md_block (md_of a)) p') in *.
  assert (Hge : forall l, (md_block (md_of a) <= md_padded (md_of a) l)%nat).
  { intros l. pose proof (md_padded_mod a l) as Hm.
    assert (0 < md_padded (md_of a) l)%nat by (unfold md_padded; lia).
    apply Nat.mod_divides in Hm; [|lia]. destruct Hm as (k & Hk). nia. }
  assert (Hn : bs <> []).
  { intros E. rewrite E in HL. cbn [length] in HL. symmetry in HL. apply Nat.div_small_iff in HL; [|lia].
    unfold p in HL. rewrite length_md_pad in HL. specialize (Hge (length m)). lia. }
  assert (Hn' : bs' <> []).
  { intros E. rewrite E in HL'. cbn [length] in HL'. symmetry in HL'. apply Nat.div_small_iff in HL'; [|lia].
    unfold p' in HL'. rewrite length_md_pad in HL'. specialize (Hge (length m')). lia. }
  assert (Hf := mo_lenfield _ (md_of_ok a)).
  assert (Hfb : (md_field (md_of a) <= md_block (md_of a))%nat) by (destruct a; cbn; lia).
  (* different length fields: different last blocks *)
  assert (Hlast : bits <> bits' -> last bs [] <> last bs' []).
  { intros Nb E. apply Nb.
    pose proof (app_removelast_last [] Hn) as D. pose proof (app_removelast_last [] Hn') as D'.
    rewrite D in HC, Hbs. rewrite D', <- E in HC', Hbs'.
    apply Forall_app in Hbs, Hbs'. destruct Hbs as [_ Hb1], Hbs' as [_ Hb2]. inversion Hb1; inversion Hb2; subst.
    unfold p, md_pad_with, md_padding in HC. unfold p', md_pad_with, md_padding in HC'.
    rewrite !app_assoc in HC, HC'. symmetry in HC, HC'.
    pose proof (tail_of_last_block _ _ _ _ HC (Hf _) ltac:(eassumption) Hfb) as T.
    pose proof (tail_of_last_block _ _ _ _ HC' (Hf _) ltac:(eassumption) Hfb) as T'.
    rewrite T in T'. now apply md_lenfield_inj in T'. }
  assert (Hdiff : bs <> bs').
  { intros E. destruct Hne as [[El Nm]|Nb].
    - apply Nm. rewrite E in HC. rewrite HC in HC'. unfold p, p', md_pad_with in HC'.
      apply (f_equal (firstn (length m))) in HC'.
      rewrite !firstn_app, <- El, !Nat.sub_diag, !firstn_O, !app_nil_r, firstn_all in HC'.
      rewrite HC', El. apply firstn_all.
    - apply (Hlast Nb). now rewrite E. }
  destruct (calls_collision (md_compress (md_of a)) bs bs' (md_iv (md_of a)) Ey Hdiff)
    as (q & q' & H1 & H2 & H3 & H4).
  { destruct (N.eq_dec bits bits') as [Eb|Nb]; [|right; now repeat split; auto].
    left. destruct Hne as [[El _]|Nb]; [|contradiction].
    etransitivity; [exact HL|]. symmetry. etransitivity; [exact HL'|].
    unfold p, p'. now rewrite !length_md_pad, El. }
  destruct (calls_good _ _ (md_of_ok a) Hbs _ Hiv q H1) as [G1 G2].
  destruct (calls_good _ _ (md_of_ok a) Hbs' _ Hiv q' H2) as [G1' G2'].
  exists q, q', (md_compress (md_of a) (fst q) (snd q)).
  split; [exact H1|]. split; [exact H2|]. split; [exact H3|].
  split; [now apply block_out_ok|]. rewrite H4. now apply block_out_ok.
Qed.

(** Equal digests that are not cut off mean equal final values. *)
Lemma digest_final a bits bits' m m' : digest_len a = mid_len a ->
  md_hash_from (md_of a) (md_iv (md_of a)) bits m = md_hash_from (md_of a) (md_iv (md_of a)) bits' m' ->
  final_with a bits m = final_with a bits' m'.
Proof.
  intros Hd E. assert (Hiv := mo_iv _ (md_of_ok a)). apply (md_words_inj a).
  - now apply md_iterate_good; [apply md_of_ok|].
  - now apply md_iterate_good; [apply md_of_ok|].
  - assert (ED : md_digest (md_of a) = digest_len a) by (destruct a; reflexivity).
    unfold md_hash_from in E. rewrite ED in E.
    assert (HW : forall h, good_h (md_of a) h -> length (md_words (md_of a) h) = mid_len a).
    { intros h [Hh _]. rewrite md_words_length by apply (mo_word _ (md_of_ok a)). rewrite Hh.
      destruct a; reflexivity. }
    rewrite !firstn_all2 in E by (rewrite HW; [lia|apply md_iterate_good; [apply md_of_ok|exact Hiv]]).
    exact E.
Qed.

Lemma digest_collision c a bits bits' m m' : bits < 2 ^ 64 -> bits' < 2 ^ 64 ->
  (length m = length m' /\ m <> m') \/ bits <> bits' ->
  md_hash_from (md_of a) (md_iv (md_of a)) bits m = md_hash_from (md_of a) (md_iv (md_of a)) bits' m' ->
  call_collision c a (calls_with a bits m) (calls_with a bits' m') \/
  (digest_len a <> mid_len a /\ final_with a bits m <> final_with a bits' m').
Proof.
  intros H8 H8' Hne E.
  destruct (list_eq_dec N.eq_dec (final_with a bits m) (final_with a bits' m')) as [Ef|Nf].
  - left. now apply pad_collision.
  - right. split; [|exact Nf]. intros Hd. apply Nf. now apply digest_final.
Qed.

(** RIPEMD-160: what [midstate] returns after [from_midstate]. *)
Lemma le_octets_be_int b : length b = 4%nat -> le_octets 4 (be_int b) = rev b.
Proof.
  intros H. rewrite <- (rev_involutive (le_octets 4 (be_int b))). f_equal.
  change (be_octets 4 (be_int b) = b).
  rewrite <- H. apply be_octets_be_int.
Qed.

Lemma ripemd_swaps c m n s : wf_config c -> length m = 20%nat -> n < 2 ^ usize_bits c ->
  he_from_midstate (ripemd160_engine c) m n = Ok s ->
  he_midstate (ripemd160_engine c) s = Ok (List.concat (map (@rev byte) (blocks 4 m))).
Proof.
  intros WF Hm Hn E.
  destruct (from_to_mid c Ripemd160 m n s Hm Hn E) as [(Hh & HL & HM & ->) _].
  change (algo_midstate Ripemd160 (state_at c Ripemd160 (be_words 4 m) n []) = Ok (List.concat (map (@rev byte) (blocks 4 m)))).
  rewrite algo_midstate_exact by assumption. f_equal.
  unfold md_iterate. rewrite blocks_nil. unfold md_words, be_words. cbn [fold_left md_of md_word].
  f_equal. rewrite map_map. apply map_ext_in. intros b Hb. apply le_octets_be_int.
  pose proof (blocks_Forall 4 m ltac:(lia)) as F. rewrite Forall_forall in F. now apply F.
Qed.
