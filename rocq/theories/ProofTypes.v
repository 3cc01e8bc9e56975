(** Hash value types: conversions, text, serde, order, indexing *)
From Coq Require Import NArith Arith List Bool Lia.
From Coq Require Import Strings.Byte.
From Verif Require Import Base SpecBase SpecText ModelTypes SpecTypes ProofBase ProofCmp.
Import ListNotations.
Open Scope N_scope.

(** ** from_slice *)
Lemma from_slice_body_ok n sl : from_slice_body n sl
  = Ok (if len sl =? n then ROk sl else RErr {| expected := n; got := len sl |}).
Proof.
  unfold from_slice_body. destruct (N.eqb_spec (len sl) n) as [E|_]; cbn [negb]; [|reflexivity].
  unfold copy_from_slice, array, len in *. rewrite repeat_length, N2Nat.id, E, N.eqb_refl. reflexivity.
Qed.

Lemma ty_len_hmac n : ty_len (THmac n) = n.
Proof. unfold ty_len, macro_bits. rewrite N.mul_comm. now apply N.div_mul. Qed.

Lemma from_slice_ok t sl : from_slice t sl
  = Ok (if len sl =? ty_len t then ROk sl else RErr {| expected := ty_len t; got := len sl |}).
Proof.
  destruct t; try exact (from_slice_body_ok _ _).
  unfold from_slice. rewrite ty_len_hmac. apply from_slice_body_ok.
Qed.

Lemma from_slice_cases t sl :
  (len sl = ty_len t /\ from_slice t sl = Ok (ROk sl)) \/
  (len sl <> ty_len t /\ exists e, from_slice t sl = Ok (RErr e) /\
     expected_length e = ty_len t /\ invalid_length e = len sl).
Proof.
  rewrite from_slice_ok. destruct (N.eqb_spec (len sl) (ty_len t)) as [E|E]; [now left|].
  right. split; [exact E|]. eexists. split; [reflexivity|]. now split.
Qed.

(** ** Hexadecimal *)
Lemma nibble_digits cs v : v < 16 ->
  nibble_char cs v = nth (N.to_nat v) (match cs with Lower => digits | Upper => DIGITS end) x00.
Proof.
  intros H. assert (Hc : forallb (fun k => match Byte.eqb (nibble_char cs (N.of_nat k))
       (nth k (match cs with Lower => digits | Upper => DIGITS end) x00) with true => true | false => false end)
     (seq 0 16) = true) by (destruct cs; reflexivity).
  rewrite forallb_forall in Hc. specialize (Hc (N.to_nat v)). rewrite N2Nat.id in Hc.
  destruct (Byte.eqb (nibble_char cs v) _) eqn:E in Hc.
  - now apply Byte.byte_dec_bl.
  - discriminate Hc. apply in_seq. lia.
Qed.

Definition case_digits (cs : hex_case) : text := match cs with Lower => digits | Upper => DIGITS end.

Lemma put_bytes_hex_text cs h : put_bytes cs h = hex_text (case_digits cs) h.
Proof.
  induction h as [|b h IH]; [reflexivity|]. unfold hex_text in *. cbn [put_bytes map List.concat hex_pair app].
  assert (Hb := b2n_lt b). change (Byte.to_N b) with (b2n b).
  rewrite IH. rewrite N.shiftr_div_pow2. change 15 with (N.ones 4). rewrite N.land_ones.
  change (2 ^ 4) with 16.
  rewrite !nibble_digits; [reflexivity| |].
  - apply N.mod_lt. discriminate.
  - apply N.div_lt_upper_bound; [discriminate|]. exact Hb.
Qed.

Lemma hex_text_length ds h : length (hex_text ds h) = (2 * length h)%nat.
Proof.
  unfold hex_text. induction h as [|b h IH]; [reflexivity|]. cbn [map List.concat hex_pair app length].
  rewrite IH. lia.
Qed.

(** All 256 characters *)
Lemma to_digit16_spec ch v : to_digit16 ch = Some v <-> digit_is ch v.
Proof.
  split.
  - intros E. unfold digit_is. destruct ch; vm_compute in E; try discriminate E;
      injection E as <-; vm_compute; auto.
  - intros E. assert (Hv : v < 16).
    { assert (Hl : (N.to_nat v < 16)%nat); [|lia].
      change 16%nat with (length digits). destruct E as [E|E].
      - apply nth_error_Some. congruence.
      - change (length digits) with (length DIGITS). apply nth_error_Some. congruence. }
    assert (Hc : forallb (fun k =>
       match nth_error digits k, nth_error DIGITS k with
       | Some a, Some b => match to_digit16 a, to_digit16 b with
                           | Some x, Some y => (x =? N.of_nat k) && (y =? N.of_nat k)
                           | _, _ => false end
       | _, _ => false end) (seq 0 16) = true) by reflexivity.
    rewrite forallb_forall in Hc. specialize (Hc (N.to_nat v)). rewrite N2Nat.id in Hc.
    specialize (Hc ltac:(apply in_seq; lia)).
    destruct (nth_error digits (N.to_nat v)) as [a|] eqn:Ea; [|discriminate Hc].
    destruct (nth_error DIGITS (N.to_nat v)) as [b|] eqn:Eb; [|discriminate Hc].
    destruct (to_digit16 a) as [x|] eqn:Ex; [|discriminate Hc].
    destruct (to_digit16 b) as [y|] eqn:Ey; [|discriminate Hc].
    apply andb_true_iff in Hc as [H1 H2]. apply N.eqb_eq in H1, H2. subst x y.
    unfold digit_is in E. rewrite Ea, Eb in E. destruct E as [E|E]; injection E as <-; assumption.
Qed.

Lemma digit_lt ch v : digit_is ch v -> v < 16.
Proof.
  intros H. apply to_digit16_spec in H. revert H. unfold to_digit16. assert (Hb := b2n_lt ch).
  destruct ((48 <=? b2n ch) && (b2n ch <=? 57)) eqn:E1;
    [apply andb_true_iff in E1 as [A B]; apply N.leb_le in A, B; intros H; injection H as <-; lia|].
  destruct ((97 <=? b2n ch) && (b2n ch <=? 102)) eqn:E2;
    [apply andb_true_iff in E2 as [A B]; apply N.leb_le in A, B; intros H; injection H as <-; lia|].
  destruct ((65 <=? b2n ch) && (b2n ch <=? 70)) eqn:E3;
    [apply andb_true_iff in E3 as [A B]; apply N.leb_le in A, B; intros H; injection H as <-; lia|].
  discriminate.
Qed.

Lemma digit_fun ch v w : digit_is ch v -> digit_is ch w -> v = w.
Proof. rewrite <- !to_digit16_spec. congruence. Qed.

Lemma hex_digit_dec ch : hex_digit ch <-> exists v, to_digit16 ch = Some v.
Proof. unfold hex_digit. split; intros [v H]; exists v; now apply to_digit16_spec. Qed.

(** The iterator on a text of even length *)
Lemma hex_iter_ok s : forall b, Nat.Even (length s) -> (hex_iter s = ROk b <-> denotes s b).
Proof.
  assert (H : forall n s, (length s <= n)%nat -> forall b, Nat.Even (length s) ->
            (hex_iter s = ROk b <-> denotes s b)).
  { clear s. induction n as [|n IH]; intros s Hl b He.
    - destruct s; [|cbn in Hl; lia]. cbn. split.
      + intros E. injection E as <-. constructor.
      + intros E. now inversion E.
    - destruct s as [|hi [|lo s]].
      + cbn. split; [intros E; injection E as <-; constructor|intros E; now inversion E].
      + exfalso. destruct He as [k Hk]. cbn in Hk. lia.
      + assert (He' : Nat.Even (length s)).
        { destruct He as [k Hk]. exists (k - 1)%nat. cbn [length] in Hk. lia. }
        assert (Hl' : (length s <= n)%nat) by (cbn in Hl; lia).
        cbn [hex_iter]. split.
        * intros E.
          destruct (to_digit16 hi) as [v|] eqn:Ev; [|discriminate].
          destruct (to_digit16 lo) as [w|] eqn:Ew; [|discriminate].
          destruct (hex_iter s) as [r|e] eqn:Er; [|discriminate]. injection E as <-.
          apply to_digit16_spec in Ev, Ew. assert (Hv := digit_lt _ _ Ev). assert (Hw := digit_lt _ _ Ew).
          apply (den_cons hi lo v w); try assumption.
          -- change (b2n (u8 (16 * v + w)) = 16 * v + w). rewrite b2n_u8. apply N.mod_small. lia.
          -- now apply (IH s Hl' r He').
        * intros E. inversion E as [|hi' lo' v w s' x l Ev Ew Ex Es]; subst.
          apply to_digit16_spec in Ev as Ev', Ew as Ew'. rewrite Ev', Ew'.
          apply (IH s Hl' l He') in Es. rewrite Es. do 2 f_equal.
          rewrite <- Ex. apply u8_b2n. }
  intros b. exact (H (length s) s (le_n _) b).
Qed.

Lemma denotes_length s b : denotes s b -> length s = (2 * length b)%nat.
Proof. induction 1 as [|? ? ? ? ? ? ? _ _ _ _ IH]; [reflexivity|]. cbn [length]. lia. Qed.

Lemma denotes_fun s b b' : denotes s b -> denotes s b' -> b = b'.
Proof.
  intros H. revert b'. induction H as [|hi lo v w s x l Hv Hw Hx Hs IH]; intros b' H'; inversion H'; subst.
  - reflexivity.
  - f_equal; [|now apply IH]. apply b2n_inj. unfold b2n.
    match goal with
    | [ A : digit_is hi ?v', B : digit_is lo ?w', C : _ = 16 * ?v' + ?w' |- _ ] =>
        rewrite (digit_fun _ _ _ Hv A), (digit_fun _ _ _ Hw B) in Hx; congruence
    end.
Qed.

Lemma denotes_exists s : Nat.Even (length s) -> Forall hex_digit s -> exists b, denotes s b.
Proof.
  assert (H : forall n s, (length s <= n)%nat -> Nat.Even (length s) -> Forall hex_digit s -> exists b, denotes s b).
  { clear s. induction n as [|n IH]; intros s Hl He HF.
    - destruct s; [|cbn in Hl; lia]. exists []. constructor.
    - destruct s as [|hi [|lo s]].
      + exists []. constructor.
      + exfalso. destruct He as [k Hk]. cbn in Hk. lia.
      + inversion HF as [|? ? [v Hv] HF']; subst. inversion HF' as [|? ? [w Hw] HF'']; subst.
        destruct (IH s) as [b Hb]; [cbn in Hl; lia| |exact HF''|].
        { destruct He as [k Hk]. exists (k - 1)%nat. cbn [length] in Hk. lia. }
        exists (u8 (16 * v + w) :: b). apply (den_cons hi lo v w); try assumption.
        change (b2n (u8 (16 * v + w)) = 16 * v + w). rewrite b2n_u8. apply N.mod_small.
        assert (H1 := digit_lt _ _ Hv). assert (H2 := digit_lt _ _ Hw). lia. }
  exact (H (length s) s (le_n _)).
Qed.

Lemma denotes_digits s b : denotes s b -> Forall hex_digit s.
Proof.
  induction 1 as [|hi lo v w s x l Hv Hw _ _ IH]; [constructor|].
  constructor; [now exists v|]. constructor; [now exists w|exact IH].
Qed.

Lemma hex_text_denotes cs h : denotes (hex_text (case_digits cs) h) h.
Proof.
  unfold hex_text. induction h as [|b h IH]; [constructor|].
  cbn [map List.concat hex_pair app].
  assert (Hb := b2n_lt b). unfold b2n in Hb.
  assert (Hn : forall v, v < 16 -> digit_is (nth (N.to_nat v) (case_digits cs) x00) v).
  { intros v Hv. unfold digit_is.
    assert (HL : (N.to_nat v < 16)%nat) by lia.
    destruct cs; [left|right]; apply nth_error_nth'; exact HL. }
  apply (den_cons _ _ (Byte.to_N b / 16) (Byte.to_N b mod 16)).
  - apply Hn. apply N.div_lt_upper_bound; [discriminate|exact Hb].
  - apply Hn. apply N.mod_lt. discriminate.
  - apply N.div_mod'.
  - exact IH.
Qed.

(** ** FromStr *)
Lemma even_mod n : N.of_nat n mod 2 = 0 <-> Nat.Even n.
Proof.
  split.
  - intros H. exists (n / 2)%nat. pose proof (N.div_mod' (N.of_nat n) 2) as D.
    rewrite H in D. change 2 with (N.of_nat 2) in D at 2. rewrite <- Nat2N.inj_div in D. lia.
  - intros [k ->]. rewrite Nat2N.inj_mul, N.mul_comm. now apply N.mod_mul.
Qed.

Lemma array_from_hex_cases n s :
  (len s mod 2 <> 0 /\ array_from_hex n s = RErr (OddLengthString (len s))) \/
  (len s mod 2 = 0 /\ len s <> 2 * n /\ array_from_hex n s = RErr (InvalidLength (2 * n) (len s))) \/
  (len s = 2 * n /\ Nat.Even (length s) /\ array_from_hex n s = hex_iter s).
Proof.
  unfold array_from_hex. destruct (N.eqb_spec (len s mod 2) 0) as [E|E]; cbn [negb]; [|now left].
  right. pose proof (N.div_mod' (len s) 2) as D. rewrite E in D.
  destruct (N.eqb_spec (len s / 2) n) as [E'|E']; cbn [negb].
  - right. split; [lia|]. split; [|reflexivity]. now apply even_mod.
  - left. split; [exact E|]. split; [|reflexivity]. intros H. apply E'. lia.
Qed.

Lemma from_str_array t s : from_str t s = array_from_hex (ty_len t) s.
Proof. unfold from_str, from_byte_array. now destruct (array_from_hex (ty_len t) s). Qed.

Lemma from_str_ok t s b : from_str t s = ROk b <-> (len s = 2 * ty_len t /\ denotes s b).
Proof.
  rewrite from_str_array.
  destruct (array_from_hex_cases (ty_len t) s) as [(H & ->)|[(H & H' & ->)|(H & He & ->)]].
  - split; [discriminate|]. intros [E D]. exfalso. apply H. rewrite E, N.mul_comm. now apply N.mod_mul.
  - split; [discriminate|]. intros [E D]. contradiction.
  - rewrite (hex_iter_ok s b He). tauto.
Qed.

Lemma from_str_accepts t s : (exists b, from_str t s = ROk b) <-> (len s = 2 * ty_len t /\ Forall hex_digit s).
Proof.
  split.
  - intros [b H]. apply from_str_ok in H as [H D]. split; [exact H|]. exact (denotes_digits _ _ D).
  - intros [H HF]. destruct (denotes_exists s) as [b D]; [|exact HF|].
    + apply even_mod. change (N.of_nat (length s)) with (len s). rewrite H, N.mul_comm. now apply N.mod_mul.
    + exists b. apply from_str_ok. now split.
Qed.

(** The errors *)
Lemma hex_iter_error s e : Nat.Even (length s) -> hex_iter s = RErr e ->
  exists p ch q, s = p ++ ch :: q /\ Forall hex_digit p /\ ~ hex_digit ch /\ e = InvalidChar ch.
Proof.
  assert (H : forall n s, (length s <= n)%nat -> Nat.Even (length s) -> hex_iter s = RErr e ->
     exists p ch q, s = p ++ ch :: q /\ Forall hex_digit p /\ ~ hex_digit ch /\ e = InvalidChar ch).
  { clear s. induction n as [|n IH]; intros s Hl He E.
    - destruct s; [discriminate|cbn in Hl; lia].
    - destruct s as [|hi [|lo s]]; [discriminate|discriminate|]. cbn [hex_iter] in E.
      assert (Hnd : forall ch, to_digit16 ch = None -> ~ hex_digit ch).
      { intros ch Hn [v Hv]. apply to_digit16_spec in Hv. congruence. }
      assert (Hd : forall ch v, to_digit16 ch = Some v -> hex_digit ch).
      { intros ch v Hv. exists v. now apply to_digit16_spec. }
      destruct (to_digit16 hi) as [v|] eqn:Ev.
      2: { injection E as <-. exists [], hi, (lo :: s). repeat split; [constructor|now apply Hnd]. }
      destruct (to_digit16 lo) as [w|] eqn:Ew.
      2: { injection E as <-. exists [hi], lo, s. repeat split; [|now apply Hnd].
           constructor; [exact (Hd _ _ Ev)|constructor]. }
      destruct (hex_iter s) as [r|e'] eqn:Er; [discriminate|]. injection E as ->.
      destruct (IH s) as (p & ch & q & -> & Hp & Hc & ->).
      + cbn in Hl. lia.
      + destruct He as [k Hk]. exists (k - 1)%nat. cbn [length] in Hk. lia.
      + exact Er.
      + exists (hi :: lo :: p), ch, q. repeat split; [|exact Hc].
        constructor; [exact (Hd _ _ Ev)|]. constructor; [exact (Hd _ _ Ew)|exact Hp]. }
  exact (H (length s) s (le_n _)).
Qed.

Lemma from_str_error t s e : from_str t s = RErr e ->
  (len s mod 2 <> 0 /\ e = OddLengthString (len s)) \/
  (len s mod 2 = 0 /\ len s <> 2 * ty_len t /\ e = InvalidLength (2 * ty_len t) (len s)) \/
  (len s = 2 * ty_len t /\ exists p ch q,
     s = p ++ ch :: q /\ Forall hex_digit p /\ ~ hex_digit ch /\ e = InvalidChar ch).
Proof.
  rewrite from_str_array.
  destruct (array_from_hex_cases (ty_len t) s) as [(H & ->)|[(H & H' & ->)|(H & He & ->)]]; intros E.
  - left. split; [exact H|congruence].
  - right; left. repeat split; try assumption. congruence.
  - right; right. split; [exact H|]. now apply hex_iter_error.
Qed.

Lemma from_str_text t cs h : len h = ty_len t -> from_str t (put_bytes cs h) = ROk h.
Proof.
  intros Hl. apply from_str_ok. rewrite put_bytes_hex_text. split; [|apply hex_text_denotes].
  unfold len in *. rewrite hex_text_length. lia.
Qed.

Lemma from_str_display t h : len h = ty_len t ->
  from_str t (display false h) = ROk h /\ from_str t (lower_hex false h) = ROk h /\
  from_str t (upper_hex false h) = ROk h.
Proof. intros H. repeat split; exact (from_str_text t _ h H). Qed.

(** ** Text *)
Lemma text_forms h :
  display false h = hex_text digits h /\ lower_hex false h = hex_text digits h /\
  upper_hex false h = hex_text DIGITS h /\
  debug h = [x30; x78] ++ hex_text digits h /\
  lower_hex true h = [x30; x78] ++ hex_text digits h /\ upper_hex true h = [x30; x78] ++ hex_text DIGITS h.
Proof.
  pose proof (put_bytes_hex_text Lower h) as HL. pose proof (put_bytes_hex_text Upper h) as HU.
  cbn [case_digits] in HL, HU.
  unfold debug, display, lower_hex, upper_hex, fmt_hex. rewrite HL, HU. repeat split; reflexivity.
Qed.

Lemma hex_text_inj cs h h' : hex_text (case_digits cs) h = hex_text (case_digits cs) h' -> h = h'.
Proof.
  intros E. apply (denotes_fun (hex_text (case_digits cs) h)); [apply hex_text_denotes|].
  rewrite E. apply hex_text_denotes.
Qed.

Lemma text_injective h h' :
  (display false h = display false h' <-> h = h') /\ (upper_hex false h = upper_hex false h' <-> h = h') /\
  (debug h = debug h' <-> h = h').
Proof.
  destruct (text_forms h) as (-> & _ & -> & -> & _). destruct (text_forms h') as (-> & _ & -> & -> & _).
  repeat split; try (intros ->; reflexivity).
  - exact (hex_text_inj Lower h h').
  - exact (hex_text_inj Upper h h').
  - intros E. apply app_inv_head in E. exact (hex_text_inj Lower h h' E).
Qed.

(** ** UTF-8: hexadecimal text is valid *)
Lemma hex_digit_ascii ch : hex_digit ch -> b2n ch < 128.
Proof.
  intros [v H]. apply to_digit16_spec in H. unfold to_digit16 in H.
  destruct (N.ltb_spec (b2n ch) 128) as [|Hge]; [assumption|]. exfalso.
  destruct (N.leb_spec (b2n ch) 57); [lia|]. destruct (N.leb_spec (b2n ch) 102); [lia|].
  destruct (N.leb_spec (b2n ch) 70); [lia|]. rewrite !andb_false_r in H. discriminate.
Qed.

Lemma from_utf8_ascii s : Forall (fun ch => b2n ch < 128) s -> from_utf8 s = true.
Proof.
  unfold from_utf8. induction 1 as [|ch s Hc HF IH]; [reflexivity|].
  cbn [length from_utf8_fuel]. apply N.ltb_lt in Hc. now rewrite Hc.
Qed.

(** ** Serde *)
Lemma hex_visit_bytes_ok t v h : hex_visit_bytes t v = ROk h <-> from_str t v = ROk h.
Proof.
  unfold hex_visit_bytes. split.
  - destruct (from_utf8 v); [|discriminate]. destruct (from_str t v); congruence.
  - intros E. rewrite from_utf8_ascii; [now rewrite E|].
    apply from_str_ok in E as [_ D]. apply denotes_digits in D.
    eapply Forall_impl; [|exact D]. exact hex_digit_ascii.
Qed.

Lemma serde_roundtrip c t hr h : len h = ty_len t ->
  exists o, serialize c hr h = Ok o /\
    deserialize t hr (match o with CollectStr s => VisitStr s | SerializeBytes b => VisitBytes b end) = Ok (ROk h) /\
    match o with CollectStr _ => hr = true | SerializeBytes _ => hr = false end.
Proof.
  intros Hl. destruct hr; cbn [serialize hash_index bind].
  - eexists. split; [reflexivity|]. split; [|reflexivity]. cbn [deserialize]. unfold hex_visit_str.
    destruct (from_str_display t h Hl) as [-> _]. reflexivity.
  - eexists. split; [reflexivity|]. split; [|reflexivity]. cbn [deserialize]. unfold bytes_visit_bytes.
    rewrite from_slice_ok, Hl, N.eqb_refl. reflexivity.
Qed.

(** Human-readable texts may also be delivered as bytes *)
Lemma serde_roundtrip_bytes t h : len h = ty_len t ->
  deserialize t true (VisitBytes (display false h)) = Ok (ROk h).
Proof.
  intros Hl. cbn [deserialize]. f_equal. apply hex_visit_bytes_ok. apply (from_str_display t h Hl).
Qed.

Lemma deserialize_total t hr v : exists r, deserialize t hr v = Ok r.
Proof.
  destruct hr, v; cbn [deserialize]; try (eexists; reflexivity).
  unfold bytes_visit_bytes. rewrite from_slice_ok. eexists. reflexivity.
Qed.

Lemma deserialize_hr t v h : deserialize t true v = Ok (ROk h) <->
  exists s, (v = VisitStr s \/ v = VisitBytes s \/ v = VisitChar s) /\ len s = 2 * ty_len t /\ denotes s h.
Proof.
  assert (HS : forall s, Ok (hex_visit_str t s) = Ok (ROk h) <-> (len s = 2 * ty_len t /\ denotes s h)).
  { intros s. rewrite <- from_str_ok. unfold hex_visit_str. destruct (from_str t s); split; congruence. }
  split.
  - destruct v; cbn [deserialize]; intros E.
    + exists s. split; [now left|]. now apply HS.
    + exists b. split; [right; now left|]. apply from_str_ok, hex_visit_bytes_ok. congruence.
    + exists utf8. split; [right; now right|]. now apply HS.
    + discriminate.
  - intros (s & [-> | [-> | ->]] & H); cbn [deserialize].
    + now apply HS.
    + f_equal. apply hex_visit_bytes_ok. now apply from_str_ok.
    + now apply HS.
Qed.

Lemma deserialize_compact t v h : deserialize t false v = Ok (ROk h) <-> (v = VisitBytes h /\ len h = ty_len t).
Proof.
  destruct v; cbn [deserialize]; try (split; [discriminate|intros [E _]; discriminate]).
  unfold bytes_visit_bytes. rewrite from_slice_ok. cbn [bind].
  destruct (N.eqb_spec (len b) (ty_len t)) as [E|E]; split.
  - intros H. injection H as <-. now split.
  - intros [H _]. now injection H as ->.
  - discriminate.
  - intros [H H']. injection H as ->. contradiction.
Qed.

(** ** JSON schema *)
(** The text of a hash as Unicode scalar values: it is ASCII *)
Definition scalars (s : bytes) : list N := map b2n s.

Lemma utf8_scalars s : Forall (fun ch => b2n ch < 128) s -> utf8 (scalars s) = s.
Proof.
  unfold utf8, scalars. induction 1 as [|ch s Hc HF IH]; [reflexivity|].
  cbn [map List.concat]. rewrite IH. unfold utf8_char. apply N.ltb_lt in Hc. rewrite Hc.
  cbn [app]. f_equal. unfold b2n. apply octet_to_N.
Qed.

Lemma json_schema_ok c t : has_schema t ->
  json_schema c t = Ok {| max_length := 2 * ty_len t; min_length := 2 * ty_len t; pattern := hex_class |}.
Proof.
  destruct t; intros H; try reflexivity; try contradiction. cbn [has_schema] in H.
  unfold json_schema. rewrite ty_len_hmac.
  rewrite N.mod_small by (eapply N.lt_trans; [exact H|reflexivity]).
  unfold checked_mul. destruct (N.ltb_spec (n * 2) (2 ^ 32)) as [_|Hge].
  - cbn [bind]. now rewrite N.mul_comm.
  - exfalso. change (2 ^ 32) with (2 ^ 31 * 2) in Hge. apply N.mul_le_mono_pos_r in Hge; lia.
Qed.

Lemma hex_class_digit ch : hex_digit ch -> hex_class (b2n ch) = true.
Proof.
  intros [v H]. apply to_digit16_spec in H. unfold to_digit16 in H. unfold hex_class.
  destruct ((48 <=? b2n ch) && (b2n ch <=? 57)); [reflexivity|].
  destruct ((97 <=? b2n ch) && (b2n ch <=? 102)); [reflexivity|].
  destruct ((65 <=? b2n ch) && (b2n ch <=? 70)); [reflexivity|]. discriminate.
Qed.

Lemma schema_admits c t h : has_schema t -> 0 < ty_len t -> len h = ty_len t ->
  exists v text, json_schema c t = Ok v /\ serialize c true h = Ok (CollectStr (utf8 text)) /\
    validates v text = true.
Proof.
  intros Hs H0 Hl. rewrite (json_schema_ok c t Hs). eexists. exists (scalars (display false h)).
  split; [reflexivity|].
  assert (HD : Forall hex_digit (display false h)).
  { destruct (text_forms h) as (-> & _). exact (denotes_digits _ _ (hex_text_denotes Lower h)). }
  split.
  - cbn [serialize]. rewrite utf8_scalars; [reflexivity|]. eapply Forall_impl; [|exact HD]. exact hex_digit_ascii.
  - unfold validates. cbn [min_length max_length pattern].
    assert (HL : len (scalars (display false h)) = 2 * ty_len t).
    { unfold len, scalars. rewrite map_length. destruct (text_forms h) as (-> & _).
      rewrite hex_text_length. unfold len in Hl. lia. }
    rewrite HL, N.leb_refl. cbn [andb].
    destruct (display false h) as [|ch s] eqn:E.
    + cbn [scalars map] in HL. change (len (@nil N)) with 0 in HL. lia.
    + inversion HD; subst. cbn [scalars map existsb]. now rewrite hex_class_digit.
Qed.

(** 'z' (122), then 'a' (97) *)
Lemma schema_converse c t : has_schema t -> 0 < ty_len t ->
  exists v text, json_schema c t = Ok v /\ Forall scalar text /\ validates v text = true /\
    forall h, deserialize t true (VisitStr (utf8 text)) <> Ok (ROk h).
Proof.
  intros Hs H0. rewrite (json_schema_ok c t Hs). eexists.
  set (k := N.to_nat (2 * ty_len t - 1)). exists (repeat 122 k ++ [97]).
  assert (Hk : (0 < k)%nat) by (unfold k; lia).
  split; [reflexivity|]. split; [|split].
  - apply Forall_app. split; [|repeat constructor].
    apply Forall_forall. intros x Hx. apply repeat_spec in Hx. subst x. now left.
  - unfold validates. cbn [min_length max_length pattern].
    assert (HL : len (repeat 122 k ++ [97]) = 2 * ty_len t).
    { unfold len. rewrite app_length, repeat_length. cbn [length]. unfold k. lia. }
    rewrite HL, N.leb_refl. cbn [andb]. rewrite existsb_app. cbn [existsb]. apply orb_true_r.
  - intros h E. apply deserialize_hr in E as (s & Hv & _ & D).
    assert (Hs' : s = utf8 (repeat 122 k ++ [97])) by (destruct Hv as [H|[H|H]]; congruence).
    apply denotes_digits in D. rewrite Hs' in D. destruct k as [|k]; [lia|].
    unfold utf8 in D. cbn [repeat app map List.concat] in D.
    inversion D as [|? ? [v Hd] _]; subst. apply to_digit16_spec in Hd. discriminate Hd.
Qed.

(** ** Order *)
Lemma array_eq_spec a : forall b, array_eq a b = true <-> a = b.
Proof.
  induction a as [|x a IH]; intros [|y b]; cbn [array_eq]; try (split; congruence).
  rewrite andb_true_iff, N.eqb_eq, IH. split.
  - intros [H ->]. now rewrite (b2n_inj _ _ H).
  - intros H. injection H as -> ->. now split.
Qed.

Lemma array_cmp_eq a : forall b, array_cmp a b = Eq <-> a = b.
Proof.
  induction a as [|x a IH]; intros [|y b]; cbn [array_cmp]; try (split; congruence).
  destruct (N.compare_spec (b2n x) (b2n y)) as [E|L|G].
  - rewrite IH. apply b2n_inj in E. split; [intros ->; now subst|congruence].
  - split; [discriminate|]. intros E. injection E as -> ->. lia.
  - split; [discriminate|]. intros E. injection E as -> ->. lia.
Qed.

Lemma array_cmp_antisym a : forall b, array_cmp b a = CompOpp (array_cmp a b).
Proof.
  induction a as [|x a IH]; intros [|y b]; try reflexivity. cbn [array_cmp].
  rewrite (N.compare_antisym (b2n x) (b2n y)). destruct (b2n x ?= b2n y); cbn [CompOpp]; [apply IH| |]; reflexivity.
Qed.

Lemma array_cmp_lt a : forall b, array_cmp a b = Lt <-> lex_lt a b.
Proof.
  induction a as [|x a IH]; intros [|y b]; cbn [array_cmp].
  - split; [discriminate|]. intros [(p & x & y & s & t & E & _)|(y & t & E)].
    + destruct p; discriminate E.
    + discriminate E.
  - split; [|reflexivity]. intros _. right. exists y, b. reflexivity.
  - split; [discriminate|]. intros [(p & x' & y & s & t & _ & E & _)|(y & t & E)].
    + destruct p; discriminate E.
    + discriminate E.
  - destruct (N.compare_spec (b2n x) (b2n y)) as [E|L|G].
    + apply b2n_inj in E. subst y. rewrite IH. unfold lex_lt. split.
      * intros [(p & x' & y & s & t & -> & -> & H)|(y & t & ->)].
        -- left. now exists (x :: p), x', y, s, t.
        -- right. now exists y, t.
      * intros [(p & x' & y & s & t & E1 & E2 & H)|(y & t & E)].
        -- destruct p as [|z p].
           ++ injection E1 as -> _. injection E2 as -> _. exfalso. apply (N.lt_irrefl _ H).
           ++ injection E1 as _ ->. injection E2 as _ ->. left. now exists p, x', y, s, t.
        -- injection E as ->. right. now exists y, t.
    + split; [|reflexivity]. intros _. left. now exists [], x, y, a, b.
    + split; [discriminate|]. intros [(p & x' & y' & s & t & E1 & E2 & H)|(y' & t & E)].
      * destruct p as [|z p].
        -- injection E1 as -> _. injection E2 as -> _. unfold b2n in G. lia.
        -- injection E1 as -> _. injection E2 as -> _. lia.
      * injection E as -> _. lia.
Qed.

Lemma array_cmp_trans a : forall b c, array_cmp a b = Lt -> array_cmp b c = Lt -> array_cmp a c = Lt.
Proof.
  induction a as [|x a IH]; intros [|y b] [|z c]; cbn [array_cmp]; try congruence.
  destruct (N.compare_spec (b2n x) (b2n y)) as [E|L|G]; [| |discriminate].
  - rewrite E. destruct (b2n y ?= b2n z) eqn:Hc; try congruence. apply IH.
  - intros _. destruct (N.compare_spec (b2n y) (b2n z)) as [E|L'|G]; [| |discriminate].
    + intros _. rewrite <- E. apply N.compare_lt_iff in L. now rewrite L.
    + intros _. assert (HL : b2n x < b2n z) by lia. apply N.compare_lt_iff in HL. now rewrite HL.
Qed.

(** The digits are in increasing order of their codes *)
Lemma nibble_compare cs v w : v < 16 -> w < 16 ->
  (b2n (nibble_char cs v) ?= b2n (nibble_char cs w)) = (v ?= w).
Proof.
  intros Hv Hw.
  assert (Hc : forallb (fun v => forallb (fun w =>
     match (b2n (nibble_char cs (N.of_nat v)) ?= b2n (nibble_char cs (N.of_nat w))), (N.of_nat v ?= N.of_nat w) with
     | Eq, Eq | Lt, Lt | Gt, Gt => true | _, _ => false end) (seq 0 16)) (seq 0 16) = true)
    by (destruct cs; vm_compute; reflexivity).
  rewrite forallb_forall in Hc. specialize (Hc (N.to_nat v) ltac:(apply in_seq; lia)).
  rewrite forallb_forall in Hc. specialize (Hc (N.to_nat w) ltac:(apply in_seq; lia)).
  rewrite !N2Nat.id in Hc.
  destruct (b2n (nibble_char cs v) ?= b2n (nibble_char cs w)), (v ?= w); try reflexivity; discriminate.
Qed.

Lemma put_bytes_cmp cs a : forall b, array_cmp (put_bytes cs a) (put_bytes cs b) = array_cmp a b.
Proof.
  induction a as [|x a IH]; intros [|y b]; try reflexivity. cbn [put_bytes array_cmp].
  assert (Hx := b2n_lt x). assert (Hy := b2n_lt y).
  assert (Hd : forall z, z < 256 -> N.shiftr z 4 = z / 16 /\ N.land z 15 = z mod 16 /\ z / 16 < 16 /\ z mod 16 < 16).
  { intros z Hz. rewrite N.shiftr_div_pow2. change 15 with (N.ones 4). rewrite N.land_ones.
    change (2 ^ 4) with 16. repeat split; [|apply N.mod_lt; discriminate].
    apply N.div_lt_upper_bound; [discriminate|exact Hz]. }
  destruct (Hd (b2n x) Hx) as (-> & -> & X1 & X2). destruct (Hd (b2n y) Hy) as (-> & -> & Y1 & Y2).
  rewrite !nibble_compare by assumption. rewrite IH.
  pose proof (N.div_mod' (b2n x) 16) as Dx. pose proof (N.div_mod' (b2n y) 16) as Dy.
  destruct (N.compare_spec (b2n x / 16) (b2n y / 16)) as [E|L|G].
  - destruct (N.compare_spec (b2n x mod 16) (b2n y mod 16)) as [E'|L'|G'];
      destruct (N.compare_spec (b2n x) (b2n y)); try reflexivity; lia.
  - destruct (N.compare_spec (b2n x) (b2n y)); try reflexivity; lia.
  - destruct (N.compare_spec (b2n x) (b2n y)); try reflexivity; lia.
Qed.

Lemma cmp_display t a b : hash_cmp t a b = array_cmp (display false a) (display false b).
Proof. symmetry. apply put_bytes_cmp. Qed.

Lemma lex_display a b : lex_lt a b <-> lex_lt (hex_text digits a) (hex_text digits b).
Proof.
  rewrite <- !array_cmp_lt. pose proof (put_bytes_hex_text Lower a) as Ea.
  pose proof (put_bytes_hex_text Lower b) as Eb. cbn [case_digits] in Ea, Eb.
  rewrite <- Ea, <- Eb, put_bytes_cmp. tauto.
Qed.

Lemma display_order t a b :
  (hash_cmp t a b = Lt <-> lex_lt (display false a) (display false b)) /\
  (hash_cmp t a b = Eq <-> display false a = display false b) /\
  (hash_cmp t a b = Gt <-> lex_lt (display false b) (display false a)).
Proof.
  rewrite (cmp_display t a b). split; [apply array_cmp_lt|]. split; [apply array_cmp_eq|].
  rewrite <- array_cmp_lt, (array_cmp_antisym (display false b)).
  destruct (array_cmp (display false b) (display false a)); cbn; split; congruence.
Qed.

Lemma order_laws t a b c :
  (hash_eq t a b = true <-> a = b) /\
  (hash_cmp t a b = Eq <-> a = b) /\
  (hash_cmp t a b = Lt <-> lex_lt a b) /\
  (hash_cmp t a b = Gt <-> lex_lt b a) /\
  (hash_cmp t a b = Lt -> hash_cmp t b c = Lt -> hash_cmp t a c = Lt) /\
  hash_partial_cmp t a b = Some (hash_cmp t a b).
Proof.
  unfold hash_cmp, hash_eq, hash_partial_cmp. split; [apply array_eq_spec|]. split; [apply array_cmp_eq|].
  split; [apply array_cmp_lt|]. split; [|split; [apply array_cmp_trans|reflexivity]].
  rewrite <- array_cmp_lt, (array_cmp_antisym b a). destruct (array_cmp b a); cbn; split; congruence.
Qed.

(** ** Indexing *)

Lemma part_unique {A} (h : list A) i j r r' : part h i j r -> part h i j r' -> r = r'.
Proof.
  intros (p & q & E & Hp & Hr) (p' & q' & E' & Hp' & Hr').
  assert (Hl : length p = length p') by (unfold len in *; lia).
  assert (Hl' : length r = length r') by (unfold len in *; lia).
  rewrite E in E'. clear - E' Hl Hl'.
  assert (H : forall (a b c d : list A), a ++ b = c ++ d -> length a = length c -> a = c /\ b = d).
  { induction a as [|x a IH]; intros b [|y c] d He Hn; try discriminate; [now split|].
    cbn in He. injection He as -> He. destruct (IH b c d He) as [-> ->]; [cbn in Hn; lia|]. now split. }
  destruct (H _ _ _ _ E' Hl) as [_ E2]. now destruct (H _ _ _ _ E2 Hl').
Qed.

Lemma slice_range_part {A} (h : list A) i j r : slice_range i j h = Ok r <-> part h i j r.
Proof.
  unfold slice_range. split.
  - destruct (N.leb_spec i j) as [Hij|]; [|discriminate].
    destruct (N.leb_spec j (len h)) as [Hj|]; [|discriminate]. cbn [andb]. intros E. injection E as <-.
    exists (firstn (N.to_nat i) h), (skipn (N.to_nat (j - i)) (skipn (N.to_nat i) h)).
    split; [|split].
    + now rewrite firstn_skipn, firstn_skipn.
    + unfold len in *. rewrite firstn_length. lia.
    + unfold len in *. rewrite firstn_length, skipn_length. lia.
  - intros (p & q & E & Hp & Hr). subst h.
    destruct (N.leb_spec i j) as [_|]; [|lia].
    destruct (N.leb_spec j (len (p ++ r ++ q))) as [_|Hgt].
    2: { unfold len in *. rewrite !app_length in Hgt. lia. }
    cbn [andb]. f_equal.
    assert (Hi : N.to_nat i = length p) by (unfold len in *; lia).
    assert (Hj : N.to_nat (j - i) = length r) by (unfold len in *; lia).
    rewrite Hi, Hj, skipn_app, skipn_all, Nat.sub_diag. cbn [app skipn].
    rewrite firstn_app, firstn_all, Nat.sub_diag. cbn [firstn]. apply app_nil_r.
Qed.

Lemma slice_range_fails {A} (h : list A) i j : (forall r, ~ part h i j r) -> slice_range i j h = Panic PIndex.
Proof.
  intros H. destruct (slice_range i j h) as [r|p] eqn:E.
  - exfalso. apply (H r). now apply slice_range_part.
  - revert E. unfold slice_range. destruct ((i <=? j) && (j <=? len h)); congruence.
Qed.


Lemma hash_index_range c h ix : len h < 2 ^ usize_bits c ->
  hash_index c h ix = slice_range (fst (bounds h ix)) (snd (bounds h ix)) h.
Proof.
  intros Hl. destruct ix as [i|i j|i|j| |i j|j]; cbn [hash_index bounds fst snd].
  - unfold index, slice_range. destruct (N.leb_spec i (i + 1)); [|lia].
    destruct (nth_error h (N.to_nat i)) as [b|] eqn:E; cbn [bind andb].
    + assert (Hi : (N.to_nat i < length h)%nat) by (apply nth_error_Some; congruence).
      destruct (N.leb_spec (i + 1) (len h)) as [_|Hgt]; [|unfold len in Hgt; lia].
      replace (i + 1 - i) with 1 by lia. f_equal. change (N.to_nat 1) with 1%nat.
      destruct (skipn (N.to_nat i) h) as [|x r] eqn:Es.
      * exfalso. assert (HL : length (skipn (N.to_nat i) h) = 0%nat) by now rewrite Es.
        rewrite skipn_length in HL. lia.
      * cbn [firstn]. f_equal. rewrite <- (firstn_skipn (N.to_nat i) h) in E. rewrite Es in E.
        rewrite nth_error_app2 in E by (rewrite firstn_length; lia).
        rewrite firstn_length, Nat.min_l in E by lia. rewrite Nat.sub_diag in E. cbn in E. congruence.
    + apply nth_error_None in E. destruct (N.leb_spec (i + 1) (len h)) as [Hle|_]; [|reflexivity].
      unfold len in Hle. lia.
  - reflexivity.
  - unfold slice_from, slice_range. rewrite N.leb_refl. destruct (N.leb_spec i (len h)); [|reflexivity].
    cbn [andb]. f_equal. rewrite firstn_all2; [reflexivity|]. rewrite skipn_length. unfold len. lia.
  - unfold slice_to, slice_range. destruct (N.leb_spec 0 j); [|lia]. cbn [andb].
    destruct (j <=? len h); [|reflexivity]. now rewrite N.sub_0_r.
  - unfold slice_range. rewrite N.leb_refl. destruct (N.leb_spec 0 (len h)); [|lia]. cbn [andb].
    rewrite N.sub_0_r. unfold len. rewrite Nat2N.id. cbn [N.to_nat skipn]. now rewrite firstn_all.
  - destruct (N.eqb_spec j (2 ^ usize_bits c - 1)) as [E|_]; [|reflexivity].
    unfold slice_range. destruct (N.leb_spec (j + 1) (len h)); [lia|]. now rewrite andb_false_r.
  - destruct (N.eqb_spec j (2 ^ usize_bits c - 1)) as [E|_]; [|reflexivity].
    unfold slice_range. destruct (N.leb_spec (j + 1) (len h)); [lia|]. now rewrite andb_false_r.
Qed.

Lemma hash_index_ok c h ix : len h < 2 ^ usize_bits c ->
  let (i, j) := bounds h ix in
  (forall r, hash_index c h ix = Ok r <-> part h i j r) /\
  (is_ok (hash_index c h ix) = true <-> i <= j /\ j <= len h) /\
  (is_ok (hash_index c h ix) = false -> hash_index c h ix = Panic PIndex).
Proof.
  intros Hl. pose proof (hash_index_range c h ix Hl) as E. destruct (bounds h ix) as [i j]. cbn [fst snd] in E.
  rewrite E. split; [|split].
  - intros r. apply slice_range_part.
  - unfold slice_range. destruct (N.leb_spec i j); destruct (N.leb_spec j (len h)); cbn; split; try tauto;
      try discriminate; lia.
  - unfold slice_range. destruct ((i <=? j) && (j <=? len h)); cbn [is_ok]; [discriminate|reflexivity].
Qed.

Lemma hash_index_at c h i b : len h < 2 ^ usize_bits c ->
  (hash_index c h (At i) = Ok [b] <-> nth_error h (N.to_nat i) = Some b) /\
  (is_ok (hash_index c h (At i)) = (i <? len h)).
Proof.
  intros Hl. cbn [hash_index]. unfold index. destruct (nth_error h (N.to_nat i)) as [x|] eqn:E; cbn [bind is_ok].
  - split; [split; congruence|]. assert (Hi : (N.to_nat i < length h)%nat) by (apply nth_error_Some; congruence).
    symmetry. apply N.ltb_lt. unfold len. lia.
  - split; [split; discriminate|]. apply nth_error_None in E. symmetry. apply N.ltb_ge. unfold len. lia.
Qed.

(** ** Conversions *)
Lemma conversions c h :
  to_byte_array (from_byte_array h) = h /\ from_byte_array (to_byte_array h) = h /\
  as_byte_array h = h /\ as_bytes h = h /\ to_bytes h = h /\ from_bytes_ref h = h /\
  as_ref_slice c h = Ok h /\ as_ref_array h = h /\ hash_index c h RangeFull = Ok h.
Proof. repeat split; reflexivity. Qed.

Lemma all_zeros_ok t : len (all_zeros t) = ty_len t /\ Forall (fun b => b = x00) (all_zeros t).
Proof.
  unfold all_zeros, array, len. rewrite repeat_length, N2Nat.id. split; [reflexivity|].
  apply Forall_forall. intros x Hx. now apply repeat_spec in Hx.
Qed.

(** hmac::Hash of length 2^31 or more: [N as u32 * 2] does not fit *)
Lemma schema_hmac_large c n h : 2 ^ 31 <= n -> n < 2 ^ 32 -> len h = n ->
  match json_schema c (THmac n) with
  | Panic p => overflow_checks c = true
  | Ok v => overflow_checks c = false /\ validates v (scalars (display false h)) = false
  end.
Proof.
  intros H1 H2 Hl. unfold json_schema, checked_mul. rewrite (N.mod_small n) by exact H2.
  destruct (N.ltb_spec (n * 2) (2 ^ 32)) as [H|H].
  { exfalso. change (2 ^ 32) with (2 ^ 31 * 2) in H. apply N.mul_lt_mono_pos_r in H; lia. }
  destruct (overflow_checks c); cbn [bind]; [reflexivity|]. split; [reflexivity|].
  unfold validates. cbn [min_length max_length pattern].
  assert (HL : len (scalars (display false h)) = 2 * n).
  { unfold len, scalars. rewrite map_length. destruct (text_forms h) as (-> & _).
    rewrite hex_text_length. unfold len in Hl. lia. }
  rewrite HL. assert (HM : (n * 2) mod 2 ^ 32 < 2 ^ 32) by (apply N.mod_lt; discriminate).
  rewrite (proj2 (N.leb_gt (2 * n) _)).
  - now rewrite andb_false_r.
  - eapply N.lt_le_trans; [exact HM|]. rewrite N.mul_comm. exact H.
Qed.
