(** [from_utf8] accepts exactly the UTF-8 encodings of texts. *)
From Coq Require Import NArith ZArith List Bool Lia.
From Coq Require Import Strings.Byte Strings.String.
From Coq Require Import ZifyBool ZifyNat ZifyN.
From Verif Require Import Base SpecBase ModelTypes SpecText ProofBase ProofTypes.
Import ListNotations.
Open Scope N_scope.
Open Scope list_scope.

Lemma b2n_octet x : b2n (octet x) = x mod 256.
Proof. apply to_N_octet. Qed.

Lemma octet_b2n b x : b2n b = x -> octet x = b.
Proof. intros <-. apply to_N_inj. rewrite to_N_octet. apply N.mod_small, to_N_lt. Qed.

Lemma b2n_lt b : b2n b < 256.
Proof. apply to_N_lt. Qed.

(** One character, then the rest. *)
Lemma utf8_step fuel x r : scalar x -> from_utf8_fuel (S fuel) (utf8_char x ++ r) = from_utf8_fuel fuel r.
Proof.
  intros Hx. unfold scalar in Hx.
  unfold utf8_char. destruct (N.ltb_spec x 0x80); [|destruct (N.ltb_spec x 0x800); [|destruct (N.ltb_spec x 0x10000)]];
    cbn [app from_utf8_fuel]; unfold between, cont; rewrite !b2n_octet.
  - assert (E : x mod 256 = x) by (apply N.mod_small; lia). rewrite E.
    destruct (N.ltb_spec x 128); [reflexivity|lia].
  - pose proof (N.mod_lt x 64 ltac:(lia)). pose proof (N.div_mod x 64 ltac:(lia)).
    rewrite !(N.mod_small _ 256) by lia.
    destruct (N.ltb_spec (192 + x / 64) 128); [lia|].
    replace ((194 <=? 192 + x / 64) && (192 + x / 64 <=? 223)) with true by lia.
    replace ((128 <=? 128 + x mod 64) && (128 + x mod 64 <=? 191)) with true by lia. reflexivity.
  - pose proof (N.mod_lt x 64 ltac:(lia)). pose proof (N.div_mod x 64 ltac:(lia)).
    pose proof (N.mod_lt (x / 64) 64 ltac:(lia)). pose proof (N.div_mod (x / 64) 64 ltac:(lia)).
    assert (E : x / 4096 = x / 64 / 64) by (rewrite N.div_div by lia; reflexivity). rewrite E.
    remember (x / 64) as q eqn:Eq. remember (x mod 64) as u eqn:Eu. remember (q / 64) as v eqn:Ev.
    remember (q mod 64) as w eqn:Ew. clear Eq Eu Ev Ew E.
    rewrite !(N.mod_small _ 256) by lia.
    destruct (N.ltb_spec (224 + v) 128); [lia|].
    replace ((194 <=? 224 + v) && (224 + v <=? 223)) with false by lia.
    replace ((224 <=? 224 + v) && (224 + v <=? 239)) with true by lia.
    replace ((128 <=? 128 + u) && (128 + u <=? 191)) with true by lia.
    destruct (N.eqb_spec (224 + v) 224); [|destruct (N.eqb_spec (224 + v) 237)].
    + replace ((160 <=? 128 + w) && (128 + w <=? 191)) with true by lia. reflexivity.
    + replace ((128 <=? 128 + w) && (128 + w <=? 159)) with true by lia. reflexivity.
    + replace ((128 <=? 128 + w) && (128 + w <=? 191)) with true by lia. reflexivity.
  - pose proof (N.mod_lt x 64 ltac:(lia)). pose proof (N.div_mod x 64 ltac:(lia)).
    pose proof (N.mod_lt (x / 64) 64 ltac:(lia)). pose proof (N.div_mod (x / 64) 64 ltac:(lia)).
    pose proof (N.mod_lt (x / 64 / 64) 64 ltac:(lia)). pose proof (N.div_mod (x / 64 / 64) 64 ltac:(lia)).
    assert (E : x / 4096 = x / 64 / 64) by (rewrite N.div_div by lia; reflexivity).
    assert (E' : x / 262144 = x / 64 / 64 / 64) by (rewrite !N.div_div by lia; reflexivity). rewrite E, E'.
    remember (x / 64) as q eqn:Eq. remember (x mod 64) as u eqn:Eu. remember (q / 64) as v eqn:Ev.
    remember (q mod 64) as w eqn:Ew. remember (v / 64) as y eqn:Ey. remember (v mod 64) as z eqn:Ez.
    clear Eq Eu Ev Ew Ey Ez E E'.
    rewrite !(N.mod_small _ 256) by lia.
    destruct (N.ltb_spec (240 + y) 128); [lia|].
    replace ((194 <=? 240 + y) && (240 + y <=? 223)) with false by lia.
    replace ((224 <=? 240 + y) && (240 + y <=? 239)) with false by lia.
    replace ((240 <=? 240 + y) && (240 + y <=? 244)) with true by lia.
    replace ((128 <=? 128 + u) && (128 + u <=? 191)) with true by lia.
    replace ((128 <=? 128 + w) && (128 + w <=? 191)) with true by lia.
    destruct (N.eqb_spec (240 + y) 240); [|destruct (N.eqb_spec (240 + y) 244)].
    + replace ((144 <=? 128 + z) && (128 + z <=? 191)) with true by lia. reflexivity.
    + replace ((128 <=? 128 + z) && (128 + z <=? 143)) with true by lia. reflexivity.
    + replace ((128 <=? 128 + z) && (128 + z <=? 191)) with true by lia. reflexivity.
Qed.

Lemma utf8_complete text : forall fuel, Forall scalar text -> (List.length text <= fuel)%nat ->
  from_utf8_fuel fuel (utf8 text) = true.
Proof.
  induction text as [|x text IH]; intros fuel HF Hl.
  - destruct fuel; reflexivity.
  - inversion HF as [|? ? Hx HF']. destruct fuel as [|fuel]; [cbn in Hl; lia|].
    change (utf8 (x :: text)) with (utf8_char x ++ utf8 text). rewrite utf8_step by assumption.
    apply IH; [assumption|cbn in Hl; lia].
Qed.

Lemma utf8_char_length x : (1 <= List.length (utf8_char x))%nat.
Proof. unfold utf8_char. destruct (x <? _); [cbn; lia|]. destruct (x <? _); [cbn; lia|]. destruct (x <? _); cbn; lia. Qed.

Lemma utf8_length text : (List.length text <= List.length (utf8 text))%nat.
Proof.
  induction text as [|x text IH]; [cbn; lia|]. change (utf8 (x :: text)) with (utf8_char x ++ utf8 text).
  rewrite app_length. pose proof (utf8_char_length x). cbn [List.length]. lia.
Qed.

Lemma decode1 b : b2n b < 128 -> scalar (b2n b) /\ utf8_char (b2n b) = [b].
Proof.
  intros H. split; [left; lia|]. unfold utf8_char. destruct (N.ltb_spec (b2n b) 128); [|lia].
  now rewrite (octet_b2n b).
Qed.

Lemma decode2 b b1 : 194 <= b2n b <= 223 -> 128 <= b2n b1 <= 191 ->
  let x := (b2n b - 192) * 64 + (b2n b1 - 128) in scalar x /\ utf8_char x = [b; b1].
Proof.
  intros H H1 x. assert (Hx : x = (b2n b - 192) * 64 + (b2n b1 - 128)) by reflexivity. clearbody x.
  split; [left; lia|]. unfold utf8_char. destruct (N.ltb_spec x 128); [lia|]. destruct (N.ltb_spec x 2048); [|lia].
  assert (E : x / 64 = b2n b - 192) by (symmetry; apply (N.div_unique x 64 _ (b2n b1 - 128)); lia).
  assert (E1 : x mod 64 = b2n b1 - 128) by (symmetry; apply (N.mod_unique x 64 (b2n b - 192)); lia).
  rewrite E, E1. repeat f_equal; apply octet_b2n; lia.
Qed.

Lemma decode3 b b1 b2 : 224 <= b2n b <= 239 -> 128 <= b2n b1 <= 191 -> 128 <= b2n b2 <= 191 ->
  (b2n b = 224 -> 160 <= b2n b1) -> (b2n b = 237 -> b2n b1 <= 159) ->
  let x := ((b2n b - 224) * 64 + (b2n b1 - 128)) * 64 + (b2n b2 - 128) in scalar x /\ utf8_char x = [b; b1; b2].
Proof.
  intros H H1 H2 Hlo Hsur x. set (y := (b2n b - 224) * 64 + (b2n b1 - 128)) in *.
  assert (Hy : y = (b2n b - 224) * 64 + (b2n b1 - 128)) by reflexivity. clearbody y.
  assert (Hx : x = y * 64 + (b2n b2 - 128)) by reflexivity. clearbody x.
  split; [unfold scalar; lia|]. unfold utf8_char.
  destruct (N.ltb_spec x 128); [lia|]. destruct (N.ltb_spec x 2048); [lia|]. destruct (N.ltb_spec x 65536); [|lia].
  assert (E : x / 64 = y) by (symmetry; apply (N.div_unique x 64 _ (b2n b2 - 128)); lia).
  assert (E1 : x mod 64 = b2n b2 - 128) by (symmetry; apply (N.mod_unique x 64 y); lia).
  assert (E2 : y / 64 = b2n b - 224) by (symmetry; apply (N.div_unique y 64 _ (b2n b1 - 128)); lia).
  assert (E3 : y mod 64 = b2n b1 - 128) by (symmetry; apply (N.mod_unique y 64 (b2n b - 224)); lia).
  assert (E4 : x / 4096 = y / 64) by (rewrite <- E, N.div_div by lia; reflexivity).
  rewrite E4, E, E1, E2, E3. clear - H H1 H2. repeat f_equal; apply octet_b2n; lia.
Qed.

Lemma decode4 b b1 b2 b3 : 240 <= b2n b <= 244 -> 128 <= b2n b1 <= 191 -> 128 <= b2n b2 <= 191 ->
  128 <= b2n b3 <= 191 -> (b2n b = 240 -> 144 <= b2n b1) -> (b2n b = 244 -> b2n b1 <= 143) ->
  let x := (((b2n b - 240) * 64 + (b2n b1 - 128)) * 64 + (b2n b2 - 128)) * 64 + (b2n b3 - 128) in
  scalar x /\ utf8_char x = [b; b1; b2; b3].
Proof.
  intros H H1 H2 H3 Hlo Hhi x. set (z := (b2n b - 240) * 64 + (b2n b1 - 128)) in *.
  assert (Hz : z = (b2n b - 240) * 64 + (b2n b1 - 128)) by reflexivity. clearbody z.
  set (y := z * 64 + (b2n b2 - 128)) in *.
  assert (Hy : y = z * 64 + (b2n b2 - 128)) by reflexivity. clearbody y.
  assert (Hx : x = y * 64 + (b2n b3 - 128)) by reflexivity. clearbody x.
  split; [unfold scalar; lia|]. unfold utf8_char.
  destruct (N.ltb_spec x 128); [lia|]. destruct (N.ltb_spec x 2048); [lia|]. destruct (N.ltb_spec x 65536); [lia|].
  assert (E : x / 64 = y) by (symmetry; apply (N.div_unique x 64 _ (b2n b3 - 128)); lia).
  assert (E1 : x mod 64 = b2n b3 - 128) by (symmetry; apply (N.mod_unique x 64 y); lia).
  assert (E2 : y / 64 = z) by (symmetry; apply (N.div_unique y 64 _ (b2n b2 - 128)); lia).
  assert (E3 : y mod 64 = b2n b2 - 128) by (symmetry; apply (N.mod_unique y 64 z); lia).
  assert (E4 : z / 64 = b2n b - 240) by (symmetry; apply (N.div_unique z 64 _ (b2n b1 - 128)); lia).
  assert (E5 : z mod 64 = b2n b1 - 128) by (symmetry; apply (N.mod_unique z 64 (b2n b - 240)); lia).
  assert (E6 : x / 4096 = z) by (rewrite <- E2, <- E, N.div_div by lia; reflexivity).
  assert (E7 : x / 262144 = z / 64) by (rewrite <- E6, N.div_div by lia; reflexivity).
  rewrite E7, E6, E, E1, E3, E4, E5. clear - H H1 H2 H3. repeat f_equal; apply octet_b2n; lia.
Qed.

Definition encodes (s : bytes) : Prop := exists text, Forall scalar text /\ s = utf8 text.

Lemma encodes_cons x s r : scalar x -> utf8_char x = s -> encodes r -> encodes (s ++ r).
Proof.
  intros Hx <- (text & HF & ->). exists (x :: text). split; [now constructor|reflexivity].
Qed.

Lemma utf8_sound fuel : forall s, from_utf8_fuel fuel s = true -> encodes s.
Proof.
  induction fuel as [|fuel IH]; intros s H.
  - destruct s; [|discriminate]. now exists [].
  - destruct s as [|b r]; [now exists []|]. cbn [from_utf8_fuel] in H.
    destruct (N.ltb_spec (b2n b) 128) as [L|L].
    { destruct (decode1 b L). apply (encodes_cons (b2n b) [b] r); auto. }
    destruct (between 194 223 b) eqn:B2; unfold between in B2.
    { destruct r as [|b1 r]; [discriminate|]. apply andb_true_iff in H. destruct H as [C1 H]. unfold cont in C1.
      destruct (decode2 b b1) as [D1 D2]; [lia|lia|]. exact (encodes_cons _ [b; b1] r D1 D2 (IH _ H)). }
    destruct (between 224 239 b) eqn:B3; unfold between in B3.
    { destruct r as [|b1 [|b2 r]]; try discriminate. apply andb_true_iff in H. destruct H as [C H].
      apply andb_true_iff in C. destruct C as [C1 C2]. unfold cont, between in *.
      destruct (decode3 b b1 b2) as [D1 D2].
      - lia.
      - destruct (b2n b =? 224), (b2n b =? 237); lia.
      - lia.
      - intros E. rewrite E in C1. cbn in C1. lia.
      - intros E. rewrite E in C1. cbn in C1. lia.
      - exact (encodes_cons _ [b; b1; b2] r D1 D2 (IH _ H)). }
    destruct (between 240 244 b) eqn:B4; unfold between in B4; [|discriminate].
    destruct r as [|b1 [|b2 [|b3 r]]]; try discriminate. apply andb_true_iff in H. destruct H as [C H].
    apply andb_true_iff in C. destruct C as [C C3]. apply andb_true_iff in C. destruct C as [C1 C2].
    unfold cont, between in *.
    destruct (decode4 b b1 b2 b3) as [D1 D2].
    + lia.
    + destruct (b2n b =? 240), (b2n b =? 244); lia.
    + lia.
    + lia.
    + intros E. rewrite E in C1. cbn in C1. lia.
    + intros E. rewrite E in C1. cbn in C1. lia.
    + exact (encodes_cons _ [b; b1; b2; b3] r D1 D2 (IH _ H)).
Qed.

Lemma from_utf8_exact s : from_utf8 s = true <-> exists text, Forall scalar text /\ s = utf8 text.
Proof.
  split; [apply utf8_sound|]. intros (text & HF & ->). apply utf8_complete; [assumption|apply utf8_length].
Qed.

Lemma visit_bytes_exact t v :
  (hex_visit_bytes t v = RErr DeNotUtf8 <-> ~ exists text, Forall scalar text /\ v = utf8 text) /\
  (forall e, hex_visit_bytes t v = RErr (DeHex e) <->
     (exists text, Forall scalar text /\ v = utf8 text) /\ from_str t v = RErr e).
Proof.
  unfold hex_visit_bytes. pose proof (from_utf8_exact v) as U. destruct (from_utf8 v).
  - assert (UT : exists text, Forall scalar text /\ v = utf8 text) by now apply U. clear U. split; [|intros e'].
    + destruct (from_str t v); split; intros Hx; try discriminate; contradiction.
    + destruct (from_str t v); split; intros Hx; try discriminate.
      * destruct Hx; discriminate.
      * injection Hx as ->. now split.
      * destruct Hx as [_ Hx]. injection Hx as ->. reflexivity.
  - assert (UT : ~ exists text, Forall scalar text /\ v = utf8 text) by (intros X; apply U in X; discriminate).
    split; [|intros e']; split; intros Hx; try discriminate; try reflexivity; try assumption.
    destruct Hx; contradiction.
Qed.
