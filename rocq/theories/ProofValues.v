(** Proofs about constructors, hashers and error texts. *)
From Coq Require Import NArith ZArith List Bool Lia.
From Coq Require Import Strings.Byte Strings.String.
From Coq Require Import ZifyBool ZifyNat ZifyN.
From Verif Require Import Base SpecBase SpecMD SpecMac ModelEngine ModelAll ModelTypes ModelStore ModelValues
  SpecText SpecValues SpecApi SpecStore SpecMore ProofBase ProofSound ProofHmac ProofStore ProofIo ProofTypes ProofMid ProofMac.
Import ListNotations.
Open Scope N_scope.
Open Scope list_scope.

(** ** Hashers *)
Lemma hash_hash_inj t t' a b r r' :
  hash_hash t a ++ r = hash_hash t' b ++ r' -> a = b /\ r = r'.
Proof. unfold hash_hash, array_hash, slice_hash. cbn [app]. intros E. injection E. auto. Qed.

Lemma hash_hash_eq t a b : hash_eq t a b = true ->
  forall S wu w (s : S), run_hasher wu w (hash_hash t a) s = run_hasher wu w (hash_hash t b) s.
Proof. intros E. apply (order_laws t a b a) in E. now subst. Qed.

Lemma to_ne_bytes_length c n : List.length (to_ne_bytes c n) = N.to_nat (usize_bits c / 8).
Proof.
  unfold to_ne_bytes. destruct (big_endian c); [apply length_to_be_bytes|apply length_to_le_bytes].
Qed.

Lemma to_ne_bytes_inj c n m : wf_config c -> n < 2 ^ usize_bits c -> m < 2 ^ usize_bits c ->
  to_ne_bytes c n = to_ne_bytes c m -> n = m.
Proof.
  intros WF Hn Hm. unfold to_ne_bytes.
  assert (E8 : 8 * N.of_nat (N.to_nat (usize_bits c / 8)) = usize_bits c).
  { destruct WF as [H|[H|H]]; rewrite H; reflexivity. }
  destruct (big_endian c); rewrite ?to_be_bytes_octets, ?to_le_bytes_octets; intros E;
    [apply be_octets_inj in E|apply le_octets_inj in E]; rewrite ?E8; assumption.
Qed.

Lemma hasher_bytes_app c l l' : hasher_bytes c (l ++ l') = hasher_bytes c l ++ hasher_bytes c l'.
Proof. unfold hasher_bytes. now rewrite map_app, List.concat_app. Qed.

Lemma hasher_bytes_inj c t t' a b r r' : wf_config c -> slice c a -> slice c b ->
  hasher_bytes c (hash_hash t a) ++ r = hasher_bytes c (hash_hash t' b) ++ r' -> a = b /\ r = r'.
Proof.
  intros WF Ha Hb. unfold hash_hash, array_hash, slice_hash, hasher_bytes. cbn [map List.concat].
  rewrite !app_nil_r, <- !app_assoc. intros E.
  apply app_inv_length in E; [|rewrite !to_ne_bytes_length; reflexivity]. destruct E as [El E].
  apply to_ne_bytes_inj in El; try assumption. apply app_inv_length in E; [|unfold len in El; lia]. exact E.
Qed.

(** ** Decimal numerals *)
Lemma digit_fun ch d d' : decimal_digit ch d -> decimal_digit ch d' -> d = d'.
Proof.
  unfold decimal_digit. intros H H'.
  assert (B : forall x, nth_error (list_byte_of_string "0123456789") x = Some ch -> (x < 10)%nat).
  { intros x E. apply (proj1 (nth_error_Some (list_byte_of_string "0123456789") x)). now rewrite E. }
  assert (ND : NoDup (list_byte_of_string "0123456789")).
  { cbn. repeat (constructor; [cbn; intuition discriminate|]). constructor. }
  apply N2Nat.inj. apply (proj1 (NoDup_nth_error _) ND); [exact (B _ H)|now rewrite H, H'].
Qed.

Lemma digit_lt ch d : decimal_digit ch d -> d < 10.
Proof.
  unfold decimal_digit. intros H. assert (N.to_nat d < 10)%nat; [|lia].
  change 10%nat with (List.length (list_byte_of_string "0123456789")). apply (proj1 (nth_error_Some _ _)). now rewrite H.
Qed.

Lemma digit_char d : d < 10 -> decimal_digit (u8 (48 + d)) d.
Proof.
  intros H. unfold decimal_digit.
  assert (D : exists n, d = N.of_nat n /\ (n < 10)%nat) by (exists (N.to_nat d); lia).
  destruct D as (n & -> & Hn). do 10 (destruct n as [|n]; [reflexivity|]). lia.
Qed.

Lemma digit_of_char d ch : d < 10 -> decimal_digit ch d -> ch = u8 (48 + d).
Proof. intros H E. pose proof (digit_char d H) as E'. unfold decimal_digit in *. congruence. Qed.

Lemma positional_fun s : forall n n', positional s n -> positional s n' -> n = n'.
Proof.
  induction s as [|ch s IH] using rev_ind; intros n n' H H'.
  - inversion H as [|ds k c d Hp Hd E]; [|destruct ds; discriminate].
    inversion H' as [|ds k c d Hp Hd E]; [|destruct ds; discriminate]. reflexivity.
  - inversion H as [E|ds k c d Hp Hd E]; [destruct s; discriminate|]. apply app_inj_tail in E. destruct E; subst.
    inversion H' as [E|ds' k' c' d' Hp' Hd' E]; [destruct s; discriminate|]. apply app_inj_tail in E.
    destruct E; subst. now rewrite (IH _ _ Hp Hp'), (digit_fun _ _ _ Hd Hd').
Qed.

Lemma positional_zero s : positional s 0 -> s = repeat x30 (List.length s).
Proof.
  remember 0 as n eqn:En. intros H. revert En.
  induction H as [|s k ch d Hp IH Hd]; intros E; [reflexivity|].
  assert (k = 0 /\ d = 0) as [-> ->] by lia. rewrite app_length, repeat_app, <- IH by reflexivity.
  cbn [List.length repeat]. do 2 f_equal. rewrite (digit_of_char 0 ch); [reflexivity|lia|assumption].
Qed.

Lemma numeral_snoc ds ch n : ds <> [] -> numeral (ds ++ [ch]) n ->
  exists k d, numeral ds k /\ k <> 0 /\ decimal_digit ch d /\ n = 10 * k + d.
Proof.
  intros Hne (Hp & _ & Hz). inversion Hp as [E|ds' k c d Hp' Hd E]; [destruct ds; discriminate|].
  apply app_inj_tail in E. destruct E; subst ds' c. exists k, d.
  assert (Hh : hd_error ds <> Some x30).
  { intros E'. destruct ds as [|b ds]; [contradiction|]. specialize (Hz E').
    apply (f_equal (@List.length byte)) in Hz. rewrite app_length in Hz. cbn in Hz. lia. }
  assert (Hk : k <> 0).
  { intros ->. apply positional_zero in Hp'. destruct ds as [|b ds]; [contradiction|].
    apply Hh. rewrite Hp'. reflexivity. }
  repeat split; try assumption. intros E'. now rewrite E' in Hh.
Qed.

Lemma numeral_one ch n : numeral [ch] n -> decimal_digit ch n.
Proof.
  intros (Hp & _ & _). inversion Hp as [|ds k c d Hp' Hd E]. destruct ds as [|? []]; try discriminate.
  cbn in E. injection E as ->. inversion Hp' as [|ds' ? ? ? ? ? E']; [|destruct ds'; discriminate].
  now rewrite N.add_0_l.
Qed.

Lemma numeral_unique s : forall s' n, numeral s n -> numeral s' n -> s = s'.
Proof.
  induction s as [|ch ds IH] using rev_ind; intros s' n H H'; [destruct H as (_ & H & _); contradiction|].
  destruct s' as [|ch' ds' _] using rev_ind; [destruct H' as (_ & H' & _); contradiction|].
  destruct (list_eq_dec Byte.byte_eq_dec ds []) as [->|Hn]; destruct (list_eq_dec Byte.byte_eq_dec ds' []) as [->|Hn'].
  - cbn [app] in *. apply numeral_one in H, H'. unfold decimal_digit in *. congruence.
  - apply numeral_one in H. apply digit_lt in H. apply numeral_snoc in H'; [|assumption].
    destruct H' as (k & d & _ & Hk & Hd & E). lia.
  - apply numeral_one in H'. apply digit_lt in H'. apply numeral_snoc in H; [|assumption].
    destruct H as (k & d & _ & Hk & Hd & E). lia.
  - apply numeral_snoc in H, H'; try assumption. destruct H as (k & d & Hm & Hk & Hd & E).
    destruct H' as (k' & d' & Hm' & Hk' & Hd' & E'). pose proof (digit_lt _ _ Hd). pose proof (digit_lt _ _ Hd').
    assert (k = k' /\ d = d') as [-> ->] by lia. rewrite (IH ds' k') by assumption.
    unfold decimal_digit in *. congruence.
Qed.

Lemma fmt_usize_fuel_ok fuel : forall n acc, (0 < fuel)%nat -> n < 2 ^ N.of_nat fuel ->
  exists ds, fmt_usize_fuel fuel n acc = ds ++ acc /\ numeral ds n.
Proof.
  induction fuel as [|fuel IH]; intros n acc Hf Hn; [lia|].
  cbn [fmt_usize_fuel]. pose proof (N.mod_lt n 10 ltac:(lia)) as Hd. pose proof (N.div_mod n 10 ltac:(lia)) as E.
  destruct (N.eqb_spec (n / 10) 0) as [Hz|Hz].
  - exists [u8 (48 + n mod 10)]. split; [reflexivity|]. split; [|split; [discriminate|]].
    + change [u8 (48 + n mod 10)] with ([] ++ [u8 (48 + n mod 10)]).
      assert (En : n = 10 * 0 + n mod 10) by lia. rewrite En at 2.
      constructor; [constructor|now apply digit_char].
    + cbn. intros [= ->]. reflexivity.
  - assert (Hq : n / 10 < 2 ^ N.of_nat fuel).
    { rewrite Nat2N.inj_succ, N.pow_succ_r' in Hn. apply N.div_lt_upper_bound; lia. }
    assert (Hf' : (0 < fuel)%nat).
    { destruct fuel; [|lia]. change (2 ^ N.of_nat 0) with 1 in Hq. lia. }
    destruct (IH (n / 10) (u8 (48 + n mod 10) :: acc) Hf' Hq) as (ds & E1 & Hp & Hne & Hh).
    exists (ds ++ [u8 (48 + n mod 10)]). rewrite E1, <- app_assoc. split; [reflexivity|].
    split; [|split; [destruct ds; discriminate|]].
    + rewrite E at 2. constructor; [assumption|now apply digit_char].
    + destruct ds as [|b ds]; [contradiction|]. intros Eh. specialize (Hh Eh). exfalso. rewrite Hh in Hp.
      apply Hz. apply (positional_fun [x30]); [assumption|].
      change [x30] with ([] ++ [x30]). apply (pos_snoc [] 0 x30 0); [constructor|reflexivity].
Qed.

Lemma fmt_usize_ok n : numeral (fmt_usize n) n.
Proof.
  unfold fmt_usize.
  destruct (fmt_usize_fuel_ok (S (N.to_nat (N.size n))) n []) as (ds & -> & H); [lia| |now rewrite app_nil_r].
  apply N.lt_le_trans with (2 ^ N.size n); [apply N.size_gt|apply N.pow_le_mono_r; lia].
Qed.

Lemma fse_display_ok e : exists s s', numeral s (invalid_length e) /\ numeral s' (expected_length e) /\
  fse_display e = list_byte_of_string "invalid slice length " ++ s ++ list_byte_of_string " (expected " ++ s' ++
                  list_byte_of_string ")".
Proof. exists (fmt_usize (got e)), (fmt_usize (expected e)). repeat split; apply fmt_usize_ok. Qed.

Lemma numeral_no_space s n : numeral s n -> ~ In x20 s.
Proof.
  intros (Hp & _). clear - Hp. induction Hp as [|ds n ch d Hp IH Hd]; [intros []|].
  rewrite in_app_iff. intros [H|[H|[]]]; [contradiction|]. subst ch.
  pose proof (digit_lt _ _ Hd) as L. apply digit_of_char in Hd; [|assumption].
  apply (f_equal Byte.to_N) in Hd. change (Byte.to_N (u8 (48 + d))) with (b2n (u8 (48 + d))) in Hd. rewrite b2n_u8 in Hd. rewrite N.mod_small in Hd by lia.
  change (Byte.to_N x20) with 32 in Hd. lia.
Qed.

Lemma split_at_first {A} (x : A) a b r r' : ~ In x a -> ~ In x b -> a ++ x :: r = b ++ x :: r' -> a = b /\ r = r'.
Proof.
  revert b. induction a as [|y a IH]; intros [|z b] Ha Hb E; cbn [app] in E.
  - injection E. auto.
  - injection E as -> E. exfalso. apply Hb. left. reflexivity.
  - injection E as -> E. exfalso. apply Ha. left. reflexivity.
  - injection E as -> E. destruct (IH b) as [-> ->]; [firstorder|firstorder|assumption|auto].
Qed.

Lemma fse_display_inj e e' : fse_display e = fse_display e' -> e = e'.
Proof.
  unfold fse_display. intros E. apply app_inv_head in E. cbn [list_byte_of_string] in E.
  change (list_byte_of_string " (expected ") with (x20 :: list_byte_of_string "(expected ") in E.
  cbn [app] in E. apply split_at_first in E; try (eapply numeral_no_space, fmt_usize_ok).
  destruct E as [Eg E]. apply app_inv_head in E. apply app_inv_tail in E.
  pose proof (fmt_usize_ok (got e)) as [G _]. rewrite Eg in G.
  pose proof (fmt_usize_ok (got e')) as [G' _].
  pose proof (fmt_usize_ok (expected e)) as [X _]. rewrite E in X.
  pose proof (fmt_usize_ok (expected e')) as [X' _].
  destruct e as [x g], e' as [x' g']. cbn in *. f_equal; eauto using positional_fun.
Qed.

(** ** Constructors *)
Lemma ty_hash_is c k m : ty_hash c k m = digest_of c (FromNew k) [m].
Proof.
  unfold ty_hash, digest_of, ty_engine. cbn [start origin_kind he_inputs].
  destruct (he_default (kind_engine c k)) as [s|p]; [|reflexivity]. cbn [bind].
  destruct (he_input (kind_engine c k) s m) as [s'|p]; [|reflexivity]. cbn [bind].
  destruct (he_finalize _ s'); reflexivity.
Qed.

Lemma ty_hash_ok c k m : wf_config c -> slice c m -> kind_fits c k (List.length m) ->
  ty_hash c k m = Ok (kind_hash k m).
Proof.
  intros WF Hs Hf. rewrite ty_hash_is, digest_fits; cbn [List.concat]; rewrite ?app_nil_r; auto.
  exact I.
Qed.

Lemma ty_from_engine_ok c o chunks : wf_config c -> origin_ok o -> Forall (slice c) chunks ->
  origin_fits c o (List.length (List.concat chunks)) ->
  exists s, (let* s := start c o in he_inputs (kind_engine c (origin_kind o)) s chunks) = Ok s /\
    ty_from_engine c (origin_kind o) s = Ok (origin_hash o (List.concat chunks)).
Proof.
  intros WF Ho HF Hf. pose proof (digest_fits c o chunks WF Ho HF Hf) as E. unfold digest_of in E.
  destruct (start c o) as [s|p]; [|discriminate]. cbn [bind] in *.
  destruct (he_inputs _ s chunks) as [s'|p]; [|discriminate]. cbn [bind] in *.
  exists s'. split; [reflexivity|]. unfold ty_from_engine. rewrite E. reflexivity.
Qed.

Lemma ty_hash_trait c k m : ty_hash c k m = he_hash (kind_engine c k) m.
Proof.
  unfold ty_hash, he_hash, ty_engine. destruct (he_default _) as [s|p]; [|reflexivity]. cbn [bind].
  destruct (he_input _ s m) as [s'|p]; [|reflexivity]. cbn [bind]. destruct (he_finalize _ s'); reflexivity.
Qed.
