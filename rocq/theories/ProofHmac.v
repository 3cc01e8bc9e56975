(** HMAC over any engine; tagged SHA-256. *)
From Coq Require Import NArith ZArith List Bool Lia.
From Coq Require Import ZifyBool ZifyNat ZifyN.
From Verif Require Import Base SpecBase SpecMD SpecMac ModelEngine ModelSha256 ModelSip ModelHmac ModelAll SpecApi
  ProofBase ProofEngine ProofMD ProofApi ProofMid ProofConst ProofSip.
Import ListNotations.
Open Scope N_scope.

(** ** Engines that compute a hash function *)


Lemma bind_ok {A B} (x : res A) (f : A -> res B) y : bind x f = Ok y -> exists a, x = Ok a /\ f a = Ok y.
Proof. destruct x; [|discriminate]. intros H. now exists a. Qed.

Lemma Ok_inj {A} (x y : A) : Ok x = Ok y -> x = y.
Proof. now inversion 1. Qed.

(** ** Pads *)

Lemma u8_xor_octet p k : u8_xor p k = octet (N.lxor (Byte.to_N k) (Byte.to_N p)).
Proof. unfold u8_xor. rewrite u8_octet, N.lxor_comm. reflexivity. Qed.

Lemma xor_zip_pad p n : forall k m, length k = n ->
  xor_zip (repeat p (n + m)) k = xor_pad p k ++ repeat p m.
Proof.
  induction n as [|n IH]; intros k m Hk.
  - destruct k; [|discriminate]. cbn [Nat.add xor_pad map app]. destruct (repeat p m); reflexivity.
  - destruct k as [|x k]; [discriminate|]. cbn [Nat.add repeat xor_zip xor_pad map app].
    rewrite u8_xor_octet. f_equal. apply IH. now injection Hk.
Qed.

Lemma xor_pad_zeros p n : xor_pad p (repeat x00 n) = repeat p n.
Proof.
  induction n as [|n IH]; [reflexivity|]. cbn [repeat xor_pad map]. f_equal; [|exact IH].
  cbn [Byte.to_N]. change (Byte.to_N x00) with 0. rewrite N.lxor_0_l. apply octet_to_N.
Qed.

Lemma pad_slice p B k : (B <= 128)%nat -> (length k <= B)%nat ->
  slice_to (N.of_nat B) (xor_zip (array p 128) k) = Ok (xor_pad p (k ++ repeat x00 (B - length k))).
Proof.
  intros HB Hk. unfold array. change (N.to_nat 128) with 128%nat.
  replace 128%nat with (length k + (128 - length k))%nat at 1 by lia.
  rewrite xor_zip_pad by reflexivity.
  assert (Hx : length (xor_pad p k) = length k) by apply map_length.
  unfold slice_to, len. rewrite app_length, repeat_length, Hx.
  destruct (N.leb_spec (N.of_nat B) (N.of_nat (length k + (128 - length k)))); [|lia].
  f_equal. rewrite Nat2N.id. rewrite firstn_app, Hx. rewrite firstn_all2 by lia.
  unfold xor_pad at 2. rewrite map_app. fold (xor_pad p k). f_equal.
  change (map (fun b => octet (N.lxor (Byte.to_N b) (Byte.to_N p))) (repeat x00 (B - length k)))
    with (xor_pad p (repeat x00 (B - length k))).
  rewrite xor_pad_zeros. replace (128 - length k)%nat with ((B - length k) + (128 - B))%nat by lia.
  rewrite repeat_app. apply firstn_app_exact. now rewrite repeat_length.
Qed.

Lemma hmac_inputs c E s chunks :
  he_inputs (hmac_engine c E) s chunks =
  let* ie := he_inputs E (iengine s) chunks in Ok (mk_hmac ie (oengine s)).
Proof.
  revert s. induction chunks as [|d ds IH]; intros s; cbn [he_inputs]; [destruct s; reflexivity|].
  cbn [hmac_engine he_input]. rewrite !bind_assoc. destruct (he_input E (iengine s) d); cbn [bind]; [|reflexivity].
  rewrite IH. reflexivity.
Qed.

(** the two states [new] returns, given the normalised key *)
Definition hmac_from (E : HashEngine) (k : bytes) : res (hmac_state E) :=
  let* ie := he_default E in
  let* ie := he_input E ie (xor_pad x36 k) in
  let* oe := he_default E in
  let* oe := he_input E oe (xor_pad x5c k) in
  Ok (mk_hmac ie oe).

Section Any.
  Context (c : config) (E : HashEngine) (B : nat) (HB : he_block_size E = N.of_nat B).

  Lemma hmac_new_short key : (B <= 128)%nat -> (length key <= B)%nat ->
    hmac_new c E key = hmac_from E (key ++ repeat x00 (B - length key)).
  Proof.
    intros H128 Hk. unfold hmac_new, hmac_from. rewrite HB.
    rewrite debug_assert_ok by (apply N.leb_le; lia). cbn [bind].
    destruct (he_default E) as [s0|p]; cbn [bind]; [|reflexivity].
    destruct (N.ltb_spec (N.of_nat B) (len key)) as [Hlt|_]; [unfold len in Hlt; lia|]. cbn [bind].
    rewrite !pad_slice by assumption. cbn [bind]. reflexivity.
  Qed.

  Lemma hmac_new_long key h : (B <= 128)%nat -> (B < length key)%nat ->
    he_hash E key = Ok h -> (length h <= B)%nat ->
    hmac_new c E key = hmac_from E (h ++ repeat x00 (B - length h)).
  Proof.
    intros H128 Hk Eh Hh. unfold hmac_new, hmac_from. rewrite HB.
    rewrite debug_assert_ok by (apply N.leb_le; lia). cbn [bind].
    destruct (he_default E) as [s0|p]; cbn [bind]; [|reflexivity].
    destruct (N.ltb_spec (N.of_nat B) (len key)) as [_|Hge]; [|unfold len in Hge; lia].
    rewrite Eh. cbn [bind]. rewrite !pad_slice by assumption. cbn [bind]. reflexivity.
  Qed.

  (** with a larger block the constructor never returns *)
  Lemma hmac_new_large key s : (128 < B)%nat -> hmac_new c E key <> Ok s.
  Proof.
    intros H128 Es. unfold hmac_new in Es. rewrite HB in Es.
    apply bind_ok in Es. destruct Es as (u & _ & Es).
    apply bind_ok in Es. destruct Es as (i0 & _ & Es). apply bind_ok in Es. destruct Es as (o0 & _ & Es).
    apply bind_ok in Es. destruct Es as ([ip op] & Ep & Es).
    assert (HL : forall p k, length (xor_zip p k) = length p).
    { induction p as [|x p IH]; intros [|y k]; try reflexivity. cbn [xor_zip length]. now rewrite IH. }
    assert (Hp : forall (a b a' b' k : bytes), Ok (xor_zip (array x36 128) k, b) = Ok (a', b') -> length a' = 128%nat).
    { intros a b a' b' k Eq. assert (Ea : a' = xor_zip (array x36 128) k) by congruence.
      rewrite Ea. apply HL. }
    assert (Hip : length ip = 128%nat).
    { destruct (N.of_nat B <? len key).
      - apply bind_ok in Ep. destruct Ep as (h & _ & Ep). exact (Hp [] _ _ _ _ Ep).
      - exact (Hp [] _ _ _ _ Ep). }
    apply bind_ok in Es. destruct Es as (ib & Eb & _). unfold slice_to, len in Eb. rewrite Hip in Eb.
    destruct (N.leb_spec (N.of_nat B) (N.of_nat 128)); [lia|discriminate].
  Qed.
End Any.

Section Lawful.
  Context (c : config) (E : HashEngine) (H : bytes -> bytes) (fits : nat -> Prop) (LAW : lawful E H fits).
  Context (B D : nat) (HB : he_block_size E = N.of_nat B) (H128 : (B <= 128)%nat).
  Context (HD : forall m, length (H m) = D) (HDB : (D <= B)%nat).

  Lemma lawful_hash key : fits (length key) -> he_hash E key = Ok (H key).
  Proof.
    intros Hf. rewrite he_hash_chunks, LAW; cbn [List.concat]; rewrite app_nil_r; [reflexivity|exact Hf].
  Qed.

  Lemma hmac_new_from key : ((B < length key)%nat -> fits (length key)) ->
    hmac_new c E key = hmac_from E (hmac_key H B key).
  Proof.
    intros Hf. unfold hmac_key. destruct (Nat.ltb_spec B (length key)) as [Hlt|Hge].
    - apply hmac_new_long; try assumption; [apply lawful_hash; auto|]. rewrite HD. exact HDB.
    - now apply hmac_new_short.
  Qed.

  Lemma hmac_key_length key : length (hmac_key H B key) = B.
  Proof.
    unfold hmac_key. rewrite app_length, repeat_length.
    destruct (Nat.ltb_spec B (length key)); [rewrite HD|]; lia.
  Qed.
  Lemma xor_pad_length p k : length (xor_pad p k) = length k.
  Proof. apply map_length. Qed.

  Lemma hmac_law key chunks :
    ((B < length key)%nat -> fits (length key)) ->
    fits (B + length (List.concat chunks)) -> fits (B + D) ->
    (let* s := hmac_new c E key in
     let* s := he_inputs (hmac_engine c E) s chunks in
     he_finalize (hmac_engine c E) s)
    = Ok (HMAC H B key (List.concat chunks)).
  Proof.
    intros Hk Hi Ho. rewrite hmac_new_from by exact Hk. unfold HMAC.
    assert (Hkl := hmac_key_length key). set (k := hmac_key H B key) in *.
    set (text := List.concat chunks) in *.
    assert (EI := LAW (xor_pad x36 k :: chunks)). cbn [List.concat] in EI. fold text in EI.
    rewrite app_length, xor_pad_length, Hkl in EI. specialize (EI Hi).
    set (ih := H (xor_pad x36 k ++ text)) in *.
    assert (EO := LAW [xor_pad x5c k; ih]). cbn [List.concat] in EO. rewrite app_nil_r in EO.
    rewrite app_length, xor_pad_length, Hkl in EO.
    replace (length ih) with D in EO by (symmetry; apply HD). specialize (EO Ho).
    unfold he_hash_byte_chunks in EI, EO. unfold hmac_from.
    apply bind_ok in EI. destruct EI as (s0 & E0 & EI). rewrite E0 in EO |- *. cbn [bind he_inputs] in EI, EO |- *.
    apply bind_ok in EI. destruct EI as (s2 & EI & EF).
    apply bind_ok in EI. destruct EI as (s1 & E1 & E2). rewrite E1. cbn [bind].
    rewrite bind_assoc in EO. apply bind_ok in EO. destruct EO as (t1 & ET1 & EO). rewrite ET1. cbn [bind].
    rewrite hmac_inputs. cbn [iengine]. rewrite E2. cbn [bind hmac_engine he_finalize iengine oengine].
    rewrite EF. cbn [bind]. rewrite bind_assoc in EO. cbn [bind] in EO. exact EO.
  Qed.

  (** HMAC engines compute HMAC with the empty key (src/hmac.rs [Default]),
      so HMAC can be stacked. *)
  Lemma hmac_lawful : lawful (hmac_engine c E) (HMAC H B []) (fun n => fits (B + n) /\ fits (B + D)).
  Proof.
    intros chunks [Hi Ho]. unfold he_hash_byte_chunks. cbn [hmac_engine he_default he_state].
    apply (hmac_law [] chunks); try assumption. cbn [length]. lia.
  Qed.
End Lawful.

(** ** The engines of the crate are lawful *)

Lemma algo_lawful c a : wf_config c -> lawful (algo_engine c a) (hash_of a) (fits c a).
Proof. intros WF chunks Hf. now apply hash_chunks_standard. Qed.

Lemma algo_block c a : he_block_size (algo_engine c a) = N.of_nat (block_len a).
Proof. destruct a; reflexivity. Qed.

Lemma concat_Forall_len (M : N) (chunks : list bytes) : len (List.concat chunks) < M ->
  Forall (fun d : bytes => len d < M) chunks.
Proof.
  induction chunks as [|d ds IH]; intros H; [constructor|]. cbn [List.concat] in H. rewrite len_app in H.
  constructor; [lia|apply IH; lia].
Qed.

Lemma sip_lawful c : wf_config c ->
  lawful (siphash24_engine c) (fun m => le_octets 8 (siphash24 0 0 m)) (fun n => N.of_nat n < 2 ^ usize_bits c).
Proof.
  intros WF chunks Hf. unfold he_hash_byte_chunks. cbn [siphash24_engine he_default he_finalize bind].
  assert (HF : Forall (fun d : bytes => len d < 2 ^ usize_bits c) chunks) by (apply concat_Forall_len; exact Hf).
  pose proof (siphash_exact c 0 0 chunks WF eq_refl eq_refl HF) as E.
  change (with_keys 0 0) with sip_default in E.
  destruct (N.leb_spec (2 ^ usize_bits c) (len (List.concat chunks))) as [Hx|_]; [unfold len in Hx; lia|].
  rewrite andb_false_r in E. apply bind_ok in E. destruct E as (e & -> & E). cbn [bind].
  assert (E2 : from_engine_to_u64 e = siphash24 0 0 (List.concat chunks)) by congruence.
  rewrite sip_finalize_u64, to_le_bytes_octets. now rewrite E2.
Qed.

(** ** Tagged hashes *)

Lemma sha256t_inputs c (t : res engine) (e : engine) chunks :
  he_inputs (sha256t_engine c t) e chunks = he_inputs (sha256_engine c) e chunks.
Proof.
  revert e. induction chunks as [|d ds IH]; intros e; [reflexivity|].
  cbn [he_inputs sha256t_engine sha256_engine he_input].
  destruct (sha256_input c e d) as [s|p]; [apply IH|reflexivity].
Qed.

(** an engine whose [new] is a SHA-256 midstate of [n] bytes *)
Lemma sha256t_exact c m n e chunks : wf_config c -> length m = 32%nat -> n < 2 ^ usize_bits c ->
  sha256_from_midstate m n = Ok e ->
  let msg := List.concat chunks in
  8 * (n + len msg) < 2 ^ 64 ->
  n + N.of_nat (if overflow_checks c then md_padded (md_of Sha256) (length msg) else length msg) < 2 ^ usize_bits c ->
  he_hash_byte_chunks (sha256t_engine c (Ok e)) chunks
  = Ok (md_hash_from (md_of Sha256) (be_words 4 m) (8 * (n + len msg)) msg).
Proof.
  intros WF Hm Hn Ee msg H8 Hf.
  destruct (from_to_mid c Sha256 m n e Hm Hn Ee) as [HF _].
  unfold he_hash_byte_chunks. cbn [sha256t_engine he_default bind].
  rewrite (sha256t_inputs c (Ok e) e chunks). cbn [he_finalize].
  change (sha256_finalize c) with (he_finalize (generic_engine c Sha256)).
  change (sha256_engine c) with (generic_engine c Sha256).
  rewrite (splits_from_to c Sha256 WF _ _ _ _ HF). fold msg.
  destruct HF as (Hh & HL & HM & ->). cbn [generic_engine he_input he_finalize].
  rewrite algo_input_exact by assumption.
  assert (HC0 : counter c n (len (@nil byte)) = n) by (unfold counter; change (len (@nil byte)) with 0; rewrite N.add_0_r; now apply N.mod_small).
  assert (HT : n + len msg < 2 ^ usize_bits c).
  { unfold len. destruct (overflow_checks c); [|exact Hf].
    pose proof (md_padded_ge (md_of Sha256) (length msg)). lia. }
  rewrite HC0. destruct (N.leb_spec (2 ^ usize_bits c) (n + len msg)); [lia|]. rewrite andb_false_r. cbn [bind app].
  change (he_finalize (sha256t_engine c (Ok (state_at c Sha256 (be_words 4 m) n [])))) with (algo_finalize c Sha256).
  rewrite algo_finalize_exact by assumption. unfold finalize_overflows, bits_at, counter.
  rewrite (N.mod_small (n + len msg)) by exact HT.
  replace (overflow_checks c && _) with false.
  - rewrite N.mod_small by exact H8. reflexivity.
  - symmetry. destruct (overflow_checks c); [cbn [andb]|reflexivity].
    unfold md_padded in Hf. unfold len in *. apply orb_false_intro; apply N.leb_gt; lia.
Qed.

Lemma tagged_ok c tag mid e chunks : wf_config c -> len tag + 72 < 2 ^ usize_bits c -> 8 * len tag < 2 ^ 64 ->
  hash_tag c tag = Ok mid -> sha256_from_midstate mid 64 = Ok e ->
  fits c Sha256 (64 + length (List.concat chunks)) ->
  he_hash_byte_chunks (sha256t_engine c (Ok e)) chunks = Ok (tagged_hash tag (List.concat chunks)).
Proof.
  intros WF Ht H8t Em Ee [H8 Hf].
  rewrite hash_tag_ok in Em by assumption. apply Ok_inj in Em. subst mid.
  assert (Hh := hash_of_length Sha256 tag). cbn [digest_len] in Hh.
  set (h := hash_of Sha256 tag) in *.
  assert (Hl : length (h ++ h) = 64%nat) by (rewrite app_length; lia).
  assert (Hg : good_h (md_of Sha256) (md_iterate (md_of Sha256) (md_iv (md_of Sha256)) (h ++ h))).
  { apply md_iterate_good; [apply md_of_ok|apply (mo_iv _ (md_of_ok Sha256))]. }
  assert (H64 : 64 < 2 ^ usize_bits c) by (destruct WF as [-> | [-> | ->]]; reflexivity).
  match type of Ee with sha256_from_midstate ?m _ = _ =>
    rewrite (sha256t_exact c m 64 e chunks WF); try assumption end.
  - rewrite be_words_md_words by (try exact Hg; now right).
    rewrite <- md_hash_from_app by (rewrite Hl; reflexivity).
    unfold tagged_hash. change (SpecSha2.SHA256 (SpecSha2.SHA256 tag ++ SpecSha2.SHA256 tag ++ List.concat chunks))
      with (hash_of Sha256 (h ++ h ++ List.concat chunks)).
    rewrite <- md_hash_standard. unfold md_hash. rewrite app_assoc.
    replace (8 * (64 + len (List.concat chunks))) with (8 * N.of_nat (length ((h ++ h) ++ List.concat chunks)));
      [reflexivity|]. rewrite app_length, Hl. unfold len. lia.
  - rewrite md_words_length by apply (mo_word _ (md_of_ok Sha256)). destruct Hg as [-> _]. reflexivity.
  - unfold len. lia.
  - destruct (overflow_checks c); [|lia].
    unfold md_padded in Hf |- *.
    rewrite (md_zeros_congr Sha256 (64 + length (List.concat chunks)) (length (List.concat chunks))) in Hf; [lia|].
    cbn [md_of md_block]. rewrite Nat.add_mod, Nat.mod_same by lia. cbn [Nat.add]. apply Nat.mod_mod. lia.
Qed.
