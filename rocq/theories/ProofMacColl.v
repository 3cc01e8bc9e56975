(** Collisions of HMAC. *)
From Coq Require Import NArith ZArith List Bool Lia.
From Coq Require Import ZifyBool ZifyNat ZifyN.
From Verif Require Import Base SpecBase SpecMD SpecMac ModelEngine ModelHmac ModelAll ModelTypes
  ModelStore SpecApi SpecStore SpecMore ProofBase ProofMD ProofApi ProofMid ProofConst ProofHmac ProofHash ProofMac
  ProofStore ProofSound.
Import ListNotations.
Open Scope N_scope.

Lemma xor_byte_inj (p x y : byte) :
  octet (N.lxor (Byte.to_N x) (Byte.to_N p)) = octet (N.lxor (Byte.to_N y) (Byte.to_N p)) -> x = y.
Proof.
  intros E. apply (f_equal Byte.to_N) in E.
  assert (H : forall z, Byte.to_N (octet (N.lxor (Byte.to_N z) (Byte.to_N p))) = N.lxor (Byte.to_N z) (Byte.to_N p)).
  { intros z. rewrite to_N_octet. apply N.mod_small. apply (lxor_lt 8); apply to_N_lt. }
  rewrite !H in E. apply (f_equal (fun n => N.lxor n (Byte.to_N p))) in E.
  rewrite !N.lxor_assoc, N.lxor_nilpotent, !N.lxor_0_r in E. now apply to_N_inj.
Qed.

Lemma xor_pad_inj p : forall k k', xor_pad p k = xor_pad p k' -> k = k'.
Proof.
  induction k as [|x k IH]; intros [|y k']; cbn [xor_pad map]; try discriminate; [reflexivity|].
  intros E. f_equal; [|apply IH; exact (f_equal (@tl byte) E)].
  apply (xor_byte_inj p). apply (f_equal (hd x)) in E. exact E.
Qed.

Lemma key_len a key : length (hmac_key (hash_of a) (block_len a) key) = block_len a.
Proof.
  unfold hmac_key. rewrite app_length, repeat_length.
  destruct (Nat.ltb_spec (block_len a) (length key)); [rewrite hash_of_length; destruct a; reflexivity|lia].
Qed.

Lemma hmac_collision c a key m key' m' :
  a = Sha1 \/ a = Sha256 \/ a = Sha512 \/ a = Ripemd160 -> wf_config c ->
  origin_fits c (FromKey (KAlgo a) key) (length m) -> origin_fits c (FromKey (KAlgo a) key') (length m') ->
  (hmac_key (hash_of a) (block_len a) key, m) <> (hmac_key (hash_of a) (block_len a) key', m') ->
  slice c m -> slice c m' ->
  hmac_of c a key m = hmac_of c a key' m' ->
  call_collision c a (calls_of a (inner_msg a key m)) (calls_of a (inner_msg a key' m')) \/
  call_collision c a (calls_of a (outer_msg a key m)) (calls_of a (outer_msg a key' m')).
Proof.
  intros Ha WF Hf Hf' Hne Hs Hs' E. unfold hmac_of in E.
  rewrite !digest_fits in E; try assumption; try exact I; try (repeat constructor; assumption);
    try (cbn [List.concat]; rewrite app_nil_r; assumption).
  apply Ok_inj in E. cbn [List.concat origin_hash kind_hash kind_block] in E. rewrite !app_nil_r in E.
  destruct Hf as [[Hi Ho] _], Hf' as [[Hi' _] _]. cbn [kind_fits kind_block kind_digest] in *.
  unfold HMAC in E. fold (inner_msg a key m) in E. fold (inner_msg a key' m') in E.
  fold (outer_msg a key m) in E. fold (outer_msg a key' m') in E.
  assert (Lo : forall k x, length (outer_msg a k x) = (block_len a + digest_len a)%nat).
  { intros k x. unfold outer_msg. rewrite app_length, hash_of_length. unfold xor_pad. rewrite map_length, key_len.
    reflexivity. }
  assert (Li : forall k x, length (inner_msg a k x) = (block_len a + length x)%nat).
  { intros k x. unfold inner_msg. rewrite app_length. unfold xor_pad. rewrite map_length, key_len. reflexivity. }
  destruct (list_eq_dec Byte.byte_eq_dec (outer_msg a key m) (outer_msg a key' m')) as [Eo|No].
  - left. unfold outer_msg in Eo. apply app_inv_length in Eo; [|unfold xor_pad; rewrite !map_length, !key_len; reflexivity].
    destruct Eo as [Ek Eh]. apply xor_pad_inj in Ek.
    apply engine_collision_full; try assumption; rewrite ?Li; try assumption.
    + intros Ei. apply Hne. unfold inner_msg in Ei. rewrite Ek in *. apply app_inv_head in Ei. now subst.
    + rewrite !hash_standard by (try exact WF; rewrite Li; assumption). now rewrite Eh.
  - right. apply engine_collision_full; try assumption; rewrite ?Lo; try assumption.
    rewrite !hash_standard by (try exact WF; rewrite Lo; assumption). now rewrite E.
Qed.
