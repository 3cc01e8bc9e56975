(** What every engine returns in every build: C60, C61. *)
From Coq Require Import NArith ZArith List Bool Lia.
From Coq Require Import Strings.Byte.
From Verif Require Import Base SpecBase SpecMD SpecMac ModelEngine ModelSha256 ModelHmac ModelAll ModelTypes ModelStore
  SpecApi SpecStore SpecMore SpecExact ProofMD ProofExact.
Import ListNotations.
Open Scope N_scope.

(** C60 *)
Theorem C60_every_build : forall c o chunks, wf_config c -> origin_real c o -> Forall (slice c) chunks ->
  digest_of c o chunks = result_of (origin_result c o (List.concat chunks)).
Proof. exact exact_digest. Qed.
Print Assumptions C60_every_build.
Theorem C60_checked : forall c o chunks,
  wf_config c -> overflow_checks c = true -> origin_real c o -> Forall (slice c) chunks ->
  (origin_fits c o (length (List.concat chunks)) ->
     digest_of c o chunks = Ok (origin_hash o (List.concat chunks))) /\
  (~ origin_fits c o (length (List.concat chunks)) -> digest_of c o chunks = Panic POverflow).
Proof. exact checked_exact. Qed.
Print Assumptions C60_checked.
Theorem C60_unchecked_never_panics : forall c o chunks,
  wf_config c -> overflow_checks c = false -> origin_real c o -> Forall (slice c) chunks ->
  is_ok (digest_of c o chunks) = true.
Proof. exact unchecked_total. Qed.
Print Assumptions C60_unchecked_never_panics.
Example C60_case :
  origin_result (target 64 true) (FromKey (KHmac KSip) (repeat x01 40)) [x61]
  = Some [x68; xb8; xcc; x67; xa8; xa7; x5d; x75] /\
  origin_real (target 16 true) (FromKey (KHmac (KTag [x61])) (repeat x01 65)) /\
  origin_fits (target 16 true) (FromKey (KHmac (KTag [x61])) (repeat x01 65)) 3.
Proof. split; [vm_compute; reflexivity|]. split; vm_compute; repeat split; discriminate. Qed.
(** 16-bit target, three slices with 65520 bytes in all: padding does not fit. *)
Example C60_case_overflow :
  let chunks := repeat (repeat x00 (N.to_nat 21840)) 3 in
  Forall (slice (target 16 true)) chunks /\
  digest_of (target 16 true) (FromNew (KAlgo Sha512)) chunks = Panic POverflow.
Proof.
  cbv zeta. set (b := repeat x00 (N.to_nat 21840)).
  assert (Hb : len b = 21840) by (unfold b, len; rewrite repeat_length; lia).
  assert (HF : Forall (slice (target 16 true)) (repeat b 3)).
  { cbn [repeat]. repeat constructor; unfold slice; rewrite Hb; reflexivity. }
  split; [exact HF|]. clearbody b.
  apply (proj2 (C60_checked (target 16 true) (FromNew (KAlgo Sha512)) (repeat b 3) (or_introl eq_refl) eq_refl I HF)).
  cbn [repeat List.concat origin_fits kind_fits]. intros [_ H]. cbn [target overflow_checks usize_bits] in H.
  rewrite !app_length in H. unfold len in Hb. unfold md_padded in H. cbn [md_of md_field length] in H.
  change (2 ^ 16) with 65536 in H. lia.
Qed.

(** C61: the tag's engine is made by from_midstate, or is the default one, and
    may have been fed already. *)
Theorem C61_tag_from_midstate : forall c m n e0 pre e chunks,
  wf_config c -> length m = 32%nat -> n < 2 ^ usize_bits c ->
  sha256_from_midstate m n = Ok e0 -> he_inputs (sha256_engine c) e0 pre = Ok e ->
  he_hash_byte_chunks (sha256t_engine c (Ok e)) chunks
  = result_of (md_result c Sha256 (be_words 4 m) n (List.concat pre ++ List.concat chunks)).
Proof. exact tag_any_midstate. Qed.
Print Assumptions C61_tag_from_midstate.
Theorem C61_tag_fresh : forall c e0 pre e chunks, wf_config c -> he_default (sha256_engine c) = Ok e0 ->
  Forall (slice c) pre -> Forall (slice c) chunks ->
  he_inputs (sha256_engine c) e0 pre = Ok e ->
  he_hash_byte_chunks (sha256t_engine c (Ok e)) chunks
  = result_of (algo_result c Sha256 (List.concat pre ++ List.concat chunks)).
Proof. exact tag_any_fresh. Qed.
Print Assumptions C61_tag_fresh.
Example C61_case : is_ok (let* e := sha256_from_midstate (repeat x01 32) 128 in
                          he_inputs (sha256_engine (target 64 true)) e [[x61]; [x62; x63]]) = true /\
  md_result (target 64 true) Sha256 (be_words 4 (repeat x01 32)) 128 [x61; x62; x63; x64] <> None.
Proof. split; vm_compute; [reflexivity|discriminate]. Qed.

(** C11 and C12 for every engine: HMAC over anything, tags, keyed SipHash. *)
Theorem C11_count_every_engine : forall c o s chunks s',
  wf_config c -> origin_ok o -> start c o = Ok s -> Forall (slice c) chunks ->
  he_inputs (kind_engine c (origin_kind o)) s chunks = Ok s' ->
  he_n_bytes_hashed (kind_engine c (origin_kind o)) s'
  = (N.of_nat (origin_prefix o) + len (List.concat chunks)) mod 2 ^ usize_bits c.
Proof. exact origin_count. Qed.
Print Assumptions C11_count_every_engine.
Theorem C12_no_panic_every_engine : forall c o chunks,
  wf_config c -> origin_ok o -> Forall (slice c) chunks -> origin_fits c o (length (List.concat chunks)) ->
  exists s s' d, start c o = Ok s /\ he_inputs (kind_engine c (origin_kind o)) s chunks = Ok s' /\
    he_finalize (kind_engine c (origin_kind o)) s' = Ok d /\ len d = ty_len (origin_ty o).
Proof. exact origin_no_panic. Qed.
Print Assumptions C12_no_panic_every_engine.
Example C12_case_every_engine :
  let o := FromKey (KHmac (KTag [x61])) (repeat x01 65) in
  origin_ok o /\ origin_fits (target 16 true) o 3 /\ origin_prefix o = 192%nat.
Proof. vm_compute. repeat split; discriminate. Qed.

(** C13 for SipHash, whose digest depends on the count only through its low byte *)
Theorem C13_siphash : forall c k0 k1 chunks, wf_config c -> k0 < 2 ^ 64 -> k1 < 2 ^ 64 -> Forall (slice c) chunks ->
  let m := List.concat chunks in
  digest_of c (FromKeys k0 k1) chunks =
  if overflow_checks c && (2 ^ usize_bits c <=? len m) then Panic POverflow else Ok (le_octets 8 (siphash24 k0 k1 m)).
Proof. exact sip_overflow_exact. Qed.
Print Assumptions C13_siphash.
Example C13_siphash_case : wf_config (target 32 false) /\ overflow_checks (target 64 true) = true /\
  Forall (slice (target 64 true)) [[x61]; []] /\
  digest_of (target 64 true) (FromKeys 1 2) [[x61]; []] = Ok (le_octets 8 (siphash24 1 2 [x61])).
Proof.
  split; [right; left; reflexivity|]. split; [reflexivity|]. split; [repeat constructor|]. vm_compute. reflexivity.
Qed.
