(** Further properties of the engines: C49-C53. *)
From Coq Require Import NArith ZArith List Bool Lia.
From Coq Require Import Strings.Byte.
From Verif Require Import Base SpecBase SpecMD SpecMac ModelEngine ModelHmac ModelAll ModelTypes ModelStore
  SpecApi SpecStore SpecMore ProofLive ProofSound ProofMacColl.
Import ListNotations.
Open Scope N_scope.

(** C49: the engine macro and the padding code for any block function [f] and
    any length field [tail] of [R] bytes.  [z] is the number of zero bytes of
    the padding, determined by its bound and the alignment. *)
Theorem C49_every_block : forall c B f R tail h0 L0 buf0 chunks, wf_config c ->
  B = 64%nat \/ B = 128%nat -> (8 <= R <= 16)%nat ->
  (forall bits, length (List.concat (tail bits)) = R) ->
  length buf0 = B -> L0 mod N.of_nat B = 0 ->
  let m := List.concat chunks in let n := L0 + len m in
  8 * n < 2 ^ 64 -> n + 2 * N.of_nat B <= 2 ^ usize_bits c ->
  exists s s' z,
    engine_inputs c (N.of_nat B) (block_fn_of f) (mk_engine buf0 h0 L0) chunks = Ok s /\
    e_h s = fold_left f (blocks B m) h0 /\ e_length s = n /\
    finalize_pad c (N.of_nat B) (block_fn_of f) (N.of_nat R) tail s = Ok s' /\
    (z < B)%nat /\ ((length m + 1 + z + R) mod B = 0)%nat /\
    e_h s' = fold_left f (blocks B (m ++ [x80] ++ repeat x00 z ++ List.concat (tail (8 * n)))) h0.
Proof. exact every_block. Qed.
Print Assumptions C49_every_block.
(** The case of a block function that writes down its blocks. *)
Theorem C49_blocks_recorded : forall c B R tail buf0 chunks, wf_config c ->
  B = 64%nat \/ B = 128%nat -> (8 <= R <= 16)%nat ->
  (forall bits, length (List.concat (tail bits)) = R) -> length buf0 = B ->
  let m := List.concat chunks in
  8 * len m < 2 ^ 64 -> len m + 2 * N.of_nat B <= 2 ^ usize_bits c ->
  exists s s' z,
    engine_inputs c (N.of_nat B) (block_fn_of record) (mk_engine buf0 [] 0) chunks = Ok s /\
    e_h s = map be_int (blocks B m) /\
    finalize_pad c (N.of_nat B) (block_fn_of record) (N.of_nat R) tail s = Ok s' /\
    (z < B)%nat /\ ((length m + 1 + z + R) mod B = 0)%nat /\
    e_h s' = map be_int (blocks B (m ++ [x80] ++ repeat x00 z ++ List.concat (tail (8 * len m)))).
Proof. exact blocks_recorded. Qed.
Print Assumptions C49_blocks_recorded.
Example C49_case :
  (let* s := engine_inputs (target 64 true) 64 (block_fn_of record) (mk_engine (repeat xff 64) [] 0)
     [repeat x00 63; [x02; x03]] in Ok (e_h s)) = Ok [2] /\
  (let* s := engine_inputs (target 64 true) 64 (block_fn_of record) (mk_engine (repeat xff 64) [] 0)
     [repeat x00 63; [x02; x03]] in
   let* s := finalize_pad (target 64 true) 64 (block_fn_of record) 8 (fun bits => [be_octets 8 bits]) s in
   Ok (length (e_h s))) = Ok 2%nat.
Proof. split; vm_compute; reflexivity. Qed.

(** C50 *)
Theorem C50_stale_buffer : forall c a s s' chunks, wf_config c -> same_live (block_len a) s s' ->
  observe (algo_engine c a) (engine_state c a s) chunks = observe (algo_engine c a) (engine_state c a s') chunks.
Proof. exact stale_buffer. Qed.
Print Assumptions C50_stale_buffer.
Example C50_case : same_live 64 (mk_engine ([x61; x62] ++ repeat x00 62) [1; 2; 3; 4; 5] 66)
                                (mk_engine ([x61; x62] ++ repeat xff 62) [1; 2; 3; 4; 5] 66).
Proof. vm_compute. repeat split. Qed.

(** C51 *)
Theorem C51_checked_digest : forall c, wf_config c -> overflow_checks c = true -> forall o chunks d,
  origin_real c o -> Forall (slice c) chunks ->
  digest_of c o chunks = Ok d -> d = origin_hash o (List.concat chunks).
Proof. exact checked_digest. Qed.
Print Assumptions C51_checked_digest.
(** HMAC-SipHash with a long key on a 16-bit target. *)
Example C51_case : let c := target 16 true in
  let o := FromKey KSip (repeat x62 9) in
  wf_config c /\ overflow_checks c = true /\ origin_real c o /\ Forall (slice c) [[x63]; repeat x64 20] /\
  is_ok (digest_of c o [[x63]; repeat x64 20]) = true.
Proof.
  cbv zeta. split; [left; reflexivity|]. split; [reflexivity|]. split; [vm_compute; tauto|].
  split; [repeat constructor|]. vm_compute. reflexivity.
Qed.

(** C52 *)
Theorem C52_portable : forall c c' o chunks chunks' d d', wf_config c -> wf_config c' ->
  origin_real c o -> origin_real c' o -> Forall (slice c) chunks -> Forall (slice c') chunks' ->
  List.concat chunks = List.concat chunks' ->
  overflow_checks c = true \/ origin_fits c o (length (List.concat chunks)) ->
  overflow_checks c' = true \/ origin_fits c' o (length (List.concat chunks)) ->
  digest_of c o chunks = Ok d -> digest_of c' o chunks' = Ok d' -> d = d'.
Proof. exact digest_portable. Qed.
Print Assumptions C52_portable.
Example C52_case : let c := target 16 true in let c' := with_byte_order true (target 64 false) in
  let o := FromKeys 7 11 in
  origin_fits c' o 9 /\
  digest_of c o [repeat x61 9] = digest_of c' o [repeat x61 4; repeat x61 5] /\
  is_ok (digest_of c o [repeat x61 9]) = true.
Proof. cbv zeta. split; [reflexivity|]. split; [|vm_compute; reflexivity].
  set (l := digest_of _ _ _). vm_compute in l. subst l. vm_compute. reflexivity. Qed.

(** C53: a collision of HMAC, for two keys that are different after the
    normalisation of RFC 2104 or two different messages. *)
Theorem C53_hmac_collision : forall c a key m key' m',
  a = Sha1 \/ a = Sha256 \/ a = Sha512 \/ a = Ripemd160 -> wf_config c ->
  origin_fits c (FromKey (KAlgo a) key) (length m) -> origin_fits c (FromKey (KAlgo a) key') (length m') ->
  (hmac_key (hash_of a) (block_len a) key, m) <> (hmac_key (hash_of a) (block_len a) key', m') ->
  slice c m -> slice c m' ->
  hmac_of c a key m = hmac_of c a key' m' ->
  call_collision c a (calls_of a (inner_msg a key m)) (calls_of a (inner_msg a key' m')) \/
  call_collision c a (calls_of a (outer_msg a key m)) (calls_of a (outer_msg a key' m')).
Proof. exact hmac_collision. Qed.
Print Assumptions C53_hmac_collision.
Example C53_case : let c := target 64 true in
  origin_fits c (FromKey (KAlgo Sha256) [x61]) 1 /\ origin_fits c (FromKey (KAlgo Sha256) [x62]) 1 /\
  hmac_key (hash_of Sha256) 64 [x61] <> hmac_key (hash_of Sha256) 64 [x62] /\
  length (calls_of Sha256 (outer_msg Sha256 [x61] [x63])) = 2%nat.
Proof.
  cbv zeta. split; [split; [split; vm_compute; repeat split|intros H; vm_compute in H; exfalso; lia]|].
  split; [split; [split; vm_compute; repeat split|intros H; vm_compute in H; exfalso; lia]|].
  split; [intros H; vm_compute in H; discriminate H|vm_compute; reflexivity].
Qed.
