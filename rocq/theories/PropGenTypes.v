(** The value types and writers of the crate as translated by tools/rs2v.py: C74, C75. *)
From Coq Require Import NArith ZArith List Bool Lia.
From Coq Require Import Strings.Byte.
From Verif Require Import Base SpecBase SpecMD SpecMac ModelEngine ModelSip ModelHmac ModelAll ModelTypes ModelStore ModelIo ModelWriter
  SpecApi SpecText SpecTypes SpecIo SpecStore GenBase GenLib GenSip GenHmac GenTypes GenIo SpecGen SpecGenTypes ProofGenTypes.
Import ListNotations.
Open Scope N_scope.

(** C74 *)
Theorem C74_from_slice : forall T t sl,
  (len sl = octets_of t /\ gt_from_slice (gen_ty T t) sl = Ok (ROk sl)) \/
  (len sl <> octets_of t /\ exists e, gt_from_slice (gen_ty T t) sl = Ok (RErr e) /\
     g_lib_FromSliceError_expected_length e = octets_of t /\ g_lib_FromSliceError_invalid_length e = len sl).
Proof. exact gen_from_slice. Qed.
Print Assumptions C74_from_slice.
Theorem C74_from_str : forall T t s b,
  gt_from_str (gen_ty T t) s = ROk b <-> (len s = 2 * octets_of t /\ denotes s b).
Proof. exact gen_from_str. Qed.
Print Assumptions C74_from_str.
Theorem C74_from_str_error : forall T t s e, gt_from_str (gen_ty T t) s = RErr e ->
  (len s mod 2 <> 0 /\ e = OddLengthString (len s)) \/
  (len s mod 2 = 0 /\ len s <> 2 * octets_of t /\ e = InvalidLength (2 * octets_of t) (len s)) \/
  (len s = 2 * octets_of t /\ exists p ch q,
     s = p ++ ch :: q /\ Forall hex_digit p /\ ~ hex_digit ch /\ e = InvalidChar ch).
Proof. exact gen_from_str_error. Qed.
Print Assumptions C74_from_str_error.
Theorem C74_views : forall T t f h, In f (gt_views (gen_ty T t)) -> f h = h.
Proof. exact gen_views. Qed.
Print Assumptions C74_views.
Theorem C74_zeros : forall T t z, In z (gt_zeros (gen_ty T t)) -> z = repeat x00 (N.to_nat (octets_of t)).
Proof. exact gen_zeros. Qed.
Print Assumptions C74_zeros.
Theorem C74_len : forall T t n, gt_len (gen_ty T t) = Some n -> n = octets_of t.
Proof. exact gen_len. Qed.
Print Assumptions C74_len.
Theorem C74_index : forall T t c h ix r, len h < 2 ^ usize_bits c -> gt_index (gen_ty T t) c h ix = Some r ->
  let (i, j) := bounds h ix in
  (forall b, r = Ok b <-> part h i j b) /\ (is_ok r = true <-> i <= j /\ j <= len h) /\
  (is_ok r = false -> r = Panic PIndex).
Proof. exact gen_index. Qed.
Print Assumptions C74_index.
Theorem C74_order : forall T a b,
  (g_sha256t_Hash_eq T a b = true <-> a = b) /\
  (g_sha256t_Hash_cmp T a b = Eq <-> a = b) /\
  (g_sha256t_Hash_cmp T a b = Lt <-> lex_lt a b) /\
  (g_sha256t_Hash_cmp T a b = Gt <-> lex_lt b a) /\
  g_sha256t_Hash_partial_cmp T a b = Some (g_sha256t_Hash_cmp T a b).
Proof. exact gen_order. Qed.
Print Assumptions C74_order.
Theorem C74_hash : forall c k f m, wf_config c -> slice c m -> kind_fits c k (length m) -> gen_ty_hash c k = Some f ->
  f m = Ok (kind_hash k m).
Proof. exact gen_ty_hash_ok. Qed.
Print Assumptions C74_hash.
Theorem C74_from_engine : forall c o chunks, wf_config c -> origin_ok o -> origin_slice c o -> Forall (slice c) chunks ->
  origin_fits c o (length (List.concat chunks)) ->
  exists s, (let* s := gen_start c o in he_inputs (gen_kind c (origin_kind o)) s chunks) = Ok s /\
    gen_from_engine c (origin_kind o) s = Ok (origin_hash o (List.concat chunks)).
Proof. exact gen_from_engine_ok. Qed.
Print Assumptions C74_from_engine.
Theorem C74_error_new : forall got expected,
  g_lib_FromSliceError_invalid_length (g_lib_FromSliceError_new got expected) = got /\
  g_lib_FromSliceError_expected_length (g_lib_FromSliceError_new got expected) = expected.
Proof. exact gen_error_new. Qed.
Print Assumptions C74_error_new.
Definition C74_tag : bytes := [x61; x62].
Example C74_case : let T := gen_tag_engine (target 32 true) C74_tag in
  gt_from_slice (gen_ty T TSiphash24) [x01; x02] = Ok (RErr (g_lib_FromSliceError_new 2 8)) /\
  gt_from_slice (gen_ty T (THmac 2)) [x01; x02] = Ok (ROk [x01; x02]) /\
  gt_from_str (gen_ty T (THmac 2)) [x30; x46; x61; x31] = ROk [x0f; xa1] /\
  gt_from_str (gen_ty T (THmac 2)) [x30; x46; x67; x31] = RErr (InvalidChar x67) /\
  gt_index (gen_ty T (THmac 2)) (target 32 true) [x01; x02] (Range 1 3) = Some (Panic PIndex) /\
  gt_index (gen_ty T TMidstate) (target 32 true) [x01; x02] (RangeFrom 1) = Some (Ok [x02]) /\
  gt_index (gen_ty T (THmac 2)) (target 32 true) [x01; x02] (RangeToInclusive 1) = None /\
  length (gt_views (gen_ty T TSha256t)) = 8%nat /\ length (gt_zeros (gen_ty T TSha256t)) = 2%nat /\
  gt_len (gen_ty T TSha384) = Some 48 /\
  (exists f, gen_ty_hash (target 32 true) (KTag C74_tag) = Some f) /\
  kind_fits (target 32 true) (KTag C74_tag) 1 /\
  origin_fits (target 32 true) (FromKey (KAlgo Sha1) [x62]) 1 /\ origin_slice (target 32 true) (FromKey (KAlgo Sha1) [x62]).
Proof.
  cbv zeta. do 10 (split; [vm_compute; reflexivity|]). split; [eexists; reflexivity|].
  split; [vm_compute; repeat split|].
  split; [split; [split; vm_compute; repeat split|intros H; vm_compute in H; exfalso; lia]|vm_compute; reflexivity].
Qed.

(** C75 *)
Theorem C75_digest_of_writes : forall c o w ops, wf_config c -> origin_ok o -> origin_slice c o ->
  In w (gen_writers c (origin_kind o)) ->
  Forall (op_ok c) ops -> origin_fits c o (length (List.concat (map written ops))) ->
  exists s s', gen_start c o = Ok s /\
    drive w (he_input (gen_kind c (origin_kind o))) s ops = Ok (map reported ops, s') /\
    gen_from_engine c (origin_kind o) s' = Ok (origin_hash o (List.concat (map written ops))).
Proof. exact gen_write_digest. Qed.
Print Assumptions C75_digest_of_writes.
Theorem C75_writes_are_inputs : forall c o w s ops chunks, wf_config c -> origin_ok o -> origin_slice c o ->
  In w (gen_writers c (origin_kind o)) -> gen_start c o = Ok s -> Forall (op_ok c) ops ->
  Forall (slice c) chunks -> List.concat chunks = List.concat (map written ops) ->
  drive w (he_input (gen_kind c (origin_kind o))) s ops
  = let* s' := he_inputs (gen_kind c (origin_kind o)) s chunks in Ok (map reported ops, s').
Proof. exact gen_writes_are_inputs. Qed.
Print Assumptions C75_writes_are_inputs.
Definition C75_ops : list io_op :=
  [OpWrite [x61]; OpFlush; OpCopy [ReadInterrupted; ReadData [x62]; ReadInterrupted; ReadData [x63]; ReadData []];
   OpWriteAll [x64; x65]; OpWriteVectored [[]; [x66]; [x67]]].
Example C75_case : Forall (op_ok (target 32 true)) C75_ops /\
  map reported C75_ops = [ROk 1; ROk 0; ROk 2; ROk 0; ROk 1] /\
  map (fun k => length (gen_writers (target 32 true) k)) [KAlgo Sha1; KAlgo Sha384; KSip; KTag C74_tag; KHmac (KAlgo Sha384)]
    = [1; 0; 1; 1; 2]%nat /\
  origin_fits (target 32 true) (FromKeys 1 2) 6 /\
  (exists w, In w (gen_writers (target 32 true) KSip) /\
     (let* (rs, s) := drive w (he_input (gen_kind (target 32 true) KSip)) (g_siphash24_Engine_with_keys 1 2) C75_ops in
      let* d := gen_from_engine (target 32 true) KSip s in Ok (rs, d))
     = Ok ([ROk 1; ROk 0; ROk 2; ROk 0; ROk 1], le_octets 8 (siphash24 1 2 [x61; x62; x63; x64; x65; x66]))).
Proof.
  unfold C75_ops. split; [repeat (split || constructor)|]. split; [reflexivity|]. split; [reflexivity|].
  split; [vm_compute; reflexivity|].
  exists {| w_write := g_impls_siphash24_Engine_write (target 32 true); w_flush := g_impls_siphash24_Engine_flush |}.
  split; [left; reflexivity|]. vm_compute. reflexivity.
Qed.
