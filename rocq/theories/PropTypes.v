(** Comparison, hash values, text, serde, writers, many engines, tables:
    C25-C37, C40, C47, C48. *)
From Coq Require Import NArith ZArith List Bool Lia.
From Coq Require Import Strings.Byte Strings.String.
From Verif Require Import Base SpecBase SpecMD SpecMac ModelEngine ModelSha2Round ModelRipemdRound ModelSimd TablesSha2
  TablesRipemd TablesSimd ModelSha256 ModelSha512 ModelSha1 ModelRipemd
  ModelSip ModelHmac ModelAll SpecApi SpecText SpecTables ModelCmp ModelTypes SpecTypes ModelIo SpecIo ModelStore
  SpecStore ProofCmp ProofTypes ProofIo ProofStore ProofTables.
From Verif Require SpecSha2 SpecRipemd.
Import ListNotations.
Open Scope N_scope.
Open Scope list_scope.

(** C25 *)
Theorem C25_decides_equality : forall a b, List.length a = List.length b ->
  exists r, outcome (fixed_time_eq a b) = Ok r /\ (r = true <-> a = b).
Proof. exact cmp_decides. Qed.
Print Assumptions C25_decides_equality.
Example C25_case : outcome (fixed_time_eq [x01; xff] [x01; xff]) = Ok true /\
  outcome (fixed_time_eq [x01; xff] [x01; x7f]) = Ok false.
Proof. split; vm_compute; reflexivity. Qed.

(** C26 *)
Theorem C26_panics_on_length : forall a b,
  is_ok (outcome (fixed_time_eq a b)) = false <-> List.length a <> List.length b.
Proof. exact cmp_panics. Qed.
Print Assumptions C26_panics_on_length.
Theorem C26_never_out_of_range : forall a b, outcome (fixed_time_eq a b) <> Panic PIndex.
Proof. exact cmp_no_index. Qed.
Print Assumptions C26_never_out_of_range.
Example C26_case : outcome (fixed_time_eq [x01] [x01; x02]) = Panic PAssert /\
  outcome (fixed_time_eq [] []) = Ok true.
Proof. split; vm_compute; reflexivity. Qed.

(** C27 *)
Theorem C27_trace_independent : forall a b a' b',
  List.length a = List.length a' -> List.length b = List.length b' ->
  trace (fixed_time_eq a b) = trace (fixed_time_eq a' b').
Proof. exact cmp_trace. Qed.
Print Assumptions C27_trace_independent.
(** The trace is not trivially constant: every position of both is read. *)
Theorem C27_reads_everything : forall a b i, List.length a = List.length b -> (i < List.length a)%nat ->
  In (ReadLhs (N.of_nat i)) (trace (fixed_time_eq a b)) /\ In (ReadRhs (N.of_nat i)) (trace (fixed_time_eq a b)).
Proof. exact cmp_reads. Qed.
Print Assumptions C27_reads_everything.
Example C27_case : trace (fixed_time_eq [x01] [x02])
  = [VolatileRead; ReadLhs 0; ReadRhs 0; Xor; Or; VolatileWrite;
     VolatileRead; Shr 4; Or; VolatileWrite; VolatileRead; Shr 2; Or; VolatileWrite;
     VolatileRead; Shr 1; Or; VolatileWrite; VolatileRead; And 1; CompareZero].
Proof. vm_compute. reflexivity. Qed.

(** C28 *)
Theorem C28_from_slice : forall t sl,
  (len sl = ty_len t /\ from_slice t sl = Ok (ROk sl)) \/
  (len sl <> ty_len t /\ exists e, from_slice t sl = Ok (RErr e) /\
     expected_length e = ty_len t /\ invalid_length e = len sl).
Proof. exact from_slice_cases. Qed.
Print Assumptions C28_from_slice.
(** The declared lengths. *)
Example C28_case :
  map ty_len [TSha1; TSha256; TSha384; TSha512; TSha512_256; TRipemd160; TSiphash24; TSha256t; THmac 20; TMidstate]
    = [20; 32; 48; 64; 32; 20; 8; 32; 20; 32] /\
  from_slice TSiphash24 [x01; x02; x03; x04; x05; x06; x07; x08]
    = Ok (ROk [x01; x02; x03; x04; x05; x06; x07; x08]) /\
  from_slice TSiphash24 [x01] = Ok (RErr {| expected := 8; got := 1 |}).
Proof. repeat split; vm_compute; reflexivity. Qed.

(** C29 *)
Theorem C29_conversions : forall c h,
  to_byte_array (from_byte_array h) = h /\ from_byte_array (to_byte_array h) = h /\
  as_byte_array h = h /\ as_bytes h = h /\ to_bytes h = h /\ from_bytes_ref h = h /\
  as_ref_slice c h = Ok h /\ as_ref_array h = h /\ hash_index c h RangeFull = Ok h.
Proof. exact conversions. Qed.
Print Assumptions C29_conversions.
Theorem C29_all_zeros : forall t, len (all_zeros t) = ty_len t /\ Forall (fun b => b = x00) (all_zeros t).
Proof. exact all_zeros_ok. Qed.
Print Assumptions C29_all_zeros.
(** Every digest of every history, over-long messages included. *)
Theorem C29_digest_length : forall c ops st outs i d, wf_config c -> Forall (store_op_ok c) ops ->
  run c [] ops = Ok (st, outs) -> nth_error outs i = Some (ODigest d) ->
  exists o m, nth_error (snd (spec_run [] ops)) i = Some (XDigest o m) /\ len d = ty_len (origin_ty o).
Proof. exact store_digest_length. Qed.
Print Assumptions C29_digest_length.
Example C29_case : kind_ty (KHmac (KHmac (KAlgo Sha384))) = THmac 48 /\
  List.length (all_zeros TSha384) = 48%nat.
Proof. split; vm_compute; reflexivity. Qed.

(** C30 *)
Theorem C30_display_from_str : forall t h, len h = ty_len t ->
  from_str t (display false h) = ROk h /\ from_str t (lower_hex false h) = ROk h /\
  from_str t (upper_hex false h) = ROk h.
Proof. exact from_str_display. Qed.
Print Assumptions C30_display_from_str.
Example C30_case : let h := [x00; x01; x0a; xa0; xff; x7f; x80; x9c] in
  len h = ty_len TSiphash24 /\ display false h = list_byte_of_string "00010aa0ff7f809c".
Proof. split; vm_compute; reflexivity. Qed.

(** C31 *)
Theorem C31_from_str_exact : forall t s b, from_str t s = ROk b <-> (len s = 2 * ty_len t /\ denotes s b).
Proof. exact from_str_ok. Qed.
Print Assumptions C31_from_str_exact.
Theorem C31_accepts : forall t s, (exists b, from_str t s = ROk b) <-> (len s = 2 * ty_len t /\ Forall hex_digit s).
Proof. exact from_str_accepts. Qed.
Print Assumptions C31_accepts.
(** The specification is a function of the text. *)
Theorem C31_denotes_fun : forall s b b', denotes s b -> denotes s b' -> b = b'.
Proof. exact denotes_fun. Qed.
Print Assumptions C31_denotes_fun.
(** Which error, naming the first character that is no digit. *)
Theorem C31_error : forall t s e, from_str t s = RErr e ->
  (len s mod 2 <> 0 /\ e = OddLengthString (len s)) \/
  (len s mod 2 = 0 /\ len s <> 2 * ty_len t /\ e = InvalidLength (2 * ty_len t) (len s)) \/
  (len s = 2 * ty_len t /\ exists p ch q,
     s = p ++ ch :: q /\ Forall hex_digit p /\ ~ hex_digit ch /\ e = InvalidChar ch).
Proof. exact from_str_error. Qed.
Print Assumptions C31_error.
Example C31_case :
  from_str TSiphash24 (list_byte_of_string "0123456789AbCdEf") = ROk [x01; x23; x45; x67; x89; xab; xcd; xef] /\
  from_str TSiphash24 (list_byte_of_string "0x23456789AbCdEf") = RErr (InvalidChar x78) /\
  from_str TSiphash24 (list_byte_of_string "0x0123456789AbCdEf") = RErr (InvalidLength 16 18) /\
  from_str TSiphash24 (list_byte_of_string "012") = RErr (OddLengthString 3).
Proof. repeat split; vm_compute; reflexivity. Qed.

(** C32 *)
Theorem C32_text_forms : forall h,
  display false h = hex_text digits h /\ lower_hex false h = hex_text digits h /\
  upper_hex false h = hex_text DIGITS h /\
  debug h = [x30; x78] ++ hex_text digits h /\
  lower_hex true h = [x30; x78] ++ hex_text digits h /\ upper_hex true h = [x30; x78] ++ hex_text DIGITS h.
Proof. exact text_forms. Qed.
Print Assumptions C32_text_forms.
Theorem C32_text_length : forall ds h, List.length (hex_text ds h) = (2 * List.length h)%nat.
Proof. exact hex_text_length. Qed.
Print Assumptions C32_text_length.
Theorem C32_text_injective : forall h h',
  (display false h = display false h' <-> h = h') /\ (upper_hex false h = upper_hex false h' <-> h = h') /\
  (debug h = debug h' <-> h = h').
Proof. exact text_injective. Qed.
Print Assumptions C32_text_injective.
Example C32_case : debug [x1f; xe0] = list_byte_of_string "0x1fe0" /\
  upper_hex false [x1f; xe0] = list_byte_of_string "1FE0".
Proof. split; vm_compute; reflexivity. Qed.

(** C33 *)
Theorem C33_roundtrip : forall c t hr h, len h = ty_len t ->
  exists o, serialize c hr h = Ok o /\
    deserialize t hr (match o with CollectStr s => VisitStr s | SerializeBytes b => VisitBytes b end) = Ok (ROk h) /\
    match o with CollectStr _ => hr = true | SerializeBytes _ => hr = false end.
Proof. exact serde_roundtrip. Qed.
Print Assumptions C33_roundtrip.
Theorem C33_roundtrip_as_bytes : forall t h, len h = ty_len t ->
  deserialize t true (VisitBytes (display false h)) = Ok (ROk h).
Proof. exact serde_roundtrip_bytes. Qed.
Print Assumptions C33_roundtrip_as_bytes.
Example C33_case : serialize (target 64 true) true [x1f; xe0] = Ok (CollectStr (list_byte_of_string "1fe0")) /\
  serialize (target 64 true) false [x1f; xe0] = Ok (SerializeBytes [x1f; xe0]) /\
  deserialize (THmac 2) false (VisitBytes [x1f; xe0]) = Ok (ROk [x1f; xe0]).
Proof. repeat split; vm_compute; reflexivity. Qed.

(** C34 *)
Theorem C34_never_panics : forall t hr v, exists r, deserialize t hr v = Ok r.
Proof. exact deserialize_total. Qed.
Print Assumptions C34_never_panics.
Theorem C34_human_readable : forall t v h, deserialize t true v = Ok (ROk h) <->
  exists s, (v = VisitStr s \/ v = VisitBytes s \/ v = VisitChar s) /\ len s = 2 * ty_len t /\ denotes s h.
Proof. exact deserialize_hr. Qed.
Print Assumptions C34_human_readable.
Theorem C34_compact : forall t v h, deserialize t false v = Ok (ROk h) <-> (v = VisitBytes h /\ len h = ty_len t).
Proof. exact deserialize_compact. Qed.
Print Assumptions C34_compact.
Example C34_case : deserialize (THmac 1) true (VisitBytes [xff; xff]) = Ok (RErr DeNotUtf8) /\
  deserialize (THmac 1) true (VisitStr [x67; x30]) = Ok (RErr (DeHex (InvalidChar x67))) /\
  deserialize (THmac 1) true (VisitStr [x46; x30]) = Ok (ROk [xf0]) /\
  deserialize (THmac 1) false (VisitBytes [x01; x02]) = Ok (RErr (DeLength 2)).
Proof. repeat split; vm_compute; reflexivity. Qed.

(** C35 *)
Theorem C35_schema_admits : forall c t h, has_schema t -> 0 < ty_len t -> len h = ty_len t ->
  exists v text, json_schema c t = Ok v /\ serialize c true h = Ok (CollectStr (utf8 text)) /\
    validates v text = true.
Proof. exact schema_admits. Qed.
Print Assumptions C35_schema_admits.
(** The converse fails for every type: the pattern is not anchored. *)
Theorem C35_schema_converse_refuted : forall c t, has_schema t -> 0 < ty_len t ->
  exists v text, json_schema c t = Ok v /\ Forall scalar text /\ validates v text = true /\
    forall h, deserialize t true (VisitStr (utf8 text)) <> Ok (ROk h).
Proof. exact schema_converse. Qed.
Print Assumptions C35_schema_converse_refuted.
(** The lengths of the schema are computed in u32: no schema for
    [hmac::Hash<N>] with N from 2^31, or one that its own hashes do not meet. *)
Theorem C35_schema_hmac_large : forall c n h, 2 ^ 31 <= n -> n < 2 ^ 32 -> len h = n ->
  match json_schema c (THmac n) with
  | Panic _ => overflow_checks c = true
  | Ok v => overflow_checks c = false /\ validates v (map b2n (display false h)) = false
  end.
Proof. exact schema_hmac_large. Qed.
Print Assumptions C35_schema_hmac_large.
Example C35_case : has_schema TSha256 /\ 0 < ty_len TSha256 /\ has_schema (THmac 20) /\
  match json_schema (target 64 true) (THmac 2) with
  | Ok v => validates v [48; 49; 48; 102] = true /\ validates v [48; 120; 103; 103] = true /\
            validates v [103; 103; 103; 103] = false /\ validates v [48; 48; 48] = false
  | Panic _ => False
  end.
Proof. vm_compute. repeat split. Qed.

(** C36 *)
Theorem C36_total_order : forall t a b c,
  (hash_eq t a b = true <-> a = b) /\
  (hash_cmp t a b = Eq <-> a = b) /\
  (hash_cmp t a b = Lt <-> lex_lt a b) /\
  (hash_cmp t a b = Gt <-> lex_lt b a) /\
  (hash_cmp t a b = Lt -> hash_cmp t b c = Lt -> hash_cmp t a c = Lt) /\
  hash_partial_cmp t a b = Some (hash_cmp t a b).
Proof. exact order_laws. Qed.
Print Assumptions C36_total_order.
Theorem C36_display_order : forall t a b,
  (hash_cmp t a b = Lt <-> lex_lt (display false a) (display false b)) /\
  (hash_cmp t a b = Eq <-> display false a = display false b) /\
  (hash_cmp t a b = Gt <-> lex_lt (display false b) (display false a)).
Proof. exact display_order. Qed.
Print Assumptions C36_display_order.
Example C36_case : hash_cmp (THmac 2) [x01; xff] [x02; x00] = Lt /\ lex_lt [x01; xff] [x02; x00].
Proof.
  split; [reflexivity|]. left. exists [], x01, x02, [xff], [x00]. repeat split; reflexivity.
Qed.

(** C37 *)
Theorem C37_write_all_of_it : forall E s buf s', he_input E s buf = Ok s' ->
  io_write E s buf = Ok (s', ROk (len buf)) /\ io_flush E s = Ok (s, ROk tt).
Proof. exact write_total. Qed.
Print Assumptions C37_write_all_of_it.
(** Any program of writes is one of [input]s of the same bytes, panics included. *)
Theorem C37_writes_are_inputs : forall c, wf_config c -> forall o s ops chunks,
  origin_ok o -> start c o = Ok s -> Forall (op_ok c) ops ->
  Forall (slice c) chunks -> List.concat chunks = List.concat (map written ops) ->
  run_ops (kind_engine c (origin_kind o)) s ops
  = let* s' := he_inputs (kind_engine c (origin_kind o)) s chunks in Ok (s', map reported ops).
Proof. exact origin_write_any. Qed.
Print Assumptions C37_writes_are_inputs.
Theorem C37_digest_of_writes : forall c, wf_config c -> forall o ops, origin_ok o -> Forall (op_ok c) ops ->
  origin_fits c o (List.length (List.concat (map written ops))) ->
  exists s s', start c o = Ok s /\
    run_ops (kind_engine c (origin_kind o)) s ops = Ok (s', map reported ops) /\
    he_finalize (kind_engine c (origin_kind o)) s' = Ok (origin_hash o (List.concat (map written ops))).
Proof. exact origin_write. Qed.
Print Assumptions C37_digest_of_writes.
Definition C37_ops : list io_op :=
  [OpWrite [x61]; OpFlush; OpCopy [ReadInterrupted; ReadData [x62]; ReadInterrupted; ReadData [x63]; ReadData []];
   OpWriteAll [x64; x65]; OpWriteVectored [[]; [x66]; [x67]]].
Example C37_case : Forall (op_ok (target 32 true)) C37_ops /\
  List.concat (map written C37_ops) = list_byte_of_string "abcdef" /\
  map reported C37_ops = [ROk 1; ROk 0; ROk 2; ROk 0; ROk 1] /\
  origin_fits (target 32 true) (FromKey (KAlgo Sha1) [x01]) 6.
Proof. unfold C37_ops. repeat (split || constructor); vm_compute; congruence. Qed.

(** C40 *)
Theorem C40_each_its_own : forall c ops st outs, wf_config c -> Forall (store_op_ok c) ops ->
  run c [] ops = Ok (st, outs) -> Forall2 (meets c) outs (snd (spec_run [] ops)).
Proof. exact store_correct. Qed.
Print Assumptions C40_each_its_own.
Theorem C40_no_panic : forall c ops, wf_config c -> Forall (store_op_ok c) ops -> run_fits c [] ops ->
  exists st outs, run c [] ops = Ok (st, outs).
Proof. exact store_total. Qed.
Print Assumptions C40_no_panic.
Theorem C40_frame : forall c st op st' out j, step c st op = Ok (st', out) -> (j < List.length st)%nat ->
  target_of op <> Some j -> nth_error st' j = nth_error st j.
Proof. exact store_frame. Qed.
Print Assumptions C40_frame.
Definition C40_ops : list store_op :=
  [New (KAlgo Sha1); NewSip 1 2; Input 0 [x61]; Clone 0; NewHmac (KAlgo Sha1) [x6b]; Input 2 [x62]; Input 0 [x63];
   Input 3 [x64]; Count 3; Finalize 2; Finalize 0; Finalize 1; Finalize 3; Finalize 0].
Example C40_case :
  snd (spec_run [] C40_ops)
  = [XNone; XNone; XNone; XNone; XNone; XNone; XNone; XNone; XCount (FromKey (KAlgo Sha1) [x6b]) [x64];
     XDigest (FromNew (KAlgo Sha1)) [x61; x62]; XDigest (FromNew (KAlgo Sha1)) [x61; x63]; XDigest (FromKeys 1 2) [];
     XDigest (FromKey (KAlgo Sha1) [x6b]) [x64]; XRejected] /\
  Forall (store_op_ok (target 32 true)) C40_ops /\ run_fits (target 32 true) [] C40_ops.
Proof.
  split; [reflexivity|]. unfold C40_ops. split.
  - repeat constructor.
  - cbn [run_fits spec_step fst app get nth_error set_nth]. unfold vars_fit. repeat split;
      repeat constructor; try (vm_compute; congruence); try (cbn; lia).
Qed.

(** C47 *)
Theorem C47_sha256_k : exists ps, first_n_primes 64 ps /\ Forall2 (frac_bits 32 3) ps (map rr_k software_rows).
Proof. exact k256_table. Qed.
Print Assumptions C47_sha256_k.
Theorem C47_sha256_k_const : map rr_k const_rows = map rr_k software_rows.
Proof. exact k256_const. Qed.
Print Assumptions C47_sha256_k_const.
Theorem C47_sha256_k_simd : List.concat (map simd_constants simd_program) = map rr_k software_rows.
Proof. exact k256_simd. Qed.
Print Assumptions C47_sha256_k_simd.
Theorem C47_sha512_k : exists ps, first_n_primes 80 ps /\ Forall2 (frac_bits 64 3) ps (map rr_k sha512_rows).
Proof. exact k512_table. Qed.
Print Assumptions C47_sha512_k.
Theorem C47_sha256_iv : exists ps, first_n_primes 8 ps /\ Forall2 (frac_bits 32 2) ps sha256_iv.
Proof. exact iv256_table. Qed.
Print Assumptions C47_sha256_iv.
Theorem C47_sha256_iv_const : const_iv = sha256_iv.
Proof. exact iv256_const. Qed.
Print Assumptions C47_sha256_iv_const.
Theorem C47_sha512_iv : exists ps, first_n_primes 8 ps /\ Forall2 (frac_bits 64 2) ps sha512_iv.
Proof. exact iv512_table. Qed.
Print Assumptions C47_sha512_iv.
Theorem C47_sha384_iv : exists ps, first_n_primes 16 ps /\ Forall2 (frac_bits 64 2) (skipn 8 ps) sha384_iv.
Proof. exact iv384_table. Qed.
Print Assumptions C47_sha384_iv.
Theorem C47_sha512_256_iv : sha512_256_iv
  = be_words 8 (SpecSha2.hash_from SpecSha2.params512 (map (fun h => N.lxor h 0xa5a5a5a5a5a5a5a5) sha512_iv)
                  sha512_256_name).
Proof. exact iv512_256. Qed.
Print Assumptions C47_sha512_256_iv.
Theorem C47_ripemd_constants :
  left_k 1 = 0 /\ floor_root 30 2 2 (left_k 2) /\ floor_root 30 2 3 (left_k 3) /\
  floor_root 30 2 5 (left_k 4) /\ floor_root 30 2 7 (left_k 5) /\
  floor_root 30 3 2 (right_k 1) /\ floor_root 30 3 3 (right_k 2) /\ floor_root 30 3 5 (right_k 3) /\
  floor_root 30 3 7 (right_k 4) /\ right_k 5 = 0.
Proof. exact ripemd_constants. Qed.
Print Assumptions C47_ripemd_constants.
Theorem C47_ripemd_order :
  Forall2 (ripemd_row_is SpecRipemd.rL) (seq 0 80) left_rows /\
  Forall2 (ripemd_row_is SpecRipemd.rR) (seq 0 80) right_rows.
Proof. exact ripemd_order. Qed.
Print Assumptions C47_ripemd_order.
Theorem C47_sha1_constants : forall i b c d, i < 80 -> exists f k, sha1_f_k i b c d = Ok (f, k) /\
  floor_root 30 2 (nth (N.to_nat (i / 20)) [2; 3; 5; 10] 0) k.
Proof. exact sha1_constants. Qed.
Print Assumptions C47_sha1_constants.
Theorem C47_sha1_ripemd_iv :
  List.concat (map (le_octets 4) sha1_iv) = counting_bytes /\ List.concat (map (le_octets 4) ripemd_iv) = counting_bytes.
Proof. exact counting_ivs. Qed.
Print Assumptions C47_sha1_ripemd_iv.
Theorem C47_siphash_constants : let s := sip_st (with_keys 0 0) in
  List.concat (map (be_octets 8) [v0 s; v1 s; v2 s; v3 s]) = sip_text.
Proof. exact sip_constants. Qed.
Print Assumptions C47_siphash_constants.
Example C47_case : nth_error (map rr_k software_rows) 0 = Some 0x428a2f98 /\ floor_root 32 3 2 (0x100000000 + 0x428a2f98).
Proof. split; [reflexivity|]. apply floor_root_ok. vm_compute. reflexivity. Qed.

(** C48 *)
Theorem C48_index : forall c h ix, len h < 2 ^ usize_bits c ->
  let (i, j) := bounds h ix in
  (forall r, hash_index c h ix = Ok r <-> part h i j r) /\
  (is_ok (hash_index c h ix) = true <-> i <= j /\ j <= len h) /\
  (is_ok (hash_index c h ix) = false -> hash_index c h ix = Panic PIndex).
Proof. exact hash_index_ok. Qed.
Print Assumptions C48_index.
Theorem C48_index_byte : forall c h i b, len h < 2 ^ usize_bits c ->
  (hash_index c h (At i) = Ok [b] <-> nth_error h (N.to_nat i) = Some b) /\
  is_ok (hash_index c h (At i)) = (i <? len h).
Proof. exact hash_index_at. Qed.
Print Assumptions C48_index_byte.
Example C48_case : let h := [x0a; x0b; x0c] in let c := target 32 true in
  hash_index c h (Range 1 3) = Ok [x0b; x0c] /\ hash_index c h (Range 2 1) = Panic PIndex /\
  hash_index c h (RangeFrom 3) = Ok [] /\ hash_index c h (RangeFrom 4) = Panic PIndex /\
  hash_index c h (At 3) = Panic PIndex /\ hash_index c h (RangeToInclusive 1) = Ok [x0a; x0b].
Proof. repeat split; vm_compute; reflexivity. Qed.
