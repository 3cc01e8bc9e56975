(** Generated by tools/rs2v_text.py from the Rust source; do not edit. *)
From Verif Require Import Base ModelEngine ModelTypes ModelFmt ModelValues GenBase GenLib GenSha256 GenSha256t GenTypes TextBase.

(** Display::fmt, src/lib.rs:221-223 *)
Definition g_lib_FromSliceError_Display_fmt (v_self : from_slice_error) (v_f : formatter) : res bytes :=
  then_text (Ok [x69; x6e; x76; x61; x6c; x69; x64; x20; x73; x6c; x69; x63; x65; x20; x6c; x65; x6e; x67; x74; x68; x20]) (then_text (Ok (fmt_usize (got v_self))) (then_text (Ok [x20; x28; x65; x78; x70; x65; x63; x74; x65; x64; x20]) (then_text (Ok (fmt_usize (expected v_self))) (Ok [x29])))).

(** Visitor::expecting, src/serde_macros.rs:24-26 *)
Definition g_serde_macros_HexVisitor_expecting : res bytes :=
  Ok [x61; x6e; x20; x41; x53; x43; x49; x49; x20; x68; x65; x78; x20; x73; x74; x72; x69; x6e; x67].

(** Visitor::visit_str, src/serde_macros.rs:39-44 *)
Definition g_serde_macros_HexVisitor_visit_str (v_ValueT : serde_hash) (v_v : bytes) : res (result bytes serde_error) :=
  map_err (sh_from_str v_ValueT v_v) ECustom.

(** Visitor::visit_bytes, src/serde_macros.rs:28-37 *)
Definition g_serde_macros_HexVisitor_visit_bytes (v_ValueT : serde_hash) (v_v : bytes) : res (result bytes serde_error) :=
  match str_from_utf8 v_v with ROk v_hex => map_err (sh_from_str v_ValueT v_hex) ECustom | RErr _ => let* t := g_serde_macros_HexVisitor_expecting in Ok (RErr (EInvalidValue (UBytes v_v) t)) end.

(** impl de::Visitor for HexVisitor, src/serde_macros.rs *)
Definition g_serde_macros_HexVisitor (v_ValueT : serde_hash) : visitor :=
  mk_visitor g_serde_macros_HexVisitor_expecting (Some (g_serde_macros_HexVisitor_visit_str v_ValueT)) (Some (g_serde_macros_HexVisitor_visit_bytes v_ValueT)).

(** Visitor::expecting, src/serde_macros.rs:56-58 *)
Definition g_serde_macros_BytesVisitor_expecting : res bytes :=
  Ok [x61; x20; x62; x79; x74; x65; x73; x74; x72; x69; x6e; x67].

(** Visitor::visit_bytes, src/serde_macros.rs:60-68 *)
Definition g_serde_macros_BytesVisitor_visit_bytes (v_ValueT : serde_hash) (v_v : bytes) : res (result bytes serde_error) :=
  map_err (sh_from_slice_delegated v_ValueT v_v) (fun _ => EInvalidLength (len v_v) [x4e]).

(** impl de::Visitor for BytesVisitor, src/serde_macros.rs *)
Definition g_serde_macros_BytesVisitor (v_ValueT : serde_hash) : visitor :=
  mk_visitor g_serde_macros_BytesVisitor_expecting None (Some (g_serde_macros_BytesVisitor_visit_bytes v_ValueT)).

(** serialize, src/serde_macros.rs:88-94 *)
Definition g_serde_macros_SerdeHash_serialize (v_Self : serde_hash) (v_self : bytes) (v_s : bool) : res serialized :=
  if v_s then collect_str (sh_fmt v_Self v_self (plain false)) else serialize_bytes (sh_index v_Self v_self RangeFull).

(** deserialize, src/serde_macros.rs:97-103 *)
Definition g_serde_macros_SerdeHash_deserialize (v_Self : serde_hash) (v_d : deserializer) : res (result bytes serde_error) :=
  if d_human v_d then ask v_d AskStr (g_serde_macros_HexVisitor v_Self) else ask v_d AskBytes (g_serde_macros_BytesVisitor v_Self).

(** LowerHex::fmt, src/internal_macros.rs:54-56 *)
Definition g_sha1_Hash_LowerHex_fmt (v_self : bytes) (v_f : formatter) : res bytes :=
  fmt_exact v_f 20 v_self Lower.

(** UpperHex::fmt, src/internal_macros.rs:61-63 *)
Definition g_sha1_Hash_UpperHex_fmt (v_self : bytes) (v_f : formatter) : res bytes :=
  fmt_exact v_f 20 v_self Upper.

(** Display::fmt, src/internal_macros.rs:68-70 *)
Definition g_sha1_Hash_Display_fmt (v_self : bytes) (v_f : formatter) : res bytes :=
  g_sha1_Hash_LowerHex_fmt v_self v_f.

(** Debug::fmt, src/internal_macros.rs:75-77 *)
Definition g_sha1_Hash_Debug_fmt (v_self : bytes) (v_f : formatter) : res bytes :=
  g_sha1_Hash_Display_fmt v_self (plain true).

(** SerdeHash::from_slice_delegated, src/serde_macros.rs:115-117 *)
Definition g_sha1_Hash_SerdeHash_from_slice_delegated (v_sl : bytes) : res (result bytes from_slice_error) :=
  g_sha1_Hash_from_slice v_sl.

(** impl SerdeHash for sha1::Hash, with its supertraits *)
Definition g_sha1_Hash_SerdeHash (cfg : config) : serde_hash :=
  mk_serde_hash 20 (g_sha1_Hash_SerdeHash_from_slice_delegated) (fun s => Ok (g_sha1_Hash_from_str s))
    (g_sha1_Hash_Display_fmt) (fun h i => g_sha1_Hash_index cfg h i).

(** Serialize::serialize, src/serde_macros.rs:121-123 *)
Definition g_sha1_Hash_Serialize_serialize (cfg : config) (v_self : bytes) (v_s : bool) : res serialized :=
  g_serde_macros_SerdeHash_serialize (g_sha1_Hash_SerdeHash cfg) v_self v_s.

(** Deserialize::deserialize, src/serde_macros.rs:127-129 *)
Definition g_sha1_Hash_Deserialize_deserialize (cfg : config) (v_d : deserializer) : res (result bytes serde_error) :=
  g_serde_macros_SerdeHash_deserialize (g_sha1_Hash_SerdeHash cfg) v_d.

(** JsonSchema::schema_name, src/internal_macros.rs:228-228 *)
Definition g_sha1_Hash_schema_name : bytes :=
  [x48; x61; x73; x68].

(** JsonSchema::json_schema, src/internal_macros.rs:230-239 *)
Definition g_sha1_Hash_json_schema (cfg : config) : res schema :=
  let v_len := 20 in
  let v_schema := string_schema in
  let* t0 := checked_mul cfg 32 v_len 2 in
  let* t1 := checked_mul cfg 32 v_len 2 in
  let v_schema := mk_schema (Some (mk_validation (Some t0) (Some t1) (Some [x5b; x30; x2d; x39; x61; x2d; x66; x41; x2d; x46; x5d; x2b]))) in
  Ok v_schema.

(** LowerHex::fmt, src/internal_macros.rs:54-56 *)
Definition g_sha256_Hash_LowerHex_fmt (v_self : bytes) (v_f : formatter) : res bytes :=
  fmt_exact v_f 32 v_self Lower.

(** UpperHex::fmt, src/internal_macros.rs:61-63 *)
Definition g_sha256_Hash_UpperHex_fmt (v_self : bytes) (v_f : formatter) : res bytes :=
  fmt_exact v_f 32 v_self Upper.

(** Display::fmt, src/internal_macros.rs:68-70 *)
Definition g_sha256_Hash_Display_fmt (v_self : bytes) (v_f : formatter) : res bytes :=
  g_sha256_Hash_LowerHex_fmt v_self v_f.

(** Debug::fmt, src/internal_macros.rs:75-77 *)
Definition g_sha256_Hash_Debug_fmt (v_self : bytes) (v_f : formatter) : res bytes :=
  g_sha256_Hash_Display_fmt v_self (plain true).

(** SerdeHash::from_slice_delegated, src/serde_macros.rs:115-117 *)
Definition g_sha256_Hash_SerdeHash_from_slice_delegated (v_sl : bytes) : res (result bytes from_slice_error) :=
  g_sha256_Hash_from_slice v_sl.

(** impl SerdeHash for sha256::Hash, with its supertraits *)
Definition g_sha256_Hash_SerdeHash (cfg : config) : serde_hash :=
  mk_serde_hash 32 (g_sha256_Hash_SerdeHash_from_slice_delegated) (fun s => Ok (g_sha256_Hash_from_str s))
    (g_sha256_Hash_Display_fmt) (fun h i => g_sha256_Hash_index cfg h i).

(** Serialize::serialize, src/serde_macros.rs:121-123 *)
Definition g_sha256_Hash_Serialize_serialize (cfg : config) (v_self : bytes) (v_s : bool) : res serialized :=
  g_serde_macros_SerdeHash_serialize (g_sha256_Hash_SerdeHash cfg) v_self v_s.

(** Deserialize::deserialize, src/serde_macros.rs:127-129 *)
Definition g_sha256_Hash_Deserialize_deserialize (cfg : config) (v_d : deserializer) : res (result bytes serde_error) :=
  g_serde_macros_SerdeHash_deserialize (g_sha256_Hash_SerdeHash cfg) v_d.

(** JsonSchema::schema_name, src/internal_macros.rs:228-228 *)
Definition g_sha256_Hash_schema_name : bytes :=
  [x48; x61; x73; x68].

(** JsonSchema::json_schema, src/internal_macros.rs:230-239 *)
Definition g_sha256_Hash_json_schema (cfg : config) : res schema :=
  let v_len := 32 in
  let v_schema := string_schema in
  let* t0 := checked_mul cfg 32 v_len 2 in
  let* t1 := checked_mul cfg 32 v_len 2 in
  let v_schema := mk_schema (Some (mk_validation (Some t0) (Some t1) (Some [x5b; x30; x2d; x39; x61; x2d; x66; x41; x2d; x46; x5d; x2b]))) in
  Ok v_schema.

(** LowerHex::fmt, src/internal_macros.rs:54-56 *)
Definition g_sha384_Hash_LowerHex_fmt (v_self : bytes) (v_f : formatter) : res bytes :=
  fmt_exact v_f 48 v_self Lower.

(** UpperHex::fmt, src/internal_macros.rs:61-63 *)
Definition g_sha384_Hash_UpperHex_fmt (v_self : bytes) (v_f : formatter) : res bytes :=
  fmt_exact v_f 48 v_self Upper.

(** Display::fmt, src/internal_macros.rs:68-70 *)
Definition g_sha384_Hash_Display_fmt (v_self : bytes) (v_f : formatter) : res bytes :=
  g_sha384_Hash_LowerHex_fmt v_self v_f.

(** Debug::fmt, src/internal_macros.rs:75-77 *)
Definition g_sha384_Hash_Debug_fmt (v_self : bytes) (v_f : formatter) : res bytes :=
  g_sha384_Hash_Display_fmt v_self (plain true).

(** SerdeHash::from_slice_delegated, src/serde_macros.rs:115-117 *)
Definition g_sha384_Hash_SerdeHash_from_slice_delegated (v_sl : bytes) : res (result bytes from_slice_error) :=
  g_sha384_Hash_from_slice v_sl.

(** impl SerdeHash for sha384::Hash, with its supertraits *)
Definition g_sha384_Hash_SerdeHash (cfg : config) : serde_hash :=
  mk_serde_hash 48 (g_sha384_Hash_SerdeHash_from_slice_delegated) (fun s => Ok (g_sha384_Hash_from_str s))
    (g_sha384_Hash_Display_fmt) (fun h i => g_sha384_Hash_index cfg h i).

(** Serialize::serialize, src/serde_macros.rs:121-123 *)
Definition g_sha384_Hash_Serialize_serialize (cfg : config) (v_self : bytes) (v_s : bool) : res serialized :=
  g_serde_macros_SerdeHash_serialize (g_sha384_Hash_SerdeHash cfg) v_self v_s.

(** Deserialize::deserialize, src/serde_macros.rs:127-129 *)
Definition g_sha384_Hash_Deserialize_deserialize (cfg : config) (v_d : deserializer) : res (result bytes serde_error) :=
  g_serde_macros_SerdeHash_deserialize (g_sha384_Hash_SerdeHash cfg) v_d.

(** JsonSchema::schema_name, src/internal_macros.rs:228-228 *)
Definition g_sha384_Hash_schema_name : bytes :=
  [x48; x61; x73; x68].

(** JsonSchema::json_schema, src/internal_macros.rs:230-239 *)
Definition g_sha384_Hash_json_schema (cfg : config) : res schema :=
  let v_len := 48 in
  let v_schema := string_schema in
  let* t0 := checked_mul cfg 32 v_len 2 in
  let* t1 := checked_mul cfg 32 v_len 2 in
  let v_schema := mk_schema (Some (mk_validation (Some t0) (Some t1) (Some [x5b; x30; x2d; x39; x61; x2d; x66; x41; x2d; x46; x5d; x2b]))) in
  Ok v_schema.

(** LowerHex::fmt, src/internal_macros.rs:54-56 *)
Definition g_sha512_Hash_LowerHex_fmt (v_self : bytes) (v_f : formatter) : res bytes :=
  fmt_exact v_f 64 v_self Lower.

(** UpperHex::fmt, src/internal_macros.rs:61-63 *)
Definition g_sha512_Hash_UpperHex_fmt (v_self : bytes) (v_f : formatter) : res bytes :=
  fmt_exact v_f 64 v_self Upper.

(** Display::fmt, src/internal_macros.rs:68-70 *)
Definition g_sha512_Hash_Display_fmt (v_self : bytes) (v_f : formatter) : res bytes :=
  g_sha512_Hash_LowerHex_fmt v_self v_f.

(** Debug::fmt, src/internal_macros.rs:75-77 *)
Definition g_sha512_Hash_Debug_fmt (v_self : bytes) (v_f : formatter) : res bytes :=
  g_sha512_Hash_Display_fmt v_self (plain true).

(** SerdeHash::from_slice_delegated, src/serde_macros.rs:115-117 *)
Definition g_sha512_Hash_SerdeHash_from_slice_delegated (v_sl : bytes) : res (result bytes from_slice_error) :=
  g_sha512_Hash_from_slice v_sl.

(** impl SerdeHash for sha512::Hash, with its supertraits *)
Definition g_sha512_Hash_SerdeHash (cfg : config) : serde_hash :=
  mk_serde_hash 64 (g_sha512_Hash_SerdeHash_from_slice_delegated) (fun s => Ok (g_sha512_Hash_from_str s))
    (g_sha512_Hash_Display_fmt) (fun h i => g_sha512_Hash_index cfg h i).

(** Serialize::serialize, src/serde_macros.rs:121-123 *)
Definition g_sha512_Hash_Serialize_serialize (cfg : config) (v_self : bytes) (v_s : bool) : res serialized :=
  g_serde_macros_SerdeHash_serialize (g_sha512_Hash_SerdeHash cfg) v_self v_s.

(** Deserialize::deserialize, src/serde_macros.rs:127-129 *)
Definition g_sha512_Hash_Deserialize_deserialize (cfg : config) (v_d : deserializer) : res (result bytes serde_error) :=
  g_serde_macros_SerdeHash_deserialize (g_sha512_Hash_SerdeHash cfg) v_d.

(** JsonSchema::schema_name, src/internal_macros.rs:228-228 *)
Definition g_sha512_Hash_schema_name : bytes :=
  [x48; x61; x73; x68].

(** JsonSchema::json_schema, src/internal_macros.rs:230-239 *)
Definition g_sha512_Hash_json_schema (cfg : config) : res schema :=
  let v_len := 64 in
  let v_schema := string_schema in
  let* t0 := checked_mul cfg 32 v_len 2 in
  let* t1 := checked_mul cfg 32 v_len 2 in
  let v_schema := mk_schema (Some (mk_validation (Some t0) (Some t1) (Some [x5b; x30; x2d; x39; x61; x2d; x66; x41; x2d; x46; x5d; x2b]))) in
  Ok v_schema.

(** LowerHex::fmt, src/internal_macros.rs:54-56 *)
Definition g_sha512_256_Hash_LowerHex_fmt (v_self : bytes) (v_f : formatter) : res bytes :=
  fmt_exact v_f 32 v_self Lower.

(** UpperHex::fmt, src/internal_macros.rs:61-63 *)
Definition g_sha512_256_Hash_UpperHex_fmt (v_self : bytes) (v_f : formatter) : res bytes :=
  fmt_exact v_f 32 v_self Upper.

(** Display::fmt, src/internal_macros.rs:68-70 *)
Definition g_sha512_256_Hash_Display_fmt (v_self : bytes) (v_f : formatter) : res bytes :=
  g_sha512_256_Hash_LowerHex_fmt v_self v_f.

(** Debug::fmt, src/internal_macros.rs:75-77 *)
Definition g_sha512_256_Hash_Debug_fmt (v_self : bytes) (v_f : formatter) : res bytes :=
  g_sha512_256_Hash_Display_fmt v_self (plain true).

(** SerdeHash::from_slice_delegated, src/serde_macros.rs:115-117 *)
Definition g_sha512_256_Hash_SerdeHash_from_slice_delegated (v_sl : bytes) : res (result bytes from_slice_error) :=
  g_sha512_256_Hash_from_slice v_sl.

(** impl SerdeHash for sha512_256::Hash, with its supertraits *)
Definition g_sha512_256_Hash_SerdeHash (cfg : config) : serde_hash :=
  mk_serde_hash 32 (g_sha512_256_Hash_SerdeHash_from_slice_delegated) (fun s => Ok (g_sha512_256_Hash_from_str s))
    (g_sha512_256_Hash_Display_fmt) (fun h i => g_sha512_256_Hash_index cfg h i).

(** Serialize::serialize, src/serde_macros.rs:121-123 *)
Definition g_sha512_256_Hash_Serialize_serialize (cfg : config) (v_self : bytes) (v_s : bool) : res serialized :=
  g_serde_macros_SerdeHash_serialize (g_sha512_256_Hash_SerdeHash cfg) v_self v_s.

(** Deserialize::deserialize, src/serde_macros.rs:127-129 *)
Definition g_sha512_256_Hash_Deserialize_deserialize (cfg : config) (v_d : deserializer) : res (result bytes serde_error) :=
  g_serde_macros_SerdeHash_deserialize (g_sha512_256_Hash_SerdeHash cfg) v_d.

(** JsonSchema::schema_name, src/internal_macros.rs:228-228 *)
Definition g_sha512_256_Hash_schema_name : bytes :=
  [x48; x61; x73; x68].

(** JsonSchema::json_schema, src/internal_macros.rs:230-239 *)
Definition g_sha512_256_Hash_json_schema (cfg : config) : res schema :=
  let v_len := 32 in
  let v_schema := string_schema in
  let* t0 := checked_mul cfg 32 v_len 2 in
  let* t1 := checked_mul cfg 32 v_len 2 in
  let v_schema := mk_schema (Some (mk_validation (Some t0) (Some t1) (Some [x5b; x30; x2d; x39; x61; x2d; x66; x41; x2d; x46; x5d; x2b]))) in
  Ok v_schema.

(** LowerHex::fmt, src/internal_macros.rs:54-56 *)
Definition g_ripemd160_Hash_LowerHex_fmt (v_self : bytes) (v_f : formatter) : res bytes :=
  fmt_exact v_f 20 v_self Lower.

(** UpperHex::fmt, src/internal_macros.rs:61-63 *)
Definition g_ripemd160_Hash_UpperHex_fmt (v_self : bytes) (v_f : formatter) : res bytes :=
  fmt_exact v_f 20 v_self Upper.

(** Display::fmt, src/internal_macros.rs:68-70 *)
Definition g_ripemd160_Hash_Display_fmt (v_self : bytes) (v_f : formatter) : res bytes :=
  g_ripemd160_Hash_LowerHex_fmt v_self v_f.

(** Debug::fmt, src/internal_macros.rs:75-77 *)
Definition g_ripemd160_Hash_Debug_fmt (v_self : bytes) (v_f : formatter) : res bytes :=
  g_ripemd160_Hash_Display_fmt v_self (plain true).

(** SerdeHash::from_slice_delegated, src/serde_macros.rs:115-117 *)
Definition g_ripemd160_Hash_SerdeHash_from_slice_delegated (v_sl : bytes) : res (result bytes from_slice_error) :=
  g_ripemd160_Hash_from_slice v_sl.

(** impl SerdeHash for ripemd160::Hash, with its supertraits *)
Definition g_ripemd160_Hash_SerdeHash (cfg : config) : serde_hash :=
  mk_serde_hash 20 (g_ripemd160_Hash_SerdeHash_from_slice_delegated) (fun s => Ok (g_ripemd160_Hash_from_str s))
    (g_ripemd160_Hash_Display_fmt) (fun h i => g_ripemd160_Hash_index cfg h i).

(** Serialize::serialize, src/serde_macros.rs:121-123 *)
Definition g_ripemd160_Hash_Serialize_serialize (cfg : config) (v_self : bytes) (v_s : bool) : res serialized :=
  g_serde_macros_SerdeHash_serialize (g_ripemd160_Hash_SerdeHash cfg) v_self v_s.

(** Deserialize::deserialize, src/serde_macros.rs:127-129 *)
Definition g_ripemd160_Hash_Deserialize_deserialize (cfg : config) (v_d : deserializer) : res (result bytes serde_error) :=
  g_serde_macros_SerdeHash_deserialize (g_ripemd160_Hash_SerdeHash cfg) v_d.

(** JsonSchema::schema_name, src/internal_macros.rs:228-228 *)
Definition g_ripemd160_Hash_schema_name : bytes :=
  [x48; x61; x73; x68].

(** JsonSchema::json_schema, src/internal_macros.rs:230-239 *)
Definition g_ripemd160_Hash_json_schema (cfg : config) : res schema :=
  let v_len := 20 in
  let v_schema := string_schema in
  let* t0 := checked_mul cfg 32 v_len 2 in
  let* t1 := checked_mul cfg 32 v_len 2 in
  let v_schema := mk_schema (Some (mk_validation (Some t0) (Some t1) (Some [x5b; x30; x2d; x39; x61; x2d; x66; x41; x2d; x46; x5d; x2b]))) in
  Ok v_schema.

(** LowerHex::fmt, src/internal_macros.rs:54-56 *)
Definition g_siphash24_Hash_LowerHex_fmt (v_self : bytes) (v_f : formatter) : res bytes :=
  fmt_exact v_f 8 v_self Lower.

(** UpperHex::fmt, src/internal_macros.rs:61-63 *)
Definition g_siphash24_Hash_UpperHex_fmt (v_self : bytes) (v_f : formatter) : res bytes :=
  fmt_exact v_f 8 v_self Upper.

(** Display::fmt, src/internal_macros.rs:68-70 *)
Definition g_siphash24_Hash_Display_fmt (v_self : bytes) (v_f : formatter) : res bytes :=
  g_siphash24_Hash_LowerHex_fmt v_self v_f.

(** Debug::fmt, src/internal_macros.rs:75-77 *)
Definition g_siphash24_Hash_Debug_fmt (v_self : bytes) (v_f : formatter) : res bytes :=
  g_siphash24_Hash_Display_fmt v_self (plain true).

(** SerdeHash::from_slice_delegated, src/serde_macros.rs:115-117 *)
Definition g_siphash24_Hash_SerdeHash_from_slice_delegated (v_sl : bytes) : res (result bytes from_slice_error) :=
  g_siphash24_Hash_from_slice v_sl.

(** impl SerdeHash for siphash24::Hash, with its supertraits *)
Definition g_siphash24_Hash_SerdeHash (cfg : config) : serde_hash :=
  mk_serde_hash 8 (g_siphash24_Hash_SerdeHash_from_slice_delegated) (fun s => Ok (g_siphash24_Hash_from_str s))
    (g_siphash24_Hash_Display_fmt) (fun h i => g_siphash24_Hash_index cfg h i).

(** Serialize::serialize, src/serde_macros.rs:121-123 *)
Definition g_siphash24_Hash_Serialize_serialize (cfg : config) (v_self : bytes) (v_s : bool) : res serialized :=
  g_serde_macros_SerdeHash_serialize (g_siphash24_Hash_SerdeHash cfg) v_self v_s.

(** Deserialize::deserialize, src/serde_macros.rs:127-129 *)
Definition g_siphash24_Hash_Deserialize_deserialize (cfg : config) (v_d : deserializer) : res (result bytes serde_error) :=
  g_serde_macros_SerdeHash_deserialize (g_siphash24_Hash_SerdeHash cfg) v_d.

(** JsonSchema::schema_name, src/internal_macros.rs:228-228 *)
Definition g_siphash24_Hash_schema_name : bytes :=
  [x48; x61; x73; x68].

(** JsonSchema::json_schema, src/internal_macros.rs:230-239 *)
Definition g_siphash24_Hash_json_schema (cfg : config) : res schema :=
  let v_len := 8 in
  let v_schema := string_schema in
  let* t0 := checked_mul cfg 32 v_len 2 in
  let* t1 := checked_mul cfg 32 v_len 2 in
  let v_schema := mk_schema (Some (mk_validation (Some t0) (Some t1) (Some [x5b; x30; x2d; x39; x61; x2d; x66; x41; x2d; x46; x5d; x2b]))) in
  Ok v_schema.

(** LowerHex::fmt, src/internal_macros.rs:54-56 *)
Definition g_sha256_Midstate_LowerHex_fmt (v_self : bytes) (v_f : formatter) : res bytes :=
  fmt_exact v_f 32 v_self Lower.

(** UpperHex::fmt, src/internal_macros.rs:61-63 *)
Definition g_sha256_Midstate_UpperHex_fmt (v_self : bytes) (v_f : formatter) : res bytes :=
  fmt_exact v_f 32 v_self Upper.

(** Display::fmt, src/internal_macros.rs:68-70 *)
Definition g_sha256_Midstate_Display_fmt (v_self : bytes) (v_f : formatter) : res bytes :=
  g_sha256_Midstate_LowerHex_fmt v_self v_f.

(** Debug::fmt, src/internal_macros.rs:75-77 *)
Definition g_sha256_Midstate_Debug_fmt (v_self : bytes) (v_f : formatter) : res bytes :=
  g_sha256_Midstate_Display_fmt v_self (plain true).

(** SerdeHash::from_slice_delegated, src/serde_macros.rs:115-117 *)
Definition g_sha256_Midstate_SerdeHash_from_slice_delegated (v_sl : bytes) : res (result bytes from_slice_error) :=
  g_sha256_Midstate_from_slice v_sl.

(** impl SerdeHash for sha256::Midstate, with its supertraits *)
Definition g_sha256_Midstate_SerdeHash (cfg : config) : serde_hash :=
  mk_serde_hash 32 (g_sha256_Midstate_SerdeHash_from_slice_delegated) (fun s => Ok (g_sha256_Midstate_from_str s))
    (g_sha256_Midstate_Display_fmt) (fun h i => g_sha256_Midstate_index cfg h i).

(** Serialize::serialize, src/serde_macros.rs:121-123 *)
Definition g_sha256_Midstate_Serialize_serialize (cfg : config) (v_self : bytes) (v_s : bool) : res serialized :=
  g_serde_macros_SerdeHash_serialize (g_sha256_Midstate_SerdeHash cfg) v_self v_s.

(** Deserialize::deserialize, src/serde_macros.rs:127-129 *)
Definition g_sha256_Midstate_Deserialize_deserialize (cfg : config) (v_d : deserializer) : res (result bytes serde_error) :=
  g_serde_macros_SerdeHash_deserialize (g_sha256_Midstate_SerdeHash cfg) v_d.

(** LowerHex::fmt, src/internal_macros.rs:54-56 *)
Definition g_sha256t_Hash_LowerHex_fmt (v_T : res engine) (v_self : bytes) (v_f : formatter) : res bytes :=
  fmt_exact v_f 32 v_self Lower.

(** UpperHex::fmt, src/internal_macros.rs:61-63 *)
Definition g_sha256t_Hash_UpperHex_fmt (v_T : res engine) (v_self : bytes) (v_f : formatter) : res bytes :=
  fmt_exact v_f 32 v_self Upper.

(** Display::fmt, src/internal_macros.rs:68-70 *)
Definition g_sha256t_Hash_Display_fmt (v_T : res engine) (v_self : bytes) (v_f : formatter) : res bytes :=
  g_sha256t_Hash_LowerHex_fmt v_T v_self v_f.

(** Debug::fmt, src/internal_macros.rs:75-77 *)
Definition g_sha256t_Hash_Debug_fmt (v_T : res engine) (v_self : bytes) (v_f : formatter) : res bytes :=
  g_sha256t_Hash_Display_fmt v_T v_self (plain true).

(** SerdeHash::from_slice_delegated, src/serde_macros.rs:115-117 *)
Definition g_sha256t_Hash_SerdeHash_from_slice_delegated (v_T : res engine) (v_sl : bytes) : res (result bytes from_slice_error) :=
  g_sha256t_Hash_from_slice v_T v_sl.

(** impl SerdeHash for sha256t::Hash, with its supertraits *)
Definition g_sha256t_Hash_SerdeHash (cfg : config) (v_T : res engine) : serde_hash :=
  mk_serde_hash 32 (g_sha256t_Hash_SerdeHash_from_slice_delegated v_T) (fun s => Ok (g_sha256t_Hash_from_str v_T s))
    (g_sha256t_Hash_Display_fmt v_T) (fun h i => g_sha256t_Hash_index cfg v_T h i).

(** Serialize::serialize, src/serde_macros.rs:121-123 *)
Definition g_sha256t_Hash_Serialize_serialize (cfg : config) (v_T : res engine) (v_self : bytes) (v_s : bool) : res serialized :=
  g_serde_macros_SerdeHash_serialize (g_sha256t_Hash_SerdeHash cfg v_T) v_self v_s.

(** Deserialize::deserialize, src/serde_macros.rs:127-129 *)
Definition g_sha256t_Hash_Deserialize_deserialize (cfg : config) (v_T : res engine) (v_d : deserializer) : res (result bytes serde_error) :=
  g_serde_macros_SerdeHash_deserialize (g_sha256t_Hash_SerdeHash cfg v_T) v_d.

(** JsonSchema::schema_name, src/sha256t.rs:133-133 *)
Definition g_sha256t_Hash_schema_name : bytes :=
  [x48; x61; x73; x68].

(** JsonSchema::json_schema, src/sha256t.rs:135-143 *)
Definition g_sha256t_Hash_json_schema (cfg : config) (v_T : res engine) : res schema :=
  let v_schema := string_schema in
  let v_schema := mk_schema (Some (mk_validation (Some 64) (Some 64) (Some [x5b; x30; x2d; x39; x61; x2d; x66; x41; x2d; x46; x5d; x2b]))) in
  Ok v_schema.

(** Hash::hash, src/sha256t.rs:166-166 *)
Definition g_sha256t_Hash_core_hash (v_T : res engine) (v_self : bytes) : list hasher_call :=
  array_hash v_self.

(** LowerHex::fmt, src/hmac.rs:124-127 *)
Definition g_hmac_Hash_LowerHex_fmt (v_N : N) (v_self : bytes) (v_f : formatter) : res bytes :=
  fmt_as_hex v_f v_self Lower.

(** UpperHex::fmt, src/hmac.rs:131-134 *)
Definition g_hmac_Hash_UpperHex_fmt (v_N : N) (v_self : bytes) (v_f : formatter) : res bytes :=
  fmt_as_hex v_f v_self Upper.

(** Display::fmt, src/hmac.rs:116-116 *)
Definition g_hmac_Hash_Display_fmt (v_N : N) (v_self : bytes) (v_f : formatter) : res bytes :=
  g_hmac_Hash_LowerHex_fmt v_N v_self v_f.

(** Debug::fmt, src/hmac.rs:120-120 *)
Definition g_hmac_Hash_Debug_fmt (v_N : N) (v_self : bytes) (v_f : formatter) : res bytes :=
  g_hmac_Hash_Display_fmt v_N v_self (plain true).

(** SerdeHash::from_slice_delegated, src/hmac.rs:168-168 *)
Definition g_hmac_Hash_SerdeHash_from_slice_delegated (v_N : N) (v_sl : bytes) : res (result bytes from_slice_error) :=
  g_hmac_Hash_from_slice v_N v_sl.

(** impl SerdeHash for hmac::Hash, with its supertraits *)
Definition g_hmac_Hash_SerdeHash (cfg : config) (v_N : N) : serde_hash :=
  mk_serde_hash v_N (g_hmac_Hash_SerdeHash_from_slice_delegated v_N) (fun s => Ok (g_hmac_Hash_from_str v_N s))
    (g_hmac_Hash_Display_fmt v_N) (fun h i => match i with RangeFull => Ok (g_hmac_Hash_index_RangeFull v_N h tt) | _ => Panic PUnreachable end).

(** Serialize::serialize, src/hmac.rs:173-175 *)
Definition g_hmac_Hash_Serialize_serialize (cfg : config) (v_N : N) (v_self : bytes) (v_s : bool) : res serialized :=
  g_serde_macros_SerdeHash_serialize (g_hmac_Hash_SerdeHash cfg v_N) v_self v_s.

(** Deserialize::deserialize, src/hmac.rs:180-182 *)
Definition g_hmac_Hash_Deserialize_deserialize (cfg : config) (v_N : N) (v_d : deserializer) : res (result bytes serde_error) :=
  g_serde_macros_SerdeHash_deserialize (g_hmac_Hash_SerdeHash cfg v_N) v_d.

(** JsonSchema::schema_name, src/hmac.rs:92-92 *)
Definition g_hmac_Hash_schema_name : bytes :=
  [x48; x61; x73; x68].

(** JsonSchema::json_schema, src/hmac.rs:94-102 *)
Definition g_hmac_Hash_json_schema (cfg : config) (v_N : N) : res schema :=
  let v_schema := string_schema in
  let* t0 := checked_mul cfg 32 (v_N mod 2 ^ 32) 2 in
  let* t1 := checked_mul cfg 32 (v_N mod 2 ^ 32) 2 in
  let v_schema := mk_schema (Some (mk_validation (Some t0) (Some t1) (Some [x5b; x30; x2d; x39; x61; x2d; x66; x41; x2d; x46; x5d; x2b]))) in
  Ok v_schema.
