(** Generated by tools/rs2v_api.py from the Rust source; do not edit. *)
From Coq Require Import Strings.String.
From Verif Require Import Base BuildBase ApiBase.
Open Scope list_scope. Open Scope string_scope.

(** Fields: struct, name, visibility *)
Definition g_fields_table : list field_decl :=
  [mk_field "hmac::Hash"%string "0"%string Private (* src/hmac.rs:19 *);
   mk_field "hmac::MidState"%string "inner"%string Public (* src/hmac.rs:186 *);
   mk_field "hmac::MidState"%string "outer"%string Public (* src/hmac.rs:186 *);
   mk_field "hmac::Engine"%string "iengine"%string Private (* src/hmac.rs:195 *);
   mk_field "hmac::Engine"%string "oengine"%string Private (* src/hmac.rs:195 *);
   mk_field "hmac::Midstate"%string "inner"%string Public (* src/hmac.rs:277 *);
   mk_field "hmac::Midstate"%string "outer"%string Public (* src/hmac.rs:277 *);
   mk_field "lib::FromSliceError"%string "expected"%string Public (* src/lib.rs:202 *);
   mk_field "lib::FromSliceError"%string "got"%string Public (* src/lib.rs:202 *);
   mk_field "ripemd160::Hash"%string "0"%string Private (* src/internal_macros.rs:146 *);
   mk_field "ripemd160::Engine"%string "buffer"%string Private (* src/ripemd160.rs:18 *);
   mk_field "ripemd160::Engine"%string "h"%string Private (* src/ripemd160.rs:18 *);
   mk_field "ripemd160::Engine"%string "length"%string Private (* src/ripemd160.rs:18 *);
   mk_field "serde_macros::HexVisitor"%string "0"%string Private (* src/serde_macros.rs:14 *);
   mk_field "serde_macros::BytesVisitor"%string "0"%string Private (* src/serde_macros.rs:47 *);
   mk_field "sha1::Hash"%string "0"%string Private (* src/internal_macros.rs:146 *);
   mk_field "sha1::Engine"%string "buffer"%string Private (* src/sha1.rs:18 *);
   mk_field "sha1::Engine"%string "h"%string Private (* src/sha1.rs:18 *);
   mk_field "sha1::Engine"%string "length"%string Private (* src/sha1.rs:18 *);
   mk_field "sha256::Hash"%string "0"%string Private (* src/internal_macros.rs:146 *);
   mk_field "sha256::Engine"%string "buffer"%string Private (* src/sha256.rs:25 *);
   mk_field "sha256::Engine"%string "h"%string Private (* src/sha256.rs:25 *);
   mk_field "sha256::Engine"%string "length"%string Private (* src/sha256.rs:25 *);
   mk_field "sha256::Midstate"%string "0"%string Public (* src/sha256.rs:125 *);
   mk_field "sha256t::Engine"%string "0"%string Private (* src/sha256t.rs:12 *);
   mk_field "sha256t::Engine"%string "1"%string Private (* src/sha256t.rs:12 *);
   mk_field "sha256t::Hash"%string "0"%string Private (* src/sha256t.rs:53 *);
   mk_field "sha256t::Hash"%string "1"%string Private (* src/sha256t.rs:53 *);
   mk_field "sha384::Hash"%string "0"%string Private (* src/internal_macros.rs:146 *);
   mk_field "sha384::Engine"%string "0"%string Private (* src/sha384.rs:16 *);
   mk_field "sha512::Hash"%string "0"%string Private (* src/internal_macros.rs:146 *);
   mk_field "sha512::Engine"%string "h"%string Private (* src/sha512.rs:18 *);
   mk_field "sha512::Engine"%string "length"%string Private (* src/sha512.rs:18 *);
   mk_field "sha512::Engine"%string "buffer"%string Private (* src/sha512.rs:18 *);
   mk_field "sha512_256::Hash"%string "0"%string Private (* src/internal_macros.rs:146 *);
   mk_field "sha512_256::Engine"%string "0"%string Private (* src/sha512_256.rs:26 *);
   mk_field "siphash24::Hash"%string "0"%string Private (* src/internal_macros.rs:146 *);
   mk_field "siphash24::State"%string "v0"%string Private (* src/siphash24.rs:56 *);
   mk_field "siphash24::State"%string "v2"%string Private (* src/siphash24.rs:56 *);
   mk_field "siphash24::State"%string "v1"%string Private (* src/siphash24.rs:56 *);
   mk_field "siphash24::State"%string "v3"%string Private (* src/siphash24.rs:56 *);
   mk_field "siphash24::Engine"%string "k0"%string Private (* src/siphash24.rs:69 *);
   mk_field "siphash24::Engine"%string "k1"%string Private (* src/siphash24.rs:69 *);
   mk_field "siphash24::Engine"%string "length"%string Private (* src/siphash24.rs:69 *);
   mk_field "siphash24::Engine"%string "state"%string Private (* src/siphash24.rs:69 *);
   mk_field "siphash24::Engine"%string "tail"%string Private (* src/siphash24.rs:69 *);
   mk_field "siphash24::Engine"%string "ntail"%string Private (* src/siphash24.rs:69 *)].

(** Functions: file, type, trait, name, cfg, visibility, types taken, types given *)
Definition g_fn_table : list fn_decl :=
  [mk_fn "cmp"%string ""%string ""%string "fixed_time_eq"%string [] Public [(Shared, "u8"%string); (Shared, "u8"%string)] [(Own, "bool"%string)] (* cmp.rs:17 *);
   mk_fn "cmp"%string ""%string ""%string "eq_test"%string [] Private [] [] (* cmp.rs:56 *);
   mk_fn "hmac"%string "hmac::Hash"%string ""%string "engine"%string [] Public [] [(Own, "E"%string)] (* hmac.rs:23 *);
   mk_fn "hmac"%string "hmac::Hash"%string ""%string "from_engine"%string [] Public [(Own, "E"%string)] [(Own, "hmac::Hash"%string)] (* hmac.rs:33 *);
   mk_fn "hmac"%string "hmac::Hash"%string ""%string "from_bytes_ref"%string [] Public [(Shared, "u8"%string)] [(Shared, "hmac::Hash"%string)] (* hmac.rs:43 *);
   mk_fn "hmac"%string "hmac::Hash"%string ""%string "from_bytes_mut"%string [] Public [(Exclusive, "u8"%string)] [(Exclusive, "hmac::Hash"%string)] (* hmac.rs:50 *);
   mk_fn "hmac"%string "hmac::Hash"%string ""%string "from_slice"%string [] Public [(Shared, "u8"%string)] [(Own, "Result"%string); (Own, "hmac::Hash"%string); (Own, "FromSliceError"%string)] (* hmac.rs:56 *);
   mk_fn "hmac"%string "hmac::Hash"%string ""%string "from_byte_array"%string [] Public [(Own, "u8"%string)] [(Own, "hmac::Hash"%string)] (* hmac.rs:67 *);
   mk_fn "hmac"%string "hmac::Hash"%string ""%string "to_byte_array"%string [] Public [(Own, "hmac::Hash"%string)] [(Own, "u8"%string)] (* hmac.rs:70 *);
   mk_fn "hmac"%string "hmac::Hash"%string ""%string "as_byte_array"%string [] Public [(Shared, "hmac::Hash"%string)] [(Shared, "u8"%string)] (* hmac.rs:73 *);
   mk_fn "hmac"%string "hmac::Hash"%string ""%string "as_bytes"%string [] Public [(Shared, "hmac::Hash"%string)] [(Shared, "u8"%string)] (* hmac.rs:76 *);
   mk_fn "hmac"%string "hmac::Hash"%string ""%string "to_bytes"%string [CFeature "alloc"%string] Public [(Shared, "hmac::Hash"%string)] [(Own, "Vec"%string); (Own, "u8"%string)] (* hmac.rs:80 *);
   mk_fn "hmac"%string "hmac::Hash"%string ""%string "all_zeros"%string [] Public [] [(Own, "hmac::Hash"%string)] (* hmac.rs:87 *);
   mk_fn "hmac"%string "hmac::Hash"%string "JsonSchema"%string "schema_name"%string [CFeature "schemars"%string] Public [] [(Own, "std::string::String"%string)] (* hmac.rs:92 *);
   mk_fn "hmac"%string "hmac::Hash"%string "JsonSchema"%string "json_schema"%string [CFeature "schemars"%string] Public [(Exclusive, "schemars::gen::SchemaGenerator"%string)] [(Own, "schemars::schema::Schema"%string)] (* hmac.rs:94 *);
   mk_fn "hmac"%string "hmac::Hash"%string "FromStr"%string "from_str"%string [] Public [(Shared, "str"%string)] [(Own, "Result"%string); (Own, "hmac::Hash"%string); (Own, "Self::Err"%string)] (* hmac.rs:107 *);
   mk_fn "hmac"%string "hmac::Hash"%string "Display"%string "fmt"%string [] Public [(Shared, "hmac::Hash"%string); (Exclusive, "fmt::Formatter"%string)] [(Own, "fmt::Result"%string)] (* hmac.rs:116 *);
   mk_fn "hmac"%string "hmac::Hash"%string "Debug"%string "fmt"%string [] Public [(Shared, "hmac::Hash"%string); (Exclusive, "fmt::Formatter"%string)] [(Own, "fmt::Result"%string)] (* hmac.rs:120 *);
   mk_fn "hmac"%string "hmac::Hash"%string "LowerHex"%string "fmt"%string [] Public [(Shared, "hmac::Hash"%string); (Exclusive, "fmt::Formatter"%string)] [(Own, "fmt::Result"%string)] (* hmac.rs:124 *);
   mk_fn "hmac"%string "hmac::Hash"%string "UpperHex"%string "fmt"%string [] Public [(Shared, "hmac::Hash"%string); (Exclusive, "fmt::Formatter"%string)] [(Own, "fmt::Result"%string)] (* hmac.rs:131 *);
   mk_fn "hmac"%string "hmac::Hash"%string "Index"%string "index"%string [] Public [(Shared, "hmac::Hash"%string); (Own, "usize"%string)] [(Shared, "u8"%string)] (* hmac.rs:138 *);
   mk_fn "hmac"%string "hmac::Hash"%string "Index"%string "index"%string [] Public [(Shared, "hmac::Hash"%string); (Own, "ops::Range"%string); (Own, "usize"%string)] [(Shared, "u8"%string)] (* hmac.rs:143 *);
   mk_fn "hmac"%string "hmac::Hash"%string "Index"%string "index"%string [] Public [(Shared, "hmac::Hash"%string); (Own, "ops::RangeFrom"%string); (Own, "usize"%string)] [(Shared, "u8"%string)] (* hmac.rs:148 *);
   mk_fn "hmac"%string "hmac::Hash"%string "Index"%string "index"%string [] Public [(Shared, "hmac::Hash"%string); (Own, "ops::RangeTo"%string); (Own, "usize"%string)] [(Shared, "u8"%string)] (* hmac.rs:153 *);
   mk_fn "hmac"%string "hmac::Hash"%string "Index"%string "index"%string [] Public [(Shared, "hmac::Hash"%string); (Own, "ops::RangeFull"%string)] [(Shared, "u8"%string)] (* hmac.rs:158 *);
   mk_fn "hmac"%string "hmac::Hash"%string "AsRef"%string "as_ref"%string [] Public [(Shared, "hmac::Hash"%string)] [(Shared, "u8"%string)] (* hmac.rs:162 *);
   mk_fn "hmac"%string "hmac::Hash"%string "SerdeHash"%string "from_slice_delegated"%string [CFeature "serde"%string] Public [(Shared, "u8"%string)] [(Own, "Result"%string); (Own, "hmac::Hash"%string); (Own, "FromSliceError"%string)] (* hmac.rs:168 *);
   mk_fn "hmac"%string "hmac::Hash"%string "Serialize"%string "serialize"%string [CFeature "serde"%string] Public [(Shared, "hmac::Hash"%string); (Own, "S"%string)] [(Own, "Result"%string); (Own, "S::Ok"%string); (Own, "S::Error"%string)] (* hmac.rs:173 *);
   mk_fn "hmac"%string "hmac::Hash"%string "Deserialize"%string "deserialize"%string [CFeature "serde"%string] Public [(Own, "D"%string)] [(Own, "Result"%string); (Own, "hmac::Hash"%string); (Own, "D::Error"%string)] (* hmac.rs:180 *);
   mk_fn "hmac"%string "hmac::Engine"%string "Default"%string "default"%string [] Public [] [(Own, "hmac::Engine"%string)] (* hmac.rs:201 *);
   mk_fn "hmac"%string "hmac::Engine"%string ""%string "new"%string [] Public [(Shared, "u8"%string)] [(Own, "hmac::Engine"%string); (Own, "E"%string)] (* hmac.rs:212 *);
   mk_fn "hmac"%string "hmac::Engine"%string "HashEngine"%string "input"%string [] Public [(Exclusive, "hmac::Engine"%string); (Shared, "u8"%string)] [] (* hmac.rs:248 *);
   mk_fn "hmac"%string "hmac::Engine"%string "HashEngine"%string "n_bytes_hashed"%string [] Public [(Shared, "hmac::Engine"%string)] [(Own, "usize"%string)] (* hmac.rs:251 *);
   mk_fn "hmac"%string "hmac::Engine"%string "HashEngine"%string "finalize"%string [] Public [(Own, "hmac::Engine"%string)] [(Own, "Self::Digest"%string)] (* hmac.rs:254 *);
   mk_fn "hmac"%string "hmac::Engine"%string "HashEngine"%string "midstate"%string [] Public [(Shared, "hmac::Engine"%string)] [(Own, "Self::Midstate"%string)] (* hmac.rs:261 *);
   mk_fn "hmac"%string "hmac::Engine"%string "HashEngine"%string "from_midstate"%string [] Public [(Own, "hmac::Midstate"%string); (Own, "E"%string); (Own, "usize"%string)] [(Own, "hmac::Engine"%string)] (* hmac.rs:266 *);
   mk_fn "impls"%string "sha1::Engine"%string "bitcoin_io::Write"%string "write"%string [CFeature "bitcoin-io"%string] Public [(Exclusive, "sha1::Engine"%string)] [] (* impls.rs:12 *);
   mk_fn "impls"%string "sha1::Engine"%string "bitcoin_io::Write"%string "flush"%string [CFeature "bitcoin-io"%string] Public [(Exclusive, "sha1::Engine"%string)] [] (* impls.rs:12 *);
   mk_fn "impls"%string "sha256::Engine"%string "bitcoin_io::Write"%string "write"%string [CFeature "bitcoin-io"%string] Public [(Exclusive, "sha256::Engine"%string)] [] (* impls.rs:21 *);
   mk_fn "impls"%string "sha256::Engine"%string "bitcoin_io::Write"%string "flush"%string [CFeature "bitcoin-io"%string] Public [(Exclusive, "sha256::Engine"%string)] [] (* impls.rs:21 *);
   mk_fn "impls"%string "sha512::Engine"%string "bitcoin_io::Write"%string "write"%string [CFeature "bitcoin-io"%string] Public [(Exclusive, "sha512::Engine"%string)] [] (* impls.rs:30 *);
   mk_fn "impls"%string "sha512::Engine"%string "bitcoin_io::Write"%string "flush"%string [CFeature "bitcoin-io"%string] Public [(Exclusive, "sha512::Engine"%string)] [] (* impls.rs:30 *);
   mk_fn "impls"%string "ripemd160::Engine"%string "bitcoin_io::Write"%string "write"%string [CFeature "bitcoin-io"%string] Public [(Exclusive, "ripemd160::Engine"%string)] [] (* impls.rs:39 *);
   mk_fn "impls"%string "ripemd160::Engine"%string "bitcoin_io::Write"%string "flush"%string [CFeature "bitcoin-io"%string] Public [(Exclusive, "ripemd160::Engine"%string)] [] (* impls.rs:39 *);
   mk_fn "impls"%string "siphash24::Engine"%string "bitcoin_io::Write"%string "write"%string [CFeature "bitcoin-io"%string] Public [(Exclusive, "siphash24::Engine"%string)] [] (* impls.rs:48 *);
   mk_fn "impls"%string "siphash24::Engine"%string "bitcoin_io::Write"%string "flush"%string [CFeature "bitcoin-io"%string] Public [(Exclusive, "siphash24::Engine"%string)] [] (* impls.rs:48 *);
   mk_fn "impls"%string "hmac::Engine"%string "bitcoin_io::Write"%string "write"%string [CFeature "bitcoin-io"%string] Public [(Exclusive, "hmac::Engine"%string); (Shared, "u8"%string)] [(Own, "Result"%string); (Own, "usize"%string); (Own, "bitcoin_io::Error"%string)] (* impls.rs:59 *);
   mk_fn "impls"%string "hmac::Engine"%string "bitcoin_io::Write"%string "flush"%string [CFeature "bitcoin-io"%string] Public [(Exclusive, "hmac::Engine"%string)] [(Own, "Result"%string); (Own, "bitcoin_io::Error"%string)] (* impls.rs:65 *);
   mk_fn "impls"%string "hmac::Engine"%string "std::io::Write"%string "write"%string [CFeature "bitcoin-io"%string; CFeature "std"%string] Public [(Exclusive, "hmac::Engine"%string); (Shared, "u8"%string)] [(Own, "std::io::Result"%string); (Own, "usize"%string)] (* impls.rs:71 *);
   mk_fn "impls"%string "hmac::Engine"%string "std::io::Write"%string "flush"%string [CFeature "bitcoin-io"%string; CFeature "std"%string] Public [(Exclusive, "hmac::Engine"%string)] [(Own, "std::io::Result"%string)] (* impls.rs:77 *);
   mk_fn "impls"%string "sha256t::Engine"%string "bitcoin_io::Write"%string "write"%string [CFeature "bitcoin-io"%string] Public [(Exclusive, "sha256t::Engine"%string)] [] (* impls.rs:80 *);
   mk_fn "impls"%string "sha256t::Engine"%string "bitcoin_io::Write"%string "flush"%string [CFeature "bitcoin-io"%string] Public [(Exclusive, "sha256t::Engine"%string)] [] (* impls.rs:80 *);
   mk_fn "lib"%string ""%string "HashEngine"%string "new"%string [] Public [] [(Own, "Self"%string)] (* lib.rs:155 *);
   mk_fn "lib"%string ""%string "HashEngine"%string "input"%string [] Public [(Exclusive, "Self"%string); (Shared, "u8"%string)] [] (* lib.rs:158 *);
   mk_fn "lib"%string ""%string "HashEngine"%string "n_bytes_hashed"%string [] Public [(Shared, "Self"%string)] [(Own, "usize"%string)] (* lib.rs:161 *);
   mk_fn "lib"%string ""%string "HashEngine"%string "finalize"%string [] Public [(Own, "Self"%string)] [(Own, "Self::Digest"%string)] (* lib.rs:164 *);
   mk_fn "lib"%string ""%string "HashEngine"%string "hash"%string [] Public [(Shared, "u8"%string)] [(Own, "Self::Digest"%string)] (* lib.rs:171 *);
   mk_fn "lib"%string ""%string "HashEngine"%string "hash_byte_chunks"%string [] Public [(Own, "I"%string)] [(Own, "Self::Digest"%string)] (* lib.rs:178 *);
   mk_fn "lib"%string ""%string "HashEngine"%string "midstate"%string [] Public [(Shared, "Self"%string)] [(Own, "Self::Midstate"%string)] (* lib.rs:192 *);
   mk_fn "lib"%string ""%string "HashEngine"%string "from_midstate"%string [] Public [(Own, "Self::Midstate"%string); (Own, "usize"%string)] [(Own, "Self"%string)] (* lib.rs:197 *);
   mk_fn "lib"%string "lib::FromSliceError"%string ""%string "new"%string [] Public [(Own, "usize"%string); (Own, "usize"%string)] [(Own, "lib::FromSliceError"%string)] (* lib.rs:211 *);
   mk_fn "lib"%string "lib::FromSliceError"%string ""%string "expected_length"%string [] Public [(Shared, "lib::FromSliceError"%string)] [(Own, "usize"%string)] (* lib.rs:214 *);
   mk_fn "lib"%string "lib::FromSliceError"%string ""%string "invalid_length"%string [] Public [(Shared, "lib::FromSliceError"%string)] [(Own, "usize"%string)] (* lib.rs:217 *);
   mk_fn "lib"%string "lib::FromSliceError"%string "Display"%string "fmt"%string [] Public [(Shared, "lib::FromSliceError"%string); (Exclusive, "fmt::Formatter"%string)] [(Own, "fmt::Result"%string)] (* lib.rs:221 *);
   mk_fn "ripemd160"%string "ripemd160::Hash"%string ""%string "hash"%string [] Public [(Shared, "u8"%string)] [(Own, "ripemd160::Hash"%string)] (* internal_macros.rs:158 *);
   mk_fn "ripemd160"%string "ripemd160::Hash"%string ""%string "engine"%string [] Public [] [(Own, "ripemd160::Engine"%string)] (* internal_macros.rs:165 *);
   mk_fn "ripemd160"%string "ripemd160::Hash"%string ""%string "from_engine"%string [] Public [(Own, "ripemd160::Engine"%string)] [(Own, "ripemd160::Hash"%string)] (* internal_macros.rs:170 *);
   mk_fn "ripemd160"%string "ripemd160::Hash"%string ""%string "from_bytes_ref"%string [] Public [(Shared, "u8"%string)] [(Shared, "ripemd160::Hash"%string)] (* internal_macros.rs:177 *);
   mk_fn "ripemd160"%string "ripemd160::Hash"%string ""%string "from_bytes_mut"%string [] Public [(Exclusive, "u8"%string)] [(Exclusive, "ripemd160::Hash"%string)] (* internal_macros.rs:184 *);
   mk_fn "ripemd160"%string "ripemd160::Hash"%string ""%string "from_slice"%string [] Public [(Shared, "u8"%string)] [(Own, "Result"%string); (Own, "ripemd160::Hash"%string); (Own, "FromSliceError"%string)] (* internal_macros.rs:190 *);
   mk_fn "ripemd160"%string "ripemd160::Hash"%string ""%string "from_byte_array"%string [] Public [(Own, "u8"%string)] [(Own, "ripemd160::Hash"%string)] (* internal_macros.rs:201 *);
   mk_fn "ripemd160"%string "ripemd160::Hash"%string ""%string "to_byte_array"%string [] Public [(Own, "ripemd160::Hash"%string)] [(Own, "u8"%string)] (* internal_macros.rs:204 *);
   mk_fn "ripemd160"%string "ripemd160::Hash"%string ""%string "as_byte_array"%string [] Public [(Shared, "ripemd160::Hash"%string)] [(Shared, "u8"%string)] (* internal_macros.rs:207 *);
   mk_fn "ripemd160"%string "ripemd160::Hash"%string ""%string "as_bytes"%string [] Public [(Shared, "ripemd160::Hash"%string)] [(Shared, "u8"%string)] (* internal_macros.rs:211 *);
   mk_fn "ripemd160"%string "ripemd160::Hash"%string ""%string "to_bytes"%string [CFeature "alloc"%string] Public [(Shared, "ripemd160::Hash"%string)] [(Own, "Vec"%string); (Own, "u8"%string)] (* internal_macros.rs:216 *);
   mk_fn "ripemd160"%string "ripemd160::Hash"%string ""%string "all_zeros"%string [] Public [] [(Own, "ripemd160::Hash"%string)] (* internal_macros.rs:223 *);
   mk_fn "ripemd160"%string "ripemd160::Hash"%string "JsonSchema"%string "schema_name"%string [CFeature "schemars"%string] Public [] [(Own, "String"%string)] (* internal_macros.rs:228 *);
   mk_fn "ripemd160"%string "ripemd160::Hash"%string "JsonSchema"%string "json_schema"%string [CFeature "schemars"%string] Public [(Exclusive, "schemars::gen::SchemaGenerator"%string)] [(Own, "schemars::schema::Schema"%string)] (* internal_macros.rs:230 *);
   mk_fn "ripemd160"%string "ripemd160::Hash"%string "FromStr"%string "from_str"%string [] Public [(Shared, "str"%string)] [(Own, "_export::_core::result::Result"%string); (Own, "ripemd160::Hash"%string); (Own, "Self::Err"%string)] (* internal_macros.rs:106 *);
   mk_fn "ripemd160"%string "ripemd160::Hash"%string "LowerHex"%string "fmt"%string [] Public [(Shared, "ripemd160::Hash"%string); (Exclusive, "_export::_core::fmt::Formatter"%string)] [(Own, "_export::_core::fmt::Result"%string)] (* internal_macros.rs:54 *);
   mk_fn "ripemd160"%string "ripemd160::Hash"%string "UpperHex"%string "fmt"%string [] Public [(Shared, "ripemd160::Hash"%string); (Exclusive, "_export::_core::fmt::Formatter"%string)] [(Own, "_export::_core::fmt::Result"%string)] (* internal_macros.rs:61 *);
   mk_fn "ripemd160"%string "ripemd160::Hash"%string "Display"%string "fmt"%string [] Public [(Shared, "ripemd160::Hash"%string); (Exclusive, "_export::_core::fmt::Formatter"%string)] [(Own, "_export::_core::fmt::Result"%string)] (* internal_macros.rs:68 *);
   mk_fn "ripemd160"%string "ripemd160::Hash"%string "Debug"%string "fmt"%string [] Public [(Shared, "ripemd160::Hash"%string); (Exclusive, "_export::_core::fmt::Formatter"%string)] [(Own, "_export::_core::fmt::Result"%string)] (* internal_macros.rs:75 *);
   mk_fn "ripemd160"%string "ripemd160::Hash"%string "SerdeHash"%string "from_slice_delegated"%string [CFeature "serde"%string] Public [(Shared, "u8"%string)] [(Own, "core::result::Result"%string); (Own, "ripemd160::Hash"%string); (Own, "FromSliceError"%string)] (* serde_macros.rs:115 *);
   mk_fn "ripemd160"%string "ripemd160::Hash"%string "Serialize"%string "serialize"%string [CFeature "serde"%string] Public [(Shared, "ripemd160::Hash"%string); (Own, "S"%string)] [(Own, "core::result::Result"%string); (Own, "S::Ok"%string); (Own, "S::Error"%string)] (* serde_macros.rs:121 *);
   mk_fn "ripemd160"%string "ripemd160::Hash"%string "Deserialize"%string "deserialize"%string [CFeature "serde"%string] Public [(Own, "D"%string)] [(Own, "core::result::Result"%string); (Own, "ripemd160::Hash"%string); (Own, "D::Error"%string)] (* serde_macros.rs:127 *);
   mk_fn "ripemd160"%string "ripemd160::Hash"%string "AsRef"%string "as_ref"%string [] Public [(Shared, "ripemd160::Hash"%string)] [(Shared, "u8"%string)] (* internal_macros.rs:12 *);
   mk_fn "ripemd160"%string "ripemd160::Hash"%string "AsRef"%string "as_ref"%string [] Public [(Shared, "ripemd160::Hash"%string)] [(Shared, "u8"%string)] (* internal_macros.rs:119 *);
   mk_fn "ripemd160"%string "ripemd160::Hash"%string "Index"%string "index"%string [] Public [(Shared, "ripemd160::Hash"%string); (Own, "I"%string)] [(Shared, "Self::Output"%string)] (* internal_macros.rs:126 *);
   mk_fn "ripemd160"%string "ripemd160::Engine"%string "Default"%string "default"%string [] Public [] [(Own, "ripemd160::Engine"%string)] (* ripemd160.rs:25 *);
   mk_fn "ripemd160"%string "ripemd160::Engine"%string "HashEngine"%string "n_bytes_hashed"%string [] Public [(Shared, "ripemd160::Engine"%string)] [(Own, "usize"%string)] (* ripemd160.rs:40 *);
   mk_fn "ripemd160"%string "ripemd160::Engine"%string "HashEngine"%string "input"%string [CNot (CFlag "hashes_fuzz"%string)] Public [(Exclusive, "ripemd160::Engine"%string); (Shared, "u8"%string)] [] (* internal_macros.rs:22 *);
   mk_fn "ripemd160"%string "ripemd160::Engine"%string "HashEngine"%string "input"%string [CFlag "hashes_fuzz"%string] Public [(Exclusive, "ripemd160::Engine"%string); (Shared, "u8"%string)] [] (* internal_macros.rs:39 *);
   mk_fn "ripemd160"%string "ripemd160::Engine"%string "HashEngine"%string "finalize"%string [CNot (CFlag "hashes_fuzz"%string)] Public [(Own, "ripemd160::Engine"%string)] [(Own, "Self::Digest"%string)] (* ripemd160.rs:46 *);
   mk_fn "ripemd160"%string "ripemd160::Engine"%string "HashEngine"%string "finalize"%string [CFlag "hashes_fuzz"%string] Public [(Own, "ripemd160::Engine"%string)] [(Own, "Self::Digest"%string)] (* ripemd160.rs:66 *);
   mk_fn "ripemd160"%string "ripemd160::Engine"%string "HashEngine"%string "midstate"%string [CNot (CFlag "hashes_fuzz"%string)] Public [(Shared, "ripemd160::Engine"%string)] [(Own, "Self::Midstate"%string)] (* ripemd160.rs:74 *);
   mk_fn "ripemd160"%string "ripemd160::Engine"%string "HashEngine"%string "midstate"%string [CFlag "hashes_fuzz"%string] Public [(Shared, "ripemd160::Engine"%string)] [(Own, "Self::Midstate"%string)] (* ripemd160.rs:83 *);
   mk_fn "ripemd160"%string "ripemd160::Engine"%string "HashEngine"%string "from_midstate"%string [] Public [(Own, "Self::Midstate"%string); (Own, "usize"%string)] [(Own, "ripemd160::Engine"%string)] (* ripemd160.rs:90 *);
   mk_fn "ripemd160"%string ""%string ""%string "round"%string [CFeature "small-hash"%string] InCrate [(Own, "u32"%string); (Own, "u32"%string); (Own, "u32"%string); (Own, "u32"%string); (Own, "u32"%string); (Own, "u32"%string); (Own, "u32"%string); (Own, "u32"%string); (Own, "u32"%string)] [(Own, "u32"%string); (Own, "u32"%string)] (* ripemd160.rs:106 *);
   mk_fn "ripemd160"%string "ripemd160::Engine"%string ""%string "process_block"%string [] Private [(Exclusive, "ripemd160::Engine"%string)] [] (* ripemd160.rs:228 *);
   mk_fn "serde_macros"%string "serde_macros::HexVisitor"%string "Visitor"%string "expecting"%string [CFeature "serde"%string] Public [(Shared, "serde_macros::HexVisitor"%string); (Exclusive, "fmt::Formatter"%string)] [(Own, "fmt::Result"%string)] (* serde_macros.rs:24 *);
   mk_fn "serde_macros"%string "serde_macros::HexVisitor"%string "Visitor"%string "visit_bytes"%string [CFeature "serde"%string] Public [(Own, "serde_macros::HexVisitor"%string); (Shared, "u8"%string)] [(Own, "core::result::Result"%string); (Own, "Self::Value"%string); (Own, "E"%string)] (* serde_macros.rs:28 *);
   mk_fn "serde_macros"%string "serde_macros::HexVisitor"%string "Visitor"%string "visit_str"%string [CFeature "serde"%string] Public [(Own, "serde_macros::HexVisitor"%string); (Shared, "str"%string)] [(Own, "core::result::Result"%string); (Own, "Self::Value"%string); (Own, "E"%string)] (* serde_macros.rs:39 *);
   mk_fn "serde_macros"%string "serde_macros::BytesVisitor"%string "Visitor"%string "expecting"%string [CFeature "serde"%string] Public [(Shared, "serde_macros::BytesVisitor"%string); (Exclusive, "fmt::Formatter"%string)] [(Own, "fmt::Result"%string)] (* serde_macros.rs:56 *);
   mk_fn "serde_macros"%string "serde_macros::BytesVisitor"%string "Visitor"%string "visit_bytes"%string [CFeature "serde"%string] Public [(Own, "serde_macros::BytesVisitor"%string); (Shared, "u8"%string)] [(Own, "core::result::Result"%string); (Own, "Self::Value"%string); (Own, "E"%string)] (* serde_macros.rs:60 *);
   mk_fn "serde_macros"%string ""%string "SerdeHash"%string "from_slice_delegated"%string [CFeature "serde"%string] Public [(Shared, "u8"%string)] [(Own, "core::result::Result"%string); (Own, "Self"%string); (Own, "FromSliceError"%string)] (* serde_macros.rs:85 *);
   mk_fn "serde_macros"%string ""%string "SerdeHash"%string "serialize"%string [CFeature "serde"%string] Public [(Shared, "Self"%string); (Own, "S"%string)] [(Own, "core::result::Result"%string); (Own, "S::Ok"%string); (Own, "S::Error"%string)] (* serde_macros.rs:88 *);
   mk_fn "serde_macros"%string ""%string "SerdeHash"%string "deserialize"%string [CFeature "serde"%string] Public [(Own, "D"%string)] [(Own, "core::result::Result"%string); (Own, "Self"%string); (Own, "D::Error"%string)] (* serde_macros.rs:97 *);
   mk_fn "sha1"%string "sha1::Hash"%string ""%string "hash"%string [] Public [(Shared, "u8"%string)] [(Own, "sha1::Hash"%string)] (* internal_macros.rs:158 *);
   mk_fn "sha1"%string "sha1::Hash"%string ""%string "engine"%string [] Public [] [(Own, "sha1::Engine"%string)] (* internal_macros.rs:165 *);
   mk_fn "sha1"%string "sha1::Hash"%string ""%string "from_engine"%string [] Public [(Own, "sha1::Engine"%string)] [(Own, "sha1::Hash"%string)] (* internal_macros.rs:170 *);
   mk_fn "sha1"%string "sha1::Hash"%string ""%string "from_bytes_ref"%string [] Public [(Shared, "u8"%string)] [(Shared, "sha1::Hash"%string)] (* internal_macros.rs:177 *);
   mk_fn "sha1"%string "sha1::Hash"%string ""%string "from_bytes_mut"%string [] Public [(Exclusive, "u8"%string)] [(Exclusive, "sha1::Hash"%string)] (* internal_macros.rs:184 *);
   mk_fn "sha1"%string "sha1::Hash"%string ""%string "from_slice"%string [] Public [(Shared, "u8"%string)] [(Own, "Result"%string); (Own, "sha1::Hash"%string); (Own, "FromSliceError"%string)] (* internal_macros.rs:190 *);
   mk_fn "sha1"%string "sha1::Hash"%string ""%string "from_byte_array"%string [] Public [(Own, "u8"%string)] [(Own, "sha1::Hash"%string)] (* internal_macros.rs:201 *);
   mk_fn "sha1"%string "sha1::Hash"%string ""%string "to_byte_array"%string [] Public [(Own, "sha1::Hash"%string)] [(Own, "u8"%string)] (* internal_macros.rs:204 *);
   mk_fn "sha1"%string "sha1::Hash"%string ""%string "as_byte_array"%string [] Public [(Shared, "sha1::Hash"%string)] [(Shared, "u8"%string)] (* internal_macros.rs:207 *);
   mk_fn "sha1"%string "sha1::Hash"%string ""%string "as_bytes"%string [] Public [(Shared, "sha1::Hash"%string)] [(Shared, "u8"%string)] (* internal_macros.rs:211 *);
   mk_fn "sha1"%string "sha1::Hash"%string ""%string "to_bytes"%string [CFeature "alloc"%string] Public [(Shared, "sha1::Hash"%string)] [(Own, "Vec"%string); (Own, "u8"%string)] (* internal_macros.rs:216 *);
   mk_fn "sha1"%string "sha1::Hash"%string ""%string "all_zeros"%string [] Public [] [(Own, "sha1::Hash"%string)] (* internal_macros.rs:223 *);
   mk_fn "sha1"%string "sha1::Hash"%string "JsonSchema"%string "schema_name"%string [CFeature "schemars"%string] Public [] [(Own, "String"%string)] (* internal_macros.rs:228 *);
   mk_fn "sha1"%string "sha1::Hash"%string "JsonSchema"%string "json_schema"%string [CFeature "schemars"%string] Public [(Exclusive, "schemars::gen::SchemaGenerator"%string)] [(Own, "schemars::schema::Schema"%string)] (* internal_macros.rs:230 *);
   mk_fn "sha1"%string "sha1::Hash"%string "FromStr"%string "from_str"%string [] Public [(Shared, "str"%string)] [(Own, "_export::_core::result::Result"%string); (Own, "sha1::Hash"%string); (Own, "Self::Err"%string)] (* internal_macros.rs:106 *);
   mk_fn "sha1"%string "sha1::Hash"%string "LowerHex"%string "fmt"%string [] Public [(Shared, "sha1::Hash"%string); (Exclusive, "_export::_core::fmt::Formatter"%string)] [(Own, "_export::_core::fmt::Result"%string)] (* internal_macros.rs:54 *);
   mk_fn "sha1"%string "sha1::Hash"%string "UpperHex"%string "fmt"%string [] Public [(Shared, "sha1::Hash"%string); (Exclusive, "_export::_core::fmt::Formatter"%string)] [(Own, "_export::_core::fmt::Result"%string)] (* internal_macros.rs:61 *);
   mk_fn "sha1"%string "sha1::Hash"%string "Display"%string "fmt"%string [] Public [(Shared, "sha1::Hash"%string); (Exclusive, "_export::_core::fmt::Formatter"%string)] [(Own, "_export::_core::fmt::Result"%string)] (* internal_macros.rs:68 *);
   mk_fn "sha1"%string "sha1::Hash"%string "Debug"%string "fmt"%string [] Public [(Shared, "sha1::Hash"%string); (Exclusive, "_export::_core::fmt::Formatter"%string)] [(Own, "_export::_core::fmt::Result"%string)] (* internal_macros.rs:75 *);
   mk_fn "sha1"%string "sha1::Hash"%string "SerdeHash"%string "from_slice_delegated"%string [CFeature "serde"%string] Public [(Shared, "u8"%string)] [(Own, "core::result::Result"%string); (Own, "sha1::Hash"%string); (Own, "FromSliceError"%string)] (* serde_macros.rs:115 *);
   mk_fn "sha1"%string "sha1::Hash"%string "Serialize"%string "serialize"%string [CFeature "serde"%string] Public [(Shared, "sha1::Hash"%string); (Own, "S"%string)] [(Own, "core::result::Result"%string); (Own, "S::Ok"%string); (Own, "S::Error"%string)] (* serde_macros.rs:121 *);
   mk_fn "sha1"%string "sha1::Hash"%string "Deserialize"%string "deserialize"%string [CFeature "serde"%string] Public [(Own, "D"%string)] [(Own, "core::result::Result"%string); (Own, "sha1::Hash"%string); (Own, "D::Error"%string)] (* serde_macros.rs:127 *);
   mk_fn "sha1"%string "sha1::Hash"%string "AsRef"%string "as_ref"%string [] Public [(Shared, "sha1::Hash"%string)] [(Shared, "u8"%string)] (* internal_macros.rs:12 *);
   mk_fn "sha1"%string "sha1::Hash"%string "AsRef"%string "as_ref"%string [] Public [(Shared, "sha1::Hash"%string)] [(Shared, "u8"%string)] (* internal_macros.rs:119 *);
   mk_fn "sha1"%string "sha1::Hash"%string "Index"%string "index"%string [] Public [(Shared, "sha1::Hash"%string); (Own, "I"%string)] [(Shared, "Self::Output"%string)] (* internal_macros.rs:126 *);
   mk_fn "sha1"%string "sha1::Engine"%string "Default"%string "default"%string [] Public [] [(Own, "sha1::Engine"%string)] (* sha1.rs:25 *);
   mk_fn "sha1"%string "sha1::Engine"%string "HashEngine"%string "n_bytes_hashed"%string [] Public [(Shared, "sha1::Engine"%string)] [(Own, "usize"%string)] (* sha1.rs:40 *);
   mk_fn "sha1"%string "sha1::Engine"%string "HashEngine"%string "input"%string [CNot (CFlag "hashes_fuzz"%string)] Public [(Exclusive, "sha1::Engine"%string); (Shared, "u8"%string)] [] (* internal_macros.rs:22 *);
   mk_fn "sha1"%string "sha1::Engine"%string "HashEngine"%string "input"%string [CFlag "hashes_fuzz"%string] Public [(Exclusive, "sha1::Engine"%string); (Shared, "u8"%string)] [] (* internal_macros.rs:39 *);
   mk_fn "sha1"%string "sha1::Engine"%string "HashEngine"%string "finalize"%string [] Public [(Own, "sha1::Engine"%string)] [(Own, "Self::Digest"%string)] (* sha1.rs:45 *);
   mk_fn "sha1"%string "sha1::Engine"%string "HashEngine"%string "midstate"%string [CNot (CFlag "hashes_fuzz"%string)] Public [(Shared, "sha1::Engine"%string)] [(Own, "Self::Midstate"%string)] (* sha1.rs:66 *);
   mk_fn "sha1"%string "sha1::Engine"%string "HashEngine"%string "midstate"%string [CFlag "hashes_fuzz"%string] Public [(Shared, "sha1::Engine"%string)] [(Own, "Self::Midstate"%string)] (* sha1.rs:75 *);
   mk_fn "sha1"%string "sha1::Engine"%string "HashEngine"%string "from_midstate"%string [] Public [(Own, "Self::Midstate"%string); (Own, "usize"%string)] [(Own, "sha1::Engine"%string)] (* sha1.rs:82 *);
   mk_fn "sha1"%string "sha1::Engine"%string ""%string "process_block"%string [] Private [(Exclusive, "sha1::Engine"%string)] [] (* sha1.rs:96 *);
   mk_fn "sha256"%string "sha256::Hash"%string ""%string "hash"%string [] Public [(Shared, "u8"%string)] [(Own, "sha256::Hash"%string)] (* internal_macros.rs:158 *);
   mk_fn "sha256"%string "sha256::Hash"%string ""%string "engine"%string [] Public [] [(Own, "sha256::Engine"%string)] (* internal_macros.rs:165 *);
   mk_fn "sha256"%string "sha256::Hash"%string ""%string "from_engine"%string [] Public [(Own, "sha256::Engine"%string)] [(Own, "sha256::Hash"%string)] (* internal_macros.rs:170 *);
   mk_fn "sha256"%string "sha256::Hash"%string ""%string "from_bytes_ref"%string [] Public [(Shared, "u8"%string)] [(Shared, "sha256::Hash"%string)] (* internal_macros.rs:177 *);
   mk_fn "sha256"%string "sha256::Hash"%string ""%string "from_bytes_mut"%string [] Public [(Exclusive, "u8"%string)] [(Exclusive, "sha256::Hash"%string)] (* internal_macros.rs:184 *);
   mk_fn "sha256"%string "sha256::Hash"%string ""%string "from_slice"%string [] Public [(Shared, "u8"%string)] [(Own, "Result"%string); (Own, "sha256::Hash"%string); (Own, "FromSliceError"%string)] (* internal_macros.rs:190 *);
   mk_fn "sha256"%string "sha256::Hash"%string ""%string "from_byte_array"%string [] Public [(Own, "u8"%string)] [(Own, "sha256::Hash"%string)] (* internal_macros.rs:201 *);
   mk_fn "sha256"%string "sha256::Hash"%string ""%string "to_byte_array"%string [] Public [(Own, "sha256::Hash"%string)] [(Own, "u8"%string)] (* internal_macros.rs:204 *);
   mk_fn "sha256"%string "sha256::Hash"%string ""%string "as_byte_array"%string [] Public [(Shared, "sha256::Hash"%string)] [(Shared, "u8"%string)] (* internal_macros.rs:207 *);
   mk_fn "sha256"%string "sha256::Hash"%string ""%string "as_bytes"%string [] Public [(Shared, "sha256::Hash"%string)] [(Shared, "u8"%string)] (* internal_macros.rs:211 *);
   mk_fn "sha256"%string "sha256::Hash"%string ""%string "to_bytes"%string [CFeature "alloc"%string] Public [(Shared, "sha256::Hash"%string)] [(Own, "Vec"%string); (Own, "u8"%string)] (* internal_macros.rs:216 *);
   mk_fn "sha256"%string "sha256::Hash"%string ""%string "all_zeros"%string [] Public [] [(Own, "sha256::Hash"%string)] (* internal_macros.rs:223 *);
   mk_fn "sha256"%string "sha256::Hash"%string "JsonSchema"%string "schema_name"%string [CFeature "schemars"%string] Public [] [(Own, "String"%string)] (* internal_macros.rs:228 *);
   mk_fn "sha256"%string "sha256::Hash"%string "JsonSchema"%string "json_schema"%string [CFeature "schemars"%string] Public [(Exclusive, "schemars::gen::SchemaGenerator"%string)] [(Own, "schemars::schema::Schema"%string)] (* internal_macros.rs:230 *);
   mk_fn "sha256"%string "sha256::Hash"%string "FromStr"%string "from_str"%string [] Public [(Shared, "str"%string)] [(Own, "_export::_core::result::Result"%string); (Own, "sha256::Hash"%string); (Own, "Self::Err"%string)] (* internal_macros.rs:106 *);
   mk_fn "sha256"%string "sha256::Hash"%string "LowerHex"%string "fmt"%string [] Public [(Shared, "sha256::Hash"%string); (Exclusive, "_export::_core::fmt::Formatter"%string)] [(Own, "_export::_core::fmt::Result"%string)] (* internal_macros.rs:54 *);
   mk_fn "sha256"%string "sha256::Hash"%string "UpperHex"%string "fmt"%string [] Public [(Shared, "sha256::Hash"%string); (Exclusive, "_export::_core::fmt::Formatter"%string)] [(Own, "_export::_core::fmt::Result"%string)] (* internal_macros.rs:61 *);
   mk_fn "sha256"%string "sha256::Hash"%string "Display"%string "fmt"%string [] Public [(Shared, "sha256::Hash"%string); (Exclusive, "_export::_core::fmt::Formatter"%string)] [(Own, "_export::_core::fmt::Result"%string)] (* internal_macros.rs:68 *);
   mk_fn "sha256"%string "sha256::Hash"%string "Debug"%string "fmt"%string [] Public [(Shared, "sha256::Hash"%string); (Exclusive, "_export::_core::fmt::Formatter"%string)] [(Own, "_export::_core::fmt::Result"%string)] (* internal_macros.rs:75 *);
   mk_fn "sha256"%string "sha256::Hash"%string "SerdeHash"%string "from_slice_delegated"%string [CFeature "serde"%string] Public [(Shared, "u8"%string)] [(Own, "core::result::Result"%string); (Own, "sha256::Hash"%string); (Own, "FromSliceError"%string)] (* serde_macros.rs:115 *);
   mk_fn "sha256"%string "sha256::Hash"%string "Serialize"%string "serialize"%string [CFeature "serde"%string] Public [(Shared, "sha256::Hash"%string); (Own, "S"%string)] [(Own, "core::result::Result"%string); (Own, "S::Ok"%string); (Own, "S::Error"%string)] (* serde_macros.rs:121 *);
   mk_fn "sha256"%string "sha256::Hash"%string "Deserialize"%string "deserialize"%string [CFeature "serde"%string] Public [(Own, "D"%string)] [(Own, "core::result::Result"%string); (Own, "sha256::Hash"%string); (Own, "D::Error"%string)] (* serde_macros.rs:127 *);
   mk_fn "sha256"%string "sha256::Hash"%string "AsRef"%string "as_ref"%string [] Public [(Shared, "sha256::Hash"%string)] [(Shared, "u8"%string)] (* internal_macros.rs:12 *);
   mk_fn "sha256"%string "sha256::Hash"%string "AsRef"%string "as_ref"%string [] Public [(Shared, "sha256::Hash"%string)] [(Shared, "u8"%string)] (* internal_macros.rs:119 *);
   mk_fn "sha256"%string "sha256::Hash"%string "Index"%string "index"%string [] Public [(Shared, "sha256::Hash"%string); (Own, "I"%string)] [(Shared, "Self::Output"%string)] (* internal_macros.rs:126 *);
   mk_fn "sha256"%string "sha256::Engine"%string "Default"%string "default"%string [] Public [] [(Own, "sha256::Engine"%string)] (* sha256.rs:32 *);
   mk_fn "sha256"%string "sha256::Engine"%string "HashEngine"%string "n_bytes_hashed"%string [] Public [(Shared, "sha256::Engine"%string)] [(Own, "usize"%string)] (* sha256.rs:50 *);
   mk_fn "sha256"%string "sha256::Engine"%string "HashEngine"%string "input"%string [CNot (CFlag "hashes_fuzz"%string)] Public [(Exclusive, "sha256::Engine"%string); (Shared, "u8"%string)] [] (* internal_macros.rs:22 *);
   mk_fn "sha256"%string "sha256::Engine"%string "HashEngine"%string "input"%string [CFlag "hashes_fuzz"%string] Public [(Exclusive, "sha256::Engine"%string); (Shared, "u8"%string)] [] (* internal_macros.rs:39 *);
   mk_fn "sha256"%string "sha256::Engine"%string "HashEngine"%string "finalize"%string [CNot (CFlag "hashes_fuzz"%string)] Public [(Own, "sha256::Engine"%string)] [(Own, "Self::Digest"%string)] (* sha256.rs:56 *);
   mk_fn "sha256"%string "sha256::Engine"%string "HashEngine"%string "finalize"%string [CFlag "hashes_fuzz"%string] Public [(Own, "sha256::Engine"%string)] [(Own, "Self::Digest"%string)] (* sha256.rs:76 *);
   mk_fn "sha256"%string "sha256::Engine"%string "HashEngine"%string "midstate"%string [CNot (CFlag "hashes_fuzz"%string)] Public [(Shared, "sha256::Engine"%string)] [(Own, "sha256::Midstate"%string)] (* sha256.rs:88 *);
   mk_fn "sha256"%string "sha256::Engine"%string "HashEngine"%string "midstate"%string [CFlag "hashes_fuzz"%string] Public [(Shared, "sha256::Engine"%string)] [(Own, "sha256::Midstate"%string)] (* sha256.rs:97 *);
   mk_fn "sha256"%string "sha256::Engine"%string "HashEngine"%string "from_midstate"%string [] Public [(Own, "sha256::Midstate"%string); (Own, "usize"%string)] [(Own, "sha256::Engine"%string)] (* sha256.rs:104 *);
   mk_fn "sha256"%string "sha256::Hash"%string ""%string "const_hash"%string [] Public [(Shared, "u8"%string)] [(Own, "sha256::Hash"%string)] (* sha256.rs:120 *);
   mk_fn "sha256"%string "sha256::Midstate"%string "LowerHex"%string "fmt"%string [] Public [(Shared, "sha256::Midstate"%string); (Exclusive, "_export::_core::fmt::Formatter"%string)] [(Own, "_export::_core::fmt::Result"%string)] (* internal_macros.rs:54 *);
   mk_fn "sha256"%string "sha256::Midstate"%string "UpperHex"%string "fmt"%string [] Public [(Shared, "sha256::Midstate"%string); (Exclusive, "_export::_core::fmt::Formatter"%string)] [(Own, "_export::_core::fmt::Result"%string)] (* internal_macros.rs:61 *);
   mk_fn "sha256"%string "sha256::Midstate"%string "Display"%string "fmt"%string [] Public [(Shared, "sha256::Midstate"%string); (Exclusive, "_export::_core::fmt::Formatter"%string)] [(Own, "_export::_core::fmt::Result"%string)] (* internal_macros.rs:68 *);
   mk_fn "sha256"%string "sha256::Midstate"%string "Debug"%string "fmt"%string [] Public [(Shared, "sha256::Midstate"%string); (Exclusive, "_export::_core::fmt::Formatter"%string)] [(Own, "_export::_core::fmt::Result"%string)] (* internal_macros.rs:75 *);
   mk_fn "sha256"%string "sha256::Midstate"%string "SerdeHash"%string "from_slice_delegated"%string [CFeature "serde"%string] Public [(Shared, "u8"%string)] [(Own, "core::result::Result"%string); (Own, "sha256::Midstate"%string); (Own, "FromSliceError"%string)] (* serde_macros.rs:115 *);
   mk_fn "sha256"%string "sha256::Midstate"%string "Serialize"%string "serialize"%string [CFeature "serde"%string] Public [(Shared, "sha256::Midstate"%string); (Own, "S"%string)] [(Own, "core::result::Result"%string); (Own, "S::Ok"%string); (Own, "S::Error"%string)] (* serde_macros.rs:121 *);
   mk_fn "sha256"%string "sha256::Midstate"%string "Deserialize"%string "deserialize"%string [CFeature "serde"%string] Public [(Own, "D"%string)] [(Own, "core::result::Result"%string); (Own, "sha256::Midstate"%string); (Own, "D::Error"%string)] (* serde_macros.rs:127 *);
   mk_fn "sha256"%string "sha256::Midstate"%string "AsRef"%string "as_ref"%string [] Public [(Shared, "sha256::Midstate"%string)] [(Shared, "u8"%string)] (* internal_macros.rs:12 *);
   mk_fn "sha256"%string "sha256::Midstate"%string "Index"%string "index"%string [] Public [(Shared, "sha256::Midstate"%string); (Own, "I"%string)] [(Shared, "Self::Output"%string)] (* sha256.rs:135 *);
   mk_fn "sha256"%string "sha256::Midstate"%string "FromStr"%string "from_str"%string [] Public [(Shared, "str"%string)] [(Own, "Result"%string); (Own, "sha256::Midstate"%string); (Own, "Self::Err"%string)] (* sha256.rs:140 *);
   mk_fn "sha256"%string "sha256::Midstate"%string ""%string "from_byte_array"%string [] Public [(Own, "u8"%string)] [(Own, "sha256::Midstate"%string)] (* sha256.rs:148 *);
   mk_fn "sha256"%string "sha256::Midstate"%string ""%string "from_slice"%string [] Public [(Shared, "u8"%string)] [(Own, "Result"%string); (Own, "sha256::Midstate"%string); (Own, "FromSliceError"%string)] (* sha256.rs:151 *);
   mk_fn "sha256"%string "sha256::Midstate"%string ""%string "to_byte_array"%string [] Public [(Own, "sha256::Midstate"%string)] [(Own, "u8"%string)] (* sha256.rs:162 *);
   mk_fn "sha256"%string "sha256::Midstate"%string ""%string "hash_tag"%string [] Public [(Shared, "u8"%string)] [(Own, "sha256::Midstate"%string)] (* sha256.rs:169 *);
   mk_fn "sha256"%string "sha256::Midstate"%string "FromHex"%string "from_hex"%string [] Public [(Shared, "str"%string)] [(Own, "Result"%string); (Own, "sha256::Midstate"%string); (Own, "Self::Error"%string)] (* sha256.rs:184 *);
   mk_fn "sha256"%string ""%string ""%string "Ch"%string [] Private [(Own, "u32"%string); (Own, "u32"%string); (Own, "u32"%string)] [(Own, "u32"%string)] (* sha256.rs:191 *);
   mk_fn "sha256"%string ""%string ""%string "Maj"%string [] Private [(Own, "u32"%string); (Own, "u32"%string); (Own, "u32"%string)] [(Own, "u32"%string)] (* sha256.rs:193 *);
   mk_fn "sha256"%string ""%string ""%string "Sigma0"%string [] Private [(Own, "u32"%string)] [(Own, "u32"%string)] (* sha256.rs:195 *);
   mk_fn "sha256"%string ""%string ""%string "Sigma1"%string [] Private [(Own, "u32"%string)] [(Own, "u32"%string)] (* sha256.rs:197 *);
   mk_fn "sha256"%string ""%string ""%string "sigma0"%string [] Private [(Own, "u32"%string)] [(Own, "u32"%string)] (* sha256.rs:198 *);
   mk_fn "sha256"%string ""%string ""%string "sigma1"%string [] Private [(Own, "u32"%string)] [(Own, "u32"%string)] (* sha256.rs:199 *);
   mk_fn "sha256"%string ""%string ""%string "round"%string [CFeature "small-hash"%string] InCrate [(Own, "u32"%string); (Own, "u32"%string); (Own, "u32"%string); (Own, "u32"%string); (Own, "u32"%string); (Own, "u32"%string); (Own, "u32"%string); (Own, "u32"%string); (Own, "u32"%string); (Own, "u32"%string)] [(Own, "u32"%string); (Own, "u32"%string)] (* sha256.rs:207 *);
   mk_fn "sha256"%string ""%string ""%string "later_round"%string [CFeature "small-hash"%string] InCrate [(Own, "u32"%string); (Own, "u32"%string); (Own, "u32"%string); (Own, "u32"%string); (Own, "u32"%string); (Own, "u32"%string); (Own, "u32"%string); (Own, "u32"%string); (Own, "u32"%string); (Own, "u32"%string); (Own, "u32"%string); (Own, "u32"%string); (Own, "u32"%string)] [(Own, "u32"%string); (Own, "u32"%string); (Own, "u32"%string)] (* sha256.rs:215 *);
   mk_fn "sha256"%string "sha256::Midstate"%string ""%string "read_u32"%string [] Private [(Shared, "u8"%string); (Own, "usize"%string)] [(Own, "u32"%string)] (* sha256.rs:262 *);
   mk_fn "sha256"%string "sha256::Midstate"%string ""%string "copy_w"%string [] Private [(Shared, "u8"%string); (Own, "usize"%string)] [(Own, "u32"%string)] (* sha256.rs:269 *);
   mk_fn "sha256"%string "sha256::Midstate"%string ""%string "const_hash"%string [] Private [(Shared, "u8"%string); (Own, "bool"%string)] [(Own, "sha256::Midstate"%string)] (* sha256.rs:279 *);
   mk_fn "sha256"%string "sha256::Engine"%string ""%string "from_midstate"%string [] Public [(Own, "sha256::Midstate"%string); (Own, "usize"%string)] [(Own, "sha256::Engine"%string)] (* sha256.rs:434 *);
   mk_fn "sha256"%string "sha256::Engine"%string ""%string "process_block"%string [] Private [(Exclusive, "sha256::Engine"%string)] [] (* sha256.rs:445 *);
   mk_fn "sha256"%string "sha256::Engine"%string ""%string "process_block_simd_x86_intrinsics"%string [CAll [CFeature "std"%string; CAny [CArch "x86"%string; CArch "x86_64"%string]]] Private [(Exclusive, "sha256::Engine"%string)] [] (* sha256.rs:463 *);
   mk_fn "sha256"%string "sha256::Engine"%string ""%string "software_process_block"%string [] Private [(Exclusive, "sha256::Engine"%string)] [] (* sha256.rs:721 *);
   mk_fn "sha256t"%string "sha256t::Engine"%string "Default"%string "default"%string [] Public [] [(Own, "sha256t::Engine"%string)] (* sha256t.rs:15 *);
   mk_fn "sha256t"%string "sha256t::Engine"%string "HashEngine"%string "new"%string [] Public [] [(Own, "sha256t::Engine"%string)] (* sha256t.rs:24 *);
   mk_fn "sha256t"%string "sha256t::Engine"%string "HashEngine"%string "input"%string [] Public [(Exclusive, "sha256t::Engine"%string); (Shared, "u8"%string)] [] (* sha256t.rs:27 *);
   mk_fn "sha256t"%string "sha256t::Engine"%string "HashEngine"%string "n_bytes_hashed"%string [] Public [(Shared, "sha256t::Engine"%string)] [(Own, "usize"%string)] (* sha256t.rs:30 *);
   mk_fn "sha256t"%string "sha256t::Engine"%string "HashEngine"%string "finalize"%string [] Public [(Own, "sha256t::Engine"%string)] [(Own, "Self::Digest"%string)] (* sha256t.rs:33 *);
   mk_fn "sha256t"%string "sha256t::Engine"%string "HashEngine"%string "midstate"%string [] Public [(Shared, "sha256t::Engine"%string)] [(Own, "Self::Midstate"%string)] (* sha256t.rs:36 *);
   mk_fn "sha256t"%string "sha256t::Engine"%string "HashEngine"%string "from_midstate"%string [] Public [(Own, "sha256::Midstate"%string); (Own, "usize"%string)] [(Own, "sha256t::Engine"%string); (Own, "T"%string)] (* sha256t.rs:39 *);
   mk_fn "sha256t"%string ""%string "Tag"%string "engine"%string [] Public [] [(Own, "sha256t::Engine"%string); (Own, "Self"%string)] (* sha256t.rs:48 *);
   mk_fn "sha256t"%string "sha256t::Hash"%string ""%string "hash"%string [] Public [(Shared, "u8"%string)] [(Own, "sha256t::Hash"%string)] (* sha256t.rs:65 *);
   mk_fn "sha256t"%string "sha256t::Hash"%string ""%string "engine"%string [] Public [] [(Own, "sha256t::Engine"%string); (Own, "T"%string)] (* sha256t.rs:72 *);
   mk_fn "sha256t"%string "sha256t::Hash"%string ""%string "from_engine"%string [] Public [(Own, "sha256t::Engine"%string); (Own, "T"%string)] [(Own, "sha256t::Hash"%string)] (* sha256t.rs:77 *);
   mk_fn "sha256t"%string "sha256t::Hash"%string ""%string "from_bytes_ref"%string [] Public [(Shared, "u8"%string)] [(Shared, "sha256t::Hash"%string)] (* sha256t.rs:84 *);
   mk_fn "sha256t"%string "sha256t::Hash"%string ""%string "from_bytes_mut"%string [] Public [(Exclusive, "u8"%string)] [(Exclusive, "sha256t::Hash"%string)] (* sha256t.rs:91 *);
   mk_fn "sha256t"%string "sha256t::Hash"%string ""%string "from_slice"%string [] Public [(Shared, "u8"%string)] [(Own, "Result"%string); (Own, "sha256t::Hash"%string); (Own, "FromSliceError"%string)] (* sha256t.rs:97 *);
   mk_fn "sha256t"%string "sha256t::Hash"%string ""%string "from_byte_array"%string [] Public [(Own, "u8"%string)] [(Own, "sha256t::Hash"%string)] (* sha256t.rs:108 *);
   mk_fn "sha256t"%string "sha256t::Hash"%string ""%string "to_byte_array"%string [] Public [(Own, "sha256t::Hash"%string)] [(Own, "u8"%string)] (* sha256t.rs:111 *);
   mk_fn "sha256t"%string "sha256t::Hash"%string ""%string "as_byte_array"%string [] Public [(Shared, "sha256t::Hash"%string)] [(Shared, "u8"%string)] (* sha256t.rs:114 *);
   mk_fn "sha256t"%string "sha256t::Hash"%string ""%string "as_bytes"%string [] Public [(Shared, "sha256t::Hash"%string)] [(Shared, "u8"%string)] (* sha256t.rs:117 *);
   mk_fn "sha256t"%string "sha256t::Hash"%string ""%string "to_bytes"%string [CFeature "alloc"%string] Public [(Shared, "sha256t::Hash"%string)] [(Own, "Vec"%string); (Own, "u8"%string)] (* sha256t.rs:121 *);
   mk_fn "sha256t"%string "sha256t::Hash"%string ""%string "all_zeros"%string [] Public [] [(Own, "sha256t::Hash"%string)] (* sha256t.rs:128 *);
   mk_fn "sha256t"%string "sha256t::Hash"%string "JsonSchema"%string "schema_name"%string [CFeature "schemars"%string] Public [] [(Own, "String"%string)] (* sha256t.rs:133 *);
   mk_fn "sha256t"%string "sha256t::Hash"%string "JsonSchema"%string "json_schema"%string [CFeature "schemars"%string] Public [(Exclusive, "schemars::gen::SchemaGenerator"%string)] [(Own, "schemars::schema::Schema"%string)] (* sha256t.rs:135 *);
   mk_fn "sha256t"%string "sha256t::Hash"%string "Clone"%string "clone"%string [] Public [(Shared, "sha256t::Hash"%string)] [(Own, "sha256t::Hash"%string)] (* sha256t.rs:148 *);
   mk_fn "sha256t"%string "sha256t::Hash"%string "PartialEq"%string "eq"%string [] Public [(Shared, "sha256t::Hash"%string); (Shared, "sha256t::Hash"%string); (Shared, "T"%string)] [(Own, "bool"%string)] (* sha256t.rs:151 *);
   mk_fn "sha256t"%string "sha256t::Hash"%string "Default"%string "default"%string [] Public [] [(Own, "sha256t::Hash"%string)] (* sha256t.rs:155 *);
   mk_fn "sha256t"%string "sha256t::Hash"%string "PartialOrd"%string "partial_cmp"%string [] Public [(Shared, "sha256t::Hash"%string); (Shared, "sha256t::Hash"%string); (Shared, "T"%string)] [(Own, "Option"%string); (Own, "cmp::Ordering"%string)] (* sha256t.rs:158 *);
   mk_fn "sha256t"%string "sha256t::Hash"%string "Ord"%string "cmp"%string [] Public [(Shared, "sha256t::Hash"%string); (Shared, "sha256t::Hash"%string); (Shared, "T"%string)] [(Own, "cmp::Ordering"%string)] (* sha256t.rs:163 *);
   mk_fn "sha256t"%string "sha256t::Hash"%string "Hash"%string "hash"%string [] Public [(Shared, "sha256t::Hash"%string); (Exclusive, "H"%string)] [] (* sha256t.rs:166 *);
   mk_fn "sha256t"%string "sha256t::Hash"%string "FromStr"%string "from_str"%string [] Public [(Shared, "str"%string)] [(Own, "_export::_core::result::Result"%string); (Own, "sha256t::Hash"%string); (Own, "Self::Err"%string)] (* internal_macros.rs:106 *);
   mk_fn "sha256t"%string "sha256t::Hash"%string "LowerHex"%string "fmt"%string [] Public [(Shared, "sha256t::Hash"%string); (Exclusive, "_export::_core::fmt::Formatter"%string)] [(Own, "_export::_core::fmt::Result"%string)] (* internal_macros.rs:54 *);
   mk_fn "sha256t"%string "sha256t::Hash"%string "UpperHex"%string "fmt"%string [] Public [(Shared, "sha256t::Hash"%string); (Exclusive, "_export::_core::fmt::Formatter"%string)] [(Own, "_export::_core::fmt::Result"%string)] (* internal_macros.rs:61 *);
   mk_fn "sha256t"%string "sha256t::Hash"%string "Display"%string "fmt"%string [] Public [(Shared, "sha256t::Hash"%string); (Exclusive, "_export::_core::fmt::Formatter"%string)] [(Own, "_export::_core::fmt::Result"%string)] (* internal_macros.rs:68 *);
   mk_fn "sha256t"%string "sha256t::Hash"%string "Debug"%string "fmt"%string [] Public [(Shared, "sha256t::Hash"%string); (Exclusive, "_export::_core::fmt::Formatter"%string)] [(Own, "_export::_core::fmt::Result"%string)] (* internal_macros.rs:75 *);
   mk_fn "sha256t"%string "sha256t::Hash"%string "SerdeHash"%string "from_slice_delegated"%string [CFeature "serde"%string] Public [(Shared, "u8"%string)] [(Own, "core::result::Result"%string); (Own, "sha256t::Hash"%string); (Own, "FromSliceError"%string)] (* serde_macros.rs:115 *);
   mk_fn "sha256t"%string "sha256t::Hash"%string "Serialize"%string "serialize"%string [CFeature "serde"%string] Public [(Shared, "sha256t::Hash"%string); (Own, "S"%string)] [(Own, "core::result::Result"%string); (Own, "S::Ok"%string); (Own, "S::Error"%string)] (* serde_macros.rs:121 *);
   mk_fn "sha256t"%string "sha256t::Hash"%string "Deserialize"%string "deserialize"%string [CFeature "serde"%string] Public [(Own, "D"%string)] [(Own, "core::result::Result"%string); (Own, "sha256t::Hash"%string); (Own, "T"%string); (Own, "D::Error"%string)] (* serde_macros.rs:127 *);
   mk_fn "sha256t"%string "sha256t::Hash"%string "AsRef"%string "as_ref"%string [] Public [(Shared, "sha256t::Hash"%string)] [(Shared, "u8"%string)] (* internal_macros.rs:12 *);
   mk_fn "sha256t"%string "sha256t::Hash"%string "AsRef"%string "as_ref"%string [] Public [(Shared, "sha256t::Hash"%string)] [(Shared, "u8"%string)] (* internal_macros.rs:119 *);
   mk_fn "sha256t"%string "sha256t::Hash"%string "Index"%string "index"%string [] Public [(Shared, "sha256t::Hash"%string); (Own, "I"%string)] [(Shared, "Self::Output"%string)] (* internal_macros.rs:126 *);
   mk_fn "sha384"%string "sha384::Hash"%string ""%string "hash"%string [] Public [(Shared, "u8"%string)] [(Own, "sha384::Hash"%string)] (* internal_macros.rs:158 *);
   mk_fn "sha384"%string "sha384::Hash"%string ""%string "engine"%string [] Public [] [(Own, "sha384::Engine"%string)] (* internal_macros.rs:165 *);
   mk_fn "sha384"%string "sha384::Hash"%string ""%string "from_engine"%string [] Public [(Own, "sha384::Engine"%string)] [(Own, "sha384::Hash"%string)] (* internal_macros.rs:170 *);
   mk_fn "sha384"%string "sha384::Hash"%string ""%string "from_bytes_ref"%string [] Public [(Shared, "u8"%string)] [(Shared, "sha384::Hash"%string)] (* internal_macros.rs:177 *);
   mk_fn "sha384"%string "sha384::Hash"%string ""%string "from_bytes_mut"%string [] Public [(Exclusive, "u8"%string)] [(Exclusive, "sha384::Hash"%string)] (* internal_macros.rs:184 *);
   mk_fn "sha384"%string "sha384::Hash"%string ""%string "from_slice"%string [] Public [(Shared, "u8"%string)] [(Own, "Result"%string); (Own, "sha384::Hash"%string); (Own, "FromSliceError"%string)] (* internal_macros.rs:190 *);
   mk_fn "sha384"%string "sha384::Hash"%string ""%string "from_byte_array"%string [] Public [(Own, "u8"%string)] [(Own, "sha384::Hash"%string)] (* internal_macros.rs:201 *);
   mk_fn "sha384"%string "sha384::Hash"%string ""%string "to_byte_array"%string [] Public [(Own, "sha384::Hash"%string)] [(Own, "u8"%string)] (* internal_macros.rs:204 *);
   mk_fn "sha384"%string "sha384::Hash"%string ""%string "as_byte_array"%string [] Public [(Shared, "sha384::Hash"%string)] [(Shared, "u8"%string)] (* internal_macros.rs:207 *);
   mk_fn "sha384"%string "sha384::Hash"%string ""%string "as_bytes"%string [] Public [(Shared, "sha384::Hash"%string)] [(Shared, "u8"%string)] (* internal_macros.rs:211 *);
   mk_fn "sha384"%string "sha384::Hash"%string ""%string "to_bytes"%string [CFeature "alloc"%string] Public [(Shared, "sha384::Hash"%string)] [(Own, "Vec"%string); (Own, "u8"%string)] (* internal_macros.rs:216 *);
   mk_fn "sha384"%string "sha384::Hash"%string ""%string "all_zeros"%string [] Public [] [(Own, "sha384::Hash"%string)] (* internal_macros.rs:223 *);
   mk_fn "sha384"%string "sha384::Hash"%string "JsonSchema"%string "schema_name"%string [CFeature "schemars"%string] Public [] [(Own, "String"%string)] (* internal_macros.rs:228 *);
   mk_fn "sha384"%string "sha384::Hash"%string "JsonSchema"%string "json_schema"%string [CFeature "schemars"%string] Public [(Exclusive, "schemars::gen::SchemaGenerator"%string)] [(Own, "schemars::schema::Schema"%string)] (* internal_macros.rs:230 *);
   mk_fn "sha384"%string "sha384::Hash"%string "FromStr"%string "from_str"%string [] Public [(Shared, "str"%string)] [(Own, "_export::_core::result::Result"%string); (Own, "sha384::Hash"%string); (Own, "Self::Err"%string)] (* internal_macros.rs:106 *);
   mk_fn "sha384"%string "sha384::Hash"%string "LowerHex"%string "fmt"%string [] Public [(Shared, "sha384::Hash"%string); (Exclusive, "_export::_core::fmt::Formatter"%string)] [(Own, "_export::_core::fmt::Result"%string)] (* internal_macros.rs:54 *);
   mk_fn "sha384"%string "sha384::Hash"%string "UpperHex"%string "fmt"%string [] Public [(Shared, "sha384::Hash"%string); (Exclusive, "_export::_core::fmt::Formatter"%string)] [(Own, "_export::_core::fmt::Result"%string)] (* internal_macros.rs:61 *);
   mk_fn "sha384"%string "sha384::Hash"%string "Display"%string "fmt"%string [] Public [(Shared, "sha384::Hash"%string); (Exclusive, "_export::_core::fmt::Formatter"%string)] [(Own, "_export::_core::fmt::Result"%string)] (* internal_macros.rs:68 *);
   mk_fn "sha384"%string "sha384::Hash"%string "Debug"%string "fmt"%string [] Public [(Shared, "sha384::Hash"%string); (Exclusive, "_export::_core::fmt::Formatter"%string)] [(Own, "_export::_core::fmt::Result"%string)] (* internal_macros.rs:75 *);
   mk_fn "sha384"%string "sha384::Hash"%string "SerdeHash"%string "from_slice_delegated"%string [CFeature "serde"%string] Public [(Shared, "u8"%string)] [(Own, "core::result::Result"%string); (Own, "sha384::Hash"%string); (Own, "FromSliceError"%string)] (* serde_macros.rs:115 *);
   mk_fn "sha384"%string "sha384::Hash"%string "Serialize"%string "serialize"%string [CFeature "serde"%string] Public [(Shared, "sha384::Hash"%string); (Own, "S"%string)] [(Own, "core::result::Result"%string); (Own, "S::Ok"%string); (Own, "S::Error"%string)] (* serde_macros.rs:121 *);
   mk_fn "sha384"%string "sha384::Hash"%string "Deserialize"%string "deserialize"%string [CFeature "serde"%string] Public [(Own, "D"%string)] [(Own, "core::result::Result"%string); (Own, "sha384::Hash"%string); (Own, "D::Error"%string)] (* serde_macros.rs:127 *);
   mk_fn "sha384"%string "sha384::Hash"%string "AsRef"%string "as_ref"%string [] Public [(Shared, "sha384::Hash"%string)] [(Shared, "u8"%string)] (* internal_macros.rs:12 *);
   mk_fn "sha384"%string "sha384::Hash"%string "AsRef"%string "as_ref"%string [] Public [(Shared, "sha384::Hash"%string)] [(Shared, "u8"%string)] (* internal_macros.rs:119 *);
   mk_fn "sha384"%string "sha384::Hash"%string "Index"%string "index"%string [] Public [(Shared, "sha384::Hash"%string); (Own, "I"%string)] [(Shared, "Self::Output"%string)] (* internal_macros.rs:126 *);
   mk_fn "sha384"%string "sha384::Engine"%string "Default"%string "default"%string [] Public [] [(Own, "sha384::Engine"%string)] (* sha384.rs:20 *);
   mk_fn "sha384"%string "sha384::Engine"%string "HashEngine"%string "n_bytes_hashed"%string [] Public [(Shared, "sha384::Engine"%string)] [(Own, "usize"%string)] (* sha384.rs:31 *);
   mk_fn "sha384"%string "sha384::Engine"%string "HashEngine"%string "input"%string [] Public [(Exclusive, "sha384::Engine"%string); (Shared, "u8"%string)] [] (* sha384.rs:34 *);
   mk_fn "sha384"%string "sha384::Engine"%string "HashEngine"%string "finalize"%string [] Public [(Own, "sha384::Engine"%string)] [(Own, "Self::Digest"%string)] (* sha384.rs:37 *);
   mk_fn "sha384"%string "sha384::Engine"%string "HashEngine"%string "midstate"%string [] Public [(Shared, "sha384::Engine"%string)] [(Own, "u8"%string)] (* sha384.rs:44 *);
   mk_fn "sha384"%string "sha384::Engine"%string "HashEngine"%string "from_midstate"%string [] Public [(Own, "u8"%string); (Own, "usize"%string)] [(Own, "sha384::Engine"%string)] (* sha384.rs:47 *);
   mk_fn "sha512"%string "sha512::Hash"%string ""%string "hash"%string [] Public [(Shared, "u8"%string)] [(Own, "sha512::Hash"%string)] (* internal_macros.rs:158 *);
   mk_fn "sha512"%string "sha512::Hash"%string ""%string "engine"%string [] Public [] [(Own, "sha512::Engine"%string)] (* internal_macros.rs:165 *);
   mk_fn "sha512"%string "sha512::Hash"%string ""%string "from_engine"%string [] Public [(Own, "sha512::Engine"%string)] [(Own, "sha512::Hash"%string)] (* internal_macros.rs:170 *);
   mk_fn "sha512"%string "sha512::Hash"%string ""%string "from_bytes_ref"%string [] Public [(Shared, "u8"%string)] [(Shared, "sha512::Hash"%string)] (* internal_macros.rs:177 *);
   mk_fn "sha512"%string "sha512::Hash"%string ""%string "from_bytes_mut"%string [] Public [(Exclusive, "u8"%string)] [(Exclusive, "sha512::Hash"%string)] (* internal_macros.rs:184 *);
   mk_fn "sha512"%string "sha512::Hash"%string ""%string "from_slice"%string [] Public [(Shared, "u8"%string)] [(Own, "Result"%string); (Own, "sha512::Hash"%string); (Own, "FromSliceError"%string)] (* internal_macros.rs:190 *);
   mk_fn "sha512"%string "sha512::Hash"%string ""%string "from_byte_array"%string [] Public [(Own, "u8"%string)] [(Own, "sha512::Hash"%string)] (* internal_macros.rs:201 *);
   mk_fn "sha512"%string "sha512::Hash"%string ""%string "to_byte_array"%string [] Public [(Own, "sha512::Hash"%string)] [(Own, "u8"%string)] (* internal_macros.rs:204 *);
   mk_fn "sha512"%string "sha512::Hash"%string ""%string "as_byte_array"%string [] Public [(Shared, "sha512::Hash"%string)] [(Shared, "u8"%string)] (* internal_macros.rs:207 *);
   mk_fn "sha512"%string "sha512::Hash"%string ""%string "as_bytes"%string [] Public [(Shared, "sha512::Hash"%string)] [(Shared, "u8"%string)] (* internal_macros.rs:211 *);
   mk_fn "sha512"%string "sha512::Hash"%string ""%string "to_bytes"%string [CFeature "alloc"%string] Public [(Shared, "sha512::Hash"%string)] [(Own, "Vec"%string); (Own, "u8"%string)] (* internal_macros.rs:216 *);
   mk_fn "sha512"%string "sha512::Hash"%string ""%string "all_zeros"%string [] Public [] [(Own, "sha512::Hash"%string)] (* internal_macros.rs:223 *);
   mk_fn "sha512"%string "sha512::Hash"%string "JsonSchema"%string "schema_name"%string [CFeature "schemars"%string] Public [] [(Own, "String"%string)] (* internal_macros.rs:228 *);
   mk_fn "sha512"%string "sha512::Hash"%string "JsonSchema"%string "json_schema"%string [CFeature "schemars"%string] Public [(Exclusive, "schemars::gen::SchemaGenerator"%string)] [(Own, "schemars::schema::Schema"%string)] (* internal_macros.rs:230 *);
   mk_fn "sha512"%string "sha512::Hash"%string "FromStr"%string "from_str"%string [] Public [(Shared, "str"%string)] [(Own, "_export::_core::result::Result"%string); (Own, "sha512::Hash"%string); (Own, "Self::Err"%string)] (* internal_macros.rs:106 *);
   mk_fn "sha512"%string "sha512::Hash"%string "LowerHex"%string "fmt"%string [] Public [(Shared, "sha512::Hash"%string); (Exclusive, "_export::_core::fmt::Formatter"%string)] [(Own, "_export::_core::fmt::Result"%string)] (* internal_macros.rs:54 *);
   mk_fn "sha512"%string "sha512::Hash"%string "UpperHex"%string "fmt"%string [] Public [(Shared, "sha512::Hash"%string); (Exclusive, "_export::_core::fmt::Formatter"%string)] [(Own, "_export::_core::fmt::Result"%string)] (* internal_macros.rs:61 *);
   mk_fn "sha512"%string "sha512::Hash"%string "Display"%string "fmt"%string [] Public [(Shared, "sha512::Hash"%string); (Exclusive, "_export::_core::fmt::Formatter"%string)] [(Own, "_export::_core::fmt::Result"%string)] (* internal_macros.rs:68 *);
   mk_fn "sha512"%string "sha512::Hash"%string "Debug"%string "fmt"%string [] Public [(Shared, "sha512::Hash"%string); (Exclusive, "_export::_core::fmt::Formatter"%string)] [(Own, "_export::_core::fmt::Result"%string)] (* internal_macros.rs:75 *);
   mk_fn "sha512"%string "sha512::Hash"%string "SerdeHash"%string "from_slice_delegated"%string [CFeature "serde"%string] Public [(Shared, "u8"%string)] [(Own, "core::result::Result"%string); (Own, "sha512::Hash"%string); (Own, "FromSliceError"%string)] (* serde_macros.rs:115 *);
   mk_fn "sha512"%string "sha512::Hash"%string "Serialize"%string "serialize"%string [CFeature "serde"%string] Public [(Shared, "sha512::Hash"%string); (Own, "S"%string)] [(Own, "core::result::Result"%string); (Own, "S::Ok"%string); (Own, "S::Error"%string)] (* serde_macros.rs:121 *);
   mk_fn "sha512"%string "sha512::Hash"%string "Deserialize"%string "deserialize"%string [CFeature "serde"%string] Public [(Own, "D"%string)] [(Own, "core::result::Result"%string); (Own, "sha512::Hash"%string); (Own, "D::Error"%string)] (* serde_macros.rs:127 *);
   mk_fn "sha512"%string "sha512::Hash"%string "AsRef"%string "as_ref"%string [] Public [(Shared, "sha512::Hash"%string)] [(Shared, "u8"%string)] (* internal_macros.rs:12 *);
   mk_fn "sha512"%string "sha512::Hash"%string "AsRef"%string "as_ref"%string [] Public [(Shared, "sha512::Hash"%string)] [(Shared, "u8"%string)] (* internal_macros.rs:119 *);
   mk_fn "sha512"%string "sha512::Hash"%string "Index"%string "index"%string [] Public [(Shared, "sha512::Hash"%string); (Own, "I"%string)] [(Shared, "Self::Output"%string)] (* internal_macros.rs:126 *);
   mk_fn "sha512"%string "sha512::Engine"%string "Default"%string "default"%string [] Public [] [(Own, "sha512::Engine"%string)] (* sha512.rs:26 *);
   mk_fn "sha512"%string "sha512::Engine"%string ""%string "sha512_256"%string [] InCrate [] [(Own, "sha512::Engine"%string)] (* sha512.rs:41 *);
   mk_fn "sha512"%string "sha512::Engine"%string ""%string "sha384"%string [] InCrate [] [(Own, "sha512::Engine"%string)] (* sha512.rs:54 *);
   mk_fn "sha512"%string "sha512::Engine"%string "HashEngine"%string "n_bytes_hashed"%string [] Public [(Shared, "sha512::Engine"%string)] [(Own, "usize"%string)] (* sha512.rs:72 *);
   mk_fn "sha512"%string "sha512::Engine"%string "HashEngine"%string "input"%string [CNot (CFlag "hashes_fuzz"%string)] Public [(Exclusive, "sha512::Engine"%string); (Shared, "u8"%string)] [] (* internal_macros.rs:22 *);
   mk_fn "sha512"%string "sha512::Engine"%string "HashEngine"%string "input"%string [CFlag "hashes_fuzz"%string] Public [(Exclusive, "sha512::Engine"%string); (Shared, "u8"%string)] [] (* internal_macros.rs:39 *);
   mk_fn "sha512"%string "sha512::Engine"%string "HashEngine"%string "finalize"%string [CNot (CFlag "hashes_fuzz"%string)] Public [(Own, "sha512::Engine"%string)] [(Own, "Self::Digest"%string)] (* sha512.rs:78 *);
   mk_fn "sha512"%string "sha512::Engine"%string "HashEngine"%string "finalize"%string [CFlag "hashes_fuzz"%string] Public [(Own, "sha512::Engine"%string)] [(Own, "Self::Digest"%string)] (* sha512.rs:99 *);
   mk_fn "sha512"%string "sha512::Engine"%string "HashEngine"%string "midstate"%string [CNot (CFlag "hashes_fuzz"%string)] Public [(Shared, "sha512::Engine"%string)] [(Own, "Self::Midstate"%string)] (* sha512.rs:107 *);
   mk_fn "sha512"%string "sha512::Engine"%string "HashEngine"%string "midstate"%string [CFlag "hashes_fuzz"%string] Public [(Shared, "sha512::Engine"%string)] [(Own, "Self::Midstate"%string)] (* sha512.rs:116 *);
   mk_fn "sha512"%string "sha512::Engine"%string "HashEngine"%string "from_midstate"%string [] Public [(Own, "Self::Midstate"%string); (Own, "usize"%string)] [(Own, "sha512::Engine"%string)] (* sha512.rs:123 *);
   mk_fn "sha512"%string ""%string ""%string "Ch"%string [] Private [(Own, "u64"%string); (Own, "u64"%string); (Own, "u64"%string)] [(Own, "u64"%string)] (* sha512.rs:136 *);
   mk_fn "sha512"%string ""%string ""%string "Maj"%string [] Private [(Own, "u64"%string); (Own, "u64"%string); (Own, "u64"%string)] [(Own, "u64"%string)] (* sha512.rs:138 *);
   mk_fn "sha512"%string ""%string ""%string "Sigma0"%string [] Private [(Own, "u64"%string)] [(Own, "u64"%string)] (* sha512.rs:140 *);
   mk_fn "sha512"%string ""%string ""%string "Sigma1"%string [] Private [(Own, "u64"%string)] [(Own, "u64"%string)] (* sha512.rs:142 *);
   mk_fn "sha512"%string ""%string ""%string "sigma0"%string [] Private [(Own, "u64"%string)] [(Own, "u64"%string)] (* sha512.rs:143 *);
   mk_fn "sha512"%string ""%string ""%string "sigma1"%string [] Private [(Own, "u64"%string)] [(Own, "u64"%string)] (* sha512.rs:144 *);
   mk_fn "sha512"%string ""%string ""%string "round"%string [CFeature "small-hash"%string] InCrate [(Own, "u64"%string); (Own, "u64"%string); (Own, "u64"%string); (Exclusive, "u64"%string); (Own, "u64"%string); (Own, "u64"%string); (Own, "u64"%string); (Exclusive, "u64"%string); (Own, "u64"%string); (Own, "u64"%string)] [] (* sha512.rs:152 *);
   mk_fn "sha512"%string ""%string ""%string "later_round"%string [CFeature "small-hash"%string] InCrate [(Own, "u64"%string); (Own, "u64"%string); (Own, "u64"%string); (Exclusive, "u64"%string); (Own, "u64"%string); (Own, "u64"%string); (Own, "u64"%string); (Exclusive, "u64"%string); (Own, "u64"%string); (Own, "u64"%string); (Own, "u64"%string); (Own, "u64"%string); (Own, "u64"%string)] [(Own, "u64"%string)] (* sha512.rs:162 *);
   mk_fn "sha512"%string "sha512::Engine"%string ""%string "process_block"%string [] InCrate [(Exclusive, "sha512::Engine"%string)] [] (* sha512.rs:204 *);
   mk_fn "sha512_256"%string "sha512_256::Hash"%string ""%string "hash"%string [] Public [(Shared, "u8"%string)] [(Own, "sha512_256::Hash"%string)] (* internal_macros.rs:158 *);
   mk_fn "sha512_256"%string "sha512_256::Hash"%string ""%string "engine"%string [] Public [] [(Own, "sha512_256::Engine"%string)] (* internal_macros.rs:165 *);
   mk_fn "sha512_256"%string "sha512_256::Hash"%string ""%string "from_engine"%string [] Public [(Own, "sha512_256::Engine"%string)] [(Own, "sha512_256::Hash"%string)] (* internal_macros.rs:170 *);
   mk_fn "sha512_256"%string "sha512_256::Hash"%string ""%string "from_bytes_ref"%string [] Public [(Shared, "u8"%string)] [(Shared, "sha512_256::Hash"%string)] (* internal_macros.rs:177 *);
   mk_fn "sha512_256"%string "sha512_256::Hash"%string ""%string "from_bytes_mut"%string [] Public [(Exclusive, "u8"%string)] [(Exclusive, "sha512_256::Hash"%string)] (* internal_macros.rs:184 *);
   mk_fn "sha512_256"%string "sha512_256::Hash"%string ""%string "from_slice"%string [] Public [(Shared, "u8"%string)] [(Own, "Result"%string); (Own, "sha512_256::Hash"%string); (Own, "FromSliceError"%string)] (* internal_macros.rs:190 *);
   mk_fn "sha512_256"%string "sha512_256::Hash"%string ""%string "from_byte_array"%string [] Public [(Own, "u8"%string)] [(Own, "sha512_256::Hash"%string)] (* internal_macros.rs:201 *);
   mk_fn "sha512_256"%string "sha512_256::Hash"%string ""%string "to_byte_array"%string [] Public [(Own, "sha512_256::Hash"%string)] [(Own, "u8"%string)] (* internal_macros.rs:204 *);
   mk_fn "sha512_256"%string "sha512_256::Hash"%string ""%string "as_byte_array"%string [] Public [(Shared, "sha512_256::Hash"%string)] [(Shared, "u8"%string)] (* internal_macros.rs:207 *);
   mk_fn "sha512_256"%string "sha512_256::Hash"%string ""%string "as_bytes"%string [] Public [(Shared, "sha512_256::Hash"%string)] [(Shared, "u8"%string)] (* internal_macros.rs:211 *);
   mk_fn "sha512_256"%string "sha512_256::Hash"%string ""%string "to_bytes"%string [CFeature "alloc"%string] Public [(Shared, "sha512_256::Hash"%string)] [(Own, "Vec"%string); (Own, "u8"%string)] (* internal_macros.rs:216 *);
   mk_fn "sha512_256"%string "sha512_256::Hash"%string ""%string "all_zeros"%string [] Public [] [(Own, "sha512_256::Hash"%string)] (* internal_macros.rs:223 *);
   mk_fn "sha512_256"%string "sha512_256::Hash"%string "JsonSchema"%string "schema_name"%string [CFeature "schemars"%string] Public [] [(Own, "String"%string)] (* internal_macros.rs:228 *);
   mk_fn "sha512_256"%string "sha512_256::Hash"%string "JsonSchema"%string "json_schema"%string [CFeature "schemars"%string] Public [(Exclusive, "schemars::gen::SchemaGenerator"%string)] [(Own, "schemars::schema::Schema"%string)] (* internal_macros.rs:230 *);
   mk_fn "sha512_256"%string "sha512_256::Hash"%string "FromStr"%string "from_str"%string [] Public [(Shared, "str"%string)] [(Own, "_export::_core::result::Result"%string); (Own, "sha512_256::Hash"%string); (Own, "Self::Err"%string)] (* internal_macros.rs:106 *);
   mk_fn "sha512_256"%string "sha512_256::Hash"%string "LowerHex"%string "fmt"%string [] Public [(Shared, "sha512_256::Hash"%string); (Exclusive, "_export::_core::fmt::Formatter"%string)] [(Own, "_export::_core::fmt::Result"%string)] (* internal_macros.rs:54 *);
   mk_fn "sha512_256"%string "sha512_256::Hash"%string "UpperHex"%string "fmt"%string [] Public [(Shared, "sha512_256::Hash"%string); (Exclusive, "_export::_core::fmt::Formatter"%string)] [(Own, "_export::_core::fmt::Result"%string)] (* internal_macros.rs:61 *);
   mk_fn "sha512_256"%string "sha512_256::Hash"%string "Display"%string "fmt"%string [] Public [(Shared, "sha512_256::Hash"%string); (Exclusive, "_export::_core::fmt::Formatter"%string)] [(Own, "_export::_core::fmt::Result"%string)] (* internal_macros.rs:68 *);
   mk_fn "sha512_256"%string "sha512_256::Hash"%string "Debug"%string "fmt"%string [] Public [(Shared, "sha512_256::Hash"%string); (Exclusive, "_export::_core::fmt::Formatter"%string)] [(Own, "_export::_core::fmt::Result"%string)] (* internal_macros.rs:75 *);
   mk_fn "sha512_256"%string "sha512_256::Hash"%string "SerdeHash"%string "from_slice_delegated"%string [CFeature "serde"%string] Public [(Shared, "u8"%string)] [(Own, "core::result::Result"%string); (Own, "sha512_256::Hash"%string); (Own, "FromSliceError"%string)] (* serde_macros.rs:115 *);
   mk_fn "sha512_256"%string "sha512_256::Hash"%string "Serialize"%string "serialize"%string [CFeature "serde"%string] Public [(Shared, "sha512_256::Hash"%string); (Own, "S"%string)] [(Own, "core::result::Result"%string); (Own, "S::Ok"%string); (Own, "S::Error"%string)] (* serde_macros.rs:121 *);
   mk_fn "sha512_256"%string "sha512_256::Hash"%string "Deserialize"%string "deserialize"%string [CFeature "serde"%string] Public [(Own, "D"%string)] [(Own, "core::result::Result"%string); (Own, "sha512_256::Hash"%string); (Own, "D::Error"%string)] (* serde_macros.rs:127 *);
   mk_fn "sha512_256"%string "sha512_256::Hash"%string "AsRef"%string "as_ref"%string [] Public [(Shared, "sha512_256::Hash"%string)] [(Shared, "u8"%string)] (* internal_macros.rs:12 *);
   mk_fn "sha512_256"%string "sha512_256::Hash"%string "AsRef"%string "as_ref"%string [] Public [(Shared, "sha512_256::Hash"%string)] [(Shared, "u8"%string)] (* internal_macros.rs:119 *);
   mk_fn "sha512_256"%string "sha512_256::Hash"%string "Index"%string "index"%string [] Public [(Shared, "sha512_256::Hash"%string); (Own, "I"%string)] [(Shared, "Self::Output"%string)] (* internal_macros.rs:126 *);
   mk_fn "sha512_256"%string "sha512_256::Engine"%string "Default"%string "default"%string [] Public [] [(Own, "sha512_256::Engine"%string)] (* sha512_256.rs:30 *);
   mk_fn "sha512_256"%string "sha512_256::Engine"%string "HashEngine"%string "n_bytes_hashed"%string [] Public [(Shared, "sha512_256::Engine"%string)] [(Own, "usize"%string)] (* sha512_256.rs:41 *);
   mk_fn "sha512_256"%string "sha512_256::Engine"%string "HashEngine"%string "input"%string [] Public [(Exclusive, "sha512_256::Engine"%string); (Shared, "u8"%string)] [] (* sha512_256.rs:44 *);
   mk_fn "sha512_256"%string "sha512_256::Engine"%string "HashEngine"%string "finalize"%string [] Public [(Own, "sha512_256::Engine"%string)] [(Own, "Self::Digest"%string)] (* sha512_256.rs:47 *);
   mk_fn "sha512_256"%string "sha512_256::Engine"%string "HashEngine"%string "midstate"%string [] Public [(Shared, "sha512_256::Engine"%string)] [(Own, "u8"%string)] (* sha512_256.rs:55 *);
   mk_fn "sha512_256"%string "sha512_256::Engine"%string "HashEngine"%string "from_midstate"%string [] Public [(Own, "u8"%string); (Own, "usize"%string)] [(Own, "sha512_256::Engine"%string)] (* sha512_256.rs:58 *);
   mk_fn "siphash24"%string "siphash24::Hash"%string ""%string "hash"%string [] Public [(Shared, "u8"%string)] [(Own, "siphash24::Hash"%string)] (* internal_macros.rs:158 *);
   mk_fn "siphash24"%string "siphash24::Hash"%string ""%string "engine"%string [] Public [] [(Own, "siphash24::Engine"%string)] (* internal_macros.rs:165 *);
   mk_fn "siphash24"%string "siphash24::Hash"%string ""%string "from_engine"%string [] Public [(Own, "siphash24::Engine"%string)] [(Own, "siphash24::Hash"%string)] (* internal_macros.rs:170 *);
   mk_fn "siphash24"%string "siphash24::Hash"%string ""%string "from_bytes_ref"%string [] Public [(Shared, "u8"%string)] [(Shared, "siphash24::Hash"%string)] (* internal_macros.rs:177 *);
   mk_fn "siphash24"%string "siphash24::Hash"%string ""%string "from_bytes_mut"%string [] Public [(Exclusive, "u8"%string)] [(Exclusive, "siphash24::Hash"%string)] (* internal_macros.rs:184 *);
   mk_fn "siphash24"%string "siphash24::Hash"%string ""%string "from_slice"%string [] Public [(Shared, "u8"%string)] [(Own, "Result"%string); (Own, "siphash24::Hash"%string); (Own, "FromSliceError"%string)] (* internal_macros.rs:190 *);
   mk_fn "siphash24"%string "siphash24::Hash"%string ""%string "from_byte_array"%string [] Public [(Own, "u8"%string)] [(Own, "siphash24::Hash"%string)] (* internal_macros.rs:201 *);
   mk_fn "siphash24"%string "siphash24::Hash"%string ""%string "to_byte_array"%string [] Public [(Own, "siphash24::Hash"%string)] [(Own, "u8"%string)] (* internal_macros.rs:204 *);
   mk_fn "siphash24"%string "siphash24::Hash"%string ""%string "as_byte_array"%string [] Public [(Shared, "siphash24::Hash"%string)] [(Shared, "u8"%string)] (* internal_macros.rs:207 *);
   mk_fn "siphash24"%string "siphash24::Hash"%string ""%string "as_bytes"%string [] Public [(Shared, "siphash24::Hash"%string)] [(Shared, "u8"%string)] (* internal_macros.rs:211 *);
   mk_fn "siphash24"%string "siphash24::Hash"%string ""%string "to_bytes"%string [CFeature "alloc"%string] Public [(Shared, "siphash24::Hash"%string)] [(Own, "Vec"%string); (Own, "u8"%string)] (* internal_macros.rs:216 *);
   mk_fn "siphash24"%string "siphash24::Hash"%string ""%string "all_zeros"%string [] Public [] [(Own, "siphash24::Hash"%string)] (* internal_macros.rs:223 *);
   mk_fn "siphash24"%string "siphash24::Hash"%string "JsonSchema"%string "schema_name"%string [CFeature "schemars"%string] Public [] [(Own, "String"%string)] (* internal_macros.rs:228 *);
   mk_fn "siphash24"%string "siphash24::Hash"%string "JsonSchema"%string "json_schema"%string [CFeature "schemars"%string] Public [(Exclusive, "schemars::gen::SchemaGenerator"%string)] [(Own, "schemars::schema::Schema"%string)] (* internal_macros.rs:230 *);
   mk_fn "siphash24"%string "siphash24::Hash"%string "FromStr"%string "from_str"%string [] Public [(Shared, "str"%string)] [(Own, "_export::_core::result::Result"%string); (Own, "siphash24::Hash"%string); (Own, "Self::Err"%string)] (* internal_macros.rs:106 *);
   mk_fn "siphash24"%string "siphash24::Hash"%string "LowerHex"%string "fmt"%string [] Public [(Shared, "siphash24::Hash"%string); (Exclusive, "_export::_core::fmt::Formatter"%string)] [(Own, "_export::_core::fmt::Result"%string)] (* internal_macros.rs:54 *);
   mk_fn "siphash24"%string "siphash24::Hash"%string "UpperHex"%string "fmt"%string [] Public [(Shared, "siphash24::Hash"%string); (Exclusive, "_export::_core::fmt::Formatter"%string)] [(Own, "_export::_core::fmt::Result"%string)] (* internal_macros.rs:61 *);
   mk_fn "siphash24"%string "siphash24::Hash"%string "Display"%string "fmt"%string [] Public [(Shared, "siphash24::Hash"%string); (Exclusive, "_export::_core::fmt::Formatter"%string)] [(Own, "_export::_core::fmt::Result"%string)] (* internal_macros.rs:68 *);
   mk_fn "siphash24"%string "siphash24::Hash"%string "Debug"%string "fmt"%string [] Public [(Shared, "siphash24::Hash"%string); (Exclusive, "_export::_core::fmt::Formatter"%string)] [(Own, "_export::_core::fmt::Result"%string)] (* internal_macros.rs:75 *);
   mk_fn "siphash24"%string "siphash24::Hash"%string "SerdeHash"%string "from_slice_delegated"%string [CFeature "serde"%string] Public [(Shared, "u8"%string)] [(Own, "core::result::Result"%string); (Own, "siphash24::Hash"%string); (Own, "FromSliceError"%string)] (* serde_macros.rs:115 *);
   mk_fn "siphash24"%string "siphash24::Hash"%string "Serialize"%string "serialize"%string [CFeature "serde"%string] Public [(Shared, "siphash24::Hash"%string); (Own, "S"%string)] [(Own, "core::result::Result"%string); (Own, "S::Ok"%string); (Own, "S::Error"%string)] (* serde_macros.rs:121 *);
   mk_fn "siphash24"%string "siphash24::Hash"%string "Deserialize"%string "deserialize"%string [CFeature "serde"%string] Public [(Own, "D"%string)] [(Own, "core::result::Result"%string); (Own, "siphash24::Hash"%string); (Own, "D::Error"%string)] (* serde_macros.rs:127 *);
   mk_fn "siphash24"%string "siphash24::Hash"%string "AsRef"%string "as_ref"%string [] Public [(Shared, "siphash24::Hash"%string)] [(Shared, "u8"%string)] (* internal_macros.rs:12 *);
   mk_fn "siphash24"%string "siphash24::Hash"%string "AsRef"%string "as_ref"%string [] Public [(Shared, "siphash24::Hash"%string)] [(Shared, "u8"%string)] (* internal_macros.rs:119 *);
   mk_fn "siphash24"%string "siphash24::Hash"%string "Index"%string "index"%string [] Public [(Shared, "siphash24::Hash"%string); (Own, "I"%string)] [(Shared, "Self::Output"%string)] (* internal_macros.rs:126 *);
   mk_fn "siphash24"%string "siphash24::Engine"%string ""%string "with_keys"%string [] Public [(Own, "u64"%string); (Own, "u64"%string)] [(Own, "siphash24::Engine"%string)] (* siphash24.rs:81 *);
   mk_fn "siphash24"%string "siphash24::Engine"%string ""%string "new"%string [] Public [] [(Own, "siphash24::Engine"%string)] (* siphash24.rs:99 *);
   mk_fn "siphash24"%string "siphash24::Engine"%string ""%string "keys"%string [] Public [(Shared, "siphash24::Engine"%string)] [(Own, "u64"%string); (Own, "u64"%string)] (* siphash24.rs:102 *);
   mk_fn "siphash24"%string "siphash24::Engine"%string ""%string "c_rounds"%string [] Private [(Exclusive, "siphash24::State"%string)] [] (* siphash24.rs:105 *);
   mk_fn "siphash24"%string "siphash24::Engine"%string ""%string "d_rounds"%string [] Private [(Exclusive, "siphash24::State"%string)] [] (* siphash24.rs:111 *);
   mk_fn "siphash24"%string "siphash24::Engine"%string "Default"%string "default"%string [] Public [] [(Own, "siphash24::Engine"%string)] (* siphash24.rs:120 *);
   mk_fn "siphash24"%string "siphash24::Engine"%string "HashEngine"%string "n_bytes_hashed"%string [] Public [(Shared, "siphash24::Engine"%string)] [(Own, "usize"%string)] (* siphash24.rs:129 *);
   mk_fn "siphash24"%string "siphash24::Engine"%string "HashEngine"%string "input"%string [] Public [(Exclusive, "siphash24::Engine"%string); (Shared, "u8"%string)] [] (* siphash24.rs:133 *);
   mk_fn "siphash24"%string "siphash24::Engine"%string "HashEngine"%string "finalize"%string [CNot (CFlag "hashes_fuzz"%string)] Public [(Own, "siphash24::Engine"%string)] [(Own, "Self::Digest"%string)] (* siphash24.rs:175 *);
   mk_fn "siphash24"%string "siphash24::Engine"%string "HashEngine"%string "finalize"%string [CFlag "hashes_fuzz"%string] Public [(Own, "siphash24::Engine"%string)] [(Own, "Self::Digest"%string)] (* siphash24.rs:192 *);
   mk_fn "siphash24"%string "siphash24::Engine"%string "HashEngine"%string "midstate"%string [] Public [(Shared, "siphash24::Engine"%string)] [(Own, "siphash24::State"%string)] (* siphash24.rs:199 *);
   mk_fn "siphash24"%string "siphash24::Engine"%string "HashEngine"%string "from_midstate"%string [] Public [(Own, "Self::Midstate"%string); (Own, "usize"%string)] [(Own, "siphash24::Engine"%string)] (* siphash24.rs:202 *);
   mk_fn "siphash24"%string "siphash24::Hash"%string ""%string "hash_with_keys"%string [] Public [(Own, "u64"%string); (Own, "u64"%string); (Shared, "u8"%string)] [(Own, "siphash24::Hash"%string)] (* siphash24.rs:209 *);
   mk_fn "siphash24"%string "siphash24::Hash"%string ""%string "hash_to_u64_with_keys"%string [] Public [(Own, "u64"%string); (Own, "u64"%string); (Shared, "u8"%string)] [(Own, "u64"%string)] (* siphash24.rs:216 *);
   mk_fn "siphash24"%string "siphash24::Hash"%string ""%string "from_engine_to_u64"%string [] Public [(Own, "siphash24::Engine"%string)] [(Own, "u64"%string)] (* siphash24.rs:224 *);
   mk_fn "siphash24"%string "siphash24::Hash"%string ""%string "as_u64"%string [] Public [(Shared, "siphash24::Hash"%string)] [(Own, "u64"%string)] (* siphash24.rs:240 *);
   mk_fn "siphash24"%string "siphash24::Hash"%string ""%string "from_u64"%string [] Public [(Own, "u64"%string)] [(Own, "siphash24::Hash"%string)] (* siphash24.rs:243 *);
   mk_fn "siphash24"%string ""%string ""%string "u8to64_le"%string [] Private [(Shared, "u8"%string); (Own, "usize"%string); (Own, "usize"%string)] [(Own, "u64"%string)] (* siphash24.rs:250 *)].
