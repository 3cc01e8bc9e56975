(** Generated by tools/rs2v_build.py from the Rust source and Cargo.toml; do not edit. *)
From Coq Require Import Strings.String.
From Verif Require Import Base ModelEngine GenBase GenSha256 BuildBase.
Open Scope list_scope.

(** cfg_attr(.., no_std), src/lib.rs *)
Definition g_no_std : cfg_pred := CAll [CNot (CFlag "test"%string); CNot (CFeature "std"%string)].

(** src/cmp.rs *)
Definition g_items_cmp : list item :=
  [mk_item KFn ""%string "fixed_time_eq"%string [] [] [NRoot "core"%string] (* 17 *);
   mk_item KFn ""%string "eq_test"%string [] [] [] (* 56 *);
   mk_item KMod ""%string "benches"%string [] [CFlag "bench"%string] [] (* 93 *);
   mk_item KUse "mod benches"%string "usetest::Bencher"%string [CFlag "bench"%string] [] [NRoot "test"%string] (* 94 *);
   mk_item KUse "mod benches"%string "usecrate::cmp::fixed_time_eq"%string [CFlag "bench"%string] [] [] (* 96 *);
   mk_item KUse "mod benches"%string "usecrate::"%string [CFlag "bench"%string] [] [] (* 97 *);
   mk_item KOther "mod benches"%string ""%string [CFlag "bench"%string] [] [] (* 97 *);
   mk_item KFn "mod benches"%string "bench_32b_constant_time_cmp_ne"%string [CFlag "bench"%string] [] [] (* 100 *);
   mk_item KFn "mod benches"%string "bench_32b_slice_cmp_ne"%string [CFlag "bench"%string] [] [] (* 107 *);
   mk_item KFn "mod benches"%string "bench_32b_constant_time_cmp_eq"%string [CFlag "bench"%string] [] [] (* 114 *);
   mk_item KFn "mod benches"%string "bench_32b_slice_cmp_eq"%string [CFlag "bench"%string] [] [] (* 121 *);
   mk_item KFn "mod benches"%string "bench_64b_constant_time_cmp_ne"%string [CFlag "bench"%string] [] [] (* 128 *);
   mk_item KFn "mod benches"%string "bench_64b_slice_cmp_ne"%string [CFlag "bench"%string] [] [] (* 135 *);
   mk_item KFn "mod benches"%string "bench_64b_constant_time_cmp_eq"%string [CFlag "bench"%string] [] [] (* 142 *);
   mk_item KFn "mod benches"%string "bench_64b_slice_cmp_eq"%string [CFlag "bench"%string] [] [] (* 149 *)].

(** src/hmac.rs *)
Definition g_items_hmac : list item :=
  [mk_item KUse ""%string "usecore::"%string [] [] [NRoot "core"%string] (* 11 *);
   mk_item KOther ""%string ""%string [] [] [] (* 11 *);
   mk_item KUse ""%string "usehex::DisplayHex"%string [] [] [NRoot "hex"%string] (* 13 *);
   mk_item KUse ""%string "usecrate::"%string [] [] [] (* 15 *);
   mk_item KOther ""%string ""%string [] [] [] (* 15 *);
   mk_item KStruct ""%string "Hash"%string [] [] [] (* 19 *);
   mk_item KOther ""%string "impl < const N : usize > Hash < N >"%string [] [] [] (* 21 *);
   mk_item KFn "impl < const N : usize > Hash < N >"%string "engine"%string [] [] [] (* 23 *);
   mk_item KFn "impl < const N : usize > Hash < N >"%string "from_engine"%string [] [] [] (* 33 *);
   mk_item KFn "impl < const N : usize > Hash < N >"%string "from_bytes_ref"%string [] [] [] (* 43 *);
   mk_item KFn "impl < const N : usize > Hash < N >"%string "from_bytes_mut"%string [] [] [] (* 50 *);
   mk_item KFn "impl < const N : usize > Hash < N >"%string "from_slice"%string [] [] [] (* 56 *);
   mk_item KFn "impl < const N : usize > Hash < N >"%string "from_byte_array"%string [] [] [] (* 67 *);
   mk_item KFn "impl < const N : usize > Hash < N >"%string "to_byte_array"%string [] [] [] (* 70 *);
   mk_item KFn "impl < const N : usize > Hash < N >"%string "as_byte_array"%string [] [] [] (* 73 *);
   mk_item KFn "impl < const N : usize > Hash < N >"%string "as_bytes"%string [] [] [] (* 76 *);
   mk_item KFn "impl < const N : usize > Hash < N >"%string "to_bytes"%string [] [CFeature "alloc"%string] [NPrelude "Vec"%string; NHeap] (* 80 *);
   mk_item KFn "impl < const N : usize > Hash < N >"%string "all_zeros"%string [] [] [] (* 87 *);
   mk_item KImpl ""%string "impl < const N : usize > schemars :: JsonSchema for Hash < N >"%string [] [CFeature "schemars"%string] [NRoot "schemars"%string] (* 91 *);
   mk_item KFn "impl < const N : usize > schemars :: JsonSchema for Hash < N >"%string "schema_name"%string [CFeature "schemars"%string] [] [NRoot "std"%string; NPrelude "to_owned"%string] (* 92 *);
   mk_item KFn "impl < const N : usize > schemars :: JsonSchema for Hash < N >"%string "json_schema"%string [CFeature "schemars"%string] [] [NRoot "schemars"%string; NPrelude "String"%string; NPrelude "Box"%string; NPrelude "to_owned"%string; NFn "hmac"%string "json_schema"%string] (* 94 *);
   mk_item KImpl ""%string "impl < const N : usize > str :: FromStr for Hash < N >"%string [] [] [] (* 105 *);
   mk_item KType "impl < const N : usize > str :: FromStr for Hash < N >"%string "Err"%string [] [] [NRoot "hex"%string] (* 106 *);
   mk_item KFn "impl < const N : usize > str :: FromStr for Hash < N >"%string "from_str"%string [] [] [NRoot "hex"%string] (* 107 *);
   mk_item KImpl ""%string "impl < const N : usize > fmt :: Display for Hash < N >"%string [] [] [] (* 115 *);
   mk_item KFn "impl < const N : usize > fmt :: Display for Hash < N >"%string "fmt"%string [] [] [] (* 116 *);
   mk_item KImpl ""%string "impl < const N : usize > fmt :: Debug for Hash < N >"%string [] [] [] (* 119 *);
   mk_item KFn "impl < const N : usize > fmt :: Debug for Hash < N >"%string "fmt"%string [] [] [] (* 120 *);
   mk_item KImpl ""%string "impl < const N : usize > fmt :: LowerHex for Hash < N >"%string [] [] [] (* 123 *);
   mk_item KFn "impl < const N : usize > fmt :: LowerHex for Hash < N >"%string "fmt"%string [] [] [] (* 124 *);
   mk_item KImpl ""%string "impl < const N : usize > fmt :: UpperHex for Hash < N >"%string [] [] [] (* 130 *);
   mk_item KFn "impl < const N : usize > fmt :: UpperHex for Hash < N >"%string "fmt"%string [] [] [] (* 131 *);
   mk_item KImpl ""%string "impl < const N : usize > ops :: Index < usize > for Hash < N >"%string [] [] [] (* 136 *);
   mk_item KType "impl < const N : usize > ops :: Index < usize > for Hash < N >"%string "Output"%string [] [] [] (* 137 *);
   mk_item KFn "impl < const N : usize > ops :: Index < usize > for Hash < N >"%string "index"%string [] [] [] (* 138 *);
   mk_item KImpl ""%string "impl < const N : usize > ops :: Index < ops :: Range < usize >> for Hash < N >"%string [] [] [] (* 141 *);
   mk_item KType "impl < const N : usize > ops :: Index < ops :: Range < usize >> for Hash < N >"%string "Output"%string [] [] [] (* 142 *);
   mk_item KFn "impl < const N : usize > ops :: Index < ops :: Range < usize >> for Hash < N >"%string "index"%string [] [] [] (* 143 *);
   mk_item KImpl ""%string "impl < const N : usize > ops :: Index < ops :: RangeFrom < usize >> for Hash < N >"%string [] [] [] (* 146 *);
   mk_item KType "impl < const N : usize > ops :: Index < ops :: RangeFrom < usize >> for Hash < N >"%string "Output"%string [] [] [] (* 147 *);
   mk_item KFn "impl < const N : usize > ops :: Index < ops :: RangeFrom < usize >> for Hash < N >"%string "index"%string [] [] [] (* 148 *);
   mk_item KImpl ""%string "impl < const N : usize > ops :: Index < ops :: RangeTo < usize >> for Hash < N >"%string [] [] [] (* 151 *);
   mk_item KType "impl < const N : usize > ops :: Index < ops :: RangeTo < usize >> for Hash < N >"%string "Output"%string [] [] [] (* 152 *);
   mk_item KFn "impl < const N : usize > ops :: Index < ops :: RangeTo < usize >> for Hash < N >"%string "index"%string [] [] [] (* 153 *);
   mk_item KImpl ""%string "impl < const N : usize > ops :: Index < ops :: RangeFull > for Hash < N >"%string [] [] [] (* 156 *);
   mk_item KType "impl < const N : usize > ops :: Index < ops :: RangeFull > for Hash < N >"%string "Output"%string [] [] [] (* 157 *);
   mk_item KFn "impl < const N : usize > ops :: Index < ops :: RangeFull > for Hash < N >"%string "index"%string [] [] [] (* 158 *);
   mk_item KImpl ""%string "impl < const N : usize > AsRef < [ u8 ] > for Hash < N >"%string [] [] [] (* 161 *);
   mk_item KFn "impl < const N : usize > AsRef < [ u8 ] > for Hash < N >"%string "as_ref"%string [] [] [] (* 162 *);
   mk_item KImpl ""%string "impl < const N : usize > crate :: serde_macros :: serde_details :: SerdeHash for Hash < N >"%string [] [CFeature "serde"%string] [] (* 166 *);
   mk_item KConst "impl < const N : usize > crate :: serde_macros :: serde_details :: SerdeHash for Hash < N >"%string "N"%string [CFeature "serde"%string] [] [] (* 167 *);
   mk_item KFn "impl < const N : usize > crate :: serde_macros :: serde_details :: SerdeHash for Hash < N >"%string "from_slice_delegated"%string [CFeature "serde"%string] [] [] (* 168 *);
   mk_item KImpl ""%string "impl < const N : usize > serde :: Serialize for Hash < N >"%string [] [CFeature "serde"%string] [NRoot "serde"%string] (* 172 *);
   mk_item KFn "impl < const N : usize > serde :: Serialize for Hash < N >"%string "serialize"%string [CFeature "serde"%string] [] [NRoot "serde"%string; NFn "hmac"%string "serialize"%string] (* 173 *);
   mk_item KImpl ""%string "impl < 'de , const N : usize > crate :: serde :: Deserialize < 'de > for Hash < N >"%string [] [CFeature "serde"%string] [NRoot "serde"%string] (* 179 *);
   mk_item KFn "impl < 'de , const N : usize > crate :: serde :: Deserialize < 'de > for Hash < N >"%string "deserialize"%string [CFeature "serde"%string] [] [NRoot "serde"%string; NFn "hmac"%string "deserialize"%string] (* 180 *);
   mk_item KStruct ""%string "MidState"%string [] [] [] (* 186 *);
   mk_item KStruct ""%string "Engine"%string [] [] [] (* 195 *);
   mk_item KImpl ""%string "impl < E : HashEngine > Default for Engine < E >"%string [] [] [] (* 200 *);
   mk_item KFn "impl < E : HashEngine > Default for Engine < E >"%string "default"%string [] [] [] (* 201 *);
   mk_item KOther ""%string "impl < E : HashEngine > Engine < E >"%string [] [] [] (* 204 *);
   mk_item KFn "impl < E : HashEngine > Engine < E >"%string "new"%string [] [] [] (* 212 *);
   mk_item KImpl ""%string "impl < E : HashEngine > HashEngine for Engine < E >"%string [] [] [] (* 242 *);
   mk_item KType "impl < E : HashEngine > HashEngine for Engine < E >"%string "Digest"%string [] [] [] (* 243 *);
   mk_item KType "impl < E : HashEngine > HashEngine for Engine < E >"%string "Midstate"%string [] [] [] (* 244 *);
   mk_item KConst "impl < E : HashEngine > HashEngine for Engine < E >"%string "BLOCK_SIZE"%string [] [] [] (* 245 *);
   mk_item KFn "impl < E : HashEngine > HashEngine for Engine < E >"%string "input"%string [] [] [] (* 248 *);
   mk_item KFn "impl < E : HashEngine > HashEngine for Engine < E >"%string "n_bytes_hashed"%string [] [] [] (* 251 *);
   mk_item KFn "impl < E : HashEngine > HashEngine for Engine < E >"%string "finalize"%string [] [] [] (* 254 *);
   mk_item KFn "impl < E : HashEngine > HashEngine for Engine < E >"%string "midstate"%string [] [] [] (* 261 *);
   mk_item KFn "impl < E : HashEngine > HashEngine for Engine < E >"%string "from_midstate"%string [] [] [] (* 266 *);
   mk_item KStruct ""%string "Midstate"%string [] [] [] (* 277 *);
   mk_item KMod ""%string "tests"%string [] [CFlag "test"%string] [] (* 285 *);
   mk_item KFn "mod tests"%string "test"%string [CFlag "test"%string] [CFeature "alloc"%string] [NPrelude "Vec"%string; NPrelude "vec"%string] (* 288 *);
   mk_item KFn "mod tests"%string "hmac_sha512_serde"%string [CFlag "test"%string] [CFeature "serde"%string] [NRoot "serde_test"%string] (* 415 *);
   mk_item KFn "mod tests"%string "debug"%string [CFlag "test"%string] [] [NPrelude "println"%string] (* 445 *);
   mk_item KMod ""%string "benches"%string [] [CFlag "bench"%string] [] (* 458 *);
   mk_item KUse "mod benches"%string "usetest::Bencher"%string [CFlag "bench"%string] [] [NRoot "test"%string] (* 459 *);
   mk_item KUse "mod benches"%string "usecrate::"%string [CFlag "bench"%string] [] [] (* 461 *);
   mk_item KOther "mod benches"%string ""%string [CFlag "bench"%string] [] [] (* 461 *);
   mk_item KFn "mod benches"%string "hmac_sha256_10"%string [CFlag "bench"%string] [] [] (* 464 *);
   mk_item KFn "mod benches"%string "hmac_sha256_1k"%string [CFlag "bench"%string] [] [] (* 474 *);
   mk_item KFn "mod benches"%string "hmac_sha256_64k"%string [CFlag "bench"%string] [] [] (* 484 *)].

(** src/impls.rs *)
Definition g_items_impls : list item :=
  [mk_item KUse ""%string "usebitcoin_io::impl_write"%string [CFeature "bitcoin-io"%string] [] [NRoot "bitcoin_io"%string] (* 8 *);
   mk_item KUse ""%string "usecrate::"%string [CFeature "bitcoin-io"%string] [] [] (* 10 *);
   mk_item KOther ""%string ""%string [CFeature "bitcoin-io"%string] [] [] (* 10 *);
   mk_item KOther ""%string ""%string [CFeature "bitcoin-io"%string] [] [NRoot "bitcoin_io"%string] (* 12 *);
   mk_item KOther ""%string ""%string [CFeature "bitcoin-io"%string] [] [NRoot "bitcoin_io"%string] (* 21 *);
   mk_item KOther ""%string ""%string [CFeature "bitcoin-io"%string] [] [NRoot "bitcoin_io"%string] (* 30 *);
   mk_item KOther ""%string ""%string [CFeature "bitcoin-io"%string] [] [NRoot "bitcoin_io"%string] (* 39 *);
   mk_item KOther ""%string ""%string [CFeature "bitcoin-io"%string] [] [NRoot "bitcoin_io"%string] (* 48 *);
   mk_item KImpl ""%string "impl < E : HashEngine > bitcoin_io :: Write for hmac :: Engine < E >"%string [CFeature "bitcoin-io"%string] [] [NRoot "bitcoin_io"%string] (* 57 *);
   mk_item KFn "impl < E : HashEngine > bitcoin_io :: Write for hmac :: Engine < E >"%string "write"%string [CFeature "bitcoin-io"%string] [] [NRoot "bitcoin_io"%string] (* 59 *);
   mk_item KFn "impl < E : HashEngine > bitcoin_io :: Write for hmac :: Engine < E >"%string "flush"%string [CFeature "bitcoin-io"%string] [] [NRoot "bitcoin_io"%string] (* 65 *);
   mk_item KImpl ""%string "impl < E : HashEngine > std :: io :: Write for hmac :: Engine < E >"%string [CFeature "bitcoin-io"%string] [CFeature "std"%string] [NRoot "std"%string] (* 69 *);
   mk_item KFn "impl < E : HashEngine > std :: io :: Write for hmac :: Engine < E >"%string "write"%string [CFeature "bitcoin-io"%string; CFeature "std"%string] [] [NRoot "std"%string] (* 71 *);
   mk_item KFn "impl < E : HashEngine > std :: io :: Write for hmac :: Engine < E >"%string "flush"%string [CFeature "bitcoin-io"%string; CFeature "std"%string] [] [NRoot "std"%string] (* 77 *);
   mk_item KOther ""%string ""%string [CFeature "bitcoin-io"%string] [] [NRoot "bitcoin_io"%string] (* 80 *);
   mk_item KMod ""%string "tests"%string [CFeature "bitcoin-io"%string] [CFlag "test"%string] [] (* 91 *);
   mk_item KUse "mod tests"%string "usebitcoin_io::Write"%string [CFeature "bitcoin-io"%string; CFlag "test"%string] [] [NRoot "bitcoin_io"%string] (* 92 *);
   mk_item KUse "mod tests"%string "usecrate::"%string [CFeature "bitcoin-io"%string; CFlag "test"%string] [] [] (* 94 *);
   mk_item KOther "mod tests"%string ""%string [CFeature "bitcoin-io"%string; CFlag "test"%string] [] [] (* 94 *);
   mk_item KMacro "mod tests"%string "write_test"%string [CFeature "bitcoin-io"%string; CFlag "test"%string] [] [] (* 96 *);
   mk_item KFn "mod tests / write_test! 0"%string "$"%string [CFeature "bitcoin-io"%string; CFlag "test"%string] [] [NPrelude "format"%string] (* 99 *);
   mk_item KOther "mod tests"%string ""%string [CFeature "bitcoin-io"%string; CFlag "test"%string] [] [NMacro "impls"%string "write_test"%string] (* 118 *);
   mk_item KOther "mod tests"%string ""%string [CFeature "bitcoin-io"%string; CFlag "test"%string] [] [NMacro "impls"%string "write_test"%string] (* 125 *);
   mk_item KOther "mod tests"%string ""%string [CFeature "bitcoin-io"%string; CFlag "test"%string] [] [NMacro "impls"%string "write_test"%string] (* 132 *);
   mk_item KOther "mod tests"%string ""%string [CFeature "bitcoin-io"%string; CFlag "test"%string] [] [NMacro "impls"%string "write_test"%string] (* 142 *);
   mk_item KOther "mod tests"%string ""%string [CFeature "bitcoin-io"%string; CFlag "test"%string] [] [NMacro "impls"%string "write_test"%string] (* 149 *);
   mk_item KFn "mod tests"%string "hmac"%string [CFeature "bitcoin-io"%string; CFlag "test"%string] [] [NPrelude "format"%string] (* 152 *)].

(** src/internal_macros.rs *)
Definition g_items_internal_macros : list item :=
  [mk_item KMacro ""%string "as_ref_impl"%string [] [] [] (* 6 *);
   mk_item KOther "as_ref_impl! 0"%string ""%string [] [] [NMacro "internal_macros"%string "as_ref_impl"%string] (* 8 *);
   mk_item KImpl "as_ref_impl! 1"%string "impl < $ ( $ gen : $ gent ) , * > $ crate :: _export :: _core :: convert :: AsRef < [ u8 ] > for $ ty < $ ( $ gen ) , * >"%string [] [] [] (* 11 *);
   mk_item KFn "as_ref_impl! 1 / impl < $ ( $ gen : $ gent ) , * > $ crate :: _export :: _core :: convert :: AsRef < [ u8 ] > for $ ty < $ ( $ gen ) , * >"%string "as_ref"%string [] [] [] (* 12 *);
   mk_item KUse ""%string "useas_ref_impl"%string [] [] [] (* 17 *);
   mk_item KMacro ""%string "engine_input_impl"%string [] [] [] (* 19 *);
   mk_item KFn "engine_input_impl! 0"%string "input"%string [] [CNot (CFlag "hashes_fuzz"%string)] [] (* 22 *);
   mk_item KFn "engine_input_impl! 0"%string "input"%string [] [CFlag "hashes_fuzz"%string] [] (* 39 *);
   mk_item KUse ""%string "useengine_input_impl"%string [] [] [] (* 47 *);
   mk_item KMacro ""%string "arr_newtype_fmt_impl"%string [] [] [] (* 50 *);
   mk_item KImpl "arr_newtype_fmt_impl! 0"%string "impl < $ ( $ gen : $ gent ) , * > $ crate :: _export :: _core :: fmt :: LowerHex for $ ty < $ ( $ gen ) , * >"%string [] [] [] (* 52 *);
   mk_item KFn "arr_newtype_fmt_impl! 0 / impl < $ ( $ gen : $ gent ) , * > $ crate :: _export :: _core :: fmt :: LowerHex for $ ty < $ ( $ gen ) , * >"%string "fmt"%string [] [] [NRoot "hex"%string] (* 54 *);
   mk_item KImpl "arr_newtype_fmt_impl! 0"%string "impl < $ ( $ gen : $ gent ) , * > $ crate :: _export :: _core :: fmt :: UpperHex for $ ty < $ ( $ gen ) , * >"%string [] [] [] (* 59 *);
   mk_item KFn "arr_newtype_fmt_impl! 0 / impl < $ ( $ gen : $ gent ) , * > $ crate :: _export :: _core :: fmt :: UpperHex for $ ty < $ ( $ gen ) , * >"%string "fmt"%string [] [] [NRoot "hex"%string] (* 61 *);
   mk_item KImpl "arr_newtype_fmt_impl! 0"%string "impl < $ ( $ gen : $ gent ) , * > $ crate :: _export :: _core :: fmt :: Display for $ ty < $ ( $ gen ) , * >"%string [] [] [] (* 66 *);
   mk_item KFn "arr_newtype_fmt_impl! 0 / impl < $ ( $ gen : $ gent ) , * > $ crate :: _export :: _core :: fmt :: Display for $ ty < $ ( $ gen ) , * >"%string "fmt"%string [] [] [] (* 68 *);
   mk_item KImpl "arr_newtype_fmt_impl! 0"%string "impl < $ ( $ gen : $ gent ) , * > $ crate :: _export :: _core :: fmt :: Debug for $ ty < $ ( $ gen ) , * >"%string [] [] [] (* 73 *);
   mk_item KFn "arr_newtype_fmt_impl! 0 / impl < $ ( $ gen : $ gent ) , * > $ crate :: _export :: _core :: fmt :: Debug for $ ty < $ ( $ gen ) , * >"%string "fmt"%string [] [] [] (* 75 *);
   mk_item KUse ""%string "usearr_newtype_fmt_impl"%string [] [] [] (* 81 *);
   mk_item KMacro ""%string "hash_trait_impls"%string [] [] [] (* 102 *);
   mk_item KImpl "hash_trait_impls! 0"%string "impl < $ ( $ gen : $ gent ) , * > $ crate :: _export :: _core :: str :: FromStr for Hash < $ ( $ gen ) , * >"%string [] [] [] (* 104 *);
   mk_item KType "hash_trait_impls! 0 / impl < $ ( $ gen : $ gent ) , * > $ crate :: _export :: _core :: str :: FromStr for Hash < $ ( $ gen ) , * >"%string "Err"%string [] [] [NRoot "hex"%string] (* 105 *);
   mk_item KFn "hash_trait_impls! 0 / impl < $ ( $ gen : $ gent ) , * > $ crate :: _export :: _core :: str :: FromStr for Hash < $ ( $ gen ) , * >"%string "from_str"%string [] [] [NRoot "hex"%string] (* 106 *);
   mk_item KOther "hash_trait_impls! 0"%string ""%string [] [] [NMacro "internal_macros"%string "arr_newtype_fmt_impl"%string] (* 114 *);
   mk_item KOther "hash_trait_impls! 0"%string ""%string [] [] [NMacro "internal_macros"%string "serde_impl"%string] (* 115 *);
   mk_item KOther "hash_trait_impls! 0"%string ""%string [] [] [NMacro "internal_macros"%string "as_ref_impl"%string] (* 116 *);
   mk_item KImpl "hash_trait_impls! 0"%string "impl < $ ( $ gen : $ gent ) , * > $ crate :: _export :: _core :: convert :: AsRef < [ u8 ; $ bits / 8 ] > for Hash < $ ( $ gen ) , * >"%string [] [] [] (* 118 *);
   mk_item KFn "hash_trait_impls! 0 / impl < $ ( $ gen : $ gent ) , * > $ crate :: _export :: _core :: convert :: AsRef < [ u8 ; $ bits / 8 ] > for Hash < $ ( $ gen ) , * >"%string "as_ref"%string [] [] [] (* 119 *);
   mk_item KImpl "hash_trait_impls! 0"%string "impl < I : $ crate :: _export :: _core :: slice :: SliceIndex < [ u8 ] > $ ( , $ gen : $ gent ) * > $ crate :: _export :: _core :: ops :: Index < I > for Hash < $ ( $ gen ) , * >"%string [] [] [] (* 122 *);
   mk_item KType "hash_trait_impls! 0 / impl < I : $ crate :: _export :: _core :: slice :: SliceIndex < [ u8 ] > $ ( , $ gen : $ gent ) * > $ crate :: _export :: _core :: ops :: Index < I > for Hash < $ ( $ gen ) , * >"%string "Output"%string [] [] [] (* 123 *);
   mk_item KFn "hash_trait_impls! 0 / impl < I : $ crate :: _export :: _core :: slice :: SliceIndex < [ u8 ] > $ ( , $ gen : $ gent ) * > $ crate :: _export :: _core :: ops :: Index < I > for Hash < $ ( $ gen ) , * >"%string "index"%string [] [] [] (* 126 *);
   mk_item KUse ""%string "usehash_trait_impls"%string [] [] [] (* 130 *);
   mk_item KMacro ""%string "hash_type"%string [] [] [] (* 141 *);
   mk_item KStruct "hash_type! 0"%string "Hash"%string [] [] [] (* 146 *);
   mk_item KOther "hash_type! 0"%string "impl Hash"%string [] [] [] (* 148 *);
   mk_item KConst "hash_type! 0 / impl Hash"%string "LEN"%string [] [] [] (* 150 *);
   mk_item KFn "hash_type! 0 / impl Hash"%string "hash"%string [] [] [NFn "internal_macros"%string "input"%string] (* 158 *);
   mk_item KFn "hash_type! 0 / impl Hash"%string "engine"%string [] [] [] (* 165 *);
   mk_item KFn "hash_type! 0 / impl Hash"%string "from_engine"%string [] [] [] (* 170 *);
   mk_item KFn "hash_type! 0 / impl Hash"%string "from_bytes_ref"%string [] [] [] (* 177 *);
   mk_item KFn "hash_type! 0 / impl Hash"%string "from_bytes_mut"%string [] [] [] (* 184 *);
   mk_item KFn "hash_type! 0 / impl Hash"%string "from_slice"%string [] [] [] (* 190 *);
   mk_item KFn "hash_type! 0 / impl Hash"%string "from_byte_array"%string [] [] [] (* 201 *);
   mk_item KFn "hash_type! 0 / impl Hash"%string "to_byte_array"%string [] [] [] (* 204 *);
   mk_item KFn "hash_type! 0 / impl Hash"%string "as_byte_array"%string [] [] [] (* 207 *);
   mk_item KFn "hash_type! 0 / impl Hash"%string "as_bytes"%string [] [] [] (* 211 *);
   mk_item KFn "hash_type! 0 / impl Hash"%string "to_bytes"%string [] [CFeature "alloc"%string] [NPrelude "Vec"%string; NHeap] (* 216 *);
   mk_item KFn "hash_type! 0 / impl Hash"%string "all_zeros"%string [] [] [] (* 223 *);
   mk_item KImpl "hash_type! 0"%string "impl schemars :: JsonSchema for Hash"%string [] [CFeature "schemars"%string] [NRoot "schemars"%string] (* 227 *);
   mk_item KFn "hash_type! 0 / impl schemars :: JsonSchema for Hash"%string "schema_name"%string [CFeature "schemars"%string] [] [NPrelude "String"%string; NPrelude "to_owned"%string] (* 228 *);
   mk_item KFn "hash_type! 0 / impl schemars :: JsonSchema for Hash"%string "json_schema"%string [CFeature "schemars"%string] [] [NRoot "schemars"%string; NPrelude "String"%string; NPrelude "Box"%string; NPrelude "to_owned"%string; NFn "internal_macros"%string "json_schema"%string] (* 230 *);
   mk_item KOther "hash_type! 0"%string ""%string [] [] [NMacro "internal_macros"%string "hash_trait_impls"%string] (* 242 *);
   mk_item KUse ""%string "usehash_type"%string [] [] [] (* 245 *)].

(** src/lib.rs *)
Definition g_items_lib : list item :=
  [mk_item KCrate ""%string "alloc"%string [] [CAll [CFeature "alloc"%string; CNot (CFeature "std"%string)]] [] (* 87 *);
   mk_item KCrate ""%string "core"%string [] [CAny [CFlag "test"%string; CFeature "std"%string]] [] (* 89 *);
   mk_item KCrate ""%string "serde"%string [] [CFeature "serde"%string] [NRoot "serde"%string] (* 93 *);
   mk_item KCrate ""%string "serde_test"%string [] [CAll [CFlag "test"%string; CFeature "serde"%string]] [NRoot "serde_test"%string] (* 96 *);
   mk_item KCrate ""%string "test"%string [] [CFlag "bench"%string] [] (* 98 *);
   mk_item KCrate ""%string "hex"%string [] [] [NRoot "hex"%string] (* 101 *);
   mk_item KMod ""%string "_export"%string [] [] [] (* 104 *);
   mk_item KMod "mod _export"%string "_core"%string [] [] [] (* 106 *);
   mk_item KUse "mod _export / mod _core"%string "usecore::*"%string [] [] [NRoot "core"%string] (* 107 *);
   mk_item KCrate ""%string "schemars"%string [] [CFeature "schemars"%string] [NRoot "schemars"%string] (* 112 *);
   mk_item KMod ""%string "internal_macros"%string [] [] [] (* 114 *);
   mk_item KMod ""%string "serde_macros"%string [] [] [] (* 116 *);
   mk_item KMod ""%string "cmp"%string [] [] [] (* 117 *);
   mk_item KMod ""%string "hmac"%string [] [] [] (* 118 *);
   mk_item KMod ""%string "impls"%string [] [CFeature "bitcoin-io"%string] [] (* 120 *);
   mk_item KMod ""%string "ripemd160"%string [] [] [] (* 121 *);
   mk_item KMod ""%string "sha1"%string [] [] [] (* 122 *);
   mk_item KMod ""%string "sha256"%string [] [] [] (* 123 *);
   mk_item KMod ""%string "sha256t"%string [] [] [] (* 124 *);
   mk_item KMod ""%string "sha384"%string [] [] [] (* 125 *);
   mk_item KMod ""%string "sha512"%string [] [] [] (* 126 *);
   mk_item KMod ""%string "sha512_256"%string [] [] [] (* 127 *);
   mk_item KMod ""%string "siphash24"%string [] [] [] (* 128 *);
   mk_item KUse ""%string "usecore::"%string [] [] [NRoot "core"%string] (* 130 *);
   mk_item KOther ""%string ""%string [] [] [] (* 130 *);
   mk_item KTrait ""%string "HashEngine"%string [] [] [] (* 133 *);
   mk_item KType "trait HashEngine"%string "Digest"%string [] [] [] (* 139 *);
   mk_item KType "trait HashEngine"%string "Midstate"%string [] [] [] (* 149 *);
   mk_item KConst "trait HashEngine"%string "BLOCK_SIZE"%string [] [] [] (* 152 *);
   mk_item KFn "trait HashEngine"%string "new"%string [] [] [] (* 155 *);
   mk_item KFn "trait HashEngine"%string "input"%string [] [] [] (* 158 *);
   mk_item KFn "trait HashEngine"%string "n_bytes_hashed"%string [] [] [] (* 161 *);
   mk_item KFn "trait HashEngine"%string "finalize"%string [] [] [] (* 164 *);
   mk_item KFn "trait HashEngine"%string "hash"%string [] [] [] (* 171 *);
   mk_item KFn "trait HashEngine"%string "hash_byte_chunks"%string [] [] [] (* 178 *);
   mk_item KFn "trait HashEngine"%string "midstate"%string [] [] [] (* 192 *);
   mk_item KFn "trait HashEngine"%string "from_midstate"%string [] [] [] (* 197 *);
   mk_item KStruct ""%string "FromSliceError"%string [] [] [] (* 202 *);
   mk_item KOther ""%string "impl FromSliceError"%string [] [] [] (* 209 *);
   mk_item KFn "impl FromSliceError"%string "new"%string [] [] [] (* 211 *);
   mk_item KFn "impl FromSliceError"%string "expected_length"%string [] [] [] (* 214 *);
   mk_item KFn "impl FromSliceError"%string "invalid_length"%string [] [] [] (* 217 *);
   mk_item KImpl ""%string "impl fmt :: Display for FromSliceError"%string [] [] [] (* 220 *);
   mk_item KFn "impl fmt :: Display for FromSliceError"%string "fmt"%string [] [] [] (* 221 *);
   mk_item KImpl ""%string "impl std :: error :: Error for FromSliceError"%string [] [CFeature "std"%string] [NRoot "std"%string] (* 227 *)].

(** src/ripemd160.rs *)
Definition g_items_ripemd160 : list item :=
  [mk_item KUse ""%string "usecore::str"%string [] [] [NRoot "core"%string] (* 5 *);
   mk_item KUse ""%string "usecrate::HashEngine"%string [] [] [] (* 7 *);
   mk_item KOther ""%string ""%string [] [] [NMacro "internal_macros"%string "hash_type"%string] (* 9 *);
   mk_item KConst ""%string "BLOCK_SIZE"%string [] [] [] (* 14 *);
   mk_item KStruct ""%string "Engine"%string [] [] [] (* 18 *);
   mk_item KImpl ""%string "impl Default for Engine"%string [] [] [] (* 24 *);
   mk_item KFn "impl Default for Engine"%string "default"%string [] [] [] (* 25 *);
   mk_item KImpl ""%string "impl HashEngine for Engine"%string [] [] [] (* 34 *);
   mk_item KType "impl HashEngine for Engine"%string "Digest"%string [] [] [] (* 35 *);
   mk_item KType "impl HashEngine for Engine"%string "Midstate"%string [] [] [] (* 36 *);
   mk_item KConst "impl HashEngine for Engine"%string "BLOCK_SIZE"%string [] [] [] (* 37 *);
   mk_item KFn "impl HashEngine for Engine"%string "n_bytes_hashed"%string [] [] [] (* 40 *);
   mk_item KOther "impl HashEngine for Engine"%string ""%string [] [] [NMacro "internal_macros"%string "engine_input_impl"%string] (* 42 *);
   mk_item KFn "impl HashEngine for Engine"%string "finalize"%string [] [CNot (CFlag "hashes_fuzz"%string)] [NFn "ripemd160"%string "midstate"%string] (* 46 *);
   mk_item KFn "impl HashEngine for Engine"%string "finalize"%string [] [CFlag "hashes_fuzz"%string] [NFn "ripemd160"%string "midstate"%string] (* 66 *);
   mk_item KFn "impl HashEngine for Engine"%string "midstate"%string [] [CNot (CFlag "hashes_fuzz"%string)] [] (* 74 *);
   mk_item KFn "impl HashEngine for Engine"%string "midstate"%string [] [CFlag "hashes_fuzz"%string] [] (* 83 *);
   mk_item KFn "impl HashEngine for Engine"%string "from_midstate"%string [] [] [] (* 90 *);
   mk_item KMod ""%string "small_hash"%string [] [CFeature "small-hash"%string] [] (* 104 *);
   mk_item KFn "mod small_hash"%string "round"%string [CFeature "small-hash"%string] [] [] (* 106 *);
   mk_item KMacro "mod small_hash"%string "round"%string [CFeature "small-hash"%string] [] [NFn "ripemd160"%string "round"%string] (* 116 *);
   mk_item KMacro ""%string "round"%string [] [CNot (CFeature "small-hash"%string)] [] (* 127 *);
   mk_item KMacro ""%string "process_block"%string [] [] [NMacro "ripemd160"%string "round"%string] (* 136 *);
   mk_item KOther ""%string "impl Engine"%string [] [] [] (* 227 *);
   mk_item KFn "impl Engine"%string "process_block"%string [] [] [NMacro "ripemd160"%string "process_block"%string] (* 228 *);
   mk_item KMod ""%string "tests"%string [] [CFlag "test"%string] [] (* 421 *);
   mk_item KFn "mod tests"%string "test"%string [CFlag "test"%string] [CFeature "alloc"%string] [NRoot "std"%string; NPrelude "Vec"%string; NPrelude "vec"%string; NPrelude "to_string"%string] (* 424 *);
   mk_item KFn "mod tests"%string "ripemd_serde"%string [CFlag "test"%string] [CFeature "serde"%string] [NRoot "serde_test"%string] (* 519 *);
   mk_item KMod ""%string "benches"%string [] [CFlag "bench"%string] [] (* 540 *);
   mk_item KUse "mod benches"%string "usetest::Bencher"%string [CFlag "bench"%string] [] [NRoot "test"%string] (* 541 *);
   mk_item KUse "mod benches"%string "usesuper::*"%string [CFlag "bench"%string] [] [] (* 543 *);
   mk_item KUse "mod benches"%string "usecrate::ripemd160"%string [CFlag "bench"%string] [] [] (* 544 *);
   mk_item KFn "mod benches"%string "ripemd160_10"%string [CFlag "bench"%string] [] [] (* 547 *);
   mk_item KFn "mod benches"%string "ripemd160_1k"%string [CFlag "bench"%string] [] [] (* 557 *);
   mk_item KFn "mod benches"%string "ripemd160_64k"%string [CFlag "bench"%string] [] [] (* 567 *)].

(** src/serde_macros.rs *)
Definition g_items_serde_macros : list item :=
  [mk_item KMod ""%string "serde_details"%string [] [CFeature "serde"%string] [] (* 8 *);
   mk_item KUse "mod serde_details"%string "usecore::marker::PhantomData"%string [CFeature "serde"%string] [] [NRoot "core"%string] (* 9 *);
   mk_item KUse "mod serde_details"%string "usecore::str::FromStr"%string [CFeature "serde"%string] [] [NRoot "core"%string] (* 10 *);
   mk_item KUse "mod serde_details"%string "usecore::"%string [CFeature "serde"%string] [] [NRoot "core"%string] (* 11 *);
   mk_item KOther "mod serde_details"%string ""%string [CFeature "serde"%string] [] [] (* 11 *);
   mk_item KUse "mod serde_details"%string "usecrate::FromSliceError"%string [CFeature "serde"%string] [] [] (* 13 *);
   mk_item KStruct "mod serde_details"%string "HexVisitor"%string [CFeature "serde"%string] [] [] (* 14 *);
   mk_item KUse "mod serde_details"%string "useserde::"%string [CFeature "serde"%string] [] [NRoot "serde"%string] (* 15 *);
   mk_item KOther "mod serde_details"%string ""%string [CFeature "serde"%string] [] [] (* 15 *);
   mk_item KImpl "mod serde_details"%string "impl < 'de , ValueT > de :: Visitor < 'de > for HexVisitor < ValueT > where ValueT : FromStr , < ValueT as FromStr > :: Err : fmt :: Display ,"%string [CFeature "serde"%string] [] [] (* 17 *);
   mk_item KType "mod serde_details / impl < 'de , ValueT > de :: Visitor < 'de > for HexVisitor < ValueT > where ValueT : FromStr , < ValueT as FromStr > :: Err : fmt :: Display ,"%string "Value"%string [CFeature "serde"%string] [] [] (* 22 *);
   mk_item KFn "mod serde_details / impl < 'de , ValueT > de :: Visitor < 'de > for HexVisitor < ValueT > where ValueT : FromStr , < ValueT as FromStr > :: Err : fmt :: Display ,"%string "expecting"%string [CFeature "serde"%string] [] [] (* 24 *);
   mk_item KFn "mod serde_details / impl < 'de , ValueT > de :: Visitor < 'de > for HexVisitor < ValueT > where ValueT : FromStr , < ValueT as FromStr > :: Err : fmt :: Display ,"%string "visit_bytes"%string [CFeature "serde"%string] [] [NRoot "core"%string] (* 28 *);
   mk_item KFn "mod serde_details / impl < 'de , ValueT > de :: Visitor < 'de > for HexVisitor < ValueT > where ValueT : FromStr , < ValueT as FromStr > :: Err : fmt :: Display ,"%string "visit_str"%string [CFeature "serde"%string] [] [NRoot "core"%string] (* 39 *);
   mk_item KStruct "mod serde_details"%string "BytesVisitor"%string [CFeature "serde"%string] [] [] (* 47 *);
   mk_item KImpl "mod serde_details"%string "impl < 'de , ValueT > de :: Visitor < 'de > for BytesVisitor < ValueT > where ValueT : SerdeHash , < ValueT as FromStr > :: Err : fmt :: Display ,"%string [CFeature "serde"%string] [] [] (* 49 *);
   mk_item KType "mod serde_details / impl < 'de , ValueT > de :: Visitor < 'de > for BytesVisitor < ValueT > where ValueT : SerdeHash , < ValueT as FromStr > :: Err : fmt :: Display ,"%string "Value"%string [CFeature "serde"%string] [] [] (* 54 *);
   mk_item KFn "mod serde_details / impl < 'de , ValueT > de :: Visitor < 'de > for BytesVisitor < ValueT > where ValueT : SerdeHash , < ValueT as FromStr > :: Err : fmt :: Display ,"%string "expecting"%string [CFeature "serde"%string] [] [] (* 56 *);
   mk_item KFn "mod serde_details / impl < 'de , ValueT > de :: Visitor < 'de > for BytesVisitor < ValueT > where ValueT : SerdeHash , < ValueT as FromStr > :: Err : fmt :: Display ,"%string "visit_bytes"%string [CFeature "serde"%string] [] [NRoot "core"%string; NFn "serde_macros"%string "from_slice_delegated"%string] (* 60 *);
   mk_item KTrait "mod serde_details"%string "SerdeHash"%string [CFeature "serde"%string] [] [] (* 72 *);
   mk_item KConst "mod serde_details / trait SerdeHash"%string "N"%string [CFeature "serde"%string] [] [] (* 82 *);
   mk_item KFn "mod serde_details / trait SerdeHash"%string "from_slice_delegated"%string [CFeature "serde"%string] [] [NRoot "core"%string] (* 85 *);
   mk_item KFn "mod serde_details / trait SerdeHash"%string "serialize"%string [CFeature "serde"%string] [] [NRoot "core"%string] (* 88 *);
   mk_item KFn "mod serde_details / trait SerdeHash"%string "deserialize"%string [CFeature "serde"%string] [] [NRoot "core"%string] (* 97 *);
   mk_item KMacro ""%string "serde_impl"%string [] [CFeature "serde"%string] [] (* 111 *);
   mk_item KImpl "serde_impl! 0"%string "impl < $ ( $ gen : $ gent ) , * > $ crate :: serde_macros :: serde_details :: SerdeHash for $ t < $ ( $ gen ) , * >"%string [CFeature "serde"%string] [] [] (* 113 *);
   mk_item KConst "serde_impl! 0 / impl < $ ( $ gen : $ gent ) , * > $ crate :: serde_macros :: serde_details :: SerdeHash for $ t < $ ( $ gen ) , * >"%string "N"%string [CFeature "serde"%string] [] [] (* 114 *);
   mk_item KFn "serde_impl! 0 / impl < $ ( $ gen : $ gent ) , * > $ crate :: serde_macros :: serde_details :: SerdeHash for $ t < $ ( $ gen ) , * >"%string "from_slice_delegated"%string [CFeature "serde"%string] [] [NRoot "core"%string] (* 115 *);
   mk_item KImpl "serde_impl! 0"%string "impl < $ ( $ gen : $ gent ) , * > $ crate :: serde :: Serialize for $ t < $ ( $ gen ) , * >"%string [CFeature "serde"%string] [] [NRoot "serde"%string] (* 120 *);
   mk_item KFn "serde_impl! 0 / impl < $ ( $ gen : $ gent ) , * > $ crate :: serde :: Serialize for $ t < $ ( $ gen ) , * >"%string "serialize"%string [CFeature "serde"%string] [] [NRoot "serde"%string; NRoot "core"%string; NFn "serde_macros"%string "serialize"%string] (* 121 *);
   mk_item KImpl "serde_impl! 0"%string "impl < 'de $ ( , $ gen : $ gent ) * > $ crate :: serde :: Deserialize < 'de > for $ t < $ ( $ gen ) , * >"%string [CFeature "serde"%string] [] [NRoot "serde"%string] (* 126 *);
   mk_item KFn "serde_impl! 0 / impl < 'de $ ( , $ gen : $ gent ) * > $ crate :: serde :: Deserialize < 'de > for $ t < $ ( $ gen ) , * >"%string "deserialize"%string [CFeature "serde"%string] [] [NRoot "serde"%string; NRoot "core"%string; NFn "serde_macros"%string "deserialize"%string] (* 127 *);
   mk_item KMacro ""%string "serde_impl"%string [] [CNot (CFeature "serde"%string)] [] (* 136 *)].

(** src/sha1.rs *)
Definition g_items_sha1 : list item :=
  [mk_item KUse ""%string "usecore::str"%string [] [] [NRoot "core"%string] (* 5 *);
   mk_item KUse ""%string "usecrate::HashEngine"%string [] [] [] (* 7 *);
   mk_item KOther ""%string ""%string [] [] [NMacro "internal_macros"%string "hash_type"%string] (* 9 *);
   mk_item KConst ""%string "BLOCK_SIZE"%string [] [] [] (* 14 *);
   mk_item KStruct ""%string "Engine"%string [] [] [] (* 18 *);
   mk_item KImpl ""%string "impl Default for Engine"%string [] [] [] (* 24 *);
   mk_item KFn "impl Default for Engine"%string "default"%string [] [] [] (* 25 *);
   mk_item KImpl ""%string "impl HashEngine for Engine"%string [] [] [] (* 34 *);
   mk_item KType "impl HashEngine for Engine"%string "Digest"%string [] [] [] (* 35 *);
   mk_item KType "impl HashEngine for Engine"%string "Midstate"%string [] [] [] (* 36 *);
   mk_item KConst "impl HashEngine for Engine"%string "BLOCK_SIZE"%string [] [] [] (* 37 *);
   mk_item KFn "impl HashEngine for Engine"%string "n_bytes_hashed"%string [] [] [] (* 40 *);
   mk_item KOther "impl HashEngine for Engine"%string ""%string [] [] [NMacro "internal_macros"%string "engine_input_impl"%string] (* 42 *);
   mk_item KFn "impl HashEngine for Engine"%string "finalize"%string [] [] [NFn "sha1"%string "midstate"%string] (* 45 *);
   mk_item KFn "impl HashEngine for Engine"%string "midstate"%string [] [CNot (CFlag "hashes_fuzz"%string)] [] (* 66 *);
   mk_item KFn "impl HashEngine for Engine"%string "midstate"%string [] [CFlag "hashes_fuzz"%string] [] (* 75 *);
   mk_item KFn "impl HashEngine for Engine"%string "from_midstate"%string [] [] [] (* 82 *);
   mk_item KOther ""%string "impl Engine"%string [] [] [] (* 94 *);
   mk_item KFn "impl Engine"%string "process_block"%string [] [] [] (* 96 *);
   mk_item KMod ""%string "tests"%string [] [CFlag "test"%string] [] (* 140 *);
   mk_item KFn "mod tests"%string "test"%string [CFlag "test"%string] [CFeature "alloc"%string] [NPrelude "Vec"%string; NPrelude "vec"%string; NPrelude "to_string"%string] (* 143 *);
   mk_item KFn "mod tests"%string "sha1_serde"%string [CFlag "test"%string] [CFeature "serde"%string] [NRoot "serde_test"%string] (* 212 *);
   mk_item KMod ""%string "benches"%string [] [CFlag "bench"%string] [] (* 233 *);
   mk_item KUse "mod benches"%string "usetest::Bencher"%string [CFlag "bench"%string] [] [NRoot "test"%string] (* 234 *);
   mk_item KUse "mod benches"%string "usesuper::*"%string [CFlag "bench"%string] [] [] (* 236 *);
   mk_item KUse "mod benches"%string "usecrate::sha1"%string [CFlag "bench"%string] [] [] (* 237 *);
   mk_item KFn "mod benches"%string "sha1_10"%string [CFlag "bench"%string] [] [] (* 240 *);
   mk_item KFn "mod benches"%string "sha1_1k"%string [CFlag "bench"%string] [] [] (* 250 *);
   mk_item KFn "mod benches"%string "sha1_64k"%string [CFlag "bench"%string] [] [] (* 260 *)].

(** src/sha256.rs *)
Definition g_items_sha256 : list item :=
  [mk_item KUse ""%string "usecore::arch::x86::*"%string [] [CAll [CFeature "std"%string; CArch "x86"%string]] [NRoot "core"%string; NArch "x86"%string] (* 6 *);
   mk_item KUse ""%string "usecore::arch::x86_64::*"%string [] [CAll [CFeature "std"%string; CArch "x86_64"%string]] [NRoot "core"%string; NArch "x86_64"%string] (* 8 *);
   mk_item KUse ""%string "usecore::ops::Index"%string [] [] [NRoot "core"%string] (* 9 *);
   mk_item KUse ""%string "usecore::slice::SliceIndex"%string [] [] [NRoot "core"%string] (* 10 *);
   mk_item KUse ""%string "usecore::str"%string [] [] [NRoot "core"%string] (* 11 *);
   mk_item KUse ""%string "usecrate::"%string [] [] [] (* 13 *);
   mk_item KOther ""%string ""%string [] [] [] (* 13 *);
   mk_item KOther ""%string ""%string [] [] [NMacro "internal_macros"%string "hash_type"%string] (* 15 *);
   mk_item KConst ""%string "BLOCK_SIZE"%string [] [] [] (* 21 *);
   mk_item KStruct ""%string "Engine"%string [] [] [] (* 25 *);
   mk_item KImpl ""%string "impl Default for Engine"%string [] [] [] (* 31 *);
   mk_item KFn "impl Default for Engine"%string "default"%string [] [] [] (* 32 *);
   mk_item KImpl ""%string "impl HashEngine for Engine"%string [] [] [] (* 44 *);
   mk_item KType "impl HashEngine for Engine"%string "Digest"%string [] [] [] (* 45 *);
   mk_item KType "impl HashEngine for Engine"%string "Midstate"%string [] [] [] (* 46 *);
   mk_item KConst "impl HashEngine for Engine"%string "BLOCK_SIZE"%string [] [] [] (* 47 *);
   mk_item KFn "impl HashEngine for Engine"%string "n_bytes_hashed"%string [] [] [] (* 50 *);
   mk_item KOther "impl HashEngine for Engine"%string ""%string [] [] [NMacro "internal_macros"%string "engine_input_impl"%string] (* 52 *);
   mk_item KFn "impl HashEngine for Engine"%string "finalize"%string [] [CNot (CFlag "hashes_fuzz"%string)] [NFn "sha256"%string "midstate"%string] (* 56 *);
   mk_item KFn "impl HashEngine for Engine"%string "finalize"%string [] [CFlag "hashes_fuzz"%string] [NFn "sha256"%string "midstate"%string] (* 76 *);
   mk_item KFn "impl HashEngine for Engine"%string "midstate"%string [] [CNot (CFlag "hashes_fuzz"%string)] [] (* 88 *);
   mk_item KFn "impl HashEngine for Engine"%string "midstate"%string [] [CFlag "hashes_fuzz"%string] [] (* 97 *);
   mk_item KFn "impl HashEngine for Engine"%string "from_midstate"%string [] [] [] (* 104 *);
   mk_item KOther ""%string "impl Hash"%string [] [] [] (* 116 *);
   mk_item KFn "impl Hash"%string "const_hash"%string [] [] [] (* 120 *);
   mk_item KStruct ""%string "Midstate"%string [] [] [] (* 125 *);
   mk_item KOther ""%string ""%string [] [] [NMacro "internal_macros"%string "arr_newtype_fmt_impl"%string] (* 127 *);
   mk_item KOther ""%string ""%string [] [] [NMacro "sha256"%string "serde_impl"%string] (* 128 *);
   mk_item KOther ""%string ""%string [] [] [NMacro "internal_macros"%string "as_ref_impl"%string] (* 129 *);
   mk_item KImpl ""%string "impl < I : SliceIndex < [ u8 ] >> Index < I > for Midstate"%string [] [] [] (* 131 *);
   mk_item KType "impl < I : SliceIndex < [ u8 ] >> Index < I > for Midstate"%string "Output"%string [] [] [] (* 132 *);
   mk_item KFn "impl < I : SliceIndex < [ u8 ] >> Index < I > for Midstate"%string "index"%string [] [] [] (* 135 *);
   mk_item KImpl ""%string "impl str :: FromStr for Midstate"%string [] [] [] (* 138 *);
   mk_item KType "impl str :: FromStr for Midstate"%string "Err"%string [] [] [NRoot "hex"%string] (* 139 *);
   mk_item KFn "impl str :: FromStr for Midstate"%string "from_str"%string [] [] [NRoot "hex"%string] (* 140 *);
   mk_item KOther ""%string "impl Midstate"%string [] [] [] (* 143 *);
   mk_item KConst "impl Midstate"%string "LEN"%string [] [] [] (* 145 *);
   mk_item KFn "impl Midstate"%string "from_byte_array"%string [] [] [] (* 148 *);
   mk_item KFn "impl Midstate"%string "from_slice"%string [] [] [] (* 151 *);
   mk_item KFn "impl Midstate"%string "to_byte_array"%string [] [] [] (* 162 *);
   mk_item KFn "impl Midstate"%string "hash_tag"%string [] [] [] (* 169 *);
   mk_item KImpl ""%string "impl hex :: FromHex for Midstate"%string [] [] [NRoot "hex"%string] (* 181 *);
   mk_item KType "impl hex :: FromHex for Midstate"%string "Error"%string [] [] [NRoot "hex"%string] (* 182 *);
   mk_item KFn "impl hex :: FromHex for Midstate"%string "from_hex"%string [] [] [] (* 184 *);
   mk_item KFn ""%string "Ch"%string [] [] [] (* 191 *);
   mk_item KFn ""%string "Maj"%string [] [] [] (* 193 *);
   mk_item KFn ""%string "Sigma0"%string [] [] [] (* 195 *);
   mk_item KFn ""%string "Sigma1"%string [] [] [] (* 197 *);
   mk_item KFn ""%string "sigma0"%string [] [] [] (* 198 *);
   mk_item KFn ""%string "sigma1"%string [] [] [] (* 199 *);
   mk_item KMod ""%string "small_hash"%string [] [CFeature "small-hash"%string] [] (* 203 *);
   mk_item KUse "mod small_hash"%string "usesuper::*"%string [CFeature "small-hash"%string] [] [] (* 204 *);
   mk_item KFn "mod small_hash"%string "round"%string [CFeature "small-hash"%string] [] [] (* 207 *);
   mk_item KFn "mod small_hash"%string "later_round"%string [CFeature "small-hash"%string] [] [NFn "sha256"%string "round"%string] (* 215 *);
   mk_item KMacro "mod small_hash"%string "round"%string [CFeature "small-hash"%string] [] [NFn "sha256"%string "round"%string; NFn "sha256"%string "later_round"%string] (* 224 *);
   mk_item KMod ""%string "fast_hash"%string [] [CNot (CFeature "small-hash"%string)] [] (* 243 *);
   mk_item KMacro "mod fast_hash"%string "round"%string [CNot (CFeature "small-hash"%string)] [] [NMacro "sha256"%string "round"%string] (* 244 *);
   mk_item KOther ""%string "impl Midstate"%string [] [] [] (* 260 *);
   mk_item KFn "impl Midstate"%string "read_u32"%string [] [] [] (* 262 *);
   mk_item KFn "impl Midstate"%string "copy_w"%string [] [] [] (* 269 *);
   mk_item KFn "impl Midstate"%string "const_hash"%string [] [] [NMacro "sha256"%string "round"%string] (* 279 *);
   mk_item KOther ""%string "impl Engine"%string [] [] [] (* 428 *);
   mk_item KFn "impl Engine"%string "from_midstate"%string [] [] [] (* 434 *);
   mk_item KFn "impl Engine"%string "process_block"%string [] [] [] (* 445 *);
   mk_item KBlock "impl Engine / fn process_block"%string ""%string [] [CAll [CFeature "std"%string; CAny [CArch "x86"%string; CArch "x86_64"%string]]] [NDetect; NFn "sha256"%string "process_block_simd_x86_intrinsics"%string] (* 447 *);
   mk_item KFn "impl Engine"%string "process_block_simd_x86_intrinsics"%string [] [CAll [CFeature "std"%string; CAny [CArch "x86"%string; CArch "x86_64"%string]]] [NIntrinsics "sha256"%string] (* 463 *);
   mk_item KFn "impl Engine"%string "software_process_block"%string [] [] [NMacro "sha256"%string "round"%string] (* 721 *);
   mk_item KMod ""%string "tests"%string [] [CFlag "test"%string] [] (* 818 *);
   mk_item KUse "mod tests"%string "usesuper::*"%string [CFlag "test"%string] [] [] (* 819 *);
   mk_item KUse "mod tests"%string "usecrate::sha256"%string [CFlag "test"%string] [] [] (* 820 *);
   mk_item KFn "mod tests"%string "test"%string [CFlag "test"%string] [CFeature "alloc"%string] [NPrelude "Vec"%string; NPrelude "vec"%string; NPrelude "to_string"%string] (* 824 *);
   mk_item KFn "mod tests"%string "fmt_roundtrips"%string [CFlag "test"%string] [] [NPrelude "format"%string] (* 886 *);
   mk_item KFn "mod tests"%string "midstate"%string [CFlag "test"%string] [] [NFn "sha256"%string "midstate"%string] (* 895 *);
   mk_item KFn "mod tests"%string "engine_with_state"%string [CFlag "test"%string] [] [NPrelude "vec"%string; NFn "sha256"%string "midstate"%string] (* 921 *);
   mk_item KFn "mod tests"%string "const_hash"%string [CFlag "test"%string] [] [NPrelude "Vec"%string] (* 974 *);
   mk_item KFn "mod tests"%string "const_midstate"%string [CFlag "test"%string] [] [] (* 990 *);
   mk_item KFn "mod tests"%string "midstate_fmt_roundtrip"%string [CFlag "test"%string] [] [NPrelude "format"%string] (* 1001 *);
   mk_item KFn "mod tests"%string "sha256_serde"%string [CFlag "test"%string] [CFeature "serde"%string] [NRoot "serde_test"%string] (* 1010 *);
   mk_item KMod "mod tests"%string "wasm_tests"%string [CFlag "test"%string] [CArch "wasm32"%string] [] (* 1030 *);
   mk_item KCrate "mod tests / mod wasm_tests"%string "wasm_bindgen_test"%string [CFlag "test"%string; CArch "wasm32"%string] [] [NRoot "wasm_bindgen_test"%string] (* 1031 *);
   mk_item KUse "mod tests / mod wasm_tests"%string "useself::wasm_bindgen_test::*"%string [CFlag "test"%string; CArch "wasm32"%string] [] [] (* 1032 *);
   mk_item KUse "mod tests / mod wasm_tests"%string "usesuper::*"%string [CFlag "test"%string; CArch "wasm32"%string] [] [] (* 1033 *);
   mk_item KFn "mod tests / mod wasm_tests"%string "sha256_tests"%string [CFlag "test"%string; CArch "wasm32"%string] [] [NFn "sha256"%string "midstate"%string] (* 1035 *);
   mk_item KMod ""%string "benches"%string [] [CFlag "bench"%string] [] (* 1044 *);
   mk_item KUse "mod benches"%string "usetest::Bencher"%string [CFlag "bench"%string] [] [NRoot "test"%string] (* 1045 *);
   mk_item KUse "mod benches"%string "usesuper::*"%string [CFlag "bench"%string] [] [] (* 1047 *);
   mk_item KUse "mod benches"%string "usecrate::sha256"%string [CFlag "bench"%string] [] [] (* 1048 *);
   mk_item KFn "mod benches"%string "sha256_10"%string [CFlag "bench"%string] [] [] (* 1051 *);
   mk_item KFn "mod benches"%string "sha256_1k"%string [CFlag "bench"%string] [] [] (* 1061 *);
   mk_item KFn "mod benches"%string "sha256_64k"%string [CFlag "bench"%string] [] [] (* 1071 *)].

(** src/sha256t.rs *)
Definition g_items_sha256t : list item :=
  [mk_item KUse ""%string "usecore::cmp"%string [] [] [NRoot "core"%string] (* 5 *);
   mk_item KUse ""%string "usecore::marker::PhantomData"%string [] [] [NRoot "core"%string] (* 6 *);
   mk_item KUse ""%string "usecrate::"%string [] [] [] (* 8 *);
   mk_item KOther ""%string ""%string [] [] [] (* 8 *);
   mk_item KStruct ""%string "Engine"%string [] [] [] (* 12 *);
   mk_item KImpl ""%string "impl < T : Tag > Default for Engine < T >"%string [] [] [] (* 14 *);
   mk_item KFn "impl < T : Tag > Default for Engine < T >"%string "default"%string [] [] [] (* 15 *);
   mk_item KImpl ""%string "impl < T : Tag > HashEngine for Engine < T >"%string [] [] [] (* 18 *);
   mk_item KType "impl < T : Tag > HashEngine for Engine < T >"%string "Digest"%string [] [] [] (* 19 *);
   mk_item KType "impl < T : Tag > HashEngine for Engine < T >"%string "Midstate"%string [] [] [] (* 20 *);
   mk_item KConst "impl < T : Tag > HashEngine for Engine < T >"%string "BLOCK_SIZE"%string [] [] [] (* 21 *);
   mk_item KFn "impl < T : Tag > HashEngine for Engine < T >"%string "new"%string [] [] [] (* 24 *);
   mk_item KFn "impl < T : Tag > HashEngine for Engine < T >"%string "input"%string [] [] [] (* 27 *);
   mk_item KFn "impl < T : Tag > HashEngine for Engine < T >"%string "n_bytes_hashed"%string [] [] [] (* 30 *);
   mk_item KFn "impl < T : Tag > HashEngine for Engine < T >"%string "finalize"%string [] [] [] (* 33 *);
   mk_item KFn "impl < T : Tag > HashEngine for Engine < T >"%string "midstate"%string [] [] [] (* 36 *);
   mk_item KFn "impl < T : Tag > HashEngine for Engine < T >"%string "from_midstate"%string [] [] [] (* 39 *);
   mk_item KTrait ""%string "Tag"%string [] [] [] (* 46 *);
   mk_item KFn "trait Tag"%string "engine"%string [] [] [] (* 48 *);
   mk_item KStruct ""%string "Hash"%string [] [] [] (* 53 *);
   mk_item KOther ""%string "impl < T : Tag > Hash < T >"%string [] [] [] (* 55 *);
   mk_item KConst "impl < T : Tag > Hash < T >"%string "LEN"%string [] [] [] (* 57 *);
   mk_item KFn "impl < T : Tag > Hash < T >"%string "hash"%string [] [] [] (* 65 *);
   mk_item KFn "impl < T : Tag > Hash < T >"%string "engine"%string [] [] [] (* 72 *);
   mk_item KFn "impl < T : Tag > Hash < T >"%string "from_engine"%string [] [] [] (* 77 *);
   mk_item KFn "impl < T : Tag > Hash < T >"%string "from_bytes_ref"%string [] [] [] (* 84 *);
   mk_item KFn "impl < T : Tag > Hash < T >"%string "from_bytes_mut"%string [] [] [] (* 91 *);
   mk_item KFn "impl < T : Tag > Hash < T >"%string "from_slice"%string [] [] [] (* 97 *);
   mk_item KFn "impl < T : Tag > Hash < T >"%string "from_byte_array"%string [] [] [] (* 108 *);
   mk_item KFn "impl < T : Tag > Hash < T >"%string "to_byte_array"%string [] [] [] (* 111 *);
   mk_item KFn "impl < T : Tag > Hash < T >"%string "as_byte_array"%string [] [] [] (* 114 *);
   mk_item KFn "impl < T : Tag > Hash < T >"%string "as_bytes"%string [] [] [] (* 117 *);
   mk_item KFn "impl < T : Tag > Hash < T >"%string "to_bytes"%string [] [CFeature "alloc"%string] [NPrelude "Vec"%string; NHeap] (* 121 *);
   mk_item KFn "impl < T : Tag > Hash < T >"%string "all_zeros"%string [] [] [] (* 128 *);
   mk_item KImpl ""%string "impl < T : Tag > schemars :: JsonSchema for Hash < T >"%string [] [CFeature "schemars"%string] [NRoot "schemars"%string] (* 132 *);
   mk_item KFn "impl < T : Tag > schemars :: JsonSchema for Hash < T >"%string "schema_name"%string [CFeature "schemars"%string] [] [NPrelude "String"%string; NPrelude "to_owned"%string] (* 133 *);
   mk_item KFn "impl < T : Tag > schemars :: JsonSchema for Hash < T >"%string "json_schema"%string [CFeature "schemars"%string] [] [NRoot "schemars"%string; NPrelude "String"%string; NPrelude "Box"%string; NPrelude "to_owned"%string; NFn "sha256t"%string "json_schema"%string] (* 135 *);
   mk_item KImpl ""%string "impl < T : Tag > Copy for Hash < T >"%string [] [] [] (* 146 *);
   mk_item KImpl ""%string "impl < T : Tag > Clone for Hash < T >"%string [] [] [] (* 147 *);
   mk_item KFn "impl < T : Tag > Clone for Hash < T >"%string "clone"%string [] [] [] (* 148 *);
   mk_item KImpl ""%string "impl < T : Tag > PartialEq for Hash < T >"%string [] [] [] (* 150 *);
   mk_item KFn "impl < T : Tag > PartialEq for Hash < T >"%string "eq"%string [] [] [] (* 151 *);
   mk_item KImpl ""%string "impl < T : Tag > Eq for Hash < T >"%string [] [] [] (* 153 *);
   mk_item KImpl ""%string "impl < T : Tag > Default for Hash < T >"%string [] [] [] (* 154 *);
   mk_item KFn "impl < T : Tag > Default for Hash < T >"%string "default"%string [] [] [] (* 155 *);
   mk_item KImpl ""%string "impl < T : Tag > PartialOrd for Hash < T >"%string [] [] [] (* 157 *);
   mk_item KFn "impl < T : Tag > PartialOrd for Hash < T >"%string "partial_cmp"%string [] [] [] (* 158 *);
   mk_item KImpl ""%string "impl < T : Tag > Ord for Hash < T >"%string [] [] [] (* 162 *);
   mk_item KFn "impl < T : Tag > Ord for Hash < T >"%string "cmp"%string [] [] [] (* 163 *);
   mk_item KImpl ""%string "impl < T : Tag > core :: hash :: Hash for Hash < T >"%string [] [] [NRoot "core"%string] (* 165 *);
   mk_item KFn "impl < T : Tag > core :: hash :: Hash for Hash < T >"%string "hash"%string [] [] [NRoot "core"%string] (* 166 *);
   mk_item KOther ""%string ""%string [] [] [NMacro "internal_macros"%string "hash_trait_impls"%string] (* 169 *);
   mk_item KMod ""%string "tests"%string [] [CFlag "test"%string] [] (* 172 *);
   mk_item KUse "mod tests"%string "usesuper::*"%string [CFlag "test"%string] [] [] (* 173 *);
   mk_item KUse "mod tests"%string "usecrate::sha256"%string [CFlag "test"%string] [] [] (* 174 *);
   mk_item KConst "mod tests"%string "TEST_MIDSTATE"%string [CFlag "test"%string] [] [] (* 176 *);
   mk_item KConst "mod tests"%string "HASH_ZERO"%string [CFlag "test"%string] [CFeature "alloc"%string] [] (* 183 *);
   mk_item KStruct "mod tests"%string "TestTag"%string [CFlag "test"%string] [] [] (* 186 *);
   mk_item KImpl "mod tests"%string "impl Tag for TestTag"%string [CFlag "test"%string] [] [] (* 188 *);
   mk_item KFn "mod tests / impl Tag for TestTag"%string "engine"%string [CFlag "test"%string] [] [] (* 189 *);
   mk_item KFn "mod tests"%string "manually_created_sha256t_hash_type"%string [CFlag "test"%string] [CFeature "alloc"%string] [NPrelude "to_string"%string] (* 198 *)].

(** src/sha384.rs *)
Definition g_items_sha384 : list item :=
  [mk_item KUse ""%string "usecore::str"%string [] [] [NRoot "core"%string] (* 5 *);
   mk_item KUse ""%string "usecrate::"%string [] [] [] (* 7 *);
   mk_item KOther ""%string ""%string [] [] [] (* 7 *);
   mk_item KOther ""%string ""%string [] [] [NMacro "internal_macros"%string "hash_type"%string] (* 9 *);
   mk_item KStruct ""%string "Engine"%string [] [] [] (* 16 *);
   mk_item KImpl ""%string "impl Default for Engine"%string [] [] [] (* 18 *);
   mk_item KFn "impl Default for Engine"%string "default"%string [] [] [] (* 20 *);
   mk_item KImpl ""%string "impl HashEngine for Engine"%string [] [] [] (* 25 *);
   mk_item KType "impl HashEngine for Engine"%string "Digest"%string [] [] [] (* 26 *);
   mk_item KType "impl HashEngine for Engine"%string "Midstate"%string [] [] [] (* 27 *);
   mk_item KConst "impl HashEngine for Engine"%string "BLOCK_SIZE"%string [] [] [] (* 28 *);
   mk_item KFn "impl HashEngine for Engine"%string "n_bytes_hashed"%string [] [] [] (* 31 *);
   mk_item KFn "impl HashEngine for Engine"%string "input"%string [] [] [] (* 34 *);
   mk_item KFn "impl HashEngine for Engine"%string "finalize"%string [] [] [] (* 37 *);
   mk_item KFn "impl HashEngine for Engine"%string "midstate"%string [] [] [] (* 44 *);
   mk_item KFn "impl HashEngine for Engine"%string "from_midstate"%string [] [] [] (* 47 *);
   mk_item KMod ""%string "tests"%string [] [CFlag "test"%string] [] (* 53 *);
   mk_item KFn "mod tests"%string "test"%string [CFlag "test"%string] [CFeature "alloc"%string] [NPrelude "Vec"%string; NPrelude "vec"%string; NPrelude "to_string"%string] (* 56 *);
   mk_item KMod ""%string "benches"%string [] [CFlag "bench"%string] [] (* 152 *);
   mk_item KUse "mod benches"%string "usetest::Bencher"%string [CFlag "bench"%string] [] [NRoot "test"%string] (* 153 *);
   mk_item KUse "mod benches"%string "usesuper::*"%string [CFlag "bench"%string] [] [] (* 155 *);
   mk_item KUse "mod benches"%string "usecrate::sha384"%string [CFlag "bench"%string] [] [] (* 156 *);
   mk_item KFn "mod benches"%string "sha384_10"%string [CFlag "bench"%string] [] [] (* 159 *);
   mk_item KFn "mod benches"%string "sha384_1k"%string [CFlag "bench"%string] [] [] (* 169 *);
   mk_item KFn "mod benches"%string "sha384_64k"%string [CFlag "bench"%string] [] [] (* 179 *)].

(** src/sha512.rs *)
Definition g_items_sha512 : list item :=
  [mk_item KUse ""%string "usecore::str"%string [] [] [NRoot "core"%string] (* 5 *);
   mk_item KUse ""%string "usecrate::HashEngine"%string [] [] [] (* 7 *);
   mk_item KOther ""%string ""%string [] [] [NMacro "internal_macros"%string "hash_type"%string] (* 9 *);
   mk_item KConst ""%string "BLOCK_SIZE"%string [] [] [] (* 14 *);
   mk_item KStruct ""%string "Engine"%string [] [] [] (* 18 *);
   mk_item KImpl ""%string "impl Default for Engine"%string [] [] [] (* 24 *);
   mk_item KFn "impl Default for Engine"%string "default"%string [] [] [] (* 26 *);
   mk_item KOther ""%string "impl Engine"%string [] [] [] (* 38 *);
   mk_item KFn "impl Engine"%string "sha512_256"%string [] [] [] (* 41 *);
   mk_item KFn "impl Engine"%string "sha384"%string [] [] [] (* 54 *);
   mk_item KImpl ""%string "impl HashEngine for Engine"%string [] [] [] (* 66 *);
   mk_item KType "impl HashEngine for Engine"%string "Digest"%string [] [] [] (* 67 *);
   mk_item KType "impl HashEngine for Engine"%string "Midstate"%string [] [] [] (* 68 *);
   mk_item KConst "impl HashEngine for Engine"%string "BLOCK_SIZE"%string [] [] [] (* 69 *);
   mk_item KFn "impl HashEngine for Engine"%string "n_bytes_hashed"%string [] [] [] (* 72 *);
   mk_item KOther "impl HashEngine for Engine"%string ""%string [] [] [NMacro "internal_macros"%string "engine_input_impl"%string] (* 74 *);
   mk_item KFn "impl HashEngine for Engine"%string "finalize"%string [] [CNot (CFlag "hashes_fuzz"%string)] [NFn "sha512"%string "midstate"%string] (* 78 *);
   mk_item KFn "impl HashEngine for Engine"%string "finalize"%string [] [CFlag "hashes_fuzz"%string] [NFn "sha512"%string "midstate"%string] (* 99 *);
   mk_item KFn "impl HashEngine for Engine"%string "midstate"%string [] [CNot (CFlag "hashes_fuzz"%string)] [] (* 107 *);
   mk_item KFn "impl HashEngine for Engine"%string "midstate"%string [] [CFlag "hashes_fuzz"%string] [] (* 116 *);
   mk_item KFn "impl HashEngine for Engine"%string "from_midstate"%string [] [] [] (* 123 *);
   mk_item KFn ""%string "Ch"%string [] [] [] (* 136 *);
   mk_item KFn ""%string "Maj"%string [] [] [] (* 138 *);
   mk_item KFn ""%string "Sigma0"%string [] [] [] (* 140 *);
   mk_item KFn ""%string "Sigma1"%string [] [] [] (* 142 *);
   mk_item KFn ""%string "sigma0"%string [] [] [] (* 143 *);
   mk_item KFn ""%string "sigma1"%string [] [] [] (* 144 *);
   mk_item KMod ""%string "small_hash"%string [] [CFeature "small-hash"%string] [] (* 148 *);
   mk_item KUse "mod small_hash"%string "usesuper::*"%string [CFeature "small-hash"%string] [] [] (* 149 *);
   mk_item KFn "mod small_hash"%string "round"%string [CFeature "small-hash"%string] [] [] (* 152 *);
   mk_item KFn "mod small_hash"%string "later_round"%string [CFeature "small-hash"%string] [] [NFn "sha512"%string "round"%string] (* 162 *);
   mk_item KMacro "mod small_hash"%string "round"%string [CFeature "small-hash"%string] [] [NFn "sha512"%string "round"%string; NFn "sha512"%string "later_round"%string] (* 171 *);
   mk_item KMod ""%string "fast_hash"%string [] [CNot (CFeature "small-hash"%string)] [] (* 185 *);
   mk_item KMacro "mod fast_hash"%string "round"%string [CNot (CFeature "small-hash"%string)] [] [NMacro "sha512"%string "round"%string] (* 186 *);
   mk_item KOther ""%string "impl Engine"%string [] [] [] (* 202 *);
   mk_item KFn "impl Engine"%string "process_block"%string [] [] [NMacro "sha512"%string "round"%string] (* 204 *);
   mk_item KMod ""%string "tests"%string [] [CFlag "test"%string] [] (* 318 *);
   mk_item KFn "mod tests"%string "test"%string [CFlag "test"%string] [CFeature "alloc"%string] [NPrelude "Vec"%string; NPrelude "vec"%string; NPrelude "to_string"%string] (* 321 *);
   mk_item KFn "mod tests"%string "sha512_serde"%string [CFlag "test"%string] [CFeature "serde"%string] [NRoot "serde_test"%string] (* 399 *);
   mk_item KMod ""%string "benches"%string [] [CFlag "bench"%string] [] (* 429 *);
   mk_item KUse "mod benches"%string "usetest::Bencher"%string [CFlag "bench"%string] [] [NRoot "test"%string] (* 430 *);
   mk_item KUse "mod benches"%string "usesuper::*"%string [CFlag "bench"%string] [] [] (* 432 *);
   mk_item KUse "mod benches"%string "usecrate::sha512"%string [CFlag "bench"%string] [] [] (* 433 *);
   mk_item KFn "mod benches"%string "sha512_10"%string [CFlag "bench"%string] [] [] (* 436 *);
   mk_item KFn "mod benches"%string "sha512_1k"%string [CFlag "bench"%string] [] [] (* 446 *);
   mk_item KFn "mod benches"%string "sha512_64k"%string [CFlag "bench"%string] [] [] (* 456 *)].

(** src/sha512_256.rs *)
Definition g_items_sha512_256 : list item :=
  [mk_item KUse ""%string "usecore::str"%string [] [] [NRoot "core"%string] (* 10 *);
   mk_item KUse ""%string "usecrate::"%string [] [] [] (* 12 *);
   mk_item KOther ""%string ""%string [] [] [] (* 12 *);
   mk_item KOther ""%string ""%string [] [] [NMacro "internal_macros"%string "hash_type"%string] (* 14 *);
   mk_item KStruct ""%string "Engine"%string [] [] [] (* 26 *);
   mk_item KImpl ""%string "impl Default for Engine"%string [] [] [] (* 28 *);
   mk_item KFn "impl Default for Engine"%string "default"%string [] [] [] (* 30 *);
   mk_item KImpl ""%string "impl HashEngine for Engine"%string [] [] [] (* 35 *);
   mk_item KType "impl HashEngine for Engine"%string "Digest"%string [] [] [] (* 36 *);
   mk_item KType "impl HashEngine for Engine"%string "Midstate"%string [] [] [] (* 37 *);
   mk_item KConst "impl HashEngine for Engine"%string "BLOCK_SIZE"%string [] [] [] (* 38 *);
   mk_item KFn "impl HashEngine for Engine"%string "n_bytes_hashed"%string [] [] [] (* 41 *);
   mk_item KFn "impl HashEngine for Engine"%string "input"%string [] [] [] (* 44 *);
   mk_item KFn "impl HashEngine for Engine"%string "finalize"%string [] [] [] (* 47 *);
   mk_item KFn "impl HashEngine for Engine"%string "midstate"%string [] [] [] (* 55 *);
   mk_item KFn "impl HashEngine for Engine"%string "from_midstate"%string [] [] [] (* 58 *);
   mk_item KMod ""%string "tests"%string [] [CFlag "test"%string] [] (* 64 *);
   mk_item KFn "mod tests"%string "test"%string [CFlag "test"%string] [CFeature "alloc"%string] [NPrelude "Vec"%string; NPrelude "vec"%string; NPrelude "to_string"%string] (* 67 *);
   mk_item KMod ""%string "benches"%string [] [CFlag "bench"%string] [] (* 153 *);
   mk_item KUse "mod benches"%string "usetest::Bencher"%string [CFlag "bench"%string] [] [NRoot "test"%string] (* 154 *);
   mk_item KUse "mod benches"%string "usesuper::*"%string [CFlag "bench"%string] [] [] (* 156 *);
   mk_item KUse "mod benches"%string "usecrate::sha512_256"%string [CFlag "bench"%string] [] [] (* 157 *);
   mk_item KFn "mod benches"%string "sha512_256_10"%string [CFlag "bench"%string] [] [] (* 160 *);
   mk_item KFn "mod benches"%string "sha512_256_1k"%string [CFlag "bench"%string] [] [] (* 170 *);
   mk_item KFn "mod benches"%string "sha512_256_64k"%string [CFlag "bench"%string] [] [] (* 180 *)].

(** src/siphash24.rs *)
Definition g_items_siphash24 : list item :=
  [mk_item KUse ""%string "usecore::"%string [] [] [NRoot "core"%string] (* 5 *);
   mk_item KOther ""%string ""%string [] [] [] (* 5 *);
   mk_item KUse ""%string "usecrate::HashEngine"%string [] [] [] (* 7 *);
   mk_item KOther ""%string ""%string [] [] [NMacro "internal_macros"%string "hash_type"%string] (* 9 *);
   mk_item KMacro ""%string "compress"%string [] [] [NMacro "siphash24"%string "compress"%string] (* 14 *);
   mk_item KMacro ""%string "load_int_le"%string [] [] [] (* 41 *);
   mk_item KStruct ""%string "State"%string [] [] [] (* 56 *);
   mk_item KStruct ""%string "Engine"%string [] [] [] (* 69 *);
   mk_item KOther ""%string "impl Engine"%string [] [] [] (* 78 *);
   mk_item KFn "impl Engine"%string "with_keys"%string [] [] [] (* 81 *);
   mk_item KFn "impl Engine"%string "new"%string [] [] [] (* 99 *);
   mk_item KFn "impl Engine"%string "keys"%string [] [] [] (* 102 *);
   mk_item KFn "impl Engine"%string "c_rounds"%string [] [] [NMacro "siphash24"%string "compress"%string] (* 105 *);
   mk_item KFn "impl Engine"%string "d_rounds"%string [] [] [NMacro "siphash24"%string "compress"%string] (* 111 *);
   mk_item KImpl ""%string "impl Default for Engine"%string [] [] [] (* 119 *);
   mk_item KFn "impl Default for Engine"%string "default"%string [] [] [] (* 120 *);
   mk_item KImpl ""%string "impl HashEngine for Engine"%string [] [] [] (* 123 *);
   mk_item KType "impl HashEngine for Engine"%string "Digest"%string [] [] [] (* 124 *);
   mk_item KType "impl HashEngine for Engine"%string "Midstate"%string [] [] [] (* 125 *);
   mk_item KConst "impl HashEngine for Engine"%string "BLOCK_SIZE"%string [] [] [] (* 126 *);
   mk_item KFn "impl HashEngine for Engine"%string "n_bytes_hashed"%string [] [] [] (* 129 *);
   mk_item KFn "impl HashEngine for Engine"%string "input"%string [] [] [NMacro "siphash24"%string "load_int_le"%string] (* 133 *);
   mk_item KFn "impl HashEngine for Engine"%string "finalize"%string [] [CNot (CFlag "hashes_fuzz"%string)] [] (* 175 *);
   mk_item KFn "impl HashEngine for Engine"%string "finalize"%string [] [CFlag "hashes_fuzz"%string] [] (* 192 *);
   mk_item KFn "impl HashEngine for Engine"%string "midstate"%string [] [] [] (* 199 *);
   mk_item KFn "impl HashEngine for Engine"%string "from_midstate"%string [] [] [] (* 202 *);
   mk_item KOther ""%string "impl Hash"%string [] [] [] (* 207 *);
   mk_item KFn "impl Hash"%string "hash_with_keys"%string [] [] [NFn "siphash24"%string "finalize"%string] (* 209 *);
   mk_item KFn "impl Hash"%string "hash_to_u64_with_keys"%string [] [] [] (* 216 *);
   mk_item KFn "impl Hash"%string "from_engine_to_u64"%string [] [] [] (* 224 *);
   mk_item KFn "impl Hash"%string "as_u64"%string [] [] [] (* 240 *);
   mk_item KFn "impl Hash"%string "from_u64"%string [] [] [] (* 243 *);
   mk_item KFn ""%string "u8to64_le"%string [] [] [NMacro "siphash24"%string "load_int_le"%string] (* 250 *);
   mk_item KMod ""%string "tests"%string [] [CFlag "test"%string] [] (* 271 *);
   mk_item KUse "mod tests"%string "usesuper::*"%string [CFlag "test"%string] [] [] (* 272 *);
   mk_item KFn "mod tests"%string "test_siphash_2_4"%string [CFlag "test"%string] [] [] (* 275 *);
   mk_item KMod ""%string "benches"%string [] [CFlag "bench"%string] [] (* 363 *);
   mk_item KUse "mod benches"%string "usetest::Bencher"%string [CFlag "bench"%string] [] [NRoot "test"%string] (* 364 *);
   mk_item KUse "mod benches"%string "usesuper::*"%string [CFlag "bench"%string] [] [] (* 366 *);
   mk_item KUse "mod benches"%string "usecrate::siphash24"%string [CFlag "bench"%string] [] [] (* 367 *);
   mk_item KFn "mod benches"%string "siphash24_1ki"%string [CFlag "bench"%string] [] [] (* 370 *);
   mk_item KFn "mod benches"%string "siphash24_64ki"%string [CFlag "bench"%string] [] [] (* 380 *);
   mk_item KFn "mod benches"%string "siphash24_1ki_hash"%string [CFlag "bench"%string] [] [] (* 390 *);
   mk_item KFn "mod benches"%string "siphash24_1ki_hash_u64"%string [CFlag "bench"%string] [] [] (* 401 *)].

Definition g_crate : list (string * list item) :=
  [("cmp"%string, g_items_cmp); ("hmac"%string, g_items_hmac); ("impls"%string, g_items_impls); ("internal_macros"%string, g_items_internal_macros); ("lib"%string, g_items_lib); ("ripemd160"%string, g_items_ripemd160); ("serde_macros"%string, g_items_serde_macros); ("sha1"%string, g_items_sha1); ("sha256"%string, g_items_sha256); ("sha256t"%string, g_items_sha256t); ("sha384"%string, g_items_sha384); ("sha512"%string, g_items_sha512); ("sha512_256"%string, g_items_sha512_256); ("siphash24"%string, g_items_siphash24)].

(** [features] and the optional dependencies, Cargo.toml *)
Definition g_features : list (string * list string) :=
  [("default"%string, ["std"%string]);
   ("std"%string, ["alloc"%string; "bitcoin-io"%string]);
   ("alloc"%string, []);
   ("io"%string, ["bitcoin-io"%string]);
   ("small-hash"%string, []);
   ("bitcoin-io"%string, []);
   ("schemars"%string, []);
   ("serde"%string, [])].

(** #[cfg] and #[target_feature] of process_block_simd_x86_intrinsics and the intrinsics in its body, src/sha256.rs:463 *)
Definition g_simd_cfg : cfg_pred := CAll [CAll [CFeature "std"%string; CAny [CArch "x86"%string; CArch "x86_64"%string]]].
Definition g_simd_features : list string := ["sha"%string; "sse2"%string; "ssse3"%string; "sse4.1"%string].
Definition g_simd_intrinsics : list string :=
  ["_mm_set_epi64x"%string; "_mm_loadu_si128"%string; "_mm_shuffle_epi32"%string; "_mm_alignr_epi8"%string; "_mm_blend_epi16"%string; "_mm_shuffle_epi8"%string; "_mm_add_epi32"%string; "_mm_sha256rnds2_epu32"%string; "_mm_sha256msg1_epu32"%string; "_mm_sha256msg2_epu32"%string; "_mm_storeu_si128"%string].

(** process_block, src/sha256.rs:445: the condition and the choice *)
Definition g_process_block_cond (b : build) (cpu : string -> bool) : bool := cpu "sse4.1"%string && cpu "sha"%string && cpu "sse2"%string && cpu "ssse3"%string.
Definition g_process_block_on (b : build) (cpu : string -> bool) (cfg : config) (v_self : engine) : outcome engine :=
  if holds b (CAll [CFeature "std"%string; CAny [CArch "x86"%string; CArch "x86_64"%string]]) && g_process_block_cond b cpu then run_unsafe b cpu g_simd_cfg g_simd_features g_simd_intrinsics (g_sha256_Engine_process_block_simd_x86_intrinsics cfg v_self)
  else Runs (g_sha256_Engine_software_process_block cfg v_self).
