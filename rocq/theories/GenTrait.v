(** Generated by tools/rs2v_trait.py from the Rust source; do not edit. *)
From Coq Require Import Strings.String.
From Verif Require Import Base BuildBase TraitBase.
Open Scope list_scope. Open Scope string_scope.

(** Structs: cfg, which parameters are types, bounds, fields, derives *)
Definition g_struct_table : list struct_decl :=
  [mk_struct "hmac::Hash" [] [false] []
     [TCon "array" [TCon "u8" []; TVar 0]]
     ["Copy"; "Clone"; "PartialEq"; "Eq"; "PartialOrd"; "Ord"; "Hash"] (* src/hmac.rs:19 *);
   mk_struct "hmac::MidState" [] [true] [(TVar 0, ("HashEngine", []))]
     [TProj (TVar 0) "Midstate"; TProj (TVar 0) "Midstate"]
     [] (* src/hmac.rs:186 *);
   mk_struct "hmac::Engine" [] [true] [(TVar 0, ("HashEngine", []))]
     [TVar 0; TVar 0]
     ["Clone"] (* src/hmac.rs:195 *);
   mk_struct "hmac::Midstate" [] [true] [(TVar 0, ("HashEngine", []))]
     [TProj (TVar 0) "Midstate"; TProj (TVar 0) "Midstate"]
     [] (* src/hmac.rs:277 *);
   mk_struct "lib::FromSliceError" [] [] []
     [TCon "usize" []; TCon "usize" []]
     ["Debug"; "Clone"; "PartialEq"; "Eq"] (* src/lib.rs:202 *);
   mk_struct "ripemd160::Hash" [] [] []
     [TCon "array" [TCon "u8" []; TNum 20]]
     ["Copy"; "Clone"; "PartialEq"; "Eq"; "PartialOrd"; "Ord"; "Hash"] (* src/internal_macros.rs:146 *);
   mk_struct "ripemd160::Engine" [] [] []
     [TCon "array" [TCon "u8" []; TNum 64]; TCon "array" [TCon "u32" []; TNum 5]; TCon "usize" []]
     ["Clone"] (* src/ripemd160.rs:18 *);
   mk_struct "serde_macros::HexVisitor" [CFeature "serde"%string] [true] []
     [TCon "PhantomData" [TVar 0]]
     [] (* src/serde_macros.rs:14 *);
   mk_struct "serde_macros::BytesVisitor" [CFeature "serde"%string] [true] []
     [TCon "PhantomData" [TVar 0]]
     [] (* src/serde_macros.rs:47 *);
   mk_struct "sha1::Hash" [] [] []
     [TCon "array" [TCon "u8" []; TNum 20]]
     ["Copy"; "Clone"; "PartialEq"; "Eq"; "PartialOrd"; "Ord"; "Hash"] (* src/internal_macros.rs:146 *);
   mk_struct "sha1::Engine" [] [] []
     [TCon "array" [TCon "u8" []; TNum 64]; TCon "array" [TCon "u32" []; TNum 5]; TCon "usize" []]
     ["Clone"] (* src/sha1.rs:18 *);
   mk_struct "sha256::Hash" [] [] []
     [TCon "array" [TCon "u8" []; TNum 32]]
     ["Copy"; "Clone"; "PartialEq"; "Eq"; "PartialOrd"; "Ord"; "Hash"] (* src/internal_macros.rs:146 *);
   mk_struct "sha256::Engine" [] [] []
     [TCon "array" [TCon "u8" []; TNum 64]; TCon "array" [TCon "u32" []; TNum 8]; TCon "usize" []]
     ["Clone"] (* src/sha256.rs:25 *);
   mk_struct "sha256::Midstate" [] [] []
     [TCon "array" [TCon "u8" []; TNum 32]]
     ["Copy"; "Clone"; "PartialEq"; "Eq"; "Default"; "PartialOrd"; "Ord"; "Hash"] (* src/sha256.rs:125 *);
   mk_struct "sha256t::Engine" [] [true] []
     [TCon "sha256::Engine" []; TCon "PhantomData" [TVar 0]]
     ["Clone"] (* src/sha256t.rs:12 *);
   mk_struct "sha256t::Hash" [] [true] [(TVar 0, ("Tag", []))]
     [TCon "array" [TCon "u8" []; TNum 32]; TCon "PhantomData" [TVar 0]]
     [] (* src/sha256t.rs:53 *);
   mk_struct "sha384::Hash" [] [] []
     [TCon "array" [TCon "u8" []; TNum 48]]
     ["Copy"; "Clone"; "PartialEq"; "Eq"; "PartialOrd"; "Ord"; "Hash"] (* src/internal_macros.rs:146 *);
   mk_struct "sha384::Engine" [] [] []
     [TCon "sha512::Engine" []]
     ["Clone"] (* src/sha384.rs:16 *);
   mk_struct "sha512::Hash" [] [] []
     [TCon "array" [TCon "u8" []; TNum 64]]
     ["Copy"; "Clone"; "PartialEq"; "Eq"; "PartialOrd"; "Ord"; "Hash"] (* src/internal_macros.rs:146 *);
   mk_struct "sha512::Engine" [] [] []
     [TCon "array" [TCon "u64" []; TNum 8]; TCon "usize" []; TCon "array" [TCon "u8" []; TNum 128]]
     ["Clone"] (* src/sha512.rs:18 *);
   mk_struct "sha512_256::Hash" [] [] []
     [TCon "array" [TCon "u8" []; TNum 32]]
     ["Copy"; "Clone"; "PartialEq"; "Eq"; "PartialOrd"; "Ord"; "Hash"] (* src/internal_macros.rs:146 *);
   mk_struct "sha512_256::Engine" [] [] []
     [TCon "sha512::Engine" []]
     ["Clone"] (* src/sha512_256.rs:26 *);
   mk_struct "siphash24::Hash" [] [] []
     [TCon "array" [TCon "u8" []; TNum 8]]
     ["Copy"; "Clone"; "PartialEq"; "Eq"; "PartialOrd"; "Ord"; "Hash"] (* src/internal_macros.rs:146 *);
   mk_struct "siphash24::State" [] [] []
     [TCon "u64" []; TCon "u64" []; TCon "u64" []; TCon "u64" []]
     ["Debug"; "Clone"] (* src/siphash24.rs:56 *);
   mk_struct "siphash24::Engine" [] [] []
     [TCon "u64" []; TCon "u64" []; TCon "usize" []; TCon "siphash24::State" []; TCon "u64" []; TCon "usize" []]
     ["Debug"; "Clone"] (* src/siphash24.rs:69 *)].

(** Traits: what an implementation implies of Self and its associated types *)
Definition g_trait_table : list trait_decl :=
  [mk_trait "HashEngine"
     [(TVar 0, ("Clone", [])); (TVar 0, ("Default", [])); (TProj (TVar 0) "Digest", ("Copy", [])); (TProj (TVar 0) "Digest", ("Clone", [])); (TProj (TVar 0) "Digest", ("PartialEq", [])); (TProj (TVar 0) "Digest", ("Eq", [])); (TProj (TVar 0) "Digest", ("PartialOrd", [])); (TProj (TVar 0) "Digest", ("Ord", [])); (TProj (TVar 0) "Digest", ("Hash", [])); (TProj (TVar 0) "Digest", ("AsRef", [TCon "slice" [TCon "u8" []]]))] (* src/lib.rs:133 *);
   mk_trait "SerdeHash"
     [(TVar 0, ("FromStr", [])); (TVar 0, ("Display", [])); (TVar 0, ("Index", [TCon "usize" []])); (TVar 0, ("Index", [TCon "RangeFull" []])); (TProj (TVar 0) "Err", ("Display", []))] (* src/serde_macros.rs:72 *);
   mk_trait "Tag"
     [(TVar 0, ("Clone", []))] (* src/sha256t.rs:46 *)].

(** Impls of traits: cfg, bounds, trait, type, associated types *)
Definition g_impl_table : list impl_decl :=
  [mk_impl [CFeature "schemars"%string] [] ("JsonSchema", []) (TCon "hmac::Hash" [TVar 0]) [] (* hmac.rs:91 *);
   mk_impl [] [] ("FromStr", []) (TCon "hmac::Hash" [TVar 0]) [("Err", TCon "HexToArrayError" [])] (* hmac.rs:105 *);
   mk_impl [] [] ("Display", []) (TCon "hmac::Hash" [TVar 0]) [] (* hmac.rs:115 *);
   mk_impl [] [] ("Debug", []) (TCon "hmac::Hash" [TVar 0]) [] (* hmac.rs:119 *);
   mk_impl [] [] ("LowerHex", []) (TCon "hmac::Hash" [TVar 0]) [] (* hmac.rs:123 *);
   mk_impl [] [] ("UpperHex", []) (TCon "hmac::Hash" [TVar 0]) [] (* hmac.rs:130 *);
   mk_impl [] [] ("Index", [TCon "usize" []]) (TCon "hmac::Hash" [TVar 0]) [] (* hmac.rs:136 *);
   mk_impl [] [] ("Index", [TCon "Range" [TCon "usize" []]]) (TCon "hmac::Hash" [TVar 0]) [] (* hmac.rs:141 *);
   mk_impl [] [] ("Index", [TCon "RangeFrom" [TCon "usize" []]]) (TCon "hmac::Hash" [TVar 0]) [] (* hmac.rs:146 *);
   mk_impl [] [] ("Index", [TCon "RangeTo" [TCon "usize" []]]) (TCon "hmac::Hash" [TVar 0]) [] (* hmac.rs:151 *);
   mk_impl [] [] ("Index", [TCon "RangeFull" []]) (TCon "hmac::Hash" [TVar 0]) [] (* hmac.rs:156 *);
   mk_impl [] [] ("AsRef", [TCon "slice" [TCon "u8" []]]) (TCon "hmac::Hash" [TVar 0]) [] (* hmac.rs:161 *);
   mk_impl [CFeature "serde"%string] [] ("SerdeHash", []) (TCon "hmac::Hash" [TVar 0]) [] (* hmac.rs:166 *);
   mk_impl [CFeature "serde"%string] [] ("Serialize", []) (TCon "hmac::Hash" [TVar 0]) [] (* hmac.rs:172 *);
   mk_impl [CFeature "serde"%string] [] ("Deserialize", []) (TCon "hmac::Hash" [TVar 0]) [] (* hmac.rs:179 *);
   mk_impl [] [(TVar 0, ("HashEngine", []))] ("Default", []) (TCon "hmac::Engine" [TVar 0]) [] (* hmac.rs:200 *);
   mk_impl [] [(TVar 0, ("HashEngine", []))] ("HashEngine", []) (TCon "hmac::Engine" [TVar 0]) [("Digest", TProj (TVar 0) "Digest"); ("Midstate", TCon "hmac::Midstate" [TVar 0])] (* hmac.rs:242 *);
   mk_impl [CFeature "bitcoin-io"%string] [] ("bitcoin_io::Write", []) (TCon "sha1::Engine" []) [] (* impls.rs:12 *);
   mk_impl [CFeature "bitcoin-io"%string] [] ("bitcoin_io::Write", []) (TCon "sha256::Engine" []) [] (* impls.rs:21 *);
   mk_impl [CFeature "bitcoin-io"%string] [] ("bitcoin_io::Write", []) (TCon "sha512::Engine" []) [] (* impls.rs:30 *);
   mk_impl [CFeature "bitcoin-io"%string] [] ("bitcoin_io::Write", []) (TCon "ripemd160::Engine" []) [] (* impls.rs:39 *);
   mk_impl [CFeature "bitcoin-io"%string] [] ("bitcoin_io::Write", []) (TCon "siphash24::Engine" []) [] (* impls.rs:48 *);
   mk_impl [CFeature "bitcoin-io"%string] [(TVar 0, ("HashEngine", []))] ("bitcoin_io::Write", []) (TCon "hmac::Engine" [TVar 0]) [] (* impls.rs:57 *);
   mk_impl [CFeature "bitcoin-io"%string; CFeature "std"%string] [(TVar 0, ("HashEngine", []))] ("std::io::Write", []) (TCon "hmac::Engine" [TVar 0]) [] (* impls.rs:69 *);
   mk_impl [CFeature "bitcoin-io"%string] [(TVar 0, ("Tag", []))] ("bitcoin_io::Write", []) (TCon "sha256t::Engine" [TVar 0]) [] (* impls.rs:80 *);
   mk_impl [] [] ("Display", []) (TCon "lib::FromSliceError" []) [] (* lib.rs:220 *);
   mk_impl [CFeature "std"%string] [] ("Error", []) (TCon "lib::FromSliceError" []) [] (* lib.rs:227 *);
   mk_impl [CFeature "schemars"%string] [] ("JsonSchema", []) (TCon "ripemd160::Hash" []) [] (* internal_macros.rs:227 *);
   mk_impl [] [] ("FromStr", []) (TCon "ripemd160::Hash" []) [("Err", TCon "HexToArrayError" [])] (* internal_macros.rs:104 *);
   mk_impl [] [] ("LowerHex", []) (TCon "ripemd160::Hash" []) [] (* internal_macros.rs:52 *);
   mk_impl [] [] ("UpperHex", []) (TCon "ripemd160::Hash" []) [] (* internal_macros.rs:59 *);
   mk_impl [] [] ("Display", []) (TCon "ripemd160::Hash" []) [] (* internal_macros.rs:66 *);
   mk_impl [] [] ("Debug", []) (TCon "ripemd160::Hash" []) [] (* internal_macros.rs:73 *);
   mk_impl [CFeature "serde"%string] [] ("SerdeHash", []) (TCon "ripemd160::Hash" []) [] (* serde_macros.rs:113 *);
   mk_impl [CFeature "serde"%string] [] ("Serialize", []) (TCon "ripemd160::Hash" []) [] (* serde_macros.rs:120 *);
   mk_impl [CFeature "serde"%string] [] ("Deserialize", []) (TCon "ripemd160::Hash" []) [] (* serde_macros.rs:126 *);
   mk_impl [] [] ("AsRef", [TCon "slice" [TCon "u8" []]]) (TCon "ripemd160::Hash" []) [] (* internal_macros.rs:11 *);
   mk_impl [] [] ("AsRef", [TCon "array" [TCon "u8" []; TNum 20]]) (TCon "ripemd160::Hash" []) [] (* internal_macros.rs:118 *);
   mk_impl [] [(TVar 0, ("SliceIndex", [TCon "slice" [TCon "u8" []]]))] ("Index", [TVar 0]) (TCon "ripemd160::Hash" []) [] (* internal_macros.rs:122 *);
   mk_impl [] [] ("Default", []) (TCon "ripemd160::Engine" []) [] (* ripemd160.rs:24 *);
   mk_impl [] [] ("HashEngine", []) (TCon "ripemd160::Engine" []) [("Digest", TCon "array" [TCon "u8" []; TNum 20]); ("Midstate", TCon "array" [TCon "u8" []; TNum 20])] (* ripemd160.rs:34 *);
   mk_impl [CFeature "serde"%string] [(TVar 0, ("FromStr", [])); (TProj (TVar 0) "Err", ("Display", []))] ("Visitor", []) (TCon "serde_macros::HexVisitor" [TVar 0]) [] (* serde_macros.rs:17 *);
   mk_impl [CFeature "serde"%string] [(TVar 0, ("SerdeHash", [])); (TProj (TVar 0) "Err", ("Display", []))] ("Visitor", []) (TCon "serde_macros::BytesVisitor" [TVar 0]) [] (* serde_macros.rs:49 *);
   mk_impl [CFeature "schemars"%string] [] ("JsonSchema", []) (TCon "sha1::Hash" []) [] (* internal_macros.rs:227 *);
   mk_impl [] [] ("FromStr", []) (TCon "sha1::Hash" []) [("Err", TCon "HexToArrayError" [])] (* internal_macros.rs:104 *);
   mk_impl [] [] ("LowerHex", []) (TCon "sha1::Hash" []) [] (* internal_macros.rs:52 *);
   mk_impl [] [] ("UpperHex", []) (TCon "sha1::Hash" []) [] (* internal_macros.rs:59 *);
   mk_impl [] [] ("Display", []) (TCon "sha1::Hash" []) [] (* internal_macros.rs:66 *);
   mk_impl [] [] ("Debug", []) (TCon "sha1::Hash" []) [] (* internal_macros.rs:73 *);
   mk_impl [CFeature "serde"%string] [] ("SerdeHash", []) (TCon "sha1::Hash" []) [] (* serde_macros.rs:113 *);
   mk_impl [CFeature "serde"%string] [] ("Serialize", []) (TCon "sha1::Hash" []) [] (* serde_macros.rs:120 *);
   mk_impl [CFeature "serde"%string] [] ("Deserialize", []) (TCon "sha1::Hash" []) [] (* serde_macros.rs:126 *);
   mk_impl [] [] ("AsRef", [TCon "slice" [TCon "u8" []]]) (TCon "sha1::Hash" []) [] (* internal_macros.rs:11 *);
   mk_impl [] [] ("AsRef", [TCon "array" [TCon "u8" []; TNum 20]]) (TCon "sha1::Hash" []) [] (* internal_macros.rs:118 *);
   mk_impl [] [(TVar 0, ("SliceIndex", [TCon "slice" [TCon "u8" []]]))] ("Index", [TVar 0]) (TCon "sha1::Hash" []) [] (* internal_macros.rs:122 *);
   mk_impl [] [] ("Default", []) (TCon "sha1::Engine" []) [] (* sha1.rs:24 *);
   mk_impl [] [] ("HashEngine", []) (TCon "sha1::Engine" []) [("Digest", TCon "array" [TCon "u8" []; TNum 20]); ("Midstate", TCon "array" [TCon "u8" []; TNum 20])] (* sha1.rs:34 *);
   mk_impl [CFeature "schemars"%string] [] ("JsonSchema", []) (TCon "sha256::Hash" []) [] (* internal_macros.rs:227 *);
   mk_impl [] [] ("FromStr", []) (TCon "sha256::Hash" []) [("Err", TCon "HexToArrayError" [])] (* internal_macros.rs:104 *);
   mk_impl [] [] ("LowerHex", []) (TCon "sha256::Hash" []) [] (* internal_macros.rs:52 *);
   mk_impl [] [] ("UpperHex", []) (TCon "sha256::Hash" []) [] (* internal_macros.rs:59 *);
   mk_impl [] [] ("Display", []) (TCon "sha256::Hash" []) [] (* internal_macros.rs:66 *);
   mk_impl [] [] ("Debug", []) (TCon "sha256::Hash" []) [] (* internal_macros.rs:73 *);
   mk_impl [CFeature "serde"%string] [] ("SerdeHash", []) (TCon "sha256::Hash" []) [] (* serde_macros.rs:113 *);
   mk_impl [CFeature "serde"%string] [] ("Serialize", []) (TCon "sha256::Hash" []) [] (* serde_macros.rs:120 *);
   mk_impl [CFeature "serde"%string] [] ("Deserialize", []) (TCon "sha256::Hash" []) [] (* serde_macros.rs:126 *);
   mk_impl [] [] ("AsRef", [TCon "slice" [TCon "u8" []]]) (TCon "sha256::Hash" []) [] (* internal_macros.rs:11 *);
   mk_impl [] [] ("AsRef", [TCon "array" [TCon "u8" []; TNum 32]]) (TCon "sha256::Hash" []) [] (* internal_macros.rs:118 *);
   mk_impl [] [(TVar 0, ("SliceIndex", [TCon "slice" [TCon "u8" []]]))] ("Index", [TVar 0]) (TCon "sha256::Hash" []) [] (* internal_macros.rs:122 *);
   mk_impl [] [] ("Default", []) (TCon "sha256::Engine" []) [] (* sha256.rs:31 *);
   mk_impl [] [] ("HashEngine", []) (TCon "sha256::Engine" []) [("Digest", TCon "array" [TCon "u8" []; TNum 32]); ("Midstate", TCon "sha256::Midstate" [])] (* sha256.rs:44 *);
   mk_impl [] [] ("LowerHex", []) (TCon "sha256::Midstate" []) [] (* internal_macros.rs:52 *);
   mk_impl [] [] ("UpperHex", []) (TCon "sha256::Midstate" []) [] (* internal_macros.rs:59 *);
   mk_impl [] [] ("Display", []) (TCon "sha256::Midstate" []) [] (* internal_macros.rs:66 *);
   mk_impl [] [] ("Debug", []) (TCon "sha256::Midstate" []) [] (* internal_macros.rs:73 *);
   mk_impl [CFeature "serde"%string] [] ("SerdeHash", []) (TCon "sha256::Midstate" []) [] (* serde_macros.rs:113 *);
   mk_impl [CFeature "serde"%string] [] ("Serialize", []) (TCon "sha256::Midstate" []) [] (* serde_macros.rs:120 *);
   mk_impl [CFeature "serde"%string] [] ("Deserialize", []) (TCon "sha256::Midstate" []) [] (* serde_macros.rs:126 *);
   mk_impl [] [] ("AsRef", [TCon "slice" [TCon "u8" []]]) (TCon "sha256::Midstate" []) [] (* internal_macros.rs:11 *);
   mk_impl [] [(TVar 0, ("SliceIndex", [TCon "slice" [TCon "u8" []]]))] ("Index", [TVar 0]) (TCon "sha256::Midstate" []) [] (* sha256.rs:131 *);
   mk_impl [] [] ("FromStr", []) (TCon "sha256::Midstate" []) [("Err", TCon "HexToArrayError" [])] (* sha256.rs:138 *);
   mk_impl [] [] ("FromHex", []) (TCon "sha256::Midstate" []) [("Error", TCon "HexToArrayError" [])] (* sha256.rs:181 *);
   mk_impl [] [(TVar 0, ("Tag", []))] ("Default", []) (TCon "sha256t::Engine" [TVar 0]) [] (* sha256t.rs:14 *);
   mk_impl [] [(TVar 0, ("Tag", []))] ("HashEngine", []) (TCon "sha256t::Engine" [TVar 0]) [("Digest", TCon "array" [TCon "u8" []; TNum 32]); ("Midstate", TCon "sha256::Midstate" [])] (* sha256t.rs:18 *);
   mk_impl [CFeature "schemars"%string] [(TVar 0, ("Tag", []))] ("JsonSchema", []) (TCon "sha256t::Hash" [TVar 0]) [] (* sha256t.rs:132 *);
   mk_impl [] [(TVar 0, ("Tag", []))] ("Copy", []) (TCon "sha256t::Hash" [TVar 0]) [] (* sha256t.rs:146 *);
   mk_impl [] [(TVar 0, ("Tag", []))] ("Clone", []) (TCon "sha256t::Hash" [TVar 0]) [] (* sha256t.rs:147 *);
   mk_impl [] [(TVar 0, ("Tag", []))] ("PartialEq", []) (TCon "sha256t::Hash" [TVar 0]) [] (* sha256t.rs:150 *);
   mk_impl [] [(TVar 0, ("Tag", []))] ("Eq", []) (TCon "sha256t::Hash" [TVar 0]) [] (* sha256t.rs:153 *);
   mk_impl [] [(TVar 0, ("Tag", []))] ("Default", []) (TCon "sha256t::Hash" [TVar 0]) [] (* sha256t.rs:154 *);
   mk_impl [] [(TVar 0, ("Tag", []))] ("PartialOrd", []) (TCon "sha256t::Hash" [TVar 0]) [] (* sha256t.rs:157 *);
   mk_impl [] [(TVar 0, ("Tag", []))] ("Ord", []) (TCon "sha256t::Hash" [TVar 0]) [] (* sha256t.rs:162 *);
   mk_impl [] [(TVar 0, ("Tag", []))] ("Hash", []) (TCon "sha256t::Hash" [TVar 0]) [] (* sha256t.rs:165 *);
   mk_impl [] [(TVar 0, ("Tag", []))] ("FromStr", []) (TCon "sha256t::Hash" [TVar 0]) [("Err", TCon "HexToArrayError" [])] (* internal_macros.rs:104 *);
   mk_impl [] [(TVar 0, ("Tag", []))] ("LowerHex", []) (TCon "sha256t::Hash" [TVar 0]) [] (* internal_macros.rs:52 *);
   mk_impl [] [(TVar 0, ("Tag", []))] ("UpperHex", []) (TCon "sha256t::Hash" [TVar 0]) [] (* internal_macros.rs:59 *);
   mk_impl [] [(TVar 0, ("Tag", []))] ("Display", []) (TCon "sha256t::Hash" [TVar 0]) [] (* internal_macros.rs:66 *);
   mk_impl [] [(TVar 0, ("Tag", []))] ("Debug", []) (TCon "sha256t::Hash" [TVar 0]) [] (* internal_macros.rs:73 *);
   mk_impl [CFeature "serde"%string] [(TVar 0, ("Tag", []))] ("SerdeHash", []) (TCon "sha256t::Hash" [TVar 0]) [] (* serde_macros.rs:113 *);
   mk_impl [CFeature "serde"%string] [(TVar 0, ("Tag", []))] ("Serialize", []) (TCon "sha256t::Hash" [TVar 0]) [] (* serde_macros.rs:120 *);
   mk_impl [CFeature "serde"%string] [(TVar 0, ("Tag", []))] ("Deserialize", []) (TCon "sha256t::Hash" [TVar 0]) [] (* serde_macros.rs:126 *);
   mk_impl [] [(TVar 0, ("Tag", []))] ("AsRef", [TCon "slice" [TCon "u8" []]]) (TCon "sha256t::Hash" [TVar 0]) [] (* internal_macros.rs:11 *);
   mk_impl [] [(TVar 0, ("Tag", []))] ("AsRef", [TCon "array" [TCon "u8" []; TNum 32]]) (TCon "sha256t::Hash" [TVar 0]) [] (* internal_macros.rs:118 *);
   mk_impl [] [(TVar 0, ("SliceIndex", [TCon "slice" [TCon "u8" []]])); (TVar 1, ("Tag", []))] ("Index", [TVar 0]) (TCon "sha256t::Hash" [TVar 1]) [] (* internal_macros.rs:122 *);
   mk_impl [CFeature "schemars"%string] [] ("JsonSchema", []) (TCon "sha384::Hash" []) [] (* internal_macros.rs:227 *);
   mk_impl [] [] ("FromStr", []) (TCon "sha384::Hash" []) [("Err", TCon "HexToArrayError" [])] (* internal_macros.rs:104 *);
   mk_impl [] [] ("LowerHex", []) (TCon "sha384::Hash" []) [] (* internal_macros.rs:52 *);
   mk_impl [] [] ("UpperHex", []) (TCon "sha384::Hash" []) [] (* internal_macros.rs:59 *);
   mk_impl [] [] ("Display", []) (TCon "sha384::Hash" []) [] (* internal_macros.rs:66 *);
   mk_impl [] [] ("Debug", []) (TCon "sha384::Hash" []) [] (* internal_macros.rs:73 *);
   mk_impl [CFeature "serde"%string] [] ("SerdeHash", []) (TCon "sha384::Hash" []) [] (* serde_macros.rs:113 *);
   mk_impl [CFeature "serde"%string] [] ("Serialize", []) (TCon "sha384::Hash" []) [] (* serde_macros.rs:120 *);
   mk_impl [CFeature "serde"%string] [] ("Deserialize", []) (TCon "sha384::Hash" []) [] (* serde_macros.rs:126 *);
   mk_impl [] [] ("AsRef", [TCon "slice" [TCon "u8" []]]) (TCon "sha384::Hash" []) [] (* internal_macros.rs:11 *);
   mk_impl [] [] ("AsRef", [TCon "array" [TCon "u8" []; TNum 48]]) (TCon "sha384::Hash" []) [] (* internal_macros.rs:118 *);
   mk_impl [] [(TVar 0, ("SliceIndex", [TCon "slice" [TCon "u8" []]]))] ("Index", [TVar 0]) (TCon "sha384::Hash" []) [] (* internal_macros.rs:122 *);
   mk_impl [] [] ("Default", []) (TCon "sha384::Engine" []) [] (* sha384.rs:18 *);
   mk_impl [] [] ("HashEngine", []) (TCon "sha384::Engine" []) [("Digest", TCon "array" [TCon "u8" []; TNum 48]); ("Midstate", TCon "array" [TCon "u8" []; TNum 64])] (* sha384.rs:25 *);
   mk_impl [CFeature "schemars"%string] [] ("JsonSchema", []) (TCon "sha512::Hash" []) [] (* internal_macros.rs:227 *);
   mk_impl [] [] ("FromStr", []) (TCon "sha512::Hash" []) [("Err", TCon "HexToArrayError" [])] (* internal_macros.rs:104 *);
   mk_impl [] [] ("LowerHex", []) (TCon "sha512::Hash" []) [] (* internal_macros.rs:52 *);
   mk_impl [] [] ("UpperHex", []) (TCon "sha512::Hash" []) [] (* internal_macros.rs:59 *);
   mk_impl [] [] ("Display", []) (TCon "sha512::Hash" []) [] (* internal_macros.rs:66 *);
   mk_impl [] [] ("Debug", []) (TCon "sha512::Hash" []) [] (* internal_macros.rs:73 *);
   mk_impl [CFeature "serde"%string] [] ("SerdeHash", []) (TCon "sha512::Hash" []) [] (* serde_macros.rs:113 *);
   mk_impl [CFeature "serde"%string] [] ("Serialize", []) (TCon "sha512::Hash" []) [] (* serde_macros.rs:120 *);
   mk_impl [CFeature "serde"%string] [] ("Deserialize", []) (TCon "sha512::Hash" []) [] (* serde_macros.rs:126 *);
   mk_impl [] [] ("AsRef", [TCon "slice" [TCon "u8" []]]) (TCon "sha512::Hash" []) [] (* internal_macros.rs:11 *);
   mk_impl [] [] ("AsRef", [TCon "array" [TCon "u8" []; TNum 64]]) (TCon "sha512::Hash" []) [] (* internal_macros.rs:118 *);
   mk_impl [] [(TVar 0, ("SliceIndex", [TCon "slice" [TCon "u8" []]]))] ("Index", [TVar 0]) (TCon "sha512::Hash" []) [] (* internal_macros.rs:122 *);
   mk_impl [] [] ("Default", []) (TCon "sha512::Engine" []) [] (* sha512.rs:24 *);
   mk_impl [] [] ("HashEngine", []) (TCon "sha512::Engine" []) [("Digest", TCon "array" [TCon "u8" []; TNum 64]); ("Midstate", TCon "array" [TCon "u8" []; TNum 64])] (* sha512.rs:66 *);
   mk_impl [CFeature "schemars"%string] [] ("JsonSchema", []) (TCon "sha512_256::Hash" []) [] (* internal_macros.rs:227 *);
   mk_impl [] [] ("FromStr", []) (TCon "sha512_256::Hash" []) [("Err", TCon "HexToArrayError" [])] (* internal_macros.rs:104 *);
   mk_impl [] [] ("LowerHex", []) (TCon "sha512_256::Hash" []) [] (* internal_macros.rs:52 *);
   mk_impl [] [] ("UpperHex", []) (TCon "sha512_256::Hash" []) [] (* internal_macros.rs:59 *);
   mk_impl [] [] ("Display", []) (TCon "sha512_256::Hash" []) [] (* internal_macros.rs:66 *);
   mk_impl [] [] ("Debug", []) (TCon "sha512_256::Hash" []) [] (* internal_macros.rs:73 *);
   mk_impl [CFeature "serde"%string] [] ("SerdeHash", []) (TCon "sha512_256::Hash" []) [] (* serde_macros.rs:113 *);
   mk_impl [CFeature "serde"%string] [] ("Serialize", []) (TCon "sha512_256::Hash" []) [] (* serde_macros.rs:120 *);
   mk_impl [CFeature "serde"%string] [] ("Deserialize", []) (TCon "sha512_256::Hash" []) [] (* serde_macros.rs:126 *);
   mk_impl [] [] ("AsRef", [TCon "slice" [TCon "u8" []]]) (TCon "sha512_256::Hash" []) [] (* internal_macros.rs:11 *);
   mk_impl [] [] ("AsRef", [TCon "array" [TCon "u8" []; TNum 32]]) (TCon "sha512_256::Hash" []) [] (* internal_macros.rs:118 *);
   mk_impl [] [(TVar 0, ("SliceIndex", [TCon "slice" [TCon "u8" []]]))] ("Index", [TVar 0]) (TCon "sha512_256::Hash" []) [] (* internal_macros.rs:122 *);
   mk_impl [] [] ("Default", []) (TCon "sha512_256::Engine" []) [] (* sha512_256.rs:28 *);
   mk_impl [] [] ("HashEngine", []) (TCon "sha512_256::Engine" []) [("Digest", TCon "array" [TCon "u8" []; TNum 32]); ("Midstate", TCon "array" [TCon "u8" []; TNum 64])] (* sha512_256.rs:35 *);
   mk_impl [CFeature "schemars"%string] [] ("JsonSchema", []) (TCon "siphash24::Hash" []) [] (* internal_macros.rs:227 *);
   mk_impl [] [] ("FromStr", []) (TCon "siphash24::Hash" []) [("Err", TCon "HexToArrayError" [])] (* internal_macros.rs:104 *);
   mk_impl [] [] ("LowerHex", []) (TCon "siphash24::Hash" []) [] (* internal_macros.rs:52 *);
   mk_impl [] [] ("UpperHex", []) (TCon "siphash24::Hash" []) [] (* internal_macros.rs:59 *);
   mk_impl [] [] ("Display", []) (TCon "siphash24::Hash" []) [] (* internal_macros.rs:66 *);
   mk_impl [] [] ("Debug", []) (TCon "siphash24::Hash" []) [] (* internal_macros.rs:73 *);
   mk_impl [CFeature "serde"%string] [] ("SerdeHash", []) (TCon "siphash24::Hash" []) [] (* serde_macros.rs:113 *);
   mk_impl [CFeature "serde"%string] [] ("Serialize", []) (TCon "siphash24::Hash" []) [] (* serde_macros.rs:120 *);
   mk_impl [CFeature "serde"%string] [] ("Deserialize", []) (TCon "siphash24::Hash" []) [] (* serde_macros.rs:126 *);
   mk_impl [] [] ("AsRef", [TCon "slice" [TCon "u8" []]]) (TCon "siphash24::Hash" []) [] (* internal_macros.rs:11 *);
   mk_impl [] [] ("AsRef", [TCon "array" [TCon "u8" []; TNum 8]]) (TCon "siphash24::Hash" []) [] (* internal_macros.rs:118 *);
   mk_impl [] [(TVar 0, ("SliceIndex", [TCon "slice" [TCon "u8" []]]))] ("Index", [TVar 0]) (TCon "siphash24::Hash" []) [] (* internal_macros.rs:122 *);
   mk_impl [] [] ("Default", []) (TCon "siphash24::Engine" []) [] (* siphash24.rs:119 *);
   mk_impl [] [] ("HashEngine", []) (TCon "siphash24::Engine" []) [("Digest", TCon "array" [TCon "u8" []; TNum 8]); ("Midstate", TCon "siphash24::State" [])] (* siphash24.rs:123 *)].
