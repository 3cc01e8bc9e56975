(** Generated by tools/rs2v_decl.py from the Rust source; do not edit. *)
From Coq Require Import Strings.Byte Strings.String.
From Verif Require Import Base ModelEngine ModelTypes ModelValues ModelSip ModelMem GenBase GenTypes GenText DeclBase.
Open Scope list_scope.

(** struct Hash, src/internal_macros.rs:146 *)
Definition g_sha1_Hash_decl : decl :=
  mk_decl ReprTransparent [FBytes 20].

(** from_bytes_ref, src/internal_macros.rs:177-180 *)
Definition g_sha1_Hash_from_bytes_ref_arg : N := 20.
Definition g_sha1_Hash_from_bytes_ref (v_l : slayout) (v_bytes : pointer) : res pointer :=
  slayout_cast v_l v_bytes.

(** from_bytes_mut, src/internal_macros.rs:184-187 *)
Definition g_sha1_Hash_from_bytes_mut_arg : N := 20.
Definition g_sha1_Hash_from_bytes_mut (v_l : slayout) (v_bytes : pointer) : res pointer :=
  slayout_cast v_l v_bytes.

(** as_byte_array, src/internal_macros.rs:207-207 *)
Definition g_sha1_Hash_ref_as_byte_array (v_l : slayout) (v_self : pointer) : pointer :=
  field_ref v_l 0 (field_size (FBytes 20)) v_self.

(** as_bytes, src/internal_macros.rs:211-211 *)
Definition g_sha1_Hash_ref_as_bytes (v_l : slayout) (v_self : pointer) : pointer :=
  field_ref v_l 0 (field_size (FBytes 20)) v_self.

(** AsRefArray::as_ref, src/internal_macros.rs:119-119 *)
Definition g_sha1_Hash_ref_as_ref_array (v_l : slayout) (v_self : pointer) : pointer :=
  field_ref v_l 0 (field_size (FBytes 20)) v_self.

(** AsRef::as_ref, src/internal_macros.rs:12-12 *)
Definition g_sha1_Hash_ref_as_ref (v_l : slayout) (v_self : pointer) : pointer :=
  field_ref v_l 0 (field_size (FBytes 20)) v_self.

(** the_clone of sha1::Hash *)
Definition g_sha1_Hash_the_clone (v_self : bytes) : bytes :=
  v_self.

(** the_eq of sha1::Hash *)
Definition g_sha1_Hash_the_eq (v_self v_other : bytes) : bool :=
  array_eq v_self v_other.

(** the_cmp of sha1::Hash *)
Definition g_sha1_Hash_the_cmp (v_self v_other : bytes) : comparison :=
  array_cmp v_self v_other.

(** the_partial_cmp of sha1::Hash *)
Definition g_sha1_Hash_the_partial_cmp (v_self v_other : bytes) : option comparison :=
  Some (array_cmp v_self v_other).

(** the_hash of sha1::Hash *)
Definition g_sha1_Hash_the_hash (v_self : bytes) : list hasher_call :=
  array_hash v_self.

(** struct Hash, src/internal_macros.rs:146 *)
Definition g_sha256_Hash_decl : decl :=
  mk_decl ReprTransparent [FBytes 32].

(** from_bytes_ref, src/internal_macros.rs:177-180 *)
Definition g_sha256_Hash_from_bytes_ref_arg : N := 32.
Definition g_sha256_Hash_from_bytes_ref (v_l : slayout) (v_bytes : pointer) : res pointer :=
  slayout_cast v_l v_bytes.

(** from_bytes_mut, src/internal_macros.rs:184-187 *)
Definition g_sha256_Hash_from_bytes_mut_arg : N := 32.
Definition g_sha256_Hash_from_bytes_mut (v_l : slayout) (v_bytes : pointer) : res pointer :=
  slayout_cast v_l v_bytes.

(** as_byte_array, src/internal_macros.rs:207-207 *)
Definition g_sha256_Hash_ref_as_byte_array (v_l : slayout) (v_self : pointer) : pointer :=
  field_ref v_l 0 (field_size (FBytes 32)) v_self.

(** as_bytes, src/internal_macros.rs:211-211 *)
Definition g_sha256_Hash_ref_as_bytes (v_l : slayout) (v_self : pointer) : pointer :=
  field_ref v_l 0 (field_size (FBytes 32)) v_self.

(** AsRefArray::as_ref, src/internal_macros.rs:119-119 *)
Definition g_sha256_Hash_ref_as_ref_array (v_l : slayout) (v_self : pointer) : pointer :=
  field_ref v_l 0 (field_size (FBytes 32)) v_self.

(** AsRef::as_ref, src/internal_macros.rs:12-12 *)
Definition g_sha256_Hash_ref_as_ref (v_l : slayout) (v_self : pointer) : pointer :=
  field_ref v_l 0 (field_size (FBytes 32)) v_self.

(** the_clone of sha256::Hash *)
Definition g_sha256_Hash_the_clone (v_self : bytes) : bytes :=
  v_self.

(** the_eq of sha256::Hash *)
Definition g_sha256_Hash_the_eq (v_self v_other : bytes) : bool :=
  array_eq v_self v_other.

(** the_cmp of sha256::Hash *)
Definition g_sha256_Hash_the_cmp (v_self v_other : bytes) : comparison :=
  array_cmp v_self v_other.

(** the_partial_cmp of sha256::Hash *)
Definition g_sha256_Hash_the_partial_cmp (v_self v_other : bytes) : option comparison :=
  Some (array_cmp v_self v_other).

(** the_hash of sha256::Hash *)
Definition g_sha256_Hash_the_hash (v_self : bytes) : list hasher_call :=
  array_hash v_self.

(** struct Hash, src/internal_macros.rs:146 *)
Definition g_sha384_Hash_decl : decl :=
  mk_decl ReprTransparent [FBytes 48].

(** from_bytes_ref, src/internal_macros.rs:177-180 *)
Definition g_sha384_Hash_from_bytes_ref_arg : N := 48.
Definition g_sha384_Hash_from_bytes_ref (v_l : slayout) (v_bytes : pointer) : res pointer :=
  slayout_cast v_l v_bytes.

(** from_bytes_mut, src/internal_macros.rs:184-187 *)
Definition g_sha384_Hash_from_bytes_mut_arg : N := 48.
Definition g_sha384_Hash_from_bytes_mut (v_l : slayout) (v_bytes : pointer) : res pointer :=
  slayout_cast v_l v_bytes.

(** as_byte_array, src/internal_macros.rs:207-207 *)
Definition g_sha384_Hash_ref_as_byte_array (v_l : slayout) (v_self : pointer) : pointer :=
  field_ref v_l 0 (field_size (FBytes 48)) v_self.

(** as_bytes, src/internal_macros.rs:211-211 *)
Definition g_sha384_Hash_ref_as_bytes (v_l : slayout) (v_self : pointer) : pointer :=
  field_ref v_l 0 (field_size (FBytes 48)) v_self.

(** AsRefArray::as_ref, src/internal_macros.rs:119-119 *)
Definition g_sha384_Hash_ref_as_ref_array (v_l : slayout) (v_self : pointer) : pointer :=
  field_ref v_l 0 (field_size (FBytes 48)) v_self.

(** AsRef::as_ref, src/internal_macros.rs:12-12 *)
Definition g_sha384_Hash_ref_as_ref (v_l : slayout) (v_self : pointer) : pointer :=
  field_ref v_l 0 (field_size (FBytes 48)) v_self.

(** the_clone of sha384::Hash *)
Definition g_sha384_Hash_the_clone (v_self : bytes) : bytes :=
  v_self.

(** the_eq of sha384::Hash *)
Definition g_sha384_Hash_the_eq (v_self v_other : bytes) : bool :=
  array_eq v_self v_other.

(** the_cmp of sha384::Hash *)
Definition g_sha384_Hash_the_cmp (v_self v_other : bytes) : comparison :=
  array_cmp v_self v_other.

(** the_partial_cmp of sha384::Hash *)
Definition g_sha384_Hash_the_partial_cmp (v_self v_other : bytes) : option comparison :=
  Some (array_cmp v_self v_other).

(** the_hash of sha384::Hash *)
Definition g_sha384_Hash_the_hash (v_self : bytes) : list hasher_call :=
  array_hash v_self.

(** struct Hash, src/internal_macros.rs:146 *)
Definition g_sha512_Hash_decl : decl :=
  mk_decl ReprTransparent [FBytes 64].

(** from_bytes_ref, src/internal_macros.rs:177-180 *)
Definition g_sha512_Hash_from_bytes_ref_arg : N := 64.
Definition g_sha512_Hash_from_bytes_ref (v_l : slayout) (v_bytes : pointer) : res pointer :=
  slayout_cast v_l v_bytes.

(** from_bytes_mut, src/internal_macros.rs:184-187 *)
Definition g_sha512_Hash_from_bytes_mut_arg : N := 64.
Definition g_sha512_Hash_from_bytes_mut (v_l : slayout) (v_bytes : pointer) : res pointer :=
  slayout_cast v_l v_bytes.

(** as_byte_array, src/internal_macros.rs:207-207 *)
Definition g_sha512_Hash_ref_as_byte_array (v_l : slayout) (v_self : pointer) : pointer :=
  field_ref v_l 0 (field_size (FBytes 64)) v_self.

(** as_bytes, src/internal_macros.rs:211-211 *)
Definition g_sha512_Hash_ref_as_bytes (v_l : slayout) (v_self : pointer) : pointer :=
  field_ref v_l 0 (field_size (FBytes 64)) v_self.

(** AsRefArray::as_ref, src/internal_macros.rs:119-119 *)
Definition g_sha512_Hash_ref_as_ref_array (v_l : slayout) (v_self : pointer) : pointer :=
  field_ref v_l 0 (field_size (FBytes 64)) v_self.

(** AsRef::as_ref, src/internal_macros.rs:12-12 *)
Definition g_sha512_Hash_ref_as_ref (v_l : slayout) (v_self : pointer) : pointer :=
  field_ref v_l 0 (field_size (FBytes 64)) v_self.

(** the_clone of sha512::Hash *)
Definition g_sha512_Hash_the_clone (v_self : bytes) : bytes :=
  v_self.

(** the_eq of sha512::Hash *)
Definition g_sha512_Hash_the_eq (v_self v_other : bytes) : bool :=
  array_eq v_self v_other.

(** the_cmp of sha512::Hash *)
Definition g_sha512_Hash_the_cmp (v_self v_other : bytes) : comparison :=
  array_cmp v_self v_other.

(** the_partial_cmp of sha512::Hash *)
Definition g_sha512_Hash_the_partial_cmp (v_self v_other : bytes) : option comparison :=
  Some (array_cmp v_self v_other).

(** the_hash of sha512::Hash *)
Definition g_sha512_Hash_the_hash (v_self : bytes) : list hasher_call :=
  array_hash v_self.

(** struct Hash, src/internal_macros.rs:146 *)
Definition g_sha512_256_Hash_decl : decl :=
  mk_decl ReprTransparent [FBytes 32].

(** from_bytes_ref, src/internal_macros.rs:177-180 *)
Definition g_sha512_256_Hash_from_bytes_ref_arg : N := 32.
Definition g_sha512_256_Hash_from_bytes_ref (v_l : slayout) (v_bytes : pointer) : res pointer :=
  slayout_cast v_l v_bytes.

(** from_bytes_mut, src/internal_macros.rs:184-187 *)
Definition g_sha512_256_Hash_from_bytes_mut_arg : N := 32.
Definition g_sha512_256_Hash_from_bytes_mut (v_l : slayout) (v_bytes : pointer) : res pointer :=
  slayout_cast v_l v_bytes.

(** as_byte_array, src/internal_macros.rs:207-207 *)
Definition g_sha512_256_Hash_ref_as_byte_array (v_l : slayout) (v_self : pointer) : pointer :=
  field_ref v_l 0 (field_size (FBytes 32)) v_self.

(** as_bytes, src/internal_macros.rs:211-211 *)
Definition g_sha512_256_Hash_ref_as_bytes (v_l : slayout) (v_self : pointer) : pointer :=
  field_ref v_l 0 (field_size (FBytes 32)) v_self.

(** AsRefArray::as_ref, src/internal_macros.rs:119-119 *)
Definition g_sha512_256_Hash_ref_as_ref_array (v_l : slayout) (v_self : pointer) : pointer :=
  field_ref v_l 0 (field_size (FBytes 32)) v_self.

(** AsRef::as_ref, src/internal_macros.rs:12-12 *)
Definition g_sha512_256_Hash_ref_as_ref (v_l : slayout) (v_self : pointer) : pointer :=
  field_ref v_l 0 (field_size (FBytes 32)) v_self.

(** the_clone of sha512_256::Hash *)
Definition g_sha512_256_Hash_the_clone (v_self : bytes) : bytes :=
  v_self.

(** the_eq of sha512_256::Hash *)
Definition g_sha512_256_Hash_the_eq (v_self v_other : bytes) : bool :=
  array_eq v_self v_other.

(** the_cmp of sha512_256::Hash *)
Definition g_sha512_256_Hash_the_cmp (v_self v_other : bytes) : comparison :=
  array_cmp v_self v_other.

(** the_partial_cmp of sha512_256::Hash *)
Definition g_sha512_256_Hash_the_partial_cmp (v_self v_other : bytes) : option comparison :=
  Some (array_cmp v_self v_other).

(** the_hash of sha512_256::Hash *)
Definition g_sha512_256_Hash_the_hash (v_self : bytes) : list hasher_call :=
  array_hash v_self.

(** struct Hash, src/internal_macros.rs:146 *)
Definition g_ripemd160_Hash_decl : decl :=
  mk_decl ReprTransparent [FBytes 20].

(** from_bytes_ref, src/internal_macros.rs:177-180 *)
Definition g_ripemd160_Hash_from_bytes_ref_arg : N := 20.
Definition g_ripemd160_Hash_from_bytes_ref (v_l : slayout) (v_bytes : pointer) : res pointer :=
  slayout_cast v_l v_bytes.

(** from_bytes_mut, src/internal_macros.rs:184-187 *)
Definition g_ripemd160_Hash_from_bytes_mut_arg : N := 20.
Definition g_ripemd160_Hash_from_bytes_mut (v_l : slayout) (v_bytes : pointer) : res pointer :=
  slayout_cast v_l v_bytes.

(** as_byte_array, src/internal_macros.rs:207-207 *)
Definition g_ripemd160_Hash_ref_as_byte_array (v_l : slayout) (v_self : pointer) : pointer :=
  field_ref v_l 0 (field_size (FBytes 20)) v_self.

(** as_bytes, src/internal_macros.rs:211-211 *)
Definition g_ripemd160_Hash_ref_as_bytes (v_l : slayout) (v_self : pointer) : pointer :=
  field_ref v_l 0 (field_size (FBytes 20)) v_self.

(** AsRefArray::as_ref, src/internal_macros.rs:119-119 *)
Definition g_ripemd160_Hash_ref_as_ref_array (v_l : slayout) (v_self : pointer) : pointer :=
  field_ref v_l 0 (field_size (FBytes 20)) v_self.

(** AsRef::as_ref, src/internal_macros.rs:12-12 *)
Definition g_ripemd160_Hash_ref_as_ref (v_l : slayout) (v_self : pointer) : pointer :=
  field_ref v_l 0 (field_size (FBytes 20)) v_self.

(** the_clone of ripemd160::Hash *)
Definition g_ripemd160_Hash_the_clone (v_self : bytes) : bytes :=
  v_self.

(** the_eq of ripemd160::Hash *)
Definition g_ripemd160_Hash_the_eq (v_self v_other : bytes) : bool :=
  array_eq v_self v_other.

(** the_cmp of ripemd160::Hash *)
Definition g_ripemd160_Hash_the_cmp (v_self v_other : bytes) : comparison :=
  array_cmp v_self v_other.

(** the_partial_cmp of ripemd160::Hash *)
Definition g_ripemd160_Hash_the_partial_cmp (v_self v_other : bytes) : option comparison :=
  Some (array_cmp v_self v_other).

(** the_hash of ripemd160::Hash *)
Definition g_ripemd160_Hash_the_hash (v_self : bytes) : list hasher_call :=
  array_hash v_self.

(** struct Hash, src/internal_macros.rs:146 *)
Definition g_siphash24_Hash_decl : decl :=
  mk_decl ReprTransparent [FBytes 8].

(** from_bytes_ref, src/internal_macros.rs:177-180 *)
Definition g_siphash24_Hash_from_bytes_ref_arg : N := 8.
Definition g_siphash24_Hash_from_bytes_ref (v_l : slayout) (v_bytes : pointer) : res pointer :=
  slayout_cast v_l v_bytes.

(** from_bytes_mut, src/internal_macros.rs:184-187 *)
Definition g_siphash24_Hash_from_bytes_mut_arg : N := 8.
Definition g_siphash24_Hash_from_bytes_mut (v_l : slayout) (v_bytes : pointer) : res pointer :=
  slayout_cast v_l v_bytes.

(** as_byte_array, src/internal_macros.rs:207-207 *)
Definition g_siphash24_Hash_ref_as_byte_array (v_l : slayout) (v_self : pointer) : pointer :=
  field_ref v_l 0 (field_size (FBytes 8)) v_self.

(** as_bytes, src/internal_macros.rs:211-211 *)
Definition g_siphash24_Hash_ref_as_bytes (v_l : slayout) (v_self : pointer) : pointer :=
  field_ref v_l 0 (field_size (FBytes 8)) v_self.

(** AsRefArray::as_ref, src/internal_macros.rs:119-119 *)
Definition g_siphash24_Hash_ref_as_ref_array (v_l : slayout) (v_self : pointer) : pointer :=
  field_ref v_l 0 (field_size (FBytes 8)) v_self.

(** AsRef::as_ref, src/internal_macros.rs:12-12 *)
Definition g_siphash24_Hash_ref_as_ref (v_l : slayout) (v_self : pointer) : pointer :=
  field_ref v_l 0 (field_size (FBytes 8)) v_self.

(** the_clone of siphash24::Hash *)
Definition g_siphash24_Hash_the_clone (v_self : bytes) : bytes :=
  v_self.

(** the_eq of siphash24::Hash *)
Definition g_siphash24_Hash_the_eq (v_self v_other : bytes) : bool :=
  array_eq v_self v_other.

(** the_cmp of siphash24::Hash *)
Definition g_siphash24_Hash_the_cmp (v_self v_other : bytes) : comparison :=
  array_cmp v_self v_other.

(** the_partial_cmp of siphash24::Hash *)
Definition g_siphash24_Hash_the_partial_cmp (v_self v_other : bytes) : option comparison :=
  Some (array_cmp v_self v_other).

(** the_hash of siphash24::Hash *)
Definition g_siphash24_Hash_the_hash (v_self : bytes) : list hasher_call :=
  array_hash v_self.

(** struct Midstate, src/sha256.rs:125 *)
Definition g_sha256_Midstate_decl : decl :=
  mk_decl ReprRust [FBytes 32].

(** AsRef::as_ref, src/internal_macros.rs:12-12 *)
Definition g_sha256_Midstate_ref_as_ref (v_l : slayout) (v_self : pointer) : pointer :=
  field_ref v_l 0 (field_size (FBytes 32)) v_self.

(** the_clone of sha256::Midstate *)
Definition g_sha256_Midstate_the_clone (v_self : bytes) : bytes :=
  v_self.

(** the_eq of sha256::Midstate *)
Definition g_sha256_Midstate_the_eq (v_self v_other : bytes) : bool :=
  array_eq v_self v_other.

(** the_cmp of sha256::Midstate *)
Definition g_sha256_Midstate_the_cmp (v_self v_other : bytes) : comparison :=
  array_cmp v_self v_other.

(** the_partial_cmp of sha256::Midstate *)
Definition g_sha256_Midstate_the_partial_cmp (v_self v_other : bytes) : option comparison :=
  Some (array_cmp v_self v_other).

(** the_default of sha256::Midstate *)
Definition g_sha256_Midstate_the_default : bytes :=
  repeat x00 (N.to_nat (32)).

(** the_hash of sha256::Midstate *)
Definition g_sha256_Midstate_the_hash (v_self : bytes) : list hasher_call :=
  array_hash v_self.

(** struct Hash, src/sha256t.rs:53 *)
Definition g_sha256t_Hash_decl (v_T : res engine) : decl :=
  mk_decl ReprTransparent [FBytes 32; FPhantom].

(** from_bytes_ref, src/sha256t.rs:84-87 *)
Definition g_sha256t_Hash_from_bytes_ref_arg (v_T : res engine) : N := 32.
Definition g_sha256t_Hash_from_bytes_ref (v_T : res engine) (v_l : slayout) (v_bytes : pointer) : res pointer :=
  slayout_cast v_l v_bytes.

(** from_bytes_mut, src/sha256t.rs:91-94 *)
Definition g_sha256t_Hash_from_bytes_mut_arg (v_T : res engine) : N := 32.
Definition g_sha256t_Hash_from_bytes_mut (v_T : res engine) (v_l : slayout) (v_bytes : pointer) : res pointer :=
  slayout_cast v_l v_bytes.

(** as_byte_array, src/sha256t.rs:114-114 *)
Definition g_sha256t_Hash_ref_as_byte_array (v_T : res engine) (v_l : slayout) (v_self : pointer) : pointer :=
  field_ref v_l 0 (field_size (FBytes 32)) v_self.

(** as_bytes, src/sha256t.rs:117-117 *)
Definition g_sha256t_Hash_ref_as_bytes (v_T : res engine) (v_l : slayout) (v_self : pointer) : pointer :=
  field_ref v_l 0 (field_size (FBytes 32)) v_self.

(** AsRefArray::as_ref, src/internal_macros.rs:119-119 *)
Definition g_sha256t_Hash_ref_as_ref_array (v_T : res engine) (v_l : slayout) (v_self : pointer) : pointer :=
  field_ref v_l 0 (field_size (FBytes 32)) v_self.

(** AsRef::as_ref, src/internal_macros.rs:12-12 *)
Definition g_sha256t_Hash_ref_as_ref (v_T : res engine) (v_l : slayout) (v_self : pointer) : pointer :=
  field_ref v_l 0 (field_size (FBytes 32)) v_self.

(** the_clone of sha256t::Hash *)
Definition g_sha256t_Hash_the_clone (v_T : res engine) (v_self : bytes) : bytes :=
  g_sha256t_Hash_clone v_T v_self.

(** the_eq of sha256t::Hash *)
Definition g_sha256t_Hash_the_eq (v_T : res engine) (v_self v_other : bytes) : bool :=
  g_sha256t_Hash_eq v_T v_self v_other.

(** the_cmp of sha256t::Hash *)
Definition g_sha256t_Hash_the_cmp (v_T : res engine) (v_self v_other : bytes) : comparison :=
  g_sha256t_Hash_cmp v_T v_self v_other.

(** the_partial_cmp of sha256t::Hash *)
Definition g_sha256t_Hash_the_partial_cmp (v_T : res engine) (v_self v_other : bytes) : option comparison :=
  g_sha256t_Hash_partial_cmp v_T v_self v_other.

(** the_default of sha256t::Hash *)
Definition g_sha256t_Hash_the_default (v_T : res engine) : bytes :=
  g_sha256t_Hash_default v_T.

(** the_hash of sha256t::Hash *)
Definition g_sha256t_Hash_the_hash (v_T : res engine) (v_self : bytes) : list hasher_call :=
  g_sha256t_Hash_core_hash v_T v_self.

(** struct Hash, src/hmac.rs:19 *)
Definition g_hmac_Hash_decl (v_N : N) : decl :=
  mk_decl ReprRust [FBytes v_N].

(** from_bytes_ref, src/hmac.rs:43-46 *)
Definition g_hmac_Hash_from_bytes_ref_arg (v_N : N) : N := v_N.
Definition g_hmac_Hash_from_bytes_ref (v_N : N) (v_l : slayout) (v_bytes : pointer) : res pointer :=
  slayout_cast v_l v_bytes.

(** from_bytes_mut, src/hmac.rs:50-53 *)
Definition g_hmac_Hash_from_bytes_mut_arg (v_N : N) : N := v_N.
Definition g_hmac_Hash_from_bytes_mut (v_N : N) (v_l : slayout) (v_bytes : pointer) : res pointer :=
  slayout_cast v_l v_bytes.

(** as_byte_array, src/hmac.rs:73-73 *)
Definition g_hmac_Hash_ref_as_byte_array (v_N : N) (v_l : slayout) (v_self : pointer) : pointer :=
  field_ref v_l 0 (field_size (FBytes v_N)) v_self.

(** as_bytes, src/hmac.rs:76-76 *)
Definition g_hmac_Hash_ref_as_bytes (v_N : N) (v_l : slayout) (v_self : pointer) : pointer :=
  field_ref v_l 0 (field_size (FBytes v_N)) v_self.

(** AsRef::as_ref, src/hmac.rs:162-162 *)
Definition g_hmac_Hash_ref_as_ref (v_N : N) (v_l : slayout) (v_self : pointer) : pointer :=
  field_ref v_l 0 (field_size (FBytes v_N)) v_self.

(** the_clone of hmac::Hash *)
Definition g_hmac_Hash_the_clone (v_N : N) (v_self : bytes) : bytes :=
  v_self.

(** the_eq of hmac::Hash *)
Definition g_hmac_Hash_the_eq (v_N : N) (v_self v_other : bytes) : bool :=
  array_eq v_self v_other.

(** the_cmp of hmac::Hash *)
Definition g_hmac_Hash_the_cmp (v_N : N) (v_self v_other : bytes) : comparison :=
  array_cmp v_self v_other.

(** the_partial_cmp of hmac::Hash *)
Definition g_hmac_Hash_the_partial_cmp (v_N : N) (v_self v_other : bytes) : option comparison :=
  Some (array_cmp v_self v_other).

(** the_hash of hmac::Hash *)
Definition g_hmac_Hash_the_hash (v_N : N) (v_self : bytes) : list hasher_call :=
  array_hash v_self.

(** derive(Debug) of siphash24::State, src/siphash24.rs:56 *)
Definition g_siphash24_State_debug (v_self : sip_state) : dbg :=
  DStruct (list_byte_of_string "State")
    [(list_byte_of_string "v0", DNum (v0 v_self));
     (list_byte_of_string "v2", DNum (v2 v_self));
     (list_byte_of_string "v1", DNum (v1 v_self));
     (list_byte_of_string "v3", DNum (v3 v_self))].

(** derive(Debug) of siphash24::Engine, src/siphash24.rs:69 *)
Definition g_siphash24_Engine_debug (v_self : sip_engine) : dbg :=
  DStruct (list_byte_of_string "Engine")
    [(list_byte_of_string "k0", DNum (sip_k0 v_self));
     (list_byte_of_string "k1", DNum (sip_k1 v_self));
     (list_byte_of_string "length", DNum (sip_length v_self));
     (list_byte_of_string "state", g_siphash24_State_debug (sip_st v_self));
     (list_byte_of_string "tail", DNum (sip_tail v_self));
     (list_byte_of_string "ntail", DNum (sip_ntail v_self))].

(** derive(Debug) of lib::FromSliceError, src/lib.rs:202 *)
Definition g_lib_FromSliceError_debug (v_self : from_slice_error) : dbg :=
  DStruct (list_byte_of_string "FromSliceError")
    [(list_byte_of_string "expected", DNum (expected v_self));
     (list_byte_of_string "got", DNum (got v_self))].

(** Every struct of the crate, with the traits of these nine that it derives or implements *)
Definition g_structs : list (bytes * bytes * list trait_name) :=
  [(list_byte_of_string "sha1", list_byte_of_string "Hash", [DCopy; DClone; DPartialEq; DEq; DPartialOrd; DOrd; DHash; DDebug]);
   (list_byte_of_string "sha1", list_byte_of_string "Engine", [DClone; DDefault]);
   (list_byte_of_string "sha256", list_byte_of_string "Hash", [DCopy; DClone; DPartialEq; DEq; DPartialOrd; DOrd; DHash; DDebug]);
   (list_byte_of_string "sha256", list_byte_of_string "Engine", [DClone; DDefault]);
   (list_byte_of_string "sha256", list_byte_of_string "Midstate", [DCopy; DClone; DPartialEq; DEq; DPartialOrd; DOrd; DHash; DDefault; DDebug]);
   (list_byte_of_string "sha384", list_byte_of_string "Hash", [DCopy; DClone; DPartialEq; DEq; DPartialOrd; DOrd; DHash; DDebug]);
   (list_byte_of_string "sha384", list_byte_of_string "Engine", [DClone; DDefault]);
   (list_byte_of_string "sha512", list_byte_of_string "Hash", [DCopy; DClone; DPartialEq; DEq; DPartialOrd; DOrd; DHash; DDebug]);
   (list_byte_of_string "sha512", list_byte_of_string "Engine", [DClone; DDefault]);
   (list_byte_of_string "sha512_256", list_byte_of_string "Hash", [DCopy; DClone; DPartialEq; DEq; DPartialOrd; DOrd; DHash; DDebug]);
   (list_byte_of_string "sha512_256", list_byte_of_string "Engine", [DClone; DDefault]);
   (list_byte_of_string "ripemd160", list_byte_of_string "Hash", [DCopy; DClone; DPartialEq; DEq; DPartialOrd; DOrd; DHash; DDebug]);
   (list_byte_of_string "ripemd160", list_byte_of_string "Engine", [DClone; DDefault]);
   (list_byte_of_string "siphash24", list_byte_of_string "Hash", [DCopy; DClone; DPartialEq; DEq; DPartialOrd; DOrd; DHash; DDebug]);
   (list_byte_of_string "siphash24", list_byte_of_string "State", [DClone; DDebug]);
   (list_byte_of_string "siphash24", list_byte_of_string "Engine", [DClone; DDefault; DDebug]);
   (list_byte_of_string "hmac", list_byte_of_string "Hash", [DCopy; DClone; DPartialEq; DEq; DPartialOrd; DOrd; DHash; DDebug]);
   (list_byte_of_string "hmac", list_byte_of_string "MidState", []);
   (list_byte_of_string "hmac", list_byte_of_string "Engine", [DClone; DDefault]);
   (list_byte_of_string "hmac", list_byte_of_string "Midstate", []);
   (list_byte_of_string "sha256t", list_byte_of_string "Engine", [DClone; DDefault]);
   (list_byte_of_string "sha256t", list_byte_of_string "Hash", [DCopy; DClone; DPartialEq; DEq; DPartialOrd; DOrd; DHash; DDefault; DDebug]);
   (list_byte_of_string "lib", list_byte_of_string "FromSliceError", [DClone; DPartialEq; DEq; DDebug])].
