(** Generated by tools/rs2v.py from the Rust source; do not edit. *)
From Verif Require Import Base GenBase ModelEngine ModelTypes GenLib GenSha256 GenSha256t.

(** new, src/lib.rs:211-211 *)
Definition g_lib_FromSliceError_new (v_got : N) (v_expected : N) : from_slice_error :=
  Build_from_slice_error v_expected v_got.

(** expected_length, src/lib.rs:214-214 *)
Definition g_lib_FromSliceError_expected_length (v_self : from_slice_error) : N :=
  expected v_self.

(** invalid_length, src/lib.rs:217-217 *)
Definition g_lib_FromSliceError_invalid_length (v_self : from_slice_error) : N :=
  got v_self.

(** Hash::LEN, src/sha1.rs *)
Definition g_sha1_Hash_LEN : N := 20.

(** from_byte_array, src/internal_macros.rs:201-201 *)
Definition g_sha1_Hash_from_byte_array (v_bytes : (list byte)) : (list byte) :=
  v_bytes.

(** from_slice, src/internal_macros.rs:190-198 *)
Definition g_sha1_Hash_from_slice (v_sl : (list byte)) : res ((result (list byte) from_slice_error)) :=
  if negb ((len v_sl) =? 20) then
    Ok (RErr (Build_from_slice_error 20 (len v_sl)))
  else
    let v_ret := array x00 20 in
    let* v_ret := copy_from_slice v_ret v_sl in
    Ok (ROk (g_sha1_Hash_from_byte_array v_ret)).

(** to_byte_array, src/internal_macros.rs:204-204 *)
Definition g_sha1_Hash_to_byte_array (v_self : (list byte)) : (list byte) :=
  v_self.

(** as_byte_array, src/internal_macros.rs:207-207 *)
Definition g_sha1_Hash_as_byte_array (v_self : (list byte)) : (list byte) :=
  v_self.

(** as_bytes, src/internal_macros.rs:211-211 *)
Definition g_sha1_Hash_as_bytes (v_self : (list byte)) : (list byte) :=
  v_self.

(** to_bytes, src/internal_macros.rs:216-216 *)
Definition g_sha1_Hash_to_bytes (v_self : (list byte)) : (list byte) :=
  v_self.

(** all_zeros, src/internal_macros.rs:223-223 *)
Definition g_sha1_Hash_all_zeros : (list byte) :=
  array x00 20.

(** as_ref, src/internal_macros.rs:12-12 *)
Definition g_sha1_Hash_as_ref (v_self : (list byte)) : (list byte) :=
  v_self.

(** as_ref, src/internal_macros.rs:119-119 *)
Definition g_sha1_Hash_as_ref_array (v_self : (list byte)) : (list byte) :=
  v_self.

(** from_str, src/internal_macros.rs:106-111 *)
Definition g_sha1_Hash_from_str (v_s : (list byte)) : (result (list byte) hex_error) :=
  match array_from_hex 20 v_s with
  | RErr err => RErr err
  | ROk v_bytes =>
    ROk (g_sha1_Hash_from_byte_array v_bytes)
  end.

(** index, src/internal_macros.rs:126-126 *)
Definition g_sha1_Hash_index (cfg : config) (v_self : (list byte)) (v_index : slice_index) : res ((list byte)) :=
  hash_index cfg v_self v_index.

(** Hash::LEN, src/sha256.rs *)
Definition g_sha256_Hash_LEN : N := 32.

(** from_byte_array, src/internal_macros.rs:201-201 *)
Definition g_sha256_Hash_from_byte_array (v_bytes : (list byte)) : (list byte) :=
  v_bytes.

(** from_slice, src/internal_macros.rs:190-198 *)
Definition g_sha256_Hash_from_slice (v_sl : (list byte)) : res ((result (list byte) from_slice_error)) :=
  if negb ((len v_sl) =? 32) then
    Ok (RErr (Build_from_slice_error 32 (len v_sl)))
  else
    let v_ret := array x00 32 in
    let* v_ret := copy_from_slice v_ret v_sl in
    Ok (ROk (g_sha256_Hash_from_byte_array v_ret)).

(** to_byte_array, src/internal_macros.rs:204-204 *)
Definition g_sha256_Hash_to_byte_array (v_self : (list byte)) : (list byte) :=
  v_self.

(** as_byte_array, src/internal_macros.rs:207-207 *)
Definition g_sha256_Hash_as_byte_array (v_self : (list byte)) : (list byte) :=
  v_self.

(** as_bytes, src/internal_macros.rs:211-211 *)
Definition g_sha256_Hash_as_bytes (v_self : (list byte)) : (list byte) :=
  v_self.

(** to_bytes, src/internal_macros.rs:216-216 *)
Definition g_sha256_Hash_to_bytes (v_self : (list byte)) : (list byte) :=
  v_self.

(** all_zeros, src/internal_macros.rs:223-223 *)
Definition g_sha256_Hash_all_zeros : (list byte) :=
  array x00 32.

(** as_ref, src/internal_macros.rs:12-12 *)
Definition g_sha256_Hash_as_ref (v_self : (list byte)) : (list byte) :=
  v_self.

(** as_ref, src/internal_macros.rs:119-119 *)
Definition g_sha256_Hash_as_ref_array (v_self : (list byte)) : (list byte) :=
  v_self.

(** from_str, src/internal_macros.rs:106-111 *)
Definition g_sha256_Hash_from_str (v_s : (list byte)) : (result (list byte) hex_error) :=
  match array_from_hex 32 v_s with
  | RErr err => RErr err
  | ROk v_bytes =>
    ROk (g_sha256_Hash_from_byte_array v_bytes)
  end.

(** index, src/internal_macros.rs:126-126 *)
Definition g_sha256_Hash_index (cfg : config) (v_self : (list byte)) (v_index : slice_index) : res ((list byte)) :=
  hash_index cfg v_self v_index.

(** Hash::LEN, src/sha384.rs *)
Definition g_sha384_Hash_LEN : N := 48.

(** from_byte_array, src/internal_macros.rs:201-201 *)
Definition g_sha384_Hash_from_byte_array (v_bytes : (list byte)) : (list byte) :=
  v_bytes.

(** from_slice, src/internal_macros.rs:190-198 *)
Definition g_sha384_Hash_from_slice (v_sl : (list byte)) : res ((result (list byte) from_slice_error)) :=
  if negb ((len v_sl) =? 48) then
    Ok (RErr (Build_from_slice_error 48 (len v_sl)))
  else
    let v_ret := array x00 48 in
    let* v_ret := copy_from_slice v_ret v_sl in
    Ok (ROk (g_sha384_Hash_from_byte_array v_ret)).

(** to_byte_array, src/internal_macros.rs:204-204 *)
Definition g_sha384_Hash_to_byte_array (v_self : (list byte)) : (list byte) :=
  v_self.

(** as_byte_array, src/internal_macros.rs:207-207 *)
Definition g_sha384_Hash_as_byte_array (v_self : (list byte)) : (list byte) :=
  v_self.

(** as_bytes, src/internal_macros.rs:211-211 *)
Definition g_sha384_Hash_as_bytes (v_self : (list byte)) : (list byte) :=
  v_self.

(** to_bytes, src/internal_macros.rs:216-216 *)
Definition g_sha384_Hash_to_bytes (v_self : (list byte)) : (list byte) :=
  v_self.

(** all_zeros, src/internal_macros.rs:223-223 *)
Definition g_sha384_Hash_all_zeros : (list byte) :=
  array x00 48.

(** as_ref, src/internal_macros.rs:12-12 *)
Definition g_sha384_Hash_as_ref (v_self : (list byte)) : (list byte) :=
  v_self.

(** as_ref, src/internal_macros.rs:119-119 *)
Definition g_sha384_Hash_as_ref_array (v_self : (list byte)) : (list byte) :=
  v_self.

(** from_str, src/internal_macros.rs:106-111 *)
Definition g_sha384_Hash_from_str (v_s : (list byte)) : (result (list byte) hex_error) :=
  match array_from_hex 48 v_s with
  | RErr err => RErr err
  | ROk v_bytes =>
    ROk (g_sha384_Hash_from_byte_array v_bytes)
  end.

(** index, src/internal_macros.rs:126-126 *)
Definition g_sha384_Hash_index (cfg : config) (v_self : (list byte)) (v_index : slice_index) : res ((list byte)) :=
  hash_index cfg v_self v_index.

(** Hash::LEN, src/sha512.rs *)
Definition g_sha512_Hash_LEN : N := 64.

(** from_byte_array, src/internal_macros.rs:201-201 *)
Definition g_sha512_Hash_from_byte_array (v_bytes : (list byte)) : (list byte) :=
  v_bytes.

(** from_slice, src/internal_macros.rs:190-198 *)
Definition g_sha512_Hash_from_slice (v_sl : (list byte)) : res ((result (list byte) from_slice_error)) :=
  if negb ((len v_sl) =? 64) then
    Ok (RErr (Build_from_slice_error 64 (len v_sl)))
  else
    let v_ret := array x00 64 in
    let* v_ret := copy_from_slice v_ret v_sl in
    Ok (ROk (g_sha512_Hash_from_byte_array v_ret)).

(** to_byte_array, src/internal_macros.rs:204-204 *)
Definition g_sha512_Hash_to_byte_array (v_self : (list byte)) : (list byte) :=
  v_self.

(** as_byte_array, src/internal_macros.rs:207-207 *)
Definition g_sha512_Hash_as_byte_array (v_self : (list byte)) : (list byte) :=
  v_self.

(** as_bytes, src/internal_macros.rs:211-211 *)
Definition g_sha512_Hash_as_bytes (v_self : (list byte)) : (list byte) :=
  v_self.

(** to_bytes, src/internal_macros.rs:216-216 *)
Definition g_sha512_Hash_to_bytes (v_self : (list byte)) : (list byte) :=
  v_self.

(** all_zeros, src/internal_macros.rs:223-223 *)
Definition g_sha512_Hash_all_zeros : (list byte) :=
  array x00 64.

(** as_ref, src/internal_macros.rs:12-12 *)
Definition g_sha512_Hash_as_ref (v_self : (list byte)) : (list byte) :=
  v_self.

(** as_ref, src/internal_macros.rs:119-119 *)
Definition g_sha512_Hash_as_ref_array (v_self : (list byte)) : (list byte) :=
  v_self.

(** from_str, src/internal_macros.rs:106-111 *)
Definition g_sha512_Hash_from_str (v_s : (list byte)) : (result (list byte) hex_error) :=
  match array_from_hex 64 v_s with
  | RErr err => RErr err
  | ROk v_bytes =>
    ROk (g_sha512_Hash_from_byte_array v_bytes)
  end.

(** index, src/internal_macros.rs:126-126 *)
Definition g_sha512_Hash_index (cfg : config) (v_self : (list byte)) (v_index : slice_index) : res ((list byte)) :=
  hash_index cfg v_self v_index.

(** Hash::LEN, src/sha512_256.rs *)
Definition g_sha512_256_Hash_LEN : N := 32.

(** from_byte_array, src/internal_macros.rs:201-201 *)
Definition g_sha512_256_Hash_from_byte_array (v_bytes : (list byte)) : (list byte) :=
  v_bytes.

(** from_slice, src/internal_macros.rs:190-198 *)
Definition g_sha512_256_Hash_from_slice (v_sl : (list byte)) : res ((result (list byte) from_slice_error)) :=
  if negb ((len v_sl) =? 32) then
    Ok (RErr (Build_from_slice_error 32 (len v_sl)))
  else
    let v_ret := array x00 32 in
    let* v_ret := copy_from_slice v_ret v_sl in
    Ok (ROk (g_sha512_256_Hash_from_byte_array v_ret)).

(** to_byte_array, src/internal_macros.rs:204-204 *)
Definition g_sha512_256_Hash_to_byte_array (v_self : (list byte)) : (list byte) :=
  v_self.

(** as_byte_array, src/internal_macros.rs:207-207 *)
Definition g_sha512_256_Hash_as_byte_array (v_self : (list byte)) : (list byte) :=
  v_self.

(** as_bytes, src/internal_macros.rs:211-211 *)
Definition g_sha512_256_Hash_as_bytes (v_self : (list byte)) : (list byte) :=
  v_self.

(** to_bytes, src/internal_macros.rs:216-216 *)
Definition g_sha512_256_Hash_to_bytes (v_self : (list byte)) : (list byte) :=
  v_self.

(** all_zeros, src/internal_macros.rs:223-223 *)
Definition g_sha512_256_Hash_all_zeros : (list byte) :=
  array x00 32.

(** as_ref, src/internal_macros.rs:12-12 *)
Definition g_sha512_256_Hash_as_ref (v_self : (list byte)) : (list byte) :=
  v_self.

(** as_ref, src/internal_macros.rs:119-119 *)
Definition g_sha512_256_Hash_as_ref_array (v_self : (list byte)) : (list byte) :=
  v_self.

(** from_str, src/internal_macros.rs:106-111 *)
Definition g_sha512_256_Hash_from_str (v_s : (list byte)) : (result (list byte) hex_error) :=
  match array_from_hex 32 v_s with
  | RErr err => RErr err
  | ROk v_bytes =>
    ROk (g_sha512_256_Hash_from_byte_array v_bytes)
  end.

(** index, src/internal_macros.rs:126-126 *)
Definition g_sha512_256_Hash_index (cfg : config) (v_self : (list byte)) (v_index : slice_index) : res ((list byte)) :=
  hash_index cfg v_self v_index.

(** Hash::LEN, src/ripemd160.rs *)
Definition g_ripemd160_Hash_LEN : N := 20.

(** from_byte_array, src/internal_macros.rs:201-201 *)
Definition g_ripemd160_Hash_from_byte_array (v_bytes : (list byte)) : (list byte) :=
  v_bytes.

(** from_slice, src/internal_macros.rs:190-198 *)
Definition g_ripemd160_Hash_from_slice (v_sl : (list byte)) : res ((result (list byte) from_slice_error)) :=
  if negb ((len v_sl) =? 20) then
    Ok (RErr (Build_from_slice_error 20 (len v_sl)))
  else
    let v_ret := array x00 20 in
    let* v_ret := copy_from_slice v_ret v_sl in
    Ok (ROk (g_ripemd160_Hash_from_byte_array v_ret)).

(** to_byte_array, src/internal_macros.rs:204-204 *)
Definition g_ripemd160_Hash_to_byte_array (v_self : (list byte)) : (list byte) :=
  v_self.

(** as_byte_array, src/internal_macros.rs:207-207 *)
Definition g_ripemd160_Hash_as_byte_array (v_self : (list byte)) : (list byte) :=
  v_self.

(** as_bytes, src/internal_macros.rs:211-211 *)
Definition g_ripemd160_Hash_as_bytes (v_self : (list byte)) : (list byte) :=
  v_self.

(** to_bytes, src/internal_macros.rs:216-216 *)
Definition g_ripemd160_Hash_to_bytes (v_self : (list byte)) : (list byte) :=
  v_self.

(** all_zeros, src/internal_macros.rs:223-223 *)
Definition g_ripemd160_Hash_all_zeros : (list byte) :=
  array x00 20.

(** as_ref, src/internal_macros.rs:12-12 *)
Definition g_ripemd160_Hash_as_ref (v_self : (list byte)) : (list byte) :=
  v_self.

(** as_ref, src/internal_macros.rs:119-119 *)
Definition g_ripemd160_Hash_as_ref_array (v_self : (list byte)) : (list byte) :=
  v_self.

(** from_str, src/internal_macros.rs:106-111 *)
Definition g_ripemd160_Hash_from_str (v_s : (list byte)) : (result (list byte) hex_error) :=
  match array_from_hex 20 v_s with
  | RErr err => RErr err
  | ROk v_bytes =>
    ROk (g_ripemd160_Hash_from_byte_array v_bytes)
  end.

(** index, src/internal_macros.rs:126-126 *)
Definition g_ripemd160_Hash_index (cfg : config) (v_self : (list byte)) (v_index : slice_index) : res ((list byte)) :=
  hash_index cfg v_self v_index.

(** Hash::LEN, src/siphash24.rs *)
Definition g_siphash24_Hash_LEN : N := 8.

(** from_byte_array, src/internal_macros.rs:201-201 *)
Definition g_siphash24_Hash_from_byte_array (v_bytes : (list byte)) : (list byte) :=
  v_bytes.

(** from_slice, src/internal_macros.rs:190-198 *)
Definition g_siphash24_Hash_from_slice (v_sl : (list byte)) : res ((result (list byte) from_slice_error)) :=
  if negb ((len v_sl) =? 8) then
    Ok (RErr (Build_from_slice_error 8 (len v_sl)))
  else
    let v_ret := array x00 8 in
    let* v_ret := copy_from_slice v_ret v_sl in
    Ok (ROk (g_siphash24_Hash_from_byte_array v_ret)).

(** to_byte_array, src/internal_macros.rs:204-204 *)
Definition g_siphash24_Hash_to_byte_array (v_self : (list byte)) : (list byte) :=
  v_self.

(** as_byte_array, src/internal_macros.rs:207-207 *)
Definition g_siphash24_Hash_as_byte_array (v_self : (list byte)) : (list byte) :=
  v_self.

(** as_bytes, src/internal_macros.rs:211-211 *)
Definition g_siphash24_Hash_as_bytes (v_self : (list byte)) : (list byte) :=
  v_self.

(** to_bytes, src/internal_macros.rs:216-216 *)
Definition g_siphash24_Hash_to_bytes (v_self : (list byte)) : (list byte) :=
  v_self.

(** all_zeros, src/internal_macros.rs:223-223 *)
Definition g_siphash24_Hash_all_zeros : (list byte) :=
  array x00 8.

(** as_ref, src/internal_macros.rs:12-12 *)
Definition g_siphash24_Hash_as_ref (v_self : (list byte)) : (list byte) :=
  v_self.

(** as_ref, src/internal_macros.rs:119-119 *)
Definition g_siphash24_Hash_as_ref_array (v_self : (list byte)) : (list byte) :=
  v_self.

(** from_str, src/internal_macros.rs:106-111 *)
Definition g_siphash24_Hash_from_str (v_s : (list byte)) : (result (list byte) hex_error) :=
  match array_from_hex 8 v_s with
  | RErr err => RErr err
  | ROk v_bytes =>
    ROk (g_siphash24_Hash_from_byte_array v_bytes)
  end.

(** index, src/internal_macros.rs:126-126 *)
Definition g_siphash24_Hash_index (cfg : config) (v_self : (list byte)) (v_index : slice_index) : res ((list byte)) :=
  hash_index cfg v_self v_index.

(** engine, src/hmac.rs:23-28 *)
Definition g_hmac_Hash_engine (v_E : HashEngine) (v_N : N) : res ((he_state v_E)) :=
  g_lib_HashEngine_new v_E.

(** from_byte_array, src/hmac.rs:67-67 *)
Definition g_hmac_Hash_from_byte_array (v_N : N) (v_bytes : (list byte)) : (list byte) :=
  v_bytes.

(** from_engine, src/hmac.rs:33-39 *)
Definition g_hmac_Hash_from_engine (v_E : HashEngine) (v_N : N) (v_engine : (he_state v_E)) : res ((list byte)) :=
  let* v_digest := he_finalize v_E v_engine in
  Ok (g_hmac_Hash_from_byte_array v_N v_digest).

(** from_slice, src/hmac.rs:56-64 *)
Definition g_hmac_Hash_from_slice (v_N : N) (v_sl : (list byte)) : res ((result (list byte) from_slice_error)) :=
  if negb ((len v_sl) =? v_N) then
    Ok (RErr (Build_from_slice_error v_N (len v_sl)))
  else
    let v_ret := array x00 v_N in
    let* v_ret := copy_from_slice v_ret v_sl in
    Ok (ROk (g_hmac_Hash_from_byte_array v_N v_ret)).

(** to_byte_array, src/hmac.rs:70-70 *)
Definition g_hmac_Hash_to_byte_array (v_N : N) (v_self : (list byte)) : (list byte) :=
  v_self.

(** as_byte_array, src/hmac.rs:73-73 *)
Definition g_hmac_Hash_as_byte_array (v_N : N) (v_self : (list byte)) : (list byte) :=
  v_self.

(** as_bytes, src/hmac.rs:76-76 *)
Definition g_hmac_Hash_as_bytes (v_N : N) (v_self : (list byte)) : (list byte) :=
  v_self.

(** to_bytes, src/hmac.rs:80-80 *)
Definition g_hmac_Hash_to_bytes (v_N : N) (v_self : (list byte)) : (list byte) :=
  v_self.

(** all_zeros, src/hmac.rs:87-87 *)
Definition g_hmac_Hash_all_zeros (v_N : N) : (list byte) :=
  array x00 v_N.

(** as_ref, src/hmac.rs:162-162 *)
Definition g_hmac_Hash_as_ref (v_N : N) (v_self : (list byte)) : (list byte) :=
  v_self.

(** from_str, src/hmac.rs:107-112 *)
Definition g_hmac_Hash_from_str (v_N : N) (v_s : (list byte)) : (result (list byte) hex_error) :=
  match array_from_hex v_N v_s with
  | RErr err => RErr err
  | ROk v_bytes =>
    ROk (g_hmac_Hash_from_byte_array v_N v_bytes)
  end.

(** index, src/hmac.rs:138-138 *)
Definition g_hmac_Hash_index_usize (v_N : N) (v_self : (list byte)) (v_index : N) : res (byte) :=
  index v_self v_index.

(** index, src/hmac.rs:143-143 *)
Definition g_hmac_Hash_index_Range (v_N : N) (v_self : (list byte)) (v_index : (N * N)) : res ((list byte)) :=
  slice_range (fst v_index) (snd v_index) v_self.

(** index, src/hmac.rs:148-148 *)
Definition g_hmac_Hash_index_RangeFrom (v_N : N) (v_self : (list byte)) (v_index : N) : res ((list byte)) :=
  slice_from v_index v_self.

(** index, src/hmac.rs:153-153 *)
Definition g_hmac_Hash_index_RangeTo (v_N : N) (v_self : (list byte)) (v_index : N) : res ((list byte)) :=
  slice_to v_index v_self.

(** index, src/hmac.rs:158-158 *)
Definition g_hmac_Hash_index_RangeFull (v_N : N) (v_self : (list byte)) (v_index : unit) : (list byte) :=
  v_self.

(** Hash::LEN, src/sha256t.rs *)
Definition g_sha256t_Hash_LEN : N := 32.

(** engine, src/sha256t.rs:72-72 *)
Definition g_sha256t_Hash_engine (v_T : res engine) : res (engine) :=
  v_T.

(** hash, src/sha256t.rs:65-69 *)
Definition g_sha256t_Hash_hash (cfg : config) (v_T : res engine) (v_bytes : (list byte)) : res ((list byte)) :=
  let* v_engine := g_sha256t_Hash_engine v_T in
  let* v_engine := g_sha256t_Engine_input cfg v_T v_engine v_bytes in
  g_sha256t_Engine_finalize cfg v_T v_engine.

(** from_engine, src/sha256t.rs:77-80 *)
Definition g_sha256t_Hash_from_engine (cfg : config) (v_T : res engine) (v_engine : engine) : res ((list byte)) :=
  g_sha256t_Engine_finalize cfg v_T v_engine.

(** from_byte_array, src/sha256t.rs:108-108 *)
Definition g_sha256t_Hash_from_byte_array (v_T : res engine) (v_bytes : (list byte)) : (list byte) :=
  v_bytes.

(** from_slice, src/sha256t.rs:97-105 *)
Definition g_sha256t_Hash_from_slice (v_T : res engine) (v_sl : (list byte)) : res ((result (list byte) from_slice_error)) :=
  if negb ((len v_sl) =? 32) then
    Ok (RErr (Build_from_slice_error 32 (len v_sl)))
  else
    let v_ret := array x00 32 in
    let* v_ret := copy_from_slice v_ret v_sl in
    Ok (ROk (g_sha256t_Hash_from_byte_array v_T v_ret)).

(** to_byte_array, src/sha256t.rs:111-111 *)
Definition g_sha256t_Hash_to_byte_array (v_T : res engine) (v_self : (list byte)) : (list byte) :=
  v_self.

(** as_byte_array, src/sha256t.rs:114-114 *)
Definition g_sha256t_Hash_as_byte_array (v_T : res engine) (v_self : (list byte)) : (list byte) :=
  v_self.

(** as_bytes, src/sha256t.rs:117-117 *)
Definition g_sha256t_Hash_as_bytes (v_T : res engine) (v_self : (list byte)) : (list byte) :=
  v_self.

(** to_bytes, src/sha256t.rs:121-121 *)
Definition g_sha256t_Hash_to_bytes (v_T : res engine) (v_self : (list byte)) : (list byte) :=
  v_self.

(** all_zeros, src/sha256t.rs:128-128 *)
Definition g_sha256t_Hash_all_zeros (v_T : res engine) : (list byte) :=
  array x00 32.

(** as_ref, src/internal_macros.rs:12-12 *)
Definition g_sha256t_Hash_as_ref (v_T : res engine) (v_self : (list byte)) : (list byte) :=
  v_self.

(** as_ref, src/internal_macros.rs:119-119 *)
Definition g_sha256t_Hash_as_ref_array (v_T : res engine) (v_self : (list byte)) : (list byte) :=
  v_self.

(** from_str, src/internal_macros.rs:106-111 *)
Definition g_sha256t_Hash_from_str (v_T : res engine) (v_s : (list byte)) : (result (list byte) hex_error) :=
  match array_from_hex 32 v_s with
  | RErr err => RErr err
  | ROk v_bytes =>
    ROk (g_sha256t_Hash_from_byte_array v_T v_bytes)
  end.

(** index, src/internal_macros.rs:126-126 *)
Definition g_sha256t_Hash_index (cfg : config) (v_T : res engine) (v_self : (list byte)) (v_index : slice_index) : res ((list byte)) :=
  hash_index cfg v_self v_index.

(** new, src/sha256t.rs:24-24 *)
Definition g_sha256t_Engine_new (v_T : res engine) : res (engine) :=
  v_T.

(** clone, src/sha256t.rs:148-148 *)
Definition g_sha256t_Hash_clone (v_T : res engine) (v_self : (list byte)) : (list byte) :=
  v_self.

(** eq, src/sha256t.rs:151-151 *)
Definition g_sha256t_Hash_eq (v_T : res engine) (v_self : (list byte)) (v_other : (list byte)) : bool :=
  array_eq v_self v_other.

(** default, src/sha256t.rs:155-155 *)
Definition g_sha256t_Hash_default (v_T : res engine) : (list byte) :=
  array x00 32.

(** cmp, src/sha256t.rs:163-163 *)
Definition g_sha256t_Hash_cmp (v_T : res engine) (v_self : (list byte)) (v_other : (list byte)) : comparison :=
  array_cmp v_self v_other.

(** partial_cmp, src/sha256t.rs:158-160 *)
Definition g_sha256t_Hash_partial_cmp (v_T : res engine) (v_self : (list byte)) (v_other : (list byte)) : (option comparison) :=
  Some (g_sha256t_Hash_cmp v_T v_self v_other).

(** Midstate::LEN, src/sha256.rs *)
Definition g_sha256_Midstate_LEN : N := 32.

(** from_byte_array, src/sha256.rs:148-148 *)
Definition g_sha256_Midstate_from_byte_array (v_inner : (list byte)) : (list byte) :=
  v_inner.

(** from_slice, src/sha256.rs:151-159 *)
Definition g_sha256_Midstate_from_slice (v_sl : (list byte)) : res ((result (list byte) from_slice_error)) :=
  if negb ((len v_sl) =? 32) then
    Ok (RErr (Build_from_slice_error 32 (len v_sl)))
  else
    let v_ret := array x00 32 in
    let* v_ret := copy_from_slice v_ret v_sl in
    Ok (ROk v_ret).

(** as_ref, src/internal_macros.rs:12-12 *)
Definition g_sha256_Midstate_as_ref (v_self : (list byte)) : (list byte) :=
  v_self.

(** from_hex, src/sha256.rs:184-187 *)
Definition g_sha256_Midstate_from_hex (v_s : (list byte)) : (result (list byte) hex_error) :=
  match array_from_hex 32 v_s with
  | RErr err => RErr err
  | ROk v_bytes =>
    ROk v_bytes
  end.

(** from_str, src/sha256.rs:140-140 *)
Definition g_sha256_Midstate_from_str (v_s : (list byte)) : (result (list byte) hex_error) :=
  g_sha256_Midstate_from_hex v_s.

(** index, src/sha256.rs:135-135 *)
Definition g_sha256_Midstate_index (cfg : config) (v_self : (list byte)) (v_index : slice_index) : res ((list byte)) :=
  hash_index cfg v_self v_index.
