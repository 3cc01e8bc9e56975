(** Generated by tools/rs2v.py from the Rust source; do not edit. *)
From Verif Require Import Base GenBase ModelEngine ModelTypes ModelSip ModelHmac GenLib.

(** default, src/sha1.rs:25-31 *)
Definition f_sha1_Engine_default : engine :=
  mk_engine (array x00 64) [0x67452301; 0xefcdab89; 0x98badcfe; 0x10325476; 0xc3d2e1f0] 0.

(** n_bytes_hashed, src/sha1.rs:40-40 *)
Definition f_sha1_Engine_n_bytes_hashed (v_self : engine) : N :=
  e_length v_self.

(** input, src/internal_macros.rs:39-44 *)
Definition f_sha1_Engine_input (cfg : config) (v_self : engine) (v_inp : (list byte)) : res (engine) :=
  let* v_self := for_each v_inp (fun v_c v_self =>
      let* t1 := index (e_buffer v_self) 0 in
      let* t2 := store (e_buffer v_self) 0 (u8_xor t1 v_c) in
      let v_self := mk_engine t2 (e_h v_self) (e_length v_self) in
      Ok v_self) v_self in
  let* t1 := usize_add cfg (e_length v_self) (len v_inp) in
  let v_self := mk_engine (e_buffer v_self) (e_h v_self) t1 in
  Ok v_self.

(** midstate, src/sha1.rs:75-79 *)
Definition f_sha1_Engine_midstate (v_self : engine) : res ((list byte)) :=
  let v_ret := array x00 20 in
  let* t1 := slice_to 20 (e_buffer v_self) in
  copy_from_slice v_ret t1.

(** finalize, src/sha1.rs:45-62 *)
Definition f_sha1_Engine_finalize (cfg : config) (v_self : engine) : res ((list byte)) :=
  let v_data_len := e_length v_self in
  let v_zeroes := array x00 56 in
  let* v_self := f_sha1_Engine_input cfg v_self [x80] in
  let* v_self := (
    if (len v_zeroes) <? ((e_length v_self) mod 64) then
      f_sha1_Engine_input cfg v_self v_zeroes
    else
      Ok v_self) in
  let* v_pad_length := usize_sub cfg (len v_zeroes) ((e_length v_self) mod 64) in
  let* t2 := slice_to v_pad_length v_zeroes in
  let* v_self := f_sha1_Engine_input cfg v_self t2 in
  let* _ := debug_assert cfg (((e_length v_self) mod 64) =? (len v_zeroes)) in
  let* t3 := checked_mul cfg 64 8 v_data_len in
  let* v_self := f_sha1_Engine_input cfg v_self (to_be_bytes 8 t3) in
  let* _ := debug_assert cfg (((e_length v_self) mod 64) =? 0) in
  f_sha1_Engine_midstate v_self.

(** from_midstate, src/sha1.rs:82-91 *)
Definition f_sha1_Engine_from_midstate (v_midstate : (list byte)) (v_length : N) : res (engine) :=
  let* _ := assert ((v_length mod 64) =? 0) in
  let v_ret := array 0 5 in
  let* v_ret := zip_iter_mut v_ret (chunks_exact 4 v_midstate) (fun v_ret_val v_midstate_bytes =>
      let* t1 := from_be_bytes 4 v_midstate_bytes in
      let v_ret_val := t1 in
      Ok v_ret_val) in
  Ok (mk_engine (array x00 64) v_ret v_length).

(** impl HashEngine for Engine, src/sha1.rs *)
Definition f_sha1_Engine_dict (cfg : config) : HashEngine :=
  {| he_state := engine;
     he_mid := (list byte);
     he_block_size := 64;
     he_default := Ok f_sha1_Engine_default;
     he_input := f_sha1_Engine_input cfg;
     he_n_bytes_hashed := f_sha1_Engine_n_bytes_hashed;
     he_finalize := f_sha1_Engine_finalize cfg;
     he_midstate := f_sha1_Engine_midstate;
     he_from_midstate := f_sha1_Engine_from_midstate |}.

(** new, src/lib.rs:155-155 *)
Definition g_lib_HashEngine_new (v_Self : HashEngine) : res ((he_state v_Self)) :=
  he_default v_Self.

(** engine, src/internal_macros.rs:165-165 *)
Definition f_sha1_Hash_engine (cfg : config) : res (engine) :=
  g_lib_HashEngine_new (f_sha1_Engine_dict cfg).

(** hash, src/internal_macros.rs:158-162 *)
Definition f_sha1_Hash_hash (cfg : config) (v_bytes : (list byte)) : res ((list byte)) :=
  let* v_engine := f_sha1_Hash_engine cfg in
  let* v_engine := f_sha1_Engine_input cfg v_engine v_bytes in
  f_sha1_Engine_finalize cfg v_engine.

(** from_engine, src/internal_macros.rs:170-173 *)
Definition f_sha1_Hash_from_engine (cfg : config) (v_engine : engine) : res ((list byte)) :=
  f_sha1_Engine_finalize cfg v_engine.

(** default, src/sha256.rs:32-41 *)
Definition f_sha256_Engine_default : engine :=
  mk_engine (array x00 64) [0x6a09e667; 0xbb67ae85; 0x3c6ef372; 0xa54ff53a; 0x510e527f; 0x9b05688c; 0x1f83d9ab; 0x5be0cd19] 0.

(** n_bytes_hashed, src/sha256.rs:50-50 *)
Definition f_sha256_Engine_n_bytes_hashed (v_self : engine) : N :=
  e_length v_self.

(** input, src/internal_macros.rs:39-44 *)
Definition f_sha256_Engine_input (cfg : config) (v_self : engine) (v_inp : (list byte)) : res (engine) :=
  let* v_self := for_each v_inp (fun v_c v_self =>
      let* t1 := index (e_buffer v_self) 0 in
      let* t2 := store (e_buffer v_self) 0 (u8_xor t1 v_c) in
      let v_self := mk_engine t2 (e_h v_self) (e_length v_self) in
      Ok v_self) v_self in
  let* t1 := usize_add cfg (e_length v_self) (len v_inp) in
  let v_self := mk_engine (e_buffer v_self) (e_h v_self) t1 in
  Ok v_self.

(** to_byte_array, src/sha256.rs:162-162 *)
Definition f_sha256_Midstate_to_byte_array (v_self : (list byte)) : (list byte) :=
  v_self.

(** midstate, src/sha256.rs:97-101 *)
Definition f_sha256_Engine_midstate (v_self : engine) : res ((list byte)) :=
  let v_ret := array x00 32 in
  let* t1 := slice_to 32 (e_buffer v_self) in
  copy_from_slice v_ret t1.

(** finalize, src/sha256.rs:76-84 *)
Definition f_sha256_Engine_finalize (v_self : engine) : res ((list byte)) :=
  let* t1 := f_sha256_Engine_midstate v_self in
  let v_hash := f_sha256_Midstate_to_byte_array t1 in
  if array_eq v_hash (array x00 32) then
    let* t2 := store v_hash 0 x01 in
    let v_hash := t2 in
    Ok v_hash
  else
    Ok v_hash.

(** from_midstate, src/sha256.rs:104-113 *)
Definition f_sha256_Engine_from_midstate_trait (v_midstate : (list byte)) (v_length : N) : res (engine) :=
  let* _ := assert ((v_length mod 64) =? 0) in
  let v_ret := array 0 8 in
  let* v_ret := zip_iter_mut v_ret (chunks_exact 4 v_midstate) (fun v_ret_val v_midstate_bytes =>
      let* t1 := from_be_bytes 4 v_midstate_bytes in
      let v_ret_val := t1 in
      Ok v_ret_val) in
  Ok (mk_engine (array x00 64) v_ret v_length).

(** impl HashEngine for Engine, src/sha256.rs *)
Definition f_sha256_Engine_dict (cfg : config) : HashEngine :=
  {| he_state := engine;
     he_mid := (list byte);
     he_block_size := 64;
     he_default := Ok f_sha256_Engine_default;
     he_input := f_sha256_Engine_input cfg;
     he_n_bytes_hashed := f_sha256_Engine_n_bytes_hashed;
     he_finalize := f_sha256_Engine_finalize;
     he_midstate := f_sha256_Engine_midstate;
     he_from_midstate := f_sha256_Engine_from_midstate_trait |}.

(** engine, src/internal_macros.rs:165-165 *)
Definition f_sha256_Hash_engine (cfg : config) : res (engine) :=
  g_lib_HashEngine_new (f_sha256_Engine_dict cfg).

(** hash, src/internal_macros.rs:158-162 *)
Definition f_sha256_Hash_hash (cfg : config) (v_bytes : (list byte)) : res ((list byte)) :=
  let* v_engine := f_sha256_Hash_engine cfg in
  let* v_engine := f_sha256_Engine_input cfg v_engine v_bytes in
  f_sha256_Engine_finalize v_engine.

(** from_engine, src/internal_macros.rs:170-173 *)
Definition f_sha256_Hash_from_engine (v_engine : engine) : res ((list byte)) :=
  f_sha256_Engine_finalize v_engine.

(** default, src/sha512.rs:26-35 *)
Definition f_sha512_Engine_default : engine :=
  mk_engine (array x00 128) [0x6a09e667f3bcc908; 0xbb67ae8584caa73b; 0x3c6ef372fe94f82b; 0xa54ff53a5f1d36f1; 0x510e527fade682d1; 0x9b05688c2b3e6c1f; 0x1f83d9abfb41bd6b; 0x5be0cd19137e2179] 0.

(** n_bytes_hashed, src/sha512.rs:72-72 *)
Definition f_sha512_Engine_n_bytes_hashed (v_self : engine) : N :=
  e_length v_self.

(** input, src/internal_macros.rs:39-44 *)
Definition f_sha512_Engine_input (cfg : config) (v_self : engine) (v_inp : (list byte)) : res (engine) :=
  let* v_self := for_each v_inp (fun v_c v_self =>
      let* t1 := index (e_buffer v_self) 0 in
      let* t2 := store (e_buffer v_self) 0 (u8_xor t1 v_c) in
      let v_self := mk_engine t2 (e_h v_self) (e_length v_self) in
      Ok v_self) v_self in
  let* t1 := usize_add cfg (e_length v_self) (len v_inp) in
  let v_self := mk_engine (e_buffer v_self) (e_h v_self) t1 in
  Ok v_self.

(** midstate, src/sha512.rs:116-120 *)
Definition f_sha512_Engine_midstate (v_self : engine) : res ((list byte)) :=
  let v_ret := array x00 64 in
  let* t1 := slice_to 64 (e_buffer v_self) in
  copy_from_slice v_ret t1.

(** finalize, src/sha512.rs:99-103 *)
Definition f_sha512_Engine_finalize (v_self : engine) : res ((list byte)) :=
  let* v_hash := f_sha512_Engine_midstate v_self in
  let* t2 := index v_hash 0 in
  let* t3 := store v_hash 0 (u8_xor t2 xff) in
  let v_hash := t3 in
  Ok v_hash.

(** from_midstate, src/sha512.rs:123-132 *)
Definition f_sha512_Engine_from_midstate (v_midstate : (list byte)) (v_length : N) : res (engine) :=
  let* _ := assert ((v_length mod 128) =? 0) in
  let v_ret := array 0 8 in
  let* v_ret := zip_iter_mut v_ret (chunks_exact 4 v_midstate) (fun v_ret_val v_midstate_bytes =>
      let* t1 := from_be_bytes 8 v_midstate_bytes in
      let v_ret_val := t1 in
      Ok v_ret_val) in
  Ok (mk_engine (array x00 128) v_ret v_length).

(** impl HashEngine for Engine, src/sha512.rs *)
Definition f_sha512_Engine_dict (cfg : config) : HashEngine :=
  {| he_state := engine;
     he_mid := (list byte);
     he_block_size := 128;
     he_default := Ok f_sha512_Engine_default;
     he_input := f_sha512_Engine_input cfg;
     he_n_bytes_hashed := f_sha512_Engine_n_bytes_hashed;
     he_finalize := f_sha512_Engine_finalize;
     he_midstate := f_sha512_Engine_midstate;
     he_from_midstate := f_sha512_Engine_from_midstate |}.

(** engine, src/internal_macros.rs:165-165 *)
Definition f_sha512_Hash_engine (cfg : config) : res (engine) :=
  g_lib_HashEngine_new (f_sha512_Engine_dict cfg).

(** hash, src/internal_macros.rs:158-162 *)
Definition f_sha512_Hash_hash (cfg : config) (v_bytes : (list byte)) : res ((list byte)) :=
  let* v_engine := f_sha512_Hash_engine cfg in
  let* v_engine := f_sha512_Engine_input cfg v_engine v_bytes in
  f_sha512_Engine_finalize v_engine.

(** from_engine, src/internal_macros.rs:170-173 *)
Definition f_sha512_Hash_from_engine (v_engine : engine) : res ((list byte)) :=
  f_sha512_Engine_finalize v_engine.

(** sha384, src/sha512.rs:54-63 *)
Definition f_sha512_Engine_sha384 : engine :=
  mk_engine (array x00 128) [0xcbbb9d5dc1059ed8; 0x629a292a367cd507; 0x9159015a3070dd17; 0x152fecd8f70e5939; 0x67332667ffc00b31; 0x8eb44a8768581511; 0xdb0c2e0d64f98fa7; 0x47b5481dbefa4fa4] 0.

(** default, src/sha384.rs:20-22 *)
Definition f_sha384_Engine_default : engine :=
  f_sha512_Engine_sha384.

(** n_bytes_hashed, src/sha384.rs:31-31 *)
Definition f_sha384_Engine_n_bytes_hashed (v_self : engine) : N :=
  f_sha512_Engine_n_bytes_hashed v_self.

(** input, src/sha384.rs:34-34 *)
Definition f_sha384_Engine_input (cfg : config) (v_self : engine) (v_data : (list byte)) : res (engine) :=
  f_sha512_Engine_input cfg v_self v_data.

(** finalize, src/sha384.rs:37-41 *)
Definition f_sha384_Engine_finalize (v_self : engine) : res ((list byte)) :=
  let v_ret := array x00 48 in
  let* t1 := f_sha512_Engine_finalize v_self in
  let* t2 := slice_to 48 t1 in
  copy_from_slice v_ret t2.

(** midstate, src/sha384.rs:44-44 *)
Definition f_sha384_Engine_midstate (v_self : engine) : res ((list byte)) :=
  f_sha512_Engine_midstate v_self.

(** from_midstate, src/sha384.rs:47-49 *)
Definition f_sha384_Engine_from_midstate (v_midstate : (list byte)) (v_length : N) : res (engine) :=
  f_sha512_Engine_from_midstate v_midstate v_length.

(** impl HashEngine for Engine, src/sha384.rs *)
Definition f_sha384_Engine_dict (cfg : config) : HashEngine :=
  {| he_state := engine;
     he_mid := (list byte);
     he_block_size := 128;
     he_default := Ok f_sha384_Engine_default;
     he_input := f_sha384_Engine_input cfg;
     he_n_bytes_hashed := f_sha384_Engine_n_bytes_hashed;
     he_finalize := f_sha384_Engine_finalize;
     he_midstate := f_sha384_Engine_midstate;
     he_from_midstate := f_sha384_Engine_from_midstate |}.

(** engine, src/internal_macros.rs:165-165 *)
Definition f_sha384_Hash_engine (cfg : config) : res (engine) :=
  g_lib_HashEngine_new (f_sha384_Engine_dict cfg).

(** hash, src/internal_macros.rs:158-162 *)
Definition f_sha384_Hash_hash (cfg : config) (v_bytes : (list byte)) : res ((list byte)) :=
  let* v_engine := f_sha384_Hash_engine cfg in
  let* v_engine := f_sha384_Engine_input cfg v_engine v_bytes in
  f_sha384_Engine_finalize v_engine.

(** from_engine, src/internal_macros.rs:170-173 *)
Definition f_sha384_Hash_from_engine (v_engine : engine) : res ((list byte)) :=
  f_sha384_Engine_finalize v_engine.

(** sha512_256, src/sha512.rs:41-50 *)
Definition f_sha512_Engine_sha512_256 : engine :=
  mk_engine (array x00 128) [0x22312194fc2bf72c; 0x9f555fa3c84c64c2; 0x2393b86b6f53b151; 0x963877195940eabd; 0x96283ee2a88effe3; 0xbe5e1e2553863992; 0x2b0199fc2c85b8aa; 0xeb72ddc81c52ca2] 0.

(** default, src/sha512_256.rs:30-32 *)
Definition f_sha512_256_Engine_default : engine :=
  f_sha512_Engine_sha512_256.

(** n_bytes_hashed, src/sha512_256.rs:41-41 *)
Definition f_sha512_256_Engine_n_bytes_hashed (v_self : engine) : N :=
  f_sha512_Engine_n_bytes_hashed v_self.

(** input, src/sha512_256.rs:44-44 *)
Definition f_sha512_256_Engine_input (cfg : config) (v_self : engine) (v_data : (list byte)) : res (engine) :=
  f_sha512_Engine_input cfg v_self v_data.

(** finalize, src/sha512_256.rs:47-52 *)
Definition f_sha512_256_Engine_finalize (v_self : engine) : res ((list byte)) :=
  let* v_sha512 := f_sha512_Engine_finalize v_self in
  let v_hash := array x00 32 in
  let* t2 := slice_to 32 v_sha512 in
  copy_from_slice v_hash t2.

(** midstate, src/sha512_256.rs:55-55 *)
Definition f_sha512_256_Engine_midstate (v_self : engine) : res ((list byte)) :=
  f_sha512_Engine_midstate v_self.

(** from_midstate, src/sha512_256.rs:58-60 *)
Definition f_sha512_256_Engine_from_midstate (v_midstate : (list byte)) (v_length : N) : res (engine) :=
  f_sha512_Engine_from_midstate v_midstate v_length.

(** impl HashEngine for Engine, src/sha512_256.rs *)
Definition f_sha512_256_Engine_dict (cfg : config) : HashEngine :=
  {| he_state := engine;
     he_mid := (list byte);
     he_block_size := 128;
     he_default := Ok f_sha512_256_Engine_default;
     he_input := f_sha512_256_Engine_input cfg;
     he_n_bytes_hashed := f_sha512_256_Engine_n_bytes_hashed;
     he_finalize := f_sha512_256_Engine_finalize;
     he_midstate := f_sha512_256_Engine_midstate;
     he_from_midstate := f_sha512_256_Engine_from_midstate |}.

(** engine, src/internal_macros.rs:165-165 *)
Definition f_sha512_256_Hash_engine (cfg : config) : res (engine) :=
  g_lib_HashEngine_new (f_sha512_256_Engine_dict cfg).

(** hash, src/internal_macros.rs:158-162 *)
Definition f_sha512_256_Hash_hash (cfg : config) (v_bytes : (list byte)) : res ((list byte)) :=
  let* v_engine := f_sha512_256_Hash_engine cfg in
  let* v_engine := f_sha512_256_Engine_input cfg v_engine v_bytes in
  f_sha512_256_Engine_finalize v_engine.

(** from_engine, src/internal_macros.rs:170-173 *)
Definition f_sha512_256_Hash_from_engine (v_engine : engine) : res ((list byte)) :=
  f_sha512_256_Engine_finalize v_engine.

(** default, src/ripemd160.rs:25-31 *)
Definition f_ripemd160_Engine_default : engine :=
  mk_engine (array x00 64) [0x67452301; 0xefcdab89; 0x98badcfe; 0x10325476; 0xc3d2e1f0] 0.

(** n_bytes_hashed, src/ripemd160.rs:40-40 *)
Definition f_ripemd160_Engine_n_bytes_hashed (v_self : engine) : N :=
  e_length v_self.

(** input, src/internal_macros.rs:39-44 *)
Definition f_ripemd160_Engine_input (cfg : config) (v_self : engine) (v_inp : (list byte)) : res (engine) :=
  let* v_self := for_each v_inp (fun v_c v_self =>
      let* t1 := index (e_buffer v_self) 0 in
      let* t2 := store (e_buffer v_self) 0 (u8_xor t1 v_c) in
      let v_self := mk_engine t2 (e_h v_self) (e_length v_self) in
      Ok v_self) v_self in
  let* t1 := usize_add cfg (e_length v_self) (len v_inp) in
  let v_self := mk_engine (e_buffer v_self) (e_h v_self) t1 in
  Ok v_self.

(** midstate, src/ripemd160.rs:83-87 *)
Definition f_ripemd160_Engine_midstate (v_self : engine) : res ((list byte)) :=
  let v_ret := array x00 20 in
  let* t1 := slice_to 20 (e_buffer v_self) in
  copy_from_slice v_ret t1.

(** finalize, src/ripemd160.rs:66-70 *)
Definition f_ripemd160_Engine_finalize (v_self : engine) : res ((list byte)) :=
  let* v_res := f_ripemd160_Engine_midstate v_self in
  let* t2 := index v_res 0 in
  let* t3 := store v_res 0 (u8_xor t2 (u8 (N.land (e_length v_self) 255))) in
  let v_res := t3 in
  Ok v_res.

(** from_midstate, src/ripemd160.rs:90-99 *)
Definition f_ripemd160_Engine_from_midstate (v_midstate : (list byte)) (v_length : N) : res (engine) :=
  let* _ := assert ((v_length mod 64) =? 0) in
  let v_ret := array 0 5 in
  let* v_ret := zip_iter_mut v_ret (chunks_exact 4 v_midstate) (fun v_ret_val v_midstate_bytes =>
      let* t1 := from_be_bytes 4 v_midstate_bytes in
      let v_ret_val := t1 in
      Ok v_ret_val) in
  Ok (mk_engine (array x00 64) v_ret v_length).

(** impl HashEngine for Engine, src/ripemd160.rs *)
Definition f_ripemd160_Engine_dict (cfg : config) : HashEngine :=
  {| he_state := engine;
     he_mid := (list byte);
     he_block_size := 64;
     he_default := Ok f_ripemd160_Engine_default;
     he_input := f_ripemd160_Engine_input cfg;
     he_n_bytes_hashed := f_ripemd160_Engine_n_bytes_hashed;
     he_finalize := f_ripemd160_Engine_finalize;
     he_midstate := f_ripemd160_Engine_midstate;
     he_from_midstate := f_ripemd160_Engine_from_midstate |}.

(** engine, src/internal_macros.rs:165-165 *)
Definition f_ripemd160_Hash_engine (cfg : config) : res (engine) :=
  g_lib_HashEngine_new (f_ripemd160_Engine_dict cfg).

(** hash, src/internal_macros.rs:158-162 *)
Definition f_ripemd160_Hash_hash (cfg : config) (v_bytes : (list byte)) : res ((list byte)) :=
  let* v_engine := f_ripemd160_Hash_engine cfg in
  let* v_engine := f_ripemd160_Engine_input cfg v_engine v_bytes in
  f_ripemd160_Engine_finalize v_engine.

(** from_engine, src/internal_macros.rs:170-173 *)
Definition f_ripemd160_Hash_from_engine (v_engine : engine) : res ((list byte)) :=
  f_ripemd160_Engine_finalize v_engine.

(** with_keys, src/siphash24.rs:81-95 *)
Definition f_siphash24_Engine_with_keys (v_k0 : N) (v_k1 : N) : sip_engine :=
  mk_sip_engine v_k0 v_k1 0 (mk_sip (N.lxor v_k0 0x736f6d6570736575) (N.lxor v_k1 0x646f72616e646f6d) (N.lxor v_k0 0x6c7967656e657261) (N.lxor v_k1 0x7465646279746573)) 0 0.

(** new, src/siphash24.rs:99-99 *)
Definition f_siphash24_Engine_new : sip_engine :=
  f_siphash24_Engine_with_keys 0 0.

(** default, src/siphash24.rs:120-120 *)
Definition f_siphash24_Engine_default : sip_engine :=
  f_siphash24_Engine_new.

(** n_bytes_hashed, src/siphash24.rs:129-129 *)
Definition f_siphash24_Engine_n_bytes_hashed (v_self : sip_engine) : N :=
  sip_length v_self.

(** u8to64_le, src/siphash24.rs:250-268 *)
Definition f_siphash24_u8to64_le (cfg : config) (v_buf : (list byte)) (v_start : N) (v_len : N) : res (N) :=
  let* _ := debug_assert cfg (v_len <? 8) in
  let v_i := 0 in
  let v_out := 0 in
  let* t1 := usize_add cfg v_i 3 in
  let* (v_i, v_out) := (
    if t1 <? v_len then
      let* _ := (
        if debug_assertions cfg then
          let* t2 := usize_add cfg v_start v_i in
          let* t3 := usize_add cfg t2 4 in
          assert (t3 <=? (len v_buf))
        else
          Ok tt) in
      let v_data := 0 in
      let* t2 := usize_add cfg v_start v_i in
      let* v_data := load_native cfg 4%nat v_buf t2 in
      let v_out := to_le cfg 4%nat v_data in
      let* t3 := usize_add cfg v_i 4 in
      let v_i := t3 in
      Ok (v_i, v_out)
    else
      Ok (v_i, v_out)) in
  let* t2 := usize_add cfg v_i 1 in
  let* (v_i, v_out) := (
    if t2 <? v_len then
      let* _ := (
        if debug_assertions cfg then
          let* t3 := usize_add cfg v_start v_i in
          let* t4 := usize_add cfg t3 2 in
          assert (t4 <=? (len v_buf))
        else
          Ok tt) in
      let v_data := 0 in
      let* t3 := usize_add cfg v_start v_i in
      let* v_data := load_native cfg 2%nat v_buf t3 in
      let* t4 := usize_mul cfg v_i 8 in
      let* t5 := checked_shl cfg 64 (to_le cfg 2%nat v_data) t4 in
      let v_out := N.lor v_out t5 in
      let* t6 := usize_add cfg v_i 2 in
      let v_i := t6 in
      Ok (v_i, v_out)
    else
      Ok (v_i, v_out)) in
  let* (v_i, v_out) := (
    if v_i <? v_len then
      let* t3 := usize_add cfg v_start v_i in
      let* t4 := get_unchecked v_buf t3 in
      let* t5 := usize_mul cfg v_i 8 in
      let* t6 := checked_shl cfg 64 (b2n t4) t5 in
      let v_out := N.lor v_out t6 in
      let* t7 := usize_add cfg v_i 1 in
      let v_i := t7 in
      Ok (v_i, v_out)
    else
      Ok (v_i, v_out)) in
  let* _ := debug_assert cfg (v_i =? v_len) in
  Ok v_out.

(** c_rounds, src/siphash24.rs:105-108 *)
Definition f_siphash24_Engine_c_rounds (v_state : sip_state) : sip_state :=
  let v_state := (
    let v_state := mk_sip (wrapping_add 64 (v0 v_state) (v1 v_state)) (v1 v_state) (v2 v_state) (v3 v_state) in
    let v_state := mk_sip (v0 v_state) (rotate_left 64 13 (v1 v_state)) (v2 v_state) (v3 v_state) in
    let v_state := mk_sip (v0 v_state) (N.lxor (v1 v_state) (v0 v_state)) (v2 v_state) (v3 v_state) in
    let v_state := mk_sip (rotate_left 64 32 (v0 v_state)) (v1 v_state) (v2 v_state) (v3 v_state) in
    let v_state := mk_sip (v0 v_state) (v1 v_state) (wrapping_add 64 (v2 v_state) (v3 v_state)) (v3 v_state) in
    let v_state := mk_sip (v0 v_state) (v1 v_state) (v2 v_state) (rotate_left 64 16 (v3 v_state)) in
    let v_state := mk_sip (v0 v_state) (v1 v_state) (v2 v_state) (N.lxor (v3 v_state) (v2 v_state)) in
    let v_state := mk_sip (wrapping_add 64 (v0 v_state) (v3 v_state)) (v1 v_state) (v2 v_state) (v3 v_state) in
    let v_state := mk_sip (v0 v_state) (v1 v_state) (v2 v_state) (rotate_left 64 21 (v3 v_state)) in
    let v_state := mk_sip (v0 v_state) (v1 v_state) (v2 v_state) (N.lxor (v3 v_state) (v0 v_state)) in
    let v_state := mk_sip (v0 v_state) (v1 v_state) (wrapping_add 64 (v2 v_state) (v1 v_state)) (v3 v_state) in
    let v_state := mk_sip (v0 v_state) (rotate_left 64 17 (v1 v_state)) (v2 v_state) (v3 v_state) in
    let v_state := mk_sip (v0 v_state) (N.lxor (v1 v_state) (v2 v_state)) (v2 v_state) (v3 v_state) in
    let v_state := mk_sip (v0 v_state) (v1 v_state) (rotate_left 64 32 (v2 v_state)) (v3 v_state) in
    v_state) in
  let v_state := (
    let v_state := mk_sip (wrapping_add 64 (v0 v_state) (v1 v_state)) (v1 v_state) (v2 v_state) (v3 v_state) in
    let v_state := mk_sip (v0 v_state) (rotate_left 64 13 (v1 v_state)) (v2 v_state) (v3 v_state) in
    let v_state := mk_sip (v0 v_state) (N.lxor (v1 v_state) (v0 v_state)) (v2 v_state) (v3 v_state) in
    let v_state := mk_sip (rotate_left 64 32 (v0 v_state)) (v1 v_state) (v2 v_state) (v3 v_state) in
    let v_state := mk_sip (v0 v_state) (v1 v_state) (wrapping_add 64 (v2 v_state) (v3 v_state)) (v3 v_state) in
    let v_state := mk_sip (v0 v_state) (v1 v_state) (v2 v_state) (rotate_left 64 16 (v3 v_state)) in
    let v_state := mk_sip (v0 v_state) (v1 v_state) (v2 v_state) (N.lxor (v3 v_state) (v2 v_state)) in
    let v_state := mk_sip (wrapping_add 64 (v0 v_state) (v3 v_state)) (v1 v_state) (v2 v_state) (v3 v_state) in
    let v_state := mk_sip (v0 v_state) (v1 v_state) (v2 v_state) (rotate_left 64 21 (v3 v_state)) in
    let v_state := mk_sip (v0 v_state) (v1 v_state) (v2 v_state) (N.lxor (v3 v_state) (v0 v_state)) in
    let v_state := mk_sip (v0 v_state) (v1 v_state) (wrapping_add 64 (v2 v_state) (v1 v_state)) (v3 v_state) in
    let v_state := mk_sip (v0 v_state) (rotate_left 64 17 (v1 v_state)) (v2 v_state) (v3 v_state) in
    let v_state := mk_sip (v0 v_state) (N.lxor (v1 v_state) (v2 v_state)) (v2 v_state) (v3 v_state) in
    let v_state := mk_sip (v0 v_state) (v1 v_state) (rotate_left 64 32 (v2 v_state)) (v3 v_state) in
    v_state) in
  v_state.

(** input, src/siphash24.rs:133-171 *)
Fixpoint f_siphash24_Engine_input_loop1 (fuel : nat) (cfg : config) (v_data : (list byte)) (v_len : N) (v_left : N) (v_self : sip_engine) (v_i : N) {struct fuel} : res (sip_engine * N) :=
  let* t8 := usize_sub cfg v_len v_left in
  if v_i <? t8 then
    match fuel with
    | O => Panic POutOfFuel
    | S fuel =>
      let* _ := (
        if debug_assertions cfg then
          let* t9 := usize_add cfg v_i 8 in
          assert (t9 <=? (len v_data))
        else
          Ok tt) in
      let v_data_m := 0 in
      let* v_data_m := load_native cfg 8%nat v_data v_i in
      let v_mi := to_le cfg 8%nat v_data_m in
      let v_self := mk_sip_engine (sip_k0 v_self) (sip_k1 v_self) (sip_length v_self) (mk_sip (v0 (sip_st v_self)) (v1 (sip_st v_self)) (v2 (sip_st v_self)) (N.lxor (v3 (sip_st v_self)) v_mi)) (sip_tail v_self) (sip_ntail v_self) in
      let t9 := f_siphash24_Engine_c_rounds (sip_st v_self) in
      let v_self := mk_sip_engine (sip_k0 v_self) (sip_k1 v_self) (sip_length v_self) t9 (sip_tail v_self) (sip_ntail v_self) in
      let v_self := mk_sip_engine (sip_k0 v_self) (sip_k1 v_self) (sip_length v_self) (mk_sip (N.lxor (v0 (sip_st v_self)) v_mi) (v1 (sip_st v_self)) (v2 (sip_st v_self)) (v3 (sip_st v_self))) (sip_tail v_self) (sip_ntail v_self) in
      let* t10 := usize_add cfg v_i 8 in
      let v_i := t10 in
      f_siphash24_Engine_input_loop1 fuel cfg v_data v_len v_left v_self v_i
    end
  else
    Ok (v_self, v_i).

Definition f_siphash24_Engine_input (cfg : config) (v_self : sip_engine) (v_data : (list byte)) : res (sip_engine) :=
  let v_length := len v_data in
  let* t1 := usize_add cfg (sip_length v_self) v_length in
  let v_self := mk_sip_engine (sip_k0 v_self) (sip_k1 v_self) t1 (sip_st v_self) (sip_tail v_self) (sip_ntail v_self) in
  let v_needed := 0 in
  if negb ((sip_ntail v_self) =? 0) then
    let* t2 := usize_sub cfg 8 (sip_ntail v_self) in
    let v_needed := t2 in
    let* t3 := f_siphash24_u8to64_le cfg v_data 0 (N.min v_length v_needed) in
    let* t4 := usize_mul cfg 8 (sip_ntail v_self) in
    let* t5 := checked_shl cfg 64 t3 t4 in
    let v_self := mk_sip_engine (sip_k0 v_self) (sip_k1 v_self) (sip_length v_self) (sip_st v_self) (N.lor (sip_tail v_self) t5) (sip_ntail v_self) in
    if v_length <? v_needed then
      let* t6 := usize_add cfg (sip_ntail v_self) v_length in
      let v_self := mk_sip_engine (sip_k0 v_self) (sip_k1 v_self) (sip_length v_self) (sip_st v_self) (sip_tail v_self) t6 in
      Ok v_self
    else
      let v_self := mk_sip_engine (sip_k0 v_self) (sip_k1 v_self) (sip_length v_self) (mk_sip (v0 (sip_st v_self)) (v1 (sip_st v_self)) (v2 (sip_st v_self)) (N.lxor (v3 (sip_st v_self)) (sip_tail v_self))) (sip_tail v_self) (sip_ntail v_self) in
      let t6 := f_siphash24_Engine_c_rounds (sip_st v_self) in
      let v_self := mk_sip_engine (sip_k0 v_self) (sip_k1 v_self) (sip_length v_self) t6 (sip_tail v_self) (sip_ntail v_self) in
      let v_self := mk_sip_engine (sip_k0 v_self) (sip_k1 v_self) (sip_length v_self) (mk_sip (N.lxor (v0 (sip_st v_self)) (sip_tail v_self)) (v1 (sip_st v_self)) (v2 (sip_st v_self)) (v3 (sip_st v_self))) (sip_tail v_self) (sip_ntail v_self) in
      let v_self := mk_sip_engine (sip_k0 v_self) (sip_k1 v_self) (sip_length v_self) (sip_st v_self) (sip_tail v_self) 0 in
      let* v_len := usize_sub cfg v_length v_needed in
      let v_left := N.land v_len 7 in
      let v_i := v_needed in
      let* (v_self, v_i) := f_siphash24_Engine_input_loop1 (length v_data) cfg v_data v_len v_left v_self v_i in
      let* t8 := f_siphash24_u8to64_le cfg v_data v_i v_left in
      let v_self := mk_sip_engine (sip_k0 v_self) (sip_k1 v_self) (sip_length v_self) (sip_st v_self) t8 (sip_ntail v_self) in
      let v_self := mk_sip_engine (sip_k0 v_self) (sip_k1 v_self) (sip_length v_self) (sip_st v_self) (sip_tail v_self) v_left in
      Ok v_self
  else
    let* v_len := usize_sub cfg v_length v_needed in
    let v_left := N.land v_len 7 in
    let v_i := v_needed in
    let* (v_self, v_i) := f_siphash24_Engine_input_loop1 (length v_data) cfg v_data v_len v_left v_self v_i in
    let* t3 := f_siphash24_u8to64_le cfg v_data v_i v_left in
    let v_self := mk_sip_engine (sip_k0 v_self) (sip_k1 v_self) (sip_length v_self) (sip_st v_self) t3 (sip_ntail v_self) in
    let v_self := mk_sip_engine (sip_k0 v_self) (sip_k1 v_self) (sip_length v_self) (sip_st v_self) (sip_tail v_self) v_left in
    Ok v_self.

(** midstate, src/siphash24.rs:199-199 *)
Definition f_siphash24_Engine_midstate (v_self : sip_engine) : sip_state :=
  sip_st v_self.

(** finalize, src/siphash24.rs:192-196 *)
Definition f_siphash24_Engine_finalize (v_self : sip_engine) : (list byte) :=
  let v_state := f_siphash24_Engine_midstate v_self in
  let v_hash := N.lxor (N.lxor (N.lxor (v0 v_state) (v1 v_state)) (v2 v_state)) (v3 v_state) in
  to_le_bytes 8 v_hash.

(** from_midstate, src/siphash24.rs:202-204 *)
Definition f_siphash24_Engine_from_midstate (v_midstate : sip_state) (v_length : N) : sip_engine :=
  mk_sip_engine (sip_k0 f_siphash24_Engine_default) (sip_k1 f_siphash24_Engine_default) (sip_length f_siphash24_Engine_default) v_midstate (sip_tail f_siphash24_Engine_default) (sip_ntail f_siphash24_Engine_default).

(** impl HashEngine for Engine, src/siphash24.rs *)
Definition f_siphash24_Engine_dict (cfg : config) : HashEngine :=
  {| he_state := sip_engine;
     he_mid := sip_state;
     he_block_size := 32;
     he_default := Ok f_siphash24_Engine_default;
     he_input := f_siphash24_Engine_input cfg;
     he_n_bytes_hashed := f_siphash24_Engine_n_bytes_hashed;
     he_finalize := fun x0 => Ok (f_siphash24_Engine_finalize x0);
     he_midstate := fun x0 => Ok (f_siphash24_Engine_midstate x0);
     he_from_midstate := fun x0 x1 => Ok (f_siphash24_Engine_from_midstate x0 x1) |}.

(** engine, src/internal_macros.rs:165-165 *)
Definition f_siphash24_Hash_engine : sip_engine :=
  f_siphash24_Engine_new.

(** hash, src/internal_macros.rs:158-162 *)
Definition f_siphash24_Hash_hash (cfg : config) (v_bytes : (list byte)) : res ((list byte)) :=
  let v_engine := f_siphash24_Hash_engine in
  let* v_engine := f_siphash24_Engine_input cfg v_engine v_bytes in
  Ok (f_siphash24_Engine_finalize v_engine).

(** from_engine, src/internal_macros.rs:170-173 *)
Definition f_siphash24_Hash_from_engine (v_engine : sip_engine) : (list byte) :=
  let v_digest := f_siphash24_Engine_finalize v_engine in
  v_digest.

(** hash, src/lib.rs:171-175 *)
Definition g_lib_HashEngine_hash (v_Self : HashEngine) (v_bytes : (list byte)) : res ((list byte)) :=
  let* v_engine := g_lib_HashEngine_new v_Self in
  let* v_engine := he_input v_Self v_engine v_bytes in
  he_finalize v_Self v_engine.

(** new, src/hmac.rs:212-239 *)
Definition f_hmac_Engine_new (cfg : config) (v_E : HashEngine) (v_key : (list byte)) : res ((hmac_state v_E)) :=
  let* _ := debug_assert cfg ((he_block_size v_E) <=? 128) in
  let v_ipad := array x36 128 in
  let v_opad := array x5c 128 in
  let* t1 := he_default v_E in
  let* t2 := he_default v_E in
  let v_ret := mk_hmac t1 t2 in
  let* (v_ipad, v_opad) := (
    if (he_block_size v_E) <? (len v_key) then
      let* v_hash := g_lib_HashEngine_hash v_E v_key in
      let* v_ipad := zip_iter_mut v_ipad v_hash (fun v_b_i v_b_h =>
      let v_b_i := u8_xor v_b_i v_b_h in
      Ok v_b_i) in
      let* v_opad := zip_iter_mut v_opad v_hash (fun v_b_o v_b_h_2 =>
      let v_b_o := u8_xor v_b_o v_b_h_2 in
      Ok v_b_o) in
      Ok (v_ipad, v_opad)
    else
      let* v_ipad := zip_iter_mut v_ipad v_key (fun v_b_i v_b_h =>
      let v_b_i := u8_xor v_b_i v_b_h in
      Ok v_b_i) in
      let* v_opad := zip_iter_mut v_opad v_key (fun v_b_o v_b_h_2 =>
      let v_b_o := u8_xor v_b_o v_b_h_2 in
      Ok v_b_o) in
      Ok (v_ipad, v_opad)) in
  let* t3 := slice_to (he_block_size v_E) v_ipad in
  let* t4 := he_input v_E (iengine v_ret) t3 in
  let v_ret := mk_hmac t4 (oengine v_ret) in
  let* t5 := slice_to (he_block_size v_E) v_opad in
  let* t6 := he_input v_E (oengine v_ret) t5 in
  let v_ret := mk_hmac (iengine v_ret) t6 in
  Ok v_ret.

(** default, src/hmac.rs:201-201 *)
Definition f_hmac_Engine_default (cfg : config) (v_E : HashEngine) : res ((hmac_state v_E)) :=
  f_hmac_Engine_new cfg v_E [].

(** n_bytes_hashed, src/hmac.rs:251-251 *)
Definition f_hmac_Engine_n_bytes_hashed (v_E : HashEngine) (v_self : (hmac_state v_E)) : N :=
  he_n_bytes_hashed v_E (iengine v_self).

(** input, src/hmac.rs:248-248 *)
Definition f_hmac_Engine_input (v_E : HashEngine) (v_self : (hmac_state v_E)) (v_data : (list byte)) : res ((hmac_state v_E)) :=
  let* t1 := he_input v_E (iengine v_self) v_data in
  let v_self := mk_hmac t1 (oengine v_self) in
  Ok v_self.

(** finalize, src/hmac.rs:254-258 *)
Definition f_hmac_Engine_finalize (v_E : HashEngine) (v_self : (hmac_state v_E)) : res ((list byte)) :=
  let* v_ihash := he_finalize v_E (iengine v_self) in
  let* t2 := he_input v_E (oengine v_self) v_ihash in
  let v_self := mk_hmac (iengine v_self) t2 in
  he_finalize v_E (oengine v_self).

(** midstate, src/hmac.rs:261-263 *)
Definition f_hmac_Engine_midstate (v_E : HashEngine) (v_self : (hmac_state v_E)) : res ((he_mid v_E * he_mid v_E)) :=
  let* t1 := he_midstate v_E (iengine v_self) in
  let* t2 := he_midstate v_E (oengine v_self) in
  Ok (pair t1 t2).

(** from_midstate, src/hmac.rs:266-271 *)
Definition f_hmac_Engine_from_midstate (v_E : HashEngine) (v_midstate : (he_mid v_E * he_mid v_E)) (v_length : N) : res ((hmac_state v_E)) :=
  let* t1 := he_from_midstate v_E (fst v_midstate) v_length in
  let* t2 := he_from_midstate v_E (snd v_midstate) v_length in
  Ok (mk_hmac t1 t2).

(** impl HashEngine for Engine, src/hmac.rs *)
Definition f_hmac_Engine_dict (cfg : config) (v_E : HashEngine) : HashEngine :=
  {| he_state := (hmac_state v_E);
     he_mid := (he_mid v_E * he_mid v_E);
     he_block_size := he_block_size v_E;
     he_default := f_hmac_Engine_default cfg v_E;
     he_input := f_hmac_Engine_input v_E;
     he_n_bytes_hashed := f_hmac_Engine_n_bytes_hashed v_E;
     he_finalize := f_hmac_Engine_finalize v_E;
     he_midstate := f_hmac_Engine_midstate v_E;
     he_from_midstate := f_hmac_Engine_from_midstate v_E |}.

(** default, src/sha256t.rs:15-15 *)
Definition f_sha256t_Engine_default (v_T : res engine) : res (engine) :=
  v_T.

(** n_bytes_hashed, src/sha256t.rs:30-30 *)
Definition f_sha256t_Engine_n_bytes_hashed (v_T : res engine) (v_self : engine) : N :=
  f_sha256_Engine_n_bytes_hashed v_self.

(** input, src/sha256t.rs:27-27 *)
Definition f_sha256t_Engine_input (cfg : config) (v_T : res engine) (v_self : engine) (v_data : (list byte)) : res (engine) :=
  f_sha256_Engine_input cfg v_self v_data.

(** finalize, src/sha256t.rs:33-33 *)
Definition f_sha256t_Engine_finalize (v_T : res engine) (v_self : engine) : res ((list byte)) :=
  f_sha256_Engine_finalize v_self.

(** midstate, src/sha256t.rs:36-36 *)
Definition f_sha256t_Engine_midstate (v_T : res engine) (v_self : engine) : res ((list byte)) :=
  f_sha256_Engine_midstate v_self.

(** from_midstate, src/sha256.rs:434-443 *)
Definition f_sha256_Engine_from_midstate (v_midstate : (list byte)) (v_length : N) : res (engine) :=
  let* _ := assert ((v_length mod 64) =? 0) in
  let v_ret := array 0 8 in
  let* v_ret := zip_iter_mut v_ret (chunks_exact 4 v_midstate) (fun v_ret_val v_midstate_bytes =>
      let* t1 := from_be_bytes 4 v_midstate_bytes in
      let v_ret_val := t1 in
      Ok v_ret_val) in
  Ok (mk_engine (array x00 64) v_ret v_length).

(** from_midstate, src/sha256t.rs:39-42 *)
Definition f_sha256t_Engine_from_midstate (v_T : res engine) (v_midstate : (list byte)) (v_length : N) : res (engine) :=
  f_sha256_Engine_from_midstate v_midstate v_length.

(** impl HashEngine for Engine, src/sha256t.rs *)
Definition f_sha256t_Engine_dict (cfg : config) (v_T : res engine) : HashEngine :=
  {| he_state := engine;
     he_mid := (list byte);
     he_block_size := 64;
     he_default := f_sha256t_Engine_default v_T;
     he_input := f_sha256t_Engine_input cfg v_T;
     he_n_bytes_hashed := f_sha256t_Engine_n_bytes_hashed v_T;
     he_finalize := f_sha256t_Engine_finalize v_T;
     he_midstate := f_sha256t_Engine_midstate v_T;
     he_from_midstate := f_sha256t_Engine_from_midstate v_T |}.

(** hash_with_keys, src/siphash24.rs:209-213 *)
Definition f_siphash24_Hash_hash_with_keys (cfg : config) (v_k0 : N) (v_k1 : N) (v_data : (list byte)) : res ((list byte)) :=
  let v_engine := f_siphash24_Engine_with_keys v_k0 v_k1 in
  let* v_engine := f_siphash24_Engine_input cfg v_engine v_data in
  Ok (f_siphash24_Engine_finalize v_engine).

(** d_rounds, src/siphash24.rs:111-116 *)
Definition f_siphash24_Engine_d_rounds (v_state : sip_state) : sip_state :=
  let v_state := (
    let v_state := mk_sip (wrapping_add 64 (v0 v_state) (v1 v_state)) (v1 v_state) (v2 v_state) (v3 v_state) in
    let v_state := mk_sip (v0 v_state) (rotate_left 64 13 (v1 v_state)) (v2 v_state) (v3 v_state) in
    let v_state := mk_sip (v0 v_state) (N.lxor (v1 v_state) (v0 v_state)) (v2 v_state) (v3 v_state) in
    let v_state := mk_sip (rotate_left 64 32 (v0 v_state)) (v1 v_state) (v2 v_state) (v3 v_state) in
    let v_state := mk_sip (v0 v_state) (v1 v_state) (wrapping_add 64 (v2 v_state) (v3 v_state)) (v3 v_state) in
    let v_state := mk_sip (v0 v_state) (v1 v_state) (v2 v_state) (rotate_left 64 16 (v3 v_state)) in
    let v_state := mk_sip (v0 v_state) (v1 v_state) (v2 v_state) (N.lxor (v3 v_state) (v2 v_state)) in
    let v_state := mk_sip (wrapping_add 64 (v0 v_state) (v3 v_state)) (v1 v_state) (v2 v_state) (v3 v_state) in
    let v_state := mk_sip (v0 v_state) (v1 v_state) (v2 v_state) (rotate_left 64 21 (v3 v_state)) in
    let v_state := mk_sip (v0 v_state) (v1 v_state) (v2 v_state) (N.lxor (v3 v_state) (v0 v_state)) in
    let v_state := mk_sip (v0 v_state) (v1 v_state) (wrapping_add 64 (v2 v_state) (v1 v_state)) (v3 v_state) in
    let v_state := mk_sip (v0 v_state) (rotate_left 64 17 (v1 v_state)) (v2 v_state) (v3 v_state) in
    let v_state := mk_sip (v0 v_state) (N.lxor (v1 v_state) (v2 v_state)) (v2 v_state) (v3 v_state) in
    let v_state := mk_sip (v0 v_state) (v1 v_state) (rotate_left 64 32 (v2 v_state)) (v3 v_state) in
    v_state) in
  let v_state := (
    let v_state := mk_sip (wrapping_add 64 (v0 v_state) (v1 v_state)) (v1 v_state) (v2 v_state) (v3 v_state) in
    let v_state := mk_sip (v0 v_state) (rotate_left 64 13 (v1 v_state)) (v2 v_state) (v3 v_state) in
    let v_state := mk_sip (v0 v_state) (N.lxor (v1 v_state) (v0 v_state)) (v2 v_state) (v3 v_state) in
    let v_state := mk_sip (rotate_left 64 32 (v0 v_state)) (v1 v_state) (v2 v_state) (v3 v_state) in
    let v_state := mk_sip (v0 v_state) (v1 v_state) (wrapping_add 64 (v2 v_state) (v3 v_state)) (v3 v_state) in
    let v_state := mk_sip (v0 v_state) (v1 v_state) (v2 v_state) (rotate_left 64 16 (v3 v_state)) in
    let v_state := mk_sip (v0 v_state) (v1 v_state) (v2 v_state) (N.lxor (v3 v_state) (v2 v_state)) in
    let v_state := mk_sip (wrapping_add 64 (v0 v_state) (v3 v_state)) (v1 v_state) (v2 v_state) (v3 v_state) in
    let v_state := mk_sip (v0 v_state) (v1 v_state) (v2 v_state) (rotate_left 64 21 (v3 v_state)) in
    let v_state := mk_sip (v0 v_state) (v1 v_state) (v2 v_state) (N.lxor (v3 v_state) (v0 v_state)) in
    let v_state := mk_sip (v0 v_state) (v1 v_state) (wrapping_add 64 (v2 v_state) (v1 v_state)) (v3 v_state) in
    let v_state := mk_sip (v0 v_state) (rotate_left 64 17 (v1 v_state)) (v2 v_state) (v3 v_state) in
    let v_state := mk_sip (v0 v_state) (N.lxor (v1 v_state) (v2 v_state)) (v2 v_state) (v3 v_state) in
    let v_state := mk_sip (v0 v_state) (v1 v_state) (rotate_left 64 32 (v2 v_state)) (v3 v_state) in
    v_state) in
  let v_state := (
    let v_state := mk_sip (wrapping_add 64 (v0 v_state) (v1 v_state)) (v1 v_state) (v2 v_state) (v3 v_state) in
    let v_state := mk_sip (v0 v_state) (rotate_left 64 13 (v1 v_state)) (v2 v_state) (v3 v_state) in
    let v_state := mk_sip (v0 v_state) (N.lxor (v1 v_state) (v0 v_state)) (v2 v_state) (v3 v_state) in
    let v_state := mk_sip (rotate_left 64 32 (v0 v_state)) (v1 v_state) (v2 v_state) (v3 v_state) in
    let v_state := mk_sip (v0 v_state) (v1 v_state) (wrapping_add 64 (v2 v_state) (v3 v_state)) (v3 v_state) in
    let v_state := mk_sip (v0 v_state) (v1 v_state) (v2 v_state) (rotate_left 64 16 (v3 v_state)) in
    let v_state := mk_sip (v0 v_state) (v1 v_state) (v2 v_state) (N.lxor (v3 v_state) (v2 v_state)) in
    let v_state := mk_sip (wrapping_add 64 (v0 v_state) (v3 v_state)) (v1 v_state) (v2 v_state) (v3 v_state) in
    let v_state := mk_sip (v0 v_state) (v1 v_state) (v2 v_state) (rotate_left 64 21 (v3 v_state)) in
    let v_state := mk_sip (v0 v_state) (v1 v_state) (v2 v_state) (N.lxor (v3 v_state) (v0 v_state)) in
    let v_state := mk_sip (v0 v_state) (v1 v_state) (wrapping_add 64 (v2 v_state) (v1 v_state)) (v3 v_state) in
    let v_state := mk_sip (v0 v_state) (rotate_left 64 17 (v1 v_state)) (v2 v_state) (v3 v_state) in
    let v_state := mk_sip (v0 v_state) (N.lxor (v1 v_state) (v2 v_state)) (v2 v_state) (v3 v_state) in
    let v_state := mk_sip (v0 v_state) (v1 v_state) (rotate_left 64 32 (v2 v_state)) (v3 v_state) in
    v_state) in
  let v_state := (
    let v_state := mk_sip (wrapping_add 64 (v0 v_state) (v1 v_state)) (v1 v_state) (v2 v_state) (v3 v_state) in
    let v_state := mk_sip (v0 v_state) (rotate_left 64 13 (v1 v_state)) (v2 v_state) (v3 v_state) in
    let v_state := mk_sip (v0 v_state) (N.lxor (v1 v_state) (v0 v_state)) (v2 v_state) (v3 v_state) in
    let v_state := mk_sip (rotate_left 64 32 (v0 v_state)) (v1 v_state) (v2 v_state) (v3 v_state) in
    let v_state := mk_sip (v0 v_state) (v1 v_state) (wrapping_add 64 (v2 v_state) (v3 v_state)) (v3 v_state) in
    let v_state := mk_sip (v0 v_state) (v1 v_state) (v2 v_state) (rotate_left 64 16 (v3 v_state)) in
    let v_state := mk_sip (v0 v_state) (v1 v_state) (v2 v_state) (N.lxor (v3 v_state) (v2 v_state)) in
    let v_state := mk_sip (wrapping_add 64 (v0 v_state) (v3 v_state)) (v1 v_state) (v2 v_state) (v3 v_state) in
    let v_state := mk_sip (v0 v_state) (v1 v_state) (v2 v_state) (rotate_left 64 21 (v3 v_state)) in
    let v_state := mk_sip (v0 v_state) (v1 v_state) (v2 v_state) (N.lxor (v3 v_state) (v0 v_state)) in
    let v_state := mk_sip (v0 v_state) (v1 v_state) (wrapping_add 64 (v2 v_state) (v1 v_state)) (v3 v_state) in
    let v_state := mk_sip (v0 v_state) (rotate_left 64 17 (v1 v_state)) (v2 v_state) (v3 v_state) in
    let v_state := mk_sip (v0 v_state) (N.lxor (v1 v_state) (v2 v_state)) (v2 v_state) (v3 v_state) in
    let v_state := mk_sip (v0 v_state) (v1 v_state) (rotate_left 64 32 (v2 v_state)) (v3 v_state) in
    v_state) in
  v_state.

(** from_engine_to_u64, src/siphash24.rs:224-237 *)
Definition f_siphash24_Hash_from_engine_to_u64 (v_e : sip_engine) : N :=
  let v_state := sip_st v_e in
  let v_b := N.lor (N.shiftl (N.land (sip_length v_e) 255) 56 mod 2 ^ 64) (sip_tail v_e) in
  let v_state := mk_sip (v0 v_state) (v1 v_state) (v2 v_state) (N.lxor (v3 v_state) v_b) in
  let v_state := f_siphash24_Engine_c_rounds v_state in
  let v_state := mk_sip (N.lxor (v0 v_state) v_b) (v1 v_state) (v2 v_state) (v3 v_state) in
  let v_state := mk_sip (v0 v_state) (v1 v_state) (N.lxor (v2 v_state) 255) (v3 v_state) in
  let v_state := f_siphash24_Engine_d_rounds v_state in
  N.lxor (N.lxor (N.lxor (v0 v_state) (v1 v_state)) (v2 v_state)) (v3 v_state).

(** hash_to_u64_with_keys, src/siphash24.rs:216-220 *)
Definition f_siphash24_Hash_hash_to_u64_with_keys (cfg : config) (v_k0 : N) (v_k1 : N) (v_data : (list byte)) : res (N) :=
  let v_engine := f_siphash24_Engine_with_keys v_k0 v_k1 in
  let* v_engine := f_siphash24_Engine_input cfg v_engine v_data in
  Ok (f_siphash24_Hash_from_engine_to_u64 v_engine).
