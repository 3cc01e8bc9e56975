(** Generated by tools/rs2v.py from the Rust source; do not edit. *)
From Verif Require Import Base GenBase ModelEngine GenLib GenSha512.

(** sha384, src/sha512.rs:54-63 *)
Definition g_sha512_Engine_sha384 : engine :=
  mk_engine (array x00 128) [0xcbbb9d5dc1059ed8; 0x629a292a367cd507; 0x9159015a3070dd17; 0x152fecd8f70e5939; 0x67332667ffc00b31; 0x8eb44a8768581511; 0xdb0c2e0d64f98fa7; 0x47b5481dbefa4fa4] 0.

(** default, src/sha384.rs:20-22 *)
Definition g_sha384_Engine_default : engine :=
  g_sha512_Engine_sha384.

(** n_bytes_hashed, src/sha384.rs:31-31 *)
Definition g_sha384_Engine_n_bytes_hashed (v_self : engine) : N :=
  g_sha512_Engine_n_bytes_hashed v_self.

(** input, src/sha384.rs:34-34 *)
Definition g_sha384_Engine_input (cfg : config) (v_self : engine) (v_data : (list byte)) : res (engine) :=
  g_sha512_Engine_input cfg v_self v_data.

(** finalize, src/sha384.rs:37-41 *)
Definition g_sha384_Engine_finalize (cfg : config) (v_self : engine) : res ((list byte)) :=
  let v_ret := array x00 48 in
  let* t1 := g_sha512_Engine_finalize cfg v_self in
  let* t2 := slice_to 48 t1 in
  copy_from_slice v_ret t2.

(** midstate, src/sha384.rs:44-44 *)
Definition g_sha384_Engine_midstate (v_self : engine) : res ((list byte)) :=
  g_sha512_Engine_midstate v_self.

(** from_midstate, src/sha384.rs:47-49 *)
Definition g_sha384_Engine_from_midstate (v_midstate : (list byte)) (v_length : N) : res (engine) :=
  g_sha512_Engine_from_midstate v_midstate v_length.

(** impl HashEngine for Engine, src/sha384.rs *)
Definition g_sha384_Engine_dict (cfg : config) : HashEngine :=
  {| he_state := engine;
     he_mid := (list byte);
     he_block_size := 128;
     he_default := Ok g_sha384_Engine_default;
     he_input := g_sha384_Engine_input cfg;
     he_n_bytes_hashed := g_sha384_Engine_n_bytes_hashed;
     he_finalize := g_sha384_Engine_finalize cfg;
     he_midstate := g_sha384_Engine_midstate;
     he_from_midstate := g_sha384_Engine_from_midstate |}.

(** engine, src/internal_macros.rs:165-165 *)
Definition g_sha384_Hash_engine (cfg : config) : res (engine) :=
  g_lib_HashEngine_new (g_sha384_Engine_dict cfg).

(** hash, src/internal_macros.rs:158-162 *)
Definition g_sha384_Hash_hash (cfg : config) (v_bytes : (list byte)) : res ((list byte)) :=
  let* v_engine := g_sha384_Hash_engine cfg in
  let* v_engine := g_sha384_Engine_input cfg v_engine v_bytes in
  g_sha384_Engine_finalize cfg v_engine.

(** from_engine, src/internal_macros.rs:170-173 *)
Definition g_sha384_Hash_from_engine (cfg : config) (v_engine : engine) : res ((list byte)) :=
  g_sha384_Engine_finalize cfg v_engine.

(** sha512_256, src/sha512.rs:41-50 *)
Definition g_sha512_Engine_sha512_256 : engine :=
  mk_engine (array x00 128) [0x22312194fc2bf72c; 0x9f555fa3c84c64c2; 0x2393b86b6f53b151; 0x963877195940eabd; 0x96283ee2a88effe3; 0xbe5e1e2553863992; 0x2b0199fc2c85b8aa; 0xeb72ddc81c52ca2] 0.

(** default, src/sha512_256.rs:30-32 *)
Definition g_sha512_256_Engine_default : engine :=
  g_sha512_Engine_sha512_256.

(** n_bytes_hashed, src/sha512_256.rs:41-41 *)
Definition g_sha512_256_Engine_n_bytes_hashed (v_self : engine) : N :=
  g_sha512_Engine_n_bytes_hashed v_self.

(** input, src/sha512_256.rs:44-44 *)
Definition g_sha512_256_Engine_input (cfg : config) (v_self : engine) (v_data : (list byte)) : res (engine) :=
  g_sha512_Engine_input cfg v_self v_data.

(** finalize, src/sha512_256.rs:47-52 *)
Definition g_sha512_256_Engine_finalize (cfg : config) (v_self : engine) : res ((list byte)) :=
  let* v_sha512 := g_sha512_Engine_finalize cfg v_self in
  let v_hash := array x00 32 in
  let* t2 := slice_to 32 v_sha512 in
  copy_from_slice v_hash t2.

(** midstate, src/sha512_256.rs:55-55 *)
Definition g_sha512_256_Engine_midstate (v_self : engine) : res ((list byte)) :=
  g_sha512_Engine_midstate v_self.

(** from_midstate, src/sha512_256.rs:58-60 *)
Definition g_sha512_256_Engine_from_midstate (v_midstate : (list byte)) (v_length : N) : res (engine) :=
  g_sha512_Engine_from_midstate v_midstate v_length.

(** impl HashEngine for Engine, src/sha512_256.rs *)
Definition g_sha512_256_Engine_dict (cfg : config) : HashEngine :=
  {| he_state := engine;
     he_mid := (list byte);
     he_block_size := 128;
     he_default := Ok g_sha512_256_Engine_default;
     he_input := g_sha512_256_Engine_input cfg;
     he_n_bytes_hashed := g_sha512_256_Engine_n_bytes_hashed;
     he_finalize := g_sha512_256_Engine_finalize cfg;
     he_midstate := g_sha512_256_Engine_midstate;
     he_from_midstate := g_sha512_256_Engine_from_midstate |}.

(** engine, src/internal_macros.rs:165-165 *)
Definition g_sha512_256_Hash_engine (cfg : config) : res (engine) :=
  g_lib_HashEngine_new (g_sha512_256_Engine_dict cfg).

(** hash, src/internal_macros.rs:158-162 *)
Definition g_sha512_256_Hash_hash (cfg : config) (v_bytes : (list byte)) : res ((list byte)) :=
  let* v_engine := g_sha512_256_Hash_engine cfg in
  let* v_engine := g_sha512_256_Engine_input cfg v_engine v_bytes in
  g_sha512_256_Engine_finalize cfg v_engine.

(** from_engine, src/internal_macros.rs:170-173 *)
Definition g_sha512_256_Hash_from_engine (cfg : config) (v_engine : engine) : res ((list byte)) :=
  g_sha512_256_Engine_finalize cfg v_engine.
