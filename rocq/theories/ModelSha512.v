(** src/sha512.rs, src/sha384.rs, src/sha512_256.rs *)
From Verif Require Import Base ModelEngine ModelSha2Round TablesSha2.

(** src/sha512.rs:13 *)
Definition BLOCK_SIZE_512 : N := 128.

(** src/sha512.rs:28-31 *)
Definition sha512_iv : list N :=
  [0x6a09e667f3bcc908; 0xbb67ae8584caa73b; 0x3c6ef372fe94f82b; 0xa54ff53a5f1d36f1;
   0x510e527fade682d1; 0x9b05688c2b3e6c1f; 0x1f83d9abfb41bd6b; 0x5be0cd19137e2179].

(** Engine::sha512_256, src/sha512.rs:43-46 *)
Definition sha512_256_iv : list N :=
  [0x22312194fc2bf72c; 0x9f555fa3c84c64c2; 0x2393b86b6f53b151; 0x963877195940eabd;
   0x96283ee2a88effe3; 0xbe5e1e2553863992; 0x2b0199fc2c85b8aa; 0x0eb72ddc81c52ca2].

(** Engine::sha384, src/sha512.rs:56-59 *)
Definition sha384_iv : list N :=
  [0xcbbb9d5dc1059ed8; 0x629a292a367cd507; 0x9159015a3070dd17; 0x152fecd8f70e5939;
   0x67332667ffc00b31; 0x8eb44a8768581511; 0xdb0c2e0d64f98fa7; 0x47b5481dbefa4fa4].

(** src/sha512.rs:24-36, 38-50, 52-63 *)
Definition sha512_start (iv : list N) : engine :=
  mk_engine (array x00 BLOCK_SIZE_512) iv 0.

(** process_block, src/sha512.rs:204-314 *)
Definition sha512_process_block (c : config) (e : engine) : res engine :=
  let* _ := debug_assert c (len (e_buffer e) =? BLOCK_SIZE_512) in
  let* w := zip_assign (array 0 16) (chunks_exact 8 (e_buffer e)) (from_be_bytes 8) in
  let vars := e_h e in
  let '(vars, _) := run_rows c fns512 sha512_rows (vars, w) in
  Ok (mk_engine (e_buffer e) (add_all 64 (e_h e) vars) (e_length e)).

(** input: engine_input_impl!(64), src/sha512.rs:74 *)
Definition sha512_input (c : config) : engine -> bytes -> res engine :=
  engine_input c BLOCK_SIZE_512 (sha512_process_block c).

(** midstate, src/sha512.rs:105-113 *)
Definition sha512_midstate (e : engine) : res bytes := midstate_bytes to_be_bytes 8 64 e.

(** finalize, src/sha512.rs:76-96 *)
Definition sha512_finalize (c : config) (e : engine) : res bytes :=
  let* e := finalize_pad c BLOCK_SIZE_512 (sha512_process_block c) 16
              (fun bits => [array x00 8; to_be_bytes 8 bits]) e in
  sha512_midstate e.

(** from_midstate, src/sha512.rs:122-132.  The chunk size really is 4 while
    the conversion is [u64::from_be_bytes], which needs 8 bytes. *)
Definition sha512_from_midstate (midstate : bytes) (length : N) : res engine :=
  from_midstate_bytes BLOCK_SIZE_512 4 8 (from_be_bytes 8) midstate length.

(** impl HashEngine for Engine, src/sha512.rs:66-133 *)
Definition sha512_engine (c : config) : HashEngine :=
  {| he_state := engine;
     he_mid := bytes;
     he_block_size := BLOCK_SIZE_512;
     he_default := Ok (sha512_start sha512_iv);
     he_input := sha512_input c;
     he_n_bytes_hashed := e_length;
     he_finalize := sha512_finalize c;
     he_midstate := sha512_midstate;
     he_from_midstate := sha512_from_midstate |}.

(** Truncation: [ret.copy_from_slice(&self.0.finalize()[..n])],
    src/sha384.rs:37-41, src/sha512_256.rs finalize *)
Definition truncated_finalize (c : config) (n : N) (e : engine) : res bytes :=
  let* d := sha512_finalize c e in
  let* t := slice_to n d in
  copy_from_slice (array x00 n) t.

(** impl HashEngine for sha384::Engine, src/sha384.rs:25-50 *)
Definition sha384_engine (c : config) : HashEngine :=
  {| he_state := engine;
     he_mid := bytes;
     he_block_size := BLOCK_SIZE_512;
     he_default := Ok (sha512_start sha384_iv);
     he_input := sha512_input c;
     he_n_bytes_hashed := e_length;
     he_finalize := truncated_finalize c 48;
     he_midstate := sha512_midstate;
     he_from_midstate := sha512_from_midstate |}.

(** impl HashEngine for sha512_256::Engine, src/sha512_256.rs:28-61 *)
Definition sha512_256_engine (c : config) : HashEngine :=
  {| he_state := engine;
     he_mid := bytes;
     he_block_size := BLOCK_SIZE_512;
     he_default := Ok (sha512_start sha512_256_iv);
     he_input := sha512_input c;
     he_n_bytes_hashed := e_length;
     he_finalize := truncated_finalize c 32;
     he_midstate := sha512_midstate;
     he_from_midstate := sha512_from_midstate |}.
