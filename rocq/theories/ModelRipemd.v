(** src/ripemd160.rs *)
From Verif Require Import Base ModelEngine ModelSha2Round ModelRipemdRound TablesRipemd.

(** src/ripemd160.rs:14 *)
Definition BLOCK_SIZE_RIPEMD : N := 64.

(** src/ripemd160.rs:27 *)
Definition ripemd_iv : list N := [0x67452301; 0xefcdab89; 0x98badcfe; 0x10325476; 0xc3d2e1f0].

(** Default for Engine, src/ripemd160.rs:24-32 *)
Definition ripemd_default : engine := mk_engine (array x00 BLOCK_SIZE_RIPEMD) ripemd_iv 0.

(** process_block, src/ripemd160.rs:228-417, and the macro body 157-224 *)
Definition ripemd_process_block (c : config) (e : engine) : res engine :=
  let* _ := debug_assert c (len (e_buffer e) =? BLOCK_SIZE_RIPEMD) in
  let* w := zip_assign (array 0 16) (chunks_exact 4 (e_buffer e)) (from_le_bytes 4) in
  let h := e_h e in
  let bb := run_line c left_fn left_k w left_rows h in
  let bbb := run_line c right_fn right_k w right_rows h in
  Ok (mk_engine (e_buffer e) (rip_combine h bb bbb) (e_length e)).

(** input: engine_input_impl!(20), src/ripemd160.rs:43 *)
Definition ripemd_input (c : config) : engine -> bytes -> res engine :=
  engine_input c BLOCK_SIZE_RIPEMD (ripemd_process_block c).

(** midstate, src/ripemd160.rs:72-80: little-endian *)
Definition ripemd_midstate (e : engine) : res bytes := midstate_bytes to_le_bytes 4 20 e.

(** finalize, src/ripemd160.rs:45-63 *)
Definition ripemd_finalize (c : config) (e : engine) : res bytes :=
  let* e := finalize_pad c BLOCK_SIZE_RIPEMD (ripemd_process_block c) 8
              (fun bits => [to_le_bytes 8 bits]) e in
  ripemd_midstate e.

(** from_midstate, src/ripemd160.rs:89-99: big-endian, as written *)
Definition ripemd_from_midstate (midstate : bytes) (length : N) : res engine :=
  from_midstate_bytes BLOCK_SIZE_RIPEMD 4 5 (from_be_bytes 4) midstate length.

(** impl HashEngine for Engine, src/ripemd160.rs:34-100 *)
Definition ripemd160_engine (c : config) : HashEngine :=
  {| he_state := engine;
     he_mid := bytes;
     he_block_size := BLOCK_SIZE_RIPEMD;
     he_default := Ok ripemd_default;
     he_input := ripemd_input c;
     he_n_bytes_hashed := e_length;
     he_finalize := ripemd_finalize c;
     he_midstate := ripemd_midstate;
     he_from_midstate := ripemd_from_midstate |}.
