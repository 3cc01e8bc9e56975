(** src/sha256.rs *)
From Verif Require Import Base ModelEngine ModelSha2Round TablesSha2 ModelSimd TablesSimd.

(** src/sha256.rs:21 *)
Definition BLOCK_SIZE_256 : N := 64.

(** src/sha256.rs:34-37 *)
Definition sha256_iv : list N :=
  [0x6a09e667; 0xbb67ae85; 0x3c6ef372; 0xa54ff53a; 0x510e527f; 0x9b05688c; 0x1f83d9ab;
   0x5be0cd19].

(** Default for Engine, src/sha256.rs:31-42 *)
Definition sha256_default : engine :=
  mk_engine (array x00 BLOCK_SIZE_256) sha256_iv 0.

(** software_process_block, src/sha256.rs:721-814 *)
Definition software_process_block (c : config) (e : engine) : res engine :=
  let* _ := debug_assert c (len (e_buffer e) =? BLOCK_SIZE_256) in
  let* w := zip_assign (array 0 16) (chunks_exact 4 (e_buffer e)) (from_be_bytes 4) in
  let vars := e_h e in
  let '(vars, _) := run_rows c fns256 software_rows (vars, w) in
  Ok (mk_engine (e_buffer e) (add_all 32 (e_h e) vars) (e_length e)).

(** process_block_simd_x86_intrinsics, src/sha256.rs:463-718 *)
Definition simd_process_block (e : engine) : res engine :=
  let* s := run_program simd_mask simd_program (simd_init (e_h e) (e_buffer e)) in
  Ok (mk_engine (e_buffer e) (s_h s) (e_length e)).

(** process_block, src/sha256.rs:445-459 *)
Definition sha256_process_block (c : config) (e : engine) : res engine :=
  if sha_ni c then simd_process_block e else software_process_block c e.

(** input: engine_input_impl!(32), src/sha256.rs:52 *)
Definition sha256_input (c : config) : engine -> bytes -> res engine :=
  engine_input c BLOCK_SIZE_256 (sha256_process_block c).

(** midstate, src/sha256.rs:86-94 *)
Definition sha256_midstate (e : engine) : res bytes := midstate_bytes to_be_bytes 4 32 e.

(** finalize, src/sha256.rs:54-73 *)
Definition sha256_finalize (c : config) (e : engine) : res bytes :=
  let* e := finalize_pad c BLOCK_SIZE_256 (sha256_process_block c) 8
              (fun bits => [to_be_bytes 8 bits]) e in
  sha256_midstate e.

(** from_midstate, src/sha256.rs:103-113 (trait) and 434-443 (inherent; same
    body) *)
Definition sha256_from_midstate (midstate : bytes) (length : N) : res engine :=
  from_midstate_bytes BLOCK_SIZE_256 4 8 (from_be_bytes 4) midstate length.

(** impl HashEngine for Engine, src/sha256.rs:44-114 *)
Definition sha256_engine (c : config) : HashEngine :=
  {| he_state := engine;
     he_mid := bytes;
     he_block_size := BLOCK_SIZE_256;
     he_default := Ok sha256_default;
     he_input := sha256_input c;
     he_n_bytes_hashed := e_length;
     he_finalize := sha256_finalize c;
     he_midstate := sha256_midstate;
     he_from_midstate := sha256_from_midstate |}.

(** ** The const implementation *)

(** read_u32, src/sha256.rs:262-267 *)
Definition read_u32 (c : config) (l : bytes) (i : N) : res N :=
  let* i1 := usize_add c i 1 in
  let* i2 := usize_add c i 2 in
  let* i3 := usize_add c i 3 in
  let* b0 := index l i in
  let* b1 := index l i1 in
  let* b2 := index l i2 in
  let* b3 := index l i3 in
  Ok (N.lor (N.lor (N.lor (N.shiftl (b2n b0) 24) (N.shiftl (b2n b1) 16))
                   (N.shiftl (b2n b2) 8)) (N.shiftl (b2n b3) 0)).

(** copy_w, src/sha256.rs:269-277 *)
Definition copy_w (c : config) (l : bytes) (idx : N) : res (list N) :=
  for_loop 16 0 (fun i w =>
    let* off := usize_add c idx (i * 4) in
    let* x := read_u32 c l off in
    store w i x) (array 0 16).

(** The [while offset + i < bytes.len()] loop, src/sha256.rs:304-307; [fuel] is
    the number of bytes of the message. Returns the buffer and the final i. *)
Fixpoint fill_buf (fuel : nat) (c : config) (l : bytes) (offset i : N) (buf : bytes)
    : res (bytes * N) :=
  let* j := usize_add c offset i in
  if j <? len l then
    match fuel with
    | O => Panic POutOfFuel
    | S f =>
        let* b := index l j in
        let* buf := store buf i b in
        let* i' := usize_add c i 1 in
        fill_buf f c l offset i' buf
    end
  else Ok (buf, i).

(** src/sha256.rs:297-324: the words of one chunk. *)
Definition const_chunk (c : config) (l : bytes) (num_chunks chunk : N) : res (list N) :=
  let* start := usize_mul c chunk 64 in
  let* stop := usize_add c start 64 in
  if stop <=? len l then copy_w c l start                              (* :297-298 *)
  else
    let buf := array x00 64 in
    let* (buf, i) := fill_buf (length l) c l start 0 buf in            (* :300-307 *)
    let* chunk1 := usize_add c chunk 1 in
    let* chunk2 := usize_add c chunk 2 in
    let* buf := if (len l mod 64 <=? 64 - 9) || (chunk2 =? num_chunks) (* :308 *)
                then store buf i x80 else Ok buf in
    let* buf :=
      if chunk1 =? num_chunks then                                     (* :313 *)
        let* bit_len := checked_mul c 64 (len l) 8 in                  (* :314 *)
        for_loop 8 0 (fun j buf =>                                     (* :315-322 *)
          store buf (64 - 8 + j) (u8 (N.land (N.shiftr bit_len (8 * (7 - j))) 0xFF))) buf
      else Ok buf in
    copy_w c buf 0.                                                    (* :324 *)

(** The [while chunk < num_chunks] loop, src/sha256.rs:293-413. *)
Fixpoint const_loop (fuel : nat) (c : config) (l : bytes) (finalize : bool)
    (num_chunks chunk : N) (state : list N) : res (list N) :=
  if chunk <? num_chunks then
    match fuel with
    | O => Panic POutOfFuel
    | S f =>
        let* chunk1 := usize_add c chunk 1 in
        if negb finalize && (chunk1 =? num_chunks) then Ok state       (* break *)
        else
          let* w := const_chunk c l num_chunks chunk in
          let '(vars, _) := run_rows c fns256 const_rows (state, w) in
          const_loop f c l finalize num_chunks chunk1 (add_all 32 state vars)
    end
  else Ok state.

(** src/sha256.rs:280-289 *)
Definition const_iv : list N :=
  [0x6a09e667; 0xbb67ae85; 0x3c6ef372; 0xa54ff53a; 0x510e527f; 0x9b05688c; 0x1f83d9ab;
   0x5be0cd19].

(** Midstate::const_hash, src/sha256.rs:279-425 *)
Definition midstate_const_hash (c : config) (l : bytes) (finalize : bool) : res bytes :=
  let* n := usize_add c (len l) 9 in
  let* n := usize_add c n 63 in
  let num_chunks := n / 64 in                                          (* :291 *)
  let* state := const_loop (N.to_nat num_chunks) c l finalize num_chunks 0 const_iv in
  for_loop 8 0 (fun i output =>                                        (* :414-423 *)
    let* s := index state i in
    let* output := store output (i * 4 + 0) (u8 (N.shiftr s 24)) in
    let* output := store output (i * 4 + 1) (u8 (N.shiftr s 16)) in
    let* output := store output (i * 4 + 2) (u8 (N.shiftr s 8)) in
    store output (i * 4 + 3) (u8 (N.shiftr s 0))) (array x00 32).

(** Hash::const_hash, src/sha256.rs:120 *)
Definition const_hash (c : config) (l : bytes) : res bytes := midstate_const_hash c l true.

(** Midstate::hash_tag, src/sha256.rs:169-178 *)
Definition hash_tag (c : config) (tag : bytes) : res bytes :=
  let* hash := const_hash c tag in
  let* buf := for_loop 64 0 (fun i buf =>
      let* b := index hash (i mod len hash) in
      store buf i b) (array x00 64) in
  midstate_const_hash c buf false.
