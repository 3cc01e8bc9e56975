(** Generated by tools/rs2v.py from the Rust source; do not edit. *)
From Verif Require Import Base GenBase ModelEngine GenLib.

(** default, src/sha1.rs:25-31 *)
Definition g_sha1_Engine_default : engine :=
  mk_engine (array x00 64) [0x67452301; 0xefcdab89; 0x98badcfe; 0x10325476; 0xc3d2e1f0] 0.

(** n_bytes_hashed, src/sha1.rs:40-40 *)
Definition g_sha1_Engine_n_bytes_hashed (v_self : engine) : N :=
  e_length v_self.

(** process_block, src/sha1.rs:96-136 *)
Definition g_sha1_Engine_process_block (cfg : config) (v_self : engine) : res (engine) :=
  let* _ := debug_assert cfg ((len (e_buffer v_self)) =? 64) in
  let v_w := array 0 80 in
  let* v_w := zip_iter_mut v_w (chunks_exact 4 (e_buffer v_self)) (fun v_w_val v_buff_bytes =>
      let* t1 := from_be_bytes 4 v_buff_bytes in
      let v_w_val := t1 in
      Ok v_w_val) in
  let* v_w := for_loop 64 16 (fun v_i v_w =>
      let* t1 := usize_sub cfg v_i 3 in
      let* t2 := index v_w t1 in
      let* t3 := usize_sub cfg v_i 8 in
      let* t4 := index v_w t3 in
      let* t5 := usize_sub cfg v_i 14 in
      let* t6 := index v_w t5 in
      let* t7 := usize_sub cfg v_i 16 in
      let* t8 := index v_w t7 in
      let* t9 := store v_w v_i (rotate_left 32 1 (N.lxor (N.lxor (N.lxor t2 t4) t6) t8)) in
      let v_w := t9 in
      Ok v_w) v_w in
  let* v_a := index (e_h v_self) 0 in
  let* v_b := index (e_h v_self) 1 in
  let* v_c := index (e_h v_self) 2 in
  let* v_d := index (e_h v_self) 3 in
  let* v_e := index (e_h v_self) 4 in
  let* (v_a, v_b, v_c, v_d, v_e) := for_enum v_w 0 (fun v_i_2 v_wi '(v_a, v_b, v_c, v_d, v_e) =>
      let* t6 := (
        if v_i_2 <=? 19 then
          Ok (N.lor (N.land v_b v_c) (N.land (bit_not 32 v_b) v_d), 0x5a827999)
        else
          if (20 <=? v_i_2) && (v_i_2 <=? 39) then
            Ok (N.lxor (N.lxor v_b v_c) v_d, 0x6ed9eba1)
          else
            if (40 <=? v_i_2) && (v_i_2 <=? 59) then
              Ok (N.lor (N.lor (N.land v_b v_c) (N.land v_b v_d)) (N.land v_c v_d), 0x8f1bbcdc)
            else
              if (60 <=? v_i_2) && (v_i_2 <=? 79) then
                Ok (N.lxor (N.lxor v_b v_c) v_d, 0xca62c1d6)
              else
                Panic PUnreachable) in
      let '(v_f, v_k) := t6 in
      let v_new_a := wrapping_add 32 (wrapping_add 32 (wrapping_add 32 (wrapping_add 32 (rotate_left 32 5 v_a) v_f) v_e) v_k) v_wi in
      let v_e := v_d in
      let v_d := v_c in
      let v_c := rotate_left 32 30 v_b in
      let v_b := v_a in
      let v_a := v_new_a in
      Ok (v_a, v_b, v_c, v_d, v_e)) (v_a, v_b, v_c, v_d, v_e) in
  let* t6 := index (e_h v_self) 0 in
  let* t7 := store (e_h v_self) 0 (wrapping_add 32 t6 v_a) in
  let v_self := mk_engine (e_buffer v_self) t7 (e_length v_self) in
  let* t8 := index (e_h v_self) 1 in
  let* t9 := store (e_h v_self) 1 (wrapping_add 32 t8 v_b) in
  let v_self := mk_engine (e_buffer v_self) t9 (e_length v_self) in
  let* t10 := index (e_h v_self) 2 in
  let* t11 := store (e_h v_self) 2 (wrapping_add 32 t10 v_c) in
  let v_self := mk_engine (e_buffer v_self) t11 (e_length v_self) in
  let* t12 := index (e_h v_self) 3 in
  let* t13 := store (e_h v_self) 3 (wrapping_add 32 t12 v_d) in
  let v_self := mk_engine (e_buffer v_self) t13 (e_length v_self) in
  let* t14 := index (e_h v_self) 4 in
  let* t15 := store (e_h v_self) 4 (wrapping_add 32 t14 v_e) in
  let v_self := mk_engine (e_buffer v_self) t15 (e_length v_self) in
  Ok v_self.

(** input, src/internal_macros.rs:22-36 *)
Fixpoint g_sha1_Engine_input_loop1 (fuel : nat) (cfg : config) (v_self : engine) (v_inp : (list byte)) {struct fuel} : res (engine * (list byte)) :=
  if negb (len v_inp =? 0) then
    match fuel with
    | O => Panic POutOfFuel
    | S fuel =>
      let v_buf_idx := (e_length v_self) mod 64 in
      let* v_rem_len := usize_sub cfg 64 v_buf_idx in
      let v_write_len := N.min v_rem_len (len v_inp) in
      let* t2 := usize_add cfg v_buf_idx v_write_len in
      let* t3 := slice_range v_buf_idx t2 (e_buffer v_self) in
      let* t4 := slice_to v_write_len v_inp in
      let* t5 := copy_from_slice t3 t4 in
      let v_self := mk_engine (splice v_buf_idx t2 (e_buffer v_self) t5) (e_h v_self) (e_length v_self) in
      let* t6 := usize_add cfg (e_length v_self) v_write_len in
      let v_self := mk_engine (e_buffer v_self) (e_h v_self) t6 in
      let* v_self := (
        if ((e_length v_self) mod 64) =? 0 then
          g_sha1_Engine_process_block cfg v_self
        else
          Ok v_self) in
      let* t7 := slice_from v_write_len v_inp in
      let v_inp := t7 in
      g_sha1_Engine_input_loop1 fuel cfg v_self v_inp
    end
  else
    Ok (v_self, v_inp).

Definition g_sha1_Engine_input (cfg : config) (v_self : engine) (v_inp : (list byte)) : res (engine) :=
  let* (v_self, v_inp) := g_sha1_Engine_input_loop1 (length v_inp) cfg v_self v_inp in
  Ok v_self.

(** midstate, src/sha1.rs:66-72 *)
Definition g_sha1_Engine_midstate (v_self : engine) : res ((list byte)) :=
  let v_ret := array x00 20 in
  zip_chunks_mut (e_h v_self) 4 v_ret (fun v_val v_ret_bytes =>
      copy_from_slice v_ret_bytes (to_be_bytes 4 v_val)).

(** finalize, src/sha1.rs:45-62 *)
Definition g_sha1_Engine_finalize (cfg : config) (v_self : engine) : res ((list byte)) :=
  let v_data_len := e_length v_self in
  let v_zeroes := array x00 56 in
  let* v_self := g_sha1_Engine_input cfg v_self [x80] in
  let* v_self := (
    if (len v_zeroes) <? ((e_length v_self) mod 64) then
      g_sha1_Engine_input cfg v_self v_zeroes
    else
      Ok v_self) in
  let* v_pad_length := usize_sub cfg (len v_zeroes) ((e_length v_self) mod 64) in
  let* t2 := slice_to v_pad_length v_zeroes in
  let* v_self := g_sha1_Engine_input cfg v_self t2 in
  let* _ := debug_assert cfg (((e_length v_self) mod 64) =? (len v_zeroes)) in
  let* t3 := checked_mul cfg 64 8 v_data_len in
  let* v_self := g_sha1_Engine_input cfg v_self (to_be_bytes 8 t3) in
  let* _ := debug_assert cfg (((e_length v_self) mod 64) =? 0) in
  g_sha1_Engine_midstate v_self.

(** from_midstate, src/sha1.rs:82-91 *)
Definition g_sha1_Engine_from_midstate (v_midstate : (list byte)) (v_length : N) : res (engine) :=
  let* _ := assert ((v_length mod 64) =? 0) in
  let v_ret := array 0 5 in
  let* v_ret := zip_iter_mut v_ret (chunks_exact 4 v_midstate) (fun v_ret_val v_midstate_bytes =>
      let* t1 := from_be_bytes 4 v_midstate_bytes in
      let v_ret_val := t1 in
      Ok v_ret_val) in
  Ok (mk_engine (array x00 64) v_ret v_length).

(** impl HashEngine for Engine, src/sha1.rs *)
Definition g_sha1_Engine_dict (cfg : config) : HashEngine :=
  {| he_state := engine;
     he_mid := (list byte);
     he_block_size := 64;
     he_default := Ok g_sha1_Engine_default;
     he_input := g_sha1_Engine_input cfg;
     he_n_bytes_hashed := g_sha1_Engine_n_bytes_hashed;
     he_finalize := g_sha1_Engine_finalize cfg;
     he_midstate := g_sha1_Engine_midstate;
     he_from_midstate := g_sha1_Engine_from_midstate |}.

(** engine, src/internal_macros.rs:165-165 *)
Definition g_sha1_Hash_engine (cfg : config) : res (engine) :=
  g_lib_HashEngine_new (g_sha1_Engine_dict cfg).

(** hash, src/internal_macros.rs:158-162 *)
Definition g_sha1_Hash_hash (cfg : config) (v_bytes : (list byte)) : res ((list byte)) :=
  let* v_engine := g_sha1_Hash_engine cfg in
  let* v_engine := g_sha1_Engine_input cfg v_engine v_bytes in
  g_sha1_Engine_finalize cfg v_engine.

(** from_engine, src/internal_macros.rs:170-173 *)
Definition g_sha1_Hash_from_engine (cfg : config) (v_engine : engine) : res ((list byte)) :=
  g_sha1_Engine_finalize cfg v_engine.
