(** Generated by tools/rs2v.py from the Rust source; do not edit. *)
From Verif Require Import Base ModelEngine GenSha1 TraceLib GenBase TraceBase.

(** process_block, src/sha1.rs:96-136 *)
Definition t_sha1_Engine_process_block (cfg : config) (v_self : engine) : tm (engine) :=
  let! _ := t_debug_assert cfg ((len (e_buffer v_self)) =? 64) in
  let v_w := array 0 80 in
  let! v_w := t_zip_iter_mut v_w (chunks_exact 4 (e_buffer v_self)) (fun v_w_val v_buff_bytes =>
      let! t1 := tlift (from_be_bytes 4 v_buff_bytes) in
      let v_w_val := t1 in
      tret v_w_val) in
  let! v_w := t_for_loop 64 16 (fun v_i v_w =>
      let! t1 := tlift (usize_sub cfg v_i 3) in
      let! t2 := t_index v_w t1 in
      let! t3 := tlift (usize_sub cfg v_i 8) in
      let! t4 := t_index v_w t3 in
      let! t5 := tlift (usize_sub cfg v_i 14) in
      let! t6 := t_index v_w t5 in
      let! t7 := tlift (usize_sub cfg v_i 16) in
      let! t8 := t_index v_w t7 in
      let! t9 := t_store v_w v_i (rotate_left 32 1 (N.lxor (N.lxor (N.lxor t2 t4) t6) t8)) in
      let v_w := t9 in
      tret v_w) v_w in
  let! v_a := t_index (e_h v_self) 0 in
  let! v_b := t_index (e_h v_self) 1 in
  let! v_c := t_index (e_h v_self) 2 in
  let! v_d := t_index (e_h v_self) 3 in
  let! v_e := t_index (e_h v_self) 4 in
  let! (v_a, v_b, v_c, v_d, v_e) := t_for_enum v_w 0 (fun v_i_2 v_wi '(v_a, v_b, v_c, v_d, v_e) =>
      let! t6 := (
        t_if (v_i_2 <=? 19) (
          tret (N.lor (N.land v_b v_c) (N.land (bit_not 32 v_b) v_d), 0x5a827999)
        ) (
          t_if ((20 <=? v_i_2) && (v_i_2 <=? 39)) (
            tret (N.lxor (N.lxor v_b v_c) v_d, 0x6ed9eba1)
          ) (
            t_if ((40 <=? v_i_2) && (v_i_2 <=? 59)) (
              tret (N.lor (N.lor (N.land v_b v_c) (N.land v_b v_d)) (N.land v_c v_d), 0x8f1bbcdc)
            ) (
              t_if ((60 <=? v_i_2) && (v_i_2 <=? 79)) (
                tret (N.lxor (N.lxor v_b v_c) v_d, 0xca62c1d6)
              ) (
                tlift (Panic PUnreachable)
              )
            )
          )
        )) in
      let '(v_f, v_k) := t6 in
      let v_new_a := wrapping_add 32 (wrapping_add 32 (wrapping_add 32 (wrapping_add 32 (rotate_left 32 5 v_a) v_f) v_e) v_k) v_wi in
      let v_e := v_d in
      let v_d := v_c in
      let v_c := rotate_left 32 30 v_b in
      let v_b := v_a in
      let v_a := v_new_a in
      tret (v_a, v_b, v_c, v_d, v_e)) (v_a, v_b, v_c, v_d, v_e) in
  let! t6 := t_index (e_h v_self) 0 in
  let! t7 := t_store (e_h v_self) 0 (wrapping_add 32 t6 v_a) in
  let v_self := mk_engine (e_buffer v_self) t7 (e_length v_self) in
  let! t8 := t_index (e_h v_self) 1 in
  let! t9 := t_store (e_h v_self) 1 (wrapping_add 32 t8 v_b) in
  let v_self := mk_engine (e_buffer v_self) t9 (e_length v_self) in
  let! t10 := t_index (e_h v_self) 2 in
  let! t11 := t_store (e_h v_self) 2 (wrapping_add 32 t10 v_c) in
  let v_self := mk_engine (e_buffer v_self) t11 (e_length v_self) in
  let! t12 := t_index (e_h v_self) 3 in
  let! t13 := t_store (e_h v_self) 3 (wrapping_add 32 t12 v_d) in
  let v_self := mk_engine (e_buffer v_self) t13 (e_length v_self) in
  let! t14 := t_index (e_h v_self) 4 in
  let! t15 := t_store (e_h v_self) 4 (wrapping_add 32 t14 v_e) in
  let v_self := mk_engine (e_buffer v_self) t15 (e_length v_self) in
  tret v_self.

(** input, src/internal_macros.rs:22-36 *)
Fixpoint t_sha1_Engine_input_loop1 (fuel : nat) (cfg : config) (v_self : engine) (v_inp : (list byte)) {struct fuel} : tm (engine * (list byte)) :=
  t_if (negb (len v_inp =? 0)) (
    match fuel with
    | O => tlift (Panic POutOfFuel)
    | S fuel =>
      let v_buf_idx := (e_length v_self) mod 64 in
      let! v_rem_len := tlift (usize_sub cfg 64 v_buf_idx) in
      let! v_write_len := t_min v_rem_len (len v_inp) in
      let! t3 := tlift (usize_add cfg v_buf_idx v_write_len) in
      let! t4 := t_slice_range v_buf_idx t3 (e_buffer v_self) in
      let! t5 := t_slice_to v_write_len v_inp in
      let! t6 := t_copy_from_slice t4 t5 in
      let v_self := mk_engine (splice v_buf_idx t3 (e_buffer v_self) t6) (e_h v_self) (e_length v_self) in
      let! t7 := tlift (usize_add cfg (e_length v_self) v_write_len) in
      let v_self := mk_engine (e_buffer v_self) (e_h v_self) t7 in
      let! v_self := (
        t_if (((e_length v_self) mod 64) =? 0) (
          t_sha1_Engine_process_block cfg v_self
        ) (
          tret v_self
        )) in
      let! t8 := t_slice_from v_write_len v_inp in
      let v_inp := t8 in
      t_sha1_Engine_input_loop1 fuel cfg v_self v_inp
    end
  ) (
    tret (v_self, v_inp)
  ).

Definition t_sha1_Engine_input (cfg : config) (v_self : engine) (v_inp : (list byte)) : tm (engine) :=
  let! (v_self, v_inp) := t_sha1_Engine_input_loop1 (length v_inp) cfg v_self v_inp in
  tret v_self.

(** midstate, src/sha1.rs:66-72 *)
Definition t_sha1_Engine_midstate (v_self : engine) : tm ((list byte)) :=
  let v_ret := array x00 20 in
  t_zip_chunks_mut (e_h v_self) 4 v_ret (fun v_val v_ret_bytes =>
      t_copy_from_slice v_ret_bytes (to_be_bytes 4 v_val)).

(** finalize, src/sha1.rs:45-62 *)
Definition t_sha1_Engine_finalize (cfg : config) (v_self : engine) : tm ((list byte)) :=
  let v_data_len := e_length v_self in
  let v_zeroes := array x00 56 in
  let! v_self := t_sha1_Engine_input cfg v_self [x80] in
  let! v_self := (
    t_if ((len v_zeroes) <? ((e_length v_self) mod 64)) (
      t_sha1_Engine_input cfg v_self v_zeroes
    ) (
      tret v_self
    )) in
  let! v_pad_length := tlift (usize_sub cfg (len v_zeroes) ((e_length v_self) mod 64)) in
  let! t2 := t_slice_to v_pad_length v_zeroes in
  let! v_self := t_sha1_Engine_input cfg v_self t2 in
  let! _ := t_debug_assert cfg (((e_length v_self) mod 64) =? (len v_zeroes)) in
  let! t3 := t_checked_mul cfg 64 8 v_data_len in
  let! v_self := t_sha1_Engine_input cfg v_self (to_be_bytes 8 t3) in
  let! _ := t_debug_assert cfg (((e_length v_self) mod 64) =? 0) in
  t_sha1_Engine_midstate v_self.

(** from_midstate, src/sha1.rs:82-91 *)
Definition t_sha1_Engine_from_midstate (v_midstate : (list byte)) (v_length : N) : tm (engine) :=
  let! _ := t_assert ((v_length mod 64) =? 0) in
  let v_ret := array 0 5 in
  let! v_ret := t_zip_iter_mut v_ret (chunks_exact 4 v_midstate) (fun v_ret_val v_midstate_bytes =>
      let! t1 := tlift (from_be_bytes 4 v_midstate_bytes) in
      let v_ret_val := t1 in
      tret v_ret_val) in
  tret (mk_engine (array x00 64) v_ret v_length).

(** impl HashEngine for Engine, src/sha1.rs *)
Definition t_sha1_Engine_dict (cfg : config) : tengine (g_sha1_Engine_dict cfg) :=
  mk_tengine (g_sha1_Engine_dict cfg)
    (tret g_sha1_Engine_default)
    (t_sha1_Engine_input cfg)
    (t_sha1_Engine_finalize cfg)
    (t_sha1_Engine_midstate)
    (t_sha1_Engine_from_midstate).
