(** Generated by tools/rs2v.py from the Rust source; do not edit. *)
From Verif Require Import Base GenBase ModelEngine GenLib.

(** default, src/ripemd160.rs:25-31 *)
Definition g_ripemd160_Engine_default : engine :=
  mk_engine (array x00 64) [0x67452301; 0xefcdab89; 0x98badcfe; 0x10325476; 0xc3d2e1f0] 0.

(** n_bytes_hashed, src/ripemd160.rs:40-40 *)
Definition g_ripemd160_Engine_n_bytes_hashed (v_self : engine) : N :=
  e_length v_self.

(** round, src/ripemd160.rs:106-114 *)
Definition g_ripemd160_small_hash_round (v_a : N) (v_b : N) (v_c : N) (v_d : N) (v_e : N) (v_x : N) (v_bits : N) (v_add : N) (v_round : N) : (N * N) :=
  let v_a_2 := wrapping_add 32 (wrapping_add 32 (wrapping_add 32 v_a v_round) v_x) v_add in
  let v_a_3 := wrapping_add 32 (rotate_left 32 v_bits v_a_2) v_e in
  let v_c_2 := rotate_left 32 10 v_c in
  (v_a_3, v_c_2).

(** process_block, src/ripemd160.rs:228-417; feature small-hash off *)
Definition g_ripemd160_Engine_process_block_fast_part10 v_self v_bb v_bbb : res (engine) :=
  let* t1 := index v_bbb 3 in
  let* t2 := index (e_h v_self) 1 in
  let* t3 := index v_bb 2 in
  let* t4 := store v_bbb 3 (wrapping_add 32 (wrapping_add 32 t1 t2) t3) in
  let v_bbb := t4 in
  let* t5 := index (e_h v_self) 2 in
  let* t6 := index v_bb 3 in
  let* t7 := index v_bbb 4 in
  let* t8 := store (e_h v_self) 1 (wrapping_add 32 (wrapping_add 32 t5 t6) t7) in
  let v_self := mk_engine (e_buffer v_self) t8 (e_length v_self) in
  let* t9 := index (e_h v_self) 3 in
  let* t10 := index v_bb 4 in
  let* t11 := index v_bbb 0 in
  let* t12 := store (e_h v_self) 2 (wrapping_add 32 (wrapping_add 32 t9 t10) t11) in
  let v_self := mk_engine (e_buffer v_self) t12 (e_length v_self) in
  let* t13 := index (e_h v_self) 4 in
  let* t14 := index v_bb 0 in
  let* t15 := index v_bbb 1 in
  let* t16 := store (e_h v_self) 3 (wrapping_add 32 (wrapping_add 32 t13 t14) t15) in
  let v_self := mk_engine (e_buffer v_self) t16 (e_length v_self) in
  let* t17 := index (e_h v_self) 0 in
  let* t18 := index v_bb 1 in
  let* t19 := index v_bbb 2 in
  let* t20 := store (e_h v_self) 4 (wrapping_add 32 (wrapping_add 32 t17 t18) t19) in
  let v_self := mk_engine (e_buffer v_self) t20 (e_length v_self) in
  let* t21 := index v_bbb 3 in
  let* t22 := store (e_h v_self) 0 t21 in
  let v_self := mk_engine (e_buffer v_self) t22 (e_length v_self) in
  Ok v_self.

Definition g_ripemd160_Engine_process_block_fast_part9 v_self v_w v_bb v_bbb : res (engine) :=
  let* v_bbb := (
    let* t1 := index v_bbb 1 in
    let* t2 := index v_bbb 2 in
    let* t3 := index v_bbb 3 in
    let* t4 := index v_bbb 4 in
    let* t5 := index v_w 12 in
    let* t6 := store v_bbb 1 (wrapping_add 32 (wrapping_add 32 (wrapping_add 32 t1 (N.lxor (N.lxor t2 t3) t4)) t5) 0) in
    let v_bbb := t6 in
    let* t7 := index v_bbb 1 in
    let* t8 := index v_bbb 0 in
    let* t9 := store v_bbb 1 (wrapping_add 32 (rotate_left 32 8 t7) t8) in
    let v_bbb := t9 in
    let* t10 := index v_bbb 3 in
    let* t11 := store v_bbb 3 (rotate_left 32 10 t10) in
    let v_bbb := t11 in
    Ok v_bbb) in
  let* v_bbb := (
    let* t1 := index v_bbb 0 in
    let* t2 := index v_bbb 1 in
    let* t3 := index v_bbb 2 in
    let* t4 := index v_bbb 3 in
    let* t5 := index v_w 15 in
    let* t6 := store v_bbb 0 (wrapping_add 32 (wrapping_add 32 (wrapping_add 32 t1 (N.lxor (N.lxor t2 t3) t4)) t5) 0) in
    let v_bbb := t6 in
    let* t7 := index v_bbb 0 in
    let* t8 := index v_bbb 4 in
    let* t9 := store v_bbb 0 (wrapping_add 32 (rotate_left 32 5 t7) t8) in
    let v_bbb := t9 in
    let* t10 := index v_bbb 2 in
    let* t11 := store v_bbb 2 (rotate_left 32 10 t10) in
    let v_bbb := t11 in
    Ok v_bbb) in
  let* v_bbb := (
    let* t1 := index v_bbb 4 in
    let* t2 := index v_bbb 0 in
    let* t3 := index v_bbb 1 in
    let* t4 := index v_bbb 2 in
    let* t5 := index v_w 10 in
    let* t6 := store v_bbb 4 (wrapping_add 32 (wrapping_add 32 (wrapping_add 32 t1 (N.lxor (N.lxor t2 t3) t4)) t5) 0) in
    let v_bbb := t6 in
    let* t7 := index v_bbb 4 in
    let* t8 := index v_bbb 3 in
    let* t9 := store v_bbb 4 (wrapping_add 32 (rotate_left 32 12 t7) t8) in
    let v_bbb := t9 in
    let* t10 := index v_bbb 1 in
    let* t11 := store v_bbb 1 (rotate_left 32 10 t10) in
    let v_bbb := t11 in
    Ok v_bbb) in
  let* v_bbb := (
    let* t1 := index v_bbb 3 in
    let* t2 := index v_bbb 4 in
    let* t3 := index v_bbb 0 in
    let* t4 := index v_bbb 1 in
    let* t5 := index v_w 4 in
    let* t6 := store v_bbb 3 (wrapping_add 32 (wrapping_add 32 (wrapping_add 32 t1 (N.lxor (N.lxor t2 t3) t4)) t5) 0) in
    let v_bbb := t6 in
    let* t7 := index v_bbb 3 in
    let* t8 := index v_bbb 2 in
    let* t9 := store v_bbb 3 (wrapping_add 32 (rotate_left 32 9 t7) t8) in
    let v_bbb := t9 in
    let* t10 := index v_bbb 0 in
    let* t11 := store v_bbb 0 (rotate_left 32 10 t10) in
    let v_bbb := t11 in
    Ok v_bbb) in
  let* v_bbb := (
    let* t1 := index v_bbb 2 in
    let* t2 := index v_bbb 3 in
    let* t3 := index v_bbb 4 in
    let* t4 := index v_bbb 0 in
    let* t5 := index v_w 1 in
    let* t6 := store v_bbb 2 (wrapping_add 32 (wrapping_add 32 (wrapping_add 32 t1 (N.lxor (N.lxor t2 t3) t4)) t5) 0) in
    let v_bbb := t6 in
    let* t7 := index v_bbb 2 in
    let* t8 := index v_bbb 1 in
    let* t9 := store v_bbb 2 (wrapping_add 32 (rotate_left 32 12 t7) t8) in
    let v_bbb := t9 in
    let* t10 := index v_bbb 4 in
    let* t11 := store v_bbb 4 (rotate_left 32 10 t10) in
    let v_bbb := t11 in
    Ok v_bbb) in
  let* v_bbb := (
    let* t1 := index v_bbb 1 in
    let* t2 := index v_bbb 2 in
    let* t3 := index v_bbb 3 in
    let* t4 := index v_bbb 4 in
    let* t5 := index v_w 5 in
    let* t6 := store v_bbb 1 (wrapping_add 32 (wrapping_add 32 (wrapping_add 32 t1 (N.lxor (N.lxor t2 t3) t4)) t5) 0) in
    let v_bbb := t6 in
    let* t7 := index v_bbb 1 in
    let* t8 := index v_bbb 0 in
    let* t9 := store v_bbb 1 (wrapping_add 32 (rotate_left 32 5 t7) t8) in
    let v_bbb := t9 in
    let* t10 := index v_bbb 3 in
    let* t11 := store v_bbb 3 (rotate_left 32 10 t10) in
    let v_bbb := t11 in
    Ok v_bbb) in
  let* v_bbb := (
    let* t1 := index v_bbb 0 in
    let* t2 := index v_bbb 1 in
    let* t3 := index v_bbb 2 in
    let* t4 := index v_bbb 3 in
    let* t5 := index v_w 8 in
    let* t6 := store v_bbb 0 (wrapping_add 32 (wrapping_add 32 (wrapping_add 32 t1 (N.lxor (N.lxor t2 t3) t4)) t5) 0) in
    let v_bbb := t6 in
    let* t7 := index v_bbb 0 in
    let* t8 := index v_bbb 4 in
    let* t9 := store v_bbb 0 (wrapping_add 32 (rotate_left 32 14 t7) t8) in
    let v_bbb := t9 in
    let* t10 := index v_bbb 2 in
    let* t11 := store v_bbb 2 (rotate_left 32 10 t10) in
    let v_bbb := t11 in
    Ok v_bbb) in
  let* v_bbb := (
    let* t1 := index v_bbb 4 in
    let* t2 := index v_bbb 0 in
    let* t3 := index v_bbb 1 in
    let* t4 := index v_bbb 2 in
    let* t5 := index v_w 7 in
    let* t6 := store v_bbb 4 (wrapping_add 32 (wrapping_add 32 (wrapping_add 32 t1 (N.lxor (N.lxor t2 t3) t4)) t5) 0) in
    let v_bbb := t6 in
    let* t7 := index v_bbb 4 in
    let* t8 := index v_bbb 3 in
    let* t9 := store v_bbb 4 (wrapping_add 32 (rotate_left 32 6 t7) t8) in
    let v_bbb := t9 in
    let* t10 := index v_bbb 1 in
    let* t11 := store v_bbb 1 (rotate_left 32 10 t10) in
    let v_bbb := t11 in
    Ok v_bbb) in
  let* v_bbb := (
    let* t1 := index v_bbb 3 in
    let* t2 := index v_bbb 4 in
    let* t3 := index v_bbb 0 in
    let* t4 := index v_bbb 1 in
    let* t5 := index v_w 6 in
    let* t6 := store v_bbb 3 (wrapping_add 32 (wrapping_add 32 (wrapping_add 32 t1 (N.lxor (N.lxor t2 t3) t4)) t5) 0) in
    let v_bbb := t6 in
    let* t7 := index v_bbb 3 in
    let* t8 := index v_bbb 2 in
    let* t9 := store v_bbb 3 (wrapping_add 32 (rotate_left 32 8 t7) t8) in
    let v_bbb := t9 in
    let* t10 := index v_bbb 0 in
    let* t11 := store v_bbb 0 (rotate_left 32 10 t10) in
    let v_bbb := t11 in
    Ok v_bbb) in
  let* v_bbb := (
    let* t1 := index v_bbb 2 in
    let* t2 := index v_bbb 3 in
    let* t3 := index v_bbb 4 in
    let* t4 := index v_bbb 0 in
    let* t5 := index v_w 2 in
    let* t6 := store v_bbb 2 (wrapping_add 32 (wrapping_add 32 (wrapping_add 32 t1 (N.lxor (N.lxor t2 t3) t4)) t5) 0) in
    let v_bbb := t6 in
    let* t7 := index v_bbb 2 in
    let* t8 := index v_bbb 1 in
    let* t9 := store v_bbb 2 (wrapping_add 32 (rotate_left 32 13 t7) t8) in
    let v_bbb := t9 in
    let* t10 := index v_bbb 4 in
    let* t11 := store v_bbb 4 (rotate_left 32 10 t10) in
    let v_bbb := t11 in
    Ok v_bbb) in
  let* v_bbb := (
    let* t1 := index v_bbb 1 in
    let* t2 := index v_bbb 2 in
    let* t3 := index v_bbb 3 in
    let* t4 := index v_bbb 4 in
    let* t5 := index v_w 13 in
    let* t6 := store v_bbb 1 (wrapping_add 32 (wrapping_add 32 (wrapping_add 32 t1 (N.lxor (N.lxor t2 t3) t4)) t5) 0) in
    let v_bbb := t6 in
    let* t7 := index v_bbb 1 in
    let* t8 := index v_bbb 0 in
    let* t9 := store v_bbb 1 (wrapping_add 32 (rotate_left 32 6 t7) t8) in
    let v_bbb := t9 in
    let* t10 := index v_bbb 3 in
    let* t11 := store v_bbb 3 (rotate_left 32 10 t10) in
    let v_bbb := t11 in
    Ok v_bbb) in
  let* v_bbb := (
    let* t1 := index v_bbb 0 in
    let* t2 := index v_bbb 1 in
    let* t3 := index v_bbb 2 in
    let* t4 := index v_bbb 3 in
    let* t5 := index v_w 14 in
    let* t6 := store v_bbb 0 (wrapping_add 32 (wrapping_add 32 (wrapping_add 32 t1 (N.lxor (N.lxor t2 t3) t4)) t5) 0) in
    let v_bbb := t6 in
    let* t7 := index v_bbb 0 in
    let* t8 := index v_bbb 4 in
    let* t9 := store v_bbb 0 (wrapping_add 32 (rotate_left 32 5 t7) t8) in
    let v_bbb := t9 in
    let* t10 := index v_bbb 2 in
    let* t11 := store v_bbb 2 (rotate_left 32 10 t10) in
    let v_bbb := t11 in
    Ok v_bbb) in
  let* v_bbb := (
    let* t1 := index v_bbb 4 in
    let* t2 := index v_bbb 0 in
    let* t3 := index v_bbb 1 in
    let* t4 := index v_bbb 2 in
    let* t5 := index v_w 0 in
    let* t6 := store v_bbb 4 (wrapping_add 32 (wrapping_add 32 (wrapping_add 32 t1 (N.lxor (N.lxor t2 t3) t4)) t5) 0) in
    let v_bbb := t6 in
    let* t7 := index v_bbb 4 in
    let* t8 := index v_bbb 3 in
    let* t9 := store v_bbb 4 (wrapping_add 32 (rotate_left 32 15 t7) t8) in
    let v_bbb := t9 in
    let* t10 := index v_bbb 1 in
    let* t11 := store v_bbb 1 (rotate_left 32 10 t10) in
    let v_bbb := t11 in
    Ok v_bbb) in
  let* v_bbb := (
    let* t1 := index v_bbb 3 in
    let* t2 := index v_bbb 4 in
    let* t3 := index v_bbb 0 in
    let* t4 := index v_bbb 1 in
    let* t5 := index v_w 3 in
    let* t6 := store v_bbb 3 (wrapping_add 32 (wrapping_add 32 (wrapping_add 32 t1 (N.lxor (N.lxor t2 t3) t4)) t5) 0) in
    let v_bbb := t6 in
    let* t7 := index v_bbb 3 in
    let* t8 := index v_bbb 2 in
    let* t9 := store v_bbb 3 (wrapping_add 32 (rotate_left 32 13 t7) t8) in
    let v_bbb := t9 in
    let* t10 := index v_bbb 0 in
    let* t11 := store v_bbb 0 (rotate_left 32 10 t10) in
    let v_bbb := t11 in
    Ok v_bbb) in
  let* v_bbb := (
    let* t1 := index v_bbb 2 in
    let* t2 := index v_bbb 3 in
    let* t3 := index v_bbb 4 in
    let* t4 := index v_bbb 0 in
    let* t5 := index v_w 9 in
    let* t6 := store v_bbb 2 (wrapping_add 32 (wrapping_add 32 (wrapping_add 32 t1 (N.lxor (N.lxor t2 t3) t4)) t5) 0) in
    let v_bbb := t6 in
    let* t7 := index v_bbb 2 in
    let* t8 := index v_bbb 1 in
    let* t9 := store v_bbb 2 (wrapping_add 32 (rotate_left 32 11 t7) t8) in
    let v_bbb := t9 in
    let* t10 := index v_bbb 4 in
    let* t11 := store v_bbb 4 (rotate_left 32 10 t10) in
    let v_bbb := t11 in
    Ok v_bbb) in
  let* v_bbb := (
    let* t1 := index v_bbb 1 in
    let* t2 := index v_bbb 2 in
    let* t3 := index v_bbb 3 in
    let* t4 := index v_bbb 4 in
    let* t5 := index v_w 11 in
    let* t6 := store v_bbb 1 (wrapping_add 32 (wrapping_add 32 (wrapping_add 32 t1 (N.lxor (N.lxor t2 t3) t4)) t5) 0) in
    let v_bbb := t6 in
    let* t7 := index v_bbb 1 in
    let* t8 := index v_bbb 0 in
    let* t9 := store v_bbb 1 (wrapping_add 32 (rotate_left 32 11 t7) t8) in
    let v_bbb := t9 in
    let* t10 := index v_bbb 3 in
    let* t11 := store v_bbb 3 (rotate_left 32 10 t10) in
    let v_bbb := t11 in
    Ok v_bbb) in
  g_ripemd160_Engine_process_block_fast_part10 v_self v_bb v_bbb.

Definition g_ripemd160_Engine_process_block_fast_part8 v_self v_w v_bb v_bbb : res (engine) :=
  let* v_bbb := (
    let* t1 := index v_bbb 2 in
    let* t2 := index v_bbb 3 in
    let* t3 := index v_bbb 4 in
    let* t4 := index v_bbb 3 in
    let* t5 := index v_bbb 0 in
    let* t6 := index v_w 8 in
    let* t7 := store v_bbb 2 (wrapping_add 32 (wrapping_add 32 (wrapping_add 32 t1 (N.lor (N.land t2 t3) (N.land (bit_not 32 t4) t5))) t6) 0x7a6d76e9) in
    let v_bbb := t7 in
    let* t8 := index v_bbb 2 in
    let* t9 := index v_bbb 1 in
    let* t10 := store v_bbb 2 (wrapping_add 32 (rotate_left 32 15 t8) t9) in
    let v_bbb := t10 in
    let* t11 := index v_bbb 4 in
    let* t12 := store v_bbb 4 (rotate_left 32 10 t11) in
    let v_bbb := t12 in
    Ok v_bbb) in
  let* v_bbb := (
    let* t1 := index v_bbb 1 in
    let* t2 := index v_bbb 2 in
    let* t3 := index v_bbb 3 in
    let* t4 := index v_bbb 2 in
    let* t5 := index v_bbb 4 in
    let* t6 := index v_w 6 in
    let* t7 := store v_bbb 1 (wrapping_add 32 (wrapping_add 32 (wrapping_add 32 t1 (N.lor (N.land t2 t3) (N.land (bit_not 32 t4) t5))) t6) 0x7a6d76e9) in
    let v_bbb := t7 in
    let* t8 := index v_bbb 1 in
    let* t9 := index v_bbb 0 in
    let* t10 := store v_bbb 1 (wrapping_add 32 (rotate_left 32 5 t8) t9) in
    let v_bbb := t10 in
    let* t11 := index v_bbb 3 in
    let* t12 := store v_bbb 3 (rotate_left 32 10 t11) in
    let v_bbb := t12 in
    Ok v_bbb) in
  let* v_bbb := (
    let* t1 := index v_bbb 0 in
    let* t2 := index v_bbb 1 in
    let* t3 := index v_bbb 2 in
    let* t4 := index v_bbb 1 in
    let* t5 := index v_bbb 3 in
    let* t6 := index v_w 4 in
    let* t7 := store v_bbb 0 (wrapping_add 32 (wrapping_add 32 (wrapping_add 32 t1 (N.lor (N.land t2 t3) (N.land (bit_not 32 t4) t5))) t6) 0x7a6d76e9) in
    let v_bbb := t7 in
    let* t8 := index v_bbb 0 in
    let* t9 := index v_bbb 4 in
    let* t10 := store v_bbb 0 (wrapping_add 32 (rotate_left 32 8 t8) t9) in
    let v_bbb := t10 in
    let* t11 := index v_bbb 2 in
    let* t12 := store v_bbb 2 (rotate_left 32 10 t11) in
    let v_bbb := t12 in
    Ok v_bbb) in
  let* v_bbb := (
    let* t1 := index v_bbb 4 in
    let* t2 := index v_bbb 0 in
    let* t3 := index v_bbb 1 in
    let* t4 := index v_bbb 0 in
    let* t5 := index v_bbb 2 in
    let* t6 := index v_w 1 in
    let* t7 := store v_bbb 4 (wrapping_add 32 (wrapping_add 32 (wrapping_add 32 t1 (N.lor (N.land t2 t3) (N.land (bit_not 32 t4) t5))) t6) 0x7a6d76e9) in
    let v_bbb := t7 in
    let* t8 := index v_bbb 4 in
    let* t9 := index v_bbb 3 in
    let* t10 := store v_bbb 4 (wrapping_add 32 (rotate_left 32 11 t8) t9) in
    let v_bbb := t10 in
    let* t11 := index v_bbb 1 in
    let* t12 := store v_bbb 1 (rotate_left 32 10 t11) in
    let v_bbb := t12 in
    Ok v_bbb) in
  let* v_bbb := (
    let* t1 := index v_bbb 3 in
    let* t2 := index v_bbb 4 in
    let* t3 := index v_bbb 0 in
    let* t4 := index v_bbb 4 in
    let* t5 := index v_bbb 1 in
    let* t6 := index v_w 3 in
    let* t7 := store v_bbb 3 (wrapping_add 32 (wrapping_add 32 (wrapping_add 32 t1 (N.lor (N.land t2 t3) (N.land (bit_not 32 t4) t5))) t6) 0x7a6d76e9) in
    let v_bbb := t7 in
    let* t8 := index v_bbb 3 in
    let* t9 := index v_bbb 2 in
    let* t10 := store v_bbb 3 (wrapping_add 32 (rotate_left 32 14 t8) t9) in
    let v_bbb := t10 in
    let* t11 := index v_bbb 0 in
    let* t12 := store v_bbb 0 (rotate_left 32 10 t11) in
    let v_bbb := t12 in
    Ok v_bbb) in
  let* v_bbb := (
    let* t1 := index v_bbb 2 in
    let* t2 := index v_bbb 3 in
    let* t3 := index v_bbb 4 in
    let* t4 := index v_bbb 3 in
    let* t5 := index v_bbb 0 in
    let* t6 := index v_w 11 in
    let* t7 := store v_bbb 2 (wrapping_add 32 (wrapping_add 32 (wrapping_add 32 t1 (N.lor (N.land t2 t3) (N.land (bit_not 32 t4) t5))) t6) 0x7a6d76e9) in
    let v_bbb := t7 in
    let* t8 := index v_bbb 2 in
    let* t9 := index v_bbb 1 in
    let* t10 := store v_bbb 2 (wrapping_add 32 (rotate_left 32 14 t8) t9) in
    let v_bbb := t10 in
    let* t11 := index v_bbb 4 in
    let* t12 := store v_bbb 4 (rotate_left 32 10 t11) in
    let v_bbb := t12 in
    Ok v_bbb) in
  let* v_bbb := (
    let* t1 := index v_bbb 1 in
    let* t2 := index v_bbb 2 in
    let* t3 := index v_bbb 3 in
    let* t4 := index v_bbb 2 in
    let* t5 := index v_bbb 4 in
    let* t6 := index v_w 15 in
    let* t7 := store v_bbb 1 (wrapping_add 32 (wrapping_add 32 (wrapping_add 32 t1 (N.lor (N.land t2 t3) (N.land (bit_not 32 t4) t5))) t6) 0x7a6d76e9) in
    let v_bbb := t7 in
    let* t8 := index v_bbb 1 in
    let* t9 := index v_bbb 0 in
    let* t10 := store v_bbb 1 (wrapping_add 32 (rotate_left 32 6 t8) t9) in
    let v_bbb := t10 in
    let* t11 := index v_bbb 3 in
    let* t12 := store v_bbb 3 (rotate_left 32 10 t11) in
    let v_bbb := t12 in
    Ok v_bbb) in
  let* v_bbb := (
    let* t1 := index v_bbb 0 in
    let* t2 := index v_bbb 1 in
    let* t3 := index v_bbb 2 in
    let* t4 := index v_bbb 1 in
    let* t5 := index v_bbb 3 in
    let* t6 := index v_w 0 in
    let* t7 := store v_bbb 0 (wrapping_add 32 (wrapping_add 32 (wrapping_add 32 t1 (N.lor (N.land t2 t3) (N.land (bit_not 32 t4) t5))) t6) 0x7a6d76e9) in
    let v_bbb := t7 in
    let* t8 := index v_bbb 0 in
    let* t9 := index v_bbb 4 in
    let* t10 := store v_bbb 0 (wrapping_add 32 (rotate_left 32 14 t8) t9) in
    let v_bbb := t10 in
    let* t11 := index v_bbb 2 in
    let* t12 := store v_bbb 2 (rotate_left 32 10 t11) in
    let v_bbb := t12 in
    Ok v_bbb) in
  let* v_bbb := (
    let* t1 := index v_bbb 4 in
    let* t2 := index v_bbb 0 in
    let* t3 := index v_bbb 1 in
    let* t4 := index v_bbb 0 in
    let* t5 := index v_bbb 2 in
    let* t6 := index v_w 5 in
    let* t7 := store v_bbb 4 (wrapping_add 32 (wrapping_add 32 (wrapping_add 32 t1 (N.lor (N.land t2 t3) (N.land (bit_not 32 t4) t5))) t6) 0x7a6d76e9) in
    let v_bbb := t7 in
    let* t8 := index v_bbb 4 in
    let* t9 := index v_bbb 3 in
    let* t10 := store v_bbb 4 (wrapping_add 32 (rotate_left 32 6 t8) t9) in
    let v_bbb := t10 in
    let* t11 := index v_bbb 1 in
    let* t12 := store v_bbb 1 (rotate_left 32 10 t11) in
    let v_bbb := t12 in
    Ok v_bbb) in
  let* v_bbb := (
    let* t1 := index v_bbb 3 in
    let* t2 := index v_bbb 4 in
    let* t3 := index v_bbb 0 in
    let* t4 := index v_bbb 4 in
    let* t5 := index v_bbb 1 in
    let* t6 := index v_w 12 in
    let* t7 := store v_bbb 3 (wrapping_add 32 (wrapping_add 32 (wrapping_add 32 t1 (N.lor (N.land t2 t3) (N.land (bit_not 32 t4) t5))) t6) 0x7a6d76e9) in
    let v_bbb := t7 in
    let* t8 := index v_bbb 3 in
    let* t9 := index v_bbb 2 in
    let* t10 := store v_bbb 3 (wrapping_add 32 (rotate_left 32 9 t8) t9) in
    let v_bbb := t10 in
    let* t11 := index v_bbb 0 in
    let* t12 := store v_bbb 0 (rotate_left 32 10 t11) in
    let v_bbb := t12 in
    Ok v_bbb) in
  let* v_bbb := (
    let* t1 := index v_bbb 2 in
    let* t2 := index v_bbb 3 in
    let* t3 := index v_bbb 4 in
    let* t4 := index v_bbb 3 in
    let* t5 := index v_bbb 0 in
    let* t6 := index v_w 2 in
    let* t7 := store v_bbb 2 (wrapping_add 32 (wrapping_add 32 (wrapping_add 32 t1 (N.lor (N.land t2 t3) (N.land (bit_not 32 t4) t5))) t6) 0x7a6d76e9) in
    let v_bbb := t7 in
    let* t8 := index v_bbb 2 in
    let* t9 := index v_bbb 1 in
    let* t10 := store v_bbb 2 (wrapping_add 32 (rotate_left 32 12 t8) t9) in
    let v_bbb := t10 in
    let* t11 := index v_bbb 4 in
    let* t12 := store v_bbb 4 (rotate_left 32 10 t11) in
    let v_bbb := t12 in
    Ok v_bbb) in
  let* v_bbb := (
    let* t1 := index v_bbb 1 in
    let* t2 := index v_bbb 2 in
    let* t3 := index v_bbb 3 in
    let* t4 := index v_bbb 2 in
    let* t5 := index v_bbb 4 in
    let* t6 := index v_w 13 in
    let* t7 := store v_bbb 1 (wrapping_add 32 (wrapping_add 32 (wrapping_add 32 t1 (N.lor (N.land t2 t3) (N.land (bit_not 32 t4) t5))) t6) 0x7a6d76e9) in
    let v_bbb := t7 in
    let* t8 := index v_bbb 1 in
    let* t9 := index v_bbb 0 in
    let* t10 := store v_bbb 1 (wrapping_add 32 (rotate_left 32 9 t8) t9) in
    let v_bbb := t10 in
    let* t11 := index v_bbb 3 in
    let* t12 := store v_bbb 3 (rotate_left 32 10 t11) in
    let v_bbb := t12 in
    Ok v_bbb) in
  let* v_bbb := (
    let* t1 := index v_bbb 0 in
    let* t2 := index v_bbb 1 in
    let* t3 := index v_bbb 2 in
    let* t4 := index v_bbb 1 in
    let* t5 := index v_bbb 3 in
    let* t6 := index v_w 9 in
    let* t7 := store v_bbb 0 (wrapping_add 32 (wrapping_add 32 (wrapping_add 32 t1 (N.lor (N.land t2 t3) (N.land (bit_not 32 t4) t5))) t6) 0x7a6d76e9) in
    let v_bbb := t7 in
    let* t8 := index v_bbb 0 in
    let* t9 := index v_bbb 4 in
    let* t10 := store v_bbb 0 (wrapping_add 32 (rotate_left 32 12 t8) t9) in
    let v_bbb := t10 in
    let* t11 := index v_bbb 2 in
    let* t12 := store v_bbb 2 (rotate_left 32 10 t11) in
    let v_bbb := t12 in
    Ok v_bbb) in
  let* v_bbb := (
    let* t1 := index v_bbb 4 in
    let* t2 := index v_bbb 0 in
    let* t3 := index v_bbb 1 in
    let* t4 := index v_bbb 0 in
    let* t5 := index v_bbb 2 in
    let* t6 := index v_w 7 in
    let* t7 := store v_bbb 4 (wrapping_add 32 (wrapping_add 32 (wrapping_add 32 t1 (N.lor (N.land t2 t3) (N.land (bit_not 32 t4) t5))) t6) 0x7a6d76e9) in
    let v_bbb := t7 in
    let* t8 := index v_bbb 4 in
    let* t9 := index v_bbb 3 in
    let* t10 := store v_bbb 4 (wrapping_add 32 (rotate_left 32 5 t8) t9) in
    let v_bbb := t10 in
    let* t11 := index v_bbb 1 in
    let* t12 := store v_bbb 1 (rotate_left 32 10 t11) in
    let v_bbb := t12 in
    Ok v_bbb) in
  let* v_bbb := (
    let* t1 := index v_bbb 3 in
    let* t2 := index v_bbb 4 in
    let* t3 := index v_bbb 0 in
    let* t4 := index v_bbb 4 in
    let* t5 := index v_bbb 1 in
    let* t6 := index v_w 10 in
    let* t7 := store v_bbb 3 (wrapping_add 32 (wrapping_add 32 (wrapping_add 32 t1 (N.lor (N.land t2 t3) (N.land (bit_not 32 t4) t5))) t6) 0x7a6d76e9) in
    let v_bbb := t7 in
    let* t8 := index v_bbb 3 in
    let* t9 := index v_bbb 2 in
    let* t10 := store v_bbb 3 (wrapping_add 32 (rotate_left 32 15 t8) t9) in
    let v_bbb := t10 in
    let* t11 := index v_bbb 0 in
    let* t12 := store v_bbb 0 (rotate_left 32 10 t11) in
    let v_bbb := t12 in
    Ok v_bbb) in
  let* v_bbb := (
    let* t1 := index v_bbb 2 in
    let* t2 := index v_bbb 3 in
    let* t3 := index v_bbb 4 in
    let* t4 := index v_bbb 3 in
    let* t5 := index v_bbb 0 in
    let* t6 := index v_w 14 in
    let* t7 := store v_bbb 2 (wrapping_add 32 (wrapping_add 32 (wrapping_add 32 t1 (N.lor (N.land t2 t3) (N.land (bit_not 32 t4) t5))) t6) 0x7a6d76e9) in
    let v_bbb := t7 in
    let* t8 := index v_bbb 2 in
    let* t9 := index v_bbb 1 in
    let* t10 := store v_bbb 2 (wrapping_add 32 (rotate_left 32 8 t8) t9) in
    let v_bbb := t10 in
    let* t11 := index v_bbb 4 in
    let* t12 := store v_bbb 4 (rotate_left 32 10 t11) in
    let v_bbb := t12 in
    Ok v_bbb) in
  g_ripemd160_Engine_process_block_fast_part9 v_self v_w v_bb v_bbb.

Definition g_ripemd160_Engine_process_block_fast_part7 v_self v_w v_bb v_bbb : res (engine) :=
  let* v_bbb := (
    let* t1 := index v_bbb 3 in
    let* t2 := index v_bbb 4 in
    let* t3 := index v_bbb 0 in
    let* t4 := index v_bbb 1 in
    let* t5 := index v_w 15 in
    let* t6 := store v_bbb 3 (wrapping_add 32 (wrapping_add 32 (wrapping_add 32 t1 (N.lxor (N.lor t2 (bit_not 32 t3)) t4)) t5) 0x6d703ef3) in
    let v_bbb := t6 in
    let* t7 := index v_bbb 3 in
    let* t8 := index v_bbb 2 in
    let* t9 := store v_bbb 3 (wrapping_add 32 (rotate_left 32 9 t7) t8) in
    let v_bbb := t9 in
    let* t10 := index v_bbb 0 in
    let* t11 := store v_bbb 0 (rotate_left 32 10 t10) in
    let v_bbb := t11 in
    Ok v_bbb) in
  let* v_bbb := (
    let* t1 := index v_bbb 2 in
    let* t2 := index v_bbb 3 in
    let* t3 := index v_bbb 4 in
    let* t4 := index v_bbb 0 in
    let* t5 := index v_w 5 in
    let* t6 := store v_bbb 2 (wrapping_add 32 (wrapping_add 32 (wrapping_add 32 t1 (N.lxor (N.lor t2 (bit_not 32 t3)) t4)) t5) 0x6d703ef3) in
    let v_bbb := t6 in
    let* t7 := index v_bbb 2 in
    let* t8 := index v_bbb 1 in
    let* t9 := store v_bbb 2 (wrapping_add 32 (rotate_left 32 7 t7) t8) in
    let v_bbb := t9 in
    let* t10 := index v_bbb 4 in
    let* t11 := store v_bbb 4 (rotate_left 32 10 t10) in
    let v_bbb := t11 in
    Ok v_bbb) in
  let* v_bbb := (
    let* t1 := index v_bbb 1 in
    let* t2 := index v_bbb 2 in
    let* t3 := index v_bbb 3 in
    let* t4 := index v_bbb 4 in
    let* t5 := index v_w 1 in
    let* t6 := store v_bbb 1 (wrapping_add 32 (wrapping_add 32 (wrapping_add 32 t1 (N.lxor (N.lor t2 (bit_not 32 t3)) t4)) t5) 0x6d703ef3) in
    let v_bbb := t6 in
    let* t7 := index v_bbb 1 in
    let* t8 := index v_bbb 0 in
    let* t9 := store v_bbb 1 (wrapping_add 32 (rotate_left 32 15 t7) t8) in
    let v_bbb := t9 in
    let* t10 := index v_bbb 3 in
    let* t11 := store v_bbb 3 (rotate_left 32 10 t10) in
    let v_bbb := t11 in
    Ok v_bbb) in
  let* v_bbb := (
    let* t1 := index v_bbb 0 in
    let* t2 := index v_bbb 1 in
    let* t3 := index v_bbb 2 in
    let* t4 := index v_bbb 3 in
    let* t5 := index v_w 3 in
    let* t6 := store v_bbb 0 (wrapping_add 32 (wrapping_add 32 (wrapping_add 32 t1 (N.lxor (N.lor t2 (bit_not 32 t3)) t4)) t5) 0x6d703ef3) in
    let v_bbb := t6 in
    let* t7 := index v_bbb 0 in
    let* t8 := index v_bbb 4 in
    let* t9 := store v_bbb 0 (wrapping_add 32 (rotate_left 32 11 t7) t8) in
    let v_bbb := t9 in
    let* t10 := index v_bbb 2 in
    let* t11 := store v_bbb 2 (rotate_left 32 10 t10) in
    let v_bbb := t11 in
    Ok v_bbb) in
  let* v_bbb := (
    let* t1 := index v_bbb 4 in
    let* t2 := index v_bbb 0 in
    let* t3 := index v_bbb 1 in
    let* t4 := index v_bbb 2 in
    let* t5 := index v_w 7 in
    let* t6 := store v_bbb 4 (wrapping_add 32 (wrapping_add 32 (wrapping_add 32 t1 (N.lxor (N.lor t2 (bit_not 32 t3)) t4)) t5) 0x6d703ef3) in
    let v_bbb := t6 in
    let* t7 := index v_bbb 4 in
    let* t8 := index v_bbb 3 in
    let* t9 := store v_bbb 4 (wrapping_add 32 (rotate_left 32 8 t7) t8) in
    let v_bbb := t9 in
    let* t10 := index v_bbb 1 in
    let* t11 := store v_bbb 1 (rotate_left 32 10 t10) in
    let v_bbb := t11 in
    Ok v_bbb) in
  let* v_bbb := (
    let* t1 := index v_bbb 3 in
    let* t2 := index v_bbb 4 in
    let* t3 := index v_bbb 0 in
    let* t4 := index v_bbb 1 in
    let* t5 := index v_w 14 in
    let* t6 := store v_bbb 3 (wrapping_add 32 (wrapping_add 32 (wrapping_add 32 t1 (N.lxor (N.lor t2 (bit_not 32 t3)) t4)) t5) 0x6d703ef3) in
    let v_bbb := t6 in
    let* t7 := index v_bbb 3 in
    let* t8 := index v_bbb 2 in
    let* t9 := store v_bbb 3 (wrapping_add 32 (rotate_left 32 6 t7) t8) in
    let v_bbb := t9 in
    let* t10 := index v_bbb 0 in
    let* t11 := store v_bbb 0 (rotate_left 32 10 t10) in
    let v_bbb := t11 in
    Ok v_bbb) in
  let* v_bbb := (
    let* t1 := index v_bbb 2 in
    let* t2 := index v_bbb 3 in
    let* t3 := index v_bbb 4 in
    let* t4 := index v_bbb 0 in
    let* t5 := index v_w 6 in
    let* t6 := store v_bbb 2 (wrapping_add 32 (wrapping_add 32 (wrapping_add 32 t1 (N.lxor (N.lor t2 (bit_not 32 t3)) t4)) t5) 0x6d703ef3) in
    let v_bbb := t6 in
    let* t7 := index v_bbb 2 in
    let* t8 := index v_bbb 1 in
    let* t9 := store v_bbb 2 (wrapping_add 32 (rotate_left 32 6 t7) t8) in
    let v_bbb := t9 in
    let* t10 := index v_bbb 4 in
    let* t11 := store v_bbb 4 (rotate_left 32 10 t10) in
    let v_bbb := t11 in
    Ok v_bbb) in
  let* v_bbb := (
    let* t1 := index v_bbb 1 in
    let* t2 := index v_bbb 2 in
    let* t3 := index v_bbb 3 in
    let* t4 := index v_bbb 4 in
    let* t5 := index v_w 9 in
    let* t6 := store v_bbb 1 (wrapping_add 32 (wrapping_add 32 (wrapping_add 32 t1 (N.lxor (N.lor t2 (bit_not 32 t3)) t4)) t5) 0x6d703ef3) in
    let v_bbb := t6 in
    let* t7 := index v_bbb 1 in
    let* t8 := index v_bbb 0 in
    let* t9 := store v_bbb 1 (wrapping_add 32 (rotate_left 32 14 t7) t8) in
    let v_bbb := t9 in
    let* t10 := index v_bbb 3 in
    let* t11 := store v_bbb 3 (rotate_left 32 10 t10) in
    let v_bbb := t11 in
    Ok v_bbb) in
  let* v_bbb := (
    let* t1 := index v_bbb 0 in
    let* t2 := index v_bbb 1 in
    let* t3 := index v_bbb 2 in
    let* t4 := index v_bbb 3 in
    let* t5 := index v_w 11 in
    let* t6 := store v_bbb 0 (wrapping_add 32 (wrapping_add 32 (wrapping_add 32 t1 (N.lxor (N.lor t2 (bit_not 32 t3)) t4)) t5) 0x6d703ef3) in
    let v_bbb := t6 in
    let* t7 := index v_bbb 0 in
    let* t8 := index v_bbb 4 in
    let* t9 := store v_bbb 0 (wrapping_add 32 (rotate_left 32 12 t7) t8) in
    let v_bbb := t9 in
    let* t10 := index v_bbb 2 in
    let* t11 := store v_bbb 2 (rotate_left 32 10 t10) in
    let v_bbb := t11 in
    Ok v_bbb) in
  let* v_bbb := (
    let* t1 := index v_bbb 4 in
    let* t2 := index v_bbb 0 in
    let* t3 := index v_bbb 1 in
    let* t4 := index v_bbb 2 in
    let* t5 := index v_w 8 in
    let* t6 := store v_bbb 4 (wrapping_add 32 (wrapping_add 32 (wrapping_add 32 t1 (N.lxor (N.lor t2 (bit_not 32 t3)) t4)) t5) 0x6d703ef3) in
    let v_bbb := t6 in
    let* t7 := index v_bbb 4 in
    let* t8 := index v_bbb 3 in
    let* t9 := store v_bbb 4 (wrapping_add 32 (rotate_left 32 13 t7) t8) in
    let v_bbb := t9 in
    let* t10 := index v_bbb 1 in
    let* t11 := store v_bbb 1 (rotate_left 32 10 t10) in
    let v_bbb := t11 in
    Ok v_bbb) in
  let* v_bbb := (
    let* t1 := index v_bbb 3 in
    let* t2 := index v_bbb 4 in
    let* t3 := index v_bbb 0 in
    let* t4 := index v_bbb 1 in
    let* t5 := index v_w 12 in
    let* t6 := store v_bbb 3 (wrapping_add 32 (wrapping_add 32 (wrapping_add 32 t1 (N.lxor (N.lor t2 (bit_not 32 t3)) t4)) t5) 0x6d703ef3) in
    let v_bbb := t6 in
    let* t7 := index v_bbb 3 in
    let* t8 := index v_bbb 2 in
    let* t9 := store v_bbb 3 (wrapping_add 32 (rotate_left 32 5 t7) t8) in
    let v_bbb := t9 in
    let* t10 := index v_bbb 0 in
    let* t11 := store v_bbb 0 (rotate_left 32 10 t10) in
    let v_bbb := t11 in
    Ok v_bbb) in
  let* v_bbb := (
    let* t1 := index v_bbb 2 in
    let* t2 := index v_bbb 3 in
    let* t3 := index v_bbb 4 in
    let* t4 := index v_bbb 0 in
    let* t5 := index v_w 2 in
    let* t6 := store v_bbb 2 (wrapping_add 32 (wrapping_add 32 (wrapping_add 32 t1 (N.lxor (N.lor t2 (bit_not 32 t3)) t4)) t5) 0x6d703ef3) in
    let v_bbb := t6 in
    let* t7 := index v_bbb 2 in
    let* t8 := index v_bbb 1 in
    let* t9 := store v_bbb 2 (wrapping_add 32 (rotate_left 32 14 t7) t8) in
    let v_bbb := t9 in
    let* t10 := index v_bbb 4 in
    let* t11 := store v_bbb 4 (rotate_left 32 10 t10) in
    let v_bbb := t11 in
    Ok v_bbb) in
  let* v_bbb := (
    let* t1 := index v_bbb 1 in
    let* t2 := index v_bbb 2 in
    let* t3 := index v_bbb 3 in
    let* t4 := index v_bbb 4 in
    let* t5 := index v_w 10 in
    let* t6 := store v_bbb 1 (wrapping_add 32 (wrapping_add 32 (wrapping_add 32 t1 (N.lxor (N.lor t2 (bit_not 32 t3)) t4)) t5) 0x6d703ef3) in
    let v_bbb := t6 in
    let* t7 := index v_bbb 1 in
    let* t8 := index v_bbb 0 in
    let* t9 := store v_bbb 1 (wrapping_add 32 (rotate_left 32 13 t7) t8) in
    let v_bbb := t9 in
    let* t10 := index v_bbb 3 in
    let* t11 := store v_bbb 3 (rotate_left 32 10 t10) in
    let v_bbb := t11 in
    Ok v_bbb) in
  let* v_bbb := (
    let* t1 := index v_bbb 0 in
    let* t2 := index v_bbb 1 in
    let* t3 := index v_bbb 2 in
    let* t4 := index v_bbb 3 in
    let* t5 := index v_w 0 in
    let* t6 := store v_bbb 0 (wrapping_add 32 (wrapping_add 32 (wrapping_add 32 t1 (N.lxor (N.lor t2 (bit_not 32 t3)) t4)) t5) 0x6d703ef3) in
    let v_bbb := t6 in
    let* t7 := index v_bbb 0 in
    let* t8 := index v_bbb 4 in
    let* t9 := store v_bbb 0 (wrapping_add 32 (rotate_left 32 13 t7) t8) in
    let v_bbb := t9 in
    let* t10 := index v_bbb 2 in
    let* t11 := store v_bbb 2 (rotate_left 32 10 t10) in
    let v_bbb := t11 in
    Ok v_bbb) in
  let* v_bbb := (
    let* t1 := index v_bbb 4 in
    let* t2 := index v_bbb 0 in
    let* t3 := index v_bbb 1 in
    let* t4 := index v_bbb 2 in
    let* t5 := index v_w 4 in
    let* t6 := store v_bbb 4 (wrapping_add 32 (wrapping_add 32 (wrapping_add 32 t1 (N.lxor (N.lor t2 (bit_not 32 t3)) t4)) t5) 0x6d703ef3) in
    let v_bbb := t6 in
    let* t7 := index v_bbb 4 in
    let* t8 := index v_bbb 3 in
    let* t9 := store v_bbb 4 (wrapping_add 32 (rotate_left 32 7 t7) t8) in
    let v_bbb := t9 in
    let* t10 := index v_bbb 1 in
    let* t11 := store v_bbb 1 (rotate_left 32 10 t10) in
    let v_bbb := t11 in
    Ok v_bbb) in
  let* v_bbb := (
    let* t1 := index v_bbb 3 in
    let* t2 := index v_bbb 4 in
    let* t3 := index v_bbb 0 in
    let* t4 := index v_bbb 1 in
    let* t5 := index v_w 13 in
    let* t6 := store v_bbb 3 (wrapping_add 32 (wrapping_add 32 (wrapping_add 32 t1 (N.lxor (N.lor t2 (bit_not 32 t3)) t4)) t5) 0x6d703ef3) in
    let v_bbb := t6 in
    let* t7 := index v_bbb 3 in
    let* t8 := index v_bbb 2 in
    let* t9 := store v_bbb 3 (wrapping_add 32 (rotate_left 32 5 t7) t8) in
    let v_bbb := t9 in
    let* t10 := index v_bbb 0 in
    let* t11 := store v_bbb 0 (rotate_left 32 10 t10) in
    let v_bbb := t11 in
    Ok v_bbb) in
  g_ripemd160_Engine_process_block_fast_part8 v_self v_w v_bb v_bbb.

Definition g_ripemd160_Engine_process_block_fast_part6 v_self v_w v_bb v_bbb : res (engine) :=
  let* v_bbb := (
    let* t1 := index v_bbb 4 in
    let* t2 := index v_bbb 0 in
    let* t3 := index v_bbb 2 in
    let* t4 := index v_bbb 1 in
    let* t5 := index v_bbb 2 in
    let* t6 := index v_w 6 in
    let* t7 := store v_bbb 4 (wrapping_add 32 (wrapping_add 32 (wrapping_add 32 t1 (N.lor (N.land t2 t3) (N.land t4 (bit_not 32 t5)))) t6) 0x5c4dd124) in
    let v_bbb := t7 in
    let* t8 := index v_bbb 4 in
    let* t9 := index v_bbb 3 in
    let* t10 := store v_bbb 4 (wrapping_add 32 (rotate_left 32 9 t8) t9) in
    let v_bbb := t10 in
    let* t11 := index v_bbb 1 in
    let* t12 := store v_bbb 1 (rotate_left 32 10 t11) in
    let v_bbb := t12 in
    Ok v_bbb) in
  let* v_bbb := (
    let* t1 := index v_bbb 3 in
    let* t2 := index v_bbb 4 in
    let* t3 := index v_bbb 1 in
    let* t4 := index v_bbb 0 in
    let* t5 := index v_bbb 1 in
    let* t6 := index v_w 11 in
    let* t7 := store v_bbb 3 (wrapping_add 32 (wrapping_add 32 (wrapping_add 32 t1 (N.lor (N.land t2 t3) (N.land t4 (bit_not 32 t5)))) t6) 0x5c4dd124) in
    let v_bbb := t7 in
    let* t8 := index v_bbb 3 in
    let* t9 := index v_bbb 2 in
    let* t10 := store v_bbb 3 (wrapping_add 32 (rotate_left 32 13 t8) t9) in
    let v_bbb := t10 in
    let* t11 := index v_bbb 0 in
    let* t12 := store v_bbb 0 (rotate_left 32 10 t11) in
    let v_bbb := t12 in
    Ok v_bbb) in
  let* v_bbb := (
    let* t1 := index v_bbb 2 in
    let* t2 := index v_bbb 3 in
    let* t3 := index v_bbb 0 in
    let* t4 := index v_bbb 4 in
    let* t5 := index v_bbb 0 in
    let* t6 := index v_w 3 in
    let* t7 := store v_bbb 2 (wrapping_add 32 (wrapping_add 32 (wrapping_add 32 t1 (N.lor (N.land t2 t3) (N.land t4 (bit_not 32 t5)))) t6) 0x5c4dd124) in
    let v_bbb := t7 in
    let* t8 := index v_bbb 2 in
    let* t9 := index v_bbb 1 in
    let* t10 := store v_bbb 2 (wrapping_add 32 (rotate_left 32 15 t8) t9) in
    let v_bbb := t10 in
    let* t11 := index v_bbb 4 in
    let* t12 := store v_bbb 4 (rotate_left 32 10 t11) in
    let v_bbb := t12 in
    Ok v_bbb) in
  let* v_bbb := (
    let* t1 := index v_bbb 1 in
    let* t2 := index v_bbb 2 in
    let* t3 := index v_bbb 4 in
    let* t4 := index v_bbb 3 in
    let* t5 := index v_bbb 4 in
    let* t6 := index v_w 7 in
    let* t7 := store v_bbb 1 (wrapping_add 32 (wrapping_add 32 (wrapping_add 32 t1 (N.lor (N.land t2 t3) (N.land t4 (bit_not 32 t5)))) t6) 0x5c4dd124) in
    let v_bbb := t7 in
    let* t8 := index v_bbb 1 in
    let* t9 := index v_bbb 0 in
    let* t10 := store v_bbb 1 (wrapping_add 32 (rotate_left 32 7 t8) t9) in
    let v_bbb := t10 in
    let* t11 := index v_bbb 3 in
    let* t12 := store v_bbb 3 (rotate_left 32 10 t11) in
    let v_bbb := t12 in
    Ok v_bbb) in
  let* v_bbb := (
    let* t1 := index v_bbb 0 in
    let* t2 := index v_bbb 1 in
    let* t3 := index v_bbb 3 in
    let* t4 := index v_bbb 2 in
    let* t5 := index v_bbb 3 in
    let* t6 := index v_w 0 in
    let* t7 := store v_bbb 0 (wrapping_add 32 (wrapping_add 32 (wrapping_add 32 t1 (N.lor (N.land t2 t3) (N.land t4 (bit_not 32 t5)))) t6) 0x5c4dd124) in
    let v_bbb := t7 in
    let* t8 := index v_bbb 0 in
    let* t9 := index v_bbb 4 in
    let* t10 := store v_bbb 0 (wrapping_add 32 (rotate_left 32 12 t8) t9) in
    let v_bbb := t10 in
    let* t11 := index v_bbb 2 in
    let* t12 := store v_bbb 2 (rotate_left 32 10 t11) in
    let v_bbb := t12 in
    Ok v_bbb) in
  let* v_bbb := (
    let* t1 := index v_bbb 4 in
    let* t2 := index v_bbb 0 in
    let* t3 := index v_bbb 2 in
    let* t4 := index v_bbb 1 in
    let* t5 := index v_bbb 2 in
    let* t6 := index v_w 13 in
    let* t7 := store v_bbb 4 (wrapping_add 32 (wrapping_add 32 (wrapping_add 32 t1 (N.lor (N.land t2 t3) (N.land t4 (bit_not 32 t5)))) t6) 0x5c4dd124) in
    let v_bbb := t7 in
    let* t8 := index v_bbb 4 in
    let* t9 := index v_bbb 3 in
    let* t10 := store v_bbb 4 (wrapping_add 32 (rotate_left 32 8 t8) t9) in
    let v_bbb := t10 in
    let* t11 := index v_bbb 1 in
    let* t12 := store v_bbb 1 (rotate_left 32 10 t11) in
    let v_bbb := t12 in
    Ok v_bbb) in
  let* v_bbb := (
    let* t1 := index v_bbb 3 in
    let* t2 := index v_bbb 4 in
    let* t3 := index v_bbb 1 in
    let* t4 := index v_bbb 0 in
    let* t5 := index v_bbb 1 in
    let* t6 := index v_w 5 in
    let* t7 := store v_bbb 3 (wrapping_add 32 (wrapping_add 32 (wrapping_add 32 t1 (N.lor (N.land t2 t3) (N.land t4 (bit_not 32 t5)))) t6) 0x5c4dd124) in
    let v_bbb := t7 in
    let* t8 := index v_bbb 3 in
    let* t9 := index v_bbb 2 in
    let* t10 := store v_bbb 3 (wrapping_add 32 (rotate_left 32 9 t8) t9) in
    let v_bbb := t10 in
    let* t11 := index v_bbb 0 in
    let* t12 := store v_bbb 0 (rotate_left 32 10 t11) in
    let v_bbb := t12 in
    Ok v_bbb) in
  let* v_bbb := (
    let* t1 := index v_bbb 2 in
    let* t2 := index v_bbb 3 in
    let* t3 := index v_bbb 0 in
    let* t4 := index v_bbb 4 in
    let* t5 := index v_bbb 0 in
    let* t6 := index v_w 10 in
    let* t7 := store v_bbb 2 (wrapping_add 32 (wrapping_add 32 (wrapping_add 32 t1 (N.lor (N.land t2 t3) (N.land t4 (bit_not 32 t5)))) t6) 0x5c4dd124) in
    let v_bbb := t7 in
    let* t8 := index v_bbb 2 in
    let* t9 := index v_bbb 1 in
    let* t10 := store v_bbb 2 (wrapping_add 32 (rotate_left 32 11 t8) t9) in
    let v_bbb := t10 in
    let* t11 := index v_bbb 4 in
    let* t12 := store v_bbb 4 (rotate_left 32 10 t11) in
    let v_bbb := t12 in
    Ok v_bbb) in
  let* v_bbb := (
    let* t1 := index v_bbb 1 in
    let* t2 := index v_bbb 2 in
    let* t3 := index v_bbb 4 in
    let* t4 := index v_bbb 3 in
    let* t5 := index v_bbb 4 in
    let* t6 := index v_w 14 in
    let* t7 := store v_bbb 1 (wrapping_add 32 (wrapping_add 32 (wrapping_add 32 t1 (N.lor (N.land t2 t3) (N.land t4 (bit_not 32 t5)))) t6) 0x5c4dd124) in
    let v_bbb := t7 in
    let* t8 := index v_bbb 1 in
    let* t9 := index v_bbb 0 in
    let* t10 := store v_bbb 1 (wrapping_add 32 (rotate_left 32 7 t8) t9) in
    let v_bbb := t10 in
    let* t11 := index v_bbb 3 in
    let* t12 := store v_bbb 3 (rotate_left 32 10 t11) in
    let v_bbb := t12 in
    Ok v_bbb) in
  let* v_bbb := (
    let* t1 := index v_bbb 0 in
    let* t2 := index v_bbb 1 in
    let* t3 := index v_bbb 3 in
    let* t4 := index v_bbb 2 in
    let* t5 := index v_bbb 3 in
    let* t6 := index v_w 15 in
    let* t7 := store v_bbb 0 (wrapping_add 32 (wrapping_add 32 (wrapping_add 32 t1 (N.lor (N.land t2 t3) (N.land t4 (bit_not 32 t5)))) t6) 0x5c4dd124) in
    let v_bbb := t7 in
    let* t8 := index v_bbb 0 in
    let* t9 := index v_bbb 4 in
    let* t10 := store v_bbb 0 (wrapping_add 32 (rotate_left 32 7 t8) t9) in
    let v_bbb := t10 in
    let* t11 := index v_bbb 2 in
    let* t12 := store v_bbb 2 (rotate_left 32 10 t11) in
    let v_bbb := t12 in
    Ok v_bbb) in
  let* v_bbb := (
    let* t1 := index v_bbb 4 in
    let* t2 := index v_bbb 0 in
    let* t3 := index v_bbb 2 in
    let* t4 := index v_bbb 1 in
    let* t5 := index v_bbb 2 in
    let* t6 := index v_w 8 in
    let* t7 := store v_bbb 4 (wrapping_add 32 (wrapping_add 32 (wrapping_add 32 t1 (N.lor (N.land t2 t3) (N.land t4 (bit_not 32 t5)))) t6) 0x5c4dd124) in
    let v_bbb := t7 in
    let* t8 := index v_bbb 4 in
    let* t9 := index v_bbb 3 in
    let* t10 := store v_bbb 4 (wrapping_add 32 (rotate_left 32 12 t8) t9) in
    let v_bbb := t10 in
    let* t11 := index v_bbb 1 in
    let* t12 := store v_bbb 1 (rotate_left 32 10 t11) in
    let v_bbb := t12 in
    Ok v_bbb) in
  let* v_bbb := (
    let* t1 := index v_bbb 3 in
    let* t2 := index v_bbb 4 in
    let* t3 := index v_bbb 1 in
    let* t4 := index v_bbb 0 in
    let* t5 := index v_bbb 1 in
    let* t6 := index v_w 12 in
    let* t7 := store v_bbb 3 (wrapping_add 32 (wrapping_add 32 (wrapping_add 32 t1 (N.lor (N.land t2 t3) (N.land t4 (bit_not 32 t5)))) t6) 0x5c4dd124) in
    let v_bbb := t7 in
    let* t8 := index v_bbb 3 in
    let* t9 := index v_bbb 2 in
    let* t10 := store v_bbb 3 (wrapping_add 32 (rotate_left 32 7 t8) t9) in
    let v_bbb := t10 in
    let* t11 := index v_bbb 0 in
    let* t12 := store v_bbb 0 (rotate_left 32 10 t11) in
    let v_bbb := t12 in
    Ok v_bbb) in
  let* v_bbb := (
    let* t1 := index v_bbb 2 in
    let* t2 := index v_bbb 3 in
    let* t3 := index v_bbb 0 in
    let* t4 := index v_bbb 4 in
    let* t5 := index v_bbb 0 in
    let* t6 := index v_w 4 in
    let* t7 := store v_bbb 2 (wrapping_add 32 (wrapping_add 32 (wrapping_add 32 t1 (N.lor (N.land t2 t3) (N.land t4 (bit_not 32 t5)))) t6) 0x5c4dd124) in
    let v_bbb := t7 in
    let* t8 := index v_bbb 2 in
    let* t9 := index v_bbb 1 in
    let* t10 := store v_bbb 2 (wrapping_add 32 (rotate_left 32 6 t8) t9) in
    let v_bbb := t10 in
    let* t11 := index v_bbb 4 in
    let* t12 := store v_bbb 4 (rotate_left 32 10 t11) in
    let v_bbb := t12 in
    Ok v_bbb) in
  let* v_bbb := (
    let* t1 := index v_bbb 1 in
    let* t2 := index v_bbb 2 in
    let* t3 := index v_bbb 4 in
    let* t4 := index v_bbb 3 in
    let* t5 := index v_bbb 4 in
    let* t6 := index v_w 9 in
    let* t7 := store v_bbb 1 (wrapping_add 32 (wrapping_add 32 (wrapping_add 32 t1 (N.lor (N.land t2 t3) (N.land t4 (bit_not 32 t5)))) t6) 0x5c4dd124) in
    let v_bbb := t7 in
    let* t8 := index v_bbb 1 in
    let* t9 := index v_bbb 0 in
    let* t10 := store v_bbb 1 (wrapping_add 32 (rotate_left 32 15 t8) t9) in
    let v_bbb := t10 in
    let* t11 := index v_bbb 3 in
    let* t12 := store v_bbb 3 (rotate_left 32 10 t11) in
    let v_bbb := t12 in
    Ok v_bbb) in
  let* v_bbb := (
    let* t1 := index v_bbb 0 in
    let* t2 := index v_bbb 1 in
    let* t3 := index v_bbb 3 in
    let* t4 := index v_bbb 2 in
    let* t5 := index v_bbb 3 in
    let* t6 := index v_w 1 in
    let* t7 := store v_bbb 0 (wrapping_add 32 (wrapping_add 32 (wrapping_add 32 t1 (N.lor (N.land t2 t3) (N.land t4 (bit_not 32 t5)))) t6) 0x5c4dd124) in
    let v_bbb := t7 in
    let* t8 := index v_bbb 0 in
    let* t9 := index v_bbb 4 in
    let* t10 := store v_bbb 0 (wrapping_add 32 (rotate_left 32 13 t8) t9) in
    let v_bbb := t10 in
    let* t11 := index v_bbb 2 in
    let* t12 := store v_bbb 2 (rotate_left 32 10 t11) in
    let v_bbb := t12 in
    Ok v_bbb) in
  let* v_bbb := (
    let* t1 := index v_bbb 4 in
    let* t2 := index v_bbb 0 in
    let* t3 := index v_bbb 2 in
    let* t4 := index v_bbb 1 in
    let* t5 := index v_bbb 2 in
    let* t6 := index v_w 2 in
    let* t7 := store v_bbb 4 (wrapping_add 32 (wrapping_add 32 (wrapping_add 32 t1 (N.lor (N.land t2 t3) (N.land t4 (bit_not 32 t5)))) t6) 0x5c4dd124) in
    let v_bbb := t7 in
    let* t8 := index v_bbb 4 in
    let* t9 := index v_bbb 3 in
    let* t10 := store v_bbb 4 (wrapping_add 32 (rotate_left 32 11 t8) t9) in
    let v_bbb := t10 in
    let* t11 := index v_bbb 1 in
    let* t12 := store v_bbb 1 (rotate_left 32 10 t11) in
    let v_bbb := t12 in
    Ok v_bbb) in
  g_ripemd160_Engine_process_block_fast_part7 v_self v_w v_bb v_bbb.

Definition g_ripemd160_Engine_process_block_fast_part5 v_self v_w v_bb v_bbb : res (engine) :=
  let* v_bbb := (
    let* t1 := index v_bbb 0 in
    let* t2 := index v_bbb 1 in
    let* t3 := index v_bbb 2 in
    let* t4 := index v_bbb 3 in
    let* t5 := index v_w 5 in
    let* t6 := store v_bbb 0 (wrapping_add 32 (wrapping_add 32 (wrapping_add 32 t1 (N.lxor t2 (N.lor t3 (bit_not 32 t4)))) t5) 0x50a28be6) in
    let v_bbb := t6 in
    let* t7 := index v_bbb 0 in
    let* t8 := index v_bbb 4 in
    let* t9 := store v_bbb 0 (wrapping_add 32 (rotate_left 32 8 t7) t8) in
    let v_bbb := t9 in
    let* t10 := index v_bbb 2 in
    let* t11 := store v_bbb 2 (rotate_left 32 10 t10) in
    let v_bbb := t11 in
    Ok v_bbb) in
  let* v_bbb := (
    let* t1 := index v_bbb 4 in
    let* t2 := index v_bbb 0 in
    let* t3 := index v_bbb 1 in
    let* t4 := index v_bbb 2 in
    let* t5 := index v_w 14 in
    let* t6 := store v_bbb 4 (wrapping_add 32 (wrapping_add 32 (wrapping_add 32 t1 (N.lxor t2 (N.lor t3 (bit_not 32 t4)))) t5) 0x50a28be6) in
    let v_bbb := t6 in
    let* t7 := index v_bbb 4 in
    let* t8 := index v_bbb 3 in
    let* t9 := store v_bbb 4 (wrapping_add 32 (rotate_left 32 9 t7) t8) in
    let v_bbb := t9 in
    let* t10 := index v_bbb 1 in
    let* t11 := store v_bbb 1 (rotate_left 32 10 t10) in
    let v_bbb := t11 in
    Ok v_bbb) in
  let* v_bbb := (
    let* t1 := index v_bbb 3 in
    let* t2 := index v_bbb 4 in
    let* t3 := index v_bbb 0 in
    let* t4 := index v_bbb 1 in
    let* t5 := index v_w 7 in
    let* t6 := store v_bbb 3 (wrapping_add 32 (wrapping_add 32 (wrapping_add 32 t1 (N.lxor t2 (N.lor t3 (bit_not 32 t4)))) t5) 0x50a28be6) in
    let v_bbb := t6 in
    let* t7 := index v_bbb 3 in
    let* t8 := index v_bbb 2 in
    let* t9 := store v_bbb 3 (wrapping_add 32 (rotate_left 32 9 t7) t8) in
    let v_bbb := t9 in
    let* t10 := index v_bbb 0 in
    let* t11 := store v_bbb 0 (rotate_left 32 10 t10) in
    let v_bbb := t11 in
    Ok v_bbb) in
  let* v_bbb := (
    let* t1 := index v_bbb 2 in
    let* t2 := index v_bbb 3 in
    let* t3 := index v_bbb 4 in
    let* t4 := index v_bbb 0 in
    let* t5 := index v_w 0 in
    let* t6 := store v_bbb 2 (wrapping_add 32 (wrapping_add 32 (wrapping_add 32 t1 (N.lxor t2 (N.lor t3 (bit_not 32 t4)))) t5) 0x50a28be6) in
    let v_bbb := t6 in
    let* t7 := index v_bbb 2 in
    let* t8 := index v_bbb 1 in
    let* t9 := store v_bbb 2 (wrapping_add 32 (rotate_left 32 11 t7) t8) in
    let v_bbb := t9 in
    let* t10 := index v_bbb 4 in
    let* t11 := store v_bbb 4 (rotate_left 32 10 t10) in
    let v_bbb := t11 in
    Ok v_bbb) in
  let* v_bbb := (
    let* t1 := index v_bbb 1 in
    let* t2 := index v_bbb 2 in
    let* t3 := index v_bbb 3 in
    let* t4 := index v_bbb 4 in
    let* t5 := index v_w 9 in
    let* t6 := store v_bbb 1 (wrapping_add 32 (wrapping_add 32 (wrapping_add 32 t1 (N.lxor t2 (N.lor t3 (bit_not 32 t4)))) t5) 0x50a28be6) in
    let v_bbb := t6 in
    let* t7 := index v_bbb 1 in
    let* t8 := index v_bbb 0 in
    let* t9 := store v_bbb 1 (wrapping_add 32 (rotate_left 32 13 t7) t8) in
    let v_bbb := t9 in
    let* t10 := index v_bbb 3 in
    let* t11 := store v_bbb 3 (rotate_left 32 10 t10) in
    let v_bbb := t11 in
    Ok v_bbb) in
  let* v_bbb := (
    let* t1 := index v_bbb 0 in
    let* t2 := index v_bbb 1 in
    let* t3 := index v_bbb 2 in
    let* t4 := index v_bbb 3 in
    let* t5 := index v_w 2 in
    let* t6 := store v_bbb 0 (wrapping_add 32 (wrapping_add 32 (wrapping_add 32 t1 (N.lxor t2 (N.lor t3 (bit_not 32 t4)))) t5) 0x50a28be6) in
    let v_bbb := t6 in
    let* t7 := index v_bbb 0 in
    let* t8 := index v_bbb 4 in
    let* t9 := store v_bbb 0 (wrapping_add 32 (rotate_left 32 15 t7) t8) in
    let v_bbb := t9 in
    let* t10 := index v_bbb 2 in
    let* t11 := store v_bbb 2 (rotate_left 32 10 t10) in
    let v_bbb := t11 in
    Ok v_bbb) in
  let* v_bbb := (
    let* t1 := index v_bbb 4 in
    let* t2 := index v_bbb 0 in
    let* t3 := index v_bbb 1 in
    let* t4 := index v_bbb 2 in
    let* t5 := index v_w 11 in
    let* t6 := store v_bbb 4 (wrapping_add 32 (wrapping_add 32 (wrapping_add 32 t1 (N.lxor t2 (N.lor t3 (bit_not 32 t4)))) t5) 0x50a28be6) in
    let v_bbb := t6 in
    let* t7 := index v_bbb 4 in
    let* t8 := index v_bbb 3 in
    let* t9 := store v_bbb 4 (wrapping_add 32 (rotate_left 32 15 t7) t8) in
    let v_bbb := t9 in
    let* t10 := index v_bbb 1 in
    let* t11 := store v_bbb 1 (rotate_left 32 10 t10) in
    let v_bbb := t11 in
    Ok v_bbb) in
  let* v_bbb := (
    let* t1 := index v_bbb 3 in
    let* t2 := index v_bbb 4 in
    let* t3 := index v_bbb 0 in
    let* t4 := index v_bbb 1 in
    let* t5 := index v_w 4 in
    let* t6 := store v_bbb 3 (wrapping_add 32 (wrapping_add 32 (wrapping_add 32 t1 (N.lxor t2 (N.lor t3 (bit_not 32 t4)))) t5) 0x50a28be6) in
    let v_bbb := t6 in
    let* t7 := index v_bbb 3 in
    let* t8 := index v_bbb 2 in
    let* t9 := store v_bbb 3 (wrapping_add 32 (rotate_left 32 5 t7) t8) in
    let v_bbb := t9 in
    let* t10 := index v_bbb 0 in
    let* t11 := store v_bbb 0 (rotate_left 32 10 t10) in
    let v_bbb := t11 in
    Ok v_bbb) in
  let* v_bbb := (
    let* t1 := index v_bbb 2 in
    let* t2 := index v_bbb 3 in
    let* t3 := index v_bbb 4 in
    let* t4 := index v_bbb 0 in
    let* t5 := index v_w 13 in
    let* t6 := store v_bbb 2 (wrapping_add 32 (wrapping_add 32 (wrapping_add 32 t1 (N.lxor t2 (N.lor t3 (bit_not 32 t4)))) t5) 0x50a28be6) in
    let v_bbb := t6 in
    let* t7 := index v_bbb 2 in
    let* t8 := index v_bbb 1 in
    let* t9 := store v_bbb 2 (wrapping_add 32 (rotate_left 32 7 t7) t8) in
    let v_bbb := t9 in
    let* t10 := index v_bbb 4 in
    let* t11 := store v_bbb 4 (rotate_left 32 10 t10) in
    let v_bbb := t11 in
    Ok v_bbb) in
  let* v_bbb := (
    let* t1 := index v_bbb 1 in
    let* t2 := index v_bbb 2 in
    let* t3 := index v_bbb 3 in
    let* t4 := index v_bbb 4 in
    let* t5 := index v_w 6 in
    let* t6 := store v_bbb 1 (wrapping_add 32 (wrapping_add 32 (wrapping_add 32 t1 (N.lxor t2 (N.lor t3 (bit_not 32 t4)))) t5) 0x50a28be6) in
    let v_bbb := t6 in
    let* t7 := index v_bbb 1 in
    let* t8 := index v_bbb 0 in
    let* t9 := store v_bbb 1 (wrapping_add 32 (rotate_left 32 7 t7) t8) in
    let v_bbb := t9 in
    let* t10 := index v_bbb 3 in
    let* t11 := store v_bbb 3 (rotate_left 32 10 t10) in
    let v_bbb := t11 in
    Ok v_bbb) in
  let* v_bbb := (
    let* t1 := index v_bbb 0 in
    let* t2 := index v_bbb 1 in
    let* t3 := index v_bbb 2 in
    let* t4 := index v_bbb 3 in
    let* t5 := index v_w 15 in
    let* t6 := store v_bbb 0 (wrapping_add 32 (wrapping_add 32 (wrapping_add 32 t1 (N.lxor t2 (N.lor t3 (bit_not 32 t4)))) t5) 0x50a28be6) in
    let v_bbb := t6 in
    let* t7 := index v_bbb 0 in
    let* t8 := index v_bbb 4 in
    let* t9 := store v_bbb 0 (wrapping_add 32 (rotate_left 32 8 t7) t8) in
    let v_bbb := t9 in
    let* t10 := index v_bbb 2 in
    let* t11 := store v_bbb 2 (rotate_left 32 10 t10) in
    let v_bbb := t11 in
    Ok v_bbb) in
  let* v_bbb := (
    let* t1 := index v_bbb 4 in
    let* t2 := index v_bbb 0 in
    let* t3 := index v_bbb 1 in
    let* t4 := index v_bbb 2 in
    let* t5 := index v_w 8 in
    let* t6 := store v_bbb 4 (wrapping_add 32 (wrapping_add 32 (wrapping_add 32 t1 (N.lxor t2 (N.lor t3 (bit_not 32 t4)))) t5) 0x50a28be6) in
    let v_bbb := t6 in
    let* t7 := index v_bbb 4 in
    let* t8 := index v_bbb 3 in
    let* t9 := store v_bbb 4 (wrapping_add 32 (rotate_left 32 11 t7) t8) in
    let v_bbb := t9 in
    let* t10 := index v_bbb 1 in
    let* t11 := store v_bbb 1 (rotate_left 32 10 t10) in
    let v_bbb := t11 in
    Ok v_bbb) in
  let* v_bbb := (
    let* t1 := index v_bbb 3 in
    let* t2 := index v_bbb 4 in
    let* t3 := index v_bbb 0 in
    let* t4 := index v_bbb 1 in
    let* t5 := index v_w 1 in
    let* t6 := store v_bbb 3 (wrapping_add 32 (wrapping_add 32 (wrapping_add 32 t1 (N.lxor t2 (N.lor t3 (bit_not 32 t4)))) t5) 0x50a28be6) in
    let v_bbb := t6 in
    let* t7 := index v_bbb 3 in
    let* t8 := index v_bbb 2 in
    let* t9 := store v_bbb 3 (wrapping_add 32 (rotate_left 32 14 t7) t8) in
    let v_bbb := t9 in
    let* t10 := index v_bbb 0 in
    let* t11 := store v_bbb 0 (rotate_left 32 10 t10) in
    let v_bbb := t11 in
    Ok v_bbb) in
  let* v_bbb := (
    let* t1 := index v_bbb 2 in
    let* t2 := index v_bbb 3 in
    let* t3 := index v_bbb 4 in
    let* t4 := index v_bbb 0 in
    let* t5 := index v_w 10 in
    let* t6 := store v_bbb 2 (wrapping_add 32 (wrapping_add 32 (wrapping_add 32 t1 (N.lxor t2 (N.lor t3 (bit_not 32 t4)))) t5) 0x50a28be6) in
    let v_bbb := t6 in
    let* t7 := index v_bbb 2 in
    let* t8 := index v_bbb 1 in
    let* t9 := store v_bbb 2 (wrapping_add 32 (rotate_left 32 14 t7) t8) in
    let v_bbb := t9 in
    let* t10 := index v_bbb 4 in
    let* t11 := store v_bbb 4 (rotate_left 32 10 t10) in
    let v_bbb := t11 in
    Ok v_bbb) in
  let* v_bbb := (
    let* t1 := index v_bbb 1 in
    let* t2 := index v_bbb 2 in
    let* t3 := index v_bbb 3 in
    let* t4 := index v_bbb 4 in
    let* t5 := index v_w 3 in
    let* t6 := store v_bbb 1 (wrapping_add 32 (wrapping_add 32 (wrapping_add 32 t1 (N.lxor t2 (N.lor t3 (bit_not 32 t4)))) t5) 0x50a28be6) in
    let v_bbb := t6 in
    let* t7 := index v_bbb 1 in
    let* t8 := index v_bbb 0 in
    let* t9 := store v_bbb 1 (wrapping_add 32 (rotate_left 32 12 t7) t8) in
    let v_bbb := t9 in
    let* t10 := index v_bbb 3 in
    let* t11 := store v_bbb 3 (rotate_left 32 10 t10) in
    let v_bbb := t11 in
    Ok v_bbb) in
  let* v_bbb := (
    let* t1 := index v_bbb 0 in
    let* t2 := index v_bbb 1 in
    let* t3 := index v_bbb 2 in
    let* t4 := index v_bbb 3 in
    let* t5 := index v_w 12 in
    let* t6 := store v_bbb 0 (wrapping_add 32 (wrapping_add 32 (wrapping_add 32 t1 (N.lxor t2 (N.lor t3 (bit_not 32 t4)))) t5) 0x50a28be6) in
    let v_bbb := t6 in
    let* t7 := index v_bbb 0 in
    let* t8 := index v_bbb 4 in
    let* t9 := store v_bbb 0 (wrapping_add 32 (rotate_left 32 6 t7) t8) in
    let v_bbb := t9 in
    let* t10 := index v_bbb 2 in
    let* t11 := store v_bbb 2 (rotate_left 32 10 t10) in
    let v_bbb := t11 in
    Ok v_bbb) in
  g_ripemd160_Engine_process_block_fast_part6 v_self v_w v_bb v_bbb.

Definition g_ripemd160_Engine_process_block_fast_part4 v_self v_w v_bb v_bbb : res (engine) :=
  let* v_bb := (
    let* t1 := index v_bb 1 in
    let* t2 := index v_bb 2 in
    let* t3 := index v_bb 3 in
    let* t4 := index v_bb 4 in
    let* t5 := index v_w 4 in
    let* t6 := store v_bb 1 (wrapping_add 32 (wrapping_add 32 (wrapping_add 32 t1 (N.lxor t2 (N.lor t3 (bit_not 32 t4)))) t5) 0xa953fd4e) in
    let v_bb := t6 in
    let* t7 := index v_bb 1 in
    let* t8 := index v_bb 0 in
    let* t9 := store v_bb 1 (wrapping_add 32 (rotate_left 32 9 t7) t8) in
    let v_bb := t9 in
    let* t10 := index v_bb 3 in
    let* t11 := store v_bb 3 (rotate_left 32 10 t10) in
    let v_bb := t11 in
    Ok v_bb) in
  let* v_bb := (
    let* t1 := index v_bb 0 in
    let* t2 := index v_bb 1 in
    let* t3 := index v_bb 2 in
    let* t4 := index v_bb 3 in
    let* t5 := index v_w 0 in
    let* t6 := store v_bb 0 (wrapping_add 32 (wrapping_add 32 (wrapping_add 32 t1 (N.lxor t2 (N.lor t3 (bit_not 32 t4)))) t5) 0xa953fd4e) in
    let v_bb := t6 in
    let* t7 := index v_bb 0 in
    let* t8 := index v_bb 4 in
    let* t9 := store v_bb 0 (wrapping_add 32 (rotate_left 32 15 t7) t8) in
    let v_bb := t9 in
    let* t10 := index v_bb 2 in
    let* t11 := store v_bb 2 (rotate_left 32 10 t10) in
    let v_bb := t11 in
    Ok v_bb) in
  let* v_bb := (
    let* t1 := index v_bb 4 in
    let* t2 := index v_bb 0 in
    let* t3 := index v_bb 1 in
    let* t4 := index v_bb 2 in
    let* t5 := index v_w 5 in
    let* t6 := store v_bb 4 (wrapping_add 32 (wrapping_add 32 (wrapping_add 32 t1 (N.lxor t2 (N.lor t3 (bit_not 32 t4)))) t5) 0xa953fd4e) in
    let v_bb := t6 in
    let* t7 := index v_bb 4 in
    let* t8 := index v_bb 3 in
    let* t9 := store v_bb 4 (wrapping_add 32 (rotate_left 32 5 t7) t8) in
    let v_bb := t9 in
    let* t10 := index v_bb 1 in
    let* t11 := store v_bb 1 (rotate_left 32 10 t10) in
    let v_bb := t11 in
    Ok v_bb) in
  let* v_bb := (
    let* t1 := index v_bb 3 in
    let* t2 := index v_bb 4 in
    let* t3 := index v_bb 0 in
    let* t4 := index v_bb 1 in
    let* t5 := index v_w 9 in
    let* t6 := store v_bb 3 (wrapping_add 32 (wrapping_add 32 (wrapping_add 32 t1 (N.lxor t2 (N.lor t3 (bit_not 32 t4)))) t5) 0xa953fd4e) in
    let v_bb := t6 in
    let* t7 := index v_bb 3 in
    let* t8 := index v_bb 2 in
    let* t9 := store v_bb 3 (wrapping_add 32 (rotate_left 32 11 t7) t8) in
    let v_bb := t9 in
    let* t10 := index v_bb 0 in
    let* t11 := store v_bb 0 (rotate_left 32 10 t10) in
    let v_bb := t11 in
    Ok v_bb) in
  let* v_bb := (
    let* t1 := index v_bb 2 in
    let* t2 := index v_bb 3 in
    let* t3 := index v_bb 4 in
    let* t4 := index v_bb 0 in
    let* t5 := index v_w 7 in
    let* t6 := store v_bb 2 (wrapping_add 32 (wrapping_add 32 (wrapping_add 32 t1 (N.lxor t2 (N.lor t3 (bit_not 32 t4)))) t5) 0xa953fd4e) in
    let v_bb := t6 in
    let* t7 := index v_bb 2 in
    let* t8 := index v_bb 1 in
    let* t9 := store v_bb 2 (wrapping_add 32 (rotate_left 32 6 t7) t8) in
    let v_bb := t9 in
    let* t10 := index v_bb 4 in
    let* t11 := store v_bb 4 (rotate_left 32 10 t10) in
    let v_bb := t11 in
    Ok v_bb) in
  let* v_bb := (
    let* t1 := index v_bb 1 in
    let* t2 := index v_bb 2 in
    let* t3 := index v_bb 3 in
    let* t4 := index v_bb 4 in
    let* t5 := index v_w 12 in
    let* t6 := store v_bb 1 (wrapping_add 32 (wrapping_add 32 (wrapping_add 32 t1 (N.lxor t2 (N.lor t3 (bit_not 32 t4)))) t5) 0xa953fd4e) in
    let v_bb := t6 in
    let* t7 := index v_bb 1 in
    let* t8 := index v_bb 0 in
    let* t9 := store v_bb 1 (wrapping_add 32 (rotate_left 32 8 t7) t8) in
    let v_bb := t9 in
    let* t10 := index v_bb 3 in
    let* t11 := store v_bb 3 (rotate_left 32 10 t10) in
    let v_bb := t11 in
    Ok v_bb) in
  let* v_bb := (
    let* t1 := index v_bb 0 in
    let* t2 := index v_bb 1 in
    let* t3 := index v_bb 2 in
    let* t4 := index v_bb 3 in
    let* t5 := index v_w 2 in
    let* t6 := store v_bb 0 (wrapping_add 32 (wrapping_add 32 (wrapping_add 32 t1 (N.lxor t2 (N.lor t3 (bit_not 32 t4)))) t5) 0xa953fd4e) in
    let v_bb := t6 in
    let* t7 := index v_bb 0 in
    let* t8 := index v_bb 4 in
    let* t9 := store v_bb 0 (wrapping_add 32 (rotate_left 32 13 t7) t8) in
    let v_bb := t9 in
    let* t10 := index v_bb 2 in
    let* t11 := store v_bb 2 (rotate_left 32 10 t10) in
    let v_bb := t11 in
    Ok v_bb) in
  let* v_bb := (
    let* t1 := index v_bb 4 in
    let* t2 := index v_bb 0 in
    let* t3 := index v_bb 1 in
    let* t4 := index v_bb 2 in
    let* t5 := index v_w 10 in
    let* t6 := store v_bb 4 (wrapping_add 32 (wrapping_add 32 (wrapping_add 32 t1 (N.lxor t2 (N.lor t3 (bit_not 32 t4)))) t5) 0xa953fd4e) in
    let v_bb := t6 in
    let* t7 := index v_bb 4 in
    let* t8 := index v_bb 3 in
    let* t9 := store v_bb 4 (wrapping_add 32 (rotate_left 32 12 t7) t8) in
    let v_bb := t9 in
    let* t10 := index v_bb 1 in
    let* t11 := store v_bb 1 (rotate_left 32 10 t10) in
    let v_bb := t11 in
    Ok v_bb) in
  let* v_bb := (
    let* t1 := index v_bb 3 in
    let* t2 := index v_bb 4 in
    let* t3 := index v_bb 0 in
    let* t4 := index v_bb 1 in
    let* t5 := index v_w 14 in
    let* t6 := store v_bb 3 (wrapping_add 32 (wrapping_add 32 (wrapping_add 32 t1 (N.lxor t2 (N.lor t3 (bit_not 32 t4)))) t5) 0xa953fd4e) in
    let v_bb := t6 in
    let* t7 := index v_bb 3 in
    let* t8 := index v_bb 2 in
    let* t9 := store v_bb 3 (wrapping_add 32 (rotate_left 32 5 t7) t8) in
    let v_bb := t9 in
    let* t10 := index v_bb 0 in
    let* t11 := store v_bb 0 (rotate_left 32 10 t10) in
    let v_bb := t11 in
    Ok v_bb) in
  let* v_bb := (
    let* t1 := index v_bb 2 in
    let* t2 := index v_bb 3 in
    let* t3 := index v_bb 4 in
    let* t4 := index v_bb 0 in
    let* t5 := index v_w 1 in
    let* t6 := store v_bb 2 (wrapping_add 32 (wrapping_add 32 (wrapping_add 32 t1 (N.lxor t2 (N.lor t3 (bit_not 32 t4)))) t5) 0xa953fd4e) in
    let v_bb := t6 in
    let* t7 := index v_bb 2 in
    let* t8 := index v_bb 1 in
    let* t9 := store v_bb 2 (wrapping_add 32 (rotate_left 32 12 t7) t8) in
    let v_bb := t9 in
    let* t10 := index v_bb 4 in
    let* t11 := store v_bb 4 (rotate_left 32 10 t10) in
    let v_bb := t11 in
    Ok v_bb) in
  let* v_bb := (
    let* t1 := index v_bb 1 in
    let* t2 := index v_bb 2 in
    let* t3 := index v_bb 3 in
    let* t4 := index v_bb 4 in
    let* t5 := index v_w 3 in
    let* t6 := store v_bb 1 (wrapping_add 32 (wrapping_add 32 (wrapping_add 32 t1 (N.lxor t2 (N.lor t3 (bit_not 32 t4)))) t5) 0xa953fd4e) in
    let v_bb := t6 in
    let* t7 := index v_bb 1 in
    let* t8 := index v_bb 0 in
    let* t9 := store v_bb 1 (wrapping_add 32 (rotate_left 32 13 t7) t8) in
    let v_bb := t9 in
    let* t10 := index v_bb 3 in
    let* t11 := store v_bb 3 (rotate_left 32 10 t10) in
    let v_bb := t11 in
    Ok v_bb) in
  let* v_bb := (
    let* t1 := index v_bb 0 in
    let* t2 := index v_bb 1 in
    let* t3 := index v_bb 2 in
    let* t4 := index v_bb 3 in
    let* t5 := index v_w 8 in
    let* t6 := store v_bb 0 (wrapping_add 32 (wrapping_add 32 (wrapping_add 32 t1 (N.lxor t2 (N.lor t3 (bit_not 32 t4)))) t5) 0xa953fd4e) in
    let v_bb := t6 in
    let* t7 := index v_bb 0 in
    let* t8 := index v_bb 4 in
    let* t9 := store v_bb 0 (wrapping_add 32 (rotate_left 32 14 t7) t8) in
    let v_bb := t9 in
    let* t10 := index v_bb 2 in
    let* t11 := store v_bb 2 (rotate_left 32 10 t10) in
    let v_bb := t11 in
    Ok v_bb) in
  let* v_bb := (
    let* t1 := index v_bb 4 in
    let* t2 := index v_bb 0 in
    let* t3 := index v_bb 1 in
    let* t4 := index v_bb 2 in
    let* t5 := index v_w 11 in
    let* t6 := store v_bb 4 (wrapping_add 32 (wrapping_add 32 (wrapping_add 32 t1 (N.lxor t2 (N.lor t3 (bit_not 32 t4)))) t5) 0xa953fd4e) in
    let v_bb := t6 in
    let* t7 := index v_bb 4 in
    let* t8 := index v_bb 3 in
    let* t9 := store v_bb 4 (wrapping_add 32 (rotate_left 32 11 t7) t8) in
    let v_bb := t9 in
    let* t10 := index v_bb 1 in
    let* t11 := store v_bb 1 (rotate_left 32 10 t10) in
    let v_bb := t11 in
    Ok v_bb) in
  let* v_bb := (
    let* t1 := index v_bb 3 in
    let* t2 := index v_bb 4 in
    let* t3 := index v_bb 0 in
    let* t4 := index v_bb 1 in
    let* t5 := index v_w 6 in
    let* t6 := store v_bb 3 (wrapping_add 32 (wrapping_add 32 (wrapping_add 32 t1 (N.lxor t2 (N.lor t3 (bit_not 32 t4)))) t5) 0xa953fd4e) in
    let v_bb := t6 in
    let* t7 := index v_bb 3 in
    let* t8 := index v_bb 2 in
    let* t9 := store v_bb 3 (wrapping_add 32 (rotate_left 32 8 t7) t8) in
    let v_bb := t9 in
    let* t10 := index v_bb 0 in
    let* t11 := store v_bb 0 (rotate_left 32 10 t10) in
    let v_bb := t11 in
    Ok v_bb) in
  let* v_bb := (
    let* t1 := index v_bb 2 in
    let* t2 := index v_bb 3 in
    let* t3 := index v_bb 4 in
    let* t4 := index v_bb 0 in
    let* t5 := index v_w 15 in
    let* t6 := store v_bb 2 (wrapping_add 32 (wrapping_add 32 (wrapping_add 32 t1 (N.lxor t2 (N.lor t3 (bit_not 32 t4)))) t5) 0xa953fd4e) in
    let v_bb := t6 in
    let* t7 := index v_bb 2 in
    let* t8 := index v_bb 1 in
    let* t9 := store v_bb 2 (wrapping_add 32 (rotate_left 32 5 t7) t8) in
    let v_bb := t9 in
    let* t10 := index v_bb 4 in
    let* t11 := store v_bb 4 (rotate_left 32 10 t10) in
    let v_bb := t11 in
    Ok v_bb) in
  let* v_bb := (
    let* t1 := index v_bb 1 in
    let* t2 := index v_bb 2 in
    let* t3 := index v_bb 3 in
    let* t4 := index v_bb 4 in
    let* t5 := index v_w 13 in
    let* t6 := store v_bb 1 (wrapping_add 32 (wrapping_add 32 (wrapping_add 32 t1 (N.lxor t2 (N.lor t3 (bit_not 32 t4)))) t5) 0xa953fd4e) in
    let v_bb := t6 in
    let* t7 := index v_bb 1 in
    let* t8 := index v_bb 0 in
    let* t9 := store v_bb 1 (wrapping_add 32 (rotate_left 32 6 t7) t8) in
    let v_bb := t9 in
    let* t10 := index v_bb 3 in
    let* t11 := store v_bb 3 (rotate_left 32 10 t10) in
    let v_bb := t11 in
    Ok v_bb) in
  g_ripemd160_Engine_process_block_fast_part5 v_self v_w v_bb v_bbb.

Definition g_ripemd160_Engine_process_block_fast_part3 v_self v_w v_bb v_bbb : res (engine) :=
  let* v_bb := (
    let* t1 := index v_bb 2 in
    let* t2 := index v_bb 3 in
    let* t3 := index v_bb 0 in
    let* t4 := index v_bb 4 in
    let* t5 := index v_bb 0 in
    let* t6 := index v_w 1 in
    let* t7 := store v_bb 2 (wrapping_add 32 (wrapping_add 32 (wrapping_add 32 t1 (N.lor (N.land t2 t3) (N.land t4 (bit_not 32 t5)))) t6) 0x8f1bbcdc) in
    let v_bb := t7 in
    let* t8 := index v_bb 2 in
    let* t9 := index v_bb 1 in
    let* t10 := store v_bb 2 (wrapping_add 32 (rotate_left 32 11 t8) t9) in
    let v_bb := t10 in
    let* t11 := index v_bb 4 in
    let* t12 := store v_bb 4 (rotate_left 32 10 t11) in
    let v_bb := t12 in
    Ok v_bb) in
  let* v_bb := (
    let* t1 := index v_bb 1 in
    let* t2 := index v_bb 2 in
    let* t3 := index v_bb 4 in
    let* t4 := index v_bb 3 in
    let* t5 := index v_bb 4 in
    let* t6 := index v_w 9 in
    let* t7 := store v_bb 1 (wrapping_add 32 (wrapping_add 32 (wrapping_add 32 t1 (N.lor (N.land t2 t3) (N.land t4 (bit_not 32 t5)))) t6) 0x8f1bbcdc) in
    let v_bb := t7 in
    let* t8 := index v_bb 1 in
    let* t9 := index v_bb 0 in
    let* t10 := store v_bb 1 (wrapping_add 32 (rotate_left 32 12 t8) t9) in
    let v_bb := t10 in
    let* t11 := index v_bb 3 in
    let* t12 := store v_bb 3 (rotate_left 32 10 t11) in
    let v_bb := t12 in
    Ok v_bb) in
  let* v_bb := (
    let* t1 := index v_bb 0 in
    let* t2 := index v_bb 1 in
    let* t3 := index v_bb 3 in
    let* t4 := index v_bb 2 in
    let* t5 := index v_bb 3 in
    let* t6 := index v_w 11 in
    let* t7 := store v_bb 0 (wrapping_add 32 (wrapping_add 32 (wrapping_add 32 t1 (N.lor (N.land t2 t3) (N.land t4 (bit_not 32 t5)))) t6) 0x8f1bbcdc) in
    let v_bb := t7 in
    let* t8 := index v_bb 0 in
    let* t9 := index v_bb 4 in
    let* t10 := store v_bb 0 (wrapping_add 32 (rotate_left 32 14 t8) t9) in
    let v_bb := t10 in
    let* t11 := index v_bb 2 in
    let* t12 := store v_bb 2 (rotate_left 32 10 t11) in
    let v_bb := t12 in
    Ok v_bb) in
  let* v_bb := (
    let* t1 := index v_bb 4 in
    let* t2 := index v_bb 0 in
    let* t3 := index v_bb 2 in
    let* t4 := index v_bb 1 in
    let* t5 := index v_bb 2 in
    let* t6 := index v_w 10 in
    let* t7 := store v_bb 4 (wrapping_add 32 (wrapping_add 32 (wrapping_add 32 t1 (N.lor (N.land t2 t3) (N.land t4 (bit_not 32 t5)))) t6) 0x8f1bbcdc) in
    let v_bb := t7 in
    let* t8 := index v_bb 4 in
    let* t9 := index v_bb 3 in
    let* t10 := store v_bb 4 (wrapping_add 32 (rotate_left 32 15 t8) t9) in
    let v_bb := t10 in
    let* t11 := index v_bb 1 in
    let* t12 := store v_bb 1 (rotate_left 32 10 t11) in
    let v_bb := t12 in
    Ok v_bb) in
  let* v_bb := (
    let* t1 := index v_bb 3 in
    let* t2 := index v_bb 4 in
    let* t3 := index v_bb 1 in
    let* t4 := index v_bb 0 in
    let* t5 := index v_bb 1 in
    let* t6 := index v_w 0 in
    let* t7 := store v_bb 3 (wrapping_add 32 (wrapping_add 32 (wrapping_add 32 t1 (N.lor (N.land t2 t3) (N.land t4 (bit_not 32 t5)))) t6) 0x8f1bbcdc) in
    let v_bb := t7 in
    let* t8 := index v_bb 3 in
    let* t9 := index v_bb 2 in
    let* t10 := store v_bb 3 (wrapping_add 32 (rotate_left 32 14 t8) t9) in
    let v_bb := t10 in
    let* t11 := index v_bb 0 in
    let* t12 := store v_bb 0 (rotate_left 32 10 t11) in
    let v_bb := t12 in
    Ok v_bb) in
  let* v_bb := (
    let* t1 := index v_bb 2 in
    let* t2 := index v_bb 3 in
    let* t3 := index v_bb 0 in
    let* t4 := index v_bb 4 in
    let* t5 := index v_bb 0 in
    let* t6 := index v_w 8 in
    let* t7 := store v_bb 2 (wrapping_add 32 (wrapping_add 32 (wrapping_add 32 t1 (N.lor (N.land t2 t3) (N.land t4 (bit_not 32 t5)))) t6) 0x8f1bbcdc) in
    let v_bb := t7 in
    let* t8 := index v_bb 2 in
    let* t9 := index v_bb 1 in
    let* t10 := store v_bb 2 (wrapping_add 32 (rotate_left 32 15 t8) t9) in
    let v_bb := t10 in
    let* t11 := index v_bb 4 in
    let* t12 := store v_bb 4 (rotate_left 32 10 t11) in
    let v_bb := t12 in
    Ok v_bb) in
  let* v_bb := (
    let* t1 := index v_bb 1 in
    let* t2 := index v_bb 2 in
    let* t3 := index v_bb 4 in
    let* t4 := index v_bb 3 in
    let* t5 := index v_bb 4 in
    let* t6 := index v_w 12 in
    let* t7 := store v_bb 1 (wrapping_add 32 (wrapping_add 32 (wrapping_add 32 t1 (N.lor (N.land t2 t3) (N.land t4 (bit_not 32 t5)))) t6) 0x8f1bbcdc) in
    let v_bb := t7 in
    let* t8 := index v_bb 1 in
    let* t9 := index v_bb 0 in
    let* t10 := store v_bb 1 (wrapping_add 32 (rotate_left 32 9 t8) t9) in
    let v_bb := t10 in
    let* t11 := index v_bb 3 in
    let* t12 := store v_bb 3 (rotate_left 32 10 t11) in
    let v_bb := t12 in
    Ok v_bb) in
  let* v_bb := (
    let* t1 := index v_bb 0 in
    let* t2 := index v_bb 1 in
    let* t3 := index v_bb 3 in
    let* t4 := index v_bb 2 in
    let* t5 := index v_bb 3 in
    let* t6 := index v_w 4 in
    let* t7 := store v_bb 0 (wrapping_add 32 (wrapping_add 32 (wrapping_add 32 t1 (N.lor (N.land t2 t3) (N.land t4 (bit_not 32 t5)))) t6) 0x8f1bbcdc) in
    let v_bb := t7 in
    let* t8 := index v_bb 0 in
    let* t9 := index v_bb 4 in
    let* t10 := store v_bb 0 (wrapping_add 32 (rotate_left 32 8 t8) t9) in
    let v_bb := t10 in
    let* t11 := index v_bb 2 in
    let* t12 := store v_bb 2 (rotate_left 32 10 t11) in
    let v_bb := t12 in
    Ok v_bb) in
  let* v_bb := (
    let* t1 := index v_bb 4 in
    let* t2 := index v_bb 0 in
    let* t3 := index v_bb 2 in
    let* t4 := index v_bb 1 in
    let* t5 := index v_bb 2 in
    let* t6 := index v_w 13 in
    let* t7 := store v_bb 4 (wrapping_add 32 (wrapping_add 32 (wrapping_add 32 t1 (N.lor (N.land t2 t3) (N.land t4 (bit_not 32 t5)))) t6) 0x8f1bbcdc) in
    let v_bb := t7 in
    let* t8 := index v_bb 4 in
    let* t9 := index v_bb 3 in
    let* t10 := store v_bb 4 (wrapping_add 32 (rotate_left 32 9 t8) t9) in
    let v_bb := t10 in
    let* t11 := index v_bb 1 in
    let* t12 := store v_bb 1 (rotate_left 32 10 t11) in
    let v_bb := t12 in
    Ok v_bb) in
  let* v_bb := (
    let* t1 := index v_bb 3 in
    let* t2 := index v_bb 4 in
    let* t3 := index v_bb 1 in
    let* t4 := index v_bb 0 in
    let* t5 := index v_bb 1 in
    let* t6 := index v_w 3 in
    let* t7 := store v_bb 3 (wrapping_add 32 (wrapping_add 32 (wrapping_add 32 t1 (N.lor (N.land t2 t3) (N.land t4 (bit_not 32 t5)))) t6) 0x8f1bbcdc) in
    let v_bb := t7 in
    let* t8 := index v_bb 3 in
    let* t9 := index v_bb 2 in
    let* t10 := store v_bb 3 (wrapping_add 32 (rotate_left 32 14 t8) t9) in
    let v_bb := t10 in
    let* t11 := index v_bb 0 in
    let* t12 := store v_bb 0 (rotate_left 32 10 t11) in
    let v_bb := t12 in
    Ok v_bb) in
  let* v_bb := (
    let* t1 := index v_bb 2 in
    let* t2 := index v_bb 3 in
    let* t3 := index v_bb 0 in
    let* t4 := index v_bb 4 in
    let* t5 := index v_bb 0 in
    let* t6 := index v_w 7 in
    let* t7 := store v_bb 2 (wrapping_add 32 (wrapping_add 32 (wrapping_add 32 t1 (N.lor (N.land t2 t3) (N.land t4 (bit_not 32 t5)))) t6) 0x8f1bbcdc) in
    let v_bb := t7 in
    let* t8 := index v_bb 2 in
    let* t9 := index v_bb 1 in
    let* t10 := store v_bb 2 (wrapping_add 32 (rotate_left 32 5 t8) t9) in
    let v_bb := t10 in
    let* t11 := index v_bb 4 in
    let* t12 := store v_bb 4 (rotate_left 32 10 t11) in
    let v_bb := t12 in
    Ok v_bb) in
  let* v_bb := (
    let* t1 := index v_bb 1 in
    let* t2 := index v_bb 2 in
    let* t3 := index v_bb 4 in
    let* t4 := index v_bb 3 in
    let* t5 := index v_bb 4 in
    let* t6 := index v_w 15 in
    let* t7 := store v_bb 1 (wrapping_add 32 (wrapping_add 32 (wrapping_add 32 t1 (N.lor (N.land t2 t3) (N.land t4 (bit_not 32 t5)))) t6) 0x8f1bbcdc) in
    let v_bb := t7 in
    let* t8 := index v_bb 1 in
    let* t9 := index v_bb 0 in
    let* t10 := store v_bb 1 (wrapping_add 32 (rotate_left 32 6 t8) t9) in
    let v_bb := t10 in
    let* t11 := index v_bb 3 in
    let* t12 := store v_bb 3 (rotate_left 32 10 t11) in
    let v_bb := t12 in
    Ok v_bb) in
  let* v_bb := (
    let* t1 := index v_bb 0 in
    let* t2 := index v_bb 1 in
    let* t3 := index v_bb 3 in
    let* t4 := index v_bb 2 in
    let* t5 := index v_bb 3 in
    let* t6 := index v_w 14 in
    let* t7 := store v_bb 0 (wrapping_add 32 (wrapping_add 32 (wrapping_add 32 t1 (N.lor (N.land t2 t3) (N.land t4 (bit_not 32 t5)))) t6) 0x8f1bbcdc) in
    let v_bb := t7 in
    let* t8 := index v_bb 0 in
    let* t9 := index v_bb 4 in
    let* t10 := store v_bb 0 (wrapping_add 32 (rotate_left 32 8 t8) t9) in
    let v_bb := t10 in
    let* t11 := index v_bb 2 in
    let* t12 := store v_bb 2 (rotate_left 32 10 t11) in
    let v_bb := t12 in
    Ok v_bb) in
  let* v_bb := (
    let* t1 := index v_bb 4 in
    let* t2 := index v_bb 0 in
    let* t3 := index v_bb 2 in
    let* t4 := index v_bb 1 in
    let* t5 := index v_bb 2 in
    let* t6 := index v_w 5 in
    let* t7 := store v_bb 4 (wrapping_add 32 (wrapping_add 32 (wrapping_add 32 t1 (N.lor (N.land t2 t3) (N.land t4 (bit_not 32 t5)))) t6) 0x8f1bbcdc) in
    let v_bb := t7 in
    let* t8 := index v_bb 4 in
    let* t9 := index v_bb 3 in
    let* t10 := store v_bb 4 (wrapping_add 32 (rotate_left 32 6 t8) t9) in
    let v_bb := t10 in
    let* t11 := index v_bb 1 in
    let* t12 := store v_bb 1 (rotate_left 32 10 t11) in
    let v_bb := t12 in
    Ok v_bb) in
  let* v_bb := (
    let* t1 := index v_bb 3 in
    let* t2 := index v_bb 4 in
    let* t3 := index v_bb 1 in
    let* t4 := index v_bb 0 in
    let* t5 := index v_bb 1 in
    let* t6 := index v_w 6 in
    let* t7 := store v_bb 3 (wrapping_add 32 (wrapping_add 32 (wrapping_add 32 t1 (N.lor (N.land t2 t3) (N.land t4 (bit_not 32 t5)))) t6) 0x8f1bbcdc) in
    let v_bb := t7 in
    let* t8 := index v_bb 3 in
    let* t9 := index v_bb 2 in
    let* t10 := store v_bb 3 (wrapping_add 32 (rotate_left 32 5 t8) t9) in
    let v_bb := t10 in
    let* t11 := index v_bb 0 in
    let* t12 := store v_bb 0 (rotate_left 32 10 t11) in
    let v_bb := t12 in
    Ok v_bb) in
  let* v_bb := (
    let* t1 := index v_bb 2 in
    let* t2 := index v_bb 3 in
    let* t3 := index v_bb 0 in
    let* t4 := index v_bb 4 in
    let* t5 := index v_bb 0 in
    let* t6 := index v_w 2 in
    let* t7 := store v_bb 2 (wrapping_add 32 (wrapping_add 32 (wrapping_add 32 t1 (N.lor (N.land t2 t3) (N.land t4 (bit_not 32 t5)))) t6) 0x8f1bbcdc) in
    let v_bb := t7 in
    let* t8 := index v_bb 2 in
    let* t9 := index v_bb 1 in
    let* t10 := store v_bb 2 (wrapping_add 32 (rotate_left 32 12 t8) t9) in
    let v_bb := t10 in
    let* t11 := index v_bb 4 in
    let* t12 := store v_bb 4 (rotate_left 32 10 t11) in
    let v_bb := t12 in
    Ok v_bb) in
  g_ripemd160_Engine_process_block_fast_part4 v_self v_w v_bb v_bbb.

Definition g_ripemd160_Engine_process_block_fast_part2 v_self v_w v_bb v_bbb : res (engine) :=
  let* v_bb := (
    let* t1 := index v_bb 3 in
    let* t2 := index v_bb 4 in
    let* t3 := index v_bb 0 in
    let* t4 := index v_bb 1 in
    let* t5 := index v_w 3 in
    let* t6 := store v_bb 3 (wrapping_add 32 (wrapping_add 32 (wrapping_add 32 t1 (N.lxor (N.lor t2 (bit_not 32 t3)) t4)) t5) 0x6ed9eba1) in
    let v_bb := t6 in
    let* t7 := index v_bb 3 in
    let* t8 := index v_bb 2 in
    let* t9 := store v_bb 3 (wrapping_add 32 (rotate_left 32 11 t7) t8) in
    let v_bb := t9 in
    let* t10 := index v_bb 0 in
    let* t11 := store v_bb 0 (rotate_left 32 10 t10) in
    let v_bb := t11 in
    Ok v_bb) in
  let* v_bb := (
    let* t1 := index v_bb 2 in
    let* t2 := index v_bb 3 in
    let* t3 := index v_bb 4 in
    let* t4 := index v_bb 0 in
    let* t5 := index v_w 10 in
    let* t6 := store v_bb 2 (wrapping_add 32 (wrapping_add 32 (wrapping_add 32 t1 (N.lxor (N.lor t2 (bit_not 32 t3)) t4)) t5) 0x6ed9eba1) in
    let v_bb := t6 in
    let* t7 := index v_bb 2 in
    let* t8 := index v_bb 1 in
    let* t9 := store v_bb 2 (wrapping_add 32 (rotate_left 32 13 t7) t8) in
    let v_bb := t9 in
    let* t10 := index v_bb 4 in
    let* t11 := store v_bb 4 (rotate_left 32 10 t10) in
    let v_bb := t11 in
    Ok v_bb) in
  let* v_bb := (
    let* t1 := index v_bb 1 in
    let* t2 := index v_bb 2 in
    let* t3 := index v_bb 3 in
    let* t4 := index v_bb 4 in
    let* t5 := index v_w 14 in
    let* t6 := store v_bb 1 (wrapping_add 32 (wrapping_add 32 (wrapping_add 32 t1 (N.lxor (N.lor t2 (bit_not 32 t3)) t4)) t5) 0x6ed9eba1) in
    let v_bb := t6 in
    let* t7 := index v_bb 1 in
    let* t8 := index v_bb 0 in
    let* t9 := store v_bb 1 (wrapping_add 32 (rotate_left 32 6 t7) t8) in
    let v_bb := t9 in
    let* t10 := index v_bb 3 in
    let* t11 := store v_bb 3 (rotate_left 32 10 t10) in
    let v_bb := t11 in
    Ok v_bb) in
  let* v_bb := (
    let* t1 := index v_bb 0 in
    let* t2 := index v_bb 1 in
    let* t3 := index v_bb 2 in
    let* t4 := index v_bb 3 in
    let* t5 := index v_w 4 in
    let* t6 := store v_bb 0 (wrapping_add 32 (wrapping_add 32 (wrapping_add 32 t1 (N.lxor (N.lor t2 (bit_not 32 t3)) t4)) t5) 0x6ed9eba1) in
    let v_bb := t6 in
    let* t7 := index v_bb 0 in
    let* t8 := index v_bb 4 in
    let* t9 := store v_bb 0 (wrapping_add 32 (rotate_left 32 7 t7) t8) in
    let v_bb := t9 in
    let* t10 := index v_bb 2 in
    let* t11 := store v_bb 2 (rotate_left 32 10 t10) in
    let v_bb := t11 in
    Ok v_bb) in
  let* v_bb := (
    let* t1 := index v_bb 4 in
    let* t2 := index v_bb 0 in
    let* t3 := index v_bb 1 in
    let* t4 := index v_bb 2 in
    let* t5 := index v_w 9 in
    let* t6 := store v_bb 4 (wrapping_add 32 (wrapping_add 32 (wrapping_add 32 t1 (N.lxor (N.lor t2 (bit_not 32 t3)) t4)) t5) 0x6ed9eba1) in
    let v_bb := t6 in
    let* t7 := index v_bb 4 in
    let* t8 := index v_bb 3 in
    let* t9 := store v_bb 4 (wrapping_add 32 (rotate_left 32 14 t7) t8) in
    let v_bb := t9 in
    let* t10 := index v_bb 1 in
    let* t11 := store v_bb 1 (rotate_left 32 10 t10) in
    let v_bb := t11 in
    Ok v_bb) in
  let* v_bb := (
    let* t1 := index v_bb 3 in
    let* t2 := index v_bb 4 in
    let* t3 := index v_bb 0 in
    let* t4 := index v_bb 1 in
    let* t5 := index v_w 15 in
    let* t6 := store v_bb 3 (wrapping_add 32 (wrapping_add 32 (wrapping_add 32 t1 (N.lxor (N.lor t2 (bit_not 32 t3)) t4)) t5) 0x6ed9eba1) in
    let v_bb := t6 in
    let* t7 := index v_bb 3 in
    let* t8 := index v_bb 2 in
    let* t9 := store v_bb 3 (wrapping_add 32 (rotate_left 32 9 t7) t8) in
    let v_bb := t9 in
    let* t10 := index v_bb 0 in
    let* t11 := store v_bb 0 (rotate_left 32 10 t10) in
    let v_bb := t11 in
    Ok v_bb) in
  let* v_bb := (
    let* t1 := index v_bb 2 in
    let* t2 := index v_bb 3 in
    let* t3 := index v_bb 4 in
    let* t4 := index v_bb 0 in
    let* t5 := index v_w 8 in
    let* t6 := store v_bb 2 (wrapping_add 32 (wrapping_add 32 (wrapping_add 32 t1 (N.lxor (N.lor t2 (bit_not 32 t3)) t4)) t5) 0x6ed9eba1) in
    let v_bb := t6 in
    let* t7 := index v_bb 2 in
    let* t8 := index v_bb 1 in
    let* t9 := store v_bb 2 (wrapping_add 32 (rotate_left 32 13 t7) t8) in
    let v_bb := t9 in
    let* t10 := index v_bb 4 in
    let* t11 := store v_bb 4 (rotate_left 32 10 t10) in
    let v_bb := t11 in
    Ok v_bb) in
  let* v_bb := (
    let* t1 := index v_bb 1 in
    let* t2 := index v_bb 2 in
    let* t3 := index v_bb 3 in
    let* t4 := index v_bb 4 in
    let* t5 := index v_w 1 in
    let* t6 := store v_bb 1 (wrapping_add 32 (wrapping_add 32 (wrapping_add 32 t1 (N.lxor (N.lor t2 (bit_not 32 t3)) t4)) t5) 0x6ed9eba1) in
    let v_bb := t6 in
    let* t7 := index v_bb 1 in
    let* t8 := index v_bb 0 in
    let* t9 := store v_bb 1 (wrapping_add 32 (rotate_left 32 15 t7) t8) in
    let v_bb := t9 in
    let* t10 := index v_bb 3 in
    let* t11 := store v_bb 3 (rotate_left 32 10 t10) in
    let v_bb := t11 in
    Ok v_bb) in
  let* v_bb := (
    let* t1 := index v_bb 0 in
    let* t2 := index v_bb 1 in
    let* t3 := index v_bb 2 in
    let* t4 := index v_bb 3 in
    let* t5 := index v_w 2 in
    let* t6 := store v_bb 0 (wrapping_add 32 (wrapping_add 32 (wrapping_add 32 t1 (N.lxor (N.lor t2 (bit_not 32 t3)) t4)) t5) 0x6ed9eba1) in
    let v_bb := t6 in
    let* t7 := index v_bb 0 in
    let* t8 := index v_bb 4 in
    let* t9 := store v_bb 0 (wrapping_add 32 (rotate_left 32 14 t7) t8) in
    let v_bb := t9 in
    let* t10 := index v_bb 2 in
    let* t11 := store v_bb 2 (rotate_left 32 10 t10) in
    let v_bb := t11 in
    Ok v_bb) in
  let* v_bb := (
    let* t1 := index v_bb 4 in
    let* t2 := index v_bb 0 in
    let* t3 := index v_bb 1 in
    let* t4 := index v_bb 2 in
    let* t5 := index v_w 7 in
    let* t6 := store v_bb 4 (wrapping_add 32 (wrapping_add 32 (wrapping_add 32 t1 (N.lxor (N.lor t2 (bit_not 32 t3)) t4)) t5) 0x6ed9eba1) in
    let v_bb := t6 in
    let* t7 := index v_bb 4 in
    let* t8 := index v_bb 3 in
    let* t9 := store v_bb 4 (wrapping_add 32 (rotate_left 32 8 t7) t8) in
    let v_bb := t9 in
    let* t10 := index v_bb 1 in
    let* t11 := store v_bb 1 (rotate_left 32 10 t10) in
    let v_bb := t11 in
    Ok v_bb) in
  let* v_bb := (
    let* t1 := index v_bb 3 in
    let* t2 := index v_bb 4 in
    let* t3 := index v_bb 0 in
    let* t4 := index v_bb 1 in
    let* t5 := index v_w 0 in
    let* t6 := store v_bb 3 (wrapping_add 32 (wrapping_add 32 (wrapping_add 32 t1 (N.lxor (N.lor t2 (bit_not 32 t3)) t4)) t5) 0x6ed9eba1) in
    let v_bb := t6 in
    let* t7 := index v_bb 3 in
    let* t8 := index v_bb 2 in
    let* t9 := store v_bb 3 (wrapping_add 32 (rotate_left 32 13 t7) t8) in
    let v_bb := t9 in
    let* t10 := index v_bb 0 in
    let* t11 := store v_bb 0 (rotate_left 32 10 t10) in
    let v_bb := t11 in
    Ok v_bb) in
  let* v_bb := (
    let* t1 := index v_bb 2 in
    let* t2 := index v_bb 3 in
    let* t3 := index v_bb 4 in
    let* t4 := index v_bb 0 in
    let* t5 := index v_w 6 in
    let* t6 := store v_bb 2 (wrapping_add 32 (wrapping_add 32 (wrapping_add 32 t1 (N.lxor (N.lor t2 (bit_not 32 t3)) t4)) t5) 0x6ed9eba1) in
    let v_bb := t6 in
    let* t7 := index v_bb 2 in
    let* t8 := index v_bb 1 in
    let* t9 := store v_bb 2 (wrapping_add 32 (rotate_left 32 6 t7) t8) in
    let v_bb := t9 in
    let* t10 := index v_bb 4 in
    let* t11 := store v_bb 4 (rotate_left 32 10 t10) in
    let v_bb := t11 in
    Ok v_bb) in
  let* v_bb := (
    let* t1 := index v_bb 1 in
    let* t2 := index v_bb 2 in
    let* t3 := index v_bb 3 in
    let* t4 := index v_bb 4 in
    let* t5 := index v_w 13 in
    let* t6 := store v_bb 1 (wrapping_add 32 (wrapping_add 32 (wrapping_add 32 t1 (N.lxor (N.lor t2 (bit_not 32 t3)) t4)) t5) 0x6ed9eba1) in
    let v_bb := t6 in
    let* t7 := index v_bb 1 in
    let* t8 := index v_bb 0 in
    let* t9 := store v_bb 1 (wrapping_add 32 (rotate_left 32 5 t7) t8) in
    let v_bb := t9 in
    let* t10 := index v_bb 3 in
    let* t11 := store v_bb 3 (rotate_left 32 10 t10) in
    let v_bb := t11 in
    Ok v_bb) in
  let* v_bb := (
    let* t1 := index v_bb 0 in
    let* t2 := index v_bb 1 in
    let* t3 := index v_bb 2 in
    let* t4 := index v_bb 3 in
    let* t5 := index v_w 11 in
    let* t6 := store v_bb 0 (wrapping_add 32 (wrapping_add 32 (wrapping_add 32 t1 (N.lxor (N.lor t2 (bit_not 32 t3)) t4)) t5) 0x6ed9eba1) in
    let v_bb := t6 in
    let* t7 := index v_bb 0 in
    let* t8 := index v_bb 4 in
    let* t9 := store v_bb 0 (wrapping_add 32 (rotate_left 32 12 t7) t8) in
    let v_bb := t9 in
    let* t10 := index v_bb 2 in
    let* t11 := store v_bb 2 (rotate_left 32 10 t10) in
    let v_bb := t11 in
    Ok v_bb) in
  let* v_bb := (
    let* t1 := index v_bb 4 in
    let* t2 := index v_bb 0 in
    let* t3 := index v_bb 1 in
    let* t4 := index v_bb 2 in
    let* t5 := index v_w 5 in
    let* t6 := store v_bb 4 (wrapping_add 32 (wrapping_add 32 (wrapping_add 32 t1 (N.lxor (N.lor t2 (bit_not 32 t3)) t4)) t5) 0x6ed9eba1) in
    let v_bb := t6 in
    let* t7 := index v_bb 4 in
    let* t8 := index v_bb 3 in
    let* t9 := store v_bb 4 (wrapping_add 32 (rotate_left 32 7 t7) t8) in
    let v_bb := t9 in
    let* t10 := index v_bb 1 in
    let* t11 := store v_bb 1 (rotate_left 32 10 t10) in
    let v_bb := t11 in
    Ok v_bb) in
  let* v_bb := (
    let* t1 := index v_bb 3 in
    let* t2 := index v_bb 4 in
    let* t3 := index v_bb 0 in
    let* t4 := index v_bb 1 in
    let* t5 := index v_w 12 in
    let* t6 := store v_bb 3 (wrapping_add 32 (wrapping_add 32 (wrapping_add 32 t1 (N.lxor (N.lor t2 (bit_not 32 t3)) t4)) t5) 0x6ed9eba1) in
    let v_bb := t6 in
    let* t7 := index v_bb 3 in
    let* t8 := index v_bb 2 in
    let* t9 := store v_bb 3 (wrapping_add 32 (rotate_left 32 5 t7) t8) in
    let v_bb := t9 in
    let* t10 := index v_bb 0 in
    let* t11 := store v_bb 0 (rotate_left 32 10 t10) in
    let v_bb := t11 in
    Ok v_bb) in
  g_ripemd160_Engine_process_block_fast_part3 v_self v_w v_bb v_bbb.

Definition g_ripemd160_Engine_process_block_fast_part1 v_self v_w v_bb v_bbb : res (engine) :=
  let* v_bb := (
    let* t1 := index v_bb 4 in
    let* t2 := index v_bb 0 in
    let* t3 := index v_bb 1 in
    let* t4 := index v_bb 0 in
    let* t5 := index v_bb 2 in
    let* t6 := index v_w 7 in
    let* t7 := store v_bb 4 (wrapping_add 32 (wrapping_add 32 (wrapping_add 32 t1 (N.lor (N.land t2 t3) (N.land (bit_not 32 t4) t5))) t6) 0x5a827999) in
    let v_bb := t7 in
    let* t8 := index v_bb 4 in
    let* t9 := index v_bb 3 in
    let* t10 := store v_bb 4 (wrapping_add 32 (rotate_left 32 7 t8) t9) in
    let v_bb := t10 in
    let* t11 := index v_bb 1 in
    let* t12 := store v_bb 1 (rotate_left 32 10 t11) in
    let v_bb := t12 in
    Ok v_bb) in
  let* v_bb := (
    let* t1 := index v_bb 3 in
    let* t2 := index v_bb 4 in
    let* t3 := index v_bb 0 in
    let* t4 := index v_bb 4 in
    let* t5 := index v_bb 1 in
    let* t6 := index v_w 4 in
    let* t7 := store v_bb 3 (wrapping_add 32 (wrapping_add 32 (wrapping_add 32 t1 (N.lor (N.land t2 t3) (N.land (bit_not 32 t4) t5))) t6) 0x5a827999) in
    let v_bb := t7 in
    let* t8 := index v_bb 3 in
    let* t9 := index v_bb 2 in
    let* t10 := store v_bb 3 (wrapping_add 32 (rotate_left 32 6 t8) t9) in
    let v_bb := t10 in
    let* t11 := index v_bb 0 in
    let* t12 := store v_bb 0 (rotate_left 32 10 t11) in
    let v_bb := t12 in
    Ok v_bb) in
  let* v_bb := (
    let* t1 := index v_bb 2 in
    let* t2 := index v_bb 3 in
    let* t3 := index v_bb 4 in
    let* t4 := index v_bb 3 in
    let* t5 := index v_bb 0 in
    let* t6 := index v_w 13 in
    let* t7 := store v_bb 2 (wrapping_add 32 (wrapping_add 32 (wrapping_add 32 t1 (N.lor (N.land t2 t3) (N.land (bit_not 32 t4) t5))) t6) 0x5a827999) in
    let v_bb := t7 in
    let* t8 := index v_bb 2 in
    let* t9 := index v_bb 1 in
    let* t10 := store v_bb 2 (wrapping_add 32 (rotate_left 32 8 t8) t9) in
    let v_bb := t10 in
    let* t11 := index v_bb 4 in
    let* t12 := store v_bb 4 (rotate_left 32 10 t11) in
    let v_bb := t12 in
    Ok v_bb) in
  let* v_bb := (
    let* t1 := index v_bb 1 in
    let* t2 := index v_bb 2 in
    let* t3 := index v_bb 3 in
    let* t4 := index v_bb 2 in
    let* t5 := index v_bb 4 in
    let* t6 := index v_w 1 in
    let* t7 := store v_bb 1 (wrapping_add 32 (wrapping_add 32 (wrapping_add 32 t1 (N.lor (N.land t2 t3) (N.land (bit_not 32 t4) t5))) t6) 0x5a827999) in
    let v_bb := t7 in
    let* t8 := index v_bb 1 in
    let* t9 := index v_bb 0 in
    let* t10 := store v_bb 1 (wrapping_add 32 (rotate_left 32 13 t8) t9) in
    let v_bb := t10 in
    let* t11 := index v_bb 3 in
    let* t12 := store v_bb 3 (rotate_left 32 10 t11) in
    let v_bb := t12 in
    Ok v_bb) in
  let* v_bb := (
    let* t1 := index v_bb 0 in
    let* t2 := index v_bb 1 in
    let* t3 := index v_bb 2 in
    let* t4 := index v_bb 1 in
    let* t5 := index v_bb 3 in
    let* t6 := index v_w 10 in
    let* t7 := store v_bb 0 (wrapping_add 32 (wrapping_add 32 (wrapping_add 32 t1 (N.lor (N.land t2 t3) (N.land (bit_not 32 t4) t5))) t6) 0x5a827999) in
    let v_bb := t7 in
    let* t8 := index v_bb 0 in
    let* t9 := index v_bb 4 in
    let* t10 := store v_bb 0 (wrapping_add 32 (rotate_left 32 11 t8) t9) in
    let v_bb := t10 in
    let* t11 := index v_bb 2 in
    let* t12 := store v_bb 2 (rotate_left 32 10 t11) in
    let v_bb := t12 in
    Ok v_bb) in
  let* v_bb := (
    let* t1 := index v_bb 4 in
    let* t2 := index v_bb 0 in
    let* t3 := index v_bb 1 in
    let* t4 := index v_bb 0 in
    let* t5 := index v_bb 2 in
    let* t6 := index v_w 6 in
    let* t7 := store v_bb 4 (wrapping_add 32 (wrapping_add 32 (wrapping_add 32 t1 (N.lor (N.land t2 t3) (N.land (bit_not 32 t4) t5))) t6) 0x5a827999) in
    let v_bb := t7 in
    let* t8 := index v_bb 4 in
    let* t9 := index v_bb 3 in
    let* t10 := store v_bb 4 (wrapping_add 32 (rotate_left 32 9 t8) t9) in
    let v_bb := t10 in
    let* t11 := index v_bb 1 in
    let* t12 := store v_bb 1 (rotate_left 32 10 t11) in
    let v_bb := t12 in
    Ok v_bb) in
  let* v_bb := (
    let* t1 := index v_bb 3 in
    let* t2 := index v_bb 4 in
    let* t3 := index v_bb 0 in
    let* t4 := index v_bb 4 in
    let* t5 := index v_bb 1 in
    let* t6 := index v_w 15 in
    let* t7 := store v_bb 3 (wrapping_add 32 (wrapping_add 32 (wrapping_add 32 t1 (N.lor (N.land t2 t3) (N.land (bit_not 32 t4) t5))) t6) 0x5a827999) in
    let v_bb := t7 in
    let* t8 := index v_bb 3 in
    let* t9 := index v_bb 2 in
    let* t10 := store v_bb 3 (wrapping_add 32 (rotate_left 32 7 t8) t9) in
    let v_bb := t10 in
    let* t11 := index v_bb 0 in
    let* t12 := store v_bb 0 (rotate_left 32 10 t11) in
    let v_bb := t12 in
    Ok v_bb) in
  let* v_bb := (
    let* t1 := index v_bb 2 in
    let* t2 := index v_bb 3 in
    let* t3 := index v_bb 4 in
    let* t4 := index v_bb 3 in
    let* t5 := index v_bb 0 in
    let* t6 := index v_w 3 in
    let* t7 := store v_bb 2 (wrapping_add 32 (wrapping_add 32 (wrapping_add 32 t1 (N.lor (N.land t2 t3) (N.land (bit_not 32 t4) t5))) t6) 0x5a827999) in
    let v_bb := t7 in
    let* t8 := index v_bb 2 in
    let* t9 := index v_bb 1 in
    let* t10 := store v_bb 2 (wrapping_add 32 (rotate_left 32 15 t8) t9) in
    let v_bb := t10 in
    let* t11 := index v_bb 4 in
    let* t12 := store v_bb 4 (rotate_left 32 10 t11) in
    let v_bb := t12 in
    Ok v_bb) in
  let* v_bb := (
    let* t1 := index v_bb 1 in
    let* t2 := index v_bb 2 in
    let* t3 := index v_bb 3 in
    let* t4 := index v_bb 2 in
    let* t5 := index v_bb 4 in
    let* t6 := index v_w 12 in
    let* t7 := store v_bb 1 (wrapping_add 32 (wrapping_add 32 (wrapping_add 32 t1 (N.lor (N.land t2 t3) (N.land (bit_not 32 t4) t5))) t6) 0x5a827999) in
    let v_bb := t7 in
    let* t8 := index v_bb 1 in
    let* t9 := index v_bb 0 in
    let* t10 := store v_bb 1 (wrapping_add 32 (rotate_left 32 7 t8) t9) in
    let v_bb := t10 in
    let* t11 := index v_bb 3 in
    let* t12 := store v_bb 3 (rotate_left 32 10 t11) in
    let v_bb := t12 in
    Ok v_bb) in
  let* v_bb := (
    let* t1 := index v_bb 0 in
    let* t2 := index v_bb 1 in
    let* t3 := index v_bb 2 in
    let* t4 := index v_bb 1 in
    let* t5 := index v_bb 3 in
    let* t6 := index v_w 0 in
    let* t7 := store v_bb 0 (wrapping_add 32 (wrapping_add 32 (wrapping_add 32 t1 (N.lor (N.land t2 t3) (N.land (bit_not 32 t4) t5))) t6) 0x5a827999) in
    let v_bb := t7 in
    let* t8 := index v_bb 0 in
    let* t9 := index v_bb 4 in
    let* t10 := store v_bb 0 (wrapping_add 32 (rotate_left 32 12 t8) t9) in
    let v_bb := t10 in
    let* t11 := index v_bb 2 in
    let* t12 := store v_bb 2 (rotate_left 32 10 t11) in
    let v_bb := t12 in
    Ok v_bb) in
  let* v_bb := (
    let* t1 := index v_bb 4 in
    let* t2 := index v_bb 0 in
    let* t3 := index v_bb 1 in
    let* t4 := index v_bb 0 in
    let* t5 := index v_bb 2 in
    let* t6 := index v_w 9 in
    let* t7 := store v_bb 4 (wrapping_add 32 (wrapping_add 32 (wrapping_add 32 t1 (N.lor (N.land t2 t3) (N.land (bit_not 32 t4) t5))) t6) 0x5a827999) in
    let v_bb := t7 in
    let* t8 := index v_bb 4 in
    let* t9 := index v_bb 3 in
    let* t10 := store v_bb 4 (wrapping_add 32 (rotate_left 32 15 t8) t9) in
    let v_bb := t10 in
    let* t11 := index v_bb 1 in
    let* t12 := store v_bb 1 (rotate_left 32 10 t11) in
    let v_bb := t12 in
    Ok v_bb) in
  let* v_bb := (
    let* t1 := index v_bb 3 in
    let* t2 := index v_bb 4 in
    let* t3 := index v_bb 0 in
    let* t4 := index v_bb 4 in
    let* t5 := index v_bb 1 in
    let* t6 := index v_w 5 in
    let* t7 := store v_bb 3 (wrapping_add 32 (wrapping_add 32 (wrapping_add 32 t1 (N.lor (N.land t2 t3) (N.land (bit_not 32 t4) t5))) t6) 0x5a827999) in
    let v_bb := t7 in
    let* t8 := index v_bb 3 in
    let* t9 := index v_bb 2 in
    let* t10 := store v_bb 3 (wrapping_add 32 (rotate_left 32 9 t8) t9) in
    let v_bb := t10 in
    let* t11 := index v_bb 0 in
    let* t12 := store v_bb 0 (rotate_left 32 10 t11) in
    let v_bb := t12 in
    Ok v_bb) in
  let* v_bb := (
    let* t1 := index v_bb 2 in
    let* t2 := index v_bb 3 in
    let* t3 := index v_bb 4 in
    let* t4 := index v_bb 3 in
    let* t5 := index v_bb 0 in
    let* t6 := index v_w 2 in
    let* t7 := store v_bb 2 (wrapping_add 32 (wrapping_add 32 (wrapping_add 32 t1 (N.lor (N.land t2 t3) (N.land (bit_not 32 t4) t5))) t6) 0x5a827999) in
    let v_bb := t7 in
    let* t8 := index v_bb 2 in
    let* t9 := index v_bb 1 in
    let* t10 := store v_bb 2 (wrapping_add 32 (rotate_left 32 11 t8) t9) in
    let v_bb := t10 in
    let* t11 := index v_bb 4 in
    let* t12 := store v_bb 4 (rotate_left 32 10 t11) in
    let v_bb := t12 in
    Ok v_bb) in
  let* v_bb := (
    let* t1 := index v_bb 1 in
    let* t2 := index v_bb 2 in
    let* t3 := index v_bb 3 in
    let* t4 := index v_bb 2 in
    let* t5 := index v_bb 4 in
    let* t6 := index v_w 14 in
    let* t7 := store v_bb 1 (wrapping_add 32 (wrapping_add 32 (wrapping_add 32 t1 (N.lor (N.land t2 t3) (N.land (bit_not 32 t4) t5))) t6) 0x5a827999) in
    let v_bb := t7 in
    let* t8 := index v_bb 1 in
    let* t9 := index v_bb 0 in
    let* t10 := store v_bb 1 (wrapping_add 32 (rotate_left 32 7 t8) t9) in
    let v_bb := t10 in
    let* t11 := index v_bb 3 in
    let* t12 := store v_bb 3 (rotate_left 32 10 t11) in
    let v_bb := t12 in
    Ok v_bb) in
  let* v_bb := (
    let* t1 := index v_bb 0 in
    let* t2 := index v_bb 1 in
    let* t3 := index v_bb 2 in
    let* t4 := index v_bb 1 in
    let* t5 := index v_bb 3 in
    let* t6 := index v_w 11 in
    let* t7 := store v_bb 0 (wrapping_add 32 (wrapping_add 32 (wrapping_add 32 t1 (N.lor (N.land t2 t3) (N.land (bit_not 32 t4) t5))) t6) 0x5a827999) in
    let v_bb := t7 in
    let* t8 := index v_bb 0 in
    let* t9 := index v_bb 4 in
    let* t10 := store v_bb 0 (wrapping_add 32 (rotate_left 32 13 t8) t9) in
    let v_bb := t10 in
    let* t11 := index v_bb 2 in
    let* t12 := store v_bb 2 (rotate_left 32 10 t11) in
    let v_bb := t12 in
    Ok v_bb) in
  let* v_bb := (
    let* t1 := index v_bb 4 in
    let* t2 := index v_bb 0 in
    let* t3 := index v_bb 1 in
    let* t4 := index v_bb 0 in
    let* t5 := index v_bb 2 in
    let* t6 := index v_w 8 in
    let* t7 := store v_bb 4 (wrapping_add 32 (wrapping_add 32 (wrapping_add 32 t1 (N.lor (N.land t2 t3) (N.land (bit_not 32 t4) t5))) t6) 0x5a827999) in
    let v_bb := t7 in
    let* t8 := index v_bb 4 in
    let* t9 := index v_bb 3 in
    let* t10 := store v_bb 4 (wrapping_add 32 (rotate_left 32 12 t8) t9) in
    let v_bb := t10 in
    let* t11 := index v_bb 1 in
    let* t12 := store v_bb 1 (rotate_left 32 10 t11) in
    let v_bb := t12 in
    Ok v_bb) in
  g_ripemd160_Engine_process_block_fast_part2 v_self v_w v_bb v_bbb.

Definition g_ripemd160_Engine_process_block_fast (cfg : config) (v_self : engine) : res (engine) :=
  let* _ := debug_assert cfg ((len (e_buffer v_self)) =? 64) in
  let v_w := array 0 16 in
  let* v_w := zip_iter_mut v_w (chunks_exact 4 (e_buffer v_self)) (fun v_w_val v_buff_bytes =>
      let* t1 := from_le_bytes 4 v_buff_bytes in
      let v_w_val := t1 in
      Ok v_w_val) in
  let v_bb := e_h v_self in
  let v_bbb := e_h v_self in
  let* v_bb := (
    let* t1 := index v_bb 0 in
    let* t2 := index v_bb 1 in
    let* t3 := index v_bb 2 in
    let* t4 := index v_bb 3 in
    let* t5 := index v_w 0 in
    let* t6 := store v_bb 0 (wrapping_add 32 (wrapping_add 32 (wrapping_add 32 t1 (N.lxor (N.lxor t2 t3) t4)) t5) 0) in
    let v_bb := t6 in
    let* t7 := index v_bb 0 in
    let* t8 := index v_bb 4 in
    let* t9 := store v_bb 0 (wrapping_add 32 (rotate_left 32 11 t7) t8) in
    let v_bb := t9 in
    let* t10 := index v_bb 2 in
    let* t11 := store v_bb 2 (rotate_left 32 10 t10) in
    let v_bb := t11 in
    Ok v_bb) in
  let* v_bb := (
    let* t1 := index v_bb 4 in
    let* t2 := index v_bb 0 in
    let* t3 := index v_bb 1 in
    let* t4 := index v_bb 2 in
    let* t5 := index v_w 1 in
    let* t6 := store v_bb 4 (wrapping_add 32 (wrapping_add 32 (wrapping_add 32 t1 (N.lxor (N.lxor t2 t3) t4)) t5) 0) in
    let v_bb := t6 in
    let* t7 := index v_bb 4 in
    let* t8 := index v_bb 3 in
    let* t9 := store v_bb 4 (wrapping_add 32 (rotate_left 32 14 t7) t8) in
    let v_bb := t9 in
    let* t10 := index v_bb 1 in
    let* t11 := store v_bb 1 (rotate_left 32 10 t10) in
    let v_bb := t11 in
    Ok v_bb) in
  let* v_bb := (
    let* t1 := index v_bb 3 in
    let* t2 := index v_bb 4 in
    let* t3 := index v_bb 0 in
    let* t4 := index v_bb 1 in
    let* t5 := index v_w 2 in
    let* t6 := store v_bb 3 (wrapping_add 32 (wrapping_add 32 (wrapping_add 32 t1 (N.lxor (N.lxor t2 t3) t4)) t5) 0) in
    let v_bb := t6 in
    let* t7 := index v_bb 3 in
    let* t8 := index v_bb 2 in
    let* t9 := store v_bb 3 (wrapping_add 32 (rotate_left 32 15 t7) t8) in
    let v_bb := t9 in
    let* t10 := index v_bb 0 in
    let* t11 := store v_bb 0 (rotate_left 32 10 t10) in
    let v_bb := t11 in
    Ok v_bb) in
  let* v_bb := (
    let* t1 := index v_bb 2 in
    let* t2 := index v_bb 3 in
    let* t3 := index v_bb 4 in
    let* t4 := index v_bb 0 in
    let* t5 := index v_w 3 in
    let* t6 := store v_bb 2 (wrapping_add 32 (wrapping_add 32 (wrapping_add 32 t1 (N.lxor (N.lxor t2 t3) t4)) t5) 0) in
    let v_bb := t6 in
    let* t7 := index v_bb 2 in
    let* t8 := index v_bb 1 in
    let* t9 := store v_bb 2 (wrapping_add 32 (rotate_left 32 12 t7) t8) in
    let v_bb := t9 in
    let* t10 := index v_bb 4 in
    let* t11 := store v_bb 4 (rotate_left 32 10 t10) in
    let v_bb := t11 in
    Ok v_bb) in
  let* v_bb := (
    let* t1 := index v_bb 1 in
    let* t2 := index v_bb 2 in
    let* t3 := index v_bb 3 in
    let* t4 := index v_bb 4 in
    let* t5 := index v_w 4 in
    let* t6 := store v_bb 1 (wrapping_add 32 (wrapping_add 32 (wrapping_add 32 t1 (N.lxor (N.lxor t2 t3) t4)) t5) 0) in
    let v_bb := t6 in
    let* t7 := index v_bb 1 in
    let* t8 := index v_bb 0 in
    let* t9 := store v_bb 1 (wrapping_add 32 (rotate_left 32 5 t7) t8) in
    let v_bb := t9 in
    let* t10 := index v_bb 3 in
    let* t11 := store v_bb 3 (rotate_left 32 10 t10) in
    let v_bb := t11 in
    Ok v_bb) in
  let* v_bb := (
    let* t1 := index v_bb 0 in
    let* t2 := index v_bb 1 in
    let* t3 := index v_bb 2 in
    let* t4 := index v_bb 3 in
    let* t5 := index v_w 5 in
    let* t6 := store v_bb 0 (wrapping_add 32 (wrapping_add 32 (wrapping_add 32 t1 (N.lxor (N.lxor t2 t3) t4)) t5) 0) in
    let v_bb := t6 in
    let* t7 := index v_bb 0 in
    let* t8 := index v_bb 4 in
    let* t9 := store v_bb 0 (wrapping_add 32 (rotate_left 32 8 t7) t8) in
    let v_bb := t9 in
    let* t10 := index v_bb 2 in
    let* t11 := store v_bb 2 (rotate_left 32 10 t10) in
    let v_bb := t11 in
    Ok v_bb) in
  let* v_bb := (
    let* t1 := index v_bb 4 in
    let* t2 := index v_bb 0 in
    let* t3 := index v_bb 1 in
    let* t4 := index v_bb 2 in
    let* t5 := index v_w 6 in
    let* t6 := store v_bb 4 (wrapping_add 32 (wrapping_add 32 (wrapping_add 32 t1 (N.lxor (N.lxor t2 t3) t4)) t5) 0) in
    let v_bb := t6 in
    let* t7 := index v_bb 4 in
    let* t8 := index v_bb 3 in
    let* t9 := store v_bb 4 (wrapping_add 32 (rotate_left 32 7 t7) t8) in
    let v_bb := t9 in
    let* t10 := index v_bb 1 in
    let* t11 := store v_bb 1 (rotate_left 32 10 t10) in
    let v_bb := t11 in
    Ok v_bb) in
  let* v_bb := (
    let* t1 := index v_bb 3 in
    let* t2 := index v_bb 4 in
    let* t3 := index v_bb 0 in
    let* t4 := index v_bb 1 in
    let* t5 := index v_w 7 in
    let* t6 := store v_bb 3 (wrapping_add 32 (wrapping_add 32 (wrapping_add 32 t1 (N.lxor (N.lxor t2 t3) t4)) t5) 0) in
    let v_bb := t6 in
    let* t7 := index v_bb 3 in
    let* t8 := index v_bb 2 in
    let* t9 := store v_bb 3 (wrapping_add 32 (rotate_left 32 9 t7) t8) in
    let v_bb := t9 in
    let* t10 := index v_bb 0 in
    let* t11 := store v_bb 0 (rotate_left 32 10 t10) in
    let v_bb := t11 in
    Ok v_bb) in
  let* v_bb := (
    let* t1 := index v_bb 2 in
    let* t2 := index v_bb 3 in
    let* t3 := index v_bb 4 in
    let* t4 := index v_bb 0 in
    let* t5 := index v_w 8 in
    let* t6 := store v_bb 2 (wrapping_add 32 (wrapping_add 32 (wrapping_add 32 t1 (N.lxor (N.lxor t2 t3) t4)) t5) 0) in
    let v_bb := t6 in
    let* t7 := index v_bb 2 in
    let* t8 := index v_bb 1 in
    let* t9 := store v_bb 2 (wrapping_add 32 (rotate_left 32 11 t7) t8) in
    let v_bb := t9 in
    let* t10 := index v_bb 4 in
    let* t11 := store v_bb 4 (rotate_left 32 10 t10) in
    let v_bb := t11 in
    Ok v_bb) in
  let* v_bb := (
    let* t1 := index v_bb 1 in
    let* t2 := index v_bb 2 in
    let* t3 := index v_bb 3 in
    let* t4 := index v_bb 4 in
    let* t5 := index v_w 9 in
    let* t6 := store v_bb 1 (wrapping_add 32 (wrapping_add 32 (wrapping_add 32 t1 (N.lxor (N.lxor t2 t3) t4)) t5) 0) in
    let v_bb := t6 in
    let* t7 := index v_bb 1 in
    let* t8 := index v_bb 0 in
    let* t9 := store v_bb 1 (wrapping_add 32 (rotate_left 32 13 t7) t8) in
    let v_bb := t9 in
    let* t10 := index v_bb 3 in
    let* t11 := store v_bb 3 (rotate_left 32 10 t10) in
    let v_bb := t11 in
    Ok v_bb) in
  let* v_bb := (
    let* t1 := index v_bb 0 in
    let* t2 := index v_bb 1 in
    let* t3 := index v_bb 2 in
    let* t4 := index v_bb 3 in
    let* t5 := index v_w 10 in
    let* t6 := store v_bb 0 (wrapping_add 32 (wrapping_add 32 (wrapping_add 32 t1 (N.lxor (N.lxor t2 t3) t4)) t5) 0) in
    let v_bb := t6 in
    let* t7 := index v_bb 0 in
    let* t8 := index v_bb 4 in
    let* t9 := store v_bb 0 (wrapping_add 32 (rotate_left 32 14 t7) t8) in
    let v_bb := t9 in
    let* t10 := index v_bb 2 in
    let* t11 := store v_bb 2 (rotate_left 32 10 t10) in
    let v_bb := t11 in
    Ok v_bb) in
  let* v_bb := (
    let* t1 := index v_bb 4 in
    let* t2 := index v_bb 0 in
    let* t3 := index v_bb 1 in
    let* t4 := index v_bb 2 in
    let* t5 := index v_w 11 in
    let* t6 := store v_bb 4 (wrapping_add 32 (wrapping_add 32 (wrapping_add 32 t1 (N.lxor (N.lxor t2 t3) t4)) t5) 0) in
    let v_bb := t6 in
    let* t7 := index v_bb 4 in
    let* t8 := index v_bb 3 in
    let* t9 := store v_bb 4 (wrapping_add 32 (rotate_left 32 15 t7) t8) in
    let v_bb := t9 in
    let* t10 := index v_bb 1 in
    let* t11 := store v_bb 1 (rotate_left 32 10 t10) in
    let v_bb := t11 in
    Ok v_bb) in
  let* v_bb := (
    let* t1 := index v_bb 3 in
    let* t2 := index v_bb 4 in
    let* t3 := index v_bb 0 in
    let* t4 := index v_bb 1 in
    let* t5 := index v_w 12 in
    let* t6 := store v_bb 3 (wrapping_add 32 (wrapping_add 32 (wrapping_add 32 t1 (N.lxor (N.lxor t2 t3) t4)) t5) 0) in
    let v_bb := t6 in
    let* t7 := index v_bb 3 in
    let* t8 := index v_bb 2 in
    let* t9 := store v_bb 3 (wrapping_add 32 (rotate_left 32 6 t7) t8) in
    let v_bb := t9 in
    let* t10 := index v_bb 0 in
    let* t11 := store v_bb 0 (rotate_left 32 10 t10) in
    let v_bb := t11 in
    Ok v_bb) in
  let* v_bb := (
    let* t1 := index v_bb 2 in
    let* t2 := index v_bb 3 in
    let* t3 := index v_bb 4 in
    let* t4 := index v_bb 0 in
    let* t5 := index v_w 13 in
    let* t6 := store v_bb 2 (wrapping_add 32 (wrapping_add 32 (wrapping_add 32 t1 (N.lxor (N.lxor t2 t3) t4)) t5) 0) in
    let v_bb := t6 in
    let* t7 := index v_bb 2 in
    let* t8 := index v_bb 1 in
    let* t9 := store v_bb 2 (wrapping_add 32 (rotate_left 32 7 t7) t8) in
    let v_bb := t9 in
    let* t10 := index v_bb 4 in
    let* t11 := store v_bb 4 (rotate_left 32 10 t10) in
    let v_bb := t11 in
    Ok v_bb) in
  let* v_bb := (
    let* t1 := index v_bb 1 in
    let* t2 := index v_bb 2 in
    let* t3 := index v_bb 3 in
    let* t4 := index v_bb 4 in
    let* t5 := index v_w 14 in
    let* t6 := store v_bb 1 (wrapping_add 32 (wrapping_add 32 (wrapping_add 32 t1 (N.lxor (N.lxor t2 t3) t4)) t5) 0) in
    let v_bb := t6 in
    let* t7 := index v_bb 1 in
    let* t8 := index v_bb 0 in
    let* t9 := store v_bb 1 (wrapping_add 32 (rotate_left 32 9 t7) t8) in
    let v_bb := t9 in
    let* t10 := index v_bb 3 in
    let* t11 := store v_bb 3 (rotate_left 32 10 t10) in
    let v_bb := t11 in
    Ok v_bb) in
  let* v_bb := (
    let* t1 := index v_bb 0 in
    let* t2 := index v_bb 1 in
    let* t3 := index v_bb 2 in
    let* t4 := index v_bb 3 in
    let* t5 := index v_w 15 in
    let* t6 := store v_bb 0 (wrapping_add 32 (wrapping_add 32 (wrapping_add 32 t1 (N.lxor (N.lxor t2 t3) t4)) t5) 0) in
    let v_bb := t6 in
    let* t7 := index v_bb 0 in
    let* t8 := index v_bb 4 in
    let* t9 := store v_bb 0 (wrapping_add 32 (rotate_left 32 8 t7) t8) in
    let v_bb := t9 in
    let* t10 := index v_bb 2 in
    let* t11 := store v_bb 2 (rotate_left 32 10 t10) in
    let v_bb := t11 in
    Ok v_bb) in
  g_ripemd160_Engine_process_block_fast_part1 v_self v_w v_bb v_bbb.

(** process_block, src/ripemd160.rs:228-417; feature small-hash on *)
Definition g_ripemd160_Engine_process_block_small_part10 v_self v_bb v_bbb : res (engine) :=
  let* t1 := index v_bbb 3 in
  let* t2 := index (e_h v_self) 1 in
  let* t3 := index v_bb 2 in
  let* t4 := store v_bbb 3 (wrapping_add 32 (wrapping_add 32 t1 t2) t3) in
  let v_bbb := t4 in
  let* t5 := index (e_h v_self) 2 in
  let* t6 := index v_bb 3 in
  let* t7 := index v_bbb 4 in
  let* t8 := store (e_h v_self) 1 (wrapping_add 32 (wrapping_add 32 t5 t6) t7) in
  let v_self := mk_engine (e_buffer v_self) t8 (e_length v_self) in
  let* t9 := index (e_h v_self) 3 in
  let* t10 := index v_bb 4 in
  let* t11 := index v_bbb 0 in
  let* t12 := store (e_h v_self) 2 (wrapping_add 32 (wrapping_add 32 t9 t10) t11) in
  let v_self := mk_engine (e_buffer v_self) t12 (e_length v_self) in
  let* t13 := index (e_h v_self) 4 in
  let* t14 := index v_bb 0 in
  let* t15 := index v_bbb 1 in
  let* t16 := store (e_h v_self) 3 (wrapping_add 32 (wrapping_add 32 t13 t14) t15) in
  let v_self := mk_engine (e_buffer v_self) t16 (e_length v_self) in
  let* t17 := index (e_h v_self) 0 in
  let* t18 := index v_bb 1 in
  let* t19 := index v_bbb 2 in
  let* t20 := store (e_h v_self) 4 (wrapping_add 32 (wrapping_add 32 t17 t18) t19) in
  let v_self := mk_engine (e_buffer v_self) t20 (e_length v_self) in
  let* t21 := index v_bbb 3 in
  let* t22 := store (e_h v_self) 0 t21 in
  let v_self := mk_engine (e_buffer v_self) t22 (e_length v_self) in
  Ok v_self.

Definition g_ripemd160_Engine_process_block_small_part9 v_self v_w v_bb v_bbb : res (engine) :=
  let* v_bbb := (
    let* t1 := index v_bbb 1 in
    let* t2 := index v_bbb 2 in
    let* t3 := index v_bbb 3 in
    let* t4 := index v_bbb 4 in
    let* t5 := index v_bbb 0 in
    let* t6 := index v_w 12 in
    let* t7 := index v_bbb 2 in
    let* t8 := index v_bbb 3 in
    let* t9 := index v_bbb 4 in
    let v_updates := g_ripemd160_small_hash_round t1 t2 t3 t4 t5 t6 8 0 (N.lxor (N.lxor t7 t8) t9) in
    let '(t10, _) := v_updates in
    let* t11 := store v_bbb 1 t10 in
    let v_bbb := t11 in
    let '(_, t12) := v_updates in
    let* t13 := store v_bbb 3 t12 in
    let v_bbb := t13 in
    Ok v_bbb) in
  let* v_bbb := (
    let* t1 := index v_bbb 0 in
    let* t2 := index v_bbb 1 in
    let* t3 := index v_bbb 2 in
    let* t4 := index v_bbb 3 in
    let* t5 := index v_bbb 4 in
    let* t6 := index v_w 15 in
    let* t7 := index v_bbb 1 in
    let* t8 := index v_bbb 2 in
    let* t9 := index v_bbb 3 in
    let v_updates := g_ripemd160_small_hash_round t1 t2 t3 t4 t5 t6 5 0 (N.lxor (N.lxor t7 t8) t9) in
    let '(t10, _) := v_updates in
    let* t11 := store v_bbb 0 t10 in
    let v_bbb := t11 in
    let '(_, t12) := v_updates in
    let* t13 := store v_bbb 2 t12 in
    let v_bbb := t13 in
    Ok v_bbb) in
  let* v_bbb := (
    let* t1 := index v_bbb 4 in
    let* t2 := index v_bbb 0 in
    let* t3 := index v_bbb 1 in
    let* t4 := index v_bbb 2 in
    let* t5 := index v_bbb 3 in
    let* t6 := index v_w 10 in
    let* t7 := index v_bbb 0 in
    let* t8 := index v_bbb 1 in
    let* t9 := index v_bbb 2 in
    let v_updates := g_ripemd160_small_hash_round t1 t2 t3 t4 t5 t6 12 0 (N.lxor (N.lxor t7 t8) t9) in
    let '(t10, _) := v_updates in
    let* t11 := store v_bbb 4 t10 in
    let v_bbb := t11 in
    let '(_, t12) := v_updates in
    let* t13 := store v_bbb 1 t12 in
    let v_bbb := t13 in
    Ok v_bbb) in
  let* v_bbb := (
    let* t1 := index v_bbb 3 in
    let* t2 := index v_bbb 4 in
    let* t3 := index v_bbb 0 in
    let* t4 := index v_bbb 1 in
    let* t5 := index v_bbb 2 in
    let* t6 := index v_w 4 in
    let* t7 := index v_bbb 4 in
    let* t8 := index v_bbb 0 in
    let* t9 := index v_bbb 1 in
    let v_updates := g_ripemd160_small_hash_round t1 t2 t3 t4 t5 t6 9 0 (N.lxor (N.lxor t7 t8) t9) in
    let '(t10, _) := v_updates in
    let* t11 := store v_bbb 3 t10 in
    let v_bbb := t11 in
    let '(_, t12) := v_updates in
    let* t13 := store v_bbb 0 t12 in
    let v_bbb := t13 in
    Ok v_bbb) in
  let* v_bbb := (
    let* t1 := index v_bbb 2 in
    let* t2 := index v_bbb 3 in
    let* t3 := index v_bbb 4 in
    let* t4 := index v_bbb 0 in
    let* t5 := index v_bbb 1 in
    let* t6 := index v_w 1 in
    let* t7 := index v_bbb 3 in
    let* t8 := index v_bbb 4 in
    let* t9 := index v_bbb 0 in
    let v_updates := g_ripemd160_small_hash_round t1 t2 t3 t4 t5 t6 12 0 (N.lxor (N.lxor t7 t8) t9) in
    let '(t10, _) := v_updates in
    let* t11 := store v_bbb 2 t10 in
    let v_bbb := t11 in
    let '(_, t12) := v_updates in
    let* t13 := store v_bbb 4 t12 in
    let v_bbb := t13 in
    Ok v_bbb) in
  let* v_bbb := (
    let* t1 := index v_bbb 1 in
    let* t2 := index v_bbb 2 in
    let* t3 := index v_bbb 3 in
    let* t4 := index v_bbb 4 in
    let* t5 := index v_bbb 0 in
    let* t6 := index v_w 5 in
    let* t7 := index v_bbb 2 in
    let* t8 := index v_bbb 3 in
    let* t9 := index v_bbb 4 in
    let v_updates := g_ripemd160_small_hash_round t1 t2 t3 t4 t5 t6 5 0 (N.lxor (N.lxor t7 t8) t9) in
    let '(t10, _) := v_updates in
    let* t11 := store v_bbb 1 t10 in
    let v_bbb := t11 in
    let '(_, t12) := v_updates in
    let* t13 := store v_bbb 3 t12 in
    let v_bbb := t13 in
    Ok v_bbb) in
  let* v_bbb := (
    let* t1 := index v_bbb 0 in
    let* t2 := index v_bbb 1 in
    let* t3 := index v_bbb 2 in
    let* t4 := index v_bbb 3 in
    let* t5 := index v_bbb 4 in
    let* t6 := index v_w 8 in
    let* t7 := index v_bbb 1 in
    let* t8 := index v_bbb 2 in
    let* t9 := index v_bbb 3 in
    let v_updates := g_ripemd160_small_hash_round t1 t2 t3 t4 t5 t6 14 0 (N.lxor (N.lxor t7 t8) t9) in
    let '(t10, _) := v_updates in
    let* t11 := store v_bbb 0 t10 in
    let v_bbb := t11 in
    let '(_, t12) := v_updates in
    let* t13 := store v_bbb 2 t12 in
    let v_bbb := t13 in
    Ok v_bbb) in
  let* v_bbb := (
    let* t1 := index v_bbb 4 in
    let* t2 := index v_bbb 0 in
    let* t3 := index v_bbb 1 in
    let* t4 := index v_bbb 2 in
    let* t5 := index v_bbb 3 in
    let* t6 := index v_w 7 in
    let* t7 := index v_bbb 0 in
    let* t8 := index v_bbb 1 in
    let* t9 := index v_bbb 2 in
    let v_updates := g_ripemd160_small_hash_round t1 t2 t3 t4 t5 t6 6 0 (N.lxor (N.lxor t7 t8) t9) in
    let '(t10, _) := v_updates in
    let* t11 := store v_bbb 4 t10 in
    let v_bbb := t11 in
    let '(_, t12) := v_updates in
    let* t13 := store v_bbb 1 t12 in
    let v_bbb := t13 in
    Ok v_bbb) in
  let* v_bbb := (
    let* t1 := index v_bbb 3 in
    let* t2 := index v_bbb 4 in
    let* t3 := index v_bbb 0 in
    let* t4 := index v_bbb 1 in
    let* t5 := index v_bbb 2 in
    let* t6 := index v_w 6 in
    let* t7 := index v_bbb 4 in
    let* t8 := index v_bbb 0 in
    let* t9 := index v_bbb 1 in
    let v_updates := g_ripemd160_small_hash_round t1 t2 t3 t4 t5 t6 8 0 (N.lxor (N.lxor t7 t8) t9) in
    let '(t10, _) := v_updates in
    let* t11 := store v_bbb 3 t10 in
    let v_bbb := t11 in
    let '(_, t12) := v_updates in
    let* t13 := store v_bbb 0 t12 in
    let v_bbb := t13 in
    Ok v_bbb) in
  let* v_bbb := (
    let* t1 := index v_bbb 2 in
    let* t2 := index v_bbb 3 in
    let* t3 := index v_bbb 4 in
    let* t4 := index v_bbb 0 in
    let* t5 := index v_bbb 1 in
    let* t6 := index v_w 2 in
    let* t7 := index v_bbb 3 in
    let* t8 := index v_bbb 4 in
    let* t9 := index v_bbb 0 in
    let v_updates := g_ripemd160_small_hash_round t1 t2 t3 t4 t5 t6 13 0 (N.lxor (N.lxor t7 t8) t9) in
    let '(t10, _) := v_updates in
    let* t11 := store v_bbb 2 t10 in
    let v_bbb := t11 in
    let '(_, t12) := v_updates in
    let* t13 := store v_bbb 4 t12 in
    let v_bbb := t13 in
    Ok v_bbb) in
  let* v_bbb := (
    let* t1 := index v_bbb 1 in
    let* t2 := index v_bbb 2 in
    let* t3 := index v_bbb 3 in
    let* t4 := index v_bbb 4 in
    let* t5 := index v_bbb 0 in
    let* t6 := index v_w 13 in
    let* t7 := index v_bbb 2 in
    let* t8 := index v_bbb 3 in
    let* t9 := index v_bbb 4 in
    let v_updates := g_ripemd160_small_hash_round t1 t2 t3 t4 t5 t6 6 0 (N.lxor (N.lxor t7 t8) t9) in
    let '(t10, _) := v_updates in
    let* t11 := store v_bbb 1 t10 in
    let v_bbb := t11 in
    let '(_, t12) := v_updates in
    let* t13 := store v_bbb 3 t12 in
    let v_bbb := t13 in
    Ok v_bbb) in
  let* v_bbb := (
    let* t1 := index v_bbb 0 in
    let* t2 := index v_bbb 1 in
    let* t3 := index v_bbb 2 in
    let* t4 := index v_bbb 3 in
    let* t5 := index v_bbb 4 in
    let* t6 := index v_w 14 in
    let* t7 := index v_bbb 1 in
    let* t8 := index v_bbb 2 in
    let* t9 := index v_bbb 3 in
    let v_updates := g_ripemd160_small_hash_round t1 t2 t3 t4 t5 t6 5 0 (N.lxor (N.lxor t7 t8) t9) in
    let '(t10, _) := v_updates in
    let* t11 := store v_bbb 0 t10 in
    let v_bbb := t11 in
    let '(_, t12) := v_updates in
    let* t13 := store v_bbb 2 t12 in
    let v_bbb := t13 in
    Ok v_bbb) in
  let* v_bbb := (
    let* t1 := index v_bbb 4 in
    let* t2 := index v_bbb 0 in
    let* t3 := index v_bbb 1 in
    let* t4 := index v_bbb 2 in
    let* t5 := index v_bbb 3 in
    let* t6 := index v_w 0 in
    let* t7 := index v_bbb 0 in
    let* t8 := index v_bbb 1 in
    let* t9 := index v_bbb 2 in
    let v_updates := g_ripemd160_small_hash_round t1 t2 t3 t4 t5 t6 15 0 (N.lxor (N.lxor t7 t8) t9) in
    let '(t10, _) := v_updates in
    let* t11 := store v_bbb 4 t10 in
    let v_bbb := t11 in
    let '(_, t12) := v_updates in
    let* t13 := store v_bbb 1 t12 in
    let v_bbb := t13 in
    Ok v_bbb) in
  let* v_bbb := (
    let* t1 := index v_bbb 3 in
    let* t2 := index v_bbb 4 in
    let* t3 := index v_bbb 0 in
    let* t4 := index v_bbb 1 in
    let* t5 := index v_bbb 2 in
    let* t6 := index v_w 3 in
    let* t7 := index v_bbb 4 in
    let* t8 := index v_bbb 0 in
    let* t9 := index v_bbb 1 in
    let v_updates := g_ripemd160_small_hash_round t1 t2 t3 t4 t5 t6 13 0 (N.lxor (N.lxor t7 t8) t9) in
    let '(t10, _) := v_updates in
    let* t11 := store v_bbb 3 t10 in
    let v_bbb := t11 in
    let '(_, t12) := v_updates in
    let* t13 := store v_bbb 0 t12 in
    let v_bbb := t13 in
    Ok v_bbb) in
  let* v_bbb := (
    let* t1 := index v_bbb 2 in
    let* t2 := index v_bbb 3 in
    let* t3 := index v_bbb 4 in
    let* t4 := index v_bbb 0 in
    let* t5 := index v_bbb 1 in
    let* t6 := index v_w 9 in
    let* t7 := index v_bbb 3 in
    let* t8 := index v_bbb 4 in
    let* t9 := index v_bbb 0 in
    let v_updates := g_ripemd160_small_hash_round t1 t2 t3 t4 t5 t6 11 0 (N.lxor (N.lxor t7 t8) t9) in
    let '(t10, _) := v_updates in
    let* t11 := store v_bbb 2 t10 in
    let v_bbb := t11 in
    let '(_, t12) := v_updates in
    let* t13 := store v_bbb 4 t12 in
    let v_bbb := t13 in
    Ok v_bbb) in
  let* v_bbb := (
    let* t1 := index v_bbb 1 in
    let* t2 := index v_bbb 2 in
    let* t3 := index v_bbb 3 in
    let* t4 := index v_bbb 4 in
    let* t5 := index v_bbb 0 in
    let* t6 := index v_w 11 in
    let* t7 := index v_bbb 2 in
    let* t8 := index v_bbb 3 in
    let* t9 := index v_bbb 4 in
    let v_updates := g_ripemd160_small_hash_round t1 t2 t3 t4 t5 t6 11 0 (N.lxor (N.lxor t7 t8) t9) in
    let '(t10, _) := v_updates in
    let* t11 := store v_bbb 1 t10 in
    let v_bbb := t11 in
    let '(_, t12) := v_updates in
    let* t13 := store v_bbb 3 t12 in
    let v_bbb := t13 in
    Ok v_bbb) in
  g_ripemd160_Engine_process_block_small_part10 v_self v_bb v_bbb.

Definition g_ripemd160_Engine_process_block_small_part8 v_self v_w v_bb v_bbb : res (engine) :=
  let* v_bbb := (
    let* t1 := index v_bbb 2 in
    let* t2 := index v_bbb 3 in
    let* t3 := index v_bbb 4 in
    let* t4 := index v_bbb 0 in
    let* t5 := index v_bbb 1 in
    let* t6 := index v_w 8 in
    let* t7 := index v_bbb 3 in
    let* t8 := index v_bbb 4 in
    let* t9 := index v_bbb 3 in
    let* t10 := index v_bbb 0 in
    let v_updates := g_ripemd160_small_hash_round t1 t2 t3 t4 t5 t6 15 0x7a6d76e9 (N.lor (N.land t7 t8) (N.land (bit_not 32 t9) t10)) in
    let '(t11, _) := v_updates in
    let* t12 := store v_bbb 2 t11 in
    let v_bbb := t12 in
    let '(_, t13) := v_updates in
    let* t14 := store v_bbb 4 t13 in
    let v_bbb := t14 in
    Ok v_bbb) in
  let* v_bbb := (
    let* t1 := index v_bbb 1 in
    let* t2 := index v_bbb 2 in
    let* t3 := index v_bbb 3 in
    let* t4 := index v_bbb 4 in
    let* t5 := index v_bbb 0 in
    let* t6 := index v_w 6 in
    let* t7 := index v_bbb 2 in
    let* t8 := index v_bbb 3 in
    let* t9 := index v_bbb 2 in
    let* t10 := index v_bbb 4 in
    let v_updates := g_ripemd160_small_hash_round t1 t2 t3 t4 t5 t6 5 0x7a6d76e9 (N.lor (N.land t7 t8) (N.land (bit_not 32 t9) t10)) in
    let '(t11, _) := v_updates in
    let* t12 := store v_bbb 1 t11 in
    let v_bbb := t12 in
    let '(_, t13) := v_updates in
    let* t14 := store v_bbb 3 t13 in
    let v_bbb := t14 in
    Ok v_bbb) in
  let* v_bbb := (
    let* t1 := index v_bbb 0 in
    let* t2 := index v_bbb 1 in
    let* t3 := index v_bbb 2 in
    let* t4 := index v_bbb 3 in
    let* t5 := index v_bbb 4 in
    let* t6 := index v_w 4 in
    let* t7 := index v_bbb 1 in
    let* t8 := index v_bbb 2 in
    let* t9 := index v_bbb 1 in
    let* t10 := index v_bbb 3 in
    let v_updates := g_ripemd160_small_hash_round t1 t2 t3 t4 t5 t6 8 0x7a6d76e9 (N.lor (N.land t7 t8) (N.land (bit_not 32 t9) t10)) in
    let '(t11, _) := v_updates in
    let* t12 := store v_bbb 0 t11 in
    let v_bbb := t12 in
    let '(_, t13) := v_updates in
    let* t14 := store v_bbb 2 t13 in
    let v_bbb := t14 in
    Ok v_bbb) in
  let* v_bbb := (
    let* t1 := index v_bbb 4 in
    let* t2 := index v_bbb 0 in
    let* t3 := index v_bbb 1 in
    let* t4 := index v_bbb 2 in
    let* t5 := index v_bbb 3 in
    let* t6 := index v_w 1 in
    let* t7 := index v_bbb 0 in
    let* t8 := index v_bbb 1 in
    let* t9 := index v_bbb 0 in
    let* t10 := index v_bbb 2 in
    let v_updates := g_ripemd160_small_hash_round t1 t2 t3 t4 t5 t6 11 0x7a6d76e9 (N.lor (N.land t7 t8) (N.land (bit_not 32 t9) t10)) in
    let '(t11, _) := v_updates in
    let* t12 := store v_bbb 4 t11 in
    let v_bbb := t12 in
    let '(_, t13) := v_updates in
    let* t14 := store v_bbb 1 t13 in
    let v_bbb := t14 in
    Ok v_bbb) in
  let* v_bbb := (
    let* t1 := index v_bbb 3 in
    let* t2 := index v_bbb 4 in
    let* t3 := index v_bbb 0 in
    let* t4 := index v_bbb 1 in
    let* t5 := index v_bbb 2 in
    let* t6 := index v_w 3 in
    let* t7 := index v_bbb 4 in
    let* t8 := index v_bbb 0 in
    let* t9 := index v_bbb 4 in
    let* t10 := index v_bbb 1 in
    let v_updates := g_ripemd160_small_hash_round t1 t2 t3 t4 t5 t6 14 0x7a6d76e9 (N.lor (N.land t7 t8) (N.land (bit_not 32 t9) t10)) in
    let '(t11, _) := v_updates in
    let* t12 := store v_bbb 3 t11 in
    let v_bbb := t12 in
    let '(_, t13) := v_updates in
    let* t14 := store v_bbb 0 t13 in
    let v_bbb := t14 in
    Ok v_bbb) in
  let* v_bbb := (
    let* t1 := index v_bbb 2 in
    let* t2 := index v_bbb 3 in
    let* t3 := index v_bbb 4 in
    let* t4 := index v_bbb 0 in
    let* t5 := index v_bbb 1 in
    let* t6 := index v_w 11 in
    let* t7 := index v_bbb 3 in
    let* t8 := index v_bbb 4 in
    let* t9 := index v_bbb 3 in
    let* t10 := index v_bbb 0 in
    let v_updates := g_ripemd160_small_hash_round t1 t2 t3 t4 t5 t6 14 0x7a6d76e9 (N.lor (N.land t7 t8) (N.land (bit_not 32 t9) t10)) in
    let '(t11, _) := v_updates in
    let* t12 := store v_bbb 2 t11 in
    let v_bbb := t12 in
    let '(_, t13) := v_updates in
    let* t14 := store v_bbb 4 t13 in
    let v_bbb := t14 in
    Ok v_bbb) in
  let* v_bbb := (
    let* t1 := index v_bbb 1 in
    let* t2 := index v_bbb 2 in
    let* t3 := index v_bbb 3 in
    let* t4 := index v_bbb 4 in
    let* t5 := index v_bbb 0 in
    let* t6 := index v_w 15 in
    let* t7 := index v_bbb 2 in
    let* t8 := index v_bbb 3 in
    let* t9 := index v_bbb 2 in
    let* t10 := index v_bbb 4 in
    let v_updates := g_ripemd160_small_hash_round t1 t2 t3 t4 t5 t6 6 0x7a6d76e9 (N.lor (N.land t7 t8) (N.land (bit_not 32 t9) t10)) in
    let '(t11, _) := v_updates in
    let* t12 := store v_bbb 1 t11 in
    let v_bbb := t12 in
    let '(_, t13) := v_updates in
    let* t14 := store v_bbb 3 t13 in
    let v_bbb := t14 in
    Ok v_bbb) in
  let* v_bbb := (
    let* t1 := index v_bbb 0 in
    let* t2 := index v_bbb 1 in
    let* t3 := index v_bbb 2 in
    let* t4 := index v_bbb 3 in
    let* t5 := index v_bbb 4 in
    let* t6 := index v_w 0 in
    let* t7 := index v_bbb 1 in
    let* t8 := index v_bbb 2 in
    let* t9 := index v_bbb 1 in
    let* t10 := index v_bbb 3 in
    let v_updates := g_ripemd160_small_hash_round t1 t2 t3 t4 t5 t6 14 0x7a6d76e9 (N.lor (N.land t7 t8) (N.land (bit_not 32 t9) t10)) in
    let '(t11, _) := v_updates in
    let* t12 := store v_bbb 0 t11 in
    let v_bbb := t12 in
    let '(_, t13) := v_updates in
    let* t14 := store v_bbb 2 t13 in
    let v_bbb := t14 in
    Ok v_bbb) in
  let* v_bbb := (
    let* t1 := index v_bbb 4 in
    let* t2 := index v_bbb 0 in
    let* t3 := index v_bbb 1 in
    let* t4 := index v_bbb 2 in
    let* t5 := index v_bbb 3 in
    let* t6 := index v_w 5 in
    let* t7 := index v_bbb 0 in
    let* t8 := index v_bbb 1 in
    let* t9 := index v_bbb 0 in
    let* t10 := index v_bbb 2 in
    let v_updates := g_ripemd160_small_hash_round t1 t2 t3 t4 t5 t6 6 0x7a6d76e9 (N.lor (N.land t7 t8) (N.land (bit_not 32 t9) t10)) in
    let '(t11, _) := v_updates in
    let* t12 := store v_bbb 4 t11 in
    let v_bbb := t12 in
    let '(_, t13) := v_updates in
    let* t14 := store v_bbb 1 t13 in
    let v_bbb := t14 in
    Ok v_bbb) in
  let* v_bbb := (
    let* t1 := index v_bbb 3 in
    let* t2 := index v_bbb 4 in
    let* t3 := index v_bbb 0 in
    let* t4 := index v_bbb 1 in
    let* t5 := index v_bbb 2 in
    let* t6 := index v_w 12 in
    let* t7 := index v_bbb 4 in
    let* t8 := index v_bbb 0 in
    let* t9 := index v_bbb 4 in
    let* t10 := index v_bbb 1 in
    let v_updates := g_ripemd160_small_hash_round t1 t2 t3 t4 t5 t6 9 0x7a6d76e9 (N.lor (N.land t7 t8) (N.land (bit_not 32 t9) t10)) in
    let '(t11, _) := v_updates in
    let* t12 := store v_bbb 3 t11 in
    let v_bbb := t12 in
    let '(_, t13) := v_updates in
    let* t14 := store v_bbb 0 t13 in
    let v_bbb := t14 in
    Ok v_bbb) in
  let* v_bbb := (
    let* t1 := index v_bbb 2 in
    let* t2 := index v_bbb 3 in
    let* t3 := index v_bbb 4 in
    let* t4 := index v_bbb 0 in
    let* t5 := index v_bbb 1 in
    let* t6 := index v_w 2 in
    let* t7 := index v_bbb 3 in
    let* t8 := index v_bbb 4 in
    let* t9 := index v_bbb 3 in
    let* t10 := index v_bbb 0 in
    let v_updates := g_ripemd160_small_hash_round t1 t2 t3 t4 t5 t6 12 0x7a6d76e9 (N.lor (N.land t7 t8) (N.land (bit_not 32 t9) t10)) in
    let '(t11, _) := v_updates in
    let* t12 := store v_bbb 2 t11 in
    let v_bbb := t12 in
    let '(_, t13) := v_updates in
    let* t14 := store v_bbb 4 t13 in
    let v_bbb := t14 in
    Ok v_bbb) in
  let* v_bbb := (
    let* t1 := index v_bbb 1 in
    let* t2 := index v_bbb 2 in
    let* t3 := index v_bbb 3 in
    let* t4 := index v_bbb 4 in
    let* t5 := index v_bbb 0 in
    let* t6 := index v_w 13 in
    let* t7 := index v_bbb 2 in
    let* t8 := index v_bbb 3 in
    let* t9 := index v_bbb 2 in
    let* t10 := index v_bbb 4 in
    let v_updates := g_ripemd160_small_hash_round t1 t2 t3 t4 t5 t6 9 0x7a6d76e9 (N.lor (N.land t7 t8) (N.land (bit_not 32 t9) t10)) in
    let '(t11, _) := v_updates in
    let* t12 := store v_bbb 1 t11 in
    let v_bbb := t12 in
    let '(_, t13) := v_updates in
    let* t14 := store v_bbb 3 t13 in
    let v_bbb := t14 in
    Ok v_bbb) in
  let* v_bbb := (
    let* t1 := index v_bbb 0 in
    let* t2 := index v_bbb 1 in
    let* t3 := index v_bbb 2 in
    let* t4 := index v_bbb 3 in
    let* t5 := index v_bbb 4 in
    let* t6 := index v_w 9 in
    let* t7 := index v_bbb 1 in
    let* t8 := index v_bbb 2 in
    let* t9 := index v_bbb 1 in
    let* t10 := index v_bbb 3 in
    let v_updates := g_ripemd160_small_hash_round t1 t2 t3 t4 t5 t6 12 0x7a6d76e9 (N.lor (N.land t7 t8) (N.land (bit_not 32 t9) t10)) in
    let '(t11, _) := v_updates in
    let* t12 := store v_bbb 0 t11 in
    let v_bbb := t12 in
    let '(_, t13) := v_updates in
    let* t14 := store v_bbb 2 t13 in
    let v_bbb := t14 in
    Ok v_bbb) in
  let* v_bbb := (
    let* t1 := index v_bbb 4 in
    let* t2 := index v_bbb 0 in
    let* t3 := index v_bbb 1 in
    let* t4 := index v_bbb 2 in
    let* t5 := index v_bbb 3 in
    let* t6 := index v_w 7 in
    let* t7 := index v_bbb 0 in
    let* t8 := index v_bbb 1 in
    let* t9 := index v_bbb 0 in
    let* t10 := index v_bbb 2 in
    let v_updates := g_ripemd160_small_hash_round t1 t2 t3 t4 t5 t6 5 0x7a6d76e9 (N.lor (N.land t7 t8) (N.land (bit_not 32 t9) t10)) in
    let '(t11, _) := v_updates in
    let* t12 := store v_bbb 4 t11 in
    let v_bbb := t12 in
    let '(_, t13) := v_updates in
    let* t14 := store v_bbb 1 t13 in
    let v_bbb := t14 in
    Ok v_bbb) in
  let* v_bbb := (
    let* t1 := index v_bbb 3 in
    let* t2 := index v_bbb 4 in
    let* t3 := index v_bbb 0 in
    let* t4 := index v_bbb 1 in
    let* t5 := index v_bbb 2 in
    let* t6 := index v_w 10 in
    let* t7 := index v_bbb 4 in
    let* t8 := index v_bbb 0 in
    let* t9 := index v_bbb 4 in
    let* t10 := index v_bbb 1 in
    let v_updates := g_ripemd160_small_hash_round t1 t2 t3 t4 t5 t6 15 0x7a6d76e9 (N.lor (N.land t7 t8) (N.land (bit_not 32 t9) t10)) in
    let '(t11, _) := v_updates in
    let* t12 := store v_bbb 3 t11 in
    let v_bbb := t12 in
    let '(_, t13) := v_updates in
    let* t14 := store v_bbb 0 t13 in
    let v_bbb := t14 in
    Ok v_bbb) in
  let* v_bbb := (
    let* t1 := index v_bbb 2 in
    let* t2 := index v_bbb 3 in
    let* t3 := index v_bbb 4 in
    let* t4 := index v_bbb 0 in
    let* t5 := index v_bbb 1 in
    let* t6 := index v_w 14 in
    let* t7 := index v_bbb 3 in
    let* t8 := index v_bbb 4 in
    let* t9 := index v_bbb 3 in
    let* t10 := index v_bbb 0 in
    let v_updates := g_ripemd160_small_hash_round t1 t2 t3 t4 t5 t6 8 0x7a6d76e9 (N.lor (N.land t7 t8) (N.land (bit_not 32 t9) t10)) in
    let '(t11, _) := v_updates in
    let* t12 := store v_bbb 2 t11 in
    let v_bbb := t12 in
    let '(_, t13) := v_updates in
    let* t14 := store v_bbb 4 t13 in
    let v_bbb := t14 in
    Ok v_bbb) in
  g_ripemd160_Engine_process_block_small_part9 v_self v_w v_bb v_bbb.

Definition g_ripemd160_Engine_process_block_small_part7 v_self v_w v_bb v_bbb : res (engine) :=
  let* v_bbb := (
    let* t1 := index v_bbb 3 in
    let* t2 := index v_bbb 4 in
    let* t3 := index v_bbb 0 in
    let* t4 := index v_bbb 1 in
    let* t5 := index v_bbb 2 in
    let* t6 := index v_w 15 in
    let* t7 := index v_bbb 4 in
    let* t8 := index v_bbb 0 in
    let* t9 := index v_bbb 1 in
    let v_updates := g_ripemd160_small_hash_round t1 t2 t3 t4 t5 t6 9 0x6d703ef3 (N.lxor (N.lor t7 (bit_not 32 t8)) t9) in
    let '(t10, _) := v_updates in
    let* t11 := store v_bbb 3 t10 in
    let v_bbb := t11 in
    let '(_, t12) := v_updates in
    let* t13 := store v_bbb 0 t12 in
    let v_bbb := t13 in
    Ok v_bbb) in
  let* v_bbb := (
    let* t1 := index v_bbb 2 in
    let* t2 := index v_bbb 3 in
    let* t3 := index v_bbb 4 in
    let* t4 := index v_bbb 0 in
    let* t5 := index v_bbb 1 in
    let* t6 := index v_w 5 in
    let* t7 := index v_bbb 3 in
    let* t8 := index v_bbb 4 in
    let* t9 := index v_bbb 0 in
    let v_updates := g_ripemd160_small_hash_round t1 t2 t3 t4 t5 t6 7 0x6d703ef3 (N.lxor (N.lor t7 (bit_not 32 t8)) t9) in
    let '(t10, _) := v_updates in
    let* t11 := store v_bbb 2 t10 in
    let v_bbb := t11 in
    let '(_, t12) := v_updates in
    let* t13 := store v_bbb 4 t12 in
    let v_bbb := t13 in
    Ok v_bbb) in
  let* v_bbb := (
    let* t1 := index v_bbb 1 in
    let* t2 := index v_bbb 2 in
    let* t3 := index v_bbb 3 in
    let* t4 := index v_bbb 4 in
    let* t5 := index v_bbb 0 in
    let* t6 := index v_w 1 in
    let* t7 := index v_bbb 2 in
    let* t8 := index v_bbb 3 in
    let* t9 := index v_bbb 4 in
    let v_updates := g_ripemd160_small_hash_round t1 t2 t3 t4 t5 t6 15 0x6d703ef3 (N.lxor (N.lor t7 (bit_not 32 t8)) t9) in
    let '(t10, _) := v_updates in
    let* t11 := store v_bbb 1 t10 in
    let v_bbb := t11 in
    let '(_, t12) := v_updates in
    let* t13 := store v_bbb 3 t12 in
    let v_bbb := t13 in
    Ok v_bbb) in
  let* v_bbb := (
    let* t1 := index v_bbb 0 in
    let* t2 := index v_bbb 1 in
    let* t3 := index v_bbb 2 in
    let* t4 := index v_bbb 3 in
    let* t5 := index v_bbb 4 in
    let* t6 := index v_w 3 in
    let* t7 := index v_bbb 1 in
    let* t8 := index v_bbb 2 in
    let* t9 := index v_bbb 3 in
    let v_updates := g_ripemd160_small_hash_round t1 t2 t3 t4 t5 t6 11 0x6d703ef3 (N.lxor (N.lor t7 (bit_not 32 t8)) t9) in
    let '(t10, _) := v_updates in
    let* t11 := store v_bbb 0 t10 in
    let v_bbb := t11 in
    let '(_, t12) := v_updates in
    let* t13 := store v_bbb 2 t12 in
    let v_bbb := t13 in
    Ok v_bbb) in
  let* v_bbb := (
    let* t1 := index v_bbb 4 in
    let* t2 := index v_bbb 0 in
    let* t3 := index v_bbb 1 in
    let* t4 := index v_bbb 2 in
    let* t5 := index v_bbb 3 in
    let* t6 := index v_w 7 in
    let* t7 := index v_bbb 0 in
    let* t8 := index v_bbb 1 in
    let* t9 := index v_bbb 2 in
    let v_updates := g_ripemd160_small_hash_round t1 t2 t3 t4 t5 t6 8 0x6d703ef3 (N.lxor (N.lor t7 (bit_not 32 t8)) t9) in
    let '(t10, _) := v_updates in
    let* t11 := store v_bbb 4 t10 in
    let v_bbb := t11 in
    let '(_, t12) := v_updates in
    let* t13 := store v_bbb 1 t12 in
    let v_bbb := t13 in
    Ok v_bbb) in
  let* v_bbb := (
    let* t1 := index v_bbb 3 in
    let* t2 := index v_bbb 4 in
    let* t3 := index v_bbb 0 in
    let* t4 := index v_bbb 1 in
    let* t5 := index v_bbb 2 in
    let* t6 := index v_w 14 in
    let* t7 := index v_bbb 4 in
    let* t8 := index v_bbb 0 in
    let* t9 := index v_bbb 1 in
    let v_updates := g_ripemd160_small_hash_round t1 t2 t3 t4 t5 t6 6 0x6d703ef3 (N.lxor (N.lor t7 (bit_not 32 t8)) t9) in
    let '(t10, _) := v_updates in
    let* t11 := store v_bbb 3 t10 in
    let v_bbb := t11 in
    let '(_, t12) := v_updates in
    let* t13 := store v_bbb 0 t12 in
    let v_bbb := t13 in
    Ok v_bbb) in
  let* v_bbb := (
    let* t1 := index v_bbb 2 in
    let* t2 := index v_bbb 3 in
    let* t3 := index v_bbb 4 in
    let* t4 := index v_bbb 0 in
    let* t5 := index v_bbb 1 in
    let* t6 := index v_w 6 in
    let* t7 := index v_bbb 3 in
    let* t8 := index v_bbb 4 in
    let* t9 := index v_bbb 0 in
    let v_updates := g_ripemd160_small_hash_round t1 t2 t3 t4 t5 t6 6 0x6d703ef3 (N.lxor (N.lor t7 (bit_not 32 t8)) t9) in
    let '(t10, _) := v_updates in
    let* t11 := store v_bbb 2 t10 in
    let v_bbb := t11 in
    let '(_, t12) := v_updates in
    let* t13 := store v_bbb 4 t12 in
    let v_bbb := t13 in
    Ok v_bbb) in
  let* v_bbb := (
    let* t1 := index v_bbb 1 in
    let* t2 := index v_bbb 2 in
    let* t3 := index v_bbb 3 in
    let* t4 := index v_bbb 4 in
    let* t5 := index v_bbb 0 in
    let* t6 := index v_w 9 in
    let* t7 := index v_bbb 2 in
    let* t8 := index v_bbb 3 in
    let* t9 := index v_bbb 4 in
    let v_updates := g_ripemd160_small_hash_round t1 t2 t3 t4 t5 t6 14 0x6d703ef3 (N.lxor (N.lor t7 (bit_not 32 t8)) t9) in
    let '(t10, _) := v_updates in
    let* t11 := store v_bbb 1 t10 in
    let v_bbb := t11 in
    let '(_, t12) := v_updates in
    let* t13 := store v_bbb 3 t12 in
    let v_bbb := t13 in
    Ok v_bbb) in
  let* v_bbb := (
    let* t1 := index v_bbb 0 in
    let* t2 := index v_bbb 1 in
    let* t3 := index v_bbb 2 in
    let* t4 := index v_bbb 3 in
    let* t5 := index v_bbb 4 in
    let* t6 := index v_w 11 in
    let* t7 := index v_bbb 1 in
    let* t8 := index v_bbb 2 in
    let* t9 := index v_bbb 3 in
    let v_updates := g_ripemd160_small_hash_round t1 t2 t3 t4 t5 t6 12 0x6d703ef3 (N.lxor (N.lor t7 (bit_not 32 t8)) t9) in
    let '(t10, _) := v_updates in
    let* t11 := store v_bbb 0 t10 in
    let v_bbb := t11 in
    let '(_, t12) := v_updates in
    let* t13 := store v_bbb 2 t12 in
    let v_bbb := t13 in
    Ok v_bbb) in
  let* v_bbb := (
    let* t1 := index v_bbb 4 in
    let* t2 := index v_bbb 0 in
    let* t3 := index v_bbb 1 in
    let* t4 := index v_bbb 2 in
    let* t5 := index v_bbb 3 in
    let* t6 := index v_w 8 in
    let* t7 := index v_bbb 0 in
    let* t8 := index v_bbb 1 in
    let* t9 := index v_bbb 2 in
    let v_updates := g_ripemd160_small_hash_round t1 t2 t3 t4 t5 t6 13 0x6d703ef3 (N.lxor (N.lor t7 (bit_not 32 t8)) t9) in
    let '(t10, _) := v_updates in
    let* t11 := store v_bbb 4 t10 in
    let v_bbb := t11 in
    let '(_, t12) := v_updates in
    let* t13 := store v_bbb 1 t12 in
    let v_bbb := t13 in
    Ok v_bbb) in
  let* v_bbb := (
    let* t1 := index v_bbb 3 in
    let* t2 := index v_bbb 4 in
    let* t3 := index v_bbb 0 in
    let* t4 := index v_bbb 1 in
    let* t5 := index v_bbb 2 in
    let* t6 := index v_w 12 in
    let* t7 := index v_bbb 4 in
    let* t8 := index v_bbb 0 in
    let* t9 := index v_bbb 1 in
    let v_updates := g_ripemd160_small_hash_round t1 t2 t3 t4 t5 t6 5 0x6d703ef3 (N.lxor (N.lor t7 (bit_not 32 t8)) t9) in
    let '(t10, _) := v_updates in
    let* t11 := store v_bbb 3 t10 in
    let v_bbb := t11 in
    let '(_, t12) := v_updates in
    let* t13 := store v_bbb 0 t12 in
    let v_bbb := t13 in
    Ok v_bbb) in
  let* v_bbb := (
    let* t1 := index v_bbb 2 in
    let* t2 := index v_bbb 3 in
    let* t3 := index v_bbb 4 in
    let* t4 := index v_bbb 0 in
    let* t5 := index v_bbb 1 in
    let* t6 := index v_w 2 in
    let* t7 := index v_bbb 3 in
    let* t8 := index v_bbb 4 in
    let* t9 := index v_bbb 0 in
    let v_updates := g_ripemd160_small_hash_round t1 t2 t3 t4 t5 t6 14 0x6d703ef3 (N.lxor (N.lor t7 (bit_not 32 t8)) t9) in
    let '(t10, _) := v_updates in
    let* t11 := store v_bbb 2 t10 in
    let v_bbb := t11 in
    let '(_, t12) := v_updates in
    let* t13 := store v_bbb 4 t12 in
    let v_bbb := t13 in
    Ok v_bbb) in
  let* v_bbb := (
    let* t1 := index v_bbb 1 in
    let* t2 := index v_bbb 2 in
    let* t3 := index v_bbb 3 in
    let* t4 := index v_bbb 4 in
    let* t5 := index v_bbb 0 in
    let* t6 := index v_w 10 in
    let* t7 := index v_bbb 2 in
    let* t8 := index v_bbb 3 in
    let* t9 := index v_bbb 4 in
    let v_updates := g_ripemd160_small_hash_round t1 t2 t3 t4 t5 t6 13 0x6d703ef3 (N.lxor (N.lor t7 (bit_not 32 t8)) t9) in
    let '(t10, _) := v_updates in
    let* t11 := store v_bbb 1 t10 in
    let v_bbb := t11 in
    let '(_, t12) := v_updates in
    let* t13 := store v_bbb 3 t12 in
    let v_bbb := t13 in
    Ok v_bbb) in
  let* v_bbb := (
    let* t1 := index v_bbb 0 in
    let* t2 := index v_bbb 1 in
    let* t3 := index v_bbb 2 in
    let* t4 := index v_bbb 3 in
    let* t5 := index v_bbb 4 in
    let* t6 := index v_w 0 in
    let* t7 := index v_bbb 1 in
    let* t8 := index v_bbb 2 in
    let* t9 := index v_bbb 3 in
    let v_updates := g_ripemd160_small_hash_round t1 t2 t3 t4 t5 t6 13 0x6d703ef3 (N.lxor (N.lor t7 (bit_not 32 t8)) t9) in
    let '(t10, _) := v_updates in
    let* t11 := store v_bbb 0 t10 in
    let v_bbb := t11 in
    let '(_, t12) := v_updates in
    let* t13 := store v_bbb 2 t12 in
    let v_bbb := t13 in
    Ok v_bbb) in
  let* v_bbb := (
    let* t1 := index v_bbb 4 in
    let* t2 := index v_bbb 0 in
    let* t3 := index v_bbb 1 in
    let* t4 := index v_bbb 2 in
    let* t5 := index v_bbb 3 in
    let* t6 := index v_w 4 in
    let* t7 := index v_bbb 0 in
    let* t8 := index v_bbb 1 in
    let* t9 := index v_bbb 2 in
    let v_updates := g_ripemd160_small_hash_round t1 t2 t3 t4 t5 t6 7 0x6d703ef3 (N.lxor (N.lor t7 (bit_not 32 t8)) t9) in
    let '(t10, _) := v_updates in
    let* t11 := store v_bbb 4 t10 in
    let v_bbb := t11 in
    let '(_, t12) := v_updates in
    let* t13 := store v_bbb 1 t12 in
    let v_bbb := t13 in
    Ok v_bbb) in
  let* v_bbb := (
    let* t1 := index v_bbb 3 in
    let* t2 := index v_bbb 4 in
    let* t3 := index v_bbb 0 in
    let* t4 := index v_bbb 1 in
    let* t5 := index v_bbb 2 in
    let* t6 := index v_w 13 in
    let* t7 := index v_bbb 4 in
    let* t8 := index v_bbb 0 in
    let* t9 := index v_bbb 1 in
    let v_updates := g_ripemd160_small_hash_round t1 t2 t3 t4 t5 t6 5 0x6d703ef3 (N.lxor (N.lor t7 (bit_not 32 t8)) t9) in
    let '(t10, _) := v_updates in
    let* t11 := store v_bbb 3 t10 in
    let v_bbb := t11 in
    let '(_, t12) := v_updates in
    let* t13 := store v_bbb 0 t12 in
    let v_bbb := t13 in
    Ok v_bbb) in
  g_ripemd160_Engine_process_block_small_part8 v_self v_w v_bb v_bbb.

Definition g_ripemd160_Engine_process_block_small_part6 v_self v_w v_bb v_bbb : res (engine) :=
  let* v_bbb := (
    let* t1 := index v_bbb 4 in
    let* t2 := index v_bbb 0 in
    let* t3 := index v_bbb 1 in
    let* t4 := index v_bbb 2 in
    let* t5 := index v_bbb 3 in
    let* t6 := index v_w 6 in
    let* t7 := index v_bbb 0 in
    let* t8 := index v_bbb 2 in
    let* t9 := index v_bbb 1 in
    let* t10 := index v_bbb 2 in
    let v_updates := g_ripemd160_small_hash_round t1 t2 t3 t4 t5 t6 9 0x5c4dd124 (N.lor (N.land t7 t8) (N.land t9 (bit_not 32 t10))) in
    let '(t11, _) := v_updates in
    let* t12 := store v_bbb 4 t11 in
    let v_bbb := t12 in
    let '(_, t13) := v_updates in
    let* t14 := store v_bbb 1 t13 in
    let v_bbb := t14 in
    Ok v_bbb) in
  let* v_bbb := (
    let* t1 := index v_bbb 3 in
    let* t2 := index v_bbb 4 in
    let* t3 := index v_bbb 0 in
    let* t4 := index v_bbb 1 in
    let* t5 := index v_bbb 2 in
    let* t6 := index v_w 11 in
    let* t7 := index v_bbb 4 in
    let* t8 := index v_bbb 1 in
    let* t9 := index v_bbb 0 in
    let* t10 := index v_bbb 1 in
    let v_updates := g_ripemd160_small_hash_round t1 t2 t3 t4 t5 t6 13 0x5c4dd124 (N.lor (N.land t7 t8) (N.land t9 (bit_not 32 t10))) in
    let '(t11, _) := v_updates in
    let* t12 := store v_bbb 3 t11 in
    let v_bbb := t12 in
    let '(_, t13) := v_updates in
    let* t14 := store v_bbb 0 t13 in
    let v_bbb := t14 in
    Ok v_bbb) in
  let* v_bbb := (
    let* t1 := index v_bbb 2 in
    let* t2 := index v_bbb 3 in
    let* t3 := index v_bbb 4 in
    let* t4 := index v_bbb 0 in
    let* t5 := index v_bbb 1 in
    let* t6 := index v_w 3 in
    let* t7 := index v_bbb 3 in
    let* t8 := index v_bbb 0 in
    let* t9 := index v_bbb 4 in
    let* t10 := index v_bbb 0 in
    let v_updates := g_ripemd160_small_hash_round t1 t2 t3 t4 t5 t6 15 0x5c4dd124 (N.lor (N.land t7 t8) (N.land t9 (bit_not 32 t10))) in
    let '(t11, _) := v_updates in
    let* t12 := store v_bbb 2 t11 in
    let v_bbb := t12 in
    let '(_, t13) := v_updates in
    let* t14 := store v_bbb 4 t13 in
    let v_bbb := t14 in
    Ok v_bbb) in
  let* v_bbb := (
    let* t1 := index v_bbb 1 in
    let* t2 := index v_bbb 2 in
    let* t3 := index v_bbb 3 in
    let* t4 := index v_bbb 4 in
    let* t5 := index v_bbb 0 in
    let* t6 := index v_w 7 in
    let* t7 := index v_bbb 2 in
    let* t8 := index v_bbb 4 in
    let* t9 := index v_bbb 3 in
    let* t10 := index v_bbb 4 in
    let v_updates := g_ripemd160_small_hash_round t1 t2 t3 t4 t5 t6 7 0x5c4dd124 (N.lor (N.land t7 t8) (N.land t9 (bit_not 32 t10))) in
    let '(t11, _) := v_updates in
    let* t12 := store v_bbb 1 t11 in
    let v_bbb := t12 in
    let '(_, t13) := v_updates in
    let* t14 := store v_bbb 3 t13 in
    let v_bbb := t14 in
    Ok v_bbb) in
  let* v_bbb := (
    let* t1 := index v_bbb 0 in
    let* t2 := index v_bbb 1 in
    let* t3 := index v_bbb 2 in
    let* t4 := index v_bbb 3 in
    let* t5 := index v_bbb 4 in
    let* t6 := index v_w 0 in
    let* t7 := index v_bbb 1 in
    let* t8 := index v_bbb 3 in
    let* t9 := index v_bbb 2 in
    let* t10 := index v_bbb 3 in
    let v_updates := g_ripemd160_small_hash_round t1 t2 t3 t4 t5 t6 12 0x5c4dd124 (N.lor (N.land t7 t8) (N.land t9 (bit_not 32 t10))) in
    let '(t11, _) := v_updates in
    let* t12 := store v_bbb 0 t11 in
    let v_bbb := t12 in
    let '(_, t13) := v_updates in
    let* t14 := store v_bbb 2 t13 in
    let v_bbb := t14 in
    Ok v_bbb) in
  let* v_bbb := (
    let* t1 := index v_bbb 4 in
    let* t2 := index v_bbb 0 in
    let* t3 := index v_bbb 1 in
    let* t4 := index v_bbb 2 in
    let* t5 := index v_bbb 3 in
    let* t6 := index v_w 13 in
    let* t7 := index v_bbb 0 in
    let* t8 := index v_bbb 2 in
    let* t9 := index v_bbb 1 in
    let* t10 := index v_bbb 2 in
    let v_updates := g_ripemd160_small_hash_round t1 t2 t3 t4 t5 t6 8 0x5c4dd124 (N.lor (N.land t7 t8) (N.land t9 (bit_not 32 t10))) in
    let '(t11, _) := v_updates in
    let* t12 := store v_bbb 4 t11 in
    let v_bbb := t12 in
    let '(_, t13) := v_updates in
    let* t14 := store v_bbb 1 t13 in
    let v_bbb := t14 in
    Ok v_bbb) in
  let* v_bbb := (
    let* t1 := index v_bbb 3 in
    let* t2 := index v_bbb 4 in
    let* t3 := index v_bbb 0 in
    let* t4 := index v_bbb 1 in
    let* t5 := index v_bbb 2 in
    let* t6 := index v_w 5 in
    let* t7 := index v_bbb 4 in
    let* t8 := index v_bbb 1 in
    let* t9 := index v_bbb 0 in
    let* t10 := index v_bbb 1 in
    let v_updates := g_ripemd160_small_hash_round t1 t2 t3 t4 t5 t6 9 0x5c4dd124 (N.lor (N.land t7 t8) (N.land t9 (bit_not 32 t10))) in
    let '(t11, _) := v_updates in
    let* t12 := store v_bbb 3 t11 in
    let v_bbb := t12 in
    let '(_, t13) := v_updates in
    let* t14 := store v_bbb 0 t13 in
    let v_bbb := t14 in
    Ok v_bbb) in
  let* v_bbb := (
    let* t1 := index v_bbb 2 in
    let* t2 := index v_bbb 3 in
    let* t3 := index v_bbb 4 in
    let* t4 := index v_bbb 0 in
    let* t5 := index v_bbb 1 in
    let* t6 := index v_w 10 in
    let* t7 := index v_bbb 3 in
    let* t8 := index v_bbb 0 in
    let* t9 := index v_bbb 4 in
    let* t10 := index v_bbb 0 in
    let v_updates := g_ripemd160_small_hash_round t1 t2 t3 t4 t5 t6 11 0x5c4dd124 (N.lor (N.land t7 t8) (N.land t9 (bit_not 32 t10))) in
    let '(t11, _) := v_updates in
    let* t12 := store v_bbb 2 t11 in
    let v_bbb := t12 in
    let '(_, t13) := v_updates in
    let* t14 := store v_bbb 4 t13 in
    let v_bbb := t14 in
    Ok v_bbb) in
  let* v_bbb := (
    let* t1 := index v_bbb 1 in
    let* t2 := index v_bbb 2 in
    let* t3 := index v_bbb 3 in
    let* t4 := index v_bbb 4 in
    let* t5 := index v_bbb 0 in
    let* t6 := index v_w 14 in
    let* t7 := index v_bbb 2 in
    let* t8 := index v_bbb 4 in
    let* t9 := index v_bbb 3 in
    let* t10 := index v_bbb 4 in
    let v_updates := g_ripemd160_small_hash_round t1 t2 t3 t4 t5 t6 7 0x5c4dd124 (N.lor (N.land t7 t8) (N.land t9 (bit_not 32 t10))) in
    let '(t11, _) := v_updates in
    let* t12 := store v_bbb 1 t11 in
    let v_bbb := t12 in
    let '(_, t13) := v_updates in
    let* t14 := store v_bbb 3 t13 in
    let v_bbb := t14 in
    Ok v_bbb) in
  let* v_bbb := (
    let* t1 := index v_bbb 0 in
    let* t2 := index v_bbb 1 in
    let* t3 := index v_bbb 2 in
    let* t4 := index v_bbb 3 in
    let* t5 := index v_bbb 4 in
    let* t6 := index v_w 15 in
    let* t7 := index v_bbb 1 in
    let* t8 := index v_bbb 3 in
    let* t9 := index v_bbb 2 in
    let* t10 := index v_bbb 3 in
    let v_updates := g_ripemd160_small_hash_round t1 t2 t3 t4 t5 t6 7 0x5c4dd124 (N.lor (N.land t7 t8) (N.land t9 (bit_not 32 t10))) in
    let '(t11, _) := v_updates in
    let* t12 := store v_bbb 0 t11 in
    let v_bbb := t12 in
    let '(_, t13) := v_updates in
    let* t14 := store v_bbb 2 t13 in
    let v_bbb := t14 in
    Ok v_bbb) in
  let* v_bbb := (
    let* t1 := index v_bbb 4 in
    let* t2 := index v_bbb 0 in
    let* t3 := index v_bbb 1 in
    let* t4 := index v_bbb 2 in
    let* t5 := index v_bbb 3 in
    let* t6 := index v_w 8 in
    let* t7 := index v_bbb 0 in
    let* t8 := index v_bbb 2 in
    let* t9 := index v_bbb 1 in
    let* t10 := index v_bbb 2 in
    let v_updates := g_ripemd160_small_hash_round t1 t2 t3 t4 t5 t6 12 0x5c4dd124 (N.lor (N.land t7 t8) (N.land t9 (bit_not 32 t10))) in
    let '(t11, _) := v_updates in
    let* t12 := store v_bbb 4 t11 in
    let v_bbb := t12 in
    let '(_, t13) := v_updates in
    let* t14 := store v_bbb 1 t13 in
    let v_bbb := t14 in
    Ok v_bbb) in
  let* v_bbb := (
    let* t1 := index v_bbb 3 in
    let* t2 := index v_bbb 4 in
    let* t3 := index v_bbb 0 in
    let* t4 := index v_bbb 1 in
    let* t5 := index v_bbb 2 in
    let* t6 := index v_w 12 in
    let* t7 := index v_bbb 4 in
    let* t8 := index v_bbb 1 in
    let* t9 := index v_bbb 0 in
    let* t10 := index v_bbb 1 in
    let v_updates := g_ripemd160_small_hash_round t1 t2 t3 t4 t5 t6 7 0x5c4dd124 (N.lor (N.land t7 t8) (N.land t9 (bit_not 32 t10))) in
    let '(t11, _) := v_updates in
    let* t12 := store v_bbb 3 t11 in
    let v_bbb := t12 in
    let '(_, t13) := v_updates in
    let* t14 := store v_bbb 0 t13 in
    let v_bbb := t14 in
    Ok v_bbb) in
  let* v_bbb := (
    let* t1 := index v_bbb 2 in
    let* t2 := index v_bbb 3 in
    let* t3 := index v_bbb 4 in
    let* t4 := index v_bbb 0 in
    let* t5 := index v_bbb 1 in
    let* t6 := index v_w 4 in
    let* t7 := index v_bbb 3 in
    let* t8 := index v_bbb 0 in
    let* t9 := index v_bbb 4 in
    let* t10 := index v_bbb 0 in
    let v_updates := g_ripemd160_small_hash_round t1 t2 t3 t4 t5 t6 6 0x5c4dd124 (N.lor (N.land t7 t8) (N.land t9 (bit_not 32 t10))) in
    let '(t11, _) := v_updates in
    let* t12 := store v_bbb 2 t11 in
    let v_bbb := t12 in
    let '(_, t13) := v_updates in
    let* t14 := store v_bbb 4 t13 in
    let v_bbb := t14 in
    Ok v_bbb) in
  let* v_bbb := (
    let* t1 := index v_bbb 1 in
    let* t2 := index v_bbb 2 in
    let* t3 := index v_bbb 3 in
    let* t4 := index v_bbb 4 in
    let* t5 := index v_bbb 0 in
    let* t6 := index v_w 9 in
    let* t7 := index v_bbb 2 in
    let* t8 := index v_bbb 4 in
    let* t9 := index v_bbb 3 in
    let* t10 := index v_bbb 4 in
    let v_updates := g_ripemd160_small_hash_round t1 t2 t3 t4 t5 t6 15 0x5c4dd124 (N.lor (N.land t7 t8) (N.land t9 (bit_not 32 t10))) in
    let '(t11, _) := v_updates in
    let* t12 := store v_bbb 1 t11 in
    let v_bbb := t12 in
    let '(_, t13) := v_updates in
    let* t14 := store v_bbb 3 t13 in
    let v_bbb := t14 in
    Ok v_bbb) in
  let* v_bbb := (
    let* t1 := index v_bbb 0 in
    let* t2 := index v_bbb 1 in
    let* t3 := index v_bbb 2 in
    let* t4 := index v_bbb 3 in
    let* t5 := index v_bbb 4 in
    let* t6 := index v_w 1 in
    let* t7 := index v_bbb 1 in
    let* t8 := index v_bbb 3 in
    let* t9 := index v_bbb 2 in
    let* t10 := index v_bbb 3 in
    let v_updates := g_ripemd160_small_hash_round t1 t2 t3 t4 t5 t6 13 0x5c4dd124 (N.lor (N.land t7 t8) (N.land t9 (bit_not 32 t10))) in
    let '(t11, _) := v_updates in
    let* t12 := store v_bbb 0 t11 in
    let v_bbb := t12 in
    let '(_, t13) := v_updates in
    let* t14 := store v_bbb 2 t13 in
    let v_bbb := t14 in
    Ok v_bbb) in
  let* v_bbb := (
    let* t1 := index v_bbb 4 in
    let* t2 := index v_bbb 0 in
    let* t3 := index v_bbb 1 in
    let* t4 := index v_bbb 2 in
    let* t5 := index v_bbb 3 in
    let* t6 := index v_w 2 in
    let* t7 := index v_bbb 0 in
    let* t8 := index v_bbb 2 in
    let* t9 := index v_bbb 1 in
    let* t10 := index v_bbb 2 in
    let v_updates := g_ripemd160_small_hash_round t1 t2 t3 t4 t5 t6 11 0x5c4dd124 (N.lor (N.land t7 t8) (N.land t9 (bit_not 32 t10))) in
    let '(t11, _) := v_updates in
    let* t12 := store v_bbb 4 t11 in
    let v_bbb := t12 in
    let '(_, t13) := v_updates in
    let* t14 := store v_bbb 1 t13 in
    let v_bbb := t14 in
    Ok v_bbb) in
  g_ripemd160_Engine_process_block_small_part7 v_self v_w v_bb v_bbb.

Definition g_ripemd160_Engine_process_block_small_part5 v_self v_w v_bb v_bbb : res (engine) :=
  let* v_bbb := (
    let* t1 := index v_bbb 0 in
    let* t2 := index v_bbb 1 in
    let* t3 := index v_bbb 2 in
    let* t4 := index v_bbb 3 in
    let* t5 := index v_bbb 4 in
    let* t6 := index v_w 5 in
    let* t7 := index v_bbb 1 in
    let* t8 := index v_bbb 2 in
    let* t9 := index v_bbb 3 in
    let v_updates := g_ripemd160_small_hash_round t1 t2 t3 t4 t5 t6 8 0x50a28be6 (N.lxor t7 (N.lor t8 (bit_not 32 t9))) in
    let '(t10, _) := v_updates in
    let* t11 := store v_bbb 0 t10 in
    let v_bbb := t11 in
    let '(_, t12) := v_updates in
    let* t13 := store v_bbb 2 t12 in
    let v_bbb := t13 in
    Ok v_bbb) in
  let* v_bbb := (
    let* t1 := index v_bbb 4 in
    let* t2 := index v_bbb 0 in
    let* t3 := index v_bbb 1 in
    let* t4 := index v_bbb 2 in
    let* t5 := index v_bbb 3 in
    let* t6 := index v_w 14 in
    let* t7 := index v_bbb 0 in
    let* t8 := index v_bbb 1 in
    let* t9 := index v_bbb 2 in
    let v_updates := g_ripemd160_small_hash_round t1 t2 t3 t4 t5 t6 9 0x50a28be6 (N.lxor t7 (N.lor t8 (bit_not 32 t9))) in
    let '(t10, _) := v_updates in
    let* t11 := store v_bbb 4 t10 in
    let v_bbb := t11 in
    let '(_, t12) := v_updates in
    let* t13 := store v_bbb 1 t12 in
    let v_bbb := t13 in
    Ok v_bbb) in
  let* v_bbb := (
    let* t1 := index v_bbb 3 in
    let* t2 := index v_bbb 4 in
    let* t3 := index v_bbb 0 in
    let* t4 := index v_bbb 1 in
    let* t5 := index v_bbb 2 in
    let* t6 := index v_w 7 in
    let* t7 := index v_bbb 4 in
    let* t8 := index v_bbb 0 in
    let* t9 := index v_bbb 1 in
    let v_updates := g_ripemd160_small_hash_round t1 t2 t3 t4 t5 t6 9 0x50a28be6 (N.lxor t7 (N.lor t8 (bit_not 32 t9))) in
    let '(t10, _) := v_updates in
    let* t11 := store v_bbb 3 t10 in
    let v_bbb := t11 in
    let '(_, t12) := v_updates in
    let* t13 := store v_bbb 0 t12 in
    let v_bbb := t13 in
    Ok v_bbb) in
  let* v_bbb := (
    let* t1 := index v_bbb 2 in
    let* t2 := index v_bbb 3 in
    let* t3 := index v_bbb 4 in
    let* t4 := index v_bbb 0 in
    let* t5 := index v_bbb 1 in
    let* t6 := index v_w 0 in
    let* t7 := index v_bbb 3 in
    let* t8 := index v_bbb 4 in
    let* t9 := index v_bbb 0 in
    let v_updates := g_ripemd160_small_hash_round t1 t2 t3 t4 t5 t6 11 0x50a28be6 (N.lxor t7 (N.lor t8 (bit_not 32 t9))) in
    let '(t10, _) := v_updates in
    let* t11 := store v_bbb 2 t10 in
    let v_bbb := t11 in
    let '(_, t12) := v_updates in
    let* t13 := store v_bbb 4 t12 in
    let v_bbb := t13 in
    Ok v_bbb) in
  let* v_bbb := (
    let* t1 := index v_bbb 1 in
    let* t2 := index v_bbb 2 in
    let* t3 := index v_bbb 3 in
    let* t4 := index v_bbb 4 in
    let* t5 := index v_bbb 0 in
    let* t6 := index v_w 9 in
    let* t7 := index v_bbb 2 in
    let* t8 := index v_bbb 3 in
    let* t9 := index v_bbb 4 in
    let v_updates := g_ripemd160_small_hash_round t1 t2 t3 t4 t5 t6 13 0x50a28be6 (N.lxor t7 (N.lor t8 (bit_not 32 t9))) in
    let '(t10, _) := v_updates in
    let* t11 := store v_bbb 1 t10 in
    let v_bbb := t11 in
    let '(_, t12) := v_updates in
    let* t13 := store v_bbb 3 t12 in
    let v_bbb := t13 in
    Ok v_bbb) in
  let* v_bbb := (
    let* t1 := index v_bbb 0 in
    let* t2 := index v_bbb 1 in
    let* t3 := index v_bbb 2 in
    let* t4 := index v_bbb 3 in
    let* t5 := index v_bbb 4 in
    let* t6 := index v_w 2 in
    let* t7 := index v_bbb 1 in
    let* t8 := index v_bbb 2 in
    let* t9 := index v_bbb 3 in
    let v_updates := g_ripemd160_small_hash_round t1 t2 t3 t4 t5 t6 15 0x50a28be6 (N.lxor t7 (N.lor t8 (bit_not 32 t9))) in
    let '(t10, _) := v_updates in
    let* t11 := store v_bbb 0 t10 in
    let v_bbb := t11 in
    let '(_, t12) := v_updates in
    let* t13 := store v_bbb 2 t12 in
    let v_bbb := t13 in
    Ok v_bbb) in
  let* v_bbb := (
    let* t1 := index v_bbb 4 in
    let* t2 := index v_bbb 0 in
    let* t3 := index v_bbb 1 in
    let* t4 := index v_bbb 2 in
    let* t5 := index v_bbb 3 in
    let* t6 := index v_w 11 in
    let* t7 := index v_bbb 0 in
    let* t8 := index v_bbb 1 in
    let* t9 := index v_bbb 2 in
    let v_updates := g_ripemd160_small_hash_round t1 t2 t3 t4 t5 t6 15 0x50a28be6 (N.lxor t7 (N.lor t8 (bit_not 32 t9))) in
    let '(t10, _) := v_updates in
    let* t11 := store v_bbb 4 t10 in
    let v_bbb := t11 in
    let '(_, t12) := v_updates in
    let* t13 := store v_bbb 1 t12 in
    let v_bbb := t13 in
    Ok v_bbb) in
  let* v_bbb := (
    let* t1 := index v_bbb 3 in
    let* t2 := index v_bbb 4 in
    let* t3 := index v_bbb 0 in
    let* t4 := index v_bbb 1 in
    let* t5 := index v_bbb 2 in
    let* t6 := index v_w 4 in
    let* t7 := index v_bbb 4 in
    let* t8 := index v_bbb 0 in
    let* t9 := index v_bbb 1 in
    let v_updates := g_ripemd160_small_hash_round t1 t2 t3 t4 t5 t6 5 0x50a28be6 (N.lxor t7 (N.lor t8 (bit_not 32 t9))) in
    let '(t10, _) := v_updates in
    let* t11 := store v_bbb 3 t10 in
    let v_bbb := t11 in
    let '(_, t12) := v_updates in
    let* t13 := store v_bbb 0 t12 in
    let v_bbb := t13 in
    Ok v_bbb) in
  let* v_bbb := (
    let* t1 := index v_bbb 2 in
    let* t2 := index v_bbb 3 in
    let* t3 := index v_bbb 4 in
    let* t4 := index v_bbb 0 in
    let* t5 := index v_bbb 1 in
    let* t6 := index v_w 13 in
    let* t7 := index v_bbb 3 in
    let* t8 := index v_bbb 4 in
    let* t9 := index v_bbb 0 in
    let v_updates := g_ripemd160_small_hash_round t1 t2 t3 t4 t5 t6 7 0x50a28be6 (N.lxor t7 (N.lor t8 (bit_not 32 t9))) in
    let '(t10, _) := v_updates in
    let* t11 := store v_bbb 2 t10 in
    let v_bbb := t11 in
    let '(_, t12) := v_updates in
    let* t13 := store v_bbb 4 t12 in
    let v_bbb := t13 in
    Ok v_bbb) in
  let* v_bbb := (
    let* t1 := index v_bbb 1 in
    let* t2 := index v_bbb 2 in
    let* t3 := index v_bbb 3 in
    let* t4 := index v_bbb 4 in
    let* t5 := index v_bbb 0 in
    let* t6 := index v_w 6 in
    let* t7 := index v_bbb 2 in
    let* t8 := index v_bbb 3 in
    let* t9 := index v_bbb 4 in
    let v_updates := g_ripemd160_small_hash_round t1 t2 t3 t4 t5 t6 7 0x50a28be6 (N.lxor t7 (N.lor t8 (bit_not 32 t9))) in
    let '(t10, _) := v_updates in
    let* t11 := store v_bbb 1 t10 in
    let v_bbb := t11 in
    let '(_, t12) := v_updates in
    let* t13 := store v_bbb 3 t12 in
    let v_bbb := t13 in
    Ok v_bbb) in
  let* v_bbb := (
    let* t1 := index v_bbb 0 in
    let* t2 := index v_bbb 1 in
    let* t3 := index v_bbb 2 in
    let* t4 := index v_bbb 3 in
    let* t5 := index v_bbb 4 in
    let* t6 := index v_w 15 in
    let* t7 := index v_bbb 1 in
    let* t8 := index v_bbb 2 in
    let* t9 := index v_bbb 3 in
    let v_updates := g_ripemd160_small_hash_round t1 t2 t3 t4 t5 t6 8 0x50a28be6 (N.lxor t7 (N.lor t8 (bit_not 32 t9))) in
    let '(t10, _) := v_updates in
    let* t11 := store v_bbb 0 t10 in
    let v_bbb := t11 in
    let '(_, t12) := v_updates in
    let* t13 := store v_bbb 2 t12 in
    let v_bbb := t13 in
    Ok v_bbb) in
  let* v_bbb := (
    let* t1 := index v_bbb 4 in
    let* t2 := index v_bbb 0 in
    let* t3 := index v_bbb 1 in
    let* t4 := index v_bbb 2 in
    let* t5 := index v_bbb 3 in
    let* t6 := index v_w 8 in
    let* t7 := index v_bbb 0 in
    let* t8 := index v_bbb 1 in
    let* t9 := index v_bbb 2 in
    let v_updates := g_ripemd160_small_hash_round t1 t2 t3 t4 t5 t6 11 0x50a28be6 (N.lxor t7 (N.lor t8 (bit_not 32 t9))) in
    let '(t10, _) := v_updates in
    let* t11 := store v_bbb 4 t10 in
    let v_bbb := t11 in
    let '(_, t12) := v_updates in
    let* t13 := store v_bbb 1 t12 in
    let v_bbb := t13 in
    Ok v_bbb) in
  let* v_bbb := (
    let* t1 := index v_bbb 3 in
    let* t2 := index v_bbb 4 in
    let* t3 := index v_bbb 0 in
    let* t4 := index v_bbb 1 in
    let* t5 := index v_bbb 2 in
    let* t6 := index v_w 1 in
    let* t7 := index v_bbb 4 in
    let* t8 := index v_bbb 0 in
    let* t9 := index v_bbb 1 in
    let v_updates := g_ripemd160_small_hash_round t1 t2 t3 t4 t5 t6 14 0x50a28be6 (N.lxor t7 (N.lor t8 (bit_not 32 t9))) in
    let '(t10, _) := v_updates in
    let* t11 := store v_bbb 3 t10 in
    let v_bbb := t11 in
    let '(_, t12) := v_updates in
    let* t13 := store v_bbb 0 t12 in
    let v_bbb := t13 in
    Ok v_bbb) in
  let* v_bbb := (
    let* t1 := index v_bbb 2 in
    let* t2 := index v_bbb 3 in
    let* t3 := index v_bbb 4 in
    let* t4 := index v_bbb 0 in
    let* t5 := index v_bbb 1 in
    let* t6 := index v_w 10 in
    let* t7 := index v_bbb 3 in
    let* t8 := index v_bbb 4 in
    let* t9 := index v_bbb 0 in
    let v_updates := g_ripemd160_small_hash_round t1 t2 t3 t4 t5 t6 14 0x50a28be6 (N.lxor t7 (N.lor t8 (bit_not 32 t9))) in
    let '(t10, _) := v_updates in
    let* t11 := store v_bbb 2 t10 in
    let v_bbb := t11 in
    let '(_, t12) := v_updates in
    let* t13 := store v_bbb 4 t12 in
    let v_bbb := t13 in
    Ok v_bbb) in
  let* v_bbb := (
    let* t1 := index v_bbb 1 in
    let* t2 := index v_bbb 2 in
    let* t3 := index v_bbb 3 in
    let* t4 := index v_bbb 4 in
    let* t5 := index v_bbb 0 in
    let* t6 := index v_w 3 in
    let* t7 := index v_bbb 2 in
    let* t8 := index v_bbb 3 in
    let* t9 := index v_bbb 4 in
    let v_updates := g_ripemd160_small_hash_round t1 t2 t3 t4 t5 t6 12 0x50a28be6 (N.lxor t7 (N.lor t8 (bit_not 32 t9))) in
    let '(t10, _) := v_updates in
    let* t11 := store v_bbb 1 t10 in
    let v_bbb := t11 in
    let '(_, t12) := v_updates in
    let* t13 := store v_bbb 3 t12 in
    let v_bbb := t13 in
    Ok v_bbb) in
  let* v_bbb := (
    let* t1 := index v_bbb 0 in
    let* t2 := index v_bbb 1 in
    let* t3 := index v_bbb 2 in
    let* t4 := index v_bbb 3 in
    let* t5 := index v_bbb 4 in
    let* t6 := index v_w 12 in
    let* t7 := index v_bbb 1 in
    let* t8 := index v_bbb 2 in
    let* t9 := index v_bbb 3 in
    let v_updates := g_ripemd160_small_hash_round t1 t2 t3 t4 t5 t6 6 0x50a28be6 (N.lxor t7 (N.lor t8 (bit_not 32 t9))) in
    let '(t10, _) := v_updates in
    let* t11 := store v_bbb 0 t10 in
    let v_bbb := t11 in
    let '(_, t12) := v_updates in
    let* t13 := store v_bbb 2 t12 in
    let v_bbb := t13 in
    Ok v_bbb) in
  g_ripemd160_Engine_process_block_small_part6 v_self v_w v_bb v_bbb.

Definition g_ripemd160_Engine_process_block_small_part4 v_self v_w v_bb v_bbb : res (engine) :=
  let* v_bb := (
    let* t1 := index v_bb 1 in
    let* t2 := index v_bb 2 in
    let* t3 := index v_bb 3 in
    let* t4 := index v_bb 4 in
    let* t5 := index v_bb 0 in
    let* t6 := index v_w 4 in
    let* t7 := index v_bb 2 in
    let* t8 := index v_bb 3 in
    let* t9 := index v_bb 4 in
    let v_updates := g_ripemd160_small_hash_round t1 t2 t3 t4 t5 t6 9 0xa953fd4e (N.lxor t7 (N.lor t8 (bit_not 32 t9))) in
    let '(t10, _) := v_updates in
    let* t11 := store v_bb 1 t10 in
    let v_bb := t11 in
    let '(_, t12) := v_updates in
    let* t13 := store v_bb 3 t12 in
    let v_bb := t13 in
    Ok v_bb) in
  let* v_bb := (
    let* t1 := index v_bb 0 in
    let* t2 := index v_bb 1 in
    let* t3 := index v_bb 2 in
    let* t4 := index v_bb 3 in
    let* t5 := index v_bb 4 in
    let* t6 := index v_w 0 in
    let* t7 := index v_bb 1 in
    let* t8 := index v_bb 2 in
    let* t9 := index v_bb 3 in
    let v_updates := g_ripemd160_small_hash_round t1 t2 t3 t4 t5 t6 15 0xa953fd4e (N.lxor t7 (N.lor t8 (bit_not 32 t9))) in
    let '(t10, _) := v_updates in
    let* t11 := store v_bb 0 t10 in
    let v_bb := t11 in
    let '(_, t12) := v_updates in
    let* t13 := store v_bb 2 t12 in
    let v_bb := t13 in
    Ok v_bb) in
  let* v_bb := (
    let* t1 := index v_bb 4 in
    let* t2 := index v_bb 0 in
    let* t3 := index v_bb 1 in
    let* t4 := index v_bb 2 in
    let* t5 := index v_bb 3 in
    let* t6 := index v_w 5 in
    let* t7 := index v_bb 0 in
    let* t8 := index v_bb 1 in
    let* t9 := index v_bb 2 in
    let v_updates := g_ripemd160_small_hash_round t1 t2 t3 t4 t5 t6 5 0xa953fd4e (N.lxor t7 (N.lor t8 (bit_not 32 t9))) in
    let '(t10, _) := v_updates in
    let* t11 := store v_bb 4 t10 in
    let v_bb := t11 in
    let '(_, t12) := v_updates in
    let* t13 := store v_bb 1 t12 in
    let v_bb := t13 in
    Ok v_bb) in
  let* v_bb := (
    let* t1 := index v_bb 3 in
    let* t2 := index v_bb 4 in
    let* t3 := index v_bb 0 in
    let* t4 := index v_bb 1 in
    let* t5 := index v_bb 2 in
    let* t6 := index v_w 9 in
    let* t7 := index v_bb 4 in
    let* t8 := index v_bb 0 in
    let* t9 := index v_bb 1 in
    let v_updates := g_ripemd160_small_hash_round t1 t2 t3 t4 t5 t6 11 0xa953fd4e (N.lxor t7 (N.lor t8 (bit_not 32 t9))) in
    let '(t10, _) := v_updates in
    let* t11 := store v_bb 3 t10 in
    let v_bb := t11 in
    let '(_, t12) := v_updates in
    let* t13 := store v_bb 0 t12 in
    let v_bb := t13 in
    Ok v_bb) in
  let* v_bb := (
    let* t1 := index v_bb 2 in
    let* t2 := index v_bb 3 in
    let* t3 := index v_bb 4 in
    let* t4 := index v_bb 0 in
    let* t5 := index v_bb 1 in
    let* t6 := index v_w 7 in
    let* t7 := index v_bb 3 in
    let* t8 := index v_bb 4 in
    let* t9 := index v_bb 0 in
    let v_updates := g_ripemd160_small_hash_round t1 t2 t3 t4 t5 t6 6 0xa953fd4e (N.lxor t7 (N.lor t8 (bit_not 32 t9))) in
    let '(t10, _) := v_updates in
    let* t11 := store v_bb 2 t10 in
    let v_bb := t11 in
    let '(_, t12) := v_updates in
    let* t13 := store v_bb 4 t12 in
    let v_bb := t13 in
    Ok v_bb) in
  let* v_bb := (
    let* t1 := index v_bb 1 in
    let* t2 := index v_bb 2 in
    let* t3 := index v_bb 3 in
    let* t4 := index v_bb 4 in
    let* t5 := index v_bb 0 in
    let* t6 := index v_w 12 in
    let* t7 := index v_bb 2 in
    let* t8 := index v_bb 3 in
    let* t9 := index v_bb 4 in
    let v_updates := g_ripemd160_small_hash_round t1 t2 t3 t4 t5 t6 8 0xa953fd4e (N.lxor t7 (N.lor t8 (bit_not 32 t9))) in
    let '(t10, _) := v_updates in
    let* t11 := store v_bb 1 t10 in
    let v_bb := t11 in
    let '(_, t12) := v_updates in
    let* t13 := store v_bb 3 t12 in
    let v_bb := t13 in
    Ok v_bb) in
  let* v_bb := (
    let* t1 := index v_bb 0 in
    let* t2 := index v_bb 1 in
    let* t3 := index v_bb 2 in
    let* t4 := index v_bb 3 in
    let* t5 := index v_bb 4 in
    let* t6 := index v_w 2 in
    let* t7 := index v_bb 1 in
    let* t8 := index v_bb 2 in
    let* t9 := index v_bb 3 in
    let v_updates := g_ripemd160_small_hash_round t1 t2 t3 t4 t5 t6 13 0xa953fd4e (N.lxor t7 (N.lor t8 (bit_not 32 t9))) in
    let '(t10, _) := v_updates in
    let* t11 := store v_bb 0 t10 in
    let v_bb := t11 in
    let '(_, t12) := v_updates in
    let* t13 := store v_bb 2 t12 in
    let v_bb := t13 in
    Ok v_bb) in
  let* v_bb := (
    let* t1 := index v_bb 4 in
    let* t2 := index v_bb 0 in
    let* t3 := index v_bb 1 in
    let* t4 := index v_bb 2 in
    let* t5 := index v_bb 3 in
    let* t6 := index v_w 10 in
    let* t7 := index v_bb 0 in
    let* t8 := index v_bb 1 in
    let* t9 := index v_bb 2 in
    let v_updates := g_ripemd160_small_hash_round t1 t2 t3 t4 t5 t6 12 0xa953fd4e (N.lxor t7 (N.lor t8 (bit_not 32 t9))) in
    let '(t10, _) := v_updates in
    let* t11 := store v_bb 4 t10 in
    let v_bb := t11 in
    let '(_, t12) := v_updates in
    let* t13 := store v_bb 1 t12 in
    let v_bb := t13 in
    Ok v_bb) in
  let* v_bb := (
    let* t1 := index v_bb 3 in
    let* t2 := index v_bb 4 in
    let* t3 := index v_bb 0 in
    let* t4 := index v_bb 1 in
    let* t5 := index v_bb 2 in
    let* t6 := index v_w 14 in
    let* t7 := index v_bb 4 in
    let* t8 := index v_bb 0 in
    let* t9 := index v_bb 1 in
    let v_updates := g_ripemd160_small_hash_round t1 t2 t3 t4 t5 t6 5 0xa953fd4e (N.lxor t7 (N.lor t8 (bit_not 32 t9))) in
    let '(t10, _) := v_updates in
    let* t11 := store v_bb 3 t10 in
    let v_bb := t11 in
    let '(_, t12) := v_updates in
    let* t13 := store v_bb 0 t12 in
    let v_bb := t13 in
    Ok v_bb) in
  let* v_bb := (
    let* t1 := index v_bb 2 in
    let* t2 := index v_bb 3 in
    let* t3 := index v_bb 4 in
    let* t4 := index v_bb 0 in
    let* t5 := index v_bb 1 in
    let* t6 := index v_w 1 in
    let* t7 := index v_bb 3 in
    let* t8 := index v_bb 4 in
    let* t9 := index v_bb 0 in
    let v_updates := g_ripemd160_small_hash_round t1 t2 t3 t4 t5 t6 12 0xa953fd4e (N.lxor t7 (N.lor t8 (bit_not 32 t9))) in
    let '(t10, _) := v_updates in
    let* t11 := store v_bb 2 t10 in
    let v_bb := t11 in
    let '(_, t12) := v_updates in
    let* t13 := store v_bb 4 t12 in
    let v_bb := t13 in
    Ok v_bb) in
  let* v_bb := (
    let* t1 := index v_bb 1 in
    let* t2 := index v_bb 2 in
    let* t3 := index v_bb 3 in
    let* t4 := index v_bb 4 in
    let* t5 := index v_bb 0 in
    let* t6 := index v_w 3 in
    let* t7 := index v_bb 2 in
    let* t8 := index v_bb 3 in
    let* t9 := index v_bb 4 in
    let v_updates := g_ripemd160_small_hash_round t1 t2 t3 t4 t5 t6 13 0xa953fd4e (N.lxor t7 (N.lor t8 (bit_not 32 t9))) in
    let '(t10, _) := v_updates in
    let* t11 := store v_bb 1 t10 in
    let v_bb := t11 in
    let '(_, t12) := v_updates in
    let* t13 := store v_bb 3 t12 in
    let v_bb := t13 in
    Ok v_bb) in
  let* v_bb := (
    let* t1 := index v_bb 0 in
    let* t2 := index v_bb 1 in
    let* t3 := index v_bb 2 in
    let* t4 := index v_bb 3 in
    let* t5 := index v_bb 4 in
    let* t6 := index v_w 8 in
    let* t7 := index v_bb 1 in
    let* t8 := index v_bb 2 in
    let* t9 := index v_bb 3 in
    let v_updates := g_ripemd160_small_hash_round t1 t2 t3 t4 t5 t6 14 0xa953fd4e (N.lxor t7 (N.lor t8 (bit_not 32 t9))) in
    let '(t10, _) := v_updates in
    let* t11 := store v_bb 0 t10 in
    let v_bb := t11 in
    let '(_, t12) := v_updates in
    let* t13 := store v_bb 2 t12 in
    let v_bb := t13 in
    Ok v_bb) in
  let* v_bb := (
    let* t1 := index v_bb 4 in
    let* t2 := index v_bb 0 in
    let* t3 := index v_bb 1 in
    let* t4 := index v_bb 2 in
    let* t5 := index v_bb 3 in
    let* t6 := index v_w 11 in
    let* t7 := index v_bb 0 in
    let* t8 := index v_bb 1 in
    let* t9 := index v_bb 2 in
    let v_updates := g_ripemd160_small_hash_round t1 t2 t3 t4 t5 t6 11 0xa953fd4e (N.lxor t7 (N.lor t8 (bit_not 32 t9))) in
    let '(t10, _) := v_updates in
    let* t11 := store v_bb 4 t10 in
    let v_bb := t11 in
    let '(_, t12) := v_updates in
    let* t13 := store v_bb 1 t12 in
    let v_bb := t13 in
    Ok v_bb) in
  let* v_bb := (
    let* t1 := index v_bb 3 in
    let* t2 := index v_bb 4 in
    let* t3 := index v_bb 0 in
    let* t4 := index v_bb 1 in
    let* t5 := index v_bb 2 in
    let* t6 := index v_w 6 in
    let* t7 := index v_bb 4 in
    let* t8 := index v_bb 0 in
    let* t9 := index v_bb 1 in
    let v_updates := g_ripemd160_small_hash_round t1 t2 t3 t4 t5 t6 8 0xa953fd4e (N.lxor t7 (N.lor t8 (bit_not 32 t9))) in
    let '(t10, _) := v_updates in
    let* t11 := store v_bb 3 t10 in
    let v_bb := t11 in
    let '(_, t12) := v_updates in
    let* t13 := store v_bb 0 t12 in
    let v_bb := t13 in
    Ok v_bb) in
  let* v_bb := (
    let* t1 := index v_bb 2 in
    let* t2 := index v_bb 3 in
    let* t3 := index v_bb 4 in
    let* t4 := index v_bb 0 in
    let* t5 := index v_bb 1 in
    let* t6 := index v_w 15 in
    let* t7 := index v_bb 3 in
    let* t8 := index v_bb 4 in
    let* t9 := index v_bb 0 in
    let v_updates := g_ripemd160_small_hash_round t1 t2 t3 t4 t5 t6 5 0xa953fd4e (N.lxor t7 (N.lor t8 (bit_not 32 t9))) in
    let '(t10, _) := v_updates in
    let* t11 := store v_bb 2 t10 in
    let v_bb := t11 in
    let '(_, t12) := v_updates in
    let* t13 := store v_bb 4 t12 in
    let v_bb := t13 in
    Ok v_bb) in
  let* v_bb := (
    let* t1 := index v_bb 1 in
    let* t2 := index v_bb 2 in
    let* t3 := index v_bb 3 in
    let* t4 := index v_bb 4 in
    let* t5 := index v_bb 0 in
    let* t6 := index v_w 13 in
    let* t7 := index v_bb 2 in
    let* t8 := index v_bb 3 in
    let* t9 := index v_bb 4 in
    let v_updates := g_ripemd160_small_hash_round t1 t2 t3 t4 t5 t6 6 0xa953fd4e (N.lxor t7 (N.lor t8 (bit_not 32 t9))) in
    let '(t10, _) := v_updates in
    let* t11 := store v_bb 1 t10 in
    let v_bb := t11 in
    let '(_, t12) := v_updates in
    let* t13 := store v_bb 3 t12 in
    let v_bb := t13 in
    Ok v_bb) in
  g_ripemd160_Engine_process_block_small_part5 v_self v_w v_bb v_bbb.

Definition g_ripemd160_Engine_process_block_small_part3 v_self v_w v_bb v_bbb : res (engine) :=
  let* v_bb := (
    let* t1 := index v_bb 2 in
    let* t2 := index v_bb 3 in
    let* t3 := index v_bb 4 in
    let* t4 := index v_bb 0 in
    let* t5 := index v_bb 1 in
    let* t6 := index v_w 1 in
    let* t7 := index v_bb 3 in
    let* t8 := index v_bb 0 in
    let* t9 := index v_bb 4 in
    let* t10 := index v_bb 0 in
    let v_updates := g_ripemd160_small_hash_round t1 t2 t3 t4 t5 t6 11 0x8f1bbcdc (N.lor (N.land t7 t8) (N.land t9 (bit_not 32 t10))) in
    let '(t11, _) := v_updates in
    let* t12 := store v_bb 2 t11 in
    let v_bb := t12 in
    let '(_, t13) := v_updates in
    let* t14 := store v_bb 4 t13 in
    let v_bb := t14 in
    Ok v_bb) in
  let* v_bb := (
    let* t1 := index v_bb 1 in
    let* t2 := index v_bb 2 in
    let* t3 := index v_bb 3 in
    let* t4 := index v_bb 4 in
    let* t5 := index v_bb 0 in
    let* t6 := index v_w 9 in
    let* t7 := index v_bb 2 in
    let* t8 := index v_bb 4 in
    let* t9 := index v_bb 3 in
    let* t10 := index v_bb 4 in
    let v_updates := g_ripemd160_small_hash_round t1 t2 t3 t4 t5 t6 12 0x8f1bbcdc (N.lor (N.land t7 t8) (N.land t9 (bit_not 32 t10))) in
    let '(t11, _) := v_updates in
    let* t12 := store v_bb 1 t11 in
    let v_bb := t12 in
    let '(_, t13) := v_updates in
    let* t14 := store v_bb 3 t13 in
    let v_bb := t14 in
    Ok v_bb) in
  let* v_bb := (
    let* t1 := index v_bb 0 in
    let* t2 := index v_bb 1 in
    let* t3 := index v_bb 2 in
    let* t4 := index v_bb 3 in
    let* t5 := index v_bb 4 in
    let* t6 := index v_w 11 in
    let* t7 := index v_bb 1 in
    let* t8 := index v_bb 3 in
    let* t9 := index v_bb 2 in
    let* t10 := index v_bb 3 in
    let v_updates := g_ripemd160_small_hash_round t1 t2 t3 t4 t5 t6 14 0x8f1bbcdc (N.lor (N.land t7 t8) (N.land t9 (bit_not 32 t10))) in
    let '(t11, _) := v_updates in
    let* t12 := store v_bb 0 t11 in
    let v_bb := t12 in
    let '(_, t13) := v_updates in
    let* t14 := store v_bb 2 t13 in
    let v_bb := t14 in
    Ok v_bb) in
  let* v_bb := (
    let* t1 := index v_bb 4 in
    let* t2 := index v_bb 0 in
    let* t3 := index v_bb 1 in
    let* t4 := index v_bb 2 in
    let* t5 := index v_bb 3 in
    let* t6 := index v_w 10 in
    let* t7 := index v_bb 0 in
    let* t8 := index v_bb 2 in
    let* t9 := index v_bb 1 in
    let* t10 := index v_bb 2 in
    let v_updates := g_ripemd160_small_hash_round t1 t2 t3 t4 t5 t6 15 0x8f1bbcdc (N.lor (N.land t7 t8) (N.land t9 (bit_not 32 t10))) in
    let '(t11, _) := v_updates in
    let* t12 := store v_bb 4 t11 in
    let v_bb := t12 in
    let '(_, t13) := v_updates in
    let* t14 := store v_bb 1 t13 in
    let v_bb := t14 in
    Ok v_bb) in
  let* v_bb := (
    let* t1 := index v_bb 3 in
    let* t2 := index v_bb 4 in
    let* t3 := index v_bb 0 in
    let* t4 := index v_bb 1 in
    let* t5 := index v_bb 2 in
    let* t6 := index v_w 0 in
    let* t7 := index v_bb 4 in
    let* t8 := index v_bb 1 in
    let* t9 := index v_bb 0 in
    let* t10 := index v_bb 1 in
    let v_updates := g_ripemd160_small_hash_round t1 t2 t3 t4 t5 t6 14 0x8f1bbcdc (N.lor (N.land t7 t8) (N.land t9 (bit_not 32 t10))) in
    let '(t11, _) := v_updates in
    let* t12 := store v_bb 3 t11 in
    let v_bb := t12 in
    let '(_, t13) := v_updates in
    let* t14 := store v_bb 0 t13 in
    let v_bb := t14 in
    Ok v_bb) in
  let* v_bb := (
    let* t1 := index v_bb 2 in
    let* t2 := index v_bb 3 in
    let* t3 := index v_bb 4 in
    let* t4 := index v_bb 0 in
    let* t5 := index v_bb 1 in
    let* t6 := index v_w 8 in
    let* t7 := index v_bb 3 in
    let* t8 := index v_bb 0 in
    let* t9 := index v_bb 4 in
    let* t10 := index v_bb 0 in
    let v_updates := g_ripemd160_small_hash_round t1 t2 t3 t4 t5 t6 15 0x8f1bbcdc (N.lor (N.land t7 t8) (N.land t9 (bit_not 32 t10))) in
    let '(t11, _) := v_updates in
    let* t12 := store v_bb 2 t11 in
    let v_bb := t12 in
    let '(_, t13) := v_updates in
    let* t14 := store v_bb 4 t13 in
    let v_bb := t14 in
    Ok v_bb) in
  let* v_bb := (
    let* t1 := index v_bb 1 in
    let* t2 := index v_bb 2 in
    let* t3 := index v_bb 3 in
    let* t4 := index v_bb 4 in
    let* t5 := index v_bb 0 in
    let* t6 := index v_w 12 in
    let* t7 := index v_bb 2 in
    let* t8 := index v_bb 4 in
    let* t9 := index v_bb 3 in
    let* t10 := index v_bb 4 in
    let v_updates := g_ripemd160_small_hash_round t1 t2 t3 t4 t5 t6 9 0x8f1bbcdc (N.lor (N.land t7 t8) (N.land t9 (bit_not 32 t10))) in
    let '(t11, _) := v_updates in
    let* t12 := store v_bb 1 t11 in
    let v_bb := t12 in
    let '(_, t13) := v_updates in
    let* t14 := store v_bb 3 t13 in
    let v_bb := t14 in
    Ok v_bb) in
  let* v_bb := (
    let* t1 := index v_bb 0 in
    let* t2 := index v_bb 1 in
    let* t3 := index v_bb 2 in
    let* t4 := index v_bb 3 in
    let* t5 := index v_bb 4 in
    let* t6 := index v_w 4 in
    let* t7 := index v_bb 1 in
    let* t8 := index v_bb 3 in
    let* t9 := index v_bb 2 in
    let* t10 := index v_bb 3 in
    let v_updates := g_ripemd160_small_hash_round t1 t2 t3 t4 t5 t6 8 0x8f1bbcdc (N.lor (N.land t7 t8) (N.land t9 (bit_not 32 t10))) in
    let '(t11, _) := v_updates in
    let* t12 := store v_bb 0 t11 in
    let v_bb := t12 in
    let '(_, t13) := v_updates in
    let* t14 := store v_bb 2 t13 in
    let v_bb := t14 in
    Ok v_bb) in
  let* v_bb := (
    let* t1 := index v_bb 4 in
    let* t2 := index v_bb 0 in
    let* t3 := index v_bb 1 in
    let* t4 := index v_bb 2 in
    let* t5 := index v_bb 3 in
    let* t6 := index v_w 13 in
    let* t7 := index v_bb 0 in
    let* t8 := index v_bb 2 in
    let* t9 := index v_bb 1 in
    let* t10 := index v_bb 2 in
    let v_updates := g_ripemd160_small_hash_round t1 t2 t3 t4 t5 t6 9 0x8f1bbcdc (N.lor (N.land t7 t8) (N.land t9 (bit_not 32 t10))) in
    let '(t11, _) := v_updates in
    let* t12 := store v_bb 4 t11 in
    let v_bb := t12 in
    let '(_, t13) := v_updates in
    let* t14 := store v_bb 1 t13 in
    let v_bb := t14 in
    Ok v_bb) in
  let* v_bb := (
    let* t1 := index v_bb 3 in
    let* t2 := index v_bb 4 in
    let* t3 := index v_bb 0 in
    let* t4 := index v_bb 1 in
    let* t5 := index v_bb 2 in
    let* t6 := index v_w 3 in
    let* t7 := index v_bb 4 in
    let* t8 := index v_bb 1 in
    let* t9 := index v_bb 0 in
    let* t10 := index v_bb 1 in
    let v_updates := g_ripemd160_small_hash_round t1 t2 t3 t4 t5 t6 14 0x8f1bbcdc (N.lor (N.land t7 t8) (N.land t9 (bit_not 32 t10))) in
    let '(t11, _) := v_updates in
    let* t12 := store v_bb 3 t11 in
    let v_bb := t12 in
    let '(_, t13) := v_updates in
    let* t14 := store v_bb 0 t13 in
    let v_bb := t14 in
    Ok v_bb) in
  let* v_bb := (
    let* t1 := index v_bb 2 in
    let* t2 := index v_bb 3 in
    let* t3 := index v_bb 4 in
    let* t4 := index v_bb 0 in
    let* t5 := index v_bb 1 in
    let* t6 := index v_w 7 in
    let* t7 := index v_bb 3 in
    let* t8 := index v_bb 0 in
    let* t9 := index v_bb 4 in
    let* t10 := index v_bb 0 in
    let v_updates := g_ripemd160_small_hash_round t1 t2 t3 t4 t5 t6 5 0x8f1bbcdc (N.lor (N.land t7 t8) (N.land t9 (bit_not 32 t10))) in
    let '(t11, _) := v_updates in
    let* t12 := store v_bb 2 t11 in
    let v_bb := t12 in
    let '(_, t13) := v_updates in
    let* t14 := store v_bb 4 t13 in
    let v_bb := t14 in
    Ok v_bb) in
  let* v_bb := (
    let* t1 := index v_bb 1 in
    let* t2 := index v_bb 2 in
    let* t3 := index v_bb 3 in
    let* t4 := index v_bb 4 in
    let* t5 := index v_bb 0 in
    let* t6 := index v_w 15 in
    let* t7 := index v_bb 2 in
    let* t8 := index v_bb 4 in
    let* t9 := index v_bb 3 in
    let* t10 := index v_bb 4 in
    let v_updates := g_ripemd160_small_hash_round t1 t2 t3 t4 t5 t6 6 0x8f1bbcdc (N.lor (N.land t7 t8) (N.land t9 (bit_not 32 t10))) in
    let '(t11, _) := v_updates in
    let* t12 := store v_bb 1 t11 in
    let v_bb := t12 in
    let '(_, t13) := v_updates in
    let* t14 := store v_bb 3 t13 in
    let v_bb := t14 in
    Ok v_bb) in
  let* v_bb := (
    let* t1 := index v_bb 0 in
    let* t2 := index v_bb 1 in
    let* t3 := index v_bb 2 in
    let* t4 := index v_bb 3 in
    let* t5 := index v_bb 4 in
    let* t6 := index v_w 14 in
    let* t7 := index v_bb 1 in
    let* t8 := index v_bb 3 in
    let* t9 := index v_bb 2 in
    let* t10 := index v_bb 3 in
    let v_updates := g_ripemd160_small_hash_round t1 t2 t3 t4 t5 t6 8 0x8f1bbcdc (N.lor (N.land t7 t8) (N.land t9 (bit_not 32 t10))) in
    let '(t11, _) := v_updates in
    let* t12 := store v_bb 0 t11 in
    let v_bb := t12 in
    let '(_, t13) := v_updates in
    let* t14 := store v_bb 2 t13 in
    let v_bb := t14 in
    Ok v_bb) in
  let* v_bb := (
    let* t1 := index v_bb 4 in
    let* t2 := index v_bb 0 in
    let* t3 := index v_bb 1 in
    let* t4 := index v_bb 2 in
    let* t5 := index v_bb 3 in
    let* t6 := index v_w 5 in
    let* t7 := index v_bb 0 in
    let* t8 := index v_bb 2 in
    let* t9 := index v_bb 1 in
    let* t10 := index v_bb 2 in
    let v_updates := g_ripemd160_small_hash_round t1 t2 t3 t4 t5 t6 6 0x8f1bbcdc (N.lor (N.land t7 t8) (N.land t9 (bit_not 32 t10))) in
    let '(t11, _) := v_updates in
    let* t12 := store v_bb 4 t11 in
    let v_bb := t12 in
    let '(_, t13) := v_updates in
    let* t14 := store v_bb 1 t13 in
    let v_bb := t14 in
    Ok v_bb) in
  let* v_bb := (
    let* t1 := index v_bb 3 in
    let* t2 := index v_bb 4 in
    let* t3 := index v_bb 0 in
    let* t4 := index v_bb 1 in
    let* t5 := index v_bb 2 in
    let* t6 := index v_w 6 in
    let* t7 := index v_bb 4 in
    let* t8 := index v_bb 1 in
    let* t9 := index v_bb 0 in
    let* t10 := index v_bb 1 in
    let v_updates := g_ripemd160_small_hash_round t1 t2 t3 t4 t5 t6 5 0x8f1bbcdc (N.lor (N.land t7 t8) (N.land t9 (bit_not 32 t10))) in
    let '(t11, _) := v_updates in
    let* t12 := store v_bb 3 t11 in
    let v_bb := t12 in
    let '(_, t13) := v_updates in
    let* t14 := store v_bb 0 t13 in
    let v_bb := t14 in
    Ok v_bb) in
  let* v_bb := (
    let* t1 := index v_bb 2 in
    let* t2 := index v_bb 3 in
    let* t3 := index v_bb 4 in
    let* t4 := index v_bb 0 in
    let* t5 := index v_bb 1 in
    let* t6 := index v_w 2 in
    let* t7 := index v_bb 3 in
    let* t8 := index v_bb 0 in
    let* t9 := index v_bb 4 in
    let* t10 := index v_bb 0 in
    let v_updates := g_ripemd160_small_hash_round t1 t2 t3 t4 t5 t6 12 0x8f1bbcdc (N.lor (N.land t7 t8) (N.land t9 (bit_not 32 t10))) in
    let '(t11, _) := v_updates in
    let* t12 := store v_bb 2 t11 in
    let v_bb := t12 in
    let '(_, t13) := v_updates in
    let* t14 := store v_bb 4 t13 in
    let v_bb := t14 in
    Ok v_bb) in
  g_ripemd160_Engine_process_block_small_part4 v_self v_w v_bb v_bbb.

Definition g_ripemd160_Engine_process_block_small_part2 v_self v_w v_bb v_bbb : res (engine) :=
  let* v_bb := (
    let* t1 := index v_bb 3 in
    let* t2 := index v_bb 4 in
    let* t3 := index v_bb 0 in
    let* t4 := index v_bb 1 in
    let* t5 := index v_bb 2 in
    let* t6 := index v_w 3 in
    let* t7 := index v_bb 4 in
    let* t8 := index v_bb 0 in
    let* t9 := index v_bb 1 in
    let v_updates := g_ripemd160_small_hash_round t1 t2 t3 t4 t5 t6 11 0x6ed9eba1 (N.lxor (N.lor t7 (bit_not 32 t8)) t9) in
    let '(t10, _) := v_updates in
    let* t11 := store v_bb 3 t10 in
    let v_bb := t11 in
    let '(_, t12) := v_updates in
    let* t13 := store v_bb 0 t12 in
    let v_bb := t13 in
    Ok v_bb) in
  let* v_bb := (
    let* t1 := index v_bb 2 in
    let* t2 := index v_bb 3 in
    let* t3 := index v_bb 4 in
    let* t4 := index v_bb 0 in
    let* t5 := index v_bb 1 in
    let* t6 := index v_w 10 in
    let* t7 := index v_bb 3 in
    let* t8 := index v_bb 4 in
    let* t9 := index v_bb 0 in
    let v_updates := g_ripemd160_small_hash_round t1 t2 t3 t4 t5 t6 13 0x6ed9eba1 (N.lxor (N.lor t7 (bit_not 32 t8)) t9) in
    let '(t10, _) := v_updates in
    let* t11 := store v_bb 2 t10 in
    let v_bb := t11 in
    let '(_, t12) := v_updates in
    let* t13 := store v_bb 4 t12 in
    let v_bb := t13 in
    Ok v_bb) in
  let* v_bb := (
    let* t1 := index v_bb 1 in
    let* t2 := index v_bb 2 in
    let* t3 := index v_bb 3 in
    let* t4 := index v_bb 4 in
    let* t5 := index v_bb 0 in
    let* t6 := index v_w 14 in
    let* t7 := index v_bb 2 in
    let* t8 := index v_bb 3 in
    let* t9 := index v_bb 4 in
    let v_updates := g_ripemd160_small_hash_round t1 t2 t3 t4 t5 t6 6 0x6ed9eba1 (N.lxor (N.lor t7 (bit_not 32 t8)) t9) in
    let '(t10, _) := v_updates in
    let* t11 := store v_bb 1 t10 in
    let v_bb := t11 in
    let '(_, t12) := v_updates in
    let* t13 := store v_bb 3 t12 in
    let v_bb := t13 in
    Ok v_bb) in
  let* v_bb := (
    let* t1 := index v_bb 0 in
    let* t2 := index v_bb 1 in
    let* t3 := index v_bb 2 in
    let* t4 := index v_bb 3 in
    let* t5 := index v_bb 4 in
    let* t6 := index v_w 4 in
    let* t7 := index v_bb 1 in
    let* t8 := index v_bb 2 in
    let* t9 := index v_bb 3 in
    let v_updates := g_ripemd160_small_hash_round t1 t2 t3 t4 t5 t6 7 0x6ed9eba1 (N.lxor (N.lor t7 (bit_not 32 t8)) t9) in
    let '(t10, _) := v_updates in
    let* t11 := store v_bb 0 t10 in
    let v_bb := t11 in
    let '(_, t12) := v_updates in
    let* t13 := store v_bb 2 t12 in
    let v_bb := t13 in
    Ok v_bb) in
  let* v_bb := (
    let* t1 := index v_bb 4 in
    let* t2 := index v_bb 0 in
    let* t3 := index v_bb 1 in
    let* t4 := index v_bb 2 in
    let* t5 := index v_bb 3 in
    let* t6 := index v_w 9 in
    let* t7 := index v_bb 0 in
    let* t8 := index v_bb 1 in
    let* t9 := index v_bb 2 in
    let v_updates := g_ripemd160_small_hash_round t1 t2 t3 t4 t5 t6 14 0x6ed9eba1 (N.lxor (N.lor t7 (bit_not 32 t8)) t9) in
    let '(t10, _) := v_updates in
    let* t11 := store v_bb 4 t10 in
    let v_bb := t11 in
    let '(_, t12) := v_updates in
    let* t13 := store v_bb 1 t12 in
    let v_bb := t13 in
    Ok v_bb) in
  let* v_bb := (
    let* t1 := index v_bb 3 in
    let* t2 := index v_bb 4 in
    let* t3 := index v_bb 0 in
    let* t4 := index v_bb 1 in
    let* t5 := index v_bb 2 in
    let* t6 := index v_w 15 in
    let* t7 := index v_bb 4 in
    let* t8 := index v_bb 0 in
    let* t9 := index v_bb 1 in
    let v_updates := g_ripemd160_small_hash_round t1 t2 t3 t4 t5 t6 9 0x6ed9eba1 (N.lxor (N.lor t7 (bit_not 32 t8)) t9) in
    let '(t10, _) := v_updates in
    let* t11 := store v_bb 3 t10 in
    let v_bb := t11 in
    let '(_, t12) := v_updates in
    let* t13 := store v_bb 0 t12 in
    let v_bb := t13 in
    Ok v_bb) in
  let* v_bb := (
    let* t1 := index v_bb 2 in
    let* t2 := index v_bb 3 in
    let* t3 := index v_bb 4 in
    let* t4 := index v_bb 0 in
    let* t5 := index v_bb 1 in
    let* t6 := index v_w 8 in
    let* t7 := index v_bb 3 in
    let* t8 := index v_bb 4 in
    let* t9 := index v_bb 0 in
    let v_updates := g_ripemd160_small_hash_round t1 t2 t3 t4 t5 t6 13 0x6ed9eba1 (N.lxor (N.lor t7 (bit_not 32 t8)) t9) in
    let '(t10, _) := v_updates in
    let* t11 := store v_bb 2 t10 in
    let v_bb := t11 in
    let '(_, t12) := v_updates in
    let* t13 := store v_bb 4 t12 in
    let v_bb := t13 in
    Ok v_bb) in
  let* v_bb := (
    let* t1 := index v_bb 1 in
    let* t2 := index v_bb 2 in
    let* t3 := index v_bb 3 in
    let* t4 := index v_bb 4 in
    let* t5 := index v_bb 0 in
    let* t6 := index v_w 1 in
    let* t7 := index v_bb 2 in
    let* t8 := index v_bb 3 in
    let* t9 := index v_bb 4 in
    let v_updates := g_ripemd160_small_hash_round t1 t2 t3 t4 t5 t6 15 0x6ed9eba1 (N.lxor (N.lor t7 (bit_not 32 t8)) t9) in
    let '(t10, _) := v_updates in
    let* t11 := store v_bb 1 t10 in
    let v_bb := t11 in
    let '(_, t12) := v_updates in
    let* t13 := store v_bb 3 t12 in
    let v_bb := t13 in
    Ok v_bb) in
  let* v_bb := (
    let* t1 := index v_bb 0 in
    let* t2 := index v_bb 1 in
    let* t3 := index v_bb 2 in
    let* t4 := index v_bb 3 in
    let* t5 := index v_bb 4 in
    let* t6 := index v_w 2 in
    let* t7 := index v_bb 1 in
    let* t8 := index v_bb 2 in
    let* t9 := index v_bb 3 in
    let v_updates := g_ripemd160_small_hash_round t1 t2 t3 t4 t5 t6 14 0x6ed9eba1 (N.lxor (N.lor t7 (bit_not 32 t8)) t9) in
    let '(t10, _) := v_updates in
    let* t11 := store v_bb 0 t10 in
    let v_bb := t11 in
    let '(_, t12) := v_updates in
    let* t13 := store v_bb 2 t12 in
    let v_bb := t13 in
    Ok v_bb) in
  let* v_bb := (
    let* t1 := index v_bb 4 in
    let* t2 := index v_bb 0 in
    let* t3 := index v_bb 1 in
    let* t4 := index v_bb 2 in
    let* t5 := index v_bb 3 in
    let* t6 := index v_w 7 in
    let* t7 := index v_bb 0 in
    let* t8 := index v_bb 1 in
    let* t9 := index v_bb 2 in
    let v_updates := g_ripemd160_small_hash_round t1 t2 t3 t4 t5 t6 8 0x6ed9eba1 (N.lxor (N.lor t7 (bit_not 32 t8)) t9) in
    let '(t10, _) := v_updates in
    let* t11 := store v_bb 4 t10 in
    let v_bb := t11 in
    let '(_, t12) := v_updates in
    let* t13 := store v_bb 1 t12 in
    let v_bb := t13 in
    Ok v_bb) in
  let* v_bb := (
    let* t1 := index v_bb 3 in
    let* t2 := index v_bb 4 in
    let* t3 := index v_bb 0 in
    let* t4 := index v_bb 1 in
    let* t5 := index v_bb 2 in
    let* t6 := index v_w 0 in
    let* t7 := index v_bb 4 in
    let* t8 := index v_bb 0 in
    let* t9 := index v_bb 1 in
    let v_updates := g_ripemd160_small_hash_round t1 t2 t3 t4 t5 t6 13 0x6ed9eba1 (N.lxor (N.lor t7 (bit_not 32 t8)) t9) in
    let '(t10, _) := v_updates in
    let* t11 := store v_bb 3 t10 in
    let v_bb := t11 in
    let '(_, t12) := v_updates in
    let* t13 := store v_bb 0 t12 in
    let v_bb := t13 in
    Ok v_bb) in
  let* v_bb := (
    let* t1 := index v_bb 2 in
    let* t2 := index v_bb 3 in
    let* t3 := index v_bb 4 in
    let* t4 := index v_bb 0 in
    let* t5 := index v_bb 1 in
    let* t6 := index v_w 6 in
    let* t7 := index v_bb 3 in
    let* t8 := index v_bb 4 in
    let* t9 := index v_bb 0 in
    let v_updates := g_ripemd160_small_hash_round t1 t2 t3 t4 t5 t6 6 0x6ed9eba1 (N.lxor (N.lor t7 (bit_not 32 t8)) t9) in
    let '(t10, _) := v_updates in
    let* t11 := store v_bb 2 t10 in
    let v_bb := t11 in
    let '(_, t12) := v_updates in
    let* t13 := store v_bb 4 t12 in
    let v_bb := t13 in
    Ok v_bb) in
  let* v_bb := (
    let* t1 := index v_bb 1 in
    let* t2 := index v_bb 2 in
    let* t3 := index v_bb 3 in
    let* t4 := index v_bb 4 in
    let* t5 := index v_bb 0 in
    let* t6 := index v_w 13 in
    let* t7 := index v_bb 2 in
    let* t8 := index v_bb 3 in
    let* t9 := index v_bb 4 in
    let v_updates := g_ripemd160_small_hash_round t1 t2 t3 t4 t5 t6 5 0x6ed9eba1 (N.lxor (N.lor t7 (bit_not 32 t8)) t9) in
    let '(t10, _) := v_updates in
    let* t11 := store v_bb 1 t10 in
    let v_bb := t11 in
    let '(_, t12) := v_updates in
    let* t13 := store v_bb 3 t12 in
    let v_bb := t13 in
    Ok v_bb) in
  let* v_bb := (
    let* t1 := index v_bb 0 in
    let* t2 := index v_bb 1 in
    let* t3 := index v_bb 2 in
    let* t4 := index v_bb 3 in
    let* t5 := index v_bb 4 in
    let* t6 := index v_w 11 in
    let* t7 := index v_bb 1 in
    let* t8 := index v_bb 2 in
    let* t9 := index v_bb 3 in
    let v_updates := g_ripemd160_small_hash_round t1 t2 t3 t4 t5 t6 12 0x6ed9eba1 (N.lxor (N.lor t7 (bit_not 32 t8)) t9) in
    let '(t10, _) := v_updates in
    let* t11 := store v_bb 0 t10 in
    let v_bb := t11 in
    let '(_, t12) := v_updates in
    let* t13 := store v_bb 2 t12 in
    let v_bb := t13 in
    Ok v_bb) in
  let* v_bb := (
    let* t1 := index v_bb 4 in
    let* t2 := index v_bb 0 in
    let* t3 := index v_bb 1 in
    let* t4 := index v_bb 2 in
    let* t5 := index v_bb 3 in
    let* t6 := index v_w 5 in
    let* t7 := index v_bb 0 in
    let* t8 := index v_bb 1 in
    let* t9 := index v_bb 2 in
    let v_updates := g_ripemd160_small_hash_round t1 t2 t3 t4 t5 t6 7 0x6ed9eba1 (N.lxor (N.lor t7 (bit_not 32 t8)) t9) in
    let '(t10, _) := v_updates in
    let* t11 := store v_bb 4 t10 in
    let v_bb := t11 in
    let '(_, t12) := v_updates in
    let* t13 := store v_bb 1 t12 in
    let v_bb := t13 in
    Ok v_bb) in
  let* v_bb := (
    let* t1 := index v_bb 3 in
    let* t2 := index v_bb 4 in
    let* t3 := index v_bb 0 in
    let* t4 := index v_bb 1 in
    let* t5 := index v_bb 2 in
    let* t6 := index v_w 12 in
    let* t7 := index v_bb 4 in
    let* t8 := index v_bb 0 in
    let* t9 := index v_bb 1 in
    let v_updates := g_ripemd160_small_hash_round t1 t2 t3 t4 t5 t6 5 0x6ed9eba1 (N.lxor (N.lor t7 (bit_not 32 t8)) t9) in
    let '(t10, _) := v_updates in
    let* t11 := store v_bb 3 t10 in
    let v_bb := t11 in
    let '(_, t12) := v_updates in
    let* t13 := store v_bb 0 t12 in
    let v_bb := t13 in
    Ok v_bb) in
  g_ripemd160_Engine_process_block_small_part3 v_self v_w v_bb v_bbb.

Definition g_ripemd160_Engine_process_block_small_part1 v_self v_w v_bb v_bbb : res (engine) :=
  let* v_bb := (
    let* t1 := index v_bb 4 in
    let* t2 := index v_bb 0 in
    let* t3 := index v_bb 1 in
    let* t4 := index v_bb 2 in
    let* t5 := index v_bb 3 in
    let* t6 := index v_w 7 in
    let* t7 := index v_bb 0 in
    let* t8 := index v_bb 1 in
    let* t9 := index v_bb 0 in
    let* t10 := index v_bb 2 in
    let v_updates := g_ripemd160_small_hash_round t1 t2 t3 t4 t5 t6 7 0x5a827999 (N.lor (N.land t7 t8) (N.land (bit_not 32 t9) t10)) in
    let '(t11, _) := v_updates in
    let* t12 := store v_bb 4 t11 in
    let v_bb := t12 in
    let '(_, t13) := v_updates in
    let* t14 := store v_bb 1 t13 in
    let v_bb := t14 in
    Ok v_bb) in
  let* v_bb := (
    let* t1 := index v_bb 3 in
    let* t2 := index v_bb 4 in
    let* t3 := index v_bb 0 in
    let* t4 := index v_bb 1 in
    let* t5 := index v_bb 2 in
    let* t6 := index v_w 4 in
    let* t7 := index v_bb 4 in
    let* t8 := index v_bb 0 in
    let* t9 := index v_bb 4 in
    let* t10 := index v_bb 1 in
    let v_updates := g_ripemd160_small_hash_round t1 t2 t3 t4 t5 t6 6 0x5a827999 (N.lor (N.land t7 t8) (N.land (bit_not 32 t9) t10)) in
    let '(t11, _) := v_updates in
    let* t12 := store v_bb 3 t11 in
    let v_bb := t12 in
    let '(_, t13) := v_updates in
    let* t14 := store v_bb 0 t13 in
    let v_bb := t14 in
    Ok v_bb) in
  let* v_bb := (
    let* t1 := index v_bb 2 in
    let* t2 := index v_bb 3 in
    let* t3 := index v_bb 4 in
    let* t4 := index v_bb 0 in
    let* t5 := index v_bb 1 in
    let* t6 := index v_w 13 in
    let* t7 := index v_bb 3 in
    let* t8 := index v_bb 4 in
    let* t9 := index v_bb 3 in
    let* t10 := index v_bb 0 in
    let v_updates := g_ripemd160_small_hash_round t1 t2 t3 t4 t5 t6 8 0x5a827999 (N.lor (N.land t7 t8) (N.land (bit_not 32 t9) t10)) in
    let '(t11, _) := v_updates in
    let* t12 := store v_bb 2 t11 in
    let v_bb := t12 in
    let '(_, t13) := v_updates in
    let* t14 := store v_bb 4 t13 in
    let v_bb := t14 in
    Ok v_bb) in
  let* v_bb := (
    let* t1 := index v_bb 1 in
    let* t2 := index v_bb 2 in
    let* t3 := index v_bb 3 in
    let* t4 := index v_bb 4 in
    let* t5 := index v_bb 0 in
    let* t6 := index v_w 1 in
    let* t7 := index v_bb 2 in
    let* t8 := index v_bb 3 in
    let* t9 := index v_bb 2 in
    let* t10 := index v_bb 4 in
    let v_updates := g_ripemd160_small_hash_round t1 t2 t3 t4 t5 t6 13 0x5a827999 (N.lor (N.land t7 t8) (N.land (bit_not 32 t9) t10)) in
    let '(t11, _) := v_updates in
    let* t12 := store v_bb 1 t11 in
    let v_bb := t12 in
    let '(_, t13) := v_updates in
    let* t14 := store v_bb 3 t13 in
    let v_bb := t14 in
    Ok v_bb) in
  let* v_bb := (
    let* t1 := index v_bb 0 in
    let* t2 := index v_bb 1 in
    let* t3 := index v_bb 2 in
    let* t4 := index v_bb 3 in
    let* t5 := index v_bb 4 in
    let* t6 := index v_w 10 in
    let* t7 := index v_bb 1 in
    let* t8 := index v_bb 2 in
    let* t9 := index v_bb 1 in
    let* t10 := index v_bb 3 in
    let v_updates := g_ripemd160_small_hash_round t1 t2 t3 t4 t5 t6 11 0x5a827999 (N.lor (N.land t7 t8) (N.land (bit_not 32 t9) t10)) in
    let '(t11, _) := v_updates in
    let* t12 := store v_bb 0 t11 in
    let v_bb := t12 in
    let '(_, t13) := v_updates in
    let* t14 := store v_bb 2 t13 in
    let v_bb := t14 in
    Ok v_bb) in
  let* v_bb := (
    let* t1 := index v_bb 4 in
    let* t2 := index v_bb 0 in
    let* t3 := index v_bb 1 in
    let* t4 := index v_bb 2 in
    let* t5 := index v_bb 3 in
    let* t6 := index v_w 6 in
    let* t7 := index v_bb 0 in
    let* t8 := index v_bb 1 in
    let* t9 := index v_bb 0 in
    let* t10 := index v_bb 2 in
    let v_updates := g_ripemd160_small_hash_round t1 t2 t3 t4 t5 t6 9 0x5a827999 (N.lor (N.land t7 t8) (N.land (bit_not 32 t9) t10)) in
    let '(t11, _) := v_updates in
    let* t12 := store v_bb 4 t11 in
    let v_bb := t12 in
    let '(_, t13) := v_updates in
    let* t14 := store v_bb 1 t13 in
    let v_bb := t14 in
    Ok v_bb) in
  let* v_bb := (
    let* t1 := index v_bb 3 in
    let* t2 := index v_bb 4 in
    let* t3 := index v_bb 0 in
    let* t4 := index v_bb 1 in
    let* t5 := index v_bb 2 in
    let* t6 := index v_w 15 in
    let* t7 := index v_bb 4 in
    let* t8 := index v_bb 0 in
    let* t9 := index v_bb 4 in
    let* t10 := index v_bb 1 in
    let v_updates := g_ripemd160_small_hash_round t1 t2 t3 t4 t5 t6 7 0x5a827999 (N.lor (N.land t7 t8) (N.land (bit_not 32 t9) t10)) in
    let '(t11, _) := v_updates in
    let* t12 := store v_bb 3 t11 in
    let v_bb := t12 in
    let '(_, t13) := v_updates in
    let* t14 := store v_bb 0 t13 in
    let v_bb := t14 in
    Ok v_bb) in
  let* v_bb := (
    let* t1 := index v_bb 2 in
    let* t2 := index v_bb 3 in
    let* t3 := index v_bb 4 in
    let* t4 := index v_bb 0 in
    let* t5 := index v_bb 1 in
    let* t6 := index v_w 3 in
    let* t7 := index v_bb 3 in
    let* t8 := index v_bb 4 in
    let* t9 := index v_bb 3 in
    let* t10 := index v_bb 0 in
    let v_updates := g_ripemd160_small_hash_round t1 t2 t3 t4 t5 t6 15 0x5a827999 (N.lor (N.land t7 t8) (N.land (bit_not 32 t9) t10)) in
    let '(t11, _) := v_updates in
    let* t12 := store v_bb 2 t11 in
    let v_bb := t12 in
    let '(_, t13) := v_updates in
    let* t14 := store v_bb 4 t13 in
    let v_bb := t14 in
    Ok v_bb) in
  let* v_bb := (
    let* t1 := index v_bb 1 in
    let* t2 := index v_bb 2 in
    let* t3 := index v_bb 3 in
    let* t4 := index v_bb 4 in
    let* t5 := index v_bb 0 in
    let* t6 := index v_w 12 in
    let* t7 := index v_bb 2 in
    let* t8 := index v_bb 3 in
    let* t9 := index v_bb 2 in
    let* t10 := index v_bb 4 in
    let v_updates := g_ripemd160_small_hash_round t1 t2 t3 t4 t5 t6 7 0x5a827999 (N.lor (N.land t7 t8) (N.land (bit_not 32 t9) t10)) in
    let '(t11, _) := v_updates in
    let* t12 := store v_bb 1 t11 in
    let v_bb := t12 in
    let '(_, t13) := v_updates in
    let* t14 := store v_bb 3 t13 in
    let v_bb := t14 in
    Ok v_bb) in
  let* v_bb := (
    let* t1 := index v_bb 0 in
    let* t2 := index v_bb 1 in
    let* t3 := index v_bb 2 in
    let* t4 := index v_bb 3 in
    let* t5 := index v_bb 4 in
    let* t6 := index v_w 0 in
    let* t7 := index v_bb 1 in
    let* t8 := index v_bb 2 in
    let* t9 := index v_bb 1 in
    let* t10 := index v_bb 3 in
    let v_updates := g_ripemd160_small_hash_round t1 t2 t3 t4 t5 t6 12 0x5a827999 (N.lor (N.land t7 t8) (N.land (bit_not 32 t9) t10)) in
    let '(t11, _) := v_updates in
    let* t12 := store v_bb 0 t11 in
    let v_bb := t12 in
    let '(_, t13) := v_updates in
    let* t14 := store v_bb 2 t13 in
    let v_bb := t14 in
    Ok v_bb) in
  let* v_bb := (
    let* t1 := index v_bb 4 in
    let* t2 := index v_bb 0 in
    let* t3 := index v_bb 1 in
    let* t4 := index v_bb 2 in
    let* t5 := index v_bb 3 in
    let* t6 := index v_w 9 in
    let* t7 := index v_bb 0 in
    let* t8 := index v_bb 1 in
    let* t9 := index v_bb 0 in
    let* t10 := index v_bb 2 in
    let v_updates := g_ripemd160_small_hash_round t1 t2 t3 t4 t5 t6 15 0x5a827999 (N.lor (N.land t7 t8) (N.land (bit_not 32 t9) t10)) in
    let '(t11, _) := v_updates in
    let* t12 := store v_bb 4 t11 in
    let v_bb := t12 in
    let '(_, t13) := v_updates in
    let* t14 := store v_bb 1 t13 in
    let v_bb := t14 in
    Ok v_bb) in
  let* v_bb := (
    let* t1 := index v_bb 3 in
    let* t2 := index v_bb 4 in
    let* t3 := index v_bb 0 in
    let* t4 := index v_bb 1 in
    let* t5 := index v_bb 2 in
    let* t6 := index v_w 5 in
    let* t7 := index v_bb 4 in
    let* t8 := index v_bb 0 in
    let* t9 := index v_bb 4 in
    let* t10 := index v_bb 1 in
    let v_updates := g_ripemd160_small_hash_round t1 t2 t3 t4 t5 t6 9 0x5a827999 (N.lor (N.land t7 t8) (N.land (bit_not 32 t9) t10)) in
    let '(t11, _) := v_updates in
    let* t12 := store v_bb 3 t11 in
    let v_bb := t12 in
    let '(_, t13) := v_updates in
    let* t14 := store v_bb 0 t13 in
    let v_bb := t14 in
    Ok v_bb) in
  let* v_bb := (
    let* t1 := index v_bb 2 in
    let* t2 := index v_bb 3 in
    let* t3 := index v_bb 4 in
    let* t4 := index v_bb 0 in
    let* t5 := index v_bb 1 in
    let* t6 := index v_w 2 in
    let* t7 := index v_bb 3 in
    let* t8 := index v_bb 4 in
    let* t9 := index v_bb 3 in
    let* t10 := index v_bb 0 in
    let v_updates := g_ripemd160_small_hash_round t1 t2 t3 t4 t5 t6 11 0x5a827999 (N.lor (N.land t7 t8) (N.land (bit_not 32 t9) t10)) in
    let '(t11, _) := v_updates in
    let* t12 := store v_bb 2 t11 in
    let v_bb := t12 in
    let '(_, t13) := v_updates in
    let* t14 := store v_bb 4 t13 in
    let v_bb := t14 in
    Ok v_bb) in
  let* v_bb := (
    let* t1 := index v_bb 1 in
    let* t2 := index v_bb 2 in
    let* t3 := index v_bb 3 in
    let* t4 := index v_bb 4 in
    let* t5 := index v_bb 0 in
    let* t6 := index v_w 14 in
    let* t7 := index v_bb 2 in
    let* t8 := index v_bb 3 in
    let* t9 := index v_bb 2 in
    let* t10 := index v_bb 4 in
    let v_updates := g_ripemd160_small_hash_round t1 t2 t3 t4 t5 t6 7 0x5a827999 (N.lor (N.land t7 t8) (N.land (bit_not 32 t9) t10)) in
    let '(t11, _) := v_updates in
    let* t12 := store v_bb 1 t11 in
    let v_bb := t12 in
    let '(_, t13) := v_updates in
    let* t14 := store v_bb 3 t13 in
    let v_bb := t14 in
    Ok v_bb) in
  let* v_bb := (
    let* t1 := index v_bb 0 in
    let* t2 := index v_bb 1 in
    let* t3 := index v_bb 2 in
    let* t4 := index v_bb 3 in
    let* t5 := index v_bb 4 in
    let* t6 := index v_w 11 in
    let* t7 := index v_bb 1 in
    let* t8 := index v_bb 2 in
    let* t9 := index v_bb 1 in
    let* t10 := index v_bb 3 in
    let v_updates := g_ripemd160_small_hash_round t1 t2 t3 t4 t5 t6 13 0x5a827999 (N.lor (N.land t7 t8) (N.land (bit_not 32 t9) t10)) in
    let '(t11, _) := v_updates in
    let* t12 := store v_bb 0 t11 in
    let v_bb := t12 in
    let '(_, t13) := v_updates in
    let* t14 := store v_bb 2 t13 in
    let v_bb := t14 in
    Ok v_bb) in
  let* v_bb := (
    let* t1 := index v_bb 4 in
    let* t2 := index v_bb 0 in
    let* t3 := index v_bb 1 in
    let* t4 := index v_bb 2 in
    let* t5 := index v_bb 3 in
    let* t6 := index v_w 8 in
    let* t7 := index v_bb 0 in
    let* t8 := index v_bb 1 in
    let* t9 := index v_bb 0 in
    let* t10 := index v_bb 2 in
    let v_updates := g_ripemd160_small_hash_round t1 t2 t3 t4 t5 t6 12 0x5a827999 (N.lor (N.land t7 t8) (N.land (bit_not 32 t9) t10)) in
    let '(t11, _) := v_updates in
    let* t12 := store v_bb 4 t11 in
    let v_bb := t12 in
    let '(_, t13) := v_updates in
    let* t14 := store v_bb 1 t13 in
    let v_bb := t14 in
    Ok v_bb) in
  g_ripemd160_Engine_process_block_small_part2 v_self v_w v_bb v_bbb.

Definition g_ripemd160_Engine_process_block_small (cfg : config) (v_self : engine) : res (engine) :=
  let* _ := debug_assert cfg ((len (e_buffer v_self)) =? 64) in
  let v_w := array 0 16 in
  let* v_w := zip_iter_mut v_w (chunks_exact 4 (e_buffer v_self)) (fun v_w_val v_buff_bytes =>
      let* t1 := from_le_bytes 4 v_buff_bytes in
      let v_w_val := t1 in
      Ok v_w_val) in
  let v_bb := e_h v_self in
  let v_bbb := e_h v_self in
  let* v_bb := (
    let* t1 := index v_bb 0 in
    let* t2 := index v_bb 1 in
    let* t3 := index v_bb 2 in
    let* t4 := index v_bb 3 in
    let* t5 := index v_bb 4 in
    let* t6 := index v_w 0 in
    let* t7 := index v_bb 1 in
    let* t8 := index v_bb 2 in
    let* t9 := index v_bb 3 in
    let v_updates := g_ripemd160_small_hash_round t1 t2 t3 t4 t5 t6 11 0 (N.lxor (N.lxor t7 t8) t9) in
    let '(t10, _) := v_updates in
    let* t11 := store v_bb 0 t10 in
    let v_bb := t11 in
    let '(_, t12) := v_updates in
    let* t13 := store v_bb 2 t12 in
    let v_bb := t13 in
    Ok v_bb) in
  let* v_bb := (
    let* t1 := index v_bb 4 in
    let* t2 := index v_bb 0 in
    let* t3 := index v_bb 1 in
    let* t4 := index v_bb 2 in
    let* t5 := index v_bb 3 in
    let* t6 := index v_w 1 in
    let* t7 := index v_bb 0 in
    let* t8 := index v_bb 1 in
    let* t9 := index v_bb 2 in
    let v_updates := g_ripemd160_small_hash_round t1 t2 t3 t4 t5 t6 14 0 (N.lxor (N.lxor t7 t8) t9) in
    let '(t10, _) := v_updates in
    let* t11 := store v_bb 4 t10 in
    let v_bb := t11 in
    let '(_, t12) := v_updates in
    let* t13 := store v_bb 1 t12 in
    let v_bb := t13 in
    Ok v_bb) in
  let* v_bb := (
    let* t1 := index v_bb 3 in
    let* t2 := index v_bb 4 in
    let* t3 := index v_bb 0 in
    let* t4 := index v_bb 1 in
    let* t5 := index v_bb 2 in
    let* t6 := index v_w 2 in
    let* t7 := index v_bb 4 in
    let* t8 := index v_bb 0 in
    let* t9 := index v_bb 1 in
    let v_updates := g_ripemd160_small_hash_round t1 t2 t3 t4 t5 t6 15 0 (N.lxor (N.lxor t7 t8) t9) in
    let '(t10, _) := v_updates in
    let* t11 := store v_bb 3 t10 in
    let v_bb := t11 in
    let '(_, t12) := v_updates in
    let* t13 := store v_bb 0 t12 in
    let v_bb := t13 in
    Ok v_bb) in
  let* v_bb := (
    let* t1 := index v_bb 2 in
    let* t2 := index v_bb 3 in
    let* t3 := index v_bb 4 in
    let* t4 := index v_bb 0 in
    let* t5 := index v_bb 1 in
    let* t6 := index v_w 3 in
    let* t7 := index v_bb 3 in
    let* t8 := index v_bb 4 in
    let* t9 := index v_bb 0 in
    let v_updates := g_ripemd160_small_hash_round t1 t2 t3 t4 t5 t6 12 0 (N.lxor (N.lxor t7 t8) t9) in
    let '(t10, _) := v_updates in
    let* t11 := store v_bb 2 t10 in
    let v_bb := t11 in
    let '(_, t12) := v_updates in
    let* t13 := store v_bb 4 t12 in
    let v_bb := t13 in
    Ok v_bb) in
  let* v_bb := (
    let* t1 := index v_bb 1 in
    let* t2 := index v_bb 2 in
    let* t3 := index v_bb 3 in
    let* t4 := index v_bb 4 in
    let* t5 := index v_bb 0 in
    let* t6 := index v_w 4 in
    let* t7 := index v_bb 2 in
    let* t8 := index v_bb 3 in
    let* t9 := index v_bb 4 in
    let v_updates := g_ripemd160_small_hash_round t1 t2 t3 t4 t5 t6 5 0 (N.lxor (N.lxor t7 t8) t9) in
    let '(t10, _) := v_updates in
    let* t11 := store v_bb 1 t10 in
    let v_bb := t11 in
    let '(_, t12) := v_updates in
    let* t13 := store v_bb 3 t12 in
    let v_bb := t13 in
    Ok v_bb) in
  let* v_bb := (
    let* t1 := index v_bb 0 in
    let* t2 := index v_bb 1 in
    let* t3 := index v_bb 2 in
    let* t4 := index v_bb 3 in
    let* t5 := index v_bb 4 in
    let* t6 := index v_w 5 in
    let* t7 := index v_bb 1 in
    let* t8 := index v_bb 2 in
    let* t9 := index v_bb 3 in
    let v_updates := g_ripemd160_small_hash_round t1 t2 t3 t4 t5 t6 8 0 (N.lxor (N.lxor t7 t8) t9) in
    let '(t10, _) := v_updates in
    let* t11 := store v_bb 0 t10 in
    let v_bb := t11 in
    let '(_, t12) := v_updates in
    let* t13 := store v_bb 2 t12 in
    let v_bb := t13 in
    Ok v_bb) in
  let* v_bb := (
    let* t1 := index v_bb 4 in
    let* t2 := index v_bb 0 in
    let* t3 := index v_bb 1 in
    let* t4 := index v_bb 2 in
    let* t5 := index v_bb 3 in
    let* t6 := index v_w 6 in
    let* t7 := index v_bb 0 in
    let* t8 := index v_bb 1 in
    let* t9 := index v_bb 2 in
    let v_updates := g_ripemd160_small_hash_round t1 t2 t3 t4 t5 t6 7 0 (N.lxor (N.lxor t7 t8) t9) in
    let '(t10, _) := v_updates in
    let* t11 := store v_bb 4 t10 in
    let v_bb := t11 in
    let '(_, t12) := v_updates in
    let* t13 := store v_bb 1 t12 in
    let v_bb := t13 in
    Ok v_bb) in
  let* v_bb := (
    let* t1 := index v_bb 3 in
    let* t2 := index v_bb 4 in
    let* t3 := index v_bb 0 in
    let* t4 := index v_bb 1 in
    let* t5 := index v_bb 2 in
    let* t6 := index v_w 7 in
    let* t7 := index v_bb 4 in
    let* t8 := index v_bb 0 in
    let* t9 := index v_bb 1 in
    let v_updates := g_ripemd160_small_hash_round t1 t2 t3 t4 t5 t6 9 0 (N.lxor (N.lxor t7 t8) t9) in
    let '(t10, _) := v_updates in
    let* t11 := store v_bb 3 t10 in
    let v_bb := t11 in
    let '(_, t12) := v_updates in
    let* t13 := store v_bb 0 t12 in
    let v_bb := t13 in
    Ok v_bb) in
  let* v_bb := (
    let* t1 := index v_bb 2 in
    let* t2 := index v_bb 3 in
    let* t3 := index v_bb 4 in
    let* t4 := index v_bb 0 in
    let* t5 := index v_bb 1 in
    let* t6 := index v_w 8 in
    let* t7 := index v_bb 3 in
    let* t8 := index v_bb 4 in
    let* t9 := index v_bb 0 in
    let v_updates := g_ripemd160_small_hash_round t1 t2 t3 t4 t5 t6 11 0 (N.lxor (N.lxor t7 t8) t9) in
    let '(t10, _) := v_updates in
    let* t11 := store v_bb 2 t10 in
    let v_bb := t11 in
    let '(_, t12) := v_updates in
    let* t13 := store v_bb 4 t12 in
    let v_bb := t13 in
    Ok v_bb) in
  let* v_bb := (
    let* t1 := index v_bb 1 in
    let* t2 := index v_bb 2 in
    let* t3 := index v_bb 3 in
    let* t4 := index v_bb 4 in
    let* t5 := index v_bb 0 in
    let* t6 := index v_w 9 in
    let* t7 := index v_bb 2 in
    let* t8 := index v_bb 3 in
    let* t9 := index v_bb 4 in
    let v_updates := g_ripemd160_small_hash_round t1 t2 t3 t4 t5 t6 13 0 (N.lxor (N.lxor t7 t8) t9) in
    let '(t10, _) := v_updates in
    let* t11 := store v_bb 1 t10 in
    let v_bb := t11 in
    let '(_, t12) := v_updates in
    let* t13 := store v_bb 3 t12 in
    let v_bb := t13 in
    Ok v_bb) in
  let* v_bb := (
    let* t1 := index v_bb 0 in
    let* t2 := index v_bb 1 in
    let* t3 := index v_bb 2 in
    let* t4 := index v_bb 3 in
    let* t5 := index v_bb 4 in
    let* t6 := index v_w 10 in
    let* t7 := index v_bb 1 in
    let* t8 := index v_bb 2 in
    let* t9 := index v_bb 3 in
    let v_updates := g_ripemd160_small_hash_round t1 t2 t3 t4 t5 t6 14 0 (N.lxor (N.lxor t7 t8) t9) in
    let '(t10, _) := v_updates in
    let* t11 := store v_bb 0 t10 in
    let v_bb := t11 in
    let '(_, t12) := v_updates in
    let* t13 := store v_bb 2 t12 in
    let v_bb := t13 in
    Ok v_bb) in
  let* v_bb := (
    let* t1 := index v_bb 4 in
    let* t2 := index v_bb 0 in
    let* t3 := index v_bb 1 in
    let* t4 := index v_bb 2 in
    let* t5 := index v_bb 3 in
    let* t6 := index v_w 11 in
    let* t7 := index v_bb 0 in
    let* t8 := index v_bb 1 in
    let* t9 := index v_bb 2 in
    let v_updates := g_ripemd160_small_hash_round t1 t2 t3 t4 t5 t6 15 0 (N.lxor (N.lxor t7 t8) t9) in
    let '(t10, _) := v_updates in
    let* t11 := store v_bb 4 t10 in
    let v_bb := t11 in
    let '(_, t12) := v_updates in
    let* t13 := store v_bb 1 t12 in
    let v_bb := t13 in
    Ok v_bb) in
  let* v_bb := (
    let* t1 := index v_bb 3 in
    let* t2 := index v_bb 4 in
    let* t3 := index v_bb 0 in
    let* t4 := index v_bb 1 in
    let* t5 := index v_bb 2 in
    let* t6 := index v_w 12 in
    let* t7 := index v_bb 4 in
    let* t8 := index v_bb 0 in
    let* t9 := index v_bb 1 in
    let v_updates := g_ripemd160_small_hash_round t1 t2 t3 t4 t5 t6 6 0 (N.lxor (N.lxor t7 t8) t9) in
    let '(t10, _) := v_updates in
    let* t11 := store v_bb 3 t10 in
    let v_bb := t11 in
    let '(_, t12) := v_updates in
    let* t13 := store v_bb 0 t12 in
    let v_bb := t13 in
    Ok v_bb) in
  let* v_bb := (
    let* t1 := index v_bb 2 in
    let* t2 := index v_bb 3 in
    let* t3 := index v_bb 4 in
    let* t4 := index v_bb 0 in
    let* t5 := index v_bb 1 in
    let* t6 := index v_w 13 in
    let* t7 := index v_bb 3 in
    let* t8 := index v_bb 4 in
    let* t9 := index v_bb 0 in
    let v_updates := g_ripemd160_small_hash_round t1 t2 t3 t4 t5 t6 7 0 (N.lxor (N.lxor t7 t8) t9) in
    let '(t10, _) := v_updates in
    let* t11 := store v_bb 2 t10 in
    let v_bb := t11 in
    let '(_, t12) := v_updates in
    let* t13 := store v_bb 4 t12 in
    let v_bb := t13 in
    Ok v_bb) in
  let* v_bb := (
    let* t1 := index v_bb 1 in
    let* t2 := index v_bb 2 in
    let* t3 := index v_bb 3 in
    let* t4 := index v_bb 4 in
    let* t5 := index v_bb 0 in
    let* t6 := index v_w 14 in
    let* t7 := index v_bb 2 in
    let* t8 := index v_bb 3 in
    let* t9 := index v_bb 4 in
    let v_updates := g_ripemd160_small_hash_round t1 t2 t3 t4 t5 t6 9 0 (N.lxor (N.lxor t7 t8) t9) in
    let '(t10, _) := v_updates in
    let* t11 := store v_bb 1 t10 in
    let v_bb := t11 in
    let '(_, t12) := v_updates in
    let* t13 := store v_bb 3 t12 in
    let v_bb := t13 in
    Ok v_bb) in
  let* v_bb := (
    let* t1 := index v_bb 0 in
    let* t2 := index v_bb 1 in
    let* t3 := index v_bb 2 in
    let* t4 := index v_bb 3 in
    let* t5 := index v_bb 4 in
    let* t6 := index v_w 15 in
    let* t7 := index v_bb 1 in
    let* t8 := index v_bb 2 in
    let* t9 := index v_bb 3 in
    let v_updates := g_ripemd160_small_hash_round t1 t2 t3 t4 t5 t6 8 0 (N.lxor (N.lxor t7 t8) t9) in
    let '(t10, _) := v_updates in
    let* t11 := store v_bb 0 t10 in
    let v_bb := t11 in
    let '(_, t12) := v_updates in
    let* t13 := store v_bb 2 t12 in
    let v_bb := t13 in
    Ok v_bb) in
  g_ripemd160_Engine_process_block_small_part1 v_self v_w v_bb v_bbb.

(** process_block, src/ripemd160.rs:228-417 *)
Definition g_ripemd160_Engine_process_block (cfg : config) (v_self : engine) : res (engine) :=
  if small_hash cfg then g_ripemd160_Engine_process_block_small cfg v_self else g_ripemd160_Engine_process_block_fast cfg v_self.

(** input, src/internal_macros.rs:22-36 *)
Fixpoint g_ripemd160_Engine_input_loop1 (fuel : nat) (cfg : config) (v_self : engine) (v_inp : (list byte)) {struct fuel} : res (engine * (list byte)) :=
  if negb (len v_inp =? 0) then
    match fuel with
    | O => Panic POutOfFuel
    | S fuel =>
      let v_buf_idx := (e_length v_self) mod 64 in
      let* v_rem_len := usize_sub cfg 64 v_buf_idx in
      let v_write_len := N.min v_rem_len (len v_inp) in
      let* t2 := usize_add cfg v_buf_idx v_write_len in
      let* t3 := slice_range v_buf_idx t2 (e_buffer v_self) in
      let* t4 := slice_to v_write_len v_inp in
      let* t5 := copy_from_slice t3 t4 in
      let v_self := mk_engine (splice v_buf_idx t2 (e_buffer v_self) t5) (e_h v_self) (e_length v_self) in
      let* t6 := usize_add cfg (e_length v_self) v_write_len in
      let v_self := mk_engine (e_buffer v_self) (e_h v_self) t6 in
      let* v_self := (
        if ((e_length v_self) mod 64) =? 0 then
          g_ripemd160_Engine_process_block cfg v_self
        else
          Ok v_self) in
      let* t7 := slice_from v_write_len v_inp in
      let v_inp := t7 in
      g_ripemd160_Engine_input_loop1 fuel cfg v_self v_inp
    end
  else
    Ok (v_self, v_inp).

Definition g_ripemd160_Engine_input (cfg : config) (v_self : engine) (v_inp : (list byte)) : res (engine) :=
  let* (v_self, v_inp) := g_ripemd160_Engine_input_loop1 (length v_inp) cfg v_self v_inp in
  Ok v_self.

(** midstate, src/ripemd160.rs:74-80 *)
Definition g_ripemd160_Engine_midstate (v_self : engine) : res ((list byte)) :=
  let v_ret := array x00 20 in
  zip_chunks_mut (e_h v_self) 4 v_ret (fun v_val v_ret_bytes =>
      copy_from_slice v_ret_bytes (to_le_bytes 4 v_val)).

(** finalize, src/ripemd160.rs:46-63 *)
Definition g_ripemd160_Engine_finalize (cfg : config) (v_self : engine) : res ((list byte)) :=
  let v_data_len := e_length v_self in
  let v_zeroes := array x00 56 in
  let* v_self := g_ripemd160_Engine_input cfg v_self [x80] in
  let* v_self := (
    if (len v_zeroes) <? ((e_length v_self) mod 64) then
      g_ripemd160_Engine_input cfg v_self v_zeroes
    else
      Ok v_self) in
  let* v_pad_length := usize_sub cfg (len v_zeroes) ((e_length v_self) mod 64) in
  let* t2 := slice_to v_pad_length v_zeroes in
  let* v_self := g_ripemd160_Engine_input cfg v_self t2 in
  let* _ := debug_assert cfg (((e_length v_self) mod 64) =? (len v_zeroes)) in
  let* t3 := checked_mul cfg 64 8 v_data_len in
  let* v_self := g_ripemd160_Engine_input cfg v_self (to_le_bytes 8 t3) in
  let* _ := debug_assert cfg (((e_length v_self) mod 64) =? 0) in
  g_ripemd160_Engine_midstate v_self.

(** from_midstate, src/ripemd160.rs:90-99 *)
Definition g_ripemd160_Engine_from_midstate (v_midstate : (list byte)) (v_length : N) : res (engine) :=
  let* _ := assert ((v_length mod 64) =? 0) in
  let v_ret := array 0 5 in
  let* v_ret := zip_iter_mut v_ret (chunks_exact 4 v_midstate) (fun v_ret_val v_midstate_bytes =>
      let* t1 := from_be_bytes 4 v_midstate_bytes in
      let v_ret_val := t1 in
      Ok v_ret_val) in
  Ok (mk_engine (array x00 64) v_ret v_length).

(** impl HashEngine for Engine, src/ripemd160.rs *)
Definition g_ripemd160_Engine_dict (cfg : config) : HashEngine :=
  {| he_state := engine;
     he_mid := (list byte);
     he_block_size := 64;
     he_default := Ok g_ripemd160_Engine_default;
     he_input := g_ripemd160_Engine_input cfg;
     he_n_bytes_hashed := g_ripemd160_Engine_n_bytes_hashed;
     he_finalize := g_ripemd160_Engine_finalize cfg;
     he_midstate := g_ripemd160_Engine_midstate;
     he_from_midstate := g_ripemd160_Engine_from_midstate |}.

(** engine, src/internal_macros.rs:165-165 *)
Definition g_ripemd160_Hash_engine (cfg : config) : res (engine) :=
  g_lib_HashEngine_new (g_ripemd160_Engine_dict cfg).

(** hash, src/internal_macros.rs:158-162 *)
Definition g_ripemd160_Hash_hash (cfg : config) (v_bytes : (list byte)) : res ((list byte)) :=
  let* v_engine := g_ripemd160_Hash_engine cfg in
  let* v_engine := g_ripemd160_Engine_input cfg v_engine v_bytes in
  g_ripemd160_Engine_finalize cfg v_engine.

(** from_engine, src/internal_macros.rs:170-173 *)
Definition g_ripemd160_Hash_from_engine (cfg : config) (v_engine : engine) : res ((list byte)) :=
  g_ripemd160_Engine_finalize cfg v_engine.
