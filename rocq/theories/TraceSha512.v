(** Generated by tools/rs2v.py from the Rust source; do not edit. *)
From Verif Require Import Base ModelEngine GenSha512 TraceLib GenBase TraceBase.

(** process_block, src/sha512.rs:204-314; feature small-hash off *)
Definition t_sha512_Engine_process_block_fast_part5 v_self v_a v_b v_c v_d v_e v_f v_g v_h : tm (engine) :=
  let! t9 := t_index (e_h v_self) 0 in
  let! t10 := t_store (e_h v_self) 0 (wrapping_add 64 t9 v_a) in
  let v_self := mk_engine (e_buffer v_self) t10 (e_length v_self) in
  let! t11 := t_index (e_h v_self) 1 in
  let! t12 := t_store (e_h v_self) 1 (wrapping_add 64 t11 v_b) in
  let v_self := mk_engine (e_buffer v_self) t12 (e_length v_self) in
  let! t13 := t_index (e_h v_self) 2 in
  let! t14 := t_store (e_h v_self) 2 (wrapping_add 64 t13 v_c) in
  let v_self := mk_engine (e_buffer v_self) t14 (e_length v_self) in
  let! t15 := t_index (e_h v_self) 3 in
  let! t16 := t_store (e_h v_self) 3 (wrapping_add 64 t15 v_d) in
  let v_self := mk_engine (e_buffer v_self) t16 (e_length v_self) in
  let! t17 := t_index (e_h v_self) 4 in
  let! t18 := t_store (e_h v_self) 4 (wrapping_add 64 t17 v_e) in
  let v_self := mk_engine (e_buffer v_self) t18 (e_length v_self) in
  let! t19 := t_index (e_h v_self) 5 in
  let! t20 := t_store (e_h v_self) 5 (wrapping_add 64 t19 v_f) in
  let v_self := mk_engine (e_buffer v_self) t20 (e_length v_self) in
  let! t21 := t_index (e_h v_self) 6 in
  let! t22 := t_store (e_h v_self) 6 (wrapping_add 64 t21 v_g) in
  let v_self := mk_engine (e_buffer v_self) t22 (e_length v_self) in
  let! t23 := t_index (e_h v_self) 7 in
  let! t24 := t_store (e_h v_self) 7 (wrapping_add 64 t23 v_h) in
  let v_self := mk_engine (e_buffer v_self) t24 (e_length v_self) in
  tret v_self.

Definition t_sha512_Engine_process_block_fast_part4 v_self v_w v_a v_b v_c v_d v_e v_f v_g v_h : tm (engine) :=
  let! (v_w, v_d, v_h) := (
    let! t9 := t_index v_w 0 in
    let! t10 := t_index v_w 14 in
    let! t11 := t_index v_w 9 in
    let! t12 := t_index v_w 1 in
    let! t13 := t_store v_w 0 (wrapping_add 64 (wrapping_add 64 (wrapping_add 64 t9 (g_sha512_sigma1 t10)) t11) (g_sha512_sigma0 t12)) in
    let v_w := t13 in
    let! (v_d, v_h) := (
      let! t14 := t_index v_w 0 in
      let v_t1 := wrapping_add 64 (wrapping_add 64 (wrapping_add 64 (wrapping_add 64 v_h (g_sha512_Sigma1 v_e)) (g_sha512_Ch v_e v_f v_g)) 0xca273eceea26619c) t14 in
      let v_t2 := wrapping_add 64 (g_sha512_Sigma0 v_a) (g_sha512_Maj v_a v_b v_c) in
      let v_d := wrapping_add 64 v_d v_t1 in
      let v_h := wrapping_add 64 v_t1 v_t2 in
      tret (v_d, v_h)) in
    tret (v_w, v_d, v_h)) in
  let! (v_w, v_c, v_g) := (
    let! t9 := t_index v_w 1 in
    let! t10 := t_index v_w 15 in
    let! t11 := t_index v_w 10 in
    let! t12 := t_index v_w 2 in
    let! t13 := t_store v_w 1 (wrapping_add 64 (wrapping_add 64 (wrapping_add 64 t9 (g_sha512_sigma1 t10)) t11) (g_sha512_sigma0 t12)) in
    let v_w := t13 in
    let! (v_c, v_g) := (
      let! t14 := t_index v_w 1 in
      let v_t1 := wrapping_add 64 (wrapping_add 64 (wrapping_add 64 (wrapping_add 64 v_g (g_sha512_Sigma1 v_d)) (g_sha512_Ch v_d v_e v_f)) 0xd186b8c721c0c207) t14 in
      let v_t2 := wrapping_add 64 (g_sha512_Sigma0 v_h) (g_sha512_Maj v_h v_a v_b) in
      let v_c := wrapping_add 64 v_c v_t1 in
      let v_g := wrapping_add 64 v_t1 v_t2 in
      tret (v_c, v_g)) in
    tret (v_w, v_c, v_g)) in
  let! (v_w, v_b, v_f) := (
    let! t9 := t_index v_w 2 in
    let! t10 := t_index v_w 0 in
    let! t11 := t_index v_w 11 in
    let! t12 := t_index v_w 3 in
    let! t13 := t_store v_w 2 (wrapping_add 64 (wrapping_add 64 (wrapping_add 64 t9 (g_sha512_sigma1 t10)) t11) (g_sha512_sigma0 t12)) in
    let v_w := t13 in
    let! (v_b, v_f) := (
      let! t14 := t_index v_w 2 in
      let v_t1 := wrapping_add 64 (wrapping_add 64 (wrapping_add 64 (wrapping_add 64 v_f (g_sha512_Sigma1 v_c)) (g_sha512_Ch v_c v_d v_e)) 0xeada7dd6cde0eb1e) t14 in
      let v_t2 := wrapping_add 64 (g_sha512_Sigma0 v_g) (g_sha512_Maj v_g v_h v_a) in
      let v_b := wrapping_add 64 v_b v_t1 in
      let v_f := wrapping_add 64 v_t1 v_t2 in
      tret (v_b, v_f)) in
    tret (v_w, v_b, v_f)) in
  let! (v_w, v_a, v_e) := (
    let! t9 := t_index v_w 3 in
    let! t10 := t_index v_w 1 in
    let! t11 := t_index v_w 12 in
    let! t12 := t_index v_w 4 in
    let! t13 := t_store v_w 3 (wrapping_add 64 (wrapping_add 64 (wrapping_add 64 t9 (g_sha512_sigma1 t10)) t11) (g_sha512_sigma0 t12)) in
    let v_w := t13 in
    let! (v_a, v_e) := (
      let! t14 := t_index v_w 3 in
      let v_t1 := wrapping_add 64 (wrapping_add 64 (wrapping_add 64 (wrapping_add 64 v_e (g_sha512_Sigma1 v_b)) (g_sha512_Ch v_b v_c v_d)) 0xf57d4f7fee6ed178) t14 in
      let v_t2 := wrapping_add 64 (g_sha512_Sigma0 v_f) (g_sha512_Maj v_f v_g v_h) in
      let v_a := wrapping_add 64 v_a v_t1 in
      let v_e := wrapping_add 64 v_t1 v_t2 in
      tret (v_a, v_e)) in
    tret (v_w, v_a, v_e)) in
  let! (v_w, v_d, v_h) := (
    let! t9 := t_index v_w 4 in
    let! t10 := t_index v_w 2 in
    let! t11 := t_index v_w 13 in
    let! t12 := t_index v_w 5 in
    let! t13 := t_store v_w 4 (wrapping_add 64 (wrapping_add 64 (wrapping_add 64 t9 (g_sha512_sigma1 t10)) t11) (g_sha512_sigma0 t12)) in
    let v_w := t13 in
    let! (v_d, v_h) := (
      let! t14 := t_index v_w 4 in
      let v_t1 := wrapping_add 64 (wrapping_add 64 (wrapping_add 64 (wrapping_add 64 v_d (g_sha512_Sigma1 v_a)) (g_sha512_Ch v_a v_b v_c)) 0x6f067aa72176fba) t14 in
      let v_t2 := wrapping_add 64 (g_sha512_Sigma0 v_e) (g_sha512_Maj v_e v_f v_g) in
      let v_h := wrapping_add 64 v_h v_t1 in
      let v_d := wrapping_add 64 v_t1 v_t2 in
      tret (v_d, v_h)) in
    tret (v_w, v_d, v_h)) in
  let! (v_w, v_c, v_g) := (
    let! t9 := t_index v_w 5 in
    let! t10 := t_index v_w 3 in
    let! t11 := t_index v_w 14 in
    let! t12 := t_index v_w 6 in
    let! t13 := t_store v_w 5 (wrapping_add 64 (wrapping_add 64 (wrapping_add 64 t9 (g_sha512_sigma1 t10)) t11) (g_sha512_sigma0 t12)) in
    let v_w := t13 in
    let! (v_c, v_g) := (
      let! t14 := t_index v_w 5 in
      let v_t1 := wrapping_add 64 (wrapping_add 64 (wrapping_add 64 (wrapping_add 64 v_c (g_sha512_Sigma1 v_h)) (g_sha512_Ch v_h v_a v_b)) 0xa637dc5a2c898a6) t14 in
      let v_t2 := wrapping_add 64 (g_sha512_Sigma0 v_d) (g_sha512_Maj v_d v_e v_f) in
      let v_g := wrapping_add 64 v_g v_t1 in
      let v_c := wrapping_add 64 v_t1 v_t2 in
      tret (v_c, v_g)) in
    tret (v_w, v_c, v_g)) in
  let! (v_w, v_b, v_f) := (
    let! t9 := t_index v_w 6 in
    let! t10 := t_index v_w 4 in
    let! t11 := t_index v_w 15 in
    let! t12 := t_index v_w 7 in
    let! t13 := t_store v_w 6 (wrapping_add 64 (wrapping_add 64 (wrapping_add 64 t9 (g_sha512_sigma1 t10)) t11) (g_sha512_sigma0 t12)) in
    let v_w := t13 in
    let! (v_b, v_f) := (
      let! t14 := t_index v_w 6 in
      let v_t1 := wrapping_add 64 (wrapping_add 64 (wrapping_add 64 (wrapping_add 64 v_b (g_sha512_Sigma1 v_g)) (g_sha512_Ch v_g v_h v_a)) 0x113f9804bef90dae) t14 in
      let v_t2 := wrapping_add 64 (g_sha512_Sigma0 v_c) (g_sha512_Maj v_c v_d v_e) in
      let v_f := wrapping_add 64 v_f v_t1 in
      let v_b := wrapping_add 64 v_t1 v_t2 in
      tret (v_b, v_f)) in
    tret (v_w, v_b, v_f)) in
  let! (v_w, v_a, v_e) := (
    let! t9 := t_index v_w 7 in
    let! t10 := t_index v_w 5 in
    let! t11 := t_index v_w 0 in
    let! t12 := t_index v_w 8 in
    let! t13 := t_store v_w 7 (wrapping_add 64 (wrapping_add 64 (wrapping_add 64 t9 (g_sha512_sigma1 t10)) t11) (g_sha512_sigma0 t12)) in
    let v_w := t13 in
    let! (v_a, v_e) := (
      let! t14 := t_index v_w 7 in
      let v_t1 := wrapping_add 64 (wrapping_add 64 (wrapping_add 64 (wrapping_add 64 v_a (g_sha512_Sigma1 v_f)) (g_sha512_Ch v_f v_g v_h)) 0x1b710b35131c471b) t14 in
      let v_t2 := wrapping_add 64 (g_sha512_Sigma0 v_b) (g_sha512_Maj v_b v_c v_d) in
      let v_e := wrapping_add 64 v_e v_t1 in
      let v_a := wrapping_add 64 v_t1 v_t2 in
      tret (v_a, v_e)) in
    tret (v_w, v_a, v_e)) in
  let! (v_w, v_d, v_h) := (
    let! t9 := t_index v_w 8 in
    let! t10 := t_index v_w 6 in
    let! t11 := t_index v_w 1 in
    let! t12 := t_index v_w 9 in
    let! t13 := t_store v_w 8 (wrapping_add 64 (wrapping_add 64 (wrapping_add 64 t9 (g_sha512_sigma1 t10)) t11) (g_sha512_sigma0 t12)) in
    let v_w := t13 in
    let! (v_d, v_h) := (
      let! t14 := t_index v_w 8 in
      let v_t1 := wrapping_add 64 (wrapping_add 64 (wrapping_add 64 (wrapping_add 64 v_h (g_sha512_Sigma1 v_e)) (g_sha512_Ch v_e v_f v_g)) 0x28db77f523047d84) t14 in
      let v_t2 := wrapping_add 64 (g_sha512_Sigma0 v_a) (g_sha512_Maj v_a v_b v_c) in
      let v_d := wrapping_add 64 v_d v_t1 in
      let v_h := wrapping_add 64 v_t1 v_t2 in
      tret (v_d, v_h)) in
    tret (v_w, v_d, v_h)) in
  let! (v_w, v_c, v_g) := (
    let! t9 := t_index v_w 9 in
    let! t10 := t_index v_w 7 in
    let! t11 := t_index v_w 2 in
    let! t12 := t_index v_w 10 in
    let! t13 := t_store v_w 9 (wrapping_add 64 (wrapping_add 64 (wrapping_add 64 t9 (g_sha512_sigma1 t10)) t11) (g_sha512_sigma0 t12)) in
    let v_w := t13 in
    let! (v_c, v_g) := (
      let! t14 := t_index v_w 9 in
      let v_t1 := wrapping_add 64 (wrapping_add 64 (wrapping_add 64 (wrapping_add 64 v_g (g_sha512_Sigma1 v_d)) (g_sha512_Ch v_d v_e v_f)) 0x32caab7b40c72493) t14 in
      let v_t2 := wrapping_add 64 (g_sha512_Sigma0 v_h) (g_sha512_Maj v_h v_a v_b) in
      let v_c := wrapping_add 64 v_c v_t1 in
      let v_g := wrapping_add 64 v_t1 v_t2 in
      tret (v_c, v_g)) in
    tret (v_w, v_c, v_g)) in
  let! (v_w, v_b, v_f) := (
    let! t9 := t_index v_w 10 in
    let! t10 := t_index v_w 8 in
    let! t11 := t_index v_w 3 in
    let! t12 := t_index v_w 11 in
    let! t13 := t_store v_w 10 (wrapping_add 64 (wrapping_add 64 (wrapping_add 64 t9 (g_sha512_sigma1 t10)) t11) (g_sha512_sigma0 t12)) in
    let v_w := t13 in
    let! (v_b, v_f) := (
      let! t14 := t_index v_w 10 in
      let v_t1 := wrapping_add 64 (wrapping_add 64 (wrapping_add 64 (wrapping_add 64 v_f (g_sha512_Sigma1 v_c)) (g_sha512_Ch v_c v_d v_e)) 0x3c9ebe0a15c9bebc) t14 in
      let v_t2 := wrapping_add 64 (g_sha512_Sigma0 v_g) (g_sha512_Maj v_g v_h v_a) in
      let v_b := wrapping_add 64 v_b v_t1 in
      let v_f := wrapping_add 64 v_t1 v_t2 in
      tret (v_b, v_f)) in
    tret (v_w, v_b, v_f)) in
  let! (v_w, v_a, v_e) := (
    let! t9 := t_index v_w 11 in
    let! t10 := t_index v_w 9 in
    let! t11 := t_index v_w 4 in
    let! t12 := t_index v_w 12 in
    let! t13 := t_store v_w 11 (wrapping_add 64 (wrapping_add 64 (wrapping_add 64 t9 (g_sha512_sigma1 t10)) t11) (g_sha512_sigma0 t12)) in
    let v_w := t13 in
    let! (v_a, v_e) := (
      let! t14 := t_index v_w 11 in
      let v_t1 := wrapping_add 64 (wrapping_add 64 (wrapping_add 64 (wrapping_add 64 v_e (g_sha512_Sigma1 v_b)) (g_sha512_Ch v_b v_c v_d)) 0x431d67c49c100d4c) t14 in
      let v_t2 := wrapping_add 64 (g_sha512_Sigma0 v_f) (g_sha512_Maj v_f v_g v_h) in
      let v_a := wrapping_add 64 v_a v_t1 in
      let v_e := wrapping_add 64 v_t1 v_t2 in
      tret (v_a, v_e)) in
    tret (v_w, v_a, v_e)) in
  let! (v_w, v_d, v_h) := (
    let! t9 := t_index v_w 12 in
    let! t10 := t_index v_w 10 in
    let! t11 := t_index v_w 5 in
    let! t12 := t_index v_w 13 in
    let! t13 := t_store v_w 12 (wrapping_add 64 (wrapping_add 64 (wrapping_add 64 t9 (g_sha512_sigma1 t10)) t11) (g_sha512_sigma0 t12)) in
    let v_w := t13 in
    let! (v_d, v_h) := (
      let! t14 := t_index v_w 12 in
      let v_t1 := wrapping_add 64 (wrapping_add 64 (wrapping_add 64 (wrapping_add 64 v_d (g_sha512_Sigma1 v_a)) (g_sha512_Ch v_a v_b v_c)) 0x4cc5d4becb3e42b6) t14 in
      let v_t2 := wrapping_add 64 (g_sha512_Sigma0 v_e) (g_sha512_Maj v_e v_f v_g) in
      let v_h := wrapping_add 64 v_h v_t1 in
      let v_d := wrapping_add 64 v_t1 v_t2 in
      tret (v_d, v_h)) in
    tret (v_w, v_d, v_h)) in
  let! (v_w, v_c, v_g) := (
    let! t9 := t_index v_w 13 in
    let! t10 := t_index v_w 11 in
    let! t11 := t_index v_w 6 in
    let! t12 := t_index v_w 14 in
    let! t13 := t_store v_w 13 (wrapping_add 64 (wrapping_add 64 (wrapping_add 64 t9 (g_sha512_sigma1 t10)) t11) (g_sha512_sigma0 t12)) in
    let v_w := t13 in
    let! (v_c, v_g) := (
      let! t14 := t_index v_w 13 in
      let v_t1 := wrapping_add 64 (wrapping_add 64 (wrapping_add 64 (wrapping_add 64 v_c (g_sha512_Sigma1 v_h)) (g_sha512_Ch v_h v_a v_b)) 0x597f299cfc657e2a) t14 in
      let v_t2 := wrapping_add 64 (g_sha512_Sigma0 v_d) (g_sha512_Maj v_d v_e v_f) in
      let v_g := wrapping_add 64 v_g v_t1 in
      let v_c := wrapping_add 64 v_t1 v_t2 in
      tret (v_c, v_g)) in
    tret (v_w, v_c, v_g)) in
  let! (v_w, v_b, v_f) := (
    let! t9 := t_index v_w 14 in
    let! t10 := t_index v_w 12 in
    let! t11 := t_index v_w 7 in
    let! t12 := t_index v_w 15 in
    let! t13 := t_store v_w 14 (wrapping_add 64 (wrapping_add 64 (wrapping_add 64 t9 (g_sha512_sigma1 t10)) t11) (g_sha512_sigma0 t12)) in
    let v_w := t13 in
    let! (v_b, v_f) := (
      let! t14 := t_index v_w 14 in
      let v_t1 := wrapping_add 64 (wrapping_add 64 (wrapping_add 64 (wrapping_add 64 v_b (g_sha512_Sigma1 v_g)) (g_sha512_Ch v_g v_h v_a)) 0x5fcb6fab3ad6faec) t14 in
      let v_t2 := wrapping_add 64 (g_sha512_Sigma0 v_c) (g_sha512_Maj v_c v_d v_e) in
      let v_f := wrapping_add 64 v_f v_t1 in
      let v_b := wrapping_add 64 v_t1 v_t2 in
      tret (v_b, v_f)) in
    tret (v_w, v_b, v_f)) in
  let! (v_w, v_a, v_e) := (
    let! t9 := t_index v_w 15 in
    let! t10 := t_index v_w 13 in
    let! t11 := t_index v_w 8 in
    let! t12 := t_index v_w 0 in
    let! t13 := t_store v_w 15 (wrapping_add 64 (wrapping_add 64 (wrapping_add 64 t9 (g_sha512_sigma1 t10)) t11) (g_sha512_sigma0 t12)) in
    let v_w := t13 in
    let! (v_a, v_e) := (
      let! t14 := t_index v_w 15 in
      let v_t1 := wrapping_add 64 (wrapping_add 64 (wrapping_add 64 (wrapping_add 64 v_a (g_sha512_Sigma1 v_f)) (g_sha512_Ch v_f v_g v_h)) 0x6c44198c4a475817) t14 in
      let v_t2 := wrapping_add 64 (g_sha512_Sigma0 v_b) (g_sha512_Maj v_b v_c v_d) in
      let v_e := wrapping_add 64 v_e v_t1 in
      let v_a := wrapping_add 64 v_t1 v_t2 in
      tret (v_a, v_e)) in
    tret (v_w, v_a, v_e)) in
  t_sha512_Engine_process_block_fast_part5 v_self v_a v_b v_c v_d v_e v_f v_g v_h.

Definition t_sha512_Engine_process_block_fast_part3 v_self v_w v_a v_b v_c v_d v_e v_f v_g v_h : tm (engine) :=
  let! (v_w, v_d, v_h) := (
    let! t9 := t_index v_w 0 in
    let! t10 := t_index v_w 14 in
    let! t11 := t_index v_w 9 in
    let! t12 := t_index v_w 1 in
    let! t13 := t_store v_w 0 (wrapping_add 64 (wrapping_add 64 (wrapping_add 64 t9 (g_sha512_sigma1 t10)) t11) (g_sha512_sigma0 t12)) in
    let v_w := t13 in
    let! (v_d, v_h) := (
      let! t14 := t_index v_w 0 in
      let v_t1 := wrapping_add 64 (wrapping_add 64 (wrapping_add 64 (wrapping_add 64 v_h (g_sha512_Sigma1 v_e)) (g_sha512_Ch v_e v_f v_g)) 0x19a4c116b8d2d0c8) t14 in
      let v_t2 := wrapping_add 64 (g_sha512_Sigma0 v_a) (g_sha512_Maj v_a v_b v_c) in
      let v_d := wrapping_add 64 v_d v_t1 in
      let v_h := wrapping_add 64 v_t1 v_t2 in
      tret (v_d, v_h)) in
    tret (v_w, v_d, v_h)) in
  let! (v_w, v_c, v_g) := (
    let! t9 := t_index v_w 1 in
    let! t10 := t_index v_w 15 in
    let! t11 := t_index v_w 10 in
    let! t12 := t_index v_w 2 in
    let! t13 := t_store v_w 1 (wrapping_add 64 (wrapping_add 64 (wrapping_add 64 t9 (g_sha512_sigma1 t10)) t11) (g_sha512_sigma0 t12)) in
    let v_w := t13 in
    let! (v_c, v_g) := (
      let! t14 := t_index v_w 1 in
      let v_t1 := wrapping_add 64 (wrapping_add 64 (wrapping_add 64 (wrapping_add 64 v_g (g_sha512_Sigma1 v_d)) (g_sha512_Ch v_d v_e v_f)) 0x1e376c085141ab53) t14 in
      let v_t2 := wrapping_add 64 (g_sha512_Sigma0 v_h) (g_sha512_Maj v_h v_a v_b) in
      let v_c := wrapping_add 64 v_c v_t1 in
      let v_g := wrapping_add 64 v_t1 v_t2 in
      tret (v_c, v_g)) in
    tret (v_w, v_c, v_g)) in
  let! (v_w, v_b, v_f) := (
    let! t9 := t_index v_w 2 in
    let! t10 := t_index v_w 0 in
    let! t11 := t_index v_w 11 in
    let! t12 := t_index v_w 3 in
    let! t13 := t_store v_w 2 (wrapping_add 64 (wrapping_add 64 (wrapping_add 64 t9 (g_sha512_sigma1 t10)) t11) (g_sha512_sigma0 t12)) in
    let v_w := t13 in
    let! (v_b, v_f) := (
      let! t14 := t_index v_w 2 in
      let v_t1 := wrapping_add 64 (wrapping_add 64 (wrapping_add 64 (wrapping_add 64 v_f (g_sha512_Sigma1 v_c)) (g_sha512_Ch v_c v_d v_e)) 0x2748774cdf8eeb99) t14 in
      let v_t2 := wrapping_add 64 (g_sha512_Sigma0 v_g) (g_sha512_Maj v_g v_h v_a) in
      let v_b := wrapping_add 64 v_b v_t1 in
      let v_f := wrapping_add 64 v_t1 v_t2 in
      tret (v_b, v_f)) in
    tret (v_w, v_b, v_f)) in
  let! (v_w, v_a, v_e) := (
    let! t9 := t_index v_w 3 in
    let! t10 := t_index v_w 1 in
    let! t11 := t_index v_w 12 in
    let! t12 := t_index v_w 4 in
    let! t13 := t_store v_w 3 (wrapping_add 64 (wrapping_add 64 (wrapping_add 64 t9 (g_sha512_sigma1 t10)) t11) (g_sha512_sigma0 t12)) in
    let v_w := t13 in
    let! (v_a, v_e) := (
      let! t14 := t_index v_w 3 in
      let v_t1 := wrapping_add 64 (wrapping_add 64 (wrapping_add 64 (wrapping_add 64 v_e (g_sha512_Sigma1 v_b)) (g_sha512_Ch v_b v_c v_d)) 0x34b0bcb5e19b48a8) t14 in
      let v_t2 := wrapping_add 64 (g_sha512_Sigma0 v_f) (g_sha512_Maj v_f v_g v_h) in
      let v_a := wrapping_add 64 v_a v_t1 in
      let v_e := wrapping_add 64 v_t1 v_t2 in
      tret (v_a, v_e)) in
    tret (v_w, v_a, v_e)) in
  let! (v_w, v_d, v_h) := (
    let! t9 := t_index v_w 4 in
    let! t10 := t_index v_w 2 in
    let! t11 := t_index v_w 13 in
    let! t12 := t_index v_w 5 in
    let! t13 := t_store v_w 4 (wrapping_add 64 (wrapping_add 64 (wrapping_add 64 t9 (g_sha512_sigma1 t10)) t11) (g_sha512_sigma0 t12)) in
    let v_w := t13 in
    let! (v_d, v_h) := (
      let! t14 := t_index v_w 4 in
      let v_t1 := wrapping_add 64 (wrapping_add 64 (wrapping_add 64 (wrapping_add 64 v_d (g_sha512_Sigma1 v_a)) (g_sha512_Ch v_a v_b v_c)) 0x391c0cb3c5c95a63) t14 in
      let v_t2 := wrapping_add 64 (g_sha512_Sigma0 v_e) (g_sha512_Maj v_e v_f v_g) in
      let v_h := wrapping_add 64 v_h v_t1 in
      let v_d := wrapping_add 64 v_t1 v_t2 in
      tret (v_d, v_h)) in
    tret (v_w, v_d, v_h)) in
  let! (v_w, v_c, v_g) := (
    let! t9 := t_index v_w 5 in
    let! t10 := t_index v_w 3 in
    let! t11 := t_index v_w 14 in
    let! t12 := t_index v_w 6 in
    let! t13 := t_store v_w 5 (wrapping_add 64 (wrapping_add 64 (wrapping_add 64 t9 (g_sha512_sigma1 t10)) t11) (g_sha512_sigma0 t12)) in
    let v_w := t13 in
    let! (v_c, v_g) := (
      let! t14 := t_index v_w 5 in
      let v_t1 := wrapping_add 64 (wrapping_add 64 (wrapping_add 64 (wrapping_add 64 v_c (g_sha512_Sigma1 v_h)) (g_sha512_Ch v_h v_a v_b)) 0x4ed8aa4ae3418acb) t14 in
      let v_t2 := wrapping_add 64 (g_sha512_Sigma0 v_d) (g_sha512_Maj v_d v_e v_f) in
      let v_g := wrapping_add 64 v_g v_t1 in
      let v_c := wrapping_add 64 v_t1 v_t2 in
      tret (v_c, v_g)) in
    tret (v_w, v_c, v_g)) in
  let! (v_w, v_b, v_f) := (
    let! t9 := t_index v_w 6 in
    let! t10 := t_index v_w 4 in
    let! t11 := t_index v_w 15 in
    let! t12 := t_index v_w 7 in
    let! t13 := t_store v_w 6 (wrapping_add 64 (wrapping_add 64 (wrapping_add 64 t9 (g_sha512_sigma1 t10)) t11) (g_sha512_sigma0 t12)) in
    let v_w := t13 in
    let! (v_b, v_f) := (
      let! t14 := t_index v_w 6 in
      let v_t1 := wrapping_add 64 (wrapping_add 64 (wrapping_add 64 (wrapping_add 64 v_b (g_sha512_Sigma1 v_g)) (g_sha512_Ch v_g v_h v_a)) 0x5b9cca4f7763e373) t14 in
      let v_t2 := wrapping_add 64 (g_sha512_Sigma0 v_c) (g_sha512_Maj v_c v_d v_e) in
      let v_f := wrapping_add 64 v_f v_t1 in
      let v_b := wrapping_add 64 v_t1 v_t2 in
      tret (v_b, v_f)) in
    tret (v_w, v_b, v_f)) in
  let! (v_w, v_a, v_e) := (
    let! t9 := t_index v_w 7 in
    let! t10 := t_index v_w 5 in
    let! t11 := t_index v_w 0 in
    let! t12 := t_index v_w 8 in
    let! t13 := t_store v_w 7 (wrapping_add 64 (wrapping_add 64 (wrapping_add 64 t9 (g_sha512_sigma1 t10)) t11) (g_sha512_sigma0 t12)) in
    let v_w := t13 in
    let! (v_a, v_e) := (
      let! t14 := t_index v_w 7 in
      let v_t1 := wrapping_add 64 (wrapping_add 64 (wrapping_add 64 (wrapping_add 64 v_a (g_sha512_Sigma1 v_f)) (g_sha512_Ch v_f v_g v_h)) 0x682e6ff3d6b2b8a3) t14 in
      let v_t2 := wrapping_add 64 (g_sha512_Sigma0 v_b) (g_sha512_Maj v_b v_c v_d) in
      let v_e := wrapping_add 64 v_e v_t1 in
      let v_a := wrapping_add 64 v_t1 v_t2 in
      tret (v_a, v_e)) in
    tret (v_w, v_a, v_e)) in
  let! (v_w, v_d, v_h) := (
    let! t9 := t_index v_w 8 in
    let! t10 := t_index v_w 6 in
    let! t11 := t_index v_w 1 in
    let! t12 := t_index v_w 9 in
    let! t13 := t_store v_w 8 (wrapping_add 64 (wrapping_add 64 (wrapping_add 64 t9 (g_sha512_sigma1 t10)) t11) (g_sha512_sigma0 t12)) in
    let v_w := t13 in
    let! (v_d, v_h) := (
      let! t14 := t_index v_w 8 in
      let v_t1 := wrapping_add 64 (wrapping_add 64 (wrapping_add 64 (wrapping_add 64 v_h (g_sha512_Sigma1 v_e)) (g_sha512_Ch v_e v_f v_g)) 0x748f82ee5defb2fc) t14 in
      let v_t2 := wrapping_add 64 (g_sha512_Sigma0 v_a) (g_sha512_Maj v_a v_b v_c) in
      let v_d := wrapping_add 64 v_d v_t1 in
      let v_h := wrapping_add 64 v_t1 v_t2 in
      tret (v_d, v_h)) in
    tret (v_w, v_d, v_h)) in
  let! (v_w, v_c, v_g) := (
    let! t9 := t_index v_w 9 in
    let! t10 := t_index v_w 7 in
    let! t11 := t_index v_w 2 in
    let! t12 := t_index v_w 10 in
    let! t13 := t_store v_w 9 (wrapping_add 64 (wrapping_add 64 (wrapping_add 64 t9 (g_sha512_sigma1 t10)) t11) (g_sha512_sigma0 t12)) in
    let v_w := t13 in
    let! (v_c, v_g) := (
      let! t14 := t_index v_w 9 in
      let v_t1 := wrapping_add 64 (wrapping_add 64 (wrapping_add 64 (wrapping_add 64 v_g (g_sha512_Sigma1 v_d)) (g_sha512_Ch v_d v_e v_f)) 0x78a5636f43172f60) t14 in
      let v_t2 := wrapping_add 64 (g_sha512_Sigma0 v_h) (g_sha512_Maj v_h v_a v_b) in
      let v_c := wrapping_add 64 v_c v_t1 in
      let v_g := wrapping_add 64 v_t1 v_t2 in
      tret (v_c, v_g)) in
    tret (v_w, v_c, v_g)) in
  let! (v_w, v_b, v_f) := (
    let! t9 := t_index v_w 10 in
    let! t10 := t_index v_w 8 in
    let! t11 := t_index v_w 3 in
    let! t12 := t_index v_w 11 in
    let! t13 := t_store v_w 10 (wrapping_add 64 (wrapping_add 64 (wrapping_add 64 t9 (g_sha512_sigma1 t10)) t11) (g_sha512_sigma0 t12)) in
    let v_w := t13 in
    let! (v_b, v_f) := (
      let! t14 := t_index v_w 10 in
      let v_t1 := wrapping_add 64 (wrapping_add 64 (wrapping_add 64 (wrapping_add 64 v_f (g_sha512_Sigma1 v_c)) (g_sha512_Ch v_c v_d v_e)) 0x84c87814a1f0ab72) t14 in
      let v_t2 := wrapping_add 64 (g_sha512_Sigma0 v_g) (g_sha512_Maj v_g v_h v_a) in
      let v_b := wrapping_add 64 v_b v_t1 in
      let v_f := wrapping_add 64 v_t1 v_t2 in
      tret (v_b, v_f)) in
    tret (v_w, v_b, v_f)) in
  let! (v_w, v_a, v_e) := (
    let! t9 := t_index v_w 11 in
    let! t10 := t_index v_w 9 in
    let! t11 := t_index v_w 4 in
    let! t12 := t_index v_w 12 in
    let! t13 := t_store v_w 11 (wrapping_add 64 (wrapping_add 64 (wrapping_add 64 t9 (g_sha512_sigma1 t10)) t11) (g_sha512_sigma0 t12)) in
    let v_w := t13 in
    let! (v_a, v_e) := (
      let! t14 := t_index v_w 11 in
      let v_t1 := wrapping_add 64 (wrapping_add 64 (wrapping_add 64 (wrapping_add 64 v_e (g_sha512_Sigma1 v_b)) (g_sha512_Ch v_b v_c v_d)) 0x8cc702081a6439ec) t14 in
      let v_t2 := wrapping_add 64 (g_sha512_Sigma0 v_f) (g_sha512_Maj v_f v_g v_h) in
      let v_a := wrapping_add 64 v_a v_t1 in
      let v_e := wrapping_add 64 v_t1 v_t2 in
      tret (v_a, v_e)) in
    tret (v_w, v_a, v_e)) in
  let! (v_w, v_d, v_h) := (
    let! t9 := t_index v_w 12 in
    let! t10 := t_index v_w 10 in
    let! t11 := t_index v_w 5 in
    let! t12 := t_index v_w 13 in
    let! t13 := t_store v_w 12 (wrapping_add 64 (wrapping_add 64 (wrapping_add 64 t9 (g_sha512_sigma1 t10)) t11) (g_sha512_sigma0 t12)) in
    let v_w := t13 in
    let! (v_d, v_h) := (
      let! t14 := t_index v_w 12 in
      let v_t1 := wrapping_add 64 (wrapping_add 64 (wrapping_add 64 (wrapping_add 64 v_d (g_sha512_Sigma1 v_a)) (g_sha512_Ch v_a v_b v_c)) 0x90befffa23631e28) t14 in
      let v_t2 := wrapping_add 64 (g_sha512_Sigma0 v_e) (g_sha512_Maj v_e v_f v_g) in
      let v_h := wrapping_add 64 v_h v_t1 in
      let v_d := wrapping_add 64 v_t1 v_t2 in
      tret (v_d, v_h)) in
    tret (v_w, v_d, v_h)) in
  let! (v_w, v_c, v_g) := (
    let! t9 := t_index v_w 13 in
    let! t10 := t_index v_w 11 in
    let! t11 := t_index v_w 6 in
    let! t12 := t_index v_w 14 in
    let! t13 := t_store v_w 13 (wrapping_add 64 (wrapping_add 64 (wrapping_add 64 t9 (g_sha512_sigma1 t10)) t11) (g_sha512_sigma0 t12)) in
    let v_w := t13 in
    let! (v_c, v_g) := (
      let! t14 := t_index v_w 13 in
      let v_t1 := wrapping_add 64 (wrapping_add 64 (wrapping_add 64 (wrapping_add 64 v_c (g_sha512_Sigma1 v_h)) (g_sha512_Ch v_h v_a v_b)) 0xa4506cebde82bde9) t14 in
      let v_t2 := wrapping_add 64 (g_sha512_Sigma0 v_d) (g_sha512_Maj v_d v_e v_f) in
      let v_g := wrapping_add 64 v_g v_t1 in
      let v_c := wrapping_add 64 v_t1 v_t2 in
      tret (v_c, v_g)) in
    tret (v_w, v_c, v_g)) in
  let! (v_w, v_b, v_f) := (
    let! t9 := t_index v_w 14 in
    let! t10 := t_index v_w 12 in
    let! t11 := t_index v_w 7 in
    let! t12 := t_index v_w 15 in
    let! t13 := t_store v_w 14 (wrapping_add 64 (wrapping_add 64 (wrapping_add 64 t9 (g_sha512_sigma1 t10)) t11) (g_sha512_sigma0 t12)) in
    let v_w := t13 in
    let! (v_b, v_f) := (
      let! t14 := t_index v_w 14 in
      let v_t1 := wrapping_add 64 (wrapping_add 64 (wrapping_add 64 (wrapping_add 64 v_b (g_sha512_Sigma1 v_g)) (g_sha512_Ch v_g v_h v_a)) 0xbef9a3f7b2c67915) t14 in
      let v_t2 := wrapping_add 64 (g_sha512_Sigma0 v_c) (g_sha512_Maj v_c v_d v_e) in
      let v_f := wrapping_add 64 v_f v_t1 in
      let v_b := wrapping_add 64 v_t1 v_t2 in
      tret (v_b, v_f)) in
    tret (v_w, v_b, v_f)) in
  let! (v_w, v_a, v_e) := (
    let! t9 := t_index v_w 15 in
    let! t10 := t_index v_w 13 in
    let! t11 := t_index v_w 8 in
    let! t12 := t_index v_w 0 in
    let! t13 := t_store v_w 15 (wrapping_add 64 (wrapping_add 64 (wrapping_add 64 t9 (g_sha512_sigma1 t10)) t11) (g_sha512_sigma0 t12)) in
    let v_w := t13 in
    let! (v_a, v_e) := (
      let! t14 := t_index v_w 15 in
      let v_t1 := wrapping_add 64 (wrapping_add 64 (wrapping_add 64 (wrapping_add 64 v_a (g_sha512_Sigma1 v_f)) (g_sha512_Ch v_f v_g v_h)) 0xc67178f2e372532b) t14 in
      let v_t2 := wrapping_add 64 (g_sha512_Sigma0 v_b) (g_sha512_Maj v_b v_c v_d) in
      let v_e := wrapping_add 64 v_e v_t1 in
      let v_a := wrapping_add 64 v_t1 v_t2 in
      tret (v_a, v_e)) in
    tret (v_w, v_a, v_e)) in
  t_sha512_Engine_process_block_fast_part4 v_self v_w v_a v_b v_c v_d v_e v_f v_g v_h.

Definition t_sha512_Engine_process_block_fast_part2 v_self v_w v_a v_b v_c v_d v_e v_f v_g v_h : tm (engine) :=
  let! (v_w, v_d, v_h) := (
    let! t9 := t_index v_w 0 in
    let! t10 := t_index v_w 14 in
    let! t11 := t_index v_w 9 in
    let! t12 := t_index v_w 1 in
    let! t13 := t_store v_w 0 (wrapping_add 64 (wrapping_add 64 (wrapping_add 64 t9 (g_sha512_sigma1 t10)) t11) (g_sha512_sigma0 t12)) in
    let v_w := t13 in
    let! (v_d, v_h) := (
      let! t14 := t_index v_w 0 in
      let v_t1 := wrapping_add 64 (wrapping_add 64 (wrapping_add 64 (wrapping_add 64 v_h (g_sha512_Sigma1 v_e)) (g_sha512_Ch v_e v_f v_g)) 0x27b70a8546d22ffc) t14 in
      let v_t2 := wrapping_add 64 (g_sha512_Sigma0 v_a) (g_sha512_Maj v_a v_b v_c) in
      let v_d := wrapping_add 64 v_d v_t1 in
      let v_h := wrapping_add 64 v_t1 v_t2 in
      tret (v_d, v_h)) in
    tret (v_w, v_d, v_h)) in
  let! (v_w, v_c, v_g) := (
    let! t9 := t_index v_w 1 in
    let! t10 := t_index v_w 15 in
    let! t11 := t_index v_w 10 in
    let! t12 := t_index v_w 2 in
    let! t13 := t_store v_w 1 (wrapping_add 64 (wrapping_add 64 (wrapping_add 64 t9 (g_sha512_sigma1 t10)) t11) (g_sha512_sigma0 t12)) in
    let v_w := t13 in
    let! (v_c, v_g) := (
      let! t14 := t_index v_w 1 in
      let v_t1 := wrapping_add 64 (wrapping_add 64 (wrapping_add 64 (wrapping_add 64 v_g (g_sha512_Sigma1 v_d)) (g_sha512_Ch v_d v_e v_f)) 0x2e1b21385c26c926) t14 in
      let v_t2 := wrapping_add 64 (g_sha512_Sigma0 v_h) (g_sha512_Maj v_h v_a v_b) in
      let v_c := wrapping_add 64 v_c v_t1 in
      let v_g := wrapping_add 64 v_t1 v_t2 in
      tret (v_c, v_g)) in
    tret (v_w, v_c, v_g)) in
  let! (v_w, v_b, v_f) := (
    let! t9 := t_index v_w 2 in
    let! t10 := t_index v_w 0 in
    let! t11 := t_index v_w 11 in
    let! t12 := t_index v_w 3 in
    let! t13 := t_store v_w 2 (wrapping_add 64 (wrapping_add 64 (wrapping_add 64 t9 (g_sha512_sigma1 t10)) t11) (g_sha512_sigma0 t12)) in
    let v_w := t13 in
    let! (v_b, v_f) := (
      let! t14 := t_index v_w 2 in
      let v_t1 := wrapping_add 64 (wrapping_add 64 (wrapping_add 64 (wrapping_add 64 v_f (g_sha512_Sigma1 v_c)) (g_sha512_Ch v_c v_d v_e)) 0x4d2c6dfc5ac42aed) t14 in
      let v_t2 := wrapping_add 64 (g_sha512_Sigma0 v_g) (g_sha512_Maj v_g v_h v_a) in
      let v_b := wrapping_add 64 v_b v_t1 in
      let v_f := wrapping_add 64 v_t1 v_t2 in
      tret (v_b, v_f)) in
    tret (v_w, v_b, v_f)) in
  let! (v_w, v_a, v_e) := (
    let! t9 := t_index v_w 3 in
    let! t10 := t_index v_w 1 in
    let! t11 := t_index v_w 12 in
    let! t12 := t_index v_w 4 in
    let! t13 := t_store v_w 3 (wrapping_add 64 (wrapping_add 64 (wrapping_add 64 t9 (g_sha512_sigma1 t10)) t11) (g_sha512_sigma0 t12)) in
    let v_w := t13 in
    let! (v_a, v_e) := (
      let! t14 := t_index v_w 3 in
      let v_t1 := wrapping_add 64 (wrapping_add 64 (wrapping_add 64 (wrapping_add 64 v_e (g_sha512_Sigma1 v_b)) (g_sha512_Ch v_b v_c v_d)) 0x53380d139d95b3df) t14 in
      let v_t2 := wrapping_add 64 (g_sha512_Sigma0 v_f) (g_sha512_Maj v_f v_g v_h) in
      let v_a := wrapping_add 64 v_a v_t1 in
      let v_e := wrapping_add 64 v_t1 v_t2 in
      tret (v_a, v_e)) in
    tret (v_w, v_a, v_e)) in
  let! (v_w, v_d, v_h) := (
    let! t9 := t_index v_w 4 in
    let! t10 := t_index v_w 2 in
    let! t11 := t_index v_w 13 in
    let! t12 := t_index v_w 5 in
    let! t13 := t_store v_w 4 (wrapping_add 64 (wrapping_add 64 (wrapping_add 64 t9 (g_sha512_sigma1 t10)) t11) (g_sha512_sigma0 t12)) in
    let v_w := t13 in
    let! (v_d, v_h) := (
      let! t14 := t_index v_w 4 in
      let v_t1 := wrapping_add 64 (wrapping_add 64 (wrapping_add 64 (wrapping_add 64 v_d (g_sha512_Sigma1 v_a)) (g_sha512_Ch v_a v_b v_c)) 0x650a73548baf63de) t14 in
      let v_t2 := wrapping_add 64 (g_sha512_Sigma0 v_e) (g_sha512_Maj v_e v_f v_g) in
      let v_h := wrapping_add 64 v_h v_t1 in
      let v_d := wrapping_add 64 v_t1 v_t2 in
      tret (v_d, v_h)) in
    tret (v_w, v_d, v_h)) in
  let! (v_w, v_c, v_g) := (
    let! t9 := t_index v_w 5 in
    let! t10 := t_index v_w 3 in
    let! t11 := t_index v_w 14 in
    let! t12 := t_index v_w 6 in
    let! t13 := t_store v_w 5 (wrapping_add 64 (wrapping_add 64 (wrapping_add 64 t9 (g_sha512_sigma1 t10)) t11) (g_sha512_sigma0 t12)) in
    let v_w := t13 in
    let! (v_c, v_g) := (
      let! t14 := t_index v_w 5 in
      let v_t1 := wrapping_add 64 (wrapping_add 64 (wrapping_add 64 (wrapping_add 64 v_c (g_sha512_Sigma1 v_h)) (g_sha512_Ch v_h v_a v_b)) 0x766a0abb3c77b2a8) t14 in
      let v_t2 := wrapping_add 64 (g_sha512_Sigma0 v_d) (g_sha512_Maj v_d v_e v_f) in
      let v_g := wrapping_add 64 v_g v_t1 in
      let v_c := wrapping_add 64 v_t1 v_t2 in
      tret (v_c, v_g)) in
    tret (v_w, v_c, v_g)) in
  let! (v_w, v_b, v_f) := (
    let! t9 := t_index v_w 6 in
    let! t10 := t_index v_w 4 in
    let! t11 := t_index v_w 15 in
    let! t12 := t_index v_w 7 in
    let! t13 := t_store v_w 6 (wrapping_add 64 (wrapping_add 64 (wrapping_add 64 t9 (g_sha512_sigma1 t10)) t11) (g_sha512_sigma0 t12)) in
    let v_w := t13 in
    let! (v_b, v_f) := (
      let! t14 := t_index v_w 6 in
      let v_t1 := wrapping_add 64 (wrapping_add 64 (wrapping_add 64 (wrapping_add 64 v_b (g_sha512_Sigma1 v_g)) (g_sha512_Ch v_g v_h v_a)) 0x81c2c92e47edaee6) t14 in
      let v_t2 := wrapping_add 64 (g_sha512_Sigma0 v_c) (g_sha512_Maj v_c v_d v_e) in
      let v_f := wrapping_add 64 v_f v_t1 in
      let v_b := wrapping_add 64 v_t1 v_t2 in
      tret (v_b, v_f)) in
    tret (v_w, v_b, v_f)) in
  let! (v_w, v_a, v_e) := (
    let! t9 := t_index v_w 7 in
    let! t10 := t_index v_w 5 in
    let! t11 := t_index v_w 0 in
    let! t12 := t_index v_w 8 in
    let! t13 := t_store v_w 7 (wrapping_add 64 (wrapping_add 64 (wrapping_add 64 t9 (g_sha512_sigma1 t10)) t11) (g_sha512_sigma0 t12)) in
    let v_w := t13 in
    let! (v_a, v_e) := (
      let! t14 := t_index v_w 7 in
      let v_t1 := wrapping_add 64 (wrapping_add 64 (wrapping_add 64 (wrapping_add 64 v_a (g_sha512_Sigma1 v_f)) (g_sha512_Ch v_f v_g v_h)) 0x92722c851482353b) t14 in
      let v_t2 := wrapping_add 64 (g_sha512_Sigma0 v_b) (g_sha512_Maj v_b v_c v_d) in
      let v_e := wrapping_add 64 v_e v_t1 in
      let v_a := wrapping_add 64 v_t1 v_t2 in
      tret (v_a, v_e)) in
    tret (v_w, v_a, v_e)) in
  let! (v_w, v_d, v_h) := (
    let! t9 := t_index v_w 8 in
    let! t10 := t_index v_w 6 in
    let! t11 := t_index v_w 1 in
    let! t12 := t_index v_w 9 in
    let! t13 := t_store v_w 8 (wrapping_add 64 (wrapping_add 64 (wrapping_add 64 t9 (g_sha512_sigma1 t10)) t11) (g_sha512_sigma0 t12)) in
    let v_w := t13 in
    let! (v_d, v_h) := (
      let! t14 := t_index v_w 8 in
      let v_t1 := wrapping_add 64 (wrapping_add 64 (wrapping_add 64 (wrapping_add 64 v_h (g_sha512_Sigma1 v_e)) (g_sha512_Ch v_e v_f v_g)) 0xa2bfe8a14cf10364) t14 in
      let v_t2 := wrapping_add 64 (g_sha512_Sigma0 v_a) (g_sha512_Maj v_a v_b v_c) in
      let v_d := wrapping_add 64 v_d v_t1 in
      let v_h := wrapping_add 64 v_t1 v_t2 in
      tret (v_d, v_h)) in
    tret (v_w, v_d, v_h)) in
  let! (v_w, v_c, v_g) := (
    let! t9 := t_index v_w 9 in
    let! t10 := t_index v_w 7 in
    let! t11 := t_index v_w 2 in
    let! t12 := t_index v_w 10 in
    let! t13 := t_store v_w 9 (wrapping_add 64 (wrapping_add 64 (wrapping_add 64 t9 (g_sha512_sigma1 t10)) t11) (g_sha512_sigma0 t12)) in
    let v_w := t13 in
    let! (v_c, v_g) := (
      let! t14 := t_index v_w 9 in
      let v_t1 := wrapping_add 64 (wrapping_add 64 (wrapping_add 64 (wrapping_add 64 v_g (g_sha512_Sigma1 v_d)) (g_sha512_Ch v_d v_e v_f)) 0xa81a664bbc423001) t14 in
      let v_t2 := wrapping_add 64 (g_sha512_Sigma0 v_h) (g_sha512_Maj v_h v_a v_b) in
      let v_c := wrapping_add 64 v_c v_t1 in
      let v_g := wrapping_add 64 v_t1 v_t2 in
      tret (v_c, v_g)) in
    tret (v_w, v_c, v_g)) in
  let! (v_w, v_b, v_f) := (
    let! t9 := t_index v_w 10 in
    let! t10 := t_index v_w 8 in
    let! t11 := t_index v_w 3 in
    let! t12 := t_index v_w 11 in
    let! t13 := t_store v_w 10 (wrapping_add 64 (wrapping_add 64 (wrapping_add 64 t9 (g_sha512_sigma1 t10)) t11) (g_sha512_sigma0 t12)) in
    let v_w := t13 in
    let! (v_b, v_f) := (
      let! t14 := t_index v_w 10 in
      let v_t1 := wrapping_add 64 (wrapping_add 64 (wrapping_add 64 (wrapping_add 64 v_f (g_sha512_Sigma1 v_c)) (g_sha512_Ch v_c v_d v_e)) 0xc24b8b70d0f89791) t14 in
      let v_t2 := wrapping_add 64 (g_sha512_Sigma0 v_g) (g_sha512_Maj v_g v_h v_a) in
      let v_b := wrapping_add 64 v_b v_t1 in
      let v_f := wrapping_add 64 v_t1 v_t2 in
      tret (v_b, v_f)) in
    tret (v_w, v_b, v_f)) in
  let! (v_w, v_a, v_e) := (
    let! t9 := t_index v_w 11 in
    let! t10 := t_index v_w 9 in
    let! t11 := t_index v_w 4 in
    let! t12 := t_index v_w 12 in
    let! t13 := t_store v_w 11 (wrapping_add 64 (wrapping_add 64 (wrapping_add 64 t9 (g_sha512_sigma1 t10)) t11) (g_sha512_sigma0 t12)) in
    let v_w := t13 in
    let! (v_a, v_e) := (
      let! t14 := t_index v_w 11 in
      let v_t1 := wrapping_add 64 (wrapping_add 64 (wrapping_add 64 (wrapping_add 64 v_e (g_sha512_Sigma1 v_b)) (g_sha512_Ch v_b v_c v_d)) 0xc76c51a30654be30) t14 in
      let v_t2 := wrapping_add 64 (g_sha512_Sigma0 v_f) (g_sha512_Maj v_f v_g v_h) in
      let v_a := wrapping_add 64 v_a v_t1 in
      let v_e := wrapping_add 64 v_t1 v_t2 in
      tret (v_a, v_e)) in
    tret (v_w, v_a, v_e)) in
  let! (v_w, v_d, v_h) := (
    let! t9 := t_index v_w 12 in
    let! t10 := t_index v_w 10 in
    let! t11 := t_index v_w 5 in
    let! t12 := t_index v_w 13 in
    let! t13 := t_store v_w 12 (wrapping_add 64 (wrapping_add 64 (wrapping_add 64 t9 (g_sha512_sigma1 t10)) t11) (g_sha512_sigma0 t12)) in
    let v_w := t13 in
    let! (v_d, v_h) := (
      let! t14 := t_index v_w 12 in
      let v_t1 := wrapping_add 64 (wrapping_add 64 (wrapping_add 64 (wrapping_add 64 v_d (g_sha512_Sigma1 v_a)) (g_sha512_Ch v_a v_b v_c)) 0xd192e819d6ef5218) t14 in
      let v_t2 := wrapping_add 64 (g_sha512_Sigma0 v_e) (g_sha512_Maj v_e v_f v_g) in
      let v_h := wrapping_add 64 v_h v_t1 in
      let v_d := wrapping_add 64 v_t1 v_t2 in
      tret (v_d, v_h)) in
    tret (v_w, v_d, v_h)) in
  let! (v_w, v_c, v_g) := (
    let! t9 := t_index v_w 13 in
    let! t10 := t_index v_w 11 in
    let! t11 := t_index v_w 6 in
    let! t12 := t_index v_w 14 in
    let! t13 := t_store v_w 13 (wrapping_add 64 (wrapping_add 64 (wrapping_add 64 t9 (g_sha512_sigma1 t10)) t11) (g_sha512_sigma0 t12)) in
    let v_w := t13 in
    let! (v_c, v_g) := (
      let! t14 := t_index v_w 13 in
      let v_t1 := wrapping_add 64 (wrapping_add 64 (wrapping_add 64 (wrapping_add 64 v_c (g_sha512_Sigma1 v_h)) (g_sha512_Ch v_h v_a v_b)) 0xd69906245565a910) t14 in
      let v_t2 := wrapping_add 64 (g_sha512_Sigma0 v_d) (g_sha512_Maj v_d v_e v_f) in
      let v_g := wrapping_add 64 v_g v_t1 in
      let v_c := wrapping_add 64 v_t1 v_t2 in
      tret (v_c, v_g)) in
    tret (v_w, v_c, v_g)) in
  let! (v_w, v_b, v_f) := (
    let! t9 := t_index v_w 14 in
    let! t10 := t_index v_w 12 in
    let! t11 := t_index v_w 7 in
    let! t12 := t_index v_w 15 in
    let! t13 := t_store v_w 14 (wrapping_add 64 (wrapping_add 64 (wrapping_add 64 t9 (g_sha512_sigma1 t10)) t11) (g_sha512_sigma0 t12)) in
    let v_w := t13 in
    let! (v_b, v_f) := (
      let! t14 := t_index v_w 14 in
      let v_t1 := wrapping_add 64 (wrapping_add 64 (wrapping_add 64 (wrapping_add 64 v_b (g_sha512_Sigma1 v_g)) (g_sha512_Ch v_g v_h v_a)) 0xf40e35855771202a) t14 in
      let v_t2 := wrapping_add 64 (g_sha512_Sigma0 v_c) (g_sha512_Maj v_c v_d v_e) in
      let v_f := wrapping_add 64 v_f v_t1 in
      let v_b := wrapping_add 64 v_t1 v_t2 in
      tret (v_b, v_f)) in
    tret (v_w, v_b, v_f)) in
  let! (v_w, v_a, v_e) := (
    let! t9 := t_index v_w 15 in
    let! t10 := t_index v_w 13 in
    let! t11 := t_index v_w 8 in
    let! t12 := t_index v_w 0 in
    let! t13 := t_store v_w 15 (wrapping_add 64 (wrapping_add 64 (wrapping_add 64 t9 (g_sha512_sigma1 t10)) t11) (g_sha512_sigma0 t12)) in
    let v_w := t13 in
    let! (v_a, v_e) := (
      let! t14 := t_index v_w 15 in
      let v_t1 := wrapping_add 64 (wrapping_add 64 (wrapping_add 64 (wrapping_add 64 v_a (g_sha512_Sigma1 v_f)) (g_sha512_Ch v_f v_g v_h)) 0x106aa07032bbd1b8) t14 in
      let v_t2 := wrapping_add 64 (g_sha512_Sigma0 v_b) (g_sha512_Maj v_b v_c v_d) in
      let v_e := wrapping_add 64 v_e v_t1 in
      let v_a := wrapping_add 64 v_t1 v_t2 in
      tret (v_a, v_e)) in
    tret (v_w, v_a, v_e)) in
  t_sha512_Engine_process_block_fast_part3 v_self v_w v_a v_b v_c v_d v_e v_f v_g v_h.

Definition t_sha512_Engine_process_block_fast_part1 v_self v_w v_a v_b v_c v_d v_e v_f v_g v_h : tm (engine) :=
  let! (v_w, v_d, v_h) := (
    let! t9 := t_index v_w 0 in
    let! t10 := t_index v_w 14 in
    let! t11 := t_index v_w 9 in
    let! t12 := t_index v_w 1 in
    let! t13 := t_store v_w 0 (wrapping_add 64 (wrapping_add 64 (wrapping_add 64 t9 (g_sha512_sigma1 t10)) t11) (g_sha512_sigma0 t12)) in
    let v_w := t13 in
    let! (v_d, v_h) := (
      let! t14 := t_index v_w 0 in
      let v_t1 := wrapping_add 64 (wrapping_add 64 (wrapping_add 64 (wrapping_add 64 v_h (g_sha512_Sigma1 v_e)) (g_sha512_Ch v_e v_f v_g)) 0xe49b69c19ef14ad2) t14 in
      let v_t2 := wrapping_add 64 (g_sha512_Sigma0 v_a) (g_sha512_Maj v_a v_b v_c) in
      let v_d := wrapping_add 64 v_d v_t1 in
      let v_h := wrapping_add 64 v_t1 v_t2 in
      tret (v_d, v_h)) in
    tret (v_w, v_d, v_h)) in
  let! (v_w, v_c, v_g) := (
    let! t9 := t_index v_w 1 in
    let! t10 := t_index v_w 15 in
    let! t11 := t_index v_w 10 in
    let! t12 := t_index v_w 2 in
    let! t13 := t_store v_w 1 (wrapping_add 64 (wrapping_add 64 (wrapping_add 64 t9 (g_sha512_sigma1 t10)) t11) (g_sha512_sigma0 t12)) in
    let v_w := t13 in
    let! (v_c, v_g) := (
      let! t14 := t_index v_w 1 in
      let v_t1 := wrapping_add 64 (wrapping_add 64 (wrapping_add 64 (wrapping_add 64 v_g (g_sha512_Sigma1 v_d)) (g_sha512_Ch v_d v_e v_f)) 0xefbe4786384f25e3) t14 in
      let v_t2 := wrapping_add 64 (g_sha512_Sigma0 v_h) (g_sha512_Maj v_h v_a v_b) in
      let v_c := wrapping_add 64 v_c v_t1 in
      let v_g := wrapping_add 64 v_t1 v_t2 in
      tret (v_c, v_g)) in
    tret (v_w, v_c, v_g)) in
  let! (v_w, v_b, v_f) := (
    let! t9 := t_index v_w 2 in
    let! t10 := t_index v_w 0 in
    let! t11 := t_index v_w 11 in
    let! t12 := t_index v_w 3 in
    let! t13 := t_store v_w 2 (wrapping_add 64 (wrapping_add 64 (wrapping_add 64 t9 (g_sha512_sigma1 t10)) t11) (g_sha512_sigma0 t12)) in
    let v_w := t13 in
    let! (v_b, v_f) := (
      let! t14 := t_index v_w 2 in
      let v_t1 := wrapping_add 64 (wrapping_add 64 (wrapping_add 64 (wrapping_add 64 v_f (g_sha512_Sigma1 v_c)) (g_sha512_Ch v_c v_d v_e)) 0xfc19dc68b8cd5b5) t14 in
      let v_t2 := wrapping_add 64 (g_sha512_Sigma0 v_g) (g_sha512_Maj v_g v_h v_a) in
      let v_b := wrapping_add 64 v_b v_t1 in
      let v_f := wrapping_add 64 v_t1 v_t2 in
      tret (v_b, v_f)) in
    tret (v_w, v_b, v_f)) in
  let! (v_w, v_a, v_e) := (
    let! t9 := t_index v_w 3 in
    let! t10 := t_index v_w 1 in
    let! t11 := t_index v_w 12 in
    let! t12 := t_index v_w 4 in
    let! t13 := t_store v_w 3 (wrapping_add 64 (wrapping_add 64 (wrapping_add 64 t9 (g_sha512_sigma1 t10)) t11) (g_sha512_sigma0 t12)) in
    let v_w := t13 in
    let! (v_a, v_e) := (
      let! t14 := t_index v_w 3 in
      let v_t1 := wrapping_add 64 (wrapping_add 64 (wrapping_add 64 (wrapping_add 64 v_e (g_sha512_Sigma1 v_b)) (g_sha512_Ch v_b v_c v_d)) 0x240ca1cc77ac9c65) t14 in
      let v_t2 := wrapping_add 64 (g_sha512_Sigma0 v_f) (g_sha512_Maj v_f v_g v_h) in
      let v_a := wrapping_add 64 v_a v_t1 in
      let v_e := wrapping_add 64 v_t1 v_t2 in
      tret (v_a, v_e)) in
    tret (v_w, v_a, v_e)) in
  let! (v_w, v_d, v_h) := (
    let! t9 := t_index v_w 4 in
    let! t10 := t_index v_w 2 in
    let! t11 := t_index v_w 13 in
    let! t12 := t_index v_w 5 in
    let! t13 := t_store v_w 4 (wrapping_add 64 (wrapping_add 64 (wrapping_add 64 t9 (g_sha512_sigma1 t10)) t11) (g_sha512_sigma0 t12)) in
    let v_w := t13 in
    let! (v_d, v_h) := (
      let! t14 := t_index v_w 4 in
      let v_t1 := wrapping_add 64 (wrapping_add 64 (wrapping_add 64 (wrapping_add 64 v_d (g_sha512_Sigma1 v_a)) (g_sha512_Ch v_a v_b v_c)) 0x2de92c6f592b0275) t14 in
      let v_t2 := wrapping_add 64 (g_sha512_Sigma0 v_e) (g_sha512_Maj v_e v_f v_g) in
      let v_h := wrapping_add 64 v_h v_t1 in
      let v_d := wrapping_add 64 v_t1 v_t2 in
      tret (v_d, v_h)) in
    tret (v_w, v_d, v_h)) in
  let! (v_w, v_c, v_g) := (
    let! t9 := t_index v_w 5 in
    let! t10 := t_index v_w 3 in
    let! t11 := t_index v_w 14 in
    let! t12 := t_index v_w 6 in
    let! t13 := t_store v_w 5 (wrapping_add 64 (wrapping_add 64 (wrapping_add 64 t9 (g_sha512_sigma1 t10)) t11) (g_sha512_sigma0 t12)) in
    let v_w := t13 in
    let! (v_c, v_g) := (
      let! t14 := t_index v_w 5 in
      let v_t1 := wrapping_add 64 (wrapping_add 64 (wrapping_add 64 (wrapping_add 64 v_c (g_sha512_Sigma1 v_h)) (g_sha512_Ch v_h v_a v_b)) 0x4a7484aa6ea6e483) t14 in
      let v_t2 := wrapping_add 64 (g_sha512_Sigma0 v_d) (g_sha512_Maj v_d v_e v_f) in
      let v_g := wrapping_add 64 v_g v_t1 in
      let v_c := wrapping_add 64 v_t1 v_t2 in
      tret (v_c, v_g)) in
    tret (v_w, v_c, v_g)) in
  let! (v_w, v_b, v_f) := (
    let! t9 := t_index v_w 6 in
    let! t10 := t_index v_w 4 in
    let! t11 := t_index v_w 15 in
    let! t12 := t_index v_w 7 in
    let! t13 := t_store v_w 6 (wrapping_add 64 (wrapping_add 64 (wrapping_add 64 t9 (g_sha512_sigma1 t10)) t11) (g_sha512_sigma0 t12)) in
    let v_w := t13 in
    let! (v_b, v_f) := (
      let! t14 := t_index v_w 6 in
      let v_t1 := wrapping_add 64 (wrapping_add 64 (wrapping_add 64 (wrapping_add 64 v_b (g_sha512_Sigma1 v_g)) (g_sha512_Ch v_g v_h v_a)) 0x5cb0a9dcbd41fbd4) t14 in
      let v_t2 := wrapping_add 64 (g_sha512_Sigma0 v_c) (g_sha512_Maj v_c v_d v_e) in
      let v_f := wrapping_add 64 v_f v_t1 in
      let v_b := wrapping_add 64 v_t1 v_t2 in
      tret (v_b, v_f)) in
    tret (v_w, v_b, v_f)) in
  let! (v_w, v_a, v_e) := (
    let! t9 := t_index v_w 7 in
    let! t10 := t_index v_w 5 in
    let! t11 := t_index v_w 0 in
    let! t12 := t_index v_w 8 in
    let! t13 := t_store v_w 7 (wrapping_add 64 (wrapping_add 64 (wrapping_add 64 t9 (g_sha512_sigma1 t10)) t11) (g_sha512_sigma0 t12)) in
    let v_w := t13 in
    let! (v_a, v_e) := (
      let! t14 := t_index v_w 7 in
      let v_t1 := wrapping_add 64 (wrapping_add 64 (wrapping_add 64 (wrapping_add 64 v_a (g_sha512_Sigma1 v_f)) (g_sha512_Ch v_f v_g v_h)) 0x76f988da831153b5) t14 in
      let v_t2 := wrapping_add 64 (g_sha512_Sigma0 v_b) (g_sha512_Maj v_b v_c v_d) in
      let v_e := wrapping_add 64 v_e v_t1 in
      let v_a := wrapping_add 64 v_t1 v_t2 in
      tret (v_a, v_e)) in
    tret (v_w, v_a, v_e)) in
  let! (v_w, v_d, v_h) := (
    let! t9 := t_index v_w 8 in
    let! t10 := t_index v_w 6 in
    let! t11 := t_index v_w 1 in
    let! t12 := t_index v_w 9 in
    let! t13 := t_store v_w 8 (wrapping_add 64 (wrapping_add 64 (wrapping_add 64 t9 (g_sha512_sigma1 t10)) t11) (g_sha512_sigma0 t12)) in
    let v_w := t13 in
    let! (v_d, v_h) := (
      let! t14 := t_index v_w 8 in
      let v_t1 := wrapping_add 64 (wrapping_add 64 (wrapping_add 64 (wrapping_add 64 v_h (g_sha512_Sigma1 v_e)) (g_sha512_Ch v_e v_f v_g)) 0x983e5152ee66dfab) t14 in
      let v_t2 := wrapping_add 64 (g_sha512_Sigma0 v_a) (g_sha512_Maj v_a v_b v_c) in
      let v_d := wrapping_add 64 v_d v_t1 in
      let v_h := wrapping_add 64 v_t1 v_t2 in
      tret (v_d, v_h)) in
    tret (v_w, v_d, v_h)) in
  let! (v_w, v_c, v_g) := (
    let! t9 := t_index v_w 9 in
    let! t10 := t_index v_w 7 in
    let! t11 := t_index v_w 2 in
    let! t12 := t_index v_w 10 in
    let! t13 := t_store v_w 9 (wrapping_add 64 (wrapping_add 64 (wrapping_add 64 t9 (g_sha512_sigma1 t10)) t11) (g_sha512_sigma0 t12)) in
    let v_w := t13 in
    let! (v_c, v_g) := (
      let! t14 := t_index v_w 9 in
      let v_t1 := wrapping_add 64 (wrapping_add 64 (wrapping_add 64 (wrapping_add 64 v_g (g_sha512_Sigma1 v_d)) (g_sha512_Ch v_d v_e v_f)) 0xa831c66d2db43210) t14 in
      let v_t2 := wrapping_add 64 (g_sha512_Sigma0 v_h) (g_sha512_Maj v_h v_a v_b) in
      let v_c := wrapping_add 64 v_c v_t1 in
      let v_g := wrapping_add 64 v_t1 v_t2 in
      tret (v_c, v_g)) in
    tret (v_w, v_c, v_g)) in
  let! (v_w, v_b, v_f) := (
    let! t9 := t_index v_w 10 in
    let! t10 := t_index v_w 8 in
    let! t11 := t_index v_w 3 in
    let! t12 := t_index v_w 11 in
    let! t13 := t_store v_w 10 (wrapping_add 64 (wrapping_add 64 (wrapping_add 64 t9 (g_sha512_sigma1 t10)) t11) (g_sha512_sigma0 t12)) in
    let v_w := t13 in
    let! (v_b, v_f) := (
      let! t14 := t_index v_w 10 in
      let v_t1 := wrapping_add 64 (wrapping_add 64 (wrapping_add 64 (wrapping_add 64 v_f (g_sha512_Sigma1 v_c)) (g_sha512_Ch v_c v_d v_e)) 0xb00327c898fb213f) t14 in
      let v_t2 := wrapping_add 64 (g_sha512_Sigma0 v_g) (g_sha512_Maj v_g v_h v_a) in
      let v_b := wrapping_add 64 v_b v_t1 in
      let v_f := wrapping_add 64 v_t1 v_t2 in
      tret (v_b, v_f)) in
    tret (v_w, v_b, v_f)) in
  let! (v_w, v_a, v_e) := (
    let! t9 := t_index v_w 11 in
    let! t10 := t_index v_w 9 in
    let! t11 := t_index v_w 4 in
    let! t12 := t_index v_w 12 in
    let! t13 := t_store v_w 11 (wrapping_add 64 (wrapping_add 64 (wrapping_add 64 t9 (g_sha512_sigma1 t10)) t11) (g_sha512_sigma0 t12)) in
    let v_w := t13 in
    let! (v_a, v_e) := (
      let! t14 := t_index v_w 11 in
      let v_t1 := wrapping_add 64 (wrapping_add 64 (wrapping_add 64 (wrapping_add 64 v_e (g_sha512_Sigma1 v_b)) (g_sha512_Ch v_b v_c v_d)) 0xbf597fc7beef0ee4) t14 in
      let v_t2 := wrapping_add 64 (g_sha512_Sigma0 v_f) (g_sha512_Maj v_f v_g v_h) in
      let v_a := wrapping_add 64 v_a v_t1 in
      let v_e := wrapping_add 64 v_t1 v_t2 in
      tret (v_a, v_e)) in
    tret (v_w, v_a, v_e)) in
  let! (v_w, v_d, v_h) := (
    let! t9 := t_index v_w 12 in
    let! t10 := t_index v_w 10 in
    let! t11 := t_index v_w 5 in
    let! t12 := t_index v_w 13 in
    let! t13 := t_store v_w 12 (wrapping_add 64 (wrapping_add 64 (wrapping_add 64 t9 (g_sha512_sigma1 t10)) t11) (g_sha512_sigma0 t12)) in
    let v_w := t13 in
    let! (v_d, v_h) := (
      let! t14 := t_index v_w 12 in
      let v_t1 := wrapping_add 64 (wrapping_add 64 (wrapping_add 64 (wrapping_add 64 v_d (g_sha512_Sigma1 v_a)) (g_sha512_Ch v_a v_b v_c)) 0xc6e00bf33da88fc2) t14 in
      let v_t2 := wrapping_add 64 (g_sha512_Sigma0 v_e) (g_sha512_Maj v_e v_f v_g) in
      let v_h := wrapping_add 64 v_h v_t1 in
      let v_d := wrapping_add 64 v_t1 v_t2 in
      tret (v_d, v_h)) in
    tret (v_w, v_d, v_h)) in
  let! (v_w, v_c, v_g) := (
    let! t9 := t_index v_w 13 in
    let! t10 := t_index v_w 11 in
    let! t11 := t_index v_w 6 in
    let! t12 := t_index v_w 14 in
    let! t13 := t_store v_w 13 (wrapping_add 64 (wrapping_add 64 (wrapping_add 64 t9 (g_sha512_sigma1 t10)) t11) (g_sha512_sigma0 t12)) in
    let v_w := t13 in
    let! (v_c, v_g) := (
      let! t14 := t_index v_w 13 in
      let v_t1 := wrapping_add 64 (wrapping_add 64 (wrapping_add 64 (wrapping_add 64 v_c (g_sha512_Sigma1 v_h)) (g_sha512_Ch v_h v_a v_b)) 0xd5a79147930aa725) t14 in
      let v_t2 := wrapping_add 64 (g_sha512_Sigma0 v_d) (g_sha512_Maj v_d v_e v_f) in
      let v_g := wrapping_add 64 v_g v_t1 in
      let v_c := wrapping_add 64 v_t1 v_t2 in
      tret (v_c, v_g)) in
    tret (v_w, v_c, v_g)) in
  let! (v_w, v_b, v_f) := (
    let! t9 := t_index v_w 14 in
    let! t10 := t_index v_w 12 in
    let! t11 := t_index v_w 7 in
    let! t12 := t_index v_w 15 in
    let! t13 := t_store v_w 14 (wrapping_add 64 (wrapping_add 64 (wrapping_add 64 t9 (g_sha512_sigma1 t10)) t11) (g_sha512_sigma0 t12)) in
    let v_w := t13 in
    let! (v_b, v_f) := (
      let! t14 := t_index v_w 14 in
      let v_t1 := wrapping_add 64 (wrapping_add 64 (wrapping_add 64 (wrapping_add 64 v_b (g_sha512_Sigma1 v_g)) (g_sha512_Ch v_g v_h v_a)) 0x6ca6351e003826f) t14 in
      let v_t2 := wrapping_add 64 (g_sha512_Sigma0 v_c) (g_sha512_Maj v_c v_d v_e) in
      let v_f := wrapping_add 64 v_f v_t1 in
      let v_b := wrapping_add 64 v_t1 v_t2 in
      tret (v_b, v_f)) in
    tret (v_w, v_b, v_f)) in
  let! (v_w, v_a, v_e) := (
    let! t9 := t_index v_w 15 in
    let! t10 := t_index v_w 13 in
    let! t11 := t_index v_w 8 in
    let! t12 := t_index v_w 0 in
    let! t13 := t_store v_w 15 (wrapping_add 64 (wrapping_add 64 (wrapping_add 64 t9 (g_sha512_sigma1 t10)) t11) (g_sha512_sigma0 t12)) in
    let v_w := t13 in
    let! (v_a, v_e) := (
      let! t14 := t_index v_w 15 in
      let v_t1 := wrapping_add 64 (wrapping_add 64 (wrapping_add 64 (wrapping_add 64 v_a (g_sha512_Sigma1 v_f)) (g_sha512_Ch v_f v_g v_h)) 0x142929670a0e6e70) t14 in
      let v_t2 := wrapping_add 64 (g_sha512_Sigma0 v_b) (g_sha512_Maj v_b v_c v_d) in
      let v_e := wrapping_add 64 v_e v_t1 in
      let v_a := wrapping_add 64 v_t1 v_t2 in
      tret (v_a, v_e)) in
    tret (v_w, v_a, v_e)) in
  t_sha512_Engine_process_block_fast_part2 v_self v_w v_a v_b v_c v_d v_e v_f v_g v_h.

Definition t_sha512_Engine_process_block_fast (cfg : config) (v_self : engine) : tm (engine) :=
  let! _ := t_debug_assert cfg ((len (e_buffer v_self)) =? 128) in
  let v_w := array 0 16 in
  let! v_w := t_zip_iter_mut v_w (chunks_exact 8 (e_buffer v_self)) (fun v_w_val v_buff_bytes =>
      let! t1 := tlift (from_be_bytes 8 v_buff_bytes) in
      let v_w_val := t1 in
      tret v_w_val) in
  let! v_a := t_index (e_h v_self) 0 in
  let! v_b := t_index (e_h v_self) 1 in
  let! v_c := t_index (e_h v_self) 2 in
  let! v_d := t_index (e_h v_self) 3 in
  let! v_e := t_index (e_h v_self) 4 in
  let! v_f := t_index (e_h v_self) 5 in
  let! v_g := t_index (e_h v_self) 6 in
  let! v_h := t_index (e_h v_self) 7 in
  let! (v_d, v_h) := (
    let! t9 := t_index v_w 0 in
    let v_t1 := wrapping_add 64 (wrapping_add 64 (wrapping_add 64 (wrapping_add 64 v_h (g_sha512_Sigma1 v_e)) (g_sha512_Ch v_e v_f v_g)) 0x428a2f98d728ae22) t9 in
    let v_t2 := wrapping_add 64 (g_sha512_Sigma0 v_a) (g_sha512_Maj v_a v_b v_c) in
    let v_d := wrapping_add 64 v_d v_t1 in
    let v_h := wrapping_add 64 v_t1 v_t2 in
    tret (v_d, v_h)) in
  let! (v_c, v_g) := (
    let! t9 := t_index v_w 1 in
    let v_t1 := wrapping_add 64 (wrapping_add 64 (wrapping_add 64 (wrapping_add 64 v_g (g_sha512_Sigma1 v_d)) (g_sha512_Ch v_d v_e v_f)) 0x7137449123ef65cd) t9 in
    let v_t2 := wrapping_add 64 (g_sha512_Sigma0 v_h) (g_sha512_Maj v_h v_a v_b) in
    let v_c := wrapping_add 64 v_c v_t1 in
    let v_g := wrapping_add 64 v_t1 v_t2 in
    tret (v_c, v_g)) in
  let! (v_b, v_f) := (
    let! t9 := t_index v_w 2 in
    let v_t1 := wrapping_add 64 (wrapping_add 64 (wrapping_add 64 (wrapping_add 64 v_f (g_sha512_Sigma1 v_c)) (g_sha512_Ch v_c v_d v_e)) 0xb5c0fbcfec4d3b2f) t9 in
    let v_t2 := wrapping_add 64 (g_sha512_Sigma0 v_g) (g_sha512_Maj v_g v_h v_a) in
    let v_b := wrapping_add 64 v_b v_t1 in
    let v_f := wrapping_add 64 v_t1 v_t2 in
    tret (v_b, v_f)) in
  let! (v_a, v_e) := (
    let! t9 := t_index v_w 3 in
    let v_t1 := wrapping_add 64 (wrapping_add 64 (wrapping_add 64 (wrapping_add 64 v_e (g_sha512_Sigma1 v_b)) (g_sha512_Ch v_b v_c v_d)) 0xe9b5dba58189dbbc) t9 in
    let v_t2 := wrapping_add 64 (g_sha512_Sigma0 v_f) (g_sha512_Maj v_f v_g v_h) in
    let v_a := wrapping_add 64 v_a v_t1 in
    let v_e := wrapping_add 64 v_t1 v_t2 in
    tret (v_a, v_e)) in
  let! (v_d, v_h) := (
    let! t9 := t_index v_w 4 in
    let v_t1 := wrapping_add 64 (wrapping_add 64 (wrapping_add 64 (wrapping_add 64 v_d (g_sha512_Sigma1 v_a)) (g_sha512_Ch v_a v_b v_c)) 0x3956c25bf348b538) t9 in
    let v_t2 := wrapping_add 64 (g_sha512_Sigma0 v_e) (g_sha512_Maj v_e v_f v_g) in
    let v_h := wrapping_add 64 v_h v_t1 in
    let v_d := wrapping_add 64 v_t1 v_t2 in
    tret (v_d, v_h)) in
  let! (v_c, v_g) := (
    let! t9 := t_index v_w 5 in
    let v_t1 := wrapping_add 64 (wrapping_add 64 (wrapping_add 64 (wrapping_add 64 v_c (g_sha512_Sigma1 v_h)) (g_sha512_Ch v_h v_a v_b)) 0x59f111f1b605d019) t9 in
    let v_t2 := wrapping_add 64 (g_sha512_Sigma0 v_d) (g_sha512_Maj v_d v_e v_f) in
    let v_g := wrapping_add 64 v_g v_t1 in
    let v_c := wrapping_add 64 v_t1 v_t2 in
    tret (v_c, v_g)) in
  let! (v_b, v_f) := (
    let! t9 := t_index v_w 6 in
    let v_t1 := wrapping_add 64 (wrapping_add 64 (wrapping_add 64 (wrapping_add 64 v_b (g_sha512_Sigma1 v_g)) (g_sha512_Ch v_g v_h v_a)) 0x923f82a4af194f9b) t9 in
    let v_t2 := wrapping_add 64 (g_sha512_Sigma0 v_c) (g_sha512_Maj v_c v_d v_e) in
    let v_f := wrapping_add 64 v_f v_t1 in
    let v_b := wrapping_add 64 v_t1 v_t2 in
    tret (v_b, v_f)) in
  let! (v_a, v_e) := (
    let! t9 := t_index v_w 7 in
    let v_t1 := wrapping_add 64 (wrapping_add 64 (wrapping_add 64 (wrapping_add 64 v_a (g_sha512_Sigma1 v_f)) (g_sha512_Ch v_f v_g v_h)) 0xab1c5ed5da6d8118) t9 in
    let v_t2 := wrapping_add 64 (g_sha512_Sigma0 v_b) (g_sha512_Maj v_b v_c v_d) in
    let v_e := wrapping_add 64 v_e v_t1 in
    let v_a := wrapping_add 64 v_t1 v_t2 in
    tret (v_a, v_e)) in
  let! (v_d, v_h) := (
    let! t9 := t_index v_w 8 in
    let v_t1 := wrapping_add 64 (wrapping_add 64 (wrapping_add 64 (wrapping_add 64 v_h (g_sha512_Sigma1 v_e)) (g_sha512_Ch v_e v_f v_g)) 0xd807aa98a3030242) t9 in
    let v_t2 := wrapping_add 64 (g_sha512_Sigma0 v_a) (g_sha512_Maj v_a v_b v_c) in
    let v_d := wrapping_add 64 v_d v_t1 in
    let v_h := wrapping_add 64 v_t1 v_t2 in
    tret (v_d, v_h)) in
  let! (v_c, v_g) := (
    let! t9 := t_index v_w 9 in
    let v_t1 := wrapping_add 64 (wrapping_add 64 (wrapping_add 64 (wrapping_add 64 v_g (g_sha512_Sigma1 v_d)) (g_sha512_Ch v_d v_e v_f)) 0x12835b0145706fbe) t9 in
    let v_t2 := wrapping_add 64 (g_sha512_Sigma0 v_h) (g_sha512_Maj v_h v_a v_b) in
    let v_c := wrapping_add 64 v_c v_t1 in
    let v_g := wrapping_add 64 v_t1 v_t2 in
    tret (v_c, v_g)) in
  let! (v_b, v_f) := (
    let! t9 := t_index v_w 10 in
    let v_t1 := wrapping_add 64 (wrapping_add 64 (wrapping_add 64 (wrapping_add 64 v_f (g_sha512_Sigma1 v_c)) (g_sha512_Ch v_c v_d v_e)) 0x243185be4ee4b28c) t9 in
    let v_t2 := wrapping_add 64 (g_sha512_Sigma0 v_g) (g_sha512_Maj v_g v_h v_a) in
    let v_b := wrapping_add 64 v_b v_t1 in
    let v_f := wrapping_add 64 v_t1 v_t2 in
    tret (v_b, v_f)) in
  let! (v_a, v_e) := (
    let! t9 := t_index v_w 11 in
    let v_t1 := wrapping_add 64 (wrapping_add 64 (wrapping_add 64 (wrapping_add 64 v_e (g_sha512_Sigma1 v_b)) (g_sha512_Ch v_b v_c v_d)) 0x550c7dc3d5ffb4e2) t9 in
    let v_t2 := wrapping_add 64 (g_sha512_Sigma0 v_f) (g_sha512_Maj v_f v_g v_h) in
    let v_a := wrapping_add 64 v_a v_t1 in
    let v_e := wrapping_add 64 v_t1 v_t2 in
    tret (v_a, v_e)) in
  let! (v_d, v_h) := (
    let! t9 := t_index v_w 12 in
    let v_t1 := wrapping_add 64 (wrapping_add 64 (wrapping_add 64 (wrapping_add 64 v_d (g_sha512_Sigma1 v_a)) (g_sha512_Ch v_a v_b v_c)) 0x72be5d74f27b896f) t9 in
    let v_t2 := wrapping_add 64 (g_sha512_Sigma0 v_e) (g_sha512_Maj v_e v_f v_g) in
    let v_h := wrapping_add 64 v_h v_t1 in
    let v_d := wrapping_add 64 v_t1 v_t2 in
    tret (v_d, v_h)) in
  let! (v_c, v_g) := (
    let! t9 := t_index v_w 13 in
    let v_t1 := wrapping_add 64 (wrapping_add 64 (wrapping_add 64 (wrapping_add 64 v_c (g_sha512_Sigma1 v_h)) (g_sha512_Ch v_h v_a v_b)) 0x80deb1fe3b1696b1) t9 in
    let v_t2 := wrapping_add 64 (g_sha512_Sigma0 v_d) (g_sha512_Maj v_d v_e v_f) in
    let v_g := wrapping_add 64 v_g v_t1 in
    let v_c := wrapping_add 64 v_t1 v_t2 in
    tret (v_c, v_g)) in
  let! (v_b, v_f) := (
    let! t9 := t_index v_w 14 in
    let v_t1 := wrapping_add 64 (wrapping_add 64 (wrapping_add 64 (wrapping_add 64 v_b (g_sha512_Sigma1 v_g)) (g_sha512_Ch v_g v_h v_a)) 0x9bdc06a725c71235) t9 in
    let v_t2 := wrapping_add 64 (g_sha512_Sigma0 v_c) (g_sha512_Maj v_c v_d v_e) in
    let v_f := wrapping_add 64 v_f v_t1 in
    let v_b := wrapping_add 64 v_t1 v_t2 in
    tret (v_b, v_f)) in
  let! (v_a, v_e) := (
    let! t9 := t_index v_w 15 in
    let v_t1 := wrapping_add 64 (wrapping_add 64 (wrapping_add 64 (wrapping_add 64 v_a (g_sha512_Sigma1 v_f)) (g_sha512_Ch v_f v_g v_h)) 0xc19bf174cf692694) t9 in
    let v_t2 := wrapping_add 64 (g_sha512_Sigma0 v_b) (g_sha512_Maj v_b v_c v_d) in
    let v_e := wrapping_add 64 v_e v_t1 in
    let v_a := wrapping_add 64 v_t1 v_t2 in
    tret (v_a, v_e)) in
  t_sha512_Engine_process_block_fast_part1 v_self v_w v_a v_b v_c v_d v_e v_f v_g v_h.

(** process_block, src/sha512.rs:204-314; feature small-hash on *)
Definition t_sha512_Engine_process_block_small_part5 v_self v_a v_b v_c v_d v_e v_f v_g v_h : tm (engine) :=
  let! t9 := t_index (e_h v_self) 0 in
  let! t10 := t_store (e_h v_self) 0 (wrapping_add 64 t9 v_a) in
  let v_self := mk_engine (e_buffer v_self) t10 (e_length v_self) in
  let! t11 := t_index (e_h v_self) 1 in
  let! t12 := t_store (e_h v_self) 1 (wrapping_add 64 t11 v_b) in
  let v_self := mk_engine (e_buffer v_self) t12 (e_length v_self) in
  let! t13 := t_index (e_h v_self) 2 in
  let! t14 := t_store (e_h v_self) 2 (wrapping_add 64 t13 v_c) in
  let v_self := mk_engine (e_buffer v_self) t14 (e_length v_self) in
  let! t15 := t_index (e_h v_self) 3 in
  let! t16 := t_store (e_h v_self) 3 (wrapping_add 64 t15 v_d) in
  let v_self := mk_engine (e_buffer v_self) t16 (e_length v_self) in
  let! t17 := t_index (e_h v_self) 4 in
  let! t18 := t_store (e_h v_self) 4 (wrapping_add 64 t17 v_e) in
  let v_self := mk_engine (e_buffer v_self) t18 (e_length v_self) in
  let! t19 := t_index (e_h v_self) 5 in
  let! t20 := t_store (e_h v_self) 5 (wrapping_add 64 t19 v_f) in
  let v_self := mk_engine (e_buffer v_self) t20 (e_length v_self) in
  let! t21 := t_index (e_h v_self) 6 in
  let! t22 := t_store (e_h v_self) 6 (wrapping_add 64 t21 v_g) in
  let v_self := mk_engine (e_buffer v_self) t22 (e_length v_self) in
  let! t23 := t_index (e_h v_self) 7 in
  let! t24 := t_store (e_h v_self) 7 (wrapping_add 64 t23 v_h) in
  let v_self := mk_engine (e_buffer v_self) t24 (e_length v_self) in
  tret v_self.

Definition t_sha512_Engine_process_block_small_part4 v_self v_w v_a v_b v_c v_d v_e v_f v_g v_h : tm (engine) :=
  let! (v_w, v_d, v_h) := (
    let! t9 := t_index v_w 0 in
    let! t10 := t_index v_w 14 in
    let! t11 := t_index v_w 9 in
    let! t12 := t_index v_w 1 in
    let '(t13, v_d, v_h) := g_sha512_small_hash_later_round v_a v_b v_c v_d v_e v_f v_g v_h 0xca273eceea26619c t9 t10 t11 t12 in
    let! t14 := t_store v_w 0 t13 in
    let v_w := t14 in
    tret (v_w, v_d, v_h)) in
  let! (v_w, v_c, v_g) := (
    let! t9 := t_index v_w 1 in
    let! t10 := t_index v_w 15 in
    let! t11 := t_index v_w 10 in
    let! t12 := t_index v_w 2 in
    let '(t13, v_c, v_g) := g_sha512_small_hash_later_round v_h v_a v_b v_c v_d v_e v_f v_g 0xd186b8c721c0c207 t9 t10 t11 t12 in
    let! t14 := t_store v_w 1 t13 in
    let v_w := t14 in
    tret (v_w, v_c, v_g)) in
  let! (v_w, v_b, v_f) := (
    let! t9 := t_index v_w 2 in
    let! t10 := t_index v_w 0 in
    let! t11 := t_index v_w 11 in
    let! t12 := t_index v_w 3 in
    let '(t13, v_b, v_f) := g_sha512_small_hash_later_round v_g v_h v_a v_b v_c v_d v_e v_f 0xeada7dd6cde0eb1e t9 t10 t11 t12 in
    let! t14 := t_store v_w 2 t13 in
    let v_w := t14 in
    tret (v_w, v_b, v_f)) in
  let! (v_w, v_a, v_e) := (
    let! t9 := t_index v_w 3 in
    let! t10 := t_index v_w 1 in
    let! t11 := t_index v_w 12 in
    let! t12 := t_index v_w 4 in
    let '(t13, v_a, v_e) := g_sha512_small_hash_later_round v_f v_g v_h v_a v_b v_c v_d v_e 0xf57d4f7fee6ed178 t9 t10 t11 t12 in
    let! t14 := t_store v_w 3 t13 in
    let v_w := t14 in
    tret (v_w, v_a, v_e)) in
  let! (v_w, v_d, v_h) := (
    let! t9 := t_index v_w 4 in
    let! t10 := t_index v_w 2 in
    let! t11 := t_index v_w 13 in
    let! t12 := t_index v_w 5 in
    let '(t13, v_h, v_d) := g_sha512_small_hash_later_round v_e v_f v_g v_h v_a v_b v_c v_d 0x6f067aa72176fba t9 t10 t11 t12 in
    let! t14 := t_store v_w 4 t13 in
    let v_w := t14 in
    tret (v_w, v_d, v_h)) in
  let! (v_w, v_c, v_g) := (
    let! t9 := t_index v_w 5 in
    let! t10 := t_index v_w 3 in
    let! t11 := t_index v_w 14 in
    let! t12 := t_index v_w 6 in
    let '(t13, v_g, v_c) := g_sha512_small_hash_later_round v_d v_e v_f v_g v_h v_a v_b v_c 0xa637dc5a2c898a6 t9 t10 t11 t12 in
    let! t14 := t_store v_w 5 t13 in
    let v_w := t14 in
    tret (v_w, v_c, v_g)) in
  let! (v_w, v_b, v_f) := (
    let! t9 := t_index v_w 6 in
    let! t10 := t_index v_w 4 in
    let! t11 := t_index v_w 15 in
    let! t12 := t_index v_w 7 in
    let '(t13, v_f, v_b) := g_sha512_small_hash_later_round v_c v_d v_e v_f v_g v_h v_a v_b 0x113f9804bef90dae t9 t10 t11 t12 in
    let! t14 := t_store v_w 6 t13 in
    let v_w := t14 in
    tret (v_w, v_b, v_f)) in
  let! (v_w, v_a, v_e) := (
    let! t9 := t_index v_w 7 in
    let! t10 := t_index v_w 5 in
    let! t11 := t_index v_w 0 in
    let! t12 := t_index v_w 8 in
    let '(t13, v_e, v_a) := g_sha512_small_hash_later_round v_b v_c v_d v_e v_f v_g v_h v_a 0x1b710b35131c471b t9 t10 t11 t12 in
    let! t14 := t_store v_w 7 t13 in
    let v_w := t14 in
    tret (v_w, v_a, v_e)) in
  let! (v_w, v_d, v_h) := (
    let! t9 := t_index v_w 8 in
    let! t10 := t_index v_w 6 in
    let! t11 := t_index v_w 1 in
    let! t12 := t_index v_w 9 in
    let '(t13, v_d, v_h) := g_sha512_small_hash_later_round v_a v_b v_c v_d v_e v_f v_g v_h 0x28db77f523047d84 t9 t10 t11 t12 in
    let! t14 := t_store v_w 8 t13 in
    let v_w := t14 in
    tret (v_w, v_d, v_h)) in
  let! (v_w, v_c, v_g) := (
    let! t9 := t_index v_w 9 in
    let! t10 := t_index v_w 7 in
    let! t11 := t_index v_w 2 in
    let! t12 := t_index v_w 10 in
    let '(t13, v_c, v_g) := g_sha512_small_hash_later_round v_h v_a v_b v_c v_d v_e v_f v_g 0x32caab7b40c72493 t9 t10 t11 t12 in
    let! t14 := t_store v_w 9 t13 in
    let v_w := t14 in
    tret (v_w, v_c, v_g)) in
  let! (v_w, v_b, v_f) := (
    let! t9 := t_index v_w 10 in
    let! t10 := t_index v_w 8 in
    let! t11 := t_index v_w 3 in
    let! t12 := t_index v_w 11 in
    let '(t13, v_b, v_f) := g_sha512_small_hash_later_round v_g v_h v_a v_b v_c v_d v_e v_f 0x3c9ebe0a15c9bebc t9 t10 t11 t12 in
    let! t14 := t_store v_w 10 t13 in
    let v_w := t14 in
    tret (v_w, v_b, v_f)) in
  let! (v_w, v_a, v_e) := (
    let! t9 := t_index v_w 11 in
    let! t10 := t_index v_w 9 in
    let! t11 := t_index v_w 4 in
    let! t12 := t_index v_w 12 in
    let '(t13, v_a, v_e) := g_sha512_small_hash_later_round v_f v_g v_h v_a v_b v_c v_d v_e 0x431d67c49c100d4c t9 t10 t11 t12 in
    let! t14 := t_store v_w 11 t13 in
    let v_w := t14 in
    tret (v_w, v_a, v_e)) in
  let! (v_w, v_d, v_h) := (
    let! t9 := t_index v_w 12 in
    let! t10 := t_index v_w 10 in
    let! t11 := t_index v_w 5 in
    let! t12 := t_index v_w 13 in
    let '(t13, v_h, v_d) := g_sha512_small_hash_later_round v_e v_f v_g v_h v_a v_b v_c v_d 0x4cc5d4becb3e42b6 t9 t10 t11 t12 in
    let! t14 := t_store v_w 12 t13 in
    let v_w := t14 in
    tret (v_w, v_d, v_h)) in
  let! (v_w, v_c, v_g) := (
    let! t9 := t_index v_w 13 in
    let! t10 := t_index v_w 11 in
    let! t11 := t_index v_w 6 in
    let! t12 := t_index v_w 14 in
    let '(t13, v_g, v_c) := g_sha512_small_hash_later_round v_d v_e v_f v_g v_h v_a v_b v_c 0x597f299cfc657e2a t9 t10 t11 t12 in
    let! t14 := t_store v_w 13 t13 in
    let v_w := t14 in
    tret (v_w, v_c, v_g)) in
  let! (v_w, v_b, v_f) := (
    let! t9 := t_index v_w 14 in
    let! t10 := t_index v_w 12 in
    let! t11 := t_index v_w 7 in
    let! t12 := t_index v_w 15 in
    let '(t13, v_f, v_b) := g_sha512_small_hash_later_round v_c v_d v_e v_f v_g v_h v_a v_b 0x5fcb6fab3ad6faec t9 t10 t11 t12 in
    let! t14 := t_store v_w 14 t13 in
    let v_w := t14 in
    tret (v_w, v_b, v_f)) in
  let! (v_w, v_a, v_e) := (
    let! t9 := t_index v_w 15 in
    let! t10 := t_index v_w 13 in
    let! t11 := t_index v_w 8 in
    let! t12 := t_index v_w 0 in
    let '(t13, v_e, v_a) := g_sha512_small_hash_later_round v_b v_c v_d v_e v_f v_g v_h v_a 0x6c44198c4a475817 t9 t10 t11 t12 in
    let! t14 := t_store v_w 15 t13 in
    let v_w := t14 in
    tret (v_w, v_a, v_e)) in
  t_sha512_Engine_process_block_small_part5 v_self v_a v_b v_c v_d v_e v_f v_g v_h.

Definition t_sha512_Engine_process_block_small_part3 v_self v_w v_a v_b v_c v_d v_e v_f v_g v_h : tm (engine) :=
  let! (v_w, v_d, v_h) := (
    let! t9 := t_index v_w 0 in
    let! t10 := t_index v_w 14 in
    let! t11 := t_index v_w 9 in
    let! t12 := t_index v_w 1 in
    let '(t13, v_d, v_h) := g_sha512_small_hash_later_round v_a v_b v_c v_d v_e v_f v_g v_h 0x19a4c116b8d2d0c8 t9 t10 t11 t12 in
    let! t14 := t_store v_w 0 t13 in
    let v_w := t14 in
    tret (v_w, v_d, v_h)) in
  let! (v_w, v_c, v_g) := (
    let! t9 := t_index v_w 1 in
    let! t10 := t_index v_w 15 in
    let! t11 := t_index v_w 10 in
    let! t12 := t_index v_w 2 in
    let '(t13, v_c, v_g) := g_sha512_small_hash_later_round v_h v_a v_b v_c v_d v_e v_f v_g 0x1e376c085141ab53 t9 t10 t11 t12 in
    let! t14 := t_store v_w 1 t13 in
    let v_w := t14 in
    tret (v_w, v_c, v_g)) in
  let! (v_w, v_b, v_f) := (
    let! t9 := t_index v_w 2 in
    let! t10 := t_index v_w 0 in
    let! t11 := t_index v_w 11 in
    let! t12 := t_index v_w 3 in
    let '(t13, v_b, v_f) := g_sha512_small_hash_later_round v_g v_h v_a v_b v_c v_d v_e v_f 0x2748774cdf8eeb99 t9 t10 t11 t12 in
    let! t14 := t_store v_w 2 t13 in
    let v_w := t14 in
    tret (v_w, v_b, v_f)) in
  let! (v_w, v_a, v_e) := (
    let! t9 := t_index v_w 3 in
    let! t10 := t_index v_w 1 in
    let! t11 := t_index v_w 12 in
    let! t12 := t_index v_w 4 in
    let '(t13, v_a, v_e) := g_sha512_small_hash_later_round v_f v_g v_h v_a v_b v_c v_d v_e 0x34b0bcb5e19b48a8 t9 t10 t11 t12 in
    let! t14 := t_store v_w 3 t13 in
    let v_w := t14 in
    tret (v_w, v_a, v_e)) in
  let! (v_w, v_d, v_h) := (
    let! t9 := t_index v_w 4 in
    let! t10 := t_index v_w 2 in
    let! t11 := t_index v_w 13 in
    let! t12 := t_index v_w 5 in
    let '(t13, v_h, v_d) := g_sha512_small_hash_later_round v_e v_f v_g v_h v_a v_b v_c v_d 0x391c0cb3c5c95a63 t9 t10 t11 t12 in
    let! t14 := t_store v_w 4 t13 in
    let v_w := t14 in
    tret (v_w, v_d, v_h)) in
  let! (v_w, v_c, v_g) := (
    let! t9 := t_index v_w 5 in
    let! t10 := t_index v_w 3 in
    let! t11 := t_index v_w 14 in
    let! t12 := t_index v_w 6 in
    let '(t13, v_g, v_c) := g_sha512_small_hash_later_round v_d v_e v_f v_g v_h v_a v_b v_c 0x4ed8aa4ae3418acb t9 t10 t11 t12 in
    let! t14 := t_store v_w 5 t13 in
    let v_w := t14 in
    tret (v_w, v_c, v_g)) in
  let! (v_w, v_b, v_f) := (
    let! t9 := t_index v_w 6 in
    let! t10 := t_index v_w 4 in
    let! t11 := t_index v_w 15 in
    let! t12 := t_index v_w 7 in
    let '(t13, v_f, v_b) := g_sha512_small_hash_later_round v_c v_d v_e v_f v_g v_h v_a v_b 0x5b9cca4f7763e373 t9 t10 t11 t12 in
    let! t14 := t_store v_w 6 t13 in
    let v_w := t14 in
    tret (v_w, v_b, v_f)) in
  let! (v_w, v_a, v_e) := (
    let! t9 := t_index v_w 7 in
    let! t10 := t_index v_w 5 in
    let! t11 := t_index v_w 0 in
    let! t12 := t_index v_w 8 in
    let '(t13, v_e, v_a) := g_sha512_small_hash_later_round v_b v_c v_d v_e v_f v_g v_h v_a 0x682e6ff3d6b2b8a3 t9 t10 t11 t12 in
    let! t14 := t_store v_w 7 t13 in
    let v_w := t14 in
    tret (v_w, v_a, v_e)) in
  let! (v_w, v_d, v_h) := (
    let! t9 := t_index v_w 8 in
    let! t10 := t_index v_w 6 in
    let! t11 := t_index v_w 1 in
    let! t12 := t_index v_w 9 in
    let '(t13, v_d, v_h) := g_sha512_small_hash_later_round v_a v_b v_c v_d v_e v_f v_g v_h 0x748f82ee5defb2fc t9 t10 t11 t12 in
    let! t14 := t_store v_w 8 t13 in
    let v_w := t14 in
    tret (v_w, v_d, v_h)) in
  let! (v_w, v_c, v_g) := (
    let! t9 := t_index v_w 9 in
    let! t10 := t_index v_w 7 in
    let! t11 := t_index v_w 2 in
    let! t12 := t_index v_w 10 in
    let '(t13, v_c, v_g) := g_sha512_small_hash_later_round v_h v_a v_b v_c v_d v_e v_f v_g 0x78a5636f43172f60 t9 t10 t11 t12 in
    let! t14 := t_store v_w 9 t13 in
    let v_w := t14 in
    tret (v_w, v_c, v_g)) in
  let! (v_w, v_b, v_f) := (
    let! t9 := t_index v_w 10 in
    let! t10 := t_index v_w 8 in
    let! t11 := t_index v_w 3 in
    let! t12 := t_index v_w 11 in
    let '(t13, v_b, v_f) := g_sha512_small_hash_later_round v_g v_h v_a v_b v_c v_d v_e v_f 0x84c87814a1f0ab72 t9 t10 t11 t12 in
    let! t14 := t_store v_w 10 t13 in
    let v_w := t14 in
    tret (v_w, v_b, v_f)) in
  let! (v_w, v_a, v_e) := (
    let! t9 := t_index v_w 11 in
    let! t10 := t_index v_w 9 in
    let! t11 := t_index v_w 4 in
    let! t12 := t_index v_w 12 in
    let '(t13, v_a, v_e) := g_sha512_small_hash_later_round v_f v_g v_h v_a v_b v_c v_d v_e 0x8cc702081a6439ec t9 t10 t11 t12 in
    let! t14 := t_store v_w 11 t13 in
    let v_w := t14 in
    tret (v_w, v_a, v_e)) in
  let! (v_w, v_d, v_h) := (
    let! t9 := t_index v_w 12 in
    let! t10 := t_index v_w 10 in
    let! t11 := t_index v_w 5 in
    let! t12 := t_index v_w 13 in
    let '(t13, v_h, v_d) := g_sha512_small_hash_later_round v_e v_f v_g v_h v_a v_b v_c v_d 0x90befffa23631e28 t9 t10 t11 t12 in
    let! t14 := t_store v_w 12 t13 in
    let v_w := t14 in
    tret (v_w, v_d, v_h)) in
  let! (v_w, v_c, v_g) := (
    let! t9 := t_index v_w 13 in
    let! t10 := t_index v_w 11 in
    let! t11 := t_index v_w 6 in
    let! t12 := t_index v_w 14 in
    let '(t13, v_g, v_c) := g_sha512_small_hash_later_round v_d v_e v_f v_g v_h v_a v_b v_c 0xa4506cebde82bde9 t9 t10 t11 t12 in
    let! t14 := t_store v_w 13 t13 in
    let v_w := t14 in
    tret (v_w, v_c, v_g)) in
  let! (v_w, v_b, v_f) := (
    let! t9 := t_index v_w 14 in
    let! t10 := t_index v_w 12 in
    let! t11 := t_index v_w 7 in
    let! t12 := t_index v_w 15 in
    let '(t13, v_f, v_b) := g_sha512_small_hash_later_round v_c v_d v_e v_f v_g v_h v_a v_b 0xbef9a3f7b2c67915 t9 t10 t11 t12 in
    let! t14 := t_store v_w 14 t13 in
    let v_w := t14 in
    tret (v_w, v_b, v_f)) in
  let! (v_w, v_a, v_e) := (
    let! t9 := t_index v_w 15 in
    let! t10 := t_index v_w 13 in
    let! t11 := t_index v_w 8 in
    let! t12 := t_index v_w 0 in
    let '(t13, v_e, v_a) := g_sha512_small_hash_later_round v_b v_c v_d v_e v_f v_g v_h v_a 0xc67178f2e372532b t9 t10 t11 t12 in
    let! t14 := t_store v_w 15 t13 in
    let v_w := t14 in
    tret (v_w, v_a, v_e)) in
  t_sha512_Engine_process_block_small_part4 v_self v_w v_a v_b v_c v_d v_e v_f v_g v_h.

Definition t_sha512_Engine_process_block_small_part2 v_self v_w v_a v_b v_c v_d v_e v_f v_g v_h : tm (engine) :=
  let! (v_w, v_d, v_h) := (
    let! t9 := t_index v_w 0 in
    let! t10 := t_index v_w 14 in
    let! t11 := t_index v_w 9 in
    let! t12 := t_index v_w 1 in
    let '(t13, v_d, v_h) := g_sha512_small_hash_later_round v_a v_b v_c v_d v_e v_f v_g v_h 0x27b70a8546d22ffc t9 t10 t11 t12 in
    let! t14 := t_store v_w 0 t13 in
    let v_w := t14 in
    tret (v_w, v_d, v_h)) in
  let! (v_w, v_c, v_g) := (
    let! t9 := t_index v_w 1 in
    let! t10 := t_index v_w 15 in
    let! t11 := t_index v_w 10 in
    let! t12 := t_index v_w 2 in
    let '(t13, v_c, v_g) := g_sha512_small_hash_later_round v_h v_a v_b v_c v_d v_e v_f v_g 0x2e1b21385c26c926 t9 t10 t11 t12 in
    let! t14 := t_store v_w 1 t13 in
    let v_w := t14 in
    tret (v_w, v_c, v_g)) in
  let! (v_w, v_b, v_f) := (
    let! t9 := t_index v_w 2 in
    let! t10 := t_index v_w 0 in
    let! t11 := t_index v_w 11 in
    let! t12 := t_index v_w 3 in
    let '(t13, v_b, v_f) := g_sha512_small_hash_later_round v_g v_h v_a v_b v_c v_d v_e v_f 0x4d2c6dfc5ac42aed t9 t10 t11 t12 in
    let! t14 := t_store v_w 2 t13 in
    let v_w := t14 in
    tret (v_w, v_b, v_f)) in
  let! (v_w, v_a, v_e) := (
    let! t9 := t_index v_w 3 in
    let! t10 := t_index v_w 1 in
    let! t11 := t_index v_w 12 in
    let! t12 := t_index v_w 4 in
    let '(t13, v_a, v_e) := g_sha512_small_hash_later_round v_f v_g v_h v_a v_b v_c v_d v_e 0x53380d139d95b3df t9 t10 t11 t12 in
    let! t14 := t_store v_w 3 t13 in
    let v_w := t14 in
    tret (v_w, v_a, v_e)) in
  let! (v_w, v_d, v_h) := (
    let! t9 := t_index v_w 4 in
    let! t10 := t_index v_w 2 in
    let! t11 := t_index v_w 13 in
    let! t12 := t_index v_w 5 in
    let '(t13, v_h, v_d) := g_sha512_small_hash_later_round v_e v_f v_g v_h v_a v_b v_c v_d 0x650a73548baf63de t9 t10 t11 t12 in
    let! t14 := t_store v_w 4 t13 in
    let v_w := t14 in
    tret (v_w, v_d, v_h)) in
  let! (v_w, v_c, v_g) := (
    let! t9 := t_index v_w 5 in
    let! t10 := t_index v_w 3 in
    let! t11 := t_index v_w 14 in
    let! t12 := t_index v_w 6 in
    let '(t13, v_g, v_c) := g_sha512_small_hash_later_round v_d v_e v_f v_g v_h v_a v_b v_c 0x766a0abb3c77b2a8 t9 t10 t11 t12 in
    let! t14 := t_store v_w 5 t13 in
    let v_w := t14 in
    tret (v_w, v_c, v_g)) in
  let! (v_w, v_b, v_f) := (
    let! t9 := t_index v_w 6 in
    let! t10 := t_index v_w 4 in
    let! t11 := t_index v_w 15 in
    let! t12 := t_index v_w 7 in
    let '(t13, v_f, v_b) := g_sha512_small_hash_later_round v_c v_d v_e v_f v_g v_h v_a v_b 0x81c2c92e47edaee6 t9 t10 t11 t12 in
    let! t14 := t_store v_w 6 t13 in
    let v_w := t14 in
    tret (v_w, v_b, v_f)) in
  let! (v_w, v_a, v_e) := (
    let! t9 := t_index v_w 7 in
    let! t10 := t_index v_w 5 in
    let! t11 := t_index v_w 0 in
    let! t12 := t_index v_w 8 in
    let '(t13, v_e, v_a) := g_sha512_small_hash_later_round v_b v_c v_d v_e v_f v_g v_h v_a 0x92722c851482353b t9 t10 t11 t12 in
    let! t14 := t_store v_w 7 t13 in
    let v_w := t14 in
    tret (v_w, v_a, v_e)) in
  let! (v_w, v_d, v_h) := (
    let! t9 := t_index v_w 8 in
    let! t10 := t_index v_w 6 in
    let! t11 := t_index v_w 1 in
    let! t12 := t_index v_w 9 in
    let '(t13, v_d, v_h) := g_sha512_small_hash_later_round v_a v_b v_c v_d v_e v_f v_g v_h 0xa2bfe8a14cf10364 t9 t10 t11 t12 in
    let! t14 := t_store v_w 8 t13 in
    let v_w := t14 in
    tret (v_w, v_d, v_h)) in
  let! (v_w, v_c, v_g) := (
    let! t9 := t_index v_w 9 in
    let! t10 := t_index v_w 7 in
    let! t11 := t_index v_w 2 in
    let! t12 := t_index v_w 10 in
    let '(t13, v_c, v_g) := g_sha512_small_hash_later_round v_h v_a v_b v_c v_d v_e v_f v_g 0xa81a664bbc423001 t9 t10 t11 t12 in
    let! t14 := t_store v_w 9 t13 in
    let v_w := t14 in
    tret (v_w, v_c, v_g)) in
  let! (v_w, v_b, v_f) := (
    let! t9 := t_index v_w 10 in
    let! t10 := t_index v_w 8 in
    let! t11 := t_index v_w 3 in
    let! t12 := t_index v_w 11 in
    let '(t13, v_b, v_f) := g_sha512_small_hash_later_round v_g v_h v_a v_b v_c v_d v_e v_f 0xc24b8b70d0f89791 t9 t10 t11 t12 in
    let! t14 := t_store v_w 10 t13 in
    let v_w := t14 in
    tret (v_w, v_b, v_f)) in
  let! (v_w, v_a, v_e) := (
    let! t9 := t_index v_w 11 in
    let! t10 := t_index v_w 9 in
    let! t11 := t_index v_w 4 in
    let! t12 := t_index v_w 12 in
    let '(t13, v_a, v_e) := g_sha512_small_hash_later_round v_f v_g v_h v_a v_b v_c v_d v_e 0xc76c51a30654be30 t9 t10 t11 t12 in
    let! t14 := t_store v_w 11 t13 in
    let v_w := t14 in
    tret (v_w, v_a, v_e)) in
  let! (v_w, v_d, v_h) := (
    let! t9 := t_index v_w 12 in
    let! t10 := t_index v_w 10 in
    let! t11 := t_index v_w 5 in
    let! t12 := t_index v_w 13 in
    let '(t13, v_h, v_d) := g_sha512_small_hash_later_round v_e v_f v_g v_h v_a v_b v_c v_d 0xd192e819d6ef5218 t9 t10 t11 t12 in
    let! t14 := t_store v_w 12 t13 in
    let v_w := t14 in
    tret (v_w, v_d, v_h)) in
  let! (v_w, v_c, v_g) := (
    let! t9 := t_index v_w 13 in
    let! t10 := t_index v_w 11 in
    let! t11 := t_index v_w 6 in
    let! t12 := t_index v_w 14 in
    let '(t13, v_g, v_c) := g_sha512_small_hash_later_round v_d v_e v_f v_g v_h v_a v_b v_c 0xd69906245565a910 t9 t10 t11 t12 in
    let! t14 := t_store v_w 13 t13 in
    let v_w := t14 in
    tret (v_w, v_c, v_g)) in
  let! (v_w, v_b, v_f) := (
    let! t9 := t_index v_w 14 in
    let! t10 := t_index v_w 12 in
    let! t11 := t_index v_w 7 in
    let! t12 := t_index v_w 15 in
    let '(t13, v_f, v_b) := g_sha512_small_hash_later_round v_c v_d v_e v_f v_g v_h v_a v_b 0xf40e35855771202a t9 t10 t11 t12 in
    let! t14 := t_store v_w 14 t13 in
    let v_w := t14 in
    tret (v_w, v_b, v_f)) in
  let! (v_w, v_a, v_e) := (
    let! t9 := t_index v_w 15 in
    let! t10 := t_index v_w 13 in
    let! t11 := t_index v_w 8 in
    let! t12 := t_index v_w 0 in
    let '(t13, v_e, v_a) := g_sha512_small_hash_later_round v_b v_c v_d v_e v_f v_g v_h v_a 0x106aa07032bbd1b8 t9 t10 t11 t12 in
    let! t14 := t_store v_w 15 t13 in
    let v_w := t14 in
    tret (v_w, v_a, v_e)) in
  t_sha512_Engine_process_block_small_part3 v_self v_w v_a v_b v_c v_d v_e v_f v_g v_h.

Definition t_sha512_Engine_process_block_small_part1 v_self v_w v_a v_b v_c v_d v_e v_f v_g v_h : tm (engine) :=
  let! (v_w, v_d, v_h) := (
    let! t9 := t_index v_w 0 in
    let! t10 := t_index v_w 14 in
    let! t11 := t_index v_w 9 in
    let! t12 := t_index v_w 1 in
    let '(t13, v_d, v_h) := g_sha512_small_hash_later_round v_a v_b v_c v_d v_e v_f v_g v_h 0xe49b69c19ef14ad2 t9 t10 t11 t12 in
    let! t14 := t_store v_w 0 t13 in
    let v_w := t14 in
    tret (v_w, v_d, v_h)) in
  let! (v_w, v_c, v_g) := (
    let! t9 := t_index v_w 1 in
    let! t10 := t_index v_w 15 in
    let! t11 := t_index v_w 10 in
    let! t12 := t_index v_w 2 in
    let '(t13, v_c, v_g) := g_sha512_small_hash_later_round v_h v_a v_b v_c v_d v_e v_f v_g 0xefbe4786384f25e3 t9 t10 t11 t12 in
    let! t14 := t_store v_w 1 t13 in
    let v_w := t14 in
    tret (v_w, v_c, v_g)) in
  let! (v_w, v_b, v_f) := (
    let! t9 := t_index v_w 2 in
    let! t10 := t_index v_w 0 in
    let! t11 := t_index v_w 11 in
    let! t12 := t_index v_w 3 in
    let '(t13, v_b, v_f) := g_sha512_small_hash_later_round v_g v_h v_a v_b v_c v_d v_e v_f 0xfc19dc68b8cd5b5 t9 t10 t11 t12 in
    let! t14 := t_store v_w 2 t13 in
    let v_w := t14 in
    tret (v_w, v_b, v_f)) in
  let! (v_w, v_a, v_e) := (
    let! t9 := t_index v_w 3 in
    let! t10 := t_index v_w 1 in
    let! t11 := t_index v_w 12 in
    let! t12 := t_index v_w 4 in
    let '(t13, v_a, v_e) := g_sha512_small_hash_later_round v_f v_g v_h v_a v_b v_c v_d v_e 0x240ca1cc77ac9c65 t9 t10 t11 t12 in
    let! t14 := t_store v_w 3 t13 in
    let v_w := t14 in
    tret (v_w, v_a, v_e)) in
  let! (v_w, v_d, v_h) := (
    let! t9 := t_index v_w 4 in
    let! t10 := t_index v_w 2 in
    let! t11 := t_index v_w 13 in
    let! t12 := t_index v_w 5 in
    let '(t13, v_h, v_d) := g_sha512_small_hash_later_round v_e v_f v_g v_h v_a v_b v_c v_d 0x2de92c6f592b0275 t9 t10 t11 t12 in
    let! t14 := t_store v_w 4 t13 in
    let v_w := t14 in
    tret (v_w, v_d, v_h)) in
  let! (v_w, v_c, v_g) := (
    let! t9 := t_index v_w 5 in
    let! t10 := t_index v_w 3 in
    let! t11 := t_index v_w 14 in
    let! t12 := t_index v_w 6 in
    let '(t13, v_g, v_c) := g_sha512_small_hash_later_round v_d v_e v_f v_g v_h v_a v_b v_c 0x4a7484aa6ea6e483 t9 t10 t11 t12 in
    let! t14 := t_store v_w 5 t13 in
    let v_w := t14 in
    tret (v_w, v_c, v_g)) in
  let! (v_w, v_b, v_f) := (
    let! t9 := t_index v_w 6 in
    let! t10 := t_index v_w 4 in
    let! t11 := t_index v_w 15 in
    let! t12 := t_index v_w 7 in
    let '(t13, v_f, v_b) := g_sha512_small_hash_later_round v_c v_d v_e v_f v_g v_h v_a v_b 0x5cb0a9dcbd41fbd4 t9 t10 t11 t12 in
    let! t14 := t_store v_w 6 t13 in
    let v_w := t14 in
    tret (v_w, v_b, v_f)) in
  let! (v_w, v_a, v_e) := (
    let! t9 := t_index v_w 7 in
    let! t10 := t_index v_w 5 in
    let! t11 := t_index v_w 0 in
    let! t12 := t_index v_w 8 in
    let '(t13, v_e, v_a) := g_sha512_small_hash_later_round v_b v_c v_d v_e v_f v_g v_h v_a 0x76f988da831153b5 t9 t10 t11 t12 in
    let! t14 := t_store v_w 7 t13 in
    let v_w := t14 in
    tret (v_w, v_a, v_e)) in
  let! (v_w, v_d, v_h) := (
    let! t9 := t_index v_w 8 in
    let! t10 := t_index v_w 6 in
    let! t11 := t_index v_w 1 in
    let! t12 := t_index v_w 9 in
    let '(t13, v_d, v_h) := g_sha512_small_hash_later_round v_a v_b v_c v_d v_e v_f v_g v_h 0x983e5152ee66dfab t9 t10 t11 t12 in
    let! t14 := t_store v_w 8 t13 in
    let v_w := t14 in
    tret (v_w, v_d, v_h)) in
  let! (v_w, v_c, v_g) := (
    let! t9 := t_index v_w 9 in
    let! t10 := t_index v_w 7 in
    let! t11 := t_index v_w 2 in
    let! t12 := t_index v_w 10 in
    let '(t13, v_c, v_g) := g_sha512_small_hash_later_round v_h v_a v_b v_c v_d v_e v_f v_g 0xa831c66d2db43210 t9 t10 t11 t12 in
    let! t14 := t_store v_w 9 t13 in
    let v_w := t14 in
    tret (v_w, v_c, v_g)) in
  let! (v_w, v_b, v_f) := (
    let! t9 := t_index v_w 10 in
    let! t10 := t_index v_w 8 in
    let! t11 := t_index v_w 3 in
    let! t12 := t_index v_w 11 in
    let '(t13, v_b, v_f) := g_sha512_small_hash_later_round v_g v_h v_a v_b v_c v_d v_e v_f 0xb00327c898fb213f t9 t10 t11 t12 in
    let! t14 := t_store v_w 10 t13 in
    let v_w := t14 in
    tret (v_w, v_b, v_f)) in
  let! (v_w, v_a, v_e) := (
    let! t9 := t_index v_w 11 in
    let! t10 := t_index v_w 9 in
    let! t11 := t_index v_w 4 in
    let! t12 := t_index v_w 12 in
    let '(t13, v_a, v_e) := g_sha512_small_hash_later_round v_f v_g v_h v_a v_b v_c v_d v_e 0xbf597fc7beef0ee4 t9 t10 t11 t12 in
    let! t14 := t_store v_w 11 t13 in
    let v_w := t14 in
    tret (v_w, v_a, v_e)) in
  let! (v_w, v_d, v_h) := (
    let! t9 := t_index v_w 12 in
    let! t10 := t_index v_w 10 in
    let! t11 := t_index v_w 5 in
    let! t12 := t_index v_w 13 in
    let '(t13, v_h, v_d) := g_sha512_small_hash_later_round v_e v_f v_g v_h v_a v_b v_c v_d 0xc6e00bf33da88fc2 t9 t10 t11 t12 in
    let! t14 := t_store v_w 12 t13 in
    let v_w := t14 in
    tret (v_w, v_d, v_h)) in
  let! (v_w, v_c, v_g) := (
    let! t9 := t_index v_w 13 in
    let! t10 := t_index v_w 11 in
    let! t11 := t_index v_w 6 in
    let! t12 := t_index v_w 14 in
    let '(t13, v_g, v_c) := g_sha512_small_hash_later_round v_d v_e v_f v_g v_h v_a v_b v_c 0xd5a79147930aa725 t9 t10 t11 t12 in
    let! t14 := t_store v_w 13 t13 in
    let v_w := t14 in
    tret (v_w, v_c, v_g)) in
  let! (v_w, v_b, v_f) := (
    let! t9 := t_index v_w 14 in
    let! t10 := t_index v_w 12 in
    let! t11 := t_index v_w 7 in
    let! t12 := t_index v_w 15 in
    let '(t13, v_f, v_b) := g_sha512_small_hash_later_round v_c v_d v_e v_f v_g v_h v_a v_b 0x6ca6351e003826f t9 t10 t11 t12 in
    let! t14 := t_store v_w 14 t13 in
    let v_w := t14 in
    tret (v_w, v_b, v_f)) in
  let! (v_w, v_a, v_e) := (
    let! t9 := t_index v_w 15 in
    let! t10 := t_index v_w 13 in
    let! t11 := t_index v_w 8 in
    let! t12 := t_index v_w 0 in
    let '(t13, v_e, v_a) := g_sha512_small_hash_later_round v_b v_c v_d v_e v_f v_g v_h v_a 0x142929670a0e6e70 t9 t10 t11 t12 in
    let! t14 := t_store v_w 15 t13 in
    let v_w := t14 in
    tret (v_w, v_a, v_e)) in
  t_sha512_Engine_process_block_small_part2 v_self v_w v_a v_b v_c v_d v_e v_f v_g v_h.

Definition t_sha512_Engine_process_block_small (cfg : config) (v_self : engine) : tm (engine) :=
  let! _ := t_debug_assert cfg ((len (e_buffer v_self)) =? 128) in
  let v_w := array 0 16 in
  let! v_w := t_zip_iter_mut v_w (chunks_exact 8 (e_buffer v_self)) (fun v_w_val v_buff_bytes =>
      let! t1 := tlift (from_be_bytes 8 v_buff_bytes) in
      let v_w_val := t1 in
      tret v_w_val) in
  let! v_a := t_index (e_h v_self) 0 in
  let! v_b := t_index (e_h v_self) 1 in
  let! v_c := t_index (e_h v_self) 2 in
  let! v_d := t_index (e_h v_self) 3 in
  let! v_e := t_index (e_h v_self) 4 in
  let! v_f := t_index (e_h v_self) 5 in
  let! v_g := t_index (e_h v_self) 6 in
  let! v_h := t_index (e_h v_self) 7 in
  let! (v_d, v_h) := (
    let! t9 := t_index v_w 0 in
    let '(v_d, v_h) := g_sha512_small_hash_round v_a v_b v_c v_d v_e v_f v_g v_h 0x428a2f98d728ae22 t9 in
    tret (v_d, v_h)) in
  let! (v_c, v_g) := (
    let! t9 := t_index v_w 1 in
    let '(v_c, v_g) := g_sha512_small_hash_round v_h v_a v_b v_c v_d v_e v_f v_g 0x7137449123ef65cd t9 in
    tret (v_c, v_g)) in
  let! (v_b, v_f) := (
    let! t9 := t_index v_w 2 in
    let '(v_b, v_f) := g_sha512_small_hash_round v_g v_h v_a v_b v_c v_d v_e v_f 0xb5c0fbcfec4d3b2f t9 in
    tret (v_b, v_f)) in
  let! (v_a, v_e) := (
    let! t9 := t_index v_w 3 in
    let '(v_a, v_e) := g_sha512_small_hash_round v_f v_g v_h v_a v_b v_c v_d v_e 0xe9b5dba58189dbbc t9 in
    tret (v_a, v_e)) in
  let! (v_d, v_h) := (
    let! t9 := t_index v_w 4 in
    let '(v_h, v_d) := g_sha512_small_hash_round v_e v_f v_g v_h v_a v_b v_c v_d 0x3956c25bf348b538 t9 in
    tret (v_d, v_h)) in
  let! (v_c, v_g) := (
    let! t9 := t_index v_w 5 in
    let '(v_g, v_c) := g_sha512_small_hash_round v_d v_e v_f v_g v_h v_a v_b v_c 0x59f111f1b605d019 t9 in
    tret (v_c, v_g)) in
  let! (v_b, v_f) := (
    let! t9 := t_index v_w 6 in
    let '(v_f, v_b) := g_sha512_small_hash_round v_c v_d v_e v_f v_g v_h v_a v_b 0x923f82a4af194f9b t9 in
    tret (v_b, v_f)) in
  let! (v_a, v_e) := (
    let! t9 := t_index v_w 7 in
    let '(v_e, v_a) := g_sha512_small_hash_round v_b v_c v_d v_e v_f v_g v_h v_a 0xab1c5ed5da6d8118 t9 in
    tret (v_a, v_e)) in
  let! (v_d, v_h) := (
    let! t9 := t_index v_w 8 in
    let '(v_d, v_h) := g_sha512_small_hash_round v_a v_b v_c v_d v_e v_f v_g v_h 0xd807aa98a3030242 t9 in
    tret (v_d, v_h)) in
  let! (v_c, v_g) := (
    let! t9 := t_index v_w 9 in
    let '(v_c, v_g) := g_sha512_small_hash_round v_h v_a v_b v_c v_d v_e v_f v_g 0x12835b0145706fbe t9 in
    tret (v_c, v_g)) in
  let! (v_b, v_f) := (
    let! t9 := t_index v_w 10 in
    let '(v_b, v_f) := g_sha512_small_hash_round v_g v_h v_a v_b v_c v_d v_e v_f 0x243185be4ee4b28c t9 in
    tret (v_b, v_f)) in
  let! (v_a, v_e) := (
    let! t9 := t_index v_w 11 in
    let '(v_a, v_e) := g_sha512_small_hash_round v_f v_g v_h v_a v_b v_c v_d v_e 0x550c7dc3d5ffb4e2 t9 in
    tret (v_a, v_e)) in
  let! (v_d, v_h) := (
    let! t9 := t_index v_w 12 in
    let '(v_h, v_d) := g_sha512_small_hash_round v_e v_f v_g v_h v_a v_b v_c v_d 0x72be5d74f27b896f t9 in
    tret (v_d, v_h)) in
  let! (v_c, v_g) := (
    let! t9 := t_index v_w 13 in
    let '(v_g, v_c) := g_sha512_small_hash_round v_d v_e v_f v_g v_h v_a v_b v_c 0x80deb1fe3b1696b1 t9 in
    tret (v_c, v_g)) in
  let! (v_b, v_f) := (
    let! t9 := t_index v_w 14 in
    let '(v_f, v_b) := g_sha512_small_hash_round v_c v_d v_e v_f v_g v_h v_a v_b 0x9bdc06a725c71235 t9 in
    tret (v_b, v_f)) in
  let! (v_a, v_e) := (
    let! t9 := t_index v_w 15 in
    let '(v_e, v_a) := g_sha512_small_hash_round v_b v_c v_d v_e v_f v_g v_h v_a 0xc19bf174cf692694 t9 in
    tret (v_a, v_e)) in
  t_sha512_Engine_process_block_small_part1 v_self v_w v_a v_b v_c v_d v_e v_f v_g v_h.

(** process_block, src/sha512.rs:204-314 *)
Definition t_sha512_Engine_process_block (cfg : config) (v_self : engine) : tm (engine) :=
  if small_hash cfg then t_sha512_Engine_process_block_small cfg v_self else t_sha512_Engine_process_block_fast cfg v_self.

(** input, src/internal_macros.rs:22-36 *)
Fixpoint t_sha512_Engine_input_loop1 (fuel : nat) (cfg : config) (v_self : engine) (v_inp : (list byte)) {struct fuel} : tm (engine * (list byte)) :=
  t_if (negb (len v_inp =? 0)) (
    match fuel with
    | O => tlift (Panic POutOfFuel)
    | S fuel =>
      let v_buf_idx := (e_length v_self) mod 128 in
      let! v_rem_len := tlift (usize_sub cfg 128 v_buf_idx) in
      let! v_write_len := t_min v_rem_len (len v_inp) in
      let! t3 := tlift (usize_add cfg v_buf_idx v_write_len) in
      let! t4 := t_slice_range v_buf_idx t3 (e_buffer v_self) in
      let! t5 := t_slice_to v_write_len v_inp in
      let! t6 := t_copy_from_slice t4 t5 in
      let v_self := mk_engine (splice v_buf_idx t3 (e_buffer v_self) t6) (e_h v_self) (e_length v_self) in
      let! t7 := tlift (usize_add cfg (e_length v_self) v_write_len) in
      let v_self := mk_engine (e_buffer v_self) (e_h v_self) t7 in
      let! v_self := (
        t_if (((e_length v_self) mod 128) =? 0) (
          t_sha512_Engine_process_block cfg v_self
        ) (
          tret v_self
        )) in
      let! t8 := t_slice_from v_write_len v_inp in
      let v_inp := t8 in
      t_sha512_Engine_input_loop1 fuel cfg v_self v_inp
    end
  ) (
    tret (v_self, v_inp)
  ).

Definition t_sha512_Engine_input (cfg : config) (v_self : engine) (v_inp : (list byte)) : tm (engine) :=
  let! (v_self, v_inp) := t_sha512_Engine_input_loop1 (length v_inp) cfg v_self v_inp in
  tret v_self.

(** midstate, src/sha512.rs:107-113 *)
Definition t_sha512_Engine_midstate (v_self : engine) : tm ((list byte)) :=
  let v_ret := array x00 64 in
  t_zip_chunks_mut (e_h v_self) 8 v_ret (fun v_val v_ret_bytes =>
      t_copy_from_slice v_ret_bytes (to_be_bytes 8 v_val)).

(** finalize, src/sha512.rs:78-96 *)
Definition t_sha512_Engine_finalize (cfg : config) (v_self : engine) : tm ((list byte)) :=
  let v_data_len := e_length v_self in
  let v_zeroes := array x00 112 in
  let! v_self := t_sha512_Engine_input cfg v_self [x80] in
  let! v_self := (
    t_if ((len v_zeroes) <? ((e_length v_self) mod 128)) (
      t_sha512_Engine_input cfg v_self v_zeroes
    ) (
      tret v_self
    )) in
  let! v_pad_length := tlift (usize_sub cfg (len v_zeroes) ((e_length v_self) mod 128)) in
  let! t2 := t_slice_to v_pad_length v_zeroes in
  let! v_self := t_sha512_Engine_input cfg v_self t2 in
  let! _ := t_debug_assert cfg (((e_length v_self) mod 128) =? (len v_zeroes)) in
  let! v_self := t_sha512_Engine_input cfg v_self (array x00 8) in
  let! t3 := t_checked_mul cfg 64 8 v_data_len in
  let! v_self := t_sha512_Engine_input cfg v_self (to_be_bytes 8 t3) in
  let! _ := t_debug_assert cfg (((e_length v_self) mod 128) =? 0) in
  t_sha512_Engine_midstate v_self.

(** from_midstate, src/sha512.rs:123-132 *)
Definition t_sha512_Engine_from_midstate (v_midstate : (list byte)) (v_length : N) : tm (engine) :=
  let! _ := t_assert ((v_length mod 128) =? 0) in
  let v_ret := array 0 8 in
  let! v_ret := t_zip_iter_mut v_ret (chunks_exact 4 v_midstate) (fun v_ret_val v_midstate_bytes =>
      let! t1 := tlift (from_be_bytes 8 v_midstate_bytes) in
      let v_ret_val := t1 in
      tret v_ret_val) in
  tret (mk_engine (array x00 128) v_ret v_length).

(** impl HashEngine for Engine, src/sha512.rs *)
Definition t_sha512_Engine_dict (cfg : config) : tengine (g_sha512_Engine_dict cfg) :=
  mk_tengine (g_sha512_Engine_dict cfg)
    (tret g_sha512_Engine_default)
    (t_sha512_Engine_input cfg)
    (t_sha512_Engine_finalize cfg)
    (t_sha512_Engine_midstate)
    (t_sha512_Engine_from_midstate).
