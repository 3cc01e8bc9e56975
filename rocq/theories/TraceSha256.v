(** Generated by tools/rs2v.py from the Rust source; do not edit. *)
From Verif Require Import Base ModelEngine ModelSimd GenSha256 TraceLib GenBase TraceBase.

(** process_block_simd_x86_intrinsics, src/sha256.rs:463-718 *)
Definition t_sha256_Engine_process_block_simd_x86_intrinsics_part3 v_self v_state1 v_state0 v_abef_save v_cdgh_save v_msg0 v_msg1 v_msg2 v_msg3 : tm (engine) :=
  let! v_msg3 := tret (sha256msg1 v_msg3 v_msg0) in
  let! v_msg := tret (add_epi32 v_msg1 (set_epi64x 0x682e6ff35b9cca4f 0x4ed8aa4a391c0cb3)) in
  let! v_state1 := tret (sha256rnds2 v_state1 v_state0 v_msg) in
  let! v_tmp := tret (alignr_epi8 v_msg1 v_msg0 4) in
  let! v_msg2 := tret (add_epi32 v_msg2 v_tmp) in
  let! v_msg2 := tret (sha256msg2 v_msg2 v_msg1) in
  let! v_msg := tret (shuffle_epi32 v_msg 14) in
  let! v_state0 := tret (sha256rnds2 v_state0 v_state1 v_msg) in
  let! v_msg := tret (add_epi32 v_msg2 (set_epi64x 0x8cc7020884c87814 0x78a5636f748f82ee)) in
  let! v_state1 := tret (sha256rnds2 v_state1 v_state0 v_msg) in
  let! v_tmp := tret (alignr_epi8 v_msg2 v_msg1 4) in
  let! v_msg3 := tret (add_epi32 v_msg3 v_tmp) in
  let! v_msg3 := tret (sha256msg2 v_msg3 v_msg2) in
  let! v_msg := tret (shuffle_epi32 v_msg 14) in
  let! v_state0 := tret (sha256rnds2 v_state0 v_state1 v_msg) in
  let! v_msg := tret (add_epi32 v_msg3 (set_epi64x 0xc67178f2bef9a3f7 0xa4506ceb90befffa)) in
  let! v_state1 := tret (sha256rnds2 v_state1 v_state0 v_msg) in
  let! v_msg := tret (shuffle_epi32 v_msg 14) in
  let! v_state0 := tret (sha256rnds2 v_state0 v_state1 v_msg) in
  let! v_state0 := tret (add_epi32 v_state0 v_abef_save) in
  let! v_state1 := tret (add_epi32 v_state1 v_cdgh_save) in
  let! v_tmp := tret (shuffle_epi32 v_state0 27) in
  let! v_state1 := tret (shuffle_epi32 v_state1 177) in
  let! v_state0 := tret (blend_epi16 v_tmp v_state1 240) in
  let! v_state1 := tret (alignr_epi8 v_state1 v_tmp 8) in
  let! t10 := t_store_m128_words (e_h v_self) 0 v_state0 in
  let v_self := mk_engine (e_buffer v_self) t10 (e_length v_self) in
  let! t11 := t_store_m128_words (e_h v_self) 4 v_state1 in
  let v_self := mk_engine (e_buffer v_self) t11 (e_length v_self) in
  tret v_self.

Definition t_sha256_Engine_process_block_simd_x86_intrinsics_part2 v_self v_state1 v_state0 v_abef_save v_cdgh_save v_msg0 v_msg1 v_msg2 v_msg3 : tm (engine) :=
  let! v_msg2 := tret (sha256msg1 v_msg2 v_msg3) in
  let! v_msg := tret (add_epi32 v_msg0 (set_epi64x 0x53380d134d2c6dfc 0x2e1b213827b70a85)) in
  let! v_state1 := tret (sha256rnds2 v_state1 v_state0 v_msg) in
  let! v_tmp := tret (alignr_epi8 v_msg0 v_msg3 4) in
  let! v_msg1 := tret (add_epi32 v_msg1 v_tmp) in
  let! v_msg1 := tret (sha256msg2 v_msg1 v_msg0) in
  let! v_msg := tret (shuffle_epi32 v_msg 14) in
  let! v_state0 := tret (sha256rnds2 v_state0 v_state1 v_msg) in
  let! v_msg3 := tret (sha256msg1 v_msg3 v_msg0) in
  let! v_msg := tret (add_epi32 v_msg1 (set_epi64x 0x92722c8581c2c92e 0x766a0abb650a7354)) in
  let! v_state1 := tret (sha256rnds2 v_state1 v_state0 v_msg) in
  let! v_tmp := tret (alignr_epi8 v_msg1 v_msg0 4) in
  let! v_msg2 := tret (add_epi32 v_msg2 v_tmp) in
  let! v_msg2 := tret (sha256msg2 v_msg2 v_msg1) in
  let! v_msg := tret (shuffle_epi32 v_msg 14) in
  let! v_state0 := tret (sha256rnds2 v_state0 v_state1 v_msg) in
  let! v_msg0 := tret (sha256msg1 v_msg0 v_msg1) in
  let! v_msg := tret (add_epi32 v_msg2 (set_epi64x 0xc76c51a3c24b8b70 0xa81a664ba2bfe8a1)) in
  let! v_state1 := tret (sha256rnds2 v_state1 v_state0 v_msg) in
  let! v_tmp := tret (alignr_epi8 v_msg2 v_msg1 4) in
  let! v_msg3 := tret (add_epi32 v_msg3 v_tmp) in
  let! v_msg3 := tret (sha256msg2 v_msg3 v_msg2) in
  let! v_msg := tret (shuffle_epi32 v_msg 14) in
  let! v_state0 := tret (sha256rnds2 v_state0 v_state1 v_msg) in
  let! v_msg1 := tret (sha256msg1 v_msg1 v_msg2) in
  let! v_msg := tret (add_epi32 v_msg3 (set_epi64x 0x106aa070f40e3585 0xd6990624d192e819)) in
  let! v_state1 := tret (sha256rnds2 v_state1 v_state0 v_msg) in
  let! v_tmp := tret (alignr_epi8 v_msg3 v_msg2 4) in
  let! v_msg0 := tret (add_epi32 v_msg0 v_tmp) in
  let! v_msg0 := tret (sha256msg2 v_msg0 v_msg3) in
  let! v_msg := tret (shuffle_epi32 v_msg 14) in
  let! v_state0 := tret (sha256rnds2 v_state0 v_state1 v_msg) in
  let! v_msg2 := tret (sha256msg1 v_msg2 v_msg3) in
  let! v_msg := tret (add_epi32 v_msg0 (set_epi64x 0x34b0bcb52748774c 0x1e376c0819a4c116)) in
  let! v_state1 := tret (sha256rnds2 v_state1 v_state0 v_msg) in
  let! v_tmp := tret (alignr_epi8 v_msg0 v_msg3 4) in
  let! v_msg1 := tret (add_epi32 v_msg1 v_tmp) in
  let! v_msg1 := tret (sha256msg2 v_msg1 v_msg0) in
  let! v_msg := tret (shuffle_epi32 v_msg 14) in
  let! v_state0 := tret (sha256rnds2 v_state0 v_state1 v_msg) in
  t_sha256_Engine_process_block_simd_x86_intrinsics_part3 v_self v_state1 v_state0 v_abef_save v_cdgh_save v_msg0 v_msg1 v_msg2 v_msg3.

Definition t_sha256_Engine_process_block_simd_x86_intrinsics_part1 v_self v_MASK v_state1 v_state0 v_abef_save v_cdgh_save v_msg0 v_msg1 v_msg2 v_msg3 : tm (engine) :=
  let! v_msg3 := tret (shuffle_epi8 v_msg3 v_MASK) in
  let! v_msg := tret (add_epi32 v_msg3 (set_epi64x 0xc19bf1749bdc06a7 0x80deb1fe72be5d74)) in
  let! v_state1 := tret (sha256rnds2 v_state1 v_state0 v_msg) in
  let! v_tmp := tret (alignr_epi8 v_msg3 v_msg2 4) in
  let! v_msg0 := tret (add_epi32 v_msg0 v_tmp) in
  let! v_msg0 := tret (sha256msg2 v_msg0 v_msg3) in
  let! v_msg := tret (shuffle_epi32 v_msg 14) in
  let! v_state0 := tret (sha256rnds2 v_state0 v_state1 v_msg) in
  let! v_msg2 := tret (sha256msg1 v_msg2 v_msg3) in
  let! v_msg := tret (add_epi32 v_msg0 (set_epi64x 0x240ca1cc0fc19dc6 0xefbe4786e49b69c1)) in
  let! v_state1 := tret (sha256rnds2 v_state1 v_state0 v_msg) in
  let! v_tmp := tret (alignr_epi8 v_msg0 v_msg3 4) in
  let! v_msg1 := tret (add_epi32 v_msg1 v_tmp) in
  let! v_msg1 := tret (sha256msg2 v_msg1 v_msg0) in
  let! v_msg := tret (shuffle_epi32 v_msg 14) in
  let! v_state0 := tret (sha256rnds2 v_state0 v_state1 v_msg) in
  let! v_msg3 := tret (sha256msg1 v_msg3 v_msg0) in
  let! v_msg := tret (add_epi32 v_msg1 (set_epi64x 0x76f988da5cb0a9dc 0x4a7484aa2de92c6f)) in
  let! v_state1 := tret (sha256rnds2 v_state1 v_state0 v_msg) in
  let! v_tmp := tret (alignr_epi8 v_msg1 v_msg0 4) in
  let! v_msg2 := tret (add_epi32 v_msg2 v_tmp) in
  let! v_msg2 := tret (sha256msg2 v_msg2 v_msg1) in
  let! v_msg := tret (shuffle_epi32 v_msg 14) in
  let! v_state0 := tret (sha256rnds2 v_state0 v_state1 v_msg) in
  let! v_msg0 := tret (sha256msg1 v_msg0 v_msg1) in
  let! v_msg := tret (add_epi32 v_msg2 (set_epi64x 0xbf597fc7b00327c8 0xa831c66d983e5152)) in
  let! v_state1 := tret (sha256rnds2 v_state1 v_state0 v_msg) in
  let! v_tmp := tret (alignr_epi8 v_msg2 v_msg1 4) in
  let! v_msg3 := tret (add_epi32 v_msg3 v_tmp) in
  let! v_msg3 := tret (sha256msg2 v_msg3 v_msg2) in
  let! v_msg := tret (shuffle_epi32 v_msg 14) in
  let! v_state0 := tret (sha256rnds2 v_state0 v_state1 v_msg) in
  let! v_msg1 := tret (sha256msg1 v_msg1 v_msg2) in
  let! v_msg := tret (add_epi32 v_msg3 (set_epi64x 0x1429296706ca6351 0xd5a79147c6e00bf3)) in
  let! v_state1 := tret (sha256rnds2 v_state1 v_state0 v_msg) in
  let! v_tmp := tret (alignr_epi8 v_msg3 v_msg2 4) in
  let! v_msg0 := tret (add_epi32 v_msg0 v_tmp) in
  let! v_msg0 := tret (sha256msg2 v_msg0 v_msg3) in
  let! v_msg := tret (shuffle_epi32 v_msg 14) in
  let! v_state0 := tret (sha256rnds2 v_state0 v_state1 v_msg) in
  t_sha256_Engine_process_block_simd_x86_intrinsics_part2 v_self v_state1 v_state0 v_abef_save v_cdgh_save v_msg0 v_msg1 v_msg2 v_msg3.

Definition t_sha256_Engine_process_block_simd_x86_intrinsics (cfg : config) (v_self : engine) : tm (engine) :=
  let! v_MASK := tret (set_epi64x 0xc0d0e0f08090a0b 0x405060700010203) in
  let v_block_offset := 0 in
  let! t1 := t_load_m128_words (e_h v_self) 0 in
  let v_tmp := t1 in
  let! t2 := t_load_m128_words (e_h v_self) 4 in
  let v_state1 := t2 in
  let! v_tmp := tret (shuffle_epi32 v_tmp 177) in
  let! v_state1 := tret (shuffle_epi32 v_state1 27) in
  let! v_state0 := tret (alignr_epi8 v_tmp v_state1 8) in
  let! v_state1 := tret (blend_epi16 v_state1 v_tmp 240) in
  let v_abef_save := v_state0 in
  let v_cdgh_save := v_state1 in
  let! t3 := t_load_m128_bytes (e_buffer v_self) v_block_offset in
  let v_msg := t3 in
  let! v_msg0 := tret (shuffle_epi8 v_msg v_MASK) in
  let! v_msg := tret (add_epi32 v_msg0 (set_epi64x 0xe9b5dba5b5c0fbcf 0x71374491428a2f98)) in
  let! v_state1 := tret (sha256rnds2 v_state1 v_state0 v_msg) in
  let! v_msg := tret (shuffle_epi32 v_msg 14) in
  let! v_state0 := tret (sha256rnds2 v_state0 v_state1 v_msg) in
  let! t4 := tlift (usize_add cfg v_block_offset 16) in
  let! t5 := t_load_m128_bytes (e_buffer v_self) t4 in
  let v_msg1 := t5 in
  let! v_msg1 := tret (shuffle_epi8 v_msg1 v_MASK) in
  let! v_msg := tret (add_epi32 v_msg1 (set_epi64x 0xab1c5ed5923f82a4 0x59f111f13956c25b)) in
  let! v_state1 := tret (sha256rnds2 v_state1 v_state0 v_msg) in
  let! v_msg := tret (shuffle_epi32 v_msg 14) in
  let! v_state0 := tret (sha256rnds2 v_state0 v_state1 v_msg) in
  let! v_msg0 := tret (sha256msg1 v_msg0 v_msg1) in
  let! t6 := tlift (usize_add cfg v_block_offset 32) in
  let! t7 := t_load_m128_bytes (e_buffer v_self) t6 in
  let v_msg2 := t7 in
  let! v_msg2 := tret (shuffle_epi8 v_msg2 v_MASK) in
  let! v_msg := tret (add_epi32 v_msg2 (set_epi64x 0x550c7dc3243185be 0x12835b01d807aa98)) in
  let! v_state1 := tret (sha256rnds2 v_state1 v_state0 v_msg) in
  let! v_msg := tret (shuffle_epi32 v_msg 14) in
  let! v_state0 := tret (sha256rnds2 v_state0 v_state1 v_msg) in
  let! v_msg1 := tret (sha256msg1 v_msg1 v_msg2) in
  let! t8 := tlift (usize_add cfg v_block_offset 48) in
  let! t9 := t_load_m128_bytes (e_buffer v_self) t8 in
  let v_msg3 := t9 in
  t_sha256_Engine_process_block_simd_x86_intrinsics_part1 v_self v_MASK v_state1 v_state0 v_abef_save v_cdgh_save v_msg0 v_msg1 v_msg2 v_msg3.

(** software_process_block, src/sha256.rs:721-814; feature small-hash off *)
Definition t_sha256_Engine_software_process_block_fast_part4 v_self v_a v_b v_c v_d v_e v_f v_g v_h : tm (engine) :=
  let! t9 := t_index (e_h v_self) 0 in
  let! t10 := t_store (e_h v_self) 0 (wrapping_add 32 t9 v_a) in
  let v_self := mk_engine (e_buffer v_self) t10 (e_length v_self) in
  let! t11 := t_index (e_h v_self) 1 in
  let! t12 := t_store (e_h v_self) 1 (wrapping_add 32 t11 v_b) in
  let v_self := mk_engine (e_buffer v_self) t12 (e_length v_self) in
  let! t13 := t_index (e_h v_self) 2 in
  let! t14 := t_store (e_h v_self) 2 (wrapping_add 32 t13 v_c) in
  let v_self := mk_engine (e_buffer v_self) t14 (e_length v_self) in
  let! t15 := t_index (e_h v_self) 3 in
  let! t16 := t_store (e_h v_self) 3 (wrapping_add 32 t15 v_d) in
  let v_self := mk_engine (e_buffer v_self) t16 (e_length v_self) in
  let! t17 := t_index (e_h v_self) 4 in
  let! t18 := t_store (e_h v_self) 4 (wrapping_add 32 t17 v_e) in
  let v_self := mk_engine (e_buffer v_self) t18 (e_length v_self) in
  let! t19 := t_index (e_h v_self) 5 in
  let! t20 := t_store (e_h v_self) 5 (wrapping_add 32 t19 v_f) in
  let v_self := mk_engine (e_buffer v_self) t20 (e_length v_self) in
  let! t21 := t_index (e_h v_self) 6 in
  let! t22 := t_store (e_h v_self) 6 (wrapping_add 32 t21 v_g) in
  let v_self := mk_engine (e_buffer v_self) t22 (e_length v_self) in
  let! t23 := t_index (e_h v_self) 7 in
  let! t24 := t_store (e_h v_self) 7 (wrapping_add 32 t23 v_h) in
  let v_self := mk_engine (e_buffer v_self) t24 (e_length v_self) in
  tret v_self.

Definition t_sha256_Engine_software_process_block_fast_part3 v_self v_w v_a v_b v_c v_d v_e v_f v_g v_h : tm (engine) :=
  let! (v_w, v_d, v_h) := (
    let! t9 := t_index v_w 0 in
    let! t10 := t_index v_w 14 in
    let! t11 := t_index v_w 9 in
    let! t12 := t_index v_w 1 in
    let! t13 := t_store v_w 0 (wrapping_add 32 (wrapping_add 32 (wrapping_add 32 t9 (g_sha256_sigma1 t10)) t11) (g_sha256_sigma0 t12)) in
    let v_w := t13 in
    let! (v_d, v_h) := (
      let! t14 := t_index v_w 0 in
      let v_t1 := wrapping_add 32 (wrapping_add 32 (wrapping_add 32 (wrapping_add 32 v_h (g_sha256_Sigma1 v_e)) (g_sha256_Ch v_e v_f v_g)) 0x19a4c116) t14 in
      let v_t2 := wrapping_add 32 (g_sha256_Sigma0 v_a) (g_sha256_Maj v_a v_b v_c) in
      let v_d := wrapping_add 32 v_d v_t1 in
      let v_h := wrapping_add 32 v_t1 v_t2 in
      tret (v_d, v_h)) in
    tret (v_w, v_d, v_h)) in
  let! (v_w, v_c, v_g) := (
    let! t9 := t_index v_w 1 in
    let! t10 := t_index v_w 15 in
    let! t11 := t_index v_w 10 in
    let! t12 := t_index v_w 2 in
    let! t13 := t_store v_w 1 (wrapping_add 32 (wrapping_add 32 (wrapping_add 32 t9 (g_sha256_sigma1 t10)) t11) (g_sha256_sigma0 t12)) in
    let v_w := t13 in
    let! (v_c, v_g) := (
      let! t14 := t_index v_w 1 in
      let v_t1 := wrapping_add 32 (wrapping_add 32 (wrapping_add 32 (wrapping_add 32 v_g (g_sha256_Sigma1 v_d)) (g_sha256_Ch v_d v_e v_f)) 0x1e376c08) t14 in
      let v_t2 := wrapping_add 32 (g_sha256_Sigma0 v_h) (g_sha256_Maj v_h v_a v_b) in
      let v_c := wrapping_add 32 v_c v_t1 in
      let v_g := wrapping_add 32 v_t1 v_t2 in
      tret (v_c, v_g)) in
    tret (v_w, v_c, v_g)) in
  let! (v_w, v_b, v_f) := (
    let! t9 := t_index v_w 2 in
    let! t10 := t_index v_w 0 in
    let! t11 := t_index v_w 11 in
    let! t12 := t_index v_w 3 in
    let! t13 := t_store v_w 2 (wrapping_add 32 (wrapping_add 32 (wrapping_add 32 t9 (g_sha256_sigma1 t10)) t11) (g_sha256_sigma0 t12)) in
    let v_w := t13 in
    let! (v_b, v_f) := (
      let! t14 := t_index v_w 2 in
      let v_t1 := wrapping_add 32 (wrapping_add 32 (wrapping_add 32 (wrapping_add 32 v_f (g_sha256_Sigma1 v_c)) (g_sha256_Ch v_c v_d v_e)) 0x2748774c) t14 in
      let v_t2 := wrapping_add 32 (g_sha256_Sigma0 v_g) (g_sha256_Maj v_g v_h v_a) in
      let v_b := wrapping_add 32 v_b v_t1 in
      let v_f := wrapping_add 32 v_t1 v_t2 in
      tret (v_b, v_f)) in
    tret (v_w, v_b, v_f)) in
  let! (v_w, v_a, v_e) := (
    let! t9 := t_index v_w 3 in
    let! t10 := t_index v_w 1 in
    let! t11 := t_index v_w 12 in
    let! t12 := t_index v_w 4 in
    let! t13 := t_store v_w 3 (wrapping_add 32 (wrapping_add 32 (wrapping_add 32 t9 (g_sha256_sigma1 t10)) t11) (g_sha256_sigma0 t12)) in
    let v_w := t13 in
    let! (v_a, v_e) := (
      let! t14 := t_index v_w 3 in
      let v_t1 := wrapping_add 32 (wrapping_add 32 (wrapping_add 32 (wrapping_add 32 v_e (g_sha256_Sigma1 v_b)) (g_sha256_Ch v_b v_c v_d)) 0x34b0bcb5) t14 in
      let v_t2 := wrapping_add 32 (g_sha256_Sigma0 v_f) (g_sha256_Maj v_f v_g v_h) in
      let v_a := wrapping_add 32 v_a v_t1 in
      let v_e := wrapping_add 32 v_t1 v_t2 in
      tret (v_a, v_e)) in
    tret (v_w, v_a, v_e)) in
  let! (v_w, v_d, v_h) := (
    let! t9 := t_index v_w 4 in
    let! t10 := t_index v_w 2 in
    let! t11 := t_index v_w 13 in
    let! t12 := t_index v_w 5 in
    let! t13 := t_store v_w 4 (wrapping_add 32 (wrapping_add 32 (wrapping_add 32 t9 (g_sha256_sigma1 t10)) t11) (g_sha256_sigma0 t12)) in
    let v_w := t13 in
    let! (v_d, v_h) := (
      let! t14 := t_index v_w 4 in
      let v_t1 := wrapping_add 32 (wrapping_add 32 (wrapping_add 32 (wrapping_add 32 v_d (g_sha256_Sigma1 v_a)) (g_sha256_Ch v_a v_b v_c)) 0x391c0cb3) t14 in
      let v_t2 := wrapping_add 32 (g_sha256_Sigma0 v_e) (g_sha256_Maj v_e v_f v_g) in
      let v_h := wrapping_add 32 v_h v_t1 in
      let v_d := wrapping_add 32 v_t1 v_t2 in
      tret (v_d, v_h)) in
    tret (v_w, v_d, v_h)) in
  let! (v_w, v_c, v_g) := (
    let! t9 := t_index v_w 5 in
    let! t10 := t_index v_w 3 in
    let! t11 := t_index v_w 14 in
    let! t12 := t_index v_w 6 in
    let! t13 := t_store v_w 5 (wrapping_add 32 (wrapping_add 32 (wrapping_add 32 t9 (g_sha256_sigma1 t10)) t11) (g_sha256_sigma0 t12)) in
    let v_w := t13 in
    let! (v_c, v_g) := (
      let! t14 := t_index v_w 5 in
      let v_t1 := wrapping_add 32 (wrapping_add 32 (wrapping_add 32 (wrapping_add 32 v_c (g_sha256_Sigma1 v_h)) (g_sha256_Ch v_h v_a v_b)) 0x4ed8aa4a) t14 in
      let v_t2 := wrapping_add 32 (g_sha256_Sigma0 v_d) (g_sha256_Maj v_d v_e v_f) in
      let v_g := wrapping_add 32 v_g v_t1 in
      let v_c := wrapping_add 32 v_t1 v_t2 in
      tret (v_c, v_g)) in
    tret (v_w, v_c, v_g)) in
  let! (v_w, v_b, v_f) := (
    let! t9 := t_index v_w 6 in
    let! t10 := t_index v_w 4 in
    let! t11 := t_index v_w 15 in
    let! t12 := t_index v_w 7 in
    let! t13 := t_store v_w 6 (wrapping_add 32 (wrapping_add 32 (wrapping_add 32 t9 (g_sha256_sigma1 t10)) t11) (g_sha256_sigma0 t12)) in
    let v_w := t13 in
    let! (v_b, v_f) := (
      let! t14 := t_index v_w 6 in
      let v_t1 := wrapping_add 32 (wrapping_add 32 (wrapping_add 32 (wrapping_add 32 v_b (g_sha256_Sigma1 v_g)) (g_sha256_Ch v_g v_h v_a)) 0x5b9cca4f) t14 in
      let v_t2 := wrapping_add 32 (g_sha256_Sigma0 v_c) (g_sha256_Maj v_c v_d v_e) in
      let v_f := wrapping_add 32 v_f v_t1 in
      let v_b := wrapping_add 32 v_t1 v_t2 in
      tret (v_b, v_f)) in
    tret (v_w, v_b, v_f)) in
  let! (v_w, v_a, v_e) := (
    let! t9 := t_index v_w 7 in
    let! t10 := t_index v_w 5 in
    let! t11 := t_index v_w 0 in
    let! t12 := t_index v_w 8 in
    let! t13 := t_store v_w 7 (wrapping_add 32 (wrapping_add 32 (wrapping_add 32 t9 (g_sha256_sigma1 t10)) t11) (g_sha256_sigma0 t12)) in
    let v_w := t13 in
    let! (v_a, v_e) := (
      let! t14 := t_index v_w 7 in
      let v_t1 := wrapping_add 32 (wrapping_add 32 (wrapping_add 32 (wrapping_add 32 v_a (g_sha256_Sigma1 v_f)) (g_sha256_Ch v_f v_g v_h)) 0x682e6ff3) t14 in
      let v_t2 := wrapping_add 32 (g_sha256_Sigma0 v_b) (g_sha256_Maj v_b v_c v_d) in
      let v_e := wrapping_add 32 v_e v_t1 in
      let v_a := wrapping_add 32 v_t1 v_t2 in
      tret (v_a, v_e)) in
    tret (v_w, v_a, v_e)) in
  let! (v_w, v_d, v_h) := (
    let! t9 := t_index v_w 8 in
    let! t10 := t_index v_w 6 in
    let! t11 := t_index v_w 1 in
    let! t12 := t_index v_w 9 in
    let! t13 := t_store v_w 8 (wrapping_add 32 (wrapping_add 32 (wrapping_add 32 t9 (g_sha256_sigma1 t10)) t11) (g_sha256_sigma0 t12)) in
    let v_w := t13 in
    let! (v_d, v_h) := (
      let! t14 := t_index v_w 8 in
      let v_t1 := wrapping_add 32 (wrapping_add 32 (wrapping_add 32 (wrapping_add 32 v_h (g_sha256_Sigma1 v_e)) (g_sha256_Ch v_e v_f v_g)) 0x748f82ee) t14 in
      let v_t2 := wrapping_add 32 (g_sha256_Sigma0 v_a) (g_sha256_Maj v_a v_b v_c) in
      let v_d := wrapping_add 32 v_d v_t1 in
      let v_h := wrapping_add 32 v_t1 v_t2 in
      tret (v_d, v_h)) in
    tret (v_w, v_d, v_h)) in
  let! (v_w, v_c, v_g) := (
    let! t9 := t_index v_w 9 in
    let! t10 := t_index v_w 7 in
    let! t11 := t_index v_w 2 in
    let! t12 := t_index v_w 10 in
    let! t13 := t_store v_w 9 (wrapping_add 32 (wrapping_add 32 (wrapping_add 32 t9 (g_sha256_sigma1 t10)) t11) (g_sha256_sigma0 t12)) in
    let v_w := t13 in
    let! (v_c, v_g) := (
      let! t14 := t_index v_w 9 in
      let v_t1 := wrapping_add 32 (wrapping_add 32 (wrapping_add 32 (wrapping_add 32 v_g (g_sha256_Sigma1 v_d)) (g_sha256_Ch v_d v_e v_f)) 0x78a5636f) t14 in
      let v_t2 := wrapping_add 32 (g_sha256_Sigma0 v_h) (g_sha256_Maj v_h v_a v_b) in
      let v_c := wrapping_add 32 v_c v_t1 in
      let v_g := wrapping_add 32 v_t1 v_t2 in
      tret (v_c, v_g)) in
    tret (v_w, v_c, v_g)) in
  let! (v_w, v_b, v_f) := (
    let! t9 := t_index v_w 10 in
    let! t10 := t_index v_w 8 in
    let! t11 := t_index v_w 3 in
    let! t12 := t_index v_w 11 in
    let! t13 := t_store v_w 10 (wrapping_add 32 (wrapping_add 32 (wrapping_add 32 t9 (g_sha256_sigma1 t10)) t11) (g_sha256_sigma0 t12)) in
    let v_w := t13 in
    let! (v_b, v_f) := (
      let! t14 := t_index v_w 10 in
      let v_t1 := wrapping_add 32 (wrapping_add 32 (wrapping_add 32 (wrapping_add 32 v_f (g_sha256_Sigma1 v_c)) (g_sha256_Ch v_c v_d v_e)) 0x84c87814) t14 in
      let v_t2 := wrapping_add 32 (g_sha256_Sigma0 v_g) (g_sha256_Maj v_g v_h v_a) in
      let v_b := wrapping_add 32 v_b v_t1 in
      let v_f := wrapping_add 32 v_t1 v_t2 in
      tret (v_b, v_f)) in
    tret (v_w, v_b, v_f)) in
  let! (v_w, v_a, v_e) := (
    let! t9 := t_index v_w 11 in
    let! t10 := t_index v_w 9 in
    let! t11 := t_index v_w 4 in
    let! t12 := t_index v_w 12 in
    let! t13 := t_store v_w 11 (wrapping_add 32 (wrapping_add 32 (wrapping_add 32 t9 (g_sha256_sigma1 t10)) t11) (g_sha256_sigma0 t12)) in
    let v_w := t13 in
    let! (v_a, v_e) := (
      let! t14 := t_index v_w 11 in
      let v_t1 := wrapping_add 32 (wrapping_add 32 (wrapping_add 32 (wrapping_add 32 v_e (g_sha256_Sigma1 v_b)) (g_sha256_Ch v_b v_c v_d)) 0x8cc70208) t14 in
      let v_t2 := wrapping_add 32 (g_sha256_Sigma0 v_f) (g_sha256_Maj v_f v_g v_h) in
      let v_a := wrapping_add 32 v_a v_t1 in
      let v_e := wrapping_add 32 v_t1 v_t2 in
      tret (v_a, v_e)) in
    tret (v_w, v_a, v_e)) in
  let! (v_w, v_d, v_h) := (
    let! t9 := t_index v_w 12 in
    let! t10 := t_index v_w 10 in
    let! t11 := t_index v_w 5 in
    let! t12 := t_index v_w 13 in
    let! t13 := t_store v_w 12 (wrapping_add 32 (wrapping_add 32 (wrapping_add 32 t9 (g_sha256_sigma1 t10)) t11) (g_sha256_sigma0 t12)) in
    let v_w := t13 in
    let! (v_d, v_h) := (
      let! t14 := t_index v_w 12 in
      let v_t1 := wrapping_add 32 (wrapping_add 32 (wrapping_add 32 (wrapping_add 32 v_d (g_sha256_Sigma1 v_a)) (g_sha256_Ch v_a v_b v_c)) 0x90befffa) t14 in
      let v_t2 := wrapping_add 32 (g_sha256_Sigma0 v_e) (g_sha256_Maj v_e v_f v_g) in
      let v_h := wrapping_add 32 v_h v_t1 in
      let v_d := wrapping_add 32 v_t1 v_t2 in
      tret (v_d, v_h)) in
    tret (v_w, v_d, v_h)) in
  let! (v_w, v_c, v_g) := (
    let! t9 := t_index v_w 13 in
    let! t10 := t_index v_w 11 in
    let! t11 := t_index v_w 6 in
    let! t12 := t_index v_w 14 in
    let! t13 := t_store v_w 13 (wrapping_add 32 (wrapping_add 32 (wrapping_add 32 t9 (g_sha256_sigma1 t10)) t11) (g_sha256_sigma0 t12)) in
    let v_w := t13 in
    let! (v_c, v_g) := (
      let! t14 := t_index v_w 13 in
      let v_t1 := wrapping_add 32 (wrapping_add 32 (wrapping_add 32 (wrapping_add 32 v_c (g_sha256_Sigma1 v_h)) (g_sha256_Ch v_h v_a v_b)) 0xa4506ceb) t14 in
      let v_t2 := wrapping_add 32 (g_sha256_Sigma0 v_d) (g_sha256_Maj v_d v_e v_f) in
      let v_g := wrapping_add 32 v_g v_t1 in
      let v_c := wrapping_add 32 v_t1 v_t2 in
      tret (v_c, v_g)) in
    tret (v_w, v_c, v_g)) in
  let! (v_w, v_b, v_f) := (
    let! t9 := t_index v_w 14 in
    let! t10 := t_index v_w 12 in
    let! t11 := t_index v_w 7 in
    let! t12 := t_index v_w 15 in
    let! t13 := t_store v_w 14 (wrapping_add 32 (wrapping_add 32 (wrapping_add 32 t9 (g_sha256_sigma1 t10)) t11) (g_sha256_sigma0 t12)) in
    let v_w := t13 in
    let! (v_b, v_f) := (
      let! t14 := t_index v_w 14 in
      let v_t1 := wrapping_add 32 (wrapping_add 32 (wrapping_add 32 (wrapping_add 32 v_b (g_sha256_Sigma1 v_g)) (g_sha256_Ch v_g v_h v_a)) 0xbef9a3f7) t14 in
      let v_t2 := wrapping_add 32 (g_sha256_Sigma0 v_c) (g_sha256_Maj v_c v_d v_e) in
      let v_f := wrapping_add 32 v_f v_t1 in
      let v_b := wrapping_add 32 v_t1 v_t2 in
      tret (v_b, v_f)) in
    tret (v_w, v_b, v_f)) in
  let! (v_w, v_a, v_e) := (
    let! t9 := t_index v_w 15 in
    let! t10 := t_index v_w 13 in
    let! t11 := t_index v_w 8 in
    let! t12 := t_index v_w 0 in
    let! t13 := t_store v_w 15 (wrapping_add 32 (wrapping_add 32 (wrapping_add 32 t9 (g_sha256_sigma1 t10)) t11) (g_sha256_sigma0 t12)) in
    let v_w := t13 in
    let! (v_a, v_e) := (
      let! t14 := t_index v_w 15 in
      let v_t1 := wrapping_add 32 (wrapping_add 32 (wrapping_add 32 (wrapping_add 32 v_a (g_sha256_Sigma1 v_f)) (g_sha256_Ch v_f v_g v_h)) 0xc67178f2) t14 in
      let v_t2 := wrapping_add 32 (g_sha256_Sigma0 v_b) (g_sha256_Maj v_b v_c v_d) in
      let v_e := wrapping_add 32 v_e v_t1 in
      let v_a := wrapping_add 32 v_t1 v_t2 in
      tret (v_a, v_e)) in
    tret (v_w, v_a, v_e)) in
  t_sha256_Engine_software_process_block_fast_part4 v_self v_a v_b v_c v_d v_e v_f v_g v_h.

Definition t_sha256_Engine_software_process_block_fast_part2 v_self v_w v_a v_b v_c v_d v_e v_f v_g v_h : tm (engine) :=
  let! (v_w, v_d, v_h) := (
    let! t9 := t_index v_w 0 in
    let! t10 := t_index v_w 14 in
    let! t11 := t_index v_w 9 in
    let! t12 := t_index v_w 1 in
    let! t13 := t_store v_w 0 (wrapping_add 32 (wrapping_add 32 (wrapping_add 32 t9 (g_sha256_sigma1 t10)) t11) (g_sha256_sigma0 t12)) in
    let v_w := t13 in
    let! (v_d, v_h) := (
      let! t14 := t_index v_w 0 in
      let v_t1 := wrapping_add 32 (wrapping_add 32 (wrapping_add 32 (wrapping_add 32 v_h (g_sha256_Sigma1 v_e)) (g_sha256_Ch v_e v_f v_g)) 0x27b70a85) t14 in
      let v_t2 := wrapping_add 32 (g_sha256_Sigma0 v_a) (g_sha256_Maj v_a v_b v_c) in
      let v_d := wrapping_add 32 v_d v_t1 in
      let v_h := wrapping_add 32 v_t1 v_t2 in
      tret (v_d, v_h)) in
    tret (v_w, v_d, v_h)) in
  let! (v_w, v_c, v_g) := (
    let! t9 := t_index v_w 1 in
    let! t10 := t_index v_w 15 in
    let! t11 := t_index v_w 10 in
    let! t12 := t_index v_w 2 in
    let! t13 := t_store v_w 1 (wrapping_add 32 (wrapping_add 32 (wrapping_add 32 t9 (g_sha256_sigma1 t10)) t11) (g_sha256_sigma0 t12)) in
    let v_w := t13 in
    let! (v_c, v_g) := (
      let! t14 := t_index v_w 1 in
      let v_t1 := wrapping_add 32 (wrapping_add 32 (wrapping_add 32 (wrapping_add 32 v_g (g_sha256_Sigma1 v_d)) (g_sha256_Ch v_d v_e v_f)) 0x2e1b2138) t14 in
      let v_t2 := wrapping_add 32 (g_sha256_Sigma0 v_h) (g_sha256_Maj v_h v_a v_b) in
      let v_c := wrapping_add 32 v_c v_t1 in
      let v_g := wrapping_add 32 v_t1 v_t2 in
      tret (v_c, v_g)) in
    tret (v_w, v_c, v_g)) in
  let! (v_w, v_b, v_f) := (
    let! t9 := t_index v_w 2 in
    let! t10 := t_index v_w 0 in
    let! t11 := t_index v_w 11 in
    let! t12 := t_index v_w 3 in
    let! t13 := t_store v_w 2 (wrapping_add 32 (wrapping_add 32 (wrapping_add 32 t9 (g_sha256_sigma1 t10)) t11) (g_sha256_sigma0 t12)) in
    let v_w := t13 in
    let! (v_b, v_f) := (
      let! t14 := t_index v_w 2 in
      let v_t1 := wrapping_add 32 (wrapping_add 32 (wrapping_add 32 (wrapping_add 32 v_f (g_sha256_Sigma1 v_c)) (g_sha256_Ch v_c v_d v_e)) 0x4d2c6dfc) t14 in
      let v_t2 := wrapping_add 32 (g_sha256_Sigma0 v_g) (g_sha256_Maj v_g v_h v_a) in
      let v_b := wrapping_add 32 v_b v_t1 in
      let v_f := wrapping_add 32 v_t1 v_t2 in
      tret (v_b, v_f)) in
    tret (v_w, v_b, v_f)) in
  let! (v_w, v_a, v_e) := (
    let! t9 := t_index v_w 3 in
    let! t10 := t_index v_w 1 in
    let! t11 := t_index v_w 12 in
    let! t12 := t_index v_w 4 in
    let! t13 := t_store v_w 3 (wrapping_add 32 (wrapping_add 32 (wrapping_add 32 t9 (g_sha256_sigma1 t10)) t11) (g_sha256_sigma0 t12)) in
    let v_w := t13 in
    let! (v_a, v_e) := (
      let! t14 := t_index v_w 3 in
      let v_t1 := wrapping_add 32 (wrapping_add 32 (wrapping_add 32 (wrapping_add 32 v_e (g_sha256_Sigma1 v_b)) (g_sha256_Ch v_b v_c v_d)) 0x53380d13) t14 in
      let v_t2 := wrapping_add 32 (g_sha256_Sigma0 v_f) (g_sha256_Maj v_f v_g v_h) in
      let v_a := wrapping_add 32 v_a v_t1 in
      let v_e := wrapping_add 32 v_t1 v_t2 in
      tret (v_a, v_e)) in
    tret (v_w, v_a, v_e)) in
  let! (v_w, v_d, v_h) := (
    let! t9 := t_index v_w 4 in
    let! t10 := t_index v_w 2 in
    let! t11 := t_index v_w 13 in
    let! t12 := t_index v_w 5 in
    let! t13 := t_store v_w 4 (wrapping_add 32 (wrapping_add 32 (wrapping_add 32 t9 (g_sha256_sigma1 t10)) t11) (g_sha256_sigma0 t12)) in
    let v_w := t13 in
    let! (v_d, v_h) := (
      let! t14 := t_index v_w 4 in
      let v_t1 := wrapping_add 32 (wrapping_add 32 (wrapping_add 32 (wrapping_add 32 v_d (g_sha256_Sigma1 v_a)) (g_sha256_Ch v_a v_b v_c)) 0x650a7354) t14 in
      let v_t2 := wrapping_add 32 (g_sha256_Sigma0 v_e) (g_sha256_Maj v_e v_f v_g) in
      let v_h := wrapping_add 32 v_h v_t1 in
      let v_d := wrapping_add 32 v_t1 v_t2 in
      tret (v_d, v_h)) in
    tret (v_w, v_d, v_h)) in
  let! (v_w, v_c, v_g) := (
    let! t9 := t_index v_w 5 in
    let! t10 := t_index v_w 3 in
    let! t11 := t_index v_w 14 in
    let! t12 := t_index v_w 6 in
    let! t13 := t_store v_w 5 (wrapping_add 32 (wrapping_add 32 (wrapping_add 32 t9 (g_sha256_sigma1 t10)) t11) (g_sha256_sigma0 t12)) in
    let v_w := t13 in
    let! (v_c, v_g) := (
      let! t14 := t_index v_w 5 in
      let v_t1 := wrapping_add 32 (wrapping_add 32 (wrapping_add 32 (wrapping_add 32 v_c (g_sha256_Sigma1 v_h)) (g_sha256_Ch v_h v_a v_b)) 0x766a0abb) t14 in
      let v_t2 := wrapping_add 32 (g_sha256_Sigma0 v_d) (g_sha256_Maj v_d v_e v_f) in
      let v_g := wrapping_add 32 v_g v_t1 in
      let v_c := wrapping_add 32 v_t1 v_t2 in
      tret (v_c, v_g)) in
    tret (v_w, v_c, v_g)) in
  let! (v_w, v_b, v_f) := (
    let! t9 := t_index v_w 6 in
    let! t10 := t_index v_w 4 in
    let! t11 := t_index v_w 15 in
    let! t12 := t_index v_w 7 in
    let! t13 := t_store v_w 6 (wrapping_add 32 (wrapping_add 32 (wrapping_add 32 t9 (g_sha256_sigma1 t10)) t11) (g_sha256_sigma0 t12)) in
    let v_w := t13 in
    let! (v_b, v_f) := (
      let! t14 := t_index v_w 6 in
      let v_t1 := wrapping_add 32 (wrapping_add 32 (wrapping_add 32 (wrapping_add 32 v_b (g_sha256_Sigma1 v_g)) (g_sha256_Ch v_g v_h v_a)) 0x81c2c92e) t14 in
      let v_t2 := wrapping_add 32 (g_sha256_Sigma0 v_c) (g_sha256_Maj v_c v_d v_e) in
      let v_f := wrapping_add 32 v_f v_t1 in
      let v_b := wrapping_add 32 v_t1 v_t2 in
      tret (v_b, v_f)) in
    tret (v_w, v_b, v_f)) in
  let! (v_w, v_a, v_e) := (
    let! t9 := t_index v_w 7 in
    let! t10 := t_index v_w 5 in
    let! t11 := t_index v_w 0 in
    let! t12 := t_index v_w 8 in
    let! t13 := t_store v_w 7 (wrapping_add 32 (wrapping_add 32 (wrapping_add 32 t9 (g_sha256_sigma1 t10)) t11) (g_sha256_sigma0 t12)) in
    let v_w := t13 in
    let! (v_a, v_e) := (
      let! t14 := t_index v_w 7 in
      let v_t1 := wrapping_add 32 (wrapping_add 32 (wrapping_add 32 (wrapping_add 32 v_a (g_sha256_Sigma1 v_f)) (g_sha256_Ch v_f v_g v_h)) 0x92722c85) t14 in
      let v_t2 := wrapping_add 32 (g_sha256_Sigma0 v_b) (g_sha256_Maj v_b v_c v_d) in
      let v_e := wrapping_add 32 v_e v_t1 in
      let v_a := wrapping_add 32 v_t1 v_t2 in
      tret (v_a, v_e)) in
    tret (v_w, v_a, v_e)) in
  let! (v_w, v_d, v_h) := (
    let! t9 := t_index v_w 8 in
    let! t10 := t_index v_w 6 in
    let! t11 := t_index v_w 1 in
    let! t12 := t_index v_w 9 in
    let! t13 := t_store v_w 8 (wrapping_add 32 (wrapping_add 32 (wrapping_add 32 t9 (g_sha256_sigma1 t10)) t11) (g_sha256_sigma0 t12)) in
    let v_w := t13 in
    let! (v_d, v_h) := (
      let! t14 := t_index v_w 8 in
      let v_t1 := wrapping_add 32 (wrapping_add 32 (wrapping_add 32 (wrapping_add 32 v_h (g_sha256_Sigma1 v_e)) (g_sha256_Ch v_e v_f v_g)) 0xa2bfe8a1) t14 in
      let v_t2 := wrapping_add 32 (g_sha256_Sigma0 v_a) (g_sha256_Maj v_a v_b v_c) in
      let v_d := wrapping_add 32 v_d v_t1 in
      let v_h := wrapping_add 32 v_t1 v_t2 in
      tret (v_d, v_h)) in
    tret (v_w, v_d, v_h)) in
  let! (v_w, v_c, v_g) := (
    let! t9 := t_index v_w 9 in
    let! t10 := t_index v_w 7 in
    let! t11 := t_index v_w 2 in
    let! t12 := t_index v_w 10 in
    let! t13 := t_store v_w 9 (wrapping_add 32 (wrapping_add 32 (wrapping_add 32 t9 (g_sha256_sigma1 t10)) t11) (g_sha256_sigma0 t12)) in
    let v_w := t13 in
    let! (v_c, v_g) := (
      let! t14 := t_index v_w 9 in
      let v_t1 := wrapping_add 32 (wrapping_add 32 (wrapping_add 32 (wrapping_add 32 v_g (g_sha256_Sigma1 v_d)) (g_sha256_Ch v_d v_e v_f)) 0xa81a664b) t14 in
      let v_t2 := wrapping_add 32 (g_sha256_Sigma0 v_h) (g_sha256_Maj v_h v_a v_b) in
      let v_c := wrapping_add 32 v_c v_t1 in
      let v_g := wrapping_add 32 v_t1 v_t2 in
      tret (v_c, v_g)) in
    tret (v_w, v_c, v_g)) in
  let! (v_w, v_b, v_f) := (
    let! t9 := t_index v_w 10 in
    let! t10 := t_index v_w 8 in
    let! t11 := t_index v_w 3 in
    let! t12 := t_index v_w 11 in
    let! t13 := t_store v_w 10 (wrapping_add 32 (wrapping_add 32 (wrapping_add 32 t9 (g_sha256_sigma1 t10)) t11) (g_sha256_sigma0 t12)) in
    let v_w := t13 in
    let! (v_b, v_f) := (
      let! t14 := t_index v_w 10 in
      let v_t1 := wrapping_add 32 (wrapping_add 32 (wrapping_add 32 (wrapping_add 32 v_f (g_sha256_Sigma1 v_c)) (g_sha256_Ch v_c v_d v_e)) 0xc24b8b70) t14 in
      let v_t2 := wrapping_add 32 (g_sha256_Sigma0 v_g) (g_sha256_Maj v_g v_h v_a) in
      let v_b := wrapping_add 32 v_b v_t1 in
      let v_f := wrapping_add 32 v_t1 v_t2 in
      tret (v_b, v_f)) in
    tret (v_w, v_b, v_f)) in
  let! (v_w, v_a, v_e) := (
    let! t9 := t_index v_w 11 in
    let! t10 := t_index v_w 9 in
    let! t11 := t_index v_w 4 in
    let! t12 := t_index v_w 12 in
    let! t13 := t_store v_w 11 (wrapping_add 32 (wrapping_add 32 (wrapping_add 32 t9 (g_sha256_sigma1 t10)) t11) (g_sha256_sigma0 t12)) in
    let v_w := t13 in
    let! (v_a, v_e) := (
      let! t14 := t_index v_w 11 in
      let v_t1 := wrapping_add 32 (wrapping_add 32 (wrapping_add 32 (wrapping_add 32 v_e (g_sha256_Sigma1 v_b)) (g_sha256_Ch v_b v_c v_d)) 0xc76c51a3) t14 in
      let v_t2 := wrapping_add 32 (g_sha256_Sigma0 v_f) (g_sha256_Maj v_f v_g v_h) in
      let v_a := wrapping_add 32 v_a v_t1 in
      let v_e := wrapping_add 32 v_t1 v_t2 in
      tret (v_a, v_e)) in
    tret (v_w, v_a, v_e)) in
  let! (v_w, v_d, v_h) := (
    let! t9 := t_index v_w 12 in
    let! t10 := t_index v_w 10 in
    let! t11 := t_index v_w 5 in
    let! t12 := t_index v_w 13 in
    let! t13 := t_store v_w 12 (wrapping_add 32 (wrapping_add 32 (wrapping_add 32 t9 (g_sha256_sigma1 t10)) t11) (g_sha256_sigma0 t12)) in
    let v_w := t13 in
    let! (v_d, v_h) := (
      let! t14 := t_index v_w 12 in
      let v_t1 := wrapping_add 32 (wrapping_add 32 (wrapping_add 32 (wrapping_add 32 v_d (g_sha256_Sigma1 v_a)) (g_sha256_Ch v_a v_b v_c)) 0xd192e819) t14 in
      let v_t2 := wrapping_add 32 (g_sha256_Sigma0 v_e) (g_sha256_Maj v_e v_f v_g) in
      let v_h := wrapping_add 32 v_h v_t1 in
      let v_d := wrapping_add 32 v_t1 v_t2 in
      tret (v_d, v_h)) in
    tret (v_w, v_d, v_h)) in
  let! (v_w, v_c, v_g) := (
    let! t9 := t_index v_w 13 in
    let! t10 := t_index v_w 11 in
    let! t11 := t_index v_w 6 in
    let! t12 := t_index v_w 14 in
    let! t13 := t_store v_w 13 (wrapping_add 32 (wrapping_add 32 (wrapping_add 32 t9 (g_sha256_sigma1 t10)) t11) (g_sha256_sigma0 t12)) in
    let v_w := t13 in
    let! (v_c, v_g) := (
      let! t14 := t_index v_w 13 in
      let v_t1 := wrapping_add 32 (wrapping_add 32 (wrapping_add 32 (wrapping_add 32 v_c (g_sha256_Sigma1 v_h)) (g_sha256_Ch v_h v_a v_b)) 0xd6990624) t14 in
      let v_t2 := wrapping_add 32 (g_sha256_Sigma0 v_d) (g_sha256_Maj v_d v_e v_f) in
      let v_g := wrapping_add 32 v_g v_t1 in
      let v_c := wrapping_add 32 v_t1 v_t2 in
      tret (v_c, v_g)) in
    tret (v_w, v_c, v_g)) in
  let! (v_w, v_b, v_f) := (
    let! t9 := t_index v_w 14 in
    let! t10 := t_index v_w 12 in
    let! t11 := t_index v_w 7 in
    let! t12 := t_index v_w 15 in
    let! t13 := t_store v_w 14 (wrapping_add 32 (wrapping_add 32 (wrapping_add 32 t9 (g_sha256_sigma1 t10)) t11) (g_sha256_sigma0 t12)) in
    let v_w := t13 in
    let! (v_b, v_f) := (
      let! t14 := t_index v_w 14 in
      let v_t1 := wrapping_add 32 (wrapping_add 32 (wrapping_add 32 (wrapping_add 32 v_b (g_sha256_Sigma1 v_g)) (g_sha256_Ch v_g v_h v_a)) 0xf40e3585) t14 in
      let v_t2 := wrapping_add 32 (g_sha256_Sigma0 v_c) (g_sha256_Maj v_c v_d v_e) in
      let v_f := wrapping_add 32 v_f v_t1 in
      let v_b := wrapping_add 32 v_t1 v_t2 in
      tret (v_b, v_f)) in
    tret (v_w, v_b, v_f)) in
  let! (v_w, v_a, v_e) := (
    let! t9 := t_index v_w 15 in
    let! t10 := t_index v_w 13 in
    let! t11 := t_index v_w 8 in
    let! t12 := t_index v_w 0 in
    let! t13 := t_store v_w 15 (wrapping_add 32 (wrapping_add 32 (wrapping_add 32 t9 (g_sha256_sigma1 t10)) t11) (g_sha256_sigma0 t12)) in
    let v_w := t13 in
    let! (v_a, v_e) := (
      let! t14 := t_index v_w 15 in
      let v_t1 := wrapping_add 32 (wrapping_add 32 (wrapping_add 32 (wrapping_add 32 v_a (g_sha256_Sigma1 v_f)) (g_sha256_Ch v_f v_g v_h)) 0x106aa070) t14 in
      let v_t2 := wrapping_add 32 (g_sha256_Sigma0 v_b) (g_sha256_Maj v_b v_c v_d) in
      let v_e := wrapping_add 32 v_e v_t1 in
      let v_a := wrapping_add 32 v_t1 v_t2 in
      tret (v_a, v_e)) in
    tret (v_w, v_a, v_e)) in
  t_sha256_Engine_software_process_block_fast_part3 v_self v_w v_a v_b v_c v_d v_e v_f v_g v_h.

Definition t_sha256_Engine_software_process_block_fast_part1 v_self v_w v_a v_b v_c v_d v_e v_f v_g v_h : tm (engine) :=
  let! (v_w, v_d, v_h) := (
    let! t9 := t_index v_w 0 in
    let! t10 := t_index v_w 14 in
    let! t11 := t_index v_w 9 in
    let! t12 := t_index v_w 1 in
    let! t13 := t_store v_w 0 (wrapping_add 32 (wrapping_add 32 (wrapping_add 32 t9 (g_sha256_sigma1 t10)) t11) (g_sha256_sigma0 t12)) in
    let v_w := t13 in
    let! (v_d, v_h) := (
      let! t14 := t_index v_w 0 in
      let v_t1 := wrapping_add 32 (wrapping_add 32 (wrapping_add 32 (wrapping_add 32 v_h (g_sha256_Sigma1 v_e)) (g_sha256_Ch v_e v_f v_g)) 0xe49b69c1) t14 in
      let v_t2 := wrapping_add 32 (g_sha256_Sigma0 v_a) (g_sha256_Maj v_a v_b v_c) in
      let v_d := wrapping_add 32 v_d v_t1 in
      let v_h := wrapping_add 32 v_t1 v_t2 in
      tret (v_d, v_h)) in
    tret (v_w, v_d, v_h)) in
  let! (v_w, v_c, v_g) := (
    let! t9 := t_index v_w 1 in
    let! t10 := t_index v_w 15 in
    let! t11 := t_index v_w 10 in
    let! t12 := t_index v_w 2 in
    let! t13 := t_store v_w 1 (wrapping_add 32 (wrapping_add 32 (wrapping_add 32 t9 (g_sha256_sigma1 t10)) t11) (g_sha256_sigma0 t12)) in
    let v_w := t13 in
    let! (v_c, v_g) := (
      let! t14 := t_index v_w 1 in
      let v_t1 := wrapping_add 32 (wrapping_add 32 (wrapping_add 32 (wrapping_add 32 v_g (g_sha256_Sigma1 v_d)) (g_sha256_Ch v_d v_e v_f)) 0xefbe4786) t14 in
      let v_t2 := wrapping_add 32 (g_sha256_Sigma0 v_h) (g_sha256_Maj v_h v_a v_b) in
      let v_c := wrapping_add 32 v_c v_t1 in
      let v_g := wrapping_add 32 v_t1 v_t2 in
      tret (v_c, v_g)) in
    tret (v_w, v_c, v_g)) in
  let! (v_w, v_b, v_f) := (
    let! t9 := t_index v_w 2 in
    let! t10 := t_index v_w 0 in
    let! t11 := t_index v_w 11 in
    let! t12 := t_index v_w 3 in
    let! t13 := t_store v_w 2 (wrapping_add 32 (wrapping_add 32 (wrapping_add 32 t9 (g_sha256_sigma1 t10)) t11) (g_sha256_sigma0 t12)) in
    let v_w := t13 in
    let! (v_b, v_f) := (
      let! t14 := t_index v_w 2 in
      let v_t1 := wrapping_add 32 (wrapping_add 32 (wrapping_add 32 (wrapping_add 32 v_f (g_sha256_Sigma1 v_c)) (g_sha256_Ch v_c v_d v_e)) 0xfc19dc6) t14 in
      let v_t2 := wrapping_add 32 (g_sha256_Sigma0 v_g) (g_sha256_Maj v_g v_h v_a) in
      let v_b := wrapping_add 32 v_b v_t1 in
      let v_f := wrapping_add 32 v_t1 v_t2 in
      tret (v_b, v_f)) in
    tret (v_w, v_b, v_f)) in
  let! (v_w, v_a, v_e) := (
    let! t9 := t_index v_w 3 in
    let! t10 := t_index v_w 1 in
    let! t11 := t_index v_w 12 in
    let! t12 := t_index v_w 4 in
    let! t13 := t_store v_w 3 (wrapping_add 32 (wrapping_add 32 (wrapping_add 32 t9 (g_sha256_sigma1 t10)) t11) (g_sha256_sigma0 t12)) in
    let v_w := t13 in
    let! (v_a, v_e) := (
      let! t14 := t_index v_w 3 in
      let v_t1 := wrapping_add 32 (wrapping_add 32 (wrapping_add 32 (wrapping_add 32 v_e (g_sha256_Sigma1 v_b)) (g_sha256_Ch v_b v_c v_d)) 0x240ca1cc) t14 in
      let v_t2 := wrapping_add 32 (g_sha256_Sigma0 v_f) (g_sha256_Maj v_f v_g v_h) in
      let v_a := wrapping_add 32 v_a v_t1 in
      let v_e := wrapping_add 32 v_t1 v_t2 in
      tret (v_a, v_e)) in
    tret (v_w, v_a, v_e)) in
  let! (v_w, v_d, v_h) := (
    let! t9 := t_index v_w 4 in
    let! t10 := t_index v_w 2 in
    let! t11 := t_index v_w 13 in
    let! t12 := t_index v_w 5 in
    let! t13 := t_store v_w 4 (wrapping_add 32 (wrapping_add 32 (wrapping_add 32 t9 (g_sha256_sigma1 t10)) t11) (g_sha256_sigma0 t12)) in
    let v_w := t13 in
    let! (v_d, v_h) := (
      let! t14 := t_index v_w 4 in
      let v_t1 := wrapping_add 32 (wrapping_add 32 (wrapping_add 32 (wrapping_add 32 v_d (g_sha256_Sigma1 v_a)) (g_sha256_Ch v_a v_b v_c)) 0x2de92c6f) t14 in
      let v_t2 := wrapping_add 32 (g_sha256_Sigma0 v_e) (g_sha256_Maj v_e v_f v_g) in
      let v_h := wrapping_add 32 v_h v_t1 in
      let v_d := wrapping_add 32 v_t1 v_t2 in
      tret (v_d, v_h)) in
    tret (v_w, v_d, v_h)) in
  let! (v_w, v_c, v_g) := (
    let! t9 := t_index v_w 5 in
    let! t10 := t_index v_w 3 in
    let! t11 := t_index v_w 14 in
    let! t12 := t_index v_w 6 in
    let! t13 := t_store v_w 5 (wrapping_add 32 (wrapping_add 32 (wrapping_add 32 t9 (g_sha256_sigma1 t10)) t11) (g_sha256_sigma0 t12)) in
    let v_w := t13 in
    let! (v_c, v_g) := (
      let! t14 := t_index v_w 5 in
      let v_t1 := wrapping_add 32 (wrapping_add 32 (wrapping_add 32 (wrapping_add 32 v_c (g_sha256_Sigma1 v_h)) (g_sha256_Ch v_h v_a v_b)) 0x4a7484aa) t14 in
      let v_t2 := wrapping_add 32 (g_sha256_Sigma0 v_d) (g_sha256_Maj v_d v_e v_f) in
      let v_g := wrapping_add 32 v_g v_t1 in
      let v_c := wrapping_add 32 v_t1 v_t2 in
      tret (v_c, v_g)) in
    tret (v_w, v_c, v_g)) in
  let! (v_w, v_b, v_f) := (
    let! t9 := t_index v_w 6 in
    let! t10 := t_index v_w 4 in
    let! t11 := t_index v_w 15 in
    let! t12 := t_index v_w 7 in
    let! t13 := t_store v_w 6 (wrapping_add 32 (wrapping_add 32 (wrapping_add 32 t9 (g_sha256_sigma1 t10)) t11) (g_sha256_sigma0 t12)) in
    let v_w := t13 in
    let! (v_b, v_f) := (
      let! t14 := t_index v_w 6 in
      let v_t1 := wrapping_add 32 (wrapping_add 32 (wrapping_add 32 (wrapping_add 32 v_b (g_sha256_Sigma1 v_g)) (g_sha256_Ch v_g v_h v_a)) 0x5cb0a9dc) t14 in
      let v_t2 := wrapping_add 32 (g_sha256_Sigma0 v_c) (g_sha256_Maj v_c v_d v_e) in
      let v_f := wrapping_add 32 v_f v_t1 in
      let v_b := wrapping_add 32 v_t1 v_t2 in
      tret (v_b, v_f)) in
    tret (v_w, v_b, v_f)) in
  let! (v_w, v_a, v_e) := (
    let! t9 := t_index v_w 7 in
    let! t10 := t_index v_w 5 in
    let! t11 := t_index v_w 0 in
    let! t12 := t_index v_w 8 in
    let! t13 := t_store v_w 7 (wrapping_add 32 (wrapping_add 32 (wrapping_add 32 t9 (g_sha256_sigma1 t10)) t11) (g_sha256_sigma0 t12)) in
    let v_w := t13 in
    let! (v_a, v_e) := (
      let! t14 := t_index v_w 7 in
      let v_t1 := wrapping_add 32 (wrapping_add 32 (wrapping_add 32 (wrapping_add 32 v_a (g_sha256_Sigma1 v_f)) (g_sha256_Ch v_f v_g v_h)) 0x76f988da) t14 in
      let v_t2 := wrapping_add 32 (g_sha256_Sigma0 v_b) (g_sha256_Maj v_b v_c v_d) in
      let v_e := wrapping_add 32 v_e v_t1 in
      let v_a := wrapping_add 32 v_t1 v_t2 in
      tret (v_a, v_e)) in
    tret (v_w, v_a, v_e)) in
  let! (v_w, v_d, v_h) := (
    let! t9 := t_index v_w 8 in
    let! t10 := t_index v_w 6 in
    let! t11 := t_index v_w 1 in
    let! t12 := t_index v_w 9 in
    let! t13 := t_store v_w 8 (wrapping_add 32 (wrapping_add 32 (wrapping_add 32 t9 (g_sha256_sigma1 t10)) t11) (g_sha256_sigma0 t12)) in
    let v_w := t13 in
    let! (v_d, v_h) := (
      let! t14 := t_index v_w 8 in
      let v_t1 := wrapping_add 32 (wrapping_add 32 (wrapping_add 32 (wrapping_add 32 v_h (g_sha256_Sigma1 v_e)) (g_sha256_Ch v_e v_f v_g)) 0x983e5152) t14 in
      let v_t2 := wrapping_add 32 (g_sha256_Sigma0 v_a) (g_sha256_Maj v_a v_b v_c) in
      let v_d := wrapping_add 32 v_d v_t1 in
      let v_h := wrapping_add 32 v_t1 v_t2 in
      tret (v_d, v_h)) in
    tret (v_w, v_d, v_h)) in
  let! (v_w, v_c, v_g) := (
    let! t9 := t_index v_w 9 in
    let! t10 := t_index v_w 7 in
    let! t11 := t_index v_w 2 in
    let! t12 := t_index v_w 10 in
    let! t13 := t_store v_w 9 (wrapping_add 32 (wrapping_add 32 (wrapping_add 32 t9 (g_sha256_sigma1 t10)) t11) (g_sha256_sigma0 t12)) in
    let v_w := t13 in
    let! (v_c, v_g) := (
      let! t14 := t_index v_w 9 in
      let v_t1 := wrapping_add 32 (wrapping_add 32 (wrapping_add 32 (wrapping_add 32 v_g (g_sha256_Sigma1 v_d)) (g_sha256_Ch v_d v_e v_f)) 0xa831c66d) t14 in
      let v_t2 := wrapping_add 32 (g_sha256_Sigma0 v_h) (g_sha256_Maj v_h v_a v_b) in
      let v_c := wrapping_add 32 v_c v_t1 in
      let v_g := wrapping_add 32 v_t1 v_t2 in
      tret (v_c, v_g)) in
    tret (v_w, v_c, v_g)) in
  let! (v_w, v_b, v_f) := (
    let! t9 := t_index v_w 10 in
    let! t10 := t_index v_w 8 in
    let! t11 := t_index v_w 3 in
    let! t12 := t_index v_w 11 in
    let! t13 := t_store v_w 10 (wrapping_add 32 (wrapping_add 32 (wrapping_add 32 t9 (g_sha256_sigma1 t10)) t11) (g_sha256_sigma0 t12)) in
    let v_w := t13 in
    let! (v_b, v_f) := (
      let! t14 := t_index v_w 10 in
      let v_t1 := wrapping_add 32 (wrapping_add 32 (wrapping_add 32 (wrapping_add 32 v_f (g_sha256_Sigma1 v_c)) (g_sha256_Ch v_c v_d v_e)) 0xb00327c8) t14 in
      let v_t2 := wrapping_add 32 (g_sha256_Sigma0 v_g) (g_sha256_Maj v_g v_h v_a) in
      let v_b := wrapping_add 32 v_b v_t1 in
      let v_f := wrapping_add 32 v_t1 v_t2 in
      tret (v_b, v_f)) in
    tret (v_w, v_b, v_f)) in
  let! (v_w, v_a, v_e) := (
    let! t9 := t_index v_w 11 in
    let! t10 := t_index v_w 9 in
    let! t11 := t_index v_w 4 in
    let! t12 := t_index v_w 12 in
    let! t13 := t_store v_w 11 (wrapping_add 32 (wrapping_add 32 (wrapping_add 32 t9 (g_sha256_sigma1 t10)) t11) (g_sha256_sigma0 t12)) in
    let v_w := t13 in
    let! (v_a, v_e) := (
      let! t14 := t_index v_w 11 in
      let v_t1 := wrapping_add 32 (wrapping_add 32 (wrapping_add 32 (wrapping_add 32 v_e (g_sha256_Sigma1 v_b)) (g_sha256_Ch v_b v_c v_d)) 0xbf597fc7) t14 in
      let v_t2 := wrapping_add 32 (g_sha256_Sigma0 v_f) (g_sha256_Maj v_f v_g v_h) in
      let v_a := wrapping_add 32 v_a v_t1 in
      let v_e := wrapping_add 32 v_t1 v_t2 in
      tret (v_a, v_e)) in
    tret (v_w, v_a, v_e)) in
  let! (v_w, v_d, v_h) := (
    let! t9 := t_index v_w 12 in
    let! t10 := t_index v_w 10 in
    let! t11 := t_index v_w 5 in
    let! t12 := t_index v_w 13 in
    let! t13 := t_store v_w 12 (wrapping_add 32 (wrapping_add 32 (wrapping_add 32 t9 (g_sha256_sigma1 t10)) t11) (g_sha256_sigma0 t12)) in
    let v_w := t13 in
    let! (v_d, v_h) := (
      let! t14 := t_index v_w 12 in
      let v_t1 := wrapping_add 32 (wrapping_add 32 (wrapping_add 32 (wrapping_add 32 v_d (g_sha256_Sigma1 v_a)) (g_sha256_Ch v_a v_b v_c)) 0xc6e00bf3) t14 in
      let v_t2 := wrapping_add 32 (g_sha256_Sigma0 v_e) (g_sha256_Maj v_e v_f v_g) in
      let v_h := wrapping_add 32 v_h v_t1 in
      let v_d := wrapping_add 32 v_t1 v_t2 in
      tret (v_d, v_h)) in
    tret (v_w, v_d, v_h)) in
  let! (v_w, v_c, v_g) := (
    let! t9 := t_index v_w 13 in
    let! t10 := t_index v_w 11 in
    let! t11 := t_index v_w 6 in
    let! t12 := t_index v_w 14 in
    let! t13 := t_store v_w 13 (wrapping_add 32 (wrapping_add 32 (wrapping_add 32 t9 (g_sha256_sigma1 t10)) t11) (g_sha256_sigma0 t12)) in
    let v_w := t13 in
    let! (v_c, v_g) := (
      let! t14 := t_index v_w 13 in
      let v_t1 := wrapping_add 32 (wrapping_add 32 (wrapping_add 32 (wrapping_add 32 v_c (g_sha256_Sigma1 v_h)) (g_sha256_Ch v_h v_a v_b)) 0xd5a79147) t14 in
      let v_t2 := wrapping_add 32 (g_sha256_Sigma0 v_d) (g_sha256_Maj v_d v_e v_f) in
      let v_g := wrapping_add 32 v_g v_t1 in
      let v_c := wrapping_add 32 v_t1 v_t2 in
      tret (v_c, v_g)) in
    tret (v_w, v_c, v_g)) in
  let! (v_w, v_b, v_f) := (
    let! t9 := t_index v_w 14 in
    let! t10 := t_index v_w 12 in
    let! t11 := t_index v_w 7 in
    let! t12 := t_index v_w 15 in
    let! t13 := t_store v_w 14 (wrapping_add 32 (wrapping_add 32 (wrapping_add 32 t9 (g_sha256_sigma1 t10)) t11) (g_sha256_sigma0 t12)) in
    let v_w := t13 in
    let! (v_b, v_f) := (
      let! t14 := t_index v_w 14 in
      let v_t1 := wrapping_add 32 (wrapping_add 32 (wrapping_add 32 (wrapping_add 32 v_b (g_sha256_Sigma1 v_g)) (g_sha256_Ch v_g v_h v_a)) 0x6ca6351) t14 in
      let v_t2 := wrapping_add 32 (g_sha256_Sigma0 v_c) (g_sha256_Maj v_c v_d v_e) in
      let v_f := wrapping_add 32 v_f v_t1 in
      let v_b := wrapping_add 32 v_t1 v_t2 in
      tret (v_b, v_f)) in
    tret (v_w, v_b, v_f)) in
  let! (v_w, v_a, v_e) := (
    let! t9 := t_index v_w 15 in
    let! t10 := t_index v_w 13 in
    let! t11 := t_index v_w 8 in
    let! t12 := t_index v_w 0 in
    let! t13 := t_store v_w 15 (wrapping_add 32 (wrapping_add 32 (wrapping_add 32 t9 (g_sha256_sigma1 t10)) t11) (g_sha256_sigma0 t12)) in
    let v_w := t13 in
    let! (v_a, v_e) := (
      let! t14 := t_index v_w 15 in
      let v_t1 := wrapping_add 32 (wrapping_add 32 (wrapping_add 32 (wrapping_add 32 v_a (g_sha256_Sigma1 v_f)) (g_sha256_Ch v_f v_g v_h)) 0x14292967) t14 in
      let v_t2 := wrapping_add 32 (g_sha256_Sigma0 v_b) (g_sha256_Maj v_b v_c v_d) in
      let v_e := wrapping_add 32 v_e v_t1 in
      let v_a := wrapping_add 32 v_t1 v_t2 in
      tret (v_a, v_e)) in
    tret (v_w, v_a, v_e)) in
  t_sha256_Engine_software_process_block_fast_part2 v_self v_w v_a v_b v_c v_d v_e v_f v_g v_h.

Definition t_sha256_Engine_software_process_block_fast (cfg : config) (v_self : engine) : tm (engine) :=
  let! _ := t_debug_assert cfg ((len (e_buffer v_self)) =? 64) in
  let v_w := array 0 16 in
  let! v_w := t_zip_iter_mut v_w (chunks_exact 4 (e_buffer v_self)) (fun v_w_val v_buff_bytes =>
      let! t1 := tlift (from_be_bytes 4 v_buff_bytes) in
      let v_w_val := t1 in
      tret v_w_val) in
  let! v_a := t_index (e_h v_self) 0 in
  let! v_b := t_index (e_h v_self) 1 in
  let! v_c := t_index (e_h v_self) 2 in
  let! v_d := t_index (e_h v_self) 3 in
  let! v_e := t_index (e_h v_self) 4 in
  let! v_f := t_index (e_h v_self) 5 in
  let! v_g := t_index (e_h v_self) 6 in
  let! v_h := t_index (e_h v_self) 7 in
  let! (v_d, v_h) := (
    let! t9 := t_index v_w 0 in
    let v_t1 := wrapping_add 32 (wrapping_add 32 (wrapping_add 32 (wrapping_add 32 v_h (g_sha256_Sigma1 v_e)) (g_sha256_Ch v_e v_f v_g)) 0x428a2f98) t9 in
    let v_t2 := wrapping_add 32 (g_sha256_Sigma0 v_a) (g_sha256_Maj v_a v_b v_c) in
    let v_d := wrapping_add 32 v_d v_t1 in
    let v_h := wrapping_add 32 v_t1 v_t2 in
    tret (v_d, v_h)) in
  let! (v_c, v_g) := (
    let! t9 := t_index v_w 1 in
    let v_t1 := wrapping_add 32 (wrapping_add 32 (wrapping_add 32 (wrapping_add 32 v_g (g_sha256_Sigma1 v_d)) (g_sha256_Ch v_d v_e v_f)) 0x71374491) t9 in
    let v_t2 := wrapping_add 32 (g_sha256_Sigma0 v_h) (g_sha256_Maj v_h v_a v_b) in
    let v_c := wrapping_add 32 v_c v_t1 in
    let v_g := wrapping_add 32 v_t1 v_t2 in
    tret (v_c, v_g)) in
  let! (v_b, v_f) := (
    let! t9 := t_index v_w 2 in
    let v_t1 := wrapping_add 32 (wrapping_add 32 (wrapping_add 32 (wrapping_add 32 v_f (g_sha256_Sigma1 v_c)) (g_sha256_Ch v_c v_d v_e)) 0xb5c0fbcf) t9 in
    let v_t2 := wrapping_add 32 (g_sha256_Sigma0 v_g) (g_sha256_Maj v_g v_h v_a) in
    let v_b := wrapping_add 32 v_b v_t1 in
    let v_f := wrapping_add 32 v_t1 v_t2 in
    tret (v_b, v_f)) in
  let! (v_a, v_e) := (
    let! t9 := t_index v_w 3 in
    let v_t1 := wrapping_add 32 (wrapping_add 32 (wrapping_add 32 (wrapping_add 32 v_e (g_sha256_Sigma1 v_b)) (g_sha256_Ch v_b v_c v_d)) 0xe9b5dba5) t9 in
    let v_t2 := wrapping_add 32 (g_sha256_Sigma0 v_f) (g_sha256_Maj v_f v_g v_h) in
    let v_a := wrapping_add 32 v_a v_t1 in
    let v_e := wrapping_add 32 v_t1 v_t2 in
    tret (v_a, v_e)) in
  let! (v_d, v_h) := (
    let! t9 := t_index v_w 4 in
    let v_t1 := wrapping_add 32 (wrapping_add 32 (wrapping_add 32 (wrapping_add 32 v_d (g_sha256_Sigma1 v_a)) (g_sha256_Ch v_a v_b v_c)) 0x3956c25b) t9 in
    let v_t2 := wrapping_add 32 (g_sha256_Sigma0 v_e) (g_sha256_Maj v_e v_f v_g) in
    let v_h := wrapping_add 32 v_h v_t1 in
    let v_d := wrapping_add 32 v_t1 v_t2 in
    tret (v_d, v_h)) in
  let! (v_c, v_g) := (
    let! t9 := t_index v_w 5 in
    let v_t1 := wrapping_add 32 (wrapping_add 32 (wrapping_add 32 (wrapping_add 32 v_c (g_sha256_Sigma1 v_h)) (g_sha256_Ch v_h v_a v_b)) 0x59f111f1) t9 in
    let v_t2 := wrapping_add 32 (g_sha256_Sigma0 v_d) (g_sha256_Maj v_d v_e v_f) in
    let v_g := wrapping_add 32 v_g v_t1 in
    let v_c := wrapping_add 32 v_t1 v_t2 in
    tret (v_c, v_g)) in
  let! (v_b, v_f) := (
    let! t9 := t_index v_w 6 in
    let v_t1 := wrapping_add 32 (wrapping_add 32 (wrapping_add 32 (wrapping_add 32 v_b (g_sha256_Sigma1 v_g)) (g_sha256_Ch v_g v_h v_a)) 0x923f82a4) t9 in
    let v_t2 := wrapping_add 32 (g_sha256_Sigma0 v_c) (g_sha256_Maj v_c v_d v_e) in
    let v_f := wrapping_add 32 v_f v_t1 in
    let v_b := wrapping_add 32 v_t1 v_t2 in
    tret (v_b, v_f)) in
  let! (v_a, v_e) := (
    let! t9 := t_index v_w 7 in
    let v_t1 := wrapping_add 32 (wrapping_add 32 (wrapping_add 32 (wrapping_add 32 v_a (g_sha256_Sigma1 v_f)) (g_sha256_Ch v_f v_g v_h)) 0xab1c5ed5) t9 in
    let v_t2 := wrapping_add 32 (g_sha256_Sigma0 v_b) (g_sha256_Maj v_b v_c v_d) in
    let v_e := wrapping_add 32 v_e v_t1 in
    let v_a := wrapping_add 32 v_t1 v_t2 in
    tret (v_a, v_e)) in
  let! (v_d, v_h) := (
    let! t9 := t_index v_w 8 in
    let v_t1 := wrapping_add 32 (wrapping_add 32 (wrapping_add 32 (wrapping_add 32 v_h (g_sha256_Sigma1 v_e)) (g_sha256_Ch v_e v_f v_g)) 0xd807aa98) t9 in
    let v_t2 := wrapping_add 32 (g_sha256_Sigma0 v_a) (g_sha256_Maj v_a v_b v_c) in
    let v_d := wrapping_add 32 v_d v_t1 in
    let v_h := wrapping_add 32 v_t1 v_t2 in
    tret (v_d, v_h)) in
  let! (v_c, v_g) := (
    let! t9 := t_index v_w 9 in
    let v_t1 := wrapping_add 32 (wrapping_add 32 (wrapping_add 32 (wrapping_add 32 v_g (g_sha256_Sigma1 v_d)) (g_sha256_Ch v_d v_e v_f)) 0x12835b01) t9 in
    let v_t2 := wrapping_add 32 (g_sha256_Sigma0 v_h) (g_sha256_Maj v_h v_a v_b) in
    let v_c := wrapping_add 32 v_c v_t1 in
    let v_g := wrapping_add 32 v_t1 v_t2 in
    tret (v_c, v_g)) in
  let! (v_b, v_f) := (
    let! t9 := t_index v_w 10 in
    let v_t1 := wrapping_add 32 (wrapping_add 32 (wrapping_add 32 (wrapping_add 32 v_f (g_sha256_Sigma1 v_c)) (g_sha256_Ch v_c v_d v_e)) 0x243185be) t9 in
    let v_t2 := wrapping_add 32 (g_sha256_Sigma0 v_g) (g_sha256_Maj v_g v_h v_a) in
    let v_b := wrapping_add 32 v_b v_t1 in
    let v_f := wrapping_add 32 v_t1 v_t2 in
    tret (v_b, v_f)) in
  let! (v_a, v_e) := (
    let! t9 := t_index v_w 11 in
    let v_t1 := wrapping_add 32 (wrapping_add 32 (wrapping_add 32 (wrapping_add 32 v_e (g_sha256_Sigma1 v_b)) (g_sha256_Ch v_b v_c v_d)) 0x550c7dc3) t9 in
    let v_t2 := wrapping_add 32 (g_sha256_Sigma0 v_f) (g_sha256_Maj v_f v_g v_h) in
    let v_a := wrapping_add 32 v_a v_t1 in
    let v_e := wrapping_add 32 v_t1 v_t2 in
    tret (v_a, v_e)) in
  let! (v_d, v_h) := (
    let! t9 := t_index v_w 12 in
    let v_t1 := wrapping_add 32 (wrapping_add 32 (wrapping_add 32 (wrapping_add 32 v_d (g_sha256_Sigma1 v_a)) (g_sha256_Ch v_a v_b v_c)) 0x72be5d74) t9 in
    let v_t2 := wrapping_add 32 (g_sha256_Sigma0 v_e) (g_sha256_Maj v_e v_f v_g) in
    let v_h := wrapping_add 32 v_h v_t1 in
    let v_d := wrapping_add 32 v_t1 v_t2 in
    tret (v_d, v_h)) in
  let! (v_c, v_g) := (
    let! t9 := t_index v_w 13 in
    let v_t1 := wrapping_add 32 (wrapping_add 32 (wrapping_add 32 (wrapping_add 32 v_c (g_sha256_Sigma1 v_h)) (g_sha256_Ch v_h v_a v_b)) 0x80deb1fe) t9 in
    let v_t2 := wrapping_add 32 (g_sha256_Sigma0 v_d) (g_sha256_Maj v_d v_e v_f) in
    let v_g := wrapping_add 32 v_g v_t1 in
    let v_c := wrapping_add 32 v_t1 v_t2 in
    tret (v_c, v_g)) in
  let! (v_b, v_f) := (
    let! t9 := t_index v_w 14 in
    let v_t1 := wrapping_add 32 (wrapping_add 32 (wrapping_add 32 (wrapping_add 32 v_b (g_sha256_Sigma1 v_g)) (g_sha256_Ch v_g v_h v_a)) 0x9bdc06a7) t9 in
    let v_t2 := wrapping_add 32 (g_sha256_Sigma0 v_c) (g_sha256_Maj v_c v_d v_e) in
    let v_f := wrapping_add 32 v_f v_t1 in
    let v_b := wrapping_add 32 v_t1 v_t2 in
    tret (v_b, v_f)) in
  let! (v_a, v_e) := (
    let! t9 := t_index v_w 15 in
    let v_t1 := wrapping_add 32 (wrapping_add 32 (wrapping_add 32 (wrapping_add 32 v_a (g_sha256_Sigma1 v_f)) (g_sha256_Ch v_f v_g v_h)) 0xc19bf174) t9 in
    let v_t2 := wrapping_add 32 (g_sha256_Sigma0 v_b) (g_sha256_Maj v_b v_c v_d) in
    let v_e := wrapping_add 32 v_e v_t1 in
    let v_a := wrapping_add 32 v_t1 v_t2 in
    tret (v_a, v_e)) in
  t_sha256_Engine_software_process_block_fast_part1 v_self v_w v_a v_b v_c v_d v_e v_f v_g v_h.

(** software_process_block, src/sha256.rs:721-814; feature small-hash on *)
Definition t_sha256_Engine_software_process_block_small_part4 v_self v_a v_b v_c v_d v_e v_f v_g v_h : tm (engine) :=
  let! t9 := t_index (e_h v_self) 0 in
  let! t10 := t_store (e_h v_self) 0 (wrapping_add 32 t9 v_a) in
  let v_self := mk_engine (e_buffer v_self) t10 (e_length v_self) in
  let! t11 := t_index (e_h v_self) 1 in
  let! t12 := t_store (e_h v_self) 1 (wrapping_add 32 t11 v_b) in
  let v_self := mk_engine (e_buffer v_self) t12 (e_length v_self) in
  let! t13 := t_index (e_h v_self) 2 in
  let! t14 := t_store (e_h v_self) 2 (wrapping_add 32 t13 v_c) in
  let v_self := mk_engine (e_buffer v_self) t14 (e_length v_self) in
  let! t15 := t_index (e_h v_self) 3 in
  let! t16 := t_store (e_h v_self) 3 (wrapping_add 32 t15 v_d) in
  let v_self := mk_engine (e_buffer v_self) t16 (e_length v_self) in
  let! t17 := t_index (e_h v_self) 4 in
  let! t18 := t_store (e_h v_self) 4 (wrapping_add 32 t17 v_e) in
  let v_self := mk_engine (e_buffer v_self) t18 (e_length v_self) in
  let! t19 := t_index (e_h v_self) 5 in
  let! t20 := t_store (e_h v_self) 5 (wrapping_add 32 t19 v_f) in
  let v_self := mk_engine (e_buffer v_self) t20 (e_length v_self) in
  let! t21 := t_index (e_h v_self) 6 in
  let! t22 := t_store (e_h v_self) 6 (wrapping_add 32 t21 v_g) in
  let v_self := mk_engine (e_buffer v_self) t22 (e_length v_self) in
  let! t23 := t_index (e_h v_self) 7 in
  let! t24 := t_store (e_h v_self) 7 (wrapping_add 32 t23 v_h) in
  let v_self := mk_engine (e_buffer v_self) t24 (e_length v_self) in
  tret v_self.

Definition t_sha256_Engine_software_process_block_small_part3 v_self v_w v_a v_b v_c v_d v_e v_f v_g v_h : tm (engine) :=
  let! (v_w, v_d, v_h) := (
    let! t9 := t_index v_w 0 in
    let! t10 := t_index v_w 14 in
    let! t11 := t_index v_w 9 in
    let! t12 := t_index v_w 1 in
    let v_updates := g_sha256_small_hash_later_round v_a v_b v_c v_d v_e v_f v_g v_h 0x19a4c116 t9 t10 t11 t12 in
    let '(t13, _, _) := v_updates in
    let v_d := t13 in
    let '(_, t14, _) := v_updates in
    let v_h := t14 in
    let '(_, _, t15) := v_updates in
    let! t16 := t_store v_w 0 t15 in
    let v_w := t16 in
    tret (v_w, v_d, v_h)) in
  let! (v_w, v_c, v_g) := (
    let! t9 := t_index v_w 1 in
    let! t10 := t_index v_w 15 in
    let! t11 := t_index v_w 10 in
    let! t12 := t_index v_w 2 in
    let v_updates := g_sha256_small_hash_later_round v_h v_a v_b v_c v_d v_e v_f v_g 0x1e376c08 t9 t10 t11 t12 in
    let '(t13, _, _) := v_updates in
    let v_c := t13 in
    let '(_, t14, _) := v_updates in
    let v_g := t14 in
    let '(_, _, t15) := v_updates in
    let! t16 := t_store v_w 1 t15 in
    let v_w := t16 in
    tret (v_w, v_c, v_g)) in
  let! (v_w, v_b, v_f) := (
    let! t9 := t_index v_w 2 in
    let! t10 := t_index v_w 0 in
    let! t11 := t_index v_w 11 in
    let! t12 := t_index v_w 3 in
    let v_updates := g_sha256_small_hash_later_round v_g v_h v_a v_b v_c v_d v_e v_f 0x2748774c t9 t10 t11 t12 in
    let '(t13, _, _) := v_updates in
    let v_b := t13 in
    let '(_, t14, _) := v_updates in
    let v_f := t14 in
    let '(_, _, t15) := v_updates in
    let! t16 := t_store v_w 2 t15 in
    let v_w := t16 in
    tret (v_w, v_b, v_f)) in
  let! (v_w, v_a, v_e) := (
    let! t9 := t_index v_w 3 in
    let! t10 := t_index v_w 1 in
    let! t11 := t_index v_w 12 in
    let! t12 := t_index v_w 4 in
    let v_updates := g_sha256_small_hash_later_round v_f v_g v_h v_a v_b v_c v_d v_e 0x34b0bcb5 t9 t10 t11 t12 in
    let '(t13, _, _) := v_updates in
    let v_a := t13 in
    let '(_, t14, _) := v_updates in
    let v_e := t14 in
    let '(_, _, t15) := v_updates in
    let! t16 := t_store v_w 3 t15 in
    let v_w := t16 in
    tret (v_w, v_a, v_e)) in
  let! (v_w, v_d, v_h) := (
    let! t9 := t_index v_w 4 in
    let! t10 := t_index v_w 2 in
    let! t11 := t_index v_w 13 in
    let! t12 := t_index v_w 5 in
    let v_updates := g_sha256_small_hash_later_round v_e v_f v_g v_h v_a v_b v_c v_d 0x391c0cb3 t9 t10 t11 t12 in
    let '(t13, _, _) := v_updates in
    let v_h := t13 in
    let '(_, t14, _) := v_updates in
    let v_d := t14 in
    let '(_, _, t15) := v_updates in
    let! t16 := t_store v_w 4 t15 in
    let v_w := t16 in
    tret (v_w, v_d, v_h)) in
  let! (v_w, v_c, v_g) := (
    let! t9 := t_index v_w 5 in
    let! t10 := t_index v_w 3 in
    let! t11 := t_index v_w 14 in
    let! t12 := t_index v_w 6 in
    let v_updates := g_sha256_small_hash_later_round v_d v_e v_f v_g v_h v_a v_b v_c 0x4ed8aa4a t9 t10 t11 t12 in
    let '(t13, _, _) := v_updates in
    let v_g := t13 in
    let '(_, t14, _) := v_updates in
    let v_c := t14 in
    let '(_, _, t15) := v_updates in
    let! t16 := t_store v_w 5 t15 in
    let v_w := t16 in
    tret (v_w, v_c, v_g)) in
  let! (v_w, v_b, v_f) := (
    let! t9 := t_index v_w 6 in
    let! t10 := t_index v_w 4 in
    let! t11 := t_index v_w 15 in
    let! t12 := t_index v_w 7 in
    let v_updates := g_sha256_small_hash_later_round v_c v_d v_e v_f v_g v_h v_a v_b 0x5b9cca4f t9 t10 t11 t12 in
    let '(t13, _, _) := v_updates in
    let v_f := t13 in
    let '(_, t14, _) := v_updates in
    let v_b := t14 in
    let '(_, _, t15) := v_updates in
    let! t16 := t_store v_w 6 t15 in
    let v_w := t16 in
    tret (v_w, v_b, v_f)) in
  let! (v_w, v_a, v_e) := (
    let! t9 := t_index v_w 7 in
    let! t10 := t_index v_w 5 in
    let! t11 := t_index v_w 0 in
    let! t12 := t_index v_w 8 in
    let v_updates := g_sha256_small_hash_later_round v_b v_c v_d v_e v_f v_g v_h v_a 0x682e6ff3 t9 t10 t11 t12 in
    let '(t13, _, _) := v_updates in
    let v_e := t13 in
    let '(_, t14, _) := v_updates in
    let v_a := t14 in
    let '(_, _, t15) := v_updates in
    let! t16 := t_store v_w 7 t15 in
    let v_w := t16 in
    tret (v_w, v_a, v_e)) in
  let! (v_w, v_d, v_h) := (
    let! t9 := t_index v_w 8 in
    let! t10 := t_index v_w 6 in
    let! t11 := t_index v_w 1 in
    let! t12 := t_index v_w 9 in
    let v_updates := g_sha256_small_hash_later_round v_a v_b v_c v_d v_e v_f v_g v_h 0x748f82ee t9 t10 t11 t12 in
    let '(t13, _, _) := v_updates in
    let v_d := t13 in
    let '(_, t14, _) := v_updates in
    let v_h := t14 in
    let '(_, _, t15) := v_updates in
    let! t16 := t_store v_w 8 t15 in
    let v_w := t16 in
    tret (v_w, v_d, v_h)) in
  let! (v_w, v_c, v_g) := (
    let! t9 := t_index v_w 9 in
    let! t10 := t_index v_w 7 in
    let! t11 := t_index v_w 2 in
    let! t12 := t_index v_w 10 in
    let v_updates := g_sha256_small_hash_later_round v_h v_a v_b v_c v_d v_e v_f v_g 0x78a5636f t9 t10 t11 t12 in
    let '(t13, _, _) := v_updates in
    let v_c := t13 in
    let '(_, t14, _) := v_updates in
    let v_g := t14 in
    let '(_, _, t15) := v_updates in
    let! t16 := t_store v_w 9 t15 in
    let v_w := t16 in
    tret (v_w, v_c, v_g)) in
  let! (v_w, v_b, v_f) := (
    let! t9 := t_index v_w 10 in
    let! t10 := t_index v_w 8 in
    let! t11 := t_index v_w 3 in
    let! t12 := t_index v_w 11 in
    let v_updates := g_sha256_small_hash_later_round v_g v_h v_a v_b v_c v_d v_e v_f 0x84c87814 t9 t10 t11 t12 in
    let '(t13, _, _) := v_updates in
    let v_b := t13 in
    let '(_, t14, _) := v_updates in
    let v_f := t14 in
    let '(_, _, t15) := v_updates in
    let! t16 := t_store v_w 10 t15 in
    let v_w := t16 in
    tret (v_w, v_b, v_f)) in
  let! (v_w, v_a, v_e) := (
    let! t9 := t_index v_w 11 in
    let! t10 := t_index v_w 9 in
    let! t11 := t_index v_w 4 in
    let! t12 := t_index v_w 12 in
    let v_updates := g_sha256_small_hash_later_round v_f v_g v_h v_a v_b v_c v_d v_e 0x8cc70208 t9 t10 t11 t12 in
    let '(t13, _, _) := v_updates in
    let v_a := t13 in
    let '(_, t14, _) := v_updates in
    let v_e := t14 in
    let '(_, _, t15) := v_updates in
    let! t16 := t_store v_w 11 t15 in
    let v_w := t16 in
    tret (v_w, v_a, v_e)) in
  let! (v_w, v_d, v_h) := (
    let! t9 := t_index v_w 12 in
    let! t10 := t_index v_w 10 in
    let! t11 := t_index v_w 5 in
    let! t12 := t_index v_w 13 in
    let v_updates := g_sha256_small_hash_later_round v_e v_f v_g v_h v_a v_b v_c v_d 0x90befffa t9 t10 t11 t12 in
    let '(t13, _, _) := v_updates in
    let v_h := t13 in
    let '(_, t14, _) := v_updates in
    let v_d := t14 in
    let '(_, _, t15) := v_updates in
    let! t16 := t_store v_w 12 t15 in
    let v_w := t16 in
    tret (v_w, v_d, v_h)) in
  let! (v_w, v_c, v_g) := (
    let! t9 := t_index v_w 13 in
    let! t10 := t_index v_w 11 in
    let! t11 := t_index v_w 6 in
    let! t12 := t_index v_w 14 in
    let v_updates := g_sha256_small_hash_later_round v_d v_e v_f v_g v_h v_a v_b v_c 0xa4506ceb t9 t10 t11 t12 in
    let '(t13, _, _) := v_updates in
    let v_g := t13 in
    let '(_, t14, _) := v_updates in
    let v_c := t14 in
    let '(_, _, t15) := v_updates in
    let! t16 := t_store v_w 13 t15 in
    let v_w := t16 in
    tret (v_w, v_c, v_g)) in
  let! (v_w, v_b, v_f) := (
    let! t9 := t_index v_w 14 in
    let! t10 := t_index v_w 12 in
    let! t11 := t_index v_w 7 in
    let! t12 := t_index v_w 15 in
    let v_updates := g_sha256_small_hash_later_round v_c v_d v_e v_f v_g v_h v_a v_b 0xbef9a3f7 t9 t10 t11 t12 in
    let '(t13, _, _) := v_updates in
    let v_f := t13 in
    let '(_, t14, _) := v_updates in
    let v_b := t14 in
    let '(_, _, t15) := v_updates in
    let! t16 := t_store v_w 14 t15 in
    let v_w := t16 in
    tret (v_w, v_b, v_f)) in
  let! (v_w, v_a, v_e) := (
    let! t9 := t_index v_w 15 in
    let! t10 := t_index v_w 13 in
    let! t11 := t_index v_w 8 in
    let! t12 := t_index v_w 0 in
    let v_updates := g_sha256_small_hash_later_round v_b v_c v_d v_e v_f v_g v_h v_a 0xc67178f2 t9 t10 t11 t12 in
    let '(t13, _, _) := v_updates in
    let v_e := t13 in
    let '(_, t14, _) := v_updates in
    let v_a := t14 in
    let '(_, _, t15) := v_updates in
    let! t16 := t_store v_w 15 t15 in
    let v_w := t16 in
    tret (v_w, v_a, v_e)) in
  t_sha256_Engine_software_process_block_small_part4 v_self v_a v_b v_c v_d v_e v_f v_g v_h.

Definition t_sha256_Engine_software_process_block_small_part2 v_self v_w v_a v_b v_c v_d v_e v_f v_g v_h : tm (engine) :=
  let! (v_w, v_d, v_h) := (
    let! t9 := t_index v_w 0 in
    let! t10 := t_index v_w 14 in
    let! t11 := t_index v_w 9 in
    let! t12 := t_index v_w 1 in
    let v_updates := g_sha256_small_hash_later_round v_a v_b v_c v_d v_e v_f v_g v_h 0x27b70a85 t9 t10 t11 t12 in
    let '(t13, _, _) := v_updates in
    let v_d := t13 in
    let '(_, t14, _) := v_updates in
    let v_h := t14 in
    let '(_, _, t15) := v_updates in
    let! t16 := t_store v_w 0 t15 in
    let v_w := t16 in
    tret (v_w, v_d, v_h)) in
  let! (v_w, v_c, v_g) := (
    let! t9 := t_index v_w 1 in
    let! t10 := t_index v_w 15 in
    let! t11 := t_index v_w 10 in
    let! t12 := t_index v_w 2 in
    let v_updates := g_sha256_small_hash_later_round v_h v_a v_b v_c v_d v_e v_f v_g 0x2e1b2138 t9 t10 t11 t12 in
    let '(t13, _, _) := v_updates in
    let v_c := t13 in
    let '(_, t14, _) := v_updates in
    let v_g := t14 in
    let '(_, _, t15) := v_updates in
    let! t16 := t_store v_w 1 t15 in
    let v_w := t16 in
    tret (v_w, v_c, v_g)) in
  let! (v_w, v_b, v_f) := (
    let! t9 := t_index v_w 2 in
    let! t10 := t_index v_w 0 in
    let! t11 := t_index v_w 11 in
    let! t12 := t_index v_w 3 in
    let v_updates := g_sha256_small_hash_later_round v_g v_h v_a v_b v_c v_d v_e v_f 0x4d2c6dfc t9 t10 t11 t12 in
    let '(t13, _, _) := v_updates in
    let v_b := t13 in
    let '(_, t14, _) := v_updates in
    let v_f := t14 in
    let '(_, _, t15) := v_updates in
    let! t16 := t_store v_w 2 t15 in
    let v_w := t16 in
    tret (v_w, v_b, v_f)) in
  let! (v_w, v_a, v_e) := (
    let! t9 := t_index v_w 3 in
    let! t10 := t_index v_w 1 in
    let! t11 := t_index v_w 12 in
    let! t12 := t_index v_w 4 in
    let v_updates := g_sha256_small_hash_later_round v_f v_g v_h v_a v_b v_c v_d v_e 0x53380d13 t9 t10 t11 t12 in
    let '(t13, _, _) := v_updates in
    let v_a := t13 in
    let '(_, t14, _) := v_updates in
    let v_e := t14 in
    let '(_, _, t15) := v_updates in
    let! t16 := t_store v_w 3 t15 in
    let v_w := t16 in
    tret (v_w, v_a, v_e)) in
  let! (v_w, v_d, v_h) := (
    let! t9 := t_index v_w 4 in
    let! t10 := t_index v_w 2 in
    let! t11 := t_index v_w 13 in
    let! t12 := t_index v_w 5 in
    let v_updates := g_sha256_small_hash_later_round v_e v_f v_g v_h v_a v_b v_c v_d 0x650a7354 t9 t10 t11 t12 in
    let '(t13, _, _) := v_updates in
    let v_h := t13 in
    let '(_, t14, _) := v_updates in
    let v_d := t14 in
    let '(_, _, t15) := v_updates in
    let! t16 := t_store v_w 4 t15 in
    let v_w := t16 in
    tret (v_w, v_d, v_h)) in
  let! (v_w, v_c, v_g) := (
    let! t9 := t_index v_w 5 in
    let! t10 := t_index v_w 3 in
    let! t11 := t_index v_w 14 in
    let! t12 := t_index v_w 6 in
    let v_updates := g_sha256_small_hash_later_round v_d v_e v_f v_g v_h v_a v_b v_c 0x766a0abb t9 t10 t11 t12 in
    let '(t13, _, _) := v_updates in
    let v_g := t13 in
    let '(_, t14, _) := v_updates in
    let v_c := t14 in
    let '(_, _, t15) := v_updates in
    let! t16 := t_store v_w 5 t15 in
    let v_w := t16 in
    tret (v_w, v_c, v_g)) in
  let! (v_w, v_b, v_f) := (
    let! t9 := t_index v_w 6 in
    let! t10 := t_index v_w 4 in
    let! t11 := t_index v_w 15 in
    let! t12 := t_index v_w 7 in
    let v_updates := g_sha256_small_hash_later_round v_c v_d v_e v_f v_g v_h v_a v_b 0x81c2c92e t9 t10 t11 t12 in
    let '(t13, _, _) := v_updates in
    let v_f := t13 in
    let '(_, t14, _) := v_updates in
    let v_b := t14 in
    let '(_, _, t15) := v_updates in
    let! t16 := t_store v_w 6 t15 in
    let v_w := t16 in
    tret (v_w, v_b, v_f)) in
  let! (v_w, v_a, v_e) := (
    let! t9 := t_index v_w 7 in
    let! t10 := t_index v_w 5 in
    let! t11 := t_index v_w 0 in
    let! t12 := t_index v_w 8 in
    let v_updates := g_sha256_small_hash_later_round v_b v_c v_d v_e v_f v_g v_h v_a 0x92722c85 t9 t10 t11 t12 in
    let '(t13, _, _) := v_updates in
    let v_e := t13 in
    let '(_, t14, _) := v_updates in
    let v_a := t14 in
    let '(_, _, t15) := v_updates in
    let! t16 := t_store v_w 7 t15 in
    let v_w := t16 in
    tret (v_w, v_a, v_e)) in
  let! (v_w, v_d, v_h) := (
    let! t9 := t_index v_w 8 in
    let! t10 := t_index v_w 6 in
    let! t11 := t_index v_w 1 in
    let! t12 := t_index v_w 9 in
    let v_updates := g_sha256_small_hash_later_round v_a v_b v_c v_d v_e v_f v_g v_h 0xa2bfe8a1 t9 t10 t11 t12 in
    let '(t13, _, _) := v_updates in
    let v_d := t13 in
    let '(_, t14, _) := v_updates in
    let v_h := t14 in
    let '(_, _, t15) := v_updates in
    let! t16 := t_store v_w 8 t15 in
    let v_w := t16 in
    tret (v_w, v_d, v_h)) in
  let! (v_w, v_c, v_g) := (
    let! t9 := t_index v_w 9 in
    let! t10 := t_index v_w 7 in
    let! t11 := t_index v_w 2 in
    let! t12 := t_index v_w 10 in
    let v_updates := g_sha256_small_hash_later_round v_h v_a v_b v_c v_d v_e v_f v_g 0xa81a664b t9 t10 t11 t12 in
    let '(t13, _, _) := v_updates in
    let v_c := t13 in
    let '(_, t14, _) := v_updates in
    let v_g := t14 in
    let '(_, _, t15) := v_updates in
    let! t16 := t_store v_w 9 t15 in
    let v_w := t16 in
    tret (v_w, v_c, v_g)) in
  let! (v_w, v_b, v_f) := (
    let! t9 := t_index v_w 10 in
    let! t10 := t_index v_w 8 in
    let! t11 := t_index v_w 3 in
    let! t12 := t_index v_w 11 in
    let v_updates := g_sha256_small_hash_later_round v_g v_h v_a v_b v_c v_d v_e v_f 0xc24b8b70 t9 t10 t11 t12 in
    let '(t13, _, _) := v_updates in
    let v_b := t13 in
    let '(_, t14, _) := v_updates in
    let v_f := t14 in
    let '(_, _, t15) := v_updates in
    let! t16 := t_store v_w 10 t15 in
    let v_w := t16 in
    tret (v_w, v_b, v_f)) in
  let! (v_w, v_a, v_e) := (
    let! t9 := t_index v_w 11 in
    let! t10 := t_index v_w 9 in
    let! t11 := t_index v_w 4 in
    let! t12 := t_index v_w 12 in
    let v_updates := g_sha256_small_hash_later_round v_f v_g v_h v_a v_b v_c v_d v_e 0xc76c51a3 t9 t10 t11 t12 in
    let '(t13, _, _) := v_updates in
    let v_a := t13 in
    let '(_, t14, _) := v_updates in
    let v_e := t14 in
    let '(_, _, t15) := v_updates in
    let! t16 := t_store v_w 11 t15 in
    let v_w := t16 in
    tret (v_w, v_a, v_e)) in
  let! (v_w, v_d, v_h) := (
    let! t9 := t_index v_w 12 in
    let! t10 := t_index v_w 10 in
    let! t11 := t_index v_w 5 in
    let! t12 := t_index v_w 13 in
    let v_updates := g_sha256_small_hash_later_round v_e v_f v_g v_h v_a v_b v_c v_d 0xd192e819 t9 t10 t11 t12 in
    let '(t13, _, _) := v_updates in
    let v_h := t13 in
    let '(_, t14, _) := v_updates in
    let v_d := t14 in
    let '(_, _, t15) := v_updates in
    let! t16 := t_store v_w 12 t15 in
    let v_w := t16 in
    tret (v_w, v_d, v_h)) in
  let! (v_w, v_c, v_g) := (
    let! t9 := t_index v_w 13 in
    let! t10 := t_index v_w 11 in
    let! t11 := t_index v_w 6 in
    let! t12 := t_index v_w 14 in
    let v_updates := g_sha256_small_hash_later_round v_d v_e v_f v_g v_h v_a v_b v_c 0xd6990624 t9 t10 t11 t12 in
    let '(t13, _, _) := v_updates in
    let v_g := t13 in
    let '(_, t14, _) := v_updates in
    let v_c := t14 in
    let '(_, _, t15) := v_updates in
    let! t16 := t_store v_w 13 t15 in
    let v_w := t16 in
    tret (v_w, v_c, v_g)) in
  let! (v_w, v_b, v_f) := (
    let! t9 := t_index v_w 14 in
    let! t10 := t_index v_w 12 in
    let! t11 := t_index v_w 7 in
    let! t12 := t_index v_w 15 in
    let v_updates := g_sha256_small_hash_later_round v_c v_d v_e v_f v_g v_h v_a v_b 0xf40e3585 t9 t10 t11 t12 in
    let '(t13, _, _) := v_updates in
    let v_f := t13 in
    let '(_, t14, _) := v_updates in
    let v_b := t14 in
    let '(_, _, t15) := v_updates in
    let! t16 := t_store v_w 14 t15 in
    let v_w := t16 in
    tret (v_w, v_b, v_f)) in
  let! (v_w, v_a, v_e) := (
    let! t9 := t_index v_w 15 in
    let! t10 := t_index v_w 13 in
    let! t11 := t_index v_w 8 in
    let! t12 := t_index v_w 0 in
    let v_updates := g_sha256_small_hash_later_round v_b v_c v_d v_e v_f v_g v_h v_a 0x106aa070 t9 t10 t11 t12 in
    let '(t13, _, _) := v_updates in
    let v_e := t13 in
    let '(_, t14, _) := v_updates in
    let v_a := t14 in
    let '(_, _, t15) := v_updates in
    let! t16 := t_store v_w 15 t15 in
    let v_w := t16 in
    tret (v_w, v_a, v_e)) in
  t_sha256_Engine_software_process_block_small_part3 v_self v_w v_a v_b v_c v_d v_e v_f v_g v_h.

Definition t_sha256_Engine_software_process_block_small_part1 v_self v_w v_a v_b v_c v_d v_e v_f v_g v_h : tm (engine) :=
  let! (v_w, v_d, v_h) := (
    let! t9 := t_index v_w 0 in
    let! t10 := t_index v_w 14 in
    let! t11 := t_index v_w 9 in
    let! t12 := t_index v_w 1 in
    let v_updates := g_sha256_small_hash_later_round v_a v_b v_c v_d v_e v_f v_g v_h 0xe49b69c1 t9 t10 t11 t12 in
    let '(t13, _, _) := v_updates in
    let v_d := t13 in
    let '(_, t14, _) := v_updates in
    let v_h := t14 in
    let '(_, _, t15) := v_updates in
    let! t16 := t_store v_w 0 t15 in
    let v_w := t16 in
    tret (v_w, v_d, v_h)) in
  let! (v_w, v_c, v_g) := (
    let! t9 := t_index v_w 1 in
    let! t10 := t_index v_w 15 in
    let! t11 := t_index v_w 10 in
    let! t12 := t_index v_w 2 in
    let v_updates := g_sha256_small_hash_later_round v_h v_a v_b v_c v_d v_e v_f v_g 0xefbe4786 t9 t10 t11 t12 in
    let '(t13, _, _) := v_updates in
    let v_c := t13 in
    let '(_, t14, _) := v_updates in
    let v_g := t14 in
    let '(_, _, t15) := v_updates in
    let! t16 := t_store v_w 1 t15 in
    let v_w := t16 in
    tret (v_w, v_c, v_g)) in
  let! (v_w, v_b, v_f) := (
    let! t9 := t_index v_w 2 in
    let! t10 := t_index v_w 0 in
    let! t11 := t_index v_w 11 in
    let! t12 := t_index v_w 3 in
    let v_updates := g_sha256_small_hash_later_round v_g v_h v_a v_b v_c v_d v_e v_f 0xfc19dc6 t9 t10 t11 t12 in
    let '(t13, _, _) := v_updates in
    let v_b := t13 in
    let '(_, t14, _) := v_updates in
    let v_f := t14 in
    let '(_, _, t15) := v_updates in
    let! t16 := t_store v_w 2 t15 in
    let v_w := t16 in
    tret (v_w, v_b, v_f)) in
  let! (v_w, v_a, v_e) := (
    let! t9 := t_index v_w 3 in
    let! t10 := t_index v_w 1 in
    let! t11 := t_index v_w 12 in
    let! t12 := t_index v_w 4 in
    let v_updates := g_sha256_small_hash_later_round v_f v_g v_h v_a v_b v_c v_d v_e 0x240ca1cc t9 t10 t11 t12 in
    let '(t13, _, _) := v_updates in
    let v_a := t13 in
    let '(_, t14, _) := v_updates in
    let v_e := t14 in
    let '(_, _, t15) := v_updates in
    let! t16 := t_store v_w 3 t15 in
    let v_w := t16 in
    tret (v_w, v_a, v_e)) in
  let! (v_w, v_d, v_h) := (
    let! t9 := t_index v_w 4 in
    let! t10 := t_index v_w 2 in
    let! t11 := t_index v_w 13 in
    let! t12 := t_index v_w 5 in
    let v_updates := g_sha256_small_hash_later_round v_e v_f v_g v_h v_a v_b v_c v_d 0x2de92c6f t9 t10 t11 t12 in
    let '(t13, _, _) := v_updates in
    let v_h := t13 in
    let '(_, t14, _) := v_updates in
    let v_d := t14 in
    let '(_, _, t15) := v_updates in
    let! t16 := t_store v_w 4 t15 in
    let v_w := t16 in
    tret (v_w, v_d, v_h)) in
  let! (v_w, v_c, v_g) := (
    let! t9 := t_index v_w 5 in
    let! t10 := t_index v_w 3 in
    let! t11 := t_index v_w 14 in
    let! t12 := t_index v_w 6 in
    let v_updates := g_sha256_small_hash_later_round v_d v_e v_f v_g v_h v_a v_b v_c 0x4a7484aa t9 t10 t11 t12 in
    let '(t13, _, _) := v_updates in
    let v_g := t13 in
    let '(_, t14, _) := v_updates in
    let v_c := t14 in
    let '(_, _, t15) := v_updates in
    let! t16 := t_store v_w 5 t15 in
    let v_w := t16 in
    tret (v_w, v_c, v_g)) in
  let! (v_w, v_b, v_f) := (
    let! t9 := t_index v_w 6 in
    let! t10 := t_index v_w 4 in
    let! t11 := t_index v_w 15 in
    let! t12 := t_index v_w 7 in
    let v_updates := g_sha256_small_hash_later_round v_c v_d v_e v_f v_g v_h v_a v_b 0x5cb0a9dc t9 t10 t11 t12 in
    let '(t13, _, _) := v_updates in
    let v_f := t13 in
    let '(_, t14, _) := v_updates in
    let v_b := t14 in
    let '(_, _, t15) := v_updates in
    let! t16 := t_store v_w 6 t15 in
    let v_w := t16 in
    tret (v_w, v_b, v_f)) in
  let! (v_w, v_a, v_e) := (
    let! t9 := t_index v_w 7 in
    let! t10 := t_index v_w 5 in
    let! t11 := t_index v_w 0 in
    let! t12 := t_index v_w 8 in
    let v_updates := g_sha256_small_hash_later_round v_b v_c v_d v_e v_f v_g v_h v_a 0x76f988da t9 t10 t11 t12 in
    let '(t13, _, _) := v_updates in
    let v_e := t13 in
    let '(_, t14, _) := v_updates in
    let v_a := t14 in
    let '(_, _, t15) := v_updates in
    let! t16 := t_store v_w 7 t15 in
    let v_w := t16 in
    tret (v_w, v_a, v_e)) in
  let! (v_w, v_d, v_h) := (
    let! t9 := t_index v_w 8 in
    let! t10 := t_index v_w 6 in
    let! t11 := t_index v_w 1 in
    let! t12 := t_index v_w 9 in
    let v_updates := g_sha256_small_hash_later_round v_a v_b v_c v_d v_e v_f v_g v_h 0x983e5152 t9 t10 t11 t12 in
    let '(t13, _, _) := v_updates in
    let v_d := t13 in
    let '(_, t14, _) := v_updates in
    let v_h := t14 in
    let '(_, _, t15) := v_updates in
    let! t16 := t_store v_w 8 t15 in
    let v_w := t16 in
    tret (v_w, v_d, v_h)) in
  let! (v_w, v_c, v_g) := (
    let! t9 := t_index v_w 9 in
    let! t10 := t_index v_w 7 in
    let! t11 := t_index v_w 2 in
    let! t12 := t_index v_w 10 in
    let v_updates := g_sha256_small_hash_later_round v_h v_a v_b v_c v_d v_e v_f v_g 0xa831c66d t9 t10 t11 t12 in
    let '(t13, _, _) := v_updates in
    let v_c := t13 in
    let '(_, t14, _) := v_updates in
    let v_g := t14 in
    let '(_, _, t15) := v_updates in
    let! t16 := t_store v_w 9 t15 in
    let v_w := t16 in
    tret (v_w, v_c, v_g)) in
  let! (v_w, v_b, v_f) := (
    let! t9 := t_index v_w 10 in
    let! t10 := t_index v_w 8 in
    let! t11 := t_index v_w 3 in
    let! t12 := t_index v_w 11 in
    let v_updates := g_sha256_small_hash_later_round v_g v_h v_a v_b v_c v_d v_e v_f 0xb00327c8 t9 t10 t11 t12 in
    let '(t13, _, _) := v_updates in
    let v_b := t13 in
    let '(_, t14, _) := v_updates in
    let v_f := t14 in
    let '(_, _, t15) := v_updates in
    let! t16 := t_store v_w 10 t15 in
    let v_w := t16 in
    tret (v_w, v_b, v_f)) in
  let! (v_w, v_a, v_e) := (
    let! t9 := t_index v_w 11 in
    let! t10 := t_index v_w 9 in
    let! t11 := t_index v_w 4 in
    let! t12 := t_index v_w 12 in
    let v_updates := g_sha256_small_hash_later_round v_f v_g v_h v_a v_b v_c v_d v_e 0xbf597fc7 t9 t10 t11 t12 in
    let '(t13, _, _) := v_updates in
    let v_a := t13 in
    let '(_, t14, _) := v_updates in
    let v_e := t14 in
    let '(_, _, t15) := v_updates in
    let! t16 := t_store v_w 11 t15 in
    let v_w := t16 in
    tret (v_w, v_a, v_e)) in
  let! (v_w, v_d, v_h) := (
    let! t9 := t_index v_w 12 in
    let! t10 := t_index v_w 10 in
    let! t11 := t_index v_w 5 in
    let! t12 := t_index v_w 13 in
    let v_updates := g_sha256_small_hash_later_round v_e v_f v_g v_h v_a v_b v_c v_d 0xc6e00bf3 t9 t10 t11 t12 in
    let '(t13, _, _) := v_updates in
    let v_h := t13 in
    let '(_, t14, _) := v_updates in
    let v_d := t14 in
    let '(_, _, t15) := v_updates in
    let! t16 := t_store v_w 12 t15 in
    let v_w := t16 in
    tret (v_w, v_d, v_h)) in
  let! (v_w, v_c, v_g) := (
    let! t9 := t_index v_w 13 in
    let! t10 := t_index v_w 11 in
    let! t11 := t_index v_w 6 in
    let! t12 := t_index v_w 14 in
    let v_updates := g_sha256_small_hash_later_round v_d v_e v_f v_g v_h v_a v_b v_c 0xd5a79147 t9 t10 t11 t12 in
    let '(t13, _, _) := v_updates in
    let v_g := t13 in
    let '(_, t14, _) := v_updates in
    let v_c := t14 in
    let '(_, _, t15) := v_updates in
    let! t16 := t_store v_w 13 t15 in
    let v_w := t16 in
    tret (v_w, v_c, v_g)) in
  let! (v_w, v_b, v_f) := (
    let! t9 := t_index v_w 14 in
    let! t10 := t_index v_w 12 in
    let! t11 := t_index v_w 7 in
    let! t12 := t_index v_w 15 in
    let v_updates := g_sha256_small_hash_later_round v_c v_d v_e v_f v_g v_h v_a v_b 0x6ca6351 t9 t10 t11 t12 in
    let '(t13, _, _) := v_updates in
    let v_f := t13 in
    let '(_, t14, _) := v_updates in
    let v_b := t14 in
    let '(_, _, t15) := v_updates in
    let! t16 := t_store v_w 14 t15 in
    let v_w := t16 in
    tret (v_w, v_b, v_f)) in
  let! (v_w, v_a, v_e) := (
    let! t9 := t_index v_w 15 in
    let! t10 := t_index v_w 13 in
    let! t11 := t_index v_w 8 in
    let! t12 := t_index v_w 0 in
    let v_updates := g_sha256_small_hash_later_round v_b v_c v_d v_e v_f v_g v_h v_a 0x14292967 t9 t10 t11 t12 in
    let '(t13, _, _) := v_updates in
    let v_e := t13 in
    let '(_, t14, _) := v_updates in
    let v_a := t14 in
    let '(_, _, t15) := v_updates in
    let! t16 := t_store v_w 15 t15 in
    let v_w := t16 in
    tret (v_w, v_a, v_e)) in
  t_sha256_Engine_software_process_block_small_part2 v_self v_w v_a v_b v_c v_d v_e v_f v_g v_h.

Definition t_sha256_Engine_software_process_block_small (cfg : config) (v_self : engine) : tm (engine) :=
  let! _ := t_debug_assert cfg ((len (e_buffer v_self)) =? 64) in
  let v_w := array 0 16 in
  let! v_w := t_zip_iter_mut v_w (chunks_exact 4 (e_buffer v_self)) (fun v_w_val v_buff_bytes =>
      let! t1 := tlift (from_be_bytes 4 v_buff_bytes) in
      let v_w_val := t1 in
      tret v_w_val) in
  let! v_a := t_index (e_h v_self) 0 in
  let! v_b := t_index (e_h v_self) 1 in
  let! v_c := t_index (e_h v_self) 2 in
  let! v_d := t_index (e_h v_self) 3 in
  let! v_e := t_index (e_h v_self) 4 in
  let! v_f := t_index (e_h v_self) 5 in
  let! v_g := t_index (e_h v_self) 6 in
  let! v_h := t_index (e_h v_self) 7 in
  let! (v_d, v_h) := (
    let! t9 := t_index v_w 0 in
    let v_updates := g_sha256_small_hash_round v_a v_b v_c v_d v_e v_f v_g v_h 0x428a2f98 t9 in
    let '(t10, _) := v_updates in
    let v_d := t10 in
    let '(_, t11) := v_updates in
    let v_h := t11 in
    tret (v_d, v_h)) in
  let! (v_c, v_g) := (
    let! t9 := t_index v_w 1 in
    let v_updates := g_sha256_small_hash_round v_h v_a v_b v_c v_d v_e v_f v_g 0x71374491 t9 in
    let '(t10, _) := v_updates in
    let v_c := t10 in
    let '(_, t11) := v_updates in
    let v_g := t11 in
    tret (v_c, v_g)) in
  let! (v_b, v_f) := (
    let! t9 := t_index v_w 2 in
    let v_updates := g_sha256_small_hash_round v_g v_h v_a v_b v_c v_d v_e v_f 0xb5c0fbcf t9 in
    let '(t10, _) := v_updates in
    let v_b := t10 in
    let '(_, t11) := v_updates in
    let v_f := t11 in
    tret (v_b, v_f)) in
  let! (v_a, v_e) := (
    let! t9 := t_index v_w 3 in
    let v_updates := g_sha256_small_hash_round v_f v_g v_h v_a v_b v_c v_d v_e 0xe9b5dba5 t9 in
    let '(t10, _) := v_updates in
    let v_a := t10 in
    let '(_, t11) := v_updates in
    let v_e := t11 in
    tret (v_a, v_e)) in
  let! (v_d, v_h) := (
    let! t9 := t_index v_w 4 in
    let v_updates := g_sha256_small_hash_round v_e v_f v_g v_h v_a v_b v_c v_d 0x3956c25b t9 in
    let '(t10, _) := v_updates in
    let v_h := t10 in
    let '(_, t11) := v_updates in
    let v_d := t11 in
    tret (v_d, v_h)) in
  let! (v_c, v_g) := (
    let! t9 := t_index v_w 5 in
    let v_updates := g_sha256_small_hash_round v_d v_e v_f v_g v_h v_a v_b v_c 0x59f111f1 t9 in
    let '(t10, _) := v_updates in
    let v_g := t10 in
    let '(_, t11) := v_updates in
    let v_c := t11 in
    tret (v_c, v_g)) in
  let! (v_b, v_f) := (
    let! t9 := t_index v_w 6 in
    let v_updates := g_sha256_small_hash_round v_c v_d v_e v_f v_g v_h v_a v_b 0x923f82a4 t9 in
    let '(t10, _) := v_updates in
    let v_f := t10 in
    let '(_, t11) := v_updates in
    let v_b := t11 in
    tret (v_b, v_f)) in
  let! (v_a, v_e) := (
    let! t9 := t_index v_w 7 in
    let v_updates := g_sha256_small_hash_round v_b v_c v_d v_e v_f v_g v_h v_a 0xab1c5ed5 t9 in
    let '(t10, _) := v_updates in
    let v_e := t10 in
    let '(_, t11) := v_updates in
    let v_a := t11 in
    tret (v_a, v_e)) in
  let! (v_d, v_h) := (
    let! t9 := t_index v_w 8 in
    let v_updates := g_sha256_small_hash_round v_a v_b v_c v_d v_e v_f v_g v_h 0xd807aa98 t9 in
    let '(t10, _) := v_updates in
    let v_d := t10 in
    let '(_, t11) := v_updates in
    let v_h := t11 in
    tret (v_d, v_h)) in
  let! (v_c, v_g) := (
    let! t9 := t_index v_w 9 in
    let v_updates := g_sha256_small_hash_round v_h v_a v_b v_c v_d v_e v_f v_g 0x12835b01 t9 in
    let '(t10, _) := v_updates in
    let v_c := t10 in
    let '(_, t11) := v_updates in
    let v_g := t11 in
    tret (v_c, v_g)) in
  let! (v_b, v_f) := (
    let! t9 := t_index v_w 10 in
    let v_updates := g_sha256_small_hash_round v_g v_h v_a v_b v_c v_d v_e v_f 0x243185be t9 in
    let '(t10, _) := v_updates in
    let v_b := t10 in
    let '(_, t11) := v_updates in
    let v_f := t11 in
    tret (v_b, v_f)) in
  let! (v_a, v_e) := (
    let! t9 := t_index v_w 11 in
    let v_updates := g_sha256_small_hash_round v_f v_g v_h v_a v_b v_c v_d v_e 0x550c7dc3 t9 in
    let '(t10, _) := v_updates in
    let v_a := t10 in
    let '(_, t11) := v_updates in
    let v_e := t11 in
    tret (v_a, v_e)) in
  let! (v_d, v_h) := (
    let! t9 := t_index v_w 12 in
    let v_updates := g_sha256_small_hash_round v_e v_f v_g v_h v_a v_b v_c v_d 0x72be5d74 t9 in
    let '(t10, _) := v_updates in
    let v_h := t10 in
    let '(_, t11) := v_updates in
    let v_d := t11 in
    tret (v_d, v_h)) in
  let! (v_c, v_g) := (
    let! t9 := t_index v_w 13 in
    let v_updates := g_sha256_small_hash_round v_d v_e v_f v_g v_h v_a v_b v_c 0x80deb1fe t9 in
    let '(t10, _) := v_updates in
    let v_g := t10 in
    let '(_, t11) := v_updates in
    let v_c := t11 in
    tret (v_c, v_g)) in
  let! (v_b, v_f) := (
    let! t9 := t_index v_w 14 in
    let v_updates := g_sha256_small_hash_round v_c v_d v_e v_f v_g v_h v_a v_b 0x9bdc06a7 t9 in
    let '(t10, _) := v_updates in
    let v_f := t10 in
    let '(_, t11) := v_updates in
    let v_b := t11 in
    tret (v_b, v_f)) in
  let! (v_a, v_e) := (
    let! t9 := t_index v_w 15 in
    let v_updates := g_sha256_small_hash_round v_b v_c v_d v_e v_f v_g v_h v_a 0xc19bf174 t9 in
    let '(t10, _) := v_updates in
    let v_e := t10 in
    let '(_, t11) := v_updates in
    let v_a := t11 in
    tret (v_a, v_e)) in
  t_sha256_Engine_software_process_block_small_part1 v_self v_w v_a v_b v_c v_d v_e v_f v_g v_h.

(** software_process_block, src/sha256.rs:721-814 *)
Definition t_sha256_Engine_software_process_block (cfg : config) (v_self : engine) : tm (engine) :=
  if small_hash cfg then t_sha256_Engine_software_process_block_small cfg v_self else t_sha256_Engine_software_process_block_fast cfg v_self.

(** process_block, src/sha256.rs:445-459 *)
Definition t_sha256_Engine_process_block (cfg : config) (v_self : engine) : tm (engine) :=
  let! t1 := (
    t_if (sha_ni cfg) (
      tret (sha_ni cfg)
    ) (
      tret false
    )) in
  let! t2 := (
    t_if t1 (
      tret (sha_ni cfg)
    ) (
      tret false
    )) in
  let! t3 := (
    t_if t2 (
      tret (sha_ni cfg)
    ) (
      tret false
    )) in
  t_if t3 (
    t_sha256_Engine_process_block_simd_x86_intrinsics cfg v_self
  ) (
    t_sha256_Engine_software_process_block cfg v_self
  ).

(** input, src/internal_macros.rs:22-36 *)
Fixpoint t_sha256_Engine_input_loop1 (fuel : nat) (cfg : config) (v_self : engine) (v_inp : (list byte)) {struct fuel} : tm (engine * (list byte)) :=
  t_if (negb (len v_inp =? 0)) (
    match fuel with
    | O => tlift (Panic POutOfFuel)
    | S fuel =>
      let v_buf_idx := (e_length v_self) mod 64 in
      let! v_rem_len := tlift (usize_sub cfg 64 v_buf_idx) in
      let! v_write_len := t_min v_rem_len (len v_inp) in
      let! t3 := tlift (usize_add cfg v_buf_idx v_write_len) in
      let! t4 := t_slice_range v_buf_idx t3 (e_buffer v_self) in
      let! t5 := t_slice_to v_write_len v_inp in
      let! t6 := t_copy_from_slice t4 t5 in
      let v_self := mk_engine (splice v_buf_idx t3 (e_buffer v_self) t6) (e_h v_self) (e_length v_self) in
      let! t7 := tlift (usize_add cfg (e_length v_self) v_write_len) in
      let v_self := mk_engine (e_buffer v_self) (e_h v_self) t7 in
      let! v_self := (
        t_if (((e_length v_self) mod 64) =? 0) (
          t_sha256_Engine_process_block cfg v_self
        ) (
          tret v_self
        )) in
      let! t8 := t_slice_from v_write_len v_inp in
      let v_inp := t8 in
      t_sha256_Engine_input_loop1 fuel cfg v_self v_inp
    end
  ) (
    tret (v_self, v_inp)
  ).

Definition t_sha256_Engine_input (cfg : config) (v_self : engine) (v_inp : (list byte)) : tm (engine) :=
  let! (v_self, v_inp) := t_sha256_Engine_input_loop1 (length v_inp) cfg v_self v_inp in
  tret v_self.

(** midstate, src/sha256.rs:88-94 *)
Definition t_sha256_Engine_midstate (v_self : engine) : tm ((list byte)) :=
  let v_ret := array x00 32 in
  t_zip_chunks_mut (e_h v_self) 4 v_ret (fun v_val v_ret_bytes =>
      t_copy_from_slice v_ret_bytes (to_be_bytes 4 v_val)).

(** finalize, src/sha256.rs:56-73 *)
Definition t_sha256_Engine_finalize (cfg : config) (v_self : engine) : tm ((list byte)) :=
  let v_data_len := e_length v_self in
  let v_zeroes := array x00 56 in
  let! v_self := t_sha256_Engine_input cfg v_self [x80] in
  let! v_self := (
    t_if ((len v_zeroes) <? ((e_length v_self) mod 64)) (
      t_sha256_Engine_input cfg v_self v_zeroes
    ) (
      tret v_self
    )) in
  let! v_pad_length := tlift (usize_sub cfg (len v_zeroes) ((e_length v_self) mod 64)) in
  let! t2 := t_slice_to v_pad_length v_zeroes in
  let! v_self := t_sha256_Engine_input cfg v_self t2 in
  let! _ := t_debug_assert cfg (((e_length v_self) mod 64) =? (len v_zeroes)) in
  let! t3 := t_checked_mul cfg 64 8 v_data_len in
  let! v_self := t_sha256_Engine_input cfg v_self (to_be_bytes 8 t3) in
  let! _ := t_debug_assert cfg (((e_length v_self) mod 64) =? 0) in
  let! t4 := t_sha256_Engine_midstate v_self in
  tret (g_sha256_Midstate_to_byte_array t4).

(** from_midstate, src/sha256.rs:104-113 *)
Definition t_sha256_Engine_from_midstate_trait (v_midstate : (list byte)) (v_length : N) : tm (engine) :=
  let! _ := t_assert ((v_length mod 64) =? 0) in
  let v_ret := array 0 8 in
  let! v_ret := t_zip_iter_mut v_ret (chunks_exact 4 v_midstate) (fun v_ret_val v_midstate_bytes =>
      let! t1 := tlift (from_be_bytes 4 v_midstate_bytes) in
      let v_ret_val := t1 in
      tret v_ret_val) in
  tret (mk_engine (array x00 64) v_ret v_length).

(** impl HashEngine for Engine, src/sha256.rs *)
Definition t_sha256_Engine_dict (cfg : config) : tengine (g_sha256_Engine_dict cfg) :=
  mk_tengine (g_sha256_Engine_dict cfg)
    (tret g_sha256_Engine_default)
    (t_sha256_Engine_input cfg)
    (t_sha256_Engine_finalize cfg)
    (t_sha256_Engine_midstate)
    (t_sha256_Engine_from_midstate_trait).

(** from_midstate, src/sha256.rs:434-443 *)
Definition t_sha256_Engine_from_midstate (v_midstate : (list byte)) (v_length : N) : tm (engine) :=
  let! _ := t_assert ((v_length mod 64) =? 0) in
  let v_ret := array 0 8 in
  let! v_ret := t_zip_iter_mut v_ret (chunks_exact 4 v_midstate) (fun v_ret_val v_midstate_bytes =>
      let! t1 := tlift (from_be_bytes 4 v_midstate_bytes) in
      let v_ret_val := t1 in
      tret v_ret_val) in
  tret (mk_engine (array x00 64) v_ret v_length).
