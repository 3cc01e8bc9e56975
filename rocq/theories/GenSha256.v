(** Generated by tools/rs2v.py from the Rust source; do not edit. *)
From Verif Require Import Base GenBase ModelEngine ModelSimd GenLib.

(** default, src/sha256.rs:32-41 *)
Definition g_sha256_Engine_default : engine :=
  mk_engine (array x00 64) [0x6a09e667; 0xbb67ae85; 0x3c6ef372; 0xa54ff53a; 0x510e527f; 0x9b05688c; 0x1f83d9ab; 0x5be0cd19] 0.

(** n_bytes_hashed, src/sha256.rs:50-50 *)
Definition g_sha256_Engine_n_bytes_hashed (v_self : engine) : N :=
  e_length v_self.

(** process_block_simd_x86_intrinsics, src/sha256.rs:463-718 *)
Definition g_sha256_Engine_process_block_simd_x86_intrinsics_part3 v_self v_state1 v_state0 v_abef_save v_cdgh_save v_msg0 v_msg1 v_msg2 v_msg3 : res (engine) :=
  let* v_msg3 := Ok (sha256msg1 v_msg3 v_msg0) in
  let* v_msg := Ok (add_epi32 v_msg1 (set_epi64x 0x682e6ff35b9cca4f 0x4ed8aa4a391c0cb3)) in
  let* v_state1 := Ok (sha256rnds2 v_state1 v_state0 v_msg) in
  let* v_tmp := Ok (alignr_epi8 v_msg1 v_msg0 4) in
  let* v_msg2 := Ok (add_epi32 v_msg2 v_tmp) in
  let* v_msg2 := Ok (sha256msg2 v_msg2 v_msg1) in
  let* v_msg := Ok (shuffle_epi32 v_msg 14) in
  let* v_state0 := Ok (sha256rnds2 v_state0 v_state1 v_msg) in
  let* v_msg := Ok (add_epi32 v_msg2 (set_epi64x 0x8cc7020884c87814 0x78a5636f748f82ee)) in
  let* v_state1 := Ok (sha256rnds2 v_state1 v_state0 v_msg) in
  let* v_tmp := Ok (alignr_epi8 v_msg2 v_msg1 4) in
  let* v_msg3 := Ok (add_epi32 v_msg3 v_tmp) in
  let* v_msg3 := Ok (sha256msg2 v_msg3 v_msg2) in
  let* v_msg := Ok (shuffle_epi32 v_msg 14) in
  let* v_state0 := Ok (sha256rnds2 v_state0 v_state1 v_msg) in
  let* v_msg := Ok (add_epi32 v_msg3 (set_epi64x 0xc67178f2bef9a3f7 0xa4506ceb90befffa)) in
  let* v_state1 := Ok (sha256rnds2 v_state1 v_state0 v_msg) in
  let* v_msg := Ok (shuffle_epi32 v_msg 14) in
  let* v_state0 := Ok (sha256rnds2 v_state0 v_state1 v_msg) in
  let* v_state0 := Ok (add_epi32 v_state0 v_abef_save) in
  let* v_state1 := Ok (add_epi32 v_state1 v_cdgh_save) in
  let* v_tmp := Ok (shuffle_epi32 v_state0 27) in
  let* v_state1 := Ok (shuffle_epi32 v_state1 177) in
  let* v_state0 := Ok (blend_epi16 v_tmp v_state1 240) in
  let* v_state1 := Ok (alignr_epi8 v_state1 v_tmp 8) in
  let* t10 := store_m128_words (e_h v_self) 0 v_state0 in
  let v_self := mk_engine (e_buffer v_self) t10 (e_length v_self) in
  let* t11 := store_m128_words (e_h v_self) 4 v_state1 in
  let v_self := mk_engine (e_buffer v_self) t11 (e_length v_self) in
  Ok v_self.

Definition g_sha256_Engine_process_block_simd_x86_intrinsics_part2 v_self v_state1 v_state0 v_abef_save v_cdgh_save v_msg0 v_msg1 v_msg2 v_msg3 : res (engine) :=
  let* v_msg2 := Ok (sha256msg1 v_msg2 v_msg3) in
  let* v_msg := Ok (add_epi32 v_msg0 (set_epi64x 0x53380d134d2c6dfc 0x2e1b213827b70a85)) in
  let* v_state1 := Ok (sha256rnds2 v_state1 v_state0 v_msg) in
  let* v_tmp := Ok (alignr_epi8 v_msg0 v_msg3 4) in
  let* v_msg1 := Ok (add_epi32 v_msg1 v_tmp) in
  let* v_msg1 := Ok (sha256msg2 v_msg1 v_msg0) in
  let* v_msg := Ok (shuffle_epi32 v_msg 14) in
  let* v_state0 := Ok (sha256rnds2 v_state0 v_state1 v_msg) in
  let* v_msg3 := Ok (sha256msg1 v_msg3 v_msg0) in
  let* v_msg := Ok (add_epi32 v_msg1 (set_epi64x 0x92722c8581c2c92e 0x766a0abb650a7354)) in
  let* v_state1 := Ok (sha256rnds2 v_state1 v_state0 v_msg) in
  let* v_tmp := Ok (alignr_epi8 v_msg1 v_msg0 4) in
  let* v_msg2 := Ok (add_epi32 v_msg2 v_tmp) in
  let* v_msg2 := Ok (sha256msg2 v_msg2 v_msg1) in
  let* v_msg := Ok (shuffle_epi32 v_msg 14) in
  let* v_state0 := Ok (sha256rnds2 v_state0 v_state1 v_msg) in
  let* v_msg0 := Ok (sha256msg1 v_msg0 v_msg1) in
  let* v_msg := Ok (add_epi32 v_msg2 (set_epi64x 0xc76c51a3c24b8b70 0xa81a664ba2bfe8a1)) in
  let* v_state1 := Ok (sha256rnds2 v_state1 v_state0 v_msg) in
  let* v_tmp := Ok (alignr_epi8 v_msg2 v_msg1 4) in
  let* v_msg3 := Ok (add_epi32 v_msg3 v_tmp) in
  let* v_msg3 := Ok (sha256msg2 v_msg3 v_msg2) in
  let* v_msg := Ok (shuffle_epi32 v_msg 14) in
  let* v_state0 := Ok (sha256rnds2 v_state0 v_state1 v_msg) in
  let* v_msg1 := Ok (sha256msg1 v_msg1 v_msg2) in
  let* v_msg := Ok (add_epi32 v_msg3 (set_epi64x 0x106aa070f40e3585 0xd6990624d192e819)) in
  let* v_state1 := Ok (sha256rnds2 v_state1 v_state0 v_msg) in
  let* v_tmp := Ok (alignr_epi8 v_msg3 v_msg2 4) in
  let* v_msg0 := Ok (add_epi32 v_msg0 v_tmp) in
  let* v_msg0 := Ok (sha256msg2 v_msg0 v_msg3) in
  let* v_msg := Ok (shuffle_epi32 v_msg 14) in
  let* v_state0 := Ok (sha256rnds2 v_state0 v_state1 v_msg) in
  let* v_msg2 := Ok (sha256msg1 v_msg2 v_msg3) in
  let* v_msg := Ok (add_epi32 v_msg0 (set_epi64x 0x34b0bcb52748774c 0x1e376c0819a4c116)) in
  let* v_state1 := Ok (sha256rnds2 v_state1 v_state0 v_msg) in
  let* v_tmp := Ok (alignr_epi8 v_msg0 v_msg3 4) in
  let* v_msg1 := Ok (add_epi32 v_msg1 v_tmp) in
  let* v_msg1 := Ok (sha256msg2 v_msg1 v_msg0) in
  let* v_msg := Ok (shuffle_epi32 v_msg 14) in
  let* v_state0 := Ok (sha256rnds2 v_state0 v_state1 v_msg) in
  g_sha256_Engine_process_block_simd_x86_intrinsics_part3 v_self v_state1 v_state0 v_abef_save v_cdgh_save v_msg0 v_msg1 v_msg2 v_msg3.

Definition g_sha256_Engine_process_block_simd_x86_intrinsics_part1 v_self v_MASK v_state1 v_state0 v_abef_save v_cdgh_save v_msg0 v_msg1 v_msg2 v_msg3 : res (engine) :=
  let* v_msg3 := Ok (shuffle_epi8 v_msg3 v_MASK) in
  let* v_msg := Ok (add_epi32 v_msg3 (set_epi64x 0xc19bf1749bdc06a7 0x80deb1fe72be5d74)) in
  let* v_state1 := Ok (sha256rnds2 v_state1 v_state0 v_msg) in
  let* v_tmp := Ok (alignr_epi8 v_msg3 v_msg2 4) in
  let* v_msg0 := Ok (add_epi32 v_msg0 v_tmp) in
  let* v_msg0 := Ok (sha256msg2 v_msg0 v_msg3) in
  let* v_msg := Ok (shuffle_epi32 v_msg 14) in
  let* v_state0 := Ok (sha256rnds2 v_state0 v_state1 v_msg) in
  let* v_msg2 := Ok (sha256msg1 v_msg2 v_msg3) in
  let* v_msg := Ok (add_epi32 v_msg0 (set_epi64x 0x240ca1cc0fc19dc6 0xefbe4786e49b69c1)) in
  let* v_state1 := Ok (sha256rnds2 v_state1 v_state0 v_msg) in
  let* v_tmp := Ok (alignr_epi8 v_msg0 v_msg3 4) in
  let* v_msg1 := Ok (add_epi32 v_msg1 v_tmp) in
  let* v_msg1 := Ok (sha256msg2 v_msg1 v_msg0) in
  let* v_msg := Ok (shuffle_epi32 v_msg 14) in
  let* v_state0 := Ok (sha256rnds2 v_state0 v_state1 v_msg) in
  let* v_msg3 := Ok (sha256msg1 v_msg3 v_msg0) in
  let* v_msg := Ok (add_epi32 v_msg1 (set_epi64x 0x76f988da5cb0a9dc 0x4a7484aa2de92c6f)) in
  let* v_state1 := Ok (sha256rnds2 v_state1 v_state0 v_msg) in
  let* v_tmp := Ok (alignr_epi8 v_msg1 v_msg0 4) in
  let* v_msg2 := Ok (add_epi32 v_msg2 v_tmp) in
  let* v_msg2 := Ok (sha256msg2 v_msg2 v_msg1) in
  let* v_msg := Ok (shuffle_epi32 v_msg 14) in
  let* v_state0 := Ok (sha256rnds2 v_state0 v_state1 v_msg) in
  let* v_msg0 := Ok (sha256msg1 v_msg0 v_msg1) in
  let* v_msg := Ok (add_epi32 v_msg2 (set_epi64x 0xbf597fc7b00327c8 0xa831c66d983e5152)) in
  let* v_state1 := Ok (sha256rnds2 v_state1 v_state0 v_msg) in
  let* v_tmp := Ok (alignr_epi8 v_msg2 v_msg1 4) in
  let* v_msg3 := Ok (add_epi32 v_msg3 v_tmp) in
  let* v_msg3 := Ok (sha256msg2 v_msg3 v_msg2) in
  let* v_msg := Ok (shuffle_epi32 v_msg 14) in
  let* v_state0 := Ok (sha256rnds2 v_state0 v_state1 v_msg) in
  let* v_msg1 := Ok (sha256msg1 v_msg1 v_msg2) in
  let* v_msg := Ok (add_epi32 v_msg3 (set_epi64x 0x1429296706ca6351 0xd5a79147c6e00bf3)) in
  let* v_state1 := Ok (sha256rnds2 v_state1 v_state0 v_msg) in
  let* v_tmp := Ok (alignr_epi8 v_msg3 v_msg2 4) in
  let* v_msg0 := Ok (add_epi32 v_msg0 v_tmp) in
  let* v_msg0 := Ok (sha256msg2 v_msg0 v_msg3) in
  let* v_msg := Ok (shuffle_epi32 v_msg 14) in
  let* v_state0 := Ok (sha256rnds2 v_state0 v_state1 v_msg) in
  g_sha256_Engine_process_block_simd_x86_intrinsics_part2 v_self v_state1 v_state0 v_abef_save v_cdgh_save v_msg0 v_msg1 v_msg2 v_msg3.

Definition g_sha256_Engine_process_block_simd_x86_intrinsics (cfg : config) (v_self : engine) : res (engine) :=
  let* v_MASK := Ok (set_epi64x 0xc0d0e0f08090a0b 0x405060700010203) in
  let v_block_offset := 0 in
  let* t1 := load_m128_words (e_h v_self) 0 in
  let v_tmp := t1 in
  let* t2 := load_m128_words (e_h v_self) 4 in
  let v_state1 := t2 in
  let* v_tmp := Ok (shuffle_epi32 v_tmp 177) in
  let* v_state1 := Ok (shuffle_epi32 v_state1 27) in
  let* v_state0 := Ok (alignr_epi8 v_tmp v_state1 8) in
  let* v_state1 := Ok (blend_epi16 v_state1 v_tmp 240) in
  let v_abef_save := v_state0 in
  let v_cdgh_save := v_state1 in
  let* t3 := load_m128_bytes (e_buffer v_self) v_block_offset in
  let v_msg := t3 in
  let* v_msg0 := Ok (shuffle_epi8 v_msg v_MASK) in
  let* v_msg := Ok (add_epi32 v_msg0 (set_epi64x 0xe9b5dba5b5c0fbcf 0x71374491428a2f98)) in
  let* v_state1 := Ok (sha256rnds2 v_state1 v_state0 v_msg) in
  let* v_msg := Ok (shuffle_epi32 v_msg 14) in
  let* v_state0 := Ok (sha256rnds2 v_state0 v_state1 v_msg) in
  let* t4 := usize_add cfg v_block_offset 16 in
  let* t5 := load_m128_bytes (e_buffer v_self) t4 in
  let v_msg1 := t5 in
  let* v_msg1 := Ok (shuffle_epi8 v_msg1 v_MASK) in
  let* v_msg := Ok (add_epi32 v_msg1 (set_epi64x 0xab1c5ed5923f82a4 0x59f111f13956c25b)) in
  let* v_state1 := Ok (sha256rnds2 v_state1 v_state0 v_msg) in
  let* v_msg := Ok (shuffle_epi32 v_msg 14) in
  let* v_state0 := Ok (sha256rnds2 v_state0 v_state1 v_msg) in
  let* v_msg0 := Ok (sha256msg1 v_msg0 v_msg1) in
  let* t6 := usize_add cfg v_block_offset 32 in
  let* t7 := load_m128_bytes (e_buffer v_self) t6 in
  let v_msg2 := t7 in
  let* v_msg2 := Ok (shuffle_epi8 v_msg2 v_MASK) in
  let* v_msg := Ok (add_epi32 v_msg2 (set_epi64x 0x550c7dc3243185be 0x12835b01d807aa98)) in
  let* v_state1 := Ok (sha256rnds2 v_state1 v_state0 v_msg) in
  let* v_msg := Ok (shuffle_epi32 v_msg 14) in
  let* v_state0 := Ok (sha256rnds2 v_state0 v_state1 v_msg) in
  let* v_msg1 := Ok (sha256msg1 v_msg1 v_msg2) in
  let* t8 := usize_add cfg v_block_offset 48 in
  let* t9 := load_m128_bytes (e_buffer v_self) t8 in
  let v_msg3 := t9 in
  g_sha256_Engine_process_block_simd_x86_intrinsics_part1 v_self v_MASK v_state1 v_state0 v_abef_save v_cdgh_save v_msg0 v_msg1 v_msg2 v_msg3.

(** Sigma1, src/sha256.rs:197-197 *)
Definition g_sha256_Sigma1 (v_x : N) : N :=
  N.lxor (N.lxor (rotate_left 32 26 v_x) (rotate_left 32 21 v_x)) (rotate_left 32 7 v_x).

(** Ch, src/sha256.rs:191-191 *)
Definition g_sha256_Ch (v_x : N) (v_y : N) (v_z : N) : N :=
  N.lxor v_z (N.land v_x (N.lxor v_y v_z)).

(** Sigma0, src/sha256.rs:195-195 *)
Definition g_sha256_Sigma0 (v_x : N) : N :=
  N.lxor (N.lxor (rotate_left 32 30 v_x) (rotate_left 32 19 v_x)) (rotate_left 32 10 v_x).

(** Maj, src/sha256.rs:193-193 *)
Definition g_sha256_Maj (v_x : N) (v_y : N) (v_z : N) : N :=
  N.lor (N.land v_x v_y) (N.land v_z (N.lor v_x v_y)).

(** round, src/sha256.rs:207-213 *)
Definition g_sha256_small_hash_round (v_a : N) (v_b : N) (v_c : N) (v_d : N) (v_e : N) (v_f : N) (v_g : N) (v_h : N) (v_k : N) (v_w : N) : (N * N) :=
  let v_t1 := wrapping_add 32 (wrapping_add 32 (wrapping_add 32 (wrapping_add 32 v_h (g_sha256_Sigma1 v_e)) (g_sha256_Ch v_e v_f v_g)) v_k) v_w in
  let v_t2 := wrapping_add 32 (g_sha256_Sigma0 v_a) (g_sha256_Maj v_a v_b v_c) in
  (wrapping_add 32 v_d v_t1, wrapping_add 32 v_t1 v_t2).

(** sigma1, src/sha256.rs:199-199 *)
Definition g_sha256_sigma1 (v_x : N) : N :=
  N.lxor (N.lxor (rotate_left 32 15 v_x) (rotate_left 32 13 v_x)) (N.shiftr v_x 10).

(** sigma0, src/sha256.rs:198-198 *)
Definition g_sha256_sigma0 (v_x : N) : N :=
  N.lxor (N.lxor (rotate_left 32 25 v_x) (rotate_left 32 14 v_x)) (N.shiftr v_x 3).

(** later_round, src/sha256.rs:215-222 *)
Definition g_sha256_small_hash_later_round (v_a : N) (v_b : N) (v_c : N) (v_d : N) (v_e : N) (v_f : N) (v_g : N) (v_h : N) (v_k : N) (v_w : N) (v_w1 : N) (v_w2 : N) (v_w3 : N) : (N * N * N) :=
  let v_w_2 := wrapping_add 32 (wrapping_add 32 (wrapping_add 32 v_w (g_sha256_sigma1 v_w1)) v_w2) (g_sha256_sigma0 v_w3) in
  let '(v_d_2, v_h_2) := g_sha256_small_hash_round v_a v_b v_c v_d v_e v_f v_g v_h v_k v_w_2 in
  (v_d_2, v_h_2, v_w_2).

(** software_process_block, src/sha256.rs:721-814; feature small-hash off *)
Definition g_sha256_Engine_software_process_block_fast_part4 v_self v_a v_b v_c v_d v_e v_f v_g v_h : res (engine) :=
  let* t9 := index (e_h v_self) 0 in
  let* t10 := store (e_h v_self) 0 (wrapping_add 32 t9 v_a) in
  let v_self := mk_engine (e_buffer v_self) t10 (e_length v_self) in
  let* t11 := index (e_h v_self) 1 in
  let* t12 := store (e_h v_self) 1 (wrapping_add 32 t11 v_b) in
  let v_self := mk_engine (e_buffer v_self) t12 (e_length v_self) in
  let* t13 := index (e_h v_self) 2 in
  let* t14 := store (e_h v_self) 2 (wrapping_add 32 t13 v_c) in
  let v_self := mk_engine (e_buffer v_self) t14 (e_length v_self) in
  let* t15 := index (e_h v_self) 3 in
  let* t16 := store (e_h v_self) 3 (wrapping_add 32 t15 v_d) in
  let v_self := mk_engine (e_buffer v_self) t16 (e_length v_self) in
  let* t17 := index (e_h v_self) 4 in
  let* t18 := store (e_h v_self) 4 (wrapping_add 32 t17 v_e) in
  let v_self := mk_engine (e_buffer v_self) t18 (e_length v_self) in
  let* t19 := index (e_h v_self) 5 in
  let* t20 := store (e_h v_self) 5 (wrapping_add 32 t19 v_f) in
  let v_self := mk_engine (e_buffer v_self) t20 (e_length v_self) in
  let* t21 := index (e_h v_self) 6 in
  let* t22 := store (e_h v_self) 6 (wrapping_add 32 t21 v_g) in
  let v_self := mk_engine (e_buffer v_self) t22 (e_length v_self) in
  let* t23 := index (e_h v_self) 7 in
  let* t24 := store (e_h v_self) 7 (wrapping_add 32 t23 v_h) in
  let v_self := mk_engine (e_buffer v_self) t24 (e_length v_self) in
  Ok v_self.

Definition g_sha256_Engine_software_process_block_fast_part3 v_self v_w v_a v_b v_c v_d v_e v_f v_g v_h : res (engine) :=
  let* (v_w, v_d, v_h) := (
    let* t9 := index v_w 0 in
    let* t10 := index v_w 14 in
    let* t11 := index v_w 9 in
    let* t12 := index v_w 1 in
    let* t13 := store v_w 0 (wrapping_add 32 (wrapping_add 32 (wrapping_add 32 t9 (g_sha256_sigma1 t10)) t11) (g_sha256_sigma0 t12)) in
    let v_w := t13 in
    let* (v_d, v_h) := (
      let* t14 := index v_w 0 in
      let v_t1 := wrapping_add 32 (wrapping_add 32 (wrapping_add 32 (wrapping_add 32 v_h (g_sha256_Sigma1 v_e)) (g_sha256_Ch v_e v_f v_g)) 0x19a4c116) t14 in
      let v_t2 := wrapping_add 32 (g_sha256_Sigma0 v_a) (g_sha256_Maj v_a v_b v_c) in
      let v_d := wrapping_add 32 v_d v_t1 in
      let v_h := wrapping_add 32 v_t1 v_t2 in
      Ok (v_d, v_h)) in
    Ok (v_w, v_d, v_h)) in
  let* (v_w, v_c, v_g) := (
    let* t9 := index v_w 1 in
    let* t10 := index v_w 15 in
    let* t11 := index v_w 10 in
    let* t12 := index v_w 2 in
    let* t13 := store v_w 1 (wrapping_add 32 (wrapping_add 32 (wrapping_add 32 t9 (g_sha256_sigma1 t10)) t11) (g_sha256_sigma0 t12)) in
    let v_w := t13 in
    let* (v_c, v_g) := (
      let* t14 := index v_w 1 in
      let v_t1 := wrapping_add 32 (wrapping_add 32 (wrapping_add 32 (wrapping_add 32 v_g (g_sha256_Sigma1 v_d)) (g_sha256_Ch v_d v_e v_f)) 0x1e376c08) t14 in
      let v_t2 := wrapping_add 32 (g_sha256_Sigma0 v_h) (g_sha256_Maj v_h v_a v_b) in
      let v_c := wrapping_add 32 v_c v_t1 in
      let v_g := wrapping_add 32 v_t1 v_t2 in
      Ok (v_c, v_g)) in
    Ok (v_w, v_c, v_g)) in
  let* (v_w, v_b, v_f) := (
    let* t9 := index v_w 2 in
    let* t10 := index v_w 0 in
    let* t11 := index v_w 11 in
    let* t12 := index v_w 3 in
    let* t13 := store v_w 2 (wrapping_add 32 (wrapping_add 32 (wrapping_add 32 t9 (g_sha256_sigma1 t10)) t11) (g_sha256_sigma0 t12)) in
    let v_w := t13 in
    let* (v_b, v_f) := (
      let* t14 := index v_w 2 in
      let v_t1 := wrapping_add 32 (wrapping_add 32 (wrapping_add 32 (wrapping_add 32 v_f (g_sha256_Sigma1 v_c)) (g_sha256_Ch v_c v_d v_e)) 0x2748774c) t14 in
      let v_t2 := wrapping_add 32 (g_sha256_Sigma0 v_g) (g_sha256_Maj v_g v_h v_a) in
      let v_b := wrapping_add 32 v_b v_t1 in
      let v_f := wrapping_add 32 v_t1 v_t2 in
      Ok (v_b, v_f)) in
    Ok (v_w, v_b, v_f)) in
  let* (v_w, v_a, v_e) := (
    let* t9 := index v_w 3 in
    let* t10 := index v_w 1 in
    let* t11 := index v_w 12 in
    let* t12 := index v_w 4 in
    let* t13 := store v_w 3 (wrapping_add 32 (wrapping_add 32 (wrapping_add 32 t9 (g_sha256_sigma1 t10)) t11) (g_sha256_sigma0 t12)) in
    let v_w := t13 in
    let* (v_a, v_e) := (
      let* t14 := index v_w 3 in
      let v_t1 := wrapping_add 32 (wrapping_add 32 (wrapping_add 32 (wrapping_add 32 v_e (g_sha256_Sigma1 v_b)) (g_sha256_Ch v_b v_c v_d)) 0x34b0bcb5) t14 in
      let v_t2 := wrapping_add 32 (g_sha256_Sigma0 v_f) (g_sha256_Maj v_f v_g v_h) in
      let v_a := wrapping_add 32 v_a v_t1 in
      let v_e := wrapping_add 32 v_t1 v_t2 in
      Ok (v_a, v_e)) in
    Ok (v_w, v_a, v_e)) in
  let* (v_w, v_d, v_h) := (
    let* t9 := index v_w 4 in
    let* t10 := index v_w 2 in
    let* t11 := index v_w 13 in
    let* t12 := index v_w 5 in
    let* t13 := store v_w 4 (wrapping_add 32 (wrapping_add 32 (wrapping_add 32 t9 (g_sha256_sigma1 t10)) t11) (g_sha256_sigma0 t12)) in
    let v_w := t13 in
    let* (v_d, v_h) := (
      let* t14 := index v_w 4 in
      let v_t1 := wrapping_add 32 (wrapping_add 32 (wrapping_add 32 (wrapping_add 32 v_d (g_sha256_Sigma1 v_a)) (g_sha256_Ch v_a v_b v_c)) 0x391c0cb3) t14 in
      let v_t2 := wrapping_add 32 (g_sha256_Sigma0 v_e) (g_sha256_Maj v_e v_f v_g) in
      let v_h := wrapping_add 32 v_h v_t1 in
      let v_d := wrapping_add 32 v_t1 v_t2 in
      Ok (v_d, v_h)) in
    Ok (v_w, v_d, v_h)) in
  let* (v_w, v_c, v_g) := (
    let* t9 := index v_w 5 in
    let* t10 := index v_w 3 in
    let* t11 := index v_w 14 in
    let* t12 := index v_w 6 in
    let* t13 := store v_w 5 (wrapping_add 32 (wrapping_add 32 (wrapping_add 32 t9 (g_sha256_sigma1 t10)) t11) (g_sha256_sigma0 t12)) in
    let v_w := t13 in
    let* (v_c, v_g) := (
      let* t14 := index v_w 5 in
      let v_t1 := wrapping_add 32 (wrapping_add 32 (wrapping_add 32 (wrapping_add 32 v_c (g_sha256_Sigma1 v_h)) (g_sha256_Ch v_h v_a v_b)) 0x4ed8aa4a) t14 in
      let v_t2 := wrapping_add 32 (g_sha256_Sigma0 v_d) (g_sha256_Maj v_d v_e v_f) in
      let v_g := wrapping_add 32 v_g v_t1 in
      let v_c := wrapping_add 32 v_t1 v_t2 in
      Ok (v_c, v_g)) in
    Ok (v_w, v_c, v_g)) in
  let* (v_w, v_b, v_f) := (
    let* t9 := index v_w 6 in
    let* t10 := index v_w 4 in
    let* t11 := index v_w 15 in
    let* t12 := index v_w 7 in
    let* t13 := store v_w 6 (wrapping_add 32 (wrapping_add 32 (wrapping_add 32 t9 (g_sha256_sigma1 t10)) t11) (g_sha256_sigma0 t12)) in
    let v_w := t13 in
    let* (v_b, v_f) := (
      let* t14 := index v_w 6 in
      let v_t1 := wrapping_add 32 (wrapping_add 32 (wrapping_add 32 (wrapping_add 32 v_b (g_sha256_Sigma1 v_g)) (g_sha256_Ch v_g v_h v_a)) 0x5b9cca4f) t14 in
      let v_t2 := wrapping_add 32 (g_sha256_Sigma0 v_c) (g_sha256_Maj v_c v_d v_e) in
      let v_f := wrapping_add 32 v_f v_t1 in
      let v_b := wrapping_add 32 v_t1 v_t2 in
      Ok (v_b, v_f)) in
    Ok (v_w, v_b, v_f)) in
  let* (v_w, v_a, v_e) := (
    let* t9 := index v_w 7 in
    let* t10 := index v_w 5 in
    let* t11 := index v_w 0 in
    let* t12 := index v_w 8 in
    let* t13 := store v_w 7 (wrapping_add 32 (wrapping_add 32 (wrapping_add 32 t9 (g_sha256_sigma1 t10)) t11) (g_sha256_sigma0 t12)) in
    let v_w := t13 in
    let* (v_a, v_e) := (
      let* t14 := index v_w 7 in
      let v_t1 := wrapping_add 32 (wrapping_add 32 (wrapping_add 32 (wrapping_add 32 v_a (g_sha256_Sigma1 v_f)) (g_sha256_Ch v_f v_g v_h)) 0x682e6ff3) t14 in
      let v_t2 := wrapping_add 32 (g_sha256_Sigma0 v_b) (g_sha256_Maj v_b v_c v_d) in
      let v_e := wrapping_add 32 v_e v_t1 in
      let v_a := wrapping_add 32 v_t1 v_t2 in
      Ok (v_a, v_e)) in
    Ok (v_w, v_a, v_e)) in
  let* (v_w, v_d, v_h) := (
    let* t9 := index v_w 8 in
    let* t10 := index v_w 6 in
    let* t11 := index v_w 1 in
    let* t12 := index v_w 9 in
    let* t13 := store v_w 8 (wrapping_add 32 (wrapping_add 32 (wrapping_add 32 t9 (g_sha256_sigma1 t10)) t11) (g_sha256_sigma0 t12)) in
    let v_w := t13 in
    let* (v_d, v_h) := (
      let* t14 := index v_w 8 in
      let v_t1 := wrapping_add 32 (wrapping_add 32 (wrapping_add 32 (wrapping_add 32 v_h (g_sha256_Sigma1 v_e)) (g_sha256_Ch v_e v_f v_g)) 0x748f82ee) t14 in
      let v_t2 := wrapping_add 32 (g_sha256_Sigma0 v_a) (g_sha256_Maj v_a v_b v_c) in
      let v_d := wrapping_add 32 v_d v_t1 in
      let v_h := wrapping_add 32 v_t1 v_t2 in
      Ok (v_d, v_h)) in
    Ok (v_w, v_d, v_h)) in
  let* (v_w, v_c, v_g) := (
    let* t9 := index v_w 9 in
    let* t10 := index v_w 7 in
    let* t11 := index v_w 2 in
    let* t12 := index v_w 10 in
    let* t13 := store v_w 9 (wrapping_add 32 (wrapping_add 32 (wrapping_add 32 t9 (g_sha256_sigma1 t10)) t11) (g_sha256_sigma0 t12)) in
    let v_w := t13 in
    let* (v_c, v_g) := (
      let* t14 := index v_w 9 in
      let v_t1 := wrapping_add 32 (wrapping_add 32 (wrapping_add 32 (wrapping_add 32 v_g (g_sha256_Sigma1 v_d)) (g_sha256_Ch v_d v_e v_f)) 0x78a5636f) t14 in
      let v_t2 := wrapping_add 32 (g_sha256_Sigma0 v_h) (g_sha256_Maj v_h v_a v_b) in
      let v_c := wrapping_add 32 v_c v_t1 in
      let v_g := wrapping_add 32 v_t1 v_t2 in
      Ok (v_c, v_g)) in
    Ok (v_w, v_c, v_g)) in
  let* (v_w, v_b, v_f) := (
    let* t9 := index v_w 10 in
    let* t10 := index v_w 8 in
    let* t11 := index v_w 3 in
    let* t12 := index v_w 11 in
    let* t13 := store v_w 10 (wrapping_add 32 (wrapping_add 32 (wrapping_add 32 t9 (g_sha256_sigma1 t10)) t11) (g_sha256_sigma0 t12)) in
    let v_w := t13 in
    let* (v_b, v_f) := (
      let* t14 := index v_w 10 in
      let v_t1 := wrapping_add 32 (wrapping_add 32 (wrapping_add 32 (wrapping_add 32 v_f (g_sha256_Sigma1 v_c)) (g_sha256_Ch v_c v_d v_e)) 0x84c87814) t14 in
      let v_t2 := wrapping_add 32 (g_sha256_Sigma0 v_g) (g_sha256_Maj v_g v_h v_a) in
      let v_b := wrapping_add 32 v_b v_t1 in
      let v_f := wrapping_add 32 v_t1 v_t2 in
      Ok (v_b, v_f)) in
    Ok (v_w, v_b, v_f)) in
  let* (v_w, v_a, v_e) := (
    let* t9 := index v_w 11 in
    let* t10 := index v_w 9 in
    let* t11 := index v_w 4 in
    let* t12 := index v_w 12 in
    let* t13 := store v_w 11 (wrapping_add 32 (wrapping_add 32 (wrapping_add 32 t9 (g_sha256_sigma1 t10)) t11) (g_sha256_sigma0 t12)) in
    let v_w := t13 in
    let* (v_a, v_e) := (
      let* t14 := index v_w 11 in
      let v_t1 := wrapping_add 32 (wrapping_add 32 (wrapping_add 32 (wrapping_add 32 v_e (g_sha256_Sigma1 v_b)) (g_sha256_Ch v_b v_c v_d)) 0x8cc70208) t14 in
      let v_t2 := wrapping_add 32 (g_sha256_Sigma0 v_f) (g_sha256_Maj v_f v_g v_h) in
      let v_a := wrapping_add 32 v_a v_t1 in
      let v_e := wrapping_add 32 v_t1 v_t2 in
      Ok (v_a, v_e)) in
    Ok (v_w, v_a, v_e)) in
  let* (v_w, v_d, v_h) := (
    let* t9 := index v_w 12 in
    let* t10 := index v_w 10 in
    let* t11 := index v_w 5 in
    let* t12 := index v_w 13 in
    let* t13 := store v_w 12 (wrapping_add 32 (wrapping_add 32 (wrapping_add 32 t9 (g_sha256_sigma1 t10)) t11) (g_sha256_sigma0 t12)) in
    let v_w := t13 in
    let* (v_d, v_h) := (
      let* t14 := index v_w 12 in
      let v_t1 := wrapping_add 32 (wrapping_add 32 (wrapping_add 32 (wrapping_add 32 v_d (g_sha256_Sigma1 v_a)) (g_sha256_Ch v_a v_b v_c)) 0x90befffa) t14 in
      let v_t2 := wrapping_add 32 (g_sha256_Sigma0 v_e) (g_sha256_Maj v_e v_f v_g) in
      let v_h := wrapping_add 32 v_h v_t1 in
      let v_d := wrapping_add 32 v_t1 v_t2 in
      Ok (v_d, v_h)) in
    Ok (v_w, v_d, v_h)) in
  let* (v_w, v_c, v_g) := (
    let* t9 := index v_w 13 in
    let* t10 := index v_w 11 in
    let* t11 := index v_w 6 in
    let* t12 := index v_w 14 in
    let* t13 := store v_w 13 (wrapping_add 32 (wrapping_add 32 (wrapping_add 32 t9 (g_sha256_sigma1 t10)) t11) (g_sha256_sigma0 t12)) in
    let v_w := t13 in
    let* (v_c, v_g) := (
      let* t14 := index v_w 13 in
      let v_t1 := wrapping_add 32 (wrapping_add 32 (wrapping_add 32 (wrapping_add 32 v_c (g_sha256_Sigma1 v_h)) (g_sha256_Ch v_h v_a v_b)) 0xa4506ceb) t14 in
      let v_t2 := wrapping_add 32 (g_sha256_Sigma0 v_d) (g_sha256_Maj v_d v_e v_f) in
      let v_g := wrapping_add 32 v_g v_t1 in
      let v_c := wrapping_add 32 v_t1 v_t2 in
      Ok (v_c, v_g)) in
    Ok (v_w, v_c, v_g)) in
  let* (v_w, v_b, v_f) := (
    let* t9 := index v_w 14 in
    let* t10 := index v_w 12 in
    let* t11 := index v_w 7 in
    let* t12 := index v_w 15 in
    let* t13 := store v_w 14 (wrapping_add 32 (wrapping_add 32 (wrapping_add 32 t9 (g_sha256_sigma1 t10)) t11) (g_sha256_sigma0 t12)) in
    let v_w := t13 in
    let* (v_b, v_f) := (
      let* t14 := index v_w 14 in
      let v_t1 := wrapping_add 32 (wrapping_add 32 (wrapping_add 32 (wrapping_add 32 v_b (g_sha256_Sigma1 v_g)) (g_sha256_Ch v_g v_h v_a)) 0xbef9a3f7) t14 in
      let v_t2 := wrapping_add 32 (g_sha256_Sigma0 v_c) (g_sha256_Maj v_c v_d v_e) in
      let v_f := wrapping_add 32 v_f v_t1 in
      let v_b := wrapping_add 32 v_t1 v_t2 in
      Ok (v_b, v_f)) in
    Ok (v_w, v_b, v_f)) in
  let* (v_w, v_a, v_e) := (
    let* t9 := index v_w 15 in
    let* t10 := index v_w 13 in
    let* t11 := index v_w 8 in
    let* t12 := index v_w 0 in
    let* t13 := store v_w 15 (wrapping_add 32 (wrapping_add 32 (wrapping_add 32 t9 (g_sha256_sigma1 t10)) t11) (g_sha256_sigma0 t12)) in
    let v_w := t13 in
    let* (v_a, v_e) := (
      let* t14 := index v_w 15 in
      let v_t1 := wrapping_add 32 (wrapping_add 32 (wrapping_add 32 (wrapping_add 32 v_a (g_sha256_Sigma1 v_f)) (g_sha256_Ch v_f v_g v_h)) 0xc67178f2) t14 in
      let v_t2 := wrapping_add 32 (g_sha256_Sigma0 v_b) (g_sha256_Maj v_b v_c v_d) in
      let v_e := wrapping_add 32 v_e v_t1 in
      let v_a := wrapping_add 32 v_t1 v_t2 in
      Ok (v_a, v_e)) in
    Ok (v_w, v_a, v_e)) in
  g_sha256_Engine_software_process_block_fast_part4 v_self v_a v_b v_c v_d v_e v_f v_g v_h.

Definition g_sha256_Engine_software_process_block_fast_part2 v_self v_w v_a v_b v_c v_d v_e v_f v_g v_h : res (engine) :=
  let* (v_w, v_d, v_h) := (
    let* t9 := index v_w 0 in
    let* t10 := index v_w 14 in
    let* t11 := index v_w 9 in
    let* t12 := index v_w 1 in
    let* t13 := store v_w 0 (wrapping_add 32 (wrapping_add 32 (wrapping_add 32 t9 (g_sha256_sigma1 t10)) t11) (g_sha256_sigma0 t12)) in
    let v_w := t13 in
    let* (v_d, v_h) := (
      let* t14 := index v_w 0 in
      let v_t1 := wrapping_add 32 (wrapping_add 32 (wrapping_add 32 (wrapping_add 32 v_h (g_sha256_Sigma1 v_e)) (g_sha256_Ch v_e v_f v_g)) 0x27b70a85) t14 in
      let v_t2 := wrapping_add 32 (g_sha256_Sigma0 v_a) (g_sha256_Maj v_a v_b v_c) in
      let v_d := wrapping_add 32 v_d v_t1 in
      let v_h := wrapping_add 32 v_t1 v_t2 in
      Ok (v_d, v_h)) in
    Ok (v_w, v_d, v_h)) in
  let* (v_w, v_c, v_g) := (
    let* t9 := index v_w 1 in
    let* t10 := index v_w 15 in
    let* t11 := index v_w 10 in
    let* t12 := index v_w 2 in
    let* t13 := store v_w 1 (wrapping_add 32 (wrapping_add 32 (wrapping_add 32 t9 (g_sha256_sigma1 t10)) t11) (g_sha256_sigma0 t12)) in
    let v_w := t13 in
    let* (v_c, v_g) := (
      let* t14 := index v_w 1 in
      let v_t1 := wrapping_add 32 (wrapping_add 32 (wrapping_add 32 (wrapping_add 32 v_g (g_sha256_Sigma1 v_d)) (g_sha256_Ch v_d v_e v_f)) 0x2e1b2138) t14 in
      let v_t2 := wrapping_add 32 (g_sha256_Sigma0 v_h) (g_sha256_Maj v_h v_a v_b) in
      let v_c := wrapping_add 32 v_c v_t1 in
      let v_g := wrapping_add 32 v_t1 v_t2 in
      Ok (v_c, v_g)) in
    Ok (v_w, v_c, v_g)) in
  let* (v_w, v_b, v_f) := (
    let* t9 := index v_w 2 in
    let* t10 := index v_w 0 in
    let* t11 := index v_w 11 in
    let* t12 := index v_w 3 in
    let* t13 := store v_w 2 (wrapping_add 32 (wrapping_add 32 (wrapping_add 32 t9 (g_sha256_sigma1 t10)) t11) (g_sha256_sigma0 t12)) in
    let v_w := t13 in
    let* (v_b, v_f) := (
      let* t14 := index v_w 2 in
      let v_t1 := wrapping_add 32 (wrapping_add 32 (wrapping_add 32 (wrapping_add 32 v_f (g_sha256_Sigma1 v_c)) (g_sha256_Ch v_c v_d v_e)) 0x4d2c6dfc) t14 in
      let v_t2 := wrapping_add 32 (g_sha256_Sigma0 v_g) (g_sha256_Maj v_g v_h v_a) in
      let v_b := wrapping_add 32 v_b v_t1 in
      let v_f := wrapping_add 32 v_t1 v_t2 in
      Ok (v_b, v_f)) in
    Ok (v_w, v_b, v_f)) in
  let* (v_w, v_a, v_e) := (
    let* t9 := index v_w 3 in
    let* t10 := index v_w 1 in
    let* t11 := index v_w 12 in
    let* t12 := index v_w 4 in
    let* t13 := store v_w 3 (wrapping_add 32 (wrapping_add 32 (wrapping_add 32 t9 (g_sha256_sigma1 t10)) t11) (g_sha256_sigma0 t12)) in
    let v_w := t13 in
    let* (v_a, v_e) := (
      let* t14 := index v_w 3 in
      let v_t1 := wrapping_add 32 (wrapping_add 32 (wrapping_add 32 (wrapping_add 32 v_e (g_sha256_Sigma1 v_b)) (g_sha256_Ch v_b v_c v_d)) 0x53380d13) t14 in
      let v_t2 := wrapping_add 32 (g_sha256_Sigma0 v_f) (g_sha256_Maj v_f v_g v_h) in
      let v_a := wrapping_add 32 v_a v_t1 in
      let v_e := wrapping_add 32 v_t1 v_t2 in
      Ok (v_a, v_e)) in
    Ok (v_w, v_a, v_e)) in
  let* (v_w, v_d, v_h) := (
    let* t9 := index v_w 4 in
    let* t10 := index v_w 2 in
    let* t11 := index v_w 13 in
    let* t12 := index v_w 5 in
    let* t13 := store v_w 4 (wrapping_add 32 (wrapping_add 32 (wrapping_add 32 t9 (g_sha256_sigma1 t10)) t11) (g_sha256_sigma0 t12)) in
    let v_w := t13 in
    let* (v_d, v_h) := (
      let* t14 := index v_w 4 in
      let v_t1 := wrapping_add 32 (wrapping_add 32 (wrapping_add 32 (wrapping_add 32 v_d (g_sha256_Sigma1 v_a)) (g_sha256_Ch v_a v_b v_c)) 0x650a7354) t14 in
      let v_t2 := wrapping_add 32 (g_sha256_Sigma0 v_e) (g_sha256_Maj v_e v_f v_g) in
      let v_h := wrapping_add 32 v_h v_t1 in
      let v_d := wrapping_add 32 v_t1 v_t2 in
      Ok (v_d, v_h)) in
    Ok (v_w, v_d, v_h)) in
  let* (v_w, v_c, v_g) := (
    let* t9 := index v_w 5 in
    let* t10 := index v_w 3 in
    let* t11 := index v_w 14 in
    let* t12 := index v_w 6 in
    let* t13 := store v_w 5 (wrapping_add 32 (wrapping_add 32 (wrapping_add 32 t9 (g_sha256_sigma1 t10)) t11) (g_sha256_sigma0 t12)) in
    let v_w := t13 in
    let* (v_c, v_g) := (
      let* t14 := index v_w 5 in
      let v_t1 := wrapping_add 32 (wrapping_add 32 (wrapping_add 32 (wrapping_add 32 v_c (g_sha256_Sigma1 v_h)) (g_sha256_Ch v_h v_a v_b)) 0x766a0abb) t14 in
      let v_t2 := wrapping_add 32 (g_sha256_Sigma0 v_d) (g_sha256_Maj v_d v_e v_f) in
      let v_g := wrapping_add 32 v_g v_t1 in
      let v_c := wrapping_add 32 v_t1 v_t2 in
      Ok (v_c, v_g)) in
    Ok (v_w, v_c, v_g)) in
  let* (v_w, v_b, v_f) := (
    let* t9 := index v_w 6 in
    let* t10 := index v_w 4 in
    let* t11 := index v_w 15 in
    let* t12 := index v_w 7 in
    let* t13 := store v_w 6 (wrapping_add 32 (wrapping_add 32 (wrapping_add 32 t9 (g_sha256_sigma1 t10)) t11) (g_sha256_sigma0 t12)) in
    let v_w := t13 in
    let* (v_b, v_f) := (
      let* t14 := index v_w 6 in
      let v_t1 := wrapping_add 32 (wrapping_add 32 (wrapping_add 32 (wrapping_add 32 v_b (g_sha256_Sigma1 v_g)) (g_sha256_Ch v_g v_h v_a)) 0x81c2c92e) t14 in
      let v_t2 := wrapping_add 32 (g_sha256_Sigma0 v_c) (g_sha256_Maj v_c v_d v_e) in
      let v_f := wrapping_add 32 v_f v_t1 in
      let v_b := wrapping_add 32 v_t1 v_t2 in
      Ok (v_b, v_f)) in
    Ok (v_w, v_b, v_f)) in
  let* (v_w, v_a, v_e) := (
    let* t9 := index v_w 7 in
    let* t10 := index v_w 5 in
    let* t11 := index v_w 0 in
    let* t12 := index v_w 8 in
    let* t13 := store v_w 7 (wrapping_add 32 (wrapping_add 32 (wrapping_add 32 t9 (g_sha256_sigma1 t10)) t11) (g_sha256_sigma0 t12)) in
    let v_w := t13 in
    let* (v_a, v_e) := (
      let* t14 := index v_w 7 in
      let v_t1 := wrapping_add 32 (wrapping_add 32 (wrapping_add 32 (wrapping_add 32 v_a (g_sha256_Sigma1 v_f)) (g_sha256_Ch v_f v_g v_h)) 0x92722c85) t14 in
      let v_t2 := wrapping_add 32 (g_sha256_Sigma0 v_b) (g_sha256_Maj v_b v_c v_d) in
      let v_e := wrapping_add 32 v_e v_t1 in
      let v_a := wrapping_add 32 v_t1 v_t2 in
      Ok (v_a, v_e)) in
    Ok (v_w, v_a, v_e)) in
  let* (v_w, v_d, v_h) := (
    let* t9 := index v_w 8 in
    let* t10 := index v_w 6 in
    let* t11 := index v_w 1 in
    let* t12 := index v_w 9 in
    let* t13 := store v_w 8 (wrapping_add 32 (wrapping_add 32 (wrapping_add 32 t9 (g_sha256_sigma1 t10)) t11) (g_sha256_sigma0 t12)) in
    let v_w := t13 in
    let* (v_d, v_h) := (
      let* t14 := index v_w 8 in
      let v_t1 := wrapping_add 32 (wrapping_add 32 (wrapping_add 32 (wrapping_add 32 v_h (g_sha256_Sigma1 v_e)) (g_sha256_Ch v_e v_f v_g)) 0xa2bfe8a1) t14 in
      let v_t2 := wrapping_add 32 (g_sha256_Sigma0 v_a) (g_sha256_Maj v_a v_b v_c) in
      let v_d := wrapping_add 32 v_d v_t1 in
      let v_h := wrapping_add 32 v_t1 v_t2 in
      Ok (v_d, v_h)) in
    Ok (v_w, v_d, v_h)) in
  let* (v_w, v_c, v_g) := (
    let* t9 := index v_w 9 in
    let* t10 := index v_w 7 in
    let* t11 := index v_w 2 in
    let* t12 := index v_w 10 in
    let* t13 := store v_w 9 (wrapping_add 32 (wrapping_add 32 (wrapping_add 32 t9 (g_sha256_sigma1 t10)) t11) (g_sha256_sigma0 t12)) in
    let v_w := t13 in
    let* (v_c, v_g) := (
      let* t14 := index v_w 9 in
      let v_t1 := wrapping_add 32 (wrapping_add 32 (wrapping_add 32 (wrapping_add 32 v_g (g_sha256_Sigma1 v_d)) (g_sha256_Ch v_d v_e v_f)) 0xa81a664b) t14 in
      let v_t2 := wrapping_add 32 (g_sha256_Sigma0 v_h) (g_sha256_Maj v_h v_a v_b) in
      let v_c := wrapping_add 32 v_c v_t1 in
      let v_g := wrapping_add 32 v_t1 v_t2 in
      Ok (v_c, v_g)) in
    Ok (v_w, v_c, v_g)) in
  let* (v_w, v_b, v_f) := (
    let* t9 := index v_w 10 in
    let* t10 := index v_w 8 in
    let* t11 := index v_w 3 in
    let* t12 := index v_w 11 in
    let* t13 := store v_w 10 (wrapping_add 32 (wrapping_add 32 (wrapping_add 32 t9 (g_sha256_sigma1 t10)) t11) (g_sha256_sigma0 t12)) in
    let v_w := t13 in
    let* (v_b, v_f) := (
      let* t14 := index v_w 10 in
      let v_t1 := wrapping_add 32 (wrapping_add 32 (wrapping_add 32 (wrapping_add 32 v_f (g_sha256_Sigma1 v_c)) (g_sha256_Ch v_c v_d v_e)) 0xc24b8b70) t14 in
      let v_t2 := wrapping_add 32 (g_sha256_Sigma0 v_g) (g_sha256_Maj v_g v_h v_a) in
      let v_b := wrapping_add 32 v_b v_t1 in
      let v_f := wrapping_add 32 v_t1 v_t2 in
      Ok (v_b, v_f)) in
    Ok (v_w, v_b, v_f)) in
  let* (v_w, v_a, v_e) := (
    let* t9 := index v_w 11 in
    let* t10 := index v_w 9 in
    let* t11 := index v_w 4 in
    let* t12 := index v_w 12 in
    let* t13 := store v_w 11 (wrapping_add 32 (wrapping_add 32 (wrapping_add 32 t9 (g_sha256_sigma1 t10)) t11) (g_sha256_sigma0 t12)) in
    let v_w := t13 in
    let* (v_a, v_e) := (
      let* t14 := index v_w 11 in
      let v_t1 := wrapping_add 32 (wrapping_add 32 (wrapping_add 32 (wrapping_add 32 v_e (g_sha256_Sigma1 v_b)) (g_sha256_Ch v_b v_c v_d)) 0xc76c51a3) t14 in
      let v_t2 := wrapping_add 32 (g_sha256_Sigma0 v_f) (g_sha256_Maj v_f v_g v_h) in
      let v_a := wrapping_add 32 v_a v_t1 in
      let v_e := wrapping_add 32 v_t1 v_t2 in
      Ok (v_a, v_e)) in
    Ok (v_w, v_a, v_e)) in
  let* (v_w, v_d, v_h) := (
    let* t9 := index v_w 12 in
    let* t10 := index v_w 10 in
    let* t11 := index v_w 5 in
    let* t12 := index v_w 13 in
    let* t13 := store v_w 12 (wrapping_add 32 (wrapping_add 32 (wrapping_add 32 t9 (g_sha256_sigma1 t10)) t11) (g_sha256_sigma0 t12)) in
    let v_w := t13 in
    let* (v_d, v_h) := (
      let* t14 := index v_w 12 in
      let v_t1 := wrapping_add 32 (wrapping_add 32 (wrapping_add 32 (wrapping_add 32 v_d (g_sha256_Sigma1 v_a)) (g_sha256_Ch v_a v_b v_c)) 0xd192e819) t14 in
      let v_t2 := wrapping_add 32 (g_sha256_Sigma0 v_e) (g_sha256_Maj v_e v_f v_g) in
      let v_h := wrapping_add 32 v_h v_t1 in
      let v_d := wrapping_add 32 v_t1 v_t2 in
      Ok (v_d, v_h)) in
    Ok (v_w, v_d, v_h)) in
  let* (v_w, v_c, v_g) := (
    let* t9 := index v_w 13 in
    let* t10 := index v_w 11 in
    let* t11 := index v_w 6 in
    let* t12 := index v_w 14 in
    let* t13 := store v_w 13 (wrapping_add 32 (wrapping_add 32 (wrapping_add 32 t9 (g_sha256_sigma1 t10)) t11) (g_sha256_sigma0 t12)) in
    let v_w := t13 in
    let* (v_c, v_g) := (
      let* t14 := index v_w 13 in
      let v_t1 := wrapping_add 32 (wrapping_add 32 (wrapping_add 32 (wrapping_add 32 v_c (g_sha256_Sigma1 v_h)) (g_sha256_Ch v_h v_a v_b)) 0xd6990624) t14 in
      let v_t2 := wrapping_add 32 (g_sha256_Sigma0 v_d) (g_sha256_Maj v_d v_e v_f) in
      let v_g := wrapping_add 32 v_g v_t1 in
      let v_c := wrapping_add 32 v_t1 v_t2 in
      Ok (v_c, v_g)) in
    Ok (v_w, v_c, v_g)) in
  let* (v_w, v_b, v_f) := (
    let* t9 := index v_w 14 in
    let* t10 := index v_w 12 in
    let* t11 := index v_w 7 in
    let* t12 := index v_w 15 in
    let* t13 := store v_w 14 (wrapping_add 32 (wrapping_add 32 (wrapping_add 32 t9 (g_sha256_sigma1 t10)) t11) (g_sha256_sigma0 t12)) in
    let v_w := t13 in
    let* (v_b, v_f) := (
      let* t14 := index v_w 14 in
      let v_t1 := wrapping_add 32 (wrapping_add 32 (wrapping_add 32 (wrapping_add 32 v_b (g_sha256_Sigma1 v_g)) (g_sha256_Ch v_g v_h v_a)) 0xf40e3585) t14 in
      let v_t2 := wrapping_add 32 (g_sha256_Sigma0 v_c) (g_sha256_Maj v_c v_d v_e) in
      let v_f := wrapping_add 32 v_f v_t1 in
      let v_b := wrapping_add 32 v_t1 v_t2 in
      Ok (v_b, v_f)) in
    Ok (v_w, v_b, v_f)) in
  let* (v_w, v_a, v_e) := (
    let* t9 := index v_w 15 in
    let* t10 := index v_w 13 in
    let* t11 := index v_w 8 in
    let* t12 := index v_w 0 in
    let* t13 := store v_w 15 (wrapping_add 32 (wrapping_add 32 (wrapping_add 32 t9 (g_sha256_sigma1 t10)) t11) (g_sha256_sigma0 t12)) in
    let v_w := t13 in
    let* (v_a, v_e) := (
      let* t14 := index v_w 15 in
      let v_t1 := wrapping_add 32 (wrapping_add 32 (wrapping_add 32 (wrapping_add 32 v_a (g_sha256_Sigma1 v_f)) (g_sha256_Ch v_f v_g v_h)) 0x106aa070) t14 in
      let v_t2 := wrapping_add 32 (g_sha256_Sigma0 v_b) (g_sha256_Maj v_b v_c v_d) in
      let v_e := wrapping_add 32 v_e v_t1 in
      let v_a := wrapping_add 32 v_t1 v_t2 in
      Ok (v_a, v_e)) in
    Ok (v_w, v_a, v_e)) in
  g_sha256_Engine_software_process_block_fast_part3 v_self v_w v_a v_b v_c v_d v_e v_f v_g v_h.

Definition g_sha256_Engine_software_process_block_fast_part1 v_self v_w v_a v_b v_c v_d v_e v_f v_g v_h : res (engine) :=
  let* (v_w, v_d, v_h) := (
    let* t9 := index v_w 0 in
    let* t10 := index v_w 14 in
    let* t11 := index v_w 9 in
    let* t12 := index v_w 1 in
    let* t13 := store v_w 0 (wrapping_add 32 (wrapping_add 32 (wrapping_add 32 t9 (g_sha256_sigma1 t10)) t11) (g_sha256_sigma0 t12)) in
    let v_w := t13 in
    let* (v_d, v_h) := (
      let* t14 := index v_w 0 in
      let v_t1 := wrapping_add 32 (wrapping_add 32 (wrapping_add 32 (wrapping_add 32 v_h (g_sha256_Sigma1 v_e)) (g_sha256_Ch v_e v_f v_g)) 0xe49b69c1) t14 in
      let v_t2 := wrapping_add 32 (g_sha256_Sigma0 v_a) (g_sha256_Maj v_a v_b v_c) in
      let v_d := wrapping_add 32 v_d v_t1 in
      let v_h := wrapping_add 32 v_t1 v_t2 in
      Ok (v_d, v_h)) in
    Ok (v_w, v_d, v_h)) in
  let* (v_w, v_c, v_g) := (
    let* t9 := index v_w 1 in
    let* t10 := index v_w 15 in
    let* t11 := index v_w 10 in
    let* t12 := index v_w 2 in
    let* t13 := store v_w 1 (wrapping_add 32 (wrapping_add 32 (wrapping_add 32 t9 (g_sha256_sigma1 t10)) t11) (g_sha256_sigma0 t12)) in
    let v_w := t13 in
    let* (v_c, v_g) := (
      let* t14 := index v_w 1 in
      let v_t1 := wrapping_add 32 (wrapping_add 32 (wrapping_add 32 (wrapping_add 32 v_g (g_sha256_Sigma1 v_d)) (g_sha256_Ch v_d v_e v_f)) 0xefbe4786) t14 in
      let v_t2 := wrapping_add 32 (g_sha256_Sigma0 v_h) (g_sha256_Maj v_h v_a v_b) in
      let v_c := wrapping_add 32 v_c v_t1 in
      let v_g := wrapping_add 32 v_t1 v_t2 in
      Ok (v_c, v_g)) in
    Ok (v_w, v_c, v_g)) in
  let* (v_w, v_b, v_f) := (
    let* t9 := index v_w 2 in
    let* t10 := index v_w 0 in
    let* t11 := index v_w 11 in
    let* t12 := index v_w 3 in
    let* t13 := store v_w 2 (wrapping_add 32 (wrapping_add 32 (wrapping_add 32 t9 (g_sha256_sigma1 t10)) t11) (g_sha256_sigma0 t12)) in
    let v_w := t13 in
    let* (v_b, v_f) := (
      let* t14 := index v_w 2 in
      let v_t1 := wrapping_add 32 (wrapping_add 32 (wrapping_add 32 (wrapping_add 32 v_f (g_sha256_Sigma1 v_c)) (g_sha256_Ch v_c v_d v_e)) 0xfc19dc6) t14 in
      let v_t2 := wrapping_add 32 (g_sha256_Sigma0 v_g) (g_sha256_Maj v_g v_h v_a) in
      let v_b := wrapping_add 32 v_b v_t1 in
      let v_f := wrapping_add 32 v_t1 v_t2 in
      Ok (v_b, v_f)) in
    Ok (v_w, v_b, v_f)) in
  let* (v_w, v_a, v_e) := (
    let* t9 := index v_w 3 in
    let* t10 := index v_w 1 in
    let* t11 := index v_w 12 in
    let* t12 := index v_w 4 in
    let* t13 := store v_w 3 (wrapping_add 32 (wrapping_add 32 (wrapping_add 32 t9 (g_sha256_sigma1 t10)) t11) (g_sha256_sigma0 t12)) in
    let v_w := t13 in
    let* (v_a, v_e) := (
      let* t14 := index v_w 3 in
      let v_t1 := wrapping_add 32 (wrapping_add 32 (wrapping_add 32 (wrapping_add 32 v_e (g_sha256_Sigma1 v_b)) (g_sha256_Ch v_b v_c v_d)) 0x240ca1cc) t14 in
      let v_t2 := wrapping_add 32 (g_sha256_Sigma0 v_f) (g_sha256_Maj v_f v_g v_h) in
      let v_a := wrapping_add 32 v_a v_t1 in
      let v_e := wrapping_add 32 v_t1 v_t2 in
      Ok (v_a, v_e)) in
    Ok (v_w, v_a, v_e)) in
  let* (v_w, v_d, v_h) := (
    let* t9 := index v_w 4 in
    let* t10 := index v_w 2 in
    let* t11 := index v_w 13 in
    let* t12 := index v_w 5 in
    let* t13 := store v_w 4 (wrapping_add 32 (wrapping_add 32 (wrapping_add 32 t9 (g_sha256_sigma1 t10)) t11) (g_sha256_sigma0 t12)) in
    let v_w := t13 in
    let* (v_d, v_h) := (
      let* t14 := index v_w 4 in
      let v_t1 := wrapping_add 32 (wrapping_add 32 (wrapping_add 32 (wrapping_add 32 v_d (g_sha256_Sigma1 v_a)) (g_sha256_Ch v_a v_b v_c)) 0x2de92c6f) t14 in
      let v_t2 := wrapping_add 32 (g_sha256_Sigma0 v_e) (g_sha256_Maj v_e v_f v_g) in
      let v_h := wrapping_add 32 v_h v_t1 in
      let v_d := wrapping_add 32 v_t1 v_t2 in
      Ok (v_d, v_h)) in
    Ok (v_w, v_d, v_h)) in
  let* (v_w, v_c, v_g) := (
    let* t9 := index v_w 5 in
    let* t10 := index v_w 3 in
    let* t11 := index v_w 14 in
    let* t12 := index v_w 6 in
    let* t13 := store v_w 5 (wrapping_add 32 (wrapping_add 32 (wrapping_add 32 t9 (g_sha256_sigma1 t10)) t11) (g_sha256_sigma0 t12)) in
    let v_w := t13 in
    let* (v_c, v_g) := (
      let* t14 := index v_w 5 in
      let v_t1 := wrapping_add 32 (wrapping_add 32 (wrapping_add 32 (wrapping_add 32 v_c (g_sha256_Sigma1 v_h)) (g_sha256_Ch v_h v_a v_b)) 0x4a7484aa) t14 in
      let v_t2 := wrapping_add 32 (g_sha256_Sigma0 v_d) (g_sha256_Maj v_d v_e v_f) in
      let v_g := wrapping_add 32 v_g v_t1 in
      let v_c := wrapping_add 32 v_t1 v_t2 in
      Ok (v_c, v_g)) in
    Ok (v_w, v_c, v_g)) in
  let* (v_w, v_b, v_f) := (
    let* t9 := index v_w 6 in
    let* t10 := index v_w 4 in
    let* t11 := index v_w 15 in
    let* t12 := index v_w 7 in
    let* t13 := store v_w 6 (wrapping_add 32 (wrapping_add 32 (wrapping_add 32 t9 (g_sha256_sigma1 t10)) t11) (g_sha256_sigma0 t12)) in
    let v_w := t13 in
    let* (v_b, v_f) := (
      let* t14 := index v_w 6 in
      let v_t1 := wrapping_add 32 (wrapping_add 32 (wrapping_add 32 (wrapping_add 32 v_b (g_sha256_Sigma1 v_g)) (g_sha256_Ch v_g v_h v_a)) 0x5cb0a9dc) t14 in
      let v_t2 := wrapping_add 32 (g_sha256_Sigma0 v_c) (g_sha256_Maj v_c v_d v_e) in
      let v_f := wrapping_add 32 v_f v_t1 in
      let v_b := wrapping_add 32 v_t1 v_t2 in
      Ok (v_b, v_f)) in
    Ok (v_w, v_b, v_f)) in
  let* (v_w, v_a, v_e) := (
    let* t9 := index v_w 7 in
    let* t10 := index v_w 5 in
    let* t11 := index v_w 0 in
    let* t12 := index v_w 8 in
    let* t13 := store v_w 7 (wrapping_add 32 (wrapping_add 32 (wrapping_add 32 t9 (g_sha256_sigma1 t10)) t11) (g_sha256_sigma0 t12)) in
    let v_w := t13 in
    let* (v_a, v_e) := (
      let* t14 := index v_w 7 in
      let v_t1 := wrapping_add 32 (wrapping_add 32 (wrapping_add 32 (wrapping_add 32 v_a (g_sha256_Sigma1 v_f)) (g_sha256_Ch v_f v_g v_h)) 0x76f988da) t14 in
      let v_t2 := wrapping_add 32 (g_sha256_Sigma0 v_b) (g_sha256_Maj v_b v_c v_d) in
      let v_e := wrapping_add 32 v_e v_t1 in
      let v_a := wrapping_add 32 v_t1 v_t2 in
      Ok (v_a, v_e)) in
    Ok (v_w, v_a, v_e)) in
  let* (v_w, v_d, v_h) := (
    let* t9 := index v_w 8 in
    let* t10 := index v_w 6 in
    let* t11 := index v_w 1 in
    let* t12 := index v_w 9 in
    let* t13 := store v_w 8 (wrapping_add 32 (wrapping_add 32 (wrapping_add 32 t9 (g_sha256_sigma1 t10)) t11) (g_sha256_sigma0 t12)) in
    let v_w := t13 in
    let* (v_d, v_h) := (
      let* t14 := index v_w 8 in
      let v_t1 := wrapping_add 32 (wrapping_add 32 (wrapping_add 32 (wrapping_add 32 v_h (g_sha256_Sigma1 v_e)) (g_sha256_Ch v_e v_f v_g)) 0x983e5152) t14 in
      let v_t2 := wrapping_add 32 (g_sha256_Sigma0 v_a) (g_sha256_Maj v_a v_b v_c) in
      let v_d := wrapping_add 32 v_d v_t1 in
      let v_h := wrapping_add 32 v_t1 v_t2 in
      Ok (v_d, v_h)) in
    Ok (v_w, v_d, v_h)) in
  let* (v_w, v_c, v_g) := (
    let* t9 := index v_w 9 in
    let* t10 := index v_w 7 in
    let* t11 := index v_w 2 in
    let* t12 := index v_w 10 in
    let* t13 := store v_w 9 (wrapping_add 32 (wrapping_add 32 (wrapping_add 32 t9 (g_sha256_sigma1 t10)) t11) (g_sha256_sigma0 t12)) in
    let v_w := t13 in
    let* (v_c, v_g) := (
      let* t14 := index v_w 9 in
      let v_t1 := wrapping_add 32 (wrapping_add 32 (wrapping_add 32 (wrapping_add 32 v_g (g_sha256_Sigma1 v_d)) (g_sha256_Ch v_d v_e v_f)) 0xa831c66d) t14 in
      let v_t2 := wrapping_add 32 (g_sha256_Sigma0 v_h) (g_sha256_Maj v_h v_a v_b) in
      let v_c := wrapping_add 32 v_c v_t1 in
      let v_g := wrapping_add 32 v_t1 v_t2 in
      Ok (v_c, v_g)) in
    Ok (v_w, v_c, v_g)) in
  let* (v_w, v_b, v_f) := (
    let* t9 := index v_w 10 in
    let* t10 := index v_w 8 in
    let* t11 := index v_w 3 in
    let* t12 := index v_w 11 in
    let* t13 := store v_w 10 (wrapping_add 32 (wrapping_add 32 (wrapping_add 32 t9 (g_sha256_sigma1 t10)) t11) (g_sha256_sigma0 t12)) in
    let v_w := t13 in
    let* (v_b, v_f) := (
      let* t14 := index v_w 10 in
      let v_t1 := wrapping_add 32 (wrapping_add 32 (wrapping_add 32 (wrapping_add 32 v_f (g_sha256_Sigma1 v_c)) (g_sha256_Ch v_c v_d v_e)) 0xb00327c8) t14 in
      let v_t2 := wrapping_add 32 (g_sha256_Sigma0 v_g) (g_sha256_Maj v_g v_h v_a) in
      let v_b := wrapping_add 32 v_b v_t1 in
      let v_f := wrapping_add 32 v_t1 v_t2 in
      Ok (v_b, v_f)) in
    Ok (v_w, v_b, v_f)) in
  let* (v_w, v_a, v_e) := (
    let* t9 := index v_w 11 in
    let* t10 := index v_w 9 in
    let* t11 := index v_w 4 in
    let* t12 := index v_w 12 in
    let* t13 := store v_w 11 (wrapping_add 32 (wrapping_add 32 (wrapping_add 32 t9 (g_sha256_sigma1 t10)) t11) (g_sha256_sigma0 t12)) in
    let v_w := t13 in
    let* (v_a, v_e) := (
      let* t14 := index v_w 11 in
      let v_t1 := wrapping_add 32 (wrapping_add 32 (wrapping_add 32 (wrapping_add 32 v_e (g_sha256_Sigma1 v_b)) (g_sha256_Ch v_b v_c v_d)) 0xbf597fc7) t14 in
      let v_t2 := wrapping_add 32 (g_sha256_Sigma0 v_f) (g_sha256_Maj v_f v_g v_h) in
      let v_a := wrapping_add 32 v_a v_t1 in
      let v_e := wrapping_add 32 v_t1 v_t2 in
      Ok (v_a, v_e)) in
    Ok (v_w, v_a, v_e)) in
  let* (v_w, v_d, v_h) := (
    let* t9 := index v_w 12 in
    let* t10 := index v_w 10 in
    let* t11 := index v_w 5 in
    let* t12 := index v_w 13 in
    let* t13 := store v_w 12 (wrapping_add 32 (wrapping_add 32 (wrapping_add 32 t9 (g_sha256_sigma1 t10)) t11) (g_sha256_sigma0 t12)) in
    let v_w := t13 in
    let* (v_d, v_h) := (
      let* t14 := index v_w 12 in
      let v_t1 := wrapping_add 32 (wrapping_add 32 (wrapping_add 32 (wrapping_add 32 v_d (g_sha256_Sigma1 v_a)) (g_sha256_Ch v_a v_b v_c)) 0xc6e00bf3) t14 in
      let v_t2 := wrapping_add 32 (g_sha256_Sigma0 v_e) (g_sha256_Maj v_e v_f v_g) in
      let v_h := wrapping_add 32 v_h v_t1 in
      let v_d := wrapping_add 32 v_t1 v_t2 in
      Ok (v_d, v_h)) in
    Ok (v_w, v_d, v_h)) in
  let* (v_w, v_c, v_g) := (
    let* t9 := index v_w 13 in
    let* t10 := index v_w 11 in
    let* t11 := index v_w 6 in
    let* t12 := index v_w 14 in
    let* t13 := store v_w 13 (wrapping_add 32 (wrapping_add 32 (wrapping_add 32 t9 (g_sha256_sigma1 t10)) t11) (g_sha256_sigma0 t12)) in
    let v_w := t13 in
    let* (v_c, v_g) := (
      let* t14 := index v_w 13 in
      let v_t1 := wrapping_add 32 (wrapping_add 32 (wrapping_add 32 (wrapping_add 32 v_c (g_sha256_Sigma1 v_h)) (g_sha256_Ch v_h v_a v_b)) 0xd5a79147) t14 in
      let v_t2 := wrapping_add 32 (g_sha256_Sigma0 v_d) (g_sha256_Maj v_d v_e v_f) in
      let v_g := wrapping_add 32 v_g v_t1 in
      let v_c := wrapping_add 32 v_t1 v_t2 in
      Ok (v_c, v_g)) in
    Ok (v_w, v_c, v_g)) in
  let* (v_w, v_b, v_f) := (
    let* t9 := index v_w 14 in
    let* t10 := index v_w 12 in
    let* t11 := index v_w 7 in
    let* t12 := index v_w 15 in
    let* t13 := store v_w 14 (wrapping_add 32 (wrapping_add 32 (wrapping_add 32 t9 (g_sha256_sigma1 t10)) t11) (g_sha256_sigma0 t12)) in
    let v_w := t13 in
    let* (v_b, v_f) := (
      let* t14 := index v_w 14 in
      let v_t1 := wrapping_add 32 (wrapping_add 32 (wrapping_add 32 (wrapping_add 32 v_b (g_sha256_Sigma1 v_g)) (g_sha256_Ch v_g v_h v_a)) 0x6ca6351) t14 in
      let v_t2 := wrapping_add 32 (g_sha256_Sigma0 v_c) (g_sha256_Maj v_c v_d v_e) in
      let v_f := wrapping_add 32 v_f v_t1 in
      let v_b := wrapping_add 32 v_t1 v_t2 in
      Ok (v_b, v_f)) in
    Ok (v_w, v_b, v_f)) in
  let* (v_w, v_a, v_e) := (
    let* t9 := index v_w 15 in
    let* t10 := index v_w 13 in
    let* t11 := index v_w 8 in
    let* t12 := index v_w 0 in
    let* t13 := store v_w 15 (wrapping_add 32 (wrapping_add 32 (wrapping_add 32 t9 (g_sha256_sigma1 t10)) t11) (g_sha256_sigma0 t12)) in
    let v_w := t13 in
    let* (v_a, v_e) := (
      let* t14 := index v_w 15 in
      let v_t1 := wrapping_add 32 (wrapping_add 32 (wrapping_add 32 (wrapping_add 32 v_a (g_sha256_Sigma1 v_f)) (g_sha256_Ch v_f v_g v_h)) 0x14292967) t14 in
      let v_t2 := wrapping_add 32 (g_sha256_Sigma0 v_b) (g_sha256_Maj v_b v_c v_d) in
      let v_e := wrapping_add 32 v_e v_t1 in
      let v_a := wrapping_add 32 v_t1 v_t2 in
      Ok (v_a, v_e)) in
    Ok (v_w, v_a, v_e)) in
  g_sha256_Engine_software_process_block_fast_part2 v_self v_w v_a v_b v_c v_d v_e v_f v_g v_h.

Definition g_sha256_Engine_software_process_block_fast (cfg : config) (v_self : engine) : res (engine) :=
  let* _ := debug_assert cfg ((len (e_buffer v_self)) =? 64) in
  let v_w := array 0 16 in
  let* v_w := zip_iter_mut v_w (chunks_exact 4 (e_buffer v_self)) (fun v_w_val v_buff_bytes =>
      let* t1 := from_be_bytes 4 v_buff_bytes in
      let v_w_val := t1 in
      Ok v_w_val) in
  let* v_a := index (e_h v_self) 0 in
  let* v_b := index (e_h v_self) 1 in
  let* v_c := index (e_h v_self) 2 in
  let* v_d := index (e_h v_self) 3 in
  let* v_e := index (e_h v_self) 4 in
  let* v_f := index (e_h v_self) 5 in
  let* v_g := index (e_h v_self) 6 in
  let* v_h := index (e_h v_self) 7 in
  let* (v_d, v_h) := (
    let* t9 := index v_w 0 in
    let v_t1 := wrapping_add 32 (wrapping_add 32 (wrapping_add 32 (wrapping_add 32 v_h (g_sha256_Sigma1 v_e)) (g_sha256_Ch v_e v_f v_g)) 0x428a2f98) t9 in
    let v_t2 := wrapping_add 32 (g_sha256_Sigma0 v_a) (g_sha256_Maj v_a v_b v_c) in
    let v_d := wrapping_add 32 v_d v_t1 in
    let v_h := wrapping_add 32 v_t1 v_t2 in
    Ok (v_d, v_h)) in
  let* (v_c, v_g) := (
    let* t9 := index v_w 1 in
    let v_t1 := wrapping_add 32 (wrapping_add 32 (wrapping_add 32 (wrapping_add 32 v_g (g_sha256_Sigma1 v_d)) (g_sha256_Ch v_d v_e v_f)) 0x71374491) t9 in
    let v_t2 := wrapping_add 32 (g_sha256_Sigma0 v_h) (g_sha256_Maj v_h v_a v_b) in
    let v_c := wrapping_add 32 v_c v_t1 in
    let v_g := wrapping_add 32 v_t1 v_t2 in
    Ok (v_c, v_g)) in
  let* (v_b, v_f) := (
    let* t9 := index v_w 2 in
    let v_t1 := wrapping_add 32 (wrapping_add 32 (wrapping_add 32 (wrapping_add 32 v_f (g_sha256_Sigma1 v_c)) (g_sha256_Ch v_c v_d v_e)) 0xb5c0fbcf) t9 in
    let v_t2 := wrapping_add 32 (g_sha256_Sigma0 v_g) (g_sha256_Maj v_g v_h v_a) in
    let v_b := wrapping_add 32 v_b v_t1 in
    let v_f := wrapping_add 32 v_t1 v_t2 in
    Ok (v_b, v_f)) in
  let* (v_a, v_e) := (
    let* t9 := index v_w 3 in
    let v_t1 := wrapping_add 32 (wrapping_add 32 (wrapping_add 32 (wrapping_add 32 v_e (g_sha256_Sigma1 v_b)) (g_sha256_Ch v_b v_c v_d)) 0xe9b5dba5) t9 in
    let v_t2 := wrapping_add 32 (g_sha256_Sigma0 v_f) (g_sha256_Maj v_f v_g v_h) in
    let v_a := wrapping_add 32 v_a v_t1 in
    let v_e := wrapping_add 32 v_t1 v_t2 in
    Ok (v_a, v_e)) in
  let* (v_d, v_h) := (
    let* t9 := index v_w 4 in
    let v_t1 := wrapping_add 32 (wrapping_add 32 (wrapping_add 32 (wrapping_add 32 v_d (g_sha256_Sigma1 v_a)) (g_sha256_Ch v_a v_b v_c)) 0x3956c25b) t9 in
    let v_t2 := wrapping_add 32 (g_sha256_Sigma0 v_e) (g_sha256_Maj v_e v_f v_g) in
    let v_h := wrapping_add 32 v_h v_t1 in
    let v_d := wrapping_add 32 v_t1 v_t2 in
    Ok (v_d, v_h)) in
  let* (v_c, v_g) := (
    let* t9 := index v_w 5 in
    let v_t1 := wrapping_add 32 (wrapping_add 32 (wrapping_add 32 (wrapping_add 32 v_c (g_sha256_Sigma1 v_h)) (g_sha256_Ch v_h v_a v_b)) 0x59f111f1) t9 in
    let v_t2 := wrapping_add 32 (g_sha256_Sigma0 v_d) (g_sha256_Maj v_d v_e v_f) in
    let v_g := wrapping_add 32 v_g v_t1 in
    let v_c := wrapping_add 32 v_t1 v_t2 in
    Ok (v_c, v_g)) in
  let* (v_b, v_f) := (
    let* t9 := index v_w 6 in
    let v_t1 := wrapping_add 32 (wrapping_add 32 (wrapping_add 32 (wrapping_add 32 v_b (g_sha256_Sigma1 v_g)) (g_sha256_Ch v_g v_h v_a)) 0x923f82a4) t9 in
    let v_t2 := wrapping_add 32 (g_sha256_Sigma0 v_c) (g_sha256_Maj v_c v_d v_e) in
    let v_f := wrapping_add 32 v_f v_t1 in
    let v_b := wrapping_add 32 v_t1 v_t2 in
    Ok (v_b, v_f)) in
  let* (v_a, v_e) := (
    let* t9 := index v_w 7 in
    let v_t1 := wrapping_add 32 (wrapping_add 32 (wrapping_add 32 (wrapping_add 32 v_a (g_sha256_Sigma1 v_f)) (g_sha256_Ch v_f v_g v_h)) 0xab1c5ed5) t9 in
    let v_t2 := wrapping_add 32 (g_sha256_Sigma0 v_b) (g_sha256_Maj v_b v_c v_d) in
    let v_e := wrapping_add 32 v_e v_t1 in
    let v_a := wrapping_add 32 v_t1 v_t2 in
    Ok (v_a, v_e)) in
  let* (v_d, v_h) := (
    let* t9 := index v_w 8 in
    let v_t1 := wrapping_add 32 (wrapping_add 32 (wrapping_add 32 (wrapping_add 32 v_h (g_sha256_Sigma1 v_e)) (g_sha256_Ch v_e v_f v_g)) 0xd807aa98) t9 in
    let v_t2 := wrapping_add 32 (g_sha256_Sigma0 v_a) (g_sha256_Maj v_a v_b v_c) in
    let v_d := wrapping_add 32 v_d v_t1 in
    let v_h := wrapping_add 32 v_t1 v_t2 in
    Ok (v_d, v_h)) in
  let* (v_c, v_g) := (
    let* t9 := index v_w 9 in
    let v_t1 := wrapping_add 32 (wrapping_add 32 (wrapping_add 32 (wrapping_add 32 v_g (g_sha256_Sigma1 v_d)) (g_sha256_Ch v_d v_e v_f)) 0x12835b01) t9 in
    let v_t2 := wrapping_add 32 (g_sha256_Sigma0 v_h) (g_sha256_Maj v_h v_a v_b) in
    let v_c := wrapping_add 32 v_c v_t1 in
    let v_g := wrapping_add 32 v_t1 v_t2 in
    Ok (v_c, v_g)) in
  let* (v_b, v_f) := (
    let* t9 := index v_w 10 in
    let v_t1 := wrapping_add 32 (wrapping_add 32 (wrapping_add 32 (wrapping_add 32 v_f (g_sha256_Sigma1 v_c)) (g_sha256_Ch v_c v_d v_e)) 0x243185be) t9 in
    let v_t2 := wrapping_add 32 (g_sha256_Sigma0 v_g) (g_sha256_Maj v_g v_h v_a) in
    let v_b := wrapping_add 32 v_b v_t1 in
    let v_f := wrapping_add 32 v_t1 v_t2 in
    Ok (v_b, v_f)) in
  let* (v_a, v_e) := (
    let* t9 := index v_w 11 in
    let v_t1 := wrapping_add 32 (wrapping_add 32 (wrapping_add 32 (wrapping_add 32 v_e (g_sha256_Sigma1 v_b)) (g_sha256_Ch v_b v_c v_d)) 0x550c7dc3) t9 in
    let v_t2 := wrapping_add 32 (g_sha256_Sigma0 v_f) (g_sha256_Maj v_f v_g v_h) in
    let v_a := wrapping_add 32 v_a v_t1 in
    let v_e := wrapping_add 32 v_t1 v_t2 in
    Ok (v_a, v_e)) in
  let* (v_d, v_h) := (
    let* t9 := index v_w 12 in
    let v_t1 := wrapping_add 32 (wrapping_add 32 (wrapping_add 32 (wrapping_add 32 v_d (g_sha256_Sigma1 v_a)) (g_sha256_Ch v_a v_b v_c)) 0x72be5d74) t9 in
    let v_t2 := wrapping_add 32 (g_sha256_Sigma0 v_e) (g_sha256_Maj v_e v_f v_g) in
    let v_h := wrapping_add 32 v_h v_t1 in
    let v_d := wrapping_add 32 v_t1 v_t2 in
    Ok (v_d, v_h)) in
  let* (v_c, v_g) := (
    let* t9 := index v_w 13 in
    let v_t1 := wrapping_add 32 (wrapping_add 32 (wrapping_add 32 (wrapping_add 32 v_c (g_sha256_Sigma1 v_h)) (g_sha256_Ch v_h v_a v_b)) 0x80deb1fe) t9 in
    let v_t2 := wrapping_add 32 (g_sha256_Sigma0 v_d) (g_sha256_Maj v_d v_e v_f) in
    let v_g := wrapping_add 32 v_g v_t1 in
    let v_c := wrapping_add 32 v_t1 v_t2 in
    Ok (v_c, v_g)) in
  let* (v_b, v_f) := (
    let* t9 := index v_w 14 in
    let v_t1 := wrapping_add 32 (wrapping_add 32 (wrapping_add 32 (wrapping_add 32 v_b (g_sha256_Sigma1 v_g)) (g_sha256_Ch v_g v_h v_a)) 0x9bdc06a7) t9 in
    let v_t2 := wrapping_add 32 (g_sha256_Sigma0 v_c) (g_sha256_Maj v_c v_d v_e) in
    let v_f := wrapping_add 32 v_f v_t1 in
    let v_b := wrapping_add 32 v_t1 v_t2 in
    Ok (v_b, v_f)) in
  let* (v_a, v_e) := (
    let* t9 := index v_w 15 in
    let v_t1 := wrapping_add 32 (wrapping_add 32 (wrapping_add 32 (wrapping_add 32 v_a (g_sha256_Sigma1 v_f)) (g_sha256_Ch v_f v_g v_h)) 0xc19bf174) t9 in
    let v_t2 := wrapping_add 32 (g_sha256_Sigma0 v_b) (g_sha256_Maj v_b v_c v_d) in
    let v_e := wrapping_add 32 v_e v_t1 in
    let v_a := wrapping_add 32 v_t1 v_t2 in
    Ok (v_a, v_e)) in
  g_sha256_Engine_software_process_block_fast_part1 v_self v_w v_a v_b v_c v_d v_e v_f v_g v_h.

(** software_process_block, src/sha256.rs:721-814; feature small-hash on *)
Definition g_sha256_Engine_software_process_block_small_part4 v_self v_a v_b v_c v_d v_e v_f v_g v_h : res (engine) :=
  let* t9 := index (e_h v_self) 0 in
  let* t10 := store (e_h v_self) 0 (wrapping_add 32 t9 v_a) in
  let v_self := mk_engine (e_buffer v_self) t10 (e_length v_self) in
  let* t11 := index (e_h v_self) 1 in
  let* t12 := store (e_h v_self) 1 (wrapping_add 32 t11 v_b) in
  let v_self := mk_engine (e_buffer v_self) t12 (e_length v_self) in
  let* t13 := index (e_h v_self) 2 in
  let* t14 := store (e_h v_self) 2 (wrapping_add 32 t13 v_c) in
  let v_self := mk_engine (e_buffer v_self) t14 (e_length v_self) in
  let* t15 := index (e_h v_self) 3 in
  let* t16 := store (e_h v_self) 3 (wrapping_add 32 t15 v_d) in
  let v_self := mk_engine (e_buffer v_self) t16 (e_length v_self) in
  let* t17 := index (e_h v_self) 4 in
  let* t18 := store (e_h v_self) 4 (wrapping_add 32 t17 v_e) in
  let v_self := mk_engine (e_buffer v_self) t18 (e_length v_self) in
  let* t19 := index (e_h v_self) 5 in
  let* t20 := store (e_h v_self) 5 (wrapping_add 32 t19 v_f) in
  let v_self := mk_engine (e_buffer v_self) t20 (e_length v_self) in
  let* t21 := index (e_h v_self) 6 in
  let* t22 := store (e_h v_self) 6 (wrapping_add 32 t21 v_g) in
  let v_self := mk_engine (e_buffer v_self) t22 (e_length v_self) in
  let* t23 := index (e_h v_self) 7 in
  let* t24 := store (e_h v_self) 7 (wrapping_add 32 t23 v_h) in
  let v_self := mk_engine (e_buffer v_self) t24 (e_length v_self) in
  Ok v_self.

Definition g_sha256_Engine_software_process_block_small_part3 v_self v_w v_a v_b v_c v_d v_e v_f v_g v_h : res (engine) :=
  let* (v_w, v_d, v_h) := (
    let* t9 := index v_w 0 in
    let* t10 := index v_w 14 in
    let* t11 := index v_w 9 in
    let* t12 := index v_w 1 in
    let v_updates := g_sha256_small_hash_later_round v_a v_b v_c v_d v_e v_f v_g v_h 0x19a4c116 t9 t10 t11 t12 in
    let '(t13, _, _) := v_updates in
    let v_d := t13 in
    let '(_, t14, _) := v_updates in
    let v_h := t14 in
    let '(_, _, t15) := v_updates in
    let* t16 := store v_w 0 t15 in
    let v_w := t16 in
    Ok (v_w, v_d, v_h)) in
  let* (v_w, v_c, v_g) := (
    let* t9 := index v_w 1 in
    let* t10 := index v_w 15 in
    let* t11 := index v_w 10 in
    let* t12 := index v_w 2 in
    let v_updates := g_sha256_small_hash_later_round v_h v_a v_b v_c v_d v_e v_f v_g 0x1e376c08 t9 t10 t11 t12 in
    let '(t13, _, _) := v_updates in
    let v_c := t13 in
    let '(_, t14, _) := v_updates in
    let v_g := t14 in
    let '(_, _, t15) := v_updates in
    let* t16 := store v_w 1 t15 in
    let v_w := t16 in
    Ok (v_w, v_c, v_g)) in
  let* (v_w, v_b, v_f) := (
    let* t9 := index v_w 2 in
    let* t10 := index v_w 0 in
    let* t11 := index v_w 11 in
    let* t12 := index v_w 3 in
    let v_updates := g_sha256_small_hash_later_round v_g v_h v_a v_b v_c v_d v_e v_f 0x2748774c t9 t10 t11 t12 in
    let '(t13, _, _) := v_updates in
    let v_b := t13 in
    let '(_, t14, _) := v_updates in
    let v_f := t14 in
    let '(_, _, t15) := v_updates in
    let* t16 := store v_w 2 t15 in
    let v_w := t16 in
    Ok (v_w, v_b, v_f)) in
  let* (v_w, v_a, v_e) := (
    let* t9 := index v_w 3 in
    let* t10 := index v_w 1 in
    let* t11 := index v_w 12 in
    let* t12 := index v_w 4 in
    let v_updates := g_sha256_small_hash_later_round v_f v_g v_h v_a v_b v_c v_d v_e 0x34b0bcb5 t9 t10 t11 t12 in
    let '(t13, _, _) := v_updates in
    let v_a := t13 in
    let '(_, t14, _) := v_updates in
    let v_e := t14 in
    let '(_, _, t15) := v_updates in
    let* t16 := store v_w 3 t15 in
    let v_w := t16 in
    Ok (v_w, v_a, v_e)) in
  let* (v_w, v_d, v_h) := (
    let* t9 := index v_w 4 in
    let* t10 := index v_w 2 in
    let* t11 := index v_w 13 in
    let* t12 := index v_w 5 in
    let v_updates := g_sha256_small_hash_later_round v_e v_f v_g v_h v_a v_b v_c v_d 0x391c0cb3 t9 t10 t11 t12 in
    let '(t13, _, _) := v_updates in
    let v_h := t13 in
    let '(_, t14, _) := v_updates in
    let v_d := t14 in
    let '(_, _, t15) := v_updates in
    let* t16 := store v_w 4 t15 in
    let v_w := t16 in
    Ok (v_w, v_d, v_h)) in
  let* (v_w, v_c, v_g) := (
    let* t9 := index v_w 5 in
    let* t10 := index v_w 3 in
    let* t11 := index v_w 14 in
    let* t12 := index v_w 6 in
    let v_updates := g_sha256_small_hash_later_round v_d v_e v_f v_g v_h v_a v_b v_c 0x4ed8aa4a t9 t10 t11 t12 in
    let '(t13, _, _) := v_updates in
    let v_g := t13 in
    let '(_, t14, _) := v_updates in
    let v_c := t14 in
    let '(_, _, t15) := v_updates in
    let* t16 := store v_w 5 t15 in
    let v_w := t16 in
    Ok (v_w, v_c, v_g)) in
  let* (v_w, v_b, v_f) := (
    let* t9 := index v_w 6 in
    let* t10 := index v_w 4 in
    let* t11 := index v_w 15 in
    let* t12 := index v_w 7 in
    let v_updates := g_sha256_small_hash_later_round v_c v_d v_e v_f v_g v_h v_a v_b 0x5b9cca4f t9 t10 t11 t12 in
    let '(t13, _, _) := v_updates in
    let v_f := t13 in
    let '(_, t14, _) := v_updates in
    let v_b := t14 in
    let '(_, _, t15) := v_updates in
    let* t16 := store v_w 6 t15 in
    let v_w := t16 in
    Ok (v_w, v_b, v_f)) in
  let* (v_w, v_a, v_e) := (
    let* t9 := index v_w 7 in
    let* t10 := index v_w 5 in
    let* t11 := index v_w 0 in
    let* t12 := index v_w 8 in
    let v_updates := g_sha256_small_hash_later_round v_b v_c v_d v_e v_f v_g v_h v_a 0x682e6ff3 t9 t10 t11 t12 in
    let '(t13, _, _) := v_updates in
    let v_e := t13 in
    let '(_, t14, _) := v_updates in
    let v_a := t14 in
    let '(_, _, t15) := v_updates in
    let* t16 := store v_w 7 t15 in
    let v_w := t16 in
    Ok (v_w, v_a, v_e)) in
  let* (v_w, v_d, v_h) := (
    let* t9 := index v_w 8 in
    let* t10 := index v_w 6 in
    let* t11 := index v_w 1 in
    let* t12 := index v_w 9 in
    let v_updates := g_sha256_small_hash_later_round v_a v_b v_c v_d v_e v_f v_g v_h 0x748f82ee t9 t10 t11 t12 in
    let '(t13, _, _) := v_updates in
    let v_d := t13 in
    let '(_, t14, _) := v_updates in
    let v_h := t14 in
    let '(_, _, t15) := v_updates in
    let* t16 := store v_w 8 t15 in
    let v_w := t16 in
    Ok (v_w, v_d, v_h)) in
  let* (v_w, v_c, v_g) := (
    let* t9 := index v_w 9 in
    let* t10 := index v_w 7 in
    let* t11 := index v_w 2 in
    let* t12 := index v_w 10 in
    let v_updates := g_sha256_small_hash_later_round v_h v_a v_b v_c v_d v_e v_f v_g 0x78a5636f t9 t10 t11 t12 in
    let '(t13, _, _) := v_updates in
    let v_c := t13 in
    let '(_, t14, _) := v_updates in
    let v_g := t14 in
    let '(_, _, t15) := v_updates in
    let* t16 := store v_w 9 t15 in
    let v_w := t16 in
    Ok (v_w, v_c, v_g)) in
  let* (v_w, v_b, v_f) := (
    let* t9 := index v_w 10 in
    let* t10 := index v_w 8 in
    let* t11 := index v_w 3 in
    let* t12 := index v_w 11 in
    let v_updates := g_sha256_small_hash_later_round v_g v_h v_a v_b v_c v_d v_e v_f 0x84c87814 t9 t10 t11 t12 in
    let '(t13, _, _) := v_updates in
    let v_b := t13 in
    let '(_, t14, _) := v_updates in
    let v_f := t14 in
    let '(_, _, t15) := v_updates in
    let* t16 := store v_w 10 t15 in
    let v_w := t16 in
    Ok (v_w, v_b, v_f)) in
  let* (v_w, v_a, v_e) := (
    let* t9 := index v_w 11 in
    let* t10 := index v_w 9 in
    let* t11 := index v_w 4 in
    let* t12 := index v_w 12 in
    let v_updates := g_sha256_small_hash_later_round v_f v_g v_h v_a v_b v_c v_d v_e 0x8cc70208 t9 t10 t11 t12 in
    let '(t13, _, _) := v_updates in
    let v_a := t13 in
    let '(_, t14, _) := v_updates in
    let v_e := t14 in
    let '(_, _, t15) := v_updates in
    let* t16 := store v_w 11 t15 in
    let v_w := t16 in
    Ok (v_w, v_a, v_e)) in
  let* (v_w, v_d, v_h) := (
    let* t9 := index v_w 12 in
    let* t10 := index v_w 10 in
    let* t11 := index v_w 5 in
    let* t12 := index v_w 13 in
    let v_updates := g_sha256_small_hash_later_round v_e v_f v_g v_h v_a v_b v_c v_d 0x90befffa t9 t10 t11 t12 in
    let '(t13, _, _) := v_updates in
    let v_h := t13 in
    let '(_, t14, _) := v_updates in
    let v_d := t14 in
    let '(_, _, t15) := v_updates in
    let* t16 := store v_w 12 t15 in
    let v_w := t16 in
    Ok (v_w, v_d, v_h)) in
  let* (v_w, v_c, v_g) := (
    let* t9 := index v_w 13 in
    let* t10 := index v_w 11 in
    let* t11 := index v_w 6 in
    let* t12 := index v_w 14 in
    let v_updates := g_sha256_small_hash_later_round v_d v_e v_f v_g v_h v_a v_b v_c 0xa4506ceb t9 t10 t11 t12 in
    let '(t13, _, _) := v_updates in
    let v_g := t13 in
    let '(_, t14, _) := v_updates in
    let v_c := t14 in
    let '(_, _, t15) := v_updates in
    let* t16 := store v_w 13 t15 in
    let v_w := t16 in
    Ok (v_w, v_c, v_g)) in
  let* (v_w, v_b, v_f) := (
    let* t9 := index v_w 14 in
    let* t10 := index v_w 12 in
    let* t11 := index v_w 7 in
    let* t12 := index v_w 15 in
    let v_updates := g_sha256_small_hash_later_round v_c v_d v_e v_f v_g v_h v_a v_b 0xbef9a3f7 t9 t10 t11 t12 in
    let '(t13, _, _) := v_updates in
    let v_f := t13 in
    let '(_, t14, _) := v_updates in
    let v_b := t14 in
    let '(_, _, t15) := v_updates in
    let* t16 := store v_w 14 t15 in
    let v_w := t16 in
    Ok (v_w, v_b, v_f)) in
  let* (v_w, v_a, v_e) := (
    let* t9 := index v_w 15 in
    let* t10 := index v_w 13 in
    let* t11 := index v_w 8 in
    let* t12 := index v_w 0 in
    let v_updates := g_sha256_small_hash_later_round v_b v_c v_d v_e v_f v_g v_h v_a 0xc67178f2 t9 t10 t11 t12 in
    let '(t13, _, _) := v_updates in
    let v_e := t13 in
    let '(_, t14, _) := v_updates in
    let v_a := t14 in
    let '(_, _, t15) := v_updates in
    let* t16 := store v_w 15 t15 in
    let v_w := t16 in
    Ok (v_w, v_a, v_e)) in
  g_sha256_Engine_software_process_block_small_part4 v_self v_a v_b v_c v_d v_e v_f v_g v_h.

Definition g_sha256_Engine_software_process_block_small_part2 v_self v_w v_a v_b v_c v_d v_e v_f v_g v_h : res (engine) :=
  let* (v_w, v_d, v_h) := (
    let* t9 := index v_w 0 in
    let* t10 := index v_w 14 in
    let* t11 := index v_w 9 in
    let* t12 := index v_w 1 in
    let v_updates := g_sha256_small_hash_later_round v_a v_b v_c v_d v_e v_f v_g v_h 0x27b70a85 t9 t10 t11 t12 in
    let '(t13, _, _) := v_updates in
    let v_d := t13 in
    let '(_, t14, _) := v_updates in
    let v_h := t14 in
    let '(_, _, t15) := v_updates in
    let* t16 := store v_w 0 t15 in
    let v_w := t16 in
    Ok (v_w, v_d, v_h)) in
  let* (v_w, v_c, v_g) := (
    let* t9 := index v_w 1 in
    let* t10 := index v_w 15 in
    let* t11 := index v_w 10 in
    let* t12 := index v_w 2 in
    let v_updates := g_sha256_small_hash_later_round v_h v_a v_b v_c v_d v_e v_f v_g 0x2e1b2138 t9 t10 t11 t12 in
    let '(t13, _, _) := v_updates in
    let v_c := t13 in
    let '(_, t14, _) := v_updates in
    let v_g := t14 in
    let '(_, _, t15) := v_updates in
    let* t16 := store v_w 1 t15 in
    let v_w := t16 in
    Ok (v_w, v_c, v_g)) in
  let* (v_w, v_b, v_f) := (
    let* t9 := index v_w 2 in
    let* t10 := index v_w 0 in
    let* t11 := index v_w 11 in
    let* t12 := index v_w 3 in
    let v_updates := g_sha256_small_hash_later_round v_g v_h v_a v_b v_c v_d v_e v_f 0x4d2c6dfc t9 t10 t11 t12 in
    let '(t13, _, _) := v_updates in
    let v_b := t13 in
    let '(_, t14, _) := v_updates in
    let v_f := t14 in
    let '(_, _, t15) := v_updates in
    let* t16 := store v_w 2 t15 in
    let v_w := t16 in
    Ok (v_w, v_b, v_f)) in
  let* (v_w, v_a, v_e) := (
    let* t9 := index v_w 3 in
    let* t10 := index v_w 1 in
    let* t11 := index v_w 12 in
    let* t12 := index v_w 4 in
    let v_updates := g_sha256_small_hash_later_round v_f v_g v_h v_a v_b v_c v_d v_e 0x53380d13 t9 t10 t11 t12 in
    let '(t13, _, _) := v_updates in
    let v_a := t13 in
    let '(_, t14, _) := v_updates in
    let v_e := t14 in
    let '(_, _, t15) := v_updates in
    let* t16 := store v_w 3 t15 in
    let v_w := t16 in
    Ok (v_w, v_a, v_e)) in
  let* (v_w, v_d, v_h) := (
    let* t9 := index v_w 4 in
    let* t10 := index v_w 2 in
    let* t11 := index v_w 13 in
    let* t12 := index v_w 5 in
    let v_updates := g_sha256_small_hash_later_round v_e v_f v_g v_h v_a v_b v_c v_d 0x650a7354 t9 t10 t11 t12 in
    let '(t13, _, _) := v_updates in
    let v_h := t13 in
    let '(_, t14, _) := v_updates in
    let v_d := t14 in
    let '(_, _, t15) := v_updates in
    let* t16 := store v_w 4 t15 in
    let v_w := t16 in
    Ok (v_w, v_d, v_h)) in
  let* (v_w, v_c, v_g) := (
    let* t9 := index v_w 5 in
    let* t10 := index v_w 3 in
    let* t11 := index v_w 14 in
    let* t12 := index v_w 6 in
    let v_updates := g_sha256_small_hash_later_round v_d v_e v_f v_g v_h v_a v_b v_c 0x766a0abb t9 t10 t11 t12 in
    let '(t13, _, _) := v_updates in
    let v_g := t13 in
    let '(_, t14, _) := v_updates in
    let v_c := t14 in
    let '(_, _, t15) := v_updates in
    let* t16 := store v_w 5 t15 in
    let v_w := t16 in
    Ok (v_w, v_c, v_g)) in
  let* (v_w, v_b, v_f) := (
    let* t9 := index v_w 6 in
    let* t10 := index v_w 4 in
    let* t11 := index v_w 15 in
    let* t12 := index v_w 7 in
    let v_updates := g_sha256_small_hash_later_round v_c v_d v_e v_f v_g v_h v_a v_b 0x81c2c92e t9 t10 t11 t12 in
    let '(t13, _, _) := v_updates in
    let v_f := t13 in
    let '(_, t14, _) := v_updates in
    let v_b := t14 in
    let '(_, _, t15) := v_updates in
    let* t16 := store v_w 6 t15 in
    let v_w := t16 in
    Ok (v_w, v_b, v_f)) in
  let* (v_w, v_a, v_e) := (
    let* t9 := index v_w 7 in
    let* t10 := index v_w 5 in
    let* t11 := index v_w 0 in
    let* t12 := index v_w 8 in
    let v_updates := g_sha256_small_hash_later_round v_b v_c v_d v_e v_f v_g v_h v_a 0x92722c85 t9 t10 t11 t12 in
    let '(t13, _, _) := v_updates in
    let v_e := t13 in
    let '(_, t14, _) := v_updates in
    let v_a := t14 in
    let '(_, _, t15) := v_updates in
    let* t16 := store v_w 7 t15 in
    let v_w := t16 in
    Ok (v_w, v_a, v_e)) in
  let* (v_w, v_d, v_h) := (
    let* t9 := index v_w 8 in
    let* t10 := index v_w 6 in
    let* t11 := index v_w 1 in
    let* t12 := index v_w 9 in
    let v_updates := g_sha256_small_hash_later_round v_a v_b v_c v_d v_e v_f v_g v_h 0xa2bfe8a1 t9 t10 t11 t12 in
    let '(t13, _, _) := v_updates in
    let v_d := t13 in
    let '(_, t14, _) := v_updates in
    let v_h := t14 in
    let '(_, _, t15) := v_updates in
    let* t16 := store v_w 8 t15 in
    let v_w := t16 in
    Ok (v_w, v_d, v_h)) in
  let* (v_w, v_c, v_g) := (
    let* t9 := index v_w 9 in
    let* t10 := index v_w 7 in
    let* t11 := index v_w 2 in
    let* t12 := index v_w 10 in
    let v_updates := g_sha256_small_hash_later_round v_h v_a v_b v_c v_d v_e v_f v_g 0xa81a664b t9 t10 t11 t12 in
    let '(t13, _, _) := v_updates in
    let v_c := t13 in
    let '(_, t14, _) := v_updates in
    let v_g := t14 in
    let '(_, _, t15) := v_updates in
    let* t16 := store v_w 9 t15 in
    let v_w := t16 in
    Ok (v_w, v_c, v_g)) in
  let* (v_w, v_b, v_f) := (
    let* t9 := index v_w 10 in
    let* t10 := index v_w 8 in
    let* t11 := index v_w 3 in
    let* t12 := index v_w 11 in
    let v_updates := g_sha256_small_hash_later_round v_g v_h v_a v_b v_c v_d v_e v_f 0xc24b8b70 t9 t10 t11 t12 in
    let '(t13, _, _) := v_updates in
    let v_b := t13 in
    let '(_, t14, _) := v_updates in
    let v_f := t14 in
    let '(_, _, t15) := v_updates in
    let* t16 := store v_w 10 t15 in
    let v_w := t16 in
    Ok (v_w, v_b, v_f)) in
  let* (v_w, v_a, v_e) := (
    let* t9 := index v_w 11 in
    let* t10 := index v_w 9 in
    let* t11 := index v_w 4 in
    let* t12 := index v_w 12 in
    let v_updates := g_sha256_small_hash_later_round v_f v_g v_h v_a v_b v_c v_d v_e 0xc76c51a3 t9 t10 t11 t12 in
    let '(t13, _, _) := v_updates in
    let v_a := t13 in
    let '(_, t14, _) := v_updates in
    let v_e := t14 in
    let '(_, _, t15) := v_updates in
    let* t16 := store v_w 11 t15 in
    let v_w := t16 in
    Ok (v_w, v_a, v_e)) in
  let* (v_w, v_d, v_h) := (
    let* t9 := index v_w 12 in
    let* t10 := index v_w 10 in
    let* t11 := index v_w 5 in
    let* t12 := index v_w 13 in
    let v_updates := g_sha256_small_hash_later_round v_e v_f v_g v_h v_a v_b v_c v_d 0xd192e819 t9 t10 t11 t12 in
    let '(t13, _, _) := v_updates in
    let v_h := t13 in
    let '(_, t14, _) := v_updates in
    let v_d := t14 in
    let '(_, _, t15) := v_updates in
    let* t16 := store v_w 12 t15 in
    let v_w := t16 in
    Ok (v_w, v_d, v_h)) in
  let* (v_w, v_c, v_g) := (
    let* t9 := index v_w 13 in
    let* t10 := index v_w 11 in
    let* t11 := index v_w 6 in
    let* t12 := index v_w 14 in
    let v_updates := g_sha256_small_hash_later_round v_d v_e v_f v_g v_h v_a v_b v_c 0xd6990624 t9 t10 t11 t12 in
    let '(t13, _, _) := v_updates in
    let v_g := t13 in
    let '(_, t14, _) := v_updates in
    let v_c := t14 in
    let '(_, _, t15) := v_updates in
    let* t16 := store v_w 13 t15 in
    let v_w := t16 in
    Ok (v_w, v_c, v_g)) in
  let* (v_w, v_b, v_f) := (
    let* t9 := index v_w 14 in
    let* t10 := index v_w 12 in
    let* t11 := index v_w 7 in
    let* t12 := index v_w 15 in
    let v_updates := g_sha256_small_hash_later_round v_c v_d v_e v_f v_g v_h v_a v_b 0xf40e3585 t9 t10 t11 t12 in
    let '(t13, _, _) := v_updates in
    let v_f := t13 in
    let '(_, t14, _) := v_updates in
    let v_b := t14 in
    let '(_, _, t15) := v_updates in
    let* t16 := store v_w 14 t15 in
    let v_w := t16 in
    Ok (v_w, v_b, v_f)) in
  let* (v_w, v_a, v_e) := (
    let* t9 := index v_w 15 in
    let* t10 := index v_w 13 in
    let* t11 := index v_w 8 in
    let* t12 := index v_w 0 in
    let v_updates := g_sha256_small_hash_later_round v_b v_c v_d v_e v_f v_g v_h v_a 0x106aa070 t9 t10 t11 t12 in
    let '(t13, _, _) := v_updates in
    let v_e := t13 in
    let '(_, t14, _) := v_updates in
    let v_a := t14 in
    let '(_, _, t15) := v_updates in
    let* t16 := store v_w 15 t15 in
    let v_w := t16 in
    Ok (v_w, v_a, v_e)) in
  g_sha256_Engine_software_process_block_small_part3 v_self v_w v_a v_b v_c v_d v_e v_f v_g v_h.

Definition g_sha256_Engine_software_process_block_small_part1 v_self v_w v_a v_b v_c v_d v_e v_f v_g v_h : res (engine) :=
  let* (v_w, v_d, v_h) := (
    let* t9 := index v_w 0 in
    let* t10 := index v_w 14 in
    let* t11 := index v_w 9 in
    let* t12 := index v_w 1 in
    let v_updates := g_sha256_small_hash_later_round v_a v_b v_c v_d v_e v_f v_g v_h 0xe49b69c1 t9 t10 t11 t12 in
    let '(t13, _, _) := v_updates in
    let v_d := t13 in
    let '(_, t14, _) := v_updates in
    let v_h := t14 in
    let '(_, _, t15) := v_updates in
    let* t16 := store v_w 0 t15 in
    let v_w := t16 in
    Ok (v_w, v_d, v_h)) in
  let* (v_w, v_c, v_g) := (
    let* t9 := index v_w 1 in
    let* t10 := index v_w 15 in
    let* t11 := index v_w 10 in
    let* t12 := index v_w 2 in
    let v_updates := g_sha256_small_hash_later_round v_h v_a v_b v_c v_d v_e v_f v_g 0xefbe4786 t9 t10 t11 t12 in
    let '(t13, _, _) := v_updates in
    let v_c := t13 in
    let '(_, t14, _) := v_updates in
    let v_g := t14 in
    let '(_, _, t15) := v_updates in
    let* t16 := store v_w 1 t15 in
    let v_w := t16 in
    Ok (v_w, v_c, v_g)) in
  let* (v_w, v_b, v_f) := (
    let* t9 := index v_w 2 in
    let* t10 := index v_w 0 in
    let* t11 := index v_w 11 in
    let* t12 := index v_w 3 in
    let v_updates := g_sha256_small_hash_later_round v_g v_h v_a v_b v_c v_d v_e v_f 0xfc19dc6 t9 t10 t11 t12 in
    let '(t13, _, _) := v_updates in
    let v_b := t13 in
    let '(_, t14, _) := v_updates in
    let v_f := t14 in
    let '(_, _, t15) := v_updates in
    let* t16 := store v_w 2 t15 in
    let v_w := t16 in
    Ok (v_w, v_b, v_f)) in
  let* (v_w, v_a, v_e) := (
    let* t9 := index v_w 3 in
    let* t10 := index v_w 1 in
    let* t11 := index v_w 12 in
    let* t12 := index v_w 4 in
    let v_updates := g_sha256_small_hash_later_round v_f v_g v_h v_a v_b v_c v_d v_e 0x240ca1cc t9 t10 t11 t12 in
    let '(t13, _, _) := v_updates in
    let v_a := t13 in
    let '(_, t14, _) := v_updates in
    let v_e := t14 in
    let '(_, _, t15) := v_updates in
    let* t16 := store v_w 3 t15 in
    let v_w := t16 in
    Ok (v_w, v_a, v_e)) in
  let* (v_w, v_d, v_h) := (
    let* t9 := index v_w 4 in
    let* t10 := index v_w 2 in
    let* t11 := index v_w 13 in
    let* t12 := index v_w 5 in
    let v_updates := g_sha256_small_hash_later_round v_e v_f v_g v_h v_a v_b v_c v_d 0x2de92c6f t9 t10 t11 t12 in
    let '(t13, _, _) := v_updates in
    let v_h := t13 in
    let '(_, t14, _) := v_updates in
    let v_d := t14 in
    let '(_, _, t15) := v_updates in
    let* t16 := store v_w 4 t15 in
    let v_w := t16 in
    Ok (v_w, v_d, v_h)) in
  let* (v_w, v_c, v_g) := (
    let* t9 := index v_w 5 in
    let* t10 := index v_w 3 in
    let* t11 := index v_w 14 in
    let* t12 := index v_w 6 in
    let v_updates := g_sha256_small_hash_later_round v_d v_e v_f v_g v_h v_a v_b v_c 0x4a7484aa t9 t10 t11 t12 in
    let '(t13, _, _) := v_updates in
    let v_g := t13 in
    let '(_, t14, _) := v_updates in
    let v_c := t14 in
    let '(_, _, t15) := v_updates in
    let* t16 := store v_w 5 t15 in
    let v_w := t16 in
    Ok (v_w, v_c, v_g)) in
  let* (v_w, v_b, v_f) := (
    let* t9 := index v_w 6 in
    let* t10 := index v_w 4 in
    let* t11 := index v_w 15 in
    let* t12 := index v_w 7 in
    let v_updates := g_sha256_small_hash_later_round v_c v_d v_e v_f v_g v_h v_a v_b 0x5cb0a9dc t9 t10 t11 t12 in
    let '(t13, _, _) := v_updates in
    let v_f := t13 in
    let '(_, t14, _) := v_updates in
    let v_b := t14 in
    let '(_, _, t15) := v_updates in
    let* t16 := store v_w 6 t15 in
    let v_w := t16 in
    Ok (v_w, v_b, v_f)) in
  let* (v_w, v_a, v_e) := (
    let* t9 := index v_w 7 in
    let* t10 := index v_w 5 in
    let* t11 := index v_w 0 in
    let* t12 := index v_w 8 in
    let v_updates := g_sha256_small_hash_later_round v_b v_c v_d v_e v_f v_g v_h v_a 0x76f988da t9 t10 t11 t12 in
    let '(t13, _, _) := v_updates in
    let v_e := t13 in
    let '(_, t14, _) := v_updates in
    let v_a := t14 in
    let '(_, _, t15) := v_updates in
    let* t16 := store v_w 7 t15 in
    let v_w := t16 in
    Ok (v_w, v_a, v_e)) in
  let* (v_w, v_d, v_h) := (
    let* t9 := index v_w 8 in
    let* t10 := index v_w 6 in
    let* t11 := index v_w 1 in
    let* t12 := index v_w 9 in
    let v_updates := g_sha256_small_hash_later_round v_a v_b v_c v_d v_e v_f v_g v_h 0x983e5152 t9 t10 t11 t12 in
    let '(t13, _, _) := v_updates in
    let v_d := t13 in
    let '(_, t14, _) := v_updates in
    let v_h := t14 in
    let '(_, _, t15) := v_updates in
    let* t16 := store v_w 8 t15 in
    let v_w := t16 in
    Ok (v_w, v_d, v_h)) in
  let* (v_w, v_c, v_g) := (
    let* t9 := index v_w 9 in
    let* t10 := index v_w 7 in
    let* t11 := index v_w 2 in
    let* t12 := index v_w 10 in
    let v_updates := g_sha256_small_hash_later_round v_h v_a v_b v_c v_d v_e v_f v_g 0xa831c66d t9 t10 t11 t12 in
    let '(t13, _, _) := v_updates in
    let v_c := t13 in
    let '(_, t14, _) := v_updates in
    let v_g := t14 in
    let '(_, _, t15) := v_updates in
    let* t16 := store v_w 9 t15 in
    let v_w := t16 in
    Ok (v_w, v_c, v_g)) in
  let* (v_w, v_b, v_f) := (
    let* t9 := index v_w 10 in
    let* t10 := index v_w 8 in
    let* t11 := index v_w 3 in
    let* t12 := index v_w 11 in
    let v_updates := g_sha256_small_hash_later_round v_g v_h v_a v_b v_c v_d v_e v_f 0xb00327c8 t9 t10 t11 t12 in
    let '(t13, _, _) := v_updates in
    let v_b := t13 in
    let '(_, t14, _) := v_updates in
    let v_f := t14 in
    let '(_, _, t15) := v_updates in
    let* t16 := store v_w 10 t15 in
    let v_w := t16 in
    Ok (v_w, v_b, v_f)) in
  let* (v_w, v_a, v_e) := (
    let* t9 := index v_w 11 in
    let* t10 := index v_w 9 in
    let* t11 := index v_w 4 in
    let* t12 := index v_w 12 in
    let v_updates := g_sha256_small_hash_later_round v_f v_g v_h v_a v_b v_c v_d v_e 0xbf597fc7 t9 t10 t11 t12 in
    let '(t13, _, _) := v_updates in
    let v_a := t13 in
    let '(_, t14, _) := v_updates in
    let v_e := t14 in
    let '(_, _, t15) := v_updates in
    let* t16 := store v_w 11 t15 in
    let v_w := t16 in
    Ok (v_w, v_a, v_e)) in
  let* (v_w, v_d, v_h) := (
    let* t9 := index v_w 12 in
    let* t10 := index v_w 10 in
    let* t11 := index v_w 5 in
    let* t12 := index v_w 13 in
    let v_updates := g_sha256_small_hash_later_round v_e v_f v_g v_h v_a v_b v_c v_d 0xc6e00bf3 t9 t10 t11 t12 in
    let '(t13, _, _) := v_updates in
    let v_h := t13 in
    let '(_, t14, _) := v_updates in
    let v_d := t14 in
    let '(_, _, t15) := v_updates in
    let* t16 := store v_w 12 t15 in
    let v_w := t16 in
    Ok (v_w, v_d, v_h)) in
  let* (v_w, v_c, v_g) := (
    let* t9 := index v_w 13 in
    let* t10 := index v_w 11 in
    let* t11 := index v_w 6 in
    let* t12 := index v_w 14 in
    let v_updates := g_sha256_small_hash_later_round v_d v_e v_f v_g v_h v_a v_b v_c 0xd5a79147 t9 t10 t11 t12 in
    let '(t13, _, _) := v_updates in
    let v_g := t13 in
    let '(_, t14, _) := v_updates in
    let v_c := t14 in
    let '(_, _, t15) := v_updates in
    let* t16 := store v_w 13 t15 in
    let v_w := t16 in
    Ok (v_w, v_c, v_g)) in
  let* (v_w, v_b, v_f) := (
    let* t9 := index v_w 14 in
    let* t10 := index v_w 12 in
    let* t11 := index v_w 7 in
    let* t12 := index v_w 15 in
    let v_updates := g_sha256_small_hash_later_round v_c v_d v_e v_f v_g v_h v_a v_b 0x6ca6351 t9 t10 t11 t12 in
    let '(t13, _, _) := v_updates in
    let v_f := t13 in
    let '(_, t14, _) := v_updates in
    let v_b := t14 in
    let '(_, _, t15) := v_updates in
    let* t16 := store v_w 14 t15 in
    let v_w := t16 in
    Ok (v_w, v_b, v_f)) in
  let* (v_w, v_a, v_e) := (
    let* t9 := index v_w 15 in
    let* t10 := index v_w 13 in
    let* t11 := index v_w 8 in
    let* t12 := index v_w 0 in
    let v_updates := g_sha256_small_hash_later_round v_b v_c v_d v_e v_f v_g v_h v_a 0x14292967 t9 t10 t11 t12 in
    let '(t13, _, _) := v_updates in
    let v_e := t13 in
    let '(_, t14, _) := v_updates in
    let v_a := t14 in
    let '(_, _, t15) := v_updates in
    let* t16 := store v_w 15 t15 in
    let v_w := t16 in
    Ok (v_w, v_a, v_e)) in
  g_sha256_Engine_software_process_block_small_part2 v_self v_w v_a v_b v_c v_d v_e v_f v_g v_h.

Definition g_sha256_Engine_software_process_block_small (cfg : config) (v_self : engine) : res (engine) :=
  let* _ := debug_assert cfg ((len (e_buffer v_self)) =? 64) in
  let v_w := array 0 16 in
  let* v_w := zip_iter_mut v_w (chunks_exact 4 (e_buffer v_self)) (fun v_w_val v_buff_bytes =>
      let* t1 := from_be_bytes 4 v_buff_bytes in
      let v_w_val := t1 in
      Ok v_w_val) in
  let* v_a := index (e_h v_self) 0 in
  let* v_b := index (e_h v_self) 1 in
  let* v_c := index (e_h v_self) 2 in
  let* v_d := index (e_h v_self) 3 in
  let* v_e := index (e_h v_self) 4 in
  let* v_f := index (e_h v_self) 5 in
  let* v_g := index (e_h v_self) 6 in
  let* v_h := index (e_h v_self) 7 in
  let* (v_d, v_h) := (
    let* t9 := index v_w 0 in
    let v_updates := g_sha256_small_hash_round v_a v_b v_c v_d v_e v_f v_g v_h 0x428a2f98 t9 in
    let '(t10, _) := v_updates in
    let v_d := t10 in
    let '(_, t11) := v_updates in
    let v_h := t11 in
    Ok (v_d, v_h)) in
  let* (v_c, v_g) := (
    let* t9 := index v_w 1 in
    let v_updates := g_sha256_small_hash_round v_h v_a v_b v_c v_d v_e v_f v_g 0x71374491 t9 in
    let '(t10, _) := v_updates in
    let v_c := t10 in
    let '(_, t11) := v_updates in
    let v_g := t11 in
    Ok (v_c, v_g)) in
  let* (v_b, v_f) := (
    let* t9 := index v_w 2 in
    let v_updates := g_sha256_small_hash_round v_g v_h v_a v_b v_c v_d v_e v_f 0xb5c0fbcf t9 in
    let '(t10, _) := v_updates in
    let v_b := t10 in
    let '(_, t11) := v_updates in
    let v_f := t11 in
    Ok (v_b, v_f)) in
  let* (v_a, v_e) := (
    let* t9 := index v_w 3 in
    let v_updates := g_sha256_small_hash_round v_f v_g v_h v_a v_b v_c v_d v_e 0xe9b5dba5 t9 in
    let '(t10, _) := v_updates in
    let v_a := t10 in
    let '(_, t11) := v_updates in
    let v_e := t11 in
    Ok (v_a, v_e)) in
  let* (v_d, v_h) := (
    let* t9 := index v_w 4 in
    let v_updates := g_sha256_small_hash_round v_e v_f v_g v_h v_a v_b v_c v_d 0x3956c25b t9 in
    let '(t10, _) := v_updates in
    let v_h := t10 in
    let '(_, t11) := v_updates in
    let v_d := t11 in
    Ok (v_d, v_h)) in
  let* (v_c, v_g) := (
    let* t9 := index v_w 5 in
    let v_updates := g_sha256_small_hash_round v_d v_e v_f v_g v_h v_a v_b v_c 0x59f111f1 t9 in
    let '(t10, _) := v_updates in
    let v_g := t10 in
    let '(_, t11) := v_updates in
    let v_c := t11 in
    Ok (v_c, v_g)) in
  let* (v_b, v_f) := (
    let* t9 := index v_w 6 in
    let v_updates := g_sha256_small_hash_round v_c v_d v_e v_f v_g v_h v_a v_b 0x923f82a4 t9 in
    let '(t10, _) := v_updates in
    let v_f := t10 in
    let '(_, t11) := v_updates in
    let v_b := t11 in
    Ok (v_b, v_f)) in
  let* (v_a, v_e) := (
    let* t9 := index v_w 7 in
    let v_updates := g_sha256_small_hash_round v_b v_c v_d v_e v_f v_g v_h v_a 0xab1c5ed5 t9 in
    let '(t10, _) := v_updates in
    let v_e := t10 in
    let '(_, t11) := v_updates in
    let v_a := t11 in
    Ok (v_a, v_e)) in
  let* (v_d, v_h) := (
    let* t9 := index v_w 8 in
    let v_updates := g_sha256_small_hash_round v_a v_b v_c v_d v_e v_f v_g v_h 0xd807aa98 t9 in
    let '(t10, _) := v_updates in
    let v_d := t10 in
    let '(_, t11) := v_updates in
    let v_h := t11 in
    Ok (v_d, v_h)) in
  let* (v_c, v_g) := (
    let* t9 := index v_w 9 in
    let v_updates := g_sha256_small_hash_round v_h v_a v_b v_c v_d v_e v_f v_g 0x12835b01 t9 in
    let '(t10, _) := v_updates in
    let v_c := t10 in
    let '(_, t11) := v_updates in
    let v_g := t11 in
    Ok (v_c, v_g)) in
  let* (v_b, v_f) := (
    let* t9 := index v_w 10 in
    let v_updates := g_sha256_small_hash_round v_g v_h v_a v_b v_c v_d v_e v_f 0x243185be t9 in
    let '(t10, _) := v_updates in
    let v_b := t10 in
    let '(_, t11) := v_updates in
    let v_f := t11 in
    Ok (v_b, v_f)) in
  let* (v_a, v_e) := (
    let* t9 := index v_w 11 in
    let v_updates := g_sha256_small_hash_round v_f v_g v_h v_a v_b v_c v_d v_e 0x550c7dc3 t9 in
    let '(t10, _) := v_updates in
    let v_a := t10 in
    let '(_, t11) := v_updates in
    let v_e := t11 in
    Ok (v_a, v_e)) in
  let* (v_d, v_h) := (
    let* t9 := index v_w 12 in
    let v_updates := g_sha256_small_hash_round v_e v_f v_g v_h v_a v_b v_c v_d 0x72be5d74 t9 in
    let '(t10, _) := v_updates in
    let v_h := t10 in
    let '(_, t11) := v_updates in
    let v_d := t11 in
    Ok (v_d, v_h)) in
  let* (v_c, v_g) := (
    let* t9 := index v_w 13 in
    let v_updates := g_sha256_small_hash_round v_d v_e v_f v_g v_h v_a v_b v_c 0x80deb1fe t9 in
    let '(t10, _) := v_updates in
    let v_g := t10 in
    let '(_, t11) := v_updates in
    let v_c := t11 in
    Ok (v_c, v_g)) in
  let* (v_b, v_f) := (
    let* t9 := index v_w 14 in
    let v_updates := g_sha256_small_hash_round v_c v_d v_e v_f v_g v_h v_a v_b 0x9bdc06a7 t9 in
    let '(t10, _) := v_updates in
    let v_f := t10 in
    let '(_, t11) := v_updates in
    let v_b := t11 in
    Ok (v_b, v_f)) in
  let* (v_a, v_e) := (
    let* t9 := index v_w 15 in
    let v_updates := g_sha256_small_hash_round v_b v_c v_d v_e v_f v_g v_h v_a 0xc19bf174 t9 in
    let '(t10, _) := v_updates in
    let v_e := t10 in
    let '(_, t11) := v_updates in
    let v_a := t11 in
    Ok (v_a, v_e)) in
  g_sha256_Engine_software_process_block_small_part1 v_self v_w v_a v_b v_c v_d v_e v_f v_g v_h.

(** software_process_block, src/sha256.rs:721-814 *)
Definition g_sha256_Engine_software_process_block (cfg : config) (v_self : engine) : res (engine) :=
  if small_hash cfg then g_sha256_Engine_software_process_block_small cfg v_self else g_sha256_Engine_software_process_block_fast cfg v_self.

(** process_block, src/sha256.rs:445-459 *)
Definition g_sha256_Engine_process_block (cfg : config) (v_self : engine) : res (engine) :=
  if (((sha_ni cfg) && (sha_ni cfg)) && (sha_ni cfg)) && (sha_ni cfg) then
    g_sha256_Engine_process_block_simd_x86_intrinsics cfg v_self
  else
    g_sha256_Engine_software_process_block cfg v_self.

(** input, src/internal_macros.rs:22-36 *)
Fixpoint g_sha256_Engine_input_loop1 (fuel : nat) (cfg : config) (v_self : engine) (v_inp : (list byte)) {struct fuel} : res (engine * (list byte)) :=
  if negb (len v_inp =? 0) then
    match fuel with
    | O => Panic POutOfFuel
    | S fuel =>
      let v_buf_idx := (e_length v_self) mod 64 in
      let* v_rem_len := usize_sub cfg 64 v_buf_idx in
      let v_write_len := N.min v_rem_len (len v_inp) in
      let* t2 := usize_add cfg v_buf_idx v_write_len in
      let* t3 := slice_range v_buf_idx t2 (e_buffer v_self) in
      let* t4 := slice_to v_write_len v_inp in
      let* t5 := copy_from_slice t3 t4 in
      let v_self := mk_engine (splice v_buf_idx t2 (e_buffer v_self) t5) (e_h v_self) (e_length v_self) in
      let* t6 := usize_add cfg (e_length v_self) v_write_len in
      let v_self := mk_engine (e_buffer v_self) (e_h v_self) t6 in
      let* v_self := (
        if ((e_length v_self) mod 64) =? 0 then
          g_sha256_Engine_process_block cfg v_self
        else
          Ok v_self) in
      let* t7 := slice_from v_write_len v_inp in
      let v_inp := t7 in
      g_sha256_Engine_input_loop1 fuel cfg v_self v_inp
    end
  else
    Ok (v_self, v_inp).

Definition g_sha256_Engine_input (cfg : config) (v_self : engine) (v_inp : (list byte)) : res (engine) :=
  let* (v_self, v_inp) := g_sha256_Engine_input_loop1 (length v_inp) cfg v_self v_inp in
  Ok v_self.

(** to_byte_array, src/sha256.rs:162-162 *)
Definition g_sha256_Midstate_to_byte_array (v_self : (list byte)) : (list byte) :=
  v_self.

(** midstate, src/sha256.rs:88-94 *)
Definition g_sha256_Engine_midstate (v_self : engine) : res ((list byte)) :=
  let v_ret := array x00 32 in
  zip_chunks_mut (e_h v_self) 4 v_ret (fun v_val v_ret_bytes =>
      copy_from_slice v_ret_bytes (to_be_bytes 4 v_val)).

(** finalize, src/sha256.rs:56-73 *)
Definition g_sha256_Engine_finalize (cfg : config) (v_self : engine) : res ((list byte)) :=
  let v_data_len := e_length v_self in
  let v_zeroes := array x00 56 in
  let* v_self := g_sha256_Engine_input cfg v_self [x80] in
  let* v_self := (
    if (len v_zeroes) <? ((e_length v_self) mod 64) then
      g_sha256_Engine_input cfg v_self v_zeroes
    else
      Ok v_self) in
  let* v_pad_length := usize_sub cfg (len v_zeroes) ((e_length v_self) mod 64) in
  let* t2 := slice_to v_pad_length v_zeroes in
  let* v_self := g_sha256_Engine_input cfg v_self t2 in
  let* _ := debug_assert cfg (((e_length v_self) mod 64) =? (len v_zeroes)) in
  let* t3 := checked_mul cfg 64 8 v_data_len in
  let* v_self := g_sha256_Engine_input cfg v_self (to_be_bytes 8 t3) in
  let* _ := debug_assert cfg (((e_length v_self) mod 64) =? 0) in
  let* t4 := g_sha256_Engine_midstate v_self in
  Ok (g_sha256_Midstate_to_byte_array t4).

(** from_midstate, src/sha256.rs:104-113 *)
Definition g_sha256_Engine_from_midstate_trait (v_midstate : (list byte)) (v_length : N) : res (engine) :=
  let* _ := assert ((v_length mod 64) =? 0) in
  let v_ret := array 0 8 in
  let* v_ret := zip_iter_mut v_ret (chunks_exact 4 v_midstate) (fun v_ret_val v_midstate_bytes =>
      let* t1 := from_be_bytes 4 v_midstate_bytes in
      let v_ret_val := t1 in
      Ok v_ret_val) in
  Ok (mk_engine (array x00 64) v_ret v_length).

(** impl HashEngine for Engine, src/sha256.rs *)
Definition g_sha256_Engine_dict (cfg : config) : HashEngine :=
  {| he_state := engine;
     he_mid := (list byte);
     he_block_size := 64;
     he_default := Ok g_sha256_Engine_default;
     he_input := g_sha256_Engine_input cfg;
     he_n_bytes_hashed := g_sha256_Engine_n_bytes_hashed;
     he_finalize := g_sha256_Engine_finalize cfg;
     he_midstate := g_sha256_Engine_midstate;
     he_from_midstate := g_sha256_Engine_from_midstate_trait |}.

(** from_midstate, src/sha256.rs:434-443 *)
Definition g_sha256_Engine_from_midstate (v_midstate : (list byte)) (v_length : N) : res (engine) :=
  let* _ := assert ((v_length mod 64) =? 0) in
  let v_ret := array 0 8 in
  let* v_ret := zip_iter_mut v_ret (chunks_exact 4 v_midstate) (fun v_ret_val v_midstate_bytes =>
      let* t1 := from_be_bytes 4 v_midstate_bytes in
      let v_ret_val := t1 in
      Ok v_ret_val) in
  Ok (mk_engine (array x00 64) v_ret v_length).

(** engine, src/internal_macros.rs:165-165 *)
Definition g_sha256_Hash_engine (cfg : config) : res (engine) :=
  g_lib_HashEngine_new (g_sha256_Engine_dict cfg).

(** hash, src/internal_macros.rs:158-162 *)
Definition g_sha256_Hash_hash (cfg : config) (v_bytes : (list byte)) : res ((list byte)) :=
  let* v_engine := g_sha256_Hash_engine cfg in
  let* v_engine := g_sha256_Engine_input cfg v_engine v_bytes in
  g_sha256_Engine_finalize cfg v_engine.

(** from_engine, src/internal_macros.rs:170-173 *)
Definition g_sha256_Hash_from_engine (cfg : config) (v_engine : engine) : res ((list byte)) :=
  g_sha256_Engine_finalize cfg v_engine.
