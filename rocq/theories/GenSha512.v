(** Generated by tools/rs2v.py from the Rust source; do not edit. *)
From Verif Require Import Base GenBase ModelEngine GenLib.

(** default, src/sha512.rs:26-35 *)
Definition g_sha512_Engine_default : engine :=
  mk_engine (array x00 128) [0x6a09e667f3bcc908; 0xbb67ae8584caa73b; 0x3c6ef372fe94f82b; 0xa54ff53a5f1d36f1; 0x510e527fade682d1; 0x9b05688c2b3e6c1f; 0x1f83d9abfb41bd6b; 0x5be0cd19137e2179] 0.

(** n_bytes_hashed, src/sha512.rs:72-72 *)
Definition g_sha512_Engine_n_bytes_hashed (v_self : engine) : N :=
  e_length v_self.

(** Sigma1, src/sha512.rs:142-142 *)
Definition g_sha512_Sigma1 (v_x : N) : N :=
  N.lxor (N.lxor (rotate_left 64 50 v_x) (rotate_left 64 46 v_x)) (rotate_left 64 23 v_x).

(** Ch, src/sha512.rs:136-136 *)
Definition g_sha512_Ch (v_x : N) (v_y : N) (v_z : N) : N :=
  N.lxor v_z (N.land v_x (N.lxor v_y v_z)).

(** Sigma0, src/sha512.rs:140-140 *)
Definition g_sha512_Sigma0 (v_x : N) : N :=
  N.lxor (N.lxor (rotate_left 64 36 v_x) (rotate_left 64 30 v_x)) (rotate_left 64 25 v_x).

(** Maj, src/sha512.rs:138-138 *)
Definition g_sha512_Maj (v_x : N) (v_y : N) (v_z : N) : N :=
  N.lor (N.land v_x v_y) (N.land v_z (N.lor v_x v_y)).

(** round, src/sha512.rs:152-160 *)
Definition g_sha512_small_hash_round (v_a : N) (v_b : N) (v_c : N) (v_d : N) (v_e : N) (v_f : N) (v_g : N) (v_h : N) (v_k : N) (v_w : N) : N * N :=
  let v_t1 := wrapping_add 64 (wrapping_add 64 (wrapping_add 64 (wrapping_add 64 v_h (g_sha512_Sigma1 v_e)) (g_sha512_Ch v_e v_f v_g)) v_k) v_w in
  let v_t2 := wrapping_add 64 (g_sha512_Sigma0 v_a) (g_sha512_Maj v_a v_b v_c) in
  let v_d := wrapping_add 64 v_d v_t1 in
  let v_h := wrapping_add 64 v_t1 v_t2 in
  (v_d, v_h).

(** sigma1, src/sha512.rs:144-144 *)
Definition g_sha512_sigma1 (v_x : N) : N :=
  N.lxor (N.lxor (rotate_left 64 45 v_x) (rotate_left 64 3 v_x)) (N.shiftr v_x 6).

(** sigma0, src/sha512.rs:143-143 *)
Definition g_sha512_sigma0 (v_x : N) : N :=
  N.lxor (N.lxor (rotate_left 64 63 v_x) (rotate_left 64 56 v_x)) (N.shiftr v_x 7).

(** later_round, src/sha512.rs:162-169 *)
Definition g_sha512_small_hash_later_round (v_a : N) (v_b : N) (v_c : N) (v_d : N) (v_e : N) (v_f : N) (v_g : N) (v_h : N) (v_k : N) (v_w : N) (v_w1 : N) (v_w2 : N) (v_w3 : N) : N * N * N :=
  let v_w_2 := wrapping_add 64 (wrapping_add 64 (wrapping_add 64 v_w (g_sha512_sigma1 v_w1)) v_w2) (g_sha512_sigma0 v_w3) in
  let '(v_d, v_h) := g_sha512_small_hash_round v_a v_b v_c v_d v_e v_f v_g v_h v_k v_w_2 in
  (v_w_2, v_d, v_h).

(** process_block, src/sha512.rs:204-314; feature small-hash off *)
Definition g_sha512_Engine_process_block_fast_part5 v_self v_a v_b v_c v_d v_e v_f v_g v_h : res (engine) :=
  let* t9 := index (e_h v_self) 0 in
  let* t10 := store (e_h v_self) 0 (wrapping_add 64 t9 v_a) in
  let v_self := mk_engine (e_buffer v_self) t10 (e_length v_self) in
  let* t11 := index (e_h v_self) 1 in
  let* t12 := store (e_h v_self) 1 (wrapping_add 64 t11 v_b) in
  let v_self := mk_engine (e_buffer v_self) t12 (e_length v_self) in
  let* t13 := index (e_h v_self) 2 in
  let* t14 := store (e_h v_self) 2 (wrapping_add 64 t13 v_c) in
  let v_self := mk_engine (e_buffer v_self) t14 (e_length v_self) in
  let* t15 := index (e_h v_self) 3 in
  let* t16 := store (e_h v_self) 3 (wrapping_add 64 t15 v_d) in
  let v_self := mk_engine (e_buffer v_self) t16 (e_length v_self) in
  let* t17 := index (e_h v_self) 4 in
  let* t18 := store (e_h v_self) 4 (wrapping_add 64 t17 v_e) in
  let v_self := mk_engine (e_buffer v_self) t18 (e_length v_self) in
  let* t19 := index (e_h v_self) 5 in
  let* t20 := store (e_h v_self) 5 (wrapping_add 64 t19 v_f) in
  let v_self := mk_engine (e_buffer v_self) t20 (e_length v_self) in
  let* t21 := index (e_h v_self) 6 in
  let* t22 := store (e_h v_self) 6 (wrapping_add 64 t21 v_g) in
  let v_self := mk_engine (e_buffer v_self) t22 (e_length v_self) in
  let* t23 := index (e_h v_self) 7 in
  let* t24 := store (e_h v_self) 7 (wrapping_add 64 t23 v_h) in
  let v_self := mk_engine (e_buffer v_self) t24 (e_length v_self) in
  Ok v_self.

Definition g_sha512_Engine_process_block_fast_part4 v_self v_w v_a v_b v_c v_d v_e v_f v_g v_h : res (engine) :=
  let* (v_w, v_d, v_h) := (
    let* t9 := index v_w 0 in
    let* t10 := index v_w 14 in
    let* t11 := index v_w 9 in
    let* t12 := index v_w 1 in
    let* t13 := store v_w 0 (wrapping_add 64 (wrapping_add 64 (wrapping_add 64 t9 (g_sha512_sigma1 t10)) t11) (g_sha512_sigma0 t12)) in
    let v_w := t13 in
    let* (v_d, v_h) := (
      let* t14 := index v_w 0 in
      let v_t1 := wrapping_add 64 (wrapping_add 64 (wrapping_add 64 (wrapping_add 64 v_h (g_sha512_Sigma1 v_e)) (g_sha512_Ch v_e v_f v_g)) 0xca273eceea26619c) t14 in
      let v_t2 := wrapping_add 64 (g_sha512_Sigma0 v_a) (g_sha512_Maj v_a v_b v_c) in
      let v_d := wrapping_add 64 v_d v_t1 in
      let v_h := wrapping_add 64 v_t1 v_t2 in
      Ok (v_d, v_h)) in
    Ok (v_w, v_d, v_h)) in
  let* (v_w, v_c, v_g) := (
    let* t9 := index v_w 1 in
    let* t10 := index v_w 15 in
    let* t11 := index v_w 10 in
    let* t12 := index v_w 2 in
    let* t13 := store v_w 1 (wrapping_add 64 (wrapping_add 64 (wrapping_add 64 t9 (g_sha512_sigma1 t10)) t11) (g_sha512_sigma0 t12)) in
    let v_w := t13 in
    let* (v_c, v_g) := (
      let* t14 := index v_w 1 in
      let v_t1 := wrapping_add 64 (wrapping_add 64 (wrapping_add 64 (wrapping_add 64 v_g (g_sha512_Sigma1 v_d)) (g_sha512_Ch v_d v_e v_f)) 0xd186b8c721c0c207) t14 in
      let v_t2 := wrapping_add 64 (g_sha512_Sigma0 v_h) (g_sha512_Maj v_h v_a v_b) in
      let v_c := wrapping_add 64 v_c v_t1 in
      let v_g := wrapping_add 64 v_t1 v_t2 in
      Ok (v_c, v_g)) in
    Ok (v_w, v_c, v_g)) in
  let* (v_w, v_b, v_f) := (
    let* t9 := index v_w 2 in
    let* t10 := index v_w 0 in
    let* t11 := index v_w 11 in
    let* t12 := index v_w 3 in
    let* t13 := store v_w 2 (wrapping_add 64 (wrapping_add 64 (wrapping_add 64 t9 (g_sha512_sigma1 t10)) t11) (g_sha512_sigma0 t12)) in
    let v_w := t13 in
    let* (v_b, v_f) := (
      let* t14 := index v_w 2 in
      let v_t1 := wrapping_add 64 (wrapping_add 64 (wrapping_add 64 (wrapping_add 64 v_f (g_sha512_Sigma1 v_c)) (g_sha512_Ch v_c v_d v_e)) 0xeada7dd6cde0eb1e) t14 in
      let v_t2 := wrapping_add 64 (g_sha512_Sigma0 v_g) (g_sha512_Maj v_g v_h v_a) in
      let v_b := wrapping_add 64 v_b v_t1 in
      let v_f := wrapping_add 64 v_t1 v_t2 in
      Ok (v_b, v_f)) in
    Ok (v_w, v_b, v_f)) in
  let* (v_w, v_a, v_e) := (
    let* t9 := index v_w 3 in
    let* t10 := index v_w 1 in
    let* t11 := index v_w 12 in
    let* t12 := index v_w 4 in
    let* t13 := store v_w 3 (wrapping_add 64 (wrapping_add 64 (wrapping_add 64 t9 (g_sha512_sigma1 t10)) t11) (g_sha512_sigma0 t12)) in
    let v_w := t13 in
    let* (v_a, v_e) := (
      let* t14 := index v_w 3 in
      let v_t1 := wrapping_add 64 (wrapping_add 64 (wrapping_add 64 (wrapping_add 64 v_e (g_sha512_Sigma1 v_b)) (g_sha512_Ch v_b v_c v_d)) 0xf57d4f7fee6ed178) t14 in
      let v_t2 := wrapping_add 64 (g_sha512_Sigma0 v_f) (g_sha512_Maj v_f v_g v_h) in
      let v_a := wrapping_add 64 v_a v_t1 in
      let v_e := wrapping_add 64 v_t1 v_t2 in
      Ok (v_a, v_e)) in
    Ok (v_w, v_a, v_e)) in
  let* (v_w, v_d, v_h) := (
    let* t9 := index v_w 4 in
    let* t10 := index v_w 2 in
    let* t11 := index v_w 13 in
    let* t12 := index v_w 5 in
    let* t13 := store v_w 4 (wrapping_add 64 (wrapping_add 64 (wrapping_add 64 t9 (g_sha512_sigma1 t10)) t11) (g_sha512_sigma0 t12)) in
    let v_w := t13 in
    let* (v_d, v_h) := (
      let* t14 := index v_w 4 in
      let v_t1 := wrapping_add 64 (wrapping_add 64 (wrapping_add 64 (wrapping_add 64 v_d (g_sha512_Sigma1 v_a)) (g_sha512_Ch v_a v_b v_c)) 0x6f067aa72176fba) t14 in
      let v_t2 := wrapping_add 64 (g_sha512_Sigma0 v_e) (g_sha512_Maj v_e v_f v_g) in
      let v_h := wrapping_add 64 v_h v_t1 in
      let v_d := wrapping_add 64 v_t1 v_t2 in
      Ok (v_d, v_h)) in
    Ok (v_w, v_d, v_h)) in
  let* (v_w, v_c, v_g) := (
    let* t9 := index v_w 5 in
    let* t10 := index v_w 3 in
    let* t11 := index v_w 14 in
    let* t12 := index v_w 6 in
    let* t13 := store v_w 5 (wrapping_add 64 (wrapping_add 64 (wrapping_add 64 t9 (g_sha512_sigma1 t10)) t11) (g_sha512_sigma0 t12)) in
    let v_w := t13 in
    let* (v_c, v_g) := (
      let* t14 := index v_w 5 in
      let v_t1 := wrapping_add 64 (wrapping_add 64 (wrapping_add 64 (wrapping_add 64 v_c (g_sha512_Sigma1 v_h)) (g_sha512_Ch v_h v_a v_b)) 0xa637dc5a2c898a6) t14 in
      let v_t2 := wrapping_add 64 (g_sha512_Sigma0 v_d) (g_sha512_Maj v_d v_e v_f) in
      let v_g := wrapping_add 64 v_g v_t1 in
      let v_c := wrapping_add 64 v_t1 v_t2 in
      Ok (v_c, v_g)) in
    Ok (v_w, v_c, v_g)) in
  let* (v_w, v_b, v_f) := (
    let* t9 := index v_w 6 in
    let* t10 := index v_w 4 in
    let* t11 := index v_w 15 in
    let* t12 := index v_w 7 in
    let* t13 := store v_w 6 (wrapping_add 64 (wrapping_add 64 (wrapping_add 64 t9 (g_sha512_sigma1 t10)) t11) (g_sha512_sigma0 t12)) in
    let v_w := t13 in
    let* (v_b, v_f) := (
      let* t14 := index v_w 6 in
      let v_t1 := wrapping_add 64 (wrapping_add 64 (wrapping_add 64 (wrapping_add 64 v_b (g_sha512_Sigma1 v_g)) (g_sha512_Ch v_g v_h v_a)) 0x113f9804bef90dae) t14 in
      let v_t2 := wrapping_add 64 (g_sha512_Sigma0 v_c) (g_sha512_Maj v_c v_d v_e) in
      let v_f := wrapping_add 64 v_f v_t1 in
      let v_b := wrapping_add 64 v_t1 v_t2 in
      Ok (v_b, v_f)) in
    Ok (v_w, v_b, v_f)) in
  let* (v_w, v_a, v_e) := (
    let* t9 := index v_w 7 in
    let* t10 := index v_w 5 in
    let* t11 := index v_w 0 in
    let* t12 := index v_w 8 in
    let* t13 := store v_w 7 (wrapping_add 64 (wrapping_add 64 (wrapping_add 64 t9 (g_sha512_sigma1 t10)) t11) (g_sha512_sigma0 t12)) in
    let v_w := t13 in
    let* (v_a, v_e) := (
      let* t14 := index v_w 7 in
      let v_t1 := wrapping_add 64 (wrapping_add 64 (wrapping_add 64 (wrapping_add 64 v_a (g_sha512_Sigma1 v_f)) (g_sha512_Ch v_f v_g v_h)) 0x1b710b35131c471b) t14 in
      let v_t2 := wrapping_add 64 (g_sha512_Sigma0 v_b) (g_sha512_Maj v_b v_c v_d) in
      let v_e := wrapping_add 64 v_e v_t1 in
      let v_a := wrapping_add 64 v_t1 v_t2 in
      Ok (v_a, v_e)) in
    Ok (v_w, v_a, v_e)) in
  let* (v_w, v_d, v_h) := (
    let* t9 := index v_w 8 in
    let* t10 := index v_w 6 in
    let* t11 := index v_w 1 in
    let* t12 := index v_w 9 in
    let* t13 := store v_w 8 (wrapping_add 64 (wrapping_add 64 (wrapping_add 64 t9 (g_sha512_sigma1 t10)) t11) (g_sha512_sigma0 t12)) in
    let v_w := t13 in
    let* (v_d, v_h) := (
      let* t14 := index v_w 8 in
      let v_t1 := wrapping_add 64 (wrapping_add 64 (wrapping_add 64 (wrapping_add 64 v_h (g_sha512_Sigma1 v_e)) (g_sha512_Ch v_e v_f v_g)) 0x28db77f523047d84) t14 in
      let v_t2 := wrapping_add 64 (g_sha512_Sigma0 v_a) (g_sha512_Maj v_a v_b v_c) in
      let v_d := wrapping_add 64 v_d v_t1 in
      let v_h := wrapping_add 64 v_t1 v_t2 in
      Ok (v_d, v_h)) in
    Ok (v_w, v_d, v_h)) in
  let* (v_w, v_c, v_g) := (
    let* t9 := index v_w 9 in
    let* t10 := index v_w 7 in
    let* t11 := index v_w 2 in
    let* t12 := index v_w 10 in
    let* t13 := store v_w 9 (wrapping_add 64 (wrapping_add 64 (wrapping_add 64 t9 (g_sha512_sigma1 t10)) t11) (g_sha512_sigma0 t12)) in
    let v_w := t13 in
    let* (v_c, v_g) := (
      let* t14 := index v_w 9 in
      let v_t1 := wrapping_add 64 (wrapping_add 64 (wrapping_add 64 (wrapping_add 64 v_g (g_sha512_Sigma1 v_d)) (g_sha512_Ch v_d v_e v_f)) 0x32caab7b40c72493) t14 in
      let v_t2 := wrapping_add 64 (g_sha512_Sigma0 v_h) (g_sha512_Maj v_h v_a v_b) in
      let v_c := wrapping_add 64 v_c v_t1 in
      let v_g := wrapping_add 64 v_t1 v_t2 in
      Ok (v_c, v_g)) in
    Ok (v_w, v_c, v_g)) in
  let* (v_w, v_b, v_f) := (
    let* t9 := index v_w 10 in
    let* t10 := index v_w 8 in
    let* t11 := index v_w 3 in
    let* t12 := index v_w 11 in
    let* t13 := store v_w 10 (wrapping_add 64 (wrapping_add 64 (wrapping_add 64 t9 (g_sha512_sigma1 t10)) t11) (g_sha512_sigma0 t12)) in
    let v_w := t13 in
    let* (v_b, v_f) := (
      let* t14 := index v_w 10 in
      let v_t1 := wrapping_add 64 (wrapping_add 64 (wrapping_add 64 (wrapping_add 64 v_f (g_sha512_Sigma1 v_c)) (g_sha512_Ch v_c v_d v_e)) 0x3c9ebe0a15c9bebc) t14 in
      let v_t2 := wrapping_add 64 (g_sha512_Sigma0 v_g) (g_sha512_Maj v_g v_h v_a) in
      let v_b := wrapping_add 64 v_b v_t1 in
      let v_f := wrapping_add 64 v_t1 v_t2 in
      Ok (v_b, v_f)) in
    Ok (v_w, v_b, v_f)) in
  let* (v_w, v_a, v_e) := (
    let* t9 := index v_w 11 in
    let* t10 := index v_w 9 in
    let* t11 := index v_w 4 in
    let* t12 := index v_w 12 in
    let* t13 := store v_w 11 (wrapping_add 64 (wrapping_add 64 (wrapping_add 64 t9 (g_sha512_sigma1 t10)) t11) (g_sha512_sigma0 t12)) in
    let v_w := t13 in
    let* (v_a, v_e) := (
      let* t14 := index v_w 11 in
      let v_t1 := wrapping_add 64 (wrapping_add 64 (wrapping_add 64 (wrapping_add 64 v_e (g_sha512_Sigma1 v_b)) (g_sha512_Ch v_b v_c v_d)) 0x431d67c49c100d4c) t14 in
      let v_t2 := wrapping_add 64 (g_sha512_Sigma0 v_f) (g_sha512_Maj v_f v_g v_h) in
      let v_a := wrapping_add 64 v_a v_t1 in
      let v_e := wrapping_add 64 v_t1 v_t2 in
      Ok (v_a, v_e)) in
    Ok (v_w, v_a, v_e)) in
  let* (v_w, v_d, v_h) := (
    let* t9 := index v_w 12 in
    let* t10 := index v_w 10 in
    let* t11 := index v_w 5 in
    let* t12 := index v_w 13 in
    let* t13 := store v_w 12 (wrapping_add 64 (wrapping_add 64 (wrapping_add 64 t9 (g_sha512_sigma1 t10)) t11) (g_sha512_sigma0 t12)) in
    let v_w := t13 in
    let* (v_d, v_h) := (
      let* t14 := index v_w 12 in
      let v_t1 := wrapping_add 64 (wrapping_add 64 (wrapping_add 64 (wrapping_add 64 v_d (g_sha512_Sigma1 v_a)) (g_sha512_Ch v_a v_b v_c)) 0x4cc5d4becb3e42b6) t14 in
      let v_t2 := wrapping_add 64 (g_sha512_Sigma0 v_e) (g_sha512_Maj v_e v_f v_g) in
      let v_h := wrapping_add 64 v_h v_t1 in
      let v_d := wrapping_add 64 v_t1 v_t2 in
      Ok (v_d, v_h)) in
    Ok (v_w, v_d, v_h)) in
  let* (v_w, v_c, v_g) := (
    let* t9 := index v_w 13 in
    let* t10 := index v_w 11 in
    let* t11 := index v_w 6 in
    let* t12 := index v_w 14 in
    let* t13 := store v_w 13 (wrapping_add 64 (wrapping_add 64 (wrapping_add 64 t9 (g_sha512_sigma1 t10)) t11) (g_sha512_sigma0 t12)) in
    let v_w := t13 in
    let* (v_c, v_g) := (
      let* t14 := index v_w 13 in
      let v_t1 := wrapping_add 64 (wrapping_add 64 (wrapping_add 64 (wrapping_add 64 v_c (g_sha512_Sigma1 v_h)) (g_sha512_Ch v_h v_a v_b)) 0x597f299cfc657e2a) t14 in
      let v_t2 := wrapping_add 64 (g_sha512_Sigma0 v_d) (g_sha512_Maj v_d v_e v_f) in
      let v_g := wrapping_add 64 v_g v_t1 in
      let v_c := wrapping_add 64 v_t1 v_t2 in
      Ok (v_c, v_g)) in
    Ok (v_w, v_c, v_g)) in
  let* (v_w, v_b, v_f) := (
    let* t9 := index v_w 14 in
    let* t10 := index v_w 12 in
    let* t11 := index v_w 7 in
    let* t12 := index v_w 15 in
    let* t13 := store v_w 14 (wrapping_add 64 (wrapping_add 64 (wrapping_add 64 t9 (g_sha512_sigma1 t10)) t11) (g_sha512_sigma0 t12)) in
    let v_w := t13 in
    let* (v_b, v_f) := (
      let* t14 := index v_w 14 in
      let v_t1 := wrapping_add 64 (wrapping_add 64 (wrapping_add 64 (wrapping_add 64 v_b (g_sha512_Sigma1 v_g)) (g_sha512_Ch v_g v_h v_a)) 0x5fcb6fab3ad6faec) t14 in
      let v_t2 := wrapping_add 64 (g_sha512_Sigma0 v_c) (g_sha512_Maj v_c v_d v_e) in
      let v_f := wrapping_add 64 v_f v_t1 in
      let v_b := wrapping_add 64 v_t1 v_t2 in
      Ok (v_b, v_f)) in
    Ok (v_w, v_b, v_f)) in
  let* (v_w, v_a, v_e) := (
    let* t9 := index v_w 15 in
    let* t10 := index v_w 13 in
    let* t11 := index v_w 8 in
    let* t12 := index v_w 0 in
    let* t13 := store v_w 15 (wrapping_add 64 (wrapping_add 64 (wrapping_add 64 t9 (g_sha512_sigma1 t10)) t11) (g_sha512_sigma0 t12)) in
    let v_w := t13 in
    let* (v_a, v_e) := (
      let* t14 := index v_w 15 in
      let v_t1 := wrapping_add 64 (wrapping_add 64 (wrapping_add 64 (wrapping_add 64 v_a (g_sha512_Sigma1 v_f)) (g_sha512_Ch v_f v_g v_h)) 0x6c44198c4a475817) t14 in
      let v_t2 := wrapping_add 64 (g_sha512_Sigma0 v_b) (g_sha512_Maj v_b v_c v_d) in
      let v_e := wrapping_add 64 v_e v_t1 in
      let v_a := wrapping_add 64 v_t1 v_t2 in
      Ok (v_a, v_e)) in
    Ok (v_w, v_a, v_e)) in
  g_sha512_Engine_process_block_fast_part5 v_self v_a v_b v_c v_d v_e v_f v_g v_h.

Definition g_sha512_Engine_process_block_fast_part3 v_self v_w v_a v_b v_c v_d v_e v_f v_g v_h : res (engine) :=
  let* (v_w, v_d, v_h) := (
    let* t9 := index v_w 0 in
    let* t10 := index v_w 14 in
    let* t11 := index v_w 9 in
    let* t12 := index v_w 1 in
    let* t13 := store v_w 0 (wrapping_add 64 (wrapping_add 64 (wrapping_add 64 t9 (g_sha512_sigma1 t10)) t11) (g_sha512_sigma0 t12)) in
    let v_w := t13 in
    let* (v_d, v_h) := (
      let* t14 := index v_w 0 in
      let v_t1 := wrapping_add 64 (wrapping_add 64 (wrapping_add 64 (wrapping_add 64 v_h (g_sha512_Sigma1 v_e)) (g_sha512_Ch v_e v_f v_g)) 0x19a4c116b8d2d0c8) t14 in
      let v_t2 := wrapping_add 64 (g_sha512_Sigma0 v_a) (g_sha512_Maj v_a v_b v_c) in
      let v_d := wrapping_add 64 v_d v_t1 in
      let v_h := wrapping_add 64 v_t1 v_t2 in
      Ok (v_d, v_h)) in
    Ok (v_w, v_d, v_h)) in
  let* (v_w, v_c, v_g) := (
    let* t9 := index v_w 1 in
    let* t10 := index v_w 15 in
    let* t11 := index v_w 10 in
    let* t12 := index v_w 2 in
    let* t13 := store v_w 1 (wrapping_add 64 (wrapping_add 64 (wrapping_add 64 t9 (g_sha512_sigma1 t10)) t11) (g_sha512_sigma0 t12)) in
    let v_w := t13 in
    let* (v_c, v_g) := (
      let* t14 := index v_w 1 in
      let v_t1 := wrapping_add 64 (wrapping_add 64 (wrapping_add 64 (wrapping_add 64 v_g (g_sha512_Sigma1 v_d)) (g_sha512_Ch v_d v_e v_f)) 0x1e376c085141ab53) t14 in
      let v_t2 := wrapping_add 64 (g_sha512_Sigma0 v_h) (g_sha512_Maj v_h v_a v_b) in
      let v_c := wrapping_add 64 v_c v_t1 in
      let v_g := wrapping_add 64 v_t1 v_t2 in
      Ok (v_c, v_g)) in
    Ok (v_w, v_c, v_g)) in
  let* (v_w, v_b, v_f) := (
    let* t9 := index v_w 2 in
    let* t10 := index v_w 0 in
    let* t11 := index v_w 11 in
    let* t12 := index v_w 3 in
    let* t13 := store v_w 2 (wrapping_add 64 (wrapping_add 64 (wrapping_add 64 t9 (g_sha512_sigma1 t10)) t11) (g_sha512_sigma0 t12)) in
    let v_w := t13 in
    let* (v_b, v_f) := (
      let* t14 := index v_w 2 in
      let v_t1 := wrapping_add 64 (wrapping_add 64 (wrapping_add 64 (wrapping_add 64 v_f (g_sha512_Sigma1 v_c)) (g_sha512_Ch v_c v_d v_e)) 0x2748774cdf8eeb99) t14 in
      let v_t2 := wrapping_add 64 (g_sha512_Sigma0 v_g) (g_sha512_Maj v_g v_h v_a) in
      let v_b := wrapping_add 64 v_b v_t1 in
      let v_f := wrapping_add 64 v_t1 v_t2 in
      Ok (v_b, v_f)) in
    Ok (v_w, v_b, v_f)) in
  let* (v_w, v_a, v_e) := (
    let* t9 := index v_w 3 in
    let* t10 := index v_w 1 in
    let* t11 := index v_w 12 in
    let* t12 := index v_w 4 in
    let* t13 := store v_w 3 (wrapping_add 64 (wrapping_add 64 (wrapping_add 64 t9 (g_sha512_sigma1 t10)) t11) (g_sha512_sigma0 t12)) in
    let v_w := t13 in
    let* (v_a, v_e) := (
      let* t14 := index v_w 3 in
      let v_t1 := wrapping_add 64 (wrapping_add 64 (wrapping_add 64 (wrapping_add 64 v_e (g_sha512_Sigma1 v_b)) (g_sha512_Ch v_b v_c v_d)) 0x34b0bcb5e19b48a8) t14 in
      let v_t2 := wrapping_add 64 (g_sha512_Sigma0 v_f) (g_sha512_Maj v_f v_g v_h) in
      let v_a := wrapping_add 64 v_a v_t1 in
      let v_e := wrapping_add 64 v_t1 v_t2 in
      Ok (v_a, v_e)) in
    Ok (v_w, v_a, v_e)) in
  let* (v_w, v_d, v_h) := (
    let* t9 := index v_w 4 in
    let* t10 := index v_w 2 in
    let* t11 := index v_w 13 in
    let* t12 := index v_w 5 in
    let* t13 := store v_w 4 (wrapping_add 64 (wrapping_add 64 (wrapping_add 64 t9 (g_sha512_sigma1 t10)) t11) (g_sha512_sigma0 t12)) in
    let v_w := t13 in
    let* (v_d, v_h) := (
      let* t14 := index v_w 4 in
      let v_t1 := wrapping_add 64 (wrapping_add 64 (wrapping_add 64 (wrapping_add 64 v_d (g_sha512_Sigma1 v_a)) (g_sha512_Ch v_a v_b v_c)) 0x391c0cb3c5c95a63) t14 in
      let v_t2 := wrapping_add 64 (g_sha512_Sigma0 v_e) (g_sha512_Maj v_e v_f v_g) in
      let v_h := wrapping_add 64 v_h v_t1 in
      let v_d := wrapping_add 64 v_t1 v_t2 in
      Ok (v_d, v_h)) in
    Ok (v_w, v_d, v_h)) in
  let* (v_w, v_c, v_g) := (
    let* t9 := index v_w 5 in
    let* t10 := index v_w 3 in
    let* t11 := index v_w 14 in
    let* t12 := index v_w 6 in
    let* t13 := store v_w 5 (wrapping_add 64 (wrapping_add 64 (wrapping_add 64 t9 (g_sha512_sigma1 t10)) t11) (g_sha512_sigma0 t12)) in
    let v_w := t13 in
    let* (v_c, v_g) := (
      let* t14 := index v_w 5 in
      let v_t1 := wrapping_add 64 (wrapping_add 64 (wrapping_add 64 (wrapping_add 64 v_c (g_sha512_Sigma1 v_h)) (g_sha512_Ch v_h v_a v_b)) 0x4ed8aa4ae3418acb) t14 in
      let v_t2 := wrapping_add 64 (g_sha512_Sigma0 v_d) (g_sha512_Maj v_d v_e v_f) in
      let v_g := wrapping_add 64 v_g v_t1 in
      let v_c := wrapping_add 64 v_t1 v_t2 in
      Ok (v_c, v_g)) in
    Ok (v_w, v_c, v_g)) in
  let* (v_w, v_b, v_f) := (
    let* t9 := index v_w 6 in
    let* t10 := index v_w 4 in
    let* t11 := index v_w 15 in
    let* t12 := index v_w 7 in
    let* t13 := store v_w 6 (wrapping_add 64 (wrapping_add 64 (wrapping_add 64 t9 (g_sha512_sigma1 t10)) t11) (g_sha512_sigma0 t12)) in
    let v_w := t13 in
    let* (v_b, v_f) := (
      let* t14 := index v_w 6 in
      let v_t1 := wrapping_add 64 (wrapping_add 64 (wrapping_add 64 (wrapping_add 64 v_b (g_sha512_Sigma1 v_g)) (g_sha512_Ch v_g v_h v_a)) 0x5b9cca4f7763e373) t14 in
      let v_t2 := wrapping_add 64 (g_sha512_Sigma0 v_c) (g_sha512_Maj v_c v_d v_e) in
      let v_f := wrapping_add 64 v_f v_t1 in
      let v_b := wrapping_add 64 v_t1 v_t2 in
      Ok (v_b, v_f)) in
    Ok (v_w, v_b, v_f)) in
  let* (v_w, v_a, v_e) := (
    let* t9 := index v_w 7 in
    let* t10 := index v_w 5 in
    let* t11 := index v_w 0 in
    let* t12 := index v_w 8 in
    let* t13 := store v_w 7 (wrapping_add 64 (wrapping_add 64 (wrapping_add 64 t9 (g_sha512_sigma1 t10)) t11) (g_sha512_sigma0 t12)) in
    let v_w := t13 in
    let* (v_a, v_e) := (
      let* t14 := index v_w 7 in
      let v_t1 := wrapping_add 64 (wrapping_add 64 (wrapping_add 64 (wrapping_add 64 v_a (g_sha512_Sigma1 v_f)) (g_sha512_Ch v_f v_g v_h)) 0x682e6ff3d6b2b8a3) t14 in
      let v_t2 := wrapping_add 64 (g_sha512_Sigma0 v_b) (g_sha512_Maj v_b v_c v_d) in
      let v_e := wrapping_add 64 v_e v_t1 in
      let v_a := wrapping_add 64 v_t1 v_t2 in
      Ok (v_a, v_e)) in
    Ok (v_w, v_a, v_e)) in
  let* (v_w, v_d, v_h) := (
    let* t9 := index v_w 8 in
    let* t10 := index v_w 6 in
    let* t11 := index v_w 1 in
    let* t12 := index v_w 9 in
    let* t13 := store v_w 8 (wrapping_add 64 (wrapping_add 64 (wrapping_add 64 t9 (g_sha512_sigma1 t10)) t11) (g_sha512_sigma0 t12)) in
    let v_w := t13 in
    let* (v_d, v_h) := (
      let* t14 := index v_w 8 in
      let v_t1 := wrapping_add 64 (wrapping_add 64 (wrapping_add 64 (wrapping_add 64 v_h (g_sha512_Sigma1 v_e)) (g_sha512_Ch v_e v_f v_g)) 0x748f82ee5defb2fc) t14 in
      let v_t2 := wrapping_add 64 (g_sha512_Sigma0 v_a) (g_sha512_Maj v_a v_b v_c) in
      let v_d := wrapping_add 64 v_d v_t1 in
      let v_h := wrapping_add 64 v_t1 v_t2 in
      Ok (v_d, v_h)) in
    Ok (v_w, v_d, v_h)) in
  let* (v_w, v_c, v_g) := (
    let* t9 := index v_w 9 in
    let* t10 := index v_w 7 in
    let* t11 := index v_w 2 in
    let* t12 := index v_w 10 in
    let* t13 := store v_w 9 (wrapping_add 64 (wrapping_add 64 (wrapping_add 64 t9 (g_sha512_sigma1 t10)) t11) (g_sha512_sigma0 t12)) in
    let v_w := t13 in
    let* (v_c, v_g) := (
      let* t14 := index v_w 9 in
      let v_t1 := wrapping_add 64 (wrapping_add 64 (wrapping_add 64 (wrapping_add 64 v_g (g_sha512_Sigma1 v_d)) (g_sha512_Ch v_d v_e v_f)) 0x78a5636f43172f60) t14 in
      let v_t2 := wrapping_add 64 (g_sha512_Sigma0 v_h) (g_sha512_Maj v_h v_a v_b) in
      let v_c := wrapping_add 64 v_c v_t1 in
      let v_g := wrapping_add 64 v_t1 v_t2 in
      Ok (v_c, v_g)) in
    Ok (v_w, v_c, v_g)) in
  let* (v_w, v_b, v_f) := (
    let* t9 := index v_w 10 in
    let* t10 := index v_w 8 in
    let* t11 := index v_w 3 in
    let* t12 := index v_w 11 in
    let* t13 := store v_w 10 (wrapping_add 64 (wrapping_add 64 (wrapping_add 64 t9 (g_sha512_sigma1 t10)) t11) (g_sha512_sigma0 t12)) in
    let v_w := t13 in
    let* (v_b, v_f) := (
      let* t14 := index v_w 10 in
      let v_t1 := wrapping_add 64 (wrapping_add 64 (wrapping_add 64 (wrapping_add 64 v_f (g_sha512_Sigma1 v_c)) (g_sha512_Ch v_c v_d v_e)) 0x84c87814a1f0ab72) t14 in
      let v_t2 := wrapping_add 64 (g_sha512_Sigma0 v_g) (g_sha512_Maj v_g v_h v_a) in
      let v_b := wrapping_add 64 v_b v_t1 in
      let v_f := wrapping_add 64 v_t1 v_t2 in
      Ok (v_b, v_f)) in
    Ok (v_w, v_b, v_f)) in
  let* (v_w, v_a, v_e) := (
    let* t9 := index v_w 11 in
    let* t10 := index v_w 9 in
    let* t11 := index v_w 4 in
    let* t12 := index v_w 12 in
    let* t13 := store v_w 11 (wrapping_add 64 (wrapping_add 64 (wrapping_add 64 t9 (g_sha512_sigma1 t10)) t11) (g_sha512_sigma0 t12)) in
    let v_w := t13 in
    let* (v_a, v_e) := (
      let* t14 := index v_w 11 in
      let v_t1 := wrapping_add 64 (wrapping_add 64 (wrapping_add 64 (wrapping_add 64 v_e (g_sha512_Sigma1 v_b)) (g_sha512_Ch v_b v_c v_d)) 0x8cc702081a6439ec) t14 in
      let v_t2 := wrapping_add 64 (g_sha512_Sigma0 v_f) (g_sha512_Maj v_f v_g v_h) in
      let v_a := wrapping_add 64 v_a v_t1 in
      let v_e := wrapping_add 64 v_t1 v_t2 in
      Ok (v_a, v_e)) in
    Ok (v_w, v_a, v_e)) in
  let* (v_w, v_d, v_h) := (
    let* t9 := index v_w 12 in
    let* t10 := index v_w 10 in
    let* t11 := index v_w 5 in
    let* t12 := index v_w 13 in
    let* t13 := store v_w 12 (wrapping_add 64 (wrapping_add 64 (wrapping_add 64 t9 (g_sha512_sigma1 t10)) t11) (g_sha512_sigma0 t12)) in
    let v_w := t13 in
    let* (v_d, v_h) := (
      let* t14 := index v_w 12 in
      let v_t1 := wrapping_add 64 (wrapping_add 64 (wrapping_add 64 (wrapping_add 64 v_d (g_sha512_Sigma1 v_a)) (g_sha512_Ch v_a v_b v_c)) 0x90befffa23631e28) t14 in
      let v_t2 := wrapping_add 64 (g_sha512_Sigma0 v_e) (g_sha512_Maj v_e v_f v_g) in
      let v_h := wrapping_add 64 v_h v_t1 in
      let v_d := wrapping_add 64 v_t1 v_t2 in
      Ok (v_d, v_h)) in
    Ok (v_w, v_d, v_h)) in
  let* (v_w, v_c, v_g) := (
    let* t9 := index v_w 13 in
    let* t10 := index v_w 11 in
    let* t11 := index v_w 6 in
    let* t12 := index v_w 14 in
    let* t13 := store v_w 13 (wrapping_add 64 (wrapping_add 64 (wrapping_add 64 t9 (g_sha512_sigma1 t10)) t11) (g_sha512_sigma0 t12)) in
    let v_w := t13 in
    let* (v_c, v_g) := (
      let* t14 := index v_w 13 in
      let v_t1 := wrapping_add 64 (wrapping_add 64 (wrapping_add 64 (wrapping_add 64 v_c (g_sha512_Sigma1 v_h)) (g_sha512_Ch v_h v_a v_b)) 0xa4506cebde82bde9) t14 in
      let v_t2 := wrapping_add 64 (g_sha512_Sigma0 v_d) (g_sha512_Maj v_d v_e v_f) in
      let v_g := wrapping_add 64 v_g v_t1 in
      let v_c := wrapping_add 64 v_t1 v_t2 in
      Ok (v_c, v_g)) in
    Ok (v_w, v_c, v_g)) in
  let* (v_w, v_b, v_f) := (
    let* t9 := index v_w 14 in
    let* t10 := index v_w 12 in
    let* t11 := index v_w 7 in
    let* t12 := index v_w 15 in
    let* t13 := store v_w 14 (wrapping_add 64 (wrapping_add 64 (wrapping_add 64 t9 (g_sha512_sigma1 t10)) t11) (g_sha512_sigma0 t12)) in
    let v_w := t13 in
    let* (v_b, v_f) := (
      let* t14 := index v_w 14 in
      let v_t1 := wrapping_add 64 (wrapping_add 64 (wrapping_add 64 (wrapping_add 64 v_b (g_sha512_Sigma1 v_g)) (g_sha512_Ch v_g v_h v_a)) 0xbef9a3f7b2c67915) t14 in
      let v_t2 := wrapping_add 64 (g_sha512_Sigma0 v_c) (g_sha512_Maj v_c v_d v_e) in
      let v_f := wrapping_add 64 v_f v_t1 in
      let v_b := wrapping_add 64 v_t1 v_t2 in
      Ok (v_b, v_f)) in
    Ok (v_w, v_b, v_f)) in
  let* (v_w, v_a, v_e) := (
    let* t9 := index v_w 15 in
    let* t10 := index v_w 13 in
    let* t11 := index v_w 8 in
    let* t12 := index v_w 0 in
    let* t13 := store v_w 15 (wrapping_add 64 (wrapping_add 64 (wrapping_add 64 t9 (g_sha512_sigma1 t10)) t11) (g_sha512_sigma0 t12)) in
    let v_w := t13 in
    let* (v_a, v_e) := (
      let* t14 := index v_w 15 in
      let v_t1 := wrapping_add 64 (wrapping_add 64 (wrapping_add 64 (wrapping_add 64 v_a (g_sha512_Sigma1 v_f)) (g_sha512_Ch v_f v_g v_h)) 0xc67178f2e372532b) t14 in
      let v_t2 := wrapping_add 64 (g_sha512_Sigma0 v_b) (g_sha512_Maj v_b v_c v_d) in
      let v_e := wrapping_add 64 v_e v_t1 in
      let v_a := wrapping_add 64 v_t1 v_t2 in
      Ok (v_a, v_e)) in
    Ok (v_w, v_a, v_e)) in
  g_sha512_Engine_process_block_fast_part4 v_self v_w v_a v_b v_c v_d v_e v_f v_g v_h.

Definition g_sha512_Engine_process_block_fast_part2 v_self v_w v_a v_b v_c v_d v_e v_f v_g v_h : res (engine) :=
  let* (v_w, v_d, v_h) := (
    let* t9 := index v_w 0 in
    let* t10 := index v_w 14 in
    let* t11 := index v_w 9 in
    let* t12 := index v_w 1 in
    let* t13 := store v_w 0 (wrapping_add 64 (wrapping_add 64 (wrapping_add 64 t9 (g_sha512_sigma1 t10)) t11) (g_sha512_sigma0 t12)) in
    let v_w := t13 in
    let* (v_d, v_h) := (
      let* t14 := index v_w 0 in
      let v_t1 := wrapping_add 64 (wrapping_add 64 (wrapping_add 64 (wrapping_add 64 v_h (g_sha512_Sigma1 v_e)) (g_sha512_Ch v_e v_f v_g)) 0x27b70a8546d22ffc) t14 in
      let v_t2 := wrapping_add 64 (g_sha512_Sigma0 v_a) (g_sha512_Maj v_a v_b v_c) in
      let v_d := wrapping_add 64 v_d v_t1 in
      let v_h := wrapping_add 64 v_t1 v_t2 in
      Ok (v_d, v_h)) in
    Ok (v_w, v_d, v_h)) in
  let* (v_w, v_c, v_g) := (
    let* t9 := index v_w 1 in
    let* t10 := index v_w 15 in
    let* t11 := index v_w 10 in
    let* t12 := index v_w 2 in
    let* t13 := store v_w 1 (wrapping_add 64 (wrapping_add 64 (wrapping_add 64 t9 (g_sha512_sigma1 t10)) t11) (g_sha512_sigma0 t12)) in
    let v_w := t13 in
    let* (v_c, v_g) := (
      let* t14 := index v_w 1 in
      let v_t1 := wrapping_add 64 (wrapping_add 64 (wrapping_add 64 (wrapping_add 64 v_g (g_sha512_Sigma1 v_d)) (g_sha512_Ch v_d v_e v_f)) 0x2e1b21385c26c926) t14 in
      let v_t2 := wrapping_add 64 (g_sha512_Sigma0 v_h) (g_sha512_Maj v_h v_a v_b) in
      let v_c := wrapping_add 64 v_c v_t1 in
      let v_g := wrapping_add 64 v_t1 v_t2 in
      Ok (v_c, v_g)) in
    Ok (v_w, v_c, v_g)) in
  let* (v_w, v_b, v_f) := (
    let* t9 := index v_w 2 in
    let* t10 := index v_w 0 in
    let* t11 := index v_w 11 in
    let* t12 := index v_w 3 in
    let* t13 := store v_w 2 (wrapping_add 64 (wrapping_add 64 (wrapping_add 64 t9 (g_sha512_sigma1 t10)) t11) (g_sha512_sigma0 t12)) in
    let v_w := t13 in
    let* (v_b, v_f) := (
      let* t14 := index v_w 2 in
      let v_t1 := wrapping_add 64 (wrapping_add 64 (wrapping_add 64 (wrapping_add 64 v_f (g_sha512_Sigma1 v_c)) (g_sha512_Ch v_c v_d v_e)) 0x4d2c6dfc5ac42aed) t14 in
      let v_t2 := wrapping_add 64 (g_sha512_Sigma0 v_g) (g_sha512_Maj v_g v_h v_a) in
      let v_b := wrapping_add 64 v_b v_t1 in
      let v_f := wrapping_add 64 v_t1 v_t2 in
      Ok (v_b, v_f)) in
    Ok (v_w, v_b, v_f)) in
  let* (v_w, v_a, v_e) := (
    let* t9 := index v_w 3 in
    let* t10 := index v_w 1 in
    let* t11 := index v_w 12 in
    let* t12 := index v_w 4 in
    let* t13 := store v_w 3 (wrapping_add 64 (wrapping_add 64 (wrapping_add 64 t9 (g_sha512_sigma1 t10)) t11) (g_sha512_sigma0 t12)) in
    let v_w := t13 in
    let* (v_a, v_e) := (
      let* t14 := index v_w 3 in
      let v_t1 := wrapping_add 64 (wrapping_add 64 (wrapping_add 64 (wrapping_add 64 v_e (g_sha512_Sigma1 v_b)) (g_sha512_Ch v_b v_c v_d)) 0x53380d139d95b3df) t14 in
      let v_t2 := wrapping_add 64 (g_sha512_Sigma0 v_f) (g_sha512_Maj v_f v_g v_h) in
      let v_a := wrapping_add 64 v_a v_t1 in
      let v_e := wrapping_add 64 v_t1 v_t2 in
      Ok (v_a, v_e)) in
    Ok (v_w, v_a, v_e)) in
  let* (v_w, v_d, v_h) := (
    let* t9 := index v_w 4 in
    let* t10 := index v_w 2 in
    let* t11 := index v_w 13 in
    let* t12 := index v_w 5 in
    let* t13 := store v_w 4 (wrapping_add 64 (wrapping_add 64 (wrapping_add 64 t9 (g_sha512_sigma1 t10)) t11) (g_sha512_sigma0 t12)) in
    let v_w := t13 in
    let* (v_d, v_h) := (
      let* t14 := index v_w 4 in
      let v_t1 := wrapping_add 64 (wrapping_add 64 (wrapping_add 64 (wrapping_add 64 v_d (g_sha512_Sigma1 v_a)) (g_sha512_Ch v_a v_b v_c)) 0x650a73548baf63de) t14 in
      let v_t2 := wrapping_add 64 (g_sha512_Sigma0 v_e) (g_sha512_Maj v_e v_f v_g) in
      let v_h := wrapping_add 64 v_h v_t1 in
      let v_d := wrapping_add 64 v_t1 v_t2 in
      Ok (v_d, v_h)) in
    Ok (v_w, v_d, v_h)) in
  let* (v_w, v_c, v_g) := (
    let* t9 := index v_w 5 in
    let* t10 := index v_w 3 in
    let* t11 := index v_w 14 in
    let* t12 := index v_w 6 in
    let* t13 := store v_w 5 (wrapping_add 64 (wrapping_add 64 (wrapping_add 64 t9 (g_sha512_sigma1 t10)) t11) (g_sha512_sigma0 t12)) in
    let v_w := t13 in
    let* (v_c, v_g) := (
      let* t14 := index v_w 5 in
      let v_t1 := wrapping_add 64 (wrapping_add 64 (wrapping_add 64 (wrapping_add 64 v_c (g_sha512_Sigma1 v_h)) (g_sha512_Ch v_h v_a v_b)) 0x766a0abb3c77b2a8) t14 in
      let v_t2 := wrapping_add 64 (g_sha512_Sigma0 v_d) (g_sha512_Maj v_d v_e v_f) in
      let v_g := wrapping_add 64 v_g v_t1 in
      let v_c := wrapping_add 64 v_t1 v_t2 in
      Ok (v_c, v_g)) in
    Ok (v_w, v_c, v_g)) in
  let* (v_w, v_b, v_f) := (
    let* t9 := index v_w 6 in
    let* t10 := index v_w 4 in
    let* t11 := index v_w 15 in
    let* t12 := index v_w 7 in
    let* t13 := store v_w 6 (wrapping_add 64 (wrapping_add 64 (wrapping_add 64 t9 (g_sha512_sigma1 t10)) t11) (g_sha512_sigma0 t12)) in
    let v_w := t13 in
    let* (v_b, v_f) := (
      let* t14 := index v_w 6 in
      let v_t1 := wrapping_add 64 (wrapping_add 64 (wrapping_add 64 (wrapping_add 64 v_b (g_sha512_Sigma1 v_g)) (g_sha512_Ch v_g v_h v_a)) 0x81c2c92e47edaee6) t14 in
      let v_t2 := wrapping_add 64 (g_sha512_Sigma0 v_c) (g_sha512_Maj v_c v_d v_e) in
      let v_f := wrapping_add 64 v_f v_t1 in
      let v_b := wrapping_add 64 v_t1 v_t2 in
      Ok (v_b, v_f)) in
    Ok (v_w, v_b, v_f)) in
  let* (v_w, v_a, v_e) := (
    let* t9 := index v_w 7 in
    let* t10 := index v_w 5 in
    let* t11 := index v_w 0 in
    let* t12 := index v_w 8 in
    let* t13 := store v_w 7 (wrapping_add 64 (wrapping_add 64 (wrapping_add 64 t9 (g_sha512_sigma1 t10)) t11) (g_sha512_sigma0 t12)) in
    let v_w := t13 in
    let* (v_a, v_e) := (
      let* t14 := index v_w 7 in
      let v_t1 := wrapping_add 64 (wrapping_add 64 (wrapping_add 64 (wrapping_add 64 v_a (g_sha512_Sigma1 v_f)) (g_sha512_Ch v_f v_g v_h)) 0x92722c851482353b) t14 in
      let v_t2 := wrapping_add 64 (g_sha512_Sigma0 v_b) (g_sha512_Maj v_b v_c v_d) in
      let v_e := wrapping_add 64 v_e v_t1 in
      let v_a := wrapping_add 64 v_t1 v_t2 in
      Ok (v_a, v_e)) in
    Ok (v_w, v_a, v_e)) in
  let* (v_w, v_d, v_h) := (
    let* t9 := index v_w 8 in
    let* t10 := index v_w 6 in
    let* t11 := index v_w 1 in
    let* t12 := index v_w 9 in
    let* t13 := store v_w 8 (wrapping_add 64 (wrapping_add 64 (wrapping_add 64 t9 (g_sha512_sigma1 t10)) t11) (g_sha512_sigma0 t12)) in
    let v_w := t13 in
    let* (v_d, v_h) := (
      let* t14 := index v_w 8 in
      let v_t1 := wrapping_add 64 (wrapping_add 64 (wrapping_add 64 (wrapping_add 64 v_h (g_sha512_Sigma1 v_e)) (g_sha512_Ch v_e v_f v_g)) 0xa2bfe8a14cf10364) t14 in
      let v_t2 := wrapping_add 64 (g_sha512_Sigma0 v_a) (g_sha512_Maj v_a v_b v_c) in
      let v_d := wrapping_add 64 v_d v_t1 in
      let v_h := wrapping_add 64 v_t1 v_t2 in
      Ok (v_d, v_h)) in
    Ok (v_w, v_d, v_h)) in
  let* (v_w, v_c, v_g) := (
    let* t9 := index v_w 9 in
    let* t10 := index v_w 7 in
    let* t11 := index v_w 2 in
    let* t12 := index v_w 10 in
    let* t13 := store v_w 9 (wrapping_add 64 (wrapping_add 64 (wrapping_add 64 t9 (g_sha512_sigma1 t10)) t11) (g_sha512_sigma0 t12)) in
    let v_w := t13 in
    let* (v_c, v_g) := (
      let* t14 := index v_w 9 in
      let v_t1 := wrapping_add 64 (wrapping_add 64 (wrapping_add 64 (wrapping_add 64 v_g (g_sha512_Sigma1 v_d)) (g_sha512_Ch v_d v_e v_f)) 0xa81a664bbc423001) t14 in
      let v_t2 := wrapping_add 64 (g_sha512_Sigma0 v_h) (g_sha512_Maj v_h v_a v_b) in
      let v_c := wrapping_add 64 v_c v_t1 in
      let v_g := wrapping_add 64 v_t1 v_t2 in
      Ok (v_c, v_g)) in
    Ok (v_w, v_c, v_g)) in
  let* (v_w, v_b, v_f) := (
    let* t9 := index v_w 10 in
    let* t10 := index v_w 8 in
    let* t11 := index v_w 3 in
    let* t12 := index v_w 11 in
    let* t13 := store v_w 10 (wrapping_add 64 (wrapping_add 64 (wrapping_add 64 t9 (g_sha512_sigma1 t10)) t11) (g_sha512_sigma0 t12)) in
    let v_w := t13 in
    let* (v_b, v_f) := (
      let* t14 := index v_w 10 in
      let v_t1 := wrapping_add 64 (wrapping_add 64 (wrapping_add 64 (wrapping_add 64 v_f (g_sha512_Sigma1 v_c)) (g_sha512_Ch v_c v_d v_e)) 0xc24b8b70d0f89791) t14 in
      let v_t2 := wrapping_add 64 (g_sha512_Sigma0 v_g) (g_sha512_Maj v_g v_h v_a) in
      let v_b := wrapping_add 64 v_b v_t1 in
      let v_f := wrapping_add 64 v_t1 v_t2 in
      Ok (v_b, v_f)) in
    Ok (v_w, v_b, v_f)) in
  let* (v_w, v_a, v_e) := (
    let* t9 := index v_w 11 in
    let* t10 := index v_w 9 in
    let* t11 := index v_w 4 in
    let* t12 := index v_w 12 in
    let* t13 := store v_w 11 (wrapping_add 64 (wrapping_add 64 (wrapping_add 64 t9 (g_sha512_sigma1 t10)) t11) (g_sha512_sigma0 t12)) in
    let v_w := t13 in
    let* (v_a, v_e) := (
      let* t14 := index v_w 11 in
      let v_t1 := wrapping_add 64 (wrapping_add 64 (wrapping_add 64 (wrapping_add 64 v_e (g_sha512_Sigma1 v_b)) (g_sha512_Ch v_b v_c v_d)) 0xc76c51a30654be30) t14 in
      let v_t2 := wrapping_add 64 (g_sha512_Sigma0 v_f) (g_sha512_Maj v_f v_g v_h) in
      let v_a := wrapping_add 64 v_a v_t1 in
      let v_e := wrapping_add 64 v_t1 v_t2 in
      Ok (v_a, v_e)) in
    Ok (v_w, v_a, v_e)) in
  let* (v_w, v_d, v_h) := (
    let* t9 := index v_w 12 in
    let* t10 := index v_w 10 in
    let* t11 := index v_w 5 in
    let* t12 := index v_w 13 in
    let* t13 := store v_w 12 (wrapping_add 64 (wrapping_add 64 (wrapping_add 64 t9 (g_sha512_sigma1 t10)) t11) (g_sha512_sigma0 t12)) in
    let v_w := t13 in
    let* (v_d, v_h) := (
      let* t14 := index v_w 12 in
      let v_t1 := wrapping_add 64 (wrapping_add 64 (wrapping_add 64 (wrapping_add 64 v_d (g_sha512_Sigma1 v_a)) (g_sha512_Ch v_a v_b v_c)) 0xd192e819d6ef5218) t14 in
      let v_t2 := wrapping_add 64 (g_sha512_Sigma0 v_e) (g_sha512_Maj v_e v_f v_g) in
      let v_h := wrapping_add 64 v_h v_t1 in
      let v_d := wrapping_add 64 v_t1 v_t2 in
      Ok (v_d, v_h)) in
    Ok (v_w, v_d, v_h)) in
  let* (v_w, v_c, v_g) := (
    let* t9 := index v_w 13 in
    let* t10 := index v_w 11 in
    let* t11 := index v_w 6 in
    let* t12 := index v_w 14 in
    let* t13 := store v_w 13 (wrapping_add 64 (wrapping_add 64 (wrapping_add 64 t9 (g_sha512_sigma1 t10)) t11) (g_sha512_sigma0 t12)) in
    let v_w := t13 in
    let* (v_c, v_g) := (
      let* t14 := index v_w 13 in
      let v_t1 := wrapping_add 64 (wrapping_add 64 (wrapping_add 64 (wrapping_add 64 v_c (g_sha512_Sigma1 v_h)) (g_sha512_Ch v_h v_a v_b)) 0xd69906245565a910) t14 in
      let v_t2 := wrapping_add 64 (g_sha512_Sigma0 v_d) (g_sha512_Maj v_d v_e v_f) in
      let v_g := wrapping_add 64 v_g v_t1 in
      let v_c := wrapping_add 64 v_t1 v_t2 in
      Ok (v_c, v_g)) in
    Ok (v_w, v_c, v_g)) in
  let* (v_w, v_b, v_f) := (
    let* t9 := index v_w 14 in
    let* t10 := index v_w 12 in
    let* t11 := index v_w 7 in
    let* t12 := index v_w 15 in
    let* t13 := store v_w 14 (wrapping_add 64 (wrapping_add 64 (wrapping_add 64 t9 (g_sha512_sigma1 t10)) t11) (g_sha512_sigma0 t12)) in
    let v_w := t13 in
    let* (v_b, v_f) := (
      let* t14 := index v_w 14 in
      let v_t1 := wrapping_add 64 (wrapping_add 64 (wrapping_add 64 (wrapping_add 64 v_b (g_sha512_Sigma1 v_g)) (g_sha512_Ch v_g v_h v_a)) 0xf40e35855771202a) t14 in
      let v_t2 := wrapping_add 64 (g_sha512_Sigma0 v_c) (g_sha512_Maj v_c v_d v_e) in
      let v_f := wrapping_add 64 v_f v_t1 in
      let v_b := wrapping_add 64 v_t1 v_t2 in
      Ok (v_b, v_f)) in
    Ok (v_w, v_b, v_f)) in
  let* (v_w, v_a, v_e) := (
    let* t9 := index v_w 15 in
    let* t10 := index v_w 13 in
    let* t11 := index v_w 8 in
    let* t12 := index v_w 0 in
    let* t13 := store v_w 15 (wrapping_add 64 (wrapping_add 64 (wrapping_add 64 t9 (g_sha512_sigma1 t10)) t11) (g_sha512_sigma0 t12)) in
    let v_w := t13 in
    let* (v_a, v_e) := (
      let* t14 := index v_w 15 in
      let v_t1 := wrapping_add 64 (wrapping_add 64 (wrapping_add 64 (wrapping_add 64 v_a (g_sha512_Sigma1 v_f)) (g_sha512_Ch v_f v_g v_h)) 0x106aa07032bbd1b8) t14 in
      let v_t2 := wrapping_add 64 (g_sha512_Sigma0 v_b) (g_sha512_Maj v_b v_c v_d) in
      let v_e := wrapping_add 64 v_e v_t1 in
      let v_a := wrapping_add 64 v_t1 v_t2 in
      Ok (v_a, v_e)) in
    Ok (v_w, v_a, v_e)) in
  g_sha512_Engine_process_block_fast_part3 v_self v_w v_a v_b v_c v_d v_e v_f v_g v_h.

Definition g_sha512_Engine_process_block_fast_part1 v_self v_w v_a v_b v_c v_d v_e v_f v_g v_h : res (engine) :=
  let* (v_w, v_d, v_h) := (
    let* t9 := index v_w 0 in
    let* t10 := index v_w 14 in
    let* t11 := index v_w 9 in
    let* t12 := index v_w 1 in
    let* t13 := store v_w 0 (wrapping_add 64 (wrapping_add 64 (wrapping_add 64 t9 (g_sha512_sigma1 t10)) t11) (g_sha512_sigma0 t12)) in
    let v_w := t13 in
    let* (v_d, v_h) := (
      let* t14 := index v_w 0 in
      let v_t1 := wrapping_add 64 (wrapping_add 64 (wrapping_add 64 (wrapping_add 64 v_h (g_sha512_Sigma1 v_e)) (g_sha512_Ch v_e v_f v_g)) 0xe49b69c19ef14ad2) t14 in
      let v_t2 := wrapping_add 64 (g_sha512_Sigma0 v_a) (g_sha512_Maj v_a v_b v_c) in
      let v_d := wrapping_add 64 v_d v_t1 in
      let v_h := wrapping_add 64 v_t1 v_t2 in
      Ok (v_d, v_h)) in
    Ok (v_w, v_d, v_h)) in
  let* (v_w, v_c, v_g) := (
    let* t9 := index v_w 1 in
    let* t10 := index v_w 15 in
    let* t11 := index v_w 10 in
    let* t12 := index v_w 2 in
    let* t13 := store v_w 1 (wrapping_add 64 (wrapping_add 64 (wrapping_add 64 t9 (g_sha512_sigma1 t10)) t11) (g_sha512_sigma0 t12)) in
    let v_w := t13 in
    let* (v_c, v_g) := (
      let* t14 := index v_w 1 in
      let v_t1 := wrapping_add 64 (wrapping_add 64 (wrapping_add 64 (wrapping_add 64 v_g (g_sha512_Sigma1 v_d)) (g_sha512_Ch v_d v_e v_f)) 0xefbe4786384f25e3) t14 in
      let v_t2 := wrapping_add 64 (g_sha512_Sigma0 v_h) (g_sha512_Maj v_h v_a v_b) in
      let v_c := wrapping_add 64 v_c v_t1 in
      let v_g := wrapping_add 64 v_t1 v_t2 in
      Ok (v_c, v_g)) in
    Ok (v_w, v_c, v_g)) in
  let* (v_w, v_b, v_f) := (
    let* t9 := index v_w 2 in
    let* t10 := index v_w 0 in
    let* t11 := index v_w 11 in
    let* t12 := index v_w 3 in
    let* t13 := store v_w 2 (wrapping_add 64 (wrapping_add 64 (wrapping_add 64 t9 (g_sha512_sigma1 t10)) t11) (g_sha512_sigma0 t12)) in
    let v_w := t13 in
    let* (v_b, v_f) := (
      let* t14 := index v_w 2 in
      let v_t1 := wrapping_add 64 (wrapping_add 64 (wrapping_add 64 (wrapping_add 64 v_f (g_sha512_Sigma1 v_c)) (g_sha512_Ch v_c v_d v_e)) 0xfc19dc68b8cd5b5) t14 in
      let v_t2 := wrapping_add 64 (g_sha512_Sigma0 v_g) (g_sha512_Maj v_g v_h v_a) in
      let v_b := wrapping_add 64 v_b v_t1 in
      let v_f := wrapping_add 64 v_t1 v_t2 in
      Ok (v_b, v_f)) in
    Ok (v_w, v_b, v_f)) in
  let* (v_w, v_a, v_e) := (
    let* t9 := index v_w 3 in
    let* t10 := index v_w 1 in
    let* t11 := index v_w 12 in
    let* t12 := index v_w 4 in
    let* t13 := store v_w 3 (wrapping_add 64 (wrapping_add 64 (wrapping_add 64 t9 (g_sha512_sigma1 t10)) t11) (g_sha512_sigma0 t12)) in
    let v_w := t13 in
    let* (v_a, v_e) := (
      let* t14 := index v_w 3 in
      let v_t1 := wrapping_add 64 (wrapping_add 64 (wrapping_add 64 (wrapping_add 64 v_e (g_sha512_Sigma1 v_b)) (g_sha512_Ch v_b v_c v_d)) 0x240ca1cc77ac9c65) t14 in
      let v_t2 := wrapping_add 64 (g_sha512_Sigma0 v_f) (g_sha512_Maj v_f v_g v_h) in
      let v_a := wrapping_add 64 v_a v_t1 in
      let v_e := wrapping_add 64 v_t1 v_t2 in
      Ok (v_a, v_e)) in
    Ok (v_w, v_a, v_e)) in
  let* (v_w, v_d, v_h) := (
    let* t9 := index v_w 4 in
    let* t10 := index v_w 2 in
    let* t11 := index v_w 13 in
    let* t12 := index v_w 5 in
    let* t13 := store v_w 4 (wrapping_add 64 (wrapping_add 64 (wrapping_add 64 t9 (g_sha512_sigma1 t10)) t11) (g_sha512_sigma0 t12)) in
    let v_w := t13 in
    let* (v_d, v_h) := (
      let* t14 := index v_w 4 in
      let v_t1 := wrapping_add 64 (wrapping_add 64 (wrapping_add 64 (wrapping_add 64 v_d (g_sha512_Sigma1 v_a)) (g_sha512_Ch v_a v_b v_c)) 0x2de92c6f592b0275) t14 in
      let v_t2 := wrapping_add 64 (g_sha512_Sigma0 v_e) (g_sha512_Maj v_e v_f v_g) in
      let v_h := wrapping_add 64 v_h v_t1 in
      let v_d := wrapping_add 64 v_t1 v_t2 in
      Ok (v_d, v_h)) in
    Ok (v_w, v_d, v_h)) in
  let* (v_w, v_c, v_g) := (
    let* t9 := index v_w 5 in
    let* t10 := index v_w 3 in
    let* t11 := index v_w 14 in
    let* t12 := index v_w 6 in
    let* t13 := store v_w 5 (wrapping_add 64 (wrapping_add 64 (wrapping_add 64 t9 (g_sha512_sigma1 t10)) t11) (g_sha512_sigma0 t12)) in
    let v_w := t13 in
    let* (v_c, v_g) := (
      let* t14 := index v_w 5 in
      let v_t1 := wrapping_add 64 (wrapping_add 64 (wrapping_add 64 (wrapping_add 64 v_c (g_sha512_Sigma1 v_h)) (g_sha512_Ch v_h v_a v_b)) 0x4a7484aa6ea6e483) t14 in
      let v_t2 := wrapping_add 64 (g_sha512_Sigma0 v_d) (g_sha512_Maj v_d v_e v_f) in
      let v_g := wrapping_add 64 v_g v_t1 in
      let v_c := wrapping_add 64 v_t1 v_t2 in
      Ok (v_c, v_g)) in
    Ok (v_w, v_c, v_g)) in
  let* (v_w, v_b, v_f) := (
    let* t9 := index v_w 6 in
    let* t10 := index v_w 4 in
    let* t11 := index v_w 15 in
    let* t12 := index v_w 7 in
    let* t13 := store v_w 6 (wrapping_add 64 (wrapping_add 64 (wrapping_add 64 t9 (g_sha512_sigma1 t10)) t11) (g_sha512_sigma0 t12)) in
    let v_w := t13 in
    let* (v_b, v_f) := (
      let* t14 := index v_w 6 in
      let v_t1 := wrapping_add 64 (wrapping_add 64 (wrapping_add 64 (wrapping_add 64 v_b (g_sha512_Sigma1 v_g)) (g_sha512_Ch v_g v_h v_a)) 0x5cb0a9dcbd41fbd4) t14 in
      let v_t2 := wrapping_add 64 (g_sha512_Sigma0 v_c) (g_sha512_Maj v_c v_d v_e) in
      let v_f := wrapping_add 64 v_f v_t1 in
      let v_b := wrapping_add 64 v_t1 v_t2 in
      Ok (v_b, v_f)) in
    Ok (v_w, v_b, v_f)) in
  let* (v_w, v_a, v_e) := (
    let* t9 := index v_w 7 in
    let* t10 := index v_w 5 in
    let* t11 := index v_w 0 in
    let* t12 := index v_w 8 in
    let* t13 := store v_w 7 (wrapping_add 64 (wrapping_add 64 (wrapping_add 64 t9 (g_sha512_sigma1 t10)) t11) (g_sha512_sigma0 t12)) in
    let v_w := t13 in
    let* (v_a, v_e) := (
      let* t14 := index v_w 7 in
      let v_t1 := wrapping_add 64 (wrapping_add 64 (wrapping_add 64 (wrapping_add 64 v_a (g_sha512_Sigma1 v_f)) (g_sha512_Ch v_f v_g v_h)) 0x76f988da831153b5) t14 in
      let v_t2 := wrapping_add 64 (g_sha512_Sigma0 v_b) (g_sha512_Maj v_b v_c v_d) in
      let v_e := wrapping_add 64 v_e v_t1 in
      let v_a := wrapping_add 64 v_t1 v_t2 in
      Ok (v_a, v_e)) in
    Ok (v_w, v_a, v_e)) in
  let* (v_w, v_d, v_h) := (
    let* t9 := index v_w 8 in
    let* t10 := index v_w 6 in
    let* t11 := index v_w 1 in
    let* t12 := index v_w 9 in
    let* t13 := store v_w 8 (wrapping_add 64 (wrapping_add 64 (wrapping_add 64 t9 (g_sha512_sigma1 t10)) t11) (g_sha512_sigma0 t12)) in
    let v_w := t13 in
    let* (v_d, v_h) := (
      let* t14 := index v_w 8 in
      let v_t1 := wrapping_add 64 (wrapping_add 64 (wrapping_add 64 (wrapping_add 64 v_h (g_sha512_Sigma1 v_e)) (g_sha512_Ch v_e v_f v_g)) 0x983e5152ee66dfab) t14 in
      let v_t2 := wrapping_add 64 (g_sha512_Sigma0 v_a) (g_sha512_Maj v_a v_b v_c) in
      let v_d := wrapping_add 64 v_d v_t1 in
      let v_h := wrapping_add 64 v_t1 v_t2 in
      Ok (v_d, v_h)) in
    Ok (v_w, v_d, v_h)) in
  let* (v_w, v_c, v_g) := (
    let* t9 := index v_w 9 in
    let* t10 := index v_w 7 in
    let* t11 := index v_w 2 in
    let* t12 := index v_w 10 in
    let* t13 := store v_w 9 (wrapping_add 64 (wrapping_add 64 (wrapping_add 64 t9 (g_sha512_sigma1 t10)) t11) (g_sha512_sigma0 t12)) in
    let v_w := t13 in
    let* (v_c, v_g) := (
      let* t14 := index v_w 9 in
      let v_t1 := wrapping_add 64 (wrapping_add 64 (wrapping_add 64 (wrapping_add 64 v_g (g_sha512_Sigma1 v_d)) (g_sha512_Ch v_d v_e v_f)) 0xa831c66d2db43210) t14 in
      let v_t2 := wrapping_add 64 (g_sha512_Sigma0 v_h) (g_sha512_Maj v_h v_a v_b) in
      let v_c := wrapping_add 64 v_c v_t1 in
      let v_g := wrapping_add 64 v_t1 v_t2 in
      Ok (v_c, v_g)) in
    Ok (v_w, v_c, v_g)) in
  let* (v_w, v_b, v_f) := (
    let* t9 := index v_w 10 in
    let* t10 := index v_w 8 in
    let* t11 := index v_w 3 in
    let* t12 := index v_w 11 in
    let* t13 := store v_w 10 (wrapping_add 64 (wrapping_add 64 (wrapping_add 64 t9 (g_sha512_sigma1 t10)) t11) (g_sha512_sigma0 t12)) in
    let v_w := t13 in
    let* (v_b, v_f) := (
      let* t14 := index v_w 10 in
      let v_t1 := wrapping_add 64 (wrapping_add 64 (wrapping_add 64 (wrapping_add 64 v_f (g_sha512_Sigma1 v_c)) (g_sha512_Ch v_c v_d v_e)) 0xb00327c898fb213f) t14 in
      let v_t2 := wrapping_add 64 (g_sha512_Sigma0 v_g) (g_sha512_Maj v_g v_h v_a) in
      let v_b := wrapping_add 64 v_b v_t1 in
      let v_f := wrapping_add 64 v_t1 v_t2 in
      Ok (v_b, v_f)) in
    Ok (v_w, v_b, v_f)) in
  let* (v_w, v_a, v_e) := (
    let* t9 := index v_w 11 in
    let* t10 := index v_w 9 in
    let* t11 := index v_w 4 in
    let* t12 := index v_w 12 in
    let* t13 := store v_w 11 (wrapping_add 64 (wrapping_add 64 (wrapping_add 64 t9 (g_sha512_sigma1 t10)) t11) (g_sha512_sigma0 t12)) in
    let v_w := t13 in
    let* (v_a, v_e) := (
      let* t14 := index v_w 11 in
      let v_t1 := wrapping_add 64 (wrapping_add 64 (wrapping_add 64 (wrapping_add 64 v_e (g_sha512_Sigma1 v_b)) (g_sha512_Ch v_b v_c v_d)) 0xbf597fc7beef0ee4) t14 in
      let v_t2 := wrapping_add 64 (g_sha512_Sigma0 v_f) (g_sha512_Maj v_f v_g v_h) in
      let v_a := wrapping_add 64 v_a v_t1 in
      let v_e := wrapping_add 64 v_t1 v_t2 in
      Ok (v_a, v_e)) in
    Ok (v_w, v_a, v_e)) in
  let* (v_w, v_d, v_h) := (
    let* t9 := index v_w 12 in
    let* t10 := index v_w 10 in
    let* t11 := index v_w 5 in
    let* t12 := index v_w 13 in
    let* t13 := store v_w 12 (wrapping_add 64 (wrapping_add 64 (wrapping_add 64 t9 (g_sha512_sigma1 t10)) t11) (g_sha512_sigma0 t12)) in
    let v_w := t13 in
    let* (v_d, v_h) := (
      let* t14 := index v_w 12 in
      let v_t1 := wrapping_add 64 (wrapping_add 64 (wrapping_add 64 (wrapping_add 64 v_d (g_sha512_Sigma1 v_a)) (g_sha512_Ch v_a v_b v_c)) 0xc6e00bf33da88fc2) t14 in
      let v_t2 := wrapping_add 64 (g_sha512_Sigma0 v_e) (g_sha512_Maj v_e v_f v_g) in
      let v_h := wrapping_add 64 v_h v_t1 in
      let v_d := wrapping_add 64 v_t1 v_t2 in
      Ok (v_d, v_h)) in
    Ok (v_w, v_d, v_h)) in
  let* (v_w, v_c, v_g) := (
    let* t9 := index v_w 13 in
    let* t10 := index v_w 11 in
    let* t11 := index v_w 6 in
    let* t12 := index v_w 14 in
    let* t13 := store v_w 13 (wrapping_add 64 (wrapping_add 64 (wrapping_add 64 t9 (g_sha512_sigma1 t10)) t11) (g_sha512_sigma0 t12)) in
    let v_w := t13 in
    let* (v_c, v_g) := (
      let* t14 := index v_w 13 in
      let v_t1 := wrapping_add 64 (wrapping_add 64 (wrapping_add 64 (wrapping_add 64 v_c (g_sha512_Sigma1 v_h)) (g_sha512_Ch v_h v_a v_b)) 0xd5a79147930aa725) t14 in
      let v_t2 := wrapping_add 64 (g_sha512_Sigma0 v_d) (g_sha512_Maj v_d v_e v_f) in
      let v_g := wrapping_add 64 v_g v_t1 in
      let v_c := wrapping_add 64 v_t1 v_t2 in
      Ok (v_c, v_g)) in
    Ok (v_w, v_c, v_g)) in
  let* (v_w, v_b, v_f) := (
    let* t9 := index v_w 14 in
    let* t10 := index v_w 12 in
    let* t11 := index v_w 7 in
    let* t12 := index v_w 15 in
    let* t13 := store v_w 14 (wrapping_add 64 (wrapping_add 64 (wrapping_add 64 t9 (g_sha512_sigma1 t10)) t11) (g_sha512_sigma0 t12)) in
    let v_w := t13 in
    let* (v_b, v_f) := (
      let* t14 := index v_w 14 in
      let v_t1 := wrapping_add 64 (wrapping_add 64 (wrapping_add 64 (wrapping_add 64 v_b (g_sha512_Sigma1 v_g)) (g_sha512_Ch v_g v_h v_a)) 0x6ca6351e003826f) t14 in
      let v_t2 := wrapping_add 64 (g_sha512_Sigma0 v_c) (g_sha512_Maj v_c v_d v_e) in
      let v_f := wrapping_add 64 v_f v_t1 in
      let v_b := wrapping_add 64 v_t1 v_t2 in
      Ok (v_b, v_f)) in
    Ok (v_w, v_b, v_f)) in
  let* (v_w, v_a, v_e) := (
    let* t9 := index v_w 15 in
    let* t10 := index v_w 13 in
    let* t11 := index v_w 8 in
    let* t12 := index v_w 0 in
    let* t13 := store v_w 15 (wrapping_add 64 (wrapping_add 64 (wrapping_add 64 t9 (g_sha512_sigma1 t10)) t11) (g_sha512_sigma0 t12)) in
    let v_w := t13 in
    let* (v_a, v_e) := (
      let* t14 := index v_w 15 in
      let v_t1 := wrapping_add 64 (wrapping_add 64 (wrapping_add 64 (wrapping_add 64 v_a (g_sha512_Sigma1 v_f)) (g_sha512_Ch v_f v_g v_h)) 0x142929670a0e6e70) t14 in
      let v_t2 := wrapping_add 64 (g_sha512_Sigma0 v_b) (g_sha512_Maj v_b v_c v_d) in
      let v_e := wrapping_add 64 v_e v_t1 in
      let v_a := wrapping_add 64 v_t1 v_t2 in
      Ok (v_a, v_e)) in
    Ok (v_w, v_a, v_e)) in
  g_sha512_Engine_process_block_fast_part2 v_self v_w v_a v_b v_c v_d v_e v_f v_g v_h.

Definition g_sha512_Engine_process_block_fast (cfg : config) (v_self : engine) : res (engine) :=
  let* _ := debug_assert cfg ((len (e_buffer v_self)) =? 128) in
  let v_w := array 0 16 in
  let* v_w := zip_iter_mut v_w (chunks_exact 8 (e_buffer v_self)) (fun v_w_val v_buff_bytes =>
      let* t1 := from_be_bytes 8 v_buff_bytes in
      let v_w_val := t1 in
      Ok v_w_val) in
  let* v_a := index (e_h v_self) 0 in
  let* v_b := index (e_h v_self) 1 in
  let* v_c := index (e_h v_self) 2 in
  let* v_d := index (e_h v_self) 3 in
  let* v_e := index (e_h v_self) 4 in
  let* v_f := index (e_h v_self) 5 in
  let* v_g := index (e_h v_self) 6 in
  let* v_h := index (e_h v_self) 7 in
  let* (v_d, v_h) := (
    let* t9 := index v_w 0 in
    let v_t1 := wrapping_add 64 (wrapping_add 64 (wrapping_add 64 (wrapping_add 64 v_h (g_sha512_Sigma1 v_e)) (g_sha512_Ch v_e v_f v_g)) 0x428a2f98d728ae22) t9 in
    let v_t2 := wrapping_add 64 (g_sha512_Sigma0 v_a) (g_sha512_Maj v_a v_b v_c) in
    let v_d := wrapping_add 64 v_d v_t1 in
    let v_h := wrapping_add 64 v_t1 v_t2 in
    Ok (v_d, v_h)) in
  let* (v_c, v_g) := (
    let* t9 := index v_w 1 in
    let v_t1 := wrapping_add 64 (wrapping_add 64 (wrapping_add 64 (wrapping_add 64 v_g (g_sha512_Sigma1 v_d)) (g_sha512_Ch v_d v_e v_f)) 0x7137449123ef65cd) t9 in
    let v_t2 := wrapping_add 64 (g_sha512_Sigma0 v_h) (g_sha512_Maj v_h v_a v_b) in
    let v_c := wrapping_add 64 v_c v_t1 in
    let v_g := wrapping_add 64 v_t1 v_t2 in
    Ok (v_c, v_g)) in
  let* (v_b, v_f) := (
    let* t9 := index v_w 2 in
    let v_t1 := wrapping_add 64 (wrapping_add 64 (wrapping_add 64 (wrapping_add 64 v_f (g_sha512_Sigma1 v_c)) (g_sha512_Ch v_c v_d v_e)) 0xb5c0fbcfec4d3b2f) t9 in
    let v_t2 := wrapping_add 64 (g_sha512_Sigma0 v_g) (g_sha512_Maj v_g v_h v_a) in
    let v_b := wrapping_add 64 v_b v_t1 in
    let v_f := wrapping_add 64 v_t1 v_t2 in
    Ok (v_b, v_f)) in
  let* (v_a, v_e) := (
    let* t9 := index v_w 3 in
    let v_t1 := wrapping_add 64 (wrapping_add 64 (wrapping_add 64 (wrapping_add 64 v_e (g_sha512_Sigma1 v_b)) (g_sha512_Ch v_b v_c v_d)) 0xe9b5dba58189dbbc) t9 in
    let v_t2 := wrapping_add 64 (g_sha512_Sigma0 v_f) (g_sha512_Maj v_f v_g v_h) in
    let v_a := wrapping_add 64 v_a v_t1 in
    let v_e := wrapping_add 64 v_t1 v_t2 in
    Ok (v_a, v_e)) in
  let* (v_d, v_h) := (
    let* t9 := index v_w 4 in
    let v_t1 := wrapping_add 64 (wrapping_add 64 (wrapping_add 64 (wrapping_add 64 v_d (g_sha512_Sigma1 v_a)) (g_sha512_Ch v_a v_b v_c)) 0x3956c25bf348b538) t9 in
    let v_t2 := wrapping_add 64 (g_sha512_Sigma0 v_e) (g_sha512_Maj v_e v_f v_g) in
    let v_h := wrapping_add 64 v_h v_t1 in
    let v_d := wrapping_add 64 v_t1 v_t2 in
    Ok (v_d, v_h)) in
  let* (v_c, v_g) := (
    let* t9 := index v_w 5 in
    let v_t1 := wrapping_add 64 (wrapping_add 64 (wrapping_add 64 (wrapping_add 64 v_c (g_sha512_Sigma1 v_h)) (g_sha512_Ch v_h v_a v_b)) 0x59f111f1b605d019) t9 in
    let v_t2 := wrapping_add 64 (g_sha512_Sigma0 v_d) (g_sha512_Maj v_d v_e v_f) in
    let v_g := wrapping_add 64 v_g v_t1 in
    let v_c := wrapping_add 64 v_t1 v_t2 in
    Ok (v_c, v_g)) in
  let* (v_b, v_f) := (
    let* t9 := index v_w 6 in
    let v_t1 := wrapping_add 64 (wrapping_add 64 (wrapping_add 64 (wrapping_add 64 v_b (g_sha512_Sigma1 v_g)) (g_sha512_Ch v_g v_h v_a)) 0x923f82a4af194f9b) t9 in
    let v_t2 := wrapping_add 64 (g_sha512_Sigma0 v_c) (g_sha512_Maj v_c v_d v_e) in
    let v_f := wrapping_add 64 v_f v_t1 in
    let v_b := wrapping_add 64 v_t1 v_t2 in
    Ok (v_b, v_f)) in
  let* (v_a, v_e) := (
    let* t9 := index v_w 7 in
    let v_t1 := wrapping_add 64 (wrapping_add 64 (wrapping_add 64 (wrapping_add 64 v_a (g_sha512_Sigma1 v_f)) (g_sha512_Ch v_f v_g v_h)) 0xab1c5ed5da6d8118) t9 in
    let v_t2 := wrapping_add 64 (g_sha512_Sigma0 v_b) (g_sha512_Maj v_b v_c v_d) in
    let v_e := wrapping_add 64 v_e v_t1 in
    let v_a := wrapping_add 64 v_t1 v_t2 in
    Ok (v_a, v_e)) in
  let* (v_d, v_h) := (
    let* t9 := index v_w 8 in
    let v_t1 := wrapping_add 64 (wrapping_add 64 (wrapping_add 64 (wrapping_add 64 v_h (g_sha512_Sigma1 v_e)) (g_sha512_Ch v_e v_f v_g)) 0xd807aa98a3030242) t9 in
    let v_t2 := wrapping_add 64 (g_sha512_Sigma0 v_a) (g_sha512_Maj v_a v_b v_c) in
    let v_d := wrapping_add 64 v_d v_t1 in
    let v_h := wrapping_add 64 v_t1 v_t2 in
    Ok (v_d, v_h)) in
  let* (v_c, v_g) := (
    let* t9 := index v_w 9 in
    let v_t1 := wrapping_add 64 (wrapping_add 64 (wrapping_add 64 (wrapping_add 64 v_g (g_sha512_Sigma1 v_d)) (g_sha512_Ch v_d v_e v_f)) 0x12835b0145706fbe) t9 in
    let v_t2 := wrapping_add 64 (g_sha512_Sigma0 v_h) (g_sha512_Maj v_h v_a v_b) in
    let v_c := wrapping_add 64 v_c v_t1 in
    let v_g := wrapping_add 64 v_t1 v_t2 in
    Ok (v_c, v_g)) in
  let* (v_b, v_f) := (
    let* t9 := index v_w 10 in
    let v_t1 := wrapping_add 64 (wrapping_add 64 (wrapping_add 64 (wrapping_add 64 v_f (g_sha512_Sigma1 v_c)) (g_sha512_Ch v_c v_d v_e)) 0x243185be4ee4b28c) t9 in
    let v_t2 := wrapping_add 64 (g_sha512_Sigma0 v_g) (g_sha512_Maj v_g v_h v_a) in
    let v_b := wrapping_add 64 v_b v_t1 in
    let v_f := wrapping_add 64 v_t1 v_t2 in
    Ok (v_b, v_f)) in
  let* (v_a, v_e) := (
    let* t9 := index v_w 11 in
    let v_t1 := wrapping_add 64 (wrapping_add 64 (wrapping_add 64 (wrapping_add 64 v_e (g_sha512_Sigma1 v_b)) (g_sha512_Ch v_b v_c v_d)) 0x550c7dc3d5ffb4e2) t9 in
    let v_t2 := wrapping_add 64 (g_sha512_Sigma0 v_f) (g_sha512_Maj v_f v_g v_h) in
    let v_a := wrapping_add 64 v_a v_t1 in
    let v_e := wrapping_add 64 v_t1 v_t2 in
    Ok (v_a, v_e)) in
  let* (v_d, v_h) := (
    let* t9 := index v_w 12 in
    let v_t1 := wrapping_add 64 (wrapping_add 64 (wrapping_add 64 (wrapping_add 64 v_d (g_sha512_Sigma1 v_a)) (g_sha512_Ch v_a v_b v_c)) 0x72be5d74f27b896f) t9 in
    let v_t2 := wrapping_add 64 (g_sha512_Sigma0 v_e) (g_sha512_Maj v_e v_f v_g) in
    let v_h := wrapping_add 64 v_h v_t1 in
    let v_d := wrapping_add 64 v_t1 v_t2 in
    Ok (v_d, v_h)) in
  let* (v_c, v_g) := (
    let* t9 := index v_w 13 in
    let v_t1 := wrapping_add 64 (wrapping_add 64 (wrapping_add 64 (wrapping_add 64 v_c (g_sha512_Sigma1 v_h)) (g_sha512_Ch v_h v_a v_b)) 0x80deb1fe3b1696b1) t9 in
    let v_t2 := wrapping_add 64 (g_sha512_Sigma0 v_d) (g_sha512_Maj v_d v_e v_f) in
    let v_g := wrapping_add 64 v_g v_t1 in
    let v_c := wrapping_add 64 v_t1 v_t2 in
    Ok (v_c, v_g)) in
  let* (v_b, v_f) := (
    let* t9 := index v_w 14 in
    let v_t1 := wrapping_add 64 (wrapping_add 64 (wrapping_add 64 (wrapping_add 64 v_b (g_sha512_Sigma1 v_g)) (g_sha512_Ch v_g v_h v_a)) 0x9bdc06a725c71235) t9 in
    let v_t2 := wrapping_add 64 (g_sha512_Sigma0 v_c) (g_sha512_Maj v_c v_d v_e) in
    let v_f := wrapping_add 64 v_f v_t1 in
    let v_b := wrapping_add 64 v_t1 v_t2 in
    Ok (v_b, v_f)) in
  let* (v_a, v_e) := (
    let* t9 := index v_w 15 in
    let v_t1 := wrapping_add 64 (wrapping_add 64 (wrapping_add 64 (wrapping_add 64 v_a (g_sha512_Sigma1 v_f)) (g_sha512_Ch v_f v_g v_h)) 0xc19bf174cf692694) t9 in
    let v_t2 := wrapping_add 64 (g_sha512_Sigma0 v_b) (g_sha512_Maj v_b v_c v_d) in
    let v_e := wrapping_add 64 v_e v_t1 in
    let v_a := wrapping_add 64 v_t1 v_t2 in
    Ok (v_a, v_e)) in
  g_sha512_Engine_process_block_fast_part1 v_self v_w v_a v_b v_c v_d v_e v_f v_g v_h.

(** process_block, src/sha512.rs:204-314; feature small-hash on *)
Definition g_sha512_Engine_process_block_small_part5 v_self v_a v_b v_c v_d v_e v_f v_g v_h : res (engine) :=
  let* t9 := index (e_h v_self) 0 in
  let* t10 := store (e_h v_self) 0 (wrapping_add 64 t9 v_a) in
  let v_self := mk_engine (e_buffer v_self) t10 (e_length v_self) in
  let* t11 := index (e_h v_self) 1 in
  let* t12 := store (e_h v_self) 1 (wrapping_add 64 t11 v_b) in
  let v_self := mk_engine (e_buffer v_self) t12 (e_length v_self) in
  let* t13 := index (e_h v_self) 2 in
  let* t14 := store (e_h v_self) 2 (wrapping_add 64 t13 v_c) in
  let v_self := mk_engine (e_buffer v_self) t14 (e_length v_self) in
  let* t15 := index (e_h v_self) 3 in
  let* t16 := store (e_h v_self) 3 (wrapping_add 64 t15 v_d) in
  let v_self := mk_engine (e_buffer v_self) t16 (e_length v_self) in
  let* t17 := index (e_h v_self) 4 in
  let* t18 := store (e_h v_self) 4 (wrapping_add 64 t17 v_e) in
  let v_self := mk_engine (e_buffer v_self) t18 (e_length v_self) in
  let* t19 := index (e_h v_self) 5 in
  let* t20 := store (e_h v_self) 5 (wrapping_add 64 t19 v_f) in
  let v_self := mk_engine (e_buffer v_self) t20 (e_length v_self) in
  let* t21 := index (e_h v_self) 6 in
  let* t22 := store (e_h v_self) 6 (wrapping_add 64 t21 v_g) in
  let v_self := mk_engine (e_buffer v_self) t22 (e_length v_self) in
  let* t23 := index (e_h v_self) 7 in
  let* t24 := store (e_h v_self) 7 (wrapping_add 64 t23 v_h) in
  let v_self := mk_engine (e_buffer v_self) t24 (e_length v_self) in
  Ok v_self.

Definition g_sha512_Engine_process_block_small_part4 v_self v_w v_a v_b v_c v_d v_e v_f v_g v_h : res (engine) :=
  let* (v_w, v_d, v_h) := (
    let* t9 := index v_w 0 in
    let* t10 := index v_w 14 in
    let* t11 := index v_w 9 in
    let* t12 := index v_w 1 in
    let '(t13, v_d, v_h) := g_sha512_small_hash_later_round v_a v_b v_c v_d v_e v_f v_g v_h 0xca273eceea26619c t9 t10 t11 t12 in
    let* t14 := store v_w 0 t13 in
    let v_w := t14 in
    Ok (v_w, v_d, v_h)) in
  let* (v_w, v_c, v_g) := (
    let* t9 := index v_w 1 in
    let* t10 := index v_w 15 in
    let* t11 := index v_w 10 in
    let* t12 := index v_w 2 in
    let '(t13, v_c, v_g) := g_sha512_small_hash_later_round v_h v_a v_b v_c v_d v_e v_f v_g 0xd186b8c721c0c207 t9 t10 t11 t12 in
    let* t14 := store v_w 1 t13 in
    let v_w := t14 in
    Ok (v_w, v_c, v_g)) in
  let* (v_w, v_b, v_f) := (
    let* t9 := index v_w 2 in
    let* t10 := index v_w 0 in
    let* t11 := index v_w 11 in
    let* t12 := index v_w 3 in
    let '(t13, v_b, v_f) := g_sha512_small_hash_later_round v_g v_h v_a v_b v_c v_d v_e v_f 0xeada7dd6cde0eb1e t9 t10 t11 t12 in
    let* t14 := store v_w 2 t13 in
    let v_w := t14 in
    Ok (v_w, v_b, v_f)) in
  let* (v_w, v_a, v_e) := (
    let* t9 := index v_w 3 in
    let* t10 := index v_w 1 in
    let* t11 := index v_w 12 in
    let* t12 := index v_w 4 in
    let '(t13, v_a, v_e) := g_sha512_small_hash_later_round v_f v_g v_h v_a v_b v_c v_d v_e 0xf57d4f7fee6ed178 t9 t10 t11 t12 in
    let* t14 := store v_w 3 t13 in
    let v_w := t14 in
    Ok (v_w, v_a, v_e)) in
  let* (v_w, v_d, v_h) := (
    let* t9 := index v_w 4 in
    let* t10 := index v_w 2 in
    let* t11 := index v_w 13 in
    let* t12 := index v_w 5 in
    let '(t13, v_h, v_d) := g_sha512_small_hash_later_round v_e v_f v_g v_h v_a v_b v_c v_d 0x6f067aa72176fba t9 t10 t11 t12 in
    let* t14 := store v_w 4 t13 in
    let v_w := t14 in
    Ok (v_w, v_d, v_h)) in
  let* (v_w, v_c, v_g) := (
    let* t9 := index v_w 5 in
    let* t10 := index v_w 3 in
    let* t11 := index v_w 14 in
    let* t12 := index v_w 6 in
    let '(t13, v_g, v_c) := g_sha512_small_hash_later_round v_d v_e v_f v_g v_h v_a v_b v_c 0xa637dc5a2c898a6 t9 t10 t11 t12 in
    let* t14 := store v_w 5 t13 in
    let v_w := t14 in
    Ok (v_w, v_c, v_g)) in
  let* (v_w, v_b, v_f) := (
    let* t9 := index v_w 6 in
    let* t10 := index v_w 4 in
    let* t11 := index v_w 15 in
    let* t12 := index v_w 7 in
    let '(t13, v_f, v_b) := g_sha512_small_hash_later_round v_c v_d v_e v_f v_g v_h v_a v_b 0x113f9804bef90dae t9 t10 t11 t12 in
    let* t14 := store v_w 6 t13 in
    let v_w := t14 in
    Ok (v_w, v_b, v_f)) in
  let* (v_w, v_a, v_e) := (
    let* t9 := index v_w 7 in
    let* t10 := index v_w 5 in
    let* t11 := index v_w 0 in
    let* t12 := index v_w 8 in
    let '(t13, v_e, v_a) := g_sha512_small_hash_later_round v_b v_c v_d v_e v_f v_g v_h v_a 0x1b710b35131c471b t9 t10 t11 t12 in
    let* t14 := store v_w 7 t13 in
    let v_w := t14 in
    Ok (v_w, v_a, v_e)) in
  let* (v_w, v_d, v_h) := (
    let* t9 := index v_w 8 in
    let* t10 := index v_w 6 in
    let* t11 := index v_w 1 in
    let* t12 := index v_w 9 in
    let '(t13, v_d, v_h) := g_sha512_small_hash_later_round v_a v_b v_c v_d v_e v_f v_g v_h 0x28db77f523047d84 t9 t10 t11 t12 in
    let* t14 := store v_w 8 t13 in
    let v_w := t14 in
    Ok (v_w, v_d, v_h)) in
  let* (v_w, v_c, v_g) := (
    let* t9 := index v_w 9 in
    let* t10 := index v_w 7 in
    let* t11 := index v_w 2 in
    let* t12 := index v_w 10 in
    let '(t13, v_c, v_g) := g_sha512_small_hash_later_round v_h v_a v_b v_c v_d v_e v_f v_g 0x32caab7b40c72493 t9 t10 t11 t12 in
    let* t14 := store v_w 9 t13 in
    let v_w := t14 in
    Ok (v_w, v_c, v_g)) in
  let* (v_w, v_b, v_f) := (
    let* t9 := index v_w 10 in
    let* t10 := index v_w 8 in
    let* t11 := index v_w 3 in
    let* t12 := index v_w 11 in
    let '(t13, v_b, v_f) := g_sha512_small_hash_later_round v_g v_h v_a v_b v_c v_d v_e v_f 0x3c9ebe0a15c9bebc t9 t10 t11 t12 in
    let* t14 := store v_w 10 t13 in
    let v_w := t14 in
    Ok (v_w, v_b, v_f)) in
  let* (v_w, v_a, v_e) := (
    let* t9 := index v_w 11 in
    let* t10 := index v_w 9 in
    let* t11 := index v_w 4 in
    let* t12 := index v_w 12 in
    let '(t13, v_a, v_e) := g_sha512_small_hash_later_round v_f v_g v_h v_a v_b v_c v_d v_e 0x431d67c49c100d4c t9 t10 t11 t12 in
    let* t14 := store v_w 11 t13 in
    let v_w := t14 in
    Ok (v_w, v_a, v_e)) in
  let* (v_w, v_d, v_h) := (
    let* t9 := index v_w 12 in
    let* t10 := index v_w 10 in
    let* t11 := index v_w 5 in
    let* t12 := index v_w 13 in
    let '(t13, v_h, v_d) := g_sha512_small_hash_later_round v_e v_f v_g v_h v_a v_b v_c v_d 0x4cc5d4becb3e42b6 t9 t10 t11 t12 in
    let* t14 := store v_w 12 t13 in
    let v_w := t14 in
    Ok (v_w, v_d, v_h)) in
  let* (v_w, v_c, v_g) := (
    let* t9 := index v_w 13 in
    let* t10 := index v_w 11 in
    let* t11 := index v_w 6 in
    let* t12 := index v_w 14 in
    let '(t13, v_g, v_c) := g_sha512_small_hash_later_round v_d v_e v_f v_g v_h v_a v_b v_c 0x597f299cfc657e2a t9 t10 t11 t12 in
    let* t14 := store v_w 13 t13 in
    let v_w := t14 in
    Ok (v_w, v_c, v_g)) in
  let* (v_w, v_b, v_f) := (
    let* t9 := index v_w 14 in
    let* t10 := index v_w 12 in
    let* t11 := index v_w 7 in
    let* t12 := index v_w 15 in
    let '(t13, v_f, v_b) := g_sha512_small_hash_later_round v_c v_d v_e v_f v_g v_h v_a v_b 0x5fcb6fab3ad6faec t9 t10 t11 t12 in
    let* t14 := store v_w 14 t13 in
    let v_w := t14 in
    Ok (v_w, v_b, v_f)) in
  let* (v_w, v_a, v_e) := (
    let* t9 := index v_w 15 in
    let* t10 := index v_w 13 in
    let* t11 := index v_w 8 in
    let* t12 := index v_w 0 in
    let '(t13, v_e, v_a) := g_sha512_small_hash_later_round v_b v_c v_d v_e v_f v_g v_h v_a 0x6c44198c4a475817 t9 t10 t11 t12 in
    let* t14 := store v_w 15 t13 in
    let v_w := t14 in
    Ok (v_w, v_a, v_e)) in
  g_sha512_Engine_process_block_small_part5 v_self v_a v_b v_c v_d v_e v_f v_g v_h.

Definition g_sha512_Engine_process_block_small_part3 v_self v_w v_a v_b v_c v_d v_e v_f v_g v_h : res (engine) :=
  let* (v_w, v_d, v_h) := (
    let* t9 := index v_w 0 in
    let* t10 := index v_w 14 in
    let* t11 := index v_w 9 in
    let* t12 := index v_w 1 in
    let '(t13, v_d, v_h) := g_sha512_small_hash_later_round v_a v_b v_c v_d v_e v_f v_g v_h 0x19a4c116b8d2d0c8 t9 t10 t11 t12 in
    let* t14 := store v_w 0 t13 in
    let v_w := t14 in
    Ok (v_w, v_d, v_h)) in
  let* (v_w, v_c, v_g) := (
    let* t9 := index v_w 1 in
    let* t10 := index v_w 15 in
    let* t11 := index v_w 10 in
    let* t12 := index v_w 2 in
    let '(t13, v_c, v_g) := g_sha512_small_hash_later_round v_h v_a v_b v_c v_d v_e v_f v_g 0x1e376c085141ab53 t9 t10 t11 t12 in
    let* t14 := store v_w 1 t13 in
    let v_w := t14 in
    Ok (v_w, v_c, v_g)) in
  let* (v_w, v_b, v_f) := (
    let* t9 := index v_w 2 in
    let* t10 := index v_w 0 in
    let* t11 := index v_w 11 in
    let* t12 := index v_w 3 in
    let '(t13, v_b, v_f) := g_sha512_small_hash_later_round v_g v_h v_a v_b v_c v_d v_e v_f 0x2748774cdf8eeb99 t9 t10 t11 t12 in
    let* t14 := store v_w 2 t13 in
    let v_w := t14 in
    Ok (v_w, v_b, v_f)) in
  let* (v_w, v_a, v_e) := (
    let* t9 := index v_w 3 in
    let* t10 := index v_w 1 in
    let* t11 := index v_w 12 in
    let* t12 := index v_w 4 in
    let '(t13, v_a, v_e) := g_sha512_small_hash_later_round v_f v_g v_h v_a v_b v_c v_d v_e 0x34b0bcb5e19b48a8 t9 t10 t11 t12 in
    let* t14 := store v_w 3 t13 in
    let v_w := t14 in
    Ok (v_w, v_a, v_e)) in
  let* (v_w, v_d, v_h) := (
    let* t9 := index v_w 4 in
    let* t10 := index v_w 2 in
    let* t11 := index v_w 13 in
    let* t12 := index v_w 5 in
    let '(t13, v_h, v_d) := g_sha512_small_hash_later_round v_e v_f v_g v_h v_a v_b v_c v_d 0x391c0cb3c5c95a63 t9 t10 t11 t12 in
    let* t14 := store v_w 4 t13 in
    let v_w := t14 in
    Ok (v_w, v_d, v_h)) in
  let* (v_w, v_c, v_g) := (
    let* t9 := index v_w 5 in
    let* t10 := index v_w 3 in
    let* t11 := index v_w 14 in
    let* t12 := index v_w 6 in
    let '(t13, v_g, v_c) := g_sha512_small_hash_later_round v_d v_e v_f v_g v_h v_a v_b v_c 0x4ed8aa4ae3418acb t9 t10 t11 t12 in
    let* t14 := store v_w 5 t13 in
    let v_w := t14 in
    Ok (v_w, v_c, v_g)) in
  let* (v_w, v_b, v_f) := (
    let* t9 := index v_w 6 in
    let* t10 := index v_w 4 in
    let* t11 := index v_w 15 in
    let* t12 := index v_w 7 in
    let '(t13, v_f, v_b) := g_sha512_small_hash_later_round v_c v_d v_e v_f v_g v_h v_a v_b 0x5b9cca4f7763e373 t9 t10 t11 t12 in
    let* t14 := store v_w 6 t13 in
    let v_w := t14 in
    Ok (v_w, v_b, v_f)) in
  let* (v_w, v_a, v_e) := (
    let* t9 := index v_w 7 in
    let* t10 := index v_w 5 in
    let* t11 := index v_w 0 in
    let* t12 := index v_w 8 in
    let '(t13, v_e, v_a) := g_sha512_small_hash_later_round v_b v_c v_d v_e v_f v_g v_h v_a 0x682e6ff3d6b2b8a3 t9 t10 t11 t12 in
    let* t14 := store v_w 7 t13 in
    let v_w := t14 in
    Ok (v_w, v_a, v_e)) in
  let* (v_w, v_d, v_h) := (
    let* t9 := index v_w 8 in
    let* t10 := index v_w 6 in
    let* t11 := index v_w 1 in
    let* t12 := index v_w 9 in
    let '(t13, v_d, v_h) := g_sha512_small_hash_later_round v_a v_b v_c v_d v_e v_f v_g v_h 0x748f82ee5defb2fc t9 t10 t11 t12 in
    let* t14 := store v_w 8 t13 in
    let v_w := t14 in
    Ok (v_w, v_d, v_h)) in
  let* (v_w, v_c, v_g) := (
    let* t9 := index v_w 9 in
    let* t10 := index v_w 7 in
    let* t11 := index v_w 2 in
    let* t12 := index v_w 10 in
    let '(t13, v_c, v_g) := g_sha512_small_hash_later_round v_h v_a v_b v_c v_d v_e v_f v_g 0x78a5636f43172f60 t9 t10 t11 t12 in
    let* t14 := store v_w 9 t13 in
    let v_w := t14 in
    Ok (v_w, v_c, v_g)) in
  let* (v_w, v_b, v_f) := (
    let* t9 := index v_w 10 in
    let* t10 := index v_w 8 in
    let* t11 := index v_w 3 in
    let* t12 := index v_w 11 in
    let '(t13, v_b, v_f) := g_sha512_small_hash_later_round v_g v_h v_a v_b v_c v_d v_e v_f 0x84c87814a1f0ab72 t9 t10 t11 t12 in
    let* t14 := store v_w 10 t13 in
    let v_w := t14 in
    Ok (v_w, v_b, v_f)) in
  let* (v_w, v_a, v_e) := (
    let* t9 := index v_w 11 in
    let* t10 := index v_w 9 in
    let* t11 := index v_w 4 in
    let* t12 := index v_w 12 in
    let '(t13, v_a, v_e) := g_sha512_small_hash_later_round v_f v_g v_h v_a v_b v_c v_d v_e 0x8cc702081a6439ec t9 t10 t11 t12 in
    let* t14 := store v_w 11 t13 in
    let v_w := t14 in
    Ok (v_w, v_a, v_e)) in
  let* (v_w, v_d, v_h) := (
    let* t9 := index v_w 12 in
    let* t10 := index v_w 10 in
    let* t11 := index v_w 5 in
    let* t12 := index v_w 13 in
    let '(t13, v_h, v_d) := g_sha512_small_hash_later_round v_e v_f v_g v_h v_a v_b v_c v_d 0x90befffa23631e28 t9 t10 t11 t12 in
    let* t14 := store v_w 12 t13 in
    let v_w := t14 in
    Ok (v_w, v_d, v_h)) in
  let* (v_w, v_c, v_g) := (
    let* t9 := index v_w 13 in
    let* t10 := index v_w 11 in
    let* t11 := index v_w 6 in
    let* t12 := index v_w 14 in
    let '(t13, v_g, v_c) := g_sha512_small_hash_later_round v_d v_e v_f v_g v_h v_a v_b v_c 0xa4506cebde82bde9 t9 t10 t11 t12 in
    let* t14 := store v_w 13 t13 in
    let v_w := t14 in
    Ok (v_w, v_c, v_g)) in
  let* (v_w, v_b, v_f) := (
    let* t9 := index v_w 14 in
    let* t10 := index v_w 12 in
    let* t11 := index v_w 7 in
    let* t12 := index v_w 15 in
    let '(t13, v_f, v_b) := g_sha512_small_hash_later_round v_c v_d v_e v_f v_g v_h v_a v_b 0xbef9a3f7b2c67915 t9 t10 t11 t12 in
    let* t14 := store v_w 14 t13 in
    let v_w := t14 in
    Ok (v_w, v_b, v_f)) in
  let* (v_w, v_a, v_e) := (
    let* t9 := index v_w 15 in
    let* t10 := index v_w 13 in
    let* t11 := index v_w 8 in
    let* t12 := index v_w 0 in
    let '(t13, v_e, v_a) := g_sha512_small_hash_later_round v_b v_c v_d v_e v_f v_g v_h v_a 0xc67178f2e372532b t9 t10 t11 t12 in
    let* t14 := store v_w 15 t13 in
    let v_w := t14 in
    Ok (v_w, v_a, v_e)) in
  g_sha512_Engine_process_block_small_part4 v_self v_w v_a v_b v_c v_d v_e v_f v_g v_h.

Definition g_sha512_Engine_process_block_small_part2 v_self v_w v_a v_b v_c v_d v_e v_f v_g v_h : res (engine) :=
  let* (v_w, v_d, v_h) := (
    let* t9 := index v_w 0 in
    let* t10 := index v_w 14 in
    let* t11 := index v_w 9 in
    let* t12 := index v_w 1 in
    let '(t13, v_d, v_h) := g_sha512_small_hash_later_round v_a v_b v_c v_d v_e v_f v_g v_h 0x27b70a8546d22ffc t9 t10 t11 t12 in
    let* t14 := store v_w 0 t13 in
    let v_w := t14 in
    Ok (v_w, v_d, v_h)) in
  let* (v_w, v_c, v_g) := (
    let* t9 := index v_w 1 in
    let* t10 := index v_w 15 in
    let* t11 := index v_w 10 in
    let* t12 := index v_w 2 in
    let '(t13, v_c, v_g) := g_sha512_small_hash_later_round v_h v_a v_b v_c v_d v_e v_f v_g 0x2e1b21385c26c926 t9 t10 t11 t12 in
    let* t14 := store v_w 1 t13 in
    let v_w := t14 in
    Ok (v_w, v_c, v_g)) in
  let* (v_w, v_b, v_f) := (
    let* t9 := index v_w 2 in
    let* t10 := index v_w 0 in
    let* t11 := index v_w 11 in
    let* t12 := index v_w 3 in
    let '(t13, v_b, v_f) := g_sha512_small_hash_later_round v_g v_h v_a v_b v_c v_d v_e v_f 0x4d2c6dfc5ac42aed t9 t10 t11 t12 in
    let* t14 := store v_w 2 t13 in
    let v_w := t14 in
    Ok (v_w, v_b, v_f)) in
  let* (v_w, v_a, v_e) := (
    let* t9 := index v_w 3 in
    let* t10 := index v_w 1 in
    let* t11 := index v_w 12 in
    let* t12 := index v_w 4 in
    let '(t13, v_a, v_e) := g_sha512_small_hash_later_round v_f v_g v_h v_a v_b v_c v_d v_e 0x53380d139d95b3df t9 t10 t11 t12 in
    let* t14 := store v_w 3 t13 in
    let v_w := t14 in
    Ok (v_w, v_a, v_e)) in
  let* (v_w, v_d, v_h) := (
    let* t9 := index v_w 4 in
    let* t10 := index v_w 2 in
    let* t11 := index v_w 13 in
    let* t12 := index v_w 5 in
    let '(t13, v_h, v_d) := g_sha512_small_hash_later_round v_e v_f v_g v_h v_a v_b v_c v_d 0x650a73548baf63de t9 t10 t11 t12 in
    let* t14 := store v_w 4 t13 in
    let v_w := t14 in
    Ok (v_w, v_d, v_h)) in
  let* (v_w, v_c, v_g) := (
    let* t9 := index v_w 5 in
    let* t10 := index v_w 3 in
    let* t11 := index v_w 14 in
    let* t12 := index v_w 6 in
    let '(t13, v_g, v_c) := g_sha512_small_hash_later_round v_d v_e v_f v_g v_h v_a v_b v_c 0x766a0abb3c77b2a8 t9 t10 t11 t12 in
    let* t14 := store v_w 5 t13 in
    let v_w := t14 in
    Ok (v_w, v_c, v_g)) in
  let* (v_w, v_b, v_f) := (
    let* t9 := index v_w 6 in
    let* t10 := index v_w 4 in
    let* t11 := index v_w 15 in
    let* t12 := index v_w 7 in
    let '(t13, v_f, v_b) := g_sha512_small_hash_later_round v_c v_d v_e v_f v_g v_h v_a v_b 0x81c2c92e47edaee6 t9 t10 t11 t12 in
    let* t14 := store v_w 6 t13 in
    let v_w := t14 in
    Ok (v_w, v_b, v_f)) in
  let* (v_w, v_a, v_e) := (
    let* t9 := index v_w 7 in
    let* t10 := index v_w 5 in
    let* t11 := index v_w 0 in
    let* t12 := index v_w 8 in
    let '(t13, v_e, v_a) := g_sha512_small_hash_later_round v_b v_c v_d v_e v_f v_g v_h v_a 0x92722c851482353b t9 t10 t11 t12 in
    let* t14 := store v_w 7 t13 in
    let v_w := t14 in
    Ok (v_w, v_a, v_e)) in
  let* (v_w, v_d, v_h) := (
    let* t9 := index v_w 8 in
    let* t10 := index v_w 6 in
    let* t11 := index v_w 1 in
    let* t12 := index v_w 9 in
    let '(t13, v_d, v_h) := g_sha512_small_hash_later_round v_a v_b v_c v_d v_e v_f v_g v_h 0xa2bfe8a14cf10364 t9 t10 t11 t12 in
    let* t14 := store v_w 8 t13 in
    let v_w := t14 in
    Ok (v_w, v_d, v_h)) in
  let* (v_w, v_c, v_g) := (
    let* t9 := index v_w 9 in
    let* t10 := index v_w 7 in
    let* t11 := index v_w 2 in
    let* t12 := index v_w 10 in
    let '(t13, v_c, v_g) := g_sha512_small_hash_later_round v_h v_a v_b v_c v_d v_e v_f v_g 0xa81a664bbc423001 t9 t10 t11 t12 in
    let* t14 := store v_w 9 t13 in
    let v_w := t14 in
    Ok (v_w, v_c, v_g)) in
  let* (v_w, v_b, v_f) := (
    let* t9 := index v_w 10 in
    let* t10 := index v_w 8 in
    let* t11 := index v_w 3 in
    let* t12 := index v_w 11 in
    let '(t13, v_b, v_f) := g_sha512_small_hash_later_round v_g v_h v_a v_b v_c v_d v_e v_f 0xc24b8b70d0f89791 t9 t10 t11 t12 in
    let* t14 := store v_w 10 t13 in
    let v_w := t14 in
    Ok (v_w, v_b, v_f)) in
  let* (v_w, v_a, v_e) := (
    let* t9 := index v_w 11 in
    let* t10 := index v_w 9 in
    let* t11 := index v_w 4 in
    let* t12 := index v_w 12 in
    let '(t13, v_a, v_e) := g_sha512_small_hash_later_round v_f v_g v_h v_a v_b v_c v_d v_e 0xc76c51a30654be30 t9 t10 t11 t12 in
    let* t14 := store v_w 11 t13 in
    let v_w := t14 in
    Ok (v_w, v_a, v_e)) in
  let* (v_w, v_d, v_h) := (
    let* t9 := index v_w 12 in
    let* t10 := index v_w 10 in
    let* t11 := index v_w 5 in
    let* t12 := index v_w 13 in
    let '(t13, v_h, v_d) := g_sha512_small_hash_later_round v_e v_f v_g v_h v_a v_b v_c v_d 0xd192e819d6ef5218 t9 t10 t11 t12 in
    let* t14 := store v_w 12 t13 in
    let v_w := t14 in
    Ok (v_w, v_d, v_h)) in
  let* (v_w, v_c, v_g) := (
    let* t9 := index v_w 13 in
    let* t10 := index v_w 11 in
    let* t11 := index v_w 6 in
    let* t12 := index v_w 14 in
    let '(t13, v_g, v_c) := g_sha512_small_hash_later_round v_d v_e v_f v_g v_h v_a v_b v_c 0xd69906245565a910 t9 t10 t11 t12 in
    let* t14 := store v_w 13 t13 in
    let v_w := t14 in
    Ok (v_w, v_c, v_g)) in
  let* (v_w, v_b, v_f) := (
    let* t9 := index v_w 14 in
    let* t10 := index v_w 12 in
    let* t11 := index v_w 7 in
    let* t12 := index v_w 15 in
    let '(t13, v_f, v_b) := g_sha512_small_hash_later_round v_c v_d v_e v_f v_g v_h v_a v_b 0xf40e35855771202a t9 t10 t11 t12 in
    let* t14 := store v_w 14 t13 in
    let v_w := t14 in
    Ok (v_w, v_b, v_f)) in
  let* (v_w, v_a, v_e) := (
    let* t9 := index v_w 15 in
    let* t10 := index v_w 13 in
    let* t11 := index v_w 8 in
    let* t12 := index v_w 0 in
    let '(t13, v_e, v_a) := g_sha512_small_hash_later_round v_b v_c v_d v_e v_f v_g v_h v_a 0x106aa07032bbd1b8 t9 t10 t11 t12 in
    let* t14 := store v_w 15 t13 in
    let v_w := t14 in
    Ok (v_w, v_a, v_e)) in
  g_sha512_Engine_process_block_small_part3 v_self v_w v_a v_b v_c v_d v_e v_f v_g v_h.

Definition g_sha512_Engine_process_block_small_part1 v_self v_w v_a v_b v_c v_d v_e v_f v_g v_h : res (engine) :=
  let* (v_w, v_d, v_h) := (
    let* t9 := index v_w 0 in
    let* t10 := index v_w 14 in
    let* t11 := index v_w 9 in
    let* t12 := index v_w 1 in
    let '(t13, v_d, v_h) := g_sha512_small_hash_later_round v_a v_b v_c v_d v_e v_f v_g v_h 0xe49b69c19ef14ad2 t9 t10 t11 t12 in
    let* t14 := store v_w 0 t13 in
    let v_w := t14 in
    Ok (v_w, v_d, v_h)) in
  let* (v_w, v_c, v_g) := (
    let* t9 := index v_w 1 in
    let* t10 := index v_w 15 in
    let* t11 := index v_w 10 in
    let* t12 := index v_w 2 in
    let '(t13, v_c, v_g) := g_sha512_small_hash_later_round v_h v_a v_b v_c v_d v_e v_f v_g 0xefbe4786384f25e3 t9 t10 t11 t12 in
    let* t14 := store v_w 1 t13 in
    let v_w := t14 in
    Ok (v_w, v_c, v_g)) in
  let* (v_w, v_b, v_f) := (
    let* t9 := index v_w 2 in
    let* t10 := index v_w 0 in
    let* t11 := index v_w 11 in
    let* t12 := index v_w 3 in
    let '(t13, v_b, v_f) := g_sha512_small_hash_later_round v_g v_h v_a v_b v_c v_d v_e v_f 0xfc19dc68b8cd5b5 t9 t10 t11 t12 in
    let* t14 := store v_w 2 t13 in
    let v_w := t14 in
    Ok (v_w, v_b, v_f)) in
  let* (v_w, v_a, v_e) := (
    let* t9 := index v_w 3 in
    let* t10 := index v_w 1 in
    let* t11 := index v_w 12 in
    let* t12 := index v_w 4 in
    let '(t13, v_a, v_e) := g_sha512_small_hash_later_round v_f v_g v_h v_a v_b v_c v_d v_e 0x240ca1cc77ac9c65 t9 t10 t11 t12 in
    let* t14 := store v_w 3 t13 in
    let v_w := t14 in
    Ok (v_w, v_a, v_e)) in
  let* (v_w, v_d, v_h) := (
    let* t9 := index v_w 4 in
    let* t10 := index v_w 2 in
    let* t11 := index v_w 13 in
    let* t12 := index v_w 5 in
    let '(t13, v_h, v_d) := g_sha512_small_hash_later_round v_e v_f v_g v_h v_a v_b v_c v_d 0x2de92c6f592b0275 t9 t10 t11 t12 in
    let* t14 := store v_w 4 t13 in
    let v_w := t14 in
    Ok (v_w, v_d, v_h)) in
  let* (v_w, v_c, v_g) := (
    let* t9 := index v_w 5 in
    let* t10 := index v_w 3 in
    let* t11 := index v_w 14 in
    let* t12 := index v_w 6 in
    let '(t13, v_g, v_c) := g_sha512_small_hash_later_round v_d v_e v_f v_g v_h v_a v_b v_c 0x4a7484aa6ea6e483 t9 t10 t11 t12 in
    let* t14 := store v_w 5 t13 in
    let v_w := t14 in
    Ok (v_w, v_c, v_g)) in
  let* (v_w, v_b, v_f) := (
    let* t9 := index v_w 6 in
    let* t10 := index v_w 4 in
    let* t11 := index v_w 15 in
    let* t12 := index v_w 7 in
    let '(t13, v_f, v_b) := g_sha512_small_hash_later_round v_c v_d v_e v_f v_g v_h v_a v_b 0x5cb0a9dcbd41fbd4 t9 t10 t11 t12 in
    let* t14 := store v_w 6 t13 in
    let v_w := t14 in
    Ok (v_w, v_b, v_f)) in
  let* (v_w, v_a, v_e) := (
    let* t9 := index v_w 7 in
    let* t10 := index v_w 5 in
    let* t11 := index v_w 0 in
    let* t12 := index v_w 8 in
    let '(t13, v_e, v_a) := g_sha512_small_hash_later_round v_b v_c v_d v_e v_f v_g v_h v_a 0x76f988da831153b5 t9 t10 t11 t12 in
    let* t14 := store v_w 7 t13 in
    let v_w := t14 in
    Ok (v_w, v_a, v_e)) in
  let* (v_w, v_d, v_h) := (
    let* t9 := index v_w 8 in
    let* t10 := index v_w 6 in
    let* t11 := index v_w 1 in
    let* t12 := index v_w 9 in
    let '(t13, v_d, v_h) := g_sha512_small_hash_later_round v_a v_b v_c v_d v_e v_f v_g v_h 0x983e5152ee66dfab t9 t10 t11 t12 in
    let* t14 := store v_w 8 t13 in
    let v_w := t14 in
    Ok (v_w, v_d, v_h)) in
  let* (v_w, v_c, v_g) := (
    let* t9 := index v_w 9 in
    let* t10 := index v_w 7 in
    let* t11 := index v_w 2 in
    let* t12 := index v_w 10 in
    let '(t13, v_c, v_g) := g_sha512_small_hash_later_round v_h v_a v_b v_c v_d v_e v_f v_g 0xa831c66d2db43210 t9 t10 t11 t12 in
    let* t14 := store v_w 9 t13 in
    let v_w := t14 in
    Ok (v_w, v_c, v_g)) in
  let* (v_w, v_b, v_f) := (
    let* t9 := index v_w 10 in
    let* t10 := index v_w 8 in
    let* t11 := index v_w 3 in
    let* t12 := index v_w 11 in
    let '(t13, v_b, v_f) := g_sha512_small_hash_later_round v_g v_h v_a v_b v_c v_d v_e v_f 0xb00327c898fb213f t9 t10 t11 t12 in
    let* t14 := store v_w 10 t13 in
    let v_w := t14 in
    Ok (v_w, v_b, v_f)) in
  let* (v_w, v_a, v_e) := (
    let* t9 := index v_w 11 in
    let* t10 := index v_w 9 in
    let* t11 := index v_w 4 in
    let* t12 := index v_w 12 in
    let '(t13, v_a, v_e) := g_sha512_small_hash_later_round v_f v_g v_h v_a v_b v_c v_d v_e 0xbf597fc7beef0ee4 t9 t10 t11 t12 in
    let* t14 := store v_w 11 t13 in
    let v_w := t14 in
    Ok (v_w, v_a, v_e)) in
  let* (v_w, v_d, v_h) := (
    let* t9 := index v_w 12 in
    let* t10 := index v_w 10 in
    let* t11 := index v_w 5 in
    let* t12 := index v_w 13 in
    let '(t13, v_h, v_d) := g_sha512_small_hash_later_round v_e v_f v_g v_h v_a v_b v_c v_d 0xc6e00bf33da88fc2 t9 t10 t11 t12 in
    let* t14 := store v_w 12 t13 in
    let v_w := t14 in
    Ok (v_w, v_d, v_h)) in
  let* (v_w, v_c, v_g) := (
    let* t9 := index v_w 13 in
    let* t10 := index v_w 11 in
    let* t11 := index v_w 6 in
    let* t12 := index v_w 14 in
    let '(t13, v_g, v_c) := g_sha512_small_hash_later_round v_d v_e v_f v_g v_h v_a v_b v_c 0xd5a79147930aa725 t9 t10 t11 t12 in
    let* t14 := store v_w 13 t13 in
    let v_w := t14 in
    Ok (v_w, v_c, v_g)) in
  let* (v_w, v_b, v_f) := (
    let* t9 := index v_w 14 in
    let* t10 := index v_w 12 in
    let* t11 := index v_w 7 in
    let* t12 := index v_w 15 in
    let '(t13, v_f, v_b) := g_sha512_small_hash_later_round v_c v_d v_e v_f v_g v_h v_a v_b 0x6ca6351e003826f t9 t10 t11 t12 in
    let* t14 := store v_w 14 t13 in
    let v_w := t14 in
    Ok (v_w, v_b, v_f)) in
  let* (v_w, v_a, v_e) := (
    let* t9 := index v_w 15 in
    let* t10 := index v_w 13 in
    let* t11 := index v_w 8 in
    let* t12 := index v_w 0 in
    let '(t13, v_e, v_a) := g_sha512_small_hash_later_round v_b v_c v_d v_e v_f v_g v_h v_a 0x142929670a0e6e70 t9 t10 t11 t12 in
    let* t14 := store v_w 15 t13 in
    let v_w := t14 in
    Ok (v_w, v_a, v_e)) in
  g_sha512_Engine_process_block_small_part2 v_self v_w v_a v_b v_c v_d v_e v_f v_g v_h.

Definition g_sha512_Engine_process_block_small (cfg : config) (v_self : engine) : res (engine) :=
  let* _ := debug_assert cfg ((len (e_buffer v_self)) =? 128) in
  let v_w := array 0 16 in
  let* v_w := zip_iter_mut v_w (chunks_exact 8 (e_buffer v_self)) (fun v_w_val v_buff_bytes =>
      let* t1 := from_be_bytes 8 v_buff_bytes in
      let v_w_val := t1 in
      Ok v_w_val) in
  let* v_a := index (e_h v_self) 0 in
  let* v_b := index (e_h v_self) 1 in
  let* v_c := index (e_h v_self) 2 in
  let* v_d := index (e_h v_self) 3 in
  let* v_e := index (e_h v_self) 4 in
  let* v_f := index (e_h v_self) 5 in
  let* v_g := index (e_h v_self) 6 in
  let* v_h := index (e_h v_self) 7 in
  let* (v_d, v_h) := (
    let* t9 := index v_w 0 in
    let '(v_d, v_h) := g_sha512_small_hash_round v_a v_b v_c v_d v_e v_f v_g v_h 0x428a2f98d728ae22 t9 in
    Ok (v_d, v_h)) in
  let* (v_c, v_g) := (
    let* t9 := index v_w 1 in
    let '(v_c, v_g) := g_sha512_small_hash_round v_h v_a v_b v_c v_d v_e v_f v_g 0x7137449123ef65cd t9 in
    Ok (v_c, v_g)) in
  let* (v_b, v_f) := (
    let* t9 := index v_w 2 in
    let '(v_b, v_f) := g_sha512_small_hash_round v_g v_h v_a v_b v_c v_d v_e v_f 0xb5c0fbcfec4d3b2f t9 in
    Ok (v_b, v_f)) in
  let* (v_a, v_e) := (
    let* t9 := index v_w 3 in
    let '(v_a, v_e) := g_sha512_small_hash_round v_f v_g v_h v_a v_b v_c v_d v_e 0xe9b5dba58189dbbc t9 in
    Ok (v_a, v_e)) in
  let* (v_d, v_h) := (
    let* t9 := index v_w 4 in
    let '(v_h, v_d) := g_sha512_small_hash_round v_e v_f v_g v_h v_a v_b v_c v_d 0x3956c25bf348b538 t9 in
    Ok (v_d, v_h)) in
  let* (v_c, v_g) := (
    let* t9 := index v_w 5 in
    let '(v_g, v_c) := g_sha512_small_hash_round v_d v_e v_f v_g v_h v_a v_b v_c 0x59f111f1b605d019 t9 in
    Ok (v_c, v_g)) in
  let* (v_b, v_f) := (
    let* t9 := index v_w 6 in
    let '(v_f, v_b) := g_sha512_small_hash_round v_c v_d v_e v_f v_g v_h v_a v_b 0x923f82a4af194f9b t9 in
    Ok (v_b, v_f)) in
  let* (v_a, v_e) := (
    let* t9 := index v_w 7 in
    let '(v_e, v_a) := g_sha512_small_hash_round v_b v_c v_d v_e v_f v_g v_h v_a 0xab1c5ed5da6d8118 t9 in
    Ok (v_a, v_e)) in
  let* (v_d, v_h) := (
    let* t9 := index v_w 8 in
    let '(v_d, v_h) := g_sha512_small_hash_round v_a v_b v_c v_d v_e v_f v_g v_h 0xd807aa98a3030242 t9 in
    Ok (v_d, v_h)) in
  let* (v_c, v_g) := (
    let* t9 := index v_w 9 in
    let '(v_c, v_g) := g_sha512_small_hash_round v_h v_a v_b v_c v_d v_e v_f v_g 0x12835b0145706fbe t9 in
    Ok (v_c, v_g)) in
  let* (v_b, v_f) := (
    let* t9 := index v_w 10 in
    let '(v_b, v_f) := g_sha512_small_hash_round v_g v_h v_a v_b v_c v_d v_e v_f 0x243185be4ee4b28c t9 in
    Ok (v_b, v_f)) in
  let* (v_a, v_e) := (
    let* t9 := index v_w 11 in
    let '(v_a, v_e) := g_sha512_small_hash_round v_f v_g v_h v_a v_b v_c v_d v_e 0x550c7dc3d5ffb4e2 t9 in
    Ok (v_a, v_e)) in
  let* (v_d, v_h) := (
    let* t9 := index v_w 12 in
    let '(v_h, v_d) := g_sha512_small_hash_round v_e v_f v_g v_h v_a v_b v_c v_d 0x72be5d74f27b896f t9 in
    Ok (v_d, v_h)) in
  let* (v_c, v_g) := (
    let* t9 := index v_w 13 in
    let '(v_g, v_c) := g_sha512_small_hash_round v_d v_e v_f v_g v_h v_a v_b v_c 0x80deb1fe3b1696b1 t9 in
    Ok (v_c, v_g)) in
  let* (v_b, v_f) := (
    let* t9 := index v_w 14 in
    let '(v_f, v_b) := g_sha512_small_hash_round v_c v_d v_e v_f v_g v_h v_a v_b 0x9bdc06a725c71235 t9 in
    Ok (v_b, v_f)) in
  let* (v_a, v_e) := (
    let* t9 := index v_w 15 in
    let '(v_e, v_a) := g_sha512_small_hash_round v_b v_c v_d v_e v_f v_g v_h v_a 0xc19bf174cf692694 t9 in
    Ok (v_a, v_e)) in
  g_sha512_Engine_process_block_small_part1 v_self v_w v_a v_b v_c v_d v_e v_f v_g v_h.

(** process_block, src/sha512.rs:204-314 *)
Definition g_sha512_Engine_process_block (cfg : config) (v_self : engine) : res (engine) :=
  if small_hash cfg then g_sha512_Engine_process_block_small cfg v_self else g_sha512_Engine_process_block_fast cfg v_self.

(** input, src/internal_macros.rs:22-36 *)
Fixpoint g_sha512_Engine_input_loop1 (fuel : nat) (cfg : config) (v_self : engine) (v_inp : (list byte)) {struct fuel} : res (engine * (list byte)) :=
  if negb (len v_inp =? 0) then
    match fuel with
    | O => Panic POutOfFuel
    | S fuel =>
      let v_buf_idx := (e_length v_self) mod 128 in
      let* v_rem_len := usize_sub cfg 128 v_buf_idx in
      let v_write_len := N.min v_rem_len (len v_inp) in
      let* t2 := usize_add cfg v_buf_idx v_write_len in
      let* t3 := slice_range v_buf_idx t2 (e_buffer v_self) in
      let* t4 := slice_to v_write_len v_inp in
      let* t5 := copy_from_slice t3 t4 in
      let v_self := mk_engine (splice v_buf_idx t2 (e_buffer v_self) t5) (e_h v_self) (e_length v_self) in
      let* t6 := usize_add cfg (e_length v_self) v_write_len in
      let v_self := mk_engine (e_buffer v_self) (e_h v_self) t6 in
      let* v_self := (
        if ((e_length v_self) mod 128) =? 0 then
          g_sha512_Engine_process_block cfg v_self
        else
          Ok v_self) in
      let* t7 := slice_from v_write_len v_inp in
      let v_inp := t7 in
      g_sha512_Engine_input_loop1 fuel cfg v_self v_inp
    end
  else
    Ok (v_self, v_inp).

Definition g_sha512_Engine_input (cfg : config) (v_self : engine) (v_inp : (list byte)) : res (engine) :=
  let* (v_self, v_inp) := g_sha512_Engine_input_loop1 (length v_inp) cfg v_self v_inp in
  Ok v_self.

(** midstate, src/sha512.rs:107-113 *)
Definition g_sha512_Engine_midstate (v_self : engine) : res ((list byte)) :=
  let v_ret := array x00 64 in
  zip_chunks_mut (e_h v_self) 8 v_ret (fun v_val v_ret_bytes =>
      copy_from_slice v_ret_bytes (to_be_bytes 8 v_val)).

(** finalize, src/sha512.rs:78-96 *)
Definition g_sha512_Engine_finalize (cfg : config) (v_self : engine) : res ((list byte)) :=
  let v_data_len := e_length v_self in
  let v_zeroes := array x00 112 in
  let* v_self := g_sha512_Engine_input cfg v_self [x80] in
  let* v_self := (
    if (len v_zeroes) <? ((e_length v_self) mod 128) then
      g_sha512_Engine_input cfg v_self v_zeroes
    else
      Ok v_self) in
  let* v_pad_length := usize_sub cfg (len v_zeroes) ((e_length v_self) mod 128) in
  let* t2 := slice_to v_pad_length v_zeroes in
  let* v_self := g_sha512_Engine_input cfg v_self t2 in
  let* _ := debug_assert cfg (((e_length v_self) mod 128) =? (len v_zeroes)) in
  let* v_self := g_sha512_Engine_input cfg v_self (array x00 8) in
  let* t3 := checked_mul cfg 64 8 v_data_len in
  let* v_self := g_sha512_Engine_input cfg v_self (to_be_bytes 8 t3) in
  let* _ := debug_assert cfg (((e_length v_self) mod 128) =? 0) in
  g_sha512_Engine_midstate v_self.

(** from_midstate, src/sha512.rs:123-132 *)
Definition g_sha512_Engine_from_midstate (v_midstate : (list byte)) (v_length : N) : res (engine) :=
  let* _ := assert ((v_length mod 128) =? 0) in
  let v_ret := array 0 8 in
  let* v_ret := zip_iter_mut v_ret (chunks_exact 4 v_midstate) (fun v_ret_val v_midstate_bytes =>
      let* t1 := from_be_bytes 8 v_midstate_bytes in
      let v_ret_val := t1 in
      Ok v_ret_val) in
  Ok (mk_engine (array x00 128) v_ret v_length).

(** impl HashEngine for Engine, src/sha512.rs *)
Definition g_sha512_Engine_dict (cfg : config) : HashEngine :=
  {| he_state := engine;
     he_mid := (list byte);
     he_block_size := 128;
     he_default := Ok g_sha512_Engine_default;
     he_input := g_sha512_Engine_input cfg;
     he_n_bytes_hashed := g_sha512_Engine_n_bytes_hashed;
     he_finalize := g_sha512_Engine_finalize cfg;
     he_midstate := g_sha512_Engine_midstate;
     he_from_midstate := g_sha512_Engine_from_midstate |}.

(** engine, src/internal_macros.rs:165-165 *)
Definition g_sha512_Hash_engine (cfg : config) : res (engine) :=
  g_lib_HashEngine_new (g_sha512_Engine_dict cfg).

(** hash, src/internal_macros.rs:158-162 *)
Definition g_sha512_Hash_hash (cfg : config) (v_bytes : (list byte)) : res ((list byte)) :=
  let* v_engine := g_sha512_Hash_engine cfg in
  let* v_engine := g_sha512_Engine_input cfg v_engine v_bytes in
  g_sha512_Engine_finalize cfg v_engine.

(** from_engine, src/internal_macros.rs:170-173 *)
Definition g_sha512_Hash_from_engine (cfg : config) (v_engine : engine) : res ((list byte)) :=
  g_sha512_Engine_finalize cfg v_engine.
