(** Generated by tools/rs2v.py from the Rust source; do not edit. *)
From Verif Require Import Base GenBase ModelEngine GenSha256.

(** read_u32, src/sha256.rs:262-267 *)
Definition g_sha256_Midstate_read_u32 (cfg : config) (v_bytes : (list byte)) (v_index : N) : res (N) :=
  let* t1 := usize_add cfg v_index 0 in
  let* t2 := index v_bytes t1 in
  let* t3 := usize_add cfg v_index 1 in
  let* t4 := index v_bytes t3 in
  let* t5 := usize_add cfg v_index 2 in
  let* t6 := index v_bytes t5 in
  let* t7 := usize_add cfg v_index 3 in
  let* t8 := index v_bytes t7 in
  Ok (N.lor (N.lor (N.lor (N.shiftl (b2n t2) 24 mod 2 ^ 32) (N.shiftl (b2n t4) 16 mod 2 ^ 32)) (N.shiftl (b2n t6) 8 mod 2 ^ 32)) (N.shiftl (b2n t8) 0 mod 2 ^ 32)).

(** copy_w, src/sha256.rs:269-277 *)
Fixpoint g_sha256_Midstate_copy_w_loop1 (fuel : nat) (cfg : config) (v_bytes : (list byte)) (v_index : N) (v_w : (list N)) (v_i : N) {struct fuel} : res ((list N) * N) :=
  if v_i <? 16 then
    match fuel with
    | O => Panic POutOfFuel
    | S fuel =>
      let* t1 := usize_mul cfg v_i 4 in
      let* t2 := usize_add cfg v_index t1 in
      let* t3 := g_sha256_Midstate_read_u32 cfg v_bytes t2 in
      let* t4 := store v_w v_i t3 in
      let v_w := t4 in
      let* t5 := usize_add cfg v_i 1 in
      let v_i := t5 in
      g_sha256_Midstate_copy_w_loop1 fuel cfg v_bytes v_index v_w v_i
    end
  else
    Ok (v_w, v_i).

Definition g_sha256_Midstate_copy_w (cfg : config) (v_bytes : (list byte)) (v_index : N) : res ((list N)) :=
  let v_w := array 0 16 in
  let v_i := 0 in
  let* (v_w, v_i) := g_sha256_Midstate_copy_w_loop1 16%nat cfg v_bytes v_index v_w v_i in
  Ok v_w.

(** const_hash, src/sha256.rs:279-425; feature small-hash off *)
Fixpoint g_sha256_Midstate_const_hash_fast_loop2 (fuel : nat) (cfg : config) (v_bytes : (list byte)) (v_offset : N) (v_buf : (list byte)) (v_i : N) {struct fuel} : res ((list byte) * N) :=
  let* t7 := usize_add cfg v_offset v_i in
  if t7 <? (len v_bytes) then
    match fuel with
    | O => Panic POutOfFuel
    | S fuel =>
      let* t8 := usize_add cfg v_offset v_i in
      let* t9 := index v_bytes t8 in
      let* t10 := store v_buf v_i t9 in
      let v_buf := t10 in
      let* t11 := usize_add cfg v_i 1 in
      let v_i := t11 in
      g_sha256_Midstate_const_hash_fast_loop2 fuel cfg v_bytes v_offset v_buf v_i
    end
  else
    Ok (v_buf, v_i).

Fixpoint g_sha256_Midstate_const_hash_fast_loop1 (fuel : nat) (cfg : config) (v_bytes : (list byte)) (v_finalize : bool) (v_num_chunks : N) (v_state : (list N)) (v_chunk : N) {struct fuel} : res ((list N) * N) :=
  if v_chunk <? v_num_chunks then
    match fuel with
    | O => Panic POutOfFuel
    | S fuel =>
      let* t3 := (
        if negb v_finalize then
          let* t3 := usize_add cfg v_chunk 1 in
          Ok (t3 =? v_num_chunks)
        else
          Ok false) in
      if t3 then
        Ok (v_state, v_chunk)
      else
        let* t4 := usize_mul cfg v_chunk 64 in
        let* t5 := usize_add cfg t4 64 in
        let* v_w := (
          if t5 <=? (len v_bytes) then
            let* t6 := usize_mul cfg v_chunk 64 in
            g_sha256_Midstate_copy_w cfg v_bytes t6
          else
            let v_buf := array x00 64 in
            let v_i := 0 in
            let* v_offset := usize_mul cfg v_chunk 64 in
            let* (v_buf, v_i) := g_sha256_Midstate_const_hash_fast_loop2 (length v_bytes) cfg v_bytes v_offset v_buf v_i in
            let* t7 := (
              if ((len v_bytes) mod 64) <=? 55 then
                Ok true
              else
                let* t7 := usize_add cfg v_chunk 2 in
                Ok (t7 =? v_num_chunks)) in
            let* v_buf := (
              if t7 then
                let* t8 := store v_buf v_i x80 in
                let v_buf := t8 in
                Ok v_buf
              else
                Ok v_buf) in
            let* t8 := usize_add cfg v_chunk 1 in
            let* v_buf := (
              if t8 =? v_num_chunks then
                let* v_bit_len := checked_mul cfg 64 (len v_bytes) 8 in
                let* t10 := store v_buf 56 (u8 (N.land (N.shiftr v_bit_len 56) 255)) in
                let v_buf := t10 in
                let* t11 := store v_buf 57 (u8 (N.land (N.shiftr v_bit_len 48) 255)) in
                let v_buf := t11 in
                let* t12 := store v_buf 58 (u8 (N.land (N.shiftr v_bit_len 40) 255)) in
                let v_buf := t12 in
                let* t13 := store v_buf 59 (u8 (N.land (N.shiftr v_bit_len 32) 255)) in
                let v_buf := t13 in
                let* t14 := store v_buf 60 (u8 (N.land (N.shiftr v_bit_len 24) 255)) in
                let v_buf := t14 in
                let* t15 := store v_buf 61 (u8 (N.land (N.shiftr v_bit_len 16) 255)) in
                let v_buf := t15 in
                let* t16 := store v_buf 62 (u8 (N.land (N.shiftr v_bit_len 8) 255)) in
                let v_buf := t16 in
                let* t17 := store v_buf 63 (u8 (N.land (N.shiftr v_bit_len 0) 255)) in
                let v_buf := t17 in
                Ok v_buf
              else
                Ok v_buf) in
            g_sha256_Midstate_copy_w cfg v_buf 0) in
        let* t7 := usize_add cfg v_chunk 1 in
        let v_chunk := t7 in
        let* v_a := index v_state 0 in
        let* v_b := index v_state 1 in
        let* v_c := index v_state 2 in
        let* v_d := index v_state 3 in
        let* v_e := index v_state 4 in
        let* v_f := index v_state 5 in
        let* v_g := index v_state 6 in
        let* v_h := index v_state 7 in
        let* (v_d, v_h) := (
          let* t16 := index v_w 0 in
          let v_t1 := wrapping_add 32 (wrapping_add 32 (wrapping_add 32 (wrapping_add 32 v_h (g_sha256_Sigma1 v_e)) (g_sha256_Ch v_e v_f v_g)) 0x428a2f98) t16 in
          let v_t2 := wrapping_add 32 (g_sha256_Sigma0 v_a) (g_sha256_Maj v_a v_b v_c) in
          let v_d := wrapping_add 32 v_d v_t1 in
          let v_h := wrapping_add 32 v_t1 v_t2 in
          Ok (v_d, v_h)) in
        let* (v_c, v_g) := (
          let* t16 := index v_w 1 in
          let v_t1 := wrapping_add 32 (wrapping_add 32 (wrapping_add 32 (wrapping_add 32 v_g (g_sha256_Sigma1 v_d)) (g_sha256_Ch v_d v_e v_f)) 0x71374491) t16 in
          let v_t2 := wrapping_add 32 (g_sha256_Sigma0 v_h) (g_sha256_Maj v_h v_a v_b) in
          let v_c := wrapping_add 32 v_c v_t1 in
          let v_g := wrapping_add 32 v_t1 v_t2 in
          Ok (v_c, v_g)) in
        let* (v_b, v_f) := (
          let* t16 := index v_w 2 in
          let v_t1 := wrapping_add 32 (wrapping_add 32 (wrapping_add 32 (wrapping_add 32 v_f (g_sha256_Sigma1 v_c)) (g_sha256_Ch v_c v_d v_e)) 0xb5c0fbcf) t16 in
          let v_t2 := wrapping_add 32 (g_sha256_Sigma0 v_g) (g_sha256_Maj v_g v_h v_a) in
          let v_b := wrapping_add 32 v_b v_t1 in
          let v_f := wrapping_add 32 v_t1 v_t2 in
          Ok (v_b, v_f)) in
        let* (v_a, v_e) := (
          let* t16 := index v_w 3 in
          let v_t1 := wrapping_add 32 (wrapping_add 32 (wrapping_add 32 (wrapping_add 32 v_e (g_sha256_Sigma1 v_b)) (g_sha256_Ch v_b v_c v_d)) 0xe9b5dba5) t16 in
          let v_t2 := wrapping_add 32 (g_sha256_Sigma0 v_f) (g_sha256_Maj v_f v_g v_h) in
          let v_a := wrapping_add 32 v_a v_t1 in
          let v_e := wrapping_add 32 v_t1 v_t2 in
          Ok (v_a, v_e)) in
        let* (v_d, v_h) := (
          let* t16 := index v_w 4 in
          let v_t1 := wrapping_add 32 (wrapping_add 32 (wrapping_add 32 (wrapping_add 32 v_d (g_sha256_Sigma1 v_a)) (g_sha256_Ch v_a v_b v_c)) 0x3956c25b) t16 in
          let v_t2 := wrapping_add 32 (g_sha256_Sigma0 v_e) (g_sha256_Maj v_e v_f v_g) in
          let v_h := wrapping_add 32 v_h v_t1 in
          let v_d := wrapping_add 32 v_t1 v_t2 in
          Ok (v_d, v_h)) in
        let* (v_c, v_g) := (
          let* t16 := index v_w 5 in
          let v_t1 := wrapping_add 32 (wrapping_add 32 (wrapping_add 32 (wrapping_add 32 v_c (g_sha256_Sigma1 v_h)) (g_sha256_Ch v_h v_a v_b)) 0x59f111f1) t16 in
          let v_t2 := wrapping_add 32 (g_sha256_Sigma0 v_d) (g_sha256_Maj v_d v_e v_f) in
          let v_g := wrapping_add 32 v_g v_t1 in
          let v_c := wrapping_add 32 v_t1 v_t2 in
          Ok (v_c, v_g)) in
        let* (v_b, v_f) := (
          let* t16 := index v_w 6 in
          let v_t1 := wrapping_add 32 (wrapping_add 32 (wrapping_add 32 (wrapping_add 32 v_b (g_sha256_Sigma1 v_g)) (g_sha256_Ch v_g v_h v_a)) 0x923f82a4) t16 in
          let v_t2 := wrapping_add 32 (g_sha256_Sigma0 v_c) (g_sha256_Maj v_c v_d v_e) in
          let v_f := wrapping_add 32 v_f v_t1 in
          let v_b := wrapping_add 32 v_t1 v_t2 in
          Ok (v_b, v_f)) in
        let* (v_a, v_e) := (
          let* t16 := index v_w 7 in
          let v_t1 := wrapping_add 32 (wrapping_add 32 (wrapping_add 32 (wrapping_add 32 v_a (g_sha256_Sigma1 v_f)) (g_sha256_Ch v_f v_g v_h)) 0xab1c5ed5) t16 in
          let v_t2 := wrapping_add 32 (g_sha256_Sigma0 v_b) (g_sha256_Maj v_b v_c v_d) in
          let v_e := wrapping_add 32 v_e v_t1 in
          let v_a := wrapping_add 32 v_t1 v_t2 in
          Ok (v_a, v_e)) in
        let* (v_d, v_h) := (
          let* t16 := index v_w 8 in
          let v_t1 := wrapping_add 32 (wrapping_add 32 (wrapping_add 32 (wrapping_add 32 v_h (g_sha256_Sigma1 v_e)) (g_sha256_Ch v_e v_f v_g)) 0xd807aa98) t16 in
          let v_t2 := wrapping_add 32 (g_sha256_Sigma0 v_a) (g_sha256_Maj v_a v_b v_c) in
          let v_d := wrapping_add 32 v_d v_t1 in
          let v_h := wrapping_add 32 v_t1 v_t2 in
          Ok (v_d, v_h)) in
        let* (v_c, v_g) := (
          let* t16 := index v_w 9 in
          let v_t1 := wrapping_add 32 (wrapping_add 32 (wrapping_add 32 (wrapping_add 32 v_g (g_sha256_Sigma1 v_d)) (g_sha256_Ch v_d v_e v_f)) 0x12835b01) t16 in
          let v_t2 := wrapping_add 32 (g_sha256_Sigma0 v_h) (g_sha256_Maj v_h v_a v_b) in
          let v_c := wrapping_add 32 v_c v_t1 in
          let v_g := wrapping_add 32 v_t1 v_t2 in
          Ok (v_c, v_g)) in
        let* (v_b, v_f) := (
          let* t16 := index v_w 10 in
          let v_t1 := wrapping_add 32 (wrapping_add 32 (wrapping_add 32 (wrapping_add 32 v_f (g_sha256_Sigma1 v_c)) (g_sha256_Ch v_c v_d v_e)) 0x243185be) t16 in
          let v_t2 := wrapping_add 32 (g_sha256_Sigma0 v_g) (g_sha256_Maj v_g v_h v_a) in
          let v_b := wrapping_add 32 v_b v_t1 in
          let v_f := wrapping_add 32 v_t1 v_t2 in
          Ok (v_b, v_f)) in
        let* (v_a, v_e) := (
          let* t16 := index v_w 11 in
          let v_t1 := wrapping_add 32 (wrapping_add 32 (wrapping_add 32 (wrapping_add 32 v_e (g_sha256_Sigma1 v_b)) (g_sha256_Ch v_b v_c v_d)) 0x550c7dc3) t16 in
          let v_t2 := wrapping_add 32 (g_sha256_Sigma0 v_f) (g_sha256_Maj v_f v_g v_h) in
          let v_a := wrapping_add 32 v_a v_t1 in
          let v_e := wrapping_add 32 v_t1 v_t2 in
          Ok (v_a, v_e)) in
        let* (v_d, v_h) := (
          let* t16 := index v_w 12 in
          let v_t1 := wrapping_add 32 (wrapping_add 32 (wrapping_add 32 (wrapping_add 32 v_d (g_sha256_Sigma1 v_a)) (g_sha256_Ch v_a v_b v_c)) 0x72be5d74) t16 in
          let v_t2 := wrapping_add 32 (g_sha256_Sigma0 v_e) (g_sha256_Maj v_e v_f v_g) in
          let v_h := wrapping_add 32 v_h v_t1 in
          let v_d := wrapping_add 32 v_t1 v_t2 in
          Ok (v_d, v_h)) in
        let* (v_c, v_g) := (
          let* t16 := index v_w 13 in
          let v_t1 := wrapping_add 32 (wrapping_add 32 (wrapping_add 32 (wrapping_add 32 v_c (g_sha256_Sigma1 v_h)) (g_sha256_Ch v_h v_a v_b)) 0x80deb1fe) t16 in
          let v_t2 := wrapping_add 32 (g_sha256_Sigma0 v_d) (g_sha256_Maj v_d v_e v_f) in
          let v_g := wrapping_add 32 v_g v_t1 in
          let v_c := wrapping_add 32 v_t1 v_t2 in
          Ok (v_c, v_g)) in
        let* (v_b, v_f) := (
          let* t16 := index v_w 14 in
          let v_t1 := wrapping_add 32 (wrapping_add 32 (wrapping_add 32 (wrapping_add 32 v_b (g_sha256_Sigma1 v_g)) (g_sha256_Ch v_g v_h v_a)) 0x9bdc06a7) t16 in
          let v_t2 := wrapping_add 32 (g_sha256_Sigma0 v_c) (g_sha256_Maj v_c v_d v_e) in
          let v_f := wrapping_add 32 v_f v_t1 in
          let v_b := wrapping_add 32 v_t1 v_t2 in
          Ok (v_b, v_f)) in
        let* (v_a, v_e) := (
          let* t16 := index v_w 15 in
          let v_t1 := wrapping_add 32 (wrapping_add 32 (wrapping_add 32 (wrapping_add 32 v_a (g_sha256_Sigma1 v_f)) (g_sha256_Ch v_f v_g v_h)) 0xc19bf174) t16 in
          let v_t2 := wrapping_add 32 (g_sha256_Sigma0 v_b) (g_sha256_Maj v_b v_c v_d) in
          let v_e := wrapping_add 32 v_e v_t1 in
          let v_a := wrapping_add 32 v_t1 v_t2 in
          Ok (v_a, v_e)) in
        let* (v_w, v_d, v_h) := (
          let* t16 := index v_w 0 in
          let* t17 := index v_w 14 in
          let* t18 := index v_w 9 in
          let* t19 := index v_w 1 in
          let* t20 := store v_w 0 (wrapping_add 32 (wrapping_add 32 (wrapping_add 32 t16 (g_sha256_sigma1 t17)) t18) (g_sha256_sigma0 t19)) in
          let v_w := t20 in
          let* (v_d, v_h) := (
            let* t21 := index v_w 0 in
            let v_t1 := wrapping_add 32 (wrapping_add 32 (wrapping_add 32 (wrapping_add 32 v_h (g_sha256_Sigma1 v_e)) (g_sha256_Ch v_e v_f v_g)) 0xe49b69c1) t21 in
            let v_t2 := wrapping_add 32 (g_sha256_Sigma0 v_a) (g_sha256_Maj v_a v_b v_c) in
            let v_d := wrapping_add 32 v_d v_t1 in
            let v_h := wrapping_add 32 v_t1 v_t2 in
            Ok (v_d, v_h)) in
          Ok (v_w, v_d, v_h)) in
        let* (v_w, v_c, v_g) := (
          let* t16 := index v_w 1 in
          let* t17 := index v_w 15 in
          let* t18 := index v_w 10 in
          let* t19 := index v_w 2 in
          let* t20 := store v_w 1 (wrapping_add 32 (wrapping_add 32 (wrapping_add 32 t16 (g_sha256_sigma1 t17)) t18) (g_sha256_sigma0 t19)) in
          let v_w := t20 in
          let* (v_c, v_g) := (
            let* t21 := index v_w 1 in
            let v_t1 := wrapping_add 32 (wrapping_add 32 (wrapping_add 32 (wrapping_add 32 v_g (g_sha256_Sigma1 v_d)) (g_sha256_Ch v_d v_e v_f)) 0xefbe4786) t21 in
            let v_t2 := wrapping_add 32 (g_sha256_Sigma0 v_h) (g_sha256_Maj v_h v_a v_b) in
            let v_c := wrapping_add 32 v_c v_t1 in
            let v_g := wrapping_add 32 v_t1 v_t2 in
            Ok (v_c, v_g)) in
          Ok (v_w, v_c, v_g)) in
        let* (v_w, v_b, v_f) := (
          let* t16 := index v_w 2 in
          let* t17 := index v_w 0 in
          let* t18 := index v_w 11 in
          let* t19 := index v_w 3 in
          let* t20 := store v_w 2 (wrapping_add 32 (wrapping_add 32 (wrapping_add 32 t16 (g_sha256_sigma1 t17)) t18) (g_sha256_sigma0 t19)) in
          let v_w := t20 in
          let* (v_b, v_f) := (
            let* t21 := index v_w 2 in
            let v_t1 := wrapping_add 32 (wrapping_add 32 (wrapping_add 32 (wrapping_add 32 v_f (g_sha256_Sigma1 v_c)) (g_sha256_Ch v_c v_d v_e)) 0xfc19dc6) t21 in
            let v_t2 := wrapping_add 32 (g_sha256_Sigma0 v_g) (g_sha256_Maj v_g v_h v_a) in
            let v_b := wrapping_add 32 v_b v_t1 in
            let v_f := wrapping_add 32 v_t1 v_t2 in
            Ok (v_b, v_f)) in
          Ok (v_w, v_b, v_f)) in
        let* (v_w, v_a, v_e) := (
          let* t16 := index v_w 3 in
          let* t17 := index v_w 1 in
          let* t18 := index v_w 12 in
          let* t19 := index v_w 4 in
          let* t20 := store v_w 3 (wrapping_add 32 (wrapping_add 32 (wrapping_add 32 t16 (g_sha256_sigma1 t17)) t18) (g_sha256_sigma0 t19)) in
          let v_w := t20 in
          let* (v_a, v_e) := (
            let* t21 := index v_w 3 in
            let v_t1 := wrapping_add 32 (wrapping_add 32 (wrapping_add 32 (wrapping_add 32 v_e (g_sha256_Sigma1 v_b)) (g_sha256_Ch v_b v_c v_d)) 0x240ca1cc) t21 in
            let v_t2 := wrapping_add 32 (g_sha256_Sigma0 v_f) (g_sha256_Maj v_f v_g v_h) in
            let v_a := wrapping_add 32 v_a v_t1 in
            let v_e := wrapping_add 32 v_t1 v_t2 in
            Ok (v_a, v_e)) in
          Ok (v_w, v_a, v_e)) in
        let* (v_w, v_d, v_h) := (
          let* t16 := index v_w 4 in
          let* t17 := index v_w 2 in
          let* t18 := index v_w 13 in
          let* t19 := index v_w 5 in
          let* t20 := store v_w 4 (wrapping_add 32 (wrapping_add 32 (wrapping_add 32 t16 (g_sha256_sigma1 t17)) t18) (g_sha256_sigma0 t19)) in
          let v_w := t20 in
          let* (v_d, v_h) := (
            let* t21 := index v_w 4 in
            let v_t1 := wrapping_add 32 (wrapping_add 32 (wrapping_add 32 (wrapping_add 32 v_d (g_sha256_Sigma1 v_a)) (g_sha256_Ch v_a v_b v_c)) 0x2de92c6f) t21 in
            let v_t2 := wrapping_add 32 (g_sha256_Sigma0 v_e) (g_sha256_Maj v_e v_f v_g) in
            let v_h := wrapping_add 32 v_h v_t1 in
            let v_d := wrapping_add 32 v_t1 v_t2 in
            Ok (v_d, v_h)) in
          Ok (v_w, v_d, v_h)) in
        let* (v_w, v_c, v_g) := (
          let* t16 := index v_w 5 in
          let* t17 := index v_w 3 in
          let* t18 := index v_w 14 in
          let* t19 := index v_w 6 in
          let* t20 := store v_w 5 (wrapping_add 32 (wrapping_add 32 (wrapping_add 32 t16 (g_sha256_sigma1 t17)) t18) (g_sha256_sigma0 t19)) in
          let v_w := t20 in
          let* (v_c, v_g) := (
            let* t21 := index v_w 5 in
            let v_t1 := wrapping_add 32 (wrapping_add 32 (wrapping_add 32 (wrapping_add 32 v_c (g_sha256_Sigma1 v_h)) (g_sha256_Ch v_h v_a v_b)) 0x4a7484aa) t21 in
            let v_t2 := wrapping_add 32 (g_sha256_Sigma0 v_d) (g_sha256_Maj v_d v_e v_f) in
            let v_g := wrapping_add 32 v_g v_t1 in
            let v_c := wrapping_add 32 v_t1 v_t2 in
            Ok (v_c, v_g)) in
          Ok (v_w, v_c, v_g)) in
        let* (v_w, v_b, v_f) := (
          let* t16 := index v_w 6 in
          let* t17 := index v_w 4 in
          let* t18 := index v_w 15 in
          let* t19 := index v_w 7 in
          let* t20 := store v_w 6 (wrapping_add 32 (wrapping_add 32 (wrapping_add 32 t16 (g_sha256_sigma1 t17)) t18) (g_sha256_sigma0 t19)) in
          let v_w := t20 in
          let* (v_b, v_f) := (
            let* t21 := index v_w 6 in
            let v_t1 := wrapping_add 32 (wrapping_add 32 (wrapping_add 32 (wrapping_add 32 v_b (g_sha256_Sigma1 v_g)) (g_sha256_Ch v_g v_h v_a)) 0x5cb0a9dc) t21 in
            let v_t2 := wrapping_add 32 (g_sha256_Sigma0 v_c) (g_sha256_Maj v_c v_d v_e) in
            let v_f := wrapping_add 32 v_f v_t1 in
            let v_b := wrapping_add 32 v_t1 v_t2 in
            Ok (v_b, v_f)) in
          Ok (v_w, v_b, v_f)) in
        let* (v_w, v_a, v_e) := (
          let* t16 := index v_w 7 in
          let* t17 := index v_w 5 in
          let* t18 := index v_w 0 in
          let* t19 := index v_w 8 in
          let* t20 := store v_w 7 (wrapping_add 32 (wrapping_add 32 (wrapping_add 32 t16 (g_sha256_sigma1 t17)) t18) (g_sha256_sigma0 t19)) in
          let v_w := t20 in
          let* (v_a, v_e) := (
            let* t21 := index v_w 7 in
            let v_t1 := wrapping_add 32 (wrapping_add 32 (wrapping_add 32 (wrapping_add 32 v_a (g_sha256_Sigma1 v_f)) (g_sha256_Ch v_f v_g v_h)) 0x76f988da) t21 in
            let v_t2 := wrapping_add 32 (g_sha256_Sigma0 v_b) (g_sha256_Maj v_b v_c v_d) in
            let v_e := wrapping_add 32 v_e v_t1 in
            let v_a := wrapping_add 32 v_t1 v_t2 in
            Ok (v_a, v_e)) in
          Ok (v_w, v_a, v_e)) in
        let* (v_w, v_d, v_h) := (
          let* t16 := index v_w 8 in
          let* t17 := index v_w 6 in
          let* t18 := index v_w 1 in
          let* t19 := index v_w 9 in
          let* t20 := store v_w 8 (wrapping_add 32 (wrapping_add 32 (wrapping_add 32 t16 (g_sha256_sigma1 t17)) t18) (g_sha256_sigma0 t19)) in
          let v_w := t20 in
          let* (v_d, v_h) := (
            let* t21 := index v_w 8 in
            let v_t1 := wrapping_add 32 (wrapping_add 32 (wrapping_add 32 (wrapping_add 32 v_h (g_sha256_Sigma1 v_e)) (g_sha256_Ch v_e v_f v_g)) 0x983e5152) t21 in
            let v_t2 := wrapping_add 32 (g_sha256_Sigma0 v_a) (g_sha256_Maj v_a v_b v_c) in
            let v_d := wrapping_add 32 v_d v_t1 in
            let v_h := wrapping_add 32 v_t1 v_t2 in
            Ok (v_d, v_h)) in
          Ok (v_w, v_d, v_h)) in
        let* (v_w, v_c, v_g) := (
          let* t16 := index v_w 9 in
          let* t17 := index v_w 7 in
          let* t18 := index v_w 2 in
          let* t19 := index v_w 10 in
          let* t20 := store v_w 9 (wrapping_add 32 (wrapping_add 32 (wrapping_add 32 t16 (g_sha256_sigma1 t17)) t18) (g_sha256_sigma0 t19)) in
          let v_w := t20 in
          let* (v_c, v_g) := (
            let* t21 := index v_w 9 in
            let v_t1 := wrapping_add 32 (wrapping_add 32 (wrapping_add 32 (wrapping_add 32 v_g (g_sha256_Sigma1 v_d)) (g_sha256_Ch v_d v_e v_f)) 0xa831c66d) t21 in
            let v_t2 := wrapping_add 32 (g_sha256_Sigma0 v_h) (g_sha256_Maj v_h v_a v_b) in
            let v_c := wrapping_add 32 v_c v_t1 in
            let v_g := wrapping_add 32 v_t1 v_t2 in
            Ok (v_c, v_g)) in
          Ok (v_w, v_c, v_g)) in
        let* (v_w, v_b, v_f) := (
          let* t16 := index v_w 10 in
          let* t17 := index v_w 8 in
          let* t18 := index v_w 3 in
          let* t19 := index v_w 11 in
          let* t20 := store v_w 10 (wrapping_add 32 (wrapping_add 32 (wrapping_add 32 t16 (g_sha256_sigma1 t17)) t18) (g_sha256_sigma0 t19)) in
          let v_w := t20 in
          let* (v_b, v_f) := (
            let* t21 := index v_w 10 in
            let v_t1 := wrapping_add 32 (wrapping_add 32 (wrapping_add 32 (wrapping_add 32 v_f (g_sha256_Sigma1 v_c)) (g_sha256_Ch v_c v_d v_e)) 0xb00327c8) t21 in
            let v_t2 := wrapping_add 32 (g_sha256_Sigma0 v_g) (g_sha256_Maj v_g v_h v_a) in
            let v_b := wrapping_add 32 v_b v_t1 in
            let v_f := wrapping_add 32 v_t1 v_t2 in
            Ok (v_b, v_f)) in
          Ok (v_w, v_b, v_f)) in
        let* (v_w, v_a, v_e) := (
          let* t16 := index v_w 11 in
          let* t17 := index v_w 9 in
          let* t18 := index v_w 4 in
          let* t19 := index v_w 12 in
          let* t20 := store v_w 11 (wrapping_add 32 (wrapping_add 32 (wrapping_add 32 t16 (g_sha256_sigma1 t17)) t18) (g_sha256_sigma0 t19)) in
          let v_w := t20 in
          let* (v_a, v_e) := (
            let* t21 := index v_w 11 in
            let v_t1 := wrapping_add 32 (wrapping_add 32 (wrapping_add 32 (wrapping_add 32 v_e (g_sha256_Sigma1 v_b)) (g_sha256_Ch v_b v_c v_d)) 0xbf597fc7) t21 in
            let v_t2 := wrapping_add 32 (g_sha256_Sigma0 v_f) (g_sha256_Maj v_f v_g v_h) in
            let v_a := wrapping_add 32 v_a v_t1 in
            let v_e := wrapping_add 32 v_t1 v_t2 in
            Ok (v_a, v_e)) in
          Ok (v_w, v_a, v_e)) in
        let* (v_w, v_d, v_h) := (
          let* t16 := index v_w 12 in
          let* t17 := index v_w 10 in
          let* t18 := index v_w 5 in
          let* t19 := index v_w 13 in
          let* t20 := store v_w 12 (wrapping_add 32 (wrapping_add 32 (wrapping_add 32 t16 (g_sha256_sigma1 t17)) t18) (g_sha256_sigma0 t19)) in
          let v_w := t20 in
          let* (v_d, v_h) := (
            let* t21 := index v_w 12 in
            let v_t1 := wrapping_add 32 (wrapping_add 32 (wrapping_add 32 (wrapping_add 32 v_d (g_sha256_Sigma1 v_a)) (g_sha256_Ch v_a v_b v_c)) 0xc6e00bf3) t21 in
            let v_t2 := wrapping_add 32 (g_sha256_Sigma0 v_e) (g_sha256_Maj v_e v_f v_g) in
            let v_h := wrapping_add 32 v_h v_t1 in
            let v_d := wrapping_add 32 v_t1 v_t2 in
            Ok (v_d, v_h)) in
          Ok (v_w, v_d, v_h)) in
        let* (v_w, v_c, v_g) := (
          let* t16 := index v_w 13 in
          let* t17 := index v_w 11 in
          let* t18 := index v_w 6 in
          let* t19 := index v_w 14 in
          let* t20 := store v_w 13 (wrapping_add 32 (wrapping_add 32 (wrapping_add 32 t16 (g_sha256_sigma1 t17)) t18) (g_sha256_sigma0 t19)) in
          let v_w := t20 in
          let* (v_c, v_g) := (
            let* t21 := index v_w 13 in
            let v_t1 := wrapping_add 32 (wrapping_add 32 (wrapping_add 32 (wrapping_add 32 v_c (g_sha256_Sigma1 v_h)) (g_sha256_Ch v_h v_a v_b)) 0xd5a79147) t21 in
            let v_t2 := wrapping_add 32 (g_sha256_Sigma0 v_d) (g_sha256_Maj v_d v_e v_f) in
            let v_g := wrapping_add 32 v_g v_t1 in
            let v_c := wrapping_add 32 v_t1 v_t2 in
            Ok (v_c, v_g)) in
          Ok (v_w, v_c, v_g)) in
        let* (v_w, v_b, v_f) := (
          let* t16 := index v_w 14 in
          let* t17 := index v_w 12 in
          let* t18 := index v_w 7 in
          let* t19 := index v_w 15 in
          let* t20 := store v_w 14 (wrapping_add 32 (wrapping_add 32 (wrapping_add 32 t16 (g_sha256_sigma1 t17)) t18) (g_sha256_sigma0 t19)) in
          let v_w := t20 in
          let* (v_b, v_f) := (
            let* t21 := index v_w 14 in
            let v_t1 := wrapping_add 32 (wrapping_add 32 (wrapping_add 32 (wrapping_add 32 v_b (g_sha256_Sigma1 v_g)) (g_sha256_Ch v_g v_h v_a)) 0x6ca6351) t21 in
            let v_t2 := wrapping_add 32 (g_sha256_Sigma0 v_c) (g_sha256_Maj v_c v_d v_e) in
            let v_f := wrapping_add 32 v_f v_t1 in
            let v_b := wrapping_add 32 v_t1 v_t2 in
            Ok (v_b, v_f)) in
          Ok (v_w, v_b, v_f)) in
        let* (v_w, v_a, v_e) := (
          let* t16 := index v_w 15 in
          let* t17 := index v_w 13 in
          let* t18 := index v_w 8 in
          let* t19 := index v_w 0 in
          let* t20 := store v_w 15 (wrapping_add 32 (wrapping_add 32 (wrapping_add 32 t16 (g_sha256_sigma1 t17)) t18) (g_sha256_sigma0 t19)) in
          let v_w := t20 in
          let* (v_a, v_e) := (
            let* t21 := index v_w 15 in
            let v_t1 := wrapping_add 32 (wrapping_add 32 (wrapping_add 32 (wrapping_add 32 v_a (g_sha256_Sigma1 v_f)) (g_sha256_Ch v_f v_g v_h)) 0x14292967) t21 in
            let v_t2 := wrapping_add 32 (g_sha256_Sigma0 v_b) (g_sha256_Maj v_b v_c v_d) in
            let v_e := wrapping_add 32 v_e v_t1 in
            let v_a := wrapping_add 32 v_t1 v_t2 in
            Ok (v_a, v_e)) in
          Ok (v_w, v_a, v_e)) in
        let* (v_w, v_d, v_h) := (
          let* t16 := index v_w 0 in
          let* t17 := index v_w 14 in
          let* t18 := index v_w 9 in
          let* t19 := index v_w 1 in
          let* t20 := store v_w 0 (wrapping_add 32 (wrapping_add 32 (wrapping_add 32 t16 (g_sha256_sigma1 t17)) t18) (g_sha256_sigma0 t19)) in
          let v_w := t20 in
          let* (v_d, v_h) := (
            let* t21 := index v_w 0 in
            let v_t1 := wrapping_add 32 (wrapping_add 32 (wrapping_add 32 (wrapping_add 32 v_h (g_sha256_Sigma1 v_e)) (g_sha256_Ch v_e v_f v_g)) 0x27b70a85) t21 in
            let v_t2 := wrapping_add 32 (g_sha256_Sigma0 v_a) (g_sha256_Maj v_a v_b v_c) in
            let v_d := wrapping_add 32 v_d v_t1 in
            let v_h := wrapping_add 32 v_t1 v_t2 in
            Ok (v_d, v_h)) in
          Ok (v_w, v_d, v_h)) in
        let* (v_w, v_c, v_g) := (
          let* t16 := index v_w 1 in
          let* t17 := index v_w 15 in
          let* t18 := index v_w 10 in
          let* t19 := index v_w 2 in
          let* t20 := store v_w 1 (wrapping_add 32 (wrapping_add 32 (wrapping_add 32 t16 (g_sha256_sigma1 t17)) t18) (g_sha256_sigma0 t19)) in
          let v_w := t20 in
          let* (v_c, v_g) := (
            let* t21 := index v_w 1 in
            let v_t1 := wrapping_add 32 (wrapping_add 32 (wrapping_add 32 (wrapping_add 32 v_g (g_sha256_Sigma1 v_d)) (g_sha256_Ch v_d v_e v_f)) 0x2e1b2138) t21 in
            let v_t2 := wrapping_add 32 (g_sha256_Sigma0 v_h) (g_sha256_Maj v_h v_a v_b) in
            let v_c := wrapping_add 32 v_c v_t1 in
            let v_g := wrapping_add 32 v_t1 v_t2 in
            Ok (v_c, v_g)) in
          Ok (v_w, v_c, v_g)) in
        let* (v_w, v_b, v_f) := (
          let* t16 := index v_w 2 in
          let* t17 := index v_w 0 in
          let* t18 := index v_w 11 in
          let* t19 := index v_w 3 in
          let* t20 := store v_w 2 (wrapping_add 32 (wrapping_add 32 (wrapping_add 32 t16 (g_sha256_sigma1 t17)) t18) (g_sha256_sigma0 t19)) in
          let v_w := t20 in
          let* (v_b, v_f) := (
            let* t21 := index v_w 2 in
            let v_t1 := wrapping_add 32 (wrapping_add 32 (wrapping_add 32 (wrapping_add 32 v_f (g_sha256_Sigma1 v_c)) (g_sha256_Ch v_c v_d v_e)) 0x4d2c6dfc) t21 in
            let v_t2 := wrapping_add 32 (g_sha256_Sigma0 v_g) (g_sha256_Maj v_g v_h v_a) in
            let v_b := wrapping_add 32 v_b v_t1 in
            let v_f := wrapping_add 32 v_t1 v_t2 in
            Ok (v_b, v_f)) in
          Ok (v_w, v_b, v_f)) in
        let* (v_w, v_a, v_e) := (
          let* t16 := index v_w 3 in
          let* t17 := index v_w 1 in
          let* t18 := index v_w 12 in
          let* t19 := index v_w 4 in
          let* t20 := store v_w 3 (wrapping_add 32 (wrapping_add 32 (wrapping_add 32 t16 (g_sha256_sigma1 t17)) t18) (g_sha256_sigma0 t19)) in
          let v_w := t20 in
          let* (v_a, v_e) := (
            let* t21 := index v_w 3 in
            let v_t1 := wrapping_add 32 (wrapping_add 32 (wrapping_add 32 (wrapping_add 32 v_e (g_sha256_Sigma1 v_b)) (g_sha256_Ch v_b v_c v_d)) 0x53380d13) t21 in
            let v_t2 := wrapping_add 32 (g_sha256_Sigma0 v_f) (g_sha256_Maj v_f v_g v_h) in
            let v_a := wrapping_add 32 v_a v_t1 in
            let v_e := wrapping_add 32 v_t1 v_t2 in
            Ok (v_a, v_e)) in
          Ok (v_w, v_a, v_e)) in
        let* (v_w, v_d, v_h) := (
          let* t16 := index v_w 4 in
          let* t17 := index v_w 2 in
          let* t18 := index v_w 13 in
          let* t19 := index v_w 5 in
          let* t20 := store v_w 4 (wrapping_add 32 (wrapping_add 32 (wrapping_add 32 t16 (g_sha256_sigma1 t17)) t18) (g_sha256_sigma0 t19)) in
          let v_w := t20 in
          let* (v_d, v_h) := (
            let* t21 := index v_w 4 in
            let v_t1 := wrapping_add 32 (wrapping_add 32 (wrapping_add 32 (wrapping_add 32 v_d (g_sha256_Sigma1 v_a)) (g_sha256_Ch v_a v_b v_c)) 0x650a7354) t21 in
            let v_t2 := wrapping_add 32 (g_sha256_Sigma0 v_e) (g_sha256_Maj v_e v_f v_g) in
            let v_h := wrapping_add 32 v_h v_t1 in
            let v_d := wrapping_add 32 v_t1 v_t2 in
            Ok (v_d, v_h)) in
          Ok (v_w, v_d, v_h)) in
        let* (v_w, v_c, v_g) := (
          let* t16 := index v_w 5 in
          let* t17 := index v_w 3 in
          let* t18 := index v_w 14 in
          let* t19 := index v_w 6 in
          let* t20 := store v_w 5 (wrapping_add 32 (wrapping_add 32 (wrapping_add 32 t16 (g_sha256_sigma1 t17)) t18) (g_sha256_sigma0 t19)) in
          let v_w := t20 in
          let* (v_c, v_g) := (
            let* t21 := index v_w 5 in
            let v_t1 := wrapping_add 32 (wrapping_add 32 (wrapping_add 32 (wrapping_add 32 v_c (g_sha256_Sigma1 v_h)) (g_sha256_Ch v_h v_a v_b)) 0x766a0abb) t21 in
            let v_t2 := wrapping_add 32 (g_sha256_Sigma0 v_d) (g_sha256_Maj v_d v_e v_f) in
            let v_g := wrapping_add 32 v_g v_t1 in
            let v_c := wrapping_add 32 v_t1 v_t2 in
            Ok (v_c, v_g)) in
          Ok (v_w, v_c, v_g)) in
        let* (v_w, v_b, v_f) := (
          let* t16 := index v_w 6 in
          let* t17 := index v_w 4 in
          let* t18 := index v_w 15 in
          let* t19 := index v_w 7 in
          let* t20 := store v_w 6 (wrapping_add 32 (wrapping_add 32 (wrapping_add 32 t16 (g_sha256_sigma1 t17)) t18) (g_sha256_sigma0 t19)) in
          let v_w := t20 in
          let* (v_b, v_f) := (
            let* t21 := index v_w 6 in
            let v_t1 := wrapping_add 32 (wrapping_add 32 (wrapping_add 32 (wrapping_add 32 v_b (g_sha256_Sigma1 v_g)) (g_sha256_Ch v_g v_h v_a)) 0x81c2c92e) t21 in
            let v_t2 := wrapping_add 32 (g_sha256_Sigma0 v_c) (g_sha256_Maj v_c v_d v_e) in
            let v_f := wrapping_add 32 v_f v_t1 in
            let v_b := wrapping_add 32 v_t1 v_t2 in
            Ok (v_b, v_f)) in
          Ok (v_w, v_b, v_f)) in
        let* (v_w, v_a, v_e) := (
          let* t16 := index v_w 7 in
          let* t17 := index v_w 5 in
          let* t18 := index v_w 0 in
          let* t19 := index v_w 8 in
          let* t20 := store v_w 7 (wrapping_add 32 (wrapping_add 32 (wrapping_add 32 t16 (g_sha256_sigma1 t17)) t18) (g_sha256_sigma0 t19)) in
          let v_w := t20 in
          let* (v_a, v_e) := (
            let* t21 := index v_w 7 in
            let v_t1 := wrapping_add 32 (wrapping_add 32 (wrapping_add 32 (wrapping_add 32 v_a (g_sha256_Sigma1 v_f)) (g_sha256_Ch v_f v_g v_h)) 0x92722c85) t21 in
            let v_t2 := wrapping_add 32 (g_sha256_Sigma0 v_b) (g_sha256_Maj v_b v_c v_d) in
            let v_e := wrapping_add 32 v_e v_t1 in
            let v_a := wrapping_add 32 v_t1 v_t2 in
            Ok (v_a, v_e)) in
          Ok (v_w, v_a, v_e)) in
        let* (v_w, v_d, v_h) := (
          let* t16 := index v_w 8 in
          let* t17 := index v_w 6 in
          let* t18 := index v_w 1 in
          let* t19 := index v_w 9 in
          let* t20 := store v_w 8 (wrapping_add 32 (wrapping_add 32 (wrapping_add 32 t16 (g_sha256_sigma1 t17)) t18) (g_sha256_sigma0 t19)) in
          let v_w := t20 in
          let* (v_d, v_h) := (
            let* t21 := index v_w 8 in
            let v_t1 := wrapping_add 32 (wrapping_add 32 (wrapping_add 32 (wrapping_add 32 v_h (g_sha256_Sigma1 v_e)) (g_sha256_Ch v_e v_f v_g)) 0xa2bfe8a1) t21 in
            let v_t2 := wrapping_add 32 (g_sha256_Sigma0 v_a) (g_sha256_Maj v_a v_b v_c) in
            let v_d := wrapping_add 32 v_d v_t1 in
            let v_h := wrapping_add 32 v_t1 v_t2 in
            Ok (v_d, v_h)) in
          Ok (v_w, v_d, v_h)) in
        let* (v_w, v_c, v_g) := (
          let* t16 := index v_w 9 in
          let* t17 := index v_w 7 in
          let* t18 := index v_w 2 in
          let* t19 := index v_w 10 in
          let* t20 := store v_w 9 (wrapping_add 32 (wrapping_add 32 (wrapping_add 32 t16 (g_sha256_sigma1 t17)) t18) (g_sha256_sigma0 t19)) in
          let v_w := t20 in
          let* (v_c, v_g) := (
            let* t21 := index v_w 9 in
            let v_t1 := wrapping_add 32 (wrapping_add 32 (wrapping_add 32 (wrapping_add 32 v_g (g_sha256_Sigma1 v_d)) (g_sha256_Ch v_d v_e v_f)) 0xa81a664b) t21 in
            let v_t2 := wrapping_add 32 (g_sha256_Sigma0 v_h) (g_sha256_Maj v_h v_a v_b) in
            let v_c := wrapping_add 32 v_c v_t1 in
            let v_g := wrapping_add 32 v_t1 v_t2 in
            Ok (v_c, v_g)) in
          Ok (v_w, v_c, v_g)) in
        let* (v_w, v_b, v_f) := (
          let* t16 := index v_w 10 in
          let* t17 := index v_w 8 in
          let* t18 := index v_w 3 in
          let* t19 := index v_w 11 in
          let* t20 := store v_w 10 (wrapping_add 32 (wrapping_add 32 (wrapping_add 32 t16 (g_sha256_sigma1 t17)) t18) (g_sha256_sigma0 t19)) in
          let v_w := t20 in
          let* (v_b, v_f) := (
            let* t21 := index v_w 10 in
            let v_t1 := wrapping_add 32 (wrapping_add 32 (wrapping_add 32 (wrapping_add 32 v_f (g_sha256_Sigma1 v_c)) (g_sha256_Ch v_c v_d v_e)) 0xc24b8b70) t21 in
            let v_t2 := wrapping_add 32 (g_sha256_Sigma0 v_g) (g_sha256_Maj v_g v_h v_a) in
            let v_b := wrapping_add 32 v_b v_t1 in
            let v_f := wrapping_add 32 v_t1 v_t2 in
            Ok (v_b, v_f)) in
          Ok (v_w, v_b, v_f)) in
        let* (v_w, v_a, v_e) := (
          let* t16 := index v_w 11 in
          let* t17 := index v_w 9 in
          let* t18 := index v_w 4 in
          let* t19 := index v_w 12 in
          let* t20 := store v_w 11 (wrapping_add 32 (wrapping_add 32 (wrapping_add 32 t16 (g_sha256_sigma1 t17)) t18) (g_sha256_sigma0 t19)) in
          let v_w := t20 in
          let* (v_a, v_e) := (
            let* t21 := index v_w 11 in
            let v_t1 := wrapping_add 32 (wrapping_add 32 (wrapping_add 32 (wrapping_add 32 v_e (g_sha256_Sigma1 v_b)) (g_sha256_Ch v_b v_c v_d)) 0xc76c51a3) t21 in
            let v_t2 := wrapping_add 32 (g_sha256_Sigma0 v_f) (g_sha256_Maj v_f v_g v_h) in
            let v_a := wrapping_add 32 v_a v_t1 in
            let v_e := wrapping_add 32 v_t1 v_t2 in
            Ok (v_a, v_e)) in
          Ok (v_w, v_a, v_e)) in
        let* (v_w, v_d, v_h) := (
          let* t16 := index v_w 12 in
          let* t17 := index v_w 10 in
          let* t18 := index v_w 5 in
          let* t19 := index v_w 13 in
          let* t20 := store v_w 12 (wrapping_add 32 (wrapping_add 32 (wrapping_add 32 t16 (g_sha256_sigma1 t17)) t18) (g_sha256_sigma0 t19)) in
          let v_w := t20 in
          let* (v_d, v_h) := (
            let* t21 := index v_w 12 in
            let v_t1 := wrapping_add 32 (wrapping_add 32 (wrapping_add 32 (wrapping_add 32 v_d (g_sha256_Sigma1 v_a)) (g_sha256_Ch v_a v_b v_c)) 0xd192e819) t21 in
            let v_t2 := wrapping_add 32 (g_sha256_Sigma0 v_e) (g_sha256_Maj v_e v_f v_g) in
            let v_h := wrapping_add 32 v_h v_t1 in
            let v_d := wrapping_add 32 v_t1 v_t2 in
            Ok (v_d, v_h)) in
          Ok (v_w, v_d, v_h)) in
        let* (v_w, v_c, v_g) := (
          let* t16 := index v_w 13 in
          let* t17 := index v_w 11 in
          let* t18 := index v_w 6 in
          let* t19 := index v_w 14 in
          let* t20 := store v_w 13 (wrapping_add 32 (wrapping_add 32 (wrapping_add 32 t16 (g_sha256_sigma1 t17)) t18) (g_sha256_sigma0 t19)) in
          let v_w := t20 in
          let* (v_c, v_g) := (
            let* t21 := index v_w 13 in
            let v_t1 := wrapping_add 32 (wrapping_add 32 (wrapping_add 32 (wrapping_add 32 v_c (g_sha256_Sigma1 v_h)) (g_sha256_Ch v_h v_a v_b)) 0xd6990624) t21 in
            let v_t2 := wrapping_add 32 (g_sha256_Sigma0 v_d) (g_sha256_Maj v_d v_e v_f) in
            let v_g := wrapping_add 32 v_g v_t1 in
            let v_c := wrapping_add 32 v_t1 v_t2 in
            Ok (v_c, v_g)) in
          Ok (v_w, v_c, v_g)) in
        let* (v_w, v_b, v_f) := (
          let* t16 := index v_w 14 in
          let* t17 := index v_w 12 in
          let* t18 := index v_w 7 in
          let* t19 := index v_w 15 in
          let* t20 := store v_w 14 (wrapping_add 32 (wrapping_add 32 (wrapping_add 32 t16 (g_sha256_sigma1 t17)) t18) (g_sha256_sigma0 t19)) in
          let v_w := t20 in
          let* (v_b, v_f) := (
            let* t21 := index v_w 14 in
            let v_t1 := wrapping_add 32 (wrapping_add 32 (wrapping_add 32 (wrapping_add 32 v_b (g_sha256_Sigma1 v_g)) (g_sha256_Ch v_g v_h v_a)) 0xf40e3585) t21 in
            let v_t2 := wrapping_add 32 (g_sha256_Sigma0 v_c) (g_sha256_Maj v_c v_d v_e) in
            let v_f := wrapping_add 32 v_f v_t1 in
            let v_b := wrapping_add 32 v_t1 v_t2 in
            Ok (v_b, v_f)) in
          Ok (v_w, v_b, v_f)) in
        let* (v_w, v_a, v_e) := (
          let* t16 := index v_w 15 in
          let* t17 := index v_w 13 in
          let* t18 := index v_w 8 in
          let* t19 := index v_w 0 in
          let* t20 := store v_w 15 (wrapping_add 32 (wrapping_add 32 (wrapping_add 32 t16 (g_sha256_sigma1 t17)) t18) (g_sha256_sigma0 t19)) in
          let v_w := t20 in
          let* (v_a, v_e) := (
            let* t21 := index v_w 15 in
            let v_t1 := wrapping_add 32 (wrapping_add 32 (wrapping_add 32 (wrapping_add 32 v_a (g_sha256_Sigma1 v_f)) (g_sha256_Ch v_f v_g v_h)) 0x106aa070) t21 in
            let v_t2 := wrapping_add 32 (g_sha256_Sigma0 v_b) (g_sha256_Maj v_b v_c v_d) in
            let v_e := wrapping_add 32 v_e v_t1 in
            let v_a := wrapping_add 32 v_t1 v_t2 in
            Ok (v_a, v_e)) in
          Ok (v_w, v_a, v_e)) in
        let* (v_w, v_d, v_h) := (
          let* t16 := index v_w 0 in
          let* t17 := index v_w 14 in
          let* t18 := index v_w 9 in
          let* t19 := index v_w 1 in
          let* t20 := store v_w 0 (wrapping_add 32 (wrapping_add 32 (wrapping_add 32 t16 (g_sha256_sigma1 t17)) t18) (g_sha256_sigma0 t19)) in
          let v_w := t20 in
          let* (v_d, v_h) := (
            let* t21 := index v_w 0 in
            let v_t1 := wrapping_add 32 (wrapping_add 32 (wrapping_add 32 (wrapping_add 32 v_h (g_sha256_Sigma1 v_e)) (g_sha256_Ch v_e v_f v_g)) 0x19a4c116) t21 in
            let v_t2 := wrapping_add 32 (g_sha256_Sigma0 v_a) (g_sha256_Maj v_a v_b v_c) in
            let v_d := wrapping_add 32 v_d v_t1 in
            let v_h := wrapping_add 32 v_t1 v_t2 in
            Ok (v_d, v_h)) in
          Ok (v_w, v_d, v_h)) in
        let* (v_w, v_c, v_g) := (
          let* t16 := index v_w 1 in
          let* t17 := index v_w 15 in
          let* t18 := index v_w 10 in
          let* t19 := index v_w 2 in
          let* t20 := store v_w 1 (wrapping_add 32 (wrapping_add 32 (wrapping_add 32 t16 (g_sha256_sigma1 t17)) t18) (g_sha256_sigma0 t19)) in
          let v_w := t20 in
          let* (v_c, v_g) := (
            let* t21 := index v_w 1 in
            let v_t1 := wrapping_add 32 (wrapping_add 32 (wrapping_add 32 (wrapping_add 32 v_g (g_sha256_Sigma1 v_d)) (g_sha256_Ch v_d v_e v_f)) 0x1e376c08) t21 in
            let v_t2 := wrapping_add 32 (g_sha256_Sigma0 v_h) (g_sha256_Maj v_h v_a v_b) in
            let v_c := wrapping_add 32 v_c v_t1 in
            let v_g := wrapping_add 32 v_t1 v_t2 in
            Ok (v_c, v_g)) in
          Ok (v_w, v_c, v_g)) in
        let* (v_w, v_b, v_f) := (
          let* t16 := index v_w 2 in
          let* t17 := index v_w 0 in
          let* t18 := index v_w 11 in
          let* t19 := index v_w 3 in
          let* t20 := store v_w 2 (wrapping_add 32 (wrapping_add 32 (wrapping_add 32 t16 (g_sha256_sigma1 t17)) t18) (g_sha256_sigma0 t19)) in
          let v_w := t20 in
          let* (v_b, v_f) := (
            let* t21 := index v_w 2 in
            let v_t1 := wrapping_add 32 (wrapping_add 32 (wrapping_add 32 (wrapping_add 32 v_f (g_sha256_Sigma1 v_c)) (g_sha256_Ch v_c v_d v_e)) 0x2748774c) t21 in
            let v_t2 := wrapping_add 32 (g_sha256_Sigma0 v_g) (g_sha256_Maj v_g v_h v_a) in
            let v_b := wrapping_add 32 v_b v_t1 in
            let v_f := wrapping_add 32 v_t1 v_t2 in
            Ok (v_b, v_f)) in
          Ok (v_w, v_b, v_f)) in
        let* (v_w, v_a, v_e) := (
          let* t16 := index v_w 3 in
          let* t17 := index v_w 1 in
          let* t18 := index v_w 12 in
          let* t19 := index v_w 4 in
          let* t20 := store v_w 3 (wrapping_add 32 (wrapping_add 32 (wrapping_add 32 t16 (g_sha256_sigma1 t17)) t18) (g_sha256_sigma0 t19)) in
          let v_w := t20 in
          let* (v_a, v_e) := (
            let* t21 := index v_w 3 in
            let v_t1 := wrapping_add 32 (wrapping_add 32 (wrapping_add 32 (wrapping_add 32 v_e (g_sha256_Sigma1 v_b)) (g_sha256_Ch v_b v_c v_d)) 0x34b0bcb5) t21 in
            let v_t2 := wrapping_add 32 (g_sha256_Sigma0 v_f) (g_sha256_Maj v_f v_g v_h) in
            let v_a := wrapping_add 32 v_a v_t1 in
            let v_e := wrapping_add 32 v_t1 v_t2 in
            Ok (v_a, v_e)) in
          Ok (v_w, v_a, v_e)) in
        let* (v_w, v_d, v_h) := (
          let* t16 := index v_w 4 in
          let* t17 := index v_w 2 in
          let* t18 := index v_w 13 in
          let* t19 := index v_w 5 in
          let* t20 := store v_w 4 (wrapping_add 32 (wrapping_add 32 (wrapping_add 32 t16 (g_sha256_sigma1 t17)) t18) (g_sha256_sigma0 t19)) in
          let v_w := t20 in
          let* (v_d, v_h) := (
            let* t21 := index v_w 4 in
            let v_t1 := wrapping_add 32 (wrapping_add 32 (wrapping_add 32 (wrapping_add 32 v_d (g_sha256_Sigma1 v_a)) (g_sha256_Ch v_a v_b v_c)) 0x391c0cb3) t21 in
            let v_t2 := wrapping_add 32 (g_sha256_Sigma0 v_e) (g_sha256_Maj v_e v_f v_g) in
            let v_h := wrapping_add 32 v_h v_t1 in
            let v_d := wrapping_add 32 v_t1 v_t2 in
            Ok (v_d, v_h)) in
          Ok (v_w, v_d, v_h)) in
        let* (v_w, v_c, v_g) := (
          let* t16 := index v_w 5 in
          let* t17 := index v_w 3 in
          let* t18 := index v_w 14 in
          let* t19 := index v_w 6 in
          let* t20 := store v_w 5 (wrapping_add 32 (wrapping_add 32 (wrapping_add 32 t16 (g_sha256_sigma1 t17)) t18) (g_sha256_sigma0 t19)) in
          let v_w := t20 in
          let* (v_c, v_g) := (
            let* t21 := index v_w 5 in
            let v_t1 := wrapping_add 32 (wrapping_add 32 (wrapping_add 32 (wrapping_add 32 v_c (g_sha256_Sigma1 v_h)) (g_sha256_Ch v_h v_a v_b)) 0x4ed8aa4a) t21 in
            let v_t2 := wrapping_add 32 (g_sha256_Sigma0 v_d) (g_sha256_Maj v_d v_e v_f) in
            let v_g := wrapping_add 32 v_g v_t1 in
            let v_c := wrapping_add 32 v_t1 v_t2 in
            Ok (v_c, v_g)) in
          Ok (v_w, v_c, v_g)) in
        let* (v_w, v_b, v_f) := (
          let* t16 := index v_w 6 in
          let* t17 := index v_w 4 in
          let* t18 := index v_w 15 in
          let* t19 := index v_w 7 in
          let* t20 := store v_w 6 (wrapping_add 32 (wrapping_add 32 (wrapping_add 32 t16 (g_sha256_sigma1 t17)) t18) (g_sha256_sigma0 t19)) in
          let v_w := t20 in
          let* (v_b, v_f) := (
            let* t21 := index v_w 6 in
            let v_t1 := wrapping_add 32 (wrapping_add 32 (wrapping_add 32 (wrapping_add 32 v_b (g_sha256_Sigma1 v_g)) (g_sha256_Ch v_g v_h v_a)) 0x5b9cca4f) t21 in
            let v_t2 := wrapping_add 32 (g_sha256_Sigma0 v_c) (g_sha256_Maj v_c v_d v_e) in
            let v_f := wrapping_add 32 v_f v_t1 in
            let v_b := wrapping_add 32 v_t1 v_t2 in
            Ok (v_b, v_f)) in
          Ok (v_w, v_b, v_f)) in
        let* (v_w, v_a, v_e) := (
          let* t16 := index v_w 7 in
          let* t17 := index v_w 5 in
          let* t18 := index v_w 0 in
          let* t19 := index v_w 8 in
          let* t20 := store v_w 7 (wrapping_add 32 (wrapping_add 32 (wrapping_add 32 t16 (g_sha256_sigma1 t17)) t18) (g_sha256_sigma0 t19)) in
          let v_w := t20 in
          let* (v_a, v_e) := (
            let* t21 := index v_w 7 in
            let v_t1 := wrapping_add 32 (wrapping_add 32 (wrapping_add 32 (wrapping_add 32 v_a (g_sha256_Sigma1 v_f)) (g_sha256_Ch v_f v_g v_h)) 0x682e6ff3) t21 in
            let v_t2 := wrapping_add 32 (g_sha256_Sigma0 v_b) (g_sha256_Maj v_b v_c v_d) in
            let v_e := wrapping_add 32 v_e v_t1 in
            let v_a := wrapping_add 32 v_t1 v_t2 in
            Ok (v_a, v_e)) in
          Ok (v_w, v_a, v_e)) in
        let* (v_w, v_d, v_h) := (
          let* t16 := index v_w 8 in
          let* t17 := index v_w 6 in
          let* t18 := index v_w 1 in
          let* t19 := index v_w 9 in
          let* t20 := store v_w 8 (wrapping_add 32 (wrapping_add 32 (wrapping_add 32 t16 (g_sha256_sigma1 t17)) t18) (g_sha256_sigma0 t19)) in
          let v_w := t20 in
          let* (v_d, v_h) := (
            let* t21 := index v_w 8 in
            let v_t1 := wrapping_add 32 (wrapping_add 32 (wrapping_add 32 (wrapping_add 32 v_h (g_sha256_Sigma1 v_e)) (g_sha256_Ch v_e v_f v_g)) 0x748f82ee) t21 in
            let v_t2 := wrapping_add 32 (g_sha256_Sigma0 v_a) (g_sha256_Maj v_a v_b v_c) in
            let v_d := wrapping_add 32 v_d v_t1 in
            let v_h := wrapping_add 32 v_t1 v_t2 in
            Ok (v_d, v_h)) in
          Ok (v_w, v_d, v_h)) in
        let* (v_w, v_c, v_g) := (
          let* t16 := index v_w 9 in
          let* t17 := index v_w 7 in
          let* t18 := index v_w 2 in
          let* t19 := index v_w 10 in
          let* t20 := store v_w 9 (wrapping_add 32 (wrapping_add 32 (wrapping_add 32 t16 (g_sha256_sigma1 t17)) t18) (g_sha256_sigma0 t19)) in
          let v_w := t20 in
          let* (v_c, v_g) := (
            let* t21 := index v_w 9 in
            let v_t1 := wrapping_add 32 (wrapping_add 32 (wrapping_add 32 (wrapping_add 32 v_g (g_sha256_Sigma1 v_d)) (g_sha256_Ch v_d v_e v_f)) 0x78a5636f) t21 in
            let v_t2 := wrapping_add 32 (g_sha256_Sigma0 v_h) (g_sha256_Maj v_h v_a v_b) in
            let v_c := wrapping_add 32 v_c v_t1 in
            let v_g := wrapping_add 32 v_t1 v_t2 in
            Ok (v_c, v_g)) in
          Ok (v_w, v_c, v_g)) in
        let* (v_w, v_b, v_f) := (
          let* t16 := index v_w 10 in
          let* t17 := index v_w 8 in
          let* t18 := index v_w 3 in
          let* t19 := index v_w 11 in
          let* t20 := store v_w 10 (wrapping_add 32 (wrapping_add 32 (wrapping_add 32 t16 (g_sha256_sigma1 t17)) t18) (g_sha256_sigma0 t19)) in
          let v_w := t20 in
          let* (v_b, v_f) := (
            let* t21 := index v_w 10 in
            let v_t1 := wrapping_add 32 (wrapping_add 32 (wrapping_add 32 (wrapping_add 32 v_f (g_sha256_Sigma1 v_c)) (g_sha256_Ch v_c v_d v_e)) 0x84c87814) t21 in
            let v_t2 := wrapping_add 32 (g_sha256_Sigma0 v_g) (g_sha256_Maj v_g v_h v_a) in
            let v_b := wrapping_add 32 v_b v_t1 in
            let v_f := wrapping_add 32 v_t1 v_t2 in
            Ok (v_b, v_f)) in
          Ok (v_w, v_b, v_f)) in
        let* (v_w, v_a, v_e) := (
          let* t16 := index v_w 11 in
          let* t17 := index v_w 9 in
          let* t18 := index v_w 4 in
          let* t19 := index v_w 12 in
          let* t20 := store v_w 11 (wrapping_add 32 (wrapping_add 32 (wrapping_add 32 t16 (g_sha256_sigma1 t17)) t18) (g_sha256_sigma0 t19)) in
          let v_w := t20 in
          let* (v_a, v_e) := (
            let* t21 := index v_w 11 in
            let v_t1 := wrapping_add 32 (wrapping_add 32 (wrapping_add 32 (wrapping_add 32 v_e (g_sha256_Sigma1 v_b)) (g_sha256_Ch v_b v_c v_d)) 0x8cc70208) t21 in
            let v_t2 := wrapping_add 32 (g_sha256_Sigma0 v_f) (g_sha256_Maj v_f v_g v_h) in
            let v_a := wrapping_add 32 v_a v_t1 in
            let v_e := wrapping_add 32 v_t1 v_t2 in
            Ok (v_a, v_e)) in
          Ok (v_w, v_a, v_e)) in
        let* (v_w, v_d, v_h) := (
          let* t16 := index v_w 12 in
          let* t17 := index v_w 10 in
          let* t18 := index v_w 5 in
          let* t19 := index v_w 13 in
          let* t20 := store v_w 12 (wrapping_add 32 (wrapping_add 32 (wrapping_add 32 t16 (g_sha256_sigma1 t17)) t18) (g_sha256_sigma0 t19)) in
          let v_w := t20 in
          let* (v_d, v_h) := (
            let* t21 := index v_w 12 in
            let v_t1 := wrapping_add 32 (wrapping_add 32 (wrapping_add 32 (wrapping_add 32 v_d (g_sha256_Sigma1 v_a)) (g_sha256_Ch v_a v_b v_c)) 0x90befffa) t21 in
            let v_t2 := wrapping_add 32 (g_sha256_Sigma0 v_e) (g_sha256_Maj v_e v_f v_g) in
            let v_h := wrapping_add 32 v_h v_t1 in
            let v_d := wrapping_add 32 v_t1 v_t2 in
            Ok (v_d, v_h)) in
          Ok (v_w, v_d, v_h)) in
        let* (v_w, v_c, v_g) := (
          let* t16 := index v_w 13 in
          let* t17 := index v_w 11 in
          let* t18 := index v_w 6 in
          let* t19 := index v_w 14 in
          let* t20 := store v_w 13 (wrapping_add 32 (wrapping_add 32 (wrapping_add 32 t16 (g_sha256_sigma1 t17)) t18) (g_sha256_sigma0 t19)) in
          let v_w := t20 in
          let* (v_c, v_g) := (
            let* t21 := index v_w 13 in
            let v_t1 := wrapping_add 32 (wrapping_add 32 (wrapping_add 32 (wrapping_add 32 v_c (g_sha256_Sigma1 v_h)) (g_sha256_Ch v_h v_a v_b)) 0xa4506ceb) t21 in
            let v_t2 := wrapping_add 32 (g_sha256_Sigma0 v_d) (g_sha256_Maj v_d v_e v_f) in
            let v_g := wrapping_add 32 v_g v_t1 in
            let v_c := wrapping_add 32 v_t1 v_t2 in
            Ok (v_c, v_g)) in
          Ok (v_w, v_c, v_g)) in
        let* (v_w, v_b, v_f) := (
          let* t16 := index v_w 14 in
          let* t17 := index v_w 12 in
          let* t18 := index v_w 7 in
          let* t19 := index v_w 15 in
          let* t20 := store v_w 14 (wrapping_add 32 (wrapping_add 32 (wrapping_add 32 t16 (g_sha256_sigma1 t17)) t18) (g_sha256_sigma0 t19)) in
          let v_w := t20 in
          let* (v_b, v_f) := (
            let* t21 := index v_w 14 in
            let v_t1 := wrapping_add 32 (wrapping_add 32 (wrapping_add 32 (wrapping_add 32 v_b (g_sha256_Sigma1 v_g)) (g_sha256_Ch v_g v_h v_a)) 0xbef9a3f7) t21 in
            let v_t2 := wrapping_add 32 (g_sha256_Sigma0 v_c) (g_sha256_Maj v_c v_d v_e) in
            let v_f := wrapping_add 32 v_f v_t1 in
            let v_b := wrapping_add 32 v_t1 v_t2 in
            Ok (v_b, v_f)) in
          Ok (v_w, v_b, v_f)) in
        let* (v_w, v_a, v_e) := (
          let* t16 := index v_w 15 in
          let* t17 := index v_w 13 in
          let* t18 := index v_w 8 in
          let* t19 := index v_w 0 in
          let* t20 := store v_w 15 (wrapping_add 32 (wrapping_add 32 (wrapping_add 32 t16 (g_sha256_sigma1 t17)) t18) (g_sha256_sigma0 t19)) in
          let v_w := t20 in
          let* (v_a, v_e) := (
            let* t21 := index v_w 15 in
            let v_t1 := wrapping_add 32 (wrapping_add 32 (wrapping_add 32 (wrapping_add 32 v_a (g_sha256_Sigma1 v_f)) (g_sha256_Ch v_f v_g v_h)) 0xc67178f2) t21 in
            let v_t2 := wrapping_add 32 (g_sha256_Sigma0 v_b) (g_sha256_Maj v_b v_c v_d) in
            let v_e := wrapping_add 32 v_e v_t1 in
            let v_a := wrapping_add 32 v_t1 v_t2 in
            Ok (v_a, v_e)) in
          Ok (v_w, v_a, v_e)) in
        let* t16 := index v_state 0 in
        let* t17 := store v_state 0 (wrapping_add 32 t16 v_a) in
        let v_state := t17 in
        let* t18 := index v_state 1 in
        let* t19 := store v_state 1 (wrapping_add 32 t18 v_b) in
        let v_state := t19 in
        let* t20 := index v_state 2 in
        let* t21 := store v_state 2 (wrapping_add 32 t20 v_c) in
        let v_state := t21 in
        let* t22 := index v_state 3 in
        let* t23 := store v_state 3 (wrapping_add 32 t22 v_d) in
        let v_state := t23 in
        let* t24 := index v_state 4 in
        let* t25 := store v_state 4 (wrapping_add 32 t24 v_e) in
        let v_state := t25 in
        let* t26 := index v_state 5 in
        let* t27 := store v_state 5 (wrapping_add 32 t26 v_f) in
        let v_state := t27 in
        let* t28 := index v_state 6 in
        let* t29 := store v_state 6 (wrapping_add 32 t28 v_g) in
        let v_state := t29 in
        let* t30 := index v_state 7 in
        let* t31 := store v_state 7 (wrapping_add 32 t30 v_h) in
        let v_state := t31 in
        g_sha256_Midstate_const_hash_fast_loop1 fuel cfg v_bytes v_finalize v_num_chunks v_state v_chunk
    end
  else
    Ok (v_state, v_chunk).

Fixpoint g_sha256_Midstate_const_hash_fast_loop3 (fuel : nat) (cfg : config) (v_state : (list N)) (v_output : (list byte)) (v_i : N) {struct fuel} : res ((list byte) * N) :=
  if v_i <? 8 then
    match fuel with
    | O => Panic POutOfFuel
    | S fuel =>
      let* t3 := usize_add cfg v_i 0 in
      let* t4 := index v_state t3 in
      let* t5 := usize_mul cfg v_i 4 in
      let* t6 := usize_add cfg t5 0 in
      let* t7 := store v_output t6 (u8 (N.shiftr t4 24)) in
      let v_output := t7 in
      let* t8 := usize_add cfg v_i 0 in
      let* t9 := index v_state t8 in
      let* t10 := usize_mul cfg v_i 4 in
      let* t11 := usize_add cfg t10 1 in
      let* t12 := store v_output t11 (u8 (N.shiftr t9 16)) in
      let v_output := t12 in
      let* t13 := usize_add cfg v_i 0 in
      let* t14 := index v_state t13 in
      let* t15 := usize_mul cfg v_i 4 in
      let* t16 := usize_add cfg t15 2 in
      let* t17 := store v_output t16 (u8 (N.shiftr t14 8)) in
      let v_output := t17 in
      let* t18 := usize_add cfg v_i 0 in
      let* t19 := index v_state t18 in
      let* t20 := usize_mul cfg v_i 4 in
      let* t21 := usize_add cfg t20 3 in
      let* t22 := store v_output t21 (u8 (N.shiftr t19 0)) in
      let v_output := t22 in
      let* t23 := usize_add cfg v_i 1 in
      let v_i := t23 in
      g_sha256_Midstate_const_hash_fast_loop3 fuel cfg v_state v_output v_i
    end
  else
    Ok (v_output, v_i).

Definition g_sha256_Midstate_const_hash_fast (cfg : config) (v_bytes : (list byte)) (v_finalize : bool) : res ((list byte)) :=
  let v_state := [0x6a09e667; 0xbb67ae85; 0x3c6ef372; 0xa54ff53a; 0x510e527f; 0x9b05688c; 0x1f83d9ab; 0x5be0cd19] in
  let* t1 := usize_add cfg (len v_bytes) 9 in
  let* t2 := usize_add cfg t1 63 in
  let v_num_chunks := t2 / 64 in
  let v_chunk := 0 in
  let* (v_state, v_chunk) := g_sha256_Midstate_const_hash_fast_loop1 (N.to_nat v_num_chunks) cfg v_bytes v_finalize v_num_chunks v_state v_chunk in
  let v_output := array x00 32 in
  let v_i := 0 in
  let* (v_output, v_i) := g_sha256_Midstate_const_hash_fast_loop3 8%nat cfg v_state v_output v_i in
  Ok v_output.

(** const_hash, src/sha256.rs:279-425; feature small-hash on *)
Fixpoint g_sha256_Midstate_const_hash_small_loop2 (fuel : nat) (cfg : config) (v_bytes : (list byte)) (v_offset : N) (v_buf : (list byte)) (v_i : N) {struct fuel} : res ((list byte) * N) :=
  let* t7 := usize_add cfg v_offset v_i in
  if t7 <? (len v_bytes) then
    match fuel with
    | O => Panic POutOfFuel
    | S fuel =>
      let* t8 := usize_add cfg v_offset v_i in
      let* t9 := index v_bytes t8 in
      let* t10 := store v_buf v_i t9 in
      let v_buf := t10 in
      let* t11 := usize_add cfg v_i 1 in
      let v_i := t11 in
      g_sha256_Midstate_const_hash_small_loop2 fuel cfg v_bytes v_offset v_buf v_i
    end
  else
    Ok (v_buf, v_i).

Fixpoint g_sha256_Midstate_const_hash_small_loop1 (fuel : nat) (cfg : config) (v_bytes : (list byte)) (v_finalize : bool) (v_num_chunks : N) (v_state : (list N)) (v_chunk : N) {struct fuel} : res ((list N) * N) :=
  if v_chunk <? v_num_chunks then
    match fuel with
    | O => Panic POutOfFuel
    | S fuel =>
      let* t3 := (
        if negb v_finalize then
          let* t3 := usize_add cfg v_chunk 1 in
          Ok (t3 =? v_num_chunks)
        else
          Ok false) in
      if t3 then
        Ok (v_state, v_chunk)
      else
        let* t4 := usize_mul cfg v_chunk 64 in
        let* t5 := usize_add cfg t4 64 in
        let* v_w := (
          if t5 <=? (len v_bytes) then
            let* t6 := usize_mul cfg v_chunk 64 in
            g_sha256_Midstate_copy_w cfg v_bytes t6
          else
            let v_buf := array x00 64 in
            let v_i := 0 in
            let* v_offset := usize_mul cfg v_chunk 64 in
            let* (v_buf, v_i) := g_sha256_Midstate_const_hash_small_loop2 (length v_bytes) cfg v_bytes v_offset v_buf v_i in
            let* t7 := (
              if ((len v_bytes) mod 64) <=? 55 then
                Ok true
              else
                let* t7 := usize_add cfg v_chunk 2 in
                Ok (t7 =? v_num_chunks)) in
            let* v_buf := (
              if t7 then
                let* t8 := store v_buf v_i x80 in
                let v_buf := t8 in
                Ok v_buf
              else
                Ok v_buf) in
            let* t8 := usize_add cfg v_chunk 1 in
            let* v_buf := (
              if t8 =? v_num_chunks then
                let* v_bit_len := checked_mul cfg 64 (len v_bytes) 8 in
                let* t10 := store v_buf 56 (u8 (N.land (N.shiftr v_bit_len 56) 255)) in
                let v_buf := t10 in
                let* t11 := store v_buf 57 (u8 (N.land (N.shiftr v_bit_len 48) 255)) in
                let v_buf := t11 in
                let* t12 := store v_buf 58 (u8 (N.land (N.shiftr v_bit_len 40) 255)) in
                let v_buf := t12 in
                let* t13 := store v_buf 59 (u8 (N.land (N.shiftr v_bit_len 32) 255)) in
                let v_buf := t13 in
                let* t14 := store v_buf 60 (u8 (N.land (N.shiftr v_bit_len 24) 255)) in
                let v_buf := t14 in
                let* t15 := store v_buf 61 (u8 (N.land (N.shiftr v_bit_len 16) 255)) in
                let v_buf := t15 in
                let* t16 := store v_buf 62 (u8 (N.land (N.shiftr v_bit_len 8) 255)) in
                let v_buf := t16 in
                let* t17 := store v_buf 63 (u8 (N.land (N.shiftr v_bit_len 0) 255)) in
                let v_buf := t17 in
                Ok v_buf
              else
                Ok v_buf) in
            g_sha256_Midstate_copy_w cfg v_buf 0) in
        let* t7 := usize_add cfg v_chunk 1 in
        let v_chunk := t7 in
        let* v_a := index v_state 0 in
        let* v_b := index v_state 1 in
        let* v_c := index v_state 2 in
        let* v_d := index v_state 3 in
        let* v_e := index v_state 4 in
        let* v_f := index v_state 5 in
        let* v_g := index v_state 6 in
        let* v_h := index v_state 7 in
        let* (v_d, v_h) := (
          let* t16 := index v_w 0 in
          let v_updates := g_sha256_small_hash_round v_a v_b v_c v_d v_e v_f v_g v_h 0x428a2f98 t16 in
          let '(t17, _) := v_updates in
          let v_d := t17 in
          let '(_, t18) := v_updates in
          let v_h := t18 in
          Ok (v_d, v_h)) in
        let* (v_c, v_g) := (
          let* t16 := index v_w 1 in
          let v_updates := g_sha256_small_hash_round v_h v_a v_b v_c v_d v_e v_f v_g 0x71374491 t16 in
          let '(t17, _) := v_updates in
          let v_c := t17 in
          let '(_, t18) := v_updates in
          let v_g := t18 in
          Ok (v_c, v_g)) in
        let* (v_b, v_f) := (
          let* t16 := index v_w 2 in
          let v_updates := g_sha256_small_hash_round v_g v_h v_a v_b v_c v_d v_e v_f 0xb5c0fbcf t16 in
          let '(t17, _) := v_updates in
          let v_b := t17 in
          let '(_, t18) := v_updates in
          let v_f := t18 in
          Ok (v_b, v_f)) in
        let* (v_a, v_e) := (
          let* t16 := index v_w 3 in
          let v_updates := g_sha256_small_hash_round v_f v_g v_h v_a v_b v_c v_d v_e 0xe9b5dba5 t16 in
          let '(t17, _) := v_updates in
          let v_a := t17 in
          let '(_, t18) := v_updates in
          let v_e := t18 in
          Ok (v_a, v_e)) in
        let* (v_d, v_h) := (
          let* t16 := index v_w 4 in
          let v_updates := g_sha256_small_hash_round v_e v_f v_g v_h v_a v_b v_c v_d 0x3956c25b t16 in
          let '(t17, _) := v_updates in
          let v_h := t17 in
          let '(_, t18) := v_updates in
          let v_d := t18 in
          Ok (v_d, v_h)) in
        let* (v_c, v_g) := (
          let* t16 := index v_w 5 in
          let v_updates := g_sha256_small_hash_round v_d v_e v_f v_g v_h v_a v_b v_c 0x59f111f1 t16 in
          let '(t17, _) := v_updates in
          let v_g := t17 in
          let '(_, t18) := v_updates in
          let v_c := t18 in
          Ok (v_c, v_g)) in
        let* (v_b, v_f) := (
          let* t16 := index v_w 6 in
          let v_updates := g_sha256_small_hash_round v_c v_d v_e v_f v_g v_h v_a v_b 0x923f82a4 t16 in
          let '(t17, _) := v_updates in
          let v_f := t17 in
          let '(_, t18) := v_updates in
          let v_b := t18 in
          Ok (v_b, v_f)) in
        let* (v_a, v_e) := (
          let* t16 := index v_w 7 in
          let v_updates := g_sha256_small_hash_round v_b v_c v_d v_e v_f v_g v_h v_a 0xab1c5ed5 t16 in
          let '(t17, _) := v_updates in
          let v_e := t17 in
          let '(_, t18) := v_updates in
          let v_a := t18 in
          Ok (v_a, v_e)) in
        let* (v_d, v_h) := (
          let* t16 := index v_w 8 in
          let v_updates := g_sha256_small_hash_round v_a v_b v_c v_d v_e v_f v_g v_h 0xd807aa98 t16 in
          let '(t17, _) := v_updates in
          let v_d := t17 in
          let '(_, t18) := v_updates in
          let v_h := t18 in
          Ok (v_d, v_h)) in
        let* (v_c, v_g) := (
          let* t16 := index v_w 9 in
          let v_updates := g_sha256_small_hash_round v_h v_a v_b v_c v_d v_e v_f v_g 0x12835b01 t16 in
          let '(t17, _) := v_updates in
          let v_c := t17 in
          let '(_, t18) := v_updates in
          let v_g := t18 in
          Ok (v_c, v_g)) in
        let* (v_b, v_f) := (
          let* t16 := index v_w 10 in
          let v_updates := g_sha256_small_hash_round v_g v_h v_a v_b v_c v_d v_e v_f 0x243185be t16 in
          let '(t17, _) := v_updates in
          let v_b := t17 in
          let '(_, t18) := v_updates in
          let v_f := t18 in
          Ok (v_b, v_f)) in
        let* (v_a, v_e) := (
          let* t16 := index v_w 11 in
          let v_updates := g_sha256_small_hash_round v_f v_g v_h v_a v_b v_c v_d v_e 0x550c7dc3 t16 in
          let '(t17, _) := v_updates in
          let v_a := t17 in
          let '(_, t18) := v_updates in
          let v_e := t18 in
          Ok (v_a, v_e)) in
        let* (v_d, v_h) := (
          let* t16 := index v_w 12 in
          let v_updates := g_sha256_small_hash_round v_e v_f v_g v_h v_a v_b v_c v_d 0x72be5d74 t16 in
          let '(t17, _) := v_updates in
          let v_h := t17 in
          let '(_, t18) := v_updates in
          let v_d := t18 in
          Ok (v_d, v_h)) in
        let* (v_c, v_g) := (
          let* t16 := index v_w 13 in
          let v_updates := g_sha256_small_hash_round v_d v_e v_f v_g v_h v_a v_b v_c 0x80deb1fe t16 in
          let '(t17, _) := v_updates in
          let v_g := t17 in
          let '(_, t18) := v_updates in
          let v_c := t18 in
          Ok (v_c, v_g)) in
        let* (v_b, v_f) := (
          let* t16 := index v_w 14 in
          let v_updates := g_sha256_small_hash_round v_c v_d v_e v_f v_g v_h v_a v_b 0x9bdc06a7 t16 in
          let '(t17, _) := v_updates in
          let v_f := t17 in
          let '(_, t18) := v_updates in
          let v_b := t18 in
          Ok (v_b, v_f)) in
        let* (v_a, v_e) := (
          let* t16 := index v_w 15 in
          let v_updates := g_sha256_small_hash_round v_b v_c v_d v_e v_f v_g v_h v_a 0xc19bf174 t16 in
          let '(t17, _) := v_updates in
          let v_e := t17 in
          let '(_, t18) := v_updates in
          let v_a := t18 in
          Ok (v_a, v_e)) in
        let* (v_w, v_d, v_h) := (
          let* t16 := index v_w 0 in
          let* t17 := index v_w 14 in
          let* t18 := index v_w 9 in
          let* t19 := index v_w 1 in
          let v_updates := g_sha256_small_hash_later_round v_a v_b v_c v_d v_e v_f v_g v_h 0xe49b69c1 t16 t17 t18 t19 in
          let '(t20, _, _) := v_updates in
          let v_d := t20 in
          let '(_, t21, _) := v_updates in
          let v_h := t21 in
          let '(_, _, t22) := v_updates in
          let* t23 := store v_w 0 t22 in
          let v_w := t23 in
          Ok (v_w, v_d, v_h)) in
        let* (v_w, v_c, v_g) := (
          let* t16 := index v_w 1 in
          let* t17 := index v_w 15 in
          let* t18 := index v_w 10 in
          let* t19 := index v_w 2 in
          let v_updates := g_sha256_small_hash_later_round v_h v_a v_b v_c v_d v_e v_f v_g 0xefbe4786 t16 t17 t18 t19 in
          let '(t20, _, _) := v_updates in
          let v_c := t20 in
          let '(_, t21, _) := v_updates in
          let v_g := t21 in
          let '(_, _, t22) := v_updates in
          let* t23 := store v_w 1 t22 in
          let v_w := t23 in
          Ok (v_w, v_c, v_g)) in
        let* (v_w, v_b, v_f) := (
          let* t16 := index v_w 2 in
          let* t17 := index v_w 0 in
          let* t18 := index v_w 11 in
          let* t19 := index v_w 3 in
          let v_updates := g_sha256_small_hash_later_round v_g v_h v_a v_b v_c v_d v_e v_f 0xfc19dc6 t16 t17 t18 t19 in
          let '(t20, _, _) := v_updates in
          let v_b := t20 in
          let '(_, t21, _) := v_updates in
          let v_f := t21 in
          let '(_, _, t22) := v_updates in
          let* t23 := store v_w 2 t22 in
          let v_w := t23 in
          Ok (v_w, v_b, v_f)) in
        let* (v_w, v_a, v_e) := (
          let* t16 := index v_w 3 in
          let* t17 := index v_w 1 in
          let* t18 := index v_w 12 in
          let* t19 := index v_w 4 in
          let v_updates := g_sha256_small_hash_later_round v_f v_g v_h v_a v_b v_c v_d v_e 0x240ca1cc t16 t17 t18 t19 in
          let '(t20, _, _) := v_updates in
          let v_a := t20 in
          let '(_, t21, _) := v_updates in
          let v_e := t21 in
          let '(_, _, t22) := v_updates in
          let* t23 := store v_w 3 t22 in
          let v_w := t23 in
          Ok (v_w, v_a, v_e)) in
        let* (v_w, v_d, v_h) := (
          let* t16 := index v_w 4 in
          let* t17 := index v_w 2 in
          let* t18 := index v_w 13 in
          let* t19 := index v_w 5 in
          let v_updates := g_sha256_small_hash_later_round v_e v_f v_g v_h v_a v_b v_c v_d 0x2de92c6f t16 t17 t18 t19 in
          let '(t20, _, _) := v_updates in
          let v_h := t20 in
          let '(_, t21, _) := v_updates in
          let v_d := t21 in
          let '(_, _, t22) := v_updates in
          let* t23 := store v_w 4 t22 in
          let v_w := t23 in
          Ok (v_w, v_d, v_h)) in
        let* (v_w, v_c, v_g) := (
          let* t16 := index v_w 5 in
          let* t17 := index v_w 3 in
          let* t18 := index v_w 14 in
          let* t19 := index v_w 6 in
          let v_updates := g_sha256_small_hash_later_round v_d v_e v_f v_g v_h v_a v_b v_c 0x4a7484aa t16 t17 t18 t19 in
          let '(t20, _, _) := v_updates in
          let v_g := t20 in
          let '(_, t21, _) := v_updates in
          let v_c := t21 in
          let '(_, _, t22) := v_updates in
          let* t23 := store v_w 5 t22 in
          let v_w := t23 in
          Ok (v_w, v_c, v_g)) in
        let* (v_w, v_b, v_f) := (
          let* t16 := index v_w 6 in
          let* t17 := index v_w 4 in
          let* t18 := index v_w 15 in
          let* t19 := index v_w 7 in
          let v_updates := g_sha256_small_hash_later_round v_c v_d v_e v_f v_g v_h v_a v_b 0x5cb0a9dc t16 t17 t18 t19 in
          let '(t20, _, _) := v_updates in
          let v_f := t20 in
          let '(_, t21, _) := v_updates in
          let v_b := t21 in
          let '(_, _, t22) := v_updates in
          let* t23 := store v_w 6 t22 in
          let v_w := t23 in
          Ok (v_w, v_b, v_f)) in
        let* (v_w, v_a, v_e) := (
          let* t16 := index v_w 7 in
          let* t17 := index v_w 5 in
          let* t18 := index v_w 0 in
          let* t19 := index v_w 8 in
          let v_updates := g_sha256_small_hash_later_round v_b v_c v_d v_e v_f v_g v_h v_a 0x76f988da t16 t17 t18 t19 in
          let '(t20, _, _) := v_updates in
          let v_e := t20 in
          let '(_, t21, _) := v_updates in
          let v_a := t21 in
          let '(_, _, t22) := v_updates in
          let* t23 := store v_w 7 t22 in
          let v_w := t23 in
          Ok (v_w, v_a, v_e)) in
        let* (v_w, v_d, v_h) := (
          let* t16 := index v_w 8 in
          let* t17 := index v_w 6 in
          let* t18 := index v_w 1 in
          let* t19 := index v_w 9 in
          let v_updates := g_sha256_small_hash_later_round v_a v_b v_c v_d v_e v_f v_g v_h 0x983e5152 t16 t17 t18 t19 in
          let '(t20, _, _) := v_updates in
          let v_d := t20 in
          let '(_, t21, _) := v_updates in
          let v_h := t21 in
          let '(_, _, t22) := v_updates in
          let* t23 := store v_w 8 t22 in
          let v_w := t23 in
          Ok (v_w, v_d, v_h)) in
        let* (v_w, v_c, v_g) := (
          let* t16 := index v_w 9 in
          let* t17 := index v_w 7 in
          let* t18 := index v_w 2 in
          let* t19 := index v_w 10 in
          let v_updates := g_sha256_small_hash_later_round v_h v_a v_b v_c v_d v_e v_f v_g 0xa831c66d t16 t17 t18 t19 in
          let '(t20, _, _) := v_updates in
          let v_c := t20 in
          let '(_, t21, _) := v_updates in
          let v_g := t21 in
          let '(_, _, t22) := v_updates in
          let* t23 := store v_w 9 t22 in
          let v_w := t23 in
          Ok (v_w, v_c, v_g)) in
        let* (v_w, v_b, v_f) := (
          let* t16 := index v_w 10 in
          let* t17 := index v_w 8 in
          let* t18 := index v_w 3 in
          let* t19 := index v_w 11 in
          let v_updates := g_sha256_small_hash_later_round v_g v_h v_a v_b v_c v_d v_e v_f 0xb00327c8 t16 t17 t18 t19 in
          let '(t20, _, _) := v_updates in
          let v_b := t20 in
          let '(_, t21, _) := v_updates in
          let v_f := t21 in
          let '(_, _, t22) := v_updates in
          let* t23 := store v_w 10 t22 in
          let v_w := t23 in
          Ok (v_w, v_b, v_f)) in
        let* (v_w, v_a, v_e) := (
          let* t16 := index v_w 11 in
          let* t17 := index v_w 9 in
          let* t18 := index v_w 4 in
          let* t19 := index v_w 12 in
          let v_updates := g_sha256_small_hash_later_round v_f v_g v_h v_a v_b v_c v_d v_e 0xbf597fc7 t16 t17 t18 t19 in
          let '(t20, _, _) := v_updates in
          let v_a := t20 in
          let '(_, t21, _) := v_updates in
          let v_e := t21 in
          let '(_, _, t22) := v_updates in
          let* t23 := store v_w 11 t22 in
          let v_w := t23 in
          Ok (v_w, v_a, v_e)) in
        let* (v_w, v_d, v_h) := (
          let* t16 := index v_w 12 in
          let* t17 := index v_w 10 in
          let* t18 := index v_w 5 in
          let* t19 := index v_w 13 in
          let v_updates := g_sha256_small_hash_later_round v_e v_f v_g v_h v_a v_b v_c v_d 0xc6e00bf3 t16 t17 t18 t19 in
          let '(t20, _, _) := v_updates in
          let v_h := t20 in
          let '(_, t21, _) := v_updates in
          let v_d := t21 in
          let '(_, _, t22) := v_updates in
          let* t23 := store v_w 12 t22 in
          let v_w := t23 in
          Ok (v_w, v_d, v_h)) in
        let* (v_w, v_c, v_g) := (
          let* t16 := index v_w 13 in
          let* t17 := index v_w 11 in
          let* t18 := index v_w 6 in
          let* t19 := index v_w 14 in
          let v_updates := g_sha256_small_hash_later_round v_d v_e v_f v_g v_h v_a v_b v_c 0xd5a79147 t16 t17 t18 t19 in
          let '(t20, _, _) := v_updates in
          let v_g := t20 in
          let '(_, t21, _) := v_updates in
          let v_c := t21 in
          let '(_, _, t22) := v_updates in
          let* t23 := store v_w 13 t22 in
          let v_w := t23 in
          Ok (v_w, v_c, v_g)) in
        let* (v_w, v_b, v_f) := (
          let* t16 := index v_w 14 in
          let* t17 := index v_w 12 in
          let* t18 := index v_w 7 in
          let* t19 := index v_w 15 in
          let v_updates := g_sha256_small_hash_later_round v_c v_d v_e v_f v_g v_h v_a v_b 0x6ca6351 t16 t17 t18 t19 in
          let '(t20, _, _) := v_updates in
          let v_f := t20 in
          let '(_, t21, _) := v_updates in
          let v_b := t21 in
          let '(_, _, t22) := v_updates in
          let* t23 := store v_w 14 t22 in
          let v_w := t23 in
          Ok (v_w, v_b, v_f)) in
        let* (v_w, v_a, v_e) := (
          let* t16 := index v_w 15 in
          let* t17 := index v_w 13 in
          let* t18 := index v_w 8 in
          let* t19 := index v_w 0 in
          let v_updates := g_sha256_small_hash_later_round v_b v_c v_d v_e v_f v_g v_h v_a 0x14292967 t16 t17 t18 t19 in
          let '(t20, _, _) := v_updates in
          let v_e := t20 in
          let '(_, t21, _) := v_updates in
          let v_a := t21 in
          let '(_, _, t22) := v_updates in
          let* t23 := store v_w 15 t22 in
          let v_w := t23 in
          Ok (v_w, v_a, v_e)) in
        let* (v_w, v_d, v_h) := (
          let* t16 := index v_w 0 in
          let* t17 := index v_w 14 in
          let* t18 := index v_w 9 in
          let* t19 := index v_w 1 in
          let v_updates := g_sha256_small_hash_later_round v_a v_b v_c v_d v_e v_f v_g v_h 0x27b70a85 t16 t17 t18 t19 in
          let '(t20, _, _) := v_updates in
          let v_d := t20 in
          let '(_, t21, _) := v_updates in
          let v_h := t21 in
          let '(_, _, t22) := v_updates in
          let* t23 := store v_w 0 t22 in
          let v_w := t23 in
          Ok (v_w, v_d, v_h)) in
        let* (v_w, v_c, v_g) := (
          let* t16 := index v_w 1 in
          let* t17 := index v_w 15 in
          let* t18 := index v_w 10 in
          let* t19 := index v_w 2 in
          let v_updates := g_sha256_small_hash_later_round v_h v_a v_b v_c v_d v_e v_f v_g 0x2e1b2138 t16 t17 t18 t19 in
          let '(t20, _, _) := v_updates in
          let v_c := t20 in
          let '(_, t21, _) := v_updates in
          let v_g := t21 in
          let '(_, _, t22) := v_updates in
          let* t23 := store v_w 1 t22 in
          let v_w := t23 in
          Ok (v_w, v_c, v_g)) in
        let* (v_w, v_b, v_f) := (
          let* t16 := index v_w 2 in
          let* t17 := index v_w 0 in
          let* t18 := index v_w 11 in
          let* t19 := index v_w 3 in
          let v_updates := g_sha256_small_hash_later_round v_g v_h v_a v_b v_c v_d v_e v_f 0x4d2c6dfc t16 t17 t18 t19 in
          let '(t20, _, _) := v_updates in
          let v_b := t20 in
          let '(_, t21, _) := v_updates in
          let v_f := t21 in
          let '(_, _, t22) := v_updates in
          let* t23 := store v_w 2 t22 in
          let v_w := t23 in
          Ok (v_w, v_b, v_f)) in
        let* (v_w, v_a, v_e) := (
          let* t16 := index v_w 3 in
          let* t17 := index v_w 1 in
          let* t18 := index v_w 12 in
          let* t19 := index v_w 4 in
          let v_updates := g_sha256_small_hash_later_round v_f v_g v_h v_a v_b v_c v_d v_e 0x53380d13 t16 t17 t18 t19 in
          let '(t20, _, _) := v_updates in
          let v_a := t20 in
          let '(_, t21, _) := v_updates in
          let v_e := t21 in
          let '(_, _, t22) := v_updates in
          let* t23 := store v_w 3 t22 in
          let v_w := t23 in
          Ok (v_w, v_a, v_e)) in
        let* (v_w, v_d, v_h) := (
          let* t16 := index v_w 4 in
          let* t17 := index v_w 2 in
          let* t18 := index v_w 13 in
          let* t19 := index v_w 5 in
          let v_updates := g_sha256_small_hash_later_round v_e v_f v_g v_h v_a v_b v_c v_d 0x650a7354 t16 t17 t18 t19 in
          let '(t20, _, _) := v_updates in
          let v_h := t20 in
          let '(_, t21, _) := v_updates in
          let v_d := t21 in
          let '(_, _, t22) := v_updates in
          let* t23 := store v_w 4 t22 in
          let v_w := t23 in
          Ok (v_w, v_d, v_h)) in
        let* (v_w, v_c, v_g) := (
          let* t16 := index v_w 5 in
          let* t17 := index v_w 3 in
          let* t18 := index v_w 14 in
          let* t19 := index v_w 6 in
          let v_updates := g_sha256_small_hash_later_round v_d v_e v_f v_g v_h v_a v_b v_c 0x766a0abb t16 t17 t18 t19 in
          let '(t20, _, _) := v_updates in
          let v_g := t20 in
          let '(_, t21, _) := v_updates in
          let v_c := t21 in
          let '(_, _, t22) := v_updates in
          let* t23 := store v_w 5 t22 in
          let v_w := t23 in
          Ok (v_w, v_c, v_g)) in
        let* (v_w, v_b, v_f) := (
          let* t16 := index v_w 6 in
          let* t17 := index v_w 4 in
          let* t18 := index v_w 15 in
          let* t19 := index v_w 7 in
          let v_updates := g_sha256_small_hash_later_round v_c v_d v_e v_f v_g v_h v_a v_b 0x81c2c92e t16 t17 t18 t19 in
          let '(t20, _, _) := v_updates in
          let v_f := t20 in
          let '(_, t21, _) := v_updates in
          let v_b := t21 in
          let '(_, _, t22) := v_updates in
          let* t23 := store v_w 6 t22 in
          let v_w := t23 in
          Ok (v_w, v_b, v_f)) in
        let* (v_w, v_a, v_e) := (
          let* t16 := index v_w 7 in
          let* t17 := index v_w 5 in
          let* t18 := index v_w 0 in
          let* t19 := index v_w 8 in
          let v_updates := g_sha256_small_hash_later_round v_b v_c v_d v_e v_f v_g v_h v_a 0x92722c85 t16 t17 t18 t19 in
          let '(t20, _, _) := v_updates in
          let v_e := t20 in
          let '(_, t21, _) := v_updates in
          let v_a := t21 in
          let '(_, _, t22) := v_updates in
          let* t23 := store v_w 7 t22 in
          let v_w := t23 in
          Ok (v_w, v_a, v_e)) in
        let* (v_w, v_d, v_h) := (
          let* t16 := index v_w 8 in
          let* t17 := index v_w 6 in
          let* t18 := index v_w 1 in
          let* t19 := index v_w 9 in
          let v_updates := g_sha256_small_hash_later_round v_a v_b v_c v_d v_e v_f v_g v_h 0xa2bfe8a1 t16 t17 t18 t19 in
          let '(t20, _, _) := v_updates in
          let v_d := t20 in
          let '(_, t21, _) := v_updates in
          let v_h := t21 in
          let '(_, _, t22) := v_updates in
          let* t23 := store v_w 8 t22 in
          let v_w := t23 in
          Ok (v_w, v_d, v_h)) in
        let* (v_w, v_c, v_g) := (
          let* t16 := index v_w 9 in
          let* t17 := index v_w 7 in
          let* t18 := index v_w 2 in
          let* t19 := index v_w 10 in
          let v_updates := g_sha256_small_hash_later_round v_h v_a v_b v_c v_d v_e v_f v_g 0xa81a664b t16 t17 t18 t19 in
          let '(t20, _, _) := v_updates in
          let v_c := t20 in
          let '(_, t21, _) := v_updates in
          let v_g := t21 in
          let '(_, _, t22) := v_updates in
          let* t23 := store v_w 9 t22 in
          let v_w := t23 in
          Ok (v_w, v_c, v_g)) in
        let* (v_w, v_b, v_f) := (
          let* t16 := index v_w 10 in
          let* t17 := index v_w 8 in
          let* t18 := index v_w 3 in
          let* t19 := index v_w 11 in
          let v_updates := g_sha256_small_hash_later_round v_g v_h v_a v_b v_c v_d v_e v_f 0xc24b8b70 t16 t17 t18 t19 in
          let '(t20, _, _) := v_updates in
          let v_b := t20 in
          let '(_, t21, _) := v_updates in
          let v_f := t21 in
          let '(_, _, t22) := v_updates in
          let* t23 := store v_w 10 t22 in
          let v_w := t23 in
          Ok (v_w, v_b, v_f)) in
        let* (v_w, v_a, v_e) := (
          let* t16 := index v_w 11 in
          let* t17 := index v_w 9 in
          let* t18 := index v_w 4 in
          let* t19 := index v_w 12 in
          let v_updates := g_sha256_small_hash_later_round v_f v_g v_h v_a v_b v_c v_d v_e 0xc76c51a3 t16 t17 t18 t19 in
          let '(t20, _, _) := v_updates in
          let v_a := t20 in
          let '(_, t21, _) := v_updates in
          let v_e := t21 in
          let '(_, _, t22) := v_updates in
          let* t23 := store v_w 11 t22 in
          let v_w := t23 in
          Ok (v_w, v_a, v_e)) in
        let* (v_w, v_d, v_h) := (
          let* t16 := index v_w 12 in
          let* t17 := index v_w 10 in
          let* t18 := index v_w 5 in
          let* t19 := index v_w 13 in
          let v_updates := g_sha256_small_hash_later_round v_e v_f v_g v_h v_a v_b v_c v_d 0xd192e819 t16 t17 t18 t19 in
          let '(t20, _, _) := v_updates in
          let v_h := t20 in
          let '(_, t21, _) := v_updates in
          let v_d := t21 in
          let '(_, _, t22) := v_updates in
          let* t23 := store v_w 12 t22 in
          let v_w := t23 in
          Ok (v_w, v_d, v_h)) in
        let* (v_w, v_c, v_g) := (
          let* t16 := index v_w 13 in
          let* t17 := index v_w 11 in
          let* t18 := index v_w 6 in
          let* t19 := index v_w 14 in
          let v_updates := g_sha256_small_hash_later_round v_d v_e v_f v_g v_h v_a v_b v_c 0xd6990624 t16 t17 t18 t19 in
          let '(t20, _, _) := v_updates in
          let v_g := t20 in
          let '(_, t21, _) := v_updates in
          let v_c := t21 in
          let '(_, _, t22) := v_updates in
          let* t23 := store v_w 13 t22 in
          let v_w := t23 in
          Ok (v_w, v_c, v_g)) in
        let* (v_w, v_b, v_f) := (
          let* t16 := index v_w 14 in
          let* t17 := index v_w 12 in
          let* t18 := index v_w 7 in
          let* t19 := index v_w 15 in
          let v_updates := g_sha256_small_hash_later_round v_c v_d v_e v_f v_g v_h v_a v_b 0xf40e3585 t16 t17 t18 t19 in
          let '(t20, _, _) := v_updates in
          let v_f := t20 in
          let '(_, t21, _) := v_updates in
          let v_b := t21 in
          let '(_, _, t22) := v_updates in
          let* t23 := store v_w 14 t22 in
          let v_w := t23 in
          Ok (v_w, v_b, v_f)) in
        let* (v_w, v_a, v_e) := (
          let* t16 := index v_w 15 in
          let* t17 := index v_w 13 in
          let* t18 := index v_w 8 in
          let* t19 := index v_w 0 in
          let v_updates := g_sha256_small_hash_later_round v_b v_c v_d v_e v_f v_g v_h v_a 0x106aa070 t16 t17 t18 t19 in
          let '(t20, _, _) := v_updates in
          let v_e := t20 in
          let '(_, t21, _) := v_updates in
          let v_a := t21 in
          let '(_, _, t22) := v_updates in
          let* t23 := store v_w 15 t22 in
          let v_w := t23 in
          Ok (v_w, v_a, v_e)) in
        let* (v_w, v_d, v_h) := (
          let* t16 := index v_w 0 in
          let* t17 := index v_w 14 in
          let* t18 := index v_w 9 in
          let* t19 := index v_w 1 in
          let v_updates := g_sha256_small_hash_later_round v_a v_b v_c v_d v_e v_f v_g v_h 0x19a4c116 t16 t17 t18 t19 in
          let '(t20, _, _) := v_updates in
          let v_d := t20 in
          let '(_, t21, _) := v_updates in
          let v_h := t21 in
          let '(_, _, t22) := v_updates in
          let* t23 := store v_w 0 t22 in
          let v_w := t23 in
          Ok (v_w, v_d, v_h)) in
        let* (v_w, v_c, v_g) := (
          let* t16 := index v_w 1 in
          let* t17 := index v_w 15 in
          let* t18 := index v_w 10 in
          let* t19 := index v_w 2 in
          let v_updates := g_sha256_small_hash_later_round v_h v_a v_b v_c v_d v_e v_f v_g 0x1e376c08 t16 t17 t18 t19 in
          let '(t20, _, _) := v_updates in
          let v_c := t20 in
          let '(_, t21, _) := v_updates in
          let v_g := t21 in
          let '(_, _, t22) := v_updates in
          let* t23 := store v_w 1 t22 in
          let v_w := t23 in
          Ok (v_w, v_c, v_g)) in
        let* (v_w, v_b, v_f) := (
          let* t16 := index v_w 2 in
          let* t17 := index v_w 0 in
          let* t18 := index v_w 11 in
          let* t19 := index v_w 3 in
          let v_updates := g_sha256_small_hash_later_round v_g v_h v_a v_b v_c v_d v_e v_f 0x2748774c t16 t17 t18 t19 in
          let '(t20, _, _) := v_updates in
          let v_b := t20 in
          let '(_, t21, _) := v_updates in
          let v_f := t21 in
          let '(_, _, t22) := v_updates in
          let* t23 := store v_w 2 t22 in
          let v_w := t23 in
          Ok (v_w, v_b, v_f)) in
        let* (v_w, v_a, v_e) := (
          let* t16 := index v_w 3 in
          let* t17 := index v_w 1 in
          let* t18 := index v_w 12 in
          let* t19 := index v_w 4 in
          let v_updates := g_sha256_small_hash_later_round v_f v_g v_h v_a v_b v_c v_d v_e 0x34b0bcb5 t16 t17 t18 t19 in
          let '(t20, _, _) := v_updates in
          let v_a := t20 in
          let '(_, t21, _) := v_updates in
          let v_e := t21 in
          let '(_, _, t22) := v_updates in
          let* t23 := store v_w 3 t22 in
          let v_w := t23 in
          Ok (v_w, v_a, v_e)) in
        let* (v_w, v_d, v_h) := (
          let* t16 := index v_w 4 in
          let* t17 := index v_w 2 in
          let* t18 := index v_w 13 in
          let* t19 := index v_w 5 in
          let v_updates := g_sha256_small_hash_later_round v_e v_f v_g v_h v_a v_b v_c v_d 0x391c0cb3 t16 t17 t18 t19 in
          let '(t20, _, _) := v_updates in
          let v_h := t20 in
          let '(_, t21, _) := v_updates in
          let v_d := t21 in
          let '(_, _, t22) := v_updates in
          let* t23 := store v_w 4 t22 in
          let v_w := t23 in
          Ok (v_w, v_d, v_h)) in
        let* (v_w, v_c, v_g) := (
          let* t16 := index v_w 5 in
          let* t17 := index v_w 3 in
          let* t18 := index v_w 14 in
          let* t19 := index v_w 6 in
          let v_updates := g_sha256_small_hash_later_round v_d v_e v_f v_g v_h v_a v_b v_c 0x4ed8aa4a t16 t17 t18 t19 in
          let '(t20, _, _) := v_updates in
          let v_g := t20 in
          let '(_, t21, _) := v_updates in
          let v_c := t21 in
          let '(_, _, t22) := v_updates in
          let* t23 := store v_w 5 t22 in
          let v_w := t23 in
          Ok (v_w, v_c, v_g)) in
        let* (v_w, v_b, v_f) := (
          let* t16 := index v_w 6 in
          let* t17 := index v_w 4 in
          let* t18 := index v_w 15 in
          let* t19 := index v_w 7 in
          let v_updates := g_sha256_small_hash_later_round v_c v_d v_e v_f v_g v_h v_a v_b 0x5b9cca4f t16 t17 t18 t19 in
          let '(t20, _, _) := v_updates in
          let v_f := t20 in
          let '(_, t21, _) := v_updates in
          let v_b := t21 in
          let '(_, _, t22) := v_updates in
          let* t23 := store v_w 6 t22 in
          let v_w := t23 in
          Ok (v_w, v_b, v_f)) in
        let* (v_w, v_a, v_e) := (
          let* t16 := index v_w 7 in
          let* t17 := index v_w 5 in
          let* t18 := index v_w 0 in
          let* t19 := index v_w 8 in
          let v_updates := g_sha256_small_hash_later_round v_b v_c v_d v_e v_f v_g v_h v_a 0x682e6ff3 t16 t17 t18 t19 in
          let '(t20, _, _) := v_updates in
          let v_e := t20 in
          let '(_, t21, _) := v_updates in
          let v_a := t21 in
          let '(_, _, t22) := v_updates in
          let* t23 := store v_w 7 t22 in
          let v_w := t23 in
          Ok (v_w, v_a, v_e)) in
        let* (v_w, v_d, v_h) := (
          let* t16 := index v_w 8 in
          let* t17 := index v_w 6 in
          let* t18 := index v_w 1 in
          let* t19 := index v_w 9 in
          let v_updates := g_sha256_small_hash_later_round v_a v_b v_c v_d v_e v_f v_g v_h 0x748f82ee t16 t17 t18 t19 in
          let '(t20, _, _) := v_updates in
          let v_d := t20 in
          let '(_, t21, _) := v_updates in
          let v_h := t21 in
          let '(_, _, t22) := v_updates in
          let* t23 := store v_w 8 t22 in
          let v_w := t23 in
          Ok (v_w, v_d, v_h)) in
        let* (v_w, v_c, v_g) := (
          let* t16 := index v_w 9 in
          let* t17 := index v_w 7 in
          let* t18 := index v_w 2 in
          let* t19 := index v_w 10 in
          let v_updates := g_sha256_small_hash_later_round v_h v_a v_b v_c v_d v_e v_f v_g 0x78a5636f t16 t17 t18 t19 in
          let '(t20, _, _) := v_updates in
          let v_c := t20 in
          let '(_, t21, _) := v_updates in
          let v_g := t21 in
          let '(_, _, t22) := v_updates in
          let* t23 := store v_w 9 t22 in
          let v_w := t23 in
          Ok (v_w, v_c, v_g)) in
        let* (v_w, v_b, v_f) := (
          let* t16 := index v_w 10 in
          let* t17 := index v_w 8 in
          let* t18 := index v_w 3 in
          let* t19 := index v_w 11 in
          let v_updates := g_sha256_small_hash_later_round v_g v_h v_a v_b v_c v_d v_e v_f 0x84c87814 t16 t17 t18 t19 in
          let '(t20, _, _) := v_updates in
          let v_b := t20 in
          let '(_, t21, _) := v_updates in
          let v_f := t21 in
          let '(_, _, t22) := v_updates in
          let* t23 := store v_w 10 t22 in
          let v_w := t23 in
          Ok (v_w, v_b, v_f)) in
        let* (v_w, v_a, v_e) := (
          let* t16 := index v_w 11 in
          let* t17 := index v_w 9 in
          let* t18 := index v_w 4 in
          let* t19 := index v_w 12 in
          let v_updates := g_sha256_small_hash_later_round v_f v_g v_h v_a v_b v_c v_d v_e 0x8cc70208 t16 t17 t18 t19 in
          let '(t20, _, _) := v_updates in
          let v_a := t20 in
          let '(_, t21, _) := v_updates in
          let v_e := t21 in
          let '(_, _, t22) := v_updates in
          let* t23 := store v_w 11 t22 in
          let v_w := t23 in
          Ok (v_w, v_a, v_e)) in
        let* (v_w, v_d, v_h) := (
          let* t16 := index v_w 12 in
          let* t17 := index v_w 10 in
          let* t18 := index v_w 5 in
          let* t19 := index v_w 13 in
          let v_updates := g_sha256_small_hash_later_round v_e v_f v_g v_h v_a v_b v_c v_d 0x90befffa t16 t17 t18 t19 in
          let '(t20, _, _) := v_updates in
          let v_h := t20 in
          let '(_, t21, _) := v_updates in
          let v_d := t21 in
          let '(_, _, t22) := v_updates in
          let* t23 := store v_w 12 t22 in
          let v_w := t23 in
          Ok (v_w, v_d, v_h)) in
        let* (v_w, v_c, v_g) := (
          let* t16 := index v_w 13 in
          let* t17 := index v_w 11 in
          let* t18 := index v_w 6 in
          let* t19 := index v_w 14 in
          let v_updates := g_sha256_small_hash_later_round v_d v_e v_f v_g v_h v_a v_b v_c 0xa4506ceb t16 t17 t18 t19 in
          let '(t20, _, _) := v_updates in
          let v_g := t20 in
          let '(_, t21, _) := v_updates in
          let v_c := t21 in
          let '(_, _, t22) := v_updates in
          let* t23 := store v_w 13 t22 in
          let v_w := t23 in
          Ok (v_w, v_c, v_g)) in
        let* (v_w, v_b, v_f) := (
          let* t16 := index v_w 14 in
          let* t17 := index v_w 12 in
          let* t18 := index v_w 7 in
          let* t19 := index v_w 15 in
          let v_updates := g_sha256_small_hash_later_round v_c v_d v_e v_f v_g v_h v_a v_b 0xbef9a3f7 t16 t17 t18 t19 in
          let '(t20, _, _) := v_updates in
          let v_f := t20 in
          let '(_, t21, _) := v_updates in
          let v_b := t21 in
          let '(_, _, t22) := v_updates in
          let* t23 := store v_w 14 t22 in
          let v_w := t23 in
          Ok (v_w, v_b, v_f)) in
        let* (v_w, v_a, v_e) := (
          let* t16 := index v_w 15 in
          let* t17 := index v_w 13 in
          let* t18 := index v_w 8 in
          let* t19 := index v_w 0 in
          let v_updates := g_sha256_small_hash_later_round v_b v_c v_d v_e v_f v_g v_h v_a 0xc67178f2 t16 t17 t18 t19 in
          let '(t20, _, _) := v_updates in
          let v_e := t20 in
          let '(_, t21, _) := v_updates in
          let v_a := t21 in
          let '(_, _, t22) := v_updates in
          let* t23 := store v_w 15 t22 in
          let v_w := t23 in
          Ok (v_w, v_a, v_e)) in
        let* t16 := index v_state 0 in
        let* t17 := store v_state 0 (wrapping_add 32 t16 v_a) in
        let v_state := t17 in
        let* t18 := index v_state 1 in
        let* t19 := store v_state 1 (wrapping_add 32 t18 v_b) in
        let v_state := t19 in
        let* t20 := index v_state 2 in
        let* t21 := store v_state 2 (wrapping_add 32 t20 v_c) in
        let v_state := t21 in
        let* t22 := index v_state 3 in
        let* t23 := store v_state 3 (wrapping_add 32 t22 v_d) in
        let v_state := t23 in
        let* t24 := index v_state 4 in
        let* t25 := store v_state 4 (wrapping_add 32 t24 v_e) in
        let v_state := t25 in
        let* t26 := index v_state 5 in
        let* t27 := store v_state 5 (wrapping_add 32 t26 v_f) in
        let v_state := t27 in
        let* t28 := index v_state 6 in
        let* t29 := store v_state 6 (wrapping_add 32 t28 v_g) in
        let v_state := t29 in
        let* t30 := index v_state 7 in
        let* t31 := store v_state 7 (wrapping_add 32 t30 v_h) in
        let v_state := t31 in
        g_sha256_Midstate_const_hash_small_loop1 fuel cfg v_bytes v_finalize v_num_chunks v_state v_chunk
    end
  else
    Ok (v_state, v_chunk).

Fixpoint g_sha256_Midstate_const_hash_small_loop3 (fuel : nat) (cfg : config) (v_state : (list N)) (v_output : (list byte)) (v_i : N) {struct fuel} : res ((list byte) * N) :=
  if v_i <? 8 then
    match fuel with
    | O => Panic POutOfFuel
    | S fuel =>
      let* t3 := usize_add cfg v_i 0 in
      let* t4 := index v_state t3 in
      let* t5 := usize_mul cfg v_i 4 in
      let* t6 := usize_add cfg t5 0 in
      let* t7 := store v_output t6 (u8 (N.shiftr t4 24)) in
      let v_output := t7 in
      let* t8 := usize_add cfg v_i 0 in
      let* t9 := index v_state t8 in
      let* t10 := usize_mul cfg v_i 4 in
      let* t11 := usize_add cfg t10 1 in
      let* t12 := store v_output t11 (u8 (N.shiftr t9 16)) in
      let v_output := t12 in
      let* t13 := usize_add cfg v_i 0 in
      let* t14 := index v_state t13 in
      let* t15 := usize_mul cfg v_i 4 in
      let* t16 := usize_add cfg t15 2 in
      let* t17 := store v_output t16 (u8 (N.shiftr t14 8)) in
      let v_output := t17 in
      let* t18 := usize_add cfg v_i 0 in
      let* t19 := index v_state t18 in
      let* t20 := usize_mul cfg v_i 4 in
      let* t21 := usize_add cfg t20 3 in
      let* t22 := store v_output t21 (u8 (N.shiftr t19 0)) in
      let v_output := t22 in
      let* t23 := usize_add cfg v_i 1 in
      let v_i := t23 in
      g_sha256_Midstate_const_hash_small_loop3 fuel cfg v_state v_output v_i
    end
  else
    Ok (v_output, v_i).

Definition g_sha256_Midstate_const_hash_small (cfg : config) (v_bytes : (list byte)) (v_finalize : bool) : res ((list byte)) :=
  let v_state := [0x6a09e667; 0xbb67ae85; 0x3c6ef372; 0xa54ff53a; 0x510e527f; 0x9b05688c; 0x1f83d9ab; 0x5be0cd19] in
  let* t1 := usize_add cfg (len v_bytes) 9 in
  let* t2 := usize_add cfg t1 63 in
  let v_num_chunks := t2 / 64 in
  let v_chunk := 0 in
  let* (v_state, v_chunk) := g_sha256_Midstate_const_hash_small_loop1 (N.to_nat v_num_chunks) cfg v_bytes v_finalize v_num_chunks v_state v_chunk in
  let v_output := array x00 32 in
  let v_i := 0 in
  let* (v_output, v_i) := g_sha256_Midstate_const_hash_small_loop3 8%nat cfg v_state v_output v_i in
  Ok v_output.

(** const_hash, src/sha256.rs:279-425 *)
Definition g_sha256_Midstate_const_hash (cfg : config) (v_bytes : (list byte)) (v_finalize : bool) : res ((list byte)) :=
  if small_hash cfg then g_sha256_Midstate_const_hash_small cfg v_bytes v_finalize else g_sha256_Midstate_const_hash_fast cfg v_bytes v_finalize.

(** const_hash, src/sha256.rs:120-120 *)
Definition g_sha256_Hash_const_hash (cfg : config) (v_bytes : (list byte)) : res ((list byte)) :=
  g_sha256_Midstate_const_hash cfg v_bytes true.

(** hash_tag, src/sha256.rs:169-178 *)
Fixpoint g_sha256_Midstate_hash_tag_loop1 (fuel : nat) (cfg : config) (v_hash : (list byte)) (v_buf : (list byte)) (v_i : N) {struct fuel} : res ((list byte) * N) :=
  if v_i <? (len v_buf) then
    match fuel with
    | O => Panic POutOfFuel
    | S fuel =>
      let* t2 := checked_rem v_i (len v_hash) in
      let* t3 := index v_hash t2 in
      let* t4 := store v_buf v_i t3 in
      let v_buf := t4 in
      let* t5 := usize_add cfg v_i 1 in
      let v_i := t5 in
      g_sha256_Midstate_hash_tag_loop1 fuel cfg v_hash v_buf v_i
    end
  else
    Ok (v_buf, v_i).

Definition g_sha256_Midstate_hash_tag (cfg : config) (v_tag : (list byte)) : res ((list byte)) :=
  let* v_hash := g_sha256_Hash_const_hash cfg v_tag in
  let v_buf := array x00 64 in
  let v_i := 0 in
  let* (v_buf, v_i) := g_sha256_Midstate_hash_tag_loop1 64%nat cfg v_hash v_buf v_i in
  g_sha256_Midstate_const_hash cfg v_buf false.
