(** Generated by tools/rs2v.py from the Rust source; do not edit. *)
From Verif Require Import Base GenBase ModelCmp.

(** fixed_time_eq, src/cmp.rs:17-53 *)
Definition g_cmp_fixed_time_eq (v_a : (list byte)) (v_b : (list byte)) : res (bool) :=
  let* _ := assert ((len v_a) =? (len v_b)) in
  let v_count := len v_a in
  let* v_lhs := slice_to v_count v_a in
  let* v_rhs := slice_to v_count v_b in
  let v_r := x00 in
  let* v_r := for_loop (N.to_nat (v_count - 0)) 0 (fun v_i v_r =>
      let v_rs := v_r in
      let* t3 := index v_lhs v_i in
      let* t4 := index v_rhs v_i in
      let v_rs := u8_or v_rs (u8_xor t3 t4) in
      let v_r := v_rs in
      Ok v_r) v_r in
  let v_t := v_r in
  let v_t := u8_or v_t (u8_shr v_t 4) in
  let v_r := v_t in
  let v_t_2 := v_r in
  let v_t_2 := u8_or v_t_2 (u8_shr v_t_2 2) in
  let v_r := v_t_2 in
  let v_t_3 := v_r in
  let v_t_3 := u8_or v_t_3 (u8_shr v_t_3 1) in
  let v_r := v_t_3 in
  Ok (b2n (u8_and v_r x01) =? b2n x00).
