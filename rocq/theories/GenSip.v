(** Generated by tools/rs2v.py from the Rust source; do not edit. *)
From Verif Require Import Base GenBase ModelEngine ModelSip GenLib.

(** keys, src/siphash24.rs:102-102 *)
Definition g_siphash24_Engine_keys (v_self : sip_engine) : (N * N) :=
  (sip_k0 v_self, sip_k1 v_self).

(** with_keys, src/siphash24.rs:81-95 *)
Definition g_siphash24_Engine_with_keys (v_k0 : N) (v_k1 : N) : sip_engine :=
  mk_sip_engine v_k0 v_k1 0 (mk_sip (N.lxor v_k0 0x736f6d6570736575) (N.lxor v_k1 0x646f72616e646f6d) (N.lxor v_k0 0x6c7967656e657261) (N.lxor v_k1 0x7465646279746573)) 0 0.

(** new, src/siphash24.rs:99-99 *)
Definition g_siphash24_Engine_new : sip_engine :=
  g_siphash24_Engine_with_keys 0 0.

(** default, src/siphash24.rs:120-120 *)
Definition g_siphash24_Engine_default : sip_engine :=
  g_siphash24_Engine_new.

(** n_bytes_hashed, src/siphash24.rs:129-129 *)
Definition g_siphash24_Engine_n_bytes_hashed (v_self : sip_engine) : N :=
  sip_length v_self.

(** u8to64_le, src/siphash24.rs:250-268 *)
Definition g_siphash24_u8to64_le (cfg : config) (v_buf : (list byte)) (v_start : N) (v_len : N) : res (N) :=
  let* _ := debug_assert cfg (v_len <? 8) in
  let v_i := 0 in
  let v_out := 0 in
  let* t1 := usize_add cfg v_i 3 in
  let* (v_i, v_out) := (
    if t1 <? v_len then
      let* _ := (
        if debug_assertions cfg then
          let* t2 := usize_add cfg v_start v_i in
          let* t3 := usize_add cfg t2 4 in
          assert (t3 <=? (len v_buf))
        else
          Ok tt) in
      let v_data := 0 in
      let* t2 := usize_add cfg v_start v_i in
      let* v_data := load_native cfg 4%nat v_buf t2 in
      let v_out := to_le cfg 4%nat v_data in
      let* t3 := usize_add cfg v_i 4 in
      let v_i := t3 in
      Ok (v_i, v_out)
    else
      Ok (v_i, v_out)) in
  let* t2 := usize_add cfg v_i 1 in
  let* (v_i, v_out) := (
    if t2 <? v_len then
      let* _ := (
        if debug_assertions cfg then
          let* t3 := usize_add cfg v_start v_i in
          let* t4 := usize_add cfg t3 2 in
          assert (t4 <=? (len v_buf))
        else
          Ok tt) in
      let v_data := 0 in
      let* t3 := usize_add cfg v_start v_i in
      let* v_data := load_native cfg 2%nat v_buf t3 in
      let* t4 := usize_mul cfg v_i 8 in
      let* t5 := checked_shl cfg 64 (to_le cfg 2%nat v_data) t4 in
      let v_out := N.lor v_out t5 in
      let* t6 := usize_add cfg v_i 2 in
      let v_i := t6 in
      Ok (v_i, v_out)
    else
      Ok (v_i, v_out)) in
  let* (v_i, v_out) := (
    if v_i <? v_len then
      let* t3 := usize_add cfg v_start v_i in
      let* t4 := get_unchecked v_buf t3 in
      let* t5 := usize_mul cfg v_i 8 in
      let* t6 := checked_shl cfg 64 (b2n t4) t5 in
      let v_out := N.lor v_out t6 in
      let* t7 := usize_add cfg v_i 1 in
      let v_i := t7 in
      Ok (v_i, v_out)
    else
      Ok (v_i, v_out)) in
  let* _ := debug_assert cfg (v_i =? v_len) in
  Ok v_out.

(** c_rounds, src/siphash24.rs:105-108 *)
Definition g_siphash24_Engine_c_rounds (v_state : sip_state) : sip_state :=
  let v_state := (
    let v_state := mk_sip (wrapping_add 64 (v0 v_state) (v1 v_state)) (v1 v_state) (v2 v_state) (v3 v_state) in
    let v_state := mk_sip (v0 v_state) (rotate_left 64 13 (v1 v_state)) (v2 v_state) (v3 v_state) in
    let v_state := mk_sip (v0 v_state) (N.lxor (v1 v_state) (v0 v_state)) (v2 v_state) (v3 v_state) in
    let v_state := mk_sip (rotate_left 64 32 (v0 v_state)) (v1 v_state) (v2 v_state) (v3 v_state) in
    let v_state := mk_sip (v0 v_state) (v1 v_state) (wrapping_add 64 (v2 v_state) (v3 v_state)) (v3 v_state) in
    let v_state := mk_sip (v0 v_state) (v1 v_state) (v2 v_state) (rotate_left 64 16 (v3 v_state)) in
    let v_state := mk_sip (v0 v_state) (v1 v_state) (v2 v_state) (N.lxor (v3 v_state) (v2 v_state)) in
    let v_state := mk_sip (wrapping_add 64 (v0 v_state) (v3 v_state)) (v1 v_state) (v2 v_state) (v3 v_state) in
    let v_state := mk_sip (v0 v_state) (v1 v_state) (v2 v_state) (rotate_left 64 21 (v3 v_state)) in
    let v_state := mk_sip (v0 v_state) (v1 v_state) (v2 v_state) (N.lxor (v3 v_state) (v0 v_state)) in
    let v_state := mk_sip (v0 v_state) (v1 v_state) (wrapping_add 64 (v2 v_state) (v1 v_state)) (v3 v_state) in
    let v_state := mk_sip (v0 v_state) (rotate_left 64 17 (v1 v_state)) (v2 v_state) (v3 v_state) in
    let v_state := mk_sip (v0 v_state) (N.lxor (v1 v_state) (v2 v_state)) (v2 v_state) (v3 v_state) in
    let v_state := mk_sip (v0 v_state) (v1 v_state) (rotate_left 64 32 (v2 v_state)) (v3 v_state) in
    v_state) in
  let v_state := (
    let v_state := mk_sip (wrapping_add 64 (v0 v_state) (v1 v_state)) (v1 v_state) (v2 v_state) (v3 v_state) in
    let v_state := mk_sip (v0 v_state) (rotate_left 64 13 (v1 v_state)) (v2 v_state) (v3 v_state) in
    let v_state := mk_sip (v0 v_state) (N.lxor (v1 v_state) (v0 v_state)) (v2 v_state) (v3 v_state) in
    let v_state := mk_sip (rotate_left 64 32 (v0 v_state)) (v1 v_state) (v2 v_state) (v3 v_state) in
    let v_state := mk_sip (v0 v_state) (v1 v_state) (wrapping_add 64 (v2 v_state) (v3 v_state)) (v3 v_state) in
    let v_state := mk_sip (v0 v_state) (v1 v_state) (v2 v_state) (rotate_left 64 16 (v3 v_state)) in
    let v_state := mk_sip (v0 v_state) (v1 v_state) (v2 v_state) (N.lxor (v3 v_state) (v2 v_state)) in
    let v_state := mk_sip (wrapping_add 64 (v0 v_state) (v3 v_state)) (v1 v_state) (v2 v_state) (v3 v_state) in
    let v_state := mk_sip (v0 v_state) (v1 v_state) (v2 v_state) (rotate_left 64 21 (v3 v_state)) in
    let v_state := mk_sip (v0 v_state) (v1 v_state) (v2 v_state) (N.lxor (v3 v_state) (v0 v_state)) in
    let v_state := mk_sip (v0 v_state) (v1 v_state) (wrapping_add 64 (v2 v_state) (v1 v_state)) (v3 v_state) in
    let v_state := mk_sip (v0 v_state) (rotate_left 64 17 (v1 v_state)) (v2 v_state) (v3 v_state) in
    let v_state := mk_sip (v0 v_state) (N.lxor (v1 v_state) (v2 v_state)) (v2 v_state) (v3 v_state) in
    let v_state := mk_sip (v0 v_state) (v1 v_state) (rotate_left 64 32 (v2 v_state)) (v3 v_state) in
    v_state) in
  v_state.

(** input, src/siphash24.rs:133-171 *)
Fixpoint g_siphash24_Engine_input_loop1 (fuel : nat) (cfg : config) (v_data : (list byte)) (v_len : N) (v_left : N) (v_self : sip_engine) (v_i : N) {struct fuel} : res (sip_engine * N) :=
  let* t8 := usize_sub cfg v_len v_left in
  if v_i <? t8 then
    match fuel with
    | O => Panic POutOfFuel
    | S fuel =>
      let* _ := (
        if debug_assertions cfg then
          let* t9 := usize_add cfg v_i 8 in
          assert (t9 <=? (len v_data))
        else
          Ok tt) in
      let v_data_m := 0 in
      let* v_data_m := load_native cfg 8%nat v_data v_i in
      let v_mi := to_le cfg 8%nat v_data_m in
      let v_self := mk_sip_engine (sip_k0 v_self) (sip_k1 v_self) (sip_length v_self) (mk_sip (v0 (sip_st v_self)) (v1 (sip_st v_self)) (v2 (sip_st v_self)) (N.lxor (v3 (sip_st v_self)) v_mi)) (sip_tail v_self) (sip_ntail v_self) in
      let t9 := g_siphash24_Engine_c_rounds (sip_st v_self) in
      let v_self := mk_sip_engine (sip_k0 v_self) (sip_k1 v_self) (sip_length v_self) t9 (sip_tail v_self) (sip_ntail v_self) in
      let v_self := mk_sip_engine (sip_k0 v_self) (sip_k1 v_self) (sip_length v_self) (mk_sip (N.lxor (v0 (sip_st v_self)) v_mi) (v1 (sip_st v_self)) (v2 (sip_st v_self)) (v3 (sip_st v_self))) (sip_tail v_self) (sip_ntail v_self) in
      let* t10 := usize_add cfg v_i 8 in
      let v_i := t10 in
      g_siphash24_Engine_input_loop1 fuel cfg v_data v_len v_left v_self v_i
    end
  else
    Ok (v_self, v_i).

Definition g_siphash24_Engine_input (cfg : config) (v_self : sip_engine) (v_data : (list byte)) : res (sip_engine) :=
  let v_length := len v_data in
  let* t1 := usize_add cfg (sip_length v_self) v_length in
  let v_self := mk_sip_engine (sip_k0 v_self) (sip_k1 v_self) t1 (sip_st v_self) (sip_tail v_self) (sip_ntail v_self) in
  let v_needed := 0 in
  if negb ((sip_ntail v_self) =? 0) then
    let* t2 := usize_sub cfg 8 (sip_ntail v_self) in
    let v_needed := t2 in
    let* t3 := g_siphash24_u8to64_le cfg v_data 0 (N.min v_length v_needed) in
    let* t4 := usize_mul cfg 8 (sip_ntail v_self) in
    let* t5 := checked_shl cfg 64 t3 t4 in
    let v_self := mk_sip_engine (sip_k0 v_self) (sip_k1 v_self) (sip_length v_self) (sip_st v_self) (N.lor (sip_tail v_self) t5) (sip_ntail v_self) in
    if v_length <? v_needed then
      let* t6 := usize_add cfg (sip_ntail v_self) v_length in
      let v_self := mk_sip_engine (sip_k0 v_self) (sip_k1 v_self) (sip_length v_self) (sip_st v_self) (sip_tail v_self) t6 in
      Ok v_self
    else
      let v_self := mk_sip_engine (sip_k0 v_self) (sip_k1 v_self) (sip_length v_self) (mk_sip (v0 (sip_st v_self)) (v1 (sip_st v_self)) (v2 (sip_st v_self)) (N.lxor (v3 (sip_st v_self)) (sip_tail v_self))) (sip_tail v_self) (sip_ntail v_self) in
      let t6 := g_siphash24_Engine_c_rounds (sip_st v_self) in
      let v_self := mk_sip_engine (sip_k0 v_self) (sip_k1 v_self) (sip_length v_self) t6 (sip_tail v_self) (sip_ntail v_self) in
      let v_self := mk_sip_engine (sip_k0 v_self) (sip_k1 v_self) (sip_length v_self) (mk_sip (N.lxor (v0 (sip_st v_self)) (sip_tail v_self)) (v1 (sip_st v_self)) (v2 (sip_st v_self)) (v3 (sip_st v_self))) (sip_tail v_self) (sip_ntail v_self) in
      let v_self := mk_sip_engine (sip_k0 v_self) (sip_k1 v_self) (sip_length v_self) (sip_st v_self) (sip_tail v_self) 0 in
      let* v_len := usize_sub cfg v_length v_needed in
      let v_left := N.land v_len 7 in
      let v_i := v_needed in
      let* (v_self, v_i) := g_siphash24_Engine_input_loop1 (length v_data) cfg v_data v_len v_left v_self v_i in
      let* t8 := g_siphash24_u8to64_le cfg v_data v_i v_left in
      let v_self := mk_sip_engine (sip_k0 v_self) (sip_k1 v_self) (sip_length v_self) (sip_st v_self) t8 (sip_ntail v_self) in
      let v_self := mk_sip_engine (sip_k0 v_self) (sip_k1 v_self) (sip_length v_self) (sip_st v_self) (sip_tail v_self) v_left in
      Ok v_self
  else
    let* v_len := usize_sub cfg v_length v_needed in
    let v_left := N.land v_len 7 in
    let v_i := v_needed in
    let* (v_self, v_i) := g_siphash24_Engine_input_loop1 (length v_data) cfg v_data v_len v_left v_self v_i in
    let* t3 := g_siphash24_u8to64_le cfg v_data v_i v_left in
    let v_self := mk_sip_engine (sip_k0 v_self) (sip_k1 v_self) (sip_length v_self) (sip_st v_self) t3 (sip_ntail v_self) in
    let v_self := mk_sip_engine (sip_k0 v_self) (sip_k1 v_self) (sip_length v_self) (sip_st v_self) (sip_tail v_self) v_left in
    Ok v_self.

(** d_rounds, src/siphash24.rs:111-116 *)
Definition g_siphash24_Engine_d_rounds (v_state : sip_state) : sip_state :=
  let v_state := (
    let v_state := mk_sip (wrapping_add 64 (v0 v_state) (v1 v_state)) (v1 v_state) (v2 v_state) (v3 v_state) in
    let v_state := mk_sip (v0 v_state) (rotate_left 64 13 (v1 v_state)) (v2 v_state) (v3 v_state) in
    let v_state := mk_sip (v0 v_state) (N.lxor (v1 v_state) (v0 v_state)) (v2 v_state) (v3 v_state) in
    let v_state := mk_sip (rotate_left 64 32 (v0 v_state)) (v1 v_state) (v2 v_state) (v3 v_state) in
    let v_state := mk_sip (v0 v_state) (v1 v_state) (wrapping_add 64 (v2 v_state) (v3 v_state)) (v3 v_state) in
    let v_state := mk_sip (v0 v_state) (v1 v_state) (v2 v_state) (rotate_left 64 16 (v3 v_state)) in
    let v_state := mk_sip (v0 v_state) (v1 v_state) (v2 v_state) (N.lxor (v3 v_state) (v2 v_state)) in
    let v_state := mk_sip (wrapping_add 64 (v0 v_state) (v3 v_state)) (v1 v_state) (v2 v_state) (v3 v_state) in
    let v_state := mk_sip (v0 v_state) (v1 v_state) (v2 v_state) (rotate_left 64 21 (v3 v_state)) in
    let v_state := mk_sip (v0 v_state) (v1 v_state) (v2 v_state) (N.lxor (v3 v_state) (v0 v_state)) in
    let v_state := mk_sip (v0 v_state) (v1 v_state) (wrapping_add 64 (v2 v_state) (v1 v_state)) (v3 v_state) in
    let v_state := mk_sip (v0 v_state) (rotate_left 64 17 (v1 v_state)) (v2 v_state) (v3 v_state) in
    let v_state := mk_sip (v0 v_state) (N.lxor (v1 v_state) (v2 v_state)) (v2 v_state) (v3 v_state) in
    let v_state := mk_sip (v0 v_state) (v1 v_state) (rotate_left 64 32 (v2 v_state)) (v3 v_state) in
    v_state) in
  let v_state := (
    let v_state := mk_sip (wrapping_add 64 (v0 v_state) (v1 v_state)) (v1 v_state) (v2 v_state) (v3 v_state) in
    let v_state := mk_sip (v0 v_state) (rotate_left 64 13 (v1 v_state)) (v2 v_state) (v3 v_state) in
    let v_state := mk_sip (v0 v_state) (N.lxor (v1 v_state) (v0 v_state)) (v2 v_state) (v3 v_state) in
    let v_state := mk_sip (rotate_left 64 32 (v0 v_state)) (v1 v_state) (v2 v_state) (v3 v_state) in
    let v_state := mk_sip (v0 v_state) (v1 v_state) (wrapping_add 64 (v2 v_state) (v3 v_state)) (v3 v_state) in
    let v_state := mk_sip (v0 v_state) (v1 v_state) (v2 v_state) (rotate_left 64 16 (v3 v_state)) in
    let v_state := mk_sip (v0 v_state) (v1 v_state) (v2 v_state) (N.lxor (v3 v_state) (v2 v_state)) in
    let v_state := mk_sip (wrapping_add 64 (v0 v_state) (v3 v_state)) (v1 v_state) (v2 v_state) (v3 v_state) in
    let v_state := mk_sip (v0 v_state) (v1 v_state) (v2 v_state) (rotate_left 64 21 (v3 v_state)) in
    let v_state := mk_sip (v0 v_state) (v1 v_state) (v2 v_state) (N.lxor (v3 v_state) (v0 v_state)) in
    let v_state := mk_sip (v0 v_state) (v1 v_state) (wrapping_add 64 (v2 v_state) (v1 v_state)) (v3 v_state) in
    let v_state := mk_sip (v0 v_state) (rotate_left 64 17 (v1 v_state)) (v2 v_state) (v3 v_state) in
    let v_state := mk_sip (v0 v_state) (N.lxor (v1 v_state) (v2 v_state)) (v2 v_state) (v3 v_state) in
    let v_state := mk_sip (v0 v_state) (v1 v_state) (rotate_left 64 32 (v2 v_state)) (v3 v_state) in
    v_state) in
  let v_state := (
    let v_state := mk_sip (wrapping_add 64 (v0 v_state) (v1 v_state)) (v1 v_state) (v2 v_state) (v3 v_state) in
    let v_state := mk_sip (v0 v_state) (rotate_left 64 13 (v1 v_state)) (v2 v_state) (v3 v_state) in
    let v_state := mk_sip (v0 v_state) (N.lxor (v1 v_state) (v0 v_state)) (v2 v_state) (v3 v_state) in
    let v_state := mk_sip (rotate_left 64 32 (v0 v_state)) (v1 v_state) (v2 v_state) (v3 v_state) in
    let v_state := mk_sip (v0 v_state) (v1 v_state) (wrapping_add 64 (v2 v_state) (v3 v_state)) (v3 v_state) in
    let v_state := mk_sip (v0 v_state) (v1 v_state) (v2 v_state) (rotate_left 64 16 (v3 v_state)) in
    let v_state := mk_sip (v0 v_state) (v1 v_state) (v2 v_state) (N.lxor (v3 v_state) (v2 v_state)) in
    let v_state := mk_sip (wrapping_add 64 (v0 v_state) (v3 v_state)) (v1 v_state) (v2 v_state) (v3 v_state) in
    let v_state := mk_sip (v0 v_state) (v1 v_state) (v2 v_state) (rotate_left 64 21 (v3 v_state)) in
    let v_state := mk_sip (v0 v_state) (v1 v_state) (v2 v_state) (N.lxor (v3 v_state) (v0 v_state)) in
    let v_state := mk_sip (v0 v_state) (v1 v_state) (wrapping_add 64 (v2 v_state) (v1 v_state)) (v3 v_state) in
    let v_state := mk_sip (v0 v_state) (rotate_left 64 17 (v1 v_state)) (v2 v_state) (v3 v_state) in
    let v_state := mk_sip (v0 v_state) (N.lxor (v1 v_state) (v2 v_state)) (v2 v_state) (v3 v_state) in
    let v_state := mk_sip (v0 v_state) (v1 v_state) (rotate_left 64 32 (v2 v_state)) (v3 v_state) in
    v_state) in
  let v_state := (
    let v_state := mk_sip (wrapping_add 64 (v0 v_state) (v1 v_state)) (v1 v_state) (v2 v_state) (v3 v_state) in
    let v_state := mk_sip (v0 v_state) (rotate_left 64 13 (v1 v_state)) (v2 v_state) (v3 v_state) in
    let v_state := mk_sip (v0 v_state) (N.lxor (v1 v_state) (v0 v_state)) (v2 v_state) (v3 v_state) in
    let v_state := mk_sip (rotate_left 64 32 (v0 v_state)) (v1 v_state) (v2 v_state) (v3 v_state) in
    let v_state := mk_sip (v0 v_state) (v1 v_state) (wrapping_add 64 (v2 v_state) (v3 v_state)) (v3 v_state) in
    let v_state := mk_sip (v0 v_state) (v1 v_state) (v2 v_state) (rotate_left 64 16 (v3 v_state)) in
    let v_state := mk_sip (v0 v_state) (v1 v_state) (v2 v_state) (N.lxor (v3 v_state) (v2 v_state)) in
    let v_state := mk_sip (wrapping_add 64 (v0 v_state) (v3 v_state)) (v1 v_state) (v2 v_state) (v3 v_state) in
    let v_state := mk_sip (v0 v_state) (v1 v_state) (v2 v_state) (rotate_left 64 21 (v3 v_state)) in
    let v_state := mk_sip (v0 v_state) (v1 v_state) (v2 v_state) (N.lxor (v3 v_state) (v0 v_state)) in
    let v_state := mk_sip (v0 v_state) (v1 v_state) (wrapping_add 64 (v2 v_state) (v1 v_state)) (v3 v_state) in
    let v_state := mk_sip (v0 v_state) (rotate_left 64 17 (v1 v_state)) (v2 v_state) (v3 v_state) in
    let v_state := mk_sip (v0 v_state) (N.lxor (v1 v_state) (v2 v_state)) (v2 v_state) (v3 v_state) in
    let v_state := mk_sip (v0 v_state) (v1 v_state) (rotate_left 64 32 (v2 v_state)) (v3 v_state) in
    v_state) in
  v_state.

(** finalize, src/siphash24.rs:175-189 *)
Definition g_siphash24_Engine_finalize (v_self : sip_engine) : (list byte) :=
  let v_state := sip_st v_self in
  let v_b := N.lor (N.shiftl (N.land (sip_length v_self) 255) 56 mod 2 ^ 64) (sip_tail v_self) in
  let v_state := mk_sip (v0 v_state) (v1 v_state) (v2 v_state) (N.lxor (v3 v_state) v_b) in
  let v_state := g_siphash24_Engine_c_rounds v_state in
  let v_state := mk_sip (N.lxor (v0 v_state) v_b) (v1 v_state) (v2 v_state) (v3 v_state) in
  let v_state := mk_sip (v0 v_state) (v1 v_state) (N.lxor (v2 v_state) 255) (v3 v_state) in
  let v_state := g_siphash24_Engine_d_rounds v_state in
  let v_hash := N.lxor (N.lxor (N.lxor (v0 v_state) (v1 v_state)) (v2 v_state)) (v3 v_state) in
  to_le_bytes 8 v_hash.

(** midstate, src/siphash24.rs:199-199 *)
Definition g_siphash24_Engine_midstate (v_self : sip_engine) : sip_state :=
  sip_st v_self.

(** from_midstate, src/siphash24.rs:202-204 *)
Definition g_siphash24_Engine_from_midstate (v_midstate : sip_state) (v_length : N) : sip_engine :=
  mk_sip_engine (sip_k0 g_siphash24_Engine_default) (sip_k1 g_siphash24_Engine_default) (sip_length g_siphash24_Engine_default) v_midstate (sip_tail g_siphash24_Engine_default) (sip_ntail g_siphash24_Engine_default).

(** impl HashEngine for Engine, src/siphash24.rs *)
Definition g_siphash24_Engine_dict (cfg : config) : HashEngine :=
  {| he_state := sip_engine;
     he_mid := sip_state;
     he_block_size := 32;
     he_default := Ok g_siphash24_Engine_default;
     he_input := g_siphash24_Engine_input cfg;
     he_n_bytes_hashed := g_siphash24_Engine_n_bytes_hashed;
     he_finalize := fun x0 => Ok (g_siphash24_Engine_finalize x0);
     he_midstate := fun x0 => Ok (g_siphash24_Engine_midstate x0);
     he_from_midstate := fun x0 x1 => Ok (g_siphash24_Engine_from_midstate x0 x1) |}.

(** engine, src/internal_macros.rs:165-165 *)
Definition g_siphash24_Hash_engine : sip_engine :=
  g_siphash24_Engine_new.

(** hash, src/internal_macros.rs:158-162 *)
Definition g_siphash24_Hash_hash (cfg : config) (v_bytes : (list byte)) : res ((list byte)) :=
  let v_engine := g_siphash24_Hash_engine in
  let* v_engine := g_siphash24_Engine_input cfg v_engine v_bytes in
  Ok (g_siphash24_Engine_finalize v_engine).

(** from_engine, src/internal_macros.rs:170-173 *)
Definition g_siphash24_Hash_from_engine (v_engine : sip_engine) : (list byte) :=
  let v_digest := g_siphash24_Engine_finalize v_engine in
  v_digest.

(** hash_with_keys, src/siphash24.rs:209-213 *)
Definition g_siphash24_Hash_hash_with_keys (cfg : config) (v_k0 : N) (v_k1 : N) (v_data : (list byte)) : res ((list byte)) :=
  let v_engine := g_siphash24_Engine_with_keys v_k0 v_k1 in
  let* v_engine := g_siphash24_Engine_input cfg v_engine v_data in
  Ok (g_siphash24_Engine_finalize v_engine).

(** from_engine_to_u64, src/siphash24.rs:224-237 *)
Definition g_siphash24_Hash_from_engine_to_u64 (v_e : sip_engine) : N :=
  let v_state := sip_st v_e in
  let v_b := N.lor (N.shiftl (N.land (sip_length v_e) 255) 56 mod 2 ^ 64) (sip_tail v_e) in
  let v_state := mk_sip (v0 v_state) (v1 v_state) (v2 v_state) (N.lxor (v3 v_state) v_b) in
  let v_state := g_siphash24_Engine_c_rounds v_state in
  let v_state := mk_sip (N.lxor (v0 v_state) v_b) (v1 v_state) (v2 v_state) (v3 v_state) in
  let v_state := mk_sip (v0 v_state) (v1 v_state) (N.lxor (v2 v_state) 255) (v3 v_state) in
  let v_state := g_siphash24_Engine_d_rounds v_state in
  N.lxor (N.lxor (N.lxor (v0 v_state) (v1 v_state)) (v2 v_state)) (v3 v_state).

(** hash_to_u64_with_keys, src/siphash24.rs:216-220 *)
Definition g_siphash24_Hash_hash_to_u64_with_keys (cfg : config) (v_k0 : N) (v_k1 : N) (v_data : (list byte)) : res (N) :=
  let v_engine := g_siphash24_Engine_with_keys v_k0 v_k1 in
  let* v_engine := g_siphash24_Engine_input cfg v_engine v_data in
  Ok (g_siphash24_Hash_from_engine_to_u64 v_engine).

(** as_u64, src/siphash24.rs:240-240 *)
Definition g_siphash24_Hash_as_u64 (v_self : (list byte)) : N :=
  le_value v_self.

(** from_u64, src/siphash24.rs:243-243 *)
Definition g_siphash24_Hash_from_u64 (v_hash : N) : (list byte) :=
  to_le_bytes 8 v_hash.
