(** Generated by tools/rs2v.py from the Rust source; do not edit. *)
From Verif Require Import Base ModelEngine ModelSip GenSip TraceLib GenBase TraceBase.

(** with_keys, src/siphash24.rs:81-95 *)
Definition t_siphash24_Engine_with_keys (v_k0 : N) (v_k1 : N) : tm (sip_engine) :=
  tret (mk_sip_engine v_k0 v_k1 0 (mk_sip (N.lxor v_k0 0x736f6d6570736575) (N.lxor v_k1 0x646f72616e646f6d) (N.lxor v_k0 0x6c7967656e657261) (N.lxor v_k1 0x7465646279746573)) 0 0).

(** new, src/siphash24.rs:99-99 *)
Definition t_siphash24_Engine_new : tm (sip_engine) :=
  t_siphash24_Engine_with_keys 0 0.

(** default, src/siphash24.rs:120-120 *)
Definition t_siphash24_Engine_default : tm (sip_engine) :=
  t_siphash24_Engine_new.

(** u8to64_le, src/siphash24.rs:250-268 *)
Definition t_siphash24_u8to64_le (cfg : config) (v_buf : (list byte)) (v_start : N) (v_len : N) : tm (N) :=
  let! _ := t_debug_assert cfg (v_len <? 8) in
  let v_i := 0 in
  let v_out := 0 in
  let! t1 := tlift (usize_add cfg v_i 3) in
  let! (v_i, v_out) := (
    t_if (t1 <? v_len) (
      let! _ := (
        t_if (debug_assertions cfg) (
          let! t2 := tlift (usize_add cfg v_start v_i) in
          let! t3 := tlift (usize_add cfg t2 4) in
          t_assert (t3 <=? (len v_buf))
        ) (
          tret tt
        )) in
      let v_data := 0 in
      let! t2 := tlift (usize_add cfg v_start v_i) in
      let! v_data := t_load_native cfg 4%nat v_buf t2 in
      let v_out := to_le cfg 4%nat v_data in
      let! t3 := tlift (usize_add cfg v_i 4) in
      let v_i := t3 in
      tret (v_i, v_out)
    ) (
      tret (v_i, v_out)
    )) in
  let! t2 := tlift (usize_add cfg v_i 1) in
  let! (v_i, v_out) := (
    t_if (t2 <? v_len) (
      let! _ := (
        t_if (debug_assertions cfg) (
          let! t3 := tlift (usize_add cfg v_start v_i) in
          let! t4 := tlift (usize_add cfg t3 2) in
          t_assert (t4 <=? (len v_buf))
        ) (
          tret tt
        )) in
      let v_data := 0 in
      let! t3 := tlift (usize_add cfg v_start v_i) in
      let! v_data := t_load_native cfg 2%nat v_buf t3 in
      let! t4 := t_usize_mul cfg v_i 8 in
      let! t5 := t_checked_shl cfg 64 (to_le cfg 2%nat v_data) t4 in
      let v_out := N.lor v_out t5 in
      let! t6 := tlift (usize_add cfg v_i 2) in
      let v_i := t6 in
      tret (v_i, v_out)
    ) (
      tret (v_i, v_out)
    )) in
  let! (v_i, v_out) := (
    t_if (v_i <? v_len) (
      let! t3 := tlift (usize_add cfg v_start v_i) in
      let! t4 := t_get_unchecked v_buf t3 in
      let! t5 := t_usize_mul cfg v_i 8 in
      let! t6 := t_checked_shl cfg 64 (b2n t4) t5 in
      let v_out := N.lor v_out t6 in
      let! t7 := tlift (usize_add cfg v_i 1) in
      let v_i := t7 in
      tret (v_i, v_out)
    ) (
      tret (v_i, v_out)
    )) in
  let! _ := t_debug_assert cfg (v_i =? v_len) in
  tret v_out.

(** input, src/siphash24.rs:133-171 *)
Fixpoint t_siphash24_Engine_input_loop1 (fuel : nat) (cfg : config) (v_data : (list byte)) (v_len : N) (v_left : N) (v_self : sip_engine) (v_i : N) {struct fuel} : tm (sip_engine * N) :=
  let! t9 := tlift (usize_sub cfg v_len v_left) in
  t_if (v_i <? t9) (
    match fuel with
    | O => tlift (Panic POutOfFuel)
    | S fuel =>
      let! _ := (
        t_if (debug_assertions cfg) (
          let! t10 := tlift (usize_add cfg v_i 8) in
          t_assert (t10 <=? (len v_data))
        ) (
          tret tt
        )) in
      let v_data_m := 0 in
      let! v_data_m := t_load_native cfg 8%nat v_data v_i in
      let v_mi := to_le cfg 8%nat v_data_m in
      let v_self := mk_sip_engine (sip_k0 v_self) (sip_k1 v_self) (sip_length v_self) (mk_sip (v0 (sip_st v_self)) (v1 (sip_st v_self)) (v2 (sip_st v_self)) (N.lxor (v3 (sip_st v_self)) v_mi)) (sip_tail v_self) (sip_ntail v_self) in
      let t10 := g_siphash24_Engine_c_rounds (sip_st v_self) in
      let v_self := mk_sip_engine (sip_k0 v_self) (sip_k1 v_self) (sip_length v_self) t10 (sip_tail v_self) (sip_ntail v_self) in
      let v_self := mk_sip_engine (sip_k0 v_self) (sip_k1 v_self) (sip_length v_self) (mk_sip (N.lxor (v0 (sip_st v_self)) v_mi) (v1 (sip_st v_self)) (v2 (sip_st v_self)) (v3 (sip_st v_self))) (sip_tail v_self) (sip_ntail v_self) in
      let! t11 := tlift (usize_add cfg v_i 8) in
      let v_i := t11 in
      t_siphash24_Engine_input_loop1 fuel cfg v_data v_len v_left v_self v_i
    end
  ) (
    tret (v_self, v_i)
  ).

Definition t_siphash24_Engine_input (cfg : config) (v_self : sip_engine) (v_data : (list byte)) : tm (sip_engine) :=
  let v_length := len v_data in
  let! t1 := tlift (usize_add cfg (sip_length v_self) v_length) in
  let v_self := mk_sip_engine (sip_k0 v_self) (sip_k1 v_self) t1 (sip_st v_self) (sip_tail v_self) (sip_ntail v_self) in
  let v_needed := 0 in
  t_if (negb ((sip_ntail v_self) =? 0)) (
    let! t2 := tlift (usize_sub cfg 8 (sip_ntail v_self)) in
    let v_needed := t2 in
    let! t3 := t_min v_length v_needed in
    let! t4 := t_siphash24_u8to64_le cfg v_data 0 t3 in
    let! t5 := t_usize_mul cfg 8 (sip_ntail v_self) in
    let! t6 := t_checked_shl cfg 64 t4 t5 in
    let v_self := mk_sip_engine (sip_k0 v_self) (sip_k1 v_self) (sip_length v_self) (sip_st v_self) (N.lor (sip_tail v_self) t6) (sip_ntail v_self) in
    t_if (v_length <? v_needed) (
      let! t7 := tlift (usize_add cfg (sip_ntail v_self) v_length) in
      let v_self := mk_sip_engine (sip_k0 v_self) (sip_k1 v_self) (sip_length v_self) (sip_st v_self) (sip_tail v_self) t7 in
      tret v_self
    ) (
      let v_self := mk_sip_engine (sip_k0 v_self) (sip_k1 v_self) (sip_length v_self) (mk_sip (v0 (sip_st v_self)) (v1 (sip_st v_self)) (v2 (sip_st v_self)) (N.lxor (v3 (sip_st v_self)) (sip_tail v_self))) (sip_tail v_self) (sip_ntail v_self) in
      let t7 := g_siphash24_Engine_c_rounds (sip_st v_self) in
      let v_self := mk_sip_engine (sip_k0 v_self) (sip_k1 v_self) (sip_length v_self) t7 (sip_tail v_self) (sip_ntail v_self) in
      let v_self := mk_sip_engine (sip_k0 v_self) (sip_k1 v_self) (sip_length v_self) (mk_sip (N.lxor (v0 (sip_st v_self)) (sip_tail v_self)) (v1 (sip_st v_self)) (v2 (sip_st v_self)) (v3 (sip_st v_self))) (sip_tail v_self) (sip_ntail v_self) in
      let v_self := mk_sip_engine (sip_k0 v_self) (sip_k1 v_self) (sip_length v_self) (sip_st v_self) (sip_tail v_self) 0 in
      let! v_len := tlift (usize_sub cfg v_length v_needed) in
      let v_left := N.land v_len 7 in
      let v_i := v_needed in
      let! (v_self, v_i) := t_siphash24_Engine_input_loop1 (length v_data) cfg v_data v_len v_left v_self v_i in
      let! t9 := t_siphash24_u8to64_le cfg v_data v_i v_left in
      let v_self := mk_sip_engine (sip_k0 v_self) (sip_k1 v_self) (sip_length v_self) (sip_st v_self) t9 (sip_ntail v_self) in
      let v_self := mk_sip_engine (sip_k0 v_self) (sip_k1 v_self) (sip_length v_self) (sip_st v_self) (sip_tail v_self) v_left in
      tret v_self
    )
  ) (
    let! v_len := tlift (usize_sub cfg v_length v_needed) in
    let v_left := N.land v_len 7 in
    let v_i := v_needed in
    let! (v_self, v_i) := t_siphash24_Engine_input_loop1 (length v_data) cfg v_data v_len v_left v_self v_i in
    let! t3 := t_siphash24_u8to64_le cfg v_data v_i v_left in
    let v_self := mk_sip_engine (sip_k0 v_self) (sip_k1 v_self) (sip_length v_self) (sip_st v_self) t3 (sip_ntail v_self) in
    let v_self := mk_sip_engine (sip_k0 v_self) (sip_k1 v_self) (sip_length v_self) (sip_st v_self) (sip_tail v_self) v_left in
    tret v_self
  ).

(** from_midstate, src/siphash24.rs:202-204 *)
Definition t_siphash24_Engine_from_midstate (v_midstate : sip_state) (v_length : N) : tm (sip_engine) :=
  let! t1 := t_siphash24_Engine_default in
  tret (mk_sip_engine (sip_k0 t1) (sip_k1 t1) (sip_length t1) v_midstate (sip_tail t1) (sip_ntail t1)).

(** impl HashEngine for Engine, src/siphash24.rs *)
Definition t_siphash24_Engine_dict (cfg : config) : tengine (g_siphash24_Engine_dict cfg) :=
  mk_tengine (g_siphash24_Engine_dict cfg)
    (t_siphash24_Engine_default)
    (t_siphash24_Engine_input cfg)
    (fun x0 => tret (g_siphash24_Engine_finalize x0))
    (fun x0 => tret (g_siphash24_Engine_midstate x0))
    (t_siphash24_Engine_from_midstate).

(** hash_with_keys, src/siphash24.rs:209-213 *)
Definition t_siphash24_Hash_hash_with_keys (cfg : config) (v_k0 : N) (v_k1 : N) (v_data : (list byte)) : tm ((list byte)) :=
  let! v_engine := t_siphash24_Engine_with_keys v_k0 v_k1 in
  let! v_engine := t_siphash24_Engine_input cfg v_engine v_data in
  tret (g_siphash24_Engine_finalize v_engine).

(** from_engine_to_u64, src/siphash24.rs:224-237 *)
Definition t_siphash24_Hash_from_engine_to_u64 (v_e : sip_engine) : tm (N) :=
  let v_state := sip_st v_e in
  let v_b := N.lor (N.shiftl (N.land (sip_length v_e) 255) 56 mod 2 ^ 64) (sip_tail v_e) in
  let v_state := mk_sip (v0 v_state) (v1 v_state) (v2 v_state) (N.lxor (v3 v_state) v_b) in
  let v_state := g_siphash24_Engine_c_rounds v_state in
  let v_state := mk_sip (N.lxor (v0 v_state) v_b) (v1 v_state) (v2 v_state) (v3 v_state) in
  let v_state := mk_sip (v0 v_state) (v1 v_state) (N.lxor (v2 v_state) 255) (v3 v_state) in
  let v_state := g_siphash24_Engine_d_rounds v_state in
  tret (N.lxor (N.lxor (N.lxor (v0 v_state) (v1 v_state)) (v2 v_state)) (v3 v_state)).

(** hash_to_u64_with_keys, src/siphash24.rs:216-220 *)
Definition t_siphash24_Hash_hash_to_u64_with_keys (cfg : config) (v_k0 : N) (v_k1 : N) (v_data : (list byte)) : tm (N) :=
  let! v_engine := t_siphash24_Engine_with_keys v_k0 v_k1 in
  let! v_engine := t_siphash24_Engine_input cfg v_engine v_data in
  t_siphash24_Hash_from_engine_to_u64 v_engine.
