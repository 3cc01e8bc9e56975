(** Generated by tools/rs2v.py from the Rust source; do not edit. *)
From Verif Require Import Base ModelEngine ModelHmac GenHmac TraceLib GenBase TraceBase.

(** new, src/hmac.rs:212-239 *)
Definition t_hmac_Engine_new (cfg : config) {v_E : HashEngine} (l_E : tengine v_E) (v_key : (list byte)) : tm ((hmac_state v_E)) :=
  let! _ := t_debug_assert cfg ((he_block_size v_E) <=? 128) in
  let v_ipad := array x36 128 in
  let v_opad := array x5c 128 in
  let! t1 := te_default l_E in
  let! t2 := te_default l_E in
  let v_ret := mk_hmac t1 t2 in
  let! (v_ipad, v_opad) := (
    t_if ((he_block_size v_E) <? (len v_key)) (
      let! v_hash := t_lib_HashEngine_hash l_E v_key in
      let! v_ipad := t_zip_iter_mut v_ipad v_hash (fun v_b_i v_b_h =>
      let v_b_i := u8_xor v_b_i v_b_h in
      tret v_b_i) in
      let! v_opad := t_zip_iter_mut v_opad v_hash (fun v_b_o v_b_h_2 =>
      let v_b_o := u8_xor v_b_o v_b_h_2 in
      tret v_b_o) in
      tret (v_ipad, v_opad)
    ) (
      let! v_ipad := t_zip_iter_mut v_ipad v_key (fun v_b_i v_b_h =>
      let v_b_i := u8_xor v_b_i v_b_h in
      tret v_b_i) in
      let! v_opad := t_zip_iter_mut v_opad v_key (fun v_b_o v_b_h_2 =>
      let v_b_o := u8_xor v_b_o v_b_h_2 in
      tret v_b_o) in
      tret (v_ipad, v_opad)
    )) in
  let! t3 := t_slice_to (he_block_size v_E) v_ipad in
  let! t4 := te_input l_E (iengine v_ret) t3 in
  let v_ret := mk_hmac t4 (oengine v_ret) in
  let! t5 := t_slice_to (he_block_size v_E) v_opad in
  let! t6 := te_input l_E (oengine v_ret) t5 in
  let v_ret := mk_hmac (iengine v_ret) t6 in
  tret v_ret.

(** default, src/hmac.rs:201-201 *)
Definition t_hmac_Engine_default (cfg : config) {v_E : HashEngine} (l_E : tengine v_E) : tm ((hmac_state v_E)) :=
  t_hmac_Engine_new cfg l_E [].

(** input, src/hmac.rs:248-248 *)
Definition t_hmac_Engine_input {v_E : HashEngine} (l_E : tengine v_E) (v_self : (hmac_state v_E)) (v_data : (list byte)) : tm ((hmac_state v_E)) :=
  let! t1 := te_input l_E (iengine v_self) v_data in
  let v_self := mk_hmac t1 (oengine v_self) in
  tret v_self.

(** finalize, src/hmac.rs:254-258 *)
Definition t_hmac_Engine_finalize {v_E : HashEngine} (l_E : tengine v_E) (v_self : (hmac_state v_E)) : tm ((list byte)) :=
  let! v_ihash := te_finalize l_E (iengine v_self) in
  let! t2 := te_input l_E (oengine v_self) v_ihash in
  let v_self := mk_hmac (iengine v_self) t2 in
  te_finalize l_E (oengine v_self).

(** midstate, src/hmac.rs:261-263 *)
Definition t_hmac_Engine_midstate {v_E : HashEngine} (l_E : tengine v_E) (v_self : (hmac_state v_E)) : tm ((he_mid v_E * he_mid v_E)) :=
  let! t1 := te_midstate l_E (iengine v_self) in
  let! t2 := te_midstate l_E (oengine v_self) in
  tret (pair t1 t2).

(** from_midstate, src/hmac.rs:266-271 *)
Definition t_hmac_Engine_from_midstate {v_E : HashEngine} (l_E : tengine v_E) (v_midstate : (he_mid v_E * he_mid v_E)) (v_length : N) : tm ((hmac_state v_E)) :=
  let! t1 := te_from_midstate l_E (fst v_midstate) v_length in
  let! t2 := te_from_midstate l_E (snd v_midstate) v_length in
  tret (mk_hmac t1 t2).

(** impl HashEngine for Engine, src/hmac.rs *)
Definition t_hmac_Engine_dict (cfg : config) {v_E : HashEngine} (l_E : tengine v_E) : tengine (g_hmac_Engine_dict cfg v_E) :=
  mk_tengine (g_hmac_Engine_dict cfg v_E)
    (t_hmac_Engine_default cfg l_E)
    (t_hmac_Engine_input l_E)
    (t_hmac_Engine_finalize l_E)
    (t_hmac_Engine_midstate l_E)
    (t_hmac_Engine_from_midstate l_E).
