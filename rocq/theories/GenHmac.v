(** Generated by tools/rs2v.py from the Rust source; do not edit. *)
From Verif Require Import Base GenBase ModelEngine ModelHmac GenLib.

(** new, src/hmac.rs:212-239 *)
Definition g_hmac_Engine_new (cfg : config) (v_E : HashEngine) (v_key : (list byte)) : res ((hmac_state v_E)) :=
  let* _ := debug_assert cfg ((he_block_size v_E) <=? 128) in
  let v_ipad := array x36 128 in
  let v_opad := array x5c 128 in
  let* t1 := he_default v_E in
  let* t2 := he_default v_E in
  let v_ret := mk_hmac t1 t2 in
  let* (v_ipad, v_opad) := (
    if (he_block_size v_E) <? (len v_key) then
      let* v_hash := g_lib_HashEngine_hash v_E v_key in
      let* v_ipad := zip_iter_mut v_ipad v_hash (fun v_b_i v_b_h =>
      let v_b_i := u8_xor v_b_i v_b_h in
      Ok v_b_i) in
      let* v_opad := zip_iter_mut v_opad v_hash (fun v_b_o v_b_h_2 =>
      let v_b_o := u8_xor v_b_o v_b_h_2 in
      Ok v_b_o) in
      Ok (v_ipad, v_opad)
    else
      let* v_ipad := zip_iter_mut v_ipad v_key (fun v_b_i v_b_h =>
      let v_b_i := u8_xor v_b_i v_b_h in
      Ok v_b_i) in
      let* v_opad := zip_iter_mut v_opad v_key (fun v_b_o v_b_h_2 =>
      let v_b_o := u8_xor v_b_o v_b_h_2 in
      Ok v_b_o) in
      Ok (v_ipad, v_opad)) in
  let* t3 := slice_to (he_block_size v_E) v_ipad in
  let* t4 := he_input v_E (iengine v_ret) t3 in
  let v_ret := mk_hmac t4 (oengine v_ret) in
  let* t5 := slice_to (he_block_size v_E) v_opad in
  let* t6 := he_input v_E (oengine v_ret) t5 in
  let v_ret := mk_hmac (iengine v_ret) t6 in
  Ok v_ret.

(** default, src/hmac.rs:201-201 *)
Definition g_hmac_Engine_default (cfg : config) (v_E : HashEngine) : res ((hmac_state v_E)) :=
  g_hmac_Engine_new cfg v_E [].

(** n_bytes_hashed, src/hmac.rs:251-251 *)
Definition g_hmac_Engine_n_bytes_hashed (v_E : HashEngine) (v_self : (hmac_state v_E)) : N :=
  he_n_bytes_hashed v_E (iengine v_self).

(** input, src/hmac.rs:248-248 *)
Definition g_hmac_Engine_input (v_E : HashEngine) (v_self : (hmac_state v_E)) (v_data : (list byte)) : res ((hmac_state v_E)) :=
  let* t1 := he_input v_E (iengine v_self) v_data in
  let v_self := mk_hmac t1 (oengine v_self) in
  Ok v_self.

(** finalize, src/hmac.rs:254-258 *)
Definition g_hmac_Engine_finalize (v_E : HashEngine) (v_self : (hmac_state v_E)) : res ((list byte)) :=
  let* v_ihash := he_finalize v_E (iengine v_self) in
  let* t2 := he_input v_E (oengine v_self) v_ihash in
  let v_self := mk_hmac (iengine v_self) t2 in
  he_finalize v_E (oengine v_self).

(** midstate, src/hmac.rs:261-263 *)
Definition g_hmac_Engine_midstate (v_E : HashEngine) (v_self : (hmac_state v_E)) : res ((he_mid v_E * he_mid v_E)) :=
  let* t1 := he_midstate v_E (iengine v_self) in
  let* t2 := he_midstate v_E (oengine v_self) in
  Ok (pair t1 t2).

(** from_midstate, src/hmac.rs:266-271 *)
Definition g_hmac_Engine_from_midstate (v_E : HashEngine) (v_midstate : (he_mid v_E * he_mid v_E)) (v_length : N) : res ((hmac_state v_E)) :=
  let* t1 := he_from_midstate v_E (fst v_midstate) v_length in
  let* t2 := he_from_midstate v_E (snd v_midstate) v_length in
  Ok (mk_hmac t1 t2).

(** impl HashEngine for Engine, src/hmac.rs *)
Definition g_hmac_Engine_dict (cfg : config) (v_E : HashEngine) : HashEngine :=
  {| he_state := (hmac_state v_E);
     he_mid := (he_mid v_E * he_mid v_E);
     he_block_size := he_block_size v_E;
     he_default := g_hmac_Engine_default cfg v_E;
     he_input := g_hmac_Engine_input v_E;
     he_n_bytes_hashed := g_hmac_Engine_n_bytes_hashed v_E;
     he_finalize := g_hmac_Engine_finalize v_E;
     he_midstate := g_hmac_Engine_midstate v_E;
     he_from_midstate := g_hmac_Engine_from_midstate v_E |}.
