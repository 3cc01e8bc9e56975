(** Generated by tools/rs2v.py from the Rust source; do not edit. *)
From Verif Require Import Base GenBase ModelEngine ModelTypes ModelIo ModelSip ModelHmac GenLib GenSha1 GenSha256 GenSha512 GenRipemd GenSip GenHmac GenSha256t.

(** write, src/impls.rs:14-17 *)
Definition g_impls_sha1_Engine_write (cfg : config) (v_us : engine) (v_buf : (list byte)) : res ((result N io_error) * engine) :=
  let* v_us := g_sha1_Engine_input cfg v_us v_buf in
  Ok (ROk (len v_buf), v_us).

(** flush, src/impls.rs:18-18 *)
Definition g_impls_sha1_Engine_flush (v_us : engine) : (result unit io_error) * engine :=
  (ROk tt, v_us).

(** write, src/impls.rs:23-26 *)
Definition g_impls_sha256_Engine_write (cfg : config) (v_us : engine) (v_buf : (list byte)) : res ((result N io_error) * engine) :=
  let* v_us := g_sha256_Engine_input cfg v_us v_buf in
  Ok (ROk (len v_buf), v_us).

(** flush, src/impls.rs:27-27 *)
Definition g_impls_sha256_Engine_flush (v_us : engine) : (result unit io_error) * engine :=
  (ROk tt, v_us).

(** write, src/impls.rs:32-35 *)
Definition g_impls_sha512_Engine_write (cfg : config) (v_us : engine) (v_buf : (list byte)) : res ((result N io_error) * engine) :=
  let* v_us := g_sha512_Engine_input cfg v_us v_buf in
  Ok (ROk (len v_buf), v_us).

(** flush, src/impls.rs:36-36 *)
Definition g_impls_sha512_Engine_flush (v_us : engine) : (result unit io_error) * engine :=
  (ROk tt, v_us).

(** write, src/impls.rs:41-44 *)
Definition g_impls_ripemd160_Engine_write (cfg : config) (v_us : engine) (v_buf : (list byte)) : res ((result N io_error) * engine) :=
  let* v_us := g_ripemd160_Engine_input cfg v_us v_buf in
  Ok (ROk (len v_buf), v_us).

(** flush, src/impls.rs:45-45 *)
Definition g_impls_ripemd160_Engine_flush (v_us : engine) : (result unit io_error) * engine :=
  (ROk tt, v_us).

(** write, src/impls.rs:50-53 *)
Definition g_impls_siphash24_Engine_write (cfg : config) (v_us : sip_engine) (v_buf : (list byte)) : res ((result N io_error) * sip_engine) :=
  let* v_us := g_siphash24_Engine_input cfg v_us v_buf in
  Ok (ROk (len v_buf), v_us).

(** flush, src/impls.rs:54-54 *)
Definition g_impls_siphash24_Engine_flush (v_us : sip_engine) : (result unit io_error) * sip_engine :=
  (ROk tt, v_us).

(** write, src/impls.rs:82-85 *)
Definition g_impls_sha256t_Engine_write (cfg : config) (v_T : res engine) (v_us : engine) (v_buf : (list byte)) : res ((result N io_error) * engine) :=
  let* v_us := g_sha256t_Engine_input cfg v_T v_us v_buf in
  Ok (ROk (len v_buf), v_us).

(** flush, src/impls.rs:86-86 *)
Definition g_impls_sha256t_Engine_flush (v_T : res engine) (v_us : engine) : (result unit io_error) * engine :=
  (ROk tt, v_us).

(** write, src/impls.rs:59-62 *)
Definition g_impls_hmac_Engine_write (v_E : HashEngine) (v_self : (hmac_state v_E)) (v_buf : (list byte)) : res ((result N io_error) * (hmac_state v_E)) :=
  let* v_self := g_hmac_Engine_input v_E v_self v_buf in
  Ok (ROk (len v_buf), v_self).

(** flush, src/impls.rs:65-65 *)
Definition g_impls_hmac_Engine_flush (v_E : HashEngine) (v_self : (hmac_state v_E)) : (result unit io_error) * (hmac_state v_E) :=
  (ROk tt, v_self).

(** write, src/impls.rs:71-74 *)
Definition g_impls_hmac_Engine_write_std (v_E : HashEngine) (v_self : (hmac_state v_E)) (v_buf : (list byte)) : res ((result N io_error) * (hmac_state v_E)) :=
  let* v_self := g_hmac_Engine_input v_E v_self v_buf in
  Ok (ROk (len v_buf), v_self).

(** flush, src/impls.rs:77-77 *)
Definition g_impls_hmac_Engine_flush_std (v_E : HashEngine) (v_self : (hmac_state v_E)) : (result unit io_error) * (hmac_state v_E) :=
  (ROk tt, v_self).
