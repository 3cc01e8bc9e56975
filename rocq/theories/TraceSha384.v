(** Generated by tools/rs2v.py from the Rust source; do not edit. *)
From Verif Require Import Base ModelEngine GenSha512 GenSha384 TraceLib TraceSha512 GenBase TraceBase.

(** input, src/sha384.rs:34-34 *)
Definition t_sha384_Engine_input (cfg : config) (v_self : engine) (v_data : (list byte)) : tm (engine) :=
  t_sha512_Engine_input cfg v_self v_data.

(** finalize, src/sha384.rs:37-41 *)
Definition t_sha384_Engine_finalize (cfg : config) (v_self : engine) : tm ((list byte)) :=
  let v_ret := array x00 48 in
  let! t1 := t_sha512_Engine_finalize cfg v_self in
  let! t2 := t_slice_to 48 t1 in
  t_copy_from_slice v_ret t2.

(** midstate, src/sha384.rs:44-44 *)
Definition t_sha384_Engine_midstate (v_self : engine) : tm ((list byte)) :=
  t_sha512_Engine_midstate v_self.

(** from_midstate, src/sha384.rs:47-49 *)
Definition t_sha384_Engine_from_midstate (v_midstate : (list byte)) (v_length : N) : tm (engine) :=
  t_sha512_Engine_from_midstate v_midstate v_length.

(** impl HashEngine for Engine, src/sha384.rs *)
Definition t_sha384_Engine_dict (cfg : config) : tengine (g_sha384_Engine_dict cfg) :=
  mk_tengine (g_sha384_Engine_dict cfg)
    (tret g_sha384_Engine_default)
    (t_sha384_Engine_input cfg)
    (t_sha384_Engine_finalize cfg)
    (t_sha384_Engine_midstate)
    (t_sha384_Engine_from_midstate).

(** input, src/sha512_256.rs:44-44 *)
Definition t_sha512_256_Engine_input (cfg : config) (v_self : engine) (v_data : (list byte)) : tm (engine) :=
  t_sha512_Engine_input cfg v_self v_data.

(** finalize, src/sha512_256.rs:47-52 *)
Definition t_sha512_256_Engine_finalize (cfg : config) (v_self : engine) : tm ((list byte)) :=
  let! v_sha512 := t_sha512_Engine_finalize cfg v_self in
  let v_hash := array x00 32 in
  let! t2 := t_slice_to 32 v_sha512 in
  t_copy_from_slice v_hash t2.

(** midstate, src/sha512_256.rs:55-55 *)
Definition t_sha512_256_Engine_midstate (v_self : engine) : tm ((list byte)) :=
  t_sha512_Engine_midstate v_self.

(** from_midstate, src/sha512_256.rs:58-60 *)
Definition t_sha512_256_Engine_from_midstate (v_midstate : (list byte)) (v_length : N) : tm (engine) :=
  t_sha512_Engine_from_midstate v_midstate v_length.

(** impl HashEngine for Engine, src/sha512_256.rs *)
Definition t_sha512_256_Engine_dict (cfg : config) : tengine (g_sha512_256_Engine_dict cfg) :=
  mk_tengine (g_sha512_256_Engine_dict cfg)
    (tret g_sha512_256_Engine_default)
    (t_sha512_256_Engine_input cfg)
    (t_sha512_256_Engine_finalize cfg)
    (t_sha512_256_Engine_midstate)
    (t_sha512_256_Engine_from_midstate).
