(** Generated by tools/rs2v.py from the Rust source; do not edit. *)
From Verif Require Import Base ModelEngine GenSha256t TraceLib TraceSha256 GenBase TraceBase.

(** default, src/sha256t.rs:15-15 *)
Definition t_sha256t_Engine_default (v_T : tm engine) : tm (engine) :=
  v_T.

(** input, src/sha256t.rs:27-27 *)
Definition t_sha256t_Engine_input (cfg : config) (v_T : tm engine) (v_self : engine) (v_data : (list byte)) : tm (engine) :=
  t_sha256_Engine_input cfg v_self v_data.

(** finalize, src/sha256t.rs:33-33 *)
Definition t_sha256t_Engine_finalize (cfg : config) (v_T : tm engine) (v_self : engine) : tm ((list byte)) :=
  t_sha256_Engine_finalize cfg v_self.

(** midstate, src/sha256t.rs:36-36 *)
Definition t_sha256t_Engine_midstate (v_T : tm engine) (v_self : engine) : tm ((list byte)) :=
  t_sha256_Engine_midstate v_self.

(** from_midstate, src/sha256t.rs:39-42 *)
Definition t_sha256t_Engine_from_midstate (v_T : tm engine) (v_midstate : (list byte)) (v_length : N) : tm (engine) :=
  t_sha256_Engine_from_midstate v_midstate v_length.

(** impl HashEngine for Engine, src/sha256t.rs *)
Definition t_sha256t_Engine_dict (cfg : config) (v_T : tm engine) : tengine (g_sha256t_Engine_dict cfg (snd v_T)) :=
  mk_tengine (g_sha256t_Engine_dict cfg (snd v_T))
    (t_sha256t_Engine_default v_T)
    (t_sha256t_Engine_input cfg v_T)
    (t_sha256t_Engine_finalize cfg v_T)
    (t_sha256t_Engine_midstate v_T)
    (t_sha256t_Engine_from_midstate v_T).
