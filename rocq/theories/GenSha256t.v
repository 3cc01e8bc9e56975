(** Generated by tools/rs2v.py from the Rust source; do not edit. *)
From Verif Require Import Base GenBase ModelEngine GenLib GenSha256.

(** default, src/sha256t.rs:15-15 *)
Definition g_sha256t_Engine_default (v_T : res engine) : res (engine) :=
  v_T.

(** n_bytes_hashed, src/sha256t.rs:30-30 *)
Definition g_sha256t_Engine_n_bytes_hashed (v_T : res engine) (v_self : engine) : N :=
  g_sha256_Engine_n_bytes_hashed v_self.

(** input, src/sha256t.rs:27-27 *)
Definition g_sha256t_Engine_input (cfg : config) (v_T : res engine) (v_self : engine) (v_data : (list byte)) : res (engine) :=
  g_sha256_Engine_input cfg v_self v_data.

(** finalize, src/sha256t.rs:33-33 *)
Definition g_sha256t_Engine_finalize (cfg : config) (v_T : res engine) (v_self : engine) : res ((list byte)) :=
  g_sha256_Engine_finalize cfg v_self.

(** midstate, src/sha256t.rs:36-36 *)
Definition g_sha256t_Engine_midstate (v_T : res engine) (v_self : engine) : res ((list byte)) :=
  g_sha256_Engine_midstate v_self.

(** from_midstate, src/sha256t.rs:39-42 *)
Definition g_sha256t_Engine_from_midstate (v_T : res engine) (v_midstate : (list byte)) (v_length : N) : res (engine) :=
  g_sha256_Engine_from_midstate v_midstate v_length.

(** impl HashEngine for Engine, src/sha256t.rs *)
Definition g_sha256t_Engine_dict (cfg : config) (v_T : res engine) : HashEngine :=
  {| he_state := engine;
     he_mid := (list byte);
     he_block_size := 64;
     he_default := g_sha256t_Engine_default v_T;
     he_input := g_sha256t_Engine_input cfg v_T;
     he_n_bytes_hashed := g_sha256t_Engine_n_bytes_hashed v_T;
     he_finalize := g_sha256t_Engine_finalize cfg v_T;
     he_midstate := g_sha256t_Engine_midstate v_T;
     he_from_midstate := g_sha256t_Engine_from_midstate v_T |}.
