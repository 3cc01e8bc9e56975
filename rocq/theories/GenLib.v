(** Generated by tools/rs2v.py from the Rust source; do not edit. *)
From Verif Require Import Base GenBase ModelEngine.

(** new, src/lib.rs:155-155 *)
Definition g_lib_HashEngine_new (v_Self : HashEngine) : res ((he_state v_Self)) :=
  he_default v_Self.

(** hash, src/lib.rs:171-175 *)
Definition g_lib_HashEngine_hash (v_Self : HashEngine) (v_bytes : (list byte)) : res ((list byte)) :=
  let* v_engine := g_lib_HashEngine_new v_Self in
  let* v_engine := he_input v_Self v_engine v_bytes in
  he_finalize v_Self v_engine.

(** hash_byte_chunks, src/lib.rs:178-188 *)
Definition g_lib_HashEngine_hash_byte_chunks (v_Self : HashEngine) (v_byte_slices : (list (list byte))) : res ((list byte)) :=
  let* v_engine := g_lib_HashEngine_new v_Self in
  let* v_engine := for_each v_byte_slices (fun v_slice v_engine =>
      he_input v_Self v_engine v_slice) v_engine in
  he_finalize v_Self v_engine.
