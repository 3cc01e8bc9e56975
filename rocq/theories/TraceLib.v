(** Generated by tools/rs2v.py from the Rust source; do not edit. *)
From Verif Require Import Base ModelEngine GenBase TraceBase.

(** new, src/lib.rs:155-155 *)
Definition t_lib_HashEngine_new {v_Self : HashEngine} (l_Self : tengine v_Self) : tm ((he_state v_Self)) :=
  te_default l_Self.

(** hash, src/lib.rs:171-175 *)
Definition t_lib_HashEngine_hash {v_Self : HashEngine} (l_Self : tengine v_Self) (v_bytes : (list byte)) : tm ((list byte)) :=
  let! v_engine := t_lib_HashEngine_new l_Self in
  let! v_engine := te_input l_Self v_engine v_bytes in
  te_finalize l_Self v_engine.

(** hash_byte_chunks, src/lib.rs:178-188 *)
Definition t_lib_HashEngine_hash_byte_chunks {v_Self : HashEngine} (l_Self : tengine v_Self) (v_byte_slices : (list (list byte))) : tm ((list byte)) :=
  let! v_engine := t_lib_HashEngine_new l_Self in
  let! v_engine := t_for_each v_byte_slices (fun v_slice v_engine =>
      te_input l_Self v_engine v_slice) v_engine in
  te_finalize l_Self v_engine.
