(** src/sha1.rs *)
From Verif Require Import Base ModelEngine ModelSha2Round.

(** src/sha1.rs:13 *)
Definition BLOCK_SIZE_SHA1 : N := 64.

(** src/sha1.rs:26 *)
Definition sha1_iv : list N := [0x67452301; 0xefcdab89; 0x98badcfe; 0x10325476; 0xc3d2e1f0].

(** Default for Engine, src/sha1.rs:23-31 *)
Definition sha1_default : engine := mk_engine (array x00 BLOCK_SIZE_SHA1) sha1_iv 0.

(** src/sha1.rs:103-105, [for i in 16..80] *)
Definition sha1_expand (w : list N) : res (list N) :=
  for_loop 64 16 (fun i w =>
    let* w3 := index w (i - 3) in
    let* w8 := index w (i - 8) in
    let* w14 := index w (i - 14) in
    let* w16 := index w (i - 16) in
    store w i (rotate_left 32 1 (N.lxor (N.lxor (N.lxor w3 w8) w14) w16))) w.

(** src/sha1.rs:114-120, the match on the round number *)
Definition sha1_f_k (i b c d : N) : res (N * N) :=
  if i <=? 19 then Ok (N.lor (N.land b c) (N.land (bit_not 32 b) d), 0x5a827999)
  else if i <=? 39 then Ok (N.lxor (N.lxor b c) d, 0x6ed9eba1)
  else if i <=? 59 then
    Ok (N.lor (N.lor (N.land b c) (N.land b d)) (N.land c d), 0x8f1bbcdc)
  else if i <=? 79 then Ok (N.lxor (N.lxor b c) d, 0xca62c1d6)
  else Panic PUnreachable.

(** src/sha1.rs:113-129, [for (i, &wi) in w.iter().enumerate()] *)
Fixpoint sha1_rounds (i : N) (ws : list N) (s : N * N * N * N * N) : res (N * N * N * N * N) :=
  match ws with
  | [] => Ok s
  | wi :: ws' =>
      let '(a, b, c, d, e) := s in
      let* (f, k) := sha1_f_k i b c d in
      let wadd := wrapping_add 32 in
      let new_a := wadd (wadd (wadd (wadd (rotate_left 32 5 a) f) e) k) wi in
      let e := d in
      let d := c in
      let c := rotate_left 32 30 b in
      let b := a in
      let a := new_a in
      sha1_rounds (i + 1) ws' (a, b, c, d, e)
  end.

(** process_block, src/sha1.rs:96-136 *)
Definition sha1_process_block (c : config) (e : engine) : res engine :=
  let* _ := debug_assert c (len (e_buffer e) =? BLOCK_SIZE_SHA1) in
  let* w := zip_assign (array 0 80) (chunks_exact 4 (e_buffer e)) (from_be_bytes 4) in
  let* w := sha1_expand w in
  let h := e_h e in
  let* h0 := index h 0 in
  let* h1 := index h 1 in
  let* h2 := index h 2 in
  let* h3 := index h 3 in
  let* h4 := index h 4 in
  let* (a, b, c', d, e') := sha1_rounds 0 w (h0, h1, h2, h3, h4) in
  Ok (mk_engine (e_buffer e) (add_all 32 h [a; b; c'; d; e']) (e_length e)).

(** input: engine_input_impl!(20), src/sha1.rs:42 *)
Definition sha1_input (c : config) : engine -> bytes -> res engine :=
  engine_input c BLOCK_SIZE_SHA1 (sha1_process_block c).

(** midstate, src/sha1.rs:64-72 *)
Definition sha1_midstate (e : engine) : res bytes := midstate_bytes to_be_bytes 4 20 e.

(** finalize, src/sha1.rs:44-62 *)
Definition sha1_finalize (c : config) (e : engine) : res bytes :=
  let* e := finalize_pad c BLOCK_SIZE_SHA1 (sha1_process_block c) 8
              (fun bits => [to_be_bytes 8 bits]) e in
  sha1_midstate e.

(** from_midstate, src/sha1.rs:81-91 *)
Definition sha1_from_midstate (midstate : bytes) (length : N) : res engine :=
  from_midstate_bytes BLOCK_SIZE_SHA1 4 5 (from_be_bytes 4) midstate length.

(** impl HashEngine for Engine, src/sha1.rs:33-92 *)
Definition sha1_engine (c : config) : HashEngine :=
  {| he_state := engine;
     he_mid := bytes;
     he_block_size := BLOCK_SIZE_SHA1;
     he_default := Ok sha1_default;
     he_input := sha1_input c;
     he_n_bytes_hashed := e_length;
     he_finalize := sha1_finalize c;
     he_midstate := sha1_midstate;
     he_from_midstate := sha1_from_midstate |}.
