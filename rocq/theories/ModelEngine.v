(** The buffering code shared by sha1, sha256, sha512 and ripemd160, and the
    HashEngine trait. *)
From Verif Require Import Base.

(** The fields of [sha256::Engine] (src/sha256.rs:25-29), [sha512::Engine]
    (src/sha512.rs), [sha1::Engine] (src/sha1.rs), [ripemd160::Engine]
    (src/ripemd160.rs).  The array lengths are not in the type; they are part
    of the invariant proved in ProofEngine.v. *)
Record engine : Type := mk_engine {
  e_buffer : bytes;
  e_h : list N;
  e_length : N
}.

(** [engine_input_impl!], src/internal_macros.rs:19-36: one iteration of the
    [while] loop, returning the new engine and the remaining input. *)
Definition input_step (c : config) (block_size : N)
    (process_block : engine -> res engine) (e : engine) (inp : bytes)
    : res (engine * bytes) :=
  let buf_idx := e_length e mod block_size in                     (* :24 *)
  let* rem_len := usize_sub c block_size buf_idx in               (* :25 *)
  let write_len := N.min rem_len (len inp) in                     (* :26 *)
  let* hi := usize_add c buf_idx write_len in                     (* :28 *)
  let* src := slice_to write_len inp in                           (* :29 *)
  let* buf := copy_range (e_buffer e) buf_idx hi src in           (* :28-29 *)
  let* length' := usize_add c (e_length e) write_len in           (* :30 *)
  let e1 := mk_engine buf (e_h e) length' in
  let* e2 := if length' mod block_size =? 0
             then process_block e1 else Ok e1 in                  (* :31-33 *)
  let* rest := slice_from write_len inp in                        (* :34 *)
  Ok (e2, rest).

(** src/internal_macros.rs:22-36, the loop.  Fuel: every iteration consumes at
    least one byte, so [length inp] iterations suffice (proved). *)
Fixpoint input_loop (fuel : nat) (c : config) (block_size : N)
    (process_block : engine -> res engine) (e : engine) (inp : bytes)
    : res engine :=
  match inp with
  | [] => Ok e
  | _ :: _ =>
      match fuel with
      | O => Panic POutOfFuel
      | S f =>
          let* (e', rest) := input_step c block_size process_block e inp in
          input_loop f c block_size process_block e' rest
      end
  end.

Definition engine_input (c : config) (block_size : N)
    (process_block : engine -> res engine) (e : engine) (inp : bytes)
    : res engine :=
  input_loop (length inp) c block_size process_block e inp.

(** Successive [input] calls on the same engine. *)
Fixpoint engine_inputs (c : config) (block_size : N)
    (process_block : engine -> res engine) (e : engine) (l : list bytes) : res engine :=
  match l with
  | [] => Ok e
  | d :: ds => let* e' := engine_input c block_size process_block e d in
               engine_inputs c block_size process_block e' ds
  end.

(** [finalize] up to the final [midstate] call: src/sha256.rs:56-71,
    src/sha1.rs:46-60, src/ripemd160.rs:46-61, src/sha512.rs:78-93.  The four
    Rust bodies are the same text up to two points, which are parameters:
    [reserve] is the number of bytes left for the length ([zeroes] has
    [BLOCK_SIZE - reserve] elements; 8, or 16 for sha512), and [tail bits] is
    the list of slices fed after the zero padding: [8 * data_len] big-endian,
    little-endian for ripemd160, preceded by [[0; 8]] for sha512. *)
Definition finalize_pad (c : config) (block_size : N)
    (process_block : engine -> res engine) (reserve : N) (tail : N -> list bytes)
    (e : engine) : res engine :=
  let input := engine_input c block_size process_block in
  let data_len := e_length e in                                   (* as u64 *)
  let zeroes := array x00 (block_size - reserve) in
  let* e := input e [x80] in
  let* e := if len zeroes <? e_length e mod block_size
            then input e zeroes else Ok e in
  let* pad_length := usize_sub c (len zeroes) (e_length e mod block_size) in
  let* pad := slice_to pad_length zeroes in
  let* e := input e pad in
  let* _ := debug_assert c (e_length e mod block_size =? len zeroes) in
  let* bits := checked_mul c 64 8 data_len in
  let* e := engine_inputs c block_size process_block e (tail bits) in
  let* _ := debug_assert c (e_length e mod block_size =? 0) in
  Ok e.

(** [midstate]: the words of [h] written into a zero array of [n] bytes in
    pieces of [k] bytes.  src/sha256.rs:88-93, src/sha512.rs:107-112,
    src/sha1.rs:66-71, src/ripemd160.rs:74-79. *)
Definition midstate_bytes (to_bytes : nat -> N -> bytes) (k : nat) (n : N) (e : engine) : res bytes :=
  zip_copy (map (to_bytes k) (e_h e)) k (array x00 n).

(** [from_midstate], src/sha256.rs:103-113 and :434-443 (inherent copy),
    src/sha512.rs:122-132, src/sha1.rs:81-91, src/ripemd160.rs:89-99: [n]
    words, pieces of [chunk] bytes, each converted by [from_bytes]. *)
Definition from_midstate_bytes (block_size : N) (chunk : nat) (n : N)
    (from_bytes : bytes -> res N) (midstate : bytes) (length : N) : res engine :=
  let* _ := assert (length mod block_size =? 0) in
  let* ret := zip_assign (array 0 n) (chunks_exact chunk midstate) from_bytes in
  Ok (mk_engine (array x00 block_size) ret length).

(** The trait [HashEngine], src/lib.rs:133-198.  [Digest] and byte-array
    midstates are byte lists; [he_midstate] and [he_from_midstate] may panic.
    [he_default] is [Default::default]; the provided method [new]
    (src/lib.rs:155) is the same. *)
Record HashEngine : Type := {
  he_state : Type;
  he_mid : Type;
  he_block_size : N;
  he_default : res he_state;
  he_input : he_state -> bytes -> res he_state;
  he_n_bytes_hashed : he_state -> N;
  he_finalize : he_state -> res bytes;
  he_midstate : he_state -> res he_mid;
  he_from_midstate : he_mid -> N -> res he_state
}.

(** A sequence of [input] calls. *)
Fixpoint he_inputs (E : HashEngine) (s : he_state E) (chunks : list bytes) : res (he_state E) :=
  match chunks with
  | [] => Ok s
  | d :: ds => let* s' := he_input E s d in he_inputs E s' ds
  end.

(** Provided method [hash], src/lib.rs:171-175; also the inherent
    [Hash::hash], src/internal_macros.rs:158-162. *)
Definition he_hash (E : HashEngine) (data : bytes) : res bytes :=
  let* s := he_default E in
  let* s := he_input E s data in
  he_finalize E s.

(** Provided method [hash_byte_chunks], src/lib.rs:178-188. *)
Definition he_hash_byte_chunks (E : HashEngine) (chunks : list bytes) : res bytes :=
  let* s := he_default E in
  let* s := he_inputs E s chunks in
  he_finalize E s.
