(** src/hmac.rs (engine part) and src/sha256t.rs (engine part) *)
From Verif Require Import Base ModelEngine ModelSha256.

(** [for (b_i, b_h) in pad.iter_mut().zip(key) { *b_i ^= *b_h }],
    src/hmac.rs:221-234 *)
Fixpoint xor_zip (pad key : bytes) : bytes :=
  match pad, key with
  | p :: ps, k :: ks => u8_xor p k :: xor_zip ps ks
  | _, _ => pad
  end.

(** struct Engine<E>, src/hmac.rs:194-198 *)
Record hmac_state (E : HashEngine) : Type := mk_hmac {
  iengine : he_state E;
  oengine : he_state E
}.
Arguments mk_hmac {E} _ _.
Arguments iengine {E} _.
Arguments oengine {E} _.

(** Engine::new, src/hmac.rs:212-239 *)
Definition hmac_new (c : config) (E : HashEngine) (key : bytes) : res (hmac_state E) :=
  let* _ := debug_assert c (he_block_size E <=? 128) in
  let ipad := array x36 128 in
  let opad := array x5c 128 in
  let* ie := he_default E in
  let* oe := he_default E in
  let* (ipad, opad) :=
    if he_block_size E <? len key then
      let* hash := he_hash E key in
      Ok (xor_zip ipad hash, xor_zip opad hash)
    else Ok (xor_zip ipad key, xor_zip opad key) in
  let* ib := slice_to (he_block_size E) ipad in
  let* ie := he_input E ie ib in
  let* ob := slice_to (he_block_size E) opad in
  let* oe := he_input E oe ob in
  Ok (mk_hmac ie oe).

(** impl HashEngine for Engine<E>, src/hmac.rs:200-202 (Default), 242-272 *)
Definition hmac_engine (c : config) (E : HashEngine) : HashEngine :=
  {| he_state := hmac_state E;
     he_mid := he_mid E * he_mid E;
     he_block_size := he_block_size E;
     he_default := hmac_new c E [];
     he_input := fun s d =>
       let* ie := he_input E (iengine s) d in Ok (mk_hmac ie (oengine s));
     he_n_bytes_hashed := fun s => he_n_bytes_hashed E (iengine s);
     he_finalize := fun s =>
       let* ihash := he_finalize E (iengine s) in
       let* oe := he_input E (oengine s) ihash in
       he_finalize E oe;
     he_midstate := fun s =>
       let* mi := he_midstate E (iengine s) in
       let* mo := he_midstate E (oengine s) in
       Ok (mi, mo);
     he_from_midstate := fun m n =>
       let* ie := he_from_midstate E (fst m) n in
       let* oe := he_from_midstate E (snd m) n in
       Ok (mk_hmac ie oe) |}.

(** sha256t::Engine<T>, src/sha256t.rs:10-42.  A tag type is modelled by its
    only method [Tag::engine] (src/sha256t.rs:45-48), i.e. by the sha256 engine
    it starts from; [new] and [default] both return it. *)
Definition sha256t_engine (c : config) (tag_engine : res engine) : HashEngine :=
  {| he_state := engine;
     he_mid := bytes;
     he_block_size := BLOCK_SIZE_256;
     he_default := tag_engine;
     he_input := sha256_input c;
     he_n_bytes_hashed := e_length;
     he_finalize := sha256_finalize c;
     he_midstate := sha256_midstate;
     he_from_midstate := sha256_from_midstate |}.

(** The engine of a tag as a user writes [Tag::engine] (src/sha256t.rs:178-182
    is an instance with a literal midstate): the midstate of [hash_tag], after
    64 bytes. *)
Definition tag_engine (c : config) (tag : bytes) : res engine :=
  let* mid := hash_tag c tag in
  sha256_from_midstate mid 64.
