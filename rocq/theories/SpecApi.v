(** Vocabulary of the property statements that talks about the API: which
    lengths are in range, what it means for an engine to compute a hash
    function, what can be observed of an engine. *)
From Coq Require Import NArith List Bool.
From Verif Require Import Base SpecBase SpecMD ModelEngine ModelSip ModelHmac ModelAll.
Import ListNotations.
Open Scope N_scope.

(** The message lengths for which the result is the standard digest.  With
    overflow checks the counter must also hold the padding. *)
Definition fits (c : config) (a : algo) (n : nat) : Prop :=
  8 * N.of_nat n < 2 ^ 64 /\
  N.of_nat (if overflow_checks c then md_padded (md_of a) n else n) < 2 ^ usize_bits c.

(** Feeding pieces is feeding the concatenation, from state [s]. *)
Definition splits (E : HashEngine) (s : he_state E) : Prop :=
  forall chunks, he_inputs E s chunks = he_input E s (List.concat chunks).

(** An engine that computes the function [H] on every message whose length is
    in [fits], however the message is split. *)
Definition lawful (E : HashEngine) (H : bytes -> bytes) (fits : nat -> Prop) : Prop :=
  forall chunks, fits (length (List.concat chunks)) ->
    he_hash_byte_chunks E chunks = Ok (H (List.concat chunks)).

(** What a user can see of an engine after feeding it more slices: the panic,
    or the midstate, the byte count and the digest (or the panic of
    [finalize]). *)
Definition observe (E : HashEngine) (s : he_state E) (chunks : list bytes)
    : res (res (he_mid E) * N * res bytes) :=
  let* s' := he_inputs E s chunks in
  Ok (he_midstate E s', he_n_bytes_hashed E s', he_finalize E s').

(** [from_midstate(engine.midstate(), engine.n_bytes_hashed())] *)
Definition resume (E : HashEngine) (s : he_state E) : res (he_state E) :=
  let* m := he_midstate E s in
  he_from_midstate E m (he_n_bytes_hashed E s).

(** The (chaining value, block) pairs on which the compression function is
    called when the blocks of [l] are processed from [h], in order. *)
Fixpoint calls (f : list N -> bytes -> list N) (h : list N) (bs : list bytes) : list (list N * bytes) :=
  match bs with
  | [] => []
  | b :: bs => (h, b) :: calls f (f h b) bs
  end.

(** The calls made to hash [m] when the length field says [bits], and the
    chaining value they end in.  The digest is a prefix of its bytes. *)
Definition calls_with (a : algo) (bits : N) (m : bytes) : list (list N * bytes) :=
  calls (md_compress (md_of a)) (md_iv (md_of a)) (blocks (block_len a) (md_pad_with (md_of a) bits m)).
Definition final_with (a : algo) (bits : N) (m : bytes) : list N :=
  md_iterate (md_of a) (md_iv (md_of a)) (md_pad_with (md_of a) bits m).

(** The code's block function on such a pair. *)
Definition block_out (c : config) (a : algo) (p : list N * bytes) : res (list N) :=
  let* e := block_fn c a (mk_engine (snd p) (fst p) 0) in Ok (e_h e).

(** Two different calls, one in each list, on which the code's block function
    returns the same chaining value. *)
Definition call_collision (c : config) (a : algo) (l l' : list (list N * bytes)) : Prop :=
  exists p p' y, In p l /\ In p' l' /\ p <> p' /\ block_out c a p = Ok y /\ block_out c a p' = Ok y.

(** However the same bytes are cut into slices, the engine ends in the same
    state (or panics in the same way). *)
Definition split_insensitive (c : config) (E : HashEngine) (s : he_state E) : Prop :=
  forall chunks chunks', Forall (slice c) chunks -> Forall (slice c) chunks' ->
    List.concat chunks = List.concat chunks' ->
    he_inputs E s chunks = he_inputs E s chunks'.

(** Midstates of the types of the code: four u64 for SipHash, two midstates of
    the inner engine for HMAC. *)
Definition sip_mid_ok (m : sip_state) : Prop := v0 m < 2 ^ 64 /\ v1 m < 2 ^ 64 /\ v2 m < 2 ^ 64 /\ v3 m < 2 ^ 64.
Definition hmac_mid_ok {E} (ok : he_mid E -> Prop) (m : he_mid E * he_mid E) : Prop := ok (fst m) /\ ok (snd m).

(** States of the SipHash engine, [with_keys] included. *)
Inductive sip_reachable (c : config) : sip_engine -> Prop :=
| sip_reach_keys k0 k1 : k0 < 2 ^ 64 -> k1 < 2 ^ 64 -> sip_reachable c (with_keys k0 k1)
| sip_reach_mid m n : sip_mid_ok m -> n < 2 ^ usize_bits c -> sip_reachable c (sip_from_midstate m n)
| sip_reach_input s d s' : sip_reachable c s -> slice c d -> sip_input c s d = Ok s' -> sip_reachable c s'.

(** States of the HMAC engine, [HmacEngine::new(key)] included. *)
Inductive hmac_reachable (c : config) (E : HashEngine) (ok : he_mid E -> Prop) : hmac_state E -> Prop :=
| hmac_reach_new key s : hmac_new c E key = Ok s -> hmac_reachable c E ok s
| hmac_reach_mid m n s : hmac_mid_ok ok m -> n < 2 ^ usize_bits c ->
    he_from_midstate (hmac_engine c E) m n = Ok s -> hmac_reachable c E ok s
| hmac_reach_input s d s' : hmac_reachable c E ok s -> slice c d ->
    he_input (hmac_engine c E) s d = Ok s' -> hmac_reachable c E ok s'.

(** A target, for the concrete cases: portable code, little-endian. *)
Definition target (bits : N) (checks : bool) : config :=
  {| usize_bits := bits; overflow_checks := checks; debug_assertions := checks;
     small_hash := false; sha_ni := false; big_endian := false |}.
Definition with_sha_ni (c : config) : config :=
  {| usize_bits := usize_bits c; overflow_checks := overflow_checks c;
     debug_assertions := debug_assertions c; small_hash := small_hash c;
     sha_ni := true; big_endian := big_endian c |}.
Definition with_small_hash (c : config) : config :=
  {| usize_bits := usize_bits c; overflow_checks := overflow_checks c;
     debug_assertions := debug_assertions c; small_hash := true;
     sha_ni := sha_ni c; big_endian := big_endian c |}.
Definition with_byte_order (big : bool) (c : config) : config :=
  {| usize_bits := usize_bits c; overflow_checks := overflow_checks c;
     debug_assertions := debug_assertions c; small_hash := small_hash c;
     sha_ni := sha_ni c; big_endian := big |}.
