(** Vocabulary for the further engine properties (C49-...). *)
From Coq Require Import NArith List Bool.
From Verif Require Import Base SpecBase SpecMD SpecMac ModelEngine ModelAll ModelTypes ModelStore SpecApi SpecStore.
Import ListNotations.
Open Scope N_scope.

(** Two engines with the same chaining value and counter whose buffers agree on
    the bytes that are waiting for their block to be completed.  The rest of the
    buffer is left over from earlier blocks. *)
Definition same_live (B : nat) (s s' : engine) : Prop :=
  length (e_buffer s) = B /\ length (e_buffer s') = B /\
  e_h s = e_h s' /\ e_length s = e_length s' /\
  let n := N.to_nat (e_length s mod N.of_nat B) in
  firstn n (e_buffer s) = firstn n (e_buffer s').

(** A block function made of any function of chaining value and block. *)
Definition block_fn_of (f : list N -> bytes -> list N) (e : engine) : res engine :=
  Ok (mk_engine (e_buffer e) (f (e_h e) (e_buffer e)) (e_length e)).
(** ... of the one that writes down, as a number, every block it is called on. *)
Definition record (h : list N) (b : bytes) : list N := h ++ [be_int b].

(** All engine states are the same record (src/sha512.rs, sha384.rs and
    sha512_256.rs share one struct). *)
Definition engine_state (c : config) (a : algo) : engine -> he_state (algo_engine c a) :=
  match a return engine -> he_state (algo_engine c a) with
  | Sha1 => fun e => e | Sha256 => fun e => e | Sha384 => fun e => e
  | Sha512 => fun e => e | Sha512_256 => fun e => e | Ripemd160 => fun e => e
  end.

(** The digest of a run of one engine: construct, feed, finalize. *)
Definition digest_of (c : config) (o : origin) (chunks : list bytes) : res bytes :=
  let* s := start c o in
  let* s := he_inputs (kind_engine c (origin_kind o)) s chunks in
  he_finalize (kind_engine c (origin_kind o)) s.

(** The byte strings in the definition of an engine are those of a program: a
    tag is at most isize::MAX bytes long (and its bit count is a u64), a key is a
    slice. *)
Fixpoint kind_real (c : config) (k : ekind) : Prop :=
  match k with
  | KAlgo _ | KSip => True
  | KTag tag => len tag < 2 ^ (usize_bits c - 1) /\ 8 * len tag < 2 ^ 64
  | KHmac k => kind_real c k
  end.
Definition origin_real (c : config) (o : origin) : Prop :=
  match o with
  | FromNew k => kind_real c k
  | FromKey k key => kind_real c k /\ slice c key
  | FromKeys k0 k1 => k0 < 2 ^ 64 /\ k1 < 2 ^ 64
  end.

(** The two messages HMAC hashes: inner and outer (RFC 2104). *)
Definition inner_msg (a : algo) (key m : bytes) : bytes :=
  xor_pad x36 (hmac_key (hash_of a) (block_len a) key) ++ m.
Definition outer_msg (a : algo) (key m : bytes) : bytes :=
  xor_pad x5c (hmac_key (hash_of a) (block_len a) key) ++ hash_of a (inner_msg a key m).
(** The calls of the compression function made to hash a message. *)
Definition calls_of (a : algo) (m : bytes) : list (list N * bytes) := calls_with a (8 * len m) m.
(** The output of the HMAC engine. *)
Definition hmac_of (c : config) (a : algo) (key m : bytes) : res bytes :=
  digest_of c (FromKey (KAlgo a) key) [m].
