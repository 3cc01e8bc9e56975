(** More of the hash value types: the constructors that run an engine,
    core::hash::Hash, and the text of FromSliceError. *)
From Coq Require Import Strings.Byte Strings.String.
From Verif Require Import Base ModelEngine ModelTypes ModelStore.
Open Scope list_scope.

(** ** Hash::engine, Hash::from_engine, Hash::hash

    Of the macro types (src/internal_macros.rs:158-172), of sha256t::Hash
    (src/sha256t.rs:65-80) and, without [hash], of hmac::Hash
    (src/hmac.rs:23-40; there the engine type is a parameter). *)
Definition ty_engine (c : config) (k : ekind) : res (he_state (kind_engine c k)) :=
  he_default (kind_engine c k).
Definition ty_from_engine (c : config) (k : ekind) (engine : he_state (kind_engine c k)) : res bytes :=
  let* digest := he_finalize (kind_engine c k) engine in
  Ok (from_byte_array digest).
Definition ty_hash (c : config) (k : ekind) (data : bytes) : res bytes :=
  let* engine := ty_engine c k in
  let* engine := he_input (kind_engine c k) engine data in
  let* digest := he_finalize (kind_engine c k) engine in
  Ok (from_byte_array digest).

(** ** core::hash::Hash

    Derived (src/internal_macros.rs:144, src/hmac.rs:18, src/sha256.rs:124), by
    hand for sha256t (src/sha256t.rs:165-167): the only field is hashed, an
    array.  Arrays hash as slices; a slice of u8 calls [write_length_prefix],
    which is [write_usize], with its length, then [write] once with the bytes
    (core::hash). *)
Inductive hasher_call : Set :=
| WriteUsize (n : N)
| Write (b : bytes).
Definition slice_hash (b : bytes) : list hasher_call := [WriteUsize (len b); Write b].
Definition array_hash (b : bytes) : list hasher_call := slice_hash b.
Definition hash_hash (t : hash_ty) (h : bytes) : list hasher_call := array_hash h.

(** A [Hasher] is a state with these two operations. *)
Definition run_hasher {S : Type} (write_usize : S -> N -> S) (write : S -> bytes -> S)
    (calls : list hasher_call) (s : S) : S :=
  fold_left (fun s x => match x with WriteUsize n => write_usize s n | Write b => write s b end) calls s.
(** The provided [write_usize] of [Hasher]: [self.write(&i.to_ne_bytes())].  The
    bytes that a hasher with this method sees: *)
Definition to_ne_bytes (c : config) (n : N) : bytes :=
  let k := N.to_nat (usize_bits c / 8) in
  if big_endian c then to_be_bytes k n else to_le_bytes k n.
Definition hasher_bytes (c : config) (calls : list hasher_call) : bytes :=
  List.concat (map (fun x => match x with WriteUsize n => to_ne_bytes c n | Write b => b end) calls).

(** ** Display of FromSliceError, src/lib.rs:220-224

    [{}] of a usize: core writes the decimal digits from the last to the first,
    until the quotient is zero. *)
Fixpoint fmt_usize_fuel (fuel : nat) (n : N) (acc : bytes) : bytes :=
  match fuel with
  | O => acc
  | S fuel =>
      let acc := u8 (48 + n mod 10) :: acc in
      if n / 10 =? 0 then acc else fmt_usize_fuel fuel (n / 10) acc
  end.
Definition fmt_usize (n : N) : bytes := fmt_usize_fuel (S (N.to_nat (N.size n))) n [].
Definition fse_display (e : from_slice_error) : bytes :=
  list_byte_of_string "invalid slice length " ++ fmt_usize (got e) ++
  list_byte_of_string " (expected " ++ fmt_usize (expected e) ++ list_byte_of_string ")".
