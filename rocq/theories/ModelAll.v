(** The engines of the crate, selected by name. *)
From Verif Require Import Base ModelEngine ModelSha256 ModelSha512 ModelSha1 ModelRipemd SpecMD.

Definition algo_engine (c : config) (a : algo) : HashEngine :=
  match a with
  | Sha1 => sha1_engine c
  | Sha256 => sha256_engine c
  | Sha384 => sha384_engine c
  | Sha512 => sha512_engine c
  | Sha512_256 => sha512_256_engine c
  | Ripemd160 => ripemd160_engine c
  end.

(** A slice of a program: its length is a [usize]. *)
Definition slice (c : config) (d : bytes) : Prop := len d < 2 ^ usize_bits c.

(** States a user can obtain through the trait: from [new]/[default], from
    [from_midstate] with a midstate of the right length and a [usize], and by
    [input].  (Cloning gives the same value.) *)
Inductive reachable (c : config) (E : HashEngine) (mid_ok : he_mid E -> Prop) : he_state E -> Prop :=
| reach_new s : he_default E = Ok s -> reachable c E mid_ok s
| reach_mid m n s : mid_ok m -> n < 2 ^ usize_bits c ->
    he_from_midstate E m n = Ok s -> reachable c E mid_ok s
| reach_input s d s' : reachable c E mid_ok s -> slice c d -> he_input E s d = Ok s' -> reachable c E mid_ok s'.

(** Midstates are arrays of fixed length: src/sha1.rs [[u8; 20]],
    src/sha256.rs Midstate([u8; 32]), src/sha512.rs [[u8; 64]], ... *)
Definition mid_len (a : algo) : nat :=
  match a with Sha1 | Ripemd160 => 20 | Sha256 => 32 | _ => 64 end.
Definition algo_mid_ok (c : config) (a : algo) : he_mid (algo_engine c a) -> Prop :=
  match a return he_mid (algo_engine c a) -> Prop with
  | Sha1 | Ripemd160 => fun m : bytes => length m = 20%nat
  | Sha256 => fun m : bytes => length m = 32%nat
  | Sha384 | Sha512 | Sha512_256 => fun m : bytes => length m = 64%nat
  end.
Definition algo_reachable (c : config) (a : algo) : he_state (algo_engine c a) -> Prop :=
  reachable c (algo_engine c a) (algo_mid_ok c a).

(** process_block of each engine *)
Definition block_fn (c : config) (a : algo) : engine -> res engine :=
  match a with
  | Sha1 => sha1_process_block c
  | Sha256 => sha256_process_block c
  | Ripemd160 => ripemd_process_block c
  | _ => sha512_process_block c
  end.
