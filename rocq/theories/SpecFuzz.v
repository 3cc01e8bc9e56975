(** What the build for fuzzing ([--cfg hashes_fuzz]) computes instead of hashes,
    and when the variables of a function are all declared. *)
From Coq Require Import NArith List Bool String.
From Coq Require Import Strings.Byte.
From Verif Require Import SpecBase SpecMD SpecMac ScopeBase Base ModelEngine GenFuzz.
Import ListNotations.
Open Scope N_scope.

(** ** Declared variables

    [free x s]: [s] uses the variable [x] outside every declaration of it.  A
    function is accepted only if nothing is free in it (E0425 of the Rust
    compiler). *)
Inductive free (x : string) : scope -> Prop :=
| free_var : free x (SVar x)
| free_node l s : In s l -> free x s -> free x (SNode l)
| free_init xs i b : free x i -> free x (SLet xs i b)
| free_body xs i b : ~ In x xs -> free x b -> free x (SLet xs i b).
Definition declared (f : scoped) : Prop := forall x, ~ free x (sc_body f).

(** ** The stand-ins for the hash functions

    The exclusive or of all octets, and a digest of [k] octets that is 0 but for
    the first. *)
Definition xor_all (m : list byte) : N := fold_right (fun b x => N.lxor (Byte.to_N b) x) 0 m.
Definition one_octet (k : nat) (x : N) : list byte := octet x :: repeat x00 (k - 1).
Definition fuzz_hash (a : algo) (m : list byte) : list byte :=
  match a with
  | Sha256 => one_octet 32 (if xor_all m =? 0 then 1 else xor_all m)
  | Sha512 => one_octet 64 (N.lxor (xor_all m) 255)
  | Sha384 => one_octet 48 (N.lxor (xor_all m) 255)
  | Sha512_256 => one_octet 32 (N.lxor (xor_all m) 255)
  | Ripemd160 => one_octet 20 (N.lxor (xor_all m) (N.of_nat (length m) mod 256))
  | Sha1 => one_octet 20 (xor_all (m ++ [x80] ++ be_octets 8 (8 * N.of_nat (length m))))
  end.
(** SipHash without the last word and without finalization: only whole words of
    the message count *)
Definition fuzz_sip (k0 k1 : N) (m : list byte) : N :=
  let '(a, b, c, d) := fold_left sip_word (le_words 8 m) (sip_init k0 k1) in
  N.lxor (N.lxor (N.lxor a b) c) d.

(** ** The translated engines of that build *)
Definition fuzz_engine (c : config) (a : algo) : HashEngine :=
  match a with
  | Sha1 => f_sha1_Engine_dict c
  | Sha256 => f_sha256_Engine_dict c
  | Sha384 => f_sha384_Engine_dict c
  | Sha512 => f_sha512_Engine_dict c
  | Sha512_256 => f_sha512_256_Engine_dict c
  | Ripemd160 => f_ripemd160_Engine_dict c
  end.
(** [Hash::hash] of each module *)
Definition fuzz_hash_fn (c : config) (a : algo) : bytes -> res bytes :=
  match a with
  | Sha1 => f_sha1_Hash_hash c
  | Sha256 => f_sha256_Hash_hash c
  | Sha384 => f_sha384_Hash_hash c
  | Sha512 => f_sha512_Hash_hash c
  | Sha512_256 => f_sha512_256_Hash_hash c
  | Ripemd160 => f_ripemd160_Hash_hash c
  end.
