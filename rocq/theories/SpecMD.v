(** The six Merkle-Damgard hash functions of the crate in one shape, with the
    length field as a parameter: needed to say what happens when the byte
    counter wraps, and when an engine starts from a midstate.  [md_of a] is
    proved equal to the standards' definitions in ProofMD.v
    ([md_hash_sha256], ...).  Independent of the model. *)
From Coq Require Import NArith ZArith List Bool.
From Coq Require Import Init.Byte.
From Verif Require Import SpecBase.
From Verif Require SpecSha2 SpecSha1 SpecRipemd.
Import ListNotations.
Open Scope N_scope.

Record md : Type := mk_md {
  md_block : nat;                             (* block size, bytes *)
  md_wbytes : nat;                            (* word size, bytes *)
  md_nwords : nat;                            (* words of chaining value *)
  md_compress : list N -> list byte -> list N;
  md_iv : list N;
  md_field : nat;                             (* size of the length field, bytes *)
  md_lenfield : N -> list byte;               (* encoding of the bit count *)
  md_word : N -> list byte;                   (* encoding of a word of output *)
  md_digest : nat                             (* digest length *)
}.

Section MD.
  Context (A : md).
  (** zero bytes between 0x80 and the length field *)
  Definition md_zeros (n : nat) : nat :=
    Z.to_nat ((Z.of_nat (md_block A) - Z.of_nat (md_field A) - 1 - Z.of_nat n)
              mod Z.of_nat (md_block A)).
  Definition md_padding (n : nat) (bitlen : N) : list byte :=
    [x80] ++ repeat x00 (md_zeros n) ++ md_lenfield A bitlen.
  Definition md_pad_with (bitlen : N) (M : list byte) : list byte :=
    M ++ md_padding (length M) bitlen.
  (** length of the padded message *)
  Definition md_padded (n : nat) : nat := n + 1 + md_zeros n + md_field A.
  Definition md_iterate (H : list N) (l : list byte) : list N :=
    fold_left (md_compress A) (blocks (md_block A) l) H.
  Definition md_words (H : list N) : list byte := List.concat (map (md_word A) H).
  (** from a chaining value, with an explicit bit count *)
  Definition md_hash_from (H : list N) (bitlen : N) (M : list byte) : list byte :=
    firstn (md_digest A) (md_words (md_iterate H (md_pad_with bitlen M))).
  Definition md_hash (M : list byte) : list byte :=
    md_hash_from (md_iv A) (8 * N.of_nat (length M)) M.
End MD.

(** Chaining values: the right number of words of the right size *)
Definition good_h (A : md) (h : list N) : Prop :=
  length h = md_nwords A /\ bounded (8 * N.of_nat (md_wbytes A)) h.

(** The algorithms *)
Inductive algo : Set := Sha1 | Sha256 | Sha384 | Sha512 | Sha512_256 | Ripemd160.

Definition md_of (a : algo) : md :=
  match a with
  | Sha1 => mk_md 64 4 5 SpecSha1.compress SpecSha1.H0 8 (be_octets 8) (be_octets 4) 20
  | Sha256 => mk_md 64 4 8 (SpecSha2.compress SpecSha2.params256) SpecSha2.H256 8
                (be_octets 8) (be_octets 4) 32
  | Sha384 => mk_md 128 8 8 (SpecSha2.compress SpecSha2.params512) SpecSha2.H384 16
                (be_octets 16) (be_octets 8) 48
  | Sha512 => mk_md 128 8 8 (SpecSha2.compress SpecSha2.params512) SpecSha2.H512 16
                (be_octets 16) (be_octets 8) 64
  | Sha512_256 => mk_md 128 8 8 (SpecSha2.compress SpecSha2.params512) SpecSha2.H512_256 16
                (be_octets 16) (be_octets 8) 32
  | Ripemd160 => mk_md 64 4 5 SpecRipemd.compress SpecRipemd.H0 8 (le_octets 8) (le_octets 4) 20
  end.

(** The functions of the standards *)
Definition hash_of (a : algo) : list byte -> list byte :=
  match a with
  | Sha1 => SpecSha1.SHA1
  | Sha256 => SpecSha2.SHA256
  | Sha384 => SpecSha2.SHA384
  | Sha512 => SpecSha2.SHA512
  | Sha512_256 => SpecSha2.SHA512_256
  | Ripemd160 => SpecRipemd.RIPEMD160
  end.

(** Digest length and block size, bytes *)
Definition digest_len (a : algo) : nat :=
  match a with
  | Sha1 | Ripemd160 => 20 | Sha256 | Sha512_256 => 32 | Sha384 => 48 | Sha512 => 64
  end.
Definition block_len (a : algo) : nat :=
  match a with Sha1 | Sha256 | Ripemd160 => 64 | _ => 128 end.
