(** Vocabulary for the theorems on the generated text (Gen*.v).

    Two implementations of the trait [HashEngine] [agree] when a relation
    between their states is kept by every method: related states give related
    results, equal digests and equal counts, and one side panics exactly when
    the other does, with the same panic.  (A digest is an array, so its length
    is a [usize].) *)
From Verif Require Import Base ModelEngine ModelHmac ModelSip ModelAll SpecMD ModelStore ModelProgram.
From Verif Require Import GenBase GenLib GenCmp GenSip GenSha1 GenSha256 GenSha512 GenSha384 GenRipemd
  GenHmac GenSha256t GenSha256Const.

(** The same outcome up to a relation on values. *)
Definition res_rel {A B} (R : A -> B -> Prop) (x : res A) (y : res B) : Prop :=
  match x, y with
  | Ok a, Ok b => R a b
  | Panic p, Panic q => p = q
  | _, _ => False
  end.

Record agree (c : config) (E F : HashEngine) (R : he_state E -> he_state F -> Prop)
    (M : he_mid E -> he_mid F -> Prop) : Prop := {
  ag_block : he_block_size E = he_block_size F;
  ag_default : res_rel R (he_default E) (he_default F);
  ag_input : forall s t d, R s t -> slice c d -> res_rel R (he_input E s d) (he_input F t d);
  ag_count : forall s t, R s t -> he_n_bytes_hashed E s = he_n_bytes_hashed F t;
  ag_finalize : forall s t, R s t -> he_finalize E s = he_finalize F t;
  ag_digest : forall s t d, R s t -> he_finalize E s = Ok d -> slice c d;
  ag_midstate : forall s t, R s t -> res_rel M (he_midstate E s) (he_midstate F t);
  ag_from : forall m m' n, M m m' -> res_rel R (he_from_midstate E m n) (he_from_midstate F m' n)
}.

(** Values of the Rust struct types: the array fields have their lengths and
    the words are words. *)
Definition typed (a : algo) (e : engine) : Prop :=
  length (e_buffer e) = md_block (md_of a) /\ good_h (md_of a) (e_h e).
(** [ntail: usize, // how many bytes in tail are valid] of src/siphash24.rs:75 *)
Definition sip_typed (e : sip_engine) : Prop := sip_ntail e < 8.

(** The translated engine of each algorithm. *)
Definition gen_engine (c : config) (a : algo) : HashEngine :=
  match a with
  | Sha1 => g_sha1_Engine_dict c
  | Sha256 => g_sha256_Engine_dict c
  | Sha384 => g_sha384_Engine_dict c
  | Sha512 => g_sha512_Engine_dict c
  | Sha512_256 => g_sha512_256_Engine_dict c
  | Ripemd160 => g_ripemd160_Engine_dict c
  end.

(** Equal and well typed. *)
Definition gen_rel (c : config) (a : algo) : he_state (gen_engine c a) -> he_state (algo_engine c a) -> Prop :=
  match a return he_state (gen_engine c a) -> he_state (algo_engine c a) -> Prop with
  | Sha1 => fun s t : engine => s = t /\ typed Sha1 s
  | Sha256 => fun s t : engine => s = t /\ typed Sha256 s
  | Sha384 => fun s t : engine => s = t /\ typed Sha384 s
  | Sha512 => fun s t : engine => s = t /\ typed Sha512 s
  | Sha512_256 => fun s t : engine => s = t /\ typed Sha512_256 s
  | Ripemd160 => fun s t : engine => s = t /\ typed Ripemd160 s
  end.
Definition gen_mid (c : config) (a : algo) : he_mid (gen_engine c a) -> he_mid (algo_engine c a) -> Prop :=
  match a return he_mid (gen_engine c a) -> he_mid (algo_engine c a) -> Prop with
  | Sha1 | Sha256 | Sha384 | Sha512 | Sha512_256 | Ripemd160 => fun s t : bytes => s = t
  end.

(** Field by field *)
Definition hmac_rel {E F : HashEngine} (R : he_state E -> he_state F -> Prop)
    (s : hmac_state E) (t : hmac_state F) : Prop :=
  R (iengine s) (iengine t) /\ R (oengine s) (oengine t).
Definition pair_rel {A B} (M : A -> B -> Prop) (m : A * A) (m' : B * B) : Prop :=
  M (fst m) (fst m') /\ M (snd m) (snd m').

(** The tag engine a user writes, with the translated [hash_tag] and
    [from_midstate] (src/sha256t.rs:178-182 is an instance). *)
Definition gen_tag_engine (c : config) (tag : bytes) : res engine :=
  let* mid := g_sha256_Midstate_hash_tag c tag in
  g_sha256_Engine_from_midstate mid 64.

(** The translated engine types of the crate, and their API, as [code_api] of
    ModelProgram.v is made of the model's. *)
Fixpoint gen_kind (c : config) (k : ekind) : HashEngine :=
  match k with
  | KAlgo a => gen_engine c a
  | KSip => g_siphash24_Engine_dict c
  | KTag tag => g_sha256t_Engine_dict c (gen_tag_engine c tag)
  | KHmac k => g_hmac_Engine_dict c (gen_kind c k)
  end.
Fixpoint gmid_out (c : config) (k : ekind) : he_mid (gen_kind c k) -> mid_ty k :=
  match k return he_mid (gen_kind c k) -> mid_ty k with
  | KAlgo a =>
      match a return he_mid (gen_engine c a) -> bytes with
      | Sha1 => fun m => m | Sha256 => fun m => m | Sha384 => fun m => m
      | Sha512 => fun m => m | Sha512_256 => fun m => m | Ripemd160 => fun m => m
      end
  | KSip => fun m => m
  | KTag _ => fun m => m
  | KHmac k => fun m => (gmid_out c k (fst m), gmid_out c k (snd m))
  end.
Fixpoint gmid_in (c : config) (k : ekind) : mid_ty k -> he_mid (gen_kind c k) :=
  match k return mid_ty k -> he_mid (gen_kind c k) with
  | KAlgo a =>
      match a return bytes -> he_mid (gen_engine c a) with
      | Sha1 => fun m => m | Sha256 => fun m => m | Sha384 => fun m => m
      | Sha512 => fun m => m | Sha512_256 => fun m => m | Ripemd160 => fun m => m
      end
  | KSip => fun m => m
  | KTag _ => fun m => m
  | KHmac k => fun m => (gmid_in c k (fst m), gmid_in c k (snd m))
  end.
Definition gen_api (c : config) : api :=
  {| a_state := fun k => he_state (gen_kind c k);
     a_new := fun k => he_default (gen_kind c k);
     a_hmac := fun k key => g_hmac_Engine_new c (gen_kind c k) key;
     a_with_keys := g_siphash24_Engine_with_keys;
     a_from_midstate := fun k m n => he_from_midstate (gen_kind c k) (gmid_in c k m) n;
     a_input := fun k => he_input (gen_kind c k);
     a_count := fun k => he_n_bytes_hashed (gen_kind c k);
     a_midstate := fun k s => let* m := he_midstate (gen_kind c k) s in Ok (gmid_out c k m);
     a_keys := g_siphash24_Engine_keys;
     a_finalize := fun k => he_finalize (gen_kind c k);
     a_to_u64 := g_siphash24_Hash_from_engine_to_u64;
     a_hash := fun k => g_lib_HashEngine_hash (gen_kind c k);
     a_hash_chunks := fun k => g_lib_HashEngine_hash_byte_chunks (gen_kind c k) |}.

(** The inherent [Hash::hash] and [Hash::from_engine] of each hash type. *)
Definition gen_hash (c : config) (a : algo) : bytes -> res bytes :=
  match a with
  | Sha1 => g_sha1_Hash_hash c
  | Sha256 => g_sha256_Hash_hash c
  | Sha384 => g_sha384_Hash_hash c
  | Sha512 => g_sha512_Hash_hash c
  | Sha512_256 => g_sha512_256_Hash_hash c
  | Ripemd160 => g_ripemd160_Hash_hash c
  end.

(** The relation of [agree] for every kind of engine *)
Fixpoint kind_rel (c : config) (k : ekind) : he_state (gen_kind c k) -> he_state (kind_engine c k) -> Prop :=
  match k return he_state (gen_kind c k) -> he_state (kind_engine c k) -> Prop with
  | KAlgo a => gen_rel c a
  | KSip => fun s t : sip_engine => s = t /\ sip_typed s
  | KTag _ => fun s t : engine => s = t /\ typed Sha256 s
  | KHmac k => hmac_rel (kind_rel c k)
  end.
Fixpoint kind_mid (c : config) (k : ekind) : he_mid (gen_kind c k) -> he_mid (kind_engine c k) -> Prop :=
  match k return he_mid (gen_kind c k) -> he_mid (kind_engine c k) -> Prop with
  | KAlgo a => gen_mid c a
  | KSip => fun s t : sip_state => s = t
  | KTag _ => fun s t : bytes => s = t
  | KHmac k => pair_rel (kind_mid c k)
  end.

(** The translated block function of each algorithm *)
Definition gen_block (c : config) (a : algo) : engine -> res engine :=
  match a with
  | Sha1 => g_sha1_Engine_process_block c
  | Sha256 => g_sha256_Engine_process_block c
  | Ripemd160 => g_ripemd160_Engine_process_block c
  | _ => g_sha512_Engine_process_block c
  end.
