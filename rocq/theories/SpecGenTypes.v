(** Vocabulary for the theorems on the translated value types (GenTypes.v) and
    the translated [Write] implementations (GenIo.v). *)
From Verif Require Import Base ModelEngine ModelHmac ModelSip ModelAll SpecMD ModelStore ModelTypes ModelIo ModelWriter SpecStore SpecGen.
From Verif Require Import GenBase GenLib GenSip GenSha1 GenSha256 GenSha512 GenSha384 GenRipemd
  GenHmac GenSha256t GenTypes GenIo.

(** The translated functions of one hash type.  [gt_views]: every function from
    the type to its bytes or back, and Clone.  [gt_zeros]: the values without an
    argument.  [gt_index]: [None] where the type has no such impl. *)
Record gen_type := {
  gt_from_slice : bytes -> res (result bytes from_slice_error);
  gt_from_str : bytes -> result bytes hex_error;
  gt_views : list (bytes -> bytes);
  gt_zeros : list bytes;
  gt_len : option N;
  gt_index : config -> bytes -> slice_index -> option (res bytes)
}.

(** The five impls of src/hmac.rs:136-159; the first gives a byte. *)
Definition hmac_index (n : N) (_ : config) (h : bytes) (ix : slice_index) : option (res bytes) :=
  match ix with
  | At i => Some (let* b := g_hmac_Hash_index_usize n h i in Ok [b])
  | Range i j => Some (g_hmac_Hash_index_Range n h (i, j))
  | RangeFrom i => Some (g_hmac_Hash_index_RangeFrom n h i)
  | RangeTo j => Some (g_hmac_Hash_index_RangeTo n h j)
  | RangeFull => Some (Ok (g_hmac_Hash_index_RangeFull n h tt))
  | _ => None
  end.

(** [T]: the [Tag::engine] of the tag type of sha256t::Hash *)
Definition gen_ty (T : res engine) (t : hash_ty) : gen_type :=
  match t with
  | TSha1 => {| gt_from_slice := g_sha1_Hash_from_slice; gt_from_str := g_sha1_Hash_from_str;
      gt_views := [g_sha1_Hash_from_byte_array; g_sha1_Hash_to_byte_array; g_sha1_Hash_as_byte_array; g_sha1_Hash_as_bytes;
                   g_sha1_Hash_to_bytes; g_sha1_Hash_as_ref; g_sha1_Hash_as_ref_array];
      gt_zeros := [g_sha1_Hash_all_zeros]; gt_len := Some g_sha1_Hash_LEN;
      gt_index := fun c h ix => Some (g_sha1_Hash_index c h ix) |}
  | TSha256 => {| gt_from_slice := g_sha256_Hash_from_slice; gt_from_str := g_sha256_Hash_from_str;
      gt_views := [g_sha256_Hash_from_byte_array; g_sha256_Hash_to_byte_array; g_sha256_Hash_as_byte_array; g_sha256_Hash_as_bytes;
                   g_sha256_Hash_to_bytes; g_sha256_Hash_as_ref; g_sha256_Hash_as_ref_array];
      gt_zeros := [g_sha256_Hash_all_zeros]; gt_len := Some g_sha256_Hash_LEN;
      gt_index := fun c h ix => Some (g_sha256_Hash_index c h ix) |}
  | TSha384 => {| gt_from_slice := g_sha384_Hash_from_slice; gt_from_str := g_sha384_Hash_from_str;
      gt_views := [g_sha384_Hash_from_byte_array; g_sha384_Hash_to_byte_array; g_sha384_Hash_as_byte_array; g_sha384_Hash_as_bytes;
                   g_sha384_Hash_to_bytes; g_sha384_Hash_as_ref; g_sha384_Hash_as_ref_array];
      gt_zeros := [g_sha384_Hash_all_zeros]; gt_len := Some g_sha384_Hash_LEN;
      gt_index := fun c h ix => Some (g_sha384_Hash_index c h ix) |}
  | TSha512 => {| gt_from_slice := g_sha512_Hash_from_slice; gt_from_str := g_sha512_Hash_from_str;
      gt_views := [g_sha512_Hash_from_byte_array; g_sha512_Hash_to_byte_array; g_sha512_Hash_as_byte_array; g_sha512_Hash_as_bytes;
                   g_sha512_Hash_to_bytes; g_sha512_Hash_as_ref; g_sha512_Hash_as_ref_array];
      gt_zeros := [g_sha512_Hash_all_zeros]; gt_len := Some g_sha512_Hash_LEN;
      gt_index := fun c h ix => Some (g_sha512_Hash_index c h ix) |}
  | TSha512_256 => {| gt_from_slice := g_sha512_256_Hash_from_slice; gt_from_str := g_sha512_256_Hash_from_str;
      gt_views := [g_sha512_256_Hash_from_byte_array; g_sha512_256_Hash_to_byte_array; g_sha512_256_Hash_as_byte_array;
                   g_sha512_256_Hash_as_bytes; g_sha512_256_Hash_to_bytes; g_sha512_256_Hash_as_ref; g_sha512_256_Hash_as_ref_array];
      gt_zeros := [g_sha512_256_Hash_all_zeros]; gt_len := Some g_sha512_256_Hash_LEN;
      gt_index := fun c h ix => Some (g_sha512_256_Hash_index c h ix) |}
  | TRipemd160 => {| gt_from_slice := g_ripemd160_Hash_from_slice; gt_from_str := g_ripemd160_Hash_from_str;
      gt_views := [g_ripemd160_Hash_from_byte_array; g_ripemd160_Hash_to_byte_array; g_ripemd160_Hash_as_byte_array;
                   g_ripemd160_Hash_as_bytes; g_ripemd160_Hash_to_bytes; g_ripemd160_Hash_as_ref; g_ripemd160_Hash_as_ref_array];
      gt_zeros := [g_ripemd160_Hash_all_zeros]; gt_len := Some g_ripemd160_Hash_LEN;
      gt_index := fun c h ix => Some (g_ripemd160_Hash_index c h ix) |}
  | TSiphash24 => {| gt_from_slice := g_siphash24_Hash_from_slice; gt_from_str := g_siphash24_Hash_from_str;
      gt_views := [g_siphash24_Hash_from_byte_array; g_siphash24_Hash_to_byte_array; g_siphash24_Hash_as_byte_array;
                   g_siphash24_Hash_as_bytes; g_siphash24_Hash_to_bytes; g_siphash24_Hash_as_ref; g_siphash24_Hash_as_ref_array];
      gt_zeros := [g_siphash24_Hash_all_zeros]; gt_len := Some g_siphash24_Hash_LEN;
      gt_index := fun c h ix => Some (g_siphash24_Hash_index c h ix) |}
  | TSha256t => {| gt_from_slice := g_sha256t_Hash_from_slice T; gt_from_str := g_sha256t_Hash_from_str T;
      gt_views := [g_sha256t_Hash_from_byte_array T; g_sha256t_Hash_to_byte_array T; g_sha256t_Hash_as_byte_array T;
                   g_sha256t_Hash_as_bytes T; g_sha256t_Hash_to_bytes T; g_sha256t_Hash_as_ref T; g_sha256t_Hash_as_ref_array T;
                   g_sha256t_Hash_clone T];
      gt_zeros := [g_sha256t_Hash_all_zeros T; g_sha256t_Hash_default T]; gt_len := Some g_sha256t_Hash_LEN;
      gt_index := fun c h ix => Some (g_sha256t_Hash_index c T h ix) |}
  | THmac n => {| gt_from_slice := g_hmac_Hash_from_slice n; gt_from_str := g_hmac_Hash_from_str n;
      gt_views := [g_hmac_Hash_from_byte_array n; g_hmac_Hash_to_byte_array n; g_hmac_Hash_as_byte_array n; g_hmac_Hash_as_bytes n;
                   g_hmac_Hash_to_bytes n; g_hmac_Hash_as_ref n];
      gt_zeros := [g_hmac_Hash_all_zeros n]; gt_len := None;
      gt_index := hmac_index n |}
  | TMidstate => {| gt_from_slice := g_sha256_Midstate_from_slice; gt_from_str := g_sha256_Midstate_from_str;
      gt_views := [g_sha256_Midstate_from_byte_array; g_sha256_Midstate_to_byte_array; g_sha256_Midstate_as_ref];
      gt_zeros := []; gt_len := Some g_sha256_Midstate_LEN;
      gt_index := fun c h ix => Some (g_sha256_Midstate_index c h ix) |}
  end.

(** Length in bytes of the values of each type: the digest sizes of FIPS 180-4
    section 1 (figure 1), of RIPEMD-160 and of SipHash *)
Definition octets_of (t : hash_ty) : N :=
  match t with
  | TSha1 | TRipemd160 => 20
  | TSha256 | TSha512_256 | TSha256t | TMidstate => 32
  | TSha384 => 48
  | TSha512 => 64
  | TSiphash24 => 8
  | THmac n => n
  end.

(** The inherent [engine], [from_engine] and [hash] of the hash type that goes
    with each kind of engine; hmac::Hash has no [hash]. *)
Definition gen_ty_engine (c : config) (k : ekind) : res (he_state (gen_kind c k)) :=
  match k return res (he_state (gen_kind c k)) with
  | KAlgo a =>
      match a return res (he_state (gen_engine c a)) with
      | Sha1 => g_sha1_Hash_engine c
      | Sha256 => g_sha256_Hash_engine c
      | Sha384 => g_sha384_Hash_engine c
      | Sha512 => g_sha512_Hash_engine c
      | Sha512_256 => g_sha512_256_Hash_engine c
      | Ripemd160 => g_ripemd160_Hash_engine c
      end
  | KSip => Ok g_siphash24_Hash_engine
  | KTag tag => g_sha256t_Hash_engine (gen_tag_engine c tag)
  | KHmac k => g_hmac_Hash_engine (g_hmac_Engine_dict c (gen_kind c k)) (octets_of (kind_ty (KHmac k)))
  end.
Definition gen_from_engine (c : config) (k : ekind) : he_state (gen_kind c k) -> res bytes :=
  match k return he_state (gen_kind c k) -> res bytes with
  | KAlgo a =>
      match a return he_state (gen_engine c a) -> res bytes with
      | Sha1 => g_sha1_Hash_from_engine c
      | Sha256 => g_sha256_Hash_from_engine c
      | Sha384 => g_sha384_Hash_from_engine c
      | Sha512 => g_sha512_Hash_from_engine c
      | Sha512_256 => g_sha512_256_Hash_from_engine c
      | Ripemd160 => g_ripemd160_Hash_from_engine c
      end
  | KSip => fun s => Ok (g_siphash24_Hash_from_engine s)
  | KTag tag => g_sha256t_Hash_from_engine c (gen_tag_engine c tag)
  | KHmac k => g_hmac_Hash_from_engine (g_hmac_Engine_dict c (gen_kind c k)) (octets_of (kind_ty (KHmac k)))
  end.
Definition gen_ty_hash (c : config) (k : ekind) : option (bytes -> res bytes) :=
  match k with
  | KAlgo a => Some (gen_hash c a)
  | KSip => Some (g_siphash24_Hash_hash c)
  | KTag tag => Some (g_sha256t_Hash_hash c (gen_tag_engine c tag))
  | KHmac _ => None
  end.

(** [start] of SpecStore.v with the translated constructors *)
Definition gen_start (c : config) (o : origin) : res (he_state (gen_kind c (origin_kind o))) :=
  match o return res (he_state (gen_kind c (origin_kind o))) with
  | FromNew k => gen_ty_engine c k
  | FromKey k key => g_hmac_Engine_new c (gen_kind c k) key
  | FromKeys k0 k1 => Ok (g_siphash24_Engine_with_keys k0 k1)
  end.
Definition origin_slice (c : config) (o : origin) : Prop :=
  match o with FromKey _ key => slice c key | _ => True end.

(** The [Write] implementations of src/impls.rs.  There is none for
    sha384::Engine and sha512_256::Engine; for hmac::Engine there are two. *)
Definition gen_writers (c : config) (k : ekind) : list (writer (he_state (gen_kind c k))) :=
  match k return list (writer (he_state (gen_kind c k))) with
  | KAlgo a =>
      match a return list (writer (he_state (gen_engine c a))) with
      | Sha1 => [{| w_write := g_impls_sha1_Engine_write c; w_flush := g_impls_sha1_Engine_flush |}]
      | Sha256 => [{| w_write := g_impls_sha256_Engine_write c; w_flush := g_impls_sha256_Engine_flush |}]
      | Sha512 => [{| w_write := g_impls_sha512_Engine_write c; w_flush := g_impls_sha512_Engine_flush |}]
      | Ripemd160 => [{| w_write := g_impls_ripemd160_Engine_write c; w_flush := g_impls_ripemd160_Engine_flush |}]
      | Sha384 | Sha512_256 => []
      end
  | KSip => [{| w_write := g_impls_siphash24_Engine_write c; w_flush := g_impls_siphash24_Engine_flush |}]
  | KTag tag => let T := gen_tag_engine c tag in
      [{| w_write := g_impls_sha256t_Engine_write c T; w_flush := g_impls_sha256t_Engine_flush T |}]
  | KHmac k => let E := gen_kind c k in
      [{| w_write := g_impls_hmac_Engine_write E; w_flush := g_impls_hmac_Engine_flush E |};
       {| w_write := g_impls_hmac_Engine_write_std E; w_flush := g_impls_hmac_Engine_flush_std E |}]
  end.
