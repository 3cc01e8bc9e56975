(** Vocabulary for the theorems on GenDecl.v: declarations, reference casts,
    derived traits. *)
From Coq Require Import Strings.Byte Strings.String.
From Verif Require Import Base ModelEngine ModelTypes ModelValues ModelSip ModelMem SpecText SpecValues SpecMem SpecGenTypes.
From Verif Require Import DeclBase GenDecl.
Open Scope list_scope.

(** The translated functions of one hash type.  [gm_casts]: the casts of the
    type and the length of the array each takes.  [gm_refs]: the functions from
    a reference to the hash to one to its bytes. *)
Record gen_mem := {
  gm_decl : decl;
  gm_casts : list (N * (slayout -> pointer -> res pointer));
  gm_refs : list (slayout -> pointer -> pointer)
}.
Definition gen_me (T : res engine) (t : hash_ty) : gen_mem :=
  match t with
  | TSha1 => {| gm_decl := g_sha1_Hash_decl;
      gm_casts := [(g_sha1_Hash_from_bytes_ref_arg, g_sha1_Hash_from_bytes_ref); (g_sha1_Hash_from_bytes_mut_arg, g_sha1_Hash_from_bytes_mut)];
      gm_refs := [g_sha1_Hash_ref_as_byte_array; g_sha1_Hash_ref_as_bytes; g_sha1_Hash_ref_as_ref; g_sha1_Hash_ref_as_ref_array] |}
  | TSha256 => {| gm_decl := g_sha256_Hash_decl;
      gm_casts := [(g_sha256_Hash_from_bytes_ref_arg, g_sha256_Hash_from_bytes_ref); (g_sha256_Hash_from_bytes_mut_arg, g_sha256_Hash_from_bytes_mut)];
      gm_refs := [g_sha256_Hash_ref_as_byte_array; g_sha256_Hash_ref_as_bytes; g_sha256_Hash_ref_as_ref; g_sha256_Hash_ref_as_ref_array] |}
  | TSha384 => {| gm_decl := g_sha384_Hash_decl;
      gm_casts := [(g_sha384_Hash_from_bytes_ref_arg, g_sha384_Hash_from_bytes_ref); (g_sha384_Hash_from_bytes_mut_arg, g_sha384_Hash_from_bytes_mut)];
      gm_refs := [g_sha384_Hash_ref_as_byte_array; g_sha384_Hash_ref_as_bytes; g_sha384_Hash_ref_as_ref; g_sha384_Hash_ref_as_ref_array] |}
  | TSha512 => {| gm_decl := g_sha512_Hash_decl;
      gm_casts := [(g_sha512_Hash_from_bytes_ref_arg, g_sha512_Hash_from_bytes_ref); (g_sha512_Hash_from_bytes_mut_arg, g_sha512_Hash_from_bytes_mut)];
      gm_refs := [g_sha512_Hash_ref_as_byte_array; g_sha512_Hash_ref_as_bytes; g_sha512_Hash_ref_as_ref; g_sha512_Hash_ref_as_ref_array] |}
  | TSha512_256 => {| gm_decl := g_sha512_256_Hash_decl;
      gm_casts := [(g_sha512_256_Hash_from_bytes_ref_arg, g_sha512_256_Hash_from_bytes_ref); (g_sha512_256_Hash_from_bytes_mut_arg, g_sha512_256_Hash_from_bytes_mut)];
      gm_refs := [g_sha512_256_Hash_ref_as_byte_array; g_sha512_256_Hash_ref_as_bytes; g_sha512_256_Hash_ref_as_ref; g_sha512_256_Hash_ref_as_ref_array] |}
  | TRipemd160 => {| gm_decl := g_ripemd160_Hash_decl;
      gm_casts := [(g_ripemd160_Hash_from_bytes_ref_arg, g_ripemd160_Hash_from_bytes_ref); (g_ripemd160_Hash_from_bytes_mut_arg, g_ripemd160_Hash_from_bytes_mut)];
      gm_refs := [g_ripemd160_Hash_ref_as_byte_array; g_ripemd160_Hash_ref_as_bytes; g_ripemd160_Hash_ref_as_ref; g_ripemd160_Hash_ref_as_ref_array] |}
  | TSiphash24 => {| gm_decl := g_siphash24_Hash_decl;
      gm_casts := [(g_siphash24_Hash_from_bytes_ref_arg, g_siphash24_Hash_from_bytes_ref); (g_siphash24_Hash_from_bytes_mut_arg, g_siphash24_Hash_from_bytes_mut)];
      gm_refs := [g_siphash24_Hash_ref_as_byte_array; g_siphash24_Hash_ref_as_bytes; g_siphash24_Hash_ref_as_ref; g_siphash24_Hash_ref_as_ref_array] |}
  | TSha256t => {| gm_decl := g_sha256t_Hash_decl T;
      gm_casts := [(g_sha256t_Hash_from_bytes_ref_arg T, g_sha256t_Hash_from_bytes_ref T); (g_sha256t_Hash_from_bytes_mut_arg T, g_sha256t_Hash_from_bytes_mut T)];
      gm_refs := [g_sha256t_Hash_ref_as_byte_array T; g_sha256t_Hash_ref_as_bytes T; g_sha256t_Hash_ref_as_ref T; g_sha256t_Hash_ref_as_ref_array T] |}
  | THmac n => {| gm_decl := g_hmac_Hash_decl n;
      gm_casts := [(g_hmac_Hash_from_bytes_ref_arg n, g_hmac_Hash_from_bytes_ref n); (g_hmac_Hash_from_bytes_mut_arg n, g_hmac_Hash_from_bytes_mut n)];
      gm_refs := [g_hmac_Hash_ref_as_byte_array n; g_hmac_Hash_ref_as_bytes n; g_hmac_Hash_ref_as_ref n] |}
  | TMidstate => {| gm_decl := g_sha256_Midstate_decl; gm_casts := []; gm_refs := [g_sha256_Midstate_ref_as_ref] |}
  end.

(** Equality, order, hash and default value of one hash type; [None] where the
    type has no [Default]. *)
Record gen_traits := {
  gr_eq : bytes -> bytes -> bool;
  gr_cmp : bytes -> bytes -> comparison;
  gr_partial_cmp : bytes -> bytes -> option comparison;
  gr_hash : bytes -> list hasher_call;
  gr_clone : bytes -> bytes;
  gr_default : option bytes
}.
Definition gen_tr (T : res engine) (t : hash_ty) : gen_traits :=
  match t with
  | TSha1 => {| gr_eq := g_sha1_Hash_the_eq; gr_cmp := g_sha1_Hash_the_cmp; gr_partial_cmp := g_sha1_Hash_the_partial_cmp;
      gr_hash := g_sha1_Hash_the_hash; gr_clone := g_sha1_Hash_the_clone; gr_default := None |}
  | TSha256 => {| gr_eq := g_sha256_Hash_the_eq; gr_cmp := g_sha256_Hash_the_cmp; gr_partial_cmp := g_sha256_Hash_the_partial_cmp;
      gr_hash := g_sha256_Hash_the_hash; gr_clone := g_sha256_Hash_the_clone; gr_default := None |}
  | TSha384 => {| gr_eq := g_sha384_Hash_the_eq; gr_cmp := g_sha384_Hash_the_cmp; gr_partial_cmp := g_sha384_Hash_the_partial_cmp;
      gr_hash := g_sha384_Hash_the_hash; gr_clone := g_sha384_Hash_the_clone; gr_default := None |}
  | TSha512 => {| gr_eq := g_sha512_Hash_the_eq; gr_cmp := g_sha512_Hash_the_cmp; gr_partial_cmp := g_sha512_Hash_the_partial_cmp;
      gr_hash := g_sha512_Hash_the_hash; gr_clone := g_sha512_Hash_the_clone; gr_default := None |}
  | TSha512_256 => {| gr_eq := g_sha512_256_Hash_the_eq; gr_cmp := g_sha512_256_Hash_the_cmp; gr_partial_cmp := g_sha512_256_Hash_the_partial_cmp;
      gr_hash := g_sha512_256_Hash_the_hash; gr_clone := g_sha512_256_Hash_the_clone; gr_default := None |}
  | TRipemd160 => {| gr_eq := g_ripemd160_Hash_the_eq; gr_cmp := g_ripemd160_Hash_the_cmp; gr_partial_cmp := g_ripemd160_Hash_the_partial_cmp;
      gr_hash := g_ripemd160_Hash_the_hash; gr_clone := g_ripemd160_Hash_the_clone; gr_default := None |}
  | TSiphash24 => {| gr_eq := g_siphash24_Hash_the_eq; gr_cmp := g_siphash24_Hash_the_cmp; gr_partial_cmp := g_siphash24_Hash_the_partial_cmp;
      gr_hash := g_siphash24_Hash_the_hash; gr_clone := g_siphash24_Hash_the_clone; gr_default := None |}
  | TSha256t => {| gr_eq := g_sha256t_Hash_the_eq T; gr_cmp := g_sha256t_Hash_the_cmp T; gr_partial_cmp := g_sha256t_Hash_the_partial_cmp T;
      gr_hash := g_sha256t_Hash_the_hash T; gr_clone := g_sha256t_Hash_the_clone T; gr_default := Some (g_sha256t_Hash_the_default T) |}
  | THmac n => {| gr_eq := g_hmac_Hash_the_eq n; gr_cmp := g_hmac_Hash_the_cmp n; gr_partial_cmp := g_hmac_Hash_the_partial_cmp n;
      gr_hash := g_hmac_Hash_the_hash n; gr_clone := g_hmac_Hash_the_clone n; gr_default := None |}
  | TMidstate => {| gr_eq := g_sha256_Midstate_the_eq; gr_cmp := g_sha256_Midstate_the_cmp; gr_partial_cmp := g_sha256_Midstate_the_partial_cmp;
      gr_hash := g_sha256_Midstate_the_hash; gr_clone := g_sha256_Midstate_the_clone; gr_default := Some g_sha256_Midstate_the_default |}
  end.

(** A value of this layout with the bytes [x] in field 0 has been written
    through [p]: padding and zero-sized fields may have become anything, what is
    outside has not changed. *)
Definition written_through (l : slayout) (p : pointer) (x : bytes) (m m' : memory) : Prop :=
  in_range p (p_addr p) (s_size l) = true /\
  load_bytes m' (p_addr p + s_offset l 0) (len x) = x /\
  forall b, (b < p_addr p \/ p_addr p + s_size l <= b) -> m' b = m b.

(** What [{:?}] shows of a SipHash engine: the numerals of the fields between
    these texts *)
Definition engine_fields (e : sip_engine) : list N :=
  [sip_k0 e; sip_k1 e; sip_length e; v0 (sip_st e); v2 (sip_st e); v1 (sip_st e); v3 (sip_st e); sip_tail e; sip_ntail e].
Definition engine_frame : list bytes :=
  map list_byte_of_string ["Engine { k0: "; ", k1: "; ", length: "; ", state: State { v0: "; ", v2: "; ", v1: "; ", v3: "; " }, tail: "; ", ntail: "]%string.
(** [framed ts ns s]: [s] is the texts [ts] each followed by the numeral of the
    number at its place *)
Inductive framed : list bytes -> list N -> bytes -> Prop :=
| framed_nil : framed [] [] []
| framed_cons t ts n ns d s : numeral d n -> framed ts ns s -> framed (t :: ts) (n :: ns) (t ++ d ++ s).

(** A struct of the crate has a trait *)
Definition has_trait (d : trait_name) (m s : string) : Prop :=
  exists ts, In (list_byte_of_string m, list_byte_of_string s, ts) g_structs /\ In d ts.
