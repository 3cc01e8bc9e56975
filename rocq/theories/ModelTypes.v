(** The hash value types: src/internal_macros.rs (hash_type!, hash_trait_impls!,
    arr_newtype_fmt_impl!, as_ref_impl!), the value-type parts of src/hmac.rs,
    src/sha256t.rs and src/sha256.rs (Midstate), src/serde_macros.rs, and
    FromSliceError of src/lib.rs.

    An array [[u8; N]] is a byte list; that its length is [N] is a hypothesis
    [length h = N] of the theorems. *)
From Coq Require Import Strings.Byte Strings.String.
From Verif Require Import Base.
Open Scope list_scope.

(** [core::result::Result]: an error is a value, not a panic. *)
Inductive result (A E : Type) : Type := ROk (a : A) | RErr (e : E).
Arguments ROk {A E} _.
Arguments RErr {A E} _.

(** ** The types *)

Inductive hash_ty : Set :=
| TSha1 | TSha256 | TSha384 | TSha512 | TSha512_256 | TRipemd160 | TSiphash24   (* hash_type! *)
| TSha256t                                                                   (* sha256t::Hash<T> *)
| THmac (n : N)                                                              (* hmac::Hash<N> *)
| TMidstate.                                                                 (* sha256::Midstate *)

(** The [$bits] arguments: src/sha1.rs:10, sha256.rs:16, sha384.rs:10,
    sha512.rs:10, sha512_256.rs:15, ripemd160.rs:10, siphash24.rs:10,
    sha256t.rs:169 (trait impls) *)
Definition macro_bits (t : hash_ty) : N :=
  match t with
  | TSha1 => 160 | TSha256 => 256 | TSha384 => 384 | TSha512 => 512 | TSha512_256 => 256
  | TRipemd160 => 160 | TSiphash24 => 64 | TSha256t => 256
  | THmac n => 8 * n        (* not macro-generated: src/hmac.rs:19 *)
  | TMidstate => 256        (* not macro-generated: src/sha256.rs:125 *)
  end.

(** LEN, src/internal_macros.rs:150 ([$bits / 8]), src/sha256t.rs:57,
    src/sha256.rs:145, [N] in src/hmac.rs *)
Definition ty_len (t : hash_ty) : N := macro_bits t / 8.

(** ** FromSliceError, src/lib.rs:200-224 *)
Record from_slice_error : Type := { expected : N; got : N }.
(** FromSliceError::new, src/lib.rs:211 *)
Definition fse_new (g e : N) : from_slice_error := {| got := g; expected := e |}.
(** src/lib.rs:214, 217 *)
Definition expected_length (e : from_slice_error) : N := expected e.
Definition invalid_length (e : from_slice_error) : N := got e.

(** ** Constructors and accessors *)

(** from_slice.  The macro's version (src/internal_macros.rs:190-198), and the
    hand-written ones of src/hmac.rs:56-64 (LEN = N), src/sha256t.rs:97-105
    (LEN = 32) and src/sha256.rs:151-159 (LEN = Self::LEN = 32) have the same
    body.  [copy_from_slice] panics if the lengths differ. *)
Definition from_slice_body (n : N) (sl : bytes) : res (result bytes from_slice_error) :=
  if negb (len sl =? n) then Ok (RErr {| expected := n; got := len sl |})
  else
    let ret := array x00 n in
    let* ret := copy_from_slice ret sl in
    Ok (ROk ret).
Definition from_slice (t : hash_ty) (sl : bytes) : res (result bytes from_slice_error) :=
  match t with
  | TSha256t => from_slice_body 32 sl
  | TMidstate => from_slice_body 32 sl
  | THmac n => from_slice_body n sl
  | _ => from_slice_body (macro_bits t / 8) sl
  end.

(** from_byte_array, to_byte_array, as_byte_array, as_bytes, to_bytes:
    src/internal_macros.rs:201-217, src/hmac.rs:67-80, src/sha256t.rs:108-121,
    src/sha256.rs:148, 162.  The reference casts from_bytes_ref and
    from_bytes_mut (src/internal_macros.rs:177-187, src/hmac.rs:43-52,
    src/sha256t.rs:84-93) are the identity on values, as are Copy and Clone
    (src/sha256t.rs:146-149). *)
Definition from_byte_array (b : bytes) : bytes := b.
Definition to_byte_array (h : bytes) : bytes := h.
Definition as_byte_array (h : bytes) : bytes := h.
Definition as_bytes (h : bytes) : bytes := h.
Definition to_bytes (h : bytes) : bytes := h.
Definition from_bytes_ref (b : bytes) : bytes := b.

(** all_zeros, src/internal_macros.rs:224, src/hmac.rs:87, src/sha256t.rs:128;
    Default of sha256t::Hash, src/sha256t.rs:154-156 *)
Definition all_zeros (t : hash_ty) : bytes := array x00 (ty_len t).

(** ** Indexing, src/internal_macros.rs:121-127 (every [SliceIndex<[u8]>]),
    src/hmac.rs:136-159 (five impls), src/sha256.rs:131-136 *)
Inductive slice_index : Set :=
| At (i : N)                  (* usize *)
| Range (i j : N)             (* i..j *)
| RangeFrom (i : N)           (* i.. *)
| RangeTo (j : N)             (* ..j *)
| RangeFull                   (* .. *)
| RangeInclusive (i j : N)    (* i..=j; macro types and Midstate only *)
| RangeToInclusive (j : N).   (* ..=j *)

(** [&self.0[index]]; a single byte is returned as a one-element list.  The
    inclusive ranges panic when [j] is usize::MAX (core's
    slice_end_index_overflow_fail), since [j + 1] does not exist. *)
Definition hash_index (c : config) (h : bytes) (ix : slice_index) : res bytes :=
  match ix with
  | At i => let* b := index h i in Ok [b]
  | Range i j => slice_range i j h
  | RangeFrom i => slice_from i h
  | RangeTo j => slice_to j h
  | RangeFull => Ok h
  | RangeInclusive i j => if j =? 2 ^ usize_bits c - 1 then Panic PIndex else slice_range i (j + 1) h
  | RangeToInclusive j => if j =? 2 ^ usize_bits c - 1 then Panic PIndex else slice_range 0 (j + 1) h
  end.

(** AsRef<[u8]>: [&self[..]], src/internal_macros.rs:12; AsRef<[u8; N]>,
    src/internal_macros.rs:117-119; src/hmac.rs:161-163 *)
Definition as_ref_slice (c : config) (h : bytes) : res bytes := hash_index c h RangeFull.
Definition as_ref_array (h : bytes) : bytes := h.

(** ** Comparison

    Derived PartialEq/Ord of the newtypes (src/internal_macros.rs:144,
    src/hmac.rs:18, src/sha256.rs:124) compare the arrays; sha256t's are
    written by hand (src/sha256t.rs:150-164) and do the same.  Arrays compare
    as slices of u8: byte by byte, then by length. *)
Fixpoint array_eq (a b : bytes) : bool :=
  match a, b with
  | [], [] => true
  | x :: a, y :: b => (b2n x =? b2n y) && array_eq a b
  | _, _ => false
  end.
Fixpoint array_cmp (a b : bytes) : comparison :=
  match a, b with
  | [], [] => Eq
  | [], _ :: _ => Lt
  | _ :: _, [] => Gt
  | x :: a, y :: b => match b2n x ?= b2n y with Eq => array_cmp a b | o => o end
  end.
Definition hash_eq (t : hash_ty) (a b : bytes) : bool := array_eq a b.
Definition hash_cmp (t : hash_ty) (a b : bytes) : comparison := array_cmp a b.
(** Derived partial_cmp, and src/sha256t.rs:157-161: [Some(cmp(self, other))] *)
Definition hash_partial_cmp (t : hash_ty) (a b : bytes) : option comparison := Some (hash_cmp t a b).

(** ** Text

    A Rust string is its UTF-8 bytes.  The hex-conservative functions called by
    the crate, by their documented behaviour. *)

(** Characters as numbers: '0' = 48, 'A' = 65, 'a' = 97. *)
Inductive hex_case : Set := Lower | Upper.
(** hex-conservative's nibble table *)
Definition nibble_char (cs : hex_case) (v : N) : byte :=
  if v <? 10 then u8 (48 + v)
  else match cs with Lower => u8 (97 + (v - 10)) | Upper => u8 (65 + (v - 10)) end.
(** BufEncoder::put_bytes *)
Fixpoint put_bytes (cs : hex_case) (l : bytes) : bytes :=
  match l with
  | [] => []
  | b :: r => nibble_char cs (N.shiftr (b2n b) 4) :: nibble_char cs (N.land (b2n b) 15) :: put_bytes cs r
  end.
(** fmt_hex_exact!: [f.pad_integral(true, "0x", encoder.as_str())], with the
    formatter's [#] flag; no width, precision or sign flags. *)
Definition fmt_hex (alternate : bool) (cs : hex_case) (l : bytes) : bytes :=
  (if alternate then [x30; x78] else []) ++ put_bytes cs l.

(** src/internal_macros.rs:52-78, src/hmac.rs:115-135 *)
Definition lower_hex (alternate : bool) (h : bytes) : bytes := fmt_hex alternate Lower h.
Definition upper_hex (alternate : bool) (h : bytes) : bytes := fmt_hex alternate Upper h.
Definition display (alternate : bool) (h : bytes) : bytes := lower_hex alternate h.
(** Debug: [write!(f, "{:#}", self)] *)
Definition debug (h : bytes) : bytes := display true h.

(** [char::to_digit(16)] on a byte *)
Definition to_digit16 (ch : byte) : option N :=
  let n := b2n ch in
  if (48 <=? n) && (n <=? 57) then Some (n - 48)
  else if (97 <=? n) && (n <=? 102) then Some (n - 87)
  else if (65 <=? n) && (n <=? 70) then Some (n - 55)
  else None.

(** hex::HexToArrayError *)
Inductive hex_error : Set :=
| InvalidChar (ch : byte)
| OddLengthString (n : N)
| InvalidLength (exp n : N).

(** The iterator of HexToBytesIter: one byte from two characters. *)
Fixpoint hex_iter (s : bytes) : result bytes hex_error :=
  match s with
  | hi :: lo :: s =>
      match to_digit16 hi with
      | None => RErr (InvalidChar hi)
      | Some v =>
          match to_digit16 lo with
          | None => RErr (InvalidChar lo)
          | Some w =>
              match hex_iter s with
              | ROk r => ROk (u8 (16 * v + w) :: r)
              | RErr e => RErr e
              end
          end
      end
  | _ => ROk []
  end.
(** <[u8; N]>::from_hex: HexToBytesIter::new rejects odd lengths, then the
    number of bytes is compared with N before any is decoded. *)
Definition array_from_hex (n : N) (s : bytes) : result bytes hex_error :=
  if negb (len s mod 2 =? 0) then RErr (OddLengthString (len s))
  else if negb (len s / 2 =? n) then RErr (InvalidLength (2 * n) (len s))
  else hex_iter s.

(** FromStr: src/internal_macros.rs:104-112, src/hmac.rs:105-113,
    src/sha256.rs:138-141 with 181-188 *)
Definition from_str (t : hash_ty) (s : bytes) : result bytes hex_error :=
  match array_from_hex (ty_len t) s with
  | ROk b => ROk (from_byte_array b)
  | RErr e => RErr e
  end.

(** ** UTF-8 validation, [str::from_utf8] *)
Definition cont (b : byte) : bool := (128 <=? b2n b) && (b2n b <=? 191).
Definition between (lo hi : N) (b : byte) : bool := (lo <=? b2n b) && (b2n b <=? hi).
Fixpoint from_utf8_fuel (fuel : nat) (s : bytes) : bool :=
  match fuel with
  | O => match s with [] => true | _ => false end
  | S fuel =>
    match s with
    | [] => true
    | b :: r =>
        if b2n b <? 128 then from_utf8_fuel fuel r
        else if between 0xc2 0xdf b then
          match r with b1 :: r => cont b1 && from_utf8_fuel fuel r | _ => false end
        else if between 0xe0 0xef b then
          match r with
          | b1 :: b2 :: r =>
              (if b2n b =? 0xe0 then between 0xa0 0xbf b1
               else if b2n b =? 0xed then between 0x80 0x9f b1 else cont b1)
              && cont b2 && from_utf8_fuel fuel r
          | _ => false
          end
        else if between 0xf0 0xf4 b then
          match r with
          | b1 :: b2 :: b3 :: r =>
              (if b2n b =? 0xf0 then between 0x90 0xbf b1
               else if b2n b =? 0xf4 then between 0x80 0x8f b1 else cont b1)
              && cont b2 && cont b3 && from_utf8_fuel fuel r
          | _ => false
          end
        else false
    end
  end.
Definition from_utf8 (s : bytes) : bool := from_utf8_fuel (length s) s.

(** ** Serde, src/serde_macros.rs *)

(** What [serialize] (src/serde_macros.rs:86-92) calls on the serializer. *)
Inductive serialized : Set :=
| CollectStr (s : bytes)        (* s.collect_str(self): the Display text *)
| SerializeBytes (b : bytes).   (* s.serialize_bytes(&self[..]) *)
Definition serialize (c : config) (human_readable : bool) (h : bytes) : res serialized :=
  if human_readable then Ok (CollectStr (display false h))
  else let* b := hash_index c h RangeFull in Ok (SerializeBytes b).

(** What a deserializer hands to the visitor.  The owned and borrowed variants
    (visit_string, visit_borrowed_str, visit_byte_buf, visit_borrowed_bytes)
    forward to the ones here, and so does visit_char, to visit_str, in serde's
    default methods; every other kind (integers, sequences, maps, ...) is
    rejected by serde's default methods. *)
Inductive visited : Set :=
| VisitStr (s : bytes)
| VisitBytes (b : bytes)
| VisitChar (utf8 : bytes)
| VisitOther.

Inductive de_error : Set :=
| DeHex (e : hex_error)     (* E::custom *)
| DeNotUtf8                 (* E::invalid_value *)
| DeLength (n : N)          (* E::invalid_length *)
| DeType.                   (* serde's default: E::invalid_type *)

(** HexVisitor, src/serde_macros.rs:14-45 *)
Definition hex_visit_str (t : hash_ty) (s : bytes) : result bytes de_error :=
  match from_str t s with ROk h => ROk h | RErr e => RErr (DeHex e) end.
Definition hex_visit_bytes (t : hash_ty) (v : bytes) : result bytes de_error :=
  if from_utf8 v
  then match from_str t v with ROk h => ROk h | RErr e => RErr (DeHex e) end
  else RErr DeNotUtf8.
(** BytesVisitor, src/serde_macros.rs:47-69; the impls of SerdeHash, :108-131 and
    src/hmac.rs:166-183, pass on to [from_slice] of the type *)
Definition bytes_visit_bytes (t : hash_ty) (v : bytes) : res (result bytes de_error) :=
  let* r := from_slice t v in
  Ok (match r with ROk h => ROk h | RErr _ => RErr (DeLength (len v)) end).

(** deserialize, src/serde_macros.rs:95-101 *)
Definition deserialize (t : hash_ty) (human_readable : bool) (v : visited) : res (result bytes de_error) :=
  if human_readable then
    match v with
    | VisitStr s => Ok (hex_visit_str t s)
    | VisitBytes b => Ok (hex_visit_bytes t b)
    | VisitChar s => Ok (hex_visit_str t s)
    | VisitOther => Ok (RErr DeType)
    end
  else
    match v with
    | VisitBytes b => bytes_visit_bytes t b
    | _ => Ok (RErr DeType)
    end.

(** ** JSON schema, src/internal_macros.rs:227-241, src/hmac.rs:90-103,
    src/sha256t.rs:131-144.  (sha256::Midstate has none.)

    [max_length] and [min_length] count characters, the [pattern] is searched
    for anywhere in the string (JSON Schema validation, sections 6.3.1-6.3.3).
    A string is its list of Unicode scalar values. *)
Record string_validation : Type := { max_length : N; min_length : N; pattern : N -> bool }.
(** The character class of the pattern "[0-9a-fA-F]+" *)
Definition hex_class (ch : N) : bool :=
  ((48 <=? ch) && (ch <=? 57)) || ((97 <=? ch) && (ch <=? 102)) || ((65 <=? ch) && (ch <=? 70)).
Definition json_schema (c : config) (t : hash_ty) : res string_validation :=
  match t with
  | THmac n =>    (* Some(N as u32 * 2) *)
      let* hi := checked_mul c 32 (n mod 2 ^ 32) 2 in
      let* lo := checked_mul c 32 (n mod 2 ^ 32) 2 in
      Ok {| max_length := hi; min_length := lo; pattern := hex_class |}
  | TSha256t => Ok {| max_length := 32 * 2; min_length := 32 * 2; pattern := hex_class |}
  | _ =>
      let len := macro_bits t / 8 in
      let* hi := checked_mul c 32 len 2 in
      let* lo := checked_mul c 32 len 2 in
      Ok {| max_length := hi; min_length := lo; pattern := hex_class |}
  end.
(** [class+] is found in a string iff some character is in the class. *)
Definition validates (v : string_validation) (s : list N) : bool :=
  (min_length v <=? len s) && (len s <=? max_length v) && existsb (pattern v) s.
