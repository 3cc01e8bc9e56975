(** The library calls that occur in the formatting, serde and JSON-schema code
    of the crate; the target of tools/rs2v_text.py.  [core::fmt],
    hex-conservative, serde and schemars are read as documented. *)
From Coq Require Import Strings.Byte.
From Verif Require Import Base ModelTypes ModelFmt ModelValues.

(** ** core::fmt

    A [fmt] function is the text it writes.  The sink accepts everything
    ([fmt::Error] comes only from a sink). *)
(** hex::fmt_hex_exact!(f, n, bytes, case): asserts the number of bytes. *)
Definition fmt_exact (f : formatter) (n : N) (b : bytes) (cs : hex_case) : res bytes :=
  if len b =? n then Ok (fmt_hex_exact f cs b) else Panic PAssert.
(** [as_hex()] with LowerHex or UpperHex, of a formatter without width,
    precision or sign (those are hex-conservative's own code) *)
Definition fmt_as_hex (f : formatter) (b : bytes) (cs : hex_case) : res bytes :=
  Ok (fmt_hex (f_alternate f) cs b).
(** one piece of text after the other *)
Definition then_text (a b : res bytes) : res bytes :=
  let* x := a in let* y := b in Ok (x ++ y).

(** ** serde

    A serializer is whether it is human readable; the result is the call it
    gets ([serialized]).  A deserializer says whether it is human readable, and
    what it hands to the visitor, which may depend on what it was asked for. *)
Inductive hint : Set := AskStr | AskString | AskBytes | AskByteBuf | AskAny.
Record deserializer := mk_deserializer { d_human : bool; d_hand : hint -> visited }.

(** de::Unexpected *)
Inductive unexpected : Set := UBytes (b : bytes) | UStr (s : bytes) | UOther.
(** The constructors of de::Error.  The last argument is the text of [Expected]. *)
Inductive serde_error : Set :=
| ECustom (e : hex_error)
| EInvalidValue (u : unexpected) (expected : bytes)
| EInvalidLength (n : N) (expected : bytes)
| EInvalidType (u : unexpected) (expected : bytes).

(** de::Visitor: a method that is not implemented is serde's default. *)
Record visitor := mk_visitor {
  vi_expecting : res bytes;
  vi_str : option (bytes -> res (result bytes serde_error));
  vi_bytes : option (bytes -> res (result bytes serde_error))
}.
Definition rejects (v : visitor) (u : unexpected) : res (result bytes serde_error) :=
  let* t := vi_expecting v in Ok (RErr (EInvalidType u t)).
Definition visit (v : visitor) (x : visited) : res (result bytes serde_error) :=
  match x with
  | VisitStr s | VisitChar s => match vi_str v with Some m => m s | None => rejects v (UStr s) end
  | VisitBytes b => match vi_bytes v with Some m => m b | None => rejects v (UBytes b) end
  | VisitOther => rejects v UOther
  end.
Definition ask (d : deserializer) (h : hint) (v : visitor) : res (result bytes serde_error) :=
  visit v (d_hand d h).

Definition map_err {A E F} (r : res (result A E)) (f : E -> F) : res (result A F) :=
  let* r := r in Ok (match r with ROk a => ROk a | RErr e => RErr (f e) end).
(** core::str::from_utf8 *)
Definition str_from_utf8 (b : bytes) : result bytes unit := if from_utf8 b then ROk b else RErr tt.

(** The trait SerdeHash with its supertraits FromStr, Display, Index<RangeFull> *)
Record serde_hash := mk_serde_hash {
  sh_n : N;
  sh_from_slice_delegated : bytes -> res (result bytes from_slice_error);
  sh_from_str : bytes -> res (result bytes hex_error);
  sh_fmt : bytes -> formatter -> res bytes;
  sh_index : bytes -> slice_index -> res bytes
}.
Definition collect_str (text : res bytes) : res serialized := let* t := text in Ok (CollectStr t).
Definition serialize_bytes (b : res bytes) : res serialized := let* b := b in Ok (SerializeBytes b).

(** ** schemars: the [string] member of a SchemaObject.  [String]'s own schema
    has none. *)
Record validation := mk_validation { va_max : option N; va_min : option N; va_pattern : option bytes }.
Record schema := mk_schema { sc_string : option validation }.
Definition string_schema : schema := mk_schema None.
