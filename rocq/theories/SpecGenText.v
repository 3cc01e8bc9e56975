(** Vocabulary for the theorems on the translated formatting, serde and
    JSON-schema code (GenText.v). *)
From Coq Require Import Strings.Byte Strings.String.
From Verif Require Import Base ModelEngine ModelTypes ModelFmt SpecText TextBase GenText.
Open Scope list_scope.

(** The translated functions of one hash type. *)
Record gen_text := {
  gx_lower : bytes -> formatter -> res bytes;
  gx_upper : bytes -> formatter -> res bytes;
  gx_display : bytes -> formatter -> res bytes;
  gx_debug : bytes -> formatter -> res bytes;
  gx_serialize : config -> bytes -> bool -> res serialized;
  gx_deserialize : config -> deserializer -> res (result bytes serde_error);
  gx_n : config -> N;
  gx_name : option bytes;
  gx_schema : option (config -> res schema)
}.
(** [T]: the [Tag::engine] of the tag type of sha256t::Hash *)
Definition gen_tx (T : res engine) (t : hash_ty) : gen_text :=
  match t with
  | TSha1 => {| gx_lower := g_sha1_Hash_LowerHex_fmt; gx_upper := g_sha1_Hash_UpperHex_fmt;
      gx_display := g_sha1_Hash_Display_fmt; gx_debug := g_sha1_Hash_Debug_fmt;
      gx_serialize := fun c => g_sha1_Hash_Serialize_serialize c;
      gx_deserialize := fun c => g_sha1_Hash_Deserialize_deserialize c;
      gx_n := fun c => sh_n (g_sha1_Hash_SerdeHash c);
      gx_name := Some g_sha1_Hash_schema_name; gx_schema := Some (fun c => g_sha1_Hash_json_schema c) |}
  | TSha256 => {| gx_lower := g_sha256_Hash_LowerHex_fmt; gx_upper := g_sha256_Hash_UpperHex_fmt;
      gx_display := g_sha256_Hash_Display_fmt; gx_debug := g_sha256_Hash_Debug_fmt;
      gx_serialize := fun c => g_sha256_Hash_Serialize_serialize c;
      gx_deserialize := fun c => g_sha256_Hash_Deserialize_deserialize c;
      gx_n := fun c => sh_n (g_sha256_Hash_SerdeHash c);
      gx_name := Some g_sha256_Hash_schema_name; gx_schema := Some (fun c => g_sha256_Hash_json_schema c) |}
  | TSha384 => {| gx_lower := g_sha384_Hash_LowerHex_fmt; gx_upper := g_sha384_Hash_UpperHex_fmt;
      gx_display := g_sha384_Hash_Display_fmt; gx_debug := g_sha384_Hash_Debug_fmt;
      gx_serialize := fun c => g_sha384_Hash_Serialize_serialize c;
      gx_deserialize := fun c => g_sha384_Hash_Deserialize_deserialize c;
      gx_n := fun c => sh_n (g_sha384_Hash_SerdeHash c);
      gx_name := Some g_sha384_Hash_schema_name; gx_schema := Some (fun c => g_sha384_Hash_json_schema c) |}
  | TSha512 => {| gx_lower := g_sha512_Hash_LowerHex_fmt; gx_upper := g_sha512_Hash_UpperHex_fmt;
      gx_display := g_sha512_Hash_Display_fmt; gx_debug := g_sha512_Hash_Debug_fmt;
      gx_serialize := fun c => g_sha512_Hash_Serialize_serialize c;
      gx_deserialize := fun c => g_sha512_Hash_Deserialize_deserialize c;
      gx_n := fun c => sh_n (g_sha512_Hash_SerdeHash c);
      gx_name := Some g_sha512_Hash_schema_name; gx_schema := Some (fun c => g_sha512_Hash_json_schema c) |}
  | TSha512_256 => {| gx_lower := g_sha512_256_Hash_LowerHex_fmt; gx_upper := g_sha512_256_Hash_UpperHex_fmt;
      gx_display := g_sha512_256_Hash_Display_fmt; gx_debug := g_sha512_256_Hash_Debug_fmt;
      gx_serialize := fun c => g_sha512_256_Hash_Serialize_serialize c;
      gx_deserialize := fun c => g_sha512_256_Hash_Deserialize_deserialize c;
      gx_n := fun c => sh_n (g_sha512_256_Hash_SerdeHash c);
      gx_name := Some g_sha512_256_Hash_schema_name; gx_schema := Some (fun c => g_sha512_256_Hash_json_schema c) |}
  | TRipemd160 => {| gx_lower := g_ripemd160_Hash_LowerHex_fmt; gx_upper := g_ripemd160_Hash_UpperHex_fmt;
      gx_display := g_ripemd160_Hash_Display_fmt; gx_debug := g_ripemd160_Hash_Debug_fmt;
      gx_serialize := fun c => g_ripemd160_Hash_Serialize_serialize c;
      gx_deserialize := fun c => g_ripemd160_Hash_Deserialize_deserialize c;
      gx_n := fun c => sh_n (g_ripemd160_Hash_SerdeHash c);
      gx_name := Some g_ripemd160_Hash_schema_name; gx_schema := Some (fun c => g_ripemd160_Hash_json_schema c) |}
  | TSiphash24 => {| gx_lower := g_siphash24_Hash_LowerHex_fmt; gx_upper := g_siphash24_Hash_UpperHex_fmt;
      gx_display := g_siphash24_Hash_Display_fmt; gx_debug := g_siphash24_Hash_Debug_fmt;
      gx_serialize := fun c => g_siphash24_Hash_Serialize_serialize c;
      gx_deserialize := fun c => g_siphash24_Hash_Deserialize_deserialize c;
      gx_n := fun c => sh_n (g_siphash24_Hash_SerdeHash c);
      gx_name := Some g_siphash24_Hash_schema_name; gx_schema := Some (fun c => g_siphash24_Hash_json_schema c) |}
  | TSha256t => {| gx_lower := g_sha256t_Hash_LowerHex_fmt T; gx_upper := g_sha256t_Hash_UpperHex_fmt T;
      gx_display := g_sha256t_Hash_Display_fmt T; gx_debug := g_sha256t_Hash_Debug_fmt T;
      gx_serialize := fun c => g_sha256t_Hash_Serialize_serialize c T;
      gx_deserialize := fun c => g_sha256t_Hash_Deserialize_deserialize c T;
      gx_n := fun c => sh_n (g_sha256t_Hash_SerdeHash c T);
      gx_name := Some g_sha256t_Hash_schema_name; gx_schema := Some (fun c => g_sha256t_Hash_json_schema c T) |}
  | THmac n => {| gx_lower := g_hmac_Hash_LowerHex_fmt n; gx_upper := g_hmac_Hash_UpperHex_fmt n;
      gx_display := g_hmac_Hash_Display_fmt n; gx_debug := g_hmac_Hash_Debug_fmt n;
      gx_serialize := fun c => g_hmac_Hash_Serialize_serialize c n;
      gx_deserialize := fun c => g_hmac_Hash_Deserialize_deserialize c n;
      gx_n := fun c => sh_n (g_hmac_Hash_SerdeHash c n);
      gx_name := Some g_hmac_Hash_schema_name; gx_schema := Some (fun c => g_hmac_Hash_json_schema c n) |}
  | TMidstate => {| gx_lower := g_sha256_Midstate_LowerHex_fmt; gx_upper := g_sha256_Midstate_UpperHex_fmt;
      gx_display := g_sha256_Midstate_Display_fmt; gx_debug := g_sha256_Midstate_Debug_fmt;
      gx_serialize := fun c => g_sha256_Midstate_Serialize_serialize c;
      gx_deserialize := fun c => g_sha256_Midstate_Deserialize_deserialize c;
      gx_n := fun c => sh_n (g_sha256_Midstate_SerdeHash c);
      gx_name := None; gx_schema := None |}
  end.

(** All but hmac::Hash, whose formatting options are handled by hex-conservative *)
Definition exact_width (t : hash_ty) : Prop := match t with THmac _ => False | _ => True end.

(** ** Deserialization *)
(** Why a text is not the hexadecimal form of [n] octets; the first character
    that is no digit is named. *)
Definition hex_fault (n : N) (s : text) (e : hex_error) : Prop :=
  (len s mod 2 <> 0 /\ e = OddLengthString (len s)) \/
  (len s mod 2 = 0 /\ len s <> 2 * n /\ e = InvalidLength (2 * n) (len s)) \/
  (len s = 2 * n /\ exists p ch q, s = p ++ ch :: q /\ Forall hex_digit p /\ ~ hex_digit ch /\ e = InvalidChar ch).
Definition hex_answer (n : N) (s : text) (r : result bytes serde_error) : Prop :=
  (exists h, len s = 2 * n /\ denotes s h /\ r = ROk h) \/ (exists e, hex_fault n s e /\ r = RErr (ECustom e)).
Definition is_utf8 (b : bytes) : Prop := exists t, Forall scalar t /\ b = utf8 t.
Definition wants_hex : text := list_byte_of_string "an ASCII hex string".
Definition wants_bytes : text := list_byte_of_string "a bytestring".

(** [r]: what a hash of [n] octets is read as from the value [v], which a
    deserializer, human readable or not, hands over. *)
Definition answers (n : N) (human : bool) (v : visited) (r : result bytes serde_error) : Prop :=
  match human, v with
  | true, (VisitStr s | VisitChar s) => hex_answer n s r
  | true, VisitBytes b => (is_utf8 b /\ hex_answer n b r) \/
                          (~ is_utf8 b /\ r = RErr (EInvalidValue (UBytes b) wants_hex))
  | true, VisitOther => r = RErr (EInvalidType UOther wants_hex)
  | false, VisitBytes b => (len b = n /\ r = ROk b) \/
                           (len b <> n /\ r = RErr (EInvalidLength (len b) (list_byte_of_string "N")))
  | false, (VisitStr s | VisitChar s) => r = RErr (EInvalidType (UStr s) wants_bytes)
  | false, VisitOther => r = RErr (EInvalidType UOther wants_bytes)
  end.
(** The method of the deserializer that is called *)
Definition asked (human : bool) : hint := if human then AskStr else AskBytes.
(** What a deserializer of the same format hands over *)
Definition handed (o : serialized) : visited :=
  match o with CollectStr s => VisitStr s | SerializeBytes b => VisitBytes b end.

(** ** JSON schema (JSON Schema Validation, sections 6.3.1 to 6.3.3)

    A pattern of the form [[...]+], not anchored: found in a string if one of
    its characters is in the class.  The class is a sequence of ranges and single
    characters.  A string is its list of Unicode scalar values. *)
Fixpoint class_items (t : text) : option (list (N * N) * text) :=
  match t with
  | [] => None
  | a :: r =>
      if Byte.eqb a x5d then Some ([], r)                                   (* ] *)
      else
        match r with
        | m :: b :: r' =>
            if Byte.eqb m x2d                                               (* - *)
            then match class_items r' with Some (l, q) => Some ((Byte.to_N a, Byte.to_N b) :: l, q) | None => None end
            else match class_items r with Some (l, q) => Some ((Byte.to_N a, Byte.to_N a) :: l, q) | None => None end
        | _ => match class_items r with Some (l, q) => Some ((Byte.to_N a, Byte.to_N a) :: l, q) | None => None end
        end
  end.
Definition pattern_class (p : text) : option (list (N * N)) :=
  match p with
  | a :: t =>
      match class_items t with
      | Some (l, [b]) => if Byte.eqb a x5b && Byte.eqb b x2b then Some l else None              (* [ and + *)
      | _ => None
      end
  | [] => None
  end.
Definition found (p : text) (s : list N) : Prop :=
  exists l ch lo hi, pattern_class p = Some l /\ In ch s /\ In (lo, hi) l /\ lo <= ch /\ ch <= hi.
Definition admits (sc : schema) (s : list N) : Prop :=
  forall v, sc_string sc = Some v ->
    (forall n, va_max v = Some n -> len s <= n) /\ (forall n, va_min v = Some n -> n <= len s) /\
    (forall p, va_pattern v = Some p -> found p s).
Definition hex_code (ch : N) : Prop := exists d, hex_digit d /\ Byte.to_N d = ch.
