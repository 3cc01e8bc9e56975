(** Formatting, serde and JSON schemas of the crate as translated by
    tools/rs2v_text.py: C78 to C81. *)
From Coq Require Import NArith ZArith List Bool Lia.
From Coq Require Import Strings.Byte Strings.String.
From Verif Require Import Base SpecBase ModelEngine ModelTypes ModelFmt ModelValues SpecApi SpecText SpecTypes SpecFmt SpecValues
  GenTypes SpecGenTypes TextBase GenText SpecGenText ProofGenText.
Import ListNotations.
Open Scope N_scope.
Open Scope list_scope.

(** C78 *)
Theorem C78_formatted : forall T t f x h, exact_width t -> f_fill f = utf8_char x -> len h = octets_of t ->
  exists lo up di de,
    gx_lower (gen_tx T t) h f = Ok lo /\ formatted digits (f_plus f) (f_alternate f) (f_zero f) (f_want f) x (f_side f) h lo /\
    gx_upper (gen_tx T t) h f = Ok up /\ formatted DIGITS (f_plus f) (f_alternate f) (f_zero f) (f_want f) x (f_side f) h up /\
    gx_display (gen_tx T t) h f = Ok di /\ formatted digits (f_plus f) (f_alternate f) (f_zero f) (f_want f) x (f_side f) h di /\
    gx_debug (gen_tx T t) h f = Ok de /\ de = [x30; x78] ++ hex_text digits h.
Proof. exact gen_formatted. Qed.
Print Assumptions C78_formatted.
Theorem C78_plain : forall T t al h, len h = octets_of t ->
  gx_lower (gen_tx T t) h (plain al) = Ok ((if al then [x30; x78] else []) ++ hex_text digits h) /\
  gx_upper (gen_tx T t) h (plain al) = Ok ((if al then [x30; x78] else []) ++ hex_text DIGITS h) /\
  gx_display (gen_tx T t) h (plain al) = Ok ((if al then [x30; x78] else []) ++ hex_text digits h) /\
  forall f, gx_debug (gen_tx T t) h f = Ok ([x30; x78] ++ hex_text digits h).
Proof. exact gen_plain. Qed.
Print Assumptions C78_plain.
Theorem C78_parse : forall T t h, len h = octets_of t -> exists s u,
  gx_display (gen_tx T t) h (plain false) = Ok s /\ gt_from_str (gen_ty T t) s = ROk h /\
  gx_upper (gen_tx T t) h (plain false) = Ok u /\ gt_from_str (gen_ty T t) u = ROk h.
Proof. exact gen_parse. Qed.
Print Assumptions C78_parse.
Theorem C78_error_text : forall e f, exists s s' out, numeral s (g_lib_FromSliceError_invalid_length e) /\
  numeral s' (g_lib_FromSliceError_expected_length e) /\ g_lib_FromSliceError_Display_fmt e f = Ok out /\
  out = list_byte_of_string "invalid slice length " ++ s ++ list_byte_of_string " (expected " ++ s' ++ list_byte_of_string ")".
Proof. exact gen_error_text. Qed.
Print Assumptions C78_error_text.
Definition C78_hash : list byte := [x01; x23; x45; x67; x89; xab; xcd; xef].
Example C78_case : let T := Panic PUnreachable in
  exact_width TSiphash24 /\ len C78_hash = octets_of TSiphash24 /\
  gx_lower (gen_tx T TSiphash24) C78_hash (mk_formatter true true false (Some 21) (utf8_char 0x2a) (Some ACenter))
  = Ok (list_byte_of_string "*+0x0123456789abcdef*") /\
  gx_debug (gen_tx T TSiphash24) C78_hash (mk_formatter false true true (Some 50) (utf8_char 0x2a) None)
  = Ok (list_byte_of_string "0x0123456789abcdef") /\
  gx_upper (gen_tx T (THmac 2)) [x1f; xe0] (plain true) = Ok (list_byte_of_string "0x1FE0") /\
  g_lib_FromSliceError_Display_fmt (g_lib_FromSliceError_new 120 20) (plain true)
  = Ok (list_byte_of_string "invalid slice length 120 (expected 20)").
Proof. repeat split; vm_compute; reflexivity. Qed.

(** C79 *)
Theorem C79_deserialize : forall T c t d, exists r, gx_deserialize (gen_tx T t) c d = Ok r /\
  answers (octets_of t) (d_human d) (d_hand d (asked (d_human d))) r.
Proof. exact gen_deserialize. Qed.
Print Assumptions C79_deserialize.
(** The specification has one answer. *)
Theorem C79_answers_fun : forall n hr v r r', answers n hr v r -> answers n hr v r' -> r = r'.
Proof. exact answers_fun. Qed.
Print Assumptions C79_answers_fun.
Theorem C79_roundtrip : forall T c t hr h, len h = octets_of t ->
  exists o, gx_serialize (gen_tx T t) c h hr = Ok o /\
    o = (if hr then CollectStr (hex_text digits h) else SerializeBytes h) /\
    forall c' d, d_human d = hr -> d_hand d (asked hr) = handed o -> gx_deserialize (gen_tx T t) c' d = Ok (ROk h).
Proof. exact gen_serde_roundtrip. Qed.
Print Assumptions C79_roundtrip.
Theorem C79_n : forall T c t, gx_n (gen_tx T t) c = octets_of t.
Proof. exact gen_serde_n. Qed.
Print Assumptions C79_n.
(** Also a deserializer that hands over different things when asked for
    different things. *)
Example C79_case : let T := Panic PUnreachable in let c := target 64 true in
  let d hr := mk_deserializer hr (fun h => match h with AskStr => VisitStr (list_byte_of_string "1Fe0")
                                                   | AskBytes => VisitBytes [x1f] | _ => VisitOther end) in
  gx_deserialize (gen_tx T (THmac 2)) c (d true) = Ok (ROk [x1f; xe0]) /\
  gx_deserialize (gen_tx T (THmac 2)) c (d false) = Ok (RErr (EInvalidLength 1 [x4e])) /\
  gx_deserialize (gen_tx T (THmac 3)) c (d true) = Ok (RErr (ECustom (InvalidLength 6 4))) /\
  gx_deserialize (gen_tx T TSha1) c (mk_deserializer true (fun _ => VisitBytes [xff])) = Ok (RErr (EInvalidValue (UBytes [xff]) wants_hex)) /\
  gx_deserialize (gen_tx T TSha1) c (mk_deserializer false (fun _ => VisitStr [x30])) = Ok (RErr (EInvalidType (UStr [x30]) wants_bytes)) /\
  answers 2 true (VisitStr (list_byte_of_string "1Fe0")) (ROk [x1f; xe0]).
Proof.
  repeat split; try (vm_compute; reflexivity).
  left. exists [x1f; xe0]. split; [reflexivity|]. split; [|reflexivity].
  apply (den_cons x31 x46 1 15); [left; reflexivity|right; reflexivity|reflexivity|].
  apply (den_cons x65 x30 14 0); [left; reflexivity|left; reflexivity|reflexivity|constructor].
Qed.

(** C80 *)
Theorem C80_exact : forall T t sc c, gx_schema (gen_tx T t) = Some sc -> octets_of t < 2 ^ 31 -> exists s, sc c = Ok s /\
  forall x, admits s x <-> (len x = 2 * octets_of t /\ exists ch, In ch x /\ hex_code ch).
Proof. exact gen_schema. Qed.
Print Assumptions C80_exact.
Theorem C80_own_text : forall T t sc c h, gx_schema (gen_tx T t) = Some sc -> octets_of t < 2 ^ 31 -> 0 < octets_of t -> len h = octets_of t ->
  exists s text, sc c = Ok s /\ gx_serialize (gen_tx T t) c h true = Ok (CollectStr (utf8 text)) /\ admits s text.
Proof. exact gen_schema_own. Qed.
Print Assumptions C80_own_text.
(** Not every text that is admitted can be read: the pattern is not anchored. *)
Theorem C80_readable_refuted : forall T t sc c, gx_schema (gen_tx T t) = Some sc -> octets_of t < 2 ^ 31 -> 0 < octets_of t ->
  exists s text, sc c = Ok s /\ Forall scalar text /\ admits s text /\
    forall c' d h, d_human d = true -> d_hand d AskStr = VisitStr (utf8 text) -> gx_deserialize (gen_tx T t) c' d <> Ok (ROk h).
Proof. exact gen_schema_converse. Qed.
Print Assumptions C80_readable_refuted.
(** hmac::Hash of 2^31 octets or more: no schema, or one its own texts do not meet. *)
Theorem C80_large_refuted : forall T n sc c h, gx_schema (gen_tx T (THmac n)) = Some sc -> 2 ^ 31 <= n -> len h = n ->
  match sc c with
  | Panic _ => overflow_checks c = true
  | Ok s => ~ admits s (codes (hex_text digits h))
  end.
Proof. exact gen_schema_large. Qed.
Print Assumptions C80_large_refuted.
(** The schemas of all types have the same name, whatever they admit. *)
Theorem C80_names_refuted : forall T t t', gx_schema (gen_tx T t) <> None -> gx_schema (gen_tx T t') <> None ->
  gx_name (gen_tx T t) = gx_name (gen_tx T t') /\ gx_name (gen_tx T t) <> None.
Proof. exact gen_schema_names. Qed.
Print Assumptions C80_names_refuted.
Example C80_case : let T := Panic PUnreachable in
  (exists sc, gx_schema (gen_tx T TSha384) = Some sc /\ octets_of TSha384 < 2 ^ 31 /\ 0 < octets_of TSha384 /\
     exists s, sc (target 64 true) = Ok s /\ exists v, sc_string s = Some v /\ va_max v = Some 96 /\
       va_pattern v = Some (list_byte_of_string "[0-9a-fA-F]+")) /\
  pattern_class (list_byte_of_string "[0-9a-fA-F]+") = Some [(48, 57); (97, 102); (65, 70)] /\
  pattern_class (list_byte_of_string "[a_]+") = Some [(97, 97); (95, 95)] /\
  gx_name (gen_tx T TSha1) = Some (list_byte_of_string "Hash") /\ octets_of TSha1 <> octets_of TSha512 /\ hex_code 65.
Proof.
  cbv zeta. split.
  { eexists. split; [reflexivity|]. split; [reflexivity|]. split; [reflexivity|]. eexists. split; [reflexivity|].
    eexists. split; [reflexivity|]. split; reflexivity. }
  split; [reflexivity|]. split; [reflexivity|]. split; [reflexivity|]. split; [discriminate|].
  exists x41. split; [|reflexivity]. exists 10. right. reflexivity.
Qed.

(** C81 *)
Theorem C81_equal_hash : forall T a b, g_sha256t_Hash_eq T a b = true <->
  forall S wu w (s : S), run_hasher wu w (g_sha256t_Hash_core_hash T a) s = run_hasher wu w (g_sha256t_Hash_core_hash T b) s.
Proof. exact gen_core_hash_eq. Qed.
Print Assumptions C81_equal_hash.
Theorem C81_prefix_free : forall T a b r r', g_sha256t_Hash_core_hash T a ++ r = g_sha256t_Hash_core_hash T b ++ r' -> a = b /\ r = r'.
Proof. exact gen_core_hash_inj. Qed.
Print Assumptions C81_prefix_free.
Example C81_case : let T := Panic PUnreachable in
  g_sha256t_Hash_eq T [x01] [x01] = true /\ g_sha256t_Hash_core_hash T [x01; x02] = [WriteUsize 2; Write [x01; x02]].
Proof. split; reflexivity. Qed.
