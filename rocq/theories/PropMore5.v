(** Formatting under every option, and FIPS 180-4 on bit strings: C65, C66. *)
From Coq Require Import Arith NArith ZArith List Bool Lia.
From Coq Require Import Strings.Byte Strings.String.
From Verif Require Import Base SpecBase SpecMD ModelEngine ModelAll ModelTypes SpecText SpecApi
  ModelFmt SpecFmt SpecBits SpecBitsRip ProofFmt ProofBits ProofBitsRip.
Import ListNotations.
Open Scope N_scope.
Open Scope list_scope.

(** C65 *)
Theorem C65_format : forall f x h, f_fill f = utf8_char x ->
  formatted digits (f_plus f) (f_alternate f) (f_zero f) (f_want f) x (f_side f) h (lower_hex_fmt f h) /\
  formatted DIGITS (f_plus f) (f_alternate f) (f_zero f) (f_want f) x (f_side f) h (upper_hex_fmt f h) /\
  formatted digits (f_plus f) (f_alternate f) (f_zero f) (f_want f) x (f_side f) h (display_fmt f h) /\
  formatted digits false true false 0 32 OnLeft h (debug_fmt f h).
Proof. exact fmt_impls. Qed.
Print Assumptions C65_format.
Theorem C65_unique : forall ds p a z w x s h o o',
  formatted ds p a z w x s h o -> formatted ds p a z w x s h o' -> o = o'.
Proof. exact formatted_unique. Qed.
Print Assumptions C65_unique.
Theorem C65_count : forall f x h, scalar x -> f_fill f = utf8_char x -> exists t, Forall scalar t /\
  display_fmt f h = utf8 t /\ List.length t = Nat.max (f_want f) (natural (f_plus f) (f_alternate f) h).
Proof. exact fmt_count. Qed.
Print Assumptions C65_count.
Theorem C65_parse : forall t f x h s, f_fill f = utf8_char x -> len h = ty_len t ->
  s = display_fmt f h \/ s = lower_hex_fmt f h \/ s = upper_hex_fmt f h ->
  (f_plus f = false /\ f_alternate f = false /\ (f_want f <= 2 * List.length h)%nat -> from_str t s = ROk h) /\
  (~ (f_plus f = false /\ f_alternate f = false /\ (f_want f <= 2 * List.length h)%nat) ->
     exists e, from_str t s = RErr e).
Proof. exact fmt_parse_impls. Qed.
Print Assumptions C65_parse.
Theorem C65_plain : forall al h,
  lower_hex_fmt (plain al) h = lower_hex al h /\ upper_hex_fmt (plain al) h = upper_hex al h /\
  display_fmt (plain al) h = display al h /\ debug_fmt (plain al) h = debug h.
Proof. exact fmt_plain_impls. Qed.
Print Assumptions C65_plain.
(** [{:é^+#23x}], [{:024}], [{:a<17}] of a SipHash value *)
Definition C65_hash : list byte := [x01; x23; x45; x67; x89; xab; xcd; xef].
Example C65_case :
  lower_hex_fmt (mk_formatter true true false (Some 23) (utf8_char 0xe9) (Some ACenter)) C65_hash
  = [xc3; xa9; xc3; xa9] ++ list_byte_of_string "+0x0123456789abcdef" ++ [xc3; xa9; xc3; xa9] /\
  display_fmt (mk_formatter false false true (Some 24) (utf8_char 0x20) (Some ALeft)) C65_hash
  = list_byte_of_string "000000000123456789abcdef" /\
  upper_hex_fmt (mk_formatter false false false (Some 17) (utf8_char 0x61) (Some ALeft)) C65_hash
  = list_byte_of_string "0123456789ABCDEFa" /\
  from_str TSiphash24 (list_byte_of_string "0123456789ABCDEFa") = RErr (OddLengthString 17) /\
  len C65_hash = ty_len TSiphash24 /\ scalar 0xe9.
Proof. repeat split; try reflexivity. unfold scalar. lia. Qed.

(** C66 *)
Theorem C66_bits : forall c s chunks, wf_config c -> fits c (sha_algo s) (List.length (List.concat chunks)) ->
  exists d, he_hash_byte_chunks (algo_engine c (sha_algo s)) chunks = Ok d /\
    forall y, fips_sha s (bits_of (List.concat chunks)) y <-> y = bits_of d.
Proof. exact code_bits. Qed.
Print Assumptions C66_bits.
Theorem C66_octets : forall s m d, fips_sha s (bits_of m) d <-> d = bits_of (hash_of (sha_algo s) m).
Proof. exact fips_exact. Qed.
Print Assumptions C66_octets.
Theorem C66_injective : forall a b, bits_of a = bits_of b -> a = b.
Proof. exact bits_of_inj. Qed.
Print Assumptions C66_injective.
(** "abc": 24 bits, 423 zero bits; digest from the bit-level definition. *)
Example C66_case :
  bits_of [x61; x62] = [false; true; true; false; false; false; false; true;
                        false; true; true; false; false; false; true; false] /\
  fips_padded 512 64 (bits_of [x61; x62; x63])
    (bits_of [x61; x62; x63] ++ [true] ++ repeat false 423 ++ repr 64 24) /\
  b_sha FSha1 (bits_of [x61; x62; x63] ++ [true] ++ repeat false 423 ++ repr 64 24)
  = bits_of (be_octets 20 0xa9993e364706816aba3e25717850c26c9cd0d89d).
Proof.
  split; [reflexivity|]. split.
  - exists 423%nat. split; [reflexivity|]. split; [reflexivity|]. intros k' H.
    change (List.length (bits_of [x61; x62; x63])) with 24%nat in H.
    pose proof (Nat.div_mod (24 + 1 + k') 512 ltac:(lia)). lia.
  - vm_compute. reflexivity.
Qed.
(** RIPEMD-160, against the printed tables of the paper. *)
Theorem C66_ripemd160 : forall c chunks, wf_config c -> fits c Ripemd160 (List.length (List.concat chunks)) ->
  exists d, he_hash_byte_chunks (algo_engine c Ripemd160) chunks = Ok d /\
    forall y, paper_rip (bits_of (List.concat chunks)) y <-> y = bits_of d.
Proof. exact rip_code_bits. Qed.
Print Assumptions C66_ripemd160.
Example C66_ripemd160_case :
  fits (target 16 true) Ripemd160 (List.length (List.concat [[x61]; [x62; x63]])) /\
  rb_hash (bits_of [x61; x62; x63] ++ [true] ++ repeat false 423 ++ swap_octets (repr 64 24))
  = bits_of (be_octets 20 0x8eb208f7e05d987a9b044a8e98c6b087f15a0bfc).
Proof. split; [vm_compute; repeat split|vm_compute]; reflexivity. Qed.
