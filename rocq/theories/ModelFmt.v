(** Formatting under every formatter option: width, fill, alignment, [+], [0],
    [#].  The types that use [arr_newtype_fmt_impl!] (all but [hmac::Hash<N>],
    whose impls go through [as_hex()] and have their own padding code in
    hex-conservative).  Precision is not modelled (no precision set). *)
From Coq Require Import NArith List Bool.
From Coq Require Import Strings.Byte.
From Verif Require Import Base ModelTypes.
Import ListNotations.
Open Scope N_scope.

(** core::fmt::Formatter's options.  [f_fill] is the fill character in UTF-8.
    [f_align] is [None] when the format string names no alignment. *)
Inductive alignment : Set := ALeft | ARight | ACenter.
Record formatter : Set := mk_formatter {
  f_alternate : bool;              (* # *)
  f_plus : bool;                   (* + *)
  f_zero : bool;                   (* 0 *)
  f_width : option N;
  f_fill : bytes;
  f_align : option alignment
}.
(** The formatter of [{}] and of [{:#}] *)
Definition plain (alternate : bool) : formatter := mk_formatter alternate false false None [x20] None.

(** write_char, n times *)
Definition write_chars (n : N) (ch : bytes) : bytes := concat (repeat ch (N.to_nat n)).

(** Formatter::padding: the characters before, and the number after *)
Definition padding (f : formatter) (n : N) (default : alignment) : bytes * N :=
  let '(pre, post) := match match f_align f with Some a => a | None => default end with
                      | ALeft => (0, n)
                      | ARight => (n, 0)
                      | ACenter => (n / 2, (n + 1) / 2)
                      end in
  (write_chars pre (f_fill f), post).

(** Formatter::pad_integral with is_nonnegative = true *)
Definition pad_integral (f : formatter) (prefix buf : bytes) : bytes :=
  let width := len buf in
  let sign := if f_plus f then [x2b] else [] in
  let width := if f_plus f then width + 1 else width in
  let shown := if f_alternate f then prefix else [] in
  let width := if f_alternate f then width + len prefix else width in
  match f_width f with
  | None => sign ++ shown ++ buf
  | Some min =>
      if min <=? width then sign ++ shown ++ buf
      else if f_zero f then
        (* fill and alignment replaced by '0' and Right while this runs *)
        let f := mk_formatter (f_alternate f) (f_plus f) (f_zero f) (f_width f) [x30] (Some ARight) in
        let '(pre, post) := padding f (min - width) ARight in
        sign ++ shown ++ pre ++ buf ++ write_chars post (f_fill f)
      else
        let '(pre, post) := padding f (min - width) ARight in
        pre ++ sign ++ shown ++ buf ++ write_chars post (f_fill f)
  end.

(** fmt_hex_exact!: the digits into a buffer, then pad_integral *)
Definition fmt_hex_exact (f : formatter) (cs : hex_case) (h : bytes) : bytes :=
  pad_integral f [x30; x78] (put_bytes cs h).

(** src/internal_macros.rs:51-80 *)
Definition lower_hex_fmt (f : formatter) (h : bytes) : bytes := fmt_hex_exact f Lower h.
Definition upper_hex_fmt (f : formatter) (h : bytes) : bytes := fmt_hex_exact f Upper h.
Definition display_fmt (f : formatter) (h : bytes) : bytes := lower_hex_fmt f h.
(** [write!(f, "{:#}", self)]: a new formatter with only [#]; the caller's
    options are not passed on. *)
Definition debug_fmt (f : formatter) (h : bytes) : bytes := display_fmt (plain true) h.
