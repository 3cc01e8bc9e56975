(** Meanings of the Rust constructs that the text written by tools/rs2v.py
    (files Gen*.v) uses besides those of Base.v.  Nothing here depends on the
    crate; the citations say where the construct occurs. *)
From Verif Require Import Base ModelSimd ModelSip.

(** [a & b] on u8, src/cmp.rs:52 *)
Definition u8_and (a b : byte) : byte := u8 (N.land (b2n a) (b2n b)).

(** [x << n], [x >> n] on width [w] with a shift amount that is not a literal:
    an amount of [w] or more is an overflow, src/siphash24.rs:145,258,262 *)
Definition checked_shl (c : config) (w x n : N) : res N :=
  if n <? w then Ok (N.shiftl x n mod 2 ^ w)
  else if overflow_checks c then Panic POverflow
  else Ok (N.shiftl x (n mod w) mod 2 ^ w).
Definition checked_shr (c : config) (w x n : N) : res N :=
  if n <? w then Ok (N.shiftr x n)
  else if overflow_checks c then Panic POverflow
  else Ok (N.shiftr x (n mod w)).

(** [a / b], [a % b] with a divisor that is not a literal: zero panics in every
    build (recorded as [PAssert]), src/sha256.rs:174 *)
Definition checked_div (a b : N) : res N := if b =? 0 then Panic PAssert else Ok (a / b).
Definition checked_rem (a b : N) : res N := if b =? 0 then Panic PAssert else Ok (a mod b).

(** What [&mut l[i..j]] refers to has been replaced by [x],
    src/internal_macros.rs:28-29 *)
Definition splice {A} (i j : N) (l x : list A) : list A :=
  firstn (N.to_nat i) l ++ x ++ skipn (N.to_nat j) l.

(** [for x in xs { body }], src/lib.rs:184-186 *)
Fixpoint for_each {A S} (xs : list A) (body : A -> S -> res S) (s : S) : res S :=
  match xs with
  | [] => Ok s
  | x :: xs => let* s := body x s in for_each xs body s
  end.

(** [for (i, x) in xs.iter().enumerate() { body }], src/sha1.rs:113 *)
Fixpoint for_enum {A S} (xs : list A) (i : N) (body : N -> A -> S -> res S) (s : S) : res S :=
  match xs with
  | [] => Ok s
  | x :: xs => let* s := body i x s in for_enum xs (i + 1) body s
  end.

(** [for (d, s) in dst.iter_mut().zip(src) { body changing *d }],
    src/sha1.rs:100-102 and its likes, src/hmac.rs:221-232 *)
Fixpoint zip_iter_mut {A B} (dst : list A) (src : list B) (body : A -> B -> res A)
    : res (list A) :=
  match dst, src with
  | d :: ds, s :: ss =>
      let* d := body d s in
      let* r := zip_iter_mut ds ss body in
      Ok (d :: r)
  | _, _ => Ok dst
  end.

(** [for (x, c) in xs.iter().zip(ret.chunks_exact_mut(n)) { body changing c }],
    src/sha1.rs:68-70 and its likes *)
Fixpoint zip_chunks_mut {A B} (xs : list A) (n : N) (ret : list B)
    (body : A -> list B -> res (list B)) : res (list B) :=
  match xs with
  | [] => Ok ret
  | x :: xs =>
      if len ret <? n then Ok ret
      else
        let* c := body x (firstn (N.to_nat n) ret) in
        let* r := zip_chunks_mut xs n (skipn (N.to_nat n) ret) body in
        Ok (c ++ r)
  end.

(** [_mm_loadu_si128(p as *const __m128i)], [_mm_storeu_si128]: 16 bytes at a
    pointer into an array of 32-bit words or of bytes; outside the array,
    undefined.  src/sha256.rs:481-482, 495, 508, 521, 533, 716-717 *)
Definition load_m128_words (l : list N) (off : N) : res m128 :=
  if off + 4 <=? len l then Ok (firstn 4 (skipn (N.to_nat off) l)) else Panic PUndefined.
Definition load_m128_bytes (l : bytes) (off : N) : res m128 :=
  if off + 16 <=? len l
  then Ok (m_of_bytes (firstn 16 (skipn (N.to_nat off) l))) else Panic PUndefined.
Definition store_m128_words (l : list N) (off : N) (v : m128) : res (list N) :=
  if off + 4 <=? len l
  then Ok (firstn (N.to_nat off) l ++ v ++ skipn (N.to_nat off + 4) l) else Panic PUndefined.

(** [ptr::copy_nonoverlapping(buf.get_unchecked(i), &mut data, k)] into a
    [k]-byte integer, then read as that integer, src/siphash24.rs:44-49 *)
Definition load_native (c : config) (k : nat) (buf : bytes) (i : N) : res N :=
  if i + N.of_nat k <=? len buf then
    let raw := firstn k (skipn (N.to_nat i) buf) in
    Ok (if big_endian c then le_value (rev raw) else le_value raw)
  else Panic PUndefined.

(** [x.to_le()] on a [k]-byte integer, src/siphash24.rs:50 *)
Definition to_le (c : config) (k : nat) (x : N) : N :=
  if big_endian c then swap_bytes k x else x.

(** [x.rotate_left(n)] with an amount that is not a literal: the amount is
    taken modulo the width (core) *)
Definition rotate_left_mod (w n x : N) : N :=
  let n := n mod w in
  N.lor (N.shiftl x n mod 2 ^ w) (N.shiftr x (w - n)).
