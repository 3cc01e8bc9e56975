(** src/siphash24.rs *)
From Verif Require Import Base ModelEngine.

(** struct State, src/siphash24.rs:54-66 *)
Record sip_state : Type := mk_sip { v0 : N; v1 : N; v2 : N; v3 : N }.

(** compress!, src/siphash24.rs:14-34, statement by statement *)
Definition sip_compress (s : sip_state) : sip_state :=
  let add := wrapping_add 64 in
  let rotl := rotate_left 64 in
  let '(mk_sip v0 v1 v2 v3) := s in
  let v0 := add v0 v1 in
  let v1 := rotl 13 v1 in
  let v1 := N.lxor v1 v0 in
  let v0 := rotl 32 v0 in
  let v2 := add v2 v3 in
  let v3 := rotl 16 v3 in
  let v3 := N.lxor v3 v2 in
  let v0 := add v0 v3 in
  let v3 := rotl 21 v3 in
  let v3 := N.lxor v3 v0 in
  let v2 := add v2 v1 in
  let v1 := rotl 17 v1 in
  let v1 := N.lxor v1 v2 in
  let v2 := rotl 32 v2 in
  mk_sip v0 v1 v2 v3.

(** c_rounds, d_rounds: src/siphash24.rs:104-116 *)
Definition c_rounds (s : sip_state) : sip_state := sip_compress (sip_compress s).
Definition d_rounds (s : sip_state) : sip_state :=
  sip_compress (sip_compress (sip_compress (sip_compress s))).

(** struct Engine, src/siphash24.rs:68-76 *)
Record sip_engine : Type := mk_sip_engine {
  sip_k0 : N; sip_k1 : N;
  sip_length : N;
  sip_st : sip_state;
  sip_tail : N;
  sip_ntail : N
}.

(** with_keys, src/siphash24.rs:81-95 *)
Definition with_keys (k0 k1 : N) : sip_engine :=
  mk_sip_engine k0 k1 0
    (mk_sip (N.lxor k0 0x736f6d6570736575) (N.lxor k1 0x646f72616e646f6d)
            (N.lxor k0 0x6c7967656e657261) (N.lxor k1 0x7465646279746573))
    0 0.

(** new / default, src/siphash24.rs:98-99, 119-121 *)
Definition sip_default : sip_engine := with_keys 0 0.

(** keys, src/siphash24.rs:102 *)
Definition sip_keys (e : sip_engine) : N * N := (sip_k0 e, sip_k1 e).

(** [x.swap_bytes()] on a [k]-byte integer *)
Definition swap_bytes (k : nat) (x : N) : N := le_value (rev (to_le_bytes k x)).

(** load_int_le!, src/siphash24.rs:41-52: an unchecked [k]-byte load in native
    byte order followed by [to_le]. *)
Definition load_int_le (c : config) (k : nat) (buf : bytes) (i : N) : res N :=
  let* _ := debug_assert c (i + N.of_nat k <=? len buf) in
  if i + N.of_nat k <=? len buf then
    let raw := firstn k (skipn (N.to_nat i) buf) in
    let data := if big_endian c then le_value (rev raw) else le_value raw in
    Ok (if big_endian c then swap_bytes k data else data)
  else Panic PUndefined.

(** [*buf.get_unchecked(i)] *)
Definition get_unchecked (buf : bytes) (i : N) : res byte :=
  match nth_error buf (N.to_nat i) with Some b => Ok b | None => Panic PUndefined end.

(** [x << n] on u64: the shift amount must be below 64 *)
Definition shl64 (c : config) (x n : N) : res N :=
  if n <? 64 then Ok (N.shiftl x n mod 2 ^ 64)
  else if overflow_checks c then Panic POverflow
  else Ok (N.shiftl x (n mod 64) mod 2 ^ 64).

(** u8to64_le, src/siphash24.rs:250-268 *)
Definition u8to64_le (c : config) (buf : bytes) (start n : N) : res N :=
  let* _ := debug_assert c (n <? 8) in
  let* (out, i) :=
    if 0 + 3 <? n then
      let* x := load_int_le c 4 buf (start + 0) in Ok (x, 4)
    else Ok (0, 0) in
  let* (out, i) :=
    if i + 1 <? n then
      let* x := load_int_le c 2 buf (start + i) in
      let* x := shl64 c x (i * 8) in
      Ok (N.lor out x, i + 2)
    else Ok (out, i) in
  let* (out, i) :=
    if i <? n then
      let* b := get_unchecked buf (start + i) in
      let* x := shl64 c (b2n b) (i * 8) in
      Ok (N.lor out x, i + 1)
    else Ok (out, i) in
  let* _ := debug_assert c (i =? n) in
  Ok out.

(** [state.v3 ^= m; c_rounds(state); state.v0 ^= m], src/siphash24.rs:148-150,
    162-164 *)
Definition sip_absorb (s : sip_state) (m : N) : sip_state :=
  let s := mk_sip (v0 s) (v1 s) (v2 s) (N.lxor (v3 s) m) in
  let s := c_rounds s in
  mk_sip (N.lxor (v0 s) m) (v1 s) (v2 s) (v3 s).

(** The [while i < len - left] loop, src/siphash24.rs:159-167; [stop] is
    [len - left]. Returns the state and the final i. *)
Fixpoint sip_loop (fuel : nat) (c : config) (data : bytes) (stop : N) (i : N) (s : sip_state)
    : res (sip_state * N) :=
  if i <? stop then
    match fuel with
    | O => Panic POutOfFuel
    | S f =>
        let* mi := load_int_le c 8 data i in
        let s := sip_absorb s mi in
        let* i := usize_add c i 8 in
        sip_loop f c data stop i s
    end
  else Ok (s, i).

(** src/siphash24.rs:154-171: after the buffered tail has been flushed *)
Definition sip_input_rest (c : config) (data : bytes) (needed : N) (e : sip_engine)
    : res sip_engine :=
  let length := len data in
  let* ln := usize_sub c length needed in
  let left := N.land ln 0x7 in
  let* stop := usize_sub c ln left in
  let* (s, i) := sip_loop (Datatypes.length data) c data stop needed (sip_st e) in
  let* t := u8to64_le c data i left in
  Ok (mk_sip_engine (sip_k0 e) (sip_k1 e) (sip_length e) s t left).

(** input, src/siphash24.rs:133-171 *)
Definition sip_input (c : config) (e : sip_engine) (data : bytes) : res sip_engine :=
  let length := len data in
  let* new_length := usize_add c (sip_length e) length in
  if negb (sip_ntail e =? 0) then
    let* needed := usize_sub c 8 (sip_ntail e) in
    let* x := u8to64_le c data 0 (N.min length needed) in
    let* x := shl64 c x (8 * sip_ntail e) in
    let tail := N.lor (sip_tail e) x in
    if length <? needed then
      let* nt := usize_add c (sip_ntail e) length in
      Ok (mk_sip_engine (sip_k0 e) (sip_k1 e) new_length (sip_st e) tail nt)
    else
      let s := sip_absorb (sip_st e) tail in
      sip_input_rest c data needed
        (mk_sip_engine (sip_k0 e) (sip_k1 e) new_length s tail 0)
  else
    sip_input_rest c data 0
      (mk_sip_engine (sip_k0 e) (sip_k1 e) new_length (sip_st e) (sip_tail e) (sip_ntail e)).

(** finalize, src/siphash24.rs:173-189 *)
Definition sip_finalize (e : sip_engine) : bytes :=
  let s := sip_st e in
  let b := N.lor (N.shiftl (N.land (sip_length e) 0xff) 56 mod 2 ^ 64) (sip_tail e) in
  let s := mk_sip (v0 s) (v1 s) (v2 s) (N.lxor (v3 s) b) in
  let s := c_rounds s in
  let s := mk_sip (N.lxor (v0 s) b) (v1 s) (v2 s) (v3 s) in
  let s := mk_sip (v0 s) (v1 s) (N.lxor (v2 s) 0xff) (v3 s) in
  let s := d_rounds s in
  let hash := N.lxor (N.lxor (N.lxor (v0 s) (v1 s)) (v2 s)) (v3 s) in
  to_le_bytes 8 hash.

(** from_engine_to_u64, src/siphash24.rs:223-237 *)
Definition from_engine_to_u64 (e : sip_engine) : N :=
  let s := sip_st e in
  let b := N.lor (N.shiftl (N.land (sip_length e) 0xff) 56 mod 2 ^ 64) (sip_tail e) in
  let s := mk_sip (v0 s) (v1 s) (v2 s) (N.lxor (v3 s) b) in
  let s := c_rounds s in
  let s := mk_sip (N.lxor (v0 s) b) (v1 s) (v2 s) (v3 s) in
  let s := mk_sip (v0 s) (v1 s) (N.lxor (v2 s) 0xff) (v3 s) in
  let s := d_rounds s in
  N.lxor (N.lxor (N.lxor (v0 s) (v1 s)) (v2 s)) (v3 s).

(** midstate, src/siphash24.rs:199 *)
Definition sip_midstate (e : sip_engine) : sip_state := sip_st e.

(** from_midstate, src/siphash24.rs:202-204: the length is ignored, the other
    fields are those of [Default::default()] *)
Definition sip_from_midstate (m : sip_state) (_length : N) : sip_engine :=
  let d := sip_default in
  mk_sip_engine (sip_k0 d) (sip_k1 d) (sip_length d) m (sip_tail d) (sip_ntail d).

(** impl HashEngine for Engine, src/siphash24.rs:123-205 *)
Definition siphash24_engine (c : config) : HashEngine :=
  {| he_state := sip_engine;
     he_mid := sip_state;
     he_block_size := 32;
     he_default := Ok sip_default;
     he_input := sip_input c;
     he_n_bytes_hashed := sip_length;
     he_finalize := fun e => Ok (sip_finalize e);
     he_midstate := fun e => Ok (sip_midstate e);
     he_from_midstate := fun m n => Ok (sip_from_midstate m n) |}.

(** hash_with_keys, hash_to_u64_with_keys: src/siphash24.rs:208-221 *)
Definition hash_with_keys (c : config) (k0 k1 : N) (data : bytes) : res bytes :=
  let* e := sip_input c (with_keys k0 k1) data in Ok (sip_finalize e).
Definition hash_to_u64_with_keys (c : config) (k0 k1 : N) (data : bytes) : res N :=
  let* e := sip_input c (with_keys k0 k1) data in Ok (from_engine_to_u64 e).

(** as_u64 (on an 8-byte array), from_u64: src/siphash24.rs:240-243 *)
Definition as_u64 (h : bytes) : N := le_value h.
Definition from_u64 (x : N) : bytes := to_le_bytes 8 x.
