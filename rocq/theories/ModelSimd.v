(** x86 vector instructions used by src/sha256.rs:463-718, with the semantics
    of the Intel Software Developer's Manual / intrinsics guide, and an
    evaluator for straight-line programs over the function's local variables.

    A [__m128i] is the list of its four 32-bit lanes, lane 0 = bits 31:0. *)
From Verif Require Import Base.

Definition m128 := list N.

Inductive reg : Set :=
| R_state0 | R_state1 | R_msg | R_tmp | R_msg0 | R_msg1 | R_msg2 | R_msg3
| R_abef_save | R_cdgh_save.

Definition reg_eqb (a b : reg) : bool :=
  match a, b with
  | R_state0, R_state0 | R_state1, R_state1 | R_msg, R_msg | R_tmp, R_tmp
  | R_msg0, R_msg0 | R_msg1, R_msg1 | R_msg2, R_msg2 | R_msg3, R_msg3
  | R_abef_save, R_abef_save | R_cdgh_save, R_cdgh_save => true
  | _, _ => false
  end.

Inductive instr : Set :=
| LoadH (dst : reg) (off : N)         (* dst = _mm_loadu_si128(h + off) *)
| LoadBuf (dst : reg) (off : N)       (* dst = _mm_loadu_si128(buffer + off) *)
| StoreH (off : N) (src : reg)        (* _mm_storeu_si128(h + off, src) *)
| Mov (dst src : reg)                 (* dst = src *)
| Shuf32 (dst src : reg) (imm : N)    (* dst = _mm_shuffle_epi32(src, imm) *)
| Shuf8Mask (dst src : reg)           (* dst = _mm_shuffle_epi8(src, MASK) *)
| Alignr8 (dst a b : reg) (imm : N)   (* dst = _mm_alignr_epi8(a, b, imm) *)
| Blend16 (dst a b : reg) (imm : N)   (* dst = _mm_blend_epi16(a, b, imm) *)
| AddK (dst a : reg) (hi lo : N)      (* dst = _mm_add_epi32(a, _mm_set_epi64x(hi, lo)) *)
| Add32 (dst a b : reg)               (* dst = _mm_add_epi32(a, b) *)
| Rnds2 (dst a b k : reg)             (* dst = _mm_sha256rnds2_epu32(a, b, k) *)
| Msg1 (dst a b : reg)                (* dst = _mm_sha256msg1_epu32(a, b) *)
| Msg2 (dst a b : reg).               (* dst = _mm_sha256msg2_epu32(a, b) *)

(** The 16 bytes of a vector in memory order, and back. *)
Definition m_bytes (m : m128) : bytes := concat (map (to_le_bytes 4) m).
Definition m_of_bytes (l : bytes) : m128 := map le_value (chunks_exact 4 l).

Definition lane (m : m128) (i : nat) : N := nth i m 0.

(** PSHUFD: dst lane i = src lane (imm >> 2i) & 3 *)
Definition shuffle_epi32 (m : m128) (imm : N) : m128 :=
  map (fun i => lane m (N.to_nat (N.land (N.shiftr imm (2 * i)) 3))) [0; 1; 2; 3].

(** _mm_set_epi64x(hi, lo) *)
Definition set_epi64x (hi lo : N) : m128 :=
  [lo mod 2 ^ 32; lo / 2 ^ 32; hi mod 2 ^ 32; hi / 2 ^ 32].

(** PSHUFB: byte i = 0 if bit 7 of mask byte i is set, otherwise source byte
    number (mask byte i) & 15 *)
Definition shuffle_epi8 (m mask : m128) : m128 :=
  m_of_bytes (map (fun k => if N.testbit (b2n k) 7 then x00
                            else nth (N.to_nat (N.land (b2n k) 15)) (m_bytes m) x00)
                  (m_bytes mask)).

(** PALIGNR: bytes imm .. imm+15 of the 32-byte concatenation a:b (b low) *)
Definition alignr_epi8 (a b : m128) (imm : N) : m128 :=
  m_of_bytes (firstn 16 (skipn (N.to_nat imm) (m_bytes b ++ m_bytes a ++ repeat x00 32))).

(** PBLENDW: 16-bit word i from b if bit i of imm, else from a *)
Definition words16 (m : m128) : list bytes := chunks_exact 2 (m_bytes m).
Definition blend_epi16 (a b : m128) (imm : N) : m128 :=
  m_of_bytes (concat (map (fun i =>
    nth i (if N.testbit imm (N.of_nat i) then words16 b else words16 a) [])
    (seq 0 8))).

(** PADDD *)
Definition add_epi32 (a b : m128) : m128 :=
  map (fun p => (fst p + snd p) mod 2 ^ 32) (combine a b).

(** The functions of the SHA extensions, as in the manual. *)
Definition x_ror (n x : N) : N := N.lor (N.shiftr x n) (N.shiftl x (32 - n) mod 2 ^ 32).
Definition x_ch (x y z : N) : N := N.lxor (N.land x y) (N.land (N.lxor x (N.ones 32)) z).
Definition x_maj (x y z : N) : N :=
  N.lxor (N.lxor (N.land x y) (N.land x z)) (N.land y z).
Definition x_S0 (x : N) : N := N.lxor (N.lxor (x_ror 2 x) (x_ror 13 x)) (x_ror 22 x).
Definition x_S1 (x : N) : N := N.lxor (N.lxor (x_ror 6 x) (x_ror 11 x)) (x_ror 25 x).
Definition x_s0 (x : N) : N := N.lxor (N.lxor (x_ror 7 x) (x_ror 18 x)) (N.shiftr x 3).
Definition x_s1 (x : N) : N := N.lxor (N.lxor (x_ror 17 x) (x_ror 19 x)) (N.shiftr x 10).
Definition x_add (x y : N) : N := (x + y) mod 2 ^ 32.

(** SHA256RNDS2: SRC1 = a = {C,D,G,H}, SRC2 = b = {A,B,E,F} from the high lane
    down; the two low lanes of k are WK0, WK1. *)
Definition x_round (s : N * N * N * N * N * N * N * N) (wk : N) : N * N * N * N * N * N * N * N :=
  let '(A, B, C, D, E, F, G, H) := s in
  let t := x_add (x_add (x_add (x_ch E F G) (x_S1 E)) wk) H in
  (x_add (x_add t (x_maj A B C)) (x_S0 A), A, B, C, x_add t D, E, F, G).
Definition sha256rnds2 (a b k : m128) : m128 :=
  let s := (lane b 3, lane b 2, lane a 3, lane a 2, lane b 1, lane b 0, lane a 1, lane a 0)%nat in
  let s := x_round s (lane k 0) in
  let s := x_round s (lane k 1) in
  let '(A, B, C, D, E, F, G, H) := s in
  [F; E; B; A].

(** SHA256MSG1 *)
Definition sha256msg1 (a b : m128) : m128 :=
  [x_add (lane a 0) (x_s0 (lane a 1)); x_add (lane a 1) (x_s0 (lane a 2));
   x_add (lane a 2) (x_s0 (lane a 3)); x_add (lane a 3) (x_s0 (lane b 0))].

(** SHA256MSG2 *)
Definition sha256msg2 (a b : m128) : m128 :=
  let w16 := x_add (lane a 0) (x_s1 (lane b 2)) in
  let w17 := x_add (lane a 1) (x_s1 (lane b 3)) in
  let w18 := x_add (lane a 2) (x_s1 w16) in
  let w19 := x_add (lane a 3) (x_s1 w17) in
  [w16; w17; w18; w19].

(** Machine state: the local variables, [self.h] and [self.buffer]. *)
Record simd_state : Type := mk_simd {
  s_regs : reg -> m128;
  s_h : list N;
  s_buf : bytes
}.

Definition upd (f : reg -> m128) (r : reg) (v : m128) : reg -> m128 :=
  fun r' => if reg_eqb r r' then v else f r'.

(** Loads and stores outside the arrays are undefined behaviour. *)
Definition step (mask : N * N) (i : instr) (s : simd_state) : res simd_state :=
  let g := s_regs s in
  let put d v := Ok (mk_simd (upd g d v) (s_h s) (s_buf s)) in
  match i with
  | LoadH d off =>
      if off + 4 <=? len (s_h s)
      then put d (firstn 4 (skipn (N.to_nat off) (s_h s))) else Panic PUndefined
  | LoadBuf d off =>
      if off + 16 <=? len (s_buf s)
      then put d (m_of_bytes (firstn 16 (skipn (N.to_nat off) (s_buf s)))) else Panic PUndefined
  | StoreH off r =>
      if off + 4 <=? len (s_h s)
      then Ok (mk_simd g (firstn (N.to_nat off) (s_h s) ++ g r
                          ++ skipn (N.to_nat off + 4) (s_h s)) (s_buf s))
      else Panic PUndefined
  | Mov d r => put d (g r)
  | Shuf32 d r imm => put d (shuffle_epi32 (g r) imm)
  | Shuf8Mask d r => put d (shuffle_epi8 (g r) (set_epi64x (fst mask) (snd mask)))
  | Alignr8 d a b imm => put d (alignr_epi8 (g a) (g b) imm)
  | Blend16 d a b imm => put d (blend_epi16 (g a) (g b) imm)
  | AddK d a hi lo => put d (add_epi32 (g a) (set_epi64x hi lo))
  | Add32 d a b => put d (add_epi32 (g a) (g b))
  | Rnds2 d a b k => put d (sha256rnds2 (g a) (g b) (g k))
  | Msg1 d a b => put d (sha256msg1 (g a) (g b))
  | Msg2 d a b => put d (sha256msg2 (g a) (g b))
  end.

Fixpoint run_program (mask : N * N) (p : list instr) (s : simd_state) : res simd_state :=
  match p with
  | [] => Ok s
  | i :: p' => let* s' := step mask i s in run_program mask p' s'
  end.

(** Rust's [let] declarations leave the variables uninitialised; the compiler
    checks that each is assigned before use, so their initial value here is
    irrelevant. *)
Definition simd_init (h : list N) (buf : bytes) : simd_state :=
  mk_simd (fun _ => [0; 0; 0; 0]) h buf.
