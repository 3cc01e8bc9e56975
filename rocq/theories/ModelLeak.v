(** The hashing code once more, this time recording what a machine reveals
    while it runs: the outcome of every branch, and the position and size of
    every access to the input, the key, the pads and the buffer, and to the
    arrays of the block functions.  [LBlock] marks a call of process_block, and
    is followed by what its body reveals.  [LSip] stands for c_rounds or d_rounds
    (src/siphash24.rs:14-34 and 104-116): straight-line code on the fields
    v0..v3.  The values computed are those of the model without recording
    (theorem C67_erase). *)
From Verif Require Import Base SpecMD ModelEngine ModelSha2Round TablesSha2 ModelSimd TablesSimd
  ModelSha256 ModelSha512 ModelSha1 ModelRipemdRound TablesRipemd ModelRipemd ModelSip ModelHmac ModelAll ModelStore.

(** The arrays of the block functions: the message words [w], the chaining value
    [self.h], and the two copies of it in RIPEMD-160. *)
Inductive arr : Set := AW | AH | ABb | ABbb.

Inductive leak : Set :=
| LBranch (b : bool)          (* the outcome of a comparison *)
| LRead (start n : N)         (* [n] bytes read from a slice at [start] *)
| LWrite (start n : N)        (* [n] bytes written to an array at [start] *)
| LGet (a : arr) (i : N)      (* the word [a[i]] read *)
| LSet (a : arr) (i : N)      (* the word [a[i]] written *)
| LBlock                      (* process_block *)
| LSip.                       (* c_rounds, d_rounds *)

Definition lk (A : Type) : Type := (list leak * res A)%type.
Definition lret {A} (a : A) : lk A := ([], Ok a).
Definition llift {A} (x : res A) : lk A := ([], x).
Definition tell (l : leak) : lk unit := ([l], Ok tt).
Definition lbind {A B} (x : lk A) (f : A -> lk B) : lk B :=
  match x with
  | (l, Ok a) => let r := f a in (l ++ fst r, snd r)
  | (l, Panic p) => (l, Panic p)
  end.
Notation "'let!' x := e 'in' k" := (lbind e (fun x => k))
  (at level 200, x pattern, e at level 100, k at level 200).
Definition tells (l : list leak) : lk unit := (l, Ok tt).
(** A comparison whose outcome decides what is executed next. *)
Definition branch (b : bool) : lk bool := ([LBranch b], Ok b).

(** [debug_assert!] *)
Definition l_debug_assert (c : config) (b : bool) : lk unit :=
  if debug_assertions c then let! b := branch b in llift (assert b) else lret tt.

(** ** The engines with a buffer *)

(** [engine_input_impl!], src/internal_macros.rs:23-35: one iteration of the loop *)
Definition l_input_step (c : config) (block_size : N)
    (process_block : engine -> lk engine) (e : engine) (inp : bytes)
    : lk (engine * bytes) :=
  let buf_idx := e_length e mod block_size in
  let! rem_len := llift (usize_sub c block_size buf_idx) in
  let! short := branch (len inp <? rem_len) in                    (* cmp::min *)
  let write_len := if short : bool then len inp else rem_len in
  let! hi := llift (usize_add c buf_idx write_len) in
  let! src := llift (slice_to write_len inp) in
  let! _ := tell (LRead 0 write_len) in
  let! _ := tell (LWrite buf_idx write_len) in
  let! buf := llift (copy_range (e_buffer e) buf_idx hi src) in
  let! length' := llift (usize_add c (e_length e) write_len) in
  let e1 := mk_engine buf (e_h e) length' in
  let! full := branch (length' mod block_size =? 0) in
  let! e2 := if full : bool then process_block e1 else lret e1 in
  let! rest := llift (slice_from write_len inp) in
  lret (e2, rest).

(** [while !inp.is_empty()], src/internal_macros.rs:23 *)
Fixpoint l_input_loop (fuel : nat) (c : config) (block_size : N)
    (process_block : engine -> lk engine) (e : engine) (inp : bytes) : lk engine :=
  match inp with
  | [] => let! _ := branch false in lret e
  | _ :: _ =>
      let! _ := branch true in
      match fuel with
      | O => llift (Panic POutOfFuel)
      | S f =>
          let! (e', rest) := l_input_step c block_size process_block e inp in
          l_input_loop f c block_size process_block e' rest
      end
  end.
Definition l_engine_input (c : config) (block_size : N)
    (process_block : engine -> lk engine) (e : engine) (inp : bytes) : lk engine :=
  l_input_loop (length inp) c block_size process_block e inp.
Fixpoint l_engine_inputs (c : config) (block_size : N)
    (process_block : engine -> lk engine) (e : engine) (l : list bytes) : lk engine :=
  match l with
  | [] => lret e
  | d :: ds => let! e' := l_engine_input c block_size process_block e d in
               l_engine_inputs c block_size process_block e' ds
  end.

(** [finalize] up to the final [midstate]: src/sha256.rs:56-71,
    src/sha1.rs:46-60, src/ripemd160.rs:46-61, src/sha512.rs:78-93 *)
Definition l_finalize_pad (c : config) (block_size : N)
    (process_block : engine -> lk engine) (reserve : N) (tail : N -> list bytes)
    (e : engine) : lk engine :=
  let input := l_engine_input c block_size process_block in
  let data_len := e_length e in
  let zeroes := array x00 (block_size - reserve) in
  let! e := input e [x80] in
  let! over := branch (len zeroes <? e_length e mod block_size) in
  let! e := if over : bool then input e zeroes else lret e in
  let! pad_length := llift (usize_sub c (len zeroes) (e_length e mod block_size)) in
  let! pad := llift (slice_to pad_length zeroes) in
  let! e := input e pad in
  let! _ := l_debug_assert c (e_length e mod block_size =? len zeroes) in
  let! bits := llift (checked_mul c 64 8 data_len) in
  let! e := l_engine_inputs c block_size process_block e (tail bits) in
  let! _ := l_debug_assert c (e_length e mod block_size =? 0) in
  lret e.

(** ** The block functions *)

(** [for (w_val, buff_bytes) in w.iter_mut().zip(self.buffer.chunks_exact(k))],
    src/sha256.rs:725-727, src/sha512.rs:208-210, src/sha1.rs:100-102,
    src/ripemd160.rs:232-234, from the [i]-th pair on *)
Fixpoint l_zip_words (i k : N) (dst : list N) (src : list bytes) (conv : bytes -> res N) : lk (list N) :=
  match dst, src with
  | _ :: ds, s :: ss =>
      let! _ := branch true in
      let! _ := tell (LRead (i * k) k) in
      let! v := llift (conv s) in
      let! _ := tell (LSet AW i) in
      let! r := l_zip_words (i + 1) k ds ss conv in
      lret (v :: r)
  | _, _ => let! _ := branch false in lret dst
  end.

(** Reading [self.h[0]], .., and at the end
    [self.h[i] = self.h[i].wrapping_add(..)], src/sha256.rs:729-736 and 806-813,
    src/sha512.rs:212-219 and 306-313, src/sha1.rs:107-111 and 131-135 *)
Definition h_gets (n : nat) : list leak := map (fun i => LGet AH (N.of_nat i)) (seq 0 n).
Definition h_adds (n : nat) : list leak :=
  flat_map (fun i => [LGet AH (N.of_nat i); LSet AH (N.of_nat i)]) (seq 0 n).

(** The [round!] macros, src/sha256.rs:224-257 and src/sha512.rs:171-199; a..h are
    local variables, not arrays *)
Definition row_leak (c : config) (r : round_row) : list leak :=
  let w i := LGet AW (N.of_nat i) in
  match rr_later r with
  | None => [w (rr_w r)]
  | Some (i1, i2, i3) =>
      [w (rr_w r); w i1; w i2; w i3; LSet AW (N.of_nat (rr_w r))] ++
      (if small_hash c then [] else [w (rr_w r)])
  end.
Fixpoint l_run_rows (c : config) (F : sha2_fns) (rows : list round_row) (s : rstate) : lk rstate :=
  match rows with
  | [] => lret s
  | r :: rows' => let! _ := tells (row_leak c r) in l_run_rows c F rows' (round_macro c F r s)
  end.

(** software_process_block, src/sha256.rs:721-814 *)
Definition l_software_block (c : config) (e : engine) : lk engine :=
  let! _ := l_debug_assert c (len (e_buffer e) =? BLOCK_SIZE_256) in
  let! w := l_zip_words 0 4 (array 0 16) (chunks_exact 4 (e_buffer e)) (from_be_bytes 4) in
  let! _ := tells (h_gets 8) in
  let! (vars, _) := l_run_rows c fns256 software_rows (e_h e, w) in
  let! _ := tells (h_adds 8) in
  lret (mk_engine (e_buffer e) (add_all 32 (e_h e) vars) (e_length e)).

(** process_block_simd_x86_intrinsics, src/sha256.rs:463-718: the loads and stores *)
Definition instr_leak (i : instr) : list leak :=
  match i with
  | LoadH _ off => map (fun j => LGet AH (off + N.of_nat j)) (seq 0 4)
  | LoadBuf _ off => [LRead off 16]
  | StoreH off _ => map (fun j => LSet AH (off + N.of_nat j)) (seq 0 4)
  | _ => []
  end.
Fixpoint l_run_program (mask : N * N) (p : list instr) (s : simd_state) : lk simd_state :=
  match p with
  | [] => lret s
  | i :: p' =>
      let! _ := tells (instr_leak i) in
      let! s' := llift (ModelSimd.step mask i s) in
      l_run_program mask p' s'
  end.
Definition l_simd_block (e : engine) : lk engine :=
  let! s := l_run_program simd_mask simd_program (simd_init (e_h e) (e_buffer e)) in
  lret (mk_engine (e_buffer e) (s_h s) (e_length e)).

(** process_block, src/sha256.rs:445-459 *)
Definition l_sha256_block (c : config) (e : engine) : lk engine :=
  let! ni := branch (sha_ni c) in
  if ni : bool then l_simd_block e else l_software_block c e.

(** process_block, src/sha512.rs:204-314 *)
Definition l_sha512_block (c : config) (e : engine) : lk engine :=
  let! _ := l_debug_assert c (len (e_buffer e) =? BLOCK_SIZE_512) in
  let! w := l_zip_words 0 8 (array 0 16) (chunks_exact 8 (e_buffer e)) (from_be_bytes 8) in
  let! _ := tells (h_gets 8) in
  let! (vars, _) := l_run_rows c fns512 sha512_rows (e_h e, w) in
  let! _ := tells (h_adds 8) in
  lret (mk_engine (e_buffer e) (add_all 64 (e_h e) vars) (e_length e)).

(** [for i in start..start+n] *)
Fixpoint l_for_loop {S} (n : nat) (start : N) (body : N -> S -> lk S) (s : S) : lk S :=
  match n with
  | O => let! _ := branch false in lret s
  | Datatypes.S n' =>
      let! _ := branch true in
      let! s' := body start s in
      l_for_loop n' (start + 1) body s'
  end.
Definition l_index (a : arr) (l : list N) (i : N) : lk N :=
  let! _ := tell (LGet a i) in llift (index l i).

(** src/sha1.rs:103-105 *)
Definition l_sha1_expand (w : list N) : lk (list N) :=
  l_for_loop 64 16 (fun i w =>
    let! w3 := l_index AW w (i - 3) in
    let! w8 := l_index AW w (i - 8) in
    let! w14 := l_index AW w (i - 14) in
    let! w16 := l_index AW w (i - 16) in
    let! _ := tell (LSet AW i) in
    llift (store w i (rotate_left 32 1 (N.lxor (N.lxor (N.lxor w3 w8) w14) w16)))) w.

(** src/sha1.rs:114-120: the match on the round number *)
Definition l_sha1_f_k (i b c d : N) : lk (N * N) :=
  let! q1 := branch (i <=? 19) in
  if q1 : bool then lret (N.lor (N.land b c) (N.land (bit_not 32 b) d), 0x5a827999) else
  let! q2 := branch (i <=? 39) in
  if q2 : bool then lret (N.lxor (N.lxor b c) d, 0x6ed9eba1) else
  let! q3 := branch (i <=? 59) in
  if q3 : bool then lret (N.lor (N.lor (N.land b c) (N.land b d)) (N.land c d), 0x8f1bbcdc) else
  let! q4 := branch (i <=? 79) in
  if q4 : bool then lret (N.lxor (N.lxor b c) d, 0xca62c1d6) else
  llift (Panic PUnreachable).

(** src/sha1.rs:113-129 *)
Fixpoint l_sha1_rounds (i : N) (ws : list N) (s : N * N * N * N * N) : lk (N * N * N * N * N) :=
  match ws with
  | [] => let! _ := branch false in lret s
  | wi :: ws' =>
      let! _ := branch true in
      let! _ := tell (LGet AW i) in
      let '(a, b, c, d, e) := s in
      let! (f, k) := l_sha1_f_k i b c d in
      let wadd := wrapping_add 32 in
      let new_a := wadd (wadd (wadd (wadd (rotate_left 32 5 a) f) e) k) wi in
      l_sha1_rounds (i + 1) ws' (new_a, a, rotate_left 32 30 b, c, d)
  end.

(** process_block, src/sha1.rs:96-136 *)
Definition l_sha1_block (c : config) (e : engine) : lk engine :=
  let! _ := l_debug_assert c (len (e_buffer e) =? BLOCK_SIZE_SHA1) in
  let! w := l_zip_words 0 4 (array 0 80) (chunks_exact 4 (e_buffer e)) (from_be_bytes 4) in
  let! w := l_sha1_expand w in
  let h := e_h e in
  let! h0 := l_index AH h 0 in
  let! h1 := l_index AH h 1 in
  let! h2 := l_index AH h 2 in
  let! h3 := l_index AH h 3 in
  let! h4 := l_index AH h 4 in
  let! (a, b, c', d, e') := l_sha1_rounds 0 w (h0, h1, h2, h3, h4) in
  let! _ := tells (h_adds 5) in
  lret (mk_engine (e_buffer e) (add_all 32 h [a; b; c'; d; e']) (e_length e)).

(** The [round!] macros of src/ripemd160.rs, 105-134, on the array [bb] or [bbb];
    the boolean function reads the second, third and fourth word *)
Definition rip_row_leak (c : config) (A : arr) (r : ripemd_row) : list leak :=
  let o j := N.of_nat (nth j (rw_order r) O) in
  let x := LGet AW (N.of_nat (rw_data r)) in
  let fn := [LGet A (o 1); LGet A (o 2); LGet A (o 3)]%nat in
  (if small_hash c then
     [LGet A (o 0); LGet A (o 1); LGet A (o 2); LGet A (o 3); LGet A (o 4); x] ++ fn ++
     [LSet A (o 0); LSet A (o 2)]
   else
     [LGet A (o 0)] ++ fn ++
     [x; LSet A (o 0); LGet A (o 0); LGet A (o 4); LSet A (o 0); LGet A (o 2); LSet A (o 2)])%nat.
Fixpoint l_run_line (c : config) (A : arr) (fn : nat -> N -> N -> N -> N) (k : nat -> N)
    (data : list N) (rows : list ripemd_row) (v : list N) : lk (list N) :=
  match rows with
  | [] => lret v
  | r :: rows' =>
      let! _ := tells (rip_row_leak c A r) in
      l_run_line c A fn k data rows' (run_line c fn k data [r] v)
  end.
(** src/ripemd160.rs:216-223 *)
Definition combine_leak : list leak :=
  [LGet ABbb 3; LGet AH 1; LGet ABb 2; LSet ABbb 3;
   LGet AH 2; LGet ABb 3; LGet ABbb 4; LSet AH 1;
   LGet AH 3; LGet ABb 4; LGet ABbb 0; LSet AH 2;
   LGet AH 4; LGet ABb 0; LGet ABbb 1; LSet AH 3;
   LGet AH 0; LGet ABb 1; LGet ABbb 2; LSet AH 4;
   LGet ABbb 3; LSet AH 0].

(** process_block, src/ripemd160.rs:228-417, and the macro body 157-224 *)
Definition l_ripemd_block (c : config) (e : engine) : lk engine :=
  let! _ := l_debug_assert c (len (e_buffer e) =? BLOCK_SIZE_RIPEMD) in
  let! w := l_zip_words 0 4 (array 0 16) (chunks_exact 4 (e_buffer e)) (from_le_bytes 4) in
  let h := e_h e in
  let! _ := tells (h_gets 5) in
  let! _ := tells (h_gets 5) in
  let! bb := l_run_line c ABb left_fn left_k w left_rows h in
  let! bbb := l_run_line c ABbb right_fn right_k w right_rows h in
  let! _ := tells combine_leak in
  lret (mk_engine (e_buffer e) (rip_combine h bb bbb) (e_length e)).

(** process_block of each engine *)
Definition l_block_body (c : config) (a : algo) : engine -> lk engine :=
  match a with
  | Sha1 => l_sha1_block c
  | Sha256 => l_sha256_block c
  | Ripemd160 => l_ripemd_block c
  | _ => l_sha512_block c
  end.
Definition l_block (c : config) (a : algo) (e : engine) : lk engine :=
  let! _ := tell LBlock in l_block_body c a e.

(** An engine together with its recording version. *)
Record leaky (E : HashEngine) : Type := mk_leaky {
  lk_default : lk (he_state E);
  lk_input : he_state E -> bytes -> lk (he_state E);
  lk_finalize : he_state E -> lk bytes
}.
Arguments lk_default {E} _.
Arguments lk_input {E} _ _ _.
Arguments lk_finalize {E} _ _.

(** midstate, src/sha256.rs:88-93, src/sha512.rs:107-112, src/sha1.rs:66-71,
    src/ripemd160.rs:74-79: the words of [h] are written in pieces of [k] bytes,
    here from the [i]-th on *)
Fixpoint l_zip_copy (i : N) (vals : list bytes) (k : nat) (ret : bytes) : lk bytes :=
  match vals with
  | [] => let! _ := branch false in lret ret
  | v :: vs =>
      let! stop := branch (Nat.ltb (length ret) k) in
      if stop : bool then lret ret
      else
        let! _ := tell (LGet AH i) in
        let! c := llift (copy_from_slice (firstn k ret) v) in
        let! _ := tell (LWrite (i * N.of_nat k) (N.of_nat k)) in
        let! r := l_zip_copy (i + 1) vs k (skipn k ret) in
        lret (c ++ r)
  end.
Definition l_midstate (a : algo) (e : engine) : lk bytes :=
  let m to_bytes k n := l_zip_copy 0 (map (to_bytes k) (e_h e)) k (array x00 n) in
  match a with
  | Sha1 => m to_be_bytes 4%nat 20
  | Sha256 => m to_be_bytes 4%nat 32
  | Ripemd160 => m to_le_bytes 4%nat 20
  | _ => m to_be_bytes 8%nat 64
  end.

(** SHA-384 and SHA-512/256 copy a prefix of fixed length, src/sha384.rs:37-41,
    src/sha512_256.rs:47-51. *)
Definition l_cut (n : N) (d : bytes) : lk bytes :=
  let! t := llift (slice_to n d) in
  let! _ := tell (LRead 0 n) in
  let! _ := tell (LWrite 0 n) in
  llift (copy_from_slice (array x00 n) t).

Definition l_algo_finalize (c : config) (a : algo) (block_size reserve : N) (tail : N -> list bytes)
    (truncate : bytes -> lk bytes) (e : engine) : lk bytes :=
  let! e := l_finalize_pad c block_size (l_block c a) reserve tail e in
  let! d := l_midstate a e in
  truncate d.

(** impl HashEngine for the six engines *)
Definition algo_leaky (c : config) (a : algo) : leaky (algo_engine c a) :=
  match a return leaky (algo_engine c a) with
  | Sha1 => mk_leaky (ModelSha1.sha1_engine c) (llift (he_default (ModelSha1.sha1_engine c)))
      (l_engine_input c 64 (l_block c Sha1))
      (l_algo_finalize c Sha1 64 8 (fun bits => [to_be_bytes 8 bits]) lret)
  | Sha256 => mk_leaky (sha256_engine c) (llift (he_default (sha256_engine c)))
      (l_engine_input c 64 (l_block c Sha256))
      (l_algo_finalize c Sha256 64 8 (fun bits => [to_be_bytes 8 bits]) lret)
  | Sha384 => mk_leaky (ModelSha512.sha384_engine c) (llift (he_default (ModelSha512.sha384_engine c)))
      (l_engine_input c 128 (l_block c Sha384))
      (l_algo_finalize c Sha384 128 16 (fun bits => [array x00 8; to_be_bytes 8 bits]) (l_cut 48))
  | Sha512 => mk_leaky (ModelSha512.sha512_engine c) (llift (he_default (ModelSha512.sha512_engine c)))
      (l_engine_input c 128 (l_block c Sha512))
      (l_algo_finalize c Sha512 128 16 (fun bits => [array x00 8; to_be_bytes 8 bits])
         lret)
  | Sha512_256 => mk_leaky (ModelSha512.sha512_256_engine c) (llift (he_default (ModelSha512.sha512_256_engine c)))
      (l_engine_input c 128 (l_block c Sha512_256))
      (l_algo_finalize c Sha512_256 128 16 (fun bits => [array x00 8; to_be_bytes 8 bits]) (l_cut 32))
  | Ripemd160 => mk_leaky (ModelRipemd.ripemd160_engine c) (llift (he_default (ModelRipemd.ripemd160_engine c)))
      (l_engine_input c 64 (l_block c Ripemd160))
      (l_algo_finalize c Ripemd160 64 8 (fun bits => [to_le_bytes 8 bits]) lret)
  end.

(** sha256t::Engine<T>, src/sha256t.rs:10-42: sha256 after [Tag::engine], which is
    the user's code; its tag is public *)
Definition tag_leaky (c : config) (tag : bytes) : leaky (sha256t_engine c (tag_engine c tag)) :=
  mk_leaky (sha256t_engine c (tag_engine c tag)) (llift (tag_engine c tag))
    (l_engine_input c 64 (l_block c Sha256))
    (l_algo_finalize c Sha256 64 8 (fun bits => [to_be_bytes 8 bits]) lret).

(** ** SipHash *)

(** load_int_le!, src/siphash24.rs:41-52 *)
Definition l_load_int_le (c : config) (k : nat) (buf : bytes) (i : N) : lk N :=
  let! _ := tell (LRead i (N.of_nat k)) in llift (load_int_le c k buf i).

(** u8to64_le, src/siphash24.rs:250-268 *)
Definition l_u8to64_le (c : config) (buf : bytes) (start n : N) : lk N :=
  let! _ := l_debug_assert c (n <? 8) in
  let! four := branch (0 + 3 <? n) in
  let! (out, i) :=
    if four : bool then
      let! x := l_load_int_le c 4 buf (start + 0) in lret (x, 4)
    else lret (0, 0) in
  let! two := branch (i + 1 <? n) in
  let! (out, i) :=
    if two : bool then
      let! x := l_load_int_le c 2 buf (start + i) in
      let! x := llift (shl64 c x (i * 8)) in
      lret (N.lor out x, i + 2)
    else lret (out, i) in
  let! one := branch (i <? n) in
  let! (out, i) :=
    if one : bool then
      let! _ := tell (LRead (start + i) 1) in
      let! b := llift (get_unchecked buf (start + i)) in
      let! x := llift (shl64 c (b2n b) (i * 8)) in
      lret (N.lor out x, i + 1)
    else lret (out, i) in
  let! _ := l_debug_assert c (i =? n) in
  lret out.

(** src/siphash24.rs:159-167 *)
Fixpoint l_sip_loop (fuel : nat) (c : config) (data : bytes) (stop : N) (i : N) (s : sip_state)
    : lk (sip_state * N) :=
  let! more := branch (i <? stop) in
  if more : bool then
    match fuel with
    | O => llift (Panic POutOfFuel)
    | S f =>
        let! mi := l_load_int_le c 8 data i in
        let! _ := tell LSip in
        let s := sip_absorb s mi in
        let! i := llift (usize_add c i 8) in
        l_sip_loop f c data stop i s
    end
  else lret (s, i).

(** src/siphash24.rs:154-171 *)
Definition l_sip_input_rest (c : config) (data : bytes) (needed : N) (e : sip_engine)
    : lk sip_engine :=
  let length := len data in
  let! ln := llift (usize_sub c length needed) in
  let left := N.land ln 0x7 in
  let! stop := llift (usize_sub c ln left) in
  let! (s, i) := l_sip_loop (Datatypes.length data) c data stop needed (sip_st e) in
  let! t := l_u8to64_le c data i left in
  lret (mk_sip_engine (sip_k0 e) (sip_k1 e) (sip_length e) s t left).

(** input, src/siphash24.rs:133-171 *)
Definition l_sip_input (c : config) (e : sip_engine) (data : bytes) : lk sip_engine :=
  let length := len data in
  let! new_length := llift (usize_add c (sip_length e) length) in
  let! pending := branch (negb (sip_ntail e =? 0)) in
  if pending : bool then
    let! needed := llift (usize_sub c 8 (sip_ntail e)) in
    let! short := branch (length <? needed) in                    (* cmp::min *)
    let! x := l_u8to64_le c data 0 (if short : bool then length else needed) in
    let! x := llift (shl64 c x (8 * sip_ntail e)) in
    let tail := N.lor (sip_tail e) x in
    let! short := branch (length <? needed) in
    if short : bool then
      let! nt := llift (usize_add c (sip_ntail e) length) in
      lret (mk_sip_engine (sip_k0 e) (sip_k1 e) new_length (sip_st e) tail nt)
    else
      let! _ := tell LSip in
      let s := sip_absorb (sip_st e) tail in
      l_sip_input_rest c data needed
        (mk_sip_engine (sip_k0 e) (sip_k1 e) new_length s tail 0)
  else
    l_sip_input_rest c data 0
      (mk_sip_engine (sip_k0 e) (sip_k1 e) new_length (sip_st e) (sip_tail e) (sip_ntail e)).

(** impl HashEngine for Engine, src/siphash24.rs:123-205; finalize (173-189) runs
    c_rounds and d_rounds *)
Definition sip_leaky (c : config) : leaky (siphash24_engine c) :=
  mk_leaky (siphash24_engine c) (lret sip_default) (l_sip_input c)
    (fun e => let! _ := tell LSip in let! _ := tell LSip in lret (sip_finalize e)).

(** ** HMAC *)

(** [for (b_i, b_h) in pad.iter_mut().zip(key) { *b_i ^= *b_h }],
    src/hmac.rs:221-234, from position [i] on *)
Fixpoint l_xor_zip (i : N) (pad key : bytes) : lk bytes :=
  match pad, key with
  | p :: ps, k :: ks =>
      let! _ := branch true in
      let! _ := tell (LRead i 1) in
      let! _ := tell (LWrite i 1) in
      let! r := l_xor_zip (i + 1) ps ks in
      lret (u8_xor p k :: r)
  | _, _ => let! _ := branch false in lret pad
  end.

(** HashEngine::hash, src/lib.rs:171-175 *)
Definition l_hash {E} (L : leaky E) (data : bytes) : lk bytes :=
  let! s := lk_default L in
  let! s := lk_input L s data in
  lk_finalize L s.

(** Engine::new, src/hmac.rs:212-239 *)
Definition l_hmac_new (c : config) {E} (L : leaky E) (key : bytes) : lk (hmac_state E) :=
  let! _ := l_debug_assert c (he_block_size E <=? 128) in
  let ipad := array x36 128 in
  let opad := array x5c 128 in
  let! ie := lk_default L in
  let! oe := lk_default L in
  let! long := branch (he_block_size E <? len key) in
  let! (ipad, opad) :=
    if long : bool then
      let! hash := l_hash L key in
      let! i := l_xor_zip 0 ipad hash in
      let! o := l_xor_zip 0 opad hash in
      lret (i, o)
    else
      let! i := l_xor_zip 0 ipad key in
      let! o := l_xor_zip 0 opad key in
      lret (i, o) in
  let! ib := llift (slice_to (he_block_size E) ipad) in
  let! ie := lk_input L ie ib in
  let! ob := llift (slice_to (he_block_size E) opad) in
  let! oe := lk_input L oe ob in
  lret (mk_hmac ie oe).

(** impl HashEngine for Engine<E>, src/hmac.rs:200-202, 242-272 *)
Definition hmac_leaky (c : config) {E} (L : leaky E) : leaky (hmac_engine c E) :=
  mk_leaky (hmac_engine c E) (l_hmac_new c L [])
    (fun s d => let! ie := lk_input L (iengine s) d in lret (mk_hmac ie (oengine s)))
    (fun s =>
       let! ihash := lk_finalize L (iengine s) in
       let! oe := lk_input L (oengine s) ihash in
       lk_finalize L oe).

Fixpoint kind_leaky (c : config) (k : ekind) : leaky (kind_engine c k) :=
  match k return leaky (kind_engine c k) with
  | KAlgo a => algo_leaky c a
  | KSip => sip_leaky c
  | KTag tag => tag_leaky c tag
  | KHmac k => hmac_leaky c (kind_leaky c k)
  end.

(** A sequence of [input] calls. *)
Fixpoint l_inputs {E} (L : leaky E) (s : he_state E) (chunks : list bytes) : lk (he_state E) :=
  match chunks with
  | [] => lret s
  | d :: ds => let! s' := lk_input L s d in l_inputs L s' ds
  end.
