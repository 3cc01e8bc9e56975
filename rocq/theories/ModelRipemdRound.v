(** The rounds of src/ripemd160.rs and an evaluator of [process_block!]. *)
From Verif Require Import Base ModelSha2Round.

(** One line [roundR: h_ordering o0,..,o4; data_index i; roll_shift s;] *)
Record ripemd_row : Type := mk_rrow {
  rw_round : nat;
  rw_order : list nat;
  rw_data : nat;
  rw_shift : N
}.

(** The default [round!] macro, src/ripemd160.rs:127-134, with $a = v[o0],
    $c = v[o2], $e = v[o4]. The argument [$round] is an expression over the
    variables; macros are call-by-name but it is used once, before any
    assignment. *)
Definition rip_fast_round (v : list N) (o : list nat) (x : N) (bits add round : N) : list N :=
  let a := nth 0 o O in
  let c := nth 2 o O in
  let e := nth 4 o O in
  let wadd := wrapping_add 32 in
  let v := set v a (wadd (wadd (wadd (get v a) round) x) add) in
  let v := set v a (wadd (rotate_left 32 bits (get v a)) (get v e)) in
  let v := set v c (rotate_left 32 10 (get v c)) in
  v.

(** [small_hash::round], src/ripemd160.rs:105-113 *)
Definition rip_small_fn (a c e x bits add round : N) : N * N :=
  let wadd := wrapping_add 32 in
  let a := wadd (wadd (wadd a round) x) add in
  let a := wadd (rotate_left 32 bits a) e in
  let c := rotate_left 32 10 c in
  (a, c).

(** The small-hash macro, src/ripemd160.rs:115-123 *)
Definition rip_small_round (v : list N) (o : list nat) (x : N) (bits add round : N) : list N :=
  let '(a, c) := rip_small_fn (get v (nth 0 o O)) (get v (nth 2 o O)) (get v (nth 4 o O))
                   x bits add round in
  let v := set v (nth 0 o O) a in
  let v := set v (nth 2 o O) c in
  v.

Definition rip_round (c : config) := if small_hash c then rip_small_round else rip_fast_round.

(** The boolean functions as written in the macro body,
    src/ripemd160.rs:163-214; b, c, d are the words at o1, o2, o3. *)
Definition rf1 (b c d : N) : N := N.lxor (N.lxor b c) d.
Definition rf2 (b c d : N) : N := N.lor (N.land b c) (N.land (bit_not 32 b) d).
Definition rf3 (b c d : N) : N := N.lxor (N.lor b (bit_not 32 c)) d.
Definition rf4 (b c d : N) : N := N.lor (N.land b d) (N.land c (bit_not 32 d)).
Definition rf5 (b c d : N) : N := N.lxor b (N.lor c (bit_not 32 d)).

(** Left line, src/ripemd160.rs:162-184: function and constant by round. *)
Definition left_fn (r : nat) : N -> N -> N -> N :=
  match r with 1 => rf1 | 2 => rf2 | 3 => rf3 | 4 => rf4 | _ => rf5 end%nat.
Definition left_k (r : nat) : N :=
  match r with
  | 1%nat => 0x00000000 | 2%nat => 0x5a827999 | 3%nat => 0x6ed9eba1
  | 4%nat => 0x8f1bbcdc | _ => 0xa953fd4e
  end.

(** Parallel line, src/ripemd160.rs:191-214. *)
Definition right_fn (r : nat) : N -> N -> N -> N :=
  match r with 1 => rf5 | 2 => rf4 | 3 => rf3 | 4 => rf2 | _ => rf1 end%nat.
Definition right_k (r : nat) : N :=
  match r with
  | 1%nat => 0x50a28be6 | 2%nat => 0x5c4dd124 | 3%nat => 0x6d703ef3
  | 4%nat => 0x7a6d76e9 | _ => 0x00000000
  end.

Definition run_line (c : config) (fn : nat -> N -> N -> N -> N) (k : nat -> N)
    (data : list N) (rows : list ripemd_row) (v : list N) : list N :=
  fold_left (fun v r =>
    let o := rw_order r in
    rip_round c v o (get data (rw_data r)) (rw_shift r) (k (rw_round r))
      (fn (rw_round r) (get v (nth 1 o O)) (get v (nth 2 o O)) (get v (nth 3 o O))))
    rows v.

(** src/ripemd160.rs:216-223, "Combine results". The Rust assigns in place;
    every right-hand side reads only not-yet-assigned entries, which the
    sequence of [set]s below reproduces literally. *)
Definition rip_combine (h bb bbb : list N) : list N :=
  let wadd := wrapping_add 32 in
  let bbb := set bbb 3 (wadd (wadd (get bbb 3) (get h 1)) (get bb 2)) in
  let h := set h 1 (wadd (wadd (get h 2) (get bb 3)) (get bbb 4)) in
  let h := set h 2 (wadd (wadd (get h 3) (get bb 4)) (get bbb 0)) in
  let h := set h 3 (wadd (wadd (get h 4) (get bb 0)) (get bbb 1)) in
  let h := set h 4 (wadd (wadd (get h 0) (get bb 1)) (get bbb 2)) in
  let h := set h 0 (get bbb 3) in
  h.
