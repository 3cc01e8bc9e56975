(** The [round!] macros of the SHA-2 block functions and an evaluator for a
    list of their invocations. *)
From Verif Require Import Base.

(** One invocation [round!(v0,..,v7, k, w[i])] or
    [round!(v0,..,v7, k, w[i], w[i1], w[i2], w[i3])]; variables a..h are 0..7.
    All indices are literals in the Rust text (an out-of-range one would be a
    compile error), hence the plain [nth]. *)
Record round_row : Type := mk_row {
  rr_vars : list nat;
  rr_k : N;
  rr_w : nat;
  rr_later : option (nat * nat * nat)
}.

(** The local variables a..h and the array w. *)
Definition rstate := (list N * list N)%type.

Definition get (l : list N) (i : nat) : N := nth i l 0.
Definition set (l : list N) (i : nat) (x : N) : list N :=
  firstn i l ++ x :: skipn (S i) l.

(** The functions the macros call: src/sha256.rs:190-199 and
    src/sha512.rs:135-144. *)
Record sha2_fns : Type := {
  f_width : N;
  f_Ch : N -> N -> N -> N;
  f_Maj : N -> N -> N -> N;
  f_Sigma0 : N -> N;
  f_Sigma1 : N -> N;
  f_sigma0 : N -> N;
  f_sigma1 : N -> N
}.

(** src/sha256.rs:190-191; src/sha512.rs:135-136 *)
Definition Ch (x y z : N) : N := N.lxor z (N.land x (N.lxor y z)).
(** src/sha256.rs:192-193; src/sha512.rs:137-138 *)
Definition Maj (x y z : N) : N := N.lor (N.land x y) (N.land z (N.lor x y)).

(** src/sha256.rs:194-199 *)
Definition Sigma0_256 (x : N) : N :=
  N.lxor (N.lxor (rotate_left 32 30 x) (rotate_left 32 19 x)) (rotate_left 32 10 x).
Definition Sigma1_256 (x : N) : N :=
  N.lxor (N.lxor (rotate_left 32 26 x) (rotate_left 32 21 x)) (rotate_left 32 7 x).
Definition sigma0_256 (x : N) : N :=
  N.lxor (N.lxor (rotate_left 32 25 x) (rotate_left 32 14 x)) (N.shiftr x 3).
Definition sigma1_256 (x : N) : N :=
  N.lxor (N.lxor (rotate_left 32 15 x) (rotate_left 32 13 x)) (N.shiftr x 10).

(** src/sha512.rs:139-144 *)
Definition Sigma0_512 (x : N) : N :=
  N.lxor (N.lxor (rotate_left 64 36 x) (rotate_left 64 30 x)) (rotate_left 64 25 x).
Definition Sigma1_512 (x : N) : N :=
  N.lxor (N.lxor (rotate_left 64 50 x) (rotate_left 64 46 x)) (rotate_left 64 23 x).
Definition sigma0_512 (x : N) : N :=
  N.lxor (N.lxor (rotate_left 64 63 x) (rotate_left 64 56 x)) (N.shiftr x 7).
Definition sigma1_512 (x : N) : N :=
  N.lxor (N.lxor (rotate_left 64 45 x) (rotate_left 64 3 x)) (N.shiftr x 6).

Definition fns256 : sha2_fns :=
  {| f_width := 32; f_Ch := Ch; f_Maj := Maj; f_Sigma0 := Sigma0_256;
     f_Sigma1 := Sigma1_256; f_sigma0 := sigma0_256; f_sigma1 := sigma1_256 |}.
Definition fns512 : sha2_fns :=
  {| f_width := 64; f_Ch := Ch; f_Maj := Maj; f_Sigma0 := Sigma0_512;
     f_Sigma1 := Sigma1_512; f_sigma0 := sigma0_512; f_sigma1 := sigma1_512 |}.

(** The default (not small-hash) macro, src/sha256.rs:245-257 and
    src/sha512.rs:187-199: first-round form. *)
Definition fast_round1 (F : sha2_fns) (v : list nat) (k : N) (wi : nat) (s : rstate) : rstate :=
  let '(vars, w) := s in
  let add := wrapping_add (f_width F) in
  let x i := get vars (nth i v O) in
  let t1 := add (add (add (add (x 7%nat) (f_Sigma1 F (x 4%nat)))
                          (f_Ch F (x 4%nat) (x 5%nat) (x 6%nat))) k) (get w wi) in
  let t2 := add (f_Sigma0 F (x 0%nat)) (f_Maj F (x 0%nat) (x 1%nat) (x 2%nat)) in
  let vars := set vars (nth 3 v O) (add (get vars (nth 3 v O)) t1) in
  let vars := set vars (nth 7 v O) (add t1 t2) in
  (vars, w).

(** Later-round form: $w is reassigned first. *)
Definition fast_round (F : sha2_fns) (r : round_row) (s : rstate) : rstate :=
  match rr_later r with
  | None => fast_round1 F (rr_vars r) (rr_k r) (rr_w r) s
  | Some (i1, i2, i3) =>
      let '(vars, w) := s in
      let add := wrapping_add (f_width F) in
      let w := set w (rr_w r)
                 (add (add (add (get w (rr_w r)) (f_sigma1 F (get w i1))) (get w i2))
                      (f_sigma0 F (get w i3))) in
      fast_round1 F (rr_vars r) (rr_k r) (rr_w r) (vars, w)
  end.

(** small-hash: [small_hash::round], src/sha256.rs:206-213 (returns the new d
    and h) and src/sha512.rs:151-160 (updates them through references). *)
Definition small_round_fn (F : sha2_fns) (a b c d e f g h k w : N) : N * N :=
  let add := wrapping_add (f_width F) in
  let t1 := add (add (add (add h (f_Sigma1 F e)) (f_Ch F e f g)) k) w in
  let t2 := add (f_Sigma0 F a) (f_Maj F a b c) in
  (add d t1, add t1 t2).

(** [small_hash::later_round], src/sha256.rs:215-222, src/sha512.rs:162-169 *)
Definition small_later_round_fn (F : sha2_fns) (a b c d e f g h k w w1 w2 w3 : N) : N * N * N :=
  let add := wrapping_add (f_width F) in
  let w := add (add (add w (f_sigma1 F w1)) w2) (f_sigma0 F w3) in
  let '(d, h) := small_round_fn F a b c d e f g h k w in
  (d, h, w).

(** The small-hash [round!] macro, src/sha256.rs:224-238, src/sha512.rs:171-180. *)
Definition small_round (F : sha2_fns) (r : round_row) (s : rstate) : rstate :=
  let '(vars, w) := s in
  let v := rr_vars r in
  let x i := get vars (nth i v O) in
  match rr_later r with
  | None =>
      let '(d, h) := small_round_fn F (x 0) (x 1) (x 2) (x 3) (x 4) (x 5) (x 6) (x 7)
                       (rr_k r) (get w (rr_w r)) in
      let vars := set vars (nth 3 v O) d in
      let vars := set vars (nth 7 v O) h in
      (vars, w)
  | Some (i1, i2, i3) =>
      let '(d, h, w') := small_later_round_fn F (x 0) (x 1) (x 2) (x 3) (x 4) (x 5) (x 6) (x 7)
                       (rr_k r) (get w (rr_w r)) (get w i1) (get w i2) (get w i3) in
      let vars := set vars (nth 3 v O) d in
      let vars := set vars (nth 7 v O) h in
      (vars, set w (rr_w r) w')
  end%nat.

(** Which [round!] is compiled in. *)
Definition round_macro (c : config) : sha2_fns -> round_row -> rstate -> rstate :=
  if small_hash c then small_round else fast_round.

(** A sequence of invocations. *)
Definition run_rows (c : config) (F : sha2_fns) (rows : list round_row) (s : rstate) : rstate :=
  fold_left (fun s r => round_macro c F r s) rows s.

(** [self.h[i] = self.h[i].wrapping_add(x_i)] for all i,
    src/sha256.rs:806-813, src/sha256.rs:405-412, src/sha512.rs:306-313. *)
Fixpoint add_all (w : N) (h vars : list N) : list N :=
  match h, vars with
  | x :: h', v :: vars' => wrapping_add w x v :: add_all w h' vars'
  | _, _ => h
  end.
