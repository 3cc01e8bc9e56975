(** The unrolled SHA-2 rounds of the generated text against the tables of
    TablesSha2.v: tactics doing one round on both sides. *)
From Coq Require Import Arith Lia.
From Verif Require Import Base GenBase ModelEngine ModelSha2Round TablesSha2 GenSha256 GenSha512 ProofBase ProofGenBase.

Lemma list8 {A} (l : list A) : length l = 8%nat -> exists a b c d e f g h, l = [a;b;c;d;e;f;g;h].
Proof.
  destruct l as [|a [|b [|c [|d [|e [|f [|g [|h [|]]]]]]]]]; try discriminate. intros _.
  now exists a, b, c, d, e, f, g, h.
Qed.
Lemma list16 {A} (l : list A) : length l = 16%nat ->
  exists w0 w1 w2 w3 w4 w5 w6 w7 w8 w9 w10 w11 w12 w13 w14 w15,
    l = [w0;w1;w2;w3;w4;w5;w6;w7;w8;w9;w10;w11;w12;w13;w14;w15].
Proof.
  destruct l as [|w0 [|w1 [|w2 [|w3 [|w4 [|w5 [|w6 [|w7 [|w8 [|w9 [|w10 [|w11 [|w12 [|w13 [|w14 [|w15 [|]]]]]]]]]]]]]]]]];
    try discriminate. intros _.
  now exists w0, w1, w2, w3, w4, w5, w6, w7, w8, w9, w10, w11, w12, w13, w14, w15.
Qed.

Lemma zip_assign_len {A B} (dst : list A) (src : list B) conv r : zip_assign dst src conv = Ok r -> length r = length dst.
Proof.
  revert src r. induction dst as [|d ds IH]; intros [|s ss] r; cbn [zip_assign]; try (intros E; injection E as <-; reflexivity).
  destruct (conv s); [|discriminate]. cbn [bind]. destruct (zip_assign ds ss conv) eqn:E; [|discriminate]. cbn [bind].
  intros E2. injection E2 as <-. cbn [length]. f_equal. exact (IH _ _ E).
Qed.

Definition rows_end {A} (k : list N -> A) (s : rstate) : A := let '(vars, _) := s in k vars.

Lemma rows_step {R} (k : list N -> R) F (x : round_row) l s s' : F s x = s' ->
  rows_end k (fold_left F (x :: l) s) = rows_end k (fold_left F l s').
Proof. now intros <-. Qed.

(** names for the words just computed *)
Ltac gen_all t := match t with context [wrapping_add ?n ?x ?y] => generalize (wrapping_add n x y); intro end.
Ltac gen_state :=
  try (match goal with |- _ = rows_end _ (fold_left _ _ (_, ?w)) => gen_all w end);
  repeat (match goal with |- _ = rows_end _ (fold_left _ _ (?v, _)) => gen_all v end).

Definition fst_res {A B} (r : res (A * B)) : res A := let* (a, _) := r in Ok a.
Lemma fst_res_ok {A B C} (x : res A) (v : A) (k : A -> res (B * C)) :
  x = Ok v -> fst_res (bind x k) = fst_res (k v).
Proof. now intros ->. Qed.

(** the first bound computation, run *)
Ltac sha2_left :=
  let run b tac := (
    let b' := eval cbv [bind index store nth_error firstn skipn app len length N.to_nat Pos.to_nat Pos.iter_op
      N.of_nat Pos.of_succ_nat Pos.succ N.ltb N.compare Pos.compare Pos.compare_cont Init.Nat.add
      g_sha256_Sigma0 g_sha256_Sigma1 g_sha256_sigma0 g_sha256_sigma1 g_sha256_Ch g_sha256_Maj
      g_sha256_small_hash_round g_sha256_small_hash_later_round
      g_sha512_Sigma0 g_sha512_Sigma1 g_sha512_sigma0 g_sha512_sigma1 g_sha512_Ch g_sha512_Maj
      g_sha512_small_hash_round g_sha512_small_hash_later_round] in b in
    match b' with Ok ?v => tac v end) in
  match goal with
  | |- bind ?b ?k = _ => run b ltac:(fun v => refine (eq_trans (bind_ok b v k eq_refl) _); cbv beta iota)
  | |- fst_res (bind ?b ?k) = _ => run b ltac:(fun v => refine (eq_trans (fst_res_ok b v k eq_refl) _); cbv beta iota)
  end.
(** the first row, run *)
Ltac sha2_right :=
  match goal with |- _ = rows_end ?k (fold_left ?F (?x :: ?l) ?s) =>
    let s' := eval cbv [fast_round fast_round1 small_round small_round_fn small_later_round_fn
      get set nth firstn skipn app rr_later rr_vars rr_k rr_w
      fns256 fns512 f_width f_Ch f_Maj f_Sigma0 f_Sigma1 f_sigma0 f_sigma1 Sigma0_256 Sigma1_256 sigma0_256 sigma1_256
      Sigma0_512 Sigma1_512 sigma0_512 sigma1_512 Ch Maj] in (F s x) in
    refine (eq_trans _ (eq_sym (rows_step k F x l s s' eq_refl)))
  end.
Ltac sha2_round := sha2_left; sha2_right; gen_state.


Ltac sha2_start h Hh w Hw :=
  let h0 := fresh "h" in let h1 := fresh "h" in let h2 := fresh "h" in let h3 := fresh "h" in
  let h4 := fresh "h" in let h5 := fresh "h" in let h6 := fresh "h" in let h7 := fresh "h" in
  destruct (list8 h Hh) as (h0 & h1 & h2 & h3 & h4 & h5 & h6 & h7 & ->);
  destruct (list16 w Hw) as (?w & ?w & ?w & ?w & ?w & ?w & ?w & ?w & ?w & ?w & ?w & ?w & ?w & ?w & ?w & ?w & ->);
  do 8 sha2_left.
