(** Generated ripemd160.rs, the block function, against TablesRipemd.v: tactics
    doing one round on both sides. *)
From Coq Require Import Arith Lia.
From Verif Require Import Base GenBase ModelEngine ModelSha2Round ModelRipemdRound TablesRipemd ModelRipemd GenRipemd ProofBase ProofGenBase ProofGenSha2.

Lemma list5 {A} (l : list A) : length l = 5%nat -> exists a b c d e, l = [a;b;c;d;e].
Proof.
  destruct l as [|a [|b [|c [|d [|e [|]]]]]]; try discriminate. intros _. now exists a, b, c, d, e.
Qed.

(** Both lines, then the combination. *)
Definition lines_end {A} (k : list N -> list N -> A) (l r : list N) : A := k l r.

Lemma left_step {A} (k : list N -> list N -> A) F (x : ripemd_row) l s s' r :
  F s x = s' -> lines_end k (fold_left F (x :: l) s) r = lines_end k (fold_left F l s') r.
Proof. now intros <-. Qed.
Lemma right_step {A} (k : list N -> list N -> A) F (x : ripemd_row) l s s' r :
  F s x = s' -> lines_end k r (fold_left F (x :: l) s) = lines_end k r (fold_left F l s').
Proof. now intros <-. Qed.

Ltac rip_gen_all t :=
  match t with
  | context [wrapping_add ?n ?x ?y] => generalize (wrapping_add n x y); intro
  | context [rotate_left ?n ?x ?y] => generalize (rotate_left n x y); intro
  end.

Ltac rip_left_eval :=
  match goal with |- bind ?b ?k = _ =>
    let b' := eval cbv [bind index store nth_error firstn skipn app len length N.to_nat Pos.to_nat Pos.iter_op
      N.of_nat Pos.of_succ_nat Pos.succ N.ltb N.compare Pos.compare Pos.compare_cont Init.Nat.add
      g_ripemd160_small_hash_round] in b in
    match b' with Ok ?v => refine (eq_trans (bind_ok b v k eq_refl) _); cbv beta end
  end.
Ltac rip_row t := eval cbv [rip_fast_round rip_small_round rip_small_fn get set nth firstn skipn app
      rw_round rw_order rw_data rw_shift left_fn left_k right_fn right_k rf1 rf2 rf3 rf4 rf5] in t.
Ltac rip_left :=
  rip_left_eval;
  match goal with |- _ = lines_end ?k (fold_left ?F (?x :: ?l) ?s) ?r =>
    let s' := rip_row (F s x) in
    refine (eq_trans _ (eq_sym (left_step k F x l s s' r eq_refl)))
  end;
  repeat (match goal with |- _ = lines_end _ (fold_left _ _ ?s) _ => rip_gen_all s end).
Ltac rip_right :=
  rip_left_eval;
  match goal with |- _ = lines_end ?k ?r (fold_left ?F (?x :: ?l) ?s) =>
    let s' := rip_row (F s x) in
    refine (eq_trans _ (eq_sym (right_step k F x l s s' r eq_refl)))
  end;
  repeat (match goal with |- _ = lines_end _ _ (fold_left _ _ ?s) => rip_gen_all s end).

