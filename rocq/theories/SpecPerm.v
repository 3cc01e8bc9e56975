(** Vocabulary for C58 and C59. *)
From Coq Require Import NArith List Bool.
From Verif Require Import Base SpecBase SpecMD.
Import ListNotations.
Open Scope N_scope.

(** [F] permutes the values that satisfy [ok]. *)
Definition permutes {A} (ok : A -> Prop) (F : A -> A) : Prop :=
  (forall x, ok x -> ok (F x)) /\ (forall y, ok y -> exists! x, ok x /\ F x = y).

(** The hash functions of FIPS 180-4. *)
Definition sha_family (a : algo) : Prop := match a with Ripemd160 => False | _ => True end.

(** Addition word by word: the feed-forward at the end of a block. *)
Definition add_words (w : N) (x y : list N) : list N := map (fun p => add w (fst p) (snd p)) (combine x y).
Definition word_bits (a : algo) : N := 8 * N.of_nat (md_wbytes (md_of a)).
