(** Variables of a function body: what tools/rs2v_fuzz.py writes (GenScope.v).

    Of a body only the declarations and uses of variables are kept. *)
From Coq Require Import String List.
Import ListNotations.

Inductive scope : Set :=
| SVar (x : string)                                (* a use of a variable *)
| SNode (l : list scope)                           (* parts that declare nothing for each other *)
| SLet (xs : list string) (init body : scope).     (* [let xs = init; body]; also [for], closures, parameters *)

(** In which builds the function is compiled: with [--cfg hashes_fuzz], without,
    or in both. *)
Inductive when : Set := Always | OnlyFuzz | NeverFuzz.
Definition compiled (fuzz : bool) (w : when) : bool :=
  match w with Always => true | OnlyFuzz => fuzz | NeverFuzz => negb fuzz end.

Record scoped : Set := mk_scoped { sc_file : string; sc_trait : string; sc_fn : string; sc_when : when; sc_body : scope }.
