(** Fields and functions with their visibility, as used by GenApi.v.
    Independent of the crate. *)
From Coq Require Import Strings.String.
From Verif Require Import Base BuildBase.

Inductive vis : Type := Public | InCrate | Private.
(** How a type stands in a signature: by value, behind [&], behind [&mut] *)
Inductive access : Type := Own | Shared | Exclusive.
Record field_decl : Type := mk_field { fd_struct : string; fd_name : string; fd_vis : vis }.
(** [fn_owner]: the type of the impl, empty for functions and traits;
    [fn_trait]: empty if inherent; a function of an impl of a trait is public *)
Record fn_decl : Type := mk_fn { fn_file : string; fn_owner : string; fn_trait : string; fn_name : string; fn_cfg : list cfg_pred;
  fn_vis : vis; fn_takes : list (access * string); fn_gives : list (access * string) }.
