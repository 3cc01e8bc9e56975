(** Types, traits, impls and what follows from them, as used by GenTrait.v: the
    part of Rust's trait system the crate needs (no lifetimes, no higher-ranked
    bounds, no specialisation).  Independent of the crate. *)
From Coq Require Import Strings.String.
From Verif Require Import Base BuildBase.
Open Scope list_scope.

(** [TCon n l]: a struct, primitive type, "array" or "slice"; [TNum]: the value of
    a const parameter; [TVar k]: parameter number [k] of the declaration;
    [TProj t a]: the associated type [t::a]; [TUser n]: a type of another crate *)
Inductive ty : Type := TCon (n : string) (l : list ty) | TNum (n : N) | TVar (k : nat) | TProj (t : ty) (a : string) | TUser (n : N).
(** A trait with its arguments; [(t, r)] reads [t: r] *)
Definition tref : Type := string * list ty.
Definition goal : Type := ty * tref.

Fixpoint tsubst (s : nat -> ty) (t : ty) : ty :=
  match t with
  | TCon n l => TCon n (map (tsubst s) l)
  | TVar k => s k
  | TProj t a => TProj (tsubst s t) a
  | TNum _ | TUser _ => t
  end.
Definition gsubst (s : nat -> ty) (g : goal) : goal := (tsubst s (fst g), (fst (snd g), map (tsubst s) (snd (snd g)))).

(** ** Declarations *)
(** [sd_params]: which parameters are types, the others are const *)
Record struct_decl : Type := mk_struct { sd_name : string; sd_cfg : list cfg_pred; sd_params : list bool; sd_bounds : list goal; sd_fields : list ty; sd_derives : list string }.
(** [td_implied]: supertraits and bounds of associated types; [TVar 0] is Self *)
Record trait_decl : Type := mk_trait { td_name : string; td_implied : list goal }.
Record impl_decl : Type := mk_impl { im_cfg : list cfg_pred; im_bounds : list goal; im_trait : tref; im_for : ty; im_assoc : list (string * ty) }.

(** ** Clauses: for all values of the parameters the head follows from the premises *)
Record clause : Type := mk_clause { cl_cfg : list cfg_pred; cl_pre : list goal; cl_head : goal }.

Definition t0 (n : string) : tref := (n, []).
Definition self_ty (d : struct_decl) : ty := TCon (sd_name d) (map TVar (seq 0 (List.length (sd_params d)))).
(** [#[derive(d)]]: the bounds of the struct, and [d] for every type parameter *)
Definition derive_bounds (sd : struct_decl) (d : string) : list goal :=
  sd_bounds sd ++ flat_map (fun k => if nth k (sd_params sd) false then [(TVar k, t0 d)] else []) (seq 0 (List.length (sd_params sd))).
Definition derived (sd : struct_decl) : list impl_decl :=
  map (fun d => mk_impl (sd_cfg sd) (derive_bounds sd d) (t0 d) (self_ty sd) []) (sd_derives sd).
(** Auto traits: of a struct if of all fields *)
Definition auto_traits : list string := ["Send"; "Sync"; "Unpin"]%string.
Definition auto_clauses (sd : struct_decl) : list clause :=
  map (fun a => mk_clause (sd_cfg sd) (map (fun f => (f, t0 a)) (sd_fields sd)) (self_ty sd, t0 a)) auto_traits.
Definition impl_clause (i : impl_decl) : clause := mk_clause (im_cfg i) (im_bounds i) (im_for i, im_trait i).
(** An associated type has the traits its value has *)
Definition tslice (t : ty) : ty := TCon "slice" [t].
Definition u8 : ty := TCon "u8" [].
Definition proj_traits : list tref :=
  map t0 (["Copy"; "Clone"; "PartialEq"; "Eq"; "PartialOrd"; "Ord"; "Hash"; "Debug"; "Display"]%string ++ auto_traits) ++ [("AsRef"%string, [tslice u8])].
Definition proj_clauses (i : impl_decl) : list clause :=
  flat_map (fun a => map (fun r => mk_clause (im_cfg i) (im_bounds i ++ [(snd a, r)]) (TProj (im_for i) (fst a), r)) proj_traits) (im_assoc i).

(** ** The standard library, and hex-conservative's error type *)
Definition value_traits : list string := ["Copy"; "Clone"; "PartialEq"; "Eq"; "PartialOrd"; "Ord"; "Hash"; "Debug"]%string.
Definition array (t n : ty) : ty := TCon "array" [t; n].
Definition core_clauses : list clause :=
  flat_map (fun p => map (fun r => mk_clause [] [] (TCon p [], t0 r)) (value_traits ++ ["Default"; "Display"; "LowerHex"; "UpperHex"]%string ++ auto_traits))
    ["u8"; "u32"; "u64"; "usize"]%string ++
  map (fun r => mk_clause [] [(TVar 0, t0 r)] (array (TVar 0) (TVar 1), t0 r)) (value_traits ++ auto_traits) ++
  [mk_clause [] [] (array (TVar 0) (TVar 1), ("AsRef"%string, [tslice (TVar 0)]))] ++
  (* [T; n]: Default for n <= 32 only *)
  map (fun n => mk_clause [] [(TVar 0, t0 "Default")] (array (TVar 0) (TNum (N.of_nat n)), t0 "Default")) (seq 0 33) ++
  map (fun r => mk_clause [] [] (TCon "PhantomData" [TVar 0], t0 r)) (value_traits ++ ["Default"%string]) ++
  map (fun r => mk_clause [] [(TVar 0, t0 r)] (TCon "PhantomData" [TVar 0], t0 r)) auto_traits ++
  map (fun p => mk_clause [] [] (p, ("SliceIndex"%string, [tslice (TVar 0)])))
    [TCon "usize" []; TCon "Range" [TCon "usize" []]; TCon "RangeFrom" [TCon "usize" []]; TCon "RangeTo" [TCon "usize" []];
     TCon "RangeInclusive" [TCon "usize" []]; TCon "RangeToInclusive" [TCon "usize" []]; TCon "RangeFull" []] ++
  map (fun r => mk_clause [] [] (TCon "HexToArrayError" [], t0 r)) ["Debug"; "Display"]%string.
Definition core_traits : list trait_decl :=
  [mk_trait "Copy" [(TVar 0, t0 "Clone")]; mk_trait "Eq" [(TVar 0, t0 "PartialEq")]; mk_trait "PartialOrd" [(TVar 0, t0 "PartialEq")];
   mk_trait "Ord" [(TVar 0, t0 "Eq"); (TVar 0, t0 "PartialOrd")]; mk_trait "Error" [(TVar 0, t0 "Debug"); (TVar 0, t0 "Display")]].

(** ** What holds: the least relation closed under the clauses that are compiled
    in the build [b], given the facts [U] about types of other crates *)
Inductive sat (b : build) (P : list clause) (U : goal -> Prop) : goal -> Prop :=
| sat_user g : U g -> sat b P U g
| sat_clause c s : In c P -> forallb (holds b) (cl_cfg c) = true ->
    (forall p, In p (cl_pre c) -> sat b P U (gsubst s p)) -> sat b P U (gsubst s (cl_head c)).

Section Tables.
  Variables (structs : list struct_decl) (traits : list trait_decl) (impls : list impl_decl).
  Definition all_impls : list impl_decl := impls ++ flat_map derived structs.
  Definition program : list clause :=
    map impl_clause all_impls ++ flat_map auto_clauses structs ++ flat_map proj_clauses impls ++ core_clauses.
  (** What [t: r] implies by the declaration of the trait, to any depth up to 4 *)
  Definition implied1 (g : goal) : list goal :=
    flat_map (fun d => if String.eqb (td_name d) (fst (snd g)) then map (gsubst (fun _ => fst g)) (td_implied d) else []) (core_traits ++ traits).
  Fixpoint implied (n : nat) (g : goal) : list goal :=
    match n with O => [] | S n => flat_map (fun h => h :: implied n h) (implied1 g) end.
  (** What a type needs to be well-formed *)
  Definition assoc_of (a : string) : list tref :=
    if existsb (String.eqb a) ["Digest"; "Midstate"]%string then [t0 "HashEngine"] else if String.eqb a "Err" then [t0 "FromStr"] else [].
  Fixpoint wf_goals (t : ty) : list goal :=
    match t with
    | TCon n l => flat_map wf_goals l ++
        flat_map (fun d => if String.eqb (sd_name d) n then map (gsubst (fun k => nth k l (TNum 0))) (sd_bounds d) else []) structs
    | TProj t a => wf_goals t ++ map (fun r => (t, r)) (assoc_of a)
    | _ => []
    end.
  (** What the compiler asks of an impl: the types in it are well-formed, what the
      trait implies holds, a [Copy] type and a type with derived traits has the
      trait in every field *)
  Definition fields_of (t : ty) : list ty :=
    match t with TCon n l => flat_map (fun d => if String.eqb (sd_name d) n then map (tsubst (fun k => nth k l (TNum 0))) (sd_fields d) else []) structs | _ => [] end.
  Definition header_goals (i : impl_decl) : list goal :=
    wf_goals (im_for i) ++ flat_map wf_goals (snd (im_trait i)) ++ flat_map (fun a => wf_goals (snd a)) (im_assoc i) ++
    implied 4 (im_for i, im_trait i) ++
    (if String.eqb (fst (im_trait i)) "Copy" then map (fun f => (f, t0 "Copy")) (fields_of (im_for i)) else []).
  Definition derive_goals (i : impl_decl) : list goal := map (fun f => (f, im_trait i)) (fields_of (im_for i)).
  Definition struct_goals (d : struct_decl) : list goal := flat_map wf_goals (sd_fields d).
End Tables.
