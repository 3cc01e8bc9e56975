(** What conditional compilation has to achieve. *)
From Coq Require Import Strings.String.
From Verif Require Import Base BuildBase GenBuild.
Open Scope list_scope.

(** The source: [cfg_attr(p, no_std)], the files with their items, and
    [[features]] of Cargo.toml with the optional dependencies *)
Record source : Type := mk_source {
  s_no_std : cfg_pred;
  s_files : list (string * list item);
  s_features : list (string * list string) }.

Section S.
  Variable s : source.

  Definition compiled (b : build) (i : item) : bool := holds b (CAll (i_under i ++ i_own i)).
  Definition kind_eqb (a b : item_kind) : bool :=
    match a, b with
    | KFn, KFn | KMacro, KMacro | KMod, KMod | KTrait, KTrait | KStruct, KStruct | KConst, KConst
    | KType, KType | KImpl, KImpl | KCrate, KCrate | KUse, KUse | KBlock, KBlock | KOther, KOther => true
    | _, _ => false
    end.
  Definition is_item (k : item_kind) (n : string) (i : item) : bool := kind_eqb (i_kind i) k && String.eqb (i_name i) n.
  (** the definitions of a name in some files *)
  Definition definitions (fs : list string) (k : item_kind) (n : string) : list item :=
    flat_map (fun f => if existsb (String.eqb (fst f)) fs then filter (is_item k n) (snd f) else []) (s_files s).

  (** ** Is a name there in a build? *)
  Definition std_linked (b : build) : bool := negb (holds b (s_no_std s)).
  Definition extern_crate (b : build) (c : string) : bool := existsb (compiled b) (definitions ["lib"%string] KCrate c).
  (** core and std come with the compiler, alloc and test by [extern crate];
      hex is a dependency, the others optional or for tests *)
  Definition crate_available (b : build) (c : string) : bool :=
    if existsb (String.eqb c) ["core"; "hex"]%string then true
    else if String.eqb c "std" then std_linked b
    else if existsb (String.eqb c) ["alloc"; "test"]%string then extern_crate b c
    else if existsb (String.eqb c) ["serde"; "schemars"]%string then b_feature b c
    else if String.eqb c "bitcoin_io" then b_feature b "bitcoin-io"
    else if existsb (String.eqb c) ["serde_test"; "serde_json"]%string then b_flag b "test"
    else false.
  Definition available (b : build) (n : need) : Prop :=
    match n with
    | NRoot c => crate_available b c = true
    | NPrelude _ => std_linked b = true
    | NHeap => std_linked b = true \/ extern_crate b "alloc" = true
    (* one definition, in this file or exported by one of the macro files *)
    | NMacro f n => List.length (filter (compiled b) (definitions [f; "internal_macros"; "serde_macros"]%string KMacro n)) = 1%nat
    | NFn f n => exists d, In d (definitions [f] KFn n) /\ compiled b d = true
    | NArch a => b_arch b = a
    | NIntrinsics f => exists u, In u (definitions [f] KUse "usecore::arch::x86::*" ++ definitions [f] KUse "usecore::arch::x86_64::*") /\
        compiled b u = true
    | NDetect => std_linked b = true /\ In (b_arch b) ["x86"; "x86_64"]%string
    end.
  Definition resolves (b : build) : Prop :=
    forall f l i n, In (f, l) (s_files s) -> In i l -> compiled b i = true -> In n (i_needs i) -> available b n.

  (** ** Defined once *)
  Definition named (k : item_kind) : bool := match k with KUse | KBlock | KOther => false | _ => true end.
  Definition same_name (i j : item) : Prop := i_kind i = i_kind j /\ i_path i = i_path j /\ i_name i = i_name j.
  Definition defined_once : Prop :=
    forall f l a b i j, In (f, l) (s_files s) -> nth_error l a = Some i -> nth_error l b = Some j -> a <> b ->
    named (i_kind i) = true -> same_name i j ->
    i_under i = i_under j /\ forall bl, holds bl (CAll (i_own i)) = negb (holds bl (CAll (i_own j))).

  (** ** Cargo *)
  (** The features on when [req] is asked for ([default] among them unless
      --no-default-features) *)
  Inductive enabled (req : list string) : string -> Prop :=
  | enabled_req f : In f req -> enabled req f
  | enabled_by g l f : enabled req g -> In (g, l) (s_features s) -> In f l -> enabled req f.
  Definition cargo_build (req : list string) (b : build) : Prop := forall f, b_feature b f = true <-> enabled req f.
  Definition asked (req fs : list string) : Prop := exists f, In f req /\ In f fs.
End S.

(** std on x86 and every instruction set extension the code uses *)
Definition accelerated (b : build) (cpu : string -> bool) : bool :=
  b_feature b "std" && (String.eqb (b_arch b) "x86" || String.eqb (b_arch b) "x86_64") &&
  (cpu "sha"%string && cpu "sse2"%string && cpu "ssse3"%string && cpu "sse4.1"%string).

(** This crate *)
Definition g_source : source := mk_source g_no_std g_crate g_features.
Definition impl_item (f n : string) (i : item) : Prop := In i (definitions g_source [f] KImpl n).
