(** Conditional compilation: cfg predicates, items with the cfg attributes they
    stand under and the names they need, and calls of [#[target_feature]]
    functions, as used by GenBuild.v.  Independent of the crate. *)
From Coq Require Import Strings.String.
From Verif Require Import Base.
Open Scope list_scope.

(** ** Builds *)
(** Features switched on, [target_arch], and the other cfg options ([test],
    [bench], [hashes_fuzz]) *)
Record build : Type := mk_build { b_feature : string -> bool; b_arch : string; b_flag : string -> bool }.

Inductive atom : Set := AFeature (n : string) | AArch (n : string) | AFlag (n : string).
Inductive cfg_pred : Set := CAtom (a : atom) | CAll (l : list cfg_pred) | CAny (l : list cfg_pred) | CNot (p : cfg_pred).
Definition CFeature (n : string) : cfg_pred := CAtom (AFeature n).
Definition CArch (n : string) : cfg_pred := CAtom (AArch n).
Definition CFlag (n : string) : cfg_pred := CAtom (AFlag n).

Definition atom_holds (b : build) (a : atom) : bool :=
  match a with AFeature n => b_feature b n | AArch n => String.eqb (b_arch b) n | AFlag n => b_flag b n end.
Fixpoint eval (v : atom -> bool) (p : cfg_pred) {struct p} : bool :=
  match p with
  | CAtom a => v a
  | CAll l => forallb (eval v) l
  | CAny l => existsb (eval v) l
  | CNot p => negb (eval v p)
  end.
Definition holds (b : build) (p : cfg_pred) : bool := eval (atom_holds b) p.

(** ** Items *)
(** [KImpl]: of a trait; [KBlock]: a statement with its own cfg; [KOther]:
    inherent impls, macro calls *)
Inductive item_kind : Set := KFn | KMacro | KMod | KTrait | KStruct | KConst | KType | KImpl | KCrate | KUse | KBlock | KOther.
Inductive need : Set :=
| NRoot (c : string)          (* a path that starts in the crate [c] *)
| NPrelude (n : string)       (* a name in the prelude of std and not of core *)
| NHeap                       (* a method of slices that allocates *)
| NMacro (f n : string)       (* the macro [n], used in the file [f] *)
| NFn (f n : string)          (* the function [n] of the file [f] *)
| NArch (a : string)          (* the module core::arch::[a] *)
| NIntrinsics (f : string)    (* the x86 intrinsics by their bare names, in the file [f] *)
| NDetect.                    (* is_x86_feature_detected! *)
(** [i_path]: the enclosing modules, impls and macros; [i_under]: their cfg
    attributes; [i_own]: those of the item *)
Record item : Set := mk_item { i_kind : item_kind; i_path : string; i_name : string; i_under : list cfg_pred; i_own : list cfg_pred; i_needs : list need }.

(** ** Unsafe calls *)
(** What happens when a block is to be processed: it runs; an instruction the
    CPU does not have is executed (undefined behaviour); a function is called
    that this build does not have *)
Inductive outcome (A : Type) : Type := Runs (r : res A) | IllegalInstruction | NotCompiled.
Arguments Runs {A} r. Arguments IllegalInstruction {A}. Arguments NotCompiled {A}.

(** The CPUID feature of each intrinsic, Intel Intrinsics Guide *)
Definition intrinsic_feature (i : string) : option string :=
  if existsb (String.eqb i) ["_mm_set_epi64x"; "_mm_loadu_si128"; "_mm_storeu_si128"; "_mm_shuffle_epi32"; "_mm_add_epi32"]%string then Some "sse2"%string
  else if existsb (String.eqb i) ["_mm_shuffle_epi8"; "_mm_alignr_epi8"]%string then Some "ssse3"%string
  else if existsb (String.eqb i) ["_mm_blend_epi16"]%string then Some "sse4.1"%string
  else if existsb (String.eqb i) ["_mm_sha256rnds2_epu32"; "_mm_sha256msg1_epu32"; "_mm_sha256msg2_epu32"]%string then Some "sha"%string
  else None.
Definition cpu_runs (cpu : string -> bool) (i : string) : bool :=
  match intrinsic_feature i with Some f => cpu f | None => false end.

(** Call of a function with [#[cfg(p)] #[target_feature(enable = features)]]
    whose body uses the given intrinsics *)
Definition run_unsafe {A : Type} (b : build) (cpu : string -> bool) (p : cfg_pred) (features intrinsics : list string) (r : res A) : outcome A :=
  if negb (holds b p) then NotCompiled
  else if forallb cpu features && forallb (cpu_runs cpu) intrinsics then Runs r
  else IllegalInstruction.
