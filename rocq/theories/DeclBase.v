(** Struct declarations, the layouts the Rust reference allows for them, the
    pointer operations of the reference casts and derived [Debug], as used by
    GenDecl.v.  Independent of the crate. *)
From Coq Require Import Strings.Byte Strings.String.
From Verif Require Import Base ModelTypes ModelValues ModelMem.
Open Scope list_scope.

Inductive trait_name : Set := DCopy | DClone | DPartialEq | DEq | DPartialOrd | DOrd | DHash | DDefault | DDebug.

(** ** Layout *)
Inductive repr : Set := ReprRust | ReprTransparent | ReprC.
(** [[u8; n]]; [PhantomData], [()]; an integer of [n] bytes *)
Inductive field_ty : Set := FBytes (n : N) | FPhantom | FWord (n : N).
Record decl : Set := mk_decl { d_repr : repr; d_fields : list field_ty }.

Definition field_size (f : field_ty) : N := match f with FBytes n => n | FPhantom => 0 | FWord n => n end.
(** (u64 and u128 may be aligned less on some targets) *)
Definition field_align (f : field_ty) : N := match f with FBytes _ | FPhantom => 1 | FWord n => n end.

(** Size, alignment and the offset of each field *)
Record slayout : Type := mk_slayout { s_size : N; s_align : N; s_offset : nat -> N }.
Definition array_slayout (n : N) : slayout := mk_slayout n 1 (fun _ => 0).

(** Reference, "Type layout": the default representation promises that the
    fields are aligned and do not overlap, and that the alignment is at least
    that of the fields; nothing about the order or padding.
    [repr(transparent)]: at most one field that is not zero-sized with alignment
    1; the struct has the size and alignment of that field.  [repr(C)]: each
    field at the next multiple of its alignment, the size rounded up. *)
Definition rust_layout (fs : list field_ty) (l : slayout) : Prop :=
  (exists k, s_align l = 2 ^ k) /\ s_size l mod s_align l = 0 /\
  (forall k f, nth_error fs k = Some f ->
     s_offset l k + field_size f <= s_size l /\ s_offset l k mod field_align f = 0 /\ s_align l mod field_align f = 0) /\
  (forall j k f g, (j < k)%nat -> nth_error fs j = Some f -> nth_error fs k = Some g ->
     s_offset l j + field_size f <= s_offset l k \/ s_offset l k + field_size g <= s_offset l j).
Definition trivial_field (f : field_ty) : bool := (field_size f =? 0) && (field_align f =? 1).
(** Accepted by the compiler (E0690) *)
Definition accepted (d : decl) : Prop :=
  match d_repr d with
  | ReprTransparent => (List.length (filter (fun f => negb (trivial_field f)) (d_fields d)) <= 1)%nat
  | _ => True
  end.
Definition transparent_layout (fs : list field_ty) (l : slayout) : Prop :=
  rust_layout fs l /\
  (forall k f, nth_error fs k = Some f -> trivial_field f = false -> s_size l = field_size f /\ s_align l = field_align f) /\
  (forallb trivial_field fs = true -> s_size l = 0 /\ s_align l = 1).
Definition round_up (n a : N) : N := n + (a - n mod a) mod a.
Definition c_offset (fs : list field_ty) (k : nat) : N :=
  match nth_error fs k with
  | None => 0
  | Some f => round_up (fold_left (fun n g => round_up n (field_align g) + field_size g) (firstn k fs) 0) (field_align f)
  end.
Definition c_layout (fs : list field_ty) (l : slayout) : Prop :=
  let a := fold_left (fun a g => N.max a (field_align g)) fs 1 in
  s_align l = a /\ (forall k, (k < List.length fs)%nat -> s_offset l k = c_offset fs k) /\
  s_size l = round_up (fold_left (fun n g => round_up n (field_align g) + field_size g) fs 0) a.
Definition allowed (d : decl) (l : slayout) : Prop :=
  match d_repr d with
  | ReprRust => rust_layout (d_fields d) l
  | ReprTransparent => transparent_layout (d_fields d) l
  | ReprC => c_layout (d_fields d) l
  end.

(** ** Pointers *)
(** [&*(p as *const T)], [&mut *(p as *mut T)] for a [T] of this layout *)
Definition slayout_cast (l : slayout) (p : pointer) : res pointer :=
  ref_cast (mk_layout (s_size l) (s_align l) 0) p.
(** [&self.k], a field of [n] bytes *)
Definition field_ref (l : slayout) (k : nat) (n : N) (self : pointer) : pointer :=
  ref_to (p_addr self + s_offset l k) n.

(** ** derive(Debug): [debug_struct(name).field(..)...finish()] *)
Inductive dbg : Type := DNum (n : N) | DStruct (name : bytes) (fields : list (bytes * dbg)).

Fixpoint joined (sep : bytes) (l : list bytes) : bytes :=
  match l with [] => [] | [x] => x | x :: l => x ++ sep ++ joined sep l end.
(** [{:?}] *)
Fixpoint debug_text (d : dbg) : bytes :=
  match d with
  | DNum n => fmt_usize n
  | DStruct name [] => name
  | DStruct name fs =>
      name ++ list_byte_of_string " { " ++
      joined (list_byte_of_string ", ")
        ((fix go fs := match fs with [] => [] | (f, x) :: fs => (f ++ list_byte_of_string ": " ++ debug_text x) :: go fs end) fs) ++
      list_byte_of_string " }"
  end.
(** [{:#?}]: one field per line, indented by a [PadAdapter], which writes four
    spaces at the start of every line *)
Definition newline : byte := x0a.
Fixpoint padded (start : bool) (t : bytes) : bytes :=
  match t with
  | [] => []
  | x :: t => (if start then list_byte_of_string "    " else []) ++ x :: padded (Byte.eqb x newline) t
  end.
Fixpoint debug_pretty (d : dbg) : bytes :=
  match d with
  | DNum n => fmt_usize n
  | DStruct name [] => name
  | DStruct name fs =>
      name ++ list_byte_of_string " {" ++ [newline] ++
      List.concat ((fix go fs := match fs with [] => [] | (f, x) :: fs =>
        padded true (f ++ list_byte_of_string ": " ++ debug_pretty x ++ list_byte_of_string "," ++ [newline]) :: go fs end) fs) ++
      list_byte_of_string "}"
  end.
