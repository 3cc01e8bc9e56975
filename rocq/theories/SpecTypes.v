(** Vocabulary for the theorems about the hash value types. *)
From Verif Require Import Base ModelTypes.

(** The types for which a schema is published, and whose doubled length is a u32 *)
Definition has_schema (t : hash_ty) : Prop :=
  match t with TMidstate => False | THmac n => n < 2 ^ 31 | _ => True end.

(** [r] is the part of [h] from [i] to [j] *)
Definition part {A} (h : list A) (i j : N) (r : list A) : Prop :=
  exists p q, h = p ++ r ++ q /\ len p = i /\ i + len r = j.

(** The range an index stands for *)
Definition bounds (h : bytes) (ix : slice_index) : N * N :=
  match ix with
  | At i => (i, i + 1)
  | Range i j => (i, j)
  | RangeFrom i => (i, len h)
  | RangeTo j => (0, j)
  | RangeFull => (0, len h)
  | RangeInclusive i j => (i, j + 1)
  | RangeToInclusive j => (0, j + 1)
  end.
