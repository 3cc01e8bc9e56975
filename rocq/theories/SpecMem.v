(** The hash types whose reference casts are justified by [repr(transparent)]. *)
From Verif Require Import Base ModelTypes.

Definition plain_hash (t : hash_ty) : Prop :=
  match t with
  | TSha1 | TSha256 | TSha384 | TSha512 | TSha512_256 | TRipemd160 | TSiphash24 | TSha256t => True
  | THmac _ | TMidstate => False
  end.

(** [k] bytes at [b] and [n] bytes at [a] have none in common. *)
Definition apart (b k a n : N) : Prop := b + k <= a \/ a + n <= b.
