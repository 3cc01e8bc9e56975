(** What a formatted hash looks like, as a text of characters (code points).
    Independent of the model, but
    for the reading of the options of a [formatter] at the end. *)
From Coq Require Import NArith List Bool.
From Coq Require Import Init.Byte Strings.Byte.
From Verif Require Import SpecBase SpecText ModelFmt.
Import ListNotations.
Open Scope N_scope.
Open Scope list_scope.

Inductive side : Set := OnLeft | OnRight | OnBoth.

Definition codes (s : list byte) : list N := map Byte.to_N s.
(** Everything but padding: a plus sign if asked for, "0x" if asked for. *)
Definition head_text (plus alternate : bool) : list N :=
  (if plus then [43] else []) ++ (if alternate then [48; 120] else []).
(** Number of characters without padding. *)
Definition natural (plus alternate : bool) (h : list byte) : nat :=
  length (head_text plus alternate) + 2 * length h.

(** [out] is the hash [h] in the digits [ds]: [l] and [r] fill characters at the
    two ends, [z] zeros between the prefix and the digits; together as many as
    are missing to the wanted width. *)
Definition formatted (ds : list byte) (plus alternate zero : bool) (width : nat) (fill : N) (where_ : side)
  (h : list byte) (out : list byte) : Prop :=
  exists l z r : nat,
    out = utf8 (repeat fill l ++ head_text plus alternate ++ repeat 48 z ++ codes (hex_text ds h) ++ repeat fill r) /\
    (l + z + r = width - natural plus alternate h)%nat /\
    (zero = true -> l = 0%nat /\ r = 0%nat) /\
    (zero = false -> z = 0%nat /\
       match where_ with
       | OnLeft => r = 0%nat                     (* padding on the left *)
       | OnRight => l = 0%nat
       | OnBoth => (l <= r <= l + 1)%nat
       end).

(** The options: no alignment means padding on the left; no width means 0. *)
Definition f_side (f : formatter) : side :=
  match f_align f with Some ALeft => OnRight | Some ACenter => OnBoth | _ => OnLeft end.
Definition f_want (f : formatter) : nat := match f_width f with Some n => N.to_nat n | None => 0 end.
