(** Which types have which traits (C88), written from the documentation of the
    crate and not from its impls. *)
From Coq Require Import Strings.String.
From Verif Require Import Base BuildBase TraitBase GenTrait.
Open Scope list_scope. Open Scope string_scope.

Definition g_program : list clause := program g_struct_table g_impl_table.
Definition has (b : build) (U : goal -> Prop) (t : ty) (r : tref) : Prop := sat b g_program U (t, r).
Definition g_implied (g : goal) : list goal := implied g_trait_table 4 g.

(** What is known of other crates: facts about their own types and the
    associated types of these; the compiler has checked what their impls imply *)
Fixpoint foreign (t : ty) : bool := match t with TUser _ => true | TProj t _ => foreign t | _ => false end.
Definition world (U : goal -> Prop) : Prop :=
  (forall g, U g -> foreign (fst g) = true) /\ (forall g h, U g -> In h (g_implied g) -> U h).

(** An impl is accepted: for all parameters that meet its bounds, everything
    asked of it holds *)
Definition accepted (b : build) (U : goal -> Prop) (bounds goals : list goal) : Prop :=
  forall s, (forall p, In p bounds -> sat b g_program U (gsubst s p)) -> forall g, In g goals -> sat b g_program U (gsubst s g).
Definition compiled (b : build) (l : list cfg_pred) : Prop := forallb (holds b) l = true.

(** ** Engines *)
Definition engine_name (f : string) : Prop := In f ["sha1"; "sha256"; "sha384"; "sha512"; "sha512_256"; "ripemd160"; "siphash24"].
Definition engine (f : string) : ty := TCon (f ++ "::Engine") [].
Definition tagged (t : ty) : ty := TCon "sha256t::Engine" [t].
Definition hmac (t : ty) : ty := TCon "hmac::Engine" [t].
Inductive is_engine (U : goal -> Prop) : ty -> Prop :=
| engine_plain f : engine_name f -> is_engine U (engine f)
| engine_tagged t : U (t, t0 "Tag") -> is_engine U (tagged t)
| engine_hmac t : is_engine U t -> is_engine U (hmac t)
| engine_other t : U (t, t0 "HashEngine") -> is_engine U t.

Definition auto (r : tref) : Prop := In r (map t0 auto_traits).
Definition on (b : build) (f : string) : Prop := b_feature b f = true.
Definition writes (f : string) : Prop := f <> "sha384" /\ f <> "sha512_256".
(** of an engine without parameters *)
Definition engine_has (b : build) (f : string) (r : tref) : Prop :=
  auto r \/ In r (map t0 ["Clone"; "Default"; "HashEngine"]) \/
  (writes f /\ on b "bitcoin-io" /\ r = t0 "bitcoin_io::Write") \/ (f = "siphash24" /\ r = t0 "Debug").

(** ** Hashes *)
Definition bytes_ty (n : N) : ty := array u8 (TNum n).
Definition text_and_order : list tref :=
  map t0 ["Copy"; "Clone"; "PartialEq"; "Eq"; "PartialOrd"; "Ord"; "Hash"; "FromStr"; "LowerHex"; "UpperHex"; "Display"; "Debug"] ++ [("AsRef", [tslice u8])].
Definition optional (b : build) (r : tref) : Prop :=
  (on b "serde" /\ In r (map t0 ["Serialize"; "Deserialize"; "SerdeHash"])) \/ (on b "schemars" /\ r = t0 "JsonSchema").
Definition slice_index (b : build) (U : goal -> Prop) (r : tref) : Prop :=
  exists i, r = ("Index", [i]) /\ has b U i ("SliceIndex", [tslice u8]).
(** a fixed-size hash of [n] bytes, auto traits left out *)
Definition hash_has (b : build) (U : goal -> Prop) (n : N) (r : tref) : Prop :=
  In r text_and_order \/ r = ("AsRef", [bytes_ty n]) \/ slice_index b U r \/ optional b r.
Definition hash_size (f : string) : option N :=
  if f =? "sha1" then Some 20 else if f =? "sha256" then Some 32 else if f =? "sha384" then Some 48
  else if f =? "sha512" then Some 64 else if f =? "sha512_256" then Some 32 else if f =? "ripemd160" then Some 20
  else if f =? "siphash24" then Some 8 else None.
Definition hash (f : string) : ty := TCon (f ++ "::Hash") [].
(** [hmac::Hash<N>]: five index types only, no reference to the array *)
Definition hmac_index : list ty :=
  [TCon "usize" []; TCon "Range" [TCon "usize" []]; TCon "RangeFrom" [TCon "usize" []]; TCon "RangeTo" [TCon "usize" []]; TCon "RangeFull" []].
Definition hmac_hash_has (b : build) (r : tref) : Prop :=
  In r text_and_order \/ (exists i, In i hmac_index /\ r = ("Index", [i])) \/ optional b r.
(** ** The other types *)
Definition midstate_has (b : build) (U : goal -> Prop) (r : tref) : Prop :=
  In r text_and_order \/ In r [t0 "Default"; t0 "FromHex"] \/ slice_index b U r \/
  (on b "serde" /\ In r (map t0 ["Serialize"; "Deserialize"; "SerdeHash"])).
Definition error_has (b : build) (r : tref) : Prop :=
  In r (map t0 ["Debug"; "Clone"; "PartialEq"; "Eq"; "Display"]) \/ (on b "std" /\ r = t0 "Error").
(** an engine with a parameter *)
Definition tagged_has (b : build) (U : goal -> Prop) (t : ty) (r : tref) : Prop :=
  ((auto r \/ r = t0 "Clone") /\ has b U t r) \/
  (U (t, t0 "Tag") /\ (In r [t0 "Default"; t0 "HashEngine"] \/ (on b "bitcoin-io" /\ r = t0 "bitcoin_io::Write"))).
Definition hmac_has (b : build) (U : goal -> Prop) (t : ty) (r : tref) : Prop :=
  (auto r /\ has b U t r) \/
  (is_engine U t /\ (In r (map t0 ["Clone"; "Default"; "HashEngine"]) \/ (on b "bitcoin-io" /\ r = t0 "bitcoin_io::Write") \/
                     (on b "bitcoin-io" /\ on b "std" /\ r = t0 "std::io::Write"))).
Definition tagged_hash_has (b : build) (U : goal -> Prop) (t : ty) (r : tref) : Prop :=
  (auto r /\ has b U t r) \/ (U (t, t0 "Tag") /\ (hash_has b U 32 r \/ r = t0 "Default")).
(** ** Associated types *)
(** [t::a] is [v]: by an impl compiled in the build whose bounds hold; a value
    that is itself an associated type is looked up again *)
Inductive value (b : build) (U : goal -> Prop) : ty -> string -> ty -> Prop :=
| value_here i s a w : In i g_impl_table -> compiled b (im_cfg i) -> (forall p, In p (im_bounds i) -> sat b g_program U (gsubst s p)) ->
    In (a, w) (im_assoc i) -> (forall t a, w <> TProj t a) -> value b U (tsubst s (im_for i)) a (tsubst s w)
| value_next i s a t a' v : In i g_impl_table -> compiled b (im_cfg i) -> (forall p, In p (im_bounds i) -> sat b g_program U (gsubst s p)) ->
    In (a, TProj t a') (im_assoc i) -> value b U (tsubst s t) a' v -> value b U (tsubst s (im_for i)) a v.
(** the size of the digest of an engine; HMAC has that of the engine it is over *)
Inductive digest_size (U : goal -> Prop) : ty -> N -> Prop :=
| size_plain f n : hash_size f = Some n -> digest_size U (engine f) n
| size_tagged t : U (t, t0 "Tag") -> digest_size U (tagged t) 32
| size_hmac t n : digest_size U t n -> digest_size U (hmac t) n.
Definition state_ty (f : string) : option ty :=
  if f =? "sha256" then Some (TCon "sha256::Midstate" []) else if f =? "siphash24" then Some (TCon "siphash24::State" [])
  else if (f =? "sha1") || (f =? "ripemd160") then Some (bytes_ty 20)
  else if (f =? "sha384") || (f =? "sha512") || (f =? "sha512_256") then Some (bytes_ty 64) else None.
Inductive midstate_type (U : goal -> Prop) : ty -> ty -> Prop :=
| state_plain f v : state_ty f = Some v -> midstate_type U (engine f) v
| state_tagged t : U (t, t0 "Tag") -> midstate_type U (tagged t) (TCon "sha256::Midstate" [])
| state_hmac t : is_engine U t -> midstate_type U (hmac t) (TCon "hmac::Midstate" [t]).

(** ** What a trait of the crate asks of a type that implements it *)
Definition tag_requires (t : ty) : list goal := [(t, t0 "Clone")].
Definition digest_traits : list tref := map t0 ["Copy"; "Clone"; "PartialEq"; "Eq"; "PartialOrd"; "Ord"; "Hash"] ++ [("AsRef", [tslice u8])].
Definition engine_requires (t : ty) : list goal :=
  [(t, t0 "Clone"); (t, t0 "Default")] ++ map (fun r => (TProj t "Digest", r)) digest_traits.
Definition serde_requires (t : ty) : list goal :=
  [(t, t0 "FromStr"); (t, t0 "Display"); (t, ("Index", [TCon "usize" []])); (t, ("Index", [TCon "RangeFull" []])); (TProj t "Err", t0 "Display")].

(** ** An example: another crate has a tag that is not [Send] *)
Definition tag_world (g : goal) : Prop := In g [(TUser 0, t0 "Tag"); (TUser 0, t0 "Clone")].
Definition plain_build : build := mk_build (fun _ => false) "x86_64" (fun _ => false).
