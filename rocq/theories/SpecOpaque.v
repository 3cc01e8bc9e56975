(** Who can make and change an engine (C89), written from the documentation. *)
From Coq Require Import Strings.String.
From Verif Require Import Base BuildBase ApiBase GenApi.
Open Scope list_scope. Open Scope string_scope.

(** A function as a user names it: type, trait, function *)
Definition fn_key : Type := string * string * string.
Definition key (f : fn_decl) : fn_key := (fn_owner f, fn_trait f, fn_name f).
Definition offered (x : fn_key) (P : fn_decl -> Prop) : Prop := exists f, In f g_fn_table /\ fn_vis f = Public /\ key f = x /\ P f.

Definition plain_engines : list string := ["sha1"; "sha256"; "sha384"; "sha512"; "sha512_256"; "ripemd160"; "siphash24"].
Definition engine_types : list string := map (fun f => f ++ "::Engine") (plain_engines ++ ["sha256t"; "hmac"])%list.
Definition hash_types : list string := map (fun f => f ++ "::Hash") (plain_engines ++ ["sha256t"; "hmac"])%list.
(** Structs with public fields *)
Definition open_structs : list string := ["sha256::Midstate"; "hmac::Midstate"; "hmac::MidState"; "lib::FromSliceError"].

(** The functions that change an engine: input, and the two of the Write traits *)
Definition write_to (e t : string) : list fn_key := [(e, t, "write"); (e, t, "flush")].
Definition changers (e : string) : list fn_key :=
  (e, "HashEngine", "input") ::
  (if existsb (String.eqb e) ["sha384::Engine"; "sha512_256::Engine"] then [] else write_to e "bitcoin_io::Write") ++
  (if e =? "hmac::Engine" then write_to e "std::io::Write" else []).
(** The functions that return one *)
Definition makers (e : string) : list fn_key :=
  [(e, "Default", "default"); (e, "HashEngine", "from_midstate")] ++
  flat_map (fun f => if e =? f ++ "::Engine" then [((f ++ "::Hash")%string, "", "engine")] else []) (plain_engines ++ ["sha256t"])%list ++
  (if e =? "sha256::Engine" then [(e, "", "from_midstate")] else []) ++
  (if e =? "siphash24::Engine" then [(e, "", "new"); (e, "", "with_keys")] else []) ++
  (if e =? "sha256t::Engine" then [("", "Tag", "engine"); (e, "HashEngine", "new")] else []) ++
  (if e =? "hmac::Engine" then [(e, "", "new")] else []).
