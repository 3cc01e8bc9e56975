(** Programs that hold many engines: creating, cloning, feeding, reading and
    finalizing them in any order.  Engines are Rust values; [Clone] is derived
    (src/sha1.rs:17, src/sha256.rs:24, src/sha512.rs:17, src/sha384.rs:15,
    src/sha512_256.rs:25, src/ripemd160.rs:17, src/siphash24.rs:55 and 68,
    src/hmac.rs:194, src/sha256t.rs:11): a copy of every field. *)
From Verif Require Import Base SpecMD ModelEngine ModelSha256 ModelSip ModelHmac ModelAll ModelTypes.

(** The engine types of the crate; HMAC may be over any of them. *)
Inductive ekind : Set :=
| KAlgo (a : algo)
| KSip
| KTag (tag : bytes)     (* sha256t::Engine<T>, T the tag named by these bytes *)
| KHmac (k : ekind).

Fixpoint kind_engine (c : config) (k : ekind) : HashEngine :=
  match k with
  | KAlgo a => algo_engine c a
  | KSip => siphash24_engine c
  | KTag tag => sha256t_engine c (tag_engine c tag)
  | KHmac k => hmac_engine c (kind_engine c k)
  end.

(** The hash type of an engine, whose length is that of [type Digest]:
    src/sha1.rs:35, src/sha256.rs:45, src/sha384.rs:26, src/sha512.rs:67,
    src/sha512_256.rs:36, src/ripemd160.rs:35, src/siphash24.rs:124,
    src/sha256t.rs:19, src/hmac.rs:243 *)
Fixpoint kind_ty (k : ekind) : hash_ty :=
  match k with
  | KAlgo Sha1 => TSha1
  | KAlgo Sha256 => TSha256
  | KAlgo Sha384 => TSha384
  | KAlgo Sha512 => TSha512
  | KAlgo Sha512_256 => TSha512_256
  | KAlgo Ripemd160 => TRipemd160
  | KSip => TSiphash24
  | KTag _ => TSha256t
  | KHmac k => THmac (ty_len (kind_ty k))
  end.

(** A variable of the program holds an engine, or was moved out by finalize. *)
Definition slot (c : config) : Type := option {k : ekind & he_state (kind_engine c k)}.

Inductive store_op : Set :=
| New (k : ekind)                    (* E::new(), E::default() *)
| NewHmac (k : ekind) (key : bytes)  (* hmac::Engine::<E>::new(key) *)
| NewSip (k0 k1 : N)                 (* siphash24::Engine::with_keys *)
| Clone (i : nat)
| Input (i : nat) (d : bytes)
| Count (i : nat)                    (* n_bytes_hashed *)
| Finalize (i : nat).

Inductive output : Set :=
| ONone
| OCount (n : N)
| ODigest (d : bytes)
| ORejected.          (* no such variable, or moved: does not compile *)

Fixpoint set_nth {A} (n : nat) (x : A) (l : list A) : list A :=
  match n, l with
  | _, [] => []
  | O, _ :: l => x :: l
  | S n, y :: l => y :: set_nth n x l
  end.

Definition get {A} (st : list (option A)) (i : nat) : option A :=
  match nth_error st i with Some (Some x) => Some x | _ => None end.

(** New variables are added at the end. *)
Definition step (c : config) (st : list (slot c)) (op : store_op) : res (list (slot c) * output) :=
  match op with
  | New k =>
      let* s := he_default (kind_engine c k) in
      Ok (st ++ [Some (existT _ k s)], ONone)
  | NewHmac k key =>
      let* s := hmac_new c (kind_engine c k) key in
      Ok (st ++ [Some (existT (fun k => he_state (kind_engine c k)) (KHmac k) s)], ONone)
  | NewSip k0 k1 =>
      Ok (st ++ [Some (existT (fun k => he_state (kind_engine c k)) KSip (with_keys k0 k1))], ONone)
  | Clone i =>
      match get st i with
      | None => Ok (st, ORejected)
      | Some e => Ok (st ++ [Some e], ONone)
      end
  | Input i d =>
      match get st i with
      | None => Ok (st, ORejected)
      | Some (existT _ k s) =>
          let* s := he_input (kind_engine c k) s d in
          Ok (set_nth i (Some (existT _ k s)) st, ONone)
      end
  | Count i =>
      match get st i with
      | None => Ok (st, ORejected)
      | Some (existT _ k s) => Ok (st, OCount (he_n_bytes_hashed (kind_engine c k) s))
      end
  | Finalize i =>
      match get st i with
      | None => Ok (st, ORejected)
      | Some (existT _ k s) =>
          let* d := he_finalize (kind_engine c k) s in
          Ok (set_nth i None st, ODigest d)
      end
  end.

Fixpoint run (c : config) (st : list (slot c)) (ops : list store_op) : res (list (slot c) * list output) :=
  match ops with
  | [] => Ok (st, [])
  | op :: ops =>
      let* (st, o) := step c st op in
      let* (st, os) := run c st ops in
      Ok (st, o :: os)
  end.
