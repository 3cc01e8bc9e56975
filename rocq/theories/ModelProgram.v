(** Programs over the whole engine API: any number of engines of any type, made
    by [new], [hmac::Engine::new], [with_keys], [from_midstate] or [clone], fed,
    observed and finalized in any order.  The variables and moves are those of
    the language; the meaning of the methods is a parameter, here the code. *)
From Verif Require Import Base SpecMD ModelEngine ModelSip ModelHmac ModelAll ModelStore.

(** [type Midstate] of an engine: arrays of bytes, the state of SipHash, a pair
    for HMAC.  src/sha1.rs:36, src/sha256.rs:46, src/sha384.rs:27,
    src/sha512.rs:68, src/sha512_256.rs:37, src/ripemd160.rs:36,
    src/siphash24.rs:125, src/sha256t.rs:20, src/hmac.rs:244 *)
Fixpoint mid_ty (k : ekind) : Type :=
  match k with
  | KAlgo _ | KTag _ => bytes
  | KSip => sip_state
  | KHmac k => mid_ty k * mid_ty k
  end.
Fixpoint mid_out (c : config) (k : ekind) : he_mid (kind_engine c k) -> mid_ty k :=
  match k return he_mid (kind_engine c k) -> mid_ty k with
  | KAlgo a =>
      match a return he_mid (algo_engine c a) -> bytes with
      | Sha1 => fun m => m | Sha256 => fun m => m | Sha384 => fun m => m
      | Sha512 => fun m => m | Sha512_256 => fun m => m | Ripemd160 => fun m => m
      end
  | KSip => fun m => m
  | KTag _ => fun m => m
  | KHmac k => fun m => (mid_out c k (fst m), mid_out c k (snd m))
  end.
Fixpoint mid_in (c : config) (k : ekind) : mid_ty k -> he_mid (kind_engine c k) :=
  match k return mid_ty k -> he_mid (kind_engine c k) with
  | KAlgo a =>
      match a return bytes -> he_mid (algo_engine c a) with
      | Sha1 => fun m => m | Sha256 => fun m => m | Sha384 => fun m => m
      | Sha512 => fun m => m | Sha512_256 => fun m => m | Ripemd160 => fun m => m
      end
  | KSip => fun m => m
  | KTag _ => fun m => m
  | KHmac k => fun m => (mid_in c k (fst m), mid_in c k (snd m))
  end.

(** The methods of the engines, src/lib.rs:133-198 (trait HashEngine),
    src/hmac.rs:212-239 (new), src/siphash24.rs:81-102 (with_keys, keys) and
    223-237 (from_engine_to_u64). *)
Record api : Type := mk_api {
  a_state : ekind -> Type;
  a_new : forall k, res (a_state k);
  a_hmac : forall k, bytes -> res (a_state (KHmac k));
  a_with_keys : N -> N -> a_state KSip;
  a_from_midstate : forall k, mid_ty k -> N -> res (a_state k);
  a_input : forall k, a_state k -> bytes -> res (a_state k);
  a_count : forall k, a_state k -> N;
  a_midstate : forall k, a_state k -> res (mid_ty k);
  a_keys : a_state KSip -> N * N;
  a_finalize : forall k, a_state k -> res bytes;
  a_to_u64 : a_state KSip -> N;
  a_hash : ekind -> bytes -> res bytes;
  a_hash_chunks : ekind -> list bytes -> res bytes
}.

Definition code_api (c : config) : api :=
  {| a_state := fun k => he_state (kind_engine c k);
     a_new := fun k => he_default (kind_engine c k);
     a_hmac := fun k key => hmac_new c (kind_engine c k) key;
     a_with_keys := with_keys;
     a_from_midstate := fun k m n => he_from_midstate (kind_engine c k) (mid_in c k m) n;
     a_input := fun k => he_input (kind_engine c k);
     a_count := fun k => he_n_bytes_hashed (kind_engine c k);
     a_midstate := fun k s => let* m := he_midstate (kind_engine c k) s in Ok (mid_out c k m);
     a_keys := sip_keys;
     a_finalize := fun k => he_finalize (kind_engine c k);
     a_to_u64 := from_engine_to_u64;
     a_hash := fun k => he_hash (kind_engine c k);
     a_hash_chunks := fun k => he_hash_byte_chunks (kind_engine c k) |}.

Inductive api_op : Type :=
| PNew (k : ekind)
| PHmac (k : ekind) (key : bytes)
| PWithKeys (k0 k1 : N)
| PFromMidstate (k : ekind) (m : mid_ty k) (n : N)
| PClone (i : nat)
| PInput (i : nat) (d : bytes)
| PCount (i : nat)
| PMidstate (i : nat)
| PKeys (i : nat)
| PFinalize (i : nat)
| PToU64 (i : nat)
| PHash (k : ekind) (d : bytes)                  (* src/lib.rs:171-175 *)
| PHashChunks (k : ekind) (chunks : list bytes). (* hash_byte_chunks, src/lib.rs:178-188 *)

Inductive api_out : Type :=
| RNone
| RCount (n : N)
| RMidstate (k : ekind) (m : mid_ty k)
| RKeys (k0 k1 : N)
| RDigest (d : bytes)
| RU64 (x : N)
| RRejected.          (* no such variable, moved, or no such method: does not compile *)

Section Api.
  Context (A : api).
  Definition avar : Type := option {k : ekind & a_state A k}.

  Definition api_step (st : list avar) (op : api_op) : res (list avar * api_out) :=
    match op with
    | PNew k => let* s := a_new A k in Ok (st ++ [Some (existT _ k s)], RNone)
    | PHmac k key => let* s := a_hmac A k key in Ok (st ++ [Some (existT _ (KHmac k) s)], RNone)
    | PWithKeys k0 k1 => Ok (st ++ [Some (existT _ KSip (a_with_keys A k0 k1))], RNone)
    | PFromMidstate k m n => let* s := a_from_midstate A k m n in Ok (st ++ [Some (existT _ k s)], RNone)
    | PClone i => match get st i with None => Ok (st, RRejected) | Some e => Ok (st ++ [Some e], RNone) end
    | PInput i d =>
        match get st i with
        | None => Ok (st, RRejected)
        | Some (existT _ k s) =>
            let* s := a_input A k s d in Ok (set_nth i (Some (existT _ k s)) st, RNone)
        end
    | PCount i =>
        match get st i with
        | None => Ok (st, RRejected)
        | Some (existT _ k s) => Ok (st, RCount (a_count A k s))
        end
    | PMidstate i =>
        match get st i with
        | None => Ok (st, RRejected)
        | Some (existT _ k s) => let* m := a_midstate A k s in Ok (st, RMidstate k m)
        end
    | PKeys i =>
        match get st i with
        | Some (existT _ KSip s) => let (k0, k1) := a_keys A s in Ok (st, RKeys k0 k1)
        | _ => Ok (st, RRejected)
        end
    | PFinalize i =>
        match get st i with
        | None => Ok (st, RRejected)
        | Some (existT _ k s) => let* d := a_finalize A k s in Ok (set_nth i None st, RDigest d)
        end
    | PToU64 i =>
        match get st i with
        | Some (existT _ KSip s) => Ok (set_nth i None st, RU64 (a_to_u64 A s))
        | _ => Ok (st, RRejected)
        end
    | PHash k d => let* d := a_hash A k d in Ok (st, RDigest d)
    | PHashChunks k chunks => let* d := a_hash_chunks A k chunks in Ok (st, RDigest d)
    end.

  (** What is seen of a program: the results up to the end or the first panic. *)
  Fixpoint api_run (st : list avar) (ops : list api_op) : list api_out * option panic_kind :=
    match ops with
    | [] => ([], None)
    | op :: ops =>
        match api_step st op with
        | Panic p => ([], Some p)
        | Ok (st, o) => let (os, p) := api_run st ops in (o :: os, p)
        end
    end.
  Definition behaviour (ops : list api_op) : list api_out * option panic_kind := api_run [] ops.

  (** A program that chooses its next operation from the results seen so far,
      for [n] operations. *)
  Fixpoint adaptive (n : nat) (next : list api_out -> api_op) (seen : list api_out) (st : list avar)
      : list api_out * option panic_kind :=
    match n with
    | O => (seen, None)
    | S n =>
        match api_step st (next seen) with
        | Panic p => (seen, Some p)
        | Ok (st, o) => adaptive n next (seen ++ [o]) st
        end
    end.
End Api.
