(** What programs over the engine API should do.  An engine is a starting point
    and the bytes fed since: a chaining value and a byte count for the
    Merkle-Damgard functions, keys and a vector for SipHash, a pair for HMAC. *)
From Coq Require Import NArith List Bool.
From Verif Require Import Base SpecBase SpecMD SpecMac ModelEngine ModelSip ModelAll ModelStore SpecApi SpecStore SpecMore ModelProgram.
Import ListNotations.
Open Scope N_scope.

Record md_abs : Type := mk_md_abs { d_chain : list N; d_count : N; d_msg : bytes }.
Record sip_abs : Type := mk_sip_abs { s_keys : N * N; s_init : N * N * N * N; s_msg : bytes }.
Fixpoint abs_state (k : ekind) : Type :=
  match k with
  | KAlgo _ | KTag _ => md_abs
  | KSip => sip_abs
  | KHmac k => abs_state k * abs_state k
  end.

Section Spec.
  Context (c : config).
  Notation M := (2 ^ usize_bits c).
  (** An addition to a counter of type usize. *)
  Definition overflows (x : N) : bool := overflow_checks c && (M <=? x).

  (** *** Merkle-Damgard *)
  Definition md_seen (s : md_abs) : N := (d_count s + len (d_msg s)) mod M.
  Definition md_feed (s : md_abs) (d : bytes) : res md_abs :=
    if overflows (md_seen s + len d) then Panic POverflow
    else Ok (mk_md_abs (d_chain s) (d_count s) (d_msg s ++ d)).
  Definition md_close (a : algo) (s : md_abs) : res bytes :=
    let n := length (d_msg s) in
    if overflows (md_seen s + N.of_nat (md_padded (md_of a) n - n)%nat)
       || (overflow_checks c && (2 ^ 64 <=? 8 * md_seen s))
    then Panic POverflow
    else Ok (md_hash_from (md_of a) (d_chain s) ((8 * md_seen s) mod 2 ^ 64) (d_msg s)).
  Definition md_mid (a : algo) (s : md_abs) : bytes :=
    md_words (md_of a) (md_iterate (md_of a) (d_chain s) (d_msg s)).

  (** *** SipHash *)
  Definition sip_seen (s : sip_abs) : N := len (s_msg s) mod M.
  Definition sip_feed (s : sip_abs) (d : bytes) : res sip_abs :=
    if overflows (sip_seen s + len d) then Panic POverflow
    else Ok (mk_sip_abs (s_keys s) (s_init s) (s_msg s ++ d)).
  (** The vector after the complete 8-byte words. *)
  Definition sip_mid (s : sip_abs) : sip_state :=
    let '(v0, v1, v2, v3) := fold_left sip_word (le_words 8 (s_msg s)) (s_init s) in mk_sip v0 v1 v2 v3.

  (** *** All kinds *)
  Fixpoint abs_input (k : ekind) : abs_state k -> bytes -> res (abs_state k) :=
    match k return abs_state k -> bytes -> res (abs_state k) with
    | KAlgo _ | KTag _ => md_feed
    | KSip => sip_feed
    | KHmac k => fun s d => let* i := abs_input k (fst s) d in Ok (i, snd s)
    end.
  Fixpoint abs_count (k : ekind) : abs_state k -> N :=
    match k return abs_state k -> N with
    | KAlgo _ | KTag _ => md_seen
    | KSip => sip_seen
    | KHmac k => fun s => abs_count k (fst s)
    end.
  Fixpoint abs_finalize (k : ekind) : abs_state k -> res bytes :=
    match k return abs_state k -> res bytes with
    | KAlgo a => md_close a
    | KTag _ => md_close Sha256
    | KSip => fun s => Ok (le_octets 8 (sip_from (s_init s) (s_msg s)))
    | KHmac k => fun s =>
        let* h := abs_finalize k (fst s) in
        let* o := abs_input k (snd s) h in
        abs_finalize k o
    end.
  Fixpoint abs_midstate (k : ekind) : abs_state k -> mid_ty k :=
    match k return abs_state k -> mid_ty k with
    | KAlgo a => md_mid a
    | KTag _ => md_mid Sha256
    | KSip => sip_mid
    | KHmac k => fun s => (abs_midstate k (fst s), abs_midstate k (snd s))
    end.

  Definition abs_with_keys (k0 k1 : N) : sip_abs := mk_sip_abs (k0, k1) (sip_init k0 k1) [].
  (** RFC 2104 over any engine. *)
  Section Hmac.
    Context (S : Type) (B : nat) (new : res S) (input : S -> bytes -> res S) (finalize : S -> res bytes).
    Definition abs_hmac_key (key : bytes) : res bytes :=
      let* k := if Nat.ltb B (length key)
                then let* s := new in let* s := input s key in finalize s
                else Ok key in
      Ok (k ++ repeat x00 (B - length k)%nat).
    Definition abs_hmac_new (key : bytes) : res (S * S) :=
      let* k := abs_hmac_key key in
      let* i := let* s := new in input s (xor_pad x36 k) in
      let* o := let* s := new in input s (xor_pad x5c k) in
      Ok (i, o).
  End Hmac.
  Fixpoint abs_new (k : ekind) : res (abs_state k) :=
    match k return res (abs_state k) with
    | KAlgo a => Ok (mk_md_abs (md_iv (md_of a)) 0 [])
    | KTag tag =>
        let h := hash_of Sha256 tag in
        Ok (mk_md_abs (md_iterate (md_of Sha256) (md_iv (md_of Sha256)) (h ++ h)) 64 [])
    | KSip => Ok (abs_with_keys 0 0)
    | KHmac k => abs_hmac_new (abs_state k) (kind_block k) (abs_new k) (abs_input k) (abs_finalize k) []
    end.
  Definition abs_hmac (k : ekind) (key : bytes) : res (abs_state (KHmac k)) :=
    abs_hmac_new (abs_state k) (kind_block k) (abs_new k) (abs_input k) (abs_finalize k) key.

  (** [from_midstate] refuses a length that is not a number of blocks, and every
      midstate of the SHA-512 family. *)
  Definition md_refuses (a : algo) (n : N) : option panic_kind :=
    if n mod N.of_nat (block_len a) =? 0 then
      match a with Sha384 | Sha512 | Sha512_256 => Some PExpect | _ => None end
    else Some PAssert.
  Fixpoint refuses (k : ekind) (n : N) : option panic_kind :=
    match k with
    | KAlgo a => md_refuses a n
    | KTag _ => md_refuses Sha256 n
    | KSip => None
    | KHmac k => refuses k n
    end.
  (** The bytes of a midstate are read as big-endian words; SipHash forgets the
      length and the keys. *)
  Fixpoint abs_mid_start (k : ekind) : mid_ty k -> N -> abs_state k :=
    match k return mid_ty k -> N -> abs_state k with
    | KAlgo _ | KTag _ => fun m n => mk_md_abs (be_words 4 m) n []
    | KSip => fun m _ => mk_sip_abs (0, 0) (v0 m, v1 m, v2 m, v3 m) []
    | KHmac k => fun m n => (abs_mid_start k (fst m) n, abs_mid_start k (snd m) n)
    end.
  Definition abs_from_midstate (k : ekind) (m : mid_ty k) (n : N) : res (abs_state k) :=
    match refuses k n with Some p => Panic p | None => Ok (abs_mid_start k m n) end.

  (** Hashing in one call, or the pieces one after the other *)
  Fixpoint abs_inputs (k : ekind) (s : abs_state k) (chunks : list bytes) : res (abs_state k) :=
    match chunks with
    | [] => Ok s
    | d :: ds => let* s := abs_input k s d in abs_inputs k s ds
    end.
  Definition abs_hash_chunks (k : ekind) (chunks : list bytes) : res bytes :=
    let* s := abs_new k in
    let* s := abs_inputs k s chunks in
    abs_finalize k s.

  Definition spec_api : api :=
    {| a_state := abs_state;
       a_new := abs_new;
       a_hmac := abs_hmac;
       a_with_keys := abs_with_keys;
       a_from_midstate := abs_from_midstate;
       a_input := abs_input;
       a_count := abs_count;
       a_midstate := fun k s => Ok (abs_midstate k s);
       a_keys := s_keys;
       a_finalize := abs_finalize;
       a_to_u64 := fun s => sip_from (s_init s) (s_msg s);
       a_hash := fun k d => abs_hash_chunks k [d];
       a_hash_chunks := abs_hash_chunks |}.

  (** Arguments that exist in a program. *)
  Fixpoint mid_real (k : ekind) : mid_ty k -> Prop :=
    match k return mid_ty k -> Prop with
    | KAlgo a => fun m => length m = mid_len a
    | KTag _ => fun m => length m = 32%nat
    | KSip => sip_mid_ok
    | KHmac k => fun m => mid_real k (fst m) /\ mid_real k (snd m)
    end.
  Definition api_op_real (op : api_op) : Prop :=
    match op with
    | PNew k => kind_real c k
    | PHmac k key => kind_real c k /\ slice c key
    | PWithKeys k0 k1 => k0 < 2 ^ 64 /\ k1 < 2 ^ 64
    | PFromMidstate k m n => mid_real k m /\ n < M
    | PInput _ d => slice c d
    | PHash k d => kind_real c k /\ slice c d
    | PHashChunks k chunks => kind_real c k /\ Forall (slice c) chunks
    | PClone _ | PCount _ | PMidstate _ | PKeys _ | PFinalize _ | PToU64 _ => True
    end.
End Spec.

(** Why a program may panic: a counter overflows in a build with overflow
    checks, or [from_midstate] refuses. *)
Definition refused (ops : list api_op) (p : panic_kind) : Prop :=
  exists k m n, In (PFromMidstate k m n) ops /\ refuses k n = Some p.

(** The results a program can look at. *)
Definition informative (o : api_out) : bool := match o with RNone | RRejected => false | _ => true end.
Definition visible (b : list api_out * option panic_kind) : list api_out * option panic_kind :=
  (filter informative (fst b), snd b).
