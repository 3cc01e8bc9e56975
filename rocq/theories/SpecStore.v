(** What programs that hold many engines should do: every variable has a hash
    function and a message of its own. *)
From Verif Require Import Base SpecBase SpecMD SpecMac ModelEngine ModelSip ModelHmac ModelAll ModelTypes ModelStore SpecApi.

(** Per kind: block and digest length, the function, and the number of bytes
    the engine has consumed before the first byte of the message. *)
Fixpoint kind_block (k : ekind) : nat :=
  match k with
  | KAlgo a => block_len a
  | KSip => 32
  | KTag _ => 64
  | KHmac k => kind_block k
  end.
Fixpoint kind_digest (k : ekind) : nat :=
  match k with
  | KAlgo a => digest_len a
  | KSip => 8
  | KTag _ => 32
  | KHmac k => kind_digest k
  end.
Fixpoint kind_hash (k : ekind) : bytes -> bytes :=
  match k with
  | KAlgo a => hash_of a
  | KSip => fun m => le_octets 8 (siphash24 0 0 m)
  | KTag tag => tagged_hash tag
  | KHmac k => HMAC (kind_hash k) (kind_block k) []
  end.
Fixpoint kind_prefix (k : ekind) : nat :=
  match k with
  | KAlgo _ | KSip => 0
  | KTag _ => 64
  | KHmac k => kind_prefix k + kind_block k
  end.
(** The message lengths for which the standard digest is returned. *)
Fixpoint kind_fits (c : config) (k : ekind) (n : nat) : Prop :=
  match k with
  | KAlgo a => fits c a n
  | KSip => N.of_nat n < 2 ^ usize_bits c
  | KTag tag => len tag < 2 ^ (usize_bits c - 1) /\ 8 * len tag < 2 ^ 64 /\ fits c Sha256 (64 + n)
  | KHmac k => kind_fits c k (kind_block k + n) /\ kind_fits c k (kind_block k + kind_digest k)
  end.

(** How a variable came about. *)
Inductive origin : Set :=
| FromNew (k : ekind)
| FromKey (k : ekind) (key : bytes)
| FromKeys (k0 k1 : N).
Definition origin_kind (o : origin) : ekind :=
  match o with FromNew k => k | FromKey k _ => KHmac k | FromKeys _ _ => KSip end.
Definition start (c : config) (o : origin) : res (he_state (kind_engine c (origin_kind o))) :=
  match o return res (he_state (kind_engine c (origin_kind o))) with
  | FromNew k => he_default (kind_engine c k)
  | FromKey k key => hmac_new c (kind_engine c k) key
  | FromKeys k0 k1 => Ok (with_keys k0 k1)
  end.
Definition origin_ok (o : origin) : Prop :=
  match o with FromKeys k0 k1 => k0 < 2 ^ 64 /\ k1 < 2 ^ 64 | _ => True end.
Definition origin_ty (o : origin) : hash_ty :=
  match o with FromNew k => kind_ty k | FromKey k _ => kind_ty (KHmac k) | FromKeys _ _ => TSiphash24 end.
Definition origin_hash (o : origin) : bytes -> bytes :=
  match o with
  | FromNew k => kind_hash k
  | FromKey k key => HMAC (kind_hash k) (kind_block k) key
  | FromKeys k0 k1 => fun m => le_octets 8 (siphash24 k0 k1 m)
  end.
Definition origin_prefix (o : origin) : nat :=
  match o with
  | FromNew k => kind_prefix k
  | FromKey k _ => kind_prefix k + kind_block k
  | FromKeys _ _ => 0
  end.
Definition origin_fits (c : config) (o : origin) (n : nat) : Prop :=
  match o with
  | FromNew k => kind_fits c k n
  | FromKey k key => kind_fits c (KHmac k) n /\
                     ((kind_block k < length key)%nat -> kind_fits c k (length key))
  | FromKeys _ _ => N.of_nat n < 2 ^ usize_bits c
  end.

(** A variable: its origin and all the bytes fed to it, a clone starting with
    those of the original. *)
Definition var : Type := option (origin * bytes).

Inductive expected_output : Set :=
| XNone
| XCount (o : origin) (m : bytes)
| XDigest (o : origin) (m : bytes)
| XRejected.

Definition spec_step (st : list var) (op : store_op) : list var * expected_output :=
  match op with
  | New k => (st ++ [Some (FromNew k, [])], XNone)
  | NewHmac k key => (st ++ [Some (FromKey k key, [])], XNone)
  | NewSip k0 k1 => (st ++ [Some (FromKeys k0 k1, [])], XNone)
  | Clone i => match get st i with None => (st, XRejected) | Some v => (st ++ [Some v], XNone) end
  | Input i d =>
      match get st i with
      | None => (st, XRejected)
      | Some (o, m) => (set_nth i (Some (o, m ++ d)) st, XNone)
      end
  | Count i => match get st i with None => (st, XRejected) | Some (o, m) => (st, XCount o m) end
  | Finalize i =>
      match get st i with
      | None => (st, XRejected)
      | Some (o, m) => (set_nth i None st, XDigest o m)
      end
  end.
Fixpoint spec_run (st : list var) (ops : list store_op) : list var * list expected_output :=
  match ops with
  | [] => (st, [])
  | op :: ops =>
      let (st, x) := spec_step st op in
      let (st, xs) := spec_run st ops in (st, x :: xs)
  end.

(** What is seen is what is expected: the count is that of the bytes consumed,
    modulo the size of the counter; the digest has the length of its type, and is
    the standard one whenever the length of the message allows. *)
Definition meets (c : config) (o : output) (x : expected_output) : Prop :=
  match o, x with
  | ONone, XNone | ORejected, XRejected => True
  | OCount n, XCount o m => n = (N.of_nat (origin_prefix o) + len m) mod 2 ^ usize_bits c
  | ODigest d, XDigest o m =>
      len d = ty_len (origin_ty o) /\ (origin_fits c o (length m) -> d = origin_hash o m)
  | _, _ => False
  end.

(** Arguments that exist in the program. *)
Definition store_op_ok (c : config) (op : store_op) : Prop :=
  match op with
  | NewHmac _ key => slice c key
  | NewSip k0 k1 => k0 < 2 ^ 64 /\ k1 < 2 ^ 64
  | Input _ d => slice c d
  | _ => True
  end.

(** The lengths stay in range at every point of the program. *)
Definition vars_fit (c : config) (st : list var) : Prop :=
  Forall (fun v => match v with Some (o, m) => origin_fits c o (length m) | None => True end) st.
Fixpoint run_fits (c : config) (st : list var) (ops : list store_op) : Prop :=
  vars_fit c st /\
  match ops with [] => True | op :: ops => run_fits c (fst (spec_step st op)) ops end.

(** The variable an operation changes. *)
Definition target_of (op : store_op) : option nat :=
  match op with Input i _ | Finalize i => Some i | _ => None end.
