(** What every engine returns, in every build and for messages of every length:
    a digest, or the panic of an overflow check. *)
From Coq Require Import NArith List Bool.
From Verif Require Import Base SpecBase SpecMD SpecMac ModelEngine ModelAll ModelTypes ModelStore SpecApi SpecStore SpecMore.
Import ListNotations.
Open Scope N_scope.

(** [None] stands for the panic of an overflow check. *)
Definition obind {A B : Type} (x : option A) (f : A -> option B) : option B :=
  match x with Some a => f a | None => None end.
Definition result_of (x : option bytes) : res bytes :=
  match x with Some d => Ok d | None => Panic POverflow end.

(** A Merkle-Damgard hash that starts at chaining value [h] after [n] bytes, and
    keeps the count of bytes in a usize and the count of bits in a u64.  With
    overflow checks the counts have to be right, without they wrap. *)
Definition md_result (c : config) (a : algo) (h : list N) (n : N) (m : bytes) : option bytes :=
  let bytes := n + len m in
  let padded := n + N.of_nat (md_padded (md_of a) (length m)) in
  if overflow_checks c
  then if (padded <? 2 ^ usize_bits c) && (8 * bytes <? 2 ^ 64)
       then Some (md_hash_from (md_of a) h (8 * bytes) m) else None
  else Some (md_hash_from (md_of a) h ((8 * (bytes mod 2 ^ usize_bits c)) mod 2 ^ 64) m).
Definition algo_result (c : config) (a : algo) (m : bytes) : option bytes :=
  md_result c a (md_iv (md_of a)) 0 m.
(** SipHash only uses the low byte of its count. *)
Definition sip_result (c : config) (k0 k1 : N) (m : bytes) : option bytes :=
  if overflow_checks c && negb (len m <? 2 ^ usize_bits c) then None
  else Some (le_octets 8 (siphash24 k0 k1 m)).
(** RFC 2104 for a function that may fail. *)
Definition hmac_result (H : bytes -> option bytes) (B : nat) (key m : bytes) : option bytes :=
  obind (if (Nat.ltb B (length key)) then H key else Some key) (fun k =>
  let k := k ++ repeat x00 (B - length k)%nat in
  obind (H (xor_pad x36 k ++ m)) (fun ih => H (xor_pad x5c k ++ ih))).
Fixpoint kind_result (c : config) (k : ekind) (m : bytes) : option bytes :=
  match k with
  | KAlgo a => algo_result c a m
  | KSip => sip_result c 0 0 m
  | KTag tag => let h := hash_of Sha256 tag in algo_result c Sha256 (h ++ h ++ m)
  | KHmac k => hmac_result (kind_result c k) (kind_block k) [] m
  end.
Definition origin_result (c : config) (o : origin) (m : bytes) : option bytes :=
  match o with
  | FromNew k => kind_result c k m
  | FromKey k key => hmac_result (kind_result c k) (kind_block k) key m
  | FromKeys k0 k1 => sip_result c k0 k1 m
  end.
