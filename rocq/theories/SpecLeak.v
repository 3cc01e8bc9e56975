(** What a run of a hash engine reveals, and what is public about its inputs. *)
From Verif Require Import Base SpecMD ModelEngine ModelSip ModelHmac ModelAll ModelStore SpecStore SpecMore ModelLeak.

(** Construct an engine, feed it, finalize it: with [revealed] the branches taken
    and the addresses accessed, in order, and [returned] the digest. *)
Definition leak_start (c : config) (o : origin) : lk (he_state (kind_engine c (origin_kind o))) :=
  match o return lk (he_state (kind_engine c (origin_kind o))) with
  | FromNew k => lk_default (kind_leaky c k)
  | FromKey k key => l_hmac_new c (kind_leaky c k) key
  | FromKeys k0 k1 => lret (with_keys k0 k1)
  end.
Definition leak_run (c : config) (o : origin) (chunks : list bytes) : lk bytes :=
  let! s := leak_start c o in
  let! s := l_inputs (kind_leaky c (origin_kind o)) s chunks in
  lk_finalize (kind_leaky c (origin_kind o)) s.
Definition revealed {A} (x : lk A) : list leak := fst x.
Definition returned {A} (x : lk A) : res A := snd x.

(** The type of the engine and the length of the key are public, the key is not;
    both keys of SipHash are secret. *)
Definition same_public (o o' : origin) : Prop :=
  match o, o' with
  | FromNew k, FromNew k' => k = k'
  | FromKey k key, FromKey k' key' => k = k' /\ length key = length key'
  | FromKeys _ _, FromKeys _ _ => True
  | _, _ => False
  end.
(** Digests of the same length, or the same panic. *)
Definition same_shape (r r' : res bytes) : Prop :=
  match r, r' with
  | Ok d, Ok d' => length d = length d'
  | Panic p, Panic p' => p = p'
  | _, _ => False
  end.

(** ** The amount of work *)

(** The calls of process_block, and of the SipHash rounds. *)
Definition is_call (l : leak) : bool := match l with LBlock | LSip => true | _ => false end.
Definition call_count (t : list leak) : N := len (filter is_call t).

(** A message of [n] bytes, one byte 0x80 and the length field, rounded up to
    whole blocks. *)
Definition algo_work (a : algo) (n : N) : N :=
  match a with
  | Sha1 | Sha256 | Ripemd160 => (n + 1 + 8 + 63) / 64
  | Sha384 | Sha512 | Sha512_256 => (n + 1 + 16 + 127) / 128
  end.
(** SipHash: one call per word of 8 bytes, two at the end.  A tag was absorbed
    beforehand.  HMAC: an inner and an outer hash, each behind a block of key. *)
Fixpoint kind_work (k : ekind) (n : N) : N :=
  match k with
  | KAlgo a => algo_work a n
  | KSip => n / 8 + 2
  | KTag _ => algo_work Sha256 n
  | KHmac k => kind_work k (N.of_nat (kind_block k) + n) +
               kind_work k (N.of_nat (kind_block k) + N.of_nat (kind_digest k))
  end.
Definition origin_work (o : origin) (n : N) : N :=
  match o with
  | FromNew k => kind_work k n
  | FromKey k key =>
      (if N.of_nat (kind_block k) <? len key then kind_work k (len key) else 0) + kind_work (KHmac k) n
  | FromKeys _ _ => n / 8 + 2
  end.
