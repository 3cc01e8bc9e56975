(** The reference casts: C69. *)
From Verif Require Import Base ModelTypes ModelMem SpecMem ProofMem.

(** C69 *)
(** Under every layout the compiler may choose for the type. *)
Theorem C69_cast_same_place : forall t l a, plain_hash t -> layout_allowed t l ->
  mem_from_bytes_ref l (ref_to a (ty_len t)) = Ok (ref_to a (ty_len t)) /\
  mem_from_bytes_mut l (ref_to a (ty_len t)) = Ok (ref_to a (ty_len t)) /\
  mem_as_byte_array t l (ref_to a (ty_len t)) = ref_to a (ty_len t).
Proof. exact mem_cast. Qed.
Print Assumptions C69_cast_same_place.
Theorem C69_view : forall t l m a, plain_hash t -> layout_allowed t l ->
  (let* h := mem_from_bytes_ref l (ref_to a (ty_len t)) in mem_to_byte_array t l m h) = Ok (load_bytes m a (ty_len t)).
Proof. exact mem_view. Qed.
Print Assumptions C69_view.
Theorem C69_write : forall t l m a x, plain_hash t -> layout_allowed t l -> len x = ty_len t ->
  exists m', (let* h := mem_from_bytes_mut l (ref_to a (ty_len t)) in mem_assign l m h x) = Ok m' /\
    load_bytes m' a (ty_len t) = x /\
    forall b k, apart b k a (ty_len t) -> load_bytes m' b k = load_bytes m b k.
Proof. exact mem_write. Qed.
Print Assumptions C69_write.
Example C69_case : let m : memory := fun b => u8 b in let l := array_layout 20 in
  plain_hash TSha1 /\ layout_allowed TSha1 l /\ len (repeat xff 20) = ty_len TSha1 /\ apart 90 10 100 20 /\
  (let* h := mem_from_bytes_ref l (ref_to 100 20) in mem_to_byte_array TSha1 l m h) = Ok (map u8 (map N.of_nat (seq 100 20))) /\
  (let* h := mem_from_bytes_mut l (ref_to 100 20) in let* m' := mem_assign l m h (repeat xff 20) in Ok (load_bytes m' 99 22))
    = Ok (x63 :: repeat xff 20 ++ [x78]).
Proof. cbv zeta. repeat split; try (left; vm_compute; discriminate); vm_compute; reflexivity. Qed.

(** [hmac::Hash<N>] is not [repr(transparent)]: the cast is defined exactly if
    the compiler adds no padding and the address is aligned, and it may choose a
    layout for which it is undefined for every array. *)
Theorem C69_hmac_exact : forall n l a, layout_allowed (THmac n) l ->
  (exists p, mem_from_bytes_ref l (ref_to a n) = Ok p) <-> (l_size l = n /\ a mod l_align l = 0).
Proof. exact mem_exact. Qed.
Print Assumptions C69_hmac_exact.
Theorem C69_hmac_place : forall n l p, layout_allowed (THmac n) l -> l_size l = n ->
  mem_as_byte_array (THmac n) l p = ref_to (p_addr p) n.
Proof. exact mem_exact_offset. Qed.
Print Assumptions C69_hmac_place.
Theorem C69_hmac_refuted : forall n, exists l, layout_allowed (THmac n) l /\
  forall a, mem_from_bytes_ref l (ref_to a (ty_len (THmac n))) = Panic PUndefined /\
            mem_from_bytes_mut l (ref_to a (ty_len (THmac n))) = Panic PUndefined.
Proof. exact mem_hmac_refuted. Qed.
Print Assumptions C69_hmac_refuted.
Example C69_hmac_case : layout_allowed (THmac 32) (array_layout 32) /\ layout_allowed (THmac 32) (mk_layout 36 4 4) /\
  mem_from_bytes_ref (array_layout 32) (ref_to 100 32) = Ok (ref_to 100 32) /\
  mem_from_bytes_ref (mk_layout 36 4 4) (ref_to 100 32) = Panic PUndefined /\
  mem_from_bytes_ref (mk_layout 32 4 0) (ref_to 101 32) = Panic PUndefined.
Proof.
  split; [|split].
  - split; [exists 0; reflexivity|]. split; [reflexivity|]. vm_compute; discriminate.
  - split; [exists 2; reflexivity|]. split; [reflexivity|]. vm_compute; discriminate.
  - repeat split; vm_compute; reflexivity.
Qed.
