(** The reference casts. *)
From Coq Require Import NArith List Bool Lia.
From Coq Require Import ZifyBool ZifyNat ZifyN.
From Coq Require Import Strings.Byte.
From Verif Require Import Base ModelTypes ModelMem SpecMem ProofBase.
Import ListNotations.
Open Scope N_scope.

Lemma load_store m a x : load_bytes (store_bytes m a x) a (len x) = x.
Proof.
  unfold load_bytes, len. rewrite Nat2N.id. apply nth_ext with (d := x00) (d' := x00).
  - now rewrite map_length, seq_length.
  - intros n Hn. rewrite map_length, seq_length in Hn.
    rewrite (nth_indep _ x00 (store_bytes m a x (a + N.of_nat 0))) by now rewrite map_length, seq_length.
    rewrite (map_nth (fun i => store_bytes m a x (a + N.of_nat i)) (seq 0 (length x)) 0%nat n).
    rewrite seq_nth by exact Hn. cbn [Nat.add]. unfold store_bytes, len.
    replace ((a <=? a + N.of_nat n) && (a + N.of_nat n <? a + N.of_nat (length x))) with true by lia.
    f_equal. lia.
Qed.
Lemma load_apart m a x b k : b + k <= a \/ a + len x <= b -> load_bytes (store_bytes m a x) b k = load_bytes m b k.
Proof.
  intros H. unfold load_bytes. apply map_ext_in. intros i Hi. apply in_seq in Hi. unfold store_bytes.
  replace ((a <=? b + N.of_nat i) && (b + N.of_nat i <? a + len x)) with false by lia. reflexivity.
Qed.

Lemma in_range_self a n : in_range (ref_to a n) a n = true.
Proof. unfold in_range, ref_to. cbn [p_lo p_hi]. lia. Qed.

Lemma cast_transparent t l a : is_transparent t = true -> layout_allowed t l ->
  mem_from_bytes_ref l (ref_to a (ty_len t)) = Ok (ref_to a (ty_len t)) /\
  mem_from_bytes_mut l (ref_to a (ty_len t)) = Ok (ref_to a (ty_len t)) /\
  mem_as_byte_array t l (ref_to a (ty_len t)) = ref_to a (ty_len t).
Proof.
  intros HT HL. unfold layout_allowed in HL. rewrite HT in HL. subst l.
  unfold mem_from_bytes_ref, mem_from_bytes_mut, mem_as_byte_array, ref_cast, array_layout.
  cbn [p_addr ref_to l_align l_size l_offset]. fold (ref_to a (ty_len t)).
  rewrite N.mod_1_r, in_range_self, N.add_0_r. auto.
Qed.
Lemma view_transparent t l m a : is_transparent t = true -> layout_allowed t l ->
  (let* h := mem_from_bytes_ref l (ref_to a (ty_len t)) in mem_to_byte_array t l m h) = Ok (load_bytes m a (ty_len t)).
Proof.
  intros HT HL. destruct (cast_transparent t l a HT HL) as (-> & _ & E). cbn [bind]. unfold mem_to_byte_array.
  rewrite E. unfold deref. cbn [p_addr ref_to]. fold (ref_to a (ty_len t)). now rewrite in_range_self.
Qed.
Lemma write_transparent t l m a x : is_transparent t = true -> layout_allowed t l -> len x = ty_len t ->
  exists m', (let* h := mem_from_bytes_mut l (ref_to a (ty_len t)) in mem_assign l m h x) = Ok m' /\
    load_bytes m' a (ty_len t) = x /\
    forall b k, b + k <= a \/ a + ty_len t <= b -> load_bytes m' b k = load_bytes m b k.
Proof.
  intros HT HL Hx. destruct (cast_transparent t l a HT HL) as (_ & -> & E). cbn [bind].
  unfold layout_allowed in HL. rewrite HT in HL. subst l.
  unfold mem_assign, assign_bytes, array_layout. cbn [p_addr p_lo p_hi ref_to l_offset].
  rewrite N.add_0_r. change (mk_pointer a a (a + ty_len t)) with (ref_to a (ty_len t)).
  rewrite Hx, in_range_self. eexists. split; [reflexivity|]. split.
  - rewrite <- Hx. apply load_store.
  - intros b k H. apply load_apart. now rewrite Hx.
Qed.

(** Without the attribute: exactly when the compiler adds nothing. *)
Lemma cast_exact t l a : layout_allowed t l ->
  is_ok (mem_from_bytes_ref l (ref_to a (ty_len t))) = (l_size l =? ty_len t) && (a mod l_align l =? 0).
Proof.
  intros HL. assert (HS : ty_len t <= l_size l).
  { unfold layout_allowed in HL. destruct (is_transparent t); [subst l; cbn; lia|]. destruct HL as (_ & _ & H). lia. }
  unfold mem_from_bytes_ref, ref_cast, in_range, ref_to. cbn [p_addr p_lo p_hi].
  replace ((a <=? a) && (a + l_size l <=? a + ty_len t)) with (l_size l =? ty_len t) by lia.
  rewrite andb_comm. now destruct (_ && _).
Qed.
Lemma hmac_cast n : exists l, layout_allowed (THmac n) l /\
  forall a, mem_from_bytes_ref l (ref_to a (ty_len (THmac n))) = Panic PUndefined /\
            mem_from_bytes_mut l (ref_to a (ty_len (THmac n))) = Panic PUndefined.
Proof.
  exists (mk_layout (ty_len (THmac n) + 1) 1 0). split.
  - cbn [layout_allowed is_transparent]. unfold layout_allowed. cbn [is_transparent l_align l_size l_offset].
    split; [exists 0; reflexivity|]. split; [apply N.mod_1_r|]. lia.
  - intros a. unfold mem_from_bytes_ref, mem_from_bytes_mut, ref_cast, in_range, ref_to. cbn [p_addr p_lo p_hi l_size l_align].
    replace ((a mod 1 =? 0) && ((a <=? a) && (a + (ty_len (THmac n) + 1) <=? a + ty_len (THmac n)))) with false; [auto|].
    symmetry. rewrite andb_false_iff. right. lia.
Qed.
Lemma hmac_cast_usual n a : let t := THmac n in let l := array_layout (ty_len t) in
  layout_allowed t l /\ mem_from_bytes_ref l (ref_to a (ty_len t)) = Ok (ref_to a (ty_len t)) /\
  mem_as_byte_array t l (ref_to a (ty_len t)) = ref_to a (ty_len t).
Proof.
  cbv zeta. split; [|split].
  - unfold layout_allowed. cbn [is_transparent]. unfold array_layout. cbn [l_align l_size l_offset].
    split; [exists 0; reflexivity|]. split; [apply N.mod_1_r|lia].
  - unfold mem_from_bytes_ref, ref_cast, array_layout. cbn [p_addr ref_to l_align l_size].
    fold (ref_to a (ty_len (THmac n))). now rewrite N.mod_1_r, in_range_self.
  - unfold mem_as_byte_array, array_layout. cbn [p_addr ref_to l_offset]. now rewrite N.add_0_r.
Qed.

(** Going through the array and back *)
Lemma cast_back t l a : is_transparent t = true -> layout_allowed t l ->
  mem_from_bytes_ref l (mem_as_byte_array t l (ref_to a (l_size l))) = Ok (ref_to a (l_size l)).
Proof.
  intros HT HL. pose proof (cast_transparent t l a HT HL) as (H1 & _ & H3).
  assert (E : l_size l = ty_len t) by (unfold layout_allowed in HL; rewrite HT in HL; now subst l).
  rewrite E, H3. exact H1.
Qed.

Lemma plain_transparent t : plain_hash t -> is_transparent t = true.
Proof. now destruct t. Qed.

Lemma mem_cast : forall t l a, plain_hash t -> layout_allowed t l ->
  mem_from_bytes_ref l (ref_to a (ty_len t)) = Ok (ref_to a (ty_len t)) /\
  mem_from_bytes_mut l (ref_to a (ty_len t)) = Ok (ref_to a (ty_len t)) /\
  mem_as_byte_array t l (ref_to a (ty_len t)) = ref_to a (ty_len t).
Proof. intros t l a H. apply cast_transparent, plain_transparent, H. Qed.
Lemma mem_view : forall t l m a, plain_hash t -> layout_allowed t l ->
  (let* h := mem_from_bytes_ref l (ref_to a (ty_len t)) in mem_to_byte_array t l m h) = Ok (load_bytes m a (ty_len t)).
Proof. intros t l m a H. apply view_transparent, plain_transparent, H. Qed.
Lemma mem_write : forall t l m a x, plain_hash t -> layout_allowed t l -> len x = ty_len t ->
  exists m', (let* h := mem_from_bytes_mut l (ref_to a (ty_len t)) in mem_assign l m h x) = Ok m' /\
    load_bytes m' a (ty_len t) = x /\
    forall b k, apart b k a (ty_len t) -> load_bytes m' b k = load_bytes m b k.
Proof. intros t l m a x H. apply write_transparent, plain_transparent, H. Qed.
Lemma mem_exact : forall n l a, layout_allowed (THmac n) l ->
  (exists p, mem_from_bytes_ref l (ref_to a n) = Ok p) <-> (l_size l = n /\ a mod l_align l = 0).
Proof.
  intros n l a HL. pose proof (cast_exact _ _ a HL) as H.
  replace (ty_len (THmac n)) with n in H by (unfold ty_len; cbn [macro_bits]; rewrite N.mul_comm, N.div_mul; lia).
  split.
  - intros [p E]. rewrite E in H. cbn [is_ok] in H. symmetry in H. apply andb_true_iff in H. lia.
  - intros [E1 E2]. rewrite E1, E2, N.eqb_refl in H. cbn [andb] in H.
    destruct (mem_from_bytes_ref l (ref_to a n)) as [p|]; [exists p; reflexivity|discriminate H].
Qed.
(** Then the field is at offset 0. *)
Lemma mem_exact_offset : forall n l p, layout_allowed (THmac n) l -> l_size l = n ->
  mem_as_byte_array (THmac n) l p = ref_to (p_addr p) n.
Proof.
  intros n l p HL E. unfold layout_allowed in HL. cbn [is_transparent] in HL. destruct HL as (_ & _ & H).
  assert (T : ty_len (THmac n) = n) by (unfold ty_len; cbn [macro_bits]; rewrite N.mul_comm, N.div_mul; lia).
  unfold mem_as_byte_array. rewrite T in *. assert (l_offset l = 0) as -> by lia. now rewrite N.add_0_r.
Qed.
Lemma mem_hmac_refuted : forall n, exists l, layout_allowed (THmac n) l /\
  forall a, mem_from_bytes_ref l (ref_to a (ty_len (THmac n))) = Panic PUndefined /\
            mem_from_bytes_mut l (ref_to a (ty_len (THmac n))) = Panic PUndefined.
Proof. exact hmac_cast. Qed.
