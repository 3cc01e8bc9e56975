(** The const-evaluable SHA-256: const_hash and hash_tag. *)
From Coq Require Import NArith ZArith List Bool Lia.
From Coq Require Import ZifyBool ZifyNat ZifyN.
From Verif Require Import Base SpecBase SpecMD SpecMac ModelEngine ModelSha2Round TablesSha2 ModelSha256 ModelAll SpecApi
  ProofBase ProofSha2 ProofEngine ProofMD ProofApi ProofMid.
From Verif Require SpecSha2.
Import ListNotations.
Open Scope N_scope.

(** ** Loops that fill an array *)

Lemma store_ok {A} (l : list A) i x : i < len l ->
  store l i x = Ok (firstn (N.to_nat i) l ++ x :: skipn (S (N.to_nat i)) l).
Proof. intros H. unfold store. destruct (N.ltb_spec i (len l)); [reflexivity|lia]. Qed.

Lemma store_app {A} (p : list A) y q i x : len p = i ->
  store (p ++ y :: q) i x = Ok (p ++ x :: q).
Proof.
  intros <-. rewrite store_ok by (unfold len; rewrite app_length; cbn [length]; lia).
  rewrite len_nat, firstn_app, Nat.sub_diag, firstn_O, firstn_all, app_nil_r.
  rewrite skipn_app, skipn_all2 by lia. replace (S (length p) - length p)%nat with 1%nat by lia.
  reflexivity.
Qed.

Lemma for_fill {A} (g : N -> A) body o n : forall start p q r,
  (forall i w', N.of_nat start <= i < N.of_nat (start + n) -> body i w' = store w' (o + i) (g i)) ->
  len p = o + N.of_nat start -> length q = n ->
  for_loop n (N.of_nat start) body (p ++ q ++ r) =
  Ok (p ++ map (fun i => g (N.of_nat i)) (seq start n) ++ r).
Proof.
  induction n as [|n IH]; intros start p q r Hb Hp Hq.
  - destruct q; [reflexivity|discriminate].
  - destruct q as [|y q]; [discriminate|]. cbn [for_loop seq map app].
    rewrite Hb by lia. rewrite store_app by exact Hp. cbn [bind].
    replace (N.of_nat start + 1) with (N.of_nat (S start)) by lia.
    replace (p ++ g (N.of_nat start) :: q ++ r) with ((p ++ [g (N.of_nat start)]) ++ q ++ r)
      by (rewrite <- app_assoc; reflexivity).
    rewrite IH.
    + rewrite <- app_assoc. reflexivity.
    + intros i w' Hi. apply Hb. lia.
    + rewrite len_app. unfold len at 2. cbn [length]. lia.
    + cbn [length] in Hq. lia.
Qed.

Lemma for_fill_array {A} (z : A) (g : N -> A) body n :
  (forall i w', i < N.of_nat n -> body i w' = store w' i (g i)) ->
  for_loop n 0 body (array z (N.of_nat n)) = Ok (map (fun i => g (N.of_nat i)) (seq 0 n)).
Proof.
  intros Hb. unfold array. rewrite Nat2N.id.
  pose proof (for_fill g body 0 n 0%nat [] (repeat z n) []) as E. cbn [app] in E.
  rewrite !app_nil_r in E. apply E.
  - intros i w' Hi. rewrite N.add_0_l. apply Hb. lia.
  - reflexivity.
  - apply repeat_length.
Qed.

(** ** Reading words *)

Lemma word_be b0 b1 b2 b3 :
  N.lor (N.lor (N.lor (N.shiftl (b2n b0) 24) (N.shiftl (b2n b1) 16)) (N.shiftl (b2n b2) 8)) (N.shiftl (b2n b3) 0)
  = be_int [b0; b1; b2; b3].
Proof.
  pose proof (b2n_lt b0). pose proof (b2n_lt b1). pose proof (b2n_lt b2). pose proof (b2n_lt b3).
  unfold be_int, fold_left. change Byte.to_N with b2n.
  rewrite !N.shiftl_mul_pow2.
  rewrite (lor_shift_add (b2n b0)) by (change (2 ^ 16) with 65536; change (2 ^ 24) with 16777216; lia).
  replace (b2n b0 * 2 ^ 24 + b2n b1 * 2 ^ 16) with ((b2n b0 * 256 + b2n b1) * 2 ^ 16)
    by (change (2 ^ 16) with 65536; change (2 ^ 24) with 16777216; lia).
  rewrite lor_shift_add by (change (2 ^ 8) with 256; change (2 ^ 16) with 65536; lia).
  replace ((b2n b0 * 256 + b2n b1) * 2 ^ 16 + b2n b2 * 2 ^ 8)
    with (((b2n b0 * 256 + b2n b1) * 256 + b2n b2) * 2 ^ 8)
    by (change (2 ^ 8) with 256; change (2 ^ 16) with 65536; lia).
  rewrite lor_shift_add by (change (2 ^ 8) with 256; change (2 ^ 0) with 1; lia).
  change (2 ^ 8) with 256; change (2 ^ 0) with 1. lia.
Qed.

Lemma usize_add_ok c a b : a + b < 2 ^ usize_bits c -> usize_add c a b = Ok (a + b).
Proof. intros H. unfold usize_add, checked_add. destruct (N.ltb_spec (a + b) (2 ^ usize_bits c)); [reflexivity|lia]. Qed.

Lemma index_skipn {A} (l : list A) i j (x : A) : nth_error (skipn (N.to_nat i) l) (N.to_nat j) = Some x ->
  index l (i + j) = Ok x.
Proof.
  intros H. unfold index. rewrite N2Nat.inj_add. 
  rewrite <- (firstn_skipn (N.to_nat i) l) at 1.
  assert (N.to_nat i <= length l)%nat.
  { destruct (Nat.le_gt_cases (N.to_nat i) (length l)); [assumption|].
    rewrite skipn_all2 in H by lia. destruct (N.to_nat j); discriminate. }
  rewrite nth_error_app2 by (rewrite firstn_length_le; lia).
  rewrite firstn_length_le by lia. replace (N.to_nat i + N.to_nat j - N.to_nat i)%nat with (N.to_nat j) by lia.
  now rewrite H.
Qed.

Lemma read_u32_ok c l i : (N.to_nat i + 4 <= length l)%nat -> i + 3 < 2 ^ usize_bits c ->
  read_u32 c l i = Ok (be_int (firstn 4 (skipn (N.to_nat i) l))).
Proof.
  intros Hl Hc. unfold read_u32. rewrite !usize_add_ok by lia. cbn [bind].
  assert (HL : (4 <= length (skipn (N.to_nat i) l))%nat) by (rewrite skipn_length; lia).
  destruct (skipn (N.to_nat i) l) as [|b0 [|b1 [|b2 [|b3 r]]]] eqn:E; cbn [length] in HL; try lia.
  rewrite <- (N.add_0_r i) at 1.
  rewrite (index_skipn l i 0 b0), (index_skipn l i 1 b1), (index_skipn l i 2 b2), (index_skipn l i 3 b3)
    by (rewrite E; reflexivity).
  cbn [bind firstn]. now rewrite word_be.
Qed.

Lemma copy_w_ok c l idx : (N.to_nat idx + 64 <= length l)%nat -> idx + 63 < 2 ^ usize_bits c ->
  copy_w c l idx = Ok (be_words 4 (firstn 64 (skipn (N.to_nat idx) l))).
Proof.
  intros Hl Hc. unfold copy_w.
  rewrite (for_fill_array 0 (fun i => be_int (firstn 4 (skipn (N.to_nat (idx + i * 4)) l))) _ 16).
  - f_equal. unfold be_words, blocks. rewrite firstn_length_le by (rewrite skipn_length; lia).
    change (64 / 4)%nat with 16%nat. rewrite map_map. apply map_ext_in. intros i Hi. apply in_seq in Hi.
    f_equal. rewrite skipn_firstn_comm, firstn_firstn, skipn_skipn'.
    replace (Nat.min 4 (64 - i * 4)) with 4%nat by lia. do 2 f_equal. lia.
  - intros i w' Hi. rewrite usize_add_ok by lia. cbn [bind]. rewrite read_u32_ok by lia. reflexivity.
Qed.

(** ** Filling the last block *)

Lemma fill_buf_ok c l off : len l + 1 < 2 ^ usize_bits c -> forall fuel i done rest,
  len done = i -> off + i <= len l -> len l - off <= i + len rest -> (N.to_nat (len l - off - i) <= fuel)%nat ->
  fill_buf fuel c l off i (done ++ rest) =
  Ok (done ++ skipn (N.to_nat (off + i)) l ++ skipn (N.to_nat (len l - off - i)) rest, len l - off).
Proof.
  intros HM. induction fuel as [|f IH]; intros i dn rest Hd Hi Hr Hf.
  - assert (E : off + i = len l) by (unfold len in *; lia).
    cbn [fill_buf]. rewrite usize_add_ok by lia. cbn [bind]. rewrite E, N.ltb_irrefl.
    rewrite len_nat, skipn_all. replace (len l - off - i) with 0 by lia. cbn [N.to_nat skipn app].
    do 2 f_equal. lia.
  - cbn [fill_buf]. rewrite usize_add_ok by lia. cbn [bind].
    destruct (N.ltb_spec (off + i) (len l)) as [Hlt|Hge].
    + assert (HS : (N.to_nat (off + i) < length l)%nat) by (unfold len in *; lia).
      destruct (skipn (N.to_nat (off + i)) l) as [|b r] eqn:ES.
      { apply (f_equal (@length byte)) in ES. rewrite skipn_length in ES. cbn in ES. lia. }
      assert (EI : index l (off + i) = Ok b).
      { rewrite <- (N.add_0_r (off + i)). apply index_skipn. rewrite ES. reflexivity. }
      rewrite EI. cbn [bind].
      destruct rest as [|y rest].
      { unfold len in Hr, Hlt. cbn [length] in Hr. lia. }
      rewrite store_app by exact Hd. cbn [bind]. rewrite usize_add_ok by lia. cbn [bind].
      replace (dn ++ b :: rest) with ((dn ++ [b]) ++ rest) by (rewrite <- app_assoc; reflexivity).
      rewrite IH.
      * assert (E2 : skipn (N.to_nat (off + (i + 1))) l = r).
        { replace (N.to_nat (off + (i + 1))) with (N.to_nat (off + i) + 1)%nat by lia.
          rewrite <- skipn_skipn', ES. reflexivity. }
        rewrite E2, <- app_assoc. cbn [app].
        replace (N.to_nat (len l - off - i)) with (S (N.to_nat (len l - off - (i + 1)))) by lia.
        reflexivity.
      * rewrite len_app. unfold len at 2. cbn. lia.
      * lia.
      * unfold len in *. cbn [length] in Hr. lia.
      * lia.
    + assert (E : off + i = len l) by lia.
      rewrite E, len_nat, skipn_all. replace (len l - off - i) with 0 by lia. cbn [N.to_nat skipn app].
      do 2 f_equal. lia.
Qed.

Lemma fill_buf_past c l off fuel buf : off < 2 ^ usize_bits c -> len l <= off ->
  fill_buf fuel c l off 0 buf = Ok (buf, 0).
Proof.
  intros HM Ho. destruct fuel; cbn [fill_buf]; rewrite usize_add_ok by lia; cbn [bind];
    (destruct (N.ltb_spec (off + 0) (len l)); [lia|reflexivity]).
Qed.

Lemma be_octets_bits x : map (fun i => u8 (N.land (N.shiftr x (8 * (7 - N.of_nat i))) 255)) (seq 0 8) = be_octets 8 x.
Proof.
  assert (E : forall n, u8 (N.land (N.shiftr x n) 255) = octet (x / 2 ^ n)).
  { intros n. rewrite u8_octet. change 255 with (N.ones 8). rewrite N.land_ones, N.shiftr_div_pow2.
    change (2 ^ 8) with 256. apply octet_mod. }
  unfold be_octets, le_octets. cbn [seq map rev app].
  rewrite !E. reflexivity.
Qed.

(** ** The padded message of SHA-256 *)

Definition pad256 (l : bytes) : bytes := md_pad_with (md_of Sha256) (8 * len l) l.

Lemma zeros256 n : md_zeros (md_of Sha256) n =
  (if Nat.leb (n mod 64) 55 then 55 - n mod 64 else 119 - n mod 64)%nat.
Proof.
  assert (E : md_zeros (md_of Sha256) n = md_zeros (md_of Sha256) (n mod 64)).
  { apply md_zeros_congr. cbn [md_of md_block]. rewrite Nat.mod_mod; lia. }
  rewrite E. pose proof (Nat.mod_upper_bound n 64 ltac:(lia)) as Hr. revert Hr.
  generalize (n mod 64)%nat as r. intros r Hr. clear E.
  unfold md_zeros. cbn [md_of md_block md_field].
  destruct (Nat.leb_spec r 55) as [H|H].
  - rewrite Z.mod_small by lia. lia.
  - replace (Z.of_nat 64 - Z.of_nat 8 - 1 - Z.of_nat r)%Z
      with ((119 - Z.of_nat r) + (-1) * Z.of_nat 64)%Z by lia.
    rewrite Z.mod_add by lia. rewrite Z.mod_small by lia. lia.
Qed.

Lemma num_chunks_eq l : (len l + 9 + 63) / 64 = N.of_nat (length (pad256 l) / 64).
Proof.
  unfold pad256. rewrite length_md_pad. unfold md_padded. rewrite zeros256. cbn [md_of md_field].
  rewrite Nat2N.inj_div. change (N.of_nat 64) with 64. unfold len.
  set (n := length l).
  pose proof (Nat.mod_upper_bound n 64 ltac:(lia)) as Hr. pose proof (Nat.div_mod n 64 ltac:(lia)) as Hn.
  set (r := (n mod 64)%nat) in *. set (q := (n / 64)%nat) in *.
  destruct (Nat.leb_spec r 55).
  - symmetry. apply (N.div_unique _ _ _ (N.of_nat r + 8)); [lia|].
    assert (E : (N.of_nat (n + 1 + (55 - r) + 8)) / 64 = N.of_nat q + 1).
    { symmetry. apply (N.div_unique _ _ _ 0); lia. }
    rewrite E. lia.
  - symmetry. apply (N.div_unique _ _ _ (N.of_nat r - 56)); [lia|].
    assert (E : (N.of_nat (n + 1 + (119 - r) + 8)) / 64 = N.of_nat q + 2).
    { symmetry. apply (N.div_unique _ _ _ 0); lia. }
    rewrite E. lia.
Qed.

Lemma nth_blocks n l k : (0 < n)%nat -> (k < length l / n)%nat ->
  nth k (blocks n l) [] = firstn n (skipn (k * n) l).
Proof.
  intros Hn Hk. unfold blocks.
  rewrite (nth_indep _ [] ((fun i => firstn n (skipn (i * n) l)) 0%nat)) by (rewrite map_length, seq_length; exact Hk).
  rewrite (map_nth (fun i => firstn n (skipn (i * n) l))). rewrite seq_nth by exact Hk. reflexivity.
Qed.

Lemma skipn_app_exact {A} (a b : list A) n : n = length a -> skipn n (a ++ b) = b.
Proof. intros ->. rewrite skipn_app, skipn_all, Nat.sub_diag. reflexivity. Qed.
Lemma firstn_app_exact {A} (a b : list A) n : n = length a -> firstn n (a ++ b) = a.
Proof. intros ->. rewrite firstn_app, firstn_all, Nat.sub_diag, firstn_O. apply app_nil_r. Qed.

Lemma const_chunk_ok c l k : len l + 72 < 2 ^ usize_bits c -> 8 * len l < 2 ^ 64 ->
  (k < length (pad256 l) / 64)%nat ->
  const_chunk c l (N.of_nat (length (pad256 l) / 64)) (N.of_nat k)
  = Ok (be_words 4 (nth k (blocks 64 (pad256 l)) [])).
Proof.
  intros HM H8 Hk. rewrite nth_blocks by (try exact Hk; lia).
  assert (HNC : N.of_nat (length (pad256 l) / 64) * 64 <= len l + 72).
  { rewrite <- num_chunks_eq. pose proof (N.mul_div_le (len l + 9 + 63) 64 ltac:(lia)). lia. }
  assert (Hmul : usize_mul c (N.of_nat k) 64 = Ok (N.of_nat k * 64)).
  { unfold usize_mul, checked_mul. destruct (N.ltb_spec (N.of_nat k * 64) (2 ^ usize_bits c)); [reflexivity|lia]. }
  unfold const_chunk. rewrite Hmul. cbn [bind]. rewrite usize_add_ok by lia. cbn [bind].
  destruct (N.leb_spec (N.of_nat k * 64 + 64) (len l)) as [Hfull|Hpart].
  - unfold len in Hfull. rewrite copy_w_ok by lia. f_equal. f_equal. unfold pad256, md_pad_with.
    replace (N.to_nat (N.of_nat k * 64)) with (k * 64)%nat by lia.
    rewrite skipn_app, firstn_app.
    replace (64 - length (skipn (k * 64) l))%nat with 0%nat by (rewrite skipn_length; lia).
    rewrite firstn_O, app_nil_r. reflexivity.
  - assert (Hlen := length_md_pad Sha256 (8 * len l) l). fold (pad256 l) in Hlen.
    unfold md_padded in Hlen. rewrite zeros256 in Hlen. cbn [md_of md_field] in Hlen.
    pose proof (Nat.mod_upper_bound (length l) 64 ltac:(lia)) as Hr.
    pose proof (Nat.div_mod (length l) 64 ltac:(lia)) as Hn.
    set (r := (length l mod 64)%nat) in *. set (q := (length l / 64)%nat) in *.
    assert (HC : len l mod 64 = N.of_nat r).
    { unfold len, r. rewrite Nat2N.inj_mod. reflexivity. }
    assert (HNCq : (length (pad256 l) / 64 = if Nat.leb r 55 then q + 1 else q + 2)%nat).
    { rewrite Hlen. destruct (Nat.leb_spec r 55); symmetry; apply (Nat.div_unique _ _ _ 0); lia. }
    set (nc := (length (pad256 l) / 64)%nat) in *.
    unfold pad256, md_pad_with, md_padding. rewrite zeros256. fold r. cbn [md_of md_lenfield].
    rewrite HC.
    destruct (Nat.eq_dec k q) as [->|Nk].
    + (* the chunk holding the end of the message *)
      replace (array x00 64) with (([] : bytes) ++ array x00 64) by reflexivity.
      rewrite fill_buf_ok; [| lia | reflexivity | unfold len; lia | rewrite len_array; unfold len; lia | unfold len; lia ].
      cbn [bind app].
      rewrite N.add_0_r, N.sub_0_r. replace (N.to_nat (N.of_nat q * 64)) with (q * 64)%nat by lia.
      replace (len l - N.of_nat q * 64) with (N.of_nat r) by (unfold len; lia). rewrite Nat2N.id.
      rewrite !usize_add_ok by lia. cbn [bind].
      rewrite (skipn_app (q * 64) l). replace (q * 64 - length l)%nat with 0%nat by lia. rewrite skipn_O.
      set (t := skipn (q * 64) l).
      assert (Ht : length t = r) by (unfold t; rewrite skipn_length; lia).
      assert (Hz : skipn r (array x00 64) = x00 :: repeat x00 (63 - r)).
      { unfold array. change (N.to_nat 64) with 64%nat. replace 64%nat with (r + S (63 - r))%nat at 1 by lia.
        rewrite repeat_app, skipn_app_exact by (now rewrite repeat_length). reflexivity. }
      rewrite Hz.
      replace ((N.of_nat r <=? 64 - 9) || (N.of_nat q + 2 =? N.of_nat nc)) with true.
      2: { symmetry. destruct (Nat.leb_spec r 55); apply orb_true_iff; [left; apply N.leb_le|right; apply N.eqb_eq]; lia. }
      rewrite store_app by (unfold len; lia). cbn [bind].
      destruct (Nat.leb_spec r 55) as [H55|H55].
      * replace (N.of_nat q + 1 =? N.of_nat nc) with true by (symmetry; apply N.eqb_eq; lia).
        unfold checked_mul. destruct (N.ltb_spec (len l * 8) (2 ^ 64)); [|lia]. cbn [bind].
        replace (repeat x00 (63 - r)) with (repeat x00 (55 - r) ++ repeat x00 8)
          by (rewrite <- repeat_app; f_equal; lia).
        replace (t ++ x80 :: repeat x00 (55 - r) ++ repeat x00 8)
          with ((t ++ x80 :: repeat x00 (55 - r)) ++ repeat x00 8 ++ [])
          by (rewrite app_nil_r, <- app_assoc; reflexivity).
        rewrite (for_fill (fun j => u8 (N.land (N.shiftr (len l * 8) (8 * (7 - j))) 255)) _ 56 8 0);
          [| intros i w' Hi; reflexivity
           | unfold len; rewrite app_length; cbn [length]; rewrite repeat_length; lia
           | reflexivity].
        cbn [bind]. rewrite be_octets_bits, app_nil_r.
        rewrite copy_w_ok.
        2: { rewrite app_length, length_be_octets, app_length. cbn [length]. rewrite repeat_length. lia. }
        2: lia.
        change (N.to_nat 0) with 0%nat. rewrite skipn_O. f_equal. f_equal.
        rewrite (N.mul_comm (len l)), <- app_assoc. cbn [app]. rewrite <- ?app_assoc. reflexivity.
      * replace (N.of_nat q + 1 =? N.of_nat nc) with false by (symmetry; apply N.eqb_neq; lia).
        cbn [bind].
        rewrite copy_w_ok.
        2: { rewrite app_length. cbn [length]. rewrite repeat_length. lia. }
        2: lia.
        change (N.to_nat 0) with 0%nat. rewrite skipn_O. f_equal. f_equal.
        rewrite firstn_all2 by (rewrite app_length; cbn [length]; rewrite repeat_length; lia).
        replace (repeat x00 (119 - r)) with (repeat x00 (63 - r) ++ repeat x00 56)
          by (rewrite <- repeat_app; f_equal; lia).
        replace (t ++ x80 :: (repeat x00 (63 - r) ++ repeat x00 56) ++ be_octets 8 (8 * len l))
          with ((t ++ x80 :: repeat x00 (63 - r)) ++ repeat x00 56 ++ be_octets 8 (8 * len l))
          by (rewrite <- !app_assoc; cbn [app]; rewrite <- ?app_assoc; reflexivity).
        symmetry. apply (firstn_app_exact (t ++ x80 :: repeat x00 (63 - r))).
        rewrite app_length. cbn [length]. rewrite repeat_length. lia.
    + (* a chunk of padding only *)
      destruct (Nat.leb_spec r 55) as [H55|H55]; [lia|].
      assert (k = q + 1)%nat by lia. subst k.
      rewrite fill_buf_past by (unfold len; lia). cbn [bind].
      rewrite !usize_add_ok by lia. cbn [bind].
      replace ((N.of_nat r <=? 64 - 9) || (N.of_nat (q + 1) + 2 =? N.of_nat nc)) with false.
      2: { symmetry. apply orb_false_iff. split; [apply N.leb_gt|apply N.eqb_neq]; lia. }
      cbn [bind].
      replace (N.of_nat (q + 1) + 1 =? N.of_nat nc) with true by (symmetry; apply N.eqb_eq; lia).
      unfold checked_mul. destruct (N.ltb_spec (len l * 8) (2 ^ 64)); [|lia]. cbn [bind].
      replace (array x00 64) with (repeat x00 56 ++ repeat x00 8 ++ []) by reflexivity.
      rewrite (for_fill (fun j => u8 (N.land (N.shiftr (len l * 8) (8 * (7 - j))) 255)) _ 56 8 0);
        [| intros i w' Hi; reflexivity | reflexivity | reflexivity].
      cbn [bind]. rewrite be_octets_bits, app_nil_r.
      rewrite copy_w_ok.
      2: { rewrite app_length, length_be_octets, repeat_length. lia. }
      2: lia.
      change (N.to_nat 0) with 0%nat. rewrite skipn_O. f_equal. f_equal.
      rewrite (N.mul_comm (len l)). f_equal.
      replace (repeat x00 (119 - r)) with (repeat x00 (63 - r) ++ repeat x00 56)
        by (rewrite <- repeat_app; f_equal; lia).
      replace (l ++ [x80] ++ (repeat x00 (63 - r) ++ repeat x00 56) ++ be_octets 8 (8 * len l))
        with ((l ++ x80 :: repeat x00 (63 - r)) ++ repeat x00 56 ++ be_octets 8 (8 * len l))
        by (rewrite <- !app_assoc; cbn [app]; rewrite <- ?app_assoc; reflexivity).
      symmetry. apply skipn_app_exact. rewrite app_length. cbn [length]. rewrite repeat_length. lia.
Qed.

(** ** The loop *)

Lemma const_block c state block : length block = 64%nat -> length state = 8%nat /\ bounded 32 state ->
  add_all 32 state (fst (run_rows c fns256 const_rows (state, be_words 4 block)))
  = md_compress (md_of Sha256) state block.
Proof.
  intros Hb [Hh Hbd]. rewrite const_rows_gen.
  exact (sha2_block fns256 SpecSha2.params256 c state block agree256 params256_ok Hh Hbd Hb).
Qed.

Lemma skipn_nth {A} (d : A) (l : list A) k : (k < length l)%nat -> skipn k l = nth k l d :: skipn (S k) l.
Proof.
  revert l. induction k as [|k IH]; intros [|x l] H; cbn [length] in H; try lia; [reflexivity|].
  cbn [skipn nth]. apply IH. lia.
Qed.

Lemma const_loop_ok c l fin : len l + 72 < 2 ^ usize_bits c -> 8 * len l < 2 ^ 64 ->
  let nc := (length (pad256 l) / 64)%nat in
  forall fuel k state, length state = 8%nat /\ bounded 32 state -> (k <= nc)%nat -> (nc - k <= fuel)%nat ->
  const_loop fuel c l fin (N.of_nat nc) (N.of_nat k) state =
  Ok (fold_left (md_compress (md_of Sha256))
        (firstn ((if fin then nc else nc - 1) - k) (skipn k (blocks 64 (pad256 l)))) state).
Proof.
  intros HM H8 nc. 
  assert (HNC : N.of_nat nc * 64 <= len l + 72).
  { unfold nc. rewrite <- num_chunks_eq. pose proof (N.mul_div_le (len l + 9 + 63) 64 ltac:(lia)). lia. }
  assert (HBL : length (blocks 64 (pad256 l)) = nc) by apply blocks_length.
  induction fuel as [|f IH]; intros k state Hs Hk Hf.
  - assert (k = nc) by lia. subst k. cbn [const_loop]. rewrite N.ltb_irrefl.
    replace ((if fin then nc else nc - 1) - nc)%nat with 0%nat by (destruct fin; lia). reflexivity.
  - cbn [const_loop]. destruct (N.ltb_spec (N.of_nat k) (N.of_nat nc)) as [Hlt|Hge].
    + rewrite usize_add_ok by lia. cbn [bind].
      destruct (negb fin && (N.of_nat k + 1 =? N.of_nat nc)) eqn:EB.
      * apply andb_prop in EB. destruct EB as [Ef Ek]. apply N.eqb_eq in Ek.
        destruct fin; [discriminate|]. replace (nc - 1 - k)%nat with 0%nat by lia. reflexivity.
      * unfold nc at 1. rewrite const_chunk_ok by (try assumption; fold nc; lia). cbn [bind].
        set (b := nth k (blocks 64 (pad256 l)) []).
        assert (Hb : length b = 64%nat).
        { pose proof (blocks_Forall 64 (pad256 l) ltac:(lia)) as F. rewrite Forall_forall in F.
          apply F. apply nth_In. lia. }
        pose proof (const_block c state b Hb Hs) as EC.
        destruct (run_rows c fns256 const_rows (state, be_words 4 b)) as [vars w]. cbn [fst] in EC.
        rewrite EC. replace (N.of_nat k + 1) with (N.of_nat (S k)) by lia.
        rewrite IH; [| apply (mo_compress _ (md_of_ok Sha256)); exact Hs | lia | lia].
        rewrite (skipn_nth [] (blocks 64 (pad256 l)) k) by lia. fold b.
        assert (Hlim : (k < if fin then nc else nc - 1)%nat).
        { destruct fin; [lia|]. cbn [negb andb] in EB. apply N.eqb_neq in EB. lia. }
        replace ((if fin then nc else nc - 1) - k)%nat with (S ((if fin then nc else nc - 1) - S k)) by lia.
        reflexivity.
    + assert (k = nc) by lia. subst k.
      replace ((if fin then nc else nc - 1) - nc)%nat with 0%nat by (destruct fin; lia). reflexivity.
Qed.

Lemma be_octets_4 x : be_octets 4 x = [u8 (N.shiftr x 24); u8 (N.shiftr x 16); u8 (N.shiftr x 8); u8 (N.shiftr x 0)].
Proof.
  rewrite !u8_octet, !N.shiftr_div_pow2. reflexivity.
Qed.

Lemma const_output (state : list N) : length state = 8%nat ->
  for_loop 8 0 (fun i output =>
    let* s := index state i in
    let* output := store output (i * 4 + 0) (u8 (N.shiftr s 24)) in
    let* output := store output (i * 4 + 1) (u8 (N.shiftr s 16)) in
    let* output := store output (i * 4 + 2) (u8 (N.shiftr s 8)) in
    store output (i * 4 + 3) (u8 (N.shiftr s 0))) (array x00 32)
  = Ok (List.concat (map (be_octets 4) state)).
Proof.
  intros H. destruct (list8 state H) as (a & b & c & d & e & f & g & h & ->).
  cbn [map List.concat]. rewrite !be_octets_4.
  cbv -[u8 N.shiftr]. reflexivity.
Qed.

Lemma const_iv_eq : const_iv = md_iv (md_of Sha256).
Proof. exact H256_eq. Qed.

Lemma midstate_const_hash_ok c l fin : len l + 72 < 2 ^ usize_bits c -> 8 * len l < 2 ^ 64 ->
  midstate_const_hash c l fin =
  Ok (md_words (md_of Sha256)
       (fold_left (md_compress (md_of Sha256))
          (firstn (length (pad256 l) / 64 - if fin then 0 else 1) (blocks 64 (pad256 l)))
          (md_iv (md_of Sha256)))).
Proof.
  intros HM H8. unfold midstate_const_hash.
  rewrite !usize_add_ok by lia. cbn [bind]. rewrite usize_add_ok by lia. cbn [bind].
  rewrite num_chunks_eq, Nat2N.id. change 0 with (N.of_nat 0) at 1.
  rewrite const_iv_eq.
  rewrite const_loop_ok; [| assumption | assumption | apply (mo_iv _ (md_of_ok Sha256)) | lia | lia].
  cbn [bind]. rewrite skipn_O, Nat.sub_0_r.
  replace (if fin then (length (pad256 l) / 64)%nat else (length (pad256 l) / 64 - 1)%nat)
    with (length (pad256 l) / 64 - if fin then 0 else 1)%nat by (destruct fin; lia).
  rewrite const_output; [reflexivity|].
  apply (fold_good Sha256). apply (mo_iv _ (md_of_ok Sha256)).
Qed.

Lemma const_hash_ok c l : len l + 72 < 2 ^ usize_bits c -> 8 * len l < 2 ^ 64 ->
  const_hash c l = Ok (hash_of Sha256 l).
Proof.
  intros HM H8. unfold const_hash. rewrite midstate_const_hash_ok by assumption. f_equal.
  rewrite <- md_hash_standard. unfold md_hash.
  rewrite md_hash_from_full; [|apply md_of_ok|apply (mo_iv _ (md_of_ok Sha256))|reflexivity].
  unfold md_iterate. rewrite Nat.sub_0_r. rewrite firstn_all2; [reflexivity|].
  rewrite blocks_length. cbn. lia.
Qed.

Lemma hash_of_length a m : length (hash_of a m) = digest_len a.
Proof.
  rewrite <- md_hash_standard. unfold md_hash.
  rewrite md_hash_from_length; [destruct a; reflexivity|apply md_of_ok|apply (mo_iv _ (md_of_ok a))].
Qed.

Lemma index_ok {A} (d : A) (l : list A) i : i < len l -> index l i = Ok (nth (N.to_nat i) l d).
Proof.
  intros H. unfold index. rewrite (nth_error_nth' l d); [reflexivity|unfold len in H; lia].
Qed.

Lemma hash_tag_ok c tag : wf_config c -> len tag + 72 < 2 ^ usize_bits c -> 8 * len tag < 2 ^ 64 ->
  hash_tag c tag =
  Ok (md_words (md_of Sha256)
       (md_iterate (md_of Sha256) (md_iv (md_of Sha256)) (hash_of Sha256 tag ++ hash_of Sha256 tag))).
Proof.
  intros WF HM H8. unfold hash_tag. rewrite const_hash_ok by assumption. cbn [bind].
  assert (Hh := hash_of_length Sha256 tag). cbn [digest_len] in Hh.
  set (h := hash_of Sha256 tag) in *. clearbody h.
  rewrite (for_fill_array x00 (fun i => nth (N.to_nat (i mod 32)) h x00) _ 64).
  2: { intros i w Hi. unfold len. rewrite Hh. change (N.of_nat 32) with 32.
       rewrite (index_ok x00) by (unfold len; rewrite Hh; apply N.mod_lt; discriminate). reflexivity. }
  cbn [bind].
  assert (Ehh : map (fun i => nth (N.to_nat (N.of_nat i mod 32)) h x00) (seq 0 64) = h ++ h).
  { do 32 (destruct h as [|? h]; [discriminate|]). destruct h; [reflexivity|discriminate]. }
  rewrite Ehh.
  assert (Hl : length (h ++ h) = 64%nat) by (rewrite app_length; lia).
  assert (HM' : 136 < 2 ^ usize_bits c) by (destruct WF as [-> | [-> | ->]]; reflexivity).
  rewrite midstate_const_hash_ok by (unfold len; rewrite Hl; lia).
  f_equal. f_equal. unfold md_iterate, pad256.
  rewrite length_md_pad, Hl. change (md_padded (md_of Sha256) 64 / 64 - 1)%nat with 1%nat.
  unfold md_pad_with. cbn [md_of md_block].
  rewrite blocks_app by (try (rewrite Hl; reflexivity); lia).
  rewrite <- (app_nil_r (h ++ h)). rewrite blocks_cons by (try exact Hl; lia). rewrite blocks_nil. reflexivity.
Qed.
