(** The six Merkle-Damgard engines: complete behaviour of every method. *)
From Coq Require Import NArith ZArith List Bool Lia.
From Coq Require Import ZifyBool ZifyNat ZifyN.
From Verif Require Import Base SpecBase SpecMD ModelEngine ModelSha2Round ModelRipemdRound TablesSha2
  TablesRipemd ModelSha256 ModelSha512 ModelSha1 ModelRipemd ModelAll SpecApi
  ProofBase ProofSha2 ProofEngine ProofSha1 ProofRipemd ProofSimd.
From Verif Require SpecSha2 SpecSha1 SpecRipemd.
Import ListNotations.
Open Scope N_scope.

(** ** Block functions *)

Lemma software_block c e :
  length (e_buffer e) = 64%nat -> length (e_h e) = 8%nat /\ bounded 32 (e_h e) ->
  software_process_block c e
  = Ok (mk_engine (e_buffer e) (SpecSha2.compress SpecSha2.params256 (e_h e) (e_buffer e)) (e_length e)).
Proof.
  intros Hb [Hh Hbd]. unfold software_process_block. unfold len. rewrite Hb.
  change (N.of_nat 64 =? BLOCK_SIZE_256) with true. rewrite debug_assert_true.
  change 16 with (N.of_nat 16). rewrite load_words by (rewrite ?Hb; lia). cbn [bind].
  rewrite software_rows_gen.
  pose proof (sha2_block fns256 SpecSha2.params256 c (e_h e) (e_buffer e) agree256 params256_ok Hh Hbd Hb) as E.
  change (SpecSha2.rounds SpecSha2.params256) with 64%nat in E.
  change (SpecSha2.wbytes SpecSha2.params256) with 4%nat in E.
  change (f_width fns256) with 32 in E.
  match goal with |- context [run_rows ?a ?b ?r ?d] => set (X := run_rows a b r d) in * end.
  destruct X as [v w]. cbn [fst] in E. rewrite E. reflexivity.
Qed.

Lemma sha256_block c e :
  length (e_buffer e) = 64%nat -> length (e_h e) = 8%nat /\ bounded 32 (e_h e) ->
  sha256_process_block c e
  = Ok (mk_engine (e_buffer e) (SpecSha2.compress SpecSha2.params256 (e_h e) (e_buffer e)) (e_length e)).
Proof.
  intros Hb Hh. unfold sha256_process_block. destruct (sha_ni c).
  - now apply simd_block.
  - now apply software_block.
Qed.

Lemma sha512_block c e :
  length (e_buffer e) = 128%nat -> length (e_h e) = 8%nat /\ bounded 64 (e_h e) ->
  sha512_process_block c e
  = Ok (mk_engine (e_buffer e) (SpecSha2.compress SpecSha2.params512 (e_h e) (e_buffer e)) (e_length e)).
Proof.
  intros Hb [Hh Hbd]. unfold sha512_process_block. unfold len. rewrite Hb.
  change (N.of_nat 128 =? BLOCK_SIZE_512) with true. rewrite debug_assert_true.
  change 16 with (N.of_nat 16). rewrite load_words by (rewrite ?Hb; lia). cbn [bind].
  rewrite sha512_rows_gen.
  pose proof (sha2_block fns512 SpecSha2.params512 c (e_h e) (e_buffer e) agree512 params512_ok Hh Hbd Hb) as E.
  change (SpecSha2.rounds SpecSha2.params512) with 80%nat in E.
  change (SpecSha2.wbytes SpecSha2.params512) with 8%nat in E.
  change (f_width fns512) with 64 in E.
  match goal with |- context [run_rows ?a ?b ?r ?d] => set (X := run_rows a b r d) in * end.
  destruct X as [v w]. cbn [fst] in E. rewrite E. reflexivity.
Qed.

(** ** What is needed of an algorithm description *)

Record md_ok (A : md) : Prop := {
  mo_block : md_block A = 64%nat \/ md_block A = 128%nat;
  mo_wbytes : (0 < md_wbytes A)%nat;
  mo_compress : forall h b, good_h A h -> good_h A (md_compress A h b);
  mo_iv : good_h A (md_iv A);
  mo_field : (8 <= md_field A <= 16)%nat;
  mo_lenfield : forall b, length (md_lenfield A b) = md_field A;
  mo_word : forall x, length (md_word A x) = md_wbytes A;
  mo_digest : (md_digest A <= md_nwords A * md_wbytes A)%nat
}.

Lemma compress_good P h b : length h = 8%nat /\ bounded (SpecSha2.width P) h ->
  length (SpecSha2.compress P h b) = 8%nat /\ bounded (SpecSha2.width P) (SpecSha2.compress P h b).
Proof. intros [H _]. split; [now apply compress_length|now apply compress_bounded]. Qed.

Ltac bnd := repeat constructor; vm_compute; reflexivity.
Ltac iv l := split; [reflexivity|]; let x := eval vm_compute in l in
  replace l with x by (vm_compute; reflexivity); bnd.

Lemma H256_eq : sha256_iv = SpecSha2.H256. Proof. vm_compute. reflexivity. Qed.
Lemma H512_eq : sha512_iv = SpecSha2.H512. Proof. vm_compute. reflexivity. Qed.
Lemma H384_eq : sha384_iv = SpecSha2.H384. Proof. vm_compute. reflexivity. Qed.
Lemma H512_256_eq : sha512_256_iv = SpecSha2.H512_256. Proof. vm_compute. reflexivity. Qed.

Lemma md_of_ok a : md_ok (md_of a).
Proof.
  destruct a; constructor; cbn [md_of md_block md_wbytes md_nwords md_compress md_iv md_field
    md_lenfield md_word md_digest]; unfold good_h; cbn [md_nwords md_wbytes md_of];
    try (left; reflexivity); try (right; reflexivity); try lia;
    try (intros; apply length_be_octets); try (intros; apply length_le_octets).
  - intros h b [H _]. now apply compress1_good.
  - split; [reflexivity|bnd].
  - intros h b. apply (compress_good SpecSha2.params256).
  - rewrite <- H256_eq. split; [reflexivity|bnd].
  - intros h b. apply (compress_good SpecSha2.params512).
  - rewrite <- H384_eq. split; [reflexivity|bnd].
  - intros h b. apply (compress_good SpecSha2.params512).
  - rewrite <- H512_eq. split; [reflexivity|bnd].
  - intros h b. apply (compress_good SpecSha2.params512).
  - rewrite <- H512_256_eq. split; [reflexivity|bnd].
  - intros h b [H _]. now apply compress_rip_good.
  - split; [reflexivity|bnd].
Qed.

(** ** The algorithm descriptions are the standards *)

Lemma md_words_length A h : (forall x, length (md_word A x) = md_wbytes A) ->
  length (md_words A h) = (length h * md_wbytes A)%nat.
Proof.
  intros HW. unfold md_words. induction h as [|x h IH]; [reflexivity|].
  cbn [map List.concat length]. rewrite app_length, IH, HW. lia.
Qed.

Lemma md_iterate_good A h l : md_ok A -> good_h A h -> good_h A (md_iterate A h l).
Proof.
  intros OK. unfold md_iterate. revert h. induction (blocks (md_block A) l) as [|b bs IH]; intros h Hh.
  - exact Hh.
  - cbn [fold_left]. apply IH. now apply (mo_compress A OK).
Qed.

Lemma md_hash_from_length A h n m : md_ok A -> good_h A h -> length (md_hash_from A h n m) = md_digest A.
Proof.
  intros OK Hh. unfold md_hash_from. apply firstn_length_le.
  rewrite md_words_length by apply (mo_word A OK).
  destruct (md_iterate_good A h (md_pad_with A n m) OK Hh) as [-> _]. apply (mo_digest A OK).
Qed.

Lemma md_hash_from_full A h n m : md_ok A -> good_h A h ->
  md_digest A = (md_nwords A * md_wbytes A)%nat ->
  md_hash_from A h n m = md_words A (md_iterate A h (md_pad_with A n m)).
Proof.
  intros OK Hh Hd. unfold md_hash_from. apply firstn_all2.
  rewrite md_words_length by apply (mo_word A OK).
  destruct (md_iterate_good A h (md_pad_with A n m) OK Hh) as [-> _]. lia.
Qed.

Lemma md_hash_standard a m : md_hash (md_of a) m = hash_of a m.
Proof.
  unfold md_hash. pose proof (md_of_ok a) as OK.
  destruct a.
  - rewrite md_hash_from_full by (try apply (mo_iv _ OK); try exact OK; reflexivity). reflexivity.
  - rewrite md_hash_from_full by (try apply (mo_iv _ OK); try exact OK; reflexivity). reflexivity.
  - reflexivity.
  - rewrite md_hash_from_full by (try apply (mo_iv _ OK); try exact OK; reflexivity). reflexivity.
  - reflexivity.
  - rewrite md_hash_from_full by (try apply (mo_iv _ OK); try exact OK; reflexivity). reflexivity.
Qed.

(** ** The engine methods by algorithm *)

Definition algo_tail (a : algo) : N -> list bytes :=
  match a with
  | Sha1 | Sha256 => fun bits => [to_be_bytes 8 bits]
  | Ripemd160 => fun bits => [to_le_bytes 8 bits]
  | _ => fun bits => [array x00 8; to_be_bytes 8 bits]
  end.
Definition algo_input (c : config) (a : algo) : engine -> bytes -> res engine :=
  engine_input c (N.of_nat (md_block (md_of a))) (block_fn c a).
Definition algo_midstate (a : algo) : engine -> res bytes :=
  match a with
  | Sha1 => sha1_midstate | Sha256 => sha256_midstate | Ripemd160 => ripemd_midstate
  | _ => sha512_midstate
  end.
Definition algo_finalize (c : config) (a : algo) : engine -> res bytes :=
  match a with
  | Sha1 => sha1_finalize c
  | Sha256 => sha256_finalize c
  | Sha384 => truncated_finalize c 48
  | Sha512 => sha512_finalize c
  | Sha512_256 => truncated_finalize c 32
  | Ripemd160 => ripemd_finalize c
  end.
Definition algo_from_midstate (a : algo) : bytes -> N -> res engine :=
  match a with
  | Sha1 => sha1_from_midstate
  | Sha256 => sha256_from_midstate
  | Ripemd160 => ripemd_from_midstate
  | _ => sha512_from_midstate
  end.
Definition algo_start (a : algo) (h : list N) (n : N) : engine :=
  mk_engine (array x00 (N.of_nat (md_block (md_of a)))) h n.

Definition algo_iv (a : algo) : list N :=
  match a with
  | Sha1 => sha1_iv | Sha256 => sha256_iv | Sha384 => sha384_iv | Sha512 => sha512_iv
  | Sha512_256 => sha512_256_iv | Ripemd160 => ripemd_iv
  end.
Lemma algo_iv_eq a : algo_iv a = md_iv (md_of a).
Proof.
  destruct a; [reflexivity|apply H256_eq|apply H384_eq|apply H512_eq|apply H512_256_eq|reflexivity].
Qed.

Definition generic_engine (c : config) (a : algo) : HashEngine :=
  {| he_state := engine;
     he_mid := bytes;
     he_block_size := N.of_nat (md_block (md_of a));
     he_default := Ok (algo_start a (algo_iv a) 0);
     he_input := algo_input c a;
     he_n_bytes_hashed := e_length;
     he_finalize := algo_finalize c a;
     he_midstate := algo_midstate a;
     he_from_midstate := algo_from_midstate a |}.

Lemma algo_engine_generic c a : algo_engine c a = generic_engine c a.
Proof.
  destruct a; reflexivity.
Qed.

Lemma block_fn_ok c a e :
  length (e_buffer e) = md_block (md_of a) -> good_h (md_of a) (e_h e) ->
  block_fn c a e = Ok (mk_engine (e_buffer e) (md_compress (md_of a) (e_h e) (e_buffer e)) (e_length e)).
Proof.
  destruct a; cbn [block_fn md_of md_compress md_block]; unfold good_h; cbn [md_nwords md_wbytes md_of]; intros Hb Hh.
  - now apply sha1_block.
  - now apply sha256_block.
  - now apply sha512_block.
  - now apply sha512_block.
  - now apply sha512_block.
  - now apply ripemd_block.
Qed.

Lemma be_octets_16 x : x < 2 ^ 64 -> be_octets 16 x = repeat x00 8 ++ be_octets 8 x.
Proof.
  intros Hx. unfold be_octets.
  assert (E : le_octets 16 x = le_octets 8 x ++ repeat x00 8).
  { unfold le_octets. change (seq 0 16) with (seq 0 8 ++ seq 8 8). rewrite map_app. f_equal.
    cbn [seq map].
    assert (Z : forall i, 8 <= i -> octet (x / 256 ^ i) = x00).
    { intros i Hi. rewrite N.div_small; [reflexivity|].
      apply N.lt_le_trans with (1 := Hx). change (2 ^ 64) with (256 ^ 8).
      apply N.pow_le_mono_r; [discriminate|exact Hi]. }
    rewrite !Z by (vm_compute; discriminate). reflexivity. }
  rewrite E, rev_app_distr. reflexivity.
Qed.

Lemma algo_tail_length a bits : length (List.concat (algo_tail a bits)) = md_field (md_of a).
Proof.
  destruct a; cbn [algo_tail List.concat md_of md_field]; rewrite ?app_nil_r, ?app_length, ?length_array;
    rewrite ?to_be_bytes_octets, ?to_le_bytes_octets, ?length_be_octets, ?length_le_octets; reflexivity.
Qed.

Lemma algo_tail_field a bits : bits < 2 ^ 64 ->
  List.concat (algo_tail a bits) = md_lenfield (md_of a) bits.
Proof.
  intros Hb. destruct a; cbn [algo_tail List.concat md_of md_lenfield]; rewrite ?app_nil_r;
    rewrite ?to_be_bytes_octets, ?to_le_bytes_octets, ?(be_octets_16 bits Hb); reflexivity.
Qed.

Lemma algo_midstate_ok a e : good_h (md_of a) (e_h e) ->
  algo_midstate a e = Ok (md_words (md_of a) (e_h e)).
Proof.
  intros [Hl _].
  assert (HH : forall to_bytes word k n,
    (forall x, to_bytes k x = word x) -> (0 < k)%nat -> (forall x, length (word x) = k) ->
    length (e_h e) = n ->
    midstate_bytes to_bytes k (N.of_nat (n * k)) e = Ok (List.concat (map word (e_h e)))).
  { intros tb word k n E Hk HW Hn. unfold midstate_bytes.
    rewrite (map_ext (tb k) word) by exact E. apply zip_copy_ok; [exact Hk| |].
    - apply Forall_forall. intros v Hv. apply in_map_iff in Hv. destruct Hv as (x & <- & _). apply HW.
    - rewrite length_array, map_length, Hn. lia. }
  destruct a; unfold algo_midstate, sha1_midstate, sha256_midstate, sha512_midstate, ripemd_midstate, md_words;
    cbn [md_of md_word md_nwords md_wbytes] in *.
  - apply (HH to_be_bytes (be_octets 4) 4%nat 5%nat); auto using length_be_octets, to_be_bytes_octets; lia.
  - apply (HH to_be_bytes (be_octets 4) 4%nat 8%nat); auto using length_be_octets, to_be_bytes_octets; lia.
  - apply (HH to_be_bytes (be_octets 8) 8%nat 8%nat); auto using length_be_octets, to_be_bytes_octets; lia.
  - apply (HH to_be_bytes (be_octets 8) 8%nat 8%nat); auto using length_be_octets, to_be_bytes_octets; lia.
  - apply (HH to_be_bytes (be_octets 8) 8%nat 8%nat); auto using length_be_octets, to_be_bytes_octets; lia.
  - apply (HH to_le_bytes (le_octets 4) 4%nat 5%nat); auto using length_le_octets, to_le_bytes_octets; lia.
Qed.

Lemma algo_finalize_eq c a e : algo_finalize c a e =
  let* e' := finalize_pad c (N.of_nat (md_block (md_of a))) (block_fn c a)
               (N.of_nat (md_field (md_of a))) (algo_tail a) e in
  let* d := algo_midstate a e' in
  match a with Sha384 | Sha512_256 =>
    let n := N.of_nat (md_digest (md_of a)) in
    let* t := slice_to n d in copy_from_slice (array x00 n) t
  | _ => Ok d end.
Proof.
  assert (Hret : forall A (x : res A), (let* d := x in Ok d) = x) by (intros A []; reflexivity).
  destruct a; cbn [algo_finalize].
  - unfold sha1_finalize. cbn [algo_midstate].
    change (N.of_nat (md_block (md_of Sha1))) with BLOCK_SIZE_SHA1.
    change (N.of_nat (md_field (md_of Sha1))) with 8.
    destruct (finalize_pad _ _ _ _ _ _); cbn [bind]; [now rewrite Hret|reflexivity].
  - unfold sha256_finalize. cbn [algo_midstate].
    change (N.of_nat (md_block (md_of Sha256))) with BLOCK_SIZE_256.
    change (N.of_nat (md_field (md_of Sha256))) with 8.
    destruct (finalize_pad _ _ _ _ _ _); cbn [bind]; [now rewrite Hret|reflexivity].
  - unfold truncated_finalize, sha512_finalize. cbn [algo_midstate].
    change (N.of_nat (md_block (md_of Sha384))) with BLOCK_SIZE_512.
    change (N.of_nat (md_field (md_of Sha384))) with 16.
    destruct (finalize_pad _ _ _ _ _ _); cbn [bind]; reflexivity.
  - unfold sha512_finalize. cbn [algo_midstate].
    change (N.of_nat (md_block (md_of Sha512))) with BLOCK_SIZE_512.
    change (N.of_nat (md_field (md_of Sha512))) with 16.
    destruct (finalize_pad _ _ _ _ _ _); cbn [bind]; [now rewrite Hret|reflexivity].
  - unfold truncated_finalize, sha512_finalize. cbn [algo_midstate].
    change (N.of_nat (md_block (md_of Sha512_256))) with BLOCK_SIZE_512.
    change (N.of_nat (md_field (md_of Sha512_256))) with 16.
    destruct (finalize_pad _ _ _ _ _ _); cbn [bind]; reflexivity.
  - unfold ripemd_finalize. cbn [algo_midstate].
    change (N.of_nat (md_block (md_of Ripemd160))) with BLOCK_SIZE_RIPEMD.
    change (N.of_nat (md_field (md_of Ripemd160))) with 8.
    destruct (finalize_pad _ _ _ _ _ _); cbn [bind]; [now rewrite Hret|reflexivity].
Qed.

(** ** Complete behaviour *)

Section Behaviour.
  Context (c : config) (a : algo) (WF : wf_config c).
  Notation A := (md_of a).
  Notation M := (2 ^ usize_bits c).

  Definition state_at (h0 : list N) (L0 : N) (msg : bytes) : engine :=
    canon (md_block A) (md_compress A) M (array x00 (N.of_nat (md_block A))) h0 L0 msg.

  (** counter after [n] more bytes *)
  Definition counter (L0 n : N) : N := (L0 + n) mod M.

  Let OK := md_of_ok a.

  Lemma block_range : (64 <= md_block A <= 128)%nat.
  Proof. destruct (mo_block A OK) as [-> | ->]; lia. Qed.
  Lemma block_div : exists q, 65536 = N.of_nat (md_block A) * q /\ 0 < q.
  Proof. destruct (mo_block A OK) as [-> | ->]; [exists 1024|exists 512]; split; reflexivity. Qed.
  Lemma buf_len : length (array x00 (N.of_nat (md_block A))) = md_block A.
  Proof. rewrite length_array. lia. Qed.
  Let Hgood : forall h b, good_h A h -> length b = md_block A -> good_h A (md_compress A h b).
  Proof. intros h b Hh _. now apply (mo_compress A OK). Qed.

  Lemma state_at_nil h0 L0 : L0 < M -> state_at h0 L0 [] = algo_start a h0 L0.
  Proof.
    intros HL. unfold state_at, canon, algo_start. cbn [length]. rewrite blocks_nil.
    rewrite Nat.div_0_l, Nat.mul_0_l by (pose proof block_range as HBR; clear -HBR; lia).
    cbn [skipn length app last fold_left]. unfold len. cbn [length].
    rewrite N.add_0_r, N.mod_small by exact HL. reflexivity.
  Qed.

  Context (h0 : list N) (L0 : N) (Hh0 : good_h A h0) (HL0 : L0 mod N.of_nat (md_block A) = 0).

  Lemma state_at_h msg : e_h (state_at h0 L0 msg) = md_iterate A h0 msg.
  Proof. reflexivity. Qed.

  Lemma state_at_length msg : e_length (state_at h0 L0 msg) = counter L0 (len msg).
  Proof. reflexivity. Qed.

  Lemma algo_input_exact msg d :
    algo_input c a (state_at h0 L0 msg) d =
    if overflow_checks c && (M <=? counter L0 (len msg) + len d) then Panic POverflow
    else Ok (state_at h0 L0 (msg ++ d)).
  Proof.
    exact (input_exact c (md_block A) (block_fn c a) (md_compress A) (good_h A) WF
      block_range block_div (block_fn_ok c a) Hgood M eq_refl
      (array x00 (N.of_nat (md_block A))) h0 L0 buf_len Hh0 HL0 msg d).
  Qed.

  Lemma algo_midstate_exact msg :
    algo_midstate a (state_at h0 L0 msg) = Ok (md_words A (md_iterate A h0 msg)).
  Proof. apply algo_midstate_ok. rewrite state_at_h. now apply md_iterate_good. Qed.

  Definition bits_at (n : N) : N := (8 * counter L0 n) mod 2 ^ 64.

  Definition finalize_overflows (msg : bytes) : bool :=
    overflow_checks c &&
    ((M <=? counter L0 (len msg) + (1 + N.of_nat (md_zeros A (length msg)) + N.of_nat (md_field A)))
     || (2 ^ 64 <=? 8 * counter L0 (len msg))).

  Lemma zeros_md n : ProofEngine.zeros (md_block A) (md_field A) n = md_zeros A n.
  Proof. reflexivity. Qed.

  Lemma algo_finalize_exact msg :
    algo_finalize c a (state_at h0 L0 msg) =
    if finalize_overflows msg then Panic POverflow
    else Ok (md_hash_from A h0 (bits_at (len msg)) msg).
  Proof.
    rewrite algo_finalize_eq. unfold finalize_overflows.
    destruct (overflow_checks c &&
      ((M <=? counter L0 (len msg) + (1 + N.of_nat (md_zeros A (length msg)) + N.of_nat (md_field A)))
       || (2 ^ 64 <=? 8 * counter L0 (len msg)))) eqn:EO.
    - apply andb_prop in EO. destruct EO as [Ec EO]. apply orb_prop in EO.
      unfold state_at.
      rewrite (finalize_panic c (md_block A) (block_fn c a) (md_compress A) (good_h A) WF
        block_range block_div (block_fn_ok c a) Hgood M eq_refl
        (array x00 (N.of_nat (md_block A))) h0 L0 buf_len Hh0 HL0 (md_field A) (mo_field A OK)
        (algo_tail a) (algo_tail_length a) msg Ec); [reflexivity|].
      rewrite zeros_md. unfold counter in EO.
      destruct EO as [EO|EO]; apply N.leb_le in EO; [left|right]; exact EO.
    - unfold state_at.
      rewrite (finalize_canon c (md_block A) (block_fn c a) (md_compress A) (good_h A) WF
        block_range block_div (block_fn_ok c a) Hgood M eq_refl
        (array x00 (N.of_nat (md_block A))) h0 L0 buf_len Hh0 HL0 (md_field A) (mo_field A OK)
        (algo_tail a) (algo_tail_length a) msg); cbn [bind].
      + fold (state_at h0 L0
          (msg ++ ProofEngine.padding (md_block A) M L0 (md_field A) (algo_tail a) msg)).
        rewrite algo_midstate_exact. cbn [bind].
        assert (EP : msg ++ ProofEngine.padding (md_block A) M L0 (md_field A) (algo_tail a) msg
                     = md_pad_with A (bits_at (len msg)) msg).
        { unfold md_pad_with, md_padding, ProofEngine.padding. rewrite zeros_md.
          rewrite algo_tail_field; [reflexivity|]. unfold ProofEngine.bit_field.
          apply N.mod_lt. discriminate. }
        rewrite EP. unfold md_hash_from.
        set (w := md_words A (md_iterate A h0 (md_pad_with A (bits_at (len msg)) msg))).
        assert (Hw : length w = (md_nwords A * md_wbytes A)%nat).
        { unfold w. rewrite md_words_length by apply (mo_word A OK).
          now destruct (md_iterate_good A h0 (md_pad_with A (bits_at (len msg)) msg) OK Hh0) as [-> _]. }
        assert (Htr : forall n, N.of_nat n <= len w ->
          (let* t := slice_to (N.of_nat n) w in copy_from_slice (array x00 (N.of_nat n)) t) = Ok (firstn n w)).
        { intros n Hn. unfold slice_to. destruct (N.leb_spec (N.of_nat n) (len w)); [|lia]. cbn [bind].
          unfold copy_from_slice. unfold len in *. rewrite Nat2N.id, firstn_length_le, length_array, Nat2N.id by lia.
          now rewrite N.eqb_refl. }
        clearbody w. unfold len in Htr.
        destruct a; cbn [md_of md_nwords md_wbytes md_digest] in *;
          try (rewrite firstn_all2; [reflexivity|rewrite Hw; lia]);
          apply Htr; rewrite Hw; lia.
      + unfold no_overflow. destruct (overflow_checks c); [right|now left].
        cbn [andb] in EO. apply orb_false_elim in EO. destruct EO as [EO _].
        apply N.leb_gt in EO. rewrite zeros_md. exact EO.
      + intros Ec. rewrite Ec in EO. cbn [andb] in EO. apply orb_false_elim in EO.
        destruct EO as [_ EO]. apply N.leb_gt in EO. exact EO.
  Qed.
End Behaviour.
