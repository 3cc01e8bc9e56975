(** API-level consequences for the six Merkle-Damgard engines. *)
From Coq Require Import NArith ZArith List Bool Lia.
From Coq Require Import ZifyBool ZifyNat ZifyN.
From Verif Require Import Base SpecBase SpecMD ModelEngine ModelSha256 ModelSha512 ModelSha1 ModelRipemd ModelAll SpecApi
  ProofBase ProofEngine ProofMD.
Import ListNotations.
Open Scope N_scope.

(** ** Facts about any engine *)

Lemma bind_assoc {A B C} (x : res A) (f : A -> res B) (g : B -> res C) :
  bind (bind x f) g = bind x (fun a => bind (f a) g).
Proof. destruct x; reflexivity. Qed.

Lemma bind_ret {A} (x : res A) : bind x Ok = x.
Proof. destruct x; reflexivity. Qed.

Lemma he_inputs_app E s l1 l2 :
  he_inputs E s (l1 ++ l2) = let* s' := he_inputs E s l1 in he_inputs E s' l2.
Proof.
  revert s. induction l1 as [|d l1 IH]; intros s; [reflexivity|].
  cbn [app he_inputs]. rewrite bind_assoc. destruct (he_input E s d); [apply IH|reflexivity].
Qed.


Definition resumable (a : algo) : bool :=
  match a with Sha1 | Sha256 | Ripemd160 => true | _ => false end.

(** ** The family of states of one algorithm *)

Section Algo.
  Context (c : config) (a : algo) (WF : wf_config c).
  Notation A := (md_of a).
  Notation G := (generic_engine c a).
  Notation M := (2 ^ usize_bits c).

  Lemma M_pos : 0 < M. Proof. apply pow2_pos. Qed.

  Definition mid_valid (m : bytes) : Prop := length m = mid_len a.

  Lemma mod_assert_ok n : n mod N.of_nat (md_block A) = 0 ->
    assert (n mod N.of_nat (md_block A) =? 0) = Ok tt.
  Proof. intros ->. reflexivity. Qed.

  Notation resumable := (resumable a).

  Lemma from_midstate_exact m n : mid_valid m ->
    algo_from_midstate a m n =
    if n mod N.of_nat (md_block A) =? 0 then
      if resumable then Ok (algo_start a (be_words 4 m) n) else Panic PExpect
    else Panic PAssert.
  Proof.
    unfold mid_valid. intros Hm.
    assert (H4 : forall k bs, length m = (4 * k)%nat ->
      from_midstate_bytes bs 4 (N.of_nat k) (from_be_bytes 4) m n =
      if n mod bs =? 0 then Ok (mk_engine (array x00 bs) (be_words 4 m) n) else Panic PAssert).
    { intros k bs Hk. unfold from_midstate_bytes, assert.
      destruct (n mod bs =? 0); cbn [bind]; [|reflexivity].
      rewrite load_words by (try exact Hk; lia). reflexivity. }
    assert (H8 : length m = 64%nat ->
      sha512_from_midstate m n = if n mod 128 =? 0 then Panic PExpect else Panic PAssert).
    { intros Hk. unfold sha512_from_midstate, from_midstate_bytes, assert.
      change BLOCK_SIZE_512 with 128.
      destruct (n mod 128 =? 0); cbn [bind]; [|reflexivity].
      do 4 (destruct m as [|? m]; [discriminate|]). unfold chunks_exact.
      destruct m as [|? m]; [discriminate|]. reflexivity. }
    destruct a; cbn [algo_from_midstate resumable mid_len md_of md_block] in *; unfold algo_start;
      cbn [md_of md_block].
    - apply (H4 5%nat). exact Hm.
    - apply (H4 8%nat). exact Hm.
    - now apply H8.
    - now apply H8.
    - now apply H8.
    - apply (H4 5%nat). exact Hm.
  Qed.

  Lemma be_words_good m : mid_valid m -> resumable = true -> good_h A (be_words 4 m).
  Proof.
    unfold mid_valid, good_h. intros Hm Hr.
    destruct a; cbn [mid_len resumable md_of md_nwords md_wbytes] in *; try discriminate;
      (split; [apply be_words_length; [lia|exact Hm]|apply be_words_bounded; lia]).
  Qed.

  (** Every reachable state is one of these. *)
  Definition from_to (h0 : list N) (L0 : N) (msg : bytes) (s : engine) : Prop :=
    good_h A h0 /\ L0 mod N.of_nat (md_block A) = 0 /\ L0 < M /\ s = state_at c a h0 L0 msg.

  Lemma default_state : algo_start a (algo_iv a) 0 = state_at c a (md_iv A) 0 [].
  Proof. rewrite algo_iv_eq, state_at_nil; [reflexivity|apply M_pos]. Qed.

  Lemma from_to_default : from_to (md_iv A) 0 [] (algo_start a (algo_iv a) 0).
  Proof.
    split; [apply (mo_iv A (md_of_ok a))|]. split; [|split; [apply M_pos|apply default_state]].
    apply N.mod_0_l. destruct (mo_block A (md_of_ok a)) as [-> | ->]; discriminate.
  Qed.

  Lemma from_to_mid m n s : mid_valid m -> n < M -> algo_from_midstate a m n = Ok s ->
    from_to (be_words 4 m) n [] s /\ resumable = true.
  Proof.
    intros Hm Hn E. rewrite from_midstate_exact in E by exact Hm.
    destruct (N.eqb_spec (n mod N.of_nat (md_block A)) 0) as [Ha|]; [|discriminate].
    destruct resumable eqn:Er; [|discriminate]. injection E as <-.
    split; [|reflexivity]. split; [now apply be_words_good|]. split; [exact Ha|]. split; [exact Hn|].
    now rewrite state_at_nil.
  Qed.

  Lemma from_to_input h0 L0 msg s d s' : from_to h0 L0 msg s -> algo_input c a s d = Ok s' ->
    from_to h0 L0 (msg ++ d) s'.
  Proof.
    intros (Hh & HL & HM & ->) E. rewrite algo_input_exact in E by assumption.
    destruct (_ && _) in E; [discriminate|]. injection E as <-. repeat split; assumption || apply Hh.
  Qed.

  Lemma reachable_from_to s : reachable c G mid_valid s -> exists h0 L0 msg, from_to h0 L0 msg s.
  Proof.
    intros H. induction H as [s E|m n s Hm Hn E|s d s' H IH Hd E].
    - cbn [generic_engine he_default] in E. injection E as <-. do 3 eexists. apply from_to_default.
    - destruct (from_to_mid m n s Hm Hn E) as [HF _]. do 3 eexists. exact HF.
    - destruct IH as (h0 & L0 & msg & HF). do 3 eexists. exact (from_to_input _ _ _ _ _ _ HF E).
  Qed.

  (** The counter of the state *)
  Lemma from_to_counter h0 L0 msg s : from_to h0 L0 msg s -> e_length s = (L0 + len msg) mod M.
  Proof. intros (_ & _ & _ & ->). reflexivity. Qed.

  Lemma splits_from_to h0 L0 msg s : from_to h0 L0 msg s -> splits G s.
  Proof.
    intros (Hh & HL & HM & ->) chunks. cbn [generic_engine he_input]. rewrite algo_input_exact by assumption.
    revert msg. induction chunks as [|d ds IH]; intros msg; cbn [he_inputs List.concat].
    - rewrite app_nil_r. unfold len at 2. cbn [length].
      assert (counter c L0 (len msg) < M) by (apply N.mod_lt; pose proof M_pos; lia).
      destruct (N.leb_spec M (counter c L0 (len msg) + N.of_nat 0)); [lia|]. now rewrite andb_false_r.
    - cbn [generic_engine he_input]. rewrite algo_input_exact by assumption.
      rewrite len_app, app_assoc.
      assert (HC : counter c L0 (len msg) < M) by (apply N.mod_lt; pose proof M_pos; lia).
      assert (EC : counter c L0 (len (msg ++ d)) = (counter c L0 (len msg) + len d) mod M).
      { unfold counter. rewrite len_app, N.add_assoc, N.add_mod_idemp_l; [reflexivity|].
        pose proof M_pos; lia. }
      destruct (overflow_checks c); cbn [andb bind].
      + destruct (N.leb_spec M (counter c L0 (len msg) + len d)) as [Ho|Ho]; cbn [bind].
        * destruct (N.leb_spec M (counter c L0 (len msg) + (len d + len (List.concat ds)))); [reflexivity|lia].
        * rewrite IH, EC, N.mod_small, N.add_assoc by exact Ho. reflexivity.
      + rewrite IH. reflexivity.
  Qed.
End Algo.


(** ** Lengths and limits *)


Lemma md_zeros_mod a n k : md_zeros (md_of a) (n + k * md_block (md_of a)) = md_zeros (md_of a) n.
Proof.
  unfold md_zeros. f_equal.
  pose proof (mo_block _ (md_of_ok a)) as HB.
  set (B := md_block (md_of a)) in *. set (F := md_field (md_of a)).
  replace (Z.of_nat B - Z.of_nat F - 1 - Z.of_nat (n + k * B))%Z
    with (Z.of_nat B - Z.of_nat F - 1 - Z.of_nat n + (- Z.of_nat k) * Z.of_nat B)%Z by lia.
  apply Z.mod_add. lia.
Qed.

Lemma md_zeros_congr a n m : (n mod md_block (md_of a) = m mod md_block (md_of a))%nat ->
  md_zeros (md_of a) n = md_zeros (md_of a) m.
Proof.
  intros H. pose proof (mo_block _ (md_of_ok a)) as HB.
  rewrite (Nat.div_mod n (md_block (md_of a))) by lia.
  rewrite (Nat.div_mod m (md_block (md_of a))) by lia.
  rewrite !(Nat.add_comm (md_block (md_of a) * _)), !(Nat.mul_comm (md_block (md_of a))).
  rewrite !md_zeros_mod. now rewrite H.
Qed.

Lemma md_padded_ge A n : (n < md_padded A n)%nat.
Proof. unfold md_padded. lia. Qed.

(** ** Complete description of the trait methods from [new] *)

Lemma hash_byte_chunks_exact c a chunks : wf_config c ->
  let m := List.concat chunks in
  he_hash_byte_chunks (algo_engine c a) chunks =
  if overflow_checks c
  then if (2 ^ usize_bits c <=? N.of_nat (md_padded (md_of a) (length m))) || (2 ^ 64 <=? 8 * len m)
       then Panic POverflow else Ok (hash_of a m)
  else Ok (md_hash_from (md_of a) (md_iv (md_of a))
             ((8 * (len m mod 2 ^ usize_bits c)) mod 2 ^ 64) m).
Proof.
  intros WF m. rewrite algo_engine_generic. unfold he_hash_byte_chunks.
  pose proof (from_to_default c a) as HF. cbn [generic_engine he_default bind].
  rewrite (splits_from_to c a WF _ _ _ _ HF). destruct HF as (Hh & HL & HM & ->).
  cbn [generic_engine he_input he_finalize]. rewrite algo_input_exact by assumption. fold m.
  rewrite app_nil_l.
  assert (HC0 : counter c 0 (len (@nil byte)) = 0) by (apply N.mod_small; apply M_pos).
  rewrite HC0, N.add_0_l.
  assert (HCm : forall n, counter c 0 n = n mod 2 ^ usize_bits c) by (intros; reflexivity).
  pose proof (md_padded_ge (md_of a) (length m)) as Hge.
  destruct (overflow_checks c) eqn:Ec; cbn [andb].
  - destruct (N.leb_spec (2 ^ usize_bits c) (len m)) as [Ho|Ho]; cbn [bind].
    + destruct (N.leb_spec (2 ^ usize_bits c) (N.of_nat (md_padded (md_of a) (length m)))) as [|Ho'];
        [reflexivity|]. unfold len in Ho. lia.
    + rewrite algo_finalize_exact by assumption. unfold finalize_overflows. rewrite Ec. cbn [andb].
      unfold bits_at. rewrite HCm. rewrite (N.mod_small (len m)) by exact Ho.
      replace (len m + (1 + N.of_nat (md_zeros (md_of a) (length m)) + N.of_nat (md_field (md_of a))))
        with (N.of_nat (md_padded (md_of a) (length m))) by (unfold md_padded, len; lia).
      destruct (N.leb_spec (2 ^ usize_bits c) (N.of_nat (md_padded (md_of a) (length m)))) as [|Ho'];
        cbn [orb]; [reflexivity|].
      destruct (N.leb_spec (2 ^ 64) (8 * len m)) as [|H8]; [reflexivity|].
      rewrite N.mod_small by exact H8. f_equal. apply md_hash_standard.
  - cbn [bind]. rewrite algo_finalize_exact by assumption. unfold finalize_overflows. rewrite Ec.
    cbn [andb]. reflexivity.
Qed.

Lemma hash_chunks_standard c a chunks : wf_config c -> fits c a (length (List.concat chunks)) ->
  he_hash_byte_chunks (algo_engine c a) chunks = Ok (hash_of a (List.concat chunks)).
Proof.
  intros WF [H8 Hf]. rewrite hash_byte_chunks_exact by exact WF.
  destruct (overflow_checks c).
  - destruct (N.leb_spec (2 ^ usize_bits c) (N.of_nat (md_padded (md_of a) (length (List.concat chunks)))));
      [lia|]. cbn [orb].
    destruct (N.leb_spec (2 ^ 64) (8 * len (List.concat chunks))); [unfold len in *; lia|]. reflexivity.
  - rewrite (N.mod_small (len _)) by exact Hf. rewrite N.mod_small by exact H8.
    f_equal. apply md_hash_standard.
Qed.

Lemma he_hash_chunks E d : he_hash E d = he_hash_byte_chunks E [d].
Proof.
  unfold he_hash, he_hash_byte_chunks. destruct (he_default E) as [s|p]; [|reflexivity].
  cbn [bind he_inputs]. now rewrite bind_assoc.
Qed.

Lemma hash_standard c a d : wf_config c -> fits c a (length d) ->
  he_hash (algo_engine c a) d = Ok (hash_of a d).
Proof.
  intros WF Hf. rewrite he_hash_chunks, hash_chunks_standard; [|exact WF|].
  - cbn [List.concat]. now rewrite app_nil_r.
  - cbn [List.concat]. now rewrite app_nil_r.
Qed.

(** ** Any reachable state *)

Lemma algo_reachable_from_to c a s : wf_config c -> algo_reachable c a s ->
  reachable c (generic_engine c a) (mid_valid a) (match a return he_state (algo_engine c a) -> engine with
     | Sha1 | Sha256 | Sha384 | Sha512 | Sha512_256 | Ripemd160 => fun s => s end s).
Proof. intros WF H. destruct a; exact H. Qed.

Section Reach.
  Context (c : config) (a : algo) (WF : wf_config c) (s : engine).
  Context (HR : reachable c (generic_engine c a) (mid_valid a) s).
  Notation G := (generic_engine c a).
  Notation M := (2 ^ usize_bits c).

  Lemma gen_splits : splits G s.
  Proof.
    destruct (reachable_from_to c a WF s HR) as (h0 & L0 & m & HF). exact (splits_from_to c a WF h0 L0 m s HF).
  Qed.

  Lemma gen_input_exact d :
    he_input G s d =
    if overflow_checks c && (M <=? e_length s + len d) then Panic POverflow else he_input G s d.
  Proof.
    destruct (reachable_from_to c a WF s HR) as (h0 & L0 & m & (Hh & HL & HM & ->)).
    cbn [generic_engine he_input]. rewrite algo_input_exact by assumption.
    rewrite state_at_length. destruct (overflow_checks c && _); reflexivity.
  Qed.

  Lemma gen_input_ok d :
    is_ok (he_input G s d) = negb (overflow_checks c && (M <=? e_length s + len d)).
  Proof.
    destruct (reachable_from_to c a WF s HR) as (h0 & L0 & m & (Hh & HL & HM & ->)).
    cbn [generic_engine he_input]. rewrite algo_input_exact by assumption.
    rewrite state_at_length. destruct (overflow_checks c && _); reflexivity.
  Qed.

  Lemma gen_input_count d s' : he_input G s d = Ok s' -> e_length s' = (e_length s + len d) mod M.
  Proof.
    destruct (reachable_from_to c a WF s HR) as (h0 & L0 & m & (Hh & HL & HM & ->)).
    cbn [generic_engine he_input]. rewrite algo_input_exact by assumption.
    destruct (overflow_checks c && _); intros E; [discriminate|]. injection E as <-.
    rewrite !state_at_length. unfold counter. rewrite len_app, N.add_assoc, N.add_mod_idemp_l; [reflexivity|].
    pose proof (M_pos c). lia.
  Qed.

  Lemma gen_count_lt : e_length s < M.
  Proof.
    destruct (reachable_from_to c a WF s HR) as (h0 & L0 & m & (Hh & HL & HM & ->)).
    rewrite state_at_length. apply N.mod_lt. pose proof (M_pos c). lia.
  Qed.

  Lemma gen_finalize_ok :
    is_ok (he_finalize G s) =
    negb (overflow_checks c && ((M <=? N.of_nat (md_padded (md_of a) (N.to_nat (e_length s))))
                                || (2 ^ 64 <=? 8 * e_length s))).
  Proof.
    destruct (reachable_from_to c a WF s HR) as (h0 & L0 & m & (Hh & HL & HM & ->)).
    cbn [generic_engine he_finalize]. rewrite algo_finalize_exact by assumption.
    rewrite state_at_length. unfold finalize_overflows.
    replace (N.of_nat (md_padded (md_of a) (N.to_nat (counter c L0 (len m)))))
      with (counter c L0 (len m) + (1 + N.of_nat (md_zeros (md_of a) (length m)) + N.of_nat (md_field (md_of a)))).
    - destruct (overflow_checks c && _); reflexivity.
    - unfold md_padded. rewrite (md_zeros_congr a (length m) (N.to_nat (counter c L0 (len m)))); [lia|].
      apply Nnat.Nat2N.inj. rewrite !Nnat.Nat2N.inj_mod, N2Nat.id.
      symmetry. apply (ProofEngine.canon_length_mod c (md_block (md_of a)) (md_compress (md_of a))
        (good_h (md_of a)) WF (block_range a) (block_div a)
        (fun h b H _ => mo_compress _ (md_of_ok a) h b H) M eq_refl
        (array x00 (N.of_nat (md_block (md_of a)))) h0 L0 (buf_len a) Hh HL m).
  Qed.

  Lemma gen_finalize_panic p : he_finalize G s = Panic p -> p = POverflow.
  Proof.
    destruct (reachable_from_to c a WF s HR) as (h0 & L0 & m & (Hh & HL & HM & ->)).
    cbn [generic_engine he_finalize]. rewrite algo_finalize_exact by assumption.
    destruct (finalize_overflows _ _ _ _); congruence.
  Qed.
  Lemma gen_input_panic d p : he_input G s d = Panic p -> p = POverflow.
  Proof.
    destruct (reachable_from_to c a WF s HR) as (h0 & L0 & m & (Hh & HL & HM & ->)).
    cbn [generic_engine he_input]. rewrite algo_input_exact by assumption.
    destruct (_ && _); congruence.
  Qed.
  Lemma gen_midstate_ok : exists m, he_midstate G s = Ok m /\ length m = mid_len a.
  Proof.
    destruct (reachable_from_to c a WF s HR) as (h0 & L0 & m & (Hh & HL & HM & ->)).
    cbn [generic_engine he_midstate]. rewrite algo_midstate_exact by assumption.
    eexists. split; [reflexivity|].
    rewrite md_words_length by apply (mo_word _ (md_of_ok a)).
    destruct (md_iterate_good _ h0 m (md_of_ok a) Hh) as [-> _]. destruct a; reflexivity.
  Qed.
  Lemma gen_digest_length d : he_finalize G s = Ok d -> length d = digest_len a.
  Proof.
    destruct (reachable_from_to c a WF s HR) as (h0 & L0 & m & (Hh & HL & HM & ->)).
    cbn [generic_engine he_finalize]. rewrite algo_finalize_exact by assumption.
    destruct (finalize_overflows _ _ _ _); intros E; [discriminate|]. injection E as <-.
    rewrite md_hash_from_length by (try apply md_of_ok; exact Hh). destruct a; reflexivity.
  Qed.
End Reach.
