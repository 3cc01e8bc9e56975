(** Proofs for the build for fuzzing (SpecFuzz.v). *)
From Coq Require Import NArith ZArith List Bool Lia String Permutation.
From Coq Require Import Strings.Byte.
From Verif Require Import Base SpecBase SpecMD SpecMac ModelEngine ModelTypes ModelSip ModelHmac ModelAll SpecApi
  GenBase GenLib GenSip GenHmac GenSha256Const GenFuzz ScopeBase GenScope SpecFuzz
  ModelSha256 ProofBase ProofMD ProofApi ProofConst ProofSip ProofMac ProofTypes ProofGenBase ProofGenSip ProofGenMac ProofGenProgram.
Import ListNotations.
Open Scope N_scope.

(** ** Declared variables *)
Fixpoint unbound (env : list string) (s : scope) : list string :=
  match s with
  | SVar x => if existsb (String.eqb x) env then [] else [x]
  | SNode l => flat_map (unbound env) l
  | SLet xs i b => unbound env i ++ unbound (xs ++ env) b
  end.
Section ScopeInd.
  Context (P : scope -> Prop) (HV : forall x, P (SVar x)) (HN : forall l, Forall P l -> P (SNode l))
    (HL : forall xs i b, P i -> P b -> P (SLet xs i b)).
  Fixpoint scope_nested_ind (s : scope) : P s :=
    match s with
    | SVar x => HV x
    | SNode l => HN l ((fix go l := match l return Forall P l with
                                     | [] => Forall_nil P
                                     | x :: l => Forall_cons x (scope_nested_ind x) (go l)
                                     end) l)
    | SLet xs i b => HL xs i b (scope_nested_ind i) (scope_nested_ind b)
    end.
End ScopeInd.
Lemma existsb_In x l : existsb (String.eqb x) l = true <-> In x l.
Proof.
  rewrite existsb_exists. split.
  - intros (y & Hy & E). apply String.eqb_eq in E. now subst.
  - intros H. exists x. split; [exact H|apply String.eqb_refl].
Qed.
Lemma unbound_free x s : forall env, In x (unbound env s) <-> free x s /\ ~ In x env.
Proof.
  induction s as [y|l IH|xs i b IHi IHb] using scope_nested_ind; intros env; cbn [unbound].
  - destruct (existsb (String.eqb y) env) eqn:E.
    + apply existsb_In in E. split; [intros []|]. intros [H N]. inversion H; subst. contradiction.
    + split.
      * intros [->|[]]. split; [constructor|]. intros H. apply existsb_In in H. congruence.
      * intros [H N]. inversion H; subst. now left.
  - rewrite in_flat_map. rewrite Forall_forall in IH. split.
    + intros (s & Hs & H). apply (IH s Hs) in H. destruct H as [H N]. split; [|exact N]. exact (free_node x l s Hs H).
    + intros [H N]. inversion H as [|l' s Hs Hf| |]; subst. exists s. split; [exact Hs|]. apply (IH s Hs). now split.
  - rewrite in_app_iff, IHi, IHb, in_app_iff. split.
    + intros [[H N]|[H N]]; (split; [|tauto]); [now apply free_init|apply free_body; tauto].
    + intros [H N]. inversion H; subst; [left|right]; tauto.
Qed.
Lemma declared_unbound f : declared f <-> unbound [] (sc_body f) = [].
Proof.
  unfold declared. split.
  - intros H. destruct (unbound [] (sc_body f)) as [|x l] eqn:E; [reflexivity|]. exfalso.
    apply (H x). apply (unbound_free x _ []). rewrite E. now left.
  - intros H x Hx. assert (In x (unbound [] (sc_body f))) by (apply unbound_free; auto). rewrite H in H0. exact H0.
Qed.
Theorem scopes_declared : forall fuzz,
  (forall f, In f scopes -> compiled fuzz (sc_when f) = true -> declared f) <-> fuzz = false.
Proof.
  intros fuzz. split.
  - destruct fuzz; [|reflexivity]. intros H. exfalso.
    assert (B : existsb (fun f => compiled true (sc_when f) && negb (match unbound [] (sc_body f) with [] => true | _ => false end)) scopes = true)
      by (vm_compute; reflexivity).
    apply existsb_exists in B. destruct B as (f & Hf & B). apply andb_true_iff in B. destruct B as [B1 B2].
    pose proof (proj1 (declared_unbound f) (H f Hf B1)) as E. rewrite E in B2. discriminate.
  - intros -> f Hf Hc. apply declared_unbound.
    assert (B : forallb (fun f => implb (compiled false (sc_when f)) (match unbound [] (sc_body f) with [] => true | _ => false end)) scopes = true)
      by (vm_compute; reflexivity).
    rewrite forallb_forall in B. specialize (B f Hf). rewrite Hc in B. cbn in B.
    destruct (unbound [] (sc_body f)); [reflexivity|discriminate].
Qed.
Theorem scopes_undeclared : forall f x, In f scopes -> free x (sc_body f) ->
  sc_file f = "sha256"%string /\ sc_trait f = "HashEngine"%string /\ sc_fn f = "finalize"%string /\ sc_when f = OnlyFuzz /\
  x = "e"%string.
Proof.
  intros f x Hf Hx.
  assert (B : forallb (fun f => match unbound [] (sc_body f) with
      | [] => true
      | l => String.eqb (sc_file f) "sha256" && String.eqb (sc_trait f) "HashEngine" && String.eqb (sc_fn f) "finalize" &&
             match sc_when f with OnlyFuzz => true | _ => false end && forallb (String.eqb "e") l
      end) scopes = true) by (vm_compute; reflexivity).
  rewrite forallb_forall in B. specialize (B f Hf).
  assert (HI : In x (unbound [] (sc_body f))) by (apply unbound_free; auto).
  destruct (unbound [] (sc_body f)) as [|y l]; [destruct HI|].
  rewrite !andb_true_iff, !String.eqb_eq in B. destruct B as ((((B1 & B2) & B3) & B4) & B5).
  repeat split; try assumption; [now destruct (sc_when f)|].
  rewrite forallb_forall in B5. specialize (B5 x HI). now apply String.eqb_eq in B5.
Qed.

(** ** input *)
Lemma to_N_xor a b : Byte.to_N (u8_xor a b) = N.lxor (Byte.to_N a) (Byte.to_N b).
Proof.
  unfold u8_xor. change (Byte.to_N (u8 (N.lxor (b2n a) (b2n b)))) with (b2n (u8 (N.lxor (b2n a) (b2n b)))).
  rewrite b2n_u8. apply N.mod_small. unfold b2n.
  assert (L : N.lxor (Byte.to_N a) (Byte.to_N b) < 2 ^ 8); [|exact L].
  apply lxor_lt; apply to_N_lt.
Qed.
Lemma fold_xor m : forall b, Byte.to_N (fold_left u8_xor m b) = N.lxor (Byte.to_N b) (xor_all m).
Proof.
  induction m as [|x m IH]; intros b; cbn [fold_left xor_all fold_right]; [now rewrite N.lxor_0_r|].
  rewrite IH, to_N_xor, <- N.lxor_assoc. reflexivity.
Qed.
Lemma fold_xor_octet m : fold_left u8_xor m x00 = octet (xor_all m).
Proof. apply to_N_inj. rewrite fold_xor. change (Byte.to_N x00) with 0. rewrite N.lxor_0_l, to_N_octet.
  symmetry. apply N.mod_small. rewrite <- (N.lxor_0_l (xor_all m)). change 0 with (Byte.to_N x00). rewrite <- fold_xor. apply to_N_lt. Qed.
Lemma xor_all_app a b : xor_all (a ++ b) = N.lxor (xor_all a) (xor_all b).
Proof. unfold xor_all. induction a as [|x a IH]; cbn [app fold_right]; [reflexivity|]. now rewrite IH, N.lxor_assoc. Qed.
Lemma xor_all_zeros k : xor_all (repeat x00 k) = 0.
Proof. induction k as [|k IH]; cbn [repeat xor_all fold_right]; [reflexivity|]. unfold xor_all in IH. now rewrite IH. Qed.
Lemma xor_all_lt m : xor_all m < 256.
Proof. rewrite <- (N.lxor_0_l (xor_all m)). change 0 with (Byte.to_N x00). rewrite <- fold_xor. apply to_N_lt. Qed.

Section Input.
  Context (c : config) (WF : wf_config c).
  Notation M := (2 ^ usize_bits c).
  Definition fz_input (s : engine) (d : bytes) : res engine := f_sha1_Engine_input c s d.
  Lemma M_pos : 0 < M. Proof. destruct WF as [-> | [-> | ->]]; reflexivity. Qed.
  Lemma usize_add_mod a b : (overflow_checks c = true -> a + b < M) -> usize_add c a b = Ok ((a + b) mod M).
  Proof.
    intros H. unfold usize_add, checked_add. destruct (N.ltb_spec (a + b) M).
    - now rewrite N.mod_small.
    - destruct (overflow_checks c); [specialize (H eq_refl); lia|reflexivity].
  Qed.
  Lemma fz_loop d : forall b t h n,
    for_each d (fun v_c v_self =>
      let* t1 := index (e_buffer v_self) 0 in
      let* t2 := store (e_buffer v_self) 0 (u8_xor t1 v_c) in
      let v_self := mk_engine t2 (e_h v_self) (e_length v_self) in
      Ok v_self) (mk_engine (b :: t) h n) = Ok (mk_engine (fold_left u8_xor d b :: t) h n).
  Proof.
    induction d as [|x d IH]; intros b t h n; [reflexivity|].
    cbn [for_each fold_left e_buffer index nth_error N.to_nat bind].
    unfold store. replace (0 <? len (b :: t)) with true by (symmetry; apply N.ltb_lt; unfold len; cbn [length]; lia).
    cbn [N.to_nat firstn skipn app bind e_h e_length]. apply IH.
  Qed.
  Lemma fz_input_eq b t h n d : (overflow_checks c = true -> n + len d < M) ->
    fz_input (mk_engine (b :: t) h n) d = Ok (mk_engine (fold_left u8_xor d b :: t) h ((n + len d) mod M)).
  Proof.
    intros H. unfold fz_input, f_sha1_Engine_input. rewrite fz_loop. cbn [bind e_length e_buffer e_h].
    rewrite usize_add_mod by exact H. reflexivity.
  Qed.

  (** any engine with this [input] *)
  Context {mid : Type} (bs : N) (def : res engine) (cnt : engine -> N) (fin : engine -> res bytes)
    (mids : engine -> res mid) (from : mid -> N -> res engine).
  Definition fz_dict : HashEngine := Build_HashEngine engine mid bs def fz_input cnt fin mids from.
  Lemma fz_inputs_eq chunks : forall b t h n, (overflow_checks c = true -> n + len (List.concat chunks) < M) -> n < M ->
    he_inputs fz_dict (mk_engine (b :: t) h n) chunks =
    Ok (mk_engine (fold_left u8_xor (List.concat chunks) b :: t) h ((n + len (List.concat chunks)) mod M)).
  Proof.
    induction chunks as [|d ds IH]; intros b t h n H Hn; cbn [he_inputs List.concat].
    - change (len []) with 0. rewrite N.add_0_r, N.mod_small by exact Hn. reflexivity.
    - cbn [List.concat] in H. rewrite len_app in *. change (he_input fz_dict) with fz_input.
      pose proof M_pos as HM. pose proof (N.mod_lt (n + len d) M ltac:(lia)) as HL.
      rewrite fz_input_eq by (intros O; specialize (H O); lia). cbn [bind].
      rewrite IH; [|intros O; specialize (H O); rewrite N.mod_small by lia; lia|exact HL].
      rewrite fold_left_app, N.add_mod_idemp_l by lia. now rewrite N.add_assoc.
  Qed.
  Lemma fz_chunks_eq t h n chunks : def = Ok (mk_engine (x00 :: t) h n) -> n < M ->
    (overflow_checks c = true -> n + len (List.concat chunks) < M) ->
    he_hash_byte_chunks fz_dict chunks =
    fin (mk_engine (octet (xor_all (List.concat chunks)) :: t) h ((n + len (List.concat chunks)) mod M)).
  Proof.
    intros D Hn H. unfold he_hash_byte_chunks. change (he_default fz_dict) with def. rewrite D. cbn [bind].
    rewrite fz_inputs_eq by assumption. cbn [bind]. change (he_finalize fz_dict) with fin.
    now rewrite fold_xor_octet.
  Qed.
End Input.

(** ** finalize *)
Lemma octet_lxor x y : x < 256 -> y < 256 -> u8_xor (octet x) (octet y) = octet (N.lxor x y).
Proof.
  intros Hx Hy. apply to_N_inj. rewrite to_N_xor, !to_N_octet, !(N.mod_small _ 256); try assumption; [reflexivity|].
  assert (L : N.lxor x y < 2 ^ 8) by (apply lxor_lt; assumption). exact L.
Qed.
Notation zeros k := (repeat x00 k) (only parsing).
Lemma fin_sha256 x h n : x < 256 -> f_sha256_Engine_finalize (mk_engine (octet x :: zeros 63) h n) =
  Ok (one_octet 32 (if x =? 0 then 1 else x)).
Proof.
  intros Hx. unfold f_sha256_Engine_finalize.
  change (f_sha256_Engine_midstate _) with (@Ok bytes (octet x :: zeros 31)).
  cbn [bind]. unfold f_sha256_Midstate_to_byte_array. change (array x00 32) with (x00 :: zeros 31).
  cbn [array_eq]. replace (array_eq (zeros 31) (zeros 31)) with true by reflexivity. rewrite andb_true_r.
  change (b2n (octet x)) with (Byte.to_N (octet x)). rewrite to_N_octet, N.mod_small by exact Hx.
  change (b2n x00) with 0. destruct (N.eqb_spec x 0); reflexivity.
Qed.
Lemma fin_sha512 x h n : x < 256 -> f_sha512_Engine_finalize (mk_engine (octet x :: zeros 127) h n) =
  Ok (one_octet 64 (N.lxor x 255)).
Proof.
  intros Hx. unfold f_sha512_Engine_finalize.
  change (f_sha512_Engine_midstate _) with (@Ok bytes (octet x :: zeros 63)).
  cbn [bind]. change (index (octet x :: zeros 63) 0) with (Ok (octet x)). cbn [bind].
  change (store (octet x :: zeros 63) 0 (u8_xor (octet x) xff)) with (@Ok bytes (u8_xor (octet x) xff :: zeros 63)).
  cbn [bind]. change xff with (octet 255). now rewrite octet_lxor.
Qed.
Lemma fin_sha384 x h n : x < 256 -> f_sha384_Engine_finalize (mk_engine (octet x :: zeros 127) h n) =
  Ok (one_octet 48 (N.lxor x 255)).
Proof. intros Hx. unfold f_sha384_Engine_finalize. cbv zeta. rewrite fin_sha512 by exact Hx. reflexivity. Qed.
Lemma fin_sha512_256 x h n : x < 256 -> f_sha512_256_Engine_finalize (mk_engine (octet x :: zeros 127) h n) =
  Ok (one_octet 32 (N.lxor x 255)).
Proof. intros Hx. unfold f_sha512_256_Engine_finalize. cbv zeta. rewrite fin_sha512 by exact Hx. reflexivity. Qed.
Lemma fin_ripemd x h n : x < 256 -> f_ripemd160_Engine_finalize (mk_engine (octet x :: zeros 63) h n) =
  Ok (one_octet 20 (N.lxor x (n mod 256))).
Proof.
  intros Hx. unfold f_ripemd160_Engine_finalize.
  change (f_ripemd160_Engine_midstate _) with (@Ok bytes (octet x :: zeros 19)).
  cbn [bind e_length]. change (index (octet x :: zeros 19) 0) with (Ok (octet x)). cbn [bind].
  change (store (octet x :: zeros 19) 0 ?y) with (@Ok bytes (y :: zeros 19)).
  cbn [bind]. change 255 with (N.ones 8). rewrite N.land_ones. change (2 ^ 8) with 256.
  change (u8 (n mod 256)) with (octet (n mod 256)). rewrite octet_lxor; [reflexivity|exact Hx|]. apply N.mod_lt. discriminate.
Qed.
Section Sha1.
  Context (c : config) (WF : wf_config c).
  Notation M := (2 ^ usize_bits c).
  Lemma M_64 : exists q, M = 64 * q /\ 1024 <= q.
  Proof. destruct WF as [-> | [-> | ->]]; [exists 1024|exists (2 ^ 26)|exists (2 ^ 58)]; split; try reflexivity; discriminate. Qed.
  Lemma mod_mod_64 a : (a mod M) mod 64 = a mod 64.
  Proof.
    destruct M_64 as (q & -> & Hq). rewrite N.mod_mul_r by lia.
    rewrite N.mul_comm, N.mod_add by lia. apply N.mod_mod. discriminate.
  Qed.
  Lemma xor_keep x l : x < 256 -> fold_left u8_xor l (octet x) = octet (N.lxor x (xor_all l)).
  Proof.
    intros Hx. apply to_N_inj. rewrite fold_xor, !to_N_octet, !(N.mod_small _ 256); [reflexivity| |exact Hx].
    assert (L : N.lxor x (xor_all l) < 2 ^ 8) by (apply lxor_lt; [exact Hx|apply xor_all_lt]). exact L.
  Qed.
  Lemma fin_sha1 x h n : x < 256 -> 8 * n < 2 ^ 64 -> n < M ->
    (overflow_checks c = true -> N.of_nat (md_padded (md_of Sha1) (N.to_nat n)) < M) ->
    f_sha1_Engine_finalize c (mk_engine (octet x :: zeros 63) h n) =
    Ok (one_octet 20 (N.lxor x (xor_all ([x80] ++ be_octets 8 (8 * n))))).
  Proof.
    intros Hx H8 Hn HO.
    assert (HZ : overflow_checks c = true -> n + 1 + (if 56 <? (n + 1) mod 64 then 56 else 0) +
        (56 - (n + 1 + (if 56 <? (n + 1) mod 64 then 56 else 0)) mod 64) + 8 < M).
    { intros O. specialize (HO O). revert HO. unfold md_padded, md_zeros. cbn [md_of md_block md_field].
      change (Z.of_nat 64 - Z.of_nat 8 - 1)%Z with 55%Z. change (Z.of_nat 64) with 64%Z.
      rewrite N_nat_Z. intros HO. eapply N.le_lt_trans; [|exact HO].
      assert (EZ : N.of_nat (Z.to_nat ((55 - Z.of_N n) mod 64)) = Z.to_N ((55 - Z.of_N n) mod 64)) by lia.
      rewrite !Nat2N.inj_add, N2Nat.id, EZ.
      destruct (N.ltb_spec 56 ((n + 1) mod 64)); zify; Z.to_euclidean_division_equations; lia. }
    unfold f_sha1_Engine_finalize. cbv zeta. cbn [e_length].
    fold (fz_input c (mk_engine (octet x :: zeros 63) h n) [x80]).
    rewrite fz_input_eq; [|intros O; specialize (HZ O); unfold len; cbn [length]; lia].
    cbn [bind e_length]. rewrite xor_keep by exact Hx. change (len [x80]) with 1. rewrite mod_mod_64.
    change (len (array x00 56)) with 56. change (array x00 56) with (zeros 56).
    set (k := if 56 <? (n + 1) mod 64 then 56 else 0) in *.
    set (y := N.lxor x (xor_all [x80])).
    assert (Hy : y < 256) by (assert (L : y < 2 ^ 8) by (apply lxor_lt; [exact Hx|apply xor_all_lt]); exact L).
    assert (E1 : (if 56 <? (n + 1) mod 64
       then f_sha1_Engine_input c (mk_engine (octet y :: zeros 63) h ((n + 1) mod M)) (zeros 56)
       else Ok (mk_engine (octet y :: zeros 63) h ((n + 1) mod M))) = Ok (mk_engine (octet y :: zeros 63) h ((n + 1 + k) mod M))).
    { pose proof (M_pos c WF). subst k. destruct (56 <? (n + 1) mod 64) eqn:Eb.
      - fold (fz_input c (mk_engine (octet y :: zeros 63) h ((n + 1) mod M)) (zeros 56)).
        rewrite fz_input_eq. 2:{ intros O. specialize (HZ O). rewrite N.mod_small by lia. change (len (zeros 56)) with 56. lia. }
        rewrite xor_keep, xor_all_zeros, N.lxor_0_r by exact Hy. change (len (zeros 56)) with 56.
        now rewrite N.add_mod_idemp_l by lia.
      - now rewrite N.add_0_r. }
    rewrite E1. clear E1. cbn [bind e_length]. rewrite mod_mod_64.
    assert (HL : (n + 1 + k) mod 64 <= 56).
    { subst k. destruct (N.ltb_spec 56 ((n + 1) mod 64)); zify; Z.to_euclidean_division_equations; lia. }
    assert (ES : usize_sub c 56 ((n + 1 + k) mod 64) = Ok (56 - (n + 1 + k) mod 64)).
    { unfold usize_sub, checked_sub. replace ((n + 1 + k) mod 64 <=? 56) with true by (symmetry; apply N.leb_le; exact HL). reflexivity. }
    rewrite ES. clear ES. cbn [bind]. set (p := 56 - (n + 1 + k) mod 64) in *.
    assert (EL : slice_to p (zeros 56) = Ok (zeros (N.to_nat p))).
    { unfold slice_to. replace (p <=? len (zeros 56)) with true by (symmetry; apply N.leb_le; change (len (zeros 56)) with 56; lia).
      f_equal. assert (HP : (N.to_nat p <= 56)%nat) by lia. revert HP. generalize (N.to_nat p), 56%nat. clear.
      induction n as [|n IH]; intros [|m] H; try lia; [reflexivity..|]. cbn [repeat firstn]. f_equal. apply IH. lia. }
    rewrite EL. clear EL. cbn [bind].
    fold (fz_input c (mk_engine (octet y :: zeros 63) h ((n + 1 + k) mod M)) (zeros (N.to_nat p))).
    pose proof (M_pos c WF).
    assert (LP : len (zeros (N.to_nat p)) = p) by (unfold len; rewrite repeat_length; lia).
    rewrite fz_input_eq. 2:{ intros O. specialize (HZ O). rewrite LP, N.mod_small by lia. lia. }
    rewrite xor_keep, xor_all_zeros, N.lxor_0_r, LP by exact Hy. cbn [bind e_length].
    rewrite N.add_mod_idemp_l by lia. rewrite !mod_mod_64.
    assert (EP : (n + 1 + k + p) mod 64 = 56) by (subst p; zify; Z.to_euclidean_division_equations; lia).
    rewrite EP. change (56 =? 56) with true. rewrite debug_assert_ok by reflexivity. cbn [bind].
    unfold checked_mul. replace (8 * n <? 2 ^ 64) with true by (symmetry; apply N.ltb_lt; exact H8). cbn [bind].
    fold (fz_input c (mk_engine (octet y :: zeros 63) h ((n + 1 + k + p) mod M)) (to_be_bytes 8 (8 * n))).
    assert (L8 : len (to_be_bytes 8 (8 * n)) = 8) by (unfold len; rewrite to_be_bytes_octets, length_be_octets; reflexivity).
    rewrite fz_input_eq. 2:{ intros O. specialize (HZ O). rewrite L8, N.mod_small by lia. lia. }
    cbn [bind e_length]. rewrite L8, N.add_mod_idemp_l by lia. rewrite mod_mod_64.
    assert (EQ : (n + 1 + k + p + 8) mod 64 = 0) by (zify; Z.to_euclidean_division_equations; lia).
    rewrite EQ. rewrite debug_assert_ok by reflexivity. cbn [bind].
    rewrite xor_keep, to_be_bytes_octets by exact Hy.
    change (f_sha1_Engine_midstate (mk_engine (?b :: zeros 63) h ?m)) with (@Ok bytes (b :: zeros 19)).
    unfold one_octet. do 2 f_equal. unfold y. rewrite xor_all_app, N.lxor_assoc. reflexivity.
  Qed.
End Sha1.

(** ** Digests *)
Theorem fuzz_chunks c a chunks : wf_config c -> fits c a (length (List.concat chunks)) ->
  he_hash_byte_chunks (fuzz_engine c a) chunks = Ok (fuzz_hash a (List.concat chunks)).
Proof.
  intros WF [H8 HF].
  set (m := List.concat chunks) in *.
  assert (HM : len m < 2 ^ usize_bits c).
  { unfold len. destruct (overflow_checks c); [|exact HF]. eapply N.le_lt_trans; [|exact HF]. unfold md_padded. lia. }
  assert (HO : overflow_checks c = true -> 0 + len m < 2 ^ usize_bits c) by (intros _; exact HM).
  pose proof (M_pos c WF) as HP. pose proof (xor_all_lt m) as HX.
  assert (EM : (0 + len m) mod 2 ^ usize_bits c = len m) by (rewrite N.mod_small; lia).
  destruct a; cbn [fuzz_engine].
  - change (f_sha1_Engine_dict c) with (fz_dict c 64 (Ok f_sha1_Engine_default) f_sha1_Engine_n_bytes_hashed
      (f_sha1_Engine_finalize c) f_sha1_Engine_midstate f_sha1_Engine_from_midstate).
    etransitivity; [exact (fz_chunks_eq c WF _ _ _ _ _ _ (repeat x00 63) _ 0 chunks eq_refl HP HO)|]. fold m. rewrite EM.
    rewrite fin_sha1; try assumption; [|intros O; rewrite O in HF; unfold len; rewrite Nat2N.id; exact HF].
    cbn [fuzz_hash]. rewrite (xor_all_app m). reflexivity.
  - change (f_sha256_Engine_dict c) with (fz_dict c 64 (Ok f_sha256_Engine_default) f_sha256_Engine_n_bytes_hashed
      f_sha256_Engine_finalize f_sha256_Engine_midstate f_sha256_Engine_from_midstate_trait).
    etransitivity; [exact (fz_chunks_eq c WF _ _ _ _ _ _ (repeat x00 63) _ 0 chunks eq_refl HP HO)|]. fold m. now rewrite fin_sha256.
  - change (f_sha384_Engine_dict c) with (fz_dict c 128 (Ok f_sha384_Engine_default) f_sha384_Engine_n_bytes_hashed
      f_sha384_Engine_finalize f_sha384_Engine_midstate f_sha384_Engine_from_midstate).
    etransitivity; [exact (fz_chunks_eq c WF _ _ _ _ _ _ (repeat x00 127) _ 0 chunks eq_refl HP HO)|]. fold m. now rewrite fin_sha384.
  - change (f_sha512_Engine_dict c) with (fz_dict c 128 (Ok f_sha512_Engine_default) f_sha512_Engine_n_bytes_hashed
      f_sha512_Engine_finalize f_sha512_Engine_midstate f_sha512_Engine_from_midstate).
    etransitivity; [exact (fz_chunks_eq c WF _ _ _ _ _ _ (repeat x00 127) _ 0 chunks eq_refl HP HO)|]. fold m. now rewrite fin_sha512.
  - change (f_sha512_256_Engine_dict c) with (fz_dict c 128 (Ok f_sha512_256_Engine_default) f_sha512_256_Engine_n_bytes_hashed
      f_sha512_256_Engine_finalize f_sha512_256_Engine_midstate f_sha512_256_Engine_from_midstate).
    etransitivity; [exact (fz_chunks_eq c WF _ _ _ _ _ _ (repeat x00 127) _ 0 chunks eq_refl HP HO)|]. fold m. now rewrite fin_sha512_256.
  - change (f_ripemd160_Engine_dict c) with (fz_dict c 64 (Ok f_ripemd160_Engine_default) f_ripemd160_Engine_n_bytes_hashed
      f_ripemd160_Engine_finalize f_ripemd160_Engine_midstate f_ripemd160_Engine_from_midstate).
    etransitivity; [exact (fz_chunks_eq c WF _ _ _ _ _ _ (repeat x00 63) _ 0 chunks eq_refl HP HO)|]. fold m. rewrite EM. now rewrite fin_ripemd.
Qed.
Theorem fuzz_digest c a : wf_config c ->
  (forall chunks, fits c a (length (List.concat chunks)) ->
     g_lib_HashEngine_hash_byte_chunks (fuzz_engine c a) chunks = Ok (fuzz_hash a (List.concat chunks))) /\
  (forall m, fits c a (length m) -> fuzz_hash_fn c a m = Ok (fuzz_hash a m)).
Proof.
  intros WF. split.
  - intros chunks H. rewrite lib_chunks_gen. now apply fuzz_chunks.
  - intros m H. pose proof (fuzz_chunks c a [m] WF) as E. cbn [List.concat] in E. rewrite app_nil_r in E.
    rewrite <- (E H). unfold he_hash_byte_chunks. cbn [he_inputs].
    destruct a; cbn [fuzz_hash_fn fuzz_engine]; 
      (unfold f_sha1_Hash_hash, f_sha256_Hash_hash, f_sha384_Hash_hash, f_sha512_Hash_hash, f_sha512_256_Hash_hash, f_ripemd160_Hash_hash;
       apply bind_ext; intros s _; rewrite bind_assoc; cbn [bind]; reflexivity).
Qed.

(** ** SipHash *)
Lemma fuzz_sip_round s : f_siphash24_Engine_c_rounds s = g_siphash24_Engine_c_rounds s.
Proof.
  transitivity (c_rounds s); [destruct s; reflexivity|]. symmetry. exact (sip_c_rounds_gen s).
Qed.
Ltac sip_norm := cbv zeta; cbn [sip_k0 sip_k1 sip_length sip_st sip_tail sip_ntail v0 v1 v2 v3].
Lemma fuzz_sip_loop c d l lf : forall n e i,
  f_siphash24_Engine_input_loop1 n c d l lf e i = g_siphash24_Engine_input_loop1 n c d l lf e i.
Proof.
  induction n as [|n IH]; intros e i; [reflexivity|].
  cbn [f_siphash24_Engine_input_loop1 g_siphash24_Engine_input_loop1].
  apply bind_ext. intros t8 _. destruct (i <? t8); [|reflexivity].
  apply bind_ext. intros [] _. sip_norm. apply bind_ext. intros w _. sip_norm. rewrite fuzz_sip_round.
  apply bind_ext. intros j _. apply IH.
Qed.
Lemma fuzz_sip_input c e d : f_siphash24_Engine_input c e d = g_siphash24_Engine_input c e d.
Proof.
  unfold f_siphash24_Engine_input, g_siphash24_Engine_input.
  change f_siphash24_u8to64_le with g_siphash24_u8to64_le.
  sip_norm. apply bind_ext. intros t1 _. sip_norm. destruct (negb (sip_ntail e =? 0)).
  - apply bind_ext. intros t2 _. apply bind_ext. intros t3 _. apply bind_ext. intros t4 _. apply bind_ext. intros t5 _.
    sip_norm. destruct (len d <? t2); [reflexivity|].
    apply bind_ext. intros l _. rewrite fuzz_sip_round. rewrite fuzz_sip_loop. reflexivity.
  - apply bind_ext. intros l _. rewrite fuzz_sip_loop. reflexivity.
Qed.
Lemma fuzz_sip_inputs c l : forall e, he_inputs (f_siphash24_Engine_dict c) e l = he_inputs (g_siphash24_Engine_dict c) e l.
Proof. induction l as [|d l IH]; intros e; [reflexivity|]. cbn [he_inputs].
  change (he_input (f_siphash24_Engine_dict c) e d) with (f_siphash24_Engine_input c e d).
  rewrite fuzz_sip_input. apply bind_ext. intros e' _. apply IH. Qed.
Lemma fuzz_sip_final c k0 k1 msg : f_siphash24_Engine_finalize (sip_at c k0 k1 (sip_init k0 k1) msg) = le_octets 8 (fuzz_sip k0 k1 msg).
Proof.
  unfold f_siphash24_Engine_finalize, f_siphash24_Engine_midstate, fuzz_sip, sip_at. cbn [sip_st].
  destruct (fold_left sip_word (le_words 8 msg) (sip_init k0 k1)) as [[[a b] d] e]. cbn [st_of v0 v1 v2 v3].
  apply to_le_bytes_octets.
Qed.
Theorem fuzz_sip_keyed c k0 k1 chunks : wf_config c -> k0 < 2 ^ 64 -> k1 < 2 ^ 64 -> slice c (List.concat chunks) ->
  (let* e := he_inputs (f_siphash24_Engine_dict c) (f_siphash24_Engine_with_keys k0 k1) chunks in
   he_finalize (f_siphash24_Engine_dict c) e) = Ok (le_octets 8 (fuzz_sip k0 k1 (List.concat chunks))).
Proof.
  intros WF H0 H1 HS. destruct (wf_M c WF) as [H256 _].
  transitivity (bind (he_inputs (f_siphash24_Engine_dict c) (with_keys k0 k1) chunks)
    (fun e : sip_engine => Ok (f_siphash24_Engine_finalize e))); [reflexivity|].
  transitivity (bind (he_inputs (g_siphash24_Engine_dict c) (with_keys k0 k1) chunks)
    (fun e : sip_engine => Ok (f_siphash24_Engine_finalize e))).
  { exact (f_equal (fun r => bind r (fun e : sip_engine => Ok (f_siphash24_Engine_finalize e)))
      (fuzz_sip_inputs c chunks (with_keys k0 k1))). }
  pose proof (chunks_slices c chunks HS) as HF.
  pose proof (agree_inputs c _ _ _ _ (sip_agree c WF) chunks HF (with_keys k0 k1) (with_keys k0 k1) (conj eq_refl eq_refl)) as HR.
  rewrite (sip_with_keys_at c) in *.
  rewrite (sip_inputs_exact c k0 k1 _ (sip_init_vb k0 k1 H0 H1) H256 chunks [] HF) in HR.
  change (len []) with 0 in HR. rewrite N.mod_0_l, N.add_0_l in HR by lia. cbn [app] in HR.
  destruct (N.leb_spec (2 ^ usize_bits c) (len (List.concat chunks))) as [HL|_]; [unfold slice in HS; lia|].
  rewrite andb_false_r in HR.
  destruct (he_inputs (g_siphash24_Engine_dict c) (sip_at c k0 k1 (sip_init k0 k1) []) chunks) as [e|p]; [|contradiction].
  destruct HR as [-> _]. cbn [bind]. now rewrite fuzz_sip_final.
Qed.

(** ** HMAC and tagged hashes *)
Lemma fuzz_hmac_dict c E : f_hmac_Engine_dict c E = g_hmac_Engine_dict c E. Proof. reflexivity. Qed.
Lemma fuzz_hmac_new c E key : f_hmac_Engine_new c E key = g_hmac_Engine_new c E key. Proof. reflexivity. Qed.
Lemma fuzz_hmac_inputs c E l : forall s, he_inputs (f_hmac_Engine_dict c E) s l = he_inputs (hmac_engine c E) s l.
Proof. induction l as [|d l IH]; intros s; [reflexivity|]. cbn [he_inputs]. apply bind_ext. intros e' _. apply IH. Qed.
Lemma fuzz_hash_length a m : length (fuzz_hash a m) = digest_len a.
Proof. destruct a; cbn [fuzz_hash]; unfold one_octet; cbn [length]; now rewrite repeat_length. Qed.
Theorem fuzz_hmac c a key chunks : wf_config c -> fits c a (length key) ->
  fits c a (block_len a + length (List.concat chunks)) -> fits c a (block_len a + digest_len a) ->
  (let* s := f_hmac_Engine_new c (fuzz_engine c a) key in
   let* s := he_inputs (f_hmac_Engine_dict c (fuzz_engine c a)) s chunks in
   he_finalize (f_hmac_Engine_dict c (fuzz_engine c a)) s)
  = Ok (HMAC (fuzz_hash a) (block_len a) key (List.concat chunks)).
Proof.
  intros WF Hk Hi Ho. rewrite fuzz_hmac_new, hmac_new_gen.
  rewrite <- (hmac_lawful_law c (fuzz_engine c a) (fuzz_hash a) (fits c a) (block_len a) (digest_len a)
    (fun chunks H => fuzz_chunks c a chunks WF H) ltac:(destruct a; reflexivity) ltac:(destruct a; cbn; lia)
    (fuzz_hash_length a) (digest_le_block a) key chunks (fun _ => Hk) Hi Ho).
  apply bind_ext. intros s _. rewrite fuzz_hmac_inputs. reflexivity.
Qed.
Lemma chunks4_words mid : length mid = 32%nat -> exists h,
  zip_iter_mut (array 0 8) (chunks_exact 4 mid) (fun v_ret_val v_midstate_bytes =>
      let* t1 := from_be_bytes 4 v_midstate_bytes in
      let v_ret_val := t1 in Ok v_ret_val) = Ok h.
Proof.
  intros L. do 33 (destruct mid as [|? mid]; [try discriminate L|]); [|discriminate L]. eexists. reflexivity.
Qed.
Theorem fuzz_tagged c mid n chunks : wf_config c -> length mid = 32%nat -> n mod 64 = 0 ->
  n + len (List.concat chunks) < 2 ^ usize_bits c ->
  g_lib_HashEngine_hash_byte_chunks (f_sha256t_Engine_dict c (f_sha256_Engine_from_midstate mid n)) chunks =
  Ok (fuzz_hash Sha256 (List.concat chunks)).
Proof.
  intros WF L Hn HF. rewrite lib_chunks_gen. destruct (chunks4_words mid L) as [h Eh].
  assert (ED : f_sha256_Engine_from_midstate mid n = Ok (mk_engine (x00 :: repeat x00 63) h n)).
  { unfold f_sha256_Engine_from_midstate. rewrite Hn. cbn [N.eqb assert bind]. cbv zeta. cbv zeta in Eh. rewrite Eh. reflexivity. }
  rewrite ED.
  change (f_sha256t_Engine_dict c (Ok (mk_engine (x00 :: repeat x00 63) h n))) with
    (fz_dict c 64 (Ok (mk_engine (x00 :: repeat x00 63) h n)) (f_sha256t_Engine_n_bytes_hashed (Ok (mk_engine (x00 :: repeat x00 63) h n)))
      (f_sha256t_Engine_finalize (Ok (mk_engine (x00 :: repeat x00 63) h n)))
      (f_sha256t_Engine_midstate (Ok (mk_engine (x00 :: repeat x00 63) h n)))
      (f_sha256t_Engine_from_midstate (Ok (mk_engine (x00 :: repeat x00 63) h n)))).
  etransitivity; [apply (fz_chunks_eq c WF _ _ _ _ _ _ (repeat x00 63) h n chunks eq_refl); [lia|intros _; exact HF]|].
  unfold f_sha256t_Engine_finalize. now rewrite fin_sha256 by apply xor_all_lt.
Qed.

(** ** What the stand-ins keep and what they lose *)
Lemma xor_all_perm m m' : Permutation m m' -> xor_all m = xor_all m'.
Proof.
  induction 1 as [|b l l' _ IH|b d l|l1 l2 l3 _ IH1 _ IH2].
  - reflexivity.
  - change (N.lxor (Byte.to_N b) (xor_all l) = N.lxor (Byte.to_N b) (xor_all l')). now rewrite IH.
  - change (N.lxor (Byte.to_N d) (N.lxor (Byte.to_N b) (xor_all l)) = N.lxor (Byte.to_N b) (N.lxor (Byte.to_N d) (xor_all l))).
    rewrite <- !N.lxor_assoc. now rewrite (N.lxor_comm (Byte.to_N d)).
  - congruence.
Qed.
Lemma fuzz_hash_perm a m m' : Permutation m m' -> fuzz_hash a m = fuzz_hash a m'.
Proof.
  intros P. pose proof (xor_all_perm _ _ P) as X. pose proof (Permutation_length P) as L.
  destruct a; cbn [fuzz_hash]; rewrite ?xor_all_app, ?X, ?L; reflexivity.
Qed.
Lemma fuzz_HMAC_perm a k k' m m' : Permutation k k' -> Permutation m m' ->
  HMAC (fuzz_hash a) (block_len a) k m = HMAC (fuzz_hash a) (block_len a) k' m'.
Proof.
  intros Pk Pm. assert (P : Permutation (hmac_key (fuzz_hash a) (block_len a) k) (hmac_key (fuzz_hash a) (block_len a) k')).
  { unfold hmac_key. rewrite (Permutation_length Pk). destruct (Nat.ltb _ _).
    - now rewrite (fuzz_hash_perm a _ _ Pk).
    - rewrite (Permutation_length Pk). now apply Permutation_app_tail. }
  unfold HMAC. apply fuzz_hash_perm. apply Permutation_app; [now apply Permutation_map|].
  rewrite (fuzz_hash_perm a _ (xor_pad x36 (hmac_key (fuzz_hash a) (block_len a) k') ++ m')); [reflexivity|].
  apply Permutation_app; [now apply Permutation_map|exact Pm].
Qed.
Lemma octet_inj x y : x < 256 -> y < 256 -> octet x = octet y -> x = y.
Proof.
  intros Hx Hy E. apply (f_equal Byte.to_N) in E. rewrite !to_N_octet in E. now rewrite !N.mod_small in E by assumption.
Qed.
Lemma fuzz_never_zero m : fuzz_hash Sha256 m <> repeat x00 32.
Proof.
  cbn [fuzz_hash]. unfold one_octet. intros E. injection E as E. change x00 with (octet 0) in E.
  pose proof (xor_all_lt m). destruct (N.eqb_spec (xor_all m) 0); apply octet_inj in E; lia.
Qed.
Lemma lxor_255 x : x < 256 -> N.lxor x 255 = 255 - x.
Proof.
  intros H. assert (A : forallb (fun x => N.lxor x 255 =? 255 - x) (map N.of_nat (seq 0 256)) = true) by reflexivity.
  rewrite forallb_forall in A. specialize (A x). rewrite N.eqb_eq in A. apply A.
  rewrite in_map_iff. exists (N.to_nat x). split; [apply N2Nat.id|]. apply in_seq. lia.
Qed.
Lemma fuzz_apart m : fuzz_hash Sha256 m <> fuzz_hash Sha512_256 m.
Proof.
  cbn [fuzz_hash]. unfold one_octet. intros E. injection E as E.
  pose proof (xor_all_lt m). rewrite lxor_255 in E by assumption.
  destruct (N.eqb_spec (xor_all m) 0); apply octet_inj in E; lia.
Qed.
Lemma le_words_short l : (length l < 8)%nat -> le_words 8 l = [].
Proof.
  intros H. unfold le_words, blocks. rewrite Nat.div_small by exact H. reflexivity.
Qed.
Lemma fuzz_sip_tail k0 k1 m t : (length m mod 8 = 0)%nat -> (length t < 8)%nat -> fuzz_sip k0 k1 (m ++ t) = fuzz_sip k0 k1 m.
Proof. intros H T. unfold fuzz_sip. rewrite le_words_app by exact H. rewrite (le_words_short t T), app_nil_r. reflexivity. Qed.

(** The 64 bit result is the real one *)
Lemma fuzz_sip_drounds s : f_siphash24_Engine_d_rounds s = d_rounds s.
Proof. destruct s. reflexivity. Qed.
Lemma fuzz_sip_crounds s : f_siphash24_Engine_c_rounds s = c_rounds s.
Proof. destruct s. reflexivity. Qed.
Lemma fuzz_sip_to_u64 e : f_siphash24_Hash_from_engine_to_u64 e = from_engine_to_u64 e.
Proof.
  unfold f_siphash24_Hash_from_engine_to_u64, from_engine_to_u64. cbv zeta. rewrite fuzz_sip_crounds, fuzz_sip_drounds. reflexivity.
Qed.
Theorem fuzz_sip_u64 c k0 k1 m : wf_config c -> k0 < 2 ^ 64 -> k1 < 2 ^ 64 -> slice c m ->
  f_siphash24_Hash_hash_with_keys c k0 k1 m = Ok (le_octets 8 (fuzz_sip k0 k1 m)) /\
  f_siphash24_Hash_hash_to_u64_with_keys c k0 k1 m = Ok (siphash24 k0 k1 m).
Proof.
  intros WF H0 H1 HS. split.
  - pose proof (fuzz_sip_keyed c k0 k1 [m] WF H0 H1) as E. cbn [List.concat] in E. rewrite app_nil_r in E. rewrite <- (E HS).
    cbn [he_inputs]. unfold f_siphash24_Hash_hash_with_keys. cbv zeta.
    change (he_input (f_siphash24_Engine_dict c)) with (f_siphash24_Engine_input c).
    destruct (f_siphash24_Engine_input c (f_siphash24_Engine_with_keys k0 k1) m); reflexivity.
  - destruct (gen_keyed_standard c k0 k1 m WF H0 H1 HS) as [_ E]. rewrite <- E.
    unfold f_siphash24_Hash_hash_to_u64_with_keys, g_siphash24_Hash_hash_to_u64_with_keys. cbv zeta.
    change (f_siphash24_Engine_with_keys k0 k1) with (g_siphash24_Engine_with_keys k0 k1).
    rewrite fuzz_sip_input. apply bind_ext. intros e _.
    exact (f_equal Ok (eq_trans (fuzz_sip_to_u64 e) (eq_sym (sip_to_u64_gen e)))).
Qed.

(** Resuming from a midstate forgets what was hashed before *)
Theorem fuzz_resume c mid n chunks : wf_config c -> length mid = 32%nat -> n mod 64 = 0 ->
  n + len (List.concat chunks) < 2 ^ usize_bits c ->
  (let* e := he_from_midstate (f_sha256_Engine_dict c) mid n in
   let* e := he_inputs (f_sha256_Engine_dict c) e chunks in
   he_finalize (f_sha256_Engine_dict c) e) = Ok (fuzz_hash Sha256 (List.concat chunks)).
Proof.
  intros WF L Hn HF. destruct (chunks4_words mid L) as [h Eh].
  assert (ED : f_sha256_Engine_from_midstate_trait mid n = Ok (mk_engine (x00 :: repeat x00 63) h n)).
  { unfold f_sha256_Engine_from_midstate_trait. rewrite Hn. cbn [N.eqb assert bind]. cbv zeta. cbv zeta in Eh. rewrite Eh. reflexivity. }
  change (he_from_midstate (f_sha256_Engine_dict c) mid n) with (f_sha256_Engine_from_midstate_trait mid n).
  rewrite ED. cbn [bind].
  change (f_sha256_Engine_dict c) with
    (fz_dict c (he_block_size (f_sha256_Engine_dict c)) (he_default (f_sha256_Engine_dict c)) (he_n_bytes_hashed (f_sha256_Engine_dict c))
      f_sha256_Engine_finalize f_sha256_Engine_midstate f_sha256_Engine_from_midstate_trait).
  rewrite fz_inputs_eq by (assumption || lia || (intros _; exact HF)). cbn [bind].
  rewrite fold_xor_octet.
  exact (fin_sha256 (xor_all (List.concat chunks)) h _ (xor_all_lt _)).
Qed.
Definition two : bytes := x02 :: repeat x00 63.
Theorem fuzz_resume_refuted c : wf_config c ->
  exists mid, (let* e := he_default (f_sha256_Engine_dict c) in
               let* e := he_input (f_sha256_Engine_dict c) e two in
               he_midstate (f_sha256_Engine_dict c) e) = Ok mid /\
    (let* e := he_from_midstate (f_sha256_Engine_dict c) mid 64 in he_finalize (f_sha256_Engine_dict c) e) <>
    g_lib_HashEngine_hash_byte_chunks (f_sha256_Engine_dict c) [two].
Proof.
  intros WF. assert (HM : 0 + len two < 2 ^ usize_bits c) by (destruct WF as [-> | [-> | ->]]; reflexivity).
  exists (x02 :: repeat x00 31). split.
  - change (he_input (f_sha256_Engine_dict c)) with (fz_input c).
    change (he_default (f_sha256_Engine_dict c)) with (Ok (mk_engine (x00 :: repeat x00 63) (e_h f_sha256_Engine_default) 0)).
    cbn [bind]. rewrite fz_input_eq by (intros _; exact HM). cbn [bind]. rewrite N.mod_small by exact HM. reflexivity.
  - pose proof (fuzz_resume c (x02 :: repeat x00 31) 64 [] WF eq_refl eq_refl HM) as E. cbn [he_inputs List.concat] in E.
    assert (F : fits c Sha256 (length (List.concat [two])))
      by (unfold fits; destruct WF as [-> | [-> | ->]], (overflow_checks c); split; reflexivity).
    pose proof (proj1 (fuzz_digest c Sha256 WF) [two] F) as D. intros X.
    assert (Y : Ok (fuzz_hash Sha256 []) = Ok (fuzz_hash Sha256 (List.concat [two]))).
    { rewrite <- D. cbn [fuzz_engine]. rewrite <- X. symmetry. exact E. }
    injection Y as Y. discriminate Y.
Qed.
Theorem fuzz_const_refuted c : wf_config c -> g_sha256_Hash_const_hash c [] <> f_sha256_Hash_hash c [].
Proof.
  intros WF. rewrite gen_const_standard; [|exact WF|destruct WF as [-> | [-> | ->]]; reflexivity|reflexivity].
  change (f_sha256_Hash_hash c) with (fuzz_hash_fn c Sha256). rewrite (proj2 (fuzz_digest c Sha256 WF)).
  - intros E.
    assert (S : const_hash (target 64 true) [] = Ok (hash_of Sha256 [])) by (exact (const_hash_ok (target 64 true) [] eq_refl eq_refl)).
    rewrite <- S in E. pose proof (f_equal (fun r => match r with Ok l => nth 1 l x00 | Panic _ => x00 end) E) as F.
    clear E S. vm_compute in F. discriminate F.
  - unfold fits; destruct WF as [-> | [-> | ->]], (overflow_checks c); split; reflexivity.
Qed.
Theorem fuzz_sip_u64_refuted c : wf_config c ->
  f_siphash24_Hash_hash_to_u64_with_keys c 0 0 [] <>
  let* h := f_siphash24_Hash_hash_with_keys c 0 0 [] in Ok (le_int h).
Proof.
  intros WF. destruct (fuzz_sip_u64 c 0 0 [] WF) as [-> ->]; [reflexivity|reflexivity| |].
  - unfold slice. destruct WF as [-> | [-> | ->]]; reflexivity.
  - intros E. pose proof (f_equal (fun r => match r with Ok x => x | Panic _ => 0 end) E) as F.
    clear E. vm_compute in F. discriminate F.
Qed.
Lemma scope_case_free : exists f, In f scopes /\ sc_when f = OnlyFuzz /\ free "e" (sc_body f).
Proof.
  assert (B : existsb (fun f => match sc_when f with OnlyFuzz => existsb (String.eqb "e") (unbound [] (sc_body f)) | _ => false end) scopes = true)
    by (vm_compute; reflexivity).
  apply existsb_exists in B. destruct B as (f & Hf & B). exists f. split; [exact Hf|].
  destruct (sc_when f); try discriminate. split; [reflexivity|]. apply existsb_In in B. now apply unbound_free in B.
Qed.
Lemma scope_case_declared : exists f, In f scopes /\ sc_when f = OnlyFuzz /\ declared f.
Proof.
  assert (B : existsb (fun f => match sc_when f, unbound [] (sc_body f) with OnlyFuzz, [] => true | _, _ => false end) scopes = true)
    by (vm_compute; reflexivity).
  apply existsb_exists in B. destruct B as (f & Hf & B). exists f. split; [exact Hf|].
  destruct (sc_when f); try discriminate. split; [reflexivity|]. apply declared_unbound. now destruct (unbound [] (sc_body f)).
Qed.
