(** Generated sha1.rs against ModelSha1.v *)
From Coq Require Import Arith Lia.
From Verif Require Import Base GenBase ModelEngine ModelSha2Round ModelSha1 GenLib GenSha1 ProofBase ProofGenBase.

Lemma usize_sub_ok cfg a b : b <= a -> usize_sub cfg a b = Ok (a - b).
Proof. intros H. unfold usize_sub, checked_sub. apply N.leb_le in H. now rewrite H. Qed.

Lemma sha1_f_k_gen i b c d :
  (if i <=? 19 then
     Ok (N.lor (N.land b c) (N.land (bit_not 32 b) d), 0x5a827999)
   else
     if (20 <=? i) && (i <=? 39) then Ok (N.lxor (N.lxor b c) d, 0x6ed9eba1)
     else
       if (40 <=? i) && (i <=? 59) then
         Ok (N.lor (N.lor (N.land b c) (N.land b d)) (N.land c d), 0x8f1bbcdc)
       else
         if (60 <=? i) && (i <=? 79) then Ok (N.lxor (N.lxor b c) d, 0xca62c1d6)
         else Panic PUnreachable) = sha1_f_k i b c d.
Proof.
  unfold sha1_f_k.
  destruct (N.leb_spec i 19); [reflexivity|]. destruct (N.leb_spec 20 i); [|lia]. cbn [andb].
  destruct (N.leb_spec i 39); [reflexivity|]. destruct (N.leb_spec 40 i); [|lia]. cbn [andb].
  destruct (N.leb_spec i 59); [reflexivity|]. destruct (N.leb_spec 60 i); [|lia]. cbn [andb].
  destruct (N.leb_spec i 79); reflexivity.
Qed.

Lemma sha1_pb_gen cfg e : length (e_h e) = 5%nat ->
  g_sha1_Engine_process_block cfg e = sha1_process_block cfg e.
Proof.
  intros Hh. unfold g_sha1_Engine_process_block, sha1_process_block, BLOCK_SIZE_SHA1.
  apply bind_ext. intros u _. clear u.
  rewrite zip_iter_mut_assign. apply bind_ext. intros w _.
  match goal with |- bind ?x _ = _ => assert (Ex : x = sha1_expand w) end.
  { unfold sha1_expand. apply for_loop_ext. intros j s Hj. change (N.of_nat 64) with 64 in Hj.
    rewrite !usize_sub_ok by lia. cbn [bind].
    destruct (index s (j - 3)); [|reflexivity]. cbn [bind].
    destruct (index s (j - 8)); [|reflexivity]. cbn [bind].
    destruct (index s (j - 14)); [|reflexivity]. cbn [bind].
    destruct (index s (j - 16)); [|reflexivity]. cbn [bind]. now destruct store. }
  rewrite Ex. clear Ex. apply bind_ext. intros w2 _. clear w. rename w2 into w.
  destruct (e_h e) as [|h0 [|h1 [|h2 [|h3 [|h4 [|]]]]]] eqn:Eh; try discriminate Hh.
  do 5 (erewrite (bind_ok (index _ _)) by reflexivity; symmetry; erewrite (bind_ok (index _ _)) by reflexivity; symmetry).
  match goal with |- bind ?x _ = bind ?y _ => assert (Ex : x = y) end.
  { generalize (h0, h1, h2, h3, h4). generalize 0.
    induction w as [|x w IH]; intros i s; [reflexivity|]. destruct s as [[[[a b] c] d] f].
    cbn [for_enum sha1_rounds]. rewrite sha1_f_k_gen, bind_bind. apply bind_ext. intros [f' k] _.
    cbn [bind]. apply IH. }
  rewrite Ex. apply bind_ext. intros [[[[a b] c] d] f] _. reflexivity.
Qed.

Lemma sha1_pb_inv cfg e e' : length (e_h e) = 5%nat -> sha1_process_block cfg e = Ok e' ->
  e_buffer e' = e_buffer e /\ length (e_h e') = 5%nat.
Proof.
  intros Hh. unfold sha1_process_block.
  destruct debug_assert; [|discriminate]. cbn [bind].
  destruct zip_assign; [|discriminate]. cbn [bind].
  destruct sha1_expand; [|discriminate]. cbn [bind].
  destruct (e_h e) as [|h0 [|h1 [|h2 [|h3 [|h4 [|]]]]]] eqn:Eh; try discriminate Hh.
  do 5 (erewrite (bind_ok (index _ _)) by reflexivity).
  destruct sha1_rounds as [[[[[xa xb] xc] xd] xe]|]; [|discriminate]. cbn [bind].
  intros E. injection E as <-. split; reflexivity.
Qed.

Definition has_words (n : nat) (h : list N) : Prop := length h = n.
