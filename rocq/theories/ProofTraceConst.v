(** The traced block functions reveal the same for every block and every chaining
    value (C76): their traces are computed with the words left open. *)
From Verif Require Import Base ModelSimd ModelEngine GenBase GenSha1 GenSha256 GenSha512 GenRipemd
  TraceBase TraceSha1 TraceSha256 TraceSha512 TraceRipemd.
Open Scope N_scope.

Definition zero_engine (b h : nat) : engine := mk_engine (repeat x00 b) (repeat 0 h) 0.
Ltac list_n l n :=
  match n with
  | O => destruct l; [|discriminate]
  | S ?n => destruct l as [|? l]; [discriminate|list_n l n]
  end.
Ltac const_trace e b h :=
  let B := fresh in let H := fresh in intros B H;
  destruct e as [bb hh ln]; cbn [e_buffer e_h] in B, H;
  list_n bb b; list_n hh h; clear B H.
Ltac open_config c := destruct c as [ub oc da sh ni be]; destruct da, sh, ni.

Lemma sha1_const c e : length (e_buffer e) = 64%nat -> length (e_h e) = 5%nat ->
  fst (t_sha1_Engine_process_block c e) = fst (t_sha1_Engine_process_block c (zero_engine 64 5)).
Proof.
  const_trace e 64%nat 5%nat. open_config c; lazy; reflexivity.
Qed.
Lemma ripemd_const c e : length (e_buffer e) = 64%nat -> length (e_h e) = 5%nat ->
  fst (t_ripemd160_Engine_process_block c e) = fst (t_ripemd160_Engine_process_block c (zero_engine 64 5)).
Proof.
  const_trace e 64%nat 5%nat. open_config c; lazy; reflexivity.
Qed.
Lemma sha512_const c e : length (e_buffer e) = 128%nat -> length (e_h e) = 8%nat ->
  fst (t_sha512_Engine_process_block c e) = fst (t_sha512_Engine_process_block c (zero_engine 128 8)).
Proof.
  const_trace e 128%nat 8%nat. open_config c; lazy; reflexivity.
Qed.
Lemma sha256_const c e : wf_config c -> length (e_buffer e) = 64%nat -> length (e_h e) = 8%nat ->
  fst (t_sha256_Engine_process_block c e) = fst (t_sha256_Engine_process_block c (zero_engine 64 8)).
Proof.
  intros WF. const_trace e 64%nat 8%nat. destruct c as [ub oc da sh ni be]. unfold wf_config in WF. cbn in WF.
  destruct WF as [->|[->| ->]]; destruct da, sh, ni; lazy; reflexivity.
Qed.
