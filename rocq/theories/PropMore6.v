(** What hashing reveals and how much it computes: C67, C68. *)
From Verif Require Import Base SpecBase SpecMD ModelEngine ModelAll ModelStore SpecStore SpecMore
  ModelLeak SpecLeak SpecApi ProofLeakBlock ProofLeak ProofWork.

(** C67 *)
Theorem C67_erase : forall c o chunks, returned (leak_run c o chunks) = digest_of c o chunks.
Proof. exact leak_erase. Qed.
Print Assumptions C67_erase.
Theorem C67_lengths_only : forall c o o' chunks chunks', wf_config c -> origin_real c o ->
  same_public o o' -> map (@length byte) chunks = map (@length byte) chunks' ->
  revealed (leak_run c o chunks) = revealed (leak_run c o' chunks') /\
  same_shape (returned (leak_run c o chunks)) (returned (leak_run c o' chunks')).
Proof. exact leak_lengths. Qed.
Print Assumptions C67_lengths_only.
Example C67_case : let c := target 64 true in
  wf_config c /\ origin_real c (FromKey (KAlgo Sha256) [x6b]) /\
  same_public (FromKey (KAlgo Sha256) [x6b]) (FromKey (KAlgo Sha256) [x00]) /\
  map (@length byte) [[x61]; []] = map (@length byte) [[x62]; []] /\
  revealed (leak_run c (FromKeys 1 2) [[x61; x62; x63]; repeat x64 6]) =
    [LBranch false; LBranch false; LBranch true; LBranch false; LBranch true; LRead 0 2; LBranch true; LRead 2 1;
     LBranch true;
     LBranch true; LBranch false; LBranch true; LBranch true; LRead 0 4; LBranch false; LBranch true; LRead 4 1;
     LBranch true; LBranch false; LSip; LBranch false; LBranch true; LBranch false; LBranch false; LBranch true;
     LRead 5 1; LBranch true; LSip; LSip].
Proof.
  cbv zeta. split; [right; right; reflexivity|]. split; [split; [exact I|reflexivity]|].
  split; [split; reflexivity|]. split; [reflexivity|]. reflexivity.
Qed.
(** The block functions on their own: for every chaining value and every block the
    same branches and the same indices. *)
Theorem C67_block : forall c a e e',
  length (e_buffer e) = block_len a -> good_h (md_of a) (e_h e) ->
  length (e_buffer e') = block_len a -> good_h (md_of a) (e_h e') ->
  revealed (l_block c a e) = revealed (l_block c a e').
Proof. exact block_len_reveals. Qed.
Print Assumptions C67_block.
Example C67_block_case : let t := revealed (l_block (target 64 true) Sha256 ModelSha256.sha256_default) in
  length (e_buffer ModelSha256.sha256_default) = block_len Sha256 /\
  good_h (md_of Sha256) (e_h ModelSha256.sha256_default) /\
  firstn 6 t = [LBlock; LBranch false; LBranch true; LBranch true; LRead 0 4; LSet AW 0] /\
  length t = 380%nat.
Proof.
  cbv zeta. split; [reflexivity|]. split; [split; [reflexivity|repeat constructor]|]. split; vm_compute; reflexivity.
Qed.
(** Other lengths are told apart. *)
Example C67_length_case : let c := target 64 true in
  revealed (leak_run c (FromKeys 1 2) [[x61]]) <> revealed (leak_run c (FromKeys 1 2) [[x61; x62; x63]]).
Proof. cbv zeta. intros H. apply (f_equal (@length leak)) in H. discriminate H. Qed.

(** C68 *)
Theorem C68_work : forall c o chunks h, wf_config c -> origin_real c o -> Forall (slice c) chunks ->
  returned (leak_run c o chunks) = Ok h ->
  call_count (revealed (leak_run c o chunks)) = origin_work o (len (List.concat chunks)).
Proof. exact leak_work. Qed.
Print Assumptions C68_work.
Theorem C68_linear : forall o n m, origin_work o (n + m) <= origin_work o n + m / 8 + 1.
Proof. exact origin_work_linear. Qed.
Print Assumptions C68_linear.
Example C68_case :
  algo_work Sha256 0 = 1 /\ algo_work Sha256 55 = 1 /\ algo_work Sha256 56 = 2 /\ algo_work Sha512 111 = 1 /\
  algo_work Sha512 112 = 2 /\ kind_work (KHmac (KAlgo Sha256)) 3 = 4 /\
  origin_work (FromKey (KAlgo Sha256) (repeat x61 65)) 3 = 6 /\ kind_work (KHmac KSip) 0 = 4 + 2 + (4 + 1 + 2).
Proof. vm_compute. repeat split. Qed.
Example C68_run_case : let c := target 64 true in
  returned (leak_run c (FromKeys 1 2) [[x61; x62; x63]; repeat x64 6]) <> Panic PIndex /\
  call_count (revealed (leak_run c (FromKeys 1 2) [[x61; x62; x63]; repeat x64 6])) = 3.
Proof. cbv zeta. split; [discriminate|reflexivity]. Qed.
