(** Proofs about the traced block functions (C76): what they compute, and that what
    they reveal is the same for all blocks and all chaining values. *)
From Verif Require Import Base ModelSimd ModelEngine GenBase GenSha1 GenSha256 GenSha512 GenRipemd
  TraceBase TraceSha1 TraceSha256 TraceSha512 TraceRipemd ProofTraceBase.
Open Scope N_scope.

(** ** Erasure *)

Ltac er_def f g := cbv beta delta [f g]; er.

Lemma er_sha1 c e : snd (t_sha1_Engine_process_block c e) = g_sha1_Engine_process_block c e.
Proof. er_def t_sha1_Engine_process_block g_sha1_Engine_process_block. Qed.

Lemma er_ripemd c e : snd (t_ripemd160_Engine_process_block c e) = g_ripemd160_Engine_process_block c e.
Proof.
  cbv beta delta [t_ripemd160_Engine_process_block g_ripemd160_Engine_process_block]. destruct (small_hash c).
  - er_def t_ripemd160_Engine_process_block_small g_ripemd160_Engine_process_block_small.
  - er_def t_ripemd160_Engine_process_block_fast g_ripemd160_Engine_process_block_fast.
Qed.

Lemma er_sha256_fast_part4 v_self v_a v_b v_c v_d v_e v_f v_g v_h :
  snd (t_sha256_Engine_software_process_block_fast_part4 v_self v_a v_b v_c v_d v_e v_f v_g v_h) = g_sha256_Engine_software_process_block_fast_part4 v_self v_a v_b v_c v_d v_e v_f v_g v_h.
Proof. er_def t_sha256_Engine_software_process_block_fast_part4 g_sha256_Engine_software_process_block_fast_part4. Qed.
#[export] Hint Resolve er_sha256_fast_part4 : erase.
Lemma er_sha256_fast_part3 v_self v_w v_a v_b v_c v_d v_e v_f v_g v_h :
  snd (t_sha256_Engine_software_process_block_fast_part3 v_self v_w v_a v_b v_c v_d v_e v_f v_g v_h) = g_sha256_Engine_software_process_block_fast_part3 v_self v_w v_a v_b v_c v_d v_e v_f v_g v_h.
Proof. er_def t_sha256_Engine_software_process_block_fast_part3 g_sha256_Engine_software_process_block_fast_part3. Qed.
#[export] Hint Resolve er_sha256_fast_part3 : erase.
Lemma er_sha256_fast_part2 v_self v_w v_a v_b v_c v_d v_e v_f v_g v_h :
  snd (t_sha256_Engine_software_process_block_fast_part2 v_self v_w v_a v_b v_c v_d v_e v_f v_g v_h) = g_sha256_Engine_software_process_block_fast_part2 v_self v_w v_a v_b v_c v_d v_e v_f v_g v_h.
Proof. er_def t_sha256_Engine_software_process_block_fast_part2 g_sha256_Engine_software_process_block_fast_part2. Qed.
#[export] Hint Resolve er_sha256_fast_part2 : erase.
Lemma er_sha256_fast_part1 v_self v_w v_a v_b v_c v_d v_e v_f v_g v_h :
  snd (t_sha256_Engine_software_process_block_fast_part1 v_self v_w v_a v_b v_c v_d v_e v_f v_g v_h) = g_sha256_Engine_software_process_block_fast_part1 v_self v_w v_a v_b v_c v_d v_e v_f v_g v_h.
Proof. er_def t_sha256_Engine_software_process_block_fast_part1 g_sha256_Engine_software_process_block_fast_part1. Qed.
#[export] Hint Resolve er_sha256_fast_part1 : erase.
Lemma er_sha256_small_part4 v_self v_a v_b v_c v_d v_e v_f v_g v_h :
  snd (t_sha256_Engine_software_process_block_small_part4 v_self v_a v_b v_c v_d v_e v_f v_g v_h) = g_sha256_Engine_software_process_block_small_part4 v_self v_a v_b v_c v_d v_e v_f v_g v_h.
Proof. er_def t_sha256_Engine_software_process_block_small_part4 g_sha256_Engine_software_process_block_small_part4. Qed.
#[export] Hint Resolve er_sha256_small_part4 : erase.
Lemma er_sha256_small_part3 v_self v_w v_a v_b v_c v_d v_e v_f v_g v_h :
  snd (t_sha256_Engine_software_process_block_small_part3 v_self v_w v_a v_b v_c v_d v_e v_f v_g v_h) = g_sha256_Engine_software_process_block_small_part3 v_self v_w v_a v_b v_c v_d v_e v_f v_g v_h.
Proof. er_def t_sha256_Engine_software_process_block_small_part3 g_sha256_Engine_software_process_block_small_part3. Qed.
#[export] Hint Resolve er_sha256_small_part3 : erase.
Lemma er_sha256_small_part2 v_self v_w v_a v_b v_c v_d v_e v_f v_g v_h :
  snd (t_sha256_Engine_software_process_block_small_part2 v_self v_w v_a v_b v_c v_d v_e v_f v_g v_h) = g_sha256_Engine_software_process_block_small_part2 v_self v_w v_a v_b v_c v_d v_e v_f v_g v_h.
Proof. er_def t_sha256_Engine_software_process_block_small_part2 g_sha256_Engine_software_process_block_small_part2. Qed.
#[export] Hint Resolve er_sha256_small_part2 : erase.
Lemma er_sha256_small_part1 v_self v_w v_a v_b v_c v_d v_e v_f v_g v_h :
  snd (t_sha256_Engine_software_process_block_small_part1 v_self v_w v_a v_b v_c v_d v_e v_f v_g v_h) = g_sha256_Engine_software_process_block_small_part1 v_self v_w v_a v_b v_c v_d v_e v_f v_g v_h.
Proof. er_def t_sha256_Engine_software_process_block_small_part1 g_sha256_Engine_software_process_block_small_part1. Qed.
#[export] Hint Resolve er_sha256_small_part1 : erase.
Lemma er_sha256_soft c e : snd (t_sha256_Engine_software_process_block c e) = g_sha256_Engine_software_process_block c e.
Proof.
  cbv beta delta [t_sha256_Engine_software_process_block g_sha256_Engine_software_process_block]. destruct (small_hash c).
  - er_def t_sha256_Engine_software_process_block_small g_sha256_Engine_software_process_block_small.
  - er_def t_sha256_Engine_software_process_block_fast g_sha256_Engine_software_process_block_fast.
Qed.
Lemma er_sha512_fast_part5 v_self v_a v_b v_c v_d v_e v_f v_g v_h :
  snd (t_sha512_Engine_process_block_fast_part5 v_self v_a v_b v_c v_d v_e v_f v_g v_h) = g_sha512_Engine_process_block_fast_part5 v_self v_a v_b v_c v_d v_e v_f v_g v_h.
Proof. er_def t_sha512_Engine_process_block_fast_part5 g_sha512_Engine_process_block_fast_part5. Qed.
#[export] Hint Resolve er_sha512_fast_part5 : erase.
Lemma er_sha512_fast_part4 v_self v_w v_a v_b v_c v_d v_e v_f v_g v_h :
  snd (t_sha512_Engine_process_block_fast_part4 v_self v_w v_a v_b v_c v_d v_e v_f v_g v_h) = g_sha512_Engine_process_block_fast_part4 v_self v_w v_a v_b v_c v_d v_e v_f v_g v_h.
Proof. er_def t_sha512_Engine_process_block_fast_part4 g_sha512_Engine_process_block_fast_part4. Qed.
#[export] Hint Resolve er_sha512_fast_part4 : erase.
Lemma er_sha512_fast_part3 v_self v_w v_a v_b v_c v_d v_e v_f v_g v_h :
  snd (t_sha512_Engine_process_block_fast_part3 v_self v_w v_a v_b v_c v_d v_e v_f v_g v_h) = g_sha512_Engine_process_block_fast_part3 v_self v_w v_a v_b v_c v_d v_e v_f v_g v_h.
Proof. er_def t_sha512_Engine_process_block_fast_part3 g_sha512_Engine_process_block_fast_part3. Qed.
#[export] Hint Resolve er_sha512_fast_part3 : erase.
Lemma er_sha512_fast_part2 v_self v_w v_a v_b v_c v_d v_e v_f v_g v_h :
  snd (t_sha512_Engine_process_block_fast_part2 v_self v_w v_a v_b v_c v_d v_e v_f v_g v_h) = g_sha512_Engine_process_block_fast_part2 v_self v_w v_a v_b v_c v_d v_e v_f v_g v_h.
Proof. er_def t_sha512_Engine_process_block_fast_part2 g_sha512_Engine_process_block_fast_part2. Qed.
#[export] Hint Resolve er_sha512_fast_part2 : erase.
Lemma er_sha512_fast_part1 v_self v_w v_a v_b v_c v_d v_e v_f v_g v_h :
  snd (t_sha512_Engine_process_block_fast_part1 v_self v_w v_a v_b v_c v_d v_e v_f v_g v_h) = g_sha512_Engine_process_block_fast_part1 v_self v_w v_a v_b v_c v_d v_e v_f v_g v_h.
Proof. er_def t_sha512_Engine_process_block_fast_part1 g_sha512_Engine_process_block_fast_part1. Qed.
#[export] Hint Resolve er_sha512_fast_part1 : erase.
Lemma er_sha512_small_part5 v_self v_a v_b v_c v_d v_e v_f v_g v_h :
  snd (t_sha512_Engine_process_block_small_part5 v_self v_a v_b v_c v_d v_e v_f v_g v_h) = g_sha512_Engine_process_block_small_part5 v_self v_a v_b v_c v_d v_e v_f v_g v_h.
Proof. er_def t_sha512_Engine_process_block_small_part5 g_sha512_Engine_process_block_small_part5. Qed.
#[export] Hint Resolve er_sha512_small_part5 : erase.
Lemma er_sha512_small_part4 v_self v_w v_a v_b v_c v_d v_e v_f v_g v_h :
  snd (t_sha512_Engine_process_block_small_part4 v_self v_w v_a v_b v_c v_d v_e v_f v_g v_h) = g_sha512_Engine_process_block_small_part4 v_self v_w v_a v_b v_c v_d v_e v_f v_g v_h.
Proof. er_def t_sha512_Engine_process_block_small_part4 g_sha512_Engine_process_block_small_part4. Qed.
#[export] Hint Resolve er_sha512_small_part4 : erase.
Lemma er_sha512_small_part3 v_self v_w v_a v_b v_c v_d v_e v_f v_g v_h :
  snd (t_sha512_Engine_process_block_small_part3 v_self v_w v_a v_b v_c v_d v_e v_f v_g v_h) = g_sha512_Engine_process_block_small_part3 v_self v_w v_a v_b v_c v_d v_e v_f v_g v_h.
Proof. er_def t_sha512_Engine_process_block_small_part3 g_sha512_Engine_process_block_small_part3. Qed.
#[export] Hint Resolve er_sha512_small_part3 : erase.
Lemma er_sha512_small_part2 v_self v_w v_a v_b v_c v_d v_e v_f v_g v_h :
  snd (t_sha512_Engine_process_block_small_part2 v_self v_w v_a v_b v_c v_d v_e v_f v_g v_h) = g_sha512_Engine_process_block_small_part2 v_self v_w v_a v_b v_c v_d v_e v_f v_g v_h.
Proof. er_def t_sha512_Engine_process_block_small_part2 g_sha512_Engine_process_block_small_part2. Qed.
#[export] Hint Resolve er_sha512_small_part2 : erase.
Lemma er_sha512_small_part1 v_self v_w v_a v_b v_c v_d v_e v_f v_g v_h :
  snd (t_sha512_Engine_process_block_small_part1 v_self v_w v_a v_b v_c v_d v_e v_f v_g v_h) = g_sha512_Engine_process_block_small_part1 v_self v_w v_a v_b v_c v_d v_e v_f v_g v_h.
Proof. er_def t_sha512_Engine_process_block_small_part1 g_sha512_Engine_process_block_small_part1. Qed.
#[export] Hint Resolve er_sha512_small_part1 : erase.
Lemma er_sha512_soft c e : snd (t_sha512_Engine_process_block c e) = g_sha512_Engine_process_block c e.
Proof.
  cbv beta delta [t_sha512_Engine_process_block g_sha512_Engine_process_block]. destruct (small_hash c).
  - er_def t_sha512_Engine_process_block_small g_sha512_Engine_process_block_small.
  - er_def t_sha512_Engine_process_block_fast g_sha512_Engine_process_block_fast.
Qed.

Lemma er_sha256_simd_part3 v_self v_state1 v_state0 v_abef_save v_cdgh_save v_msg0 v_msg1 v_msg2 v_msg3 :
  snd (t_sha256_Engine_process_block_simd_x86_intrinsics_part3 v_self v_state1 v_state0 v_abef_save v_cdgh_save v_msg0 v_msg1 v_msg2 v_msg3) = g_sha256_Engine_process_block_simd_x86_intrinsics_part3 v_self v_state1 v_state0 v_abef_save v_cdgh_save v_msg0 v_msg1 v_msg2 v_msg3.
Proof. er_def t_sha256_Engine_process_block_simd_x86_intrinsics_part3 g_sha256_Engine_process_block_simd_x86_intrinsics_part3. Qed.
#[export] Hint Resolve er_sha256_simd_part3 : erase.
Lemma er_sha256_simd_part2 v_self v_state1 v_state0 v_abef_save v_cdgh_save v_msg0 v_msg1 v_msg2 v_msg3 :
  snd (t_sha256_Engine_process_block_simd_x86_intrinsics_part2 v_self v_state1 v_state0 v_abef_save v_cdgh_save v_msg0 v_msg1 v_msg2 v_msg3) = g_sha256_Engine_process_block_simd_x86_intrinsics_part2 v_self v_state1 v_state0 v_abef_save v_cdgh_save v_msg0 v_msg1 v_msg2 v_msg3.
Proof. er_def t_sha256_Engine_process_block_simd_x86_intrinsics_part2 g_sha256_Engine_process_block_simd_x86_intrinsics_part2. Qed.
#[export] Hint Resolve er_sha256_simd_part2 : erase.
Lemma er_sha256_simd_part1 v_self v_MASK v_state1 v_state0 v_abef_save v_cdgh_save v_msg0 v_msg1 v_msg2 v_msg3 :
  snd (t_sha256_Engine_process_block_simd_x86_intrinsics_part1 v_self v_MASK v_state1 v_state0 v_abef_save v_cdgh_save v_msg0 v_msg1 v_msg2 v_msg3) = g_sha256_Engine_process_block_simd_x86_intrinsics_part1 v_self v_MASK v_state1 v_state0 v_abef_save v_cdgh_save v_msg0 v_msg1 v_msg2 v_msg3.
Proof. er_def t_sha256_Engine_process_block_simd_x86_intrinsics_part1 g_sha256_Engine_process_block_simd_x86_intrinsics_part1. Qed.
#[export] Hint Resolve er_sha256_simd_part1 : erase.
Lemma er_sha256_simd c e : snd (t_sha256_Engine_process_block_simd_x86_intrinsics c e) = g_sha256_Engine_process_block_simd_x86_intrinsics c e.
Proof. er_def t_sha256_Engine_process_block_simd_x86_intrinsics g_sha256_Engine_process_block_simd_x86_intrinsics. Qed.
Lemma snd_bind_if {A B} (b : bool) (x y : A) (f : A -> tm B) :
  snd (tbind (t_if b (tret x) (tret y)) f) = snd (f (if b then x else y)).
Proof. destruct b; reflexivity. Qed.
Lemma snd_if {A} (b : bool) (x y : tm A) : snd (t_if b x y) = if b then snd x else snd y.
Proof. reflexivity. Qed.
Lemma er_sha256 c e : snd (t_sha256_Engine_process_block c e) = g_sha256_Engine_process_block c e.
Proof.
  cbv beta delta [t_sha256_Engine_process_block g_sha256_Engine_process_block].
  rewrite !snd_bind_if, snd_if, er_sha256_simd, er_sha256_soft. now destruct (sha_ni c).
Qed.
