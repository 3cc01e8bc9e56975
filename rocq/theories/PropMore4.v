(** Programs over the whole engine API: C62, C63, C64. *)
From Coq Require Import NArith ZArith List Bool Lia.
From Coq Require Import Strings.Byte.
From Verif Require Import Base SpecBase SpecMD SpecMac ModelEngine ModelSip ModelAll ModelTypes ModelStore
  SpecApi SpecStore SpecMore ModelProgram SpecProgram ProofProgram.
Import ListNotations.
Open Scope N_scope.

(** C62 *)
Theorem C62_programs : forall c, wf_config c -> forall ops, Forall (api_op_real c) ops ->
  behaviour (code_api c) ops = behaviour (spec_api c) ops.
Proof. exact program_refines. Qed.
Print Assumptions C62_programs.
Theorem C62_adaptive : forall c, wf_config c -> forall n next, (forall seen, api_op_real c (next seen)) ->
  adaptive (code_api c) n next [] [] = adaptive (spec_api c) n next [] [].
Proof. exact adaptive_refines. Qed.
Print Assumptions C62_adaptive.
(** SipHash resumed in the middle of a word, HMAC resumed, a refused midstate. *)
Definition C62_program : list api_op :=
  [PWithKeys 1 2; PInput 0 [x61; x62; x63]; PMidstate 0; PKeys 0; PClone 0; PCount 1; PToU64 1; PFinalize 0; PCount 0;
   PFromMidstate (KHmac KSip) (mk_sip 1 2 3 4, mk_sip 5 6 7 8) 3; PKeys 2; PCount 2; PInput 2 [x64]; PFinalize 2;
   PHash (KHmac KSip) [x61]; PHashChunks KSip [[x61; x62]; []; [x63]];
   PFromMidstate (KAlgo Sha512) (repeat x00 64) 128; PNew (KAlgo Sha1)].
Example C62_case : Forall (api_op_real (target 64 true)) C62_program /\
  behaviour (spec_api (target 64 true)) C62_program =
  ([RNone; RNone;
    RMidstate KSip (mk_sip 8317987319222330740 7237128888997146479 7816392313619706464 8387220255154660721);
    RKeys 1 2; RNone; RCount 3; RU64 15085598991770005917;
    RDigest [x9d; x31; x71; x28; x5b; xd0; x5a; xd1]; RRejected;
    RNone; RRejected; RCount 0; RNone; RDigest [xc5; x1c; x89; x21; xec; xeb; xb6; x29];
    RDigest [xc2; xcf; xa9; xbe; x0b; x1d; x34; x3b]; RDigest [xde; xee; x70; x47; x96; x84; xc8; x3f]],
   Some PExpect).
Proof. split; [repeat constructor|vm_compute; reflexivity]. Qed.

(** C63 *)
Theorem C63_panics : forall c ops p, wf_config c -> Forall (api_op_real c) ops ->
  snd (behaviour (code_api c) ops) = Some p ->
  (p = POverflow /\ overflow_checks c = true) \/ ((p = PAssert \/ p = PExpect) /\ refused ops p).
Proof. exact program_panics. Qed.
Print Assumptions C63_panics.
Theorem C63_unchecked : forall c ops, wf_config c -> Forall (api_op_real c) ops -> overflow_checks c = false ->
  (forall p, ~ refused ops p) ->
  snd (behaviour (code_api c) ops) = None /\ length (fst (behaviour (code_api c) ops)) = length ops.
Proof. exact program_total. Qed.
Print Assumptions C63_unchecked.
Example C63_case :
  refused C62_program PExpect /\ (forall p, ~ refused (firstn 16 C62_program) p) /\
  Forall (api_op_real (target 16 false)) (firstn 16 C62_program).
Proof.
  split; [exists (KAlgo Sha512), (repeat x00 64), 128; split; [cbn; tauto|reflexivity]|]. split; [|repeat constructor].
  intros p (k & m & n & Hin & Hr). cbn [firstn C62_program] in Hin.
  repeat (destruct Hin as [Hin|Hin]; [try discriminate Hin|]); [|destruct Hin].
  injection Hin as <- _. discriminate Hr.
Qed.

(** C64 *)
Theorem C64_cut : forall c pre i d1 d2 post, wf_config c ->
  Forall (api_op_real c) (pre ++ PInput i (d1 ++ d2) :: post) ->
  visible (behaviour (code_api c) (pre ++ PInput i d1 :: PInput i d2 :: post)) =
  visible (behaviour (code_api c) (pre ++ PInput i (d1 ++ d2) :: post)).
Proof. exact program_cut. Qed.
Print Assumptions C64_cut.
Example C64_case :
  let c := target 16 true in let d := repeat x00 40 in
  let pre := [PNew (KHmac (KAlgo Sha1)); PInput 0 d; PClone 0] in
  let post := [PMidstate 0; PFinalize 0; PFinalize 1] in
  Forall (api_op_real c) (pre ++ PInput 0 (d ++ d) :: post) /\
  length (fst (visible (behaviour (code_api c) (pre ++ PInput 0 (d ++ d) :: post)))) = 3%nat.
Proof. split; [repeat constructor|vm_compute; reflexivity]. Qed.
