(** Engines are opaque: C89.

    The theorems about all programs (C62, C70) are about sequences of calls.
    Here it is read from the source that calls are all there is: a user cannot
    reach inside an engine, and the functions that make or change one are
    exactly those listed. *)
From Coq Require Import Strings.String.
From Verif Require Import Base BuildBase ApiBase GenApi SpecOpaque ProofOpaque.
Open Scope list_scope. Open Scope string_scope.

(** All fields of all engines, hashes and of the SipHash state are private *)
Theorem C89_fields : forall d, In d g_fields_table -> fd_vis d = Private <-> ~ In (fd_struct d) open_structs.
Proof. exact fields_ok. Qed.
Print Assumptions C89_fields.
(** The public functions with exclusive access to an engine *)
Theorem C89_change : forall e x, In e engine_types -> offered x (fun f => In (Exclusive, e) (fn_takes f)) <-> In x (changers e).
Proof. exact changers_ok. Qed.
Print Assumptions C89_change.
(** The public functions that return an engine (besides the derived [clone]) *)
Theorem C89_make : forall e x, In e engine_types -> offered x (fun f => In (Own, e) (fn_gives f)) <-> In x (makers e).
Proof. exact makers_ok. Qed.
Print Assumptions C89_make.
(** Exclusive references handed out: views of a caller's own octets (C69), nothing else *)
Theorem C89_give : forall o n s,
  (exists f, In f g_fn_table /\ fn_vis f = Public /\ fn_owner f = o /\ fn_name f = n /\ In (Exclusive, s) (fn_gives f)) <->
  o = s /\ n = "from_bytes_mut" /\ In s hash_types.
Proof. exact given_ok. Qed.
Print Assumptions C89_give.

Example C89_case :
  offered ("siphash24::Engine", "", "with_keys") (fun f => In (Own, "siphash24::Engine") (fn_gives f)) /\
  ~ offered ("sha512::Engine", "", "sha384") (fun f => In (Own, "sha512::Engine") (fn_gives f)) /\
  ~ offered ("sha256::Engine", "", "process_block") (fun f => In (Exclusive, "sha256::Engine") (fn_takes f)) /\
  (exists f, In f g_fn_table /\ key f = ("sha256::Engine", "", "process_block")) /\
  List.length g_fields_table = 47%nat.
Proof.
  split; [apply makers_ok; vm_compute; tauto|]. split; [intros H; apply makers_ok in H; [|vm_compute; tauto]; vm_compute in H; intuition discriminate|].
  split; [intros H; apply changers_ok in H; [|vm_compute; tauto]; vm_compute in H; intuition discriminate|].
  split; [|vm_compute; reflexivity].
  assert (H : In ("sha256::Engine", "", "process_block") (map key g_fn_table)) by (apply (subset_in [("sha256::Engine", "", "process_block")]); [vm_compute; reflexivity|now left]).
  apply in_map_iff in H. destruct H as (f & K & Hin). now exists f.
Qed.
