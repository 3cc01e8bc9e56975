(** Who can make and change an engine (C89): proofs. *)
From Coq Require Import Strings.String.
From Verif Require Import Base BuildBase ApiBase GenApi SpecOpaque.
Open Scope list_scope. Open Scope string_scope.

Definition key_eqb (x y : fn_key) : bool :=
  (fst (fst x) =? fst (fst y)) && (snd (fst x) =? snd (fst y)) && (snd x =? snd y).
Lemma key_eqb_eq x y : key_eqb x y = true <-> x = y.
Proof.
  destruct x as [[a b] c], y as [[a' b'] c']. unfold key_eqb. cbn [fst snd]. rewrite !andb_true_iff, !String.eqb_eq. split.
  - now intros [[-> ->] ->].
  - intros E. now injection E as -> -> ->.
Qed.
Definition access_eqb (a b : access) : bool := match a, b with Own, Own | Shared, Shared | Exclusive, Exclusive => true | _, _ => false end.
Definition is_public (f : fn_decl) : bool := match fn_vis f with Public => true | _ => false end.
Definition mentions (m : access) (s : string) (l : list (access * string)) : bool := existsb (fun x => access_eqb (fst x) m && (snd x =? s)) l.
Lemma mentions_in m s l : mentions m s l = true <-> In (m, s) l.
Proof.
  unfold mentions. rewrite existsb_exists. split.
  - intros ([a n] & Hin & H). cbn [fst snd] in H. apply andb_prop in H. destruct H as [H1 H2]. apply String.eqb_eq in H2. subst.
    destruct a, m; try discriminate; exact Hin.
  - intros H. exists (m, s). split; [exact H|]. cbn [fst snd]. rewrite String.eqb_refl. now destruct m.
Qed.
Definition keys (p : fn_decl -> bool) : list fn_key := map key (filter (fun f => is_public f && p f) g_fn_table).
Lemma keys_offered p (P : fn_decl -> Prop) x : (forall f, p f = true <-> P f) -> In x (keys p) <-> offered x P.
Proof.
  intros Hp. unfold keys, offered. rewrite in_map_iff. split.
  - intros (f & Hk & Hf). apply filter_In in Hf. destruct Hf as [Hin Hf]. apply andb_prop in Hf. destruct Hf as [Hv Hf].
    exists f. split; [exact Hin|]. unfold is_public in Hv. destruct (fn_vis f); try discriminate. split; [reflexivity|]. split; [exact Hk|now apply Hp].
  - intros (f & Hin & Hv & Hk & Hf). exists f. split; [exact Hk|]. apply filter_In. split; [exact Hin|]. unfold is_public. rewrite Hv. now apply Hp.
Qed.
Definition subset (l k : list fn_key) : bool := forallb (fun x => existsb (key_eqb x) k) l.
Lemma subset_in l k x : subset l k = true -> In x l -> In x k.
Proof.
  intros H Hx. pose proof (proj1 (forallb_forall _ _) H x Hx) as Hk. apply existsb_exists in Hk. destruct Hk as (y & Hy & E).
  apply key_eqb_eq in E. now subst.
Qed.
Definition same (l k : list fn_key) : bool := subset l k && subset k l.
Lemma same_in l k x : same l k = true -> In x l <-> In x k.
Proof. intros H. apply andb_prop in H. destruct H as [H1 H2]. split; [exact (subset_in l k x H1)|exact (subset_in k l x H2)]. Qed.

Lemma changers_checked : forallb (fun e => same (keys (fun f => mentions Exclusive e (fn_takes f))) (changers e)) engine_types = true.
Proof. vm_compute. reflexivity. Qed.
Lemma makers_checked : forallb (fun e => same (keys (fun f => mentions Own e (fn_gives f))) (makers e)) engine_types = true.
Proof. vm_compute. reflexivity. Qed.
Lemma changers_ok e x : In e engine_types -> offered x (fun f => In (Exclusive, e) (fn_takes f)) <-> In x (changers e).
Proof.
  intros He. rewrite <- (keys_offered (fun f => mentions Exclusive e (fn_takes f))) by (intros f; apply mentions_in).
  apply same_in. exact (proj1 (forallb_forall _ _) changers_checked e He).
Qed.
Lemma makers_ok e x : In e engine_types -> offered x (fun f => In (Own, e) (fn_gives f)) <-> In x (makers e).
Proof.
  intros He. rewrite <- (keys_offered (fun f => mentions Own e (fn_gives f))) by (intros f; apply mentions_in).
  apply same_in. exact (proj1 (forallb_forall _ _) makers_checked e He).
Qed.

Lemma fields_checked : forallb (fun d => Bool.eqb (match fd_vis d with Private => false | _ => true end) (existsb (String.eqb (fd_struct d)) open_structs)) g_fields_table = true.
Proof. vm_compute. reflexivity. Qed.
Lemma fields_ok d : In d g_fields_table -> fd_vis d = Private <-> ~ In (fd_struct d) open_structs.
Proof.
  intros Hin. pose proof (proj1 (forallb_forall _ _) fields_checked d Hin) as H. cbv beta in H. apply Bool.eqb_prop in H.
  assert (E : existsb (String.eqb (fd_struct d)) open_structs = true <-> In (fd_struct d) open_structs).
  { rewrite existsb_exists. split.
    - intros (y & Hy & E). apply String.eqb_eq in E. now rewrite E.
    - intros Hy. exists (fd_struct d). split; [exact Hy|apply String.eqb_refl]. }
  rewrite <- E, <- H. destruct (fd_vis d); split; intros K; try discriminate; try reflexivity; try (exfalso; apply K; reflexivity); intros K'; discriminate.
Qed.

(** references handed out *)
Definition exclusive_given (f : fn_decl) : list fn_key :=
  flat_map (fun x => if access_eqb (fst x) Exclusive then [(fn_owner f, fn_name f, snd x)] else []) (fn_gives f).
Definition given : list fn_key := flat_map (fun f => if is_public f then exclusive_given f else []) g_fn_table.
Lemma given_checked : same given (map (fun h => (h, "from_bytes_mut", h)) hash_types) = true.
Proof. vm_compute. reflexivity. Qed.
Lemma given_in o n s : In (o, n, s) given <-> exists f, In f g_fn_table /\ fn_vis f = Public /\ fn_owner f = o /\ fn_name f = n /\ In (Exclusive, s) (fn_gives f).
Proof.
  unfold given. rewrite in_flat_map. split.
  - intros (f & Hf & H). exists f. split; [exact Hf|]. unfold is_public in H. destruct (fn_vis f); try contradiction. split; [reflexivity|].
    unfold exclusive_given in H. apply in_flat_map in H. destruct H as ([a m] & Hm & H). cbn [fst snd] in H. destruct a; try contradiction.
    destruct H as [E|[]]. injection E as -> -> ->. repeat split. exact Hm.
  - intros (f & Hf & Hv & <- & <- & H). exists f. split; [exact Hf|]. unfold is_public. rewrite Hv. unfold exclusive_given. apply in_flat_map.
    exists (Exclusive, s). split; [exact H|]. left. reflexivity.
Qed.
Lemma given_ok o n s : (exists f, In f g_fn_table /\ fn_vis f = Public /\ fn_owner f = o /\ fn_name f = n /\ In (Exclusive, s) (fn_gives f)) <->
  o = s /\ n = "from_bytes_mut" /\ In s hash_types.
Proof.
  rewrite <- given_in, (same_in _ _ (o, n, s) given_checked), in_map_iff. split.
  - intros (h & E & H). injection E as -> <- ->. now repeat split.
  - intros (-> & -> & H). now exists s.
Qed.
