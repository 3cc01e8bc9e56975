(** Proofs for C88: a sound search for derivations, the closure of [sat] under
    what traits imply, and inversion. *)
From Coq Require Import Strings.String Arith Lia.
From Verif Require Import Base BuildBase TraitBase GenTrait SpecTrait.
Open Scope list_scope. Open Scope string_scope.

(** ** Types *)
Section TyInd.
  Context (Q : ty -> Prop)
    (HCon : forall n l, Forall Q l -> Q (TCon n l)) (HNum : forall n, Q (TNum n)) (HVar : forall k, Q (TVar k))
    (HProj : forall t a, Q t -> Q (TProj t a)) (HUser : forall n, Q (TUser n)).
  Fixpoint ty_nested (t : ty) : Q t :=
    match t with
    | TCon n l => HCon n l ((fix go l : Forall Q l := match l with [] => Forall_nil _ | x :: l => Forall_cons x (ty_nested x) (go l) end) l)
    | TNum n => HNum n
    | TVar k => HVar k
    | TProj t a => HProj t a (ty_nested t)
    | TUser n => HUser n
    end.
End TyInd.

Lemma tsubst_comp s s' t : tsubst s (tsubst s' t) = tsubst (fun k => tsubst s (s' k)) t.
Proof.
  induction t as [n l IH| | |t a IH|] using ty_nested; cbn [tsubst]; try reflexivity; [|now rewrite IH].
  f_equal. rewrite map_map. apply map_ext_Forall, IH.
Qed.
Lemma gsubst_comp s s' g : gsubst s (gsubst s' g) = gsubst (fun k => tsubst s (s' k)) g.
Proof.
  destruct g as [t [r l]]. unfold gsubst. cbn [fst snd]. rewrite tsubst_comp. f_equal. f_equal. rewrite map_map.
  apply map_ext. intros x. apply tsubst_comp.
Qed.

Fixpoint ty_eqb (x y : ty) : bool :=
  match x, y with
  | TCon n l, TCon m k => String.eqb n m && (fix go l k := match l, k with [], [] => true | a :: l, b :: k => ty_eqb a b && go l k | _, _ => false end) l k
  | TNum n, TNum m => N.eqb n m
  | TVar n, TVar m => Nat.eqb n m
  | TProj t a, TProj u b => ty_eqb t u && String.eqb a b
  | TUser n, TUser m => N.eqb n m
  | _, _ => false
  end.
Fixpoint tys_eqb (l k : list ty) : bool :=
  match l, k with [], [] => true | a :: l, b :: k => ty_eqb a b && tys_eqb l k | _, _ => false end.
Lemma ty_eqb_eq x : forall y, ty_eqb x y = true -> x = y.
Proof.
  induction x as [n l IH|n|k|t a IH|n] using ty_nested; intros [m k'|m|m|u c|m]; cbn [ty_eqb]; try discriminate.
  - intros H. apply andb_prop in H. destruct H as [H1 H2]. apply String.eqb_eq in H1. subst m. f_equal.
    revert k' H2. induction IH as [|x l Hx Hl IHl]; intros [|y k'] H2; try discriminate; [reflexivity|].
    apply andb_prop in H2. destruct H2 as [H2 H3]. f_equal; [now apply Hx|now apply IHl].
  - intros H. apply N.eqb_eq in H. now subst.
  - intros H. apply Nat.eqb_eq in H. now subst.
  - intros H. apply andb_prop in H. destruct H as [H1 H2]. apply String.eqb_eq in H2. subst c. f_equal. now apply IH.
  - intros H. apply N.eqb_eq in H. now subst.
Qed.
Lemma tys_eqb_eq l : forall k, tys_eqb l k = true -> l = k.
Proof.
  induction l as [|x l IH]; intros [|y k]; cbn [tys_eqb]; try discriminate; [reflexivity|]. intros H. apply andb_prop in H.
  destruct H as [H1 H2]. f_equal; [now apply ty_eqb_eq|now apply IH].
Qed.
Definition goal_eqb (g h : goal) : bool :=
  String.eqb (fst (snd g)) (fst (snd h)) && (ty_eqb (fst g) (fst h) && tys_eqb (snd (snd g)) (snd (snd h))).
Lemma goal_eqb_eq g h : goal_eqb g h = true -> g = h.
Proof.
  destruct g as [t [r l]], h as [u [q k]]. unfold goal_eqb. cbn [fst snd]. intros H. apply andb_prop in H. destruct H as [H1 H2].
  apply andb_prop in H2. destruct H2 as [H2 H3]. apply String.eqb_eq in H1. apply ty_eqb_eq in H2. apply tys_eqb_eq in H3. now subst.
Qed.

(** ** Search *)
(** values of the variables of a pattern; whether it fits is checked afterwards *)
Fixpoint bind_ty (p t : ty) (s : list (nat * ty)) : list (nat * ty) :=
  match p, t with
  | TVar k, _ => (k, t) :: s
  | TCon _ l, TCon _ k => (fix go l k s := match l, k with a :: l, b :: k => go l k (bind_ty a b s) | _, _ => s end) l k s
  | TProj p _, TProj t _ => bind_ty p t s
  | _, _ => s
  end.
Fixpoint bind_tys (l k : list ty) (s : list (nat * ty)) : list (nat * ty) :=
  match l, k with a :: l, b :: k => bind_tys l k (bind_ty a b s) | _, _ => s end.
Definition value_of (s : list (nat * ty)) (k : nat) : ty :=
  match find (fun p => Nat.eqb (fst p) k) s with Some p => snd p | None => TVar k end.
Definition binding (g h : goal) : nat -> ty := value_of (bind_ty (fst g) (fst h) (bind_tys (snd (snd g)) (snd (snd h)) [])).
Definition head_eqb (p t : ty) : bool :=
  match p, t with TCon n _, TCon m _ => String.eqb n m | TVar _, _ => true | TProj _ a, TProj _ b => String.eqb a b | _, _ => false end.
(** only features are compared *)
Definition cfg_in (l : list cfg_pred) (p : cfg_pred) : bool :=
  match p with CAtom (AFeature n) => existsb (fun q => match q with CAtom (AFeature m) => String.eqb n m | _ => false end) l | _ => false end.

Section Search.
  Context (P : list clause).
  (** the clauses by the trait of their head *)
  Definition group (names : list string) : list (string * list clause) :=
    map (fun r => (r, filter (fun c => String.eqb (fst (snd (cl_head c))) r) P)) names.
  Definition lookup (G : list (string * list clause)) (r : string) : list clause :=
    match find (fun p => String.eqb (fst p) r) G with Some p => snd p | None => [] end.
  Lemma lookup_in names r c : In c (lookup (group names) r) -> In c P.
  Proof.
    unfold lookup. destruct (find _ _) as [p|] eqn:E; [|intros []]. apply find_some in E. destruct E as [E _].
    unfold group in E. apply in_map_iff in E. destruct E as (q & <- & _). cbn [snd]. intros H. now apply filter_In in H.
  Qed.
  Context (G : list (string * list clause)) (HG : forall r c, In c (lookup G r) -> In c P).
  Fixpoint solve (n : nat) (cfgs : list cfg_pred) (hyps : list goal) (g : goal) : bool :=
    match n with
    | O => false
    | S n =>
        existsb (goal_eqb g) hyps ||
        existsb (fun c =>
          if head_eqb (fst (cl_head c)) (fst g) then
            let s := binding (cl_head c) g in
            if goal_eqb (gsubst s (cl_head c)) g && forallb (cfg_in cfgs) (cl_cfg c)
            then forallb (fun p => solve n cfgs hyps (gsubst s p)) (cl_pre c) else false
          else false) (lookup G (fst (snd g)))
    end.
  Lemma cfg_in_holds b l p : forallb (holds b) l = true -> cfg_in l p = true -> holds b p = true.
  Proof.
    intros Hl H. destruct p as [[n|n|n]|l'|l'|p]; try discriminate H. cbn [cfg_in] in H. apply existsb_exists in H.
    destruct H as (q & Hq & H). destruct q as [[m|m|m]|l'|l'|p]; try discriminate H. apply String.eqb_eq in H. subst m.
    exact (proj1 (forallb_forall _ _) Hl _ Hq).
  Qed.
  Lemma solve_sound b U cfgs hyps n : forall g, solve n cfgs hyps g = true -> forall s, forallb (holds b) cfgs = true ->
    (forall h, In h hyps -> sat b P U (gsubst s h)) -> sat b P U (gsubst s g).
  Proof.
    induction n as [|n IH]; intros g; cbn [solve]; [discriminate|]. intros H s Hc Hh. apply orb_prop in H. destruct H as [H|H].
    - apply existsb_exists in H. destruct H as (h & Hin & H). apply goal_eqb_eq in H. subst h. exact (Hh _ Hin).
    - apply existsb_exists in H. destruct H as (c & Hin & H). destruct (head_eqb _ _); [|discriminate].
      cbv zeta in H. set (s' := binding (cl_head c) g) in *. destruct (_ && _) eqn:E in H; [|discriminate].
      rename H into H3. apply andb_prop in E. destruct E as [H1 H2].
      apply goal_eqb_eq in H1. rewrite <- H1, gsubst_comp. apply sat_clause; [exact (HG _ _ Hin)| |].
      + apply forallb_forall. intros p Hp. exact (cfg_in_holds b cfgs p Hc (proj1 (forallb_forall _ _) H2 p Hp)).
      + intros p Hp. rewrite <- gsubst_comp. apply IH; [|exact Hc|exact Hh]. exact (proj1 (forallb_forall _ _) H3 p Hp).
  Qed.
End Search.

(** ** What traits imply *)
Section Implied.
  Context (traits : list trait_decl).
  Lemma implied1_subst s g : implied1 traits (gsubst s g) = map (gsubst s) (implied1 traits g).
  Proof.
    unfold implied1. destruct g as [t [r l]]. cbn [gsubst fst snd]. induction (core_traits ++ traits)%list as [|d ds IH]; [reflexivity|].
    cbn [flat_map]. rewrite map_app, <- IH. f_equal. destruct (String.eqb (td_name d) r); [|reflexivity].
    rewrite map_map. apply map_ext. intros h. now rewrite gsubst_comp.
  Qed.
  Lemma implied_subst n : forall s g, implied traits n (gsubst s g) = map (gsubst s) (implied traits n g).
  Proof.
    induction n as [|n IH]; intros s g; [reflexivity|]. cbn [implied]. rewrite implied1_subst.
    induction (implied1 traits g) as [|h l IHl]; [reflexivity|]. cbn [map flat_map]. rewrite map_app. cbn [map]. rewrite IH, <- IHl.
    reflexivity.
  Qed.
  Definition with_implied (l : list goal) : list goal := l ++ flat_map (implied traits 4) l.
  (** everything [goals] asks of the clause is found from its premises *)
  Definition check (names : list string) (P : list clause) (l : list (clause * list goal)) : bool :=
    let G := group P names in
    forallb (fun x => match snd x with [] => true | _ => forallb (solve G 6 (cl_cfg (fst x)) (with_implied (cl_pre (fst x)))) (snd x) end) l.
  Lemma check_ok names P l c goals g : check names P l = true -> In (c, goals) l -> In g goals ->
    solve (group P names) 6 (cl_cfg c) (with_implied (cl_pre c)) g = true.
  Proof.
    intros H Hin Hg. pose proof (proj1 (forallb_forall _ _) H _ Hin) as H0. cbn [fst snd] in H0. destruct goals as [|g0 goals]; [destruct Hg|].
    exact (proj1 (forallb_forall _ _) H0 _ Hg).
  Qed.
  Definition closed_check (names : list string) (P : list clause) : bool := check names P (map (fun c => (c, implied traits 4 (cl_head c))) P).
  Lemma sat_implied b names P (U : goal -> Prop) : closed_check names P = true -> (forall g h, U g -> In h (implied traits 4 g) -> U h) ->
    forall g, sat b P U g -> forall h, In h (implied traits 4 g) -> sat b P U h.
  Proof.
    intros HP HU g Hg. induction Hg as [g Hg|c s Hin Hc Hpre IH]; intros h Hh.
    - apply sat_user. exact (HU _ _ Hg Hh).
    - rewrite implied_subst in Hh. apply in_map_iff in Hh. destruct Hh as (h0 & <- & Hh).
      pose proof (check_ok names P _ c _ h0 HP (in_map (fun c => (c, implied traits 4 (cl_head c))) P c Hin) Hh) as H0.
      apply (solve_sound P (group P names) (lookup_in P names) b U (cl_cfg c) (with_implied (cl_pre c)) 6 h0 H0 s Hc).
      intros p Hp. unfold with_implied in Hp. apply in_app_or in Hp. destruct Hp as [Hp|Hp]; [exact (Hpre p Hp)|].
      apply in_flat_map in Hp. destruct Hp as (q & Hq & Hp). apply (IH q Hq). rewrite implied_subst. now apply in_map.
  Qed.
End Implied.

Definition names : list string := nodup string_dec (map (fun c => fst (snd (cl_head c))) g_program).
Lemma program_closed : closed_check g_trait_table names g_program = true.
Proof. vm_compute. reflexivity. Qed.

Lemma has_implied b U g : world U -> sat b g_program U g -> forall h, In h (g_implied g) -> sat b g_program U h.
Proof. intros [_ HU]. exact (sat_implied g_trait_table b names g_program U program_closed HU g). Qed.

Lemma check_sat b U l c goals : world U -> check g_trait_table names g_program l = true -> In (c, goals) l -> compiled b (cl_cfg c) ->
  accepted b U (cl_pre c) goals.
Proof.
  intros HU H Hin Hc s Hp g Hg.
  apply (solve_sound g_program _ (lookup_in g_program names) b U (cl_cfg c) (with_implied g_trait_table (cl_pre c)) 6 g
           (check_ok g_trait_table names g_program l c goals g H Hin Hg) s Hc).
  intros h Hh. unfold with_implied in Hh. apply in_app_or in Hh. destruct Hh as [Hh|Hh]; [exact (Hp h Hh)|].
  apply in_flat_map in Hh. destruct Hh as (q & Hq & Hh). apply (has_implied b U (gsubst s q) HU (Hp q Hq)).
  unfold g_implied. rewrite implied_subst. now apply in_map.
Qed.

(** ** Every impl and struct is accepted *)
Definition g_impls : list impl_decl := all_impls g_struct_table g_impl_table.
Definition header (i : impl_decl) : list goal := header_goals g_struct_table g_trait_table i.
Lemma headers_checked : check g_trait_table names g_program (map (fun i => (impl_clause i, header i)) g_impls) = true.
Proof. vm_compute. reflexivity. Qed.
Lemma headers_accepted b U i : world U -> In i g_impls -> compiled b (im_cfg i) -> accepted b U (im_bounds i) (header i).
Proof.
  intros HU Hin Hc. apply (check_sat b U _ (impl_clause i) (header i) HU headers_checked); [|exact Hc].
  exact (in_map (fun i => (impl_clause i, header i)) g_impls i Hin).
Qed.
Definition derive_list : list impl_decl := flat_map derived g_struct_table.
Lemma derives_checked : check g_trait_table names g_program (map (fun i => (impl_clause i, derive_goals g_struct_table i)) derive_list) = true.
Proof. vm_compute. reflexivity. Qed.
Lemma derives_accepted b U i : world U -> In i derive_list -> compiled b (im_cfg i) ->
  accepted b U (im_bounds i) (derive_goals g_struct_table i).
Proof.
  intros HU Hin Hc. apply (check_sat b U _ (impl_clause i) (derive_goals g_struct_table i) HU derives_checked); [|exact Hc].
  exact (in_map (fun i => (impl_clause i, derive_goals g_struct_table i)) derive_list i Hin).
Qed.
Definition struct_clause (d : struct_decl) : clause := mk_clause (sd_cfg d) (sd_bounds d) (TNum 0, t0 "").
Lemma structs_checked : check g_trait_table names g_program (map (fun d => (struct_clause d, struct_goals g_struct_table d)) g_struct_table) = true.
Proof. vm_compute. reflexivity. Qed.
Lemma structs_accepted b U d : world U -> In d g_struct_table -> compiled b (sd_cfg d) ->
  accepted b U (sd_bounds d) (struct_goals g_struct_table d).
Proof.
  intros HU Hin Hc. apply (check_sat b U _ (struct_clause d) (struct_goals g_struct_table d) HU structs_checked); [|exact Hc].
  exact (in_map (fun d => (struct_clause d, struct_goals g_struct_table d)) g_struct_table d Hin).
Qed.

(** ** No two impls for the same *)
Fixpoint apart (p q : ty) : bool :=
  match p, q with
  | TVar _, _ | _, TVar _ => false
  | TCon n l, TCon m k =>
      negb (String.eqb n m) || (fix go l k := match l, k with [], [] => false | a :: l, b :: k => apart a b || go l k | _, _ => true end) l k
  | TNum n, TNum m => negb (N.eqb n m)
  | TProj p a, TProj q b => negb (String.eqb a b) || apart p q
  | TUser n, TUser m => negb (N.eqb n m)
  | _, _ => true
  end.
Fixpoint aparts (l k : list ty) : bool :=
  match l, k with [], [] => false | a :: l, b :: k => apart a b || aparts l k | _, _ => true end.
Lemma apart_ok s s' p : forall q, apart p q = true -> tsubst s p <> tsubst s' q.
Proof.
  induction p as [n l IH|n|k|t a IH|n] using ty_nested; intros [m k'|m|m|u c|m]; cbn [apart tsubst]; try discriminate.
  - intros H E. injection E as -> El. rewrite String.eqb_refl in H. cbn [negb orb] in H.
    revert k' H El. induction IH as [|x l Hx Hl IHl]; intros [|y k'] H El; try discriminate.
    cbn [map] in El. injection El as E1 E2. apply orb_prop in H. destruct H as [H|H]; [exact (Hx y H E1)|exact (IHl k' H E2)].
  - intros H E. injection E as ->. now rewrite N.eqb_refl in H.
  - intros H E. injection E as Et ->. rewrite String.eqb_refl in H. cbn [negb orb] in H. exact (IH u H Et).
  - intros H E. injection E as ->. now rewrite N.eqb_refl in H.
Qed.
Lemma aparts_ok s s' l : forall k, aparts l k = true -> map (tsubst s) l <> map (tsubst s') k.
Proof.
  induction l as [|x l IH]; intros [|y k]; cbn [aparts map]; try discriminate. intros H E. injection E as E1 E2.
  apply orb_prop in H. destruct H as [H|H]; [exact (apart_ok s s' x y H E1)|exact (IH k H E2)].
Qed.
Definition disjoint_impls (i j : impl_decl) : bool :=
  negb (String.eqb (fst (im_trait i)) (fst (im_trait j))) || (apart (im_for i) (im_for j) || aparts (snd (im_trait i)) (snd (im_trait j))).
Fixpoint pairwise {A} (f : A -> A -> bool) (l : list A) : bool :=
  match l with [] => true | x :: l => forallb (f x) l && pairwise f l end.
Lemma pairwise_nth {A} (f : A -> A -> bool) l : pairwise f l = true -> forall i j x y, (i < j)%nat ->
  nth_error l i = Some x -> nth_error l j = Some y -> f x y = true.
Proof.
  induction l as [|a l IH]; intros H i j x y Hij Hi Hj; [destruct i; discriminate|]. cbn [pairwise] in H. apply andb_prop in H.
  destruct H as [H1 H2]. destruct j as [|j]; [lia|]. cbn [nth_error] in Hj. destruct i as [|i].
  - cbn in Hi. injection Hi as <-. exact (proj1 (forallb_forall _ _) H1 y (nth_error_In _ _ Hj)).
  - cbn in Hi. exact (IH H2 i j x y ltac:(lia) Hi Hj).
Qed.
Lemma all_disjoint : pairwise disjoint_impls g_impls = true.
Proof. vm_compute. reflexivity. Qed.
Lemma disjoint_ok x y s s' : disjoint_impls x y = true -> gsubst s (im_for x, im_trait x) <> gsubst s' (im_for y, im_trait y).
Proof.
  unfold disjoint_impls, gsubst. cbn [fst snd]. intros H E. injection E as E1 E2 E3. rewrite E2, String.eqb_refl in H. cbn [negb orb] in H.
  apply orb_prop in H. destruct H as [H|H]; [exact (apart_ok s s' _ _ H E1)|exact (aparts_ok s s' _ _ H E3)].
Qed.
Lemma impls_disjoint i j x y s s' : i <> j -> nth_error g_impls i = Some x -> nth_error g_impls j = Some y ->
  gsubst s (im_for x, im_trait x) <> gsubst s' (im_for y, im_trait y).
Proof.
  intros Hij Hi Hj. destruct (Nat.lt_total i j) as [H|[H|H]]; [|contradiction|].
  - exact (disjoint_ok x y s s' (pairwise_nth _ _ all_disjoint i j x y H Hi Hj)).
  - intros E. exact (disjoint_ok y x s' s (pairwise_nth _ _ all_disjoint j i y x H Hj Hi) (eq_sym E)).
Qed.
(** the types are the crate's own *)
Lemma impls_local i : In i g_impls -> exists n l, im_for i = TCon n l /\ In n (map sd_name g_struct_table).
Proof.
  assert (H : forallb (fun i => match im_for i with TCon n _ => existsb (String.eqb n) (map sd_name g_struct_table) | _ => false end) g_impls = true)
    by (vm_compute; reflexivity).
  intros Hin. pose proof (proj1 (forallb_forall _ _) H i Hin) as Hi. cbv beta in Hi. destruct (im_for i) as [n l| | | |]; try discriminate.
  exists n, l. split; [reflexivity|]. apply existsb_exists in Hi. destruct Hi as (m & Hm & E). apply String.eqb_eq in E. now subst.
Qed.

(** ** Inversion *)
Definition about (n : string) : list clause :=
  filter (fun c => match fst (cl_head c) with TCon m _ => String.eqb m n | _ => false end) g_program.
Lemma heads_named : forallb (fun c => match fst (cl_head c) with TCon _ _ | TProj _ _ => true | _ => false end) g_program = true.
Proof. vm_compute. reflexivity. Qed.
Lemma has_inv b U n l r : world U -> has b U (TCon n l) r ->
  exists c s, In c (about n) /\ compiled b (cl_cfg c) /\ gsubst s (cl_head c) = (TCon n l, r) /\
    forall p, In p (cl_pre c) -> sat b g_program U (gsubst s p).
Proof.
  intros [HU _] H. unfold has in H. remember (TCon n l, r) as g eqn:E. destruct H as [g Hg|c s Hin Hc Hp].
  - apply HU in Hg. rewrite E in Hg. discriminate.
  - exists c, s. split; [|repeat split; assumption]. apply filter_In. split; [exact Hin|].
    pose proof (proj1 (forallb_forall _ _) heads_named c Hin) as Hh. cbv beta in Hh. unfold gsubst in E.
    destruct (fst (cl_head c)) as [m k| | |t a|]; try discriminate Hh; cbn [tsubst] in E; [|discriminate].
    injection E as -> _ _. apply String.eqb_refl.
Qed.
Lemma tsubst_var t : tsubst TVar t = t.
Proof.
  induction t as [n l IH| | |t a IH|] using ty_nested; cbn [tsubst]; try reflexivity; [|now rewrite IH].
  f_equal. rewrite <- (map_id l) at 2. apply map_ext_Forall, IH.
Qed.
(** the clauses by trait, computed once *)
Definition grouped : list (string * list clause) := Eval vm_compute in group g_program names.
Lemma grouped_ok : group g_program names = grouped.
Proof. vm_compute. reflexivity. Qed.
(** a fact found by search, with parameters [s] *)
Lemma found b U cfgs hyps g s : solve grouped 6 cfgs hyps g = true -> compiled b cfgs ->
  (forall h, In h hyps -> sat b g_program U (gsubst s h)) -> sat b g_program U (gsubst s g).
Proof.
  rewrite <- grouped_ok. intros H Hc Hh. exact (solve_sound g_program _ (lookup_in g_program names) b U cfgs hyps 6 g H s Hc Hh).
Qed.
