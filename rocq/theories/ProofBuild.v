(** Conditional compilation: proofs. *)
From Coq Require Import Strings.String Lia.
From Verif Require Import Base SpecBase ModelEngine SpecMD GenBase GenSha256 BuildBase GenBuild SpecBuild SpecGen ProofGenProgram.
Open Scope list_scope.

(** ** Deciding cfg predicates by truth tables *)
Definition atom_eqb (a b : atom) : bool :=
  match a, b with
  | AFeature m, AFeature n | AArch m, AArch n | AFlag m, AFlag n => String.eqb m n
  | _, _ => false
  end.
Lemma atom_eqb_spec a b : atom_eqb a b = true <-> a = b.
Proof.
  destruct a, b; cbn; split; intros E; try discriminate; try (apply String.eqb_eq in E; now subst);
    injection E as <-; apply String.eqb_refl.
Qed.

Fixpoint atoms (p : cfg_pred) : list atom :=
  match p with
  | CAtom a => [a]
  | CAll l => flat_map atoms l
  | CAny l => flat_map atoms l
  | CNot p => atoms p
  end.
Section ind.
  Variable P : cfg_pred -> Prop.
  Hypothesis HA : forall a, P (CAtom a).
  Hypothesis Hall : forall l, Forall P l -> P (CAll l).
  Hypothesis Hany : forall l, Forall P l -> P (CAny l).
  Hypothesis Hnot : forall p, P p -> P (CNot p).
  Fixpoint cfg_pred_ind' (p : cfg_pred) : P p :=
    let fix all (l : list cfg_pred) : Forall P l := match l with [] => Forall_nil _ | p :: r => Forall_cons p (cfg_pred_ind' p) (all r) end in
    match p with
    | CAtom a => HA a
    | CAll l => Hall l (all l)
    | CAny l => Hany l (all l)
    | CNot p => Hnot p (cfg_pred_ind' p)
    end.
End ind.
Lemma eval_ext v w p : (forall a, In a (atoms p) -> v a = w a) -> eval v p = eval w p.
Proof.
  induction p as [a|l IH|l IH|p IH] using cfg_pred_ind'; cbn [eval atoms]; intros H.
  - apply H. now left.
  - induction IH as [|p r Hp Hr IHr]; [reflexivity|]. cbn [forallb flat_map] in *.
    rewrite Hp, IHr; [reflexivity| |]; intros a Ha; apply H, in_or_app; auto.
  - induction IH as [|p r Hp Hr IHr]; [reflexivity|]. cbn [existsb flat_map] in *.
    rewrite Hp, IHr; [reflexivity| |]; intros a Ha; apply H, in_or_app; auto.
  - now rewrite IH.
Qed.

Fixpoint find_atom (known : list (atom * bool)) (a : atom) : option bool :=
  match known with [] => None | (x, v) :: r => if atom_eqb a x then Some v else find_atom r a end.
Definition value_of (known : list (atom * bool)) (a : atom) : bool := match find_atom known a with Some v => v | None => false end.
Fixpoint table (l : list atom) (known : list (atom * bool)) (p : cfg_pred) : bool :=
  match l with
  | [] => eval (value_of known) p
  | a :: r =>
      match find_atom known a with
      | Some _ => table r known p
      | None => table r ((a, true) :: known) p && table r ((a, false) :: known) p
      end
  end.
Definition taut (p : cfg_pred) : bool := table (atoms p) [] p.
Lemma table_sound v p l : forall known, table l known p = true ->
  (forall a x, find_atom known a = Some x -> v a = x) ->
  (forall a, In a (atoms p) -> In a l \/ find_atom known a <> None) -> eval v p = true.
Proof.
  induction l as [|a r IH]; intros known T K C; cbn [table] in T.
  - rewrite <- T. apply eval_ext. intros a Ha. destruct (C a Ha) as [[]|F]. unfold value_of.
    destruct (find_atom known a) as [x|] eqn:E; [|contradiction]. now apply K.
  - destruct (find_atom known a) as [x|] eqn:E.
    + apply (IH known T K). intros c Hc. destruct (C c Hc) as [[->|H]|H]; auto. right. rewrite E. discriminate.
    + apply andb_prop in T. destruct T as [T1 T2].
      assert (Q : forall y, table r ((a, y) :: known) p = true -> v a = y -> eval v p = true).
      { intros y T V. apply (IH _ T).
        - intros c x. cbn [find_atom]. destruct (atom_eqb c a) eqn:F; [|apply K]. apply atom_eqb_spec in F. subst c.
          intros X. injection X as <-. exact V.
        - intros c Hc. cbn [find_atom]. destruct (atom_eqb c a) eqn:F; [right; discriminate|].
          destruct (C c Hc) as [[<-|H]|H]; auto. exfalso. assert (atom_eqb a a = true) by now apply atom_eqb_spec. congruence. }
      destruct (v a) eqn:V; [exact (Q true T1 eq_refl)|exact (Q false T2 eq_refl)].
Qed.
Lemma taut_sound p b : taut p = true -> holds b p = true.
Proof.
  intros T. apply (table_sound _ p (atoms p) [] T); [discriminate|]. intros a Ha. now left.
Qed.
Definition implies (p q : cfg_pred) : bool := taut (CAny [CNot p; q]).
Lemma implies_sound p q b : implies p q = true -> holds b p = true -> holds b q = true.
Proof.
  intros T H. apply taut_sound with (b := b) in T. unfold holds in *. cbn [eval existsb] in T.
  rewrite H, orb_false_r in T. exact T.
Qed.
Lemma holds_all b l : holds b (CAll l) = true <-> forall p, In p l -> holds b p = true.
Proof. unfold holds. cbn [eval]. rewrite forallb_forall. reflexivity. Qed.

(** ** Each need as a predicate *)
Definition when (i : item) : cfg_pred := CAll (i_under i ++ i_own i).
Definition some_of (l : list item) : cfg_pred := CAny (map when l).
Fixpoint one_of (l : list cfg_pred) : cfg_pred :=
  match l with
  | [] => CAny []
  | p :: r => CAny [CAll [p; CNot (CAny r)]; CAll [CNot p; one_of r]]
  end.
Section need.
  Variable s : source.
  Definition crate_pred (c : string) : cfg_pred :=
    if existsb (String.eqb c) ["core"; "hex"]%string then CAll []
    else if String.eqb c "std" then CNot (s_no_std s)
    else if existsb (String.eqb c) ["alloc"; "test"]%string then some_of (definitions s ["lib"%string] KCrate c)
    else if existsb (String.eqb c) ["serde"; "schemars"]%string then CFeature c
    else if String.eqb c "bitcoin_io" then CFeature "bitcoin-io"
    else if existsb (String.eqb c) ["serde_test"; "serde_json"]%string then CFlag "test"
    else CAny [].
  Definition need_pred (n : need) : cfg_pred :=
    match n with
    | NRoot c => crate_pred c
    | NPrelude _ => CNot (s_no_std s)
    | NHeap => CAny [CNot (s_no_std s); some_of (definitions s ["lib"%string] KCrate "alloc")]
    | NMacro f n => one_of (map when (definitions s [f; "internal_macros"; "serde_macros"]%string KMacro n))
    | NFn f n => some_of (definitions s [f] KFn n)
    | NArch a => CArch a
    | NIntrinsics f => some_of (definitions s [f] KUse "usecore::arch::x86::*" ++ definitions s [f] KUse "usecore::arch::x86_64::*")
    | NDetect => CAll [CNot (s_no_std s); CAny [CArch "x86"; CArch "x86_64"]]
    end.
  Lemma some_of_spec b l : holds b (some_of l) = existsb (compiled b) l.
  Proof.
    unfold some_of, holds. cbn [eval]. induction l as [|i r IH]; [reflexivity|]. cbn [map existsb]. rewrite IH. reflexivity.
  Qed.
  Lemma one_of_spec b l : holds b (one_of (map when l)) = true -> List.length (filter (compiled b) l) = 1%nat.
  Proof.
    induction l as [|i r IH]; [discriminate|]. intros H. cbn [map one_of] in H. unfold holds in H.
    cbn [eval existsb forallb] in H. cbn [filter]. fold (holds b) in H.
    change (eval (atom_holds b) (when i)) with (compiled b i) in H.
    destruct (compiled b i) eqn:C; cbn in H.
    - rewrite orb_false_r, andb_true_r in H. apply negb_true_iff in H.
      cbn [List.length]. f_equal.
      assert (Z : existsb (compiled b) r = false).
      { rewrite <- some_of_spec. exact H. }
      clear - Z. induction r as [|j r IH]; [reflexivity|]. cbn [existsb filter] in *. apply orb_false_iff in Z. destruct Z as [-> Z]. auto.
    - rewrite orb_false_r, andb_true_r in H. apply IH. exact H.
  Qed.
  Lemma crate_pred_spec b c : holds b (crate_pred c) = crate_available s b c.
  Proof.
    unfold crate_pred, crate_available.
    repeat match goal with |- context [if ?x then _ else _] => destruct x eqn:?; [try reflexivity; try apply some_of_spec|] end.
    reflexivity.
  Qed.
  Lemma need_sound b n : holds b (need_pred n) = true -> available s b n.
  Proof.
    destruct n as [c|n| |f n|f n|a|f|]; cbn [need_pred available]; intros H.
    - now rewrite crate_pred_spec in H.
    - exact H.
    - unfold holds in H. cbn [eval existsb] in H. rewrite orb_false_r in H. apply orb_prop in H. destruct H as [H|H]; [left; exact H|right].
      unfold extern_crate. rewrite <- some_of_spec. exact H.
    - now apply one_of_spec.
    - rewrite some_of_spec in H. apply existsb_exists in H. exact H.
    - now apply String.eqb_eq.
    - rewrite some_of_spec in H. apply existsb_exists in H. exact H.
    - unfold holds in H. cbn [eval forallb existsb] in H. rewrite andb_true_r, orb_false_r in H. apply andb_prop in H. destruct H as [H K].
      split; [exact H|]. apply orb_prop in K. destruct K as [K|K]; apply String.eqb_eq in K; rewrite K; cbn; auto.
  Qed.

  Definition check (g : cfg_pred) : bool :=
    forallb (fun f => forallb (fun i => forallb (fun n => implies (CAll (g :: i_under i ++ i_own i)) (need_pred n)) (i_needs i)) (snd f)) (s_files s).
  Lemma check_sound g b : check g = true -> holds b g = true -> resolves s b.
  Proof.
    intros C G f l i n Hf Hi A Hn. unfold check in C. rewrite forallb_forall in C. specialize (C _ Hf). cbn [snd] in C.
    rewrite forallb_forall in C. specialize (C _ Hi). rewrite forallb_forall in C. specialize (C _ Hn).
    apply need_sound, (implies_sound _ _ b C). unfold compiled in A. rewrite holds_all in *.
    intros p [<-|Hp]; [exact G|now apply A].
  Qed.
End need.

(** ** This crate *)
Definition usable : cfg_pred :=
  CAll [CAny [CNot (CFeature "alloc"); CFeature "std"; CFlag "test"]; CAny [CNot (CFeature "schemars"); CFeature "std"; CFlag "test"];
    CNot (CAll [CFlag "test"; CArch "wasm32"])].
Lemma usable_ok : check g_source usable = true.
Proof. vm_compute. reflexivity. Qed.
Lemma usable_iff b : holds b usable = true <->
  ((b_feature b "alloc" = true -> b_feature b "std" = true \/ b_flag b "test" = true) /\
   (b_feature b "schemars" = true -> b_feature b "std" = true \/ b_flag b "test" = true) /\
   ~ (b_flag b "test" = true /\ b_arch b = "wasm32"%string)).
Proof.
  unfold usable, holds. cbn [eval forallb existsb CFeature CFlag CArch atom_holds].
  destruct (b_feature b "alloc"), (b_feature b "schemars"), (b_feature b "std"), (b_flag b "test"), (String.eqb_spec (b_arch b) "wasm32"); cbn; intuition congruence.
Qed.
Lemma linked_iff b : std_linked g_source b = true <-> b_feature b "std" = true \/ b_flag b "test" = true.
Proof.
  unfold std_linked, holds. cbn [s_no_std g_source g_no_std eval forallb existsb CFeature CFlag atom_holds].
  destruct (b_feature b "std"), (b_flag b "test"); cbn; intuition congruence.
Qed.
(** an item that is compiled under one feature and needs the std prelude *)
Definition prelude_under (f : string) : bool :=
  existsb (fun x => existsb (fun i => implies (CFeature f) (when i) && existsb (fun n => match n with NPrelude _ => true | _ => false end) (i_needs i)) (snd x)) g_crate.
Lemma prelude_needed f b : prelude_under f = true -> resolves g_source b -> b_feature b f = true ->
  b_feature b "std" = true \/ b_flag b "test" = true.
Proof.
  intros P R F. apply linked_iff. unfold prelude_under in P. apply existsb_exists in P. destruct P as ([x l] & Hx & P). cbn [snd] in P.
  apply existsb_exists in P. destruct P as (i & Hi & P). apply andb_prop in P. destruct P as [P N].
  apply existsb_exists in N. destruct N as (n & Hn & N). destruct n as [|m| | | | | |]; try discriminate.
  exact (R x l i (NPrelude m) Hx Hi (implies_sound _ _ b P F) Hn).
Qed.
(** an item of the tests on wasm32 needs a crate that Cargo.toml does not have *)
Definition wasm_under : bool :=
  existsb (fun x => existsb (fun i => implies (CAll [CFlag "test"; CArch "wasm32"]) (when i) &&
    existsb (fun n => match n with NRoot c => String.eqb c "wasm_bindgen_test" | _ => false end) (i_needs i)) (snd x)) g_crate.
Lemma wasm_needed b : resolves g_source b -> holds b (CAll [CFlag "test"; CArch "wasm32"]) = true -> False.
Proof.
  intros R F. assert (P : wasm_under = true) by (vm_compute; reflexivity). unfold wasm_under in P. apply existsb_exists in P. destruct P as ([x l] & Hx & P). cbn [snd] in P.
  apply existsb_exists in P. destruct P as (i & Hi & P). apply andb_prop in P. destruct P as [P N].
  apply existsb_exists in N. destruct N as (n & Hn & N). destruct n as [c| | | | | | |]; try discriminate.
  apply String.eqb_eq in N. subst c.
  pose proof (R x l i _ Hx Hi (implies_sound _ _ b P F) Hn) as Q. discriminate Q.
Qed.
Theorem resolves_exact b : resolves g_source b <->
  ((b_feature b "alloc" = true -> b_feature b "std" = true \/ b_flag b "test" = true) /\
   (b_feature b "schemars" = true -> b_feature b "std" = true \/ b_flag b "test" = true) /\
   ~ (b_flag b "test" = true /\ b_arch b = "wasm32"%string)).
Proof.
  split.
  - intros R. split; [|split].
    1, 2: intros F; (eapply prelude_needed; [|exact R|exact F]); vm_compute; reflexivity.
    intros [T A]. apply (wasm_needed b R). unfold holds. cbn [eval forallb CFlag CArch atom_holds]. rewrite T, A. reflexivity.
  - intros H. apply (check_sound _ usable); [exact usable_ok|]. now apply usable_iff.
Qed.

(** What is missing where it does not *)
Definition known_gap (i : item) (n : need) : bool :=
  match n with
  | NPrelude x => (String.eqb x "Vec" && String.eqb (i_name i) "to_bytes" && implies (when i) (CFeature "alloc")) ||
                  ((String.eqb (i_name i) "schema_name" || String.eqb (i_name i) "json_schema") && implies (when i) (CFeature "schemars"))
  | NRoot c => (String.eqb c "std" && String.eqb (i_name i) "schema_name" && implies (when i) (CFeature "schemars")) ||
               (String.eqb c "wasm_bindgen_test" && implies (when i) (CAll [CFlag "test"; CArch "wasm32"]))
  | _ => false
  end.
Lemma gaps_known : forallb (fun f => forallb (fun i => forallb (fun n => implies (when i) (need_pred g_source n) || known_gap i n) (i_needs i)) (snd f)) g_crate = true.
Proof. vm_compute. reflexivity. Qed.
Theorem missing_exact b f l i n : In (f, l) g_crate -> In i l -> compiled b i = true -> In n (i_needs i) -> ~ available g_source b n ->
  (i_name i = "to_bytes"%string /\ n = NPrelude "Vec" /\ b_feature b "alloc" = true /\ b_feature b "std" = false) \/
  (In (i_name i) ["schema_name"; "json_schema"]%string /\ (n = NRoot "std" \/ exists x, n = NPrelude x) /\
   b_feature b "schemars" = true /\ b_feature b "std" = false) \/
  (n = NRoot "wasm_bindgen_test" /\ b_flag b "test" = true /\ b_arch b = "wasm32"%string).
Proof.
  intros Hf Hi C Hn NA. pose proof gaps_known as G. rewrite forallb_forall in G. specialize (G _ Hf). cbn [snd] in G.
  rewrite forallb_forall in G. specialize (G _ Hi). rewrite forallb_forall in G. specialize (G _ Hn).
  apply orb_prop in G. destruct G as [G|G]; [exfalso; apply NA, need_sound, (implies_sound _ _ b G), C|].
  assert (L : b_feature b "std" = true -> available g_source b (NPrelude "") /\ available g_source b (NRoot "std")).
  { intros S. assert (std_linked g_source b = true) by (apply linked_iff; now left). split; [exact H|exact H]. }
  assert (F : n <> NRoot "wasm_bindgen_test" -> (n = NRoot "std" \/ exists x, n = NPrelude x) -> b_feature b "std" = false).
  { intros _ H. destruct (b_feature b "std"); [|reflexivity]. exfalso. destruct (L eq_refl) as [L1 L2]. apply NA.
    destruct H as [->|[x ->]]; [exact L2|exact L1]. }
  assert (A : forall g, implies (when i) (CFeature g) = true -> b_feature b g = true).
  { intros g P. exact (implies_sound _ _ b P C). }
  destruct n as [c|x| | | | | |]; cbn [known_gap] in G; try discriminate; apply orb_prop in G; destruct G as [G|G];
    rewrite ?andb_true_iff, ?orb_true_iff, ?String.eqb_eq in G.
  - destruct G as [[-> ->] G]. right. left. split; [now left|]. split; [now left|]. split; [now apply A|apply F; [discriminate|now left]].
  - destruct G as [-> G]. right. right. split; [reflexivity|]. pose proof (implies_sound _ _ b G C) as H. rewrite holds_all in H.
    split; [exact (H (CFlag "test") (or_introl eq_refl))|]. apply String.eqb_eq. exact (H (CArch "wasm32") (or_intror (or_introl eq_refl))).
  - destruct G as [[-> ->] G]. left. repeat split; [now apply A|apply F; [discriminate|right; eauto]].
  - destruct G as [G1 G]. right. left. split; [destruct G1 as [->| ->]; cbn; auto|]. split; [right; eauto|].
    split; [now apply A|apply F; [discriminate|right; eauto]].
Qed.

(** ** Defined once *)
Fixpoint pred_eqb (p q : cfg_pred) {struct p} : bool :=
  let fix all (l m : list cfg_pred) : bool := match l, m with [], [] => true | p :: l, q :: m => pred_eqb p q && all l m | _, _ => false end in
  match p, q with
  | CAtom a, CAtom b => atom_eqb a b
  | CAll l, CAll m => all l m
  | CAny l, CAny m => all l m
  | CNot p, CNot q => pred_eqb p q
  | _, _ => false
  end.
Lemma pred_eqb_eq p : forall q, pred_eqb p q = true -> p = q.
Proof.
  induction p as [a|l IH|l IH|p IH] using cfg_pred_ind'; intros [a'|m|m|q]; cbn [pred_eqb]; try discriminate.
  - intros E. apply atom_eqb_spec in E. now subst.
  - intros E. f_equal. revert m E. induction IH as [|p r Hp _ IHr]; intros [|q m]; try discriminate; [reflexivity|].
    intros E. apply andb_prop in E. destruct E as [E F]. f_equal; [now apply Hp|now apply IHr].
  - intros E. f_equal. revert m E. induction IH as [|p r Hp _ IHr]; intros [|q m]; try discriminate; [reflexivity|].
    intros E. apply andb_prop in E. destruct E as [E F]. f_equal; [now apply Hp|now apply IHr].
  - intros E. f_equal. now apply IH.
Qed.
Definition same_nameb (i j : item) : bool :=
  String.eqb (i_name i) (i_name j) && kind_eqb (i_kind i) (i_kind j) && String.eqb (i_path i) (i_path j).
Definition pair_ok (i j : item) : bool :=
  negb (same_nameb i j) || negb (named (i_kind i)) ||
  (pred_eqb (CAll (i_under i)) (CAll (i_under j)) &&
   taut (CAny [CAll [CAll (i_own i); CNot (CAll (i_own j))]; CAll [CNot (CAll (i_own i)); CAll (i_own j)]])).
Fixpoint once (l : list item) : bool :=
  match l with [] => true | i :: r => forallb (pair_ok i) r && once r end.
Definition said (i j : item) : Prop :=
  i_under i = i_under j /\ forall bl, holds bl (CAll (i_own i)) = negb (holds bl (CAll (i_own j))).
Lemma kind_eqb_refl k : kind_eqb k k = true.
Proof. now destruct k. Qed.
Lemma pair_ok_sound i j : pair_ok i j = true -> named (i_kind i) = true -> same_name i j -> said i j.
Proof.
  unfold pair_ok. intros P N (K & Q & M).
  assert (S : same_nameb i j = true).
  { unfold same_nameb. rewrite K, Q, M, !String.eqb_refl, kind_eqb_refl. reflexivity. }
  rewrite S, N in P. cbn [negb orb] in P. apply andb_prop in P. destruct P as [P T]. apply pred_eqb_eq in P.
  split; [now injection P|]. intros bl. apply taut_sound with (b := bl) in T. unfold holds in *.
  cbn [eval existsb forallb] in T |- *.
  destruct (forallb (eval (atom_holds bl)) (i_own i)), (forallb (eval (atom_holds bl)) (i_own j)); cbn in *; congruence.
Qed.
Lemma once_sound l : once l = true -> forall a b i j, nth_error l a = Some i -> nth_error l b = Some j -> (a < b)%nat ->
  named (i_kind i) = true -> same_name i j -> said i j.
Proof.
  induction l as [|x r IH]; intros O a b i j Ha Hb L N S; [destruct a; discriminate|].
  cbn [once] in O. apply andb_prop in O. destruct O as [F O]. destruct b as [|b]; [lia|]. cbn [nth_error] in Hb.
  destruct a as [|a]; cbn [nth_error] in Ha.
  - injection Ha as ->. rewrite forallb_forall in F. apply pair_ok_sound; [|exact N|exact S]. apply F. exact (nth_error_In _ _ Hb).
  - apply (IH O a b); auto. lia.
Qed.
Lemma all_once : forallb (fun f => once (snd f)) g_crate = true.
Proof. vm_compute. reflexivity. Qed.
Theorem crate_defined_once : defined_once g_source.
Proof.
  intros f l a b i j Hf Ha Hb D N S. pose proof all_once as O. rewrite forallb_forall in O. specialize (O _ Hf). cbn [snd] in O.
  assert (LT : (a < b \/ a = b \/ b < a)%nat) by lia; destruct LT as [L|[L|L]]; [|contradiction|].
  - exact (once_sound l O a b i j Ha Hb L N S).
  - assert (S' : same_name j i) by (destruct S as (A & B & C); repeat split; congruence).
    assert (N' : named (i_kind j) = true) by (destruct S as (A & _); now rewrite <- A).
    destruct (once_sound l O b a j i Hb Ha L N' S') as [U V]. split; [now symmetry|].
    intros bl. rewrite V. now rewrite negb_involutive.
Qed.

(** ** Cargo *)
Lemma features_in g l : In (g, l) (s_features g_source) ->
  (g = "default"%string /\ l = ["std"%string]) \/ (g = "std"%string /\ l = ["alloc"; "bitcoin-io"]%string) \/ (g = "io"%string /\ l = ["bitcoin-io"%string]) \/ l = [].
Proof.
  cbn [s_features g_source]. unfold g_features. intros H. cbn [In] in H.
  repeat (destruct H as [H|H]; [injection H as <- <-; auto 6|]). destruct H.
Qed.
Definition from_of (f : string) : list string :=
  if String.eqb f "std" then ["std"; "default"]%string
  else if String.eqb f "alloc" then ["alloc"; "std"; "default"]%string
  else if String.eqb f "bitcoin-io" then ["bitcoin-io"; "io"; "std"; "default"]%string
  else [f].
Lemma enabled_from req f : enabled g_source req f -> asked req (from_of f).
Proof.
  induction 1 as [f H|g l f H (x & Hx & X) I F].
  - exists f. split; [exact H|]. unfold from_of.
    destruct (String.eqb_spec f "std"); [subst; now left|]. destruct (String.eqb_spec f "alloc"); [subst; now left|].
    destruct (String.eqb_spec f "bitcoin-io"); [subst; now left|]. now left.
  - exists x. split; [exact Hx|]. apply features_in in I.
    destruct I as [(-> & ->)|[(-> & ->)|[(-> & ->)| ->]]]; cbn [In] in F;
      repeat (destruct F as [F|F]; [subst f; cbn in X |- *; tauto|]); destruct F.
Qed.
Lemma from_enabled req f : In f ["std"; "alloc"; "bitcoin-io"; "schemars"; "serde"; "small-hash"]%string -> asked req (from_of f) -> enabled g_source req f.
Proof.
  intros F (x & Hx & X).
  assert (R : enabled g_source req x) by now apply enabled_req.
  assert (D : enabled g_source req "default" -> enabled g_source req "std").
  { intros H. apply (enabled_by _ _ _ ["std"%string] _ H); [|now left]. cbn. tauto. }
  assert (S : forall f, enabled g_source req "std" -> In f ["alloc"; "bitcoin-io"]%string -> enabled g_source req f).
  { intros g H I. apply (enabled_by _ _ _ ["alloc"; "bitcoin-io"]%string _ H); [|exact I]. cbn. tauto. }
  assert (I : enabled g_source req "io" -> enabled g_source req "bitcoin-io").
  { intros H. apply (enabled_by _ _ _ ["bitcoin-io"%string] _ H); [|now left]. cbn. tauto. }
  cbn [In] in F. repeat (destruct F as [F|F]; [subst f; cbn in X;
    repeat (destruct X as [X|X]; [subst x; auto; try (apply S; [auto|cbn; tauto])|]); try destruct X|]). destruct F.
Qed.
Lemma cargo_feature req b f : cargo_build g_source req b -> In f ["std"; "alloc"; "bitcoin-io"; "schemars"; "serde"; "small-hash"]%string ->
  (b_feature b f = true <-> asked req (from_of f)).
Proof. intros C F. rewrite (C f). split; [apply enabled_from|now apply from_enabled]. Qed.
Lemma asked_app req l m : asked req (l ++ m) <-> asked req l \/ asked req m.
Proof.
  split.
  - intros (x & H & I). apply in_app_or in I. destruct I; [left|right]; exists x; auto.
  - intros [(x & H & I)|(x & H & I)]; exists x; split; auto; apply in_or_app; auto.
Qed.
Lemma asked_one req f : asked req [f] <-> In f req.
Proof. split; [intros (x & H & [<-|[]]); exact H|intros H; exists f; split; [exact H|now left]]. Qed.
Theorem cargo_resolves req b : cargo_build g_source req b -> b_flag b "test" = false ->
  (resolves g_source b <-> asked req ["std"; "default"]%string \/ (~ In "alloc"%string req /\ ~ In "schemars"%string req)).
Proof.
  intros C T. rewrite resolves_exact, T.
  assert (W : forall P : Prop, P -> P /\ ~ (false = true /\ b_arch b = "wasm32"%string)) by (intros P HP; split; [exact HP|now intros [X _]]).
  rewrite (cargo_feature req b "alloc" C), (cargo_feature req b "std" C), (cargo_feature req b "schemars" C) by (cbn; tauto).
  change (from_of "alloc") with (["alloc"%string] ++ ["std"; "default"]%string). change (from_of "std") with ["std"; "default"]%string.
  change (from_of "schemars") with ["schemars"%string]. rewrite asked_app, !asked_one.
  assert (Dec : asked req ["std"; "default"]%string \/ ~ asked req ["std"; "default"]%string).
  { destruct (in_dec string_dec "std"%string req) as [H|H]; [left; exists "std"%string; cbn; auto|].
    destruct (in_dec string_dec "default"%string req) as [K|K]; [left; exists "default"%string; cbn; auto|].
    right. intros (x & X & Y). cbn [In] in Y. destruct Y as [<-|[<-|[]]]; auto. }
  split.
  - intros (A & S & _). destruct Dec as [D|D]; [now left|right]. split; intros H; [destruct (A (or_introl H))|destruct (S H)]; auto; discriminate.
  - intros [H|[A S]]; split; auto; try (apply W; auto); intros [X|X]; auto; contradiction.
Qed.
Theorem cargo_alloc_refuted : exists req b, cargo_build g_source req b /\ b_flag b "test" = false /\
  (forall f, In f req -> In f (map fst g_features)) /\ ~ resolves g_source b.
Proof.
  exists ["alloc"%string], (mk_build (String.eqb "alloc") "x86_64" (fun _ => false)).
  split; [|split; [reflexivity|split]].
  - intros f. cbn [b_feature]. rewrite String.eqb_eq. split.
    + intros <-. apply enabled_req. now left.
    + intros H. apply enabled_from in H. destruct H as (x & [<-|[]] & X). unfold from_of in X.
      destruct (String.eqb_spec f "std"); [cbn in X; intuition discriminate|].
      destruct (String.eqb_spec f "alloc"); [now subst|].
      destruct (String.eqb_spec f "bitcoin-io"); [cbn in X; intuition discriminate|]. destruct X as [X|[]]; now symmetry.
  - intros f [<-|[]]. cbn. tauto.
  - intros R. apply resolves_exact in R. destruct R as [R _]. destruct (R eq_refl); discriminate.
Qed.
Theorem write_impls req b i : cargo_build g_source req b ->
  (impl_item "impls" "impl < E : HashEngine > bitcoin_io :: Write for hmac :: Engine < E >" i ->
    (compiled b i = true <-> asked req ["default"; "std"; "io"; "bitcoin-io"]%string)) /\
  (impl_item "impls" "impl < E : HashEngine > std :: io :: Write for hmac :: Engine < E >" i ->
    (compiled b i = true <-> asked req ["default"; "std"]%string)).
Proof.
  intros C. pose proof (cargo_feature req b "bitcoin-io" C ltac:(cbn; tauto)) as B.
  pose proof (cargo_feature req b "std" C ltac:(cbn; tauto)) as S.
  assert (P : forall l m, (forall x : string, In x l <-> In x m) -> (asked req l <-> asked req m)).
  { intros l m E. split; intros (x & X & Y); exists x; split; auto; now apply E. }
  split; intros I; unfold impl_item in I;
    match type of I with In _ ?l => let m := eval vm_compute in l in change l with m in I end;
    destruct I as [<-|[]]; unfold compiled, holds; cbn [i_under i_own app eval forallb atom_holds CFeature]; rewrite ?andb_true_r.
  - rewrite B. apply P. intros x. cbn. tauto.
  - rewrite andb_true_iff, B, S. split.
    + intros [_ H]. revert H. apply P. intros x. cbn. tauto.
    + intros (x & X & Y). cbn in Y. split; exists x; (split; [exact X|]); cbn; tauto.
Qed.

(** ** The choice of the block function *)
Lemma cond_iff b cpu : g_process_block_cond b cpu = true <-> forall f, In f g_simd_features -> cpu f = true.
Proof.
  unfold g_process_block_cond, g_simd_features. rewrite !andb_true_iff. split.
  - intros H f F. cbn [In] in F. repeat (destruct F as [<-|F]; [tauto|]). destruct F.
  - intros H. repeat split; apply H; cbn [In]; tauto.
Qed.
Lemma intrinsics_covered i : In i g_simd_intrinsics -> exists f, intrinsic_feature i = Some f /\ In f g_simd_features.
Proof.
  unfold g_simd_intrinsics. intros H. cbn [In] in H.
  repeat (destruct H as [<-|H]; [eexists; split; [vm_compute; reflexivity|cbn [In g_simd_features]; tauto]|]). destruct H.
Qed.
Lemma cond_runs b cpu : g_process_block_cond b cpu = true -> forallb cpu g_simd_features && forallb (cpu_runs cpu) g_simd_intrinsics = true.
Proof.
  intros H. rewrite cond_iff in H. apply andb_true_intro. split; apply forallb_forall; [exact H|].
  intros i I. destruct (intrinsics_covered i I) as (f & E & F). unfold cpu_runs. rewrite E. now apply H.
Qed.
Theorem dispatch_total b cpu c e : exists r, g_process_block_on b cpu c e = Runs r.
Proof.
  unfold g_process_block_on. match goal with |- context [if ?x && _ then _ else _] => destruct x eqn:H end; [|eexists; reflexivity].
  destruct (g_process_block_cond b cpu) eqn:G; cbn [andb]; [|eexists; reflexivity].
  unfold run_unsafe. rewrite (cond_runs b cpu G). assert (S : holds b g_simd_cfg = true) by (eapply implies_sound; [|exact H]; vm_compute; reflexivity). rewrite S. eexists; reflexivity.
Qed.
Theorem dispatch_exact b cpu c e : sha_ni c = accelerated b cpu ->
  g_process_block_on b cpu c e = Runs (g_sha256_Engine_process_block c e).
Proof.
  intros E. unfold g_process_block_on, g_sha256_Engine_process_block. rewrite E, !andb_diag.
  assert (A : accelerated b cpu = holds b (CAll [CFeature "std"; CAny [CArch "x86"; CArch "x86_64"]]) && g_process_block_cond b cpu).
  { unfold accelerated, g_process_block_cond, holds. cbn [eval forallb existsb CFeature CArch atom_holds].
    destruct (b_feature b "std"), (b_arch b =? "x86")%string, (b_arch b =? "x86_64")%string, (cpu "sha"%string), (cpu "sse2"%string), (cpu "ssse3"%string), (cpu "sse4.1"%string); reflexivity. }
  rewrite <- A. destruct (accelerated b cpu) eqn:X; [|reflexivity].
  symmetry in A. apply andb_prop in A. destruct A as [A G].
  unfold run_unsafe. rewrite (cond_runs b cpu G). assert (S : holds b g_simd_cfg = true) by (eapply implies_sound; [|exact A]; vm_compute; reflexivity). rewrite S. reflexivity.
Qed.
Theorem dispatch_same b cpu c e : wf_config c -> sha_ni c = accelerated b cpu -> typed Sha256 e ->
  g_process_block_on b cpu c e = Runs (Ok (mk_engine (e_buffer e) (md_compress (md_of Sha256) (e_h e) (e_buffer e)) (e_length e))).
Proof. intros W E T. rewrite (dispatch_exact b cpu c e E). f_equal. exact (gen_block_compress c Sha256 e W T). Qed.

Lemma default_serde_build : cargo_build g_source ["default"; "serde"]%string
  (mk_build (fun f => existsb (String.eqb f) ["default"; "std"; "alloc"; "bitcoin-io"; "serde"]%string) "aarch64" (fun _ => false)).
Proof.
  intros f. cbn [b_feature]. rewrite existsb_exists. split.
  - intros (x & X & E). apply String.eqb_eq in E. subst x.
    destruct X as [<-|X]; [apply enabled_req; now left|].
    repeat (destruct X as [<-|X]; [apply from_enabled; [cbn; tauto|]; first [exists "default"%string; cbn; tauto|exists "serde"%string; cbn; tauto]|]). destruct X.
  - intros H. apply enabled_from in H. destruct H as (x & X & Y). exists f. split; [|apply String.eqb_refl]. unfold from_of in Y.
    destruct (String.eqb_spec f "std"); [subst; cbn; tauto|]. destruct (String.eqb_spec f "alloc"); [subst; cbn; tauto|].
    destruct (String.eqb_spec f "bitcoin-io"); [subst; cbn; tauto|]. destruct Y as [<-|[]]. cbn in X |- *. tauto.
Qed.
