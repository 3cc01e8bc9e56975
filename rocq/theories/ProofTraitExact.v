(** Which types have which traits, exactly (C88). *)
From Coq Require Import Strings.String Arith Lia.
From Verif Require Import Base BuildBase TraitBase GenTrait SpecTrait ProofTrait.
Open Scope list_scope. Open Scope string_scope.

Lemma on_compiled b f : on b f -> compiled b [CFeature f].
Proof. unfold on, compiled. intros H. cbn. now rewrite H. Qed.
Lemma compiled_on b f : compiled b [CFeature f] -> on b f.
Proof. unfold on, compiled. cbn. now destruct (b_feature b f). Qed.
Lemma on2_compiled b f g : on b f -> on b g -> compiled b [CFeature f; CFeature g].
Proof. unfold on, compiled. intros H K. cbn. now rewrite H, K. Qed.
Lemma compiled_on2 b f g : compiled b [CFeature f; CFeature g] -> on b f /\ on b g.
Proof. unfold on, compiled. cbn. destruct (b_feature b f), (b_feature b g); intros; now split. Qed.
Lemma compiled_nil b : compiled b [].
Proof. reflexivity. Qed.

(** the clauses about a type, one case for each *)
Ltac invert H HU :=
  let c := fresh "c" in let s := fresh "s" in let Hin := fresh "Hin" in let Hc := fresh "Hc" in let He := fresh "He" in let Hp := fresh "Hp" in
  destruct (has_inv _ _ _ _ _ HU H) as (c & s & Hin & Hc & He & Hp); vm_compute in Hin; clear H;
  repeat (destruct Hin as [<-|Hin]; [cbn [cl_head cl_cfg cl_pre] in *; cbn [gsubst tsubst fst snd map] in He; first [discriminate He|injection He; clear He; intros; subst]|]); [..|contradiction].
Ltac elem := cbn; repeat (first [left; reflexivity|right]); fail.
Ltac cases H := cbn [In map app auto_traits text_and_order] in H; repeat match type of H with _ \/ _ => destruct H as [H|H] end; try contradiction; subst.

Section Exact.
  Context (b : build) (U : goal -> Prop) (HU : world U).

  (** Tags and engines *)
  Lemma sat_trait t r : sat b g_program U (t, r) ->
    U (t, r) \/ exists c s, In c (filter (fun c => String.eqb (fst (snd (cl_head c))) (fst r)) g_program) /\
      gsubst s (cl_head c) = (t, r) /\ forall p, In p (cl_pre c) -> sat b g_program U (gsubst s p).
  Proof.
    intros H. remember (t, r) as g eqn:E. destruct H as [g Hg|c s Hin Hc Hp]; [now left|]. right. exists c, s. split; [|now split].
    apply filter_In. split; [exact Hin|]. unfold gsubst in E. injection E as _ E. destruct r as [n l]. injection E as -> _. apply String.eqb_refl.
  Qed.
  Lemma tag_user t : has b U t (t0 "Tag") <-> U (t, t0 "Tag").
  Proof.
    split; [|now apply sat_user]. intros H. destruct (sat_trait _ _ H) as [|(c & s & Hin & _)]; [assumption|]. vm_compute in Hin. contradiction.
  Qed.

  (** goals found by search, without and with one parameter *)
  Lemma ground cfgs g : solve grouped 6 cfgs [] g = true -> compiled b cfgs -> (forall s, gsubst s g = g) -> sat b g_program U g.
  Proof. intros H Hc Hs. rewrite <- (Hs TVar). apply (found b U cfgs [] g TVar H Hc). intros h []. Qed.
  Ltac comp := first [exact (compiled_nil b)|now apply on_compiled|now apply on2_compiled].
  Ltac gr f := apply (ground f); [vm_compute; reflexivity|comp|reflexivity].

  Definition with_param (t : ty) (g : goal) : goal := gsubst (fun _ => t) g.
  Lemma param cfgs t hyps g : solve grouped 6 cfgs hyps g = true -> compiled b cfgs ->
    (forall h, In h hyps -> sat b g_program U (with_param t h)) -> sat b g_program U (with_param t g).
  Proof. intros H Hc Hh. exact (found b U cfgs hyps g (fun _ => t) H Hc Hh). Qed.
  Definition with2 (t u : ty) (g : goal) : goal := gsubst (fun k => match k with O => t | _ => u end) g.
  Lemma param2 cfgs t u hyps g : solve grouped 6 cfgs hyps g = true -> compiled b cfgs ->
    (forall h, In h hyps -> sat b g_program U (with2 t u h)) -> sat b g_program U (with2 t u g).
  Proof. intros H Hc Hh. exact (found b U cfgs hyps g _ H Hc Hh). Qed.

  Ltac features := repeat match goal with
    | H : compiled b [] |- _ => clear H
    | H : compiled b [_] |- _ => apply compiled_on in H
    | H : compiled b [_; _] |- _ => apply compiled_on2 in H; destruct H end.
  Ltac fwd := features; first
    [ left; elem
    | right; left; elem
    | right; right; left; reflexivity
    | right; right; right; left; eexists; split; [reflexivity|]; match goal with Hp : forall p, In p _ -> _ |- _ => exact (Hp _ (or_introl eq_refl)) end
    | right; right; right; right; left; split; [assumption|elem]
    | right; right; right; right; right; split; [assumption|reflexivity] ].

  Lemma hash_exact f n r : hash_size f = Some n -> has b U (hash f) r <-> auto r \/ hash_has b U n r.
  Proof.
    intros Hf. unfold hash_size in Hf.
    repeat match type of Hf with context [if ?x =? ?y then _ else _] => destruct (String.eqb_spec x y) as [->|_]; [injection Hf as <-|] end; [..|discriminate].
    all: split; [intros H; unfold hash in H; cbn [append] in H; invert H HU; fwd|].
    all: intros [H|[H|[->|[(i & -> & H)|[[Hs H]|[Hs ->]]]]]];
      [ unfold auto in H; cases H; gr (@nil cfg_pred)
      | unfold text_and_order in H; cases H; gr (@nil cfg_pred)
      | gr (@nil cfg_pred)
      | apply (param [] i [(TVar 0, ("SliceIndex", [tslice u8]))] (TCon _ [], ("Index", [TVar 0]))); [vm_compute; reflexivity|comp|]; intros h [<-|[]]; exact H
      | cases H; gr [CFeature "serde"]
      | gr [CFeature "schemars"] ].
  Qed.
  Lemma engine_exact f r : engine_name f -> has b U (engine f) r <-> engine_has b f r.
  Proof.
    intros Hf. unfold engine_name in Hf. cases Hf.
    all: split; [intros H; unfold engine in H; cbn [append] in H; invert H HU; features;
      first [left; elem|right; left; elem|right; right; left; split; [split; discriminate|split; [assumption|reflexivity]]|right; right; right; split; reflexivity]|].
    all: intros [H|[H|[([Hw Hw'] & Hs & ->)|[Hd ->]]]];
      [ unfold auto in H; cases H; gr (@nil cfg_pred)
      | cases H; gr (@nil cfg_pred)
      | try contradiction; gr [CFeature "bitcoin-io"]
      | try discriminate; gr (@nil cfg_pred) ].
  Qed.
  Lemma phantom_auto t a : In a auto_traits -> has b U (TCon "PhantomData" [t]) (t0 a) -> has b U t (t0 a).
  Proof. intros Ha H. cases Ha; invert H HU; exact (Hp _ (or_introl eq_refl)). Qed.

  Ltac premise := match goal with Hp : forall p, In p _ -> _ |- _ => first
    [ exact (Hp _ (or_introl eq_refl)) | exact (Hp _ (or_intror (or_introl eq_refl)))
    | apply tag_user; exact (Hp _ (or_introl eq_refl)) | apply tag_user; exact (Hp _ (or_intror (or_introl eq_refl)))
    | apply phantom_auto; [elem|exact (Hp _ (or_intror (or_introl eq_refl)))] ] end.
  Ltac by_hyp H := intros ?h [<-|[]]; exact H.
  (** [con<t>: r] with no premise, with the premise [H : t: q], or with [H : t: r] *)
  Ltac par0 f con t := match goal with |- has _ _ _ ?r => apply (param f t [] (TCon con [TVar 0], r)); [vm_compute; reflexivity|comp|intros ?h []] end.
  Ltac par f con t q H := match goal with |- has _ _ _ ?r => apply (param f t [(TVar 0, q)] (TCon con [TVar 0], r)); [vm_compute; reflexivity|comp|by_hyp H] end.
  Ltac same f con t H := match goal with |- has _ _ _ ?r => par f con t r H end.

  Lemma tagged_exact t r : has b U (tagged t) r <-> tagged_has b U t r.
  Proof.
    split.
    - intros H. invert H HU; features.
      all: first [left; split; [first [left; elem|right; reflexivity]|premise]
                 |right; split; [premise|first [left; elem|right; split; [assumption|reflexivity]]]].
    - intros [[[Ha| ->] H]|[H [Hr|[Hs ->]]]].
      + unfold auto in Ha. cases Ha; same (@nil cfg_pred) "sha256t::Engine" t H.
      + apply (param [] t [(TVar 0, t0 "Clone")] (TCon "sha256t::Engine" [TVar 0], t0 "Clone")); [vm_compute; reflexivity|comp|by_hyp H].
      + apply tag_user in H. cases Hr; par (@nil cfg_pred) "sha256t::Engine" t (t0 "Tag") H.
      + apply tag_user in H. apply (param [CFeature "bitcoin-io"] t [(TVar 0, t0 "Tag")] (TCon "sha256t::Engine" [TVar 0], t0 "bitcoin_io::Write")); [vm_compute; reflexivity|comp|by_hyp H].
  Qed.

  Lemma engine_sound t : is_engine U t -> has b U t (t0 "HashEngine").
  Proof.
    induction 1 as [f Hf|t Ht|t Ht IH|t Ht].
    - apply engine_exact; [exact Hf|]. right. left. elem.
    - apply tagged_exact. right. split; [exact Ht|left; elem].
    - apply (param [] t [(TVar 0, t0 "HashEngine"); (TVar 0, t0 "Clone")] (TCon "hmac::Engine" [TVar 0], t0 "HashEngine")); [vm_compute; reflexivity|comp|].
      intros h [<-|[<-|[]]]; [exact IH|]. apply (has_implied b U (t, t0 "HashEngine") HU IH). left. reflexivity.
    - now apply sat_user.
  Qed.
  Lemma engine_cases t : has b U t (t0 "HashEngine") ->
    is_engine U t \/ exists t', t = hmac t' /\ has b U t' (t0 "HashEngine").
  Proof.
    intros H. destruct (sat_trait _ _ H) as [Hu|(c & s & Hin & He & Hp)]; [left; exact (engine_other U t Hu)|].
    vm_compute in Hin. clear H.
    repeat (destruct Hin as [<-|Hin]; [cbn [cl_head cl_cfg cl_pre] in *; cbn [gsubst tsubst fst snd map] in He; injection He as <-|]); [..|contradiction].
    all: first
      [ left; apply (engine_plain U "sha1"); elem | left; apply (engine_plain U "sha256"); elem | left; apply (engine_plain U "sha384"); elem
      | left; apply (engine_plain U "sha512"); elem | left; apply (engine_plain U "sha512_256"); elem | left; apply (engine_plain U "ripemd160"); elem
      | left; apply (engine_plain U "siphash24"); elem
      | left; apply engine_tagged; apply tag_user; exact (Hp _ (or_introl eq_refl))
      | right; eexists; split; [reflexivity|exact (Hp _ (or_introl eq_refl))] ].
  Qed.
  Lemma engine_complete t : has b U t (t0 "HashEngine") -> is_engine U t.
  Proof.
    induction t as [n l IH| | |t a IH|] using ty_nested; intros H; destruct (engine_cases _ H) as [K|(t' & E & K)]; try exact K; try discriminate E.
    injection E as -> ->. apply engine_hmac. inversion IH; subst. match goal with K : _ -> is_engine U _ |- _ => apply K end. exact K.
  Qed.
  Lemma engine_iff t : has b U t (t0 "HashEngine") <-> is_engine U t.
  Proof. split; [apply engine_complete|apply engine_sound]. Qed.

  Lemma hmac_exact t r : has b U (hmac t) r <-> hmac_has b U t r.
  Proof.
    split.
    - intros H. invert H HU; features.
      all: first [left; split; [elem|premise]
                 |right; split; [apply engine_iff; premise|first [left; elem|right; left; split; [assumption|reflexivity]|right; right; repeat split; assumption]]].
    - intros [[Ha H]|[H Hr]].
      + unfold auto in Ha. cases Ha; same (@nil cfg_pred) "hmac::Engine" t H.
      + apply engine_iff in H.
        assert (Hc : has b U t (t0 "Clone")) by (apply (has_implied b U (t, t0 "HashEngine") HU H); left; reflexivity).
        destruct Hr as [Hr|[[Hs ->]|(Hs & Hs' & ->)]].
        * cases Hr; (match goal with |- has _ _ _ ?r => apply (param [] t [(TVar 0, t0 "HashEngine"); (TVar 0, t0 "Clone")] (TCon "hmac::Engine" [TVar 0], r)) end;
            [vm_compute; reflexivity|comp|]; intros h [<-|[<-|[]]]; assumption).
        * apply (param [CFeature "bitcoin-io"] t [(TVar 0, t0 "HashEngine")] (TCon "hmac::Engine" [TVar 0], t0 "bitcoin_io::Write")); [vm_compute; reflexivity|comp|by_hyp H].
        * apply (param [CFeature "bitcoin-io"; CFeature "std"] t [(TVar 0, t0 "HashEngine")] (TCon "hmac::Engine" [TVar 0], t0 "std::io::Write")); [vm_compute; reflexivity|comp|by_hyp H].
  Qed.

  Lemma tagged_hash_exact t r : has b U (TCon "sha256t::Hash" [t]) r <-> tagged_hash_has b U t r.
  Proof.
    split.
    - intros H. invert H HU; features.
      all: first [left; split; [elem|premise]|right; split; [premise|]].
      all: first [right; reflexivity|left].
      all: first [left; elem|right; left; reflexivity
                 |right; right; left; eexists; split; [reflexivity|premise]
                 |right; right; right; left; split; [assumption|elem]
                 |right; right; right; right; split; [assumption|reflexivity]].
    - intros [[Ha H]|[H Hr]].
      + unfold auto in Ha. cases Ha; same (@nil cfg_pred) "sha256t::Hash" t H.
      + apply tag_user in H. destruct Hr as [[Hr|[->|[(i & -> & Hi)|[[Hs Hr]|[Hs ->]]]]]| ->].
        * unfold text_and_order in Hr. cases Hr; par (@nil cfg_pred) "sha256t::Hash" t (t0 "Tag") H.
        * apply (param [] t [(TVar 0, t0 "Tag")] (TCon "sha256t::Hash" [TVar 0], ("AsRef", [bytes_ty 32]))); [vm_compute; reflexivity|comp|by_hyp H].
        * apply (param2 [] i t [(TVar 0, ("SliceIndex", [tslice u8])); (TVar 1, t0 "Tag")] (TCon "sha256t::Hash" [TVar 1], ("Index", [TVar 0]))); [vm_compute; reflexivity|comp|].
          intros h [<-|[<-|[]]]; assumption.
        * cases Hr; par [CFeature "serde"] "sha256t::Hash" t (t0 "Tag") H.
        * apply (param [CFeature "schemars"] t [(TVar 0, t0 "Tag")] (TCon "sha256t::Hash" [TVar 0], t0 "JsonSchema")); [vm_compute; reflexivity|comp|by_hyp H].
        * apply (param [] t [(TVar 0, t0 "Tag")] (TCon "sha256t::Hash" [TVar 0], t0 "Default")); [vm_compute; reflexivity|comp|by_hyp H].
  Qed.

  Lemma hmac_hash_exact n r : has b U (TCon "hmac::Hash" [n]) r <-> auto r \/ hmac_hash_has b r.
  Proof.
    split.
    - intros H. invert H HU; features.
      all: first [left; elem|right; left; elem
                 |right; right; left; eexists; split; [|reflexivity]; elem
                 |right; right; right; left; split; [assumption|elem]
                 |right; right; right; right; split; [assumption|reflexivity]].
    - intros [H|[H|[(i & H & ->)|[[Hs H]|[Hs ->]]]]].
      + unfold auto in H. cases H; par0 (@nil cfg_pred) "hmac::Hash" n.
      + unfold text_and_order in H. cases H; par0 (@nil cfg_pred) "hmac::Hash" n.
      + unfold hmac_index in H. cases H; par0 (@nil cfg_pred) "hmac::Hash" n.
      + cases H; par0 [CFeature "serde"] "hmac::Hash" n.
      + apply (param [CFeature "schemars"] n [] (TCon "hmac::Hash" [TVar 0], t0 "JsonSchema")); [vm_compute; reflexivity|comp|intros h []].
  Qed.

  Lemma midstate_exact r : has b U (TCon "sha256::Midstate" []) r <-> auto r \/ midstate_has b U r.
  Proof.
    split.
    - intros H. invert H HU; features.
      all: first [left; elem|right; left; elem|right; right; left; elem
                 |right; right; right; left; eexists; split; [reflexivity|premise]
                 |right; right; right; right; split; [assumption|elem]].
    - intros [H|[H|[H|[(i & -> & H)|[Hs H]]]]];
      [ unfold auto in H; cases H; gr (@nil cfg_pred)
      | unfold text_and_order in H; cases H; gr (@nil cfg_pred)
      | cases H; gr (@nil cfg_pred)
      | apply (param [] i [(TVar 0, ("SliceIndex", [tslice u8]))] (TCon _ [], ("Index", [TVar 0]))); [vm_compute; reflexivity|comp|]; intros h [<-|[]]; exact H
      | cases H; gr [CFeature "serde"] ].
  Qed.
  Lemma error_exact r : has b U (TCon "lib::FromSliceError" []) r <-> auto r \/ error_has b r.
  Proof.
    split.
    - intros H. invert H HU; features.
      all: first [left; elem|right; left; elem|right; right; split; [assumption|reflexivity]].
    - intros [H|[H|[Hs ->]]]; [unfold auto in H; cases H; gr (@nil cfg_pred)|cases H; gr (@nil cfg_pred)|gr [CFeature "std"]].
  Qed.
  Lemma state_exact r : has b U (TCon "siphash24::State" []) r <-> auto r \/ In r [t0 "Debug"; t0 "Clone"].
  Proof.
    split.
    - intros H. invert H HU; features. all: first [left; elem|right; elem].
    - intros [H|H]; [unfold auto in H; cases H; gr (@nil cfg_pred)|cases H; gr (@nil cfg_pred)].
  Qed.
  Lemma hmac_midstate_exact t r : has b U (TCon "hmac::Midstate" [t]) r <-> auto r /\ has b U (TProj t "Midstate") r.
  Proof.
    split.
    - intros H. invert H HU; split; [elem|premise|elem|premise|elem|premise].
    - intros [Ha H]. unfold auto in Ha.
      cases Ha; (match goal with |- has _ _ _ ?r => apply (param [] t [(TProj (TVar 0) "Midstate", r)] (TCon "hmac::Midstate" [TVar 0], r)) end; [vm_compute; reflexivity|comp|by_hyp H]).
  Qed.
  Lemma hmac_MidState_exact t r : has b U (TCon "hmac::MidState" [t]) r <-> auto r /\ has b U (TProj t "Midstate") r.
  Proof.
    split.
    - intros H. invert H HU; split; [elem|premise|elem|premise|elem|premise].
    - intros [Ha H]. unfold auto in Ha.
      cases Ha; (match goal with |- has _ _ _ ?r => apply (param [] t [(TProj (TVar 0) "Midstate", r)] (TCon "hmac::MidState" [TVar 0], r)) end; [vm_compute; reflexivity|comp|by_hyp H]).
  Qed.

  (** Associated types *)
  Definition assigning (a : string) : list impl_decl := filter (fun i => existsb (fun x => String.eqb (fst x) a) (im_assoc i)) g_impl_table.
  Lemma assigning_in i a w : In i g_impl_table -> In (a, w) (im_assoc i) -> In i (assigning a).
  Proof. intros Hi Ha. apply filter_In. split; [exact Hi|]. apply existsb_exists. exists (a, w). split; [exact Ha|apply String.eqb_refl]. Qed.
  Lemma digest_engine t n : digest_size U t n -> is_engine U t.
  Proof.
    induction 1 as [f n H|t H|t n H IH]; [apply engine_plain|now apply engine_tagged|now apply engine_hmac].
    unfold hash_size in H.
    repeat match type of H with context [if ?x =? ?y then _ else _] => destruct (String.eqb_spec x y) as [->|_]; [unfold engine_name; elem|] end. discriminate.
  Qed.
  Ltac assoc_cases Hin Ha := vm_compute in Hin;
    repeat (destruct Hin as [<-|Hin]; [cbn [im_assoc im_for im_cfg im_bounds In] in *; repeat (destruct Ha as [Ha|Ha]; [first [discriminate Ha|injection Ha; clear Ha; intros; subst]|]); [..|contradiction]|]); [..|contradiction].
  Lemma digest_complete t a v : value b U t a v -> a = "Digest" -> exists n, digest_size U t n /\ v = bytes_ty n.
  Proof.
    induction 1 as [i s a w Hi Hc Hb Ha Hw|i s a t a' v Hi Hc Hb Ha Hv IH]; intros ->; pose proof (assigning_in i "Digest" _ Hi Ha) as Hin; clear Hi; assoc_cases Hin Ha.
    all: try (exfalso; eapply Hw; reflexivity).
    all: cbn [tsubst map].
    all: try (eexists; split; [|reflexivity]; first
      [ apply (size_plain U "sha1"); reflexivity | apply (size_plain U "sha256"); reflexivity | apply (size_plain U "sha384"); reflexivity
      | apply (size_plain U "sha512"); reflexivity | apply (size_plain U "sha512_256"); reflexivity | apply (size_plain U "ripemd160"); reflexivity
      | apply (size_plain U "siphash24"); reflexivity
      | apply size_tagged; apply tag_user; exact (Hb _ (or_introl eq_refl)) ]).
    destruct (IH eq_refl) as (n & Hn & ->). exists n. split; [exact (size_hmac U _ n Hn)|reflexivity].
  Qed.

  Lemma assigned i a : In i (assigning a) -> In i g_impl_table.
  Proof. unfold assigning. intros H. exact (proj1 (proj1 (filter_In (fun i => existsb (fun x => String.eqb (fst x) a) (im_assoc i)) i g_impl_table) H)). Qed.
  (** an impl without cfg that makes [t::a] be [w] *)
  Definition assigns (a : string) (t w : ty) (bounds : list goal) : Prop :=
    exists i, In i g_impl_table /\ im_for i = t /\ im_cfg i = [] /\ im_bounds i = bounds /\ In (a, w) (im_assoc i).
  Ltac pick a l := match l with
    | ?x :: ?r => first [exists x; split; [apply (assigned x a); vm_compute; repeat (first [left; reflexivity|right]); fail|]; repeat split; cbn; repeat (first [left; reflexivity|right]); fail|pick a r] end.
  Ltac assigned_by a := unfold assigns; let l := eval vm_compute in (assigning a) in pick a l.
  Lemma digest_plain f n : hash_size f = Some n -> assigns "Digest" (engine f) (bytes_ty n) [].
  Proof.
    intros H. unfold hash_size in H.
    repeat match type of H with context [if ?x =? ?y then _ else _] => destruct (String.eqb_spec x y) as [->|_]; [injection H as <-; assigned_by "Digest"|] end. discriminate.
  Qed.
  Lemma digest_tagged : assigns "Digest" (tagged (TVar 0)) (bytes_ty 32) [(TVar 0, t0 "Tag")].
  Proof. assigned_by "Digest". Qed.
  Lemma digest_hmac : assigns "Digest" (hmac (TVar 0)) (TProj (TVar 0) "Digest") [(TVar 0, t0 "HashEngine")].
  Proof. assigned_by "Digest". Qed.
  Lemma state_plain_ok f v : state_ty f = Some v -> assigns "Midstate" (engine f) v [] /\ (forall s, tsubst s v = v) /\ (forall t a, v <> TProj t a).
  Proof.
    intros H. unfold state_ty in H.
    repeat match type of H with context [?x =? ?y] => destruct (String.eqb_spec x y) as [->|_]; cbn [orb] in H; [injection H as <-; split; [assigned_by "Midstate"|split; [reflexivity|discriminate]]|] end. discriminate.
  Qed.
  Lemma state_tagged_ok : assigns "Midstate" (tagged (TVar 0)) (TCon "sha256::Midstate" []) [(TVar 0, t0 "Tag")].
  Proof. assigned_by "Midstate". Qed.
  Lemma state_hmac_ok : assigns "Midstate" (hmac (TVar 0)) (TCon "hmac::Midstate" [TVar 0]) [(TVar 0, t0 "HashEngine")].
  Proof. assigned_by "Midstate". Qed.

  Lemma use_assigns a t w bounds s : assigns a t w bounds -> (forall p, In p bounds -> sat b g_program U (gsubst s p)) ->
    (forall t a, w <> TProj t a) -> value b U (tsubst s t) a (tsubst s w).
  Proof. intros (i & Hi & <- & Hc & <- & Ha) Hp Hw. apply (value_here b U i s a w Hi); [rewrite Hc; reflexivity|exact Hp|exact Ha|exact Hw]. Qed.
  Lemma use_assigns_next a t t' a' bounds s v : assigns a t (TProj t' a') bounds -> (forall p, In p bounds -> sat b g_program U (gsubst s p)) ->
    value b U (tsubst s t') a' v -> value b U (tsubst s t) a v.
  Proof. intros (i & Hi & <- & Hc & <- & Ha) Hp Hv. apply (value_next b U i s a t' a' v Hi); [rewrite Hc; reflexivity|exact Hp|exact Ha|exact Hv]. Qed.
  Lemma digest_sound t n : digest_size U t n -> value b U t "Digest" (bytes_ty n).
  Proof.
    induction 1 as [f n H|t H|t n H IH].
    - apply (use_assigns "Digest" (engine f) (bytes_ty n) [] TVar (digest_plain f n H)); [intros p []|discriminate].
    - apply (use_assigns "Digest" _ _ _ (fun _ => t) digest_tagged); [|discriminate]. intros p [<-|[]]. now apply sat_user.
    - apply (use_assigns_next "Digest" _ (TVar 0) "Digest" _ (fun _ => t) _ digest_hmac); [|exact IH].
      intros p [<-|[]]. apply engine_iff. exact (digest_engine t n H).
  Qed.
  Lemma digest_iff t v : value b U t "Digest" v <-> exists n, digest_size U t n /\ v = bytes_ty n.
  Proof. split; [intros H; exact (digest_complete t _ v H eq_refl)|intros (n & H & ->); exact (digest_sound t n H)]. Qed.

  Lemma midstate_complete t v : value b U t "Midstate" v -> midstate_type U t v.
  Proof.
    intros H. remember "Midstate" as a eqn:E. destruct H as [i s a w Hi Hc Hb Ha Hw|i s a t a' v Hi Hc Hb Ha Hv]; subst a;
      pose proof (assigning_in i "Midstate" _ Hi Ha) as Hin; clear Hi; assoc_cases Hin Ha; cbn [tsubst map].
    all: first
      [ apply (state_plain U "sha1"); reflexivity | apply (state_plain U "sha256"); reflexivity | apply (state_plain U "sha384"); reflexivity
      | apply (state_plain U "sha512"); reflexivity | apply (state_plain U "sha512_256"); reflexivity | apply (state_plain U "ripemd160"); reflexivity
      | apply (state_plain U "siphash24"); reflexivity
      | apply state_tagged; apply tag_user; exact (Hb _ (or_introl eq_refl))
      | apply state_hmac; apply engine_iff; exact (Hb _ (or_introl eq_refl)) ].
  Qed.
  Lemma midstate_sound t v : midstate_type U t v -> value b U t "Midstate" v.
  Proof.
    destruct 1 as [f v H|t H|t H].
    - destruct (state_plain_ok f v H) as (Ha & Hs & Hw). rewrite <- (Hs TVar). apply (use_assigns "Midstate" (engine f) v [] TVar Ha); [intros p []|exact Hw].
    - apply (use_assigns "Midstate" _ _ _ (fun _ => t) state_tagged_ok); [|discriminate]. intros p [<-|[]]. now apply sat_user.
    - apply (use_assigns "Midstate" _ _ _ (fun _ => t) state_hmac_ok); [|discriminate]. intros p [<-|[]]. now apply engine_iff.
  Qed.
  Lemma midstate_iff t v : value b U t "Midstate" v <-> midstate_type U t v.
  Proof. split; [apply midstate_complete|apply midstate_sound]. Qed.
End Exact.

Lemma requirements t h :
  (In h (g_implied (t, t0 "Tag")) <-> In h (tag_requires t)) /\
  (In h (g_implied (t, t0 "HashEngine")) <-> In h (engine_requires t)) /\
  (In h (g_implied (t, t0 "SerdeHash")) <-> In h (serde_requires t)).
Proof.
  repeat split; vm_compute; intros H; repeat match type of H with _ \/ _ => destruct H as [<-|H] end; try contradiction.
  all: repeat (first [left; reflexivity|right]).
Qed.

(** The example of C88: another crate has a tag *)
Lemma tag_world_ok : world tag_world.
Proof.
  split.
  - intros g [<-|[<-|[]]]; reflexivity.
  - intros g h [<-|[<-|[]]]; vm_compute; intros H; repeat (destruct H as [<-|H]; [tauto|]); contradiction.
Qed.
Lemma tag_not_send b : ~ has b tag_world (TUser 0) (t0 "Send").
Proof.
  intros H. destruct (sat_trait b tag_world _ _ H) as [[K|[K|[]]]|(c & s & Hin & He & _)]; [discriminate|discriminate|].
  vm_compute in Hin. repeat (destruct Hin as [<-|Hin]; [discriminate He|]). contradiction.
Qed.
Ltac none H := unfold auto, engine_has, hash_has, slice_index, optional, on in H; cbn in H;
  repeat match type of H with
  | _ \/ _ => destruct H as [H|H]
  | _ /\ _ => destruct H as [? H]
  | exists _, _ => destruct H as [? H] end; try discriminate; try contradiction.
Lemma tag_case : world tag_world /\
  has plain_build tag_world (hmac (tagged (TUser 0))) (t0 "HashEngine") /\
  has plain_build tag_world (TCon "sha256t::Hash" [TUser 0]) (t0 "Copy") /\
  ~ has plain_build tag_world (TCon "sha256t::Hash" [TUser 0]) (t0 "Send") /\
  has plain_build tag_world (hash "sha512") (t0 "Ord") /\ ~ has plain_build tag_world (hash "sha512") (t0 "Serialize") /\
  ~ has plain_build tag_world (engine "sha256") (t0 "Debug") /\
  ~ has plain_build tag_world (TCon "hmac::Midstate" [engine "sha256"]) (t0 "Clone") /\
  value plain_build tag_world (hmac (tagged (TUser 0))) "Digest" (bytes_ty 32) /\
  List.length (all_impls g_struct_table g_impl_table) = 240%nat.
Proof.
  pose proof tag_world_ok as W. split; [exact W|].
  split; [apply engine_iff; [exact W|]; apply engine_hmac, engine_tagged; now left|].
  split; [apply tagged_hash_exact; [exact W|]; right; split; [now left|]; left; left; elem|].
  split; [intros H; apply tagged_hash_exact in H; [|exact W]; destruct H as [[_ H]|[_ H]]; [exact (tag_not_send _ H)|none H]|].
  split; [apply (hash_exact _ _ W "sha512" 64); [reflexivity|]; right; left; elem|].
  split; [intros H; apply (hash_exact _ _ W "sha512" 64) in H; [|reflexivity]; none H|].
  split; [intros H; apply engine_exact in H; [|exact W|unfold engine_name; elem]; none H|].
  split; [intros H; apply hmac_midstate_exact in H; [|exact W]; destruct H as [H _]; none H|].
  split; [apply digest_iff; [exact W|]; exists 32; split; [apply size_hmac, size_tagged; now left|reflexivity]|].
  vm_compute. reflexivity.
Qed.
