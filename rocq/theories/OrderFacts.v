(** Facts on expressions whose sums are taken in another order (C71). *)
From Coq Require Import Lia Permutation.
From Verif Require Import Base BaseFacts Expr Visitors LinearExpr Linearize Expansion Model SpecExpr SpecSyntax ExprFacts LinearFacts ModelFacts.

(** ** Lists whose items correspond, in another order *)
Definition matched {A B} (R : A -> B -> Prop) (l : list A) (l' : list B) : Prop := exists m, Forall2 R l m /\ Permutation m l'.

Lemma matched_nil {A B} (R : A -> B -> Prop) : matched R [] [].
Proof. exists []. split; constructor. Qed.
Lemma matched_cons {A B} (R : A -> B -> Prop) a b l l' : R a b -> matched R l l' -> matched R (a :: l) (b :: l').
Proof. intros H (m & HF & HP). exists (b :: m). split; constructor; auto. Qed.
Lemma matched_Forall2 {A B} (R : A -> B -> Prop) l l' : Forall2 R l l' -> matched R l l'.
Proof. intros H. exists l'. split; [exact H|apply Permutation_refl]. Qed.
Lemma matched_perm_r {A B} (R : A -> B -> Prop) l m m' : matched R l m -> Permutation m m' -> matched R l m'.
Proof. intros (x & HF & HP) H. exists x. split; [exact HF|]. eapply Permutation_trans; eauto. Qed.
Lemma matched_perm_l {A B} (R : A -> B -> Prop) l l' m : matched R l m -> Permutation l l' -> matched R l' m.
Proof.
  intros (x & HF & HP) H. destruct (Permutation_Forall2 H HF) as (y & Hy & HF'). exists y. split; [exact HF'|].
  eapply Permutation_trans; [apply Permutation_sym; exact Hy|exact HP].
Qed.
Lemma matched_eq {A} (l l' : list A) : matched eq l l' <-> Permutation l l'.
Proof.
  split.
  - intros (m & HF & HP). assert (l = m) by (clear HP; induction HF; congruence). now subst.
  - intros H. exists l. split; [|exact H]. clear H. induction l; constructor; auto.
Qed.
Lemma matched_imp {A B} (R S : A -> B -> Prop) l l' : (forall a b, In a l -> In b l' -> R a b -> S a b) -> matched R l l' -> matched S l l'.
Proof.
  intros H (m & HF & HP). exists m. split; [|exact HP].
  assert (H' : forall a b, In a l -> In b m -> R a b -> S a b) by (intros a b Ha Hb; apply H; [exact Ha|]; eapply Permutation_in; eauto).
  clear H HP. induction HF; constructor; [apply H'; auto; now left|]. apply IHHF. intros; apply H'; auto; now right.
Qed.
Lemma matched_flip {A B} (R : A -> B -> Prop) l l' : matched R l l' -> matched (fun b a => R a b) l' l.
Proof.
  intros (m & HF & HP).
  assert (HF' : Forall2 (fun b a => R a b) m l) by (clear HP; induction HF; constructor; auto).
  destruct (Permutation_Forall2 HP HF') as (x & Hx & HFx). exists x. split; [exact HFx|]. now apply Permutation_sym.
Qed.
Lemma matched_app {A B} (R : A -> B -> Prop) l1 l2 m1 m2 : matched R l1 m1 -> matched R l2 m2 -> matched R (l1 ++ l2) (m1 ++ m2).
Proof. intros (x & F1 & P1) (y & F2 & P2). exists (x ++ y). split; [now apply Forall2_app|now apply Permutation_app]. Qed.
Lemma matched_map {A B C D} (R : C -> D -> Prop) (f : A -> C) (g : B -> D) l l' :
  matched (fun a b => R (f a) (g b)) l l' -> matched R (map f l) (map g l').
Proof.
  intros (m & HF & HP). exists (map g m). split; [|now apply Permutation_map]. clear HP. induction HF; constructor; auto.
Qed.
Lemma matched_flat_map {A B C D} (R : C -> D -> Prop) (f : A -> list C) (g : B -> list D) l l' :
  matched (fun a b => matched R (f a) (g b)) l l' -> matched R (flat_map f l) (flat_map g l').
Proof.
  intros (m & HF & HP). apply matched_perm_r with (m := flat_map g m); [|now apply Permutation_flat_map].
  clear HP. induction HF; cbn; [apply matched_nil|]. apply matched_app; auto.
Qed.
Lemma matched_length {A B} (R : A -> B -> Prop) l l' : matched R l l' -> List.length l' = List.length l.
Proof. intros (m & HF & HP). rewrite <- (Permutation_length HP). clear HP. induction HF; cbn; auto. Qed.
Lemma matched_one {A B} (R : A -> B -> Prop) a l' : matched R [a] l' -> exists b, l' = [b] /\ R a b.
Proof.
  intros (m & HF & HP). inversion HF as [|? b ? ? Hab HF']; subst. inversion HF'; subst. apply Permutation_length_1_inv in HP. eauto.
Qed.
Lemma matched_none {A B} (R : A -> B -> Prop) l' : matched R [] l' -> l' = [].
Proof. intros (m & HF & HP). inversion HF; subst. now apply Permutation_nil in HP. Qed.
(** functions that fail on neither list, in whichever order *)
Lemma matched_mapM {A B C D} (S : C -> D -> Prop) (f : A -> result C) (g : B -> result D) l l' :
  matched (fun a b => forall x, f a = Ok x -> exists y, g b = Ok y /\ S x y) l l' ->
  forall xs, mapM f l = Ok xs -> exists ys, mapM g l' = Ok ys /\ matched S xs ys.
Proof.
  intros (m & HF & HP) xs H. apply mapM_ok in H.
  assert (G : exists ys, Forall2 (fun b y => g b = Ok y) m ys /\ Forall2 S xs ys).
  { clear HP. revert xs H. induction HF as [|a b l m Hab HF IH]; intros xs H; inversion H as [|? y0 ? ys0 Hy0 HF0]; subst.
    - exists []. split; constructor.
    - destruct (Hab _ Hy0) as (y & Hy & HS). destruct (IH _ HF0) as (ys & G1 & G2). exists (y :: ys). split; constructor; auto. }
  destruct G as (ys & G1 & G2). destruct (Permutation_Forall2 HP G1) as (zs & HZ & G3). exists zs.
  split; [now apply mapM_ok|]. exists ys. split; auto.
Qed.
Lemma Forall_matched {A} (R : A -> A -> Prop) l : Forall (fun a => R a a) l -> matched R l l.
Proof. intros H. apply matched_Forall2. induction H; constructor; auto. Qed.

(** ** Expressions whose sums are taken in another order *)
Inductive shuffled : expr -> expr -> Prop :=
| sh_Lit v : shuffled (Lit v) (Lit v)
| sh_Neg a a' : shuffled a a' -> shuffled (Neg a) (Neg a')
| sh_Add l m l' : Forall2 shuffled l m -> Permutation m l' -> shuffled (Add l) (Add l')
| sh_Mul a a' b b' : shuffled a a' -> shuffled b b' -> shuffled (Mul a b) (Mul a' b')
| sh_Div a a' b b' : shuffled a a' -> shuffled b b' -> shuffled (Div a b) (Div a' b')
| sh_Cmp a a' b b' c : shuffled a a' -> shuffled b b' -> shuffled (Cmp a b c) (Cmp a' b' c)
| sh_Var n : shuffled (Var n) (Var n)
| sh_Param n : shuffled (Param n) (Param n)
| sh_CVar c n : shuffled (CVar c n) (CVar c n)
| sh_CParam c n : shuffled (CParam c n) (CParam c n)
| sh_PVar c n ti si : shuffled (PVar c n ti si) (PVar c n ti si)
| sh_PParam c n ti si : shuffled (PParam c n ti si) (PParam c n ti si)
| sh_TShift a a' b b' : shuffled a a' -> shuffled b b' -> shuffled (TShift a b) (TShift a' b')
| sh_TEval a a' b b' : shuffled a a' -> shuffled b b' -> shuffled (TEval a b) (TEval a' b')
| sh_TSum a a' b b' c c' : shuffled a a' -> shuffled b b' -> shuffled c c' -> shuffled (TSum a b c) (TSum a' b' c')
| sh_AllSum a a' : shuffled a a' -> shuffled (AllSum a) (AllSum a')
| sh_ScenOp a a' op : shuffled a a' -> shuffled (ScenOp a op) (ScenOp a' op)
| sh_PortField p f : shuffled (PortField p f) (PortField p f)
| sh_PortAgg a a' g : shuffled a a' -> shuffled (PortAgg a g) (PortAgg a' g).

Lemma shuffled_Add l l' : shuffled (Add l) (Add l') <-> matched shuffled l l'.
Proof. split; [inversion 1; subst; eexists; eauto|intros (m & H1 & H2); econstructor; eauto]. Qed.
Lemma shuffled_refl e : shuffled e e.
Proof.
  induction e using expr_ind'; try (constructor; assumption). apply shuffled_Add. now apply Forall_matched.
Qed.
Lemma shuffled_sym e : forall e', shuffled e e' -> shuffled e' e.
Proof.
  induction e using expr_ind'; intros e' Hs; inversion Hs; subst; try (constructor; auto; fail).
  apply shuffled_Add. apply matched_flip. apply matched_imp with (R := shuffled); [|eexists; eauto].
  intros a b Ha _. rewrite Forall_forall in H. now apply H.
Qed.
Lemma shuffled_operands a a' : shuffled a a' -> matched shuffled (add_operands a) (add_operands a').
Proof.
  intros H. destruct a; inversion H; subst; cbn; try (apply matched_cons; [assumption || constructor; assumption|apply matched_nil]).
  eexists; eauto.
Qed.
Lemma fold_py_add l : forall a, l <> [] -> fold_left py_add l a = Add (flat_map add_operands (a :: l)).
Proof.
  assert (G : forall l ops, fold_left py_add l (Add ops) = Add (ops ++ flat_map add_operands l)).
  { induction l0 as [|b l0 IH]; intros ops; cbn; [now rewrite app_nil_r|]. unfold py_add at 2. cbn [add_operands]. rewrite IH. now rewrite app_assoc. }
  destruct l as [|b l]; intros a H; [contradiction|]. cbn [fold_left]. unfold py_add at 2. rewrite G. cbn. now rewrite app_assoc.
Qed.
Lemma shuffled_sum vs vs' e : matched shuffled vs vs' -> sum_operands py_add vs = Ok e ->
  exists e', sum_operands py_add vs' = Ok e' /\ shuffled e e'.
Proof.
  intros HM H. pose proof (matched_length _ _ _ HM) as HL. destruct vs as [|v [|w vs]]; cbn in H; [discriminate| |].
  - injection H as <-. apply matched_one in HM. destruct HM as (b & -> & Hb). cbn. eauto.
  - assert (E : fold_left py_add vs (py_add v w) = Add (flat_map add_operands (v :: w :: vs))) by (apply (fold_py_add (w :: vs) v); discriminate).
    rewrite E in H. injection H as <-. destruct vs' as [|v' [|w' vs']]; try discriminate.
    exists (Add (flat_map add_operands (v' :: w' :: vs'))). split.
    + unfold sum_operands. rewrite fold_py_add by discriminate. reflexivity.
    + apply shuffled_Add. apply (matched_flat_map shuffled add_operands add_operands (v :: w :: vs) (v' :: w' :: vs')). revert HM. apply matched_imp. intros a b _ _. apply shuffled_operands.
Qed.
Lemma shuffled_sum_expressions vs vs' : matched shuffled vs vs' -> shuffled (sum_expressions vs) (sum_expressions vs').
Proof.
  intros HM. pose proof (matched_length _ _ _ HM) as HL. destruct vs as [|v [|w vs]].
  - apply matched_none in HM. subst. constructor.
  - apply matched_one in HM. destruct HM as (b & -> & Hb). exact Hb.
  - destruct vs' as [|v' [|w' vs']]; try discriminate. cbn. now apply shuffled_Add.
Qed.

(** ** Copies *)
Definition same_leaves (c c' : copier) : Prop :=
  (forall n e, on_var c n = Ok e -> exists e', on_var c' n = Ok e' /\ shuffled e e') /\
  (forall n e, on_param c n = Ok e -> exists e', on_param c' n = Ok e' /\ shuffled e e') /\
  (forall i n e, on_cvar c i n = Ok e -> exists e', on_cvar c' i n = Ok e' /\ shuffled e e') /\
  (forall i n e, on_cparam c i n = Ok e -> exists e', on_cparam c' i n = Ok e' /\ shuffled e e') /\
  (forall i n ti si e, on_pvar c i n ti si = Ok e -> exists e', on_pvar c' i n ti si = Ok e' /\ shuffled e e') /\
  (forall i n ti si e, on_pparam c i n ti si = Ok e -> exists e', on_pparam c' i n ti si = Ok e' /\ shuffled e e') /\
  (forall p f e, on_port c p f = Ok e -> exists e', on_port c' p f = Ok e' /\ shuffled e e') /\
  match on_agg c, on_agg c' with
  | None, None => True
  | Some h, Some h' => forall a a' g e, shuffled a a' -> h a g = Ok e -> exists e', h' a' g = Ok e' /\ shuffled e e'
  | _, _ => False
  end.
Ltac both := repeat match goal with
  | IH : forall e' x, shuffled ?a e' -> ?f ?a = Ok x -> _, S : shuffled ?a ?b, E : ?f ?a = Ok ?v |- _ =>
      let x := fresh "x" in let E' := fresh "E" in let S' := fresh "S" in
      destruct (IH _ _ S E) as (x & E' & S'); rewrite E'; cbn [bind]; clear IH
  | IH : forall e' x, shuffled ?a e' -> ?f ?a = Ok x -> _ = Ok x, S : shuffled ?a ?b, E : ?f ?a = Ok ?v |- _ =>
      rewrite (IH _ _ S E); cbn [bind]; clear IH
  end.
Ltac built := eexists; split; [reflexivity|constructor; auto].
Lemma copy_shuffled c c' e : same_leaves c c' -> forall e' x, shuffled e e' -> copy_with c e = Ok x ->
  exists x', copy_with c' e' = Ok x' /\ shuffled x x'.
Proof.
  intros (L1 & L2 & L3 & L4 & L5 & L6 & L7 & L8). induction e using expr_ind'; intros e' x Hs Hc; inversion Hs; subst; cbn [copy_with] in *; auto;
    try (injection Hc as <-; eexists; split; [reflexivity|constructor]; fail).
  - inv_bind Hc. injection Hc as <-. both. built.
  - inv_bind Hc.
    assert (HM : matched (fun a b => forall x, copy_with c a = Ok x -> exists y, copy_with c' b = Ok y /\ shuffled x y) l l').
    { apply matched_imp with (R := shuffled); [|eexists; eauto]. intros a b Ha _ Hab y Hy. rewrite Forall_forall in H. eapply H; eauto. }
    destruct (matched_mapM shuffled _ _ _ _ HM _ H0) as (ys & E & S). rewrite E. cbn [bind]. eapply shuffled_sum; eauto.
  - inv_bind Hc. inv_bind Hc. injection Hc as <-. both. built.
  - inv_bind Hc. inv_bind Hc. injection Hc as <-. both. built.
  - inv_bind Hc. inv_bind Hc. injection Hc as <-. both. built.
  - inv_bind Hc. inv_bind Hc. injection Hc as <-. both. built.
  - inv_bind Hc. inv_bind Hc. injection Hc as <-. both. built.
  - inv_bind Hc. inv_bind Hc. inv_bind Hc. injection Hc as <-. both. built.
  - inv_bind Hc. injection Hc as <-. both. built.
  - inv_bind Hc. injection Hc as <-. both. built.
  - destruct (on_agg c) as [h|], (on_agg c') as [h'|]; try contradiction; [eapply L8; eauto|].
    inv_bind Hc. injection Hc as <-. both. built.
Qed.
Lemma same_leaves_refl c : on_agg c = None -> same_leaves c c.
Proof. intros H. unfold same_leaves. rewrite H. repeat split; intros; eexists; split; try eassumption; apply shuffled_refl. Qed.

(** ** Values *)
Lemma nsum_perm l l' : Permutation l l' -> nsum l = nsum l'.
Proof.
  induction 1; [reflexivity| | |congruence].
  - now rewrite !nsum_cons, IHPermutation.
  - rewrite !nsum_cons, !nadd_assoc. f_equal. apply nadd_comm.
Qed.
Lemma evaluate_shuffled vp vp' e : (forall n v, get_variable_value vp n = Ok v -> get_variable_value vp' n = Ok v) ->
  (forall n v, get_parameter_value vp n = Ok v -> get_parameter_value vp' n = Ok v) ->
  (forall c n v, get_component_variable_value vp c n = Ok v -> get_component_variable_value vp' c n = Ok v) ->
  (forall c n v, get_component_parameter_value vp c n = Ok v -> get_component_parameter_value vp' c n = Ok v) ->
  forall e' v, shuffled e e' -> evaluate vp e = Ok v -> evaluate vp' e' = Ok v.
Proof.
  intros L1 L2 L3 L4. induction e using expr_ind'; intros e' r Hs Hv; inversion Hs; subst; cbn [evaluate] in *; auto; try discriminate.
  - inv_bind Hv. both. exact Hv.
  - inv_bind Hv.
    assert (HM : matched (fun a b => forall x, evaluate vp a = Ok x -> exists y, evaluate vp' b = Ok y /\ x = y) l l').
    { apply matched_imp with (R := shuffled); [|eexists; eauto]. intros a b Ha _ Hab y Hy. rewrite Forall_forall in H. eauto. }
    destruct (matched_mapM eq _ _ _ _ HM _ H0) as (ys & E & S). rewrite E. cbn [bind]. apply matched_eq in S.
    destruct v as [|a v]; [discriminate|]. rewrite sum_operands_nadd in Hv by discriminate. injection Hv as <-.
    rewrite sum_operands_nadd by (intros ->; apply Permutation_sym, Permutation_nil in S; discriminate). f_equal. symmetry. now apply nsum_perm.
  - inv_bind Hv. inv_bind Hv. both. exact Hv.
  - inv_bind Hv. inv_bind Hv. both. exact Hv.
Qed.

(** ** Expansion *)
Ltac step := match goal with He : forall k k' z, shuffled k k' -> ?ev k = Ok z -> _, S : shuffled ?k ?k', E : ?ev ?k = Ok ?z |- context [_ ?k'] =>
  rewrite (He _ _ _ S E); cbn [bind] end.
Lemma mapM_shuffled {A} (f g : A -> result expr) l xs : (forall a x, f a = Ok x -> exists y, g a = Ok y /\ shuffled x y) ->
  mapM f l = Ok xs -> exists ys, mapM g l = Ok ys /\ matched shuffled xs ys.
Proof.
  intros H. apply matched_mapM. apply matched_Forall2. induction l; constructor; auto.
Qed.
Lemma expand_shuffled d ev ev' sp sp' e :
  (forall k k' z, shuffled k k' -> ev k = Ok z -> ev' k' = Ok z) ->
  (forall c n, get_component_variable_structure sp' c n = get_component_variable_structure sp c n) ->
  (forall c n, get_component_parameter_structure sp' c n = get_component_parameter_structure sp c n) ->
  forall e' x, shuffled e e' -> expand d ev sp e = Ok x -> exists x', expand d ev' sp' e' = Ok x' /\ shuffled x x'.
Proof.
  intros He Hv Hp. induction e using expr_ind'; intros e' x Hs Hc; inversion Hs; subst; cbn [expand] in *; auto; try discriminate;
    try (injection Hc as <-; eexists; split; [reflexivity|constructor]; fail).
  - inv_bind Hc. injection Hc as <-. both. built.
  - inv_bind Hc.
    assert (HM : matched (fun a b => forall x, expand d ev sp a = Ok x -> exists y, expand d ev' sp' b = Ok y /\ shuffled x y) l l').
    { apply matched_imp with (R := shuffled); [|eexists; eauto]. intros a b Ha _ Hab y Hy. rewrite Forall_forall in H. eapply H; eauto. }
    destruct (matched_mapM shuffled _ _ _ _ HM _ H0) as (ys & E & S). rewrite E. cbn [bind]. eapply shuffled_sum; eauto.
  - inv_bind Hc. inv_bind Hc. injection Hc as <-. both. built.
  - inv_bind Hc. inv_bind Hc. injection Hc as <-. both. built.
  - inv_bind Hc. inv_bind Hc. injection Hc as <-. both. built.
  - rewrite Hv. rewrite Hc. eexists; split; [reflexivity|apply shuffled_refl].
  - rewrite Hp. rewrite Hc. eexists; split; [reflexivity|apply shuffled_refl].
  - inv_bind Hc. inv_bind Hc. step. both. unfold apply_timeshift in *. eapply copy_shuffled; eauto. now apply same_leaves_refl.
  - inv_bind Hc. inv_bind Hc. step. both. unfold apply_timestep in *. eapply copy_shuffled; eauto. now apply same_leaves_refl.
  - inv_bind Hc. inv_bind Hc. inv_bind Hc. inv_bind Hc. injection Hc as <-. step. step. both.
    match goal with E : mapM _ _ = Ok _, S : shuffled ?u ?w |- context [apply_timeshift ?w] =>
      destruct (mapM_shuffled (apply_timeshift u) (apply_timeshift w) _ _
        (fun k z Hz => copy_shuffled _ _ _ (same_leaves_refl (timeshift_copier k) eq_refl) _ _ S Hz) E) as (ys & E' & S') end.
    rewrite E'. cbn [bind]. eexists; split; [reflexivity|now apply shuffled_sum_expressions].
  - inv_bind Hc. inv_bind Hc. injection Hc as <-. both.
    match goal with E : mapM _ _ = Ok _, S : shuffled ?u ?w |- context [apply_timestep ?w] =>
      destruct (mapM_shuffled (fun t => apply_timestep u t true) (fun t => apply_timestep w t true) _ _
        (fun k z Hz => copy_shuffled _ _ _ (same_leaves_refl (timestep_copier k true) eq_refl) _ _ S Hz) E) as (ys & E' & S') end.
    rewrite E'. cbn [bind]. eexists; split; [reflexivity|now apply shuffled_sum_expressions].
  - destruct o; try discriminate. inv_bind Hc. inv_bind Hc. injection Hc as <-. both.
    match goal with E : mapM _ _ = Ok _, S : shuffled ?u ?w |- context [apply_scenario ?w] =>
      destruct (mapM_shuffled (apply_scenario u) (apply_scenario w) _ _
        (fun k z Hz => copy_shuffled _ _ _ (same_leaves_refl (scenario_copier k) eq_refl) _ _ S Hz) E) as (ys & E' & S') end.
    rewrite E'. cbn [bind]. eexists; split; [reflexivity|]. unfold py_div_num, py_div. constructor; [now apply shuffled_sum_expressions|constructor].
  - inv_bind Hc. injection Hc as <-. both. built.
Qed.

(** ** Linear forms *)
Lemma fold_data ds : forall acc, fold_left (fun acc d => {| ld_terms := ld_terms acc ++ ld_terms d; ld_constant := nadd (ld_constant acc) (ld_constant d) |}) ds acc =
  {| ld_terms := ld_terms acc ++ flat_map ld_terms ds; ld_constant := nadd (ld_constant acc) (nsum (map ld_constant ds)) |}.
Proof.
  induction ds as [|d ds IH]; intros acc; cbn [fold_left flat_map map].
  - change (nsum []) with n0. rewrite app_nil_r, nadd_0_r. now destruct acc.
  - rewrite IH. cbn [ld_terms ld_constant]. now rewrite nsum_cons, <- app_assoc, nadd_assoc.
Qed.
Definition same_data (d d' : lin_data) : Prop := Permutation (ld_terms d) (ld_terms d') /\ ld_constant d' = ld_constant d.
Lemma same_data_Add ds ds' : matched same_data ds ds' ->
  Permutation (flat_map ld_terms ds) (flat_map ld_terms ds') /\ nsum (map ld_constant ds') = nsum (map ld_constant ds).
Proof.
  intros (m & HF & HP). split.
  - eapply Permutation_trans; [|apply Permutation_flat_map; exact HP]. clear HP. induction HF as [|a b l m [H1 _] HF IH]; cbn; [constructor|]. now apply Permutation_app.
  - rewrite <- (nsum_perm _ _ (Permutation_map ld_constant HP)). f_equal. clear HP. induction HF as [|a b l m [_ H2] HF IH]; cbn; congruence.
Qed.
Lemma is_nil_perm {A} (l l' : list A) : Permutation l l' -> is_nil l' = is_nil l.
Proof.
  intros H. destruct l, l'; auto; [apply Permutation_nil in H; discriminate|]. apply Permutation_sym, Permutation_nil in H. discriminate.
Qed.
Lemma mapM_perm {A B} (f : A -> result B) l l' xs : Permutation l l' -> mapM f l = Ok xs -> exists ys, mapM f l' = Ok ys /\ Permutation xs ys.
Proof.
  intros HP H. destruct (matched_mapM eq f f l l') with (xs := xs) as (ys & E & S); auto; [|exists ys; split; [exact E|now apply matched_eq]].
  exists l. split; [|exact HP]. clear. induction l; constructor; eauto.
Qed.
Lemma lin_shuffled t s g g' e : (forall c n t s, g' c n t s = g c n t s) ->
  forall e' d, shuffled e e' -> lin_build t s (Some g) e = Ok d -> exists d', lin_build t s (Some g') e' = Ok d' /\ same_data d d'.
Proof.
  intros Hg. induction e using expr_ind'; intros e' r Hs Hc; inversion Hs; subst; cbn [lin_build] in *; auto; try discriminate;
    try (injection Hc as <-; eexists; split; [reflexivity|split; [apply Permutation_refl|reflexivity]]; fail).
  - inv_bind Hc. injection Hc as <-. both. eexists; split; [reflexivity|]. destruct S as [S1 S2]. split; cbn; [now apply Permutation_map|now rewrite S2].
  - inv_bind Hc. injection Hc as <-.
    assert (HM : matched (fun a b => forall x, lin_build t s (Some g) a = Ok x -> exists y, lin_build t s (Some g') b = Ok y /\ same_data x y) l l').
    { apply matched_imp with (R := shuffled); [|eexists; eauto]. intros a b Ha _ Hab y Hy. rewrite Forall_forall in H. eapply H; eauto. }
    destruct (matched_mapM same_data _ _ _ _ HM _ H0) as (ys & E & S). rewrite E. cbn [bind]. eexists; split; [reflexivity|].
    rewrite !fold_data. apply same_data_Add in S. destruct S as [S1 S2]. split; cbn; [exact S1|now rewrite S2].
  - inv_bind Hc. inv_bind Hc. both. destruct S as [S1 S2], S0 as [S3 S4]. rewrite (is_nil_perm _ _ S1), (is_nil_perm _ _ S3), S2, S4.
    destruct (is_nil (ld_terms v)).
    + injection Hc as <-. eexists; split; [reflexivity|]. split; cbn; [now apply Permutation_map|reflexivity].
    + destruct (is_nil (ld_terms v0)); [|discriminate]. injection Hc as <-. eexists; split; [reflexivity|]. split; cbn; [now apply Permutation_map|reflexivity].
  - inv_bind Hc. inv_bind Hc. both. destruct S as [S1 S2], S0 as [S3 S4]. rewrite (is_nil_perm _ _ S1), S2, S4.
    destruct (is_nil (ld_terms v0)); [|discriminate]. inv_bind Hc. inv_bind Hc. injection Hc as <-.
    match goal with E : ndiv _ _ = _ |- _ => rewrite E; cbn [bind] end. match goal with E : mapM _ _ = _ |- _ => rename E into HT end. unfold term in *.
    destruct (mapM_perm _ _ _ _ S3 HT) as (ys & E' & P). rewrite E'. cbn [bind]. eexists; split; [reflexivity|]. split; [exact P|reflexivity].
  - rewrite Hc. eexists; split; [reflexivity|split; [apply Permutation_refl|reflexivity]].
  - inv_bind Hc. rewrite H. cbn [bind]. rewrite Hg. rewrite Hc. eexists; split; [reflexivity|split; [apply Permutation_refl|reflexivity]].
Qed.
(** dictionaries with the same entries *)
Lemma dget_perm {K V} (eqb : K -> K -> bool) (H : forall a b, eqb a b = true <-> a = b) (d d' : dict K V) :
  NoDup (map fst d) -> NoDup (map fst d') -> (forall k, dget eqb k d = dget eqb k d') -> Permutation d d'.
Proof.
  intros N N' E. apply NoDup_Permutation; [exact (NoDup_map_inv _ _ N)|exact (NoDup_map_inv _ _ N')|].
  assert (G : forall d, NoDup (map fst d) -> forall k (v : V), In (k, v) d <-> dget eqb k d = Some v).
  { intros x Nx k v. split; [apply (In_dget_nodup eqb H _ _ _ Nx)|apply (dget_In eqb H)]. }
  intros [k v]. now rewrite (G d N), (G d' N'), E.
Qed.
(** amounts gathered by key *)
Section Gather.
  Context {K : Type} (eqb : K -> K -> bool) (Heq : forall a b, eqb a b = true <-> a = b).
  Definition gathered (k : K) (l : list (K * num)) : option num :=
    match filter (fun kt => eqb k (fst kt)) l with [] => None | m => Some (nsum (map snd m)) end.
  Lemma gathered_perm k l l' : Permutation l l' -> gathered k l = gathered k l'.
  Proof.
    intros H. unfold gathered.
    assert (F : Permutation (filter (fun kt => eqb k (fst kt)) l) (filter (fun kt => eqb k (fst kt)) l')).
    { induction H; cbn; auto.
      - destruct (eqb k (fst x)); [now constructor|exact IHPermutation].
      - destruct (eqb k (fst x)), (eqb k (fst y)); try apply Permutation_refl. apply perm_swap.
      - eapply Permutation_trans; eauto. }
    destruct (filter _ l) as [|a m].
    - apply Permutation_nil in F. now rewrite F.
    - destruct (filter _ l') as [|b m']; [apply Permutation_sym, Permutation_nil in F; discriminate|]. f_equal. apply nsum_perm. now apply Permutation_map.
  Qed.
  Lemma gathered_snoc k l kt : gathered k (l ++ [kt]) = if eqb k (fst kt) then Some (nadd (match gathered k l with Some c => c | None => n0 end) (snd kt)) else gathered k l.
  Proof.
    unfold gathered. rewrite filter_app. cbn [filter]. destruct (eqb k (fst kt)); [|now rewrite app_nil_r].
    destruct (filter _ l) as [|a m]; cbn [app map]; [now rewrite nsum_single, nadd_0_l|]. f_equal.
    change (snd a :: map snd (m ++ [kt])) with (map snd ((a :: m) ++ [kt])). rewrite map_app, nsum_app. cbn [map]. now rewrite nsum_single.
  Qed.
  Context (add : dict K num -> K * num -> dict K num).
  Hypothesis Hadd : forall d kt, NoDup (map fst d) -> NoDup (map fst (add d kt)) /\
    forall k, dget eqb k (add d kt) = if eqb k (fst kt) then Some (nadd (match dget eqb k d with Some c => c | None => n0 end) (snd kt)) else dget eqb k d.
  Lemma fold_gathered l : NoDup (map fst (fold_left add l [])) /\ forall k, dget eqb k (fold_left add l []) = gathered k l.
  Proof.
    induction l as [|kt l IH] using rev_ind; cbn; [split; [constructor|reflexivity]|]. rewrite fold_left_app. cbn [fold_left].
    destruct IH as [N IH]. destruct (Hadd _ kt N) as [N' E]. split; [exact N'|]. intros k. rewrite E, gathered_snoc, IH. reflexivity.
  Qed.
  Lemma fold_perm l l' : Permutation l l' -> Permutation (fold_left add l []) (fold_left add l' []).
  Proof.
    intros H. destruct (fold_gathered l) as [N E], (fold_gathered l') as [N' E']. apply (dget_perm eqb Heq); auto.
    intros k. rewrite E, E'. now apply gathered_perm.
  Qed.
End Gather.
Definition same_form (L L' : lin_expr) : Prop := Permutation (le_terms L) (le_terms L') /\ le_constant L' = le_constant L.
Lemma filter_perm {A} (f : A -> bool) l l' : Permutation l l' -> Permutation (filter f l) (filter f l').
Proof.
  intros H. induction H; cbn; auto.
  - destruct (f x); [now constructor|exact IHPermutation].
  - destruct (f x), (f y); try apply Permutation_refl. apply perm_swap.
  - eapply Permutation_trans; eauto.
Qed.

Lemma accumulate_spec d kt : NoDup (map fst d) -> NoDup (map fst (accumulate d kt)) /\
  forall k, dget tk_eqb k (accumulate d kt) =
    if tk_eqb k (fst kt) then Some (nadd (match dget tk_eqb k d with Some c => c | None => n0 end) (snd kt)) else dget tk_eqb k d.
Proof.
  intros N. unfold accumulate. destruct (dget tk_eqb (fst kt) d) as [c|] eqn:E.
  - split; [now apply (dset_nodup tk_eqb tk_eqb_eq)|]. intros k. destruct (tk_eqb k (fst kt)) eqn:Ek.
    + apply tk_eqb_eq in Ek. subst k. now rewrite (dget_dset_same tk_eqb tk_eqb_eq), E.
    + apply (dget_dset_other tk_eqb tk_eqb_eq). intros ->. assert (tk_eqb (fst kt) (fst kt) = true) by now apply tk_eqb_eq. congruence.
  - assert (D : d ++ [kt] = dset tk_eqb (fst kt) (snd kt) d).
    { clear N. induction d as [|[k v] d IH]; cbn in *; [now destruct kt|]. destruct (tk_eqb (fst kt) k); [discriminate|]. now rewrite IH. }
    rewrite D. split; [now apply (dset_nodup tk_eqb tk_eqb_eq)|]. intros k. destruct (tk_eqb k (fst kt)) eqn:Ek.
    + apply tk_eqb_eq in Ek. subst k. now rewrite (dget_dset_same tk_eqb tk_eqb_eq), E, nadd_0_l.
    + apply (dget_dset_other tk_eqb tk_eqb_eq). intros ->. assert (tk_eqb (fst kt) (fst kt) = true) by now apply tk_eqb_eq. congruence.
Qed.
Lemma linearize_shuffled t s g g' e e' L : (forall c n t s, g' c n t s = g c n t s) -> shuffled e e' ->
  linearize_expression e t s (Some g) = Ok L -> exists L', linearize_expression e' t s (Some g') = Ok L' /\ same_form L L'.
Proof.
  intros Hg Hs H. unfold linearize_expression in *. inv_bind H. injection H as <-.
  destruct (lin_shuffled _ _ _ _ _ Hg _ _ Hs H0) as (d' & E & S1 & S2). rewrite E. cbn [bind]. eexists; split; [reflexivity|].
  split; cbn; [|exact S2]. unfold non_zero_terms. apply filter_perm.
  exact (fold_perm tk_eqb tk_eqb_eq accumulate accumulate_spec _ _ S1).
Qed.

(** ** Dependence on time and scenarios *)
Section Total.
  Context (sp : structure_provider).
  Definition known_or_no (r : result indexing) : indexing := match r with Ok ix => ix | Err _ => {| ix_time := false; ix_scenario := false |} end.
  Fixpoint total (e : expr) : indexing :=
    match e with
    | Neg a | TShift a _ | TSum a _ _ => total a
    | TEval a _ | AllSum a => {| ix_time := false; ix_scenario := ix_scenario (total a) |}
    | ScenOp a _ => {| ix_time := ix_time (total a); ix_scenario := false |}
    | Add l => {| ix_time := existsb (fun a => ix_time (total a)) l; ix_scenario := existsb (fun a => ix_scenario (total a)) l |}
    | Mul a b | Div a b | Cmp a b _ => ix_or (total a) (total b)
    | CVar c n => known_or_no (get_component_variable_structure sp c n)
    | CParam c n => known_or_no (get_component_parameter_structure sp c n)
    | _ => {| ix_time := false; ix_scenario := false |}
    end.
  (** the leaves whose structure is looked at *)
  Fixpoint spine (P : expr -> Prop) (e : expr) : Prop :=
    match e with
    | Neg a | TShift a _ | TSum a _ _ | TEval a _ | AllSum a | ScenOp a _ => spine P a
    | Add l => fold_right (fun x acc => spine P x /\ acc) True l
    | Mul a b | Div a b | Cmp a b _ => spine P a /\ spine P b
    | _ => P e
    end.
End Total.
Definition component_leaf (e : expr) : Prop := match e with Lit _ | CVar _ _ | CParam _ _ => True | _ => False end.
Definition contexted_leaf (e : expr) : Prop := match e with Lit _ | CVar _ _ | CParam _ _ | PortField _ _ | PortAgg _ _ => True | _ => False end.
Definition local_leaf (e : expr) : Prop := match e with Lit _ | Var _ | Param _ => True | _ => False end.
Lemma spine_Add P l : spine P (Add l) <-> Forall (spine P) l.
Proof. cbn. induction l as [|a l IH]; cbn; [split; auto; constructor|]. rewrite IH. split; [intros []; now constructor|inversion 1; auto]. Qed.
Lemma spine_operands P a : spine P a -> Forall (spine P) (add_operands a).
Proof. destruct a; cbn [add_operands]; try (intros; constructor; [assumption|constructor]). apply spine_Add. Qed.
Lemma spine_sum P vs e : Forall (spine P) vs -> sum_operands py_add vs = Ok e -> spine P e.
Proof.
  intros HF H. destruct vs as [|v [|w vs]]; cbn in H; [discriminate| |].
  - injection H as <-. now inversion HF.
  - change (fold_left py_add vs (py_add v w)) with (fold_left py_add (w :: vs) v) in H. rewrite fold_py_add in H by discriminate.
    assert (E : e = Add (flat_map add_operands (v :: w :: vs))) by congruence. rewrite E. apply spine_Add. apply Forall_flat_map.
    revert HF. apply Forall_impl. intros a. apply spine_operands.
Qed.
Lemma copy_spine c P Q e : (forall x x', spine P x -> match x with
    | Lit _ | Var _ | Param _ | CVar _ _ | CParam _ _ | PVar _ _ _ _ | PParam _ _ _ _ | PortField _ _ | PortAgg _ _ => True | _ => False end ->
    copy_with c x = Ok x' -> spine Q x') ->
  spine P e -> forall e', copy_with c e = Ok e' -> spine Q e'.
Proof.
  intros L. induction e using expr_ind'; intros HS e' He; try (eapply L; [exact HS|exact I|exact He]); cbn [copy_with] in He.
  - inv_bind He. injection He as <-. cbn in *. eauto.
  - inv_bind He. apply spine_Add in HS. eapply spine_sum; [|exact He]. apply mapM_ok in H0. clear He. induction H0; constructor.
    + inversion H; inversion HS; subst. eauto.
    + inversion H; inversion HS; subst. auto.
  - inv_bind He. inv_bind He. injection He as <-. cbn in *. destruct HS. eauto.
  - inv_bind He. inv_bind He. injection He as <-. cbn in *. destruct HS. eauto.
  - inv_bind He. inv_bind He. injection He as <-. cbn in *. destruct HS. eauto.
  - inv_bind He. inv_bind He. injection He as <-. cbn in *. eauto.
  - inv_bind He. inv_bind He. injection He as <-. cbn in *. eauto.
  - inv_bind He. inv_bind He. inv_bind He. injection He as <-. cbn in *. eauto.
  - inv_bind He. injection He as <-. cbn in *. eauto.
  - inv_bind He. injection He as <-. cbn in *. eauto.
Qed.
Lemma check_spine e : check_port_expression e = Ok tt -> spine local_leaf e.
Proof.
  induction e using expr_ind'; intros H0; cbn in H0; try discriminate; try exact I; try (cbn; auto; fail).
  - apply spine_Add. inv_bind H0. apply mapM_ok in H1. clear H0. induction H1; constructor; inversion H; subst; auto.
    apply H4. now destruct y.
  - inv_bind H0. destruct v. cbn. auto.
  - inv_bind H0. destruct v. cbn. auto.
Qed.
Lemma context_spine id e e' : add_component_context id e = Ok e' -> spine contexted_leaf e' /\ (spine local_leaf e -> spine component_leaf e').
Proof.
  intros H. split.
  - revert H. apply (copy_spine (context_adder id) (fun _ => True)).
    + intros x x' _ Hx E. destruct x; try contradiction; cbn in E; try discriminate; try (injection E as <-; exact I).
      inv_bind E. injection E as <-. exact I.
    + clear. induction e using expr_ind'; try exact I; cbn; auto. apply spine_Add. exact H.
  - intros HS. revert H. apply (copy_spine (context_adder id) local_leaf); [|exact HS].
    intros x x' HL Hx E. destruct x; try contradiction; cbn in E; injection E as <-; exact I.
Qed.
Lemma resolve_spine cid ports e e' : (forall k l d, dget pfk_eqb k ports = Some l -> In d l -> spine component_leaf d) ->
  spine contexted_leaf e -> resolve_port e cid ports = Ok e' -> spine component_leaf e'.
Proof.
  intros Hp HS. apply (copy_spine (port_resolver cid ports) contexted_leaf); [|exact HS].
  intros x x' HL Hx E. destruct x; try contradiction; cbn in E; try (injection E as <-; exact I).
  - unfold resolve_port_field in E. destruct (dget _ _ _) as [[|d [|]]|] eqn:Ed; try discriminate. injection E as <-. eapply Hp; eauto. now left.
  - unfold resolve_port_aggregator in E. destruct a; try discriminate. destruct x; try discriminate. injection E as <-.
    destruct (dget _ _ _) as [l|] eqn:Ed; [|exact I].
    assert (F : Forall (spine component_leaf) l) by (apply Forall_forall; intros d Hd; eapply Hp; eauto).
    destruct l as [|a [|b l]]; [exact I|now inversion F|]. cbn [sum_expressions]. now apply spine_Add.
Qed.
(** an expression that is expanded depends on what its leaves depend on *)
Lemma ix_or_full a b : is_time_scenario_varying a = true -> ix_or a b = a.
Proof. unfold is_time_scenario_varying, ix_or. intros H. apply andb_true_iff in H. destruct a; cbn in *. destruct H as [-> ->]. reflexivity. Qed.
Lemma combine_loop_total {A} (visit : A -> result indexing) (tot : A -> indexing) l : (forall a, In a l -> visit a = Ok (tot a)) -> forall r,
  combine_loop visit r l = Ok {| ix_time := (ix_time r || existsb (fun a => ix_time (tot a)) l)%bool;
                                 ix_scenario := (ix_scenario r || existsb (fun a => ix_scenario (tot a)) l)%bool |}.
Proof.
  induction l as [|a l IH]; intros H r; cbn; [rewrite !orb_false_r; now destruct r|]. rewrite H by now left. cbn [bind].
  destruct (is_time_scenario_varying (ix_or r (tot a))) eqn:E.
  - unfold is_time_scenario_varying in E. apply andb_true_iff in E. cbn in E. destruct E as [E1 E2].
    rewrite !orb_assoc, E1, E2. cbn. unfold ix_or. now rewrite E1, E2.
  - rewrite IH by (intros; apply H; now right). cbn. now rewrite !orb_assoc.
Qed.
Lemma indexed d ev sp e : spine component_leaf e -> forall x, expand d ev sp e = Ok x -> compute_indexation sp e = Ok (total sp e).
Proof.
  induction e using expr_ind'; intros HS x Hx; cbn [expand compute_indexation total] in *; try contradiction; auto.
  - inv_bind Hx. cbn in HS. eauto.
  - inv_bind Hx. apply spine_Add in HS. clear Hx.
    assert (G : forall a, In a l -> compute_indexation sp a = Ok (total sp a)).
    { rewrite Forall_forall in H, HS. intros a Ha. destruct (mapM_ok_In _ _ _ _ H0 Ha) as [y Hy]. eapply H; eauto. }
    destruct l as [|a l]; [reflexivity|]. cbn [combine_ix]. rewrite G by now left. cbn [bind].
    destruct (is_time_scenario_varying (total sp a)) eqn:E.
    + unfold is_time_scenario_varying in E. apply andb_true_iff in E. destruct E as [E1 E2]. cbn. rewrite E1, E2. cbn. f_equal. destruct (total sp a); cbn in *. congruence.
    + now rewrite (combine_loop_total _ (total sp)) by (intros; apply G; now right).
  - inv_bind Hx. inv_bind Hx. destruct HS as [S1 S2]. rewrite (IHe1 S1 _ H). cbn [bind]. destruct (is_time_scenario_varying (total sp e1)) eqn:E; [now rewrite ix_or_full|].
    rewrite (IHe2 S2 _ H0). reflexivity.
  - inv_bind Hx. inv_bind Hx. destruct HS as [S1 S2]. rewrite (IHe1 S1 _ H). cbn [bind]. destruct (is_time_scenario_varying (total sp e1)) eqn:E; [now rewrite ix_or_full|].
    rewrite (IHe2 S2 _ H0). reflexivity.
  - inv_bind Hx. inv_bind Hx. destruct HS as [S1 S2]. rewrite (IHe1 S1 _ H). cbn [bind]. destruct (is_time_scenario_varying (total sp e1)) eqn:E; [now rewrite ix_or_full|].
    rewrite (IHe2 S2 _ H0). reflexivity.
  - inv_bind Hx. rewrite H. reflexivity.
  - inv_bind Hx. rewrite H. reflexivity.
  - inv_bind Hx. inv_bind Hx. eauto.
  - inv_bind Hx. inv_bind Hx. cbn in HS. now rewrite (IHe1 HS _ H0).
  - inv_bind Hx. inv_bind Hx. inv_bind Hx. eauto.
  - inv_bind Hx. cbn in HS. now rewrite (IHe HS _ H).
  - destruct o; try discriminate. inv_bind Hx. cbn in HS. now rewrite (IHe HS _ H).
Qed.
Lemma existsb_matched {A B} (f : A -> bool) (g : B -> bool) l l' : matched (fun a b => g b = f a) l l' -> existsb g l' = existsb f l.
Proof.
  intros (m & HF & HP). assert (E : existsb g m = existsb f l) by (clear HP; induction HF; cbn; congruence). rewrite <- E. clear E HF.
  induction HP; cbn; try congruence. now rewrite !orb_assoc, (orb_comm (g y)).
Qed.
Lemma total_shuffled sp sp' e : (forall c n, get_component_variable_structure sp' c n = get_component_variable_structure sp c n) ->
  (forall c n, get_component_parameter_structure sp' c n = get_component_parameter_structure sp c n) ->
  forall e', shuffled e e' -> total sp' e' = total sp e.
Proof.
  intros H1 H2. induction e using expr_ind'; intros e' Hs; inversion Hs; subst; cbn [total]; auto;
    rewrite ?H1, ?H2; repeat match goal with IH : forall e', shuffled ?a e' -> _, S : shuffled ?a _ |- _ => rewrite (IH _ S); clear IH end; auto.
  f_equal; apply existsb_matched; apply matched_imp with (R := shuffled); try (eexists; eauto; fail);
    intros a b Ha _ Hab; rewrite Forall_forall in H; now rewrite (H _ Ha _ Hab).
Qed.
Lemma spine_shuffled e : forall e', shuffled e e' -> spine component_leaf e -> spine component_leaf e'.
Proof.
  induction e using expr_ind'; intros e' Hs HS; inversion Hs; subst; cbn [spine] in *; auto; try tauto; try (destruct HS; split; auto; fail).
  apply spine_Add. assert (HS' : Forall (spine component_leaf) l) by now apply spine_Add.
  match goal with HP : Permutation ?m _ |- _ => apply (Permutation_Forall HP); clear HP end.
  clear HS Hs. induction H1; constructor; inversion H; inversion HS'; subst; auto.
Qed.
