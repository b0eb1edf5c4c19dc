(** The problem that is built is the mathematical problem (C20, C21, C24, C45). *)
From Coq Require Import Lia.
From Verif Require Import Base Expr Visitors Expansion LinearExpr Linearize Model Study Strategy Optim
  BaseFacts SpecExpr SpecSyntax SpecVisitors SpecExpansion SpecLinear SpecModel SpecOptim
  ExprFacts CopyFacts VisitorFacts DegreeFacts ExpansionFacts LinearFacts ModelFacts OptimFacts.

(** ** Copies keep the shape *)
(** what the leaves may become *)
Definition plain_node (x : expr) : Prop :=
  match x with
  | Lit (Fin _) => True
  | Lit _ | Cmp _ _ _ | TEval _ _ | ScenOp _ _ => False
  | _ => True
  end.
Definition agg_ok (x : expr) : Prop :=
  match x with PortAgg (PortField _ _) _ => True | PortAgg _ _ => False | _ => True end.
Definition plain_leaves (c : copier) : Prop :=
  forall x x', leaf_kind x -> agg_ok x -> copy_with c x = Ok x' -> all_nodes plain_node x'.
Definition shape_pred (P : expr -> Prop) : Prop :=
  (forall a, P (Neg a)) /\ (forall l, P (Add l)) /\ (forall a b, P (Mul a b)) /\ (forall a b, P (Div a b)) /\
  (forall a b c a' b', P (Cmp a b c) -> P (Cmp a' b' c)) /\
  (forall a b a' b', P (TShift a b) -> P (TShift a' b')) /\
  (forall a b a' b', P (TEval a b) -> P (TEval a' b')) /\
  (forall a b c a' b' c', P (TSum a b c) -> P (TSum a' b' c')) /\
  (forall a a', P (AllSum a) -> P (AllSum a')) /\
  (forall a o a', P (ScenOp a o) -> P (ScenOp a' o)).
Lemma copy_shape c P e : plain_leaves c -> shape_pred P -> (forall x, plain_node x -> P x) ->
  forall e', aggregators_on_ports e -> all_nodes P e -> copy_with c e = Ok e' -> all_nodes P e'.
Proof.
  intros Hc (HNeg & HAdd & HMul & HDiv & HCmp & HTSh & HTE & HTS & HAS & HSO) Himp.
  unfold aggregators_on_ports. induction e using expr_ind'; intros e' HA HP HE.
  3:{ copy_step HE. destruct v as [|v vs]; cbn [sum_operands] in HE; [discriminate|].
      injection HE as <-. apply all_nodes_Add in HA, HP. destruct HA as [_ HA], HP as [_ HP].
      assert (HF : Forall (all_nodes P) (v :: vs)).
      { eapply mapM_Forall; eauto. intros x y Hx Hy. rewrite Forall_forall in H, HA, HP. eauto. }
      inversion HF; subst. apply fold_py_add_nodes; auto. }
  all: try (eapply all_nodes_imp; [exact Himp|]; refine (Hc _ _ _ _ HE); [exact I|apply all_nodes_root in HA; exact HA]).
  all: copy_step HE; cbn [all_nodes py_neg py_mul py_div] in HA, HP |- *; intuition eauto.
Qed.
Lemma copy_well_nested c e : plain_leaves c ->
  forall e', aggregators_on_ports e -> well_nested True e -> copy_with c e = Ok e' -> well_nested True e'.
Proof.
  intros Hc.
  assert (Hev : forall a a', aggregators_on_ports a -> no_eval a -> copy_with c a = Ok a' -> no_eval a').
  { intros a a'. apply copy_shape; [exact Hc| |intros x Hx; destruct x; cbn in *; auto].
    repeat split; cbn; auto. }
  assert (Hso : forall a a', aggregators_on_ports a -> no_scenario_operator a -> copy_with c a = Ok a' -> no_scenario_operator a').
  { intros a a'. apply copy_shape; [exact Hc| |intros x Hx; destruct x; cbn in *; auto].
    repeat split; cbn; auto. }
  assert (Hpl : forall x, all_nodes plain_node x -> well_nested True x).
  { intros x Hx. unfold well_nested. eapply all_nodes_sub_imp with (R := plain_node) (P := plain_node); [|exact Hx|exact Hx].
    intros y Hy Hs. destruct y; cbn [plain_node] in Hy; try exact I; try contradiction.
    - cbn in Hs. split; [|left; exact I]. eapply all_nodes_imp; [|exact (proj1 (proj2 Hs))]. intros z. destruct z; cbn; auto.
    - cbn in Hs. split; [|left; exact I]. eapply all_nodes_imp; [|exact (proj1 (proj2 Hs))]. intros z. destruct z; cbn; auto. }
  unfold aggregators_on_ports in *. induction e using expr_ind'; intros e' HA HP HE.
  3:{ copy_step HE. destruct v as [|v vs]; cbn [sum_operands] in HE; [discriminate|].
      injection HE as <-. unfold well_nested in HP. apply all_nodes_Add in HA, HP. destruct HA as [_ HA], HP as [_ HP].
      assert (HF : Forall (well_nested True) (v :: vs)).
      { eapply mapM_Forall; eauto. intros x y Hx Hy. rewrite Forall_forall in H, HA, HP. eapply H; eauto. exact (HP x Hx). }
      inversion HF; subst. apply fold_py_add_nodes; auto. }
  all: try (apply Hpl; refine (Hc _ _ _ _ HE); [exact I|apply all_nodes_root in HA; exact HA]).
  all: copy_step HE; unfold well_nested in *; cbn [all_nodes py_neg py_mul py_div] in HA, HP |- *.
  all: try (intuition eauto; fail).
Qed.

(** ** The two copies made by instantiation *)
Lemma context_leaves id : plain_leaves (context_adder id).
Proof.
  intros x x' Hk Ha E. destruct x; try contradiction; cbn in E; try discriminate;
    try (injection E as <-; cbn; auto; fail).
  destruct x; try contradiction. cbn in E. injection E as <-. cbn; auto.
Qed.
Lemma sum_expressions_plain (P : expr -> Prop) l : (forall l, P (Add l)) -> P (Lit n0) ->
  Forall (all_nodes P) l -> all_nodes P (sum_expressions l).
Proof.
  intros HA HL HF. destruct l as [|a [|b l]]; cbn [sum_expressions].
  - cbn. auto.
  - now inversion HF.
  - apply all_nodes_Add. auto.
Qed.
Definition plain_ports (ports : dict port_field_key (list expr)) : Prop :=
  forall k l d, dget pfk_eqb k ports = Some l -> In d l -> all_nodes plain_node d /\ component_names_only d.
Lemma resolver_leaves cid ports : plain_ports ports -> plain_leaves (port_resolver cid ports).
Proof.
  intros Hp x x' Hk Ha E. destruct x; try contradiction; cbn in E; try discriminate;
    try (injection E as <-; cbn; auto; fail).
  - unfold resolve_port_field in E. destruct (dget _ _ _) as [[|d [|]]|] eqn:Ed; try discriminate.
    injection E as <-. eapply Hp; eauto. now left.
  - unfold resolve_port_aggregator in E. destruct a; try discriminate. destruct x; try discriminate. injection E as <-.
    apply sum_expressions_plain; cbn; auto.
    destruct (dget _ _ _) as [l|] eqn:Ed; [|constructor].
    apply Forall_forall. intros d Hd. eapply Hp; eauto.
Qed.
Lemma context_aggregators id e e' : aggregators_on_ports e -> add_component_context id e = Ok e' ->
  aggregators_on_ports e'.
Proof.
  intros Hagg. apply copy_with_nodes.
  - repeat split; cbn; auto.
  - apply all_leaves_nodes in Hagg. revert Hagg. apply all_leaves_imp.
    intros x (Hk & HP & _) x' E'. destruct x; try contradiction; cbn in E'; try discriminate;
      try (injection E' as <-; cbn; auto; fail).
    destruct x; try contradiction. cbn in E'. injection E' as <-. cbn; auto.
Qed.
Lemma context_no_port id e e' : no_port e -> add_component_context id e = Ok e' -> no_port e'.
Proof.
  intros Hnp. apply copy_with_nodes.
  - repeat split; cbn; auto.
  - apply all_leaves_nodes in Hnp. revert Hnp. apply all_leaves_imp.
    intros x (Hk & HP & _) x' E'. destruct x; try contradiction; cbn in E'; try discriminate;
      try (injection E' as <-; cbn; auto; fail).
Qed.
Lemma no_port_aggregators e : no_port e -> aggregators_on_ports e.
Proof. apply all_nodes_imp. intros x. destruct x; cbn; tauto. Qed.
Lemma names_only id e : only_names_of id e -> no_port e -> component_names_only e.
Proof.
  intros H1 H2. unfold component_names_only. eapply all_nodes_imp; [|exact (all_nodes_and _ _ _ H1 H2)].
  intros x [Ha Hb]. destruct x; cbn in *; tauto.
Qed.
Lemma resolve_names cid ports id e e' : plain_ports ports -> only_names_of id e -> aggregators_on_ports e ->
  resolve_port e cid ports = Ok e' -> component_names_only e'.
Proof.
  intros Hp Ho Ha. apply copy_with_nodes.
  - repeat split; cbn; auto.
  - pose proof (all_nodes_and _ _ _ Ho Ha) as H. apply all_leaves_nodes in H. revert H. apply all_leaves_imp.
    intros x (Hk & [HP1 HP2] & _) x' E. destruct x; try contradiction; cbn in E; try discriminate;
      try (injection E as <-; cbn; auto; fail).
    + unfold resolve_port_field in E. destruct (dget _ _ _) as [[|d [|]]|] eqn:Ed; try discriminate.
      injection E as <-. eapply Hp; eauto. now left.
    + unfold resolve_port_aggregator in E. destruct a; try discriminate. destruct x; try discriminate. injection E as <-.
      apply sum_expressions_plain; cbn; auto.
      destruct (dget _ _ _) as [l|] eqn:Ed; [|constructor].
      apply Forall_forall. intros d Hd. eapply Hp; eauto.
Qed.

(** definitions brought by connections *)
Lemma connected_good n c p f d :
  (forall k, In k (n_connections n) ->
     good_model (co_model (pr_component (pc_port1 k))) /\ good_model (co_model (pr_component (pc_port2 k)))) ->
  In d (connected n c p f) -> good_definition (snd d).
Proof.
  intros Hg Hd. unfold connected in Hd. apply in_flat_map in Hd. destruct Hd as (k & Hk & Hd).
  destruct (Hg k Hk) as [G1 G2].
  assert (Hdef : forall r, good_model (co_model (pr_component r)) -> In d (definition_of r f) -> good_definition (snd d)).
  { intros r (_ & _ & _ & Hdefs) Hin. unfold definition_of in Hin. destruct (dget String.eqb _ _); [|contradiction].
    destruct (dget pfi_eqb _ _) as [d'|] eqn:E; [|contradiction]. destruct (existsb _ _); [|contradiction].
    destruct Hin as [<-|[]]. cbn. apply (dget_In pfi_eqb pfi_eqb_eq) in E. eapply Hdefs; eauto. }
  assert (Hb : In d (brought k f)).
  { apply in_app_or in Hd. destruct Hd as [Hd|Hd]; [destruct (is_port (pc_port1 k) c p)|destruct (is_port (pc_port2 k) c p)];
      try contradiction; exact Hd. }
  unfold brought in Hb. apply in_app_or in Hb. destruct Hb as [Hb|Hb]; eauto.
Qed.
Lemma definition_plain d : good_definition d -> all_nodes plain_node d.
Proof.
  intros (H1 & H2 & H3 & H4 & H5). unfold finite_literals, no_comparison, no_eval, no_scenario_operator in *.
  eapply all_nodes_imp; [|exact (all_nodes_and _ _ _ (all_nodes_and _ _ _ H1 H2) (all_nodes_and _ _ _ H4 H5))].
  intros x [[A B] [C D]]. destruct x; cbn in *; auto.
Qed.
Lemma ports_plain o ports : built_network (o_network o) -> good_connections (o_network o) ->
  register_connections o = Ok ports -> plain_ports ports.
Proof.
  intros Hb Hg Hr [c [p f]] l d Hl Hd.
  pose proof (connections_registered o ports Hb) as HC.
  specialize (HC (fun k Hk => conj (proj1 (proj1 (Hg k Hk))) (proj1 (proj2 (Hg k Hk)))) Hr c p f).
  rewrite Hl in HC. 
  assert (Hex : exists d0, In d0 (connected (o_network o) c p f) /\ add_component_context (fst d0) (snd d0) = Ok d).
  { clear Hl. induction HC as [|a b l1 l2 Hab HC IH]; [contradiction|]. destruct Hd as [<-|Hd].
    - exists a. split; [now left|exact Hab].
    - destruct (IH Hd) as (d0 & H1 & H2). exists d0. split; [now right|exact H2]. }
  destruct Hex as (d0 & Hin & Hc). apply (connected_good _ _ _ _ _ Hg) in Hin.
  pose proof Hin as (_ & _ & Hnp & _). split.
  - apply (copy_shape (context_adder (fst d0)) plain_node (snd d0)) with (e' := d); auto.
    + apply context_leaves.
    + repeat split; cbn; auto.
    + now apply no_port_aggregators.
    + now apply definition_plain.
  - apply (names_only (fst d0)).
    + eapply context_only_names; eauto. now apply no_port_aggregators.
    + eapply context_no_port; eauto.
Qed.

(** ** Worlds that agree give the same values *)
Lemma den_same E E' e :
  (forall n t s, e_var E n t s = e_var E' n t s) -> (forall n t s, e_par E n t s = e_par E' n t s) ->
  (forall c n t s, e_cvar E c n t s = e_cvar E' c n t s) -> (forall c n t s, e_cpar E c n t s = e_cpar E' c n t s) ->
  (forall p f, Forall2 (fun v v' => forall t s, v t s = v' t s) (e_port E p f) (e_port E' p f)) ->
  e_T E = e_T E' -> e_S E = e_S E' ->
  forall t s, den E e t s = den E' e t s.
Proof.
  intros Hv Hp Hcv Hcp Hpo HT HS. induction e using expr_ind'; intros t s; cbn [den];
    try (rewrite ?Hv, ?Hp, ?Hcv, ?Hcp, ?IHe, ?IHe1, ?IHe2, ?IHe3; reflexivity).
  - f_equal. apply map_ext_in. intros x Hx. rewrite Forall_forall in H. now apply H.
  - rewrite IHe2. destruct (oint _); auto.
  - rewrite IHe2. destruct (oint _); auto.
  - rewrite IHe2, IHe3. destruct (oint _); auto. destruct (oint _); auto. f_equal. apply map_ext. auto.
  - rewrite HT. f_equal. apply map_ext. auto.
  - rewrite HS. assert (Hm : map (fun i => den E e t i) (zrange 0 (e_S E')) = map (fun i => den E' e t i) (zrange 0 (e_S E')))
      by (apply map_ext; auto). destruct o; cbn; now rewrite ?Hm.
  - specialize (Hpo p f). destruct Hpo as [|v v' l l' Hvv Hl]; [reflexivity|]. destruct Hl; auto.
  - destruct e; try reflexivity. destruct a; try reflexivity. specialize (Hpo p f). f_equal.
    induction Hpo as [|v v' l l' Hvv Hl IHl]; [reflexivity|]. cbn. now rewrite Hvv, IHl.
Qed.

(** ** instantiation means the model's expression seen from the component *)
Section Instantiation.
  Context (o : settings) (st : state).
  Hypothesis Hb : built_network (o_network o).
  Hypothesis Hg : good_connections (o_network o).
  Hypothesis Hr : register_connections o = Ok (st_ports st).

  Lemma instantiate_den x cid e e' : aggregators_on_ports e -> instantiate st e cid = Ok e' ->
    forall t s, den (world o x) e' t s = den (component_world o x cid) e t s.
  Proof.
    intros Ha H t s. unfold instantiate in H. inv_bind H.
    rewrite (resolve_port_den _ _ _ _ _ H), (context_den _ _ _ _ Ha H0).
    apply den_same; try reflexivity. intros p f. cbn.
    pose proof (connections_registered o (st_ports st) Hb) as HC.
    specialize (HC (fun k Hk => conj (proj1 (proj1 (Hg k Hk))) (proj1 (proj2 (Hg k Hk)))) Hr cid p f).
    assert (HG : Forall (fun d => aggregators_on_ports (snd d)) (connected (o_network o) cid p f)).
    { apply Forall_forall. intros d Hd. apply (connected_good _ _ _ _ _ Hg) in Hd.
      apply no_port_aggregators. apply Hd. }
    induction HC as [|a b l1 l2 Hab HC IH]; cbn; [constructor|]. inversion HG; subst. constructor; [|auto].
    intros t' s'. now apply context_den.
  Qed.
  Lemma instantiate_names cid e e' : aggregators_on_ports e -> instantiate st e cid = Ok e' -> component_names_only e'.
  Proof.
    intros Ha H. unfold instantiate in H. inv_bind H. eapply (resolve_names cid (st_ports st) cid v); [| | |exact H].
    - eapply ports_plain; eauto.
    - eapply context_only_names; eauto.
    - eapply context_aggregators; eauto.
  Qed.
  Lemma instantiate_shape P cid e e' : shape_pred P -> (forall x, plain_node x -> P x) ->
    aggregators_on_ports e -> all_nodes P e -> instantiate st e cid = Ok e' -> all_nodes P e'.
  Proof.
    intros HP Hi Ha He H. unfold instantiate in H. inv_bind H. eapply (copy_shape (port_resolver cid (st_ports st))).
    - apply resolver_leaves. eapply ports_plain; eauto.
    - exact HP.
    - exact Hi.
    - eapply context_aggregators; eauto.
    - eapply (copy_shape (context_adder cid)); [apply context_leaves|exact HP|exact Hi|exact Ha|exact He|exact H0].
    - exact H.
  Qed.
  Lemma instantiate_finite cid e e' : aggregators_on_ports e -> finite_literals e ->
    instantiate st e cid = Ok e' -> finite_literals e'.
  Proof.
    apply instantiate_shape.
    - repeat split; cbn; auto.
    - intros x. destruct x; cbn; auto.
  Qed.
  Lemma instantiate_no_cmp cid e e' : aggregators_on_ports e -> no_comparison e ->
    instantiate st e cid = Ok e' -> no_comparison e'.
  Proof.
    apply instantiate_shape.
    - repeat split; cbn; auto.
    - intros x. destruct x; cbn; auto.
  Qed.
  Lemma instantiate_well_nested cid e e' : aggregators_on_ports e -> well_nested True e ->
    instantiate st e cid = Ok e' -> well_nested True e'.
  Proof.
    intros Ha He H. unfold instantiate in H. inv_bind H. eapply (copy_well_nested (port_resolver cid (st_ports st))).
    - apply resolver_leaves. eapply ports_plain; eauto.
    - eapply context_aggregators; eauto.
    - eapply (copy_well_nested (context_adder cid)); [apply context_leaves|exact Ha|exact He|exact H0].
    - exact H.
  Qed.
End Instantiation.

(** ** Evaluation of bounds and time arguments *)
(** no time, scenario or port operator, comparison or indexed name *)
Definition evaluable (x : expr) : Prop :=
  match x with
  | Lit _ | Neg _ | Add _ | Mul _ _ | Div _ _ | Var _ | Param _ | CVar _ _ | CParam _ _ => True
  | _ => False
  end.
Lemma evaluate_evaluable vp e : forall v, evaluate vp e = Ok v -> all_nodes evaluable e.
Proof.
  induction e using expr_ind'; intros w H0; cbn [evaluate] in H0; try discriminate; try (cbn; auto; fail).
  - inv_bind H0. cbn. split; [exact I|]. eapply IHe; eauto.
  - inv_bind H0. apply all_nodes_Add. split; [exact I|]. apply mapM_ok in H1. clear H0.
    induction H1 as [|a b l m Hab Hl IH]; constructor; inversion H; subst; eauto.
  - inv_bind H0. inv_bind H0. cbn. split; [exact I|]. split; [eapply IHe1|eapply IHe2]; eauto.
  - inv_bind H0. inv_bind H0. cbn. split; [exact I|]. split; [eapply IHe1|eapply IHe2]; eauto.
Qed.
Lemma evaluable_time_args P e : all_nodes evaluable e -> time_args P e.
Proof. apply all_nodes_imp. intros x. destruct x; cbn; tauto. Qed.
(** values read are those of the world *)
Definition parameters_only (vp : value_provider) (E : env) (t s : Z) : Prop :=
  (forall n v, get_variable_value vp n <> Ok v) /\ (forall n v, get_parameter_value vp n <> Ok v) /\
  (forall c n v, get_component_variable_value vp c n <> Ok v) /\
  (forall c n v, get_component_parameter_value vp c n = Ok v -> exists q, v = Fin q /\ e_cpar E c n t s = Some q).
Lemma evaluate_value vp E t s e : parameters_only vp E t s -> finite_literals e ->
  forall v, evaluate vp e = Ok v -> exists q, v = Fin q /\ den E e t s = Some q.
Proof.
  intros (Hv & Hp & Hcv & Hcp). unfold finite_literals. induction e using expr_ind'; intros HF w H0;
    cbn [evaluate] in H0; try discriminate; try (exfalso; eapply Hv; exact H0); try (exfalso; eapply Hp; exact H0);
    try (exfalso; eapply Hcv; exact H0).
  - injection H0 as <-. apply all_nodes_root in HF. destruct v; try contradiction. eexists; split; reflexivity.
  - inv_bind H0. injection H0 as <-. destruct (IHe (proj2 HF) _ H) as (q & -> & Hq). cbn [den]. rewrite Hq.
    eexists; split; reflexivity.
  - inv_bind H0. apply all_nodes_Add in HF. destruct HF as [_ HF].
    assert (Hne : v <> []) by (intros ->; discriminate).
    rewrite sum_operands_nadd in H0 by exact Hne. injection H0 as <-. cbn [den]. clear Hne.
    apply mapM_ok in H1. induction H1 as [|a b l m Hab Hl IH].
    + exists 0%Qc. split; reflexivity.
    + destruct (Forall_inv H (Forall_inv HF) _ Hab) as (q & -> & Hq).
      destruct (IH (Forall_inv_tail H) (Forall_inv_tail HF)) as (r & Hr1 & Hr2).
      exists (q + r)%Qc. rewrite nsum_cons, Hr1. split; [reflexivity|]. cbn [map osum]. rewrite Hq, Hr2. reflexivity.
  - inv_bind H0. inv_bind H0. injection H0 as <-. destruct HF as (_ & HF1 & HF2).
    destruct (IHe1 HF1 _ H) as (q & -> & Hq), (IHe2 HF2 _ H1) as (r & -> & Hr). cbn [den]. rewrite Hq, Hr.
    eexists; split; reflexivity.
  - inv_bind H0. inv_bind H0. destruct HF as (_ & HF1 & HF2).
    destruct (IHe1 HF1 _ H) as (q & -> & Hq), (IHe2 HF2 _ H1) as (r & -> & Hr). cbn [den]. rewrite Hq, Hr.
    cbn in H0 |- *. destruct (Qceqb r 0); [discriminate|]. injection H0 as <-. eexists; split; reflexivity.
  - apply Hcp in H0. exact H0.
Qed.

(** ** Data *)
Lemma parameter_gives o x ot os c n v t s : usable_block o -> finite_values o ->
  parameter_value o ot os c n = Ok v ->
  exists q, v = Fin q /\ e_cpar (world o x) c n (odefault t ot) (odefault s os) = Some q.
Proof.
  intros Hu Hf H. unfold parameter_value in H. inv_bind H. inv_bind H. cbn [world e_cpar].
  destruct (Hf c n v0 v1 os v H0 H) as [q ->]. exists q. split; [reflexivity|]. unfold data_at. rewrite H0.
  destruct (absolute_timestep o (odefault t ot) Hu) as (a & Ha & Hab). fold (block_length o). rewrite Ha.
  assert (Hv : get_value v0 (Some a) (Some (odefault s os)) (o_tree_node o) = Ok (Fin q)).
  { destruct ot as [z|]; cbn [odefault] in Hab.
    - rewrite H1 in Hab. injection Hab as ->. destruct os; cbn [odefault]; [exact H|].
      now apply get_value_more_scenario.
    - cbn in H1. injection H1 as <-. apply get_value_more. destruct os; cbn [odefault]; [exact H|].
      now apply get_value_more_scenario. }
  now rewrite Hv.
Qed.
Lemma getter_world o x t s : usable_block o -> finite_values o ->
  getter_gives (fun c n t s => parameter_value o t s c n) (world o x) t s.
Proof. intros Hu Hf c n ot os v H. eapply parameter_gives; eauto. Qed.
Lemma provider_world o x t s t' s' : usable_block o -> finite_values o ->
  parameters_only (make_value_provider o t s) (world o x) (odefault t' t) (odefault s' s).
Proof.
  intros Hu Hf. repeat split; cbn; try discriminate. intros c n v H.
  exact (parameter_gives o x t s c n v t' s' Hu Hf H).
Qed.
Lemma constant_provider_world o x t s : usable_block o -> finite_values o ->
  parameters_only (constant_value_provider o) (world o x) t s.
Proof.
  intros Hu Hf. repeat split; cbn; try discriminate. intros c n v H. inv_bind H.
  destruct (_ || _); [discriminate|].
  apply (parameter_gives o x None None c n v t s Hu Hf H).
Qed.
Lemma int_value (q : Qc) : Qden q = 1%positive -> q = Z2Qc (Qnum q).
Proof.
  intros H. apply Qc_is_canon. unfold Z2Qc. cbn [this]. rewrite (Qred_correct (inject_Z (Qnum q))).
  destruct (this q) as [n d] eqn:E. cbn in *. subst d. reflexivity.
Qed.
Lemma time_bound_sound o x k z : usable_block o -> finite_values o -> finite_literals k ->
  evaluate_time_bound o k = Ok z -> forall t s, den (world o x) k t s = Some (Z2Qc z).
Proof.
  intros Hu Hf Hk H t s. unfold evaluate_time_bound in H. inv_bind H.
  destruct (evaluate_value _ (world o x) t s k (constant_provider_world o x t s Hu Hf) Hk _ H0) as (q & -> & Hq).
  unfold float_to_int in H. destruct (Pos.eqb_spec (Qden q) 1) as [E|E]; [|discriminate].
  assert (Hz : z = Qnum q) by congruence. subst z.
  rewrite Hq. f_equal. now apply int_value.
Qed.
Lemma time_bounds_sound o x e : usable_block o -> finite_values o -> finite_literals e ->
  evaluator_sound (world o x) (evaluate_time_bound o) e.
Proof.
  intros Hu Hf He. unfold evaluator_sound, time_args.
  eapply all_nodes_sub_imp; [|exact He|exact He]. intros y _ Hy.
  destruct y; try exact I; cbn [all_nodes] in Hy.
  - intros z Hz. apply time_bound_sound; auto. exact (proj2 (proj2 Hy)).
  - intros z Hz. apply time_bound_sound; auto. exact (proj2 (proj2 Hy)).
  - split; intros z Hz; apply time_bound_sound; auto.
    + exact (proj1 (proj2 (proj2 Hy))).
    + exact (proj2 (proj2 (proj2 Hy))).
Qed.

(** ** Expansion keeps finite literals, and evaluates every time argument *)
Lemma copy_op_free_finite c e : forall e',
  all_nodes op_free e -> finite_literals e ->
  (forall x x', leaf_kind x -> copy_with c x = Ok x' -> op_free x -> finite_literals x') ->
  copy_with c e = Ok e' -> finite_literals e'.
Proof.
  unfold finite_literals. induction e using expr_ind'; intros e' HO HF Hc HE;
    try (apply all_nodes_root in HO; contradiction);
    try (refine (Hc _ _ _ HE _); exact I).
  - copy_step HE. exact HF.
  - copy_step HE. cbn in *. split; [exact I|]. eapply IHe; [exact (proj2 HO)|exact (proj2 HF)|exact Hc|assumption].
  - copy_step HE. destruct v as [|v vs]; cbn [sum_operands] in HE; [discriminate|]. injection HE as <-.
    apply all_nodes_Add in HO, HF. destruct HO as [_ HO], HF as [_ HF].
    assert (HG : Forall finite_literals (v :: vs)).
    { eapply mapM_Forall; eauto. intros x y Hx Hy. rewrite Forall_forall in H, HO, HF. eapply H; eauto. }
    inversion HG; subst. apply fold_py_add_nodes; auto.
  - copy_step HE. cbn in *. split; [exact I|]. split; [eapply IHe1|eapply IHe2]; try tauto; auto.
  - copy_step HE. cbn in *. split; [exact I|]. split; [eapply IHe1|eapply IHe2]; try tauto; auto.
  - copy_step HE. cbn in *. split; [exact I|]. split; [eapply IHe1|eapply IHe2]; try tauto; auto.
Qed.
Lemma expand_finite d ev sp e : component_names_only e -> finite_literals e ->
  forall e', expand d ev sp e = Ok e' -> finite_literals e'.
Proof.
  assert (Hshift : forall k X X', all_nodes op_free X -> finite_literals X -> apply_timeshift X k = Ok X' -> finite_literals X').
  { intros k X X' HO HF. apply copy_op_free_finite; auto. intros x x' Hk E Ho.
    destruct x; try contradiction; cbn in E; injection E as <-; cbn; auto. }
  assert (Hstep : forall k b X X', all_nodes op_free X -> finite_literals X -> apply_timestep X k b = Ok X' -> finite_literals X').
  { intros k b X X' HO HF. apply copy_op_free_finite; auto. intros x x' Hk E Ho.
    destruct x; try contradiction; cbn in E; try (inv_bind E); injection E as <-; cbn; auto. }
  assert (Hscen : forall k X X', all_nodes op_free X -> finite_literals X -> apply_scenario X k = Ok X' -> finite_literals X').
  { intros k X X' HO HF. apply copy_op_free_finite; auto. intros x x' Hk E Ho.
    destruct x; try contradiction; cbn in E; injection E as <-; cbn; auto. }
  assert (Hsum : forall l, Forall finite_literals l -> finite_literals (sum_expressions l)).
  { intros l Hl. apply sum_expressions_plain; cbn; auto. }
  unfold component_names_only. induction e using expr_ind'; intros HN HF e' He.
  3:{ unfold finite_literals in HF. apply all_nodes_Add in HN, HF. destruct HN as [_ HN], HF as [_ HF].
      cbn [expand] in He. inv_bind He.
      destruct v as [|v vs]; cbn [sum_operands] in He; [discriminate|]. injection He as <-.
      assert (HG : Forall finite_literals (v :: vs)).
      { eapply mapM_Forall; eauto. intros x y Hx Hy. rewrite Forall_forall in H, HN, HF. eapply H; eauto. exact (HF x Hx). }
      inversion HG; subst. apply fold_py_add_nodes; auto. }
  all: assert (HO : forall a v, component_names_only a -> expand d ev sp a = Ok v -> all_nodes op_free v)
      by (intros a0 v0 Ha Hv; eapply expanded_op_free, expand_expanded; eauto).
  all: unfold finite_literals in *; cbn [expand] in He; cbn [all_nodes] in HN, HF; try tauto; try discriminate.
  - injection He as <-. cbn. tauto.
  - inv_bind He. injection He as <-. cbn. split; [exact I|]. apply IHe; tauto.
  - inv_bind He. inv_bind He. injection He as <-. cbn. split; [exact I|]. split; [apply IHe1|apply IHe2]; tauto.
  - inv_bind He. inv_bind He. injection He as <-. cbn. split; [exact I|]. split; [apply IHe1|apply IHe2]; tauto.
  - inv_bind He. inv_bind He. injection He as <-. cbn. split; [exact I|]. split; [apply IHe1|apply IHe2]; tauto.
  - inv_bind He. injection He as <-. cbn. auto.
  - inv_bind He. injection He as <-. cbn. auto.
  - inv_bind He. inv_bind He. refine (Hshift _ _ _ _ _ He).
    + eapply HO; [exact (proj1 (proj2 HN))|eassumption].
    + apply IHe1; tauto.
  - inv_bind He. inv_bind He. refine (Hstep _ _ _ _ _ _ He).
    + eapply HO; [exact (proj1 (proj2 HN))|eassumption].
    + apply IHe1; tauto.
  - inv_bind He. inv_bind He. inv_bind He. inv_bind He. injection He as <-.
    apply Hsum. eapply mapM_Forall; eauto. intros x y _ Hy. refine (Hshift _ _ _ _ _ Hy).
    + eapply HO; [exact (proj1 (proj2 HN))|eassumption].
    + apply IHe1; tauto.
  - inv_bind He. inv_bind He. injection He as <-.
    apply Hsum. eapply mapM_Forall; eauto. intros x y _ Hy. refine (Hstep _ _ _ _ _ _ Hy).
    + eapply HO; [exact (proj2 HN)|eassumption].
    + apply IHe; tauto.
  - destruct o; try discriminate. inv_bind He. inv_bind He. injection He as <-. cbn. split; [exact I|]. split; [|auto].
    apply Hsum. eapply mapM_Forall; eauto. intros x y _ Hy. refine (Hscen _ _ _ _ _ Hy).
    + eapply HO; [exact (proj2 HN)|eassumption].
    + apply IHe; tauto.
Qed.
Lemma expand_args d o sp e : component_names_only e ->
  forall e', expand d (evaluate_time_bound o) sp e = Ok e' ->
  time_args (fun k => exists z, evaluate_time_bound o k = Ok z) e.
Proof.
  assert (Hk : forall k z, evaluate_time_bound o k = Ok z -> time_args (fun k => exists z, evaluate_time_bound o k = Ok z) k).
  { intros k z H. unfold evaluate_time_bound in H. inv_bind H. eapply evaluable_time_args, evaluate_evaluable; eauto. }
  unfold component_names_only, time_args in *. induction e using expr_ind'; intros HN e' He.
  3:{ apply all_nodes_Add in HN. destruct HN as [_ HN]. apply all_nodes_Add. split; [exact I|].
      cbn [expand] in He. inv_bind He. apply mapM_ok in H0. clear He.
      induction H0 as [|a b l m Hab Hl IH]; constructor; inversion H; inversion HN; subst; eauto. }
  all: cbn [expand] in He; cbn [all_nodes] in HN |- *; try tauto; try discriminate.
  - inv_bind He. split; [exact I|]. eapply IHe; eauto. tauto.
  - inv_bind He. inv_bind He. split; [exact I|]. split; [eapply IHe1|eapply IHe2]; eauto; tauto.
  - inv_bind He. inv_bind He. split; [exact I|]. split; [eapply IHe1|eapply IHe2]; eauto; tauto.
  - inv_bind He. inv_bind He. split; [exact I|]. split; [eapply IHe1|eapply IHe2]; eauto; tauto.
  - inv_bind He. inv_bind He. split; [eauto|]. split; [eapply IHe1; eauto; tauto|eapply Hk; eauto].
  - inv_bind He. inv_bind He. split; [eauto|]. split; [eapply IHe1; eauto; tauto|eapply Hk; eauto].
  - inv_bind He. inv_bind He. inv_bind He. split; [eauto|].
    split; [eapply IHe1; eauto; tauto|]. split; eapply Hk; eauto.
  - inv_bind He. split; [exact I|]. eapply IHe; eauto. tauto.
  - destruct o0; try discriminate. inv_bind He. split; [exact I|]. eapply IHe; eauto. tauto.
Qed.
Lemma expand_fixed d o x sp e e' : usable_block o -> finite_values o -> finite_literals e ->
  component_names_only e -> expand d (evaluate_time_bound o) sp e = Ok e' -> fixed_time_args (world o x) e.
Proof.
  intros Hu Hf He HN H. apply expand_args in H; [|exact HN]. unfold fixed_time_args, time_args in *.
  pose proof (time_bounds_sound o x e Hu Hf He) as HS. unfold evaluator_sound, time_args in HS.
  eapply all_nodes_imp; [|exact (all_nodes_and _ _ _ H HS)].
  intros y [H1 H2]. destruct y; auto.
  - destruct H1 as [z Hz]. intros t s t' s'. now rewrite !(H2 z Hz).
  - destruct H1 as [z Hz]. intros t s t' s'. now rewrite !(H2 z Hz).
  - destruct H1 as [[z Hz] [w Hw]], H2 as [H2 H3]. split; intros t s t' s'; [now rewrite !(H2 z Hz)|now rewrite !(H3 w Hw)].
Qed.

(** ** Dependence *)
Section Dependence.
  Context (dim : indexing -> bool) (ft fs : bool).
  Notation V := (varies dim ft fs).
  Lemma varies_operands sp ports a : existsb (V sp ports) (add_operands a) = V sp ports a.
  Proof. destruct a; cbn; rewrite ?orb_false_r; reflexivity. Qed.
  Lemma varies_py_add sp ports a b : V sp ports (py_add a b) = V sp ports a || V sp ports b.
  Proof. cbn. now rewrite existsb_app, !varies_operands. Qed.
  Lemma varies_fold sp ports l : forall a,
    V sp ports (fold_left py_add l a) = V sp ports a || existsb (V sp ports) l.
  Proof.
    induction l as [|b l IH]; intros a; cbn [fold_left existsb]; [now rewrite orb_false_r|].
    rewrite IH, varies_py_add. now rewrite orb_assoc.
  Qed.
  Lemma varies_sum sp ports l : V sp ports (sum_expressions l) = existsb (V sp ports) l.
  Proof. destruct l as [|a [|b l]]; cbn; rewrite ?orb_false_r; reflexivity. Qed.
  Lemma copy_varies c sp ports sp' ports' e :
    (forall x x', leaf_kind x -> agg_ok x -> copy_with c x = Ok x' -> V sp' ports' x' = V sp ports x) ->
    forall e', aggregators_on_ports e -> copy_with c e = Ok e' -> V sp' ports' e' = V sp ports e.
  Proof.
    intros Hc. unfold aggregators_on_ports. induction e using expr_ind'; intros e' HA HE.
    3:{ copy_step HE. destruct v as [|v vs]; cbn [sum_operands] in HE; [discriminate|].
        injection HE as <-. apply all_nodes_Add in HA. destruct HA as [_ HA].
        rewrite varies_fold. change (V sp' ports' v || existsb (V sp' ports') vs) with (existsb (V sp' ports') (v :: vs)).
        cbn [varies]. apply mapM_ok in H0. clear -H H0 HA.
        induction H0 as [|a b l m Hab Hl IH]; [reflexivity|]. cbn. inversion H; inversion HA; subst. f_equal; auto. }
    all: try (refine (Hc _ _ _ _ HE); [exact I|apply all_nodes_root in HA; exact HA]).
    all: copy_step HE; cbn [all_nodes py_neg py_mul py_div varies] in HA |- *.
    all: try reflexivity.
    all: repeat match goal with
         | IH : forall e', _ -> copy_with ?k ?a = Ok e' -> _, H : copy_with ?k ?a = Ok ?v |- _ =>
             rewrite (IH v ltac:(tauto) H); clear IH
         end; reflexivity.
  Qed.
End Dependence.
Section InstantiationDependence.
  Context (o : settings) (st : state) (dim : indexing -> bool) (ft fs : bool).
  Hypothesis Hb : built_network (o_network o).
  Hypothesis Hg : good_connections (o_network o).
  Hypothesis Hr : register_connections o = Ok (st_ports st).
  Notation V := (varies dim ft fs).
  Notation none := (fun _ _ : string => false).
  Lemma context_varies cid ports e e' : aggregators_on_ports e -> add_component_context cid e = Ok e' ->
    V (data_structure_provider o) ports e' = V (local_structure (o_network o) cid) ports e.
  Proof.
    apply copy_varies. intros x x' Hk Ha E. destruct x; try contradiction; cbn in E; try discriminate;
      try (injection E as <-; cbn).
    - unfold component_structure, local_structure. destruct (get_component _ _); cbn; reflexivity.
    - unfold component_structure, local_structure. destruct (get_component _ _); cbn; reflexivity.
    - reflexivity.
    - destruct x; try contradiction. cbn in E. injection E as <-. reflexivity.
  Qed.
  Lemma registered_varies cid p f :
    existsb (V (data_structure_provider o) none)
      (match dget pfk_eqb (cid, (p, f)) (st_ports st) with Some l => l | None => [] end) =
    existsb (fun d => V (local_structure (o_network o) (fst d)) none (snd d)) (connected (o_network o) cid p f).
  Proof.
    pose proof (connections_registered o (st_ports st) Hb) as HC.
    specialize (HC (fun k Hk => conj (proj1 (proj1 (Hg k Hk))) (proj1 (proj2 (Hg k Hk)))) Hr cid p f).
    assert (HG : Forall (fun d => aggregators_on_ports (snd d)) (connected (o_network o) cid p f)).
    { apply Forall_forall. intros d Hd. apply (connected_good _ _ _ _ _ Hg) in Hd.
      apply no_port_aggregators. apply Hd. }
    induction HC as [|a b l1 l2 Hab HC IH]; cbn; [reflexivity|]. inversion HG; subst. f_equal; [|auto].
    now apply context_varies.
  Qed.
  Lemma instantiate_varies cid e e' : aggregators_on_ports e -> instantiate st e cid = Ok e' ->
    V (data_structure_provider o) none e' = varies_in dim ft fs (o_network o) cid e.
  Proof.
    intros Ha H. unfold instantiate in H. inv_bind H. unfold varies_in.
    rewrite <- (context_varies cid _ e v Ha H0).
    apply (copy_varies dim ft fs (port_resolver cid (st_ports st))); [|eapply context_aggregators; eauto|exact H].
    clear H v H0 Ha e e'. intros x x' Hk Ha E. pose proof (registered_varies cid) as HR.
    destruct x; try contradiction; cbn in E; try discriminate; try (injection E as <-; reflexivity).
    - cbn [varies]. rewrite <- HR. unfold resolve_port_field in E.
      destruct (dget _ _ _) as [[|d [|]]|] eqn:Ed; try discriminate. injection E as <-. cbn. now rewrite orb_false_r.
    - cbn [varies]. unfold resolve_port_aggregator in E. destruct a; try discriminate. destruct x; try discriminate.
      injection E as <-. cbn [varies]. rewrite <- HR. apply varies_sum.
  Qed.
End InstantiationDependence.

(** the index of an expression is its dependence *)
Definition ix_is (ix : indexing) (t s : bool) : Prop := ix_time ix = t /\ ix_scenario ix = s.
Lemma ix_is_or r r' t s t' s' : ix_is r t s -> ix_is r' t' s' -> ix_is (ix_or r r') (t || t') (s || s').
Proof. intros [<- <-] [<- <-]. split; reflexivity. Qed.
Lemma ix_is_varying r t s t' s' : is_time_scenario_varying r = true -> ix_is r t s -> ix_is r (t || t') (s || s').
Proof.
  intros H [<- <-]. unfold is_time_scenario_varying in H. apply andb_true_iff in H. destruct H as [H1 H2].
  split; rewrite ?H1, ?H2; reflexivity.
Qed.
Lemma combine_loop_varies (f : expr -> result indexing) (vt vs : expr -> bool) l :
  Forall (fun e => forall ix, f e = Ok ix -> ix_is ix (vt e) (vs e)) l ->
  forall res t s ix, ix_is res t s -> combine_loop f res l = Ok ix -> ix_is ix (t || existsb vt l) (s || existsb vs l).
Proof.
  intros HF. induction HF as [|a l Ha HF IH]; intros res t s ix Hres H; cbn in H |- *.
  - injection H as <-. now rewrite !orb_false_r.
  - inv_bind H. pose proof (ix_is_or _ _ _ _ _ _ Hres (Ha _ H0)) as Hor.
    destruct (is_time_scenario_varying _) eqn:E; rewrite !orb_assoc.
    + assert (Hix : ix_or res v = ix) by congruence. subst ix. now apply ix_is_varying.
    + eapply IH; eauto.
Qed.
Lemma combine_ix_varies (f : expr -> result indexing) (vt vs : expr -> bool) l :
  Forall (fun e => forall ix, f e = Ok ix -> ix_is ix (vt e) (vs e)) l ->
  forall ix, combine_ix f l = Ok ix -> ix_is ix (existsb vt l) (existsb vs l).
Proof.
  intros HF ix H. destruct l as [|a l]; cbn in H |- *.
  - injection H as <-. split; reflexivity.
  - inv_bind H. inversion HF; subst. specialize (H3 _ H0). destruct (is_time_scenario_varying _) eqn:E.
    + injection H as <-. now apply ix_is_varying.
    + eapply combine_loop_varies; eauto.
Qed.
Lemma indexation_varies sp ports e : forall ix, compute_indexation sp e = Ok ix ->
  ix_is ix (varies ix_time true false sp ports e) (varies ix_scenario false true sp ports e).
Proof.
  induction e using expr_ind'; intros ix H0; cbn [compute_indexation] in H0; try discriminate; cbn [varies negb andb];
    try (rewrite H0; split; reflexivity); try (apply IHe; exact H0); try (apply IHe1; exact H0);
    try (inv_bind H0; pose proof (IHe1 _ H) as H1; destruct (is_time_scenario_varying _) eqn:E;
      [injection H0 as <-; now apply ix_is_varying|inv_bind H0;
       assert (Hix : ix_or v v0 = ix) by congruence; subst ix; apply ix_is_or; auto]);
    try (inv_bind H0; injection H0 as <-; destruct (IHe _ H); split; auto).
  - injection H0 as <-. split; reflexivity.
  - eapply combine_ix_varies; eauto.
  - inv_bind H0. injection H0 as <-. destruct (IHe1 _ H). split; auto.
Qed.

(** what does not vary keeps its value *)
Lemma evaluable_time_constant sp E e : respects sp E -> component_names_only e -> all_nodes evaluable e ->
  varies ix_time true false sp (fun _ _ => false) e = false -> forall t t' s, den E e t s = den E e t' s.
Proof.
  intros HR HN He Hv t t' s. unfold component_names_only in HN.
  induction e using expr_ind'; try (apply all_nodes_root in HN; contradiction);
    try (apply all_nodes_root in He; contradiction); cbn [den varies] in *.
  - reflexivity.
  - rewrite IHe; cbn in HN, He; tauto.
  - f_equal. apply all_nodes_Add in HN, He. destruct HN as [_ HN], He as [_ He].
    apply map_ext_in. intros x Hx. rewrite Forall_forall in *. apply H; auto.
    destruct (varies _ _ _ _ _ x) eqn:Ex; auto. exfalso.
    assert (Hex : existsb (varies ix_time true false sp (fun _ _ => false)) l = true) by (apply existsb_exists; eauto).
    congruence.
  - cbn in HN, He. apply orb_false_iff in Hv. rewrite IHe1, IHe2; tauto.
  - cbn in HN, He. apply orb_false_iff in Hv. rewrite IHe1, IHe2; tauto.
  - unfold may_vary in Hv. destruct (get_component_variable_structure sp c n) as [ix|] eqn:E1; [|discriminate].
    f_equal. destruct HR as (_ & _ & HR & _). eapply HR; eauto.
  - unfold may_vary in Hv. destruct (get_component_parameter_structure sp c n) as [ix|] eqn:E1; [|discriminate].
    destruct HR as (_ & _ & _ & HR). eapply HR; eauto.
Qed.
Lemma evaluable_scenario_constant sp E e : respects sp E -> component_names_only e -> all_nodes evaluable e ->
  varies ix_scenario false true sp (fun _ _ => false) e = false -> forall t s s', den E e t s = den E e t s'.
Proof.
  intros HR HN He Hv t s s'. unfold component_names_only in HN.
  induction e using expr_ind'; try (apply all_nodes_root in HN; contradiction);
    try (apply all_nodes_root in He; contradiction); cbn [den varies] in *.
  - reflexivity.
  - rewrite IHe; cbn in HN, He; tauto.
  - f_equal. apply all_nodes_Add in HN, He. destruct HN as [_ HN], He as [_ He].
    apply map_ext_in. intros x Hx. rewrite Forall_forall in *. apply H; auto.
    destruct (varies _ _ _ _ _ x) eqn:Ex; auto. exfalso.
    assert (Hex : existsb (varies ix_scenario false true sp (fun _ _ => false)) l = true) by (apply existsb_exists; eauto).
    congruence.
  - cbn in HN, He. apply orb_false_iff in Hv. rewrite IHe1, IHe2; tauto.
  - cbn in HN, He. apply orb_false_iff in Hv. rewrite IHe1, IHe2; tauto.
  - unfold may_vary in Hv. destruct (get_component_variable_structure sp c n) as [ix|] eqn:E1; [|discriminate].
    f_equal. destruct HR as (_ & _ & HR & _). eapply HR; eauto.
  - unfold may_vary in Hv. destruct (get_component_parameter_structure sp c n) as [ix|] eqn:E1; [|discriminate].
    destruct HR as (_ & _ & _ & HR). eapply HR; eauto.
Qed.

(** ** The world is cyclic and respects the declared structures *)
Lemma get_component_known n id c : built_network n -> get_component n id = Ok c ->
  In c (all_components n) /\ co_id c = id.
Proof.
  intros Hb H. apply built_network_named in Hb. destruct Hb as [[_ H1] [_ H2]]. unfold get_component in H.
  unfold all_components. rewrite in_app_iff.
  destruct (dget String.eqb id (n_components n)) as [c'|] eqn:E.
  - injection H as <-. apply (dget_In String.eqb String.eqb_eq) in E. split; [right; apply in_map_iff; eexists; split; [|exact E]; reflexivity|eauto].
  - destruct (dget String.eqb id (n_nodes n)) as [c'|] eqn:E'; [|discriminate].
    injection H as <-. apply (dget_In String.eqb String.eqb_eq) in E'. split; [left; apply in_map_iff; eexists; split; [|exact E']; reflexivity|eauto].
Qed.
Lemma data_at_suitable o c p : has_suitable_data (o_database o) c p ->
  (ix_time (p_structure p) = false -> forall t t' s, usable_block o -> data_at o c (p_name p) t s = data_at o c (p_name p) t' s) /\
  (ix_scenario (p_structure p) = false -> forall t s s', data_at o c (p_name p) t s = data_at o c (p_name p) t s').
Proof.
  intros (d & Hd & Ht & Hs). unfold data_at. rewrite Hd. split.
  - intros Hf t t' s Hu. destruct (absolute_timestep o t Hu) as (a & Ha & _), (absolute_timestep o t' Hu) as (a' & Ha' & _).
    fold (block_length o). rewrite Ha, Ha'. now rewrite (Ht Hf (Some a) (Some a')).
  - intros Hf t s s'. destruct (nth_error _ _); auto. now rewrite (Hs Hf _ (Some s) (Some s')).
Qed.
Lemma world_respects o x : good_problem o -> requirements_consistency (o_database o) (o_network o) = Ok tt ->
  admissible_decisions o x -> respects (data_structure_provider o) (world o x).
Proof.
  intros (Hu & HS & _ & Hb & Hd & Hm & Hk & Hf & Hn) Hreq [_ Hx].
  assert (Hsuit : forall c p, In c (all_components (o_network o)) -> In p (map snd (m_parameters (co_model c))) ->
     has_suitable_data (o_database o) (co_id c) p).
  { intros c p Hc Hp. unfold all_components in Hc. apply in_app_or in Hc. destruct Hc as [Hc|Hc]; [now apply Hn|].
    eapply requirements_ok; eauto. intros c' Hc'. apply (Hm c'). apply in_or_app. now right. }
  repeat split; intros; try discriminate; cbn [data_structure_provider get_component_variable_structure get_component_parameter_structure] in H;
    unfold component_structure in H; inv_bind H; destruct (dget String.eqb n _) as [a|] eqn:E; try discriminate;
    injection H as <-; apply (dget_In String.eqb String.eqb_eq) in E; destruct (get_component_known _ _ _ Hb H1) as [Hin Hid];
    destruct (Hm v Hin) as ((_ & _ & [_ Hnp] & [_ Hnv] & _) & _); cbn [world e_cvar e_cpar].
  - specialize (Hnv _ _ E). subst. apply (Hx v a Hin); auto. apply in_map_iff. eexists; split; [|exact E]; reflexivity.
  - specialize (Hnv _ _ E). subst. apply (Hx v a Hin); auto. apply in_map_iff. eexists; split; [|exact E]; reflexivity.
  - specialize (Hnp _ _ E). subst. apply (data_at_suitable o (co_id v) a); auto. apply Hsuit; auto.
    apply in_map_iff. eexists; split; [|exact E]; reflexivity.
  - specialize (Hnp _ _ E). subst. apply (data_at_suitable o (co_id v) a); auto. apply Hsuit; auto.
    apply in_map_iff. eexists; split; [|exact E]; reflexivity.
Qed.
Lemma world_cyclic o x : admissible_decisions o x -> cyclic (world o x).
Proof.
  intros [Hx _]. split; cbn; [exact Hx|]. intros c n t s. unfold data_at.
  set (N := Z.of_nat (List.length (o_block o))).
  replace ((t + N) mod N)%Z with (t mod N)%Z; [reflexivity|].
  destruct (Z.eq_dec N 0) as [->|HN]; [now rewrite Z.add_0_r|].
  rewrite <- (Z.mul_1_l N) at 2. now rewrite Z.mod_add.
Qed.
