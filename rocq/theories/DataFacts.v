(** Problems depend on the data of the components of the network only (C79). *)
From Coq Require Import Lia Permutation.
From Verif Require Import Base BaseFacts Expr Visitors LinearExpr Linearize Expansion Model Study Strategy Optim Tree
  SpecExpr SpecSyntax SpecVisitors SpecExpansion SpecLinear SpecModel SpecOptim SpecReady SpecFusion
  ExprFacts CopyFacts VisitorFacts DegreeFacts ExpansionFacts LinearFacts ModelFacts OptimFacts OptimMeaning OptimProblem ReadyFacts OptimReady
  SpecDecompose DecomposeFacts SpecOrder OrderFacts OrderProblem SpecParts PartsFacts.

Lemma foldM_ext_inv {A B} (I : B -> Prop) (f g : B -> A -> result B) l :
  (forall acc a acc', In a l -> I acc -> f acc a = Ok acc' -> I acc') ->
  (forall acc a, In a l -> I acc -> f acc a = g acc a) -> forall acc, I acc -> foldM f acc l = foldM g acc l.
Proof.
  induction l as [|a l IH]; intros HI HE acc HA; cbn [foldM]; [reflexivity|]. rewrite <- (HE acc a) by (auto; now left).
  destruct (f acc a) as [b|e] eqn:E; cbn [bind]; [|reflexivity]. apply IH; [intros; eapply HI; eauto; now right|intros; apply HE; auto; now right|].
  eapply HI; eauto. now left.
Qed.
Lemma foldM_inv {A B} (I : B -> Prop) (f : B -> A -> result B) l :
  (forall acc a acc', In a l -> I acc -> f acc a = Ok acc' -> I acc') -> forall acc acc', I acc -> foldM f acc l = Ok acc' -> I acc'.
Proof.
  induction l as [|a l IH]; intros HI acc acc' HA H; cbn [foldM] in H; [injection H as <-; exact HA|]. inv_bind H.
  eapply IH; [|eapply HI; eauto; now left|exact H]. intros; eapply HI; eauto. now right.
Qed.
Lemma lin_agree (P : string -> Prop) g g' t s e : (forall c p t s, P c -> g c p t s = g' c p t s) -> own P e ->
  lin_build t s (Some g) e = lin_build t s (Some g') e.
Proof.
  intros HG. induction e using expr_ind'; intros HN.
  3:{ apply all_nodes_Add in HN. destruct HN as [_ HN]. cbn [lin_build]. rewrite Forall_forall in H, HN.
      replace (mapM (lin_build t s (Some g')) l) with (mapM (lin_build t s (Some g)) l); [reflexivity|].
      apply mapM_ext. rewrite Forall_forall. intros a Ha. apply H; auto. apply (HN a Ha). }
  all: pose proof (all_nodes_root _ _ HN) as HR; cbn in HR; unfold own in HN; cbn [all_nodes] in HN; cbn [lin_build]; auto.
  - now rewrite IHe by apply HN.
  - now rewrite IHe1, IHe2 by apply HN.
  - now rewrite IHe1, IHe2 by apply HN.
  - destruct (get_timestep t ti); cbn [bind]; [|reflexivity]. now rewrite HG.
Qed.

Section Local.
  Context (o : settings) (db : database).
  Notation n := (o_network o).
  Notation o' := (with_database o db).
  Notation P := (in_part n).
  Hypothesis Hb : built_network n.
  Hypothesis Hown : self_contained n.
  Hypothesis HD : forall c p, P c -> get_data db c p = get_data (o_database o) c p.

  Lemma parameter_local t s c p : P c -> parameter_value o t s c p = parameter_value o' t s c p.
  Proof. intros HP. unfold parameter_value. cbn [o_database with_database]. now rewrite HD. Qed.
  Lemma value_local e t s : own P e -> compute_expression_value o e t s = compute_expression_value o' e t s.
  Proof.
    intros HN. unfold compute_expression_value. apply evaluate_agree. revert HN. apply all_nodes_imp. intros x Hx. destruct x; cbn in *; auto. now apply parameter_local.
  Qed.
  Lemma time_bound_local e : own P e -> evaluate_time_bound o e = evaluate_time_bound o' e.
  Proof.
    intros HN. unfold evaluate_time_bound. f_equal. apply evaluate_agree. revert HN. apply all_nodes_imp. intros x Hx. destruct x; cbn in *; auto.
    match goal with |- bind (component_structure o _ _ ?a ?b) _ = _ =>
      change (component_structure o' m_parameters p_structure a b) with (component_structure o m_parameters p_structure a b) end.
    destruct (component_structure o _ _ _ _) as [ix|]; cbn [bind]; [|reflexivity]. destruct (ix_time ix || ix_scenario ix)%bool; [reflexivity|]. now apply parameter_local.
  Qed.
  Lemma expand_local e : own P e -> context_expand o e = context_expand o' e.
  Proof. intros HN. unfold context_expand, expand_operators. apply expand_agree with (P := P); [reflexivity|reflexivity|exact time_bound_local|exact HN]. Qed.
  Lemma linearize_local e t s : own P e -> context_linearize o e t s = context_linearize o' e t s.
  Proof.
    intros HN. unfold context_linearize, linearize_expression. f_equal. apply (lin_agree P); [|exact HN]. intros. now apply parameter_local.
  Qed.

  Definition own_ports (st : state) : Prop := part_ports n (st_ports st) (st_ports st).
  Lemma registered_own ports : register_connections o = Ok ports -> part_ports n ports ports.
  Proof.
    intros H. eapply (part_registered o n); eauto.
  Qed.
  Lemma constraint_all_own st cid k ic : own_ports st -> P cid -> instantiate_constraint st cid k = Ok ic ->
    own P (c_expr ic) /\ own P (c_lower ic) /\ own P (c_upper ic).
  Proof.
    intros HP Hc H. split; [exact (constraint_own n st st HP _ _ _ Hc H)|]. unfold instantiate_constraint in H. inv_bind H. inv_bind H. inv_bind H.
    pose proof (instantiate_own n st st HP _ _ _ Hc H1) as S1. pose proof (instantiate_own n st st HP _ _ _ Hc H2) as S2. clear - H S1 S2. unfold mk_constraint in H.
    destruct v; try (repeat match type of H with bind _ _ = _ => inv_bind H | (if ?b then _ else _) = _ => destruct b; try discriminate end; injection H as <-; split; assumption).
    destruct (_ || _)%bool; [discriminate|]. destruct c; injection H as <-; split; cbn; auto.
  Qed.
  Lemma create_variable_local c v st : own_ports st -> P (co_id c) -> create_variable o c st v = create_variable o' c st v.
  Proof.
    intros HP Hc. unfold create_variable. assert (B : forall b be, instantiate_bound st b (co_id c) = Ok be -> match be with Some e => own P e | None => True end).
    { intros [b|] be H; cbn in H; [|injection H as <-; exact I]. inv_bind H. injection H as <-. exact (instantiate_own n st st HP _ _ _ Hc H0). }
    destruct (instantiate_bound st (v_lower v) (co_id c)) as [l|] eqn:El; cbn [bind]; [|reflexivity].
    destruct (instantiate_bound st (v_upper v) (co_id c)) as [u|] eqn:Eu; cbn [bind]; [|reflexivity].
    apply foldM_ext. intros acc [t s] _. unfold create_variable_instance.
    assert (V : forall d be, match be with Some e => own P e | None => True end -> bound_value o d be t s = bound_value o' d be t s).
    { intros d [e|] HE; cbn; [now apply value_local|reflexivity]. }
    now rewrite (V NInf l (B _ _ El)), (V PInf u (B _ _ Eu)).
  Qed.
  Lemma create_constraint_local st cid k : own_ports st -> P cid -> create_component_constraint o cid st k = create_component_constraint o' cid st k.
  Proof.
    intros HP Hc. unfold create_component_constraint. destruct (instantiate_constraint st cid k) as [ic|] eqn:E; cbn [bind]; [|reflexivity].
    destruct (constraint_all_own _ _ _ _ HP Hc E) as (O1 & O2 & O3). f_equal. unfold create_constraint. rewrite <- (expand_local _ O1).
    destruct (context_expand o (c_expr ic)) as [x|] eqn:Ex; cbn [bind]; [|reflexivity]. assert (OX : own P x) by (eapply expand_own; [exact O1|exact Ex]).
    change (constraint_indexing o' ic) with (constraint_indexing o ic). destruct (constraint_indexing o ic) as [ix|]; cbn [bind]; [|reflexivity].
    apply mapM_ext. apply Forall_forall. intros [t s] _. cbn [fst snd]. unfold create_row. rewrite <- (linearize_local _ _ _ OX).
    now rewrite <- (value_local _ _ _ O2), <- (value_local _ _ _ O3).
  Qed.
  Lemma create_objective_local st c obj : own_ports st -> P (co_id c) -> create_component_objective o c st obj = create_component_objective o' c st obj.
  Proof.
    intros HP Hc. destruct obj as [e|]; [|reflexivity]. cbn [create_component_objective]. change (o_risk o') with (o_risk o). unfold create_objective.
    destruct (instantiate st _ (co_id c)) as [i|] eqn:E; cbn [bind]; [|reflexivity]. pose proof (instantiate_own n st st HP _ _ _ Hc E) as O1.
    rewrite <- (expand_local _ O1). destruct (context_expand o i) as [x|] eqn:Ex; cbn [bind]; [|reflexivity].
    now rewrite <- (linearize_local x None None) by (eapply expand_own; [exact O1|exact Ex]).
  Qed.
  Lemma constraint_keeps cid st k st' : create_component_constraint o cid st k = Ok st' -> st_ports st' = st_ports st.
  Proof. intros H. unfold create_component_constraint in H. inv_bind H. inv_bind H. injection H as <-. reflexivity. Qed.
  Lemma objective_keeps c st obj st' : create_component_objective o c st obj = Ok st' -> st_ports st' = st_ports st.
  Proof.
    destruct obj as [e|]; cbn [create_component_objective]; intros H; [|injection H as <-; reflexivity]. unfold create_objective in H.
    apply bind_ok in H as (i & _ & H). apply bind_ok in H as (x & _ & H). apply bind_ok in H as (L & _ & H). apply bind_ok in H as (s1 & H1 & H). injection H as <-. cbn.
    apply (foldM_inv (fun s => st_ports s = st_ports st)) in H1; auto. intros acc a acc' _ E Ha. unfold add_objective_term in Ha.
    apply bind_ok in Ha as (j & _ & Ha). apply bind_ok in Ha as (v & _ & Ha). apply bind_ok in Ha as (inf & _ & Ha). injection Ha as <-. exact E.
  Qed.
  Lemma over_components {X} (get : component -> list X) (f g : component -> state -> X -> result state) :
    (forall c st x st', f c st x = Ok st' -> st_ports st' = st_ports st) ->
    (forall c st x, own_ports st -> P (co_id c) -> f c st x = g c st x) ->
    forall st, own_ports st -> foldM (fun st c => foldM (f c) st (get c)) st (all_components n) = foldM (fun st c => foldM (g c) st (get c)) st (all_components n).
  Proof.
    intros HK HE st HO. apply (foldM_ext_inv own_ports); [| |exact HO].
    - intros acc c acc' _ HA H. apply (foldM_inv own_ports) in H; auto. intros a x a' _ Ha Hx. unfold own_ports. now rewrite (HK _ _ _ _ Hx).
    - intros acc c Hc HA. apply (foldM_ext_inv own_ports); [|intros; apply HE; auto; now apply in_map|exact HA].
      intros a x a' _ Ha Hx. unfold own_ports. now rewrite (HK _ _ _ _ Hx).
  Qed.
  Lemma over_components_keep {X} (get : component -> list X) (f : component -> state -> X -> result state) :
    (forall c st x st', f c st x = Ok st' -> st_ports st' = st_ports st) ->
    forall st st', own_ports st -> foldM (fun st c => foldM (f c) st (get c)) st (all_components n) = Ok st' -> own_ports st'.
  Proof.
    intros HK st st' HO H. apply (foldM_inv own_ports) in H; auto. intros acc c acc' _ HA Hc. apply (foldM_inv own_ports) in Hc; auto.
    intros a x a' _ Ha Hx. unfold own_ports. now rewrite (HK _ _ _ _ Hx).
  Qed.
  Lemma requirements_local : requirements_consistency (o_database o) n = requirements_consistency db n.
  Proof.
    unfold requirements_consistency. f_equal. apply mapM_ext. apply Forall_forall. intros [k c] Hc. cbn [snd]. unfold check_component_data. f_equal.
    apply mapM_ext. apply Forall_forall. intros [k' p] _. cbn [snd]. rewrite HD; [reflexivity|]. unfold in_part, all_components. apply in_map. apply in_or_app. right. exact (in_map snd _ _ Hc).
  Qed.
  Theorem data_local : build_problem o = build_problem o'.
  Proof.
    unfold build_problem. change (o_network o') with n. change (o_database o') with db. rewrite <- requirements_local.
    destruct (requirements_consistency (o_database o) n); cbn [bind]; [|reflexivity]. unfold optimization_problem.
    change (register_connections o') with (register_connections o). destruct (register_connections o) as [ports|] eqn:Ep; cbn [bind]; [|reflexivity].
    pose proof (registered_own ports Ep) as HP. unfold create_variables. change (o_network o') with n. change (o_selection o') with (o_selection o).
    assert (HO : own_ports (set_ports initial_state ports)) by exact HP.
    rewrite <- (over_components (fun c => get_variables (o_selection o) (co_model c)) (fun c => create_variable o c) (fun c => create_variable o' c));
      [|intros; eapply create_variable_ports; eauto|intros; now apply create_variable_local|exact HO].
    match goal with |- bind ?x _ = _ => destruct x as [st1|] eqn:E1 end; cbn [bind]; [|reflexivity].
    assert (O1 : own_ports st1) by (eapply (over_components_keep (fun c => get_variables (o_selection o) (co_model c)) (fun c => create_variable o c)); [|exact HO|exact E1]; intros; eapply create_variable_ports; eauto).
    unfold create_constraints. change (o_network o') with n. change (o_selection o') with (o_selection o).
    rewrite <- (over_components (fun c => get_constraints (o_selection o) (co_model c)) (fun c => create_component_constraint o (co_id c)) (fun c => create_component_constraint o' (co_id c)));
      [|intros; eapply constraint_keeps; eauto|intros; now apply create_constraint_local|exact O1].
    match goal with |- bind ?x _ = _ => destruct x as [st2|] eqn:E2 end; cbn [bind]; [|reflexivity].
    assert (O2 : own_ports st2) by (eapply (over_components_keep (fun c => get_constraints (o_selection o) (co_model c)) (fun c => create_component_constraint o (co_id c))); [|exact O1|exact E2]; intros; eapply constraint_keeps; eauto).
    unfold create_objectives. change (o_network o') with n. change (o_selection o') with (o_selection o).
    apply (over_components (fun c => get_objectives (o_selection o) (co_model c)) (fun c => create_component_objective o c) (fun c => create_component_objective o' c));
      [intros; eapply objective_keeps; eauto|intros; now apply create_objective_local|exact O2].
  Qed.
End Local.
