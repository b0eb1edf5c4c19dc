(** Problems of networks made of two parts (C78). *)
From Coq Require Import Lia Permutation.
From Verif Require Import Base BaseFacts Expr Visitors LinearExpr Linearize Expansion Model Study Strategy Optim Tree
  SpecExpr SpecSyntax SpecVisitors SpecExpansion SpecLinear SpecModel SpecOptim SpecReady SpecFusion
  ExprFacts CopyFacts VisitorFacts DegreeFacts ExpansionFacts LinearFacts ModelFacts OptimFacts OptimMeaning OptimProblem ReadyFacts OptimReady
  SpecDecompose DecomposeFacts SpecOrder OrderFacts OrderProblem OrderFiles SpecParts.

(** ** Expressions about some components only *)
Definition named_leaf (x : expr) : Prop :=
  match x with Var _ | Param _ | CVar _ _ | CParam _ _ | PVar _ _ _ _ | PParam _ _ _ _ | PortField _ _ => True | _ => False end.
Section Own.
  Context (P : string -> Prop).
  Definition own_node (x : expr) : Prop :=
    match x with CVar c _ | CParam c _ | PVar c _ _ _ | PParam c _ _ _ => P c | _ => True end.
  Definition own : expr -> Prop := all_nodes own_node.
  Lemma own_arith : arith_pred own_node.
  Proof. repeat split; intros; exact I. Qed.
  Lemma own_sum l e : Forall own l -> sum_operands py_add l = Ok e -> own e.
  Proof.
    intros HF H. destruct l as [|v vs]; cbn [sum_operands] in H; [discriminate|]. injection H as <-. inversion HF; subst.
    apply fold_py_add_nodes; auto. intros; exact I.
  Qed.
  Lemma copy_own (c : copier) (Q : expr -> Prop) e e' :
    (forall x x', named_leaf x -> Q x -> copy_with c x = Ok x' -> own x') ->
    (forall h a g x', on_agg c = Some h -> h a g = Ok x' -> own x') ->
    all_nodes Q e -> copy_with c e = Ok e' -> own e'.
  Proof.
    intros HL HA. revert e'. induction e using expr_ind'; intros e' HN Hc.
    3:{ apply all_nodes_Add in HN. destruct HN as [_ HN]. cbn [copy_with] in Hc. inv_bind Hc. eapply own_sum; [|exact Hc].
        eapply mapM_Forall; eauto. intros x y Hx Hy. rewrite Forall_forall in H, HN. eauto. }
    all: try (eapply HL; [|exact (all_nodes_root _ _ HN)|exact Hc]; exact I; fail).
    all: cbn [all_nodes] in HN; cbn [copy_with] in Hc.
    all: try (destruct (on_agg c) as [h|] eqn:E in Hc; [eapply HA; eassumption|]).
    1:{ injection Hc as <-. cbn. auto. }
    all: repeat match type of Hc with bind _ _ = _ => inv_bind Hc end; injection Hc as <-; unfold py_neg, py_mul, py_div; cbn; repeat split; intuition eauto.
  Qed.
End Own.
Section OwnSteps.
  Context (P : string -> Prop).
  Notation own := (own P).
  Lemma context_own id e e' : P id -> add_component_context id e = Ok e' -> own e'.
  Proof.
    intros HP H. eapply (copy_own P (context_adder id) (fun _ => True)); [| |apply all_nodes_imp with (P := fun _ => True); [auto|]|exact H].
    - intros x x' Hk _ E. destruct x; try contradiction; cbn in E; try discriminate; injection E as <-; cbn; auto.
    - cbn. discriminate.
    - clear. induction e using expr_ind'; try (cbn; tauto). apply all_nodes_Add. split; auto.
  Qed.
  Lemma resolve_own cid ports e e' : (forall p f, Forall own (registered ports cid p f)) -> own e -> resolve_port e cid ports = Ok e' -> own e'.
  Proof.
    intros HP HN H. assert (A : forall a g x', resolve_port_aggregator cid ports a g = Ok x' -> own x').
    { intros a g x' E. unfold resolve_port_aggregator in E. destruct g; try discriminate. destruct a; try discriminate. injection E as <-.
      apply sum_expressions_nodes; [apply own_arith|]. specialize (HP p f). exact HP. }
    eapply (copy_own P (port_resolver cid ports) (own_node P)); [| |exact HN|exact H].
    - intros x x' Hk Hx E. destruct x; try contradiction; cbn in E; try (injection E as <-; cbn; auto; fail).
      unfold resolve_port_field in E. specialize (HP p f). unfold registered in HP.
      destruct (dget pfk_eqb _ ports) as [[|d [|]]|]; try discriminate. injection E as <-. now inversion HP.
    - intros h a g x' [= <-]. apply A.
  Qed.
  Lemma index_own c X X' : on_agg c = None -> (forall x x', named_leaf x -> own_node P x -> copy_with c x = Ok x' -> own x') -> own X -> copy_with c X = Ok X' -> own X'.
  Proof. intros HA HL. apply copy_own; [exact HL|]. rewrite HA. discriminate. Qed.
End OwnSteps.
Section Agree.
  Context (P : string -> Prop).
  Notation own := (own P).
  Lemma shift_own k X X' : own X -> apply_timeshift X k = Ok X' -> own X'.
  Proof. apply index_own; [reflexivity|]. intros x x' Hk Hx E. destruct x; try contradiction; cbn in E; injection E as <-; cbn; auto. Qed.
  Lemma step_own k b X X' : own X -> apply_timestep X k b = Ok X' -> own X'.
  Proof.
    apply index_own; [reflexivity|]. intros x x' Hk Hx E. destruct x; try contradiction; cbn in E; try (injection E as <-; cbn; auto; fail);
      inv_bind E; injection E as <-; cbn; auto.
  Qed.
  Lemma scenario_own k X X' : own X -> apply_scenario X k = Ok X' -> own X'.
  Proof. apply index_own; [reflexivity|]. intros x x' Hk Hx E. destruct x; try contradiction; cbn in E; injection E as <-; cbn; auto. Qed.
  Lemma expand_own d ev sp e : own e -> forall e', expand d ev sp e = Ok e' -> own e'.
  Proof.
    induction e using expr_ind'; intros HN e' He.
    3:{ apply all_nodes_Add in HN. destruct HN as [_ HN]. cbn [expand] in He. inv_bind He. eapply own_sum; [|exact He].
        eapply mapM_Forall; eauto. intros x y Hx Hy. rewrite Forall_forall in H, HN. apply (H x Hx (HN x Hx) _ Hy). }
    all: pose proof (all_nodes_root _ _ HN) as HR; unfold PartsFacts.own in HN; cbn [all_nodes] in HN; cbn [expand] in He; try discriminate.
    all: try (repeat match type of He with bind _ _ = _ => inv_bind He end; injection He as <-; unfold py_neg, py_mul, py_div; cbn; repeat split; intuition eauto; fail).
    - inv_bind He. inv_bind He. eapply shift_own; [|exact He]. apply (IHe1 (proj1 (proj2 HN)) _ H0).
    - inv_bind He. inv_bind He. eapply step_own; [|exact He]. apply (IHe1 (proj1 (proj2 HN)) _ H0).
    - inv_bind He. inv_bind He. inv_bind He. inv_bind He. injection He as <-. apply sum_expressions_nodes; [apply own_arith|]. eapply mapM_Forall; eauto.
      intros x y _ Hy. eapply shift_own; [|exact Hy]. apply (IHe1 (proj1 (proj2 HN)) _ H1).
    - inv_bind He. inv_bind He. injection He as <-. apply sum_expressions_nodes; [apply own_arith|]. eapply mapM_Forall; eauto.
      intros x y _ Hy. eapply step_own; [|exact Hy]. apply (IHe (proj2 HN) _ H).
    - destruct o; try discriminate. inv_bind He. inv_bind He. injection He as <-. split; [exact I|]. split; [|split; exact I].
      apply sum_expressions_nodes; [apply own_arith|]. eapply mapM_Forall; eauto.
      intros x y _ Hy. eapply scenario_own; [|exact Hy]. apply (IHe (proj2 HN) _ H).
  Qed.
  Context (sp sp' : structure_provider).
  Hypothesis Sv : forall c n, P c -> get_component_variable_structure sp c n = get_component_variable_structure sp' c n.
  Hypothesis Sp : forall c n, P c -> get_component_parameter_structure sp c n = get_component_parameter_structure sp' c n.
  Lemma expand_agree d ev ev' e : (forall x, own x -> ev x = ev' x) -> own e -> expand d ev sp e = expand d ev' sp' e.
  Proof.
    intros HE. induction e using expr_ind'; intros HN.
    3:{ apply all_nodes_Add in HN. destruct HN as [_ HN]. cbn [expand]. rewrite Forall_forall in H, HN.
        replace (mapM (expand d ev' sp') l) with (mapM (expand d ev sp) l); [reflexivity|].
        apply mapM_ext. rewrite Forall_forall. intros a Ha. apply H; auto. apply (HN a Ha). }
    all: pose proof (all_nodes_root _ _ HN) as HR; cbn in HR; unfold PartsFacts.own in HN; cbn [all_nodes] in HN; cbn [expand]; auto.
    - now rewrite IHe by apply HN.
    - now rewrite IHe1, IHe2 by apply HN.
    - now rewrite IHe1, IHe2 by apply HN.
    - now rewrite IHe1, IHe2 by apply HN.
    - now rewrite Sv.
    - now rewrite Sp.
    - rewrite (HE e2) by apply HN. now rewrite IHe1 by apply HN.
    - rewrite (HE e2) by apply HN. now rewrite IHe1 by apply HN.
    - rewrite (HE e2), (HE e3) by apply HN. now rewrite IHe1 by apply HN.
    - now rewrite IHe by apply HN.
    - now rewrite IHe by apply HN.
    - now rewrite IHe by apply HN.
  Qed.
  Hypothesis Sv0 : forall n, get_variable_structure sp n = get_variable_structure sp' n.
  Hypothesis Sp0 : forall n, get_parameter_structure sp n = get_parameter_structure sp' n.
  Lemma combine_loop_agree l : Forall (fun e => compute_indexation sp e = compute_indexation sp' e) l ->
    forall r, combine_loop (compute_indexation sp) r l = combine_loop (compute_indexation sp') r l.
  Proof. induction 1 as [|a l Ha _ IH]; intros r; cbn; [reflexivity|]. rewrite Ha. destruct (compute_indexation sp' a); cbn [bind]; auto. destruct (is_time_scenario_varying _); auto. Qed.
  Lemma indexation_agree e : own e -> compute_indexation sp e = compute_indexation sp' e.
  Proof.
    induction e using expr_ind'; intros HN.
    3:{ apply all_nodes_Add in HN. destruct HN as [_ HN]. cbn [compute_indexation]. rewrite Forall_forall in HN.
        assert (HF : Forall (fun e => compute_indexation sp e = compute_indexation sp' e) l).
        { rewrite Forall_forall in H |- *. intros a Ha. apply H; auto. apply (HN a Ha). }
        destruct l as [|a l]; [reflexivity|]. inversion HF as [|? ? Ea HF']; subst. cbn [combine_ix]. rewrite Ea.
        destruct (compute_indexation sp' a); cbn [bind]; auto. now rewrite (combine_loop_agree l HF'). }
    all: pose proof (all_nodes_root _ _ HN) as HR; cbn in HR; unfold PartsFacts.own in HN; cbn [all_nodes] in HN; cbn [compute_indexation]; auto;
      try (now rewrite IHe by apply HN); try (now rewrite IHe1, IHe2 by apply HN); try (now rewrite IHe1 by apply HN); now rewrite IHe by apply HN.
  Qed.
End Agree.
(** copying with two copiers that give the same leaves *)
Lemma copy_ok_agree (c c' : copier) e : 
  (forall x x', named_leaf x -> copy_with c x = Ok x' -> copy_with c' x = Ok x') ->
  (forall a g x', copy_with c (PortAgg a g) = Ok x' -> (forall a', copy_with c a = Ok a' -> copy_with c' a = Ok a') -> copy_with c' (PortAgg a g) = Ok x') ->
  forall x, copy_with c e = Ok x -> copy_with c' e = Ok x.
Proof.
  intros HL HA. induction e using expr_ind'; intros x Hc.
  3:{ cbn [copy_with] in *. inv_bind Hc. assert (E : mapM (copy_with c') l = Ok v); [|now rewrite E].
      apply mapM_ok. apply mapM_ok in H0. clear Hc. induction H0 as [|a b l l' Hab Hl IH]; constructor; inversion H; subst; auto. }
  all: try (apply HL; [exact I|exact Hc]; fail).
  all: try (cbn [copy_with] in *; repeat (match type of Hc with bind _ _ = _ => inv_bind Hc end);
    repeat (match goal with IH : forall x, copy_with ?k ?a = Ok x -> _, E : copy_with ?k ?a = Ok _ |- _ => rewrite (IH _ E); cbn [bind]; clear E end); exact Hc).
  apply HA; auto.
Qed.

(** ** A part of a network *)
Section Part.
  Context (o : settings) (n1 : network).
  Notation n := (o_network o).
  Notation o1 := (with_network o n1).
  Definition in_part (id : string) : Prop := In id (map co_id (all_components n1)).
  Notation P := in_part.
  Hypothesis (Hu : usable_block o) (Hd : distinct_ids n) (Hn : named_network n) (Hd1 : distinct_ids n1) (Hn1 : named_network n1).
  Hypothesis Hb1 : built_network n1.
  Hypothesis Hget : forall id, P id -> get_component n id = get_component n1 id.
  Hypothesis Hsub : forall c, In c (all_components n1) -> In c (all_components n).
  Hypothesis Hreg : forall c p f, P c -> flat_map (connection_registers c p f) (n_connections n) = flat_map (connection_registers c p f) (n_connections n1).
  Hypothesis Hown : self_contained n1.

  Lemma usable1 : usable_block o1.
  Proof. exact Hu. Qed.
  Lemma structure1 {A} (get : model -> dict string A) f c x : P c -> component_structure o get f c x = component_structure o1 get f c x.
  Proof. intros HP. unfold component_structure. cbn [o_network with_network]. now rewrite Hget. Qed.
  Lemma time_bound1 e : own P e -> evaluate_time_bound o e = evaluate_time_bound o1 e.
  Proof.
    intros HN. unfold evaluate_time_bound. f_equal. apply evaluate_agree. revert HN. apply all_nodes_imp. intros x Hx. destruct x; cbn in *; auto.
    now rewrite structure1.
  Qed.
  Lemma expand1 e : own P e -> context_expand o e = context_expand o1 e.
  Proof.
    intros HN. unfold context_expand, expand_operators. change (block_length o1) with (block_length o). change (o_scenarios o1) with (o_scenarios o).
    apply expand_agree with (P := P); [| |exact time_bound1|exact HN]; intros; cbn; now apply structure1.
  Qed.
  Lemma indexing1 e : own P e -> context_indexing o e = context_indexing o1 e.
  Proof. intros HN. unfold context_indexing. apply indexation_agree with (P := P); auto; intros; cbn; now apply structure1. Qed.

  (** ports *)
  Definition part_ports (ports ports1 : dict port_field_key (list expr)) : Prop :=
    forall c p f, P c -> registered ports c p f = registered ports1 c p f /\ Forall (own P) (registered ports1 c p f).
  Lemma part_registered ports ports1 : register_connections o = Ok ports -> register_connections o1 = Ok ports1 -> part_ports ports ports1.
  Proof.
    intros H H1 c p f HP. unfold register_connections in *. rewrite (connections_registered_eq _ _ _ H), (connections_registered_eq _ _ _ H1).
    cbn [registered dget app o_network with_network]. split; [now apply Hreg|].
    apply Forall_flat_map. apply Forall_forall. intros k Hk. unfold connection_registers. apply Forall_flat_map. apply Forall_forall. intros [g m] Hm.
    unfold field_registers. cbn [fst snd]. destruct (dget pfi_eqb _ _) as [d|]; [|constructor].
    destruct (add_component_context _ _) as [e|] eqn:E; [|constructor].
    assert (HE : own P e).
    { eapply context_own; [|exact E]. unfold in_part. apply in_map. destruct (Hown k Hk).
      destruct (connection_masters k (built_network_connections _ _ Hb1 Hk) _ _ Hm) as [-> | ->]; assumption. }
    unfold field_contribution. apply Forall_app. split; [destruct (is_port (pc_port1 k) c p && String.eqb g f)%bool|destruct (is_port (pc_port2 k) c p && String.eqb g f)%bool]; auto.
  Qed.
  Section Ports.
    Context (st st1 : state) (HP : part_ports (st_ports st) (st_ports st1)).
    Lemma resolver_agree ports ports1 cid e x : (forall p f, registered ports cid p f = registered ports1 cid p f) ->
      resolve_port e cid ports = Ok x -> resolve_port e cid ports1 = Ok x.
    Proof.
      intros HR. apply copy_ok_agree.
      - intros y x' Hk E. destruct y; try contradiction; cbn in *; auto. unfold resolve_port_field in *. specialize (HR p f). unfold registered in HR.
        destruct (dget pfk_eqb _ ports) as [l|]; [|discriminate]. destruct l as [|d [|]]; try discriminate.
        destruct (dget pfk_eqb _ ports1) as [l1|]; [now subst l1|discriminate].
      - intros a g x' E _. cbn in *. unfold resolve_port_aggregator in *. destruct g; try discriminate. destruct a; try discriminate.
        specialize (HR p f). unfold registered in HR. now rewrite <- HR.
    Qed.
    Lemma instantiate1 e cid x : P cid -> instantiate st e cid = Ok x <-> instantiate st1 e cid = Ok x.
    Proof.
      intros Hc. unfold instantiate. destruct (add_component_context cid e) as [y|]; cbn [bind]; [|reflexivity].
      split; apply resolver_agree; intros p f; [|symmetry]; apply (HP cid p f Hc).
    Qed.
    Lemma instantiate_own e cid x : P cid -> instantiate st1 e cid = Ok x -> own P x.
    Proof.
      intros Hc H. unfold instantiate in H. inv_bind H. eapply resolve_own; [|eapply context_own; [exact Hc|exact H0]|exact H].
      intros p f. apply (HP cid p f Hc).
    Qed.
    Lemma instantiate_constraint1 cid k ic : P cid -> instantiate_constraint st cid k = Ok ic <-> instantiate_constraint st1 cid k = Ok ic.
    Proof.
      intros Hc. unfold instantiate_constraint. split; intros H; repeat (match type of H with bind (instantiate _ _ _) _ = _ => inv_bind H end);
        repeat (match goal with E : instantiate _ _ _ = Ok _ |- _ => apply (instantiate1 _ _ _ Hc) in E; rewrite E; cbn [bind]; clear E end); exact H.
    Qed.
    Lemma constraint_own cid k ic : P cid -> instantiate_constraint st1 cid k = Ok ic -> own P (c_expr ic).
    Proof.
      intros Hc H. unfold instantiate_constraint in H. inv_bind H. inv_bind H. inv_bind H. pose proof (instantiate_own _ _ _ Hc H0) as S. clear - S H. unfold mk_constraint in H.
      destruct v; try (repeat match type of H with bind _ _ = _ => inv_bind H | (if ?b then _ else _) = _ => destruct b; try discriminate end; injection H as <-; exact S).
      destruct (_ || _)%bool; [discriminate|]. destruct S as (_ & S1 & S2).
      assert (G : own P (py_sub v2 v3)).
      { assert (O : forall e, own P e -> Forall (own P) (add_operands e)).
        { intros e He. destruct e; cbn [add_operands]; try (constructor; [exact He|constructor]). now apply all_nodes_Add in He. }
        unfold py_sub. apply all_nodes_Add. split; [exact I|]. apply Forall_app. split; [now apply O|]. apply Forall_map.
        apply O in S2. revert S2. apply Forall_impl. intros a Ha. cbn. split; [exact I|exact Ha]. }
      destruct c; injection H as <-; exact G.
    Qed.
  End Ports.
  (** variables *)
  Lemma bound1 st st1 b cid be : part_ports (st_ports st) (st_ports st1) -> P cid -> instantiate_bound st b cid = Ok be <-> instantiate_bound st1 b cid = Ok be.
  Proof.
    intros HP Hc. destruct b as [b|]; cbn; [|reflexivity]. split; intros H; inv_bind H; injection H as <-.
    - apply (proj1 (instantiate1 st st1 HP _ _ _ Hc)) in H0. now rewrite H0.
    - apply (proj2 (instantiate1 st st1 HP _ _ _ Hc)) in H0. now rewrite H0.
  Qed.
  Definition variable_ok (o : settings) (ports : dict port_field_key (list expr)) (cv : component * variable) : Prop :=
    exists st', create_variable o (fst cv) (set_ports initial_state ports) (snd cv) = Ok st'.
  Lemma variable_any o2 ports c v st : variable_ok o2 ports (c, v) -> st_ports st = ports -> exists st', create_variable o2 c st v = Ok st' /\ st_ports st' = ports.
  Proof.
    intros [st' H] E. destruct (create_variable_any o2 o2 c _ v st' st H) as (st2 & H2 & E2); [exact E|auto|]. exists st2. split; [exact H2|congruence].
  Qed.
  Lemma instances_any o2 c v lbe ube st st2 l r : foldM (create_variable_instance o2 c v lbe ube) st l = Ok r ->
    exists r2, foldM (create_variable_instance o2 c v lbe ube) st2 l = Ok r2.
  Proof.
    intros H. destruct (foldM_ok (create_variable_instance o2 c v lbe ube) (fun _ => True) l) with (acc := st2) as (r2 & E & _); [|exact I|eauto].
    intros acc ts Hts _. destruct (foldM_each _ (fun _ => True) _ (fun _ _ _ _ _ _ => I) _ _ I H ts Hts) as (a1 & a2 & _ & Ha).
    unfold create_variable_instance in Ha |- *. destruct ts as [t s]. inv_bind Ha. inv_bind Ha. rewrite H0. cbn [bind]. rewrite H1. cbn [bind].
    destruct (nltb v1 v0); [discriminate|]. eauto.
  Qed.
  Lemma variable_ok1 ports ports1 c v : part_ports ports ports1 -> P (co_id c) -> variable_ok o ports (c, v) <-> variable_ok o1 ports1 (c, v).
  Proof.
    intros HP Hc. unfold variable_ok, create_variable. cbn [fst snd]. change (variable_instances o1) with (variable_instances o).
    assert (B : forall b be, instantiate_bound (set_ports initial_state ports) b (co_id c) = Ok be <-> instantiate_bound (set_ports initial_state ports1) b (co_id c) = Ok be)
      by (intros; apply bound1; auto).
    split; intros [r H]; inv_bind H; inv_bind H; apply B in H0; apply B in H1; rewrite H0; cbn [bind]; rewrite H1; cbn [bind]; eapply instances_any; exact H.
  Qed.
  Lemma variables_ok o2 ports : (exists st, create_variables o2 (set_ports initial_state ports) = Ok st) <-> Forall (variable_ok o2 ports) (var_pairs o2).
  Proof.
    assert (Fl : forall st, create_variables o2 st = foldM (fun st cv => create_variable o2 (fst cv) st (snd cv)) st (var_pairs o2)).
    { intros st. unfold create_variables, var_pairs. rewrite foldM_flat_map. apply foldM_ext. intros acc c _. now rewrite foldM_map. }
    rewrite Fl. split.
    - intros [st H]. apply Forall_forall. intros [c v] Hv.
      destruct (foldM_each (fun st cv => create_variable o2 (fst cv) st (snd cv)) (fun st => st_ports st = ports) (var_pairs o2)) with (acc := set_ports initial_state ports) (acc' := st) (a := (c, v)) as (a1 & a2 & E & Ha); auto.
      { intros acc a acc' _ E Ha. apply create_variable_ports in Ha. congruence. }
      cbn [fst snd] in Ha. destruct (create_variable_any o2 o2 c _ v a2 (set_ports initial_state ports) Ha) as (r & Hr & _); [now symmetry|auto|]. exists r. exact Hr.
    - intros HF. rewrite Forall_forall in HF. destruct (foldM_ok (fun st cv => create_variable o2 (fst cv) st (snd cv)) (fun st => st_ports st = ports) (var_pairs o2)) with (acc := set_ports initial_state ports) as (r & Hr & _); [|reflexivity|eauto].
      intros acc [c v] Hv E. exact (variable_any o2 ports c v acc (HF _ Hv) E).
  Qed.
  Lemma made1 st st1 c v t s sv : part_ports (st_ports st) (st_ports st1) -> P (co_id c) -> made o1 st1 (c, v, (t, s)) sv -> made o st (c, v, (t, s)) sv.
  Proof.
    intros HP Hc (l & u & B1 & B2 & E & ->). exists l, u.
    assert (G : forall d b w, bound_of o1 st1 d b (co_id c) t s w -> bound_of o st d b (co_id c) t s w).
    { intros d [b|] w; cbn; [|auto]. intros (e & E1 & E2). exists e. split; [now apply (instantiate1 st st1 HP)|exact E2]. }
    split; [now apply G|]. split; [now apply G|]. split; [exact E|reflexivity].
  Qed.
  Lemma whole_component c : In c (all_components n) -> P (co_id c) -> In c (all_components n1).
  Proof.
    intros Hc HP. unfold in_part in HP. apply in_map_iff in HP. destruct HP as (c1 & E & H1). replace c with c1; [exact H1|].
    apply (NoDup_map_inj_in co_id (all_components n)); auto.
  Qed.
  Lemma instance1 c v t s : P (co_id c) -> In (c, v, (t, s)) (var_insts o) -> In (c, v, (t, s)) (var_insts o1).
  Proof.
    intros HP. rewrite !var_insts_In. unfold instance_of. cbn [o_network with_network]. intros (H1 & H2). split; [|exact H2]. now apply whole_component.
  Qed.

  Section Numbered.
    Context (f : nat -> nat) (Hf : forall i j, f i = f j -> i = j) (Hpos : forall i, nth_error (var_insts o) (f i) = nth_error (var_insts o1) i).
    Context (st st1 : state) (HC : created o st) (HC1 : created o1 st1) (HP : part_ports (st_ports st) (st_ports st1)).
    Lemma lookup1 k i : get_solver_var o1 st1 k = Ok i -> get_solver_var o st k = Ok (f i).
    Proof.
      intros H. unfold get_solver_var in *. apply (lookup_iff o1 st1) in H; auto. apply (lookup_iff o st); auto.
      rewrite nth_error_map, Hpos, <- nth_error_map. exact H.
    Qed.
    Lemma lookup_back k j : P (tk_component k) -> get_solver_var o st k = Ok j -> exists i, get_solver_var o1 st1 k = Ok i.
    Proof.
      intros HK H. unfold get_solver_var in H. apply (lookup_iff o st) in H; auto. rewrite nth_error_map in H.
      destruct (nth_error (var_insts o) j) as [[[c v] [t s]]|] eqn:E; [|discriminate]. cbn [option_map inst_key] in H. injection H as E1 E2 E3 E4.
      apply nth_error_In in E. apply instance1 in E; [|now rewrite E1]. apply In_nth_error in E. destruct E as [i E]. exists i.
      unfold get_solver_var. apply (lookup_iff o1 st1 _ _ _ _ _ usable1 Hd1 Hn1 HC1). rewrite nth_error_map. unfold inst in *. rewrite E. cbn [option_map inst_key]. change (wrapped o1) with (wrapped o). now rewrite E1, E2, E3, E4.
    Qed.
    Lemma terms1 ts T : Forall2 (reads_term o1 st1) ts T -> Forall2 (reads_term o st) ts (map (renumber f) T).
    Proof. induction 1 as [|kt ic ts T [E1 E2] _ IH]; constructor; [|exact IH]. split; [now apply lookup1|exact E2]. Qed.
    Lemma terms_back ts T : Forall (fun kt => P (tk_component (fst kt))) ts -> Forall2 (reads_term o st) ts T -> exists T1, Forall2 (reads_term o1 st1) ts T1.
    Proof.
      intros HF H. revert HF. induction H as [|kt ic ts T [E1 E2] _ IH]; intros HF; [exists []; constructor|]. inversion HF; subst.
      destruct IH as [T1 HT]; auto. destruct (lookup_back (fst kt) (fst ic)) as [i Hi]; auto. exists ((i, snd kt) :: T1). constructor; [now split|exact HT].
    Qed.
    Lemma make_row1 t s x lb ub L r : make_constraint o1 st1 t s x lb ub L = Ok r -> make_constraint o st t s x lb ub L = Ok (moved_row f r).
    Proof.
      unfold make_constraint. intros H. inv_bind H. apply add_terms_entries in H0. destruct H0 as (T & HT & ->). injection H as <-.
      rewrite (proj2 (add_terms_entries o st (le_terms L) [] (fold_left add_entry (map (renumber f) T) []))) by (eexists; split; [apply terms1; exact HT|reflexivity]).
      cbn [bind]. pose proof (entries_renumber f Hf T []) as E. cbn [map] in E. rewrite E. reflexivity.
    Qed.
    Lemma make_row_back t s x lb ub L r : Forall (fun kt => P (tk_component (fst kt))) (le_terms L) -> make_constraint o st t s x lb ub L = Ok r ->
      exists r1, make_constraint o1 st1 t s x lb ub L = Ok r1.
    Proof.
      unfold make_constraint. intros HF H. inv_bind H. apply add_terms_entries in H0. destruct H0 as (T & HT & _). destruct (terms_back _ _ HF HT) as [T1 HT1].
      rewrite (proj2 (add_terms_entries o1 st1 (le_terms L) [] (fold_left add_entry T1 []))) by eauto. cbn [bind]. eauto.
    Qed.
    Lemma linear_own e t s L : own P e -> context_linearize o e t s = Ok L -> Forall (fun kt => P (tk_component (fst kt))) (le_terms L).
    Proof.
      intros HN HL. apply (linearize_keys (fun k => P (tk_component k)) _ _ _ _ _ HL). revert HN. apply all_nodes_imp. intros x Hx. destruct x; auto.
    Qed.
    Lemma rows1 ck rows : P (co_id (fst ck)) -> block_rows o1 st1 ck rows -> block_rows o st ck (map (moved_row f) rows).
    Proof.
      intros Hc (ic & Hic & Hrows). exists ic. split; [now apply (instantiate_constraint1 st st1 HP)|].
      pose proof (constraint_own st st1 HP _ _ _ Hc Hic) as HO. unfold create_constraint in *. rewrite (expand1 _ HO). inv_bind Hrows. inv_bind Hrows. rewrite H. cbn [bind].
      unfold constraint_indexing in *. rewrite (indexing1 _ HO), H0. cbn [bind]. change (get_time_indices o1) with (get_time_indices o) in Hrows.
      change (get_scenario_indices o1) with (get_scenario_indices o) in Hrows. apply mapM_ok. apply mapM_ok in Hrows.
      induction Hrows as [|[t s] r l rows Hr Hrows IH]; cbn [map]; constructor; [|exact IH]. cbn [fst snd] in *. unfold create_row in *.
      apply bind_ok in Hr as (L & HL & Hr). apply bind_ok in Hr as (lb & Hlb & Hr). apply bind_ok in Hr as (ub & Hub & Hr).
      assert (E1 : context_linearize o v (Some t) (Some s) = Ok L) by exact HL. rewrite E1. cbn [bind].
      assert (E2 : compute_expression_value o (c_lower ic) (Some t) (Some s) = Ok lb) by exact Hlb. rewrite E2. cbn [bind].
      assert (E3 : compute_expression_value o (c_upper ic) (Some t) (Some s) = Ok ub) by exact Hub. rewrite E3. cbn [bind].
      now apply make_row1.
    Qed.
    Lemma rows_back ck rows : P (co_id (fst ck)) -> block_rows o st ck rows -> exists rows1, block_rows o1 st1 ck rows1.
    Proof.
      intros Hc (ic & Hic & Hrows). apply (instantiate_constraint1 st st1 HP) in Hic; [|exact Hc].
      pose proof (constraint_own st st1 HP _ _ _ Hc Hic) as HO. unfold create_constraint in Hrows. rewrite (expand1 _ HO) in Hrows. inv_bind Hrows. inv_bind Hrows.
      unfold constraint_indexing in *. rewrite (indexing1 _ HO) in H0.
      assert (G : exists rows1, mapM (fun ts => create_row o1 st1 ic v (fst ts) (snd ts)) (list_prod (get_time_indices o v0) (get_scenario_indices o v0)) = Ok rows1).
      { assert (OV : own P v) by (eapply expand_own; [exact HO|exact H]).
        apply mapM_ok in Hrows. clear Hic. induction Hrows as [|[t s] r l rows Hr Hrows IH]; [exists []; reflexivity|]. destruct IH as [rows1 IH]. cbn [fst snd] in *. unfold create_row in Hr.
        apply bind_ok in Hr as (L & HL & Hr). apply bind_ok in Hr as (lb & Hlb & Hr). apply bind_ok in Hr as (ub & Hub & Hr).
        destruct (make_row_back _ _ _ _ _ _ _ (linear_own _ _ _ _ OV HL) Hr) as [r1 Hr1]. exists (r1 :: rows1). cbn [mapM fst snd]. unfold create_row at 1.
        assert (E1 : context_linearize o1 v (Some t) (Some s) = Ok L) by exact HL. rewrite E1. cbn [bind].
        assert (E2 : compute_expression_value o1 (c_lower ic) (Some t) (Some s) = Ok lb) by exact Hlb. rewrite E2. cbn [bind].
        assert (E3 : compute_expression_value o1 (c_upper ic) (Some t) (Some s) = Ok ub) by exact Hub. rewrite E3. cbn [bind]. rewrite Hr1. cbn [bind]. rewrite IH. reflexivity. }
      destruct G as [rows1 G]. exists rows1, ic. split; [exact Hic|]. unfold create_constraint. rewrite H. cbn [bind]. unfold constraint_indexing. rewrite H0. exact G.
    Qed.
    Lemma contribution1 ce L : P (co_id (fst ce)) -> contribution_form o st ce L <-> contribution_form o1 st1 ce L.
    Proof.
      intros Hc. split; intros (i & ex & E1 & E2 & E3); exists i, ex.
      - apply (instantiate1 st st1 HP) in E1; [|exact Hc]. split; [exact E1|]. rewrite <- (expand1 i (instantiate_own st st1 HP _ _ _ Hc E1)). split; [exact E2|exact E3].
      - pose proof (instantiate_own st st1 HP _ _ _ Hc E1) as HO. apply (instantiate1 st st1 HP) in E1; [|exact Hc]. split; [exact E1|]. rewrite (expand1 i HO). split; [exact E2|exact E3].
    Qed.
    Lemma contribution_own ce L : P (co_id (fst ce)) -> contribution_form o1 st1 ce L -> Forall (fun kt => P (tk_component (fst kt))) (le_terms L).
    Proof.
      intros Hc (i & ex & E1 & E2 & E3). apply (linear_own ex None None); [|exact E3]. eapply expand_own; [|exact E2]. eapply instantiate_own; eauto.
    Qed.
  End Numbered.
End Part.

(** ** When a problem is built *)
Definition connection_ok (k : ports_connection) : Prop := exists q, foldM (register_field k) [] (pc_master k) = Ok q.
Lemma registers_iff o : (exists ports, register_connections o = Ok ports) <-> Forall connection_ok (n_connections (o_network o)).
Proof.
  assert (A : forall k a b, foldM (register_field k) a (pc_master k) = Ok b -> forall c, exists d, foldM (register_field k) c (pc_master k) = Ok d).
  { intros k a b H c. destruct (foldM_ok (register_field k) (fun _ => True) (pc_master k)) with (acc := c) as (d & E & _); [|exact I|eauto].
    intros acc fm Hfm _. destruct (foldM_each _ (fun _ => True) _ (fun _ _ _ _ _ _ => I) _ _ I H fm Hfm) as (b1 & b2 & _ & Hb').
    destruct (register_field_any _ _ _ _ acc Hb') as [q Hq]. eauto. }
  unfold register_connections. split.
  - intros [ports H]. apply Forall_forall. intros k Hk.
    destruct (foldM_each _ (fun _ => True) _ (fun _ _ _ _ _ _ => I) _ _ I H k Hk) as (a1 & a2 & _ & Ha). exact (A _ _ _ Ha []).
  - intros HF. rewrite Forall_forall in HF.
    destruct (foldM_ok (fun ports cnx => foldM (register_field cnx) ports (pc_master cnx)) (fun _ => True) (n_connections (o_network o))) with (acc := @nil (port_field_key * list expr)) as (p & E & _); [|exact I|eauto].
    intros acc k Hk _. destruct (HF k Hk) as [q Hq]. destruct (A _ _ _ Hq acc) as [d Hd']. eauto.
Qed.
Definition readable (o : settings) (st : state) (L : lin_expr) : Prop := Forall (fun kt => exists i, get_solver_var o st (fst kt) = Ok i) (le_terms L).
Lemma read_terms o st L : readable o st L <-> exists T, Forall2 (reads_term o st) (le_terms L) T.
Proof.
  unfold readable. split.
  - induction 1 as [|kt l [i Hi] _ [T HT]]; [exists []; constructor|]. exists ((i, snd kt) :: T). constructor; [now split|exact HT].
  - intros [T HT]. induction HT as [|kt ic l T [E _] _ IH]; constructor; eauto.
Qed.
Section Built.
  Context (o : settings) (Hu : usable_block o) (Hd : distinct_ids (o_network o)) (Hn : named_network (o_network o)).
  Lemma built_when ports st1 : requirements_consistency (o_database o) (o_network o) = Ok tt -> register_connections o = Ok ports ->
    create_variables o (set_ports initial_state ports) = Ok st1 ->
    (forall ck, In ck (row_pairs o) -> exists rows, block_rows o st1 ck rows) ->
    (forall ce, In ce (contributions o) -> exists L, contribution_form o st1 ce L /\ readable o st1 L) -> exists st, build_problem o = Ok st.
  Proof.
    intros RQ Hp H1 HR HO. pose proof (variables_described o Hd Hn _ _ H1) as K1.
    assert (G2 : exists st2, create_constraints o st1 = Ok st2 /\ (complete_state o ports st2 /\ st_variables st2 = st_variables st1)).
    { unfold create_constraints. apply (foldM_ok _ (fun s => complete_state o ports s /\ st_variables s = st_variables st1)); [|split; [exact K1|reflexivity]]. intros x c Hc Hx.
      apply (foldM_ok _ (fun s => complete_state o ports s /\ st_variables s = st_variables st1)); [|exact Hx]. intros z k Hk [Hz Ez].
      destruct (HR (c, k)) as (rows & ic & Hic & Hrows). { unfold row_pairs. apply in_flat_map. exists c. split; [exact Hc|]. now apply in_map. }
      cbn [fst snd] in Hic. unfold create_component_constraint.
      assert (Hic' : instantiate_constraint z (co_id c) k = Ok ic).
      { unfold instantiate_constraint in *. rewrite !(instantiate_same st1 z) by (destruct Hz as (_ & _ & -> & _); symmetry; apply K1). exact Hic. }
      assert (Hrows' : create_constraint o z ic = Ok rows).
      { unfold create_constraint in *. rewrite <- Hrows. destruct (context_expand o (c_expr ic)) as [xe|]; cbn [bind]; [|reflexivity]. destruct (constraint_indexing o ic); cbn [bind]; [|reflexivity].
        apply mapM_ext. apply Forall_forall. intros [t s] _. cbn [fst snd]. unfold create_row. destruct (context_linearize o xe (Some t) (Some s)) as [L|]; cbn [bind]; [|reflexivity].
        destruct (compute_expression_value o (c_lower ic) (Some t) (Some s)); cbn [bind]; [|reflexivity]. destruct (compute_expression_value o (c_upper ic) (Some t) (Some s)); cbn [bind]; [|reflexivity].
        unfold make_constraint. f_equal. generalize (@nil (nat * num)) as d. generalize (le_terms L) as ts. intros ts. induction ts as [|kt ts IH]; intros d; cbn [foldM]; [reflexivity|].
        unfold add_term at 1 3. unfold get_solver_var. rewrite (get_variable_same o st1 z) by exact Ez. destruct (get_component_variable o st1 _ _ _ _); cbn [bind]; [apply IH|reflexivity]. }
      rewrite Hic'. cbn [bind]. rewrite Hrows'. cbn [bind]. eexists; split; [reflexivity|]. split; [exact Hz|exact Ez]. }
    destruct G2 as (st2 & H2 & K2 & E2).
    assert (G3 : exists st3, create_objectives o st2 = Ok st3 /\ complete_state o ports st3).
    { unfold create_objectives. apply (foldM_ok _ (complete_state o ports)); [|exact K2]. intros x c Hc Hx.
      apply (foldM_ok _ (complete_state o ports)); [|exact Hx]. intros z [e|] Hk Hz; [|exists z; split; [reflexivity|exact Hz]].
      destruct (HO (c, e)) as (L & (i & ex & A1 & A2 & A3) & HT).
      { unfold contributions. apply in_flat_map. exists c. split; [exact Hc|]. apply in_flat_map. exists (Some e). split; [exact Hk|now left]. }
      cbn [create_component_objective fst snd] in *. unfold create_objective. rewrite (instantiate_same st1 z) by (destruct Hz as (_ & _ & -> & _); symmetry; apply K1). rewrite A1. cbn [bind].
      rewrite A2. cbn [bind]. rewrite A3. cbn [bind].
      destruct (foldM_ok (add_objective_term o) (complete_state o ports) (le_terms L)) with (acc := z) as (st4 & F1 & HC1).
      - intros acc kt Hkt Hacc. apply objective_term_added; auto. unfold readable in HT. rewrite Forall_forall in HT. destruct (HT kt Hkt) as [q Hq].
        exists q. unfold get_solver_var in *. rewrite (get_variable_same o st1 acc); [exact Hq|]. destruct Hacc as (-> & _), K1 as (-> & _). reflexivity.
      - exact Hz.
      - rewrite F1. cbn [bind]. eexists; split; [reflexivity|]. exact HC1. }
    destruct G3 as (st3 & H3 & _). exists st3. unfold build_problem. rewrite RQ. cbn [bind]. unfold optimization_problem. rewrite Hp. cbn [bind]. rewrite H1. cbn [bind]. rewrite H2. exact H3.
  Qed.
  Record built_facts (st : state) (ports : dict port_field_key (list expr)) (st1 : state) (rss : list (list solver_row)) (Ls : list lin_expr) (T : list (nat * num)) : Prop := {
    bf_req : requirements_consistency (o_database o) (o_network o) = Ok tt;
    bf_ports : register_connections o = Ok ports;
    bf_vars : create_variables o (set_ports initial_state ports) = Ok st1;
    bf_created : created o st1;
    bf_state : st_ports st1 = ports;
    bf_made : Forall2 (made o (set_ports initial_state ports)) (var_insts o) (s_vars (st_solver st));
    bf_rows : Forall2 (block_rows o st1) (row_pairs o) rss;
    bf_all_rows : s_rows (st_solver st) = concat rss;
    bf_forms : Forall2 (contribution_form o st1) (contributions o) Ls;
    bf_terms : Forall2 (reads_term o st1) (flat_map le_terms Ls) T;
    bf_objective : s_objective (st_solver st) = fold_left add_entry T [];
    bf_offset : s_offset (st_solver st) = nadd n0 (nsum (map le_constant Ls))
  }.
  Lemma built_known st : build_problem o = Ok st -> exists ports st1 rss Ls T, built_facts st ports st1 rss Ls T.
  Proof.
    intros H. destruct (build_steps o st H) as (ports & st1 & st2 & RQ & Hp & H1 & H2 & H3). pose proof (variables_described o Hd Hn _ _ H1) as K1.
    destruct (create_constraints_spec _ _ _ H2) as (rss & HR & E2). destruct (create_objectives_same _ _ _ H3) as ((_ & _ & V) & R).
    destruct (created_state o (set_ports initial_state ports) st1 Hd Hn eq_refl eq_refl H1) as (_ & HF & Po & Ro & Ob & Of).
    destruct (objectives_gathered _ _ _ H3) as (Ls & T & L1 & L2 & L3 & L4). exists ports, st1, rss, Ls, T.
    subst st2. cbn [set_rows st_solver s_vars s_rows s_objective s_offset] in *. 
    constructor; auto; try apply K1.
    - now rewrite V.
    - rewrite R, Ro. reflexivity.
    - rewrite L3, Ob. reflexivity.
    - rewrite L4, Of. reflexivity.
  Qed.
End Built.

(** ** The problem of a part, from that of the whole *)
Lemma own_row_pairs o n1 ck : In ck (row_pairs (with_network o n1)) -> in_part n1 (co_id (fst ck)).
Proof. unfold row_pairs. intros H. apply in_flat_map in H. destruct H as (c & Hc & H). apply in_map_iff in H. destruct H as (k & <- & _). unfold in_part. cbn [fst]. now apply in_map. Qed.
Lemma own_var_pairs o n1 cv : In cv (var_pairs (with_network o n1)) -> in_part n1 (co_id (fst cv)).
Proof. unfold var_pairs. intros H. apply in_flat_map in H. destruct H as (c & Hc & H). apply in_map_iff in H. destruct H as (k & <- & _). unfold in_part. cbn [fst]. now apply in_map. Qed.
Lemma own_contributions o n1 ce : In ce (contributions (with_network o n1)) -> in_part n1 (co_id (fst ce)).
Proof.
  unfold contributions. intros H. apply in_flat_map in H. destruct H as (c & Hc & H). apply in_flat_map in H. destruct H as ([e|] & _ & H); cbn in H; [|contradiction].
  destruct H as [<-|[]]. unfold in_part. cbn [fst]. now apply in_map.
Qed.
Section PartBuilt.
  Context (o : settings) (n1 : network).
  Notation n := (o_network o).
  Notation o1 := (with_network o n1).
  Notation P := (in_part n1).
  Hypothesis (Hu : usable_block o) (Hd : distinct_ids n) (Hn : named_network n) (Hd1 : distinct_ids n1) (Hn1 : named_network n1).
  Hypothesis Hb1 : built_network n1.
  Hypothesis Hget : forall id, P id -> get_component n id = get_component n1 id.
  Hypothesis Hsub : forall c, In c (all_components n1) -> In c (all_components n).
  Hypothesis Hreg : forall c p f, P c -> flat_map (connection_registers c p f) (n_connections n) = flat_map (connection_registers c p f) (n_connections n1).
  Hypothesis Hown : self_contained n1.
  Lemma readable_back ports ports1 st st1 L : part_ports n1 ports ports1 -> created o st -> created o1 st1 ->
    Forall (fun kt => P (tk_component (fst kt))) (le_terms L) -> readable o st L -> readable o1 st1 L.
  Proof.
    intros HP C C1 HF HR. unfold readable in *. rewrite Forall_forall in *. intros kt Hkt. destruct (HR kt Hkt) as [j Hj]. eapply lookup_back; eauto.
  Qed.
  Lemma part_built st : (forall k, In k (n_connections n1) -> In k (n_connections n)) -> requirements_consistency (o_database o) n1 = Ok tt -> build_problem o = Ok st ->
    exists st1, build_problem o1 = Ok st1.
  Proof.
    intros HI RQ H. destruct (built_known o Hd Hn st H) as (ports & sv & rss & Ls & T & B).
    assert (R1 : exists ports1, register_connections o1 = Ok ports1).
    { apply registers_iff. apply Forall_forall. intros k Hk. pose proof (proj1 (registers_iff o) (ex_intro _ ports (bf_ports _ _ _ _ _ _ _ B))) as HF.
      rewrite Forall_forall in HF. apply HF, HI, Hk. }
    destruct R1 as [ports1 R1]. pose proof (part_registered o n1 Hb1 Hreg Hown _ _ (bf_ports _ _ _ _ _ _ _ B) R1) as HP.
    assert (V1 : exists st1, create_variables o1 (set_ports initial_state ports1) = Ok st1).
    { apply variables_ok. apply Forall_forall. intros [c v] Hv. apply (variable_ok1 o n1 ports ports1); [exact HP|exact (own_var_pairs o n1 _ Hv)|].
      pose proof (proj1 (variables_ok o ports) (ex_intro _ sv (bf_vars _ _ _ _ _ _ _ B))) as HF. rewrite Forall_forall in HF. apply HF.
      unfold var_pairs in *. apply in_flat_map in Hv. destruct Hv as (c' & Hc' & Hv). apply in_flat_map. exists c'. split; [now apply Hsub|exact Hv]. }
    destruct V1 as [st1 V1]. pose proof (variables_described o1 Hd1 Hn1 _ _ V1) as (K1 & _ & K3 & _).
    assert (HP' : part_ports n1 (st_ports sv) (st_ports st1)) by (rewrite (bf_state _ _ _ _ _ _ _ B), K3; exact HP).
    pose proof (bf_created _ _ _ _ _ _ _ B) as HC. apply (built_when o1 Hu Hd1 Hn1 ports1 st1); auto.
    - intros ck Hck. assert (Hin : In ck (row_pairs o)).
      { unfold row_pairs in *. apply in_flat_map in Hck. destruct Hck as (c' & Hc' & Hv). apply in_flat_map. exists c'. split; [now apply Hsub|exact Hv]. }
      apply In_nth_error in Hin. destruct Hin as [j Hj]. destruct (Forall2_nth_left _ _ _ (bf_rows _ _ _ _ _ _ _ B) _ _ Hj) as (rows & _ & HB).
      apply (rows_back o n1 Hu Hd Hn Hd1 Hn1 Hget Hsub sv st1 HC K1 HP' ck rows); [exact (own_row_pairs o n1 _ Hck)|exact HB].
    - intros ce Hce. assert (Hin : In ce (contributions o)).
      { unfold contributions in *. apply in_flat_map in Hce. destruct Hce as (c' & Hc' & Hv). apply in_flat_map. exists c'. split; [now apply Hsub|exact Hv]. }
      apply In_nth_error in Hin. destruct Hin as [j Hj]. destruct (Forall2_nth_left _ _ _ (bf_forms _ _ _ _ _ _ _ B) _ _ Hj) as (L & HL & HB).
      pose proof (own_contributions o n1 _ Hce) as Pc. apply (contribution1 o n1 Hget sv st1 HP' ce L Pc) in HB. exists L. split; [exact HB|].
      apply (readable_back ports ports1 sv st1 L HP HC K1); [eapply contribution_own; eauto|].
      apply nth_error_In in HL. unfold readable. apply Forall_forall. intros kt Hkt. assert (Hf : In kt (flat_map le_terms Ls)) by (apply in_flat_map; eauto).
      apply In_nth_error in Hf. destruct Hf as [q Hq]. destruct (Forall2_nth_left _ _ _ (bf_terms _ _ _ _ _ _ _ B) _ _ Hq) as (ic & _ & [E _]). eauto.
  Qed.
End PartBuilt.

(** ** Two parts *)
Lemma unknown_component n id : built_network n -> ~ In id (map co_id (all_components n)) -> dget String.eqb id (n_components n) = None /\ dget String.eqb id (n_nodes n) = None.
Proof.
  intros Hb H. destruct (built_network_named n Hb) as [[_ N1] [_ N2]].
  split; apply (dget_None String.eqb String.eqb_eq); intros Hin; apply H; apply in_map_iff in Hin; destruct Hin as ([k c] & <- & Hin); cbn [fst].
  - rewrite <- (N2 _ _ Hin). apply in_map. unfold all_components. apply in_or_app. right. exact (in_map snd _ _ Hin).
  - rewrite <- (N1 _ _ Hin). apply in_map. unfold all_components. apply in_or_app. left. exact (in_map snd _ _ Hin).
Qed.
Lemma foreign_connections n c p f : self_contained n -> ~ In c (map co_id (all_components n)) -> flat_map (connection_registers c p f) (n_connections n) = [].
Proof.
  intros Hs Hc. assert (G : forall k, In k (n_connections n) -> connection_registers c p f k = []).
  { intros k Hk. unfold connection_registers. destruct (Hs k Hk) as [S1 S2]. induction (pc_master k) as [|fm ms IH]; [reflexivity|]. cbn [flat_map]. rewrite IH, app_nil_r.
    unfold field_registers. destruct (dget pfi_eqb _ _); [|reflexivity]. destruct (add_component_context _ _); [|reflexivity]. unfold field_contribution.
    assert (E : forall r, In (pr_component r) (all_components n) -> is_port r c p = false).
    { intros r Hr. unfold is_port. destruct (String.eqb_spec (co_id (pr_component r)) c) as [E|_]; [|reflexivity]. exfalso. apply Hc. rewrite <- E. now apply in_map. }
    now rewrite !E by assumption. }
  induction (n_connections n) as [|k l IH]; [reflexivity|]. cbn [flat_map]. rewrite (G k), IH; [reflexivity| |now left]. intros k' Hk'. apply G. now right.
Qed.
Lemma entries_apart T : forall d e, (forall i, In i (map fst T) -> ~ In i (map fst d)) -> fold_left add_entry T (d ++ e) = d ++ fold_left add_entry T e.
Proof.
  induction T as [|[i c] T IH]; intros d e H; cbn [fold_left]; [reflexivity|].
  assert (Hi : ~ In i (map fst d)) by (apply H; now left).
  assert (E : add_entry (d ++ e) (i, c) = d ++ add_entry e (i, c)).
  { unfold add_entry, get_coefficient. cbn [fst snd]. clear - Hi. assert (G1 : dget Nat.eqb i (d ++ e) = dget Nat.eqb i e).
    { induction d as [|[j b] d IH]; cbn; [reflexivity|]. destruct (Nat.eqb_spec i j) as [->|_]; [exfalso; apply Hi; now left|]. apply IH. intros Hd. apply Hi. now right. }
    rewrite G1. generalize (nadd c (match dget Nat.eqb i e with Some b => b | None => n0 end)) as v. intros v.
    clear G1. induction d as [|[j b] d IH]; cbn; [reflexivity|]. destruct (Nat.eqb_spec i j) as [->|_]; [exfalso; apply Hi; now left|]. f_equal. apply IH. intros Hd. apply Hi. now right. }
  rewrite E. apply IH. intros j Hj. apply H. now right.
Qed.
Lemma first_distinct {A} (l l' : list A) : NoDup (l ++ l') -> NoDup l.
Proof. induction l as [|a l IH]; intros H; constructor; inversion H as [|? ? Ha H']; subst; [intros Hin; apply Ha, in_or_app; now left|auto]. Qed.
Lemma second_distinct {A} (l l' : list A) : NoDup (l ++ l') -> NoDup l'.
Proof. induction l as [|a l IH]; intros H; [exact H|]. inversion H; subst. auto. Qed.
Lemma perm_images {A B} (R : A -> B -> Prop) l l' xs ys : Permutation l l' -> (forall a x y, R a x -> R a y -> x = y) -> Forall2 R l xs -> Forall2 R l' ys -> Permutation xs ys.
Proof.
  intros HP HU H1 H2. destruct (Permutation_Forall2 HP H1) as (zs & P2 & F2). replace ys with zs; [exact P2|].
  clear - F2 H2 HU. revert ys H2. induction F2 as [|a x l xs H F IH]; intros ys H2; inversion H2; subst; [reflexivity|]. f_equal; eauto.
Qed.
Lemma concat_permuted {A} (l l' : list (list A)) : Permutation l l' -> Permutation (concat l) (concat l').
Proof. intros H. rewrite <- (map_id l), <- (map_id l'), <- !flat_map_concat_map. now apply Permutation_flat_map. Qed.
Lemma moved_columns o n1 (f : nat -> nat) st st1 v v1 : (forall i, nth_error (var_insts o) (f i) = nth_error (var_insts (with_network o n1)) i) ->
  part_ports n1 (st_ports st) (st_ports st1) -> (forall i, In i (var_insts (with_network o n1)) -> in_part n1 (co_id (fst (fst i)))) ->
  Forall2 (made o st) (var_insts o) v -> Forall2 (made (with_network o n1) st1) (var_insts (with_network o n1)) v1 -> forall i, nth_error v (f i) = nth_error v1 i.
Proof.
  intros Hpos HP HO F F1 i. pose proof (Forall2_len _ _ _ F) as L. pose proof (Forall2_len _ _ _ F1) as L1.
  destruct (nth_error (var_insts (with_network o n1)) i) as [a|] eqn:E.
  - destruct (Forall2_nth_left _ _ _ F1 _ _ E) as (sv1 & E1 & M1). pose proof (HO a (nth_error_In _ _ E)) as Pa. rewrite <- Hpos in E. destruct (Forall2_nth_left _ _ _ F _ _ E) as (sv & E2 & M2).
    destruct a as [[c x] [t s]]. apply (made1 o n1 st st1 c x t s sv1 HP Pa) in M1. rewrite E1, E2. f_equal. exact (made_one _ _ _ _ _ M2 M1).
  - pose proof E as E'. rewrite <- Hpos in E'. apply nth_error_None in E, E'. rewrite (proj2 (nth_error_None v (f i))), (proj2 (nth_error_None v1 i)) by lia. reflexivity.
Qed.
Lemma own_insts o n1 i : In i (var_insts (with_network o n1)) -> in_part n1 (co_id (fst (fst i))).
Proof. destruct i as [[c v] [t s]]. intros H. apply var_insts_In in H. unfold in_part. cbn [fst]. apply in_map. apply H. Qed.
Section TwoParts.
  Context (o : settings) (n1 n2 : network).
  Notation n := (o_network o).
  Notation o1 := (with_network o n1).
  Notation o2 := (with_network o n2).
  Hypothesis (Hu : usable_block o) (Hside : side_by_side n1 n2 n) (Hp1 : part n1) (Hp2 : part n2) (Hd : distinct_ids n).
  Notation P1 := (in_part n1).
  Notation P2 := (in_part n2).

  Lemma components_both : Permutation (all_components n) (all_components n1 ++ all_components n2).
  Proof.
    destruct Hside as (E1 & E2 & _). unfold all_components. rewrite E1, E2, !map_app, <- !app_assoc. apply Permutation_app_head.
    rewrite !app_assoc. apply Permutation_app_tail. apply Permutation_app_comm.
  Qed.
  Lemma ids_both : NoDup (map co_id (all_components n1) ++ map co_id (all_components n2)).
  Proof. rewrite <- map_app. eapply Permutation_NoDup; [apply Permutation_map, components_both|exact Hd]. Qed.
  Lemma distinct_1 : distinct_ids n1.
  Proof. exact (first_distinct _ _ ids_both). Qed.
  Lemma distinct_2 : distinct_ids n2.
  Proof. exact (second_distinct _ _ ids_both). Qed.
  Lemma apart id : P1 id -> P2 id -> False.
  Proof.
    unfold in_part. pose proof ids_both as N. induction (map co_id (all_components n1)) as [|a l IH]; cbn in *; [contradiction|]. inversion N as [|? ? Ha N']; subst.
    intros [<-|H1] H2; [apply Ha; apply in_or_app; now right|]. now apply IH.
  Qed.
  Lemma named_both : named_network n.
  Proof.
    intros c Hc. apply (Permutation_in _ components_both) in Hc. apply in_app_or in Hc. destruct Hc as [Hc|Hc]; [apply Hp1|apply Hp2]; exact Hc.
  Qed.
  Lemma sub_1 c : In c (all_components n1) -> In c (all_components n).
  Proof. intros Hc. apply (Permutation_in _ (Permutation_sym components_both)). apply in_or_app. now left. Qed.
  Lemma sub_2 c : In c (all_components n2) -> In c (all_components n).
  Proof. intros Hc. apply (Permutation_in _ (Permutation_sym components_both)). apply in_or_app. now right. Qed.
  Lemma get_1 id : P1 id -> get_component n id = get_component n1 id.
  Proof.
    intros HP. destruct (unknown_component n2 id) as [C N]; [apply Hp2|intros H; exact (apart _ HP H)|].
    destruct Hside as (E1 & E2 & _). unfold get_component. rewrite E1, E2, !ModelFacts.dget_app, C, N.
    destruct (dget String.eqb id (n_components n1)); [reflexivity|]. now destruct (dget String.eqb id (n_nodes n1)).
  Qed.
  Lemma get_2 id : P2 id -> get_component n id = get_component n2 id.
  Proof.
    intros HP. destruct (unknown_component n1 id) as [C N]; [apply Hp1|intros H; exact (apart _ H HP)|].
    destruct Hside as (E1 & E2 & _). unfold get_component. now rewrite E1, E2, !ModelFacts.dget_app, C, N.
  Qed.
  Lemma reg_1 c p f : P1 c -> flat_map (connection_registers c p f) (n_connections n) = flat_map (connection_registers c p f) (n_connections n1).
  Proof.
    intros HP. destruct Hside as (_ & _ & E). rewrite E, flat_map_app, (foreign_connections n2), app_nil_r; [reflexivity|apply Hp2|]. intros H. exact (apart _ HP H).
  Qed.
  Lemma reg_2 c p f : P2 c -> flat_map (connection_registers c p f) (n_connections n) = flat_map (connection_registers c p f) (n_connections n2).
  Proof.
    intros HP. destruct Hside as (_ & _ & E). rewrite E, flat_map_app, (foreign_connections n1); [reflexivity|apply Hp1|]. intros H. exact (apart _ H HP).
  Qed.
  (** positions of the columns *)
  Lemma insts_both : Permutation (var_insts o) (var_insts o1 ++ var_insts o2).
  Proof.
    unfold var_insts, var_pairs. cbn [o_network o_selection with_network]. rewrite <- flat_map_app. apply Permutation_flat_map. rewrite <- flat_map_app.
    apply Permutation_flat_map, components_both.
  Qed.
  Lemma positions_both : exists f1 f2 : nat -> nat, (forall i j, f1 i = f1 j -> i = j) /\ (forall i j, f2 i = f2 j -> i = j) /\
    (forall i j, (i < List.length (var_insts o1))%nat -> f1 i <> f2 j) /\
    (forall i, nth_error (var_insts o) (f1 i) = nth_error (var_insts o1) i) /\ (forall i, nth_error (var_insts o) (f2 i) = nth_error (var_insts o2) i).
  Proof.
    destruct (proj1 (Permutation_nth_error _ _) insts_both) as (_ & g & Hg & H0).
    assert (H : forall i, nth_error (var_insts o) (g i) = nth_error (var_insts o1 ++ var_insts o2) i) by (intros; now rewrite H0). clear H0.
    set (L1 := List.length (var_insts o1)) in *.
    exists (fun i => if (i <? L1)%nat then g i else g (i + List.length (var_insts o2))%nat), (fun i => g (L1 + i)%nat). repeat split.
    - intros i j E. destruct (Nat.ltb_spec i L1), (Nat.ltb_spec j L1); apply Hg in E; lia.
    - intros i j E. apply Hg in E. lia.
    - intros i j Hi. destruct (Nat.ltb_spec i L1); [|lia]. intros E. apply Hg in E. lia.
    - intros i. destruct (Nat.ltb_spec i L1); rewrite H.
      + now rewrite nth_error_app1.
      + rewrite (proj2 (nth_error_None _ _)), (proj2 (nth_error_None _ _)); [reflexivity|fold L1; lia|]. rewrite app_length. fold L1. lia.
    - intros i. rewrite H, nth_error_app2 by (fold L1; lia). f_equal. fold L1. lia.
  Qed.
  Lemma row_pairs_both : Permutation (row_pairs o) (row_pairs o1 ++ row_pairs o2).
  Proof. unfold row_pairs. cbn [o_network o_selection with_network]. rewrite <- flat_map_app. apply Permutation_flat_map, components_both. Qed.
  Lemma contributions_both : Permutation (contributions o) (contributions o1 ++ contributions o2).
  Proof. unfold contributions. cbn [o_network o_selection with_network]. rewrite <- flat_map_app. apply Permutation_flat_map, components_both. Qed.
  Lemma var_pairs_both : Permutation (var_pairs o) (var_pairs o1 ++ var_pairs o2).
  Proof. unfold var_pairs. cbn [o_network o_selection with_network]. rewrite <- flat_map_app. apply Permutation_flat_map, components_both. Qed.
  Lemma requirements_both : requirements_consistency (o_database o) n = Ok tt <->
    requirements_consistency (o_database o) n1 = Ok tt /\ requirements_consistency (o_database o) n2 = Ok tt.
  Proof.
    destruct Hside as (_ & E & _). unfold requirements_consistency. rewrite E.
    assert (G : forall l, (_ <- mapM (fun kc : string * component => check_component_data (o_database o) (snd kc)) l ;; Ok tt) = Ok tt <->
      Forall (fun kc => exists u, check_component_data (o_database o) (snd kc) = Ok u) l).
    { induction l as [|kc l IH]; cbn [mapM]; [split; [constructor|reflexivity]|]. destruct (check_component_data (o_database o) (snd kc)) as [u|e] eqn:Ec; cbn [bind].
      - destruct (mapM _ l) as [us|e] eqn:El; cbn [bind] in *; (split; [intros Hq|intros Hq; inversion Hq; subst]).
        + constructor; [eauto|]. now apply IH.
        + reflexivity.
        + discriminate.
        + apply IH. assumption.
      - split; [discriminate|]. intros Hq. inversion Hq as [|? ? [u Hu'] _]; subst. congruence. }
    rewrite !G. apply Forall_app.
  Qed.

  (** if the whole is built so are its parts *)
  Lemma parts_built st : build_problem o = Ok st -> (exists st1, build_problem o1 = Ok st1) /\ (exists st2, build_problem o2 = Ok st2).
  Proof.
    intros H. destruct (build_steps o st H) as (_ & _ & _ & RQ & _). apply requirements_both in RQ. destruct RQ as [RQ1 RQ2], Hside as (_ & _ & EC). split.
    - apply (part_built o n1 Hu Hd named_both distinct_1 (proj1 (proj2 Hp1)) (proj1 Hp1) get_1 sub_1 reg_1 (proj2 (proj2 Hp1)) st); auto.
      intros k Hk. rewrite EC. apply in_or_app. now left.
    - apply (part_built o n2 Hu Hd named_both distinct_2 (proj1 (proj2 Hp2)) (proj1 Hp2) get_2 sub_2 reg_2 (proj2 (proj2 Hp2)) st); auto.
      intros k Hk. rewrite EC. apply in_or_app. now right.
  Qed.
  Lemma part_ports_1 ports ports1 : register_connections o = Ok ports -> register_connections o1 = Ok ports1 -> part_ports n1 ports ports1.
  Proof. exact (part_registered o n1 (proj1 Hp1) reg_1 (proj2 (proj2 Hp1)) ports ports1). Qed.
  Lemma part_ports_2 ports ports2 : register_connections o = Ok ports -> register_connections o2 = Ok ports2 -> part_ports n2 ports ports2.
  Proof. exact (part_registered o n2 (proj1 Hp2) reg_2 (proj2 (proj2 Hp2)) ports ports2). Qed.
  (** if the parts are built so is the whole *)
  Lemma whole_built st1 st2 : build_problem o1 = Ok st1 -> build_problem o2 = Ok st2 -> exists st, build_problem o = Ok st.
  Proof.
    intros H1 H2. destruct (built_known o1 distinct_1 (proj1 (proj2 Hp1)) st1 H1) as (ports1 & sv1 & rss1 & Ls1 & T1 & B1).
    destruct (built_known o2 distinct_2 (proj1 (proj2 Hp2)) st2 H2) as (ports2 & sv2 & rss2 & Ls2 & T2 & B2).
    assert (R : exists ports, register_connections o = Ok ports).
    { apply registers_iff. destruct Hside as (_ & _ & ->). apply Forall_app. split.
      - exact (proj1 (registers_iff o1) (ex_intro _ ports1 (bf_ports _ _ _ _ _ _ _ B1))).
      - exact (proj1 (registers_iff o2) (ex_intro _ ports2 (bf_ports _ _ _ _ _ _ _ B2))). }
    destruct R as [ports R]. pose proof (part_ports_1 _ _ R (bf_ports _ _ _ _ _ _ _ B1)) as PP1. pose proof (part_ports_2 _ _ R (bf_ports _ _ _ _ _ _ _ B2)) as PP2.
    assert (V : exists st, create_variables o (set_ports initial_state ports) = Ok st).
    { apply variables_ok. eapply Permutation_Forall; [apply Permutation_sym, var_pairs_both|]. apply Forall_app. split; apply Forall_forall; intros [c v] Hv.
      - pose proof (proj1 (variables_ok o1 ports1) (ex_intro _ sv1 (bf_vars _ _ _ _ _ _ _ B1))) as HF. rewrite Forall_forall in HF.
        apply (variable_ok1 o n1 ports ports1); [exact PP1|exact (own_var_pairs o n1 _ Hv)|exact (HF _ Hv)].
      - pose proof (proj1 (variables_ok o2 ports2) (ex_intro _ sv2 (bf_vars _ _ _ _ _ _ _ B2))) as HF. rewrite Forall_forall in HF.
        apply (variable_ok1 o n2 ports ports2); [exact PP2|exact (own_var_pairs o n2 _ Hv)|exact (HF _ Hv)]. }
    destruct V as [sv V]. pose proof (variables_described o Hd named_both _ _ V) as (K1 & _ & K3 & _).
    assert (PP1' : part_ports n1 (st_ports sv) (st_ports sv1)) by (rewrite (bf_state _ _ _ _ _ _ _ B1), K3; exact PP1).
    assert (PP2' : part_ports n2 (st_ports sv) (st_ports sv2)) by (rewrite (bf_state _ _ _ _ _ _ _ B2), K3; exact PP2).
    destruct positions_both as (f1 & f2 & F1 & F2 & _ & Q1 & Q2).
    pose proof (bf_created _ _ _ _ _ _ _ B1) as C1. pose proof (bf_created _ _ _ _ _ _ _ B2) as C2.
    assert (G : forall (oo : settings) ss Lx Tx L, Forall2 (reads_term oo ss) (flat_map le_terms Lx) Tx -> In L Lx -> readable oo ss L).
    { intros oo ss Lx Tx L HF HL. unfold readable. apply Forall_forall. intros kt Hkt. assert (Hin : In kt (flat_map le_terms Lx)) by (apply in_flat_map; eauto).
      apply In_nth_error in Hin. destruct Hin as [q Hq]. destruct (Forall2_nth_left _ _ _ HF _ _ Hq) as (ic & _ & [E _]). eauto. }
    apply (built_when o Hu Hd named_both ports sv); auto.
    - apply requirements_both. split; [exact (bf_req _ _ _ _ _ _ _ B1)|exact (bf_req _ _ _ _ _ _ _ B2)].
    - intros ck Hck. apply (Permutation_in _ row_pairs_both) in Hck. apply in_app_or in Hck. destruct Hck as [Hck|Hck]; pose proof Hck as Hin; apply In_nth_error in Hin; destruct Hin as [j Hj].
      + destruct (Forall2_nth_left _ _ _ (bf_rows _ _ _ _ _ _ _ B1) _ _ Hj) as (rows & _ & HB). exists (map (moved_row f1) rows).
        apply (rows1 o n1 Hu Hd named_both distinct_1 (proj1 (proj2 Hp1)) get_1 f1 F1 Q1 sv sv1 K1 C1 PP1'); [exact (own_row_pairs o n1 _ Hck)|exact HB].
      + destruct (Forall2_nth_left _ _ _ (bf_rows _ _ _ _ _ _ _ B2) _ _ Hj) as (rows & _ & HB). exists (map (moved_row f2) rows).
        apply (rows1 o n2 Hu Hd named_both distinct_2 (proj1 (proj2 Hp2)) get_2 f2 F2 Q2 sv sv2 K1 C2 PP2'); [exact (own_row_pairs o n2 _ Hck)|exact HB].
    - intros ce Hce. apply (Permutation_in _ contributions_both) in Hce. apply in_app_or in Hce. destruct Hce as [Hce|Hce]; pose proof Hce as Hin; apply In_nth_error in Hin; destruct Hin as [j Hj].
      + destruct (Forall2_nth_left _ _ _ (bf_forms _ _ _ _ _ _ _ B1) _ _ Hj) as (L & HL & HB). exists L. split; [apply (contribution1 o n1 get_1 sv sv1 PP1' ce L (own_contributions o n1 _ Hce)); exact HB|].
        apply nth_error_In in HL. pose proof (G _ _ _ _ _ (bf_terms _ _ _ _ _ _ _ B1) HL) as HR. revert HR. apply Forall_impl. intros kt [i Hi]. exists (f1 i).
        exact (lookup1 o n1 Hu Hd named_both distinct_1 (proj1 (proj2 Hp1)) f1 Q1 sv sv1 K1 C1 _ _ Hi).
      + destruct (Forall2_nth_left _ _ _ (bf_forms _ _ _ _ _ _ _ B2) _ _ Hj) as (L & HL & HB). exists L. split; [apply (contribution1 o n2 get_2 sv sv2 PP2' ce L (own_contributions o n2 _ Hce)); exact HB|].
        apply nth_error_In in HL. pose proof (G _ _ _ _ _ (bf_terms _ _ _ _ _ _ _ B2) HL) as HR. revert HR. apply Forall_impl. intros kt [i Hi]. exists (f2 i).
        exact (lookup1 o n2 Hu Hd named_both distinct_2 (proj1 (proj2 Hp2)) f2 Q2 sv sv2 K1 C2 _ _ Hi).
  Qed.
  Lemma united st st1 st2 : build_problem o = Ok st -> build_problem o1 = Ok st1 -> build_problem o2 = Ok st2 ->
    exists f1 f2, union_of f1 f2 (st_solver st1) (st_solver st2) (st_solver st).
  Proof.
    intros H H1 H2. destruct (built_known o Hd named_both st H) as (ports & sv & rss & Ls & T & B).
    destruct (built_known o1 distinct_1 (proj1 (proj2 Hp1)) st1 H1) as (ports1 & sv1 & rss1 & Ls1 & T1 & B1).
    destruct (built_known o2 distinct_2 (proj1 (proj2 Hp2)) st2 H2) as (ports2 & sv2 & rss2 & Ls2 & T2 & B2).
    destruct B as [_ R V C S M HR ER HF HT EO Eo], B1 as [_ R1 V1 C1 S1 M1 HR1 ER1 HF1 HT1 EO1 Eo1], B2 as [_ R2 V2 C2 S2 M2 HR2 ER2 HF2 HT2 EO2 Eo2].
    pose proof (part_ports_1 _ _ R R1) as PP1. pose proof (part_ports_2 _ _ R R2) as PP2.
    assert (PP1' : part_ports n1 (st_ports sv) (st_ports sv1)) by (rewrite S, S1; exact PP1).
    assert (PP2' : part_ports n2 (st_ports sv) (st_ports sv2)) by (rewrite S, S2; exact PP2).
    destruct positions_both as (f1 & f2 & F1 & F2 & FA & Q1 & Q2). exists f1, f2.
    pose proof (Forall2_len _ _ _ M) as L. pose proof (Forall2_len _ _ _ M1) as L1. pose proof (Forall2_len _ _ _ M2) as L2.
    pose proof (Permutation_length insts_both) as LP. rewrite app_length in LP.
    assert (PR : Permutation rss (map (map (moved_row f1)) rss1 ++ map (map (moved_row f2)) rss2)).
    { eapply perm_images; [exact row_pairs_both| |exact HR|].
      - intros ck x y (i & A1 & A2) (i' & B1 & B2). congruence.
      - apply Forall2_app.
        + assert (G : forall l m, (forall ck, In ck l -> In ck (row_pairs o1)) -> Forall2 (block_rows o1 sv1) l m -> Forall2 (block_rows o sv) l (map (map (moved_row f1)) m)).
          { intros l m HI HF0. induction HF0 as [|ck rows l m HB HF0 IH]; cbn [map]; constructor; [|apply IH; intros; apply HI; now right].
            apply (rows1 o n1 Hu Hd named_both distinct_1 (proj1 (proj2 Hp1)) get_1 f1 F1 Q1 sv sv1 C C1 PP1'); [apply (own_row_pairs o n1), HI; now left|exact HB]. }
          apply G; auto.
        + assert (G : forall l m, (forall ck, In ck l -> In ck (row_pairs o2)) -> Forall2 (block_rows o2 sv2) l m -> Forall2 (block_rows o sv) l (map (map (moved_row f2)) m)).
          { intros l m HI HF0. induction HF0 as [|ck rows l m HB HF0 IH]; cbn [map]; constructor; [|apply IH; intros; apply HI; now right].
            apply (rows1 o n2 Hu Hd named_both distinct_2 (proj1 (proj2 Hp2)) get_2 f2 F2 Q2 sv sv2 C C2 PP2'); [apply (own_row_pairs o n2), HI; now left|exact HB]. }
          apply G; auto. }
    assert (PL : Permutation Ls (Ls1 ++ Ls2)).
    { eapply perm_images; [exact contributions_both| |exact HF|].
      - intros ce x y (i & e & A1 & A2 & A3) (i' & e' & B1 & B2 & B3). congruence.
      - apply Forall2_app.
        + assert (G : forall l m, (forall ck, In ck l -> In ck (contributions o1)) -> Forall2 (contribution_form o1 sv1) l m -> Forall2 (contribution_form o sv) l m).
          { intros l m HI HF0. induction HF0 as [|ce L0 l m HB HF0 IH]; constructor; [|apply IH; intros; apply HI; now right].
            apply (contribution1 o n1 get_1 sv sv1 PP1' ce L0); [apply (own_contributions o n1), HI; now left|exact HB]. }
          apply G; auto.
        + assert (G : forall l m, (forall ck, In ck l -> In ck (contributions o2)) -> Forall2 (contribution_form o2 sv2) l m -> Forall2 (contribution_form o sv) l m).
          { intros l m HI HF0. induction HF0 as [|ce L0 l m HB HF0 IH]; constructor; [|apply IH; intros; apply HI; now right].
            apply (contribution1 o n2 get_2 sv sv2 PP2' ce L0); [apply (own_contributions o n2), HI; now left|exact HB]. }
          apply G; auto. }
    assert (PT : Permutation T (map (renumber f1) T1 ++ map (renumber f2) T2)).
    { apply (perm_images (reads_term o sv) (flat_map le_terms Ls) (flat_map le_terms (Ls1 ++ Ls2))); [| |exact HT|].
      - apply Permutation_flat_map. exact PL.
      - intros kt [i c] [i' c'] [A1 A2] [B1 B2]. cbn in *. congruence.
      - rewrite flat_map_app. apply Forall2_app.
        + exact (terms1 o n1 Hu Hd named_both distinct_1 (proj1 (proj2 Hp1)) f1 Q1 sv sv1 C C1 _ _ HT1).
        + exact (terms1 o n2 Hu Hd named_both distinct_2 (proj1 (proj2 Hp2)) f2 Q2 sv sv2 C C2 _ _ HT2). }
    assert (RG : forall ts Tx, Forall2 (reads_term o1 sv1) ts Tx -> forall i, In i (map fst Tx) -> (i < List.length (var_insts o1))%nat).
    { intros ts Tx HF0. induction HF0 as [|kt ic ts Tx [E _] _ IH]; intros i Hi; [contradiction|]. destruct Hi as [<-|Hi]; [|now apply IH].
      unfold get_solver_var in E. apply (lookup_iff o1 sv1 _ _ _ _ _ Hu distinct_1 (proj1 (proj2 Hp1)) C1) in E. rewrite <- (map_length inst_key). apply nth_error_Some. congruence. }
    constructor; auto.
    - intros i j Hi _. apply FA. lia.
    - lia.
    - apply (moved_columns o n1 f1 (set_ports initial_state ports) (set_ports initial_state ports1) _ _ Q1 PP1 (own_insts o n1) M M1).
    - apply (moved_columns o n2 f2 (set_ports initial_state ports) (set_ports initial_state ports2) _ _ Q2 PP2 (own_insts o n2) M M2).
    - rewrite ER, ER1, ER2, !concat_map, <- concat_app. now apply concat_permuted.
    - rewrite EO, EO1, EO2. etransitivity; [exact (fold_perm Nat.eqb Nat.eqb_eq add_entry add_entry_spec _ _ PT)|].
      rewrite fold_left_app. pose proof (entries_renumber f1 F1 T1 []) as E1. pose proof (entries_renumber f2 F2 T2 []) as E2. cbn [map] in E1, E2. rewrite E1.
      rewrite <- (app_nil_r (map (renumber f1) (fold_left add_entry T1 []))) at 1. rewrite entries_apart; [now rewrite E2|].
      intros j Hj Hi. rewrite map_map in Hj. apply in_map_iff in Hj. destruct Hj as ([j' cj] & <- & Hj). rewrite map_map in Hi. apply in_map_iff in Hi. destruct Hi as ([i' ci] & E & Hi). cbn in E.
      assert (Hi' : In i' (map fst T1)).
      { clear - Hi. assert (G : forall T d, In (i', ci) (fold_left add_entry T d) -> In i' (map fst T) \/ In i' (map fst d)).
        { induction T as [|[a b] T IH]; intros d HX; cbn [fold_left] in HX; [right; exact (in_map fst _ _ HX)|]. apply IH in HX. destruct HX as [HX|HX]; [left; now right|].
          unfold add_entry in HX. apply (dset_key_in Nat.eqb Nat.eqb_eq) in HX. cbn in HX |- *. destruct HX as [->|HX]; auto. }
        destruct (G _ _ Hi) as [G'|[]]. exact G'. }
      apply (FA i' j'); [eapply RG; [exact HT1|exact Hi']|exact E].
    - rewrite Eo, Eo1, Eo2. rewrite !nadd_0_l. rewrite (nsum_perm _ _ (Permutation_map le_constant PL)), map_app. apply nsum_app.
  Qed.
End TwoParts.

(** ** Meaning *)
Section UnionMeaning.
  Context (f1 f2 : nat -> nat) (s1 s2 s : solver).
  Hypothesis U : union_of f1 f2 s1 s2 s.
  Lemma by_name_1 y i : by_name s y (f1 i) = by_name s1 y i.
  Proof. unfold by_name. now rewrite (un_vars1 _ _ _ _ _ U). Qed.
  Lemma by_name_2 y i : by_name s y (f2 i) = by_name s2 y i.
  Proof. unfold by_name. now rewrite (un_vars2 _ _ _ _ _ U). Qed.
  Lemma columns_both : Permutation (s_vars s) (s_vars s1 ++ s_vars s2).
  Proof.
    destruct U as [I1 I2 A L V1 V2 _ _ _]. apply Permutation_sym.
    set (L1 := List.length (s_vars s1)) in *. set (L2 := List.length (s_vars s2)) in *.
    set (g := fun i => if (i <? L1)%nat then f1 i else if (i <? L1 + L2)%nat then f2 (i - L1)%nat else i).
    assert (R1 : forall i, (i < L1)%nat -> (f1 i < L1 + L2)%nat).
    { intros i Hi. rewrite <- L. apply nth_error_Some. rewrite V1. now apply nth_error_Some. }
    assert (R2 : forall i, (i < L2)%nat -> (f2 i < L1 + L2)%nat).
    { intros i Hi. rewrite <- L. apply nth_error_Some. rewrite V2. now apply nth_error_Some. }
    apply Permutation_sym. apply Permutation_nth_error. split; [rewrite app_length; exact L|]. exists g. split.
    - intros i j E. unfold g in E. destruct (Nat.ltb_spec i L1) as [Hi|Hi], (Nat.ltb_spec j L1) as [Hj|Hj]; [auto| | |].
      + destruct (Nat.ltb_spec j (L1 + L2)) as [Hj2|Hj2]; [exfalso; apply (A i (j - L1)%nat); auto; lia|]. specialize (R1 i Hi). lia.
      + destruct (Nat.ltb_spec i (L1 + L2)) as [Hi2|Hi2]; [exfalso; apply (A j (i - L1)%nat); auto; lia|]. specialize (R1 j Hj). lia.
      + destruct (Nat.ltb_spec i (L1 + L2)) as [Hi2|Hi2], (Nat.ltb_spec j (L1 + L2)) as [Hj2|Hj2]; [apply I2 in E; lia| | |lia].
        * specialize (R2 (i - L1)%nat). lia.
        * specialize (R2 (j - L1)%nat). lia.
    - intros i. unfold g. destruct (Nat.ltb_spec i L1) as [Hi|Hi]; [now rewrite V1, nth_error_app1|]. rewrite nth_error_app2 by exact Hi. fold L1.
      destruct (Nat.ltb_spec i (L1 + L2)) as [Hi2|Hi2]; [now rewrite V2|]. rewrite (proj2 (nth_error_None _ _)), (proj2 (nth_error_None _ _)); [reflexivity|lia|fold L2; lia].
  Qed.
  Lemma moved_sat f sx y r : (forall i, by_name s y (f i) = by_name sx y i) -> row_sat (by_name s y) (moved_row f r) <-> row_sat (by_name sx y) r.
  Proof. intros H. unfold row_sat, moved_row. cbn [sr_lb sr_ub sr_coefs]. rewrite (coefs_renumbered f (by_name sx y)) by exact H. reflexivity. Qed.
  Lemma feasible_both y : feasible y s <-> feasible y s1 /\ feasible y s2.
  Proof.
    pose proof columns_both as PC. pose proof (un_rows _ _ _ _ _ U) as PR. unfold feasible, bounds_hold, rows_hold. split.
    - intros [HB HR]. assert (HR' : forall r, In r (map (moved_row f1) (s_rows s1) ++ map (moved_row f2) (s_rows s2)) -> row_sat (by_name s y) r).
      { intros r Hr. apply HR. eapply Permutation_in; [apply Permutation_sym; exact PR|exact Hr]. }
      split; split.
      + intros v Hv. apply HB. eapply Permutation_in; [apply Permutation_sym; exact PC|apply in_or_app; now left].
      + intros r Hr. apply (moved_sat f1 s1 y r (by_name_1 y)). apply HR', in_or_app. left. now apply in_map.
      + intros v Hv. apply HB. eapply Permutation_in; [apply Permutation_sym; exact PC|apply in_or_app; now right].
      + intros r Hr. apply (moved_sat f2 s2 y r (by_name_2 y)). apply HR', in_or_app. right. now apply in_map.
    - intros [[B1 R1] [B2 R2]]. split.
      + intros v Hv. apply (Permutation_in _ PC) in Hv. apply in_app_or in Hv. destruct Hv; auto.
      + intros r Hr. apply (Permutation_in _ PR) in Hr. apply in_app_or in Hr. destruct Hr as [Hr|Hr]; apply in_map_iff in Hr; destruct Hr as (r0 & <- & Hr).
        * apply (moved_sat f1 s1 y r0 (by_name_1 y)). auto.
        * apply (moved_sat f2 s2 y r0 (by_name_2 y)). auto.
  Qed.
  Lemma allowed_both y : allowed y s <-> allowed y s1 /\ allowed y s2.
  Proof.
    pose proof columns_both as PC. unfold allowed. rewrite feasible_both. split.
    - intros [[F1 F2] HI]. split; (split; [assumption|]); intros v Hv; apply HI; eapply Permutation_in; try (apply Permutation_sym; exact PC); apply in_or_app; auto.
    - intros [[F1 I1] [F2 I2]]. split; [auto|]. intros v Hv. apply (Permutation_in _ PC) in Hv. apply in_app_or in Hv. destruct Hv; auto.
  Qed.
  Lemma objective_both y : objective_at y s = olift2 Qcplus (objective_at y s1) (objective_at y s2).
  Proof.
    unfold objective_at, objective_value. rewrite (un_offset _ _ _ _ _ U), (coefs_permuted _ _ _ (un_objective _ _ _ _ _ U)).
    unfold coefs_value at 1. rewrite map_app, osum_app.
    change (osum (map _ (map (renumber f1) (s_objective s1)))) with (coefs_value (by_name s y) (map (renumber f1) (s_objective s1))).
    change (osum (map _ (map (renumber f2) (s_objective s2)))) with (coefs_value (by_name s y) (map (renumber f2) (s_objective s2))).
    rewrite (coefs_renumbered f1 (by_name s1 y)) by (intros; apply by_name_1). rewrite (coefs_renumbered f2 (by_name s2 y)) by (intros; apply by_name_2).
    destruct (coefs_value (by_name s1 y) (s_objective s1)) as [a|], (coefs_value (by_name s2 y) (s_objective s2)) as [b|], (s_offset s1) as [p| | |], (s_offset s2) as [q| | |]; cbn; try reflexivity.
    f_equal. ring.
  Qed.

  (** ** Cheapest values *)
  Lemma by_name_agree sx y z : (forall v, In v (s_vars sx) -> y (sv_name v) = z (sv_name v)) -> forall i, by_name sx y i = by_name sx z i.
  Proof. intros H i. unfold by_name. destruct (nth_error (s_vars sx) i) as [v|] eqn:E; [|reflexivity]. apply H. eapply nth_error_In; eauto. Qed.
  Lemma coefs_agree y z d : (forall i, y i = z i) -> coefs_value y d = coefs_value z d.
  Proof. intros H. unfold coefs_value. f_equal. apply map_ext. intros [i c]. cbn. now rewrite H. Qed.
  Lemma allowed_agree sx y z : (forall v, In v (s_vars sx) -> y (sv_name v) = z (sv_name v)) -> allowed y sx -> allowed z sx.
  Proof.
    intros H [[HB HR] HI]. pose proof (by_name_agree sx y z H) as HN. unfold allowed, feasible, bounds_hold, rows_hold in *. split; [split|].
    - intros v Hv. rewrite <- (H v Hv). now apply HB.
    - intros r Hr. specialize (HR r Hr). unfold row_sat in *. rewrite <- (coefs_agree _ _ _ HN). exact HR.
    - intros v Hv HvI. rewrite <- (H v Hv). now apply HI.
  Qed.
  Lemma objective_agree sx y z : (forall v, In v (s_vars sx) -> y (sv_name v) = z (sv_name v)) -> objective_at y sx = objective_at z sx.
  Proof. intros H. unfold objective_at, objective_value. now rewrite (coefs_agree _ _ _ (by_name_agree sx y z H)). Qed.
  Definition replaced (sx : solver) (y y' : string -> Qc) : string -> Qc :=
    fun n => if existsb (fun v => String.eqb n (sv_name v)) (s_vars sx) then y' n else y n.
  Lemma replaced_in sx y y' v : In v (s_vars sx) -> replaced sx y y' (sv_name v) = y' (sv_name v).
  Proof.
    intros Hv. unfold replaced. rewrite (proj2 (existsb_exists _ _)); [reflexivity|]. exists v. split; [exact Hv|]. apply String.eqb_refl.
  Qed.
  Lemma replaced_out sx y y' n : (forall v, In v (s_vars sx) -> n <> sv_name v) -> replaced sx y y' n = y n.
  Proof.
    intros H. unfold replaced. destruct (existsb _ _) eqn:E; [|reflexivity]. apply existsb_exists in E. destruct E as (v & Hv & E). apply String.eqb_eq in E. now destruct (H v Hv).
  Qed.
  Lemma cheapest_up y : cheapest y s1 -> cheapest y s2 -> cheapest y s.
  Proof.
    intros [A1 (q1 & O1 & M1)] [A2 (q2 & O2 & M2)]. split; [now apply allowed_both|]. exists (q1 + q2)%Qc. split; [rewrite objective_both, O1, O2; reflexivity|].
    intros y' q' A' O'. apply allowed_both in A'. destruct A' as [A1' A2']. rewrite objective_both in O'.
    destruct (objective_at y' s1) as [a|] eqn:Ea; [|discriminate]. destruct (objective_at y' s2) as [b|] eqn:Eb; [|discriminate]. cbn in O'. injection O' as <-.
    apply Qcplus_le_compat; eauto.
  Qed.
  Lemma cheapest_down y : (forall v1 v2, In v1 (s_vars s1) -> In v2 (s_vars s2) -> sv_name v1 <> sv_name v2) ->
    cheapest y s -> cheapest y s1 /\ cheapest y s2.
  Proof.
    intros HA [A (q & O & M)]. apply allowed_both in A. destruct A as [A1 A2]. rewrite objective_both in O.
    destruct (objective_at y s1) as [a|] eqn:Ea; [|discriminate]. destruct (objective_at y s2) as [b|] eqn:Eb; [|discriminate]. cbn in O. injection O as <-.
    split; (split; [assumption|]).
    - exists a. split; [exact Ea|]. intros y' q' A' O'. set (z := replaced s1 y y').
      assert (Z1 : forall v, In v (s_vars s1) -> y' (sv_name v) = z (sv_name v)) by (intros v Hv; symmetry; now apply replaced_in).
      assert (Z2 : forall v, In v (s_vars s2) -> y (sv_name v) = z (sv_name v)).
      { intros v Hv. symmetry. apply replaced_out. intros v1 Hv1 E. now apply (HA v1 v). }
      assert (L : (a + b <= q' + b)%Qc).
      { apply (M z); [apply allowed_both; split; [exact (allowed_agree s1 y' z Z1 A')|exact (allowed_agree s2 y z Z2 A2)]|].
        rewrite objective_both, <- (objective_agree s1 y' z Z1), <- (objective_agree s2 y z Z2), O', Eb. reflexivity. }
      apply (Qcplus_le_compat _ _ (- b) (- b)) in L; [|apply Qcle_refl]. now replace (a + b + - b)%Qc with a in L by ring; replace (q' + b + - b)%Qc with q' in L by ring.
    - exists b. split; [exact Eb|]. intros y' q' A' O'. set (z := replaced s2 y y').
      assert (Z2 : forall v, In v (s_vars s2) -> y' (sv_name v) = z (sv_name v)) by (intros v Hv; symmetry; now apply replaced_in).
      assert (Z1 : forall v, In v (s_vars s1) -> y (sv_name v) = z (sv_name v)).
      { intros v Hv. symmetry. apply replaced_out. intros v2 Hv2 E. now apply (HA v v2). }
      assert (L : (a + b <= a + q')%Qc).
      { apply (M z); [apply allowed_both; split; [exact (allowed_agree s1 y z Z1 A1)|exact (allowed_agree s2 y' z Z2 A')]|].
        rewrite objective_both, <- (objective_agree s1 y z Z1), <- (objective_agree s2 y' z Z2), O', Ea. reflexivity. }
      apply (Qcplus_le_compat _ _ (- a) (- a)) in L; [|apply Qcle_refl]. now replace (a + b + - a)%Qc with b in L by ring; replace (a + q' + - a)%Qc with q' in L by ring.
  Qed.
End UnionMeaning.
