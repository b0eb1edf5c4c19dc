(** What a block reads of the data (C88). *)
From Coq Require Import Lia.
From Verif Require Import Base BaseFacts Expr Visitors LinearExpr Linearize Expansion Model Study Strategy Optim
  SpecExpr SpecSyntax SpecVisitors SpecExpansion SpecLinear SpecModel SpecOptim
  ExprFacts CopyFacts VisitorFacts ExpansionFacts ModelFacts SpecBlock.

(** ** Results that are kept *)
Definition kept {A} (r r' : result A) : Prop := forall v, r = Ok v -> r' = Ok v.
Lemma kept_refl {A} (r : result A) : kept r r.
Proof. intros v H. exact H. Qed.
Lemma kept_bind {A B} (r r' : result A) (f f' : A -> result B) : kept r r' -> (forall a, r = Ok a -> kept (f a) (f' a)) -> kept (bind r f) (bind r' f').
Proof. intros HR HF v H. apply bind_ok in H. destruct H as (a & E & H). rewrite (HR a E). cbn [bind]. exact (HF a E v H). Qed.
Lemma kept_mapM {A B} (f f' : A -> result B) l : (forall a, In a l -> kept (f a) (f' a)) -> kept (mapM f l) (mapM f' l).
Proof.
  induction l as [|a l IH]; intros H; cbn [mapM]; [apply kept_refl|]. apply kept_bind; [apply H; now left|]. intros b _. apply kept_bind; [apply IH; intros; apply H; now right|]. intros bs _. apply kept_refl.
Qed.
Lemma kept_foldM {A B} (f f' : B -> A -> result B) l : (forall acc a, In a l -> kept (f acc a) (f' acc a)) -> forall acc, kept (foldM f acc l) (foldM f' acc l).
Proof.
  induction l as [|a l IH]; intros H acc; cbn [foldM]; [apply kept_refl|]. apply kept_bind; [apply H; now left|]. intros b _. apply IH. intros; apply H; now right.
Qed.

Lemma evaluate_kept vp vp' e : (forall n, kept (get_variable_value vp n) (get_variable_value vp' n)) -> (forall n, kept (get_parameter_value vp n) (get_parameter_value vp' n)) ->
  (forall c n, kept (get_component_variable_value vp c n) (get_component_variable_value vp' c n)) ->
  (forall c n, kept (get_component_parameter_value vp c n) (get_component_parameter_value vp' c n)) -> kept (evaluate vp e) (evaluate vp' e).
Proof.
  intros H1 H2 H3 H4. induction e using expr_ind'; cbn [evaluate]; auto using @kept_refl.
  - apply kept_bind; [assumption|]. intros; apply kept_refl.
  - apply kept_bind; [|intros; apply kept_refl]. apply kept_mapM. intros a Ha. rewrite Forall_forall in H. now apply H.
  - apply kept_bind; [assumption|]. intros; apply kept_bind; [assumption|]. intros; apply kept_refl.
  - apply kept_bind; [assumption|]. intros; apply kept_bind; [assumption|]. intros; apply kept_refl.
Qed.
Lemma expand_kept d ev ev' sp e : (forall x, kept (ev x) (ev' x)) -> kept (expand d ev sp e) (expand d ev' sp e).
Proof.
  intros HE. induction e using expr_ind'; cbn [expand]; auto using @kept_refl; try (destruct o; [| |]; try apply kept_refl);
    repeat (apply kept_bind; [first [assumption|apply HE|apply kept_refl]|intros]); try apply kept_refl.
  apply kept_bind; [|intros; apply kept_refl]. apply kept_mapM. intros a Ha. rewrite Forall_forall in H. now apply H.
Qed.

(** ** Scenarios that an expanded expression names *)
Section Below.
  Context (S : Z).
  Definition below (x : expr) : Prop :=
    match x with
    | PVar _ _ _ (OneScenarioIndex k) | PParam _ _ _ (OneScenarioIndex k) => (0 <= k < S)%Z
    | _ => True
    end.
  Lemma below_arith : arith_pred below.
  Proof. repeat split; cbn; auto. Qed.
  Lemma copy_below c X : on_agg c = None -> (forall x x', leaf_kind x -> below x -> (forall a g, x <> PortAgg a g) -> copy_with c x = Ok x' -> all_nodes below x') ->
    forall X', all_nodes below X -> copy_with c X = Ok X' -> all_nodes below X'.
  Proof.
    intros HA Hl. induction X using expr_ind'; intros X' HN HE.
    3:{ cbn [copy_with] in HE. inv_bind HE. destruct v as [|v vs]; cbn [sum_operands] in HE; [discriminate|].
        injection HE as <-. apply all_nodes_Add in HN. destruct HN as [_ HN].
        assert (HF : Forall (all_nodes below) (v :: vs)).
        { eapply mapM_Forall; eauto. intros x y Hx Hy. rewrite Forall_forall in H, HN. eauto. }
        inversion HF; subst. apply fold_py_add_nodes; auto. intros; exact I. }
    all: try (refine (Hl _ _ _ _ _ HE); [exact I|apply all_nodes_root in HN; exact HN|discriminate]).
    all: cbn [copy_with] in HE; rewrite ?HA in HE; repeat inv_bind HE; injection HE as <-; cbn [all_nodes py_neg py_mul py_div below] in HN |- *; intuition eauto.
  Qed.
  Lemma expand_below d ev sp e : scenarios_count d = S -> forall X, expand d ev sp e = Ok X -> all_nodes below X.
  Proof.
    intros HS.
    assert (Hshift : forall k X X', all_nodes below X -> apply_timeshift X k = Ok X' -> all_nodes below X').
    { intros k X X'. apply copy_below; [reflexivity|]. intros x x' Hk HB Hp E. destruct x; try contradiction; cbn in E; try (injection E as <-; cbn; tauto). now edestruct Hp. }
    assert (Hstep : forall k b X X', all_nodes below X -> apply_timestep X k b = Ok X' -> all_nodes below X').
    { intros k b X X'. apply copy_below; [reflexivity|]. intros x x' Hk HB Hp E. destruct x; try contradiction; cbn in E; try inv_bind E; try (injection E as <-; cbn; tauto). now edestruct Hp. }
    assert (Hscen : forall k X X', (0 <= k < S)%Z -> all_nodes below X -> apply_scenario X k = Ok X' -> all_nodes below X').
    { intros k X X' HkS. apply copy_below; [reflexivity|]. intros x x' Hk HB Hp E.
      destruct x; try contradiction; cbn in E; try (injection E as <-; cbn; try tauto; destruct si; cbn; tauto). now edestruct Hp. }
    induction e using expr_ind'; intros X He; cbn [expand] in He.
    3:{ inv_bind He. destruct v as [|v vs]; cbn [sum_operands] in He; [discriminate|]. injection He as <-.
        assert (HF : Forall (all_nodes below) (v :: vs)).
        { eapply mapM_Forall; eauto. intros x y Hx Hy. rewrite Forall_forall in H. eauto. }
        inversion HF; subst. apply fold_py_add_nodes; auto. intros; exact I. }
    all: try discriminate.
    - injection He as <-. cbn; auto.
    - inv_bind He. injection He as <-. cbn. auto.
    - inv_bind He. inv_bind He. injection He as <-. cbn. auto.
    - inv_bind He. inv_bind He. injection He as <-. cbn. auto.
    - inv_bind He. inv_bind He. injection He as <-. cbn. auto.
    - injection He as <-. cbn; auto.
    - injection He as <-. cbn; auto.
    - inv_bind He. injection He as <-. cbn. unfold initial_scenario_index. now destruct (ix_scenario v).
    - inv_bind He. injection He as <-. cbn. unfold initial_scenario_index. now destruct (ix_scenario v).
    - inv_bind He. inv_bind He. eapply Hshift; [|exact He]. auto.
    - inv_bind He. inv_bind He. eapply Hstep; [|exact He]. auto.
    - inv_bind He. inv_bind He. inv_bind He. inv_bind He. injection He as <-. apply sum_expressions_nodes; [apply below_arith|].
      eapply mapM_Forall; eauto; intros x y _ Hy; eapply Hshift; eauto.
    - inv_bind He. inv_bind He. injection He as <-. apply sum_expressions_nodes; [apply below_arith|].
      eapply mapM_Forall; [eassumption|]. cbn beta. intros x y _ Hy. eapply Hstep; eauto.
    - destruct o; try discriminate. inv_bind He. inv_bind He. injection He as <-. cbn. repeat split.
      apply sum_expressions_nodes; [apply below_arith|]. eapply mapM_Forall; [eassumption|]. cbn beta. intros x y Hx Hy. apply zrange_In in Hx. eapply Hscen; [|  |exact Hy]; [lia|auto].
    - injection He as <-. cbn; auto.
    - inv_bind He. injection He as <-. cbn. auto.
  Qed.
  Lemma lin_kept t s (g g' : parameter_getter) X : match s with Some z => (0 <= z < S)%Z | None => True end ->
    (forall c n t s, match s with Some z => (0 <= z < S)%Z | None => True end -> kept (g c n t s) (g' c n t s)) ->
    all_nodes below X -> kept (lin_build t s (Some g) X) (lin_build t s (Some g') X).
  Proof.
    intros Hs HG. induction X using expr_ind'; intros HN; cbn [lin_build]; auto using @kept_refl.
    - apply kept_bind; [apply IHX; apply HN|]. intros; apply kept_refl.
    - apply all_nodes_Add in HN. destruct HN as [_ HN]. apply kept_bind; [|intros; apply kept_refl]. apply kept_mapM. intros a Ha. rewrite Forall_forall in H, HN. auto.
    - cbn in HN. apply kept_bind; [apply IHX1; tauto|]. intros; apply kept_bind; [apply IHX2; tauto|]. intros; apply kept_refl.
    - cbn in HN. apply kept_bind; [apply IHX1; tauto|]. intros; apply kept_bind; [apply IHX2; tauto|]. intros; apply kept_refl.
    - apply all_nodes_root in HN. apply kept_bind; [apply kept_refl|]. intros u _. apply kept_bind; [|intros; apply kept_refl]. apply HG. destruct si; cbn in *; auto.
  Qed.
End Below.

(** ** The whole problem *)
Section Whole.
  Context (o : settings) (block : list Z) (db : database).
  Context (HS : (1 <= o_scenarios o)%Z) (HG : gives_as_much o block db).
  Let o' := with_block o block db.
  Lemma other_length : block_length o' = block_length o.
  Proof. unfold block_length, o'. cbn. now rewrite (proj1 HG). Qed.
  Lemma other_wrap t : wrap_timestep o' t = wrap_timestep o t.
  Proof. unfold wrap_timestep. now rewrite other_length. Qed.
  Lemma value_kept c n t s : simulated o s -> kept (parameter_value o t s c n) (parameter_value o' t s c n).
  Proof.
    intros Hs v H. unfold parameter_value in *. apply bind_ok in H. destruct H as (d & Hd & H). apply bind_ok in H. destruct H as (a & Ha & H).
    destruct HG as [HL HD]. destruct (HD c n d Hd) as (d' & Hd' & Hv). destruct (Hv s v Hs) as [Hn Ht].
    change (o_database o') with db. rewrite Hd'. cbn [bind]. change (o_tree_node o') with (o_tree_node o).
    unfold block_timestep_to_absolute_timestep in *. destruct t as [t|].
    - rewrite other_wrap. apply bind_ok in Ha. destruct Ha as (i & Hi & Ha). rewrite Hi. cbn [bind]. change (o_block o') with block.
      destruct (nth_error (o_block o) (Z.to_nat i)) as [a0|] eqn:E0; [|discriminate]. injection Ha as <-.
      destruct (nth_error block (Z.to_nat i)) as [a'|] eqn:E1.
      + cbn [bind]. eapply Ht; eauto.
      + apply nth_error_None in E1. assert (E2 : nth_error (o_block o) (Z.to_nat i) <> None) by congruence. apply nth_error_Some in E2. lia.
    - injection Ha as <-. cbn [bind]. now apply Hn.
  Qed.
  Lemma compute_kept e t s : simulated o s -> kept (compute_expression_value o e t s) (compute_expression_value o' e t s).
  Proof. intros Hs. apply evaluate_kept; cbn; intros; try discriminate; try apply kept_refl. now apply value_kept. Qed.
  Lemma time_bound_kept e : kept (evaluate_time_bound o e) (evaluate_time_bound o' e).
  Proof.
    apply kept_bind; [|intros; apply kept_refl]. apply evaluate_kept; cbn; intros; try discriminate; try apply kept_refl.
    apply kept_bind; [apply kept_refl|]. intros ix _. destruct (ix_time ix || ix_scenario ix)%bool; [apply kept_refl|]. now apply value_kept.
  Qed.
  Lemma context_expand_kept e : kept (context_expand o e) (context_expand o' e).
  Proof. unfold context_expand, expand_operators. rewrite other_length. apply (expand_kept _ _ _ _ e). apply time_bound_kept. Qed.
  Lemma context_linearize_kept e X t s : context_expand o e = Ok X -> simulated o s -> kept (context_linearize o X t s) (context_linearize o' X t s).
  Proof.
    intros HE Hs. unfold context_linearize, linearize_expression. apply kept_bind; [|intros; apply kept_refl].
    apply (lin_kept (o_scenarios o)); [exact Hs|intros; now apply value_kept|]. eapply expand_below; [|exact HE]. reflexivity.
  Qed.
  Lemma component_variable_same st t s c n : get_component_variable o' st t s c n = get_component_variable o st t s c n.
  Proof. unfold get_component_variable. destruct t; [now rewrite other_wrap|reflexivity]. Qed.
  Lemma time_indices_same ix : get_time_indices o' ix = get_time_indices o ix.
  Proof. unfold get_time_indices. now rewrite other_length. Qed.
  Lemma instances_same ix : variable_instances o' ix = variable_instances o ix.
  Proof. unfold variable_instances. now rewrite time_indices_same. Qed.
  Lemma name_same c n t s : solver_variable_name o' c n t s = solver_variable_name o c n t s.
  Proof. unfold solver_variable_name. now rewrite other_length. Qed.
  Lemma instance_simulated ix t s : In (t, s) (variable_instances o ix) -> simulated o s.
  Proof.
    intros H. apply in_prod_iff in H. destruct H as [_ H]. destruct s as [z|]; [|exact I]. unfold get_scenario_indices in H. destruct (ix_scenario ix).
    - apply in_map_iff in H. destruct H as (x & Hx & H). injection Hx as <-. apply zrange_In in H. cbn. lia.
    - destruct H as [H|[]]. discriminate.
  Qed.
  Lemma scenario_simulated ix s : In s (get_scenario_indices o ix) -> simulated o (Some s).
  Proof. unfold get_scenario_indices. intros H. destruct (ix_scenario ix); apply zrange_In in H; cbn; lia. Qed.
  Lemma create_variable_kept c st v : kept (create_variable o c st v) (create_variable o' c st v).
  Proof.
    unfold create_variable. apply kept_bind; [apply kept_refl|]. intros lbe _. apply kept_bind; [apply kept_refl|]. intros ube _. rewrite instances_same.
    apply kept_foldM. intros acc [t s] Hin. apply instance_simulated in Hin. unfold create_variable_instance. rewrite name_same.
    apply kept_bind. { destruct lbe; [now apply compute_kept|apply kept_refl]. }
    intros l _. apply kept_bind. { destruct ube; [now apply compute_kept|apply kept_refl]. }
    intros u _. apply kept_refl.
  Qed.
  Lemma create_row_kept st c e X t s : context_expand o e = Ok X -> simulated o (Some s) -> kept (create_row o st c X t s) (create_row o' st c X t s).
  Proof.
    intros HE Hs. unfold create_row. apply kept_bind; [eapply context_linearize_kept; eauto|]. intros l _. apply kept_bind; [now apply compute_kept|]. intros lb _.
    apply kept_bind; [now apply compute_kept|]. intros ub _. unfold make_constraint. apply kept_bind; [|intros; apply kept_refl].
    apply kept_foldM. intros acc kt _. unfold add_term, get_solver_var. rewrite component_variable_same. apply kept_refl.
  Qed.
  Lemma create_component_constraint_kept cid st c : kept (create_component_constraint o cid st c) (create_component_constraint o' cid st c).
  Proof.
    unfold create_component_constraint. apply kept_bind; [apply kept_refl|]. intros ic _. apply kept_bind; [|intros; apply kept_refl].
    unfold create_constraint. apply kept_bind; [apply context_expand_kept|]. intros X HX. apply kept_bind; [apply kept_refl|]. intros ix _. rewrite time_indices_same.
    apply kept_mapM. intros [t s] Hin. apply in_prod_iff in Hin. destruct Hin as [_ Hin]. eapply create_row_kept; [exact HX|]. eapply scenario_simulated; exact Hin.
  Qed.
  Lemma create_component_objective_kept c st obj : kept (create_component_objective o c st obj) (create_component_objective o' c st obj).
  Proof.
    destruct obj as [e|]; cbn [create_component_objective]; [|apply kept_refl]. change (o_risk o') with (o_risk o). unfold create_objective.
    apply kept_bind; [apply kept_refl|]. intros i _. apply kept_bind; [apply context_expand_kept|]. intros X HX. apply kept_bind; [eapply context_linearize_kept; [exact HX|exact I]|].
    intros l _. apply kept_bind; [|intros; apply kept_refl]. apply kept_foldM. intros acc kt _. unfold add_objective_term, get_solver_var. rewrite component_variable_same. apply kept_refl.
  Qed.
  Lemma block_data_kept : requirements_consistency db (o_network o) = Ok tt -> kept (build_problem o) (build_problem o').
  Proof.
    intros HR st H. unfold build_problem in *. apply bind_ok in H. destruct H as (u & _ & H). change (o_database o') with db. change (o_network o') with (o_network o). rewrite HR. cbn [bind].
    revert st H. change (kept (optimization_problem o) (optimization_problem o')). unfold optimization_problem.
    apply kept_bind; [apply kept_refl|]. intros ports _. apply kept_bind.
    { apply kept_foldM. intros acc c _. apply kept_foldM. intros. apply create_variable_kept. }
    intros st1 _. apply kept_bind.
    { apply kept_foldM. intros acc c _. apply kept_foldM. intros. apply create_component_constraint_kept. }
    intros st2 _. apply kept_foldM. intros acc c _. apply kept_foldM. intros. apply create_component_objective_kept.
  Qed.
End Whole.

Lemma with_block_back o block db : with_block (with_block o block db) (o_block o) (o_database o) = o.
Proof. now destruct o. Qed.
Lemma block_data_same o block db : (1 <= o_scenarios o)%Z -> requirements_consistency db (o_network o) = Ok tt -> requirements_consistency (o_database o) (o_network o) = Ok tt ->
  gives_as_much o block db -> gives_as_much (with_block o block db) (o_block o) (o_database o) ->
  forall st, build_problem o = Ok st <-> build_problem (with_block o block db) = Ok st.
Proof.
  intros HS HR HR0 H1 H2 st. split; intros H.
  - now apply (block_data_kept o block db HS H1 HR).
  - rewrite <- (with_block_back o block db). now apply (block_data_kept (with_block o block db) (o_block o) (o_database o) HS H2 HR0).
Qed.

(** ** The same data later in the year *)
Lemma moved_series k t m : dget Z.eqb (t + Z.of_nat k)%Z (map (fun tv => (fst tv + Z.of_nat k, snd tv)%Z) m) = dget Z.eqb t m (V := num).
Proof.
  induction m as [|[u v] m IH]; [reflexivity|]. cbn. rewrite IH. destruct (Z.eqb_spec t u) as [->|Hn]; [now rewrite Z.eqb_refl|]. destruct (Z.eqb_spec (t + Z.of_nat k) (u + Z.of_nat k)); [lia|reflexivity].
Qed.
Lemma moved_iloc {A} k (x : A) l t : (0 <= t)%Z -> iloc (repeat x k ++ l) (t + Z.of_nat k)%Z = iloc l t.
Proof.
  intros Ht. unfold iloc. rewrite app_length, repeat_length.
  destruct (Z.ltb_spec t 0); [lia|]. destruct (Z.ltb_spec (t + Z.of_nat k) 0); [lia|].
  destruct (Z.leb_spec 0 t); [|lia]. destruct (Z.leb_spec 0 (t + Z.of_nat k)); [|lia]. cbn [andb].
  destruct (Z.ltb_spec t (Z.of_nat (List.length l))); destruct (Z.ltb_spec (t + Z.of_nat k) (Z.of_nat (k + List.length l))); try lia; [|reflexivity].
  rewrite nth_error_app2; rewrite repeat_length; [|lia]. replace (Z.to_nat (t + Z.of_nat k) - k)%nat with (Z.to_nat t) by lia. reflexivity.
Qed.
Lemma moved_find k node l : dget String.eqb node (map (fun kd => (fst kd, moved k (snd kd))) l) = option_map (moved k) (dget String.eqb node l).
Proof. induction l as [|[n d] l IH]; [reflexivity|]. cbn. rewrite IH. now destruct (String.eqb node n). Qed.
Lemma moved_value k d : forall t s node, (0 <= t)%Z -> get_value (moved k d) (Some (t + Z.of_nat k)%Z) s node = get_value d (Some t) s node.
Proof.
  induction d using data_ind'; intros t s node Ht; cbn [moved]; try reflexivity.
  - cbn. now rewrite moved_series.
  - cbn. destruct s; [|reflexivity]. now rewrite moved_iloc.
  - rewrite !get_value_tree, moved_find. destruct (dget String.eqb node l) as [d|] eqn:E; [|reflexivity]. cbn.
    apply (dget_In String.eqb String.eqb_eq) in E. rewrite Forall_forall in H. now apply (H _ E).
Qed.
Lemma moved_untimed k d : forall s node, get_value (moved k d) None s node = get_value d None s node.
Proof.
  induction d using data_ind'; intros s node; cbn [moved]; try reflexivity.
  rewrite !get_value_tree, moved_find. destruct (dget String.eqb node l) as [d|] eqn:E; [|reflexivity]. cbn.
  apply (dget_In String.eqb String.eqb_eq) in E. rewrite Forall_forall in H. now apply (H _ E).
Qed.
Lemma moved_check k d a b : check_requirement (moved k d) a b = check_requirement d a b.
Proof.
  induction d using data_ind'; cbn [moved check_requirement]; try reflexivity.
  induction H as [|[n d] l Hd _ IH]; [reflexivity|]. cbn in *. now rewrite Hd, IH.
Qed.
Lemma moved_get k db c n : get_data (moved_data k db) c n = match get_data db c n with Ok d => Ok (moved k d) | Err e => Err e end.
Proof.
  unfold get_data, moved_data. induction db as [|[q d] db IH]; [reflexivity|]. cbn. destruct (pfi_eqb (c, n) q); [reflexivity|exact IH].
Qed.
Lemma moved_requirements k db net : requirements_consistency (moved_data k db) net = requirements_consistency db net.
Proof.
  unfold requirements_consistency. rewrite (mapM_ext _ (fun kc => check_component_data db (snd kc))); [reflexivity|]. apply Forall_forall. intros kc _. unfold check_component_data.
  erewrite mapM_ext; [reflexivity|]. apply Forall_forall. intros kp _. cbn zeta. rewrite moved_get. destruct (get_data db _ _); [|reflexivity]. cbn [bind]. destruct (dget _ _ _); [|reflexivity]. now rewrite moved_check.
Qed.
Lemma moved_nth k block i : nth_error (moved_block k block) i = option_map (fun t => t + Z.of_nat k)%Z (nth_error block i).
Proof. apply nth_error_map. Qed.
Lemma moved_gives k o : Forall (fun t => 0 <= t)%Z (o_block o) -> gives_as_much o (moved_block k (o_block o)) (moved_data k (o_database o)).
Proof.
  intros HB. split; [apply map_length|]. intros c n d Hd. exists (moved k d). split; [now rewrite moved_get, Hd|]. intros s v _. split; [now rewrite moved_untimed|].
  intros i a a' Ha Ha'. rewrite moved_nth, Ha in Ha'. injection Ha' as <-. rewrite moved_value; [auto|]. rewrite Forall_forall in HB. apply HB. eapply nth_error_In; eauto.
Qed.
Lemma moved_gives_back k o : Forall (fun t => 0 <= t)%Z (o_block o) ->
  gives_as_much (with_block o (moved_block k (o_block o)) (moved_data k (o_database o))) (o_block o) (o_database o).
Proof.
  intros HB. split; [symmetry; apply map_length|]. cbn. intros c n d' Hd'. rewrite moved_get in Hd'. destruct (get_data (o_database o) c n) as [d|] eqn:Hd; [|discriminate]. injection Hd' as <-.
  exists d. split; [reflexivity|]. intros s v _. split; [now rewrite moved_untimed|].
  intros i a' a Ha' Ha. rewrite moved_nth, Ha in Ha'. injection Ha' as <-. rewrite moved_value; [auto|]. rewrite Forall_forall in HB. apply HB. eapply nth_error_In; eauto.
Qed.
Lemma block_moved k o : (1 <= o_scenarios o)%Z -> Forall (fun t => 0 <= t)%Z (o_block o) ->
  forall st, build_problem o = Ok st <-> build_problem (with_block o (moved_block k (o_block o)) (moved_data k (o_database o))) = Ok st.
Proof.
  intros HS HB st.
  assert (HR : requirements_consistency (o_database o) (o_network o) = Ok tt <-> exists u, requirements_consistency (o_database o) (o_network o) = Ok u).
  { split; [eauto|]. intros [[] Hu]. exact Hu. }
  split; intros H.
  - pose proof H as H0. unfold build_problem in H0. apply bind_ok in H0. destruct H0 as (u & Hu & _). assert (HR0 := proj2 HR (ex_intro _ u Hu)).
    apply (block_data_kept o); auto using moved_gives. now rewrite moved_requirements.
  - pose proof H as H0. unfold build_problem in H0. apply bind_ok in H0. destruct H0 as (u & Hu & _). cbn in Hu. rewrite moved_requirements in Hu. assert (HR0 := proj2 HR (ex_intro _ u Hu)).
    apply (block_data_same o (moved_block k (o_block o)) (moved_data k (o_database o))); auto using moved_gives, moved_gives_back. now rewrite moved_requirements.
Qed.
