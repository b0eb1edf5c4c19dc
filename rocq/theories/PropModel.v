(** Property theorems C18, C25, C26, C28, C29, C31, C35: models, networks and data. *)
From Verif Require Import Base Expr Visitors BaseFacts SpecExpr Model Study Strategy NetHeap SpecModel
  ModelFacts NetHeapFacts.

Local Open Scope string_scope.
Local Open Scope list_scope.

(** ** C18 *)

(** A constraint made from a comparison holds exactly when the comparison does. *)
Theorem C18_comparison_constraint :
  forall n l r c lb ub ctx k, mk_constraint n (Cmp l r c) lb ub ctx = Ok k ->
  forall E t s vl vr, den E l t s = Some vl -> den E r t s = Some vr ->
  (constraint_holds E (c_expr k) (c_lower k) (c_upper k) t s <-> cmp_holds c vl vr).
Proof. exact mk_constraint_cmp. Qed.
Print Assumptions C18_comparison_constraint.

(** A comparison is accepted when no explicit finite bound comes with it, refused otherwise. *)
Theorem C18_comparison_accepted :
  forall n l r c lb ub ctx,
  (infinite_literal lb /\ infinite_literal ub ->
     exists k, mk_constraint n (Cmp l r c) lb ub ctx = Ok k) /\
  (~ (infinite_literal lb /\ infinite_literal ub) ->
     mk_constraint n (Cmp l r c) lb ub ctx = Err ValueError).
Proof. exact mk_constraint_cmp_accepted. Qed.
Print Assumptions C18_comparison_accepted.

(** Separate bounds are stored as given, and accepted exactly when they are constant and not
    infinite of the wrong sign. *)
Theorem C18_bounds_constraint :
  forall n e lb ub ctx k, (forall l r c, e <> Cmp l r c) ->
  (mk_constraint n e lb ub ctx = Ok k <->
   k = {| c_name := n; c_expr := e; c_lower := lb; c_upper := ub; c_context := ctx |} /\
   is_constant lb = Ok true /\ is_constant ub = Ok true /\ lb <> Lit PInf /\ ub <> Lit NInf).
Proof. exact mk_constraint_bounds. Qed.
Print Assumptions C18_bounds_constraint.

(** x + 1 >= y at x = 2, y = 3 holds, at y = 4 does not *)
Definition ex_world (y : Z) : env := {|
  e_var := fun n _ _ => if String.eqb n "x" then Z2Qc 2 else Z2Qc y;
  e_par := fun _ _ _ => None; e_cvar := fun _ _ _ _ => 0%Qc; e_cpar := fun _ _ _ _ => None;
  e_port := fun _ _ => []; e_T := 1; e_S := 1 |}.
Example C18_example_holds :
  exists k, mk_constraint "c" (Cmp (py_add (Var "x") (Lit n1)) (Var "y") GREATER_THAN)
              minus_infinity plus_infinity OPERATIONAL = Ok k /\
    constraint_holds (ex_world 3) (c_expr k) (c_lower k) (c_upper k) 0 0 /\
    ~ constraint_holds (ex_world 4) (c_expr k) (c_lower k) (c_upper k) 0 0.
Proof.
  destruct (mk_constraint "c" (Cmp (py_add (Var "x") (Lit n1)) (Var "y") GREATER_THAN)
              minus_infinity plus_infinity OPERATIONAL) as [k|] eqn:Hk; [|discriminate].
  exists k. split; [reflexivity|]. split.
  - apply (C18_comparison_constraint _ _ _ _ _ _ _ _ Hk (ex_world 3) 0 0 _ _ eq_refl eq_refl).
    vm_compute. discriminate.
  - intros H. apply (C18_comparison_constraint _ _ _ _ _ _ _ _ Hk (ex_world 4) 0 0 _ _ eq_refl eq_refl) in H.
    vm_compute in H. apply H. reflexivity.
Qed.
Example C18_example_refused :
  mk_constraint "c" (Cmp (Var "x") (Var "y") EQUAL) minus_infinity (Lit n1) OPERATIONAL = Err ValueError /\
  mk_constraint "c" (Var "x") (Var "y") plus_infinity OPERATIONAL = Err ValueError /\
  mk_constraint "c" (Var "x") plus_infinity plus_infinity OPERATIONAL = Err ValueError /\
  exists k, mk_constraint "c" (Var "x") (Param "p") (Lit n1) OPERATIONAL = Ok k.
Proof. split; [reflexivity|]. split; [reflexivity|]. split; [reflexivity|]. eexists; reflexivity. Qed.

(** ** C25 *)

Theorem C25_merged_selects_everything :
  forall m, get_variables MergedProblem m = map snd (m_variables m) /\
            get_constraints MergedProblem m = map snd (m_binding_constraints m) ++ map snd (m_constraints m) /\
            get_objectives MergedProblem m = [m_operational m; m_investment m].
Proof. exact merged_everything. Qed.
Print Assumptions C25_merged_selects_everything.

Theorem C25_every_variable_selected :
  forall m v, In v (map snd (m_variables m)) ->
  (In v (get_variables InvestmentProblem m) \/ In v (get_variables OperationalProblem m)) /\
  (In v (get_variables InvestmentProblem m) <-> v_context v = INVESTMENT \/ v_context v = COUPLING) /\
  (In v (get_variables OperationalProblem m) <-> v_context v = OPERATIONAL \/ v_context v = COUPLING) /\
  (In v (get_variables InvestmentProblem m) /\ In v (get_variables OperationalProblem m)
     <-> v_context v = COUPLING).
Proof. exact variables_selected. Qed.
Print Assumptions C25_every_variable_selected.

Theorem C25_every_constraint_selected :
  forall m c, In c (map snd (m_constraints m)) \/ In c (map snd (m_binding_constraints m)) ->
  (In c (get_constraints InvestmentProblem m) \/ In c (get_constraints OperationalProblem m)) /\
  (In c (get_constraints InvestmentProblem m) <-> c_context c = INVESTMENT \/ c_context c = COUPLING) /\
  (In c (get_constraints OperationalProblem m) <-> c_context c = OPERATIONAL \/ c_context c = COUPLING) /\
  (In c (get_constraints InvestmentProblem m) /\ In c (get_constraints OperationalProblem m)
     <-> c_context c = COUPLING).
Proof. exact constraints_selected. Qed.
Print Assumptions C25_every_constraint_selected.

(** nothing else is selected *)
Theorem C25_only_items_of_the_model :
  forall s m, (forall v, In v (get_variables s m) -> In v (map snd (m_variables m))) /\
  (forall c, In c (get_constraints s m) ->
     In c (map snd (m_constraints m)) \/ In c (map snd (m_binding_constraints m))).
Proof. exact selected_of_model. Qed.
Print Assumptions C25_only_items_of_the_model.

Theorem C25_objectives_are_shared_out :
  forall m, get_objectives OperationalProblem m ++ get_objectives InvestmentProblem m =
            get_objectives MergedProblem m.
Proof. exact objectives_shared. Qed.
Print Assumptions C25_objectives_are_shared_out.

Theorem C25_risk_scales_the_objective :
  forall E e t s, (forall p, den E (modify_expression (ExpectedValue (Fin p)) e) t s =
                             option_map (Qcmult p) (den E e t s)) /\
                  den E (modify_expression UniformRisk e) t s = den E e t s.
Proof. exact risk_den. Qed.
Print Assumptions C25_risk_scales_the_objective.

Definition ex_var (n : string) (c : problem_context) : variable :=
  {| v_name := n; v_type := CONTINUOUS; v_lower := None; v_upper := None;
     v_structure := {| ix_time := true; ix_scenario := true |}; v_context := c |}.
Definition ex_power : port_type := {| pt_id := "power"; pt_fields := ["flow"; "price"] |}.
Definition ex_generator : result model :=
  make_model "generator" [] [] [] [ex_var "p" OPERATIONAL; ex_var "cap" COUPLING; ex_var "inv" INVESTMENT]
    None None false [{| mp_type := ex_power; mp_name := "out" |}]
    [{| d_field := ("out", "flow"); d_definition := Var "p" |}].
Definition ex_load : result model :=
  make_model "load" [] [] [{| p_name := "d"; p_type := CONTINUOUS;
                              p_structure := {| ix_time := true; ix_scenario := false |} |}] []
    None None false [{| mp_type := ex_power; mp_name := "in" |}]
    [{| d_field := ("in", "price"); d_definition := Param "d" |}].
Example C25_example : exists m, ex_generator = Ok m /\
  get_variables InvestmentProblem m = [ex_var "cap" COUPLING; ex_var "inv" INVESTMENT] /\
  get_variables OperationalProblem m = [ex_var "p" OPERATIONAL; ex_var "cap" COUPLING].
Proof. eexists. split; [reflexivity|]. split; reflexivity. Qed.

(** ** C26 *)

(** every model made by `model(...)` files its ports and definitions under their own names, and
    only defines fields of its ports *)
Theorem C26_models_are_well_named :
  forall id cs bcs ps vs op inv dyn ports defs m,
  make_model id cs bcs ps vs op inv dyn ports defs = Ok m -> named_model m /\ definitions_on_ports m.
Proof. exact make_model_named. Qed.
Print Assumptions C26_models_are_well_named.

Theorem C26_accepted_exactly_when_compatible :
  forall r1 r2, named_model (co_model (pr_component r1)) -> named_model (co_model (pr_component r2)) ->
  ((exists c, mk_connection r1 r2 = Ok c) <-> compatible r1 r2) /\
  (~ compatible r1 r2 -> mk_connection r1 r2 = Err ValueError).
Proof. exact connection_iff. Qed.
Print Assumptions C26_accepted_exactly_when_compatible.

Theorem C26_master_is_the_definer :
  forall r1 r2 c p, named_model (co_model (pr_component r1)) -> named_model (co_model (pr_component r2)) ->
  mk_connection r1 r2 = Ok c -> has_port r1 p ->
  pc_port1 c = r1 /\ pc_port2 c = r2 /\
  forall f, (In f (pt_fields (mp_type p)) -> exists r, dget String.eqb f (pc_master c) = Some r /\
                (r = r1 \/ r = r2) /\ defines r f) /\
            (~ In f (pt_fields (mp_type p)) -> dget String.eqb f (pc_master c) = None).
Proof. exact connection_master_named. Qed.
Print Assumptions C26_master_is_the_definer.

Theorem C26_swapping_ports :
  forall r1 r2 c, named_model (co_model (pr_component r1)) -> named_model (co_model (pr_component r2)) ->
  mk_connection r1 r2 = Ok c ->
  exists c', mk_connection r2 r1 = Ok c' /\ pc_master c' = pc_master c.
Proof. exact connection_swap. Qed.
Print Assumptions C26_swapping_ports.

Example C26_example : exists g l, ex_generator = Ok g /\ ex_load = Ok l /\
  let rg := {| pr_component := {| co_model := g; co_id := "G" |}; pr_port := "out" |} in
  let rl := {| pr_component := {| co_model := l; co_id := "L" |}; pr_port := "in" |} in
  (exists c, mk_connection rg rl = Ok c /\ pc_master c = [("flow", rg); ("price", rl)] /\
             mk_connection rl rg = Ok {| pc_port1 := rl; pc_port2 := rg; pc_master := pc_master c |}) /\
  mk_connection rg rg = Err ValueError.
Proof.
  eexists. eexists. split; [reflexivity|]. split; [reflexivity|]. cbv zeta. split; [|reflexivity].
  eexists. split; [reflexivity|]. split; reflexivity.
Qed.

(** ** C28 *)

Theorem C28_constant : forall v t s node, get_value (ConstantData v) t s node = Ok v.
Proof. reflexivity. Qed.
Print Assumptions C28_constant.

(** a series in a data frame of one column: the value of row [t], an error elsewhere, also for
    negative timesteps *)
Theorem C28_time_series :
  forall col m t s node, dataframe_to_time_series (map (fun v => [v]) col) = Ok m ->
  get_value (TimeSeriesData m) (Some t) s node =
    match (if (t <? 0)%Z then None else nth_error col (Z.to_nat t)) with Some v => Ok v | None => Err KeyError end
  /\ get_value (TimeSeriesData m) None s node = Err KeyError.
Proof. exact time_series_cell. Qed.
Print Assumptions C28_time_series.

Theorem C28_scenario_series :
  forall row m t s node, dataframe_to_scenario_series [row] = Ok m ->
  get_value (ScenarioSeriesData m None) t (Some s) node =
    match (if (s <? 0)%Z then None else nth_error row (Z.to_nat s)) with Some v => Ok v | None => Err KeyError end
  /\ get_value (ScenarioSeriesData m None) t None node = Err KeyError.
Proof. exact scenario_series_cell. Qed.
Print Assumptions C28_scenario_series.

(** any mapping given directly; a scenarisation sends the year to its scenario *)
Theorem C28_series_lookup :
  forall m sc t s c node,
  data_scenario sc s = Ok c ->
  (forall v, (NoDup (map fst m) /\ In (t, v) m -> get_value (TimeSeriesData m) (Some t) (Some s) node = Ok v) /\
             (get_value (TimeSeriesData m) (Some t) (Some s) node = Ok v -> In (t, v) m)) /\
  (forall v, (NoDup (map fst m) /\ In (c, v) m -> get_value (ScenarioSeriesData m sc) (Some t) (Some s) node = Ok v) /\
             (get_value (ScenarioSeriesData m sc) (Some t) (Some s) node = Ok v -> In (c, v) m)).
Proof. exact series_lookup. Qed.
Print Assumptions C28_series_lookup.

(** the scenario of a year is the one given for it *)
Theorem C28_scenarization :
  forall sc y c, data_scenario None y = Ok y /\
  (add_year y c sc = Err ValueError <-> In y (map fst sc)) /\
  (forall sc', add_year y c sc = Ok sc' -> get_scenario_for_year sc' y = Ok c /\
      forall z, z <> y -> get_scenario_for_year sc' z = get_scenario_for_year sc z).
Proof. exact scenarization_map. Qed.
Print Assumptions C28_scenarization.

(** time-scenario data: the cell, for indices inside the frame; an error past the end or when an
    index is missing.  Missing for the full property: negative indices (next theorem). *)
Theorem C28_time_scenario_partial :
  forall rows sc t s c node, data_scenario sc s = Ok c -> (0 <= t)%Z -> (0 <= c)%Z ->
  get_value (TimeScenarioSeriesData rows sc) (Some t) (Some s) node =
    match nth_error rows (Z.to_nat t) with
    | Some row => match nth_error row (Z.to_nat c) with Some v => Ok v | None => Err IndexError end
    | None => Err IndexError
    end.
Proof. exact time_scenario_cell. Qed.
Print Assumptions C28_time_scenario_partial.

(** for all indices: negative ones count from the end, beyond both ends is an error *)
Theorem C28_time_scenario_any :
  forall rows sc t s c node, data_scenario sc s = Ok c ->
  (forall v, get_value (TimeScenarioSeriesData rows sc) (Some t) (Some s) node = Ok v <->
     exists row, counted rows t row /\ counted row c v) /\
  ((forall row v, counted rows t row -> ~ counted row c v) ->
   get_value (TimeScenarioSeriesData rows sc) (Some t) (Some s) node = Err IndexError).
Proof. exact time_scenario_any. Qed.
Print Assumptions C28_time_scenario_any.
Example C28_time_scenario_any_example :
  counted [[nz 1; nz 2]; [nz 3; nz 4]] (-1) [nz 3; nz 4] /\ counted [nz 3; nz 4] 1 (nz 4) /\
  get_value (TimeScenarioSeriesData [[nz 1; nz 2]; [nz 3; nz 4]] None) (Some (-1)%Z) (Some 1%Z) "" = Ok (nz 4) /\
  get_value (TimeScenarioSeriesData [[nz 1; nz 2]; [nz 3; nz 4]] None) (Some (-3)%Z) (Some 1%Z) "" = Err IndexError.
Proof.
  split; [exact (from_end _ [[nz 1; nz 2]] _ [] eq_refl)|]. split; [exact (from_start _ [nz 3] _ [] eq_refl)|]. split; reflexivity.
Qed.

Theorem C28_missing_index :
  forall rows sc t s node,
  get_value (TimeScenarioSeriesData rows sc) None s node = Err KeyError /\
  get_value (TimeScenarioSeriesData rows sc) t None node = Err KeyError /\
  (forall y e, data_scenario sc y = Err e -> exists e', get_value (TimeScenarioSeriesData rows sc) t (Some y) node = Err e').
Proof. exact missing_index. Qed.
Print Assumptions C28_missing_index.

(** a negative timestep reads a row from the end instead of failing *)
Theorem C28_negative_index_refuted :
  exists rows t s v, (t < 0)%Z /\ get_value (TimeScenarioSeriesData rows None) (Some t) (Some s) EmptyString = Ok v.
Proof. exists [[nz 1]; [nz 2]], (-1)%Z, 0%Z, (nz 2). split; reflexivity. Qed.
Print Assumptions C28_negative_index_refuted.

(** data of a decision tree node *)
Theorem C28_tree :
  forall children node t s,
  (forall d, NoDup (map fst children) -> In (node, d) children ->
     get_value (TreeData children) t s node = get_value d t s EmptyString) /\
  (~ In node (map fst children) -> get_value (TreeData children) t s node = Err KeyError).
Proof. exact tree_lookup. Qed.
Print Assumptions C28_tree.

Example C28_example :
  get_value (TimeScenarioSeriesData [[nz 1; nz 2]; [nz 3; nz 4]; [nz 5; nz 6]] (Some [(7, 1)]%Z)) (Some 2%Z) (Some 7%Z) "" = Ok (nz 6) /\
  get_value (TimeScenarioSeriesData [[nz 1; nz 2]] None) (Some 1%Z) (Some 0%Z) "" = Err IndexError /\
  (exists m, dataframe_to_time_series (map (fun v => [v]) [nz 4; nz 5]) = Ok m /\
     get_value (TimeSeriesData m) (Some 1%Z) None "" = Ok (nz 5) /\
     get_value (TimeSeriesData m) (Some (-1)%Z) None "" = Err KeyError).
Proof. split; [reflexivity|]. split; [reflexivity|]. eexists. split; [reflexivity|]. split; reflexivity. Qed.

(** ** C29 *)

(** for the components that are not nodes (a network keeps nodes apart) *)
Theorem C29_consistency_guarantees_data_partial :
  forall db n, (forall c, In c (map snd (n_components n)) -> named_model (co_model c)) ->
  requirements_consistency db n = Ok tt ->
  forall c p, In c (map snd (n_components n)) -> In p (map snd (m_parameters (co_model c))) ->
  has_suitable_data db (co_id c) p.
Proof. exact requirements_ok. Qed.
Print Assumptions C29_consistency_guarantees_data_partial.

(** nodes are components too, and are not checked *)
Theorem C29_nodes_not_checked_refuted :
  exists db n, built_network n /\ (forall c, In c (all_components n) -> named_model (co_model c)) /\
  requirements_consistency db n = Ok tt /\
  exists c p, In c (all_components n) /\ In p (map snd (m_parameters (co_model c))) /\
  ~ has_suitable_data db (co_id c) p.
Proof.
  destruct ex_load as [m|] eqn:E; [|discriminate].
  exists [], (add_node {| co_model := m; co_id := "N" |} (new_network "net")).
  split; [apply bn_node; constructor|]. split.
  { intros c [<-|[]]. cbn. eapply C26_models_are_well_named. exact E. }
  split; [reflexivity|]. injection E as <-.
  eexists. eexists. split; [left; reflexivity|]. split; [left; reflexivity|].
  intros (d & Hd & _). discriminate.
Qed.
Print Assumptions C29_nodes_not_checked_refuted.

(** what the check says: it passes exactly when every parameter of every such component has data of a
    kind that its structure allows *)
Theorem C29_check_exact :
  forall db n, (forall c, In c (map snd (n_components n)) -> named_model (co_model c)) ->
  (requirements_consistency db n = Ok tt <->
   forall c p, In c (map snd (n_components n)) -> In p (map snd (m_parameters (co_model c))) ->
     exists d, get_data db (co_id c) (p_name p) = Ok d /\ suits (p_structure p) d).
Proof. exact requirements_accept. Qed.
Print Assumptions C29_check_exact.

Example C29_example : exists m, ex_load = Ok m /\
  let n := add_component {| co_model := m; co_id := "L" |} (new_network "net") in
  requirements_consistency (add_data "L" "d" (TimeSeriesData [(0%Z, n1)]) []) n = Ok tt /\
  requirements_consistency (add_data "L" "d" (ScenarioSeriesData [(0%Z, n1)] None) []) n = Err ValueError /\
  requirements_consistency [] n = Err KeyError.
Proof. eexists. split; [reflexivity|]. cbv zeta. split; [reflexivity|]. split; reflexivity. Qed.

(** ** C31 *)

Theorem C31_database_is_a_map :
  forall (history : list (string * string * data)) c n,
  get_data (fold_left (fun db h => add_data (fst (fst h)) (snd (fst h)) (snd h) db) history []) c n =
  match last_added c n history with Some d => Ok d | None => Err KeyError end.
Proof. exact database_map. Qed.
Print Assumptions C31_database_is_a_map.

(** [db_get_value] reads that data *)
Theorem C31_values_are_read_from_the_data :
  forall db c n t s, db_get_value db c n t s = (d <- get_data db c n ;; get_value d (Some t) (Some s) EmptyString).
Proof. exact db_value. Qed.
Print Assumptions C31_values_are_read_from_the_data.

Example C31_example :
  let h := [("a", "p", ConstantData n0); ("a", "q", ConstantData n1); ("a", "p", ConstantData (nz 5))] in
  last_added "a" "p" h = Some (ConstantData (nz 5)) /\ last_added "b" "p" h = None.
Proof. split; reflexivity. Qed.

(** ** C35 *)

(** after any calls, replicating a network gives a new network with the same content under the
    new id, and leaves every existing network as it was *)
Theorem C35_replica_is_equal :
  forall calls i n id, let h := run_calls empty_heap calls in
  observe h i = Some n ->
  exists h' j, h_replicate i id h = Ok (h', j) /\ observe h j = None /\
    observe h' j = Some {| n_id := id; n_nodes := n_nodes n; n_components := n_components n;
                           n_connections := n_connections n |} /\
    forall k m, observe h k = Some m -> observe h' k = Some m.
Proof. exact replica_equal. Qed.
Print Assumptions C35_replica_is_equal.

(** a network only changes when it is itself edited: whatever is done to the others, among them
    its replicas and its original, does not show *)
Theorem C35_edits_do_not_leak :
  forall calls later i n, observe (run_calls empty_heap calls) i = Some n ->
  (forall c, In c later -> acts_on c <> Some i) ->
  observe (run_calls (run_calls empty_heap calls) later) i = Some n.
Proof. exact edits_do_not_leak. Qed.
Print Assumptions C35_edits_do_not_leak.

(** and edits do change the network they act on *)
Theorem C35_edits_act :
  forall calls i n c r1 r2, let h := run_calls empty_heap calls in
  observe h i = Some n ->
  observe (run_call h (CAddComponent i c)) i = Some (add_component c n) /\
  observe (run_call h (CAddNode i c)) i = Some (add_node c n) /\
  observe (run_call h (CConnect i r1 r2)) i =
    Some (match connect r1 r2 n with Ok n' => n' | Err _ => n end).
Proof. exact edits_act. Qed.
Print Assumptions C35_edits_act.

Example C35_example : exists g, ex_generator = Ok g /\
  let c x := {| co_model := g; co_id := x |} in
  let h := run_calls empty_heap [CNew "n"; CAddComponent 0 (c "a"); CReplicate 0 "m"; CAddComponent 0 (c "b");
                                 CAddNode 1 (c "d")] in
  observe h 0 = Some {| n_id := "n"; n_nodes := []; n_components := [("a", c "a"); ("b", c "b")]; n_connections := [] |} /\
  observe h 1 = Some {| n_id := "m"; n_nodes := [("d", c "d")]; n_components := [("a", c "a")]; n_connections := [] |}.
Proof. eexists. split; [reflexivity|]. cbv zeta. split; reflexivity. Qed.
