(** Property theorems C17, C19-C24, C27, C45: the optimisation problem. *)
From Coq Require Import Lia.
From Verif Require Import Base Expr Visitors Expansion LinearExpr Linearize Model Study Strategy Optim
  BaseFacts SpecExpr SpecSyntax SpecVisitors SpecExpansion SpecLinear SpecModel SpecOptim
  OptimFacts OptimMeaning OptimProblem OptimNames ExampleProblem.

Local Open Scope string_scope.
Local Open Scope list_scope.

(** ** C17 *)

(** With N the length of the block, a variable read at t + k N is the one read at t. *)
Theorem C17_variable_cyclic :
  forall o st t k s c n,
  get_component_variable o st (Some (t + k * Z.of_nat (List.length (o_block o)))%Z) s c n =
  get_component_variable o st (Some t) s c n.
Proof. exact variable_period. Qed.
Print Assumptions C17_variable_cyclic.

(** A parameter read at t + k N has the value it has at t. *)
Theorem C17_parameter_cyclic :
  forall o t k s c n,
  parameter_value o (Some (t + k * Z.of_nat (List.length (o_block o)))%Z) s c n =
  parameter_value o (Some t) s c n.
Proof. exact parameter_period. Qed.
Print Assumptions C17_parameter_cyclic.

(** Inside the block a parameter is read at the t-th timestep of the block. *)
Theorem C17_parameter_in_block :
  forall o t s c n a, o_cycle o = true -> (0 <= t)%Z -> nth_error (o_block o) (Z.to_nat t) = Some a ->
  parameter_value o (Some t) s c n =
  (d <- get_data (o_database o) c n ;; get_value d (Some a) s (o_tree_node o)).
Proof. exact parameter_in_block. Qed.
Print Assumptions C17_parameter_in_block.

(** Inside the block a variable is looked up at t itself. *)
Theorem C17_variable_in_block :
  forall o st t s c n, o_cycle o = true -> (0 <= t < Z.of_nat (List.length (o_block o)))%Z ->
  get_component_variable o st (Some t) s c n =
  match dget tk_eqb {| tk_component := c; tk_variable := n; tk_time := Some t; tk_scenario := s |}
          (st_variables st) with
  | Some i => Ok i | None => Err KeyError end.
Proof. exact variable_in_block. Qed.
Print Assumptions C17_variable_in_block.

Example C17_example :
  parameter_value exp_settings (Some (-1)%Z) None "G" "pmax" = Ok (nz 200) /\
  parameter_value exp_settings (Some 4%Z) None "G" "pmax" = Ok (nz 100) /\
  get_component_variable exp_settings exp_built (Some (-1)%Z) (Some 0%Z) "G" "p" = Ok 2%nat /\
  get_component_variable exp_settings exp_built (Some 1%Z) (Some 0%Z) "G" "p" = Ok 2%nat /\
  get_component_variable exp_settings exp_built (Some 0%Z) (Some 0%Z) "G" "p" = Ok 0%nat.
Proof. vm_compute. auto. Qed.

(** ** C19 *)

(** A row made for a linear form is satisfied exactly when the form's value is within bounds. *)
Theorem C19_row_means_bounds :
  forall o st t s name lb ub e row q,
  make_constraint o st t s name lb ub e = Ok row -> le_constant e = Fin q ->
  forall y x, reads o st y x ->
  (row_sat y row <-> exists v, le_value x e = Some v /\ at_least lb v /\ at_most ub v).
Proof. exact make_constraint_sat. Qed.
Print Assumptions C19_row_means_bounds.

(** A row is made exactly when every variable of the form exists. *)
Theorem C19_row_made :
  forall o st t s name lb ub e,
  (exists row, make_constraint o st t s name lb ub e = Ok row) <->
  Forall (fun kt => exists i, get_solver_var o st (fst kt) = Ok i) (le_terms e).
Proof. exact make_constraint_ok. Qed.
Print Assumptions C19_row_made.

(** 2 p[0] + 3 p[2] + 4 with a block of two steps: one column with coefficient 5 *)
Definition exp_key (t : Z) : term_key :=
  {| tk_component := "G"; tk_variable := "p"; tk_time := Some t; tk_scenario := Some 0%Z |}.
Definition exp_form : lin_expr :=
  {| le_terms := [(exp_key 0, nz 2); (exp_key 2, nz 3)]; le_constant := nz 4 |}.
Example C19_example :
  exists row, make_constraint exp_settings exp_built 0 0 "c" NInf (nz 10) exp_form = Ok row /\
    sr_coefs row = [(0%nat, nz 5)] /\ sr_lb row = NInf /\ sr_ub row = nz 6.
Proof. eexists. split; [vm_compute; reflexivity|]. vm_compute. auto. Qed.

(** ** C20 *)

(** One row per constraint and per timestep and scenario on which its expression depends, in order. *)
Theorem C20_rows_of_expressions :
  forall o st, good_problem o -> build_problem o = Ok st ->
  Forall2 (fun i row => let '(c, k, t, s) := i in
      sr_name row = (co_id c ++ "_" ++ c_name k ++ "_t" ++ string_of_Z t ++ "_s" ++ string_of_Z s)%string)
    (row_instances o) (s_rows (st_solver st)).
Proof. exact rows_named. Qed.
Print Assumptions C20_rows_of_expressions.

(** So one row per constraint and per timestep and scenario on which it depends, in order, when the
    bounds depend on nothing on which the expression does not.  Missing for C20: a bound may
    depend on more than the expression ([C20_refuted]). *)
Theorem C20_rows_partial :
  forall o st, good_problem o -> build_problem o = Ok st ->
  (forall c k, In c (all_components (o_network o)) -> In k (get_constraints (o_selection o) (co_model c)) ->
     bounds_follow (o_network o) (co_id c) k) ->
  Forall2 (fun i row => let '(c, k, t, s) := i in
      sr_name row = (co_id c ++ "_" ++ c_name k ++ "_t" ++ string_of_Z t ++ "_s" ++ string_of_Z s)%string)
    (constraint_instances o) (s_rows (st_solver st)).
Proof. intros o st Hg Hb HB. rewrite <- (rows_of_instances o HB). exact (rows_named o st Hg Hb). Qed.
Print Assumptions C20_rows_partial.

Example C20_example :
  good_problem exp_settings /\ build_problem exp_settings = Ok exp_built /\
  (forall c k, In c (all_components (o_network exp_settings)) ->
     In k (get_constraints (o_selection exp_settings) (co_model c)) ->
     bounds_follow (o_network exp_settings) (co_id c) k) /\
  List.length (constraint_instances exp_settings) = 12%nat.
Proof. split; [exact exp_good|]. split; [exact exp_builds|]. split; [exact exp_follow|]. vm_compute. reflexivity. Qed.
Example C20_rows_of_expressions_example :
  good_problem limited_settings /\ build_problem limited_settings = Ok limited_built /\
  List.length (row_instances limited_settings) = 1%nat /\
  map sr_name (s_rows (st_solver limited_built)) =
    map (fun i => let '(c, k, t, s) := i in
           (co_id c ++ "_" ++ c_name k ++ "_t" ++ string_of_Z t ++ "_s" ++ string_of_Z s)%string) (row_instances limited_settings).
Proof. split; [exact limited_good|]. split; [exact limited_builds|]. vm_compute. auto. Qed.

(** A constraint whose bound varies in time and whose expression does not has a single row. *)
Theorem C20_refuted :
  exists o st, good_problem o /\ build_problem o = Ok st /\
  List.length (constraint_instances o) = 2%nat /\ List.length (s_rows (st_solver st)) = 1%nat.
Proof.
  exists limited_settings, limited_built. split; [exact limited_good|]. split; [exact limited_builds|].
  vm_compute. auto.
Qed.
Print Assumptions C20_refuted.

(** ** C21 *)

(** The value of the solver's objective is the sum, over the components' objectives, of the
    linear forms obtained from them. *)
Theorem C21_objective_adds_forms :
  forall o st st', NoDup (map fst (s_objective (st_solver st))) -> create_objectives o st = Ok st' ->
  exists forms,
    Forall2 (fun ce form => exists i ex,
        instantiate st (modify_expression (o_risk o) (snd ce)) (co_id (fst ce)) = Ok i /\
        context_expand o i = Ok ex /\ context_linearize o ex None None = Ok form)
      (contributions o) forms /\
    forall y x, reads o st y x ->
    objective_value y (st_solver st') =
    olift2 Qcplus (objective_value y (st_solver st)) (osum (map (le_value x) forms)).
Proof. exact create_objectives_value. Qed.
Print Assumptions C21_objective_adds_forms.

(** The value of the built problem's objective is the sum of the values of the components'
    objective expressions, up to terms below 1e-16, no more than the decisions they mention. *)
Theorem C21_objective_is_sum :
  forall o st, good_problem o -> build_problem o = Ok st ->
  exists dropped, few (list_sum (map (contribution_mentions o) (contributions o))) dropped /\
  forall x y t s, admissible_decisions o x -> represents o st y x ->
  exists v, osum (map (contribution_value o x t s) (contributions o)) = Some v /\
    olift2 Qcplus (objective_value y (st_solver st)) (terms_value (read (world o x) t s) dropped) = Some v.
Proof. exact objective_meaning. Qed.
Print Assumptions C21_objective_is_sum.

(** 7/2 for each of the four instances of p, 3 for inv *)
Example C21_example :
  good_problem exp_settings /\ build_problem exp_settings = Ok exp_built /\
  objective_value (fun i => Z2Qc (Z.of_nat i)) (st_solver exp_built) = Some (Z2Qc 33).
Proof. split; [exact exp_good|]. split; [exact exp_builds|]. vm_compute. reflexivity. Qed.

(** ** C22 *)

(** When no node and component share an id: every instance has a solver variable, returned for
    every step that wraps to its own; only existing instances are found; different instances have
    different solver variables; every solver variable is that of an instance. *)
Theorem C22_variable_reads_partial :
  forall o st, usable_block o -> distinct_ids (o_network o) -> named_network (o_network o) ->
  build_problem o = Ok st ->
  (forall c v t s, instance_of o c v t s ->
     exists i sv, nth_error (s_vars (st_solver st)) i = Some sv /\
       sv_name sv = solver_variable_name o (co_id c) (v_name v) t s /\
       forall t', wrapped o t' = t -> get_component_variable o st t' s (co_id c) (v_name v) = Ok i) /\
  (forall t s cid n i, get_component_variable o st t s cid n = Ok i ->
     exists c v, instance_of o c v (wrapped o t) s /\ co_id c = cid /\ v_name v = n) /\
  (forall t s cid n t' s' cid' n' i,
     get_component_variable o st t s cid n = Ok i -> get_component_variable o st t' s' cid' n' = Ok i ->
     cid = cid' /\ n = n' /\ wrapped o t = wrapped o t' /\ s = s') /\
  (forall i sv, nth_error (s_vars (st_solver st)) i = Some sv ->
     exists c v t s, instance_of o c v t s /\ get_component_variable o st t s (co_id c) (v_name v) = Ok i).
Proof. exact reads_variable. Qed.
Print Assumptions C22_variable_reads_partial.

Lemma exp_named : named_network (o_network exp_settings).
Proof. intros c Hc. destruct exp_good as (_ & _ & _ & _ & _ & H & _). exact (proj1 (H c Hc)). Qed.
Lemma exp_distinct : distinct_ids (o_network exp_settings).
Proof. apply exp_good. Qed.
Example C22_example :
  usable_block exp_settings /\ distinct_ids (o_network exp_settings) /\ named_network (o_network exp_settings) /\
  instance_of exp_settings exp_g (exp_variable "p" time_and_scenario (Some (Param "pmax")) OPERATIONAL)
    (Some 1%Z) (Some 1%Z) /\
  get_component_variable exp_settings exp_built (Some 7%Z) (Some 1%Z) "G" "p" = Ok 3%nat /\
  get_component_variable exp_settings exp_built None None "G" "inv" = Ok 4%nat.
Proof.
  split; [apply exp_good|]. split; [exact exp_distinct|]. split; [exact exp_named|].
  split; [|vm_compute; auto]. split; [vm_compute; auto|]. split; [vm_compute; auto|]. split; cbn; split; auto; lia.
Qed.

(** A node and a component may have the same id: then one solver variable is never read. *)
Definition shared_settings : settings := {|
  o_network := add_component {| co_model := exp_holder ["p"] None []; co_id := "X" |}
                 (add_node {| co_model := exp_holder ["p"] None []; co_id := "X" |} (new_network "net"));
  o_database := []; o_block := [0%Z]; o_scenarios := 1; o_cycle := true; o_selection := MergedProblem;
  o_risk := UniformRisk; o_tree_node := ""; o_full_names := true |}.
Theorem C22_refuted :
  exists o st, built_network (o_network o) /\ named_network (o_network o) /\ usable_block o /\
  build_problem o = Ok st /\ List.length (s_vars (st_solver st)) = 2%nat /\
  forall t s c n, get_component_variable o st t s c n <> Ok 0%nat.
Proof.
  exists shared_settings.
  destruct (build_problem shared_settings) as [st|] eqn:E; [|vm_compute in E; discriminate].
  exists st. split; [apply bn_component, bn_node, bn_new|].
  split. { intros c [<-|[<-|[]]]; (split; [solve_named|]; split; [solve_named|]; split; [solve_named|];
           split; [solve_named|]; split; solve_named). }
  split; [split; [discriminate|reflexivity]|]. split; [reflexivity|].
  vm_compute in E. assert (Hst : st = {| st_variables := st_variables st; st_infos := st_infos st;
    st_ports := st_ports st; st_solver := st_solver st |}) by (destruct st; reflexivity).
  injection E as E. subst st. clear Hst. split; [reflexivity|].
  intros t s c n H. unfold get_component_variable in H. inv_bind H. cbn [st_variables dget] in H.
  destruct (tk_eqb _ _); discriminate.
Qed.
Print Assumptions C22_refuted.

(** ** C23 *)

(** With full names and ids and names that do not extend one another by an underscore, solver
    names are unique and the recorded column is the variable's position.  Missing for C23: other
    ids and names, and short names ([C23_refuted]). *)
Theorem C23_columns_partial :
  forall o st, o_full_names o = true -> names_apart o -> distinct_ids (o_network o) ->
  named_network (o_network o) -> build_problem o = Ok st ->
  NoDup (map sv_name (s_vars (st_solver st))) /\
  forall i sv, nth_error (s_vars (st_solver st)) i = Some sv ->
  exists info, dget String.eqb (sv_name sv) (st_infos st) = Some info /\ vi_column info = i.
Proof. exact (fun o st Hf Ha Hd Hn => columns_positions o st Hd Hn (names_unique o Hf Ha Hd Hn)). Qed.
Print Assumptions C23_columns_partial.

Lemma not_extends_short a b : (String.length b < 2 + String.length a)%nat ->
  b <> (a ++ "_")%string -> ~ extends a b.
Proof.
  intros Hl Hne [z Hz]. destruct z as [|x z]; [contradiction|]. subst b. revert Hl. clear.
  induction a as [|y a IH]; cbn in *; [lia|]. intros H. apply IH. lia.
Qed.
Example C23_example :
  o_full_names exp_settings = true /\ names_apart exp_settings /\
  map sv_name (s_vars (st_solver exp_built)) = ["G_p_t0_s0"; "G_p_t0_s1"; "G_p_t1_s0"; "G_p_t1_s1"; "G_inv"] /\
  map (fun kv => vi_column (snd kv)) (st_infos exp_built) = [0; 1; 2; 3; 4]%nat.
Proof.
  split; [reflexivity|]. split; [|vm_compute; auto].
  intros c Hc. cbn in Hc. destruct Hc as [<-|[<-|[<-|[]]]]; (split; [discriminate|]); split.
  1,3,5: intros c' Hc'; cbn in Hc'; destruct Hc' as [<-|[<-|[<-|[]]]]; apply not_extends_short; cbn; (lia || discriminate).
  - intros v v' [].
  - intros v v' Hv Hv'. cbn in Hv, Hv'. destruct Hv as [<-|[<-|[]]], Hv' as [<-|[<-|[]]]; cbn; intros [z Hz]; discriminate.
  - intros v v' [].
Qed.

(** Components "a_b" with variable "c" and "a" with variables "b_c", "d": two solver variables
    have the same name and the last one, in position 2, is recorded as column 1. *)
Definition clash_settings : settings := {|
  o_network := add_component {| co_model := exp_holder ["b_c"; "d"] None []; co_id := "a" |}
                 (add_component {| co_model := exp_holder ["c"] None []; co_id := "a_b" |} (new_network "net"));
  o_database := []; o_block := [0%Z]; o_scenarios := 1; o_cycle := true; o_selection := MergedProblem;
  o_risk := UniformRisk; o_tree_node := ""; o_full_names := true |}.
Theorem C23_refuted :
  exists o st, built_network (o_network o) /\ distinct_ids (o_network o) /\ o_full_names o = true /\
  build_problem o = Ok st /\
  map sv_name (s_vars (st_solver st)) = ["a_b_c"; "a_b_c"; "a_d"] /\
  option_map vi_column (dget String.eqb "a_d" (st_infos st)) = Some 1%nat.
Proof.
  exists clash_settings.
  destruct (build_problem clash_settings) as [st|] eqn:E; [|vm_compute in E; discriminate].
  exists st. split; [apply bn_component, bn_component, bn_new|].
  split; [unfold distinct_ids; vm_compute; solve_nodup|]. split; [reflexivity|]. split; [reflexivity|].
  vm_compute in E. injection E as <-. vm_compute. auto.
Qed.
Print Assumptions C23_refuted.

(** ** C24 *)

(** Every solver variable of a built problem belongs to an instance of a variable; its bounds are
    the values of the model's bounds at that timestep and scenario, the lower one at most the
    upper one; a boolean variable has bounds 0 and 1.  Missing for C24: numbers that are not
    numbers ([C24_refuted]). *)
Theorem C24_bounds_partial :
  forall o st, usable_block o -> distinct_ids (o_network o) -> named_network (o_network o) ->
  built_network (o_network o) -> good_connections (o_network o) -> finite_values o ->
  build_problem o = Ok st ->
  forall i sv, nth_error (s_vars (st_solver st)) i = Some sv ->
  exists c v t s, instance_of o c v t s /\
    get_component_variable o st t s (co_id c) (v_name v) = Ok i /\
    (good_variable_bound (v_lower v) -> good_variable_bound (v_upper v) ->
     match v_type v with
     | CONTINUOUS => bound_is o (co_id c) NInf (v_lower v) t s (sv_lb sv) /\
                     bound_is o (co_id c) PInf (v_upper v) t s (sv_ub sv) /\
                     num_le (sv_lb sv) (sv_ub sv) /\ sv_integer sv = false
     | INTEGER => bound_is o (co_id c) NInf (v_lower v) t s (sv_lb sv) /\
                  bound_is o (co_id c) PInf (v_upper v) t s (sv_ub sv) /\
                  num_le (sv_lb sv) (sv_ub sv) /\ sv_integer sv = true
     | BOOLEAN => sv_lb sv = n0 /\ sv_ub sv = n1 /\ sv_integer sv = true
     end).
Proof. exact variable_bounds. Qed.
Print Assumptions C24_bounds_partial.

Example C24_example :
  good_connections (o_network exp_settings) /\ finite_values exp_settings /\
  map sv_ub (s_vars (st_solver exp_built)) = [nz 100; nz 100; nz 200; nz 200; PInf] /\
  Forall (fun c => Forall (fun v => good_variable_bound (v_lower v) /\ good_variable_bound (v_upper v))
                     (get_variables MergedProblem (co_model c))) (all_components (o_network exp_settings)).
Proof.
  destruct exp_good as (_ & _ & _ & _ & _ & _ & H1 & H2 & _). split; [exact H1|]. split; [exact H2|].
  split; [vm_compute; reflexivity|]. apply Forall_forall. intros c Hc. apply Forall_forall. intros v Hv.
  cbn in Hc. destruct Hc as [<-|[<-|[<-|[]]]]; cbn in Hv; try contradiction.
  destruct Hv as [<-|[<-|[]]]; split; intros e [= <-];
    first [left; eexists; split; [reflexivity|discriminate] | right; split; solve_nodes].
Qed.
(** Inverted bounds are refused. *)
Definition bounded_settings (v : num) : settings :=
  lone_settings (exp_holder ["p"] (Some (Param "pmax")) [exp_parameter "pmax" constant_index])
    [(("G", "pmax"), ConstantData v)].
Example C24_inverted_refused : build_problem (bounded_settings (nz (-1))) = Err ValueError.
Proof. vm_compute. reflexivity. Qed.

(** An upper bound read from data that is not a number is sent to the solver. *)
Theorem C24_refuted :
  exists o st sv, distinct_ids (o_network o) /\ named_network (o_network o) /\ built_network (o_network o) /\
  build_problem o = Ok st /\ s_vars (st_solver st) = [sv] /\ ~ num_le (sv_lb sv) (sv_ub sv).
Proof.
  exists (bounded_settings NaN).
  destruct (build_problem (bounded_settings NaN)) as [st|] eqn:E; [|vm_compute in E; discriminate].
  exists st. vm_compute in E. injection E as <-. eexists.
  split; [unfold distinct_ids; vm_compute; solve_nodup|].
  split. { intros c [<-|[]]. split; [solve_named|]; split; [solve_named|]; split; [solve_named|];
           split; [solve_named|]; split; solve_named. }
  split; [apply bn_component, bn_new|]. split; [reflexivity|]. split; [reflexivity|]. intros [].
Qed.
Print Assumptions C24_refuted.

(** ** C27 *)

(** What is registered for a field of a port is, in the order of connections, the definitions the
    connections bring, each in the context of the component that defines it. *)
Theorem C27_fields_registered :
  forall o ports, built_network (o_network o) ->
  (forall k, In k (n_connections (o_network o)) ->
     named_model (co_model (pr_component (pc_port1 k))) /\ named_model (co_model (pr_component (pc_port2 k)))) ->
  register_connections o = Ok ports ->
  forall c p f,
  Forall2 (fun d e => add_component_context (fst d) (snd d) = Ok e)
    (connected (o_network o) c p f)
    (match dget pfk_eqb (c, (p, f)) ports with Some l => l | None => [] end).
Proof. exact connections_registered. Qed.
Print Assumptions C27_fields_registered.

(** Registration succeeds when the definitions can be put in context. *)
Theorem C27_registration_succeeds :
  forall o, built_network (o_network o) ->
  (forall k, In k (n_connections (o_network o)) ->
     named_model (co_model (pr_component (pc_port1 k))) /\ named_model (co_model (pr_component (pc_port2 k)))) ->
  (forall k f d, In k (n_connections (o_network o)) -> In d (brought k f) ->
     no_component_name (snd d) /\ no_empty_sum (snd d)) ->
  exists ports, register_connections o = Ok ports.
Proof. exact register_connections_ok. Qed.
Print Assumptions C27_registration_succeeds.

(** the node sees both definitions, each component its own *)
Example C27_example :
  exists ports, register_connections exp_settings = Ok ports /\
  (forall k, In k (n_connections (o_network exp_settings)) ->
     named_model (co_model (pr_component (pc_port1 k))) /\ named_model (co_model (pr_component (pc_port2 k)))) /\
  connected (o_network exp_settings) "N" "balance" "flow" = [("G", Var "p"); ("D", Neg (Param "demand"))] /\
  dget pfk_eqb ("N", ("balance", "flow")) ports = Some [CVar "G" "p"; Neg (CParam "D" "demand")] /\
  dget pfk_eqb ("D", ("balance", "flow")) ports = Some [Neg (CParam "D" "demand")].
Proof.
  eexists. split; [vm_compute; reflexivity|]. split; [|vm_compute; auto].
  intros k Hk. destruct exp_good as (_ & _ & _ & _ & _ & _ & H & _). split; apply (H k Hk).
Qed.

(** ** C45 *)

(** An assignment of the solver's variables satisfies all rows exactly when the decisions it
    represents satisfy every constraint of every component at the timesteps and scenarios for which
    its rows stand, up to terms below 1e-16, no more in each row than the decisions its constraint
    mentions. *)
Theorem C45_constraints :
  forall o st, good_problem o -> build_problem o = Ok st ->
  exists drops, Forall2 (fun i d => few (instance_mentions o i) d) (row_instances o) drops /\
  forall x y, admissible_decisions o x -> represents o st y x ->
  (Forall (row_sat y) (s_rows (st_solver st)) <->
   Forall2 (fun i d => let '(c, k, _, _) := i in
       forall t s, stands_for o i t s ->
       holds_without d (component_world o x (co_id c)) (c_expr k) (c_lower k) (c_upper k) t s)
     (row_instances o) drops).
Proof. exact problem_meaning. Qed.
Print Assumptions C45_constraints.

(** Row by row: the terms left out of a row depend on the problem only, and the row is satisfied exactly when
    the constraint holds without them at the timesteps and scenarios for which it stands. *)
Theorem C45_each_row :
  forall o st, good_problem o -> build_problem o = Ok st ->
  exists drops, List.length drops = List.length (s_rows (st_solver st)) /\
  Forall2 (fun i dr => let '(c, k, t0, s0) := i in
      few (instance_mentions o i) (fst dr) /\
      sr_name (snd dr) = (co_id c ++ "_" ++ c_name k ++ "_t" ++ string_of_Z t0 ++ "_s" ++ string_of_Z s0)%string /\
      forall x y, admissible_decisions o x -> represents o st y x -> forall t s, stands_for o i t s ->
      (row_sat y (snd dr) <-> holds_without (fst dr) (component_world o x (co_id c)) (c_expr k) (c_lower k) (c_upper k) t s))
    (row_instances o) (combine drops (s_rows (st_solver st))).
Proof. exact problem_rows. Qed.
Print Assumptions C45_each_row.

(** The rows stand for every timestep of the block and every scenario, for the constraints whose bounds depend
    on nothing on which the expression does not.  Missing for C45: the other constraints ([C45_refuted]). *)
Theorem C45_rows_cover_partial :
  forall o c k t s, In c (all_components (o_network o)) -> In k (get_constraints (o_selection o) (co_model c)) ->
  (0 <= t < Z.of_nat (List.length (o_block o)))%Z -> (0 <= s < o_scenarios o)%Z ->
  bounds_follow (o_network o) (co_id c) k ->
  exists t0 s0, In (c, k, t0, s0) (row_instances o) /\ stands_for o (c, k, t0, s0) t s.
Proof.
  exact (fun o c k t s Hc Hk Ht Hs HB => ex_intro _ _ (ex_intro _ _ (conj (row_cover o c k t s Hc Hk Ht Hs) (row_stands o c k t s HB)))).
Qed.
Print Assumptions C45_rows_cover_partial.

(** When that is so of all constraints, all rows are satisfied exactly when every constraint holds at every
    timestep and in every scenario. *)
Theorem C45_constraints_partial :
  forall o st, good_problem o -> build_problem o = Ok st ->
  (forall c k, In c (all_components (o_network o)) -> In k (get_constraints (o_selection o) (co_model c)) ->
     bounds_follow (o_network o) (co_id c) k) ->
  exists drops, Forall2 (fun i d => few (instance_mentions o i) d) (constraint_instances o) drops /\
  forall x y, admissible_decisions o x -> represents o st y x ->
  (Forall (row_sat y) (s_rows (st_solver st)) <->
   Forall2 (fun i d => let '(c, k, _, _) := i in
       forall t s, stands_for o i t s ->
       holds_without d (component_world o x (co_id c)) (c_expr k) (c_lower k) (c_upper k) t s)
     (constraint_instances o) drops).
Proof. intros o st Hg Hb HB. rewrite <- (rows_of_instances o HB). exact (problem_meaning o st Hg Hb). Qed.
Print Assumptions C45_constraints_partial.

(** The instances stand for every timestep of the block and every scenario. *)
Theorem C45_instances_cover :
  forall o c k t s, In c (all_components (o_network o)) -> In k (get_constraints (o_selection o) (co_model c)) ->
  (0 <= t < Z.of_nat (List.length (o_block o)))%Z -> (0 <= s < o_scenarios o)%Z ->
  exists t0 s0, In (c, k, t0, s0) (constraint_instances o) /\ stands_for o (c, k, t0, s0) t s.
Proof. exact instances_cover. Qed.
Print Assumptions C45_instances_cover.

(** Every decision is represented by an assignment of the solver's variables, and conversely. *)
Theorem C45_decisions_represented :
  forall o st, usable_block o -> distinct_ids (o_network o) -> named_network (o_network o) ->
  build_problem o = Ok st ->
  (forall x, admissible_decisions o x -> exists y, represents o st y x) /\
  (forall y, exists x, admissible_decisions o x /\ represents o st y x).
Proof.
  exact (fun o st Hu Hd Hn Hb => conj (represented_exists o st Hu Hd Hn Hb) (decisions_exist o st Hu Hd Hn Hb)).
Qed.
Print Assumptions C45_decisions_represented.

(** The objective is the mathematical one, up to terms below 1e-16, no more than the decisions it mentions. *)
Theorem C45_objective :
  forall o st, good_problem o -> build_problem o = Ok st ->
  exists dropped, few (list_sum (map (contribution_mentions o) (contributions o))) dropped /\
  forall x y t s, admissible_decisions o x -> represents o st y x ->
  exists v, osum (map (contribution_value o x t s) (contributions o)) = Some v /\
    olift2 Qcplus (objective_value y (st_solver st)) (terms_value (read (world o x) t s) dropped) = Some v.
Proof. exact objective_meaning. Qed.
Print Assumptions C45_objective.

(** The hypotheses hold for the example; its first rows are the balance of the node. *)
Example C45_example :
  good_problem exp_settings /\ build_problem exp_settings = Ok exp_built /\
  (forall c k, In c (all_components (o_network exp_settings)) ->
     In k (get_constraints (o_selection exp_settings) (co_model c)) ->
     bounds_follow (o_network exp_settings) (co_id c) k) /\
  map (fun r => (sr_name r, sr_lb r, sr_coefs r)) (firstn 2 (s_rows (st_solver exp_built))) =
    [("N_balance_t0_s0", nz 50, [(0%nat, n1)]); ("N_balance_t0_s1", nz 55, [(1%nat, n1)])] /\
  map (fun i => instance_mentions exp_settings i) (firstn 2 (constraint_instances exp_settings)) = [1%nat; 1%nat] /\
  map (contribution_mentions exp_settings) (contributions exp_settings) = [4%nat; 1%nat] /\
  contributions exp_settings =
    [(exp_g, ScenOp (AllSum (Mul (Param "cost") (Var "p"))) Expectation); (exp_g, Mul (nzl 3) (Var "inv"))].
Proof.
  split; [exact exp_good|]. split; [exact exp_builds|]. split; [exact exp_follow|]. vm_compute. auto.
Qed.

(** inv <= limit with limit 100 then 50: inv = 75 satisfies the rows, not the constraint. *)
Theorem C45_refuted :
  exists o st x y, good_problem o /\ build_problem o = Ok st /\ admissible_decisions o x /\ represents o st y x /\
  Forall (row_sat y) (s_rows (st_solver st)) /\
  exists c k, In c (all_components (o_network o)) /\ In k (get_constraints (o_selection o) (co_model c)) /\
    ~ constraint_holds (component_world o x (co_id c)) (c_expr k) (c_lower k) (c_upper k) 1 0.
Proof.
  exists limited_settings, limited_built, (fun _ _ _ _ => Z2Qc 75), (fun _ => Z2Qc 75).
  split; [exact limited_good|]. split; [exact limited_builds|]. split; [split; auto|].
  split; [intros c v t s i _ _ t' s'; reflexivity|].
  split. { repeat constructor. exists (Z2Qc 75). split; [vm_compute; reflexivity|]. split; [exact I|vm_compute; discriminate]. }
  eexists. eexists. split; [left; reflexivity|]. split; [left; reflexivity|].
  intros (v & Hv & _ & q & Hq & Hle). vm_compute in Hv, Hq. injection Hv as <-. injection Hq as <-.
  vm_compute in Hle. apply Hle. reflexivity.
Qed.
Print Assumptions C45_refuted.
