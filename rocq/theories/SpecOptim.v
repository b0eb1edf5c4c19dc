(** Specification vocabulary for problem construction: what a solver problem means, and the
    mathematical problem described by a network with data. *)
From Verif Require Import Base Expr Visitors LinearExpr Model Study Strategy Optim SpecExpr SpecSyntax
  SpecVisitors SpecExpansion SpecLinear SpecModel.

(** ** Meaning of the solver's objects, [y] the values of its variables by position *)
Definition coefs_value (y : nat -> Qc) (d : dict nat num) : option Qc :=
  osum (map (fun ic => option_map (fun c => c * y (fst ic))%Qc (nval (snd ic))) d).
Definition at_least (lb : num) (v : Qc) : Prop :=
  match lb with NInf => True | Fin q => (q <= v)%Qc | _ => False end.
Definition at_most (ub : num) (v : Qc) : Prop :=
  match ub with PInf => True | Fin q => (v <= q)%Qc | _ => False end.
Definition row_sat (y : nat -> Qc) (r : solver_row) : Prop :=
  exists v, coefs_value y (sr_coefs r) = Some v /\ at_least (sr_lb r) v /\ at_most (sr_ub r) v.
Definition objective_value (y : nat -> Qc) (s : solver) : option Qc :=
  olift2 Qcplus (nval (s_offset s)) (coefs_value y (s_objective s)).
(** the assignment of linear forms that reads the solver's variables *)
Definition reads (o : settings) (st : state) (y : nat -> Qc) (x : assignment) : Prop :=
  forall k i, get_solver_var o st k = Ok i -> x k = y i.

(** ** Blocks *)
Definition usable_block (o : settings) : Prop := o_block o <> [] /\ o_cycle o = true.

(** ** Networks *)
(** ids identify nodes and components *)
Definition distinct_ids (n : network) : Prop := NoDup (map co_id (all_components n)).
Definition named_network (n : network) : Prop :=
  forall c, In c (all_components n) -> named_model (co_model c).

(** ** Instances of variables: one per timestep and scenario on which the variable depends *)
Definition index_of (depends : bool) (n : Z) (i : option Z) : Prop :=
  match i with
  | Some z => depends = true /\ (0 <= z < n)%Z
  | None => depends = false
  end.
Definition instance_of (o : settings) (c : component) (v : variable) (t s : option Z) : Prop :=
  In c (all_components (o_network o)) /\
  In v (get_variables (o_selection o) (co_model c)) /\
  index_of (ix_time (v_structure v)) (Z.of_nat (List.length (o_block o))) t /\
  index_of (ix_scenario (v_structure v)) (o_scenarios o) s.
(** the step of the block meant by any integer step *)
Definition wrapped (o : settings) (t : option Z) : option Z :=
  option_map (fun z => z mod Z.of_nat (List.length (o_block o)))%Z t.

(** ** Ports: the definitions connected to a field, in the order of connections, each with the id
    of the component that defines it *)
Definition definition_of (r : port_ref) (f : string) : list (string * expr) :=
  match dget String.eqb (pr_port r) (m_ports (co_model (pr_component r))),
        dget pfi_eqb (pr_port r, f) (m_port_definitions (co_model (pr_component r))) with
  | Some p, Some d => if existsb (String.eqb f) (pt_fields (mp_type p))
                      then [(co_id (pr_component r), d_definition d)] else []
  | _, _ => []
  end.
(** the definitions of field [f] that connection [k] brings: that of port1 or that of port2 *)
Definition brought (k : ports_connection) (f : string) : list (string * expr) :=
  definition_of (pc_port1 k) f ++ definition_of (pc_port2 k) f.
Definition is_port (r : port_ref) (c p : string) : bool :=
  String.eqb (co_id (pr_component r)) c && String.eqb (pr_port r) p.
Definition connected (n : network) (c p f : string) : list (string * expr) :=
  flat_map (fun k => (if is_port (pc_port1 k) c p then brought k f else []) ++
                     (if is_port (pc_port2 k) c p then brought k f else []))
    (n_connections n).

(** ** The mathematical problem *)
(** value of a parameter at a step of the block, in a scenario *)
Definition data_at (o : settings) (c n : string) (t s : Z) : option Qc :=
  match get_data (o_database o) c n,
        nth_error (o_block o) (Z.to_nat (t mod Z.of_nat (List.length (o_block o)))) with
  | Ok d, Some a =>
      match get_value d (Some a) (Some s) (o_tree_node o) with Ok (Fin q) => Some q | _ => None end
  | _, _ => None
  end.
(** decision variables have values [x component name timestep scenario] *)
Definition decisions : Type := string -> string -> Z -> Z -> Qc.
Definition world (o : settings) (x : decisions) : env := {|
  e_var := fun _ _ _ => 0%Qc; e_par := fun _ _ _ => None;
  e_cvar := x; e_cpar := data_at o;
  e_port := fun _ _ => [];
  e_T := Z.of_nat (List.length (o_block o)); e_S := o_scenarios o
|}.
(** the world as seen from component [c]: its own names, and what is connected to its ports *)
Definition component_world (o : settings) (x : decisions) (c : string) : env := {|
  e_var := x c; e_par := data_at o c;
  e_cvar := x; e_cpar := data_at o;
  e_port := fun p f => map (fun d => den (local_env (world o x) (fst d)) (snd d))
                         (connected (o_network o) c p f);
  e_T := Z.of_nat (List.length (o_block o)); e_S := o_scenarios o
|}.
(** the decisions repeat with the block, and are constant along the dimensions on which the
    variable does not depend *)
Definition admissible_decisions (o : settings) (x : decisions) : Prop :=
  (forall c n t s, x c n (t + Z.of_nat (List.length (o_block o)))%Z s = x c n t s) /\
  (forall c v, In c (all_components (o_network o)) -> In v (map snd (m_variables (co_model c))) ->
     (ix_time (v_structure v) = false -> forall t t' s, x (co_id c) (v_name v) t s = x (co_id c) (v_name v) t' s) /\
     (ix_scenario (v_structure v) = false -> forall t s s', x (co_id c) (v_name v) t s = x (co_id c) (v_name v) t s')).
(** the solver's variables have the values of the decisions *)
Definition represents (o : settings) (st : state) (y : nat -> Qc) (x : decisions) : Prop :=
  forall c v t s i, instance_of o c v t s ->
  get_component_variable o st t s (co_id c) (v_name v) = Ok i ->
  forall t' s', y i = x (co_id c) (v_name v) (odefault t' t) (odefault s' s).

(** the constraint holds once the terms [dropped] are taken out of its expression *)
Definition holds_without (dropped : list term) (E : env) (e lb ub : expr) (t s : Z) : Prop :=
  exists v w, den E e t s = Some v /\ terms_value (read E t s) dropped = Some w /\
    lower_ok E lb t s (v - w)%Qc /\ upper_ok E ub t s (v - w)%Qc.

(** how many decisions expression [e] of component [c] mentions, its own and those of the definitions
    connected to its ports *)
Definition decisions_mentioned (o : settings) (c : string) (e : expr) : nat :=
  let none : decisions := fun _ _ _ _ => 0%Qc in
  mentions (component_world o none c)
    (fun p f => list_sum (map (fun d => mentions (local_env (world o none) (fst d)) (fun _ _ => O) (snd d))
                            (connected (o_network o) c p f))) e.
(** the objective of a component in the problem: its value times the probability of the
    decision tree node *)
Definition risk_factor (r : risk) : option Qc :=
  match r with UniformRisk => Some 1%Qc | ExpectedValue p => nval p end.
Definition contributions (o : settings) : list (component * expr) :=
  flat_map (fun c => flat_map (fun e => match e with Some e => [(c, e)] | None => [] end)
                       (get_objectives (o_selection o) (co_model c)))
    (all_components (o_network o)).
Definition contribution_value (o : settings) (x : decisions) (t s : Z) (ce : component * expr) : option Qc :=
  olift2 Qcmult (risk_factor (o_risk o)) (den (component_world o x (co_id (fst ce))) (snd ce) t s).

Definition contribution_mentions (o : settings) (ce : component * expr) : nat :=
  decisions_mentioned o (co_id (fst ce)) (snd ce).

(** ** Dependence of a model's expression on a dimension; a name that is not declared may vary *)
Definition local_structure (n : network) (id : string) : structure_provider :=
  match get_component n id with
  | Ok c => model_structure_provider (m_parameters (co_model c)) (m_variables (co_model c))
  | Err e => model_structure_provider [] []
  end.
Definition may_vary (dim : indexing -> bool) (r : result indexing) : bool :=
  match r with Ok ix => dim ix | Err _ => true end.
Section Varies.
  Context (dim : indexing -> bool) (fixes_time fixes_scenario : bool) (sp : structure_provider)
    (ports : string -> string -> bool).
  (** [fixes_time]: an evaluation at fixed timesteps removes the dependence;
      [fixes_scenario]: an expectation or variance does *)
  Fixpoint varies (e : expr) : bool :=
    match e with
    | Neg a | TShift a _ | TSum a _ _ => varies a
    | TEval a _ | AllSum a => negb fixes_time && varies a
    | ScenOp a _ => negb fixes_scenario && varies a
    | Add l => existsb varies l
    | Mul a b | Div a b | Cmp a b _ => varies a || varies b
    | Var n => may_vary dim (get_variable_structure sp n)
    | Param n => may_vary dim (get_parameter_structure sp n)
    | PortField p f => ports p f
    | PortAgg a _ => varies a
    | CVar c n => may_vary dim (get_component_variable_structure sp c n)
    | CParam c n => may_vary dim (get_component_parameter_structure sp c n)
    | Lit _ => false
    | PVar _ _ _ _ | PParam _ _ _ _ => true
    end.
End Varies.
(** dependence of expression [e] of component [id], ports being what is connected to them *)
Definition varies_in (dim : indexing -> bool) (ft fs : bool) (n : network) (id : string) (e : expr) : bool :=
  varies dim ft fs (local_structure n id)
    (fun p f => existsb (fun d => varies dim ft fs (local_structure n (fst d)) (fun _ _ => false) (snd d))
                  (connected n id p f)) e.
Definition varies_in_time : network -> string -> expr -> bool := varies_in ix_time true false.
Definition varies_in_scenario : network -> string -> expr -> bool := varies_in ix_scenario false true.

(** the bounds depend on nothing on which the expression does not *)
Definition bounds_follow (n : network) (id : string) (k : constraint) : Prop :=
  (varies_in_time n id (c_lower k) || varies_in_time n id (c_upper k) = true ->
     varies_in_time n id (c_expr k) = true) /\
  (varies_in_scenario n id (c_lower k) || varies_in_scenario n id (c_upper k) = true ->
     varies_in_scenario n id (c_expr k) = true).

(** one row per timestep and scenario on which the constraint depends *)
Definition steps (depends : bool) (n : Z) : list Z := if depends then zrange 0 n else [0%Z].
Definition depends_on (varies : string -> expr -> bool) (c : component) (k : constraint) : bool :=
  varies (co_id c) (c_expr k) || varies (co_id c) (c_lower k) || varies (co_id c) (c_upper k).
Definition constraint_instances (o : settings) : list (component * constraint * Z * Z) :=
  flat_map (fun c => flat_map (fun k =>
      map (fun ts => (c, k, fst ts, snd ts))
        (list_prod (steps (depends_on (varies_in_time (o_network o)) c k) (Z.of_nat (List.length (o_block o))))
                   (steps (depends_on (varies_in_scenario (o_network o)) c k) (o_scenarios o))))
      (get_constraints (o_selection o) (co_model c)))
    (all_components (o_network o)).
(** those that have a row: the timesteps and scenarios on which the expression depends *)
Definition row_instances (o : settings) : list (component * constraint * Z * Z) :=
  flat_map (fun c => flat_map (fun k =>
      map (fun ts => (c, k, fst ts, snd ts))
        (list_prod (steps (varies_in_time (o_network o) (co_id c) (c_expr k)) (Z.of_nat (List.length (o_block o))))
                   (steps (varies_in_scenario (o_network o) (co_id c) (c_expr k)) (o_scenarios o))))
      (get_constraints (o_selection o) (co_model c)))
    (all_components (o_network o)).
Definition instance_mentions (o : settings) (i : component * constraint * Z * Z) : nat :=
  let '(c, k, _, _) := i in decisions_mentioned o (co_id c) (c_expr k).
(** the timesteps and scenarios for which an instance stands *)
Definition stands_for (o : settings) (i : component * constraint * Z * Z) (t s : Z) : Prop :=
  let '(c, k, t0, s0) := i in
  (depends_on (varies_in_time (o_network o)) c k = true -> t = t0) /\
  (depends_on (varies_in_scenario (o_network o)) c k = true -> s = s0).

(** ** Conditions on the expressions of a model *)
Definition no_comparison : expr -> Prop :=
  all_nodes (fun x => match x with Cmp _ _ _ => False | _ => True end).
Definition good_expression (e : expr) : Prop :=
  finite_literals e /\ aggregators_on_ports e /\ no_comparison e /\ well_nested True e.
Definition good_definition (e : expr) : Prop :=
  finite_literals e /\ no_comparison e /\ no_port e /\ no_eval e /\ no_scenario_operator e.
(** a bound: infinite of the right sign or made of finite numbers *)
Definition good_bound (inf : num) (e : expr) : Prop :=
  e = Lit inf \/ (finite_literals e /\ aggregators_on_ports e).
Definition good_constraint (k : constraint) : Prop :=
  good_expression (c_expr k) /\ good_bound NInf (c_lower k) /\ good_bound PInf (c_upper k).
Definition good_model (m : model) : Prop :=
  named_model m /\
  (forall k, In k (get_all_constraints m) -> good_constraint k) /\
  (forall e, m_operational m = Some e \/ m_investment m = Some e -> good_expression e) /\
  (forall f d, In (f, d) (m_port_definitions m) -> good_definition (d_definition d)).

(** every value read is a finite number *)
Definition finite_values (o : settings) : Prop :=
  forall c n d t s v, get_data (o_database o) c n = Ok d -> get_value d t s (o_tree_node o) = Ok v ->
  exists q, v = Fin q.

(** the situation of C45; data of components is checked by [build_problem] *)
Definition good_problem (o : settings) : Prop :=
  usable_block o /\ (1 <= o_scenarios o)%Z /\ risk_factor (o_risk o) <> None /\
  built_network (o_network o) /\ distinct_ids (o_network o) /\
  (forall c, In c (all_components (o_network o)) -> good_model (co_model c)) /\
  (forall k, In k (n_connections (o_network o)) ->
     good_model (co_model (pr_component (pc_port1 k))) /\ good_model (co_model (pr_component (pc_port2 k)))) /\
  finite_values o /\
  (forall c p, In c (map snd (n_nodes (o_network o))) -> In p (map snd (m_parameters (co_model c))) ->
     has_suitable_data (o_database o) (co_id c) p).

(** ** Bounds of variables *)
Definition num_le (a b : num) : Prop :=
  match a, b with
  | NaN, _ | _, NaN => False
  | NInf, _ | _, PInf => True
  | Fin p, Fin q => (p <= q)%Qc
  | _, _ => False
  end.
(** [v] is the value of bound [b] of component [c] at the variable's own timestep and scenario *)
Definition bound_is (o : settings) (c : string) (default : num) (b : option expr) (t s : option Z) (v : num) : Prop :=
  match b with
  | None => v = default
  | Some (Lit w) => v = w
  | Some e => exists q, v = Fin q /\
      forall x t' s', den (component_world o x c) e (odefault t' t) (odefault s' s) = Some q
  end.
(** bounds made of numbers, NaN excluded *)
Definition good_variable_bound (b : option expr) : Prop :=
  forall e, b = Some e -> (exists w, e = Lit w /\ w <> NaN) \/ (finite_literals e /\ aggregators_on_ports e).

(** ** Names: the solver's names join ids, names and indices with underscores *)
Definition extends (a b : string) : Prop := exists z, b = (a ++ "_" ++ z)%string.
Definition names_apart (o : settings) : Prop :=
  forall c, In c (all_components (o_network o)) -> co_id c <> EmptyString /\
  (forall c', In c' (all_components (o_network o)) -> ~ extends (co_id c) (co_id c')) /\
  (forall v v', In v (get_variables (o_selection o) (co_model c)) ->
     In v' (get_variables (o_selection o) (co_model c)) -> ~ extends (v_name v) (v_name v')).
Definition good_connections (n : network) : Prop :=
  forall k, In k (n_connections n) ->
    good_model (co_model (pr_component (pc_port1 k))) /\ good_model (co_model (pr_component (pc_port2 k))).
