(** Construction of the optimisation problem (src/andromede/simulation/optimization.py).
    Definitions only. *)
From Coq Require Import DecimalString.
From Verif Require Import Base Expr Visitors Expansion LinearExpr Linearize Model Study Strategy.

(** ** The solver object (ortools `pywraplp.Solver`, not part of the repository).
    A variable is identified by its position among the solver's variables.  Only the part used
    by optimization.py is modelled: creation of variables and rows, coefficients, bounds, the
    objective and its offset.  A coefficient that was never set is 0. *)
Record solver_var := { sv_name : string; sv_lb : num; sv_ub : num; sv_integer : bool }.
(** a row of the solver, made and filled at optimization.py:539-564 *)
Record solver_row := { sr_name : string; sr_lb : num; sr_ub : num; sr_coefs : dict nat num }.
(** the solver, filled at optimization.py:495-564 and 640-733 *)
Record solver := {
  s_vars : list solver_var;
  s_rows : list solver_row;
  s_objective : dict nat num;
  s_offset : num
}.
(** `Solver.CreateSolver(...)`, optimization.py:772 *)
Definition new_solver : solver := {| s_vars := []; s_rows := []; s_objective := []; s_offset := n0 |}.
(** `GetCoefficient`, optimization.py:512, 558 *)
Definition get_coefficient (d : dict nat num) (i : nat) : num :=
  match dget Nat.eqb i d with Some c => c | None => n0 end.
(** `SetCoefficient(v, GetCoefficient(v) + c)`, optimization.py:510-513 *)
Definition add_coefficient (d : dict nat num) (i : nat) (c : num) : dict nat num :=
  dset Nat.eqb i (nadd (get_coefficient d i) c) d.

(** an integer in an f-string, optimization.py:549, 627, 630 *)
Definition string_of_Z (z : Z) : string := NilZero.string_of_int (Z.to_int z).

(** optimization.py:131-142 `SolverVariableInfo` *)
Record var_info := { vi_name : string; vi_column : nat; vi_in_objective : bool }.

(** optimization.py:162-182: the settings held by `OptimizationContext`; [o_block] is
    `block.timesteps` (time_block.py), [o_cycle] tells whether the border management is CYCLE *)
Record settings := {
  o_network : network;
  o_database : database;
  o_block : list Z;
  o_scenarios : Z;
  o_cycle : bool;
  o_selection : selection;
  o_risk : risk;
  o_tree_node : string;
  o_full_names : bool
}.

(** optimization.py:184-188: the mutable part of `OptimizationContext`, with the solver.
    TimestepComponentVariableKey (48-58) has the same fields as a term key. *)
Record state := {
  st_variables : dict term_key nat;
  st_infos : dict string var_info;
  st_ports : dict port_field_key (list expr);
  st_solver : solver
}.
(** optimization.py:184-188 *)
Definition initial_state : state :=
  {| st_variables := []; st_infos := []; st_ports := []; st_solver := new_solver |}.
(** assignment to `connection_fields_expressions`, optimization.py:188, 295-305 *)
Definition set_ports (st : state) p : state :=
  {| st_variables := st_variables st; st_infos := st_infos st; st_ports := p; st_solver := st_solver st |}.
(** rows appended to the solver, optimization.py:549-564 *)
Definition set_rows (st : state) rows : state :=
  {| st_variables := st_variables st; st_infos := st_infos st; st_ports := st_ports st;
     st_solver := {| s_vars := s_vars (st_solver st); s_rows := rows;
                     s_objective := s_objective (st_solver st); s_offset := s_offset (st_solver st) |} |}.

(** optimization.py:218-219 *)
Definition block_length (o : settings) : Z := Z.of_nat (List.length (o_block o)).

(** optimization.py:236-240 `get_actual_block_timestep`, 246-250 `_manage_border_timesteps`;
    `t % 0` raises *)
Definition wrap_timestep (o : settings) (t : Z) : result Z :=
  if o_cycle o then
    if (block_length o =? 0)%Z then Err ZeroDivisionError else Ok (t mod block_length o)%Z
  else Err NotImplementedErr.

(** optimization.py:226-234 *)
Definition block_timestep_to_absolute_timestep (o : settings) (t : option Z) : result (option Z) :=
  match t with
  | None => Ok None
  | Some t =>
      i <- wrap_timestep o t ;;
      match nth_error (o_block o) (Z.to_nat i) with
      | Some a => Ok (Some a)
      | None => Err IndexError
      end
  end.

(** optimization.py:252-253 *)
Definition get_time_indices (o : settings) (ix : indexing) : list Z :=
  if ix_time ix then zrange 0 (block_length o) else zrange 0 1.
(** optimization.py:255-256 *)
Definition get_scenario_indices (o : settings) (ix : indexing) : list Z :=
  if ix_scenario ix then zrange 0 (o_scenarios o) else zrange 0 1.

(** optimization.py:61-70 `_get_parameter_value` *)
Definition parameter_value (o : settings) (t s : option Z) (c n : string) : result num :=
  d <- get_data (o_database o) c n ;;
  a <- block_timestep_to_absolute_timestep o t ;;
  get_value d a s (o_tree_node o).

(** optimization.py:73-106 `_make_value_provider` *)
Definition make_value_provider (o : settings) (t s : option Z) : value_provider := {|
  get_variable_value := fun _ => Err NotImplementedErr;
  get_parameter_value := fun _ => Err ValueError;
  get_component_variable_value := fun _ _ => Err NotImplementedErr;
  get_component_parameter_value := fun c n => parameter_value o t s c n
|}.
(** optimization.py:109-117 *)
Definition compute_expression_value (o : settings) (e : expr) (t s : option Z) : result num :=
  evaluate (make_value_provider o t s) e.

(** optimization.py:311-338 `_make_data_structure_provider` *)
Definition component_structure {A} (o : settings) (get : model -> dict string A) (f : A -> indexing)
  (c n : string) : result indexing :=
  comp <- get_component (o_network o) c ;;
  match dget String.eqb n (get (co_model comp)) with
  | Some a => Ok (f a)
  | None => Err KeyError
  end.
(** optimization.py:311-338 `_make_data_structure_provider` *)
Definition data_structure_provider (o : settings) : structure_provider := {|
  get_parameter_structure := fun _ => Err RuntimeErr;
  get_variable_structure := fun _ => Err RuntimeErr;
  get_component_variable_structure := component_structure o m_variables v_structure;
  get_component_parameter_structure := component_structure o m_parameters p_structure
|}.

(** optimization.py:384-418 `_make_constant_value_provider` *)
Definition constant_value_provider (o : settings) : value_provider := {|
  get_variable_value := fun _ => Err NotImplementedErr;
  get_parameter_value := fun _ => Err ValueError;
  get_component_variable_value := fun _ _ => Err NotImplementedErr;
  get_component_parameter_value := fun c n =>
    ix <- component_structure o m_parameters p_structure c n ;;
    if ix_time ix || ix_scenario ix then Err ValueError
    else parameter_value o None None c n
|}.

(** optimization.py:145-149 `float_to_int` *)
Definition float_to_int (v : num) : result Z :=
  match v with
  | Fin q => if Pos.eqb (Qden q) 1 then Ok (Qnum q) else Err ValueError
  | _ => Err ValueError
  end.

(** optimization.py:307-309 `evaluate_time_bound` *)
Definition evaluate_time_bound (o : settings) (e : expr) : result Z :=
  v <- evaluate (constant_value_provider o) e ;; float_to_int v.

(** optimization.py:340-348 `expand_operators` of the context *)
Definition context_expand (o : settings) (e : expr) : result expr :=
  expand_operators e {| timesteps_count := block_length o; scenarios_count := o_scenarios o |}
    (evaluate_time_bound o) (data_structure_provider o).

(** optimization.py:350-379 `linearize_expression` of the context *)
Definition context_linearize (o : settings) (e : expr) (t s : option Z) : result lin_expr :=
  linearize_expression e t s (Some (fun c n t s => parameter_value o t s c n)).

(** optimization.py:381-382 *)
Definition context_indexing (o : settings) (e : expr) : result indexing :=
  compute_indexation (data_structure_provider o) e.

(** optimization.py:421-428 `_compute_indexing`: `a or b or c` where [a] is an object, hence
    truthy, so only the expression is looked at *)
Definition constraint_indexing (o : settings) (c : constraint) : result indexing :=
  context_indexing o (c_expr c).

(** optimization.py:431-445 `_instantiate_model_expression` *)
Definition instantiate (st : state) (e : expr) (cid : string) : result expr :=
  with_component <- add_component_context cid e ;;
  resolve_port with_component cid (st_ports st).

(** optimization.py:258-271 `get_component_variable`, 527-536 `_get_solver_var` *)
Definition get_component_variable (o : settings) (st : state) (t s : option Z) (c n : string)
  : result nat :=
  t' <- match t with None => Ok None | Some t => i <- wrap_timestep o t ;; Ok (Some i) end ;;
  match dget tk_eqb {| tk_component := c; tk_variable := n; tk_time := t'; tk_scenario := s |}
          (st_variables st) with
  | Some i => Ok i
  | None => Err KeyError
  end.
(** optimization.py:527-536 `_get_solver_var` *)
Definition get_solver_var (o : settings) (st : state) (k : term_key) : result nat :=
  get_component_variable o st (tk_time k) (tk_scenario k) (tk_component k) (tk_variable k).

(** optimization.py:278-293 `register_component_variable` *)
Definition register_component_variable (t s : option Z) (c n : string) (v : nat) (name : string)
  (st : state) : state :=
  let key := {| tk_component := c; tk_variable := n; tk_time := t; tk_scenario := s |} in
  {| st_variables := dset tk_eqb key v (st_variables st);
     st_infos :=
       if dmem tk_eqb key (st_variables st) then st_infos st
       else dset String.eqb name
              {| vi_name := name; vi_column := List.length (st_infos st); vi_in_objective := false |}
              (st_infos st);
     st_ports := st_ports st;
     st_solver := st_solver st |}.

(** optimization.py:295-305 `register_connection_fields_expressions`, with utils.py:35-45
    `get_or_add` *)
Definition register_port_expression (c p f : string) (e : expr)
  (ports : dict port_field_key (list expr)) : dict port_field_key (list expr) :=
  let old := match dget pfk_eqb (c, (p, f)) ports with Some l => l | None => [] end in
  dset pfk_eqb (c, (p, f)) (old ++ [e]) ports.

(** optimization.py:589-613: one field of one connection *)
Definition register_field (cnx : ports_connection) (ports : dict port_field_key (list expr))
  (fm : string * port_ref) : result (dict port_field_key (list expr)) :=
  let (field, master) := fm in
  match dget pfi_eqb (pr_port master, field) (m_port_definitions (co_model (pr_component master))) with
  | None => Err AttributeErr
  | Some def =>
      e <- add_component_context (co_id (pr_component master)) (d_definition def) ;;
      let ports1 := register_port_expression (co_id (pr_component (pc_port1 cnx)))
                      (pr_port (pc_port1 cnx)) field e ports in
      Ok (register_port_expression (co_id (pr_component (pc_port2 cnx)))
            (pr_port (pc_port2 cnx)) field e ports1)
  end.
(** optimization.py:587-613 `_register_connection_fields_definitions` *)
Definition register_connections (o : settings) : result (dict port_field_key (list expr)) :=
  foldM (fun ports cnx => foldM (register_field cnx) ports (pc_master cnx)) [] (n_connections (o_network o)).

(** `f"{x}_" if (use_full_var_name and x) else ""`, optimization.py:618-625 *)
Definition name_prefix (o : settings) (x : string) : string :=
  if o_full_names o && negb (String.eqb x "") then x ++ "_" else "".
(** `f"_{letter}{i}" if (i is not None and n > 1) else ""`, optimization.py:626-631 *)
Definition name_suffix (letter : string) (n : Z) (i : option Z) : string :=
  match i with
  | Some i => if (1 <? n)%Z then "_" ++ letter ++ string_of_Z i else ""
  | None => ""
  end.
(** optimization.py:615-639 `_solver_variable_name` *)
Definition solver_variable_name (o : settings) (c n : string) (t s : option Z) : string :=
  name_prefix o (o_tree_node o) ++ name_prefix o c ++ n
    ++ name_suffix "t" (block_length o) t ++ name_suffix "s" (o_scenarios o) s.

(** optimization.py:650-657: instantiation of an optional bound *)
Definition instantiate_bound (st : state) (b : option expr) (cid : string) : result (option expr) :=
  match b with None => Ok None | Some e => e' <- instantiate st e cid ;; Ok (Some e') end.
(** optimization.py:668-677: value of an optional bound *)
Definition bound_value (o : settings) (default : num) (b : option expr) (t s : option Z) : result num :=
  match b with None => Ok default | Some e => compute_expression_value o e t s end.
(** `BoolVar(name)`, `IntVar(lb, ub, name)`, `NumVar(lb, ub, name)`, optimization.py:688-703 *)
Definition new_solver_var (ty : value_type) (lb ub : num) (name : string) : solver_var :=
  match ty with
  | BOOLEAN => {| sv_name := name; sv_lb := n0; sv_ub := n1; sv_integer := true |}
  | INTEGER => {| sv_name := name; sv_lb := lb; sv_ub := ub; sv_integer := true |}
  | CONTINUOUS => {| sv_name := name; sv_lb := lb; sv_ub := ub; sv_integer := false |}
  end.
(** the solver with one more variable, optimization.py:688-703 *)
Definition add_solver_var (v : solver_var) (st : state) : state :=
  {| st_variables := st_variables st; st_infos := st_infos st; st_ports := st_ports st;
     st_solver := {| s_vars := s_vars (st_solver st) ++ [v]; s_rows := s_rows (st_solver st);
                     s_objective := s_objective (st_solver st); s_offset := s_offset (st_solver st) |} |}.

(** optimization.py:667-706: body of the loop over timesteps and scenarios *)
Definition create_variable_instance (o : settings) (c : component) (v : variable)
  (lbe ube : option expr) (st : state) (ts : option Z * option Z) : result state :=
  let (t, s) := ts in
  lower <- bound_value o NInf lbe t s ;;
  upper <- bound_value o PInf ube t s ;;
  let name := solver_variable_name o (co_id c) (v_name v) t s in
  if nltb upper lower then Err ValueError
  else
    let i := List.length (s_vars (st_solver st)) in
    let st1 := add_solver_var (new_solver_var (v_type v) lower upper name) st in
    Ok (register_component_variable t s (co_id c) (v_name v) i name st1).

(** optimization.py:659-667: `itertools.product(time_indices, scenario_indices)` *)
Definition variable_instances (o : settings) (ix : indexing) : list (option Z * option Z) :=
  let times := if ix_time ix then map Some (get_time_indices o ix) else [None] in
  let scens := if ix_scenario ix then map Some (get_scenario_indices o ix) else [None] in
  list_prod times scens.

(** optimization.py:645-706: one variable of one component *)
Definition create_variable (o : settings) (c : component) (st : state) (v : variable) : result state :=
  lbe <- instantiate_bound st (v_lower v) (co_id c) ;;
  ube <- instantiate_bound st (v_upper v) (co_id c) ;;
  foldM (create_variable_instance o c v lbe ube) st (variable_instances o (v_structure v)).
(** optimization.py:641-706 `_create_variables` *)
Definition create_variables (o : settings) (st : state) : result state :=
  foldM (fun st c => foldM (create_variable o c) st (get_variables (o_selection o) (co_model c)))
    st (all_components (o_network o)).

(** optimization.py:553-559: the coefficients of a row *)
Definition add_term (o : settings) (st : state) (d : dict nat num) (kt : term) : result (dict nat num) :=
  i <- get_solver_var o st (fst kt) ;;
  Ok (dset Nat.eqb i (nadd (snd kt) (get_coefficient d i)) d).
(** optimization.py:539-564 `make_constraint` *)
Definition make_constraint (o : settings) (st : state) (t s : Z) (name : string) (lb ub : num)
  (e : lin_expr) : result solver_row :=
  coefs <- foldM (add_term o st) [] (le_terms e) ;;
  let constant := nadd n0 (le_constant e) in
  Ok {| sr_name := name ++ "_t" ++ string_of_Z t ++ "_s" ++ string_of_Z s;
        sr_lb := nsub lb constant; sr_ub := nsub ub constant; sr_coefs := coefs |}.

(** optimization.py:461-488: body of the loops of `_create_constraint` *)
Definition create_row (o : settings) (st : state) (c : constraint) (expanded : expr) (t s : Z)
  : result solver_row :=
  lin <- context_linearize o expanded (Some t) (Some s) ;;
  lb <- compute_expression_value o (c_lower c) (Some t) (Some s) ;;
  ub <- compute_expression_value o (c_upper c) (Some t) (Some s) ;;
  make_constraint o st t s (c_name c) lb ub lin.
(** optimization.py:448-488 `_create_constraint`: the new rows *)
Definition create_constraint (o : settings) (st : state) (c : constraint) : result (list solver_row) :=
  expanded <- context_expand o (c_expr c) ;;
  ix <- constraint_indexing o c ;;
  mapM (fun ts => create_row o st c expanded (fst ts) (snd ts))
    (list_prod (get_time_indices o ix) (get_scenario_indices o ix)).

(** optimization.py:713-728: the constraint of one component *)
Definition instantiate_constraint (st : state) (cid : string) (c : constraint) : result constraint :=
  e <- instantiate st (c_expr c) cid ;;
  lb <- instantiate st (c_lower c) cid ;;
  ub <- instantiate st (c_upper c) cid ;;
  mk_constraint (cid ++ "_" ++ c_name c) e lb ub OPERATIONAL.
(** optimization.py:710-733: body of the loop of `_create_constraints` *)
Definition create_component_constraint (o : settings) (cid : string) (st : state) (c : constraint)
  : result state :=
  ic <- instantiate_constraint st cid c ;;
  rows <- create_constraint o st ic ;;
  Ok (set_rows st (s_rows (st_solver st) ++ rows)).
(** optimization.py:708-733 `_create_constraints` *)
Definition create_constraints (o : settings) (st : state) : result state :=
  foldM (fun st c => foldM (create_component_constraint o (co_id c)) st
                       (get_constraints (o_selection o) (co_model c)))
    st (all_components (o_network o)).

(** optimization.py:504-513: one term of the objective *)
Definition mark_in_objective (name : string) (infos : dict string var_info) : result (dict string var_info) :=
  match dget String.eqb name infos with
  | None => Err KeyError
  | Some i => Ok (dset String.eqb name
                    {| vi_name := vi_name i; vi_column := vi_column i; vi_in_objective := true |} infos)
  end.
(** optimization.py:504-513: one term of the objective *)
Definition add_objective_term (o : settings) (st : state) (kt : term) : result state :=
  i <- get_solver_var o st (fst kt) ;;
  v <- match nth_error (s_vars (st_solver st)) i with Some v => Ok v | None => Err IndexError end ;;
  infos <- mark_in_objective (sv_name v) (st_infos st) ;;
  Ok {| st_variables := st_variables st; st_infos := infos; st_ports := st_ports st;
        st_solver := {| s_vars := s_vars (st_solver st); s_rows := s_rows (st_solver st);
                        s_objective := add_coefficient (s_objective (st_solver st)) i (snd kt);
                        s_offset := s_offset (st_solver st) |} |}.
(** optimization.py:516 *)
Definition add_offset (k : num) (st : state) : state :=
  {| st_variables := st_variables st; st_infos := st_infos st; st_ports := st_ports st;
     st_solver := {| s_vars := s_vars (st_solver st); s_rows := s_rows (st_solver st);
                     s_objective := s_objective (st_solver st);
                     s_offset := nadd k (s_offset (st_solver st)) |} |}.
(** optimization.py:491-516 `_create_objective` *)
Definition create_objective (o : settings) (c : component) (st : state) (e : expr) : result state :=
  inst <- instantiate st e (co_id c) ;;
  expanded <- context_expand o inst ;;
  lin <- context_linearize o expanded None None ;;
  st1 <- foldM (add_objective_term o) st (le_terms lin) ;;
  Ok (add_offset (le_constant lin) st1).
(** optimization.py:739-746 *)
Definition create_component_objective (o : settings) (c : component) (st : state) (obj : option expr)
  : result state :=
  match obj with
  | None => Ok st
  | Some e => create_objective o c st (modify_expression (o_risk o) e)
  end.
(** optimization.py:735-746 `_create_objectives` *)
Definition create_objectives (o : settings) (st : state) : result state :=
  foldM (fun st c => foldM (create_component_objective o c) st
                       (get_objectives (o_selection o) (co_model c)))
    st (all_components (o_network o)).

(** optimization.py:572-585 `OptimizationProblem.__init__` *)
Definition optimization_problem (o : settings) : result state :=
  ports <- register_connections o ;;
  st1 <- create_variables o (set_ports initial_state ports) ;;
  st2 <- create_constraints o st1 ;;
  create_objectives o st2.

(** optimization.py:755-788 `build_problem` *)
Definition build_problem (o : settings) : result state :=
  _ <- requirements_consistency (o_database o) (o_network o) ;;
  optimization_problem o.
