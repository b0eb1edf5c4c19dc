(** Operator expansion (src/andromede/expression/operators_expansion.py).  Definitions only. *)
From Verif Require Import Base Expr Visitors.

(** operators_expansion.py:30-37 `ProblemDimensions` *)
Record dimensions := { timesteps_count : Z; scenarios_count : Z }.

(** operators_expansion.py:161-173 `ApplyTimeShift._apply_timeshift` on an index *)
Definition shift_index (k : Z) (ti : time_index) : time_index :=
  match ti with
  | TimeShift j => TimeShift (j + k)
  | TimeStep j => TimeStep (j + k)
  | NoTimeIndex => NoTimeIndex
  end.

(** operators_expansion.py:153-179 `ApplyTimeShift` *)
Definition timeshift_copier (k : Z) : copier := {|
  on_var := on_var plain_copier;
  on_param := on_param plain_copier;
  on_cvar := on_cvar plain_copier;
  on_cparam := on_cparam plain_copier;
  on_pvar := fun c n ti si => Ok (PVar c n (shift_index k ti) si);
  on_pparam := fun c n ti si => Ok (PParam c n (shift_index k ti) si);
  on_port := on_port plain_copier;
  on_agg := None
|}.
(** operators_expansion.py:182-183 *)
Definition apply_timeshift (e : expr) (k : Z) : result expr := copy_with (timeshift_copier k) e.

(** operators_expansion.py:195-209 `ApplyTimeStep._apply_timestep` on an index *)
Definition step_index (k : Z) (allow_existing : bool) (ti : time_index) : result time_index :=
  match ti with
  | TimeShift j => Ok (TimeStep (j + k))
  | TimeStep j => if allow_existing then Ok (TimeStep j) else Err ValueError
  | NoTimeIndex => Ok NoTimeIndex
  end.

(** operators_expansion.py:186-215 `ApplyTimeStep` *)
Definition timestep_copier (k : Z) (allow_existing : bool) : copier := {|
  on_var := on_var plain_copier;
  on_param := on_param plain_copier;
  on_cvar := on_cvar plain_copier;
  on_cparam := on_cparam plain_copier;
  on_pvar := fun c n ti si => ti' <- step_index k allow_existing ti ;; Ok (PVar c n ti' si);
  on_pparam := fun c n ti si => ti' <- step_index k allow_existing ti ;; Ok (PParam c n ti' si);
  on_port := on_port plain_copier;
  on_agg := None
|}.
(** operators_expansion.py:218-221 *)
Definition apply_timestep (e : expr) (k : Z) (allow_existing : bool) : result expr :=
  copy_with (timestep_copier k allow_existing) e.

(** operators_expansion.py:228-236 (index part): everything but NoScenarioIndex is replaced *)
Definition scen_index (s : Z) (si : scenario_index) : scenario_index :=
  match si with NoScenarioIndex => NoScenarioIndex | _ => OneScenarioIndex s end.

(** operators_expansion.py:224-236 `ApplyScenario` *)
Definition scenario_copier (s : Z) : copier := {|
  on_var := on_var plain_copier;
  on_param := on_param plain_copier;
  on_cvar := on_cvar plain_copier;
  on_cparam := on_cparam plain_copier;
  on_pvar := fun c n ti si => Ok (PVar c n ti (scen_index s si));
  on_pparam := fun c n ti si => Ok (PParam c n ti (scen_index s si));
  on_port := on_port plain_copier;
  on_agg := None
|}.
(** operators_expansion.py:239-240 *)
Definition apply_scenario (e : expr) (s : Z) : result expr := copy_with (scenario_copier s) e.

(** operators_expansion.py:72-76, 82-86: indices of a component variable or parameter *)
Definition initial_time_index (ix : indexing) : time_index :=
  if ix_time ix then TimeShift 0 else NoTimeIndex.
(** operators_expansion.py:72-76, 82-86: index of the scenario *)
Definition initial_scenario_index (ix : indexing) : scenario_index :=
  if ix_scenario ix then CurrentScenarioIndex else NoScenarioIndex.

(** operators_expansion.py:50-128 `OperatorsExpansion`.  The cases not
    overridden there are those of CopyVisitor. *)
Fixpoint expand (d : dimensions) (ev : expr -> result Z) (sp : structure_provider) (e : expr)
  : result expr :=
  let rec := expand d ev sp in
  match e with
  | Lit v => Ok (Lit v)
  | Neg a => a' <- rec a ;; Ok (py_neg a')
  | Add l => vs <- mapM (expand d ev sp) l ;; sum_operands py_add vs
  | Mul a b => a' <- rec a ;; b' <- rec b ;; Ok (py_mul a' b')
  | Div a b => a' <- rec a ;; b' <- rec b ;; Ok (py_div a' b')
  | Cmp a b o => a' <- rec a ;; b' <- rec b ;; Ok (Cmp a' b' o)
  | Var n => Ok (Var n)
  | Param n => Ok (Param n)
  | CVar c n =>
      ix <- get_component_variable_structure sp c n ;;
      Ok (PVar c n (initial_time_index ix) (initial_scenario_index ix))
  | CParam c n =>
      ix <- get_component_parameter_structure sp c n ;;
      Ok (PParam c n (initial_time_index ix) (initial_scenario_index ix))
  | PVar _ _ _ _ => Err ValueError
  | PParam _ _ _ _ => Err ValueError
  | TShift a k =>
      shift <- ev k ;;
      operand <- rec a ;;
      apply_timeshift operand shift
  | TEval a k =>
      timestep <- ev k ;;
      operand <- rec a ;;
      apply_timestep operand timestep false
  | TSum a f t =>
      from_shift <- ev f ;;
      to_shift <- ev t ;;
      operand <- rec a ;;
      nodes <- mapM (apply_timeshift operand) (zrange from_shift (to_shift + 1)) ;;
      Ok (sum_expressions nodes)
  | AllSum a =>
      operand <- rec a ;;
      nodes <- mapM (fun t => apply_timestep operand t true) (zrange 0 (timesteps_count d)) ;;
      Ok (sum_expressions nodes)
  | ScenOp a o =>
      match o with
      | Expectation =>
          operand <- rec a ;;
          nodes <- mapM (apply_scenario operand) (zrange 0 (scenarios_count d)) ;;
          Ok (py_div_num (sum_expressions nodes) (nz (scenarios_count d)))
      | _ => Err ValueError
      end
  | PortField p f => Ok (PortField p f)
  | PortAgg a g => a' <- rec a ;; Ok (PortAgg a' g)
  end.

(** operators_expansion.py:131-145 *)
Definition expand_operators (e : expr) (d : dimensions) (ev : expr -> result Z)
  (sp : structure_provider) : result expr := expand d ev sp e.
