(** Specification vocabulary for operator expansion. *)
From Verif Require Import Base Expr Visitors SpecExpr SpecSyntax SpecVisitors.

(** no evaluation at a fixed timestep inside *)
Definition no_eval : expr -> Prop :=
  all_nodes (fun x => match x with TEval _ _ => False | _ => True end).
(** no whole-horizon sum inside *)
Definition no_all_sum : expr -> Prop :=
  all_nodes (fun x => match x with AllSum _ => False | _ => True end).
(** no scenario operator inside *)
Definition no_scenario_operator : expr -> Prop :=
  all_nodes (fun x => match x with ScenOp _ _ => False | _ => True end).

(** every name is a variable or parameter of a component; ports have been resolved *)
Definition component_names_only : expr -> Prop :=
  all_nodes (fun x => match x with
    | Var _ | Param _ | PVar _ _ _ _ | PParam _ _ _ _ | PortField _ _ | PortAgg _ _ => False
    | _ => True end).

(** values repeat with period [e_T]: reads outside the block wrap around *)
Definition cyclic (E : env) : Prop :=
  (forall c n t s, e_cvar E c n (t + e_T E) s = e_cvar E c n t s) /\
  (forall c n t s, e_cpar E c n (t + e_T E) s = e_cpar E c n t s).

(** Nesting for which expansion is claimed to be correct: below a shift or a window no
    evaluation at a fixed timestep, and a whole-horizon sum only if [cyc]; below a scenario
    operator no other scenario operator. *)
Definition well_nested (cyc : Prop) : expr -> Prop :=
  all_nodes (fun x => match x with
    | TShift a _ | TSum a _ _ => no_eval a /\ (cyc \/ no_all_sum a)
    | ScenOp a _ => no_scenario_operator a
    | _ => True end).

(** the evaluator of shifts and bounds returns their mathematical value *)
Definition evaluator_sound (E : env) (ev : expr -> result Z) : expr -> Prop :=
  time_args (fun k => forall z, ev k = Ok z -> forall t s, den E k t s = Some (Z2Qc z)).

(** an expanded expression: arithmetic on indexed names; the indices are those of the
    declared structure *)
Definition time_indexed (ix : indexing) (ti : time_index) : Prop :=
  if ix_time ix then ti <> NoTimeIndex else ti = NoTimeIndex.
Definition scenario_indexed (ix : indexing) (si : scenario_index) : Prop :=
  if ix_scenario ix then si <> NoScenarioIndex else si = NoScenarioIndex.
Definition expanded (sp : structure_provider) : expr -> Prop :=
  all_nodes (fun x => match x with
    | PVar c n ti si => exists ix, get_component_variable_structure sp c n = Ok ix /\
                                   time_indexed ix ti /\ scenario_indexed ix si
    | PParam c n ti si => exists ix, get_component_parameter_structure sp c n = Ok ix /\
                                     time_indexed ix ti /\ scenario_indexed ix si
    | Lit _ | Neg _ | Add _ | Mul _ _ | Div _ _ | Cmp _ _ _ => True
    | _ => False end).

(** the same world read [k] steps later *)
Definition shift_env (k : Z) (E : env) : env := {|
  e_var := e_var E; e_par := e_par E;
  e_cvar := fun c n t s => e_cvar E c n (t + k) s;
  e_cpar := fun c n t s => e_cpar E c n (t + k) s;
  e_port := e_port E; e_T := e_T E; e_S := e_S E
|}.

(** nothing inside is read at a fixed timestep *)
Definition no_fixed_step : expr -> Prop :=
  all_nodes (fun x => match x with TEval _ _ | AllSum _ => False | _ => True end).

(** what the user must provide for expansion to succeed: known names, computable shifts and
    bounds, non-empty additions, the expectation operator, and no nesting of evaluations at a
    fixed timestep *)
Definition expandable (ev : expr -> result Z) (sp : structure_provider) : expr -> Prop :=
  all_nodes (fun x => match x with
    | CVar c n => is_ok (get_component_variable_structure sp c n) = true
    | CParam c n => is_ok (get_component_parameter_structure sp c n) = true
    | Var _ | Param _ | PVar _ _ _ _ | PParam _ _ _ _ | PortField _ _ | PortAgg _ _ => False
    | Add [] => False
    | TShift _ k => is_ok (ev k) = true
    | TEval a k => is_ok (ev k) = true /\ no_fixed_step a
    | TSum _ a b => is_ok (ev a) = true /\ is_ok (ev b) = true
    | ScenOp _ o => o = Expectation
    | _ => True end).
