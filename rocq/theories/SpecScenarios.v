(** Specification vocabulary for C80: the problem of one scenario among those of a problem. *)
From Verif Require Import Base Expr LinearExpr Model Study Strategy Optim SpecExpr SpecSyntax SpecExpansion SpecModel SpecOptim SpecOrder.

(** [o1] is the problem [o] for its scenario [s] alone: all is the same but the number of scenarios, and what the
    data give in the one scenario is what those of [o] give in scenario [s] *)
Record one_scenario (s : Z) (o o1 : settings) : Prop := {
  os_network : o_network o1 = o_network o;
  os_block : o_block o1 = o_block o;
  os_cycle : o_cycle o1 = o_cycle o;
  os_selection : o_selection o1 = o_selection o;
  os_risk : o_risk o1 = o_risk o;
  os_tree_node : o_tree_node o1 = o_tree_node o;
  os_scenarios : o_scenarios o1 = 1%Z;
  os_data : forall c n, match get_data (o_database o) c n, get_data (o_database o1) c n with
    | Ok d, Ok d1 => forall t, get_value d1 t (Some 0%Z) (o_tree_node o) = get_value d t (Some s) (o_tree_node o) /\
        get_value d1 t None (o_tree_node o) = get_value d t None (o_tree_node o)
    | Err e, Err e1 => e1 = e
    | _, _ => False
    end
}.
(** such settings, made from [o]: the scenarisation of the series sends the one scenario where it sent [s] *)
Definition scenarization_of (s : Z) (sc : option scenarization) : option scenarization :=
  Some (match data_scenario sc s with Ok c => [(0%Z, c)] | Err _ => [] end).
Fixpoint data_of (s : Z) (d : data) : data :=
  match d with
  | ConstantData v => ConstantData v
  | TimeSeriesData m => TimeSeriesData m
  | ScenarioSeriesData m sc => ScenarioSeriesData m (scenarization_of s sc)
  | TimeScenarioSeriesData rows sc => TimeScenarioSeriesData rows (scenarization_of s sc)
  | TreeData children => TreeData (map (fun kd => (fst kd, data_of s (snd kd))) children)
  end.
Definition settings_of (s : Z) (o : settings) : settings := {|
  o_network := o_network o; o_database := map (fun kd => (fst kd, data_of s (snd kd))) (o_database o); o_block := o_block o; o_scenarios := 1%Z;
  o_cycle := o_cycle o; o_selection := o_selection o; o_risk := o_risk o; o_tree_node := o_tree_node o; o_full_names := o_full_names o |}.

(** no constraint is about several scenarios *)
Definition constraints_by_scenario (o : settings) : Prop :=
  forall c k, In c (all_components (o_network o)) -> In k (get_constraints (o_selection o) (co_model c)) -> no_scenario_operator (c_expr k).
(** the bounds of a constraint depend on the scenario only if its expression does *)
Definition scenario_bounds_follow (o : settings) : Prop :=
  forall c k, In c (all_components (o_network o)) -> In k (get_constraints (o_selection o) (co_model c)) ->
  (varies_in_scenario (o_network o) (co_id c) (c_lower k) || varies_in_scenario (o_network o) (co_id c) (c_upper k))%bool = true ->
  varies_in_scenario (o_network o) (co_id c) (c_expr k) = true.

(** ** A linear program found inside another one, column [i] of the first being column [f i] of the second *)
Definition same_column (v w : solver_var) : Prop := sv_lb w = sv_lb v /\ sv_ub w = sv_ub v /\ sv_integer w = sv_integer v.
(** the same row but for its name *)
Definition copied_row (f : nat -> nat) (r r' : solver_row) : Prop :=
  sr_lb r' = sr_lb r /\ sr_ub r' = sr_ub r /\ sr_coefs r' = map (renumber f) (sr_coefs r).
Record found_in (f : nat -> nat) (s1 s : solver) : Prop := {
  fi_injective : forall i j, f i = f j -> i = j;
  fi_columns : forall i v, nth_error (s_vars s1) i = Some v -> exists w, nth_error (s_vars s) (f i) = Some w /\ same_column v w;
  fi_rows : forall r, In r (s_rows s1) -> exists r', In r' (s_rows s) /\ copied_row f r r'
}.
(** [f] sends the columns of the problem of scenario [s] to those of the same decisions *)
Definition same_decisions (s : Z) (o1 o : settings) (st1 st : state) (f : nat -> nat) : Prop :=
  forall c n t, (forall i, get_component_variable o1 st1 t (Some 0%Z) c n = Ok i -> get_component_variable o st t (Some s) c n = Ok (f i)) /\
    (forall i, get_component_variable o1 st1 t None c n = Ok i -> get_component_variable o st t None c n = Ok (f i)).

(** the problem [o] put together from those of its scenarios: every column and every row comes from that of a
    scenario, and two scenarios share a column exactly when its variable does not depend on the scenario *)
Record put_together (o : settings) (st : state) (os : Z -> settings) (sts : Z -> state) (f : Z -> nat -> nat) : Prop := {
  pt_found : forall s, (0 <= s < o_scenarios o)%Z -> found_in (f s) (st_solver (sts s)) (st_solver st) /\ same_decisions s (os s) o (sts s) st (f s);
  pt_columns : forall j, (j < List.length (s_vars (st_solver st)))%nat ->
    exists s i, (0 <= s < o_scenarios o)%Z /\ (i < List.length (s_vars (st_solver (sts s))))%nat /\ f s i = j;
  pt_rows : forall r, In r (s_rows (st_solver st)) ->
    exists s r1, (0 <= s < o_scenarios o)%Z /\ In r1 (s_rows (st_solver (sts s))) /\ copied_row (f s) r1 r;
  pt_shared : forall s s' i i', (0 <= s < o_scenarios o)%Z -> (0 <= s' < o_scenarios o)%Z -> s <> s' ->
    (i < List.length (s_vars (st_solver (sts s))))%nat -> (i' < List.length (s_vars (st_solver (sts s'))))%nat ->
    f s i = f s' i' <-> i = i' /\ exists c n t, get_component_variable (os s) (sts s) t None c n = Ok i
}.

(** ** Solutions, variables known by their position *)
Definition in_column (v : solver_var) (q : Qc) : Prop :=
  at_least (sv_lb v) q /\ at_most (sv_ub v) q /\ (sv_integer v = true -> exists z, q = Z2Qc z).
Definition solves (y : nat -> Qc) (s : solver) : Prop :=
  (forall i v, nth_error (s_vars s) i = Some v -> in_column v (y i)) /\ Forall (row_sat y) (s_rows s).

(** ** Costs that are averages over the scenarios *)
(** arithmetic on variables and parameters of the component that do not depend on the scenario *)
Definition steady (n : network) (id : string) (e : expr) : Prop :=
  all_nodes (fun x => match x with Lit _ | Neg _ | Add _ | Mul _ _ | Div _ _ | AllSum _ | Var _ | Param _ => True | _ => False end) e /\
  varies_in_scenario n id e = false.
(** names of the component and what is connected to its ports, in one scenario *)
Definition by_scenario : expr -> Prop :=
  all_nodes (fun x => match x with ScenOp _ _ | CVar _ _ | CParam _ _ | PVar _ _ _ _ | PParam _ _ _ _ => False | _ => True end).
Inductive averaged (n : network) (id : string) : expr -> Prop :=
| av_expectation a : by_scenario a -> averaged n id (ScenOp a Expectation)
| av_steady a : steady n id a -> averaged n id a
| av_opposite a : averaged n id a -> averaged n id (Neg a)
| av_sum l : Forall (averaged n id) l -> averaged n id (Add l)
| av_left a b : averaged n id a -> steady n id b -> averaged n id (Mul a b)
| av_right a b : steady n id a -> averaged n id b -> averaged n id (Mul a b)
| av_divided a b : averaged n id a -> steady n id b -> averaged n id (Div a b).
(** the decisions of one scenario *)
Definition seen_in (s : Z) (x : decisions) : decisions := fun c n t _ => x c n t s.
Definition averaged_costs (o : settings) : Prop :=
  forall c e, In (c, e) (contributions o) -> averaged (o_network o) (co_id c) e.
