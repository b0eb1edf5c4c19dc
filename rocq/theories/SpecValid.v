(** Specification of valid models (C55). *)
From Verif Require Import Base Expr Visitors Model SpecExpr SpecSyntax SpecVisitors.

(** the nodes that give the value: those of the arguments of time operators are left out *)
Inductive value_node (x : expr) : expr -> Prop :=
| vn_here : value_node x x
| vn_neg a : value_node x a -> value_node x (Neg a)
| vn_add l a : In a l -> value_node x a -> value_node x (Add l)
| vn_mul_l a b : value_node x a -> value_node x (Mul a b)
| vn_mul_r a b : value_node x b -> value_node x (Mul a b)
| vn_div_l a b : value_node x a -> value_node x (Div a b)
| vn_div_r a b : value_node x b -> value_node x (Div a b)
| vn_cmp_l a b c : value_node x a -> value_node x (Cmp a b c)
| vn_cmp_r a b c : value_node x b -> value_node x (Cmp a b c)
| vn_shift a k : value_node x a -> value_node x (TShift a k)
| vn_eval a k : value_node x a -> value_node x (TEval a k)
| vn_sum a f t : value_node x a -> value_node x (TSum a f t)
| vn_all a : value_node x a -> value_node x (AllSum a)
| vn_scen a o : value_node x a -> value_node x (ScenOp a o)
| vn_agg a o : value_node x a -> value_node x (PortAgg a o).
(** neither a comparison, nor a port, nor a name of another component *)
Definition own_term (x : expr) : Prop :=
  match x with
  | Cmp _ _ _ | CParam _ _ | CVar _ _ | PParam _ _ _ _ | PVar _ _ _ _ | PortField _ _ | PortAgg _ _ => False
  | _ => True
  end.
(** in the world, what the model declares constant along a dimension is *)
Definition model_world (m : model) (E : env) : Prop :=
  (forall n v, dget String.eqb n (m_variables m) = Some v ->
     (ix_time (v_structure v) = false -> forall t t' s, e_var E n t s = e_var E n t' s) /\
     (ix_scenario (v_structure v) = false -> forall t s s', e_var E n t s = e_var E n t s')) /\
  (forall n p, dget String.eqb n (m_parameters m) = Some p ->
     (ix_time (p_structure p) = false -> forall t t' s, e_par E n t s = e_par E n t' s) /\
     (ix_scenario (p_structure p) = false -> forall t s s', e_par E n t s = e_par E n t s')).
(** a degree that can be computed, at most one; declared names only; one value for all timesteps and scenarios *)
Definition real_valued_linear (parameters : list parameter) (variables : list variable) (e : expr) : Prop :=
  let sp := model_structure_provider (dict_of String.eqb p_name parameters) (dict_of String.eqb v_name variables) in
  is_linear e = Ok true /\ all_names_known sp e /\ time_dependent sp e = false /\ scenario_dependent sp e = false.
(** the definition is about a field of one of the ports *)
Definition about_port (ports : list model_port) (d : port_field_def) : Prop :=
  exists p, In p ports /\ mp_name p = fst (d_field d) /\ In (snd (d_field d)) (pt_fields (mp_type p)).
(** neither decision variables nor ports, and none of the trees no user can write (sums of nothing, the bare scenario operator) *)
Definition no_variable_left : expr -> Prop :=
  all_nodes (fun x => match x with
    | Var _ | CVar _ _ | PVar _ _ _ _ | PortField _ _ | PortAgg _ _ => False
    | Add [] | ScenOp _ ScenarioOperatorBase => False
    | _ => True end).
