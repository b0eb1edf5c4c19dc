(** Specification vocabulary for C89: loosened limits. *)
From Verif Require Import Base Expr Model Study Strategy Optim SpecExpr SpecSyntax SpecModel SpecOptim SpecParts.

(** a component that the problem looks at: one of the network, or one that a connection takes definitions from *)
Definition looked_at (n : network) (c : component) : Prop :=
  In c (all_components n) \/ exists k f m, In k (n_connections n) /\ In (f, m) (pc_master k) /\ pr_component m = c.
(** an expression of component [id] where no limit occurs *)
Definition without_limits (limit : string -> string -> Prop) (id : string) : expr -> Prop :=
  all_nodes (fun x => match x with Param p => ~ limit id p | _ => True end).
(** a bound that is a limit, or has none in it *)
Definition bound_by (limit limits : string -> string -> Prop) (id : string) (e : expr) : Prop :=
  without_limits limits id e \/ exists p, e = Param p /\ limit id p.
(** [upper] are parameters, given by component and name, that are only ever used as upper bounds of variables and
    constraints, [lower] parameters that are only ever used as lower bounds *)
Definition only_limits (upper lower : string -> string -> Prop) (n : network) : Prop :=
  let limits id p := upper id p \/ lower id p in
  forall c, looked_at n c ->
  (forall v, In v (map snd (m_variables (co_model c))) ->
     (forall e, v_lower v = Some e -> bound_by lower limits (co_id c) e) /\ (forall e, v_upper v = Some e -> bound_by upper limits (co_id c) e)) /\
  (forall k, In k (get_all_constraints (co_model c)) ->
     without_limits limits (co_id c) (c_expr k) /\ bound_by lower limits (co_id c) (c_lower k) /\ bound_by upper limits (co_id c) (c_upper k)) /\
  (forall e, m_operational (co_model c) = Some e \/ m_investment (co_model c) = Some e -> without_limits limits (co_id c) e) /\
  (forall f d, In (f, d) (m_port_definitions (co_model c)) -> without_limits limits (co_id c) (d_definition d)).
(** the data [db] are those of [o], but for upper limits that are as high or higher and lower limits that are as low or lower *)
Definition loosened (upper lower : string -> string -> Prop) (o : settings) (db : database) : Prop :=
  (forall c p, ~ (upper c p \/ lower c p) -> get_data db c p = get_data (o_database o) c p) /\
  forall c p d, upper c p \/ lower c p -> get_data (o_database o) c p = Ok d ->
  exists d', get_data db c p = Ok d' /\
  forall t s v, get_value d t s (o_tree_node o) = Ok v ->
  exists v', get_value d' t s (o_tree_node o) = Ok v' /\ (upper c p -> nleb v v' = true) /\ (lower c p -> nleb v' v = true).
(** the same variables, rows and objective, with bounds that allow at least as much *)
Definition looser_column (v v' : solver_var) : Prop :=
  sv_name v' = sv_name v /\ sv_integer v' = sv_integer v /\
  (forall q, at_least (sv_lb v) q -> at_least (sv_lb v') q) /\ (forall q, at_most (sv_ub v) q -> at_most (sv_ub v') q).
Definition looser_row (r r' : solver_row) : Prop :=
  sr_name r' = sr_name r /\ sr_coefs r' = sr_coefs r /\
  (forall q, at_least (sr_lb r) q -> at_least (sr_lb r') q) /\ (forall q, at_most (sr_ub r) q -> at_most (sr_ub r') q).
Definition looser_solver (s s' : solver) : Prop :=
  Forall2 looser_column (s_vars s) (s_vars s') /\ Forall2 looser_row (s_rows s) (s_rows s') /\
  s_objective s' = s_objective s /\ s_offset s' = s_offset s.
