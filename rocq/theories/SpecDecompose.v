(** Specification of C70: the parts of a decomposed problem and the whole of which they are the parts. *)
From Verif Require Import Base Expr Visitors LinearExpr Model Study Strategy Optim Tree Fusion Benders
  SpecExpr SpecSyntax SpecModel SpecOptim SpecFusion SpecBenders.

(** the same problem, whatever it selects from the models *)
Definition selecting (s : selection) (o : settings) : settings :=
  {| o_network := o_network o; o_database := o_database o; o_block := o_block o; o_scenarios := o_scenarios o;
     o_cycle := o_cycle o; o_selection := s; o_risk := o_risk o; o_tree_node := o_tree_node o; o_full_names := o_full_names o |}.
(** investments and operation together, and operation alone *)
Definition whole (o : settings) : settings := selecting MergedProblem o.
Definition operation (o : settings) : settings := selecting OperationalProblem o.
(** investments alone: one timestep, no scenario *)
Definition investments (o : settings) : settings :=
  {| o_network := o_network o; o_database := o_database o; o_block := [0%Z]; o_scenarios := 0;
     o_cycle := o_cycle o; o_selection := InvestmentProblem; o_risk := o_risk o; o_tree_node := o_tree_node o;
     o_full_names := o_full_names o |}.
(** the whole problem of a node of a tree over one block *)
Definition node_settings (n : tree_node) (p : num) (db : database) (timesteps : list Z) : settings :=
  {| o_network := tn_network n; o_database := db; o_block := timesteps; o_scenarios := tc_scenarios (tn_config n); o_cycle := true;
     o_selection := MergedProblem; o_risk := ExpectedValue p; o_tree_node := tn_id n; o_full_names := true |}.

(** neither time nor scenario *)
Definition fixed_index (ix : indexing) : Prop := ix_time ix = false /\ ix_scenario ix = false.
(** an expression of model [m] that is the same at every timestep and in every scenario because nothing in it depends on
    either: numbers, names that are declared so, and arithmetic *)
Definition settled_node (m : model) (x : expr) : Prop :=
  match x with
  | Lit _ | Neg _ | Mul _ _ | Div _ _ => True
  | Add l => l <> []
  | Var n => exists v, In v (map snd (m_variables m)) /\ v_name v = n /\ fixed_index (v_structure v)
  | Param n => exists p, In p (map snd (m_parameters m)) /\ p_name p = n /\ fixed_index (p_structure p)
  | _ => False
  end.
Definition settled (m : model) (e : expr) : Prop := all_nodes (settled_node m) e.
Definition of_investment (c : problem_context) : Prop := c = INVESTMENT \/ c = COUPLING.
(** investments are decided once: the variables, constraints and costs of investment depend neither on the timestep nor on the
    scenario *)
Definition settled_model (m : model) : Prop :=
  (forall v, In v (map snd (m_variables m)) -> of_investment (v_context v) -> fixed_index (v_structure v)) /\
  (forall k, In k (get_all_constraints m) -> of_investment (c_context k) ->
     settled m (c_expr k) /\ settled m (c_lower k) /\ settled m (c_upper k)) /\
  (forall e, m_investment m = Some e -> settled m e).
Definition settled_network (n : network) : Prop := forall c, In c (all_components n) -> settled_model (co_model c).
(** every parameter has data of the kind declared *)
Definition suitable_network (n : network) (db : database) : Prop :=
  forall c p, In c (all_components n) -> In p (map snd (m_parameters (co_model c))) -> has_suitable_data db (co_id c) p.

(** ** Trees *)
(** the nodes of a tree with their blocks: one subproblem each *)
Definition cells (f : forest) (nodes : list nat) : list (tree_node * (Z * list Z)) :=
  flat_map (fun i => match nth_error (f_nodes f) i with Some n => map (pair n) (tc_blocks (tn_config n)) | None => [] end) nodes.
(** [st] is the whole problem, investments and operation, of a node over a block *)
Definition whole_of (db : database) (cell : tree_node * (Z * list Z)) (st : state) : Prop :=
  exists p, tn_prob (fst cell) = Some p /\ build_problem (node_settings (fst cell) p db (snd (snd cell))) = Ok st.
(** [st] is the investment problem of the node *)
Definition investment_of (db : database) (cell : tree_node * (Z * list Z)) (st : state) : Prop :=
  exists p, tn_prob (fst cell) = Some p /\ build_problem (investment_settings (fst cell) p db) = Ok st.
(** one list of values per problem *)
Definition all_feasible (zs : list (string -> Qc)) (ss : list solver) : Prop := Forall2 (fun z s => feasible z s) zs ss.
Definition total_cost (zs : list (string -> Qc)) (ss : list solver) : option Qc :=
  osum (map (fun zs => cost (fst zs) (snd zs)) (combine zs ss)).
(** the candidates have the same value everywhere: what the structure file states *)
Definition linked (b : benders) (y : string -> Qc) (zs : list (string -> Qc)) : Prop :=
  forall z x, In z zs -> In x (variable_names (bd_master b)) -> z x = y x.
Definition settled_tree (f : forest) (nodes : list nat) (db : database) : Prop :=
  forall i n, In i nodes -> nth_error (f_nodes f) i = Some n ->
    built_network (tn_network n) /\ settled_network (tn_network n) /\ suitable_network (tn_network n) db /\
    tc_blocks (tn_config n) <> [] /\ forall blk, In blk (tc_blocks (tn_config n)) -> snd blk <> [].
(** no row of an investment problem is without variables *)
Definition rows_with_terms (f : forest) (nodes : list nat) (db : database) : Prop :=
  forall i st r, In i nodes -> investment_problem f db i st -> In r (s_rows (st_solver st)) -> has_term r.
(** coupled variables are decided by the investments of some node *)
Definition coupled_investments (evs : list event) (k : nat) (nodes : list nat) (db : database) : Prop :=
  forall q x, asked evs k q -> In x (equation_names q) ->
  exists i st, In i nodes /\ investment_problem (history evs) db i st /\ In x (map sv_name (s_vars (st_solver st))).
Definition one_block_each (f : forest) (nodes : list nat) : Prop :=
  forall i n, In i nodes -> nth_error (f_nodes f) i = Some n -> List.length (tc_blocks (tn_config n)) = 1%nat.
(** [x] is at least as good as every other of its kind *)
Definition best {A} (ok : A -> Prop) (value : A -> option Qc) (x : A) : Prop :=
  ok x /\ forall x' v v', ok x' -> value x = Some v -> value x' = Some v' -> (v <= v')%Qc.

(** ** What the command reads: the columns of each file, linked by the structure file *)
(** values [x] of the columns of a problem *)
Definition columns_feasible (x : nat -> Qc) (s : solver) : Prop :=
  (forall i v, nth_error (s_vars s) i = Some v -> within v (x i)) /\ forall r, In r (s_rows s) -> row_sat x r.
(** values of the columns of all problems, by the name of the problem: each problem is satisfied, and the columns that the
    structure file gives for a candidate are equal *)
Definition solves (b : benders) (x : string -> nat -> Qc) : Prop :=
  columns_feasible (x "master"%string) (solver_of (bd_master b)) /\
  (forall s, In s (bd_subproblems b) -> columns_feasible (x (pb_name s)) (solver_of s)) /\
  forall p candidate c c', In (p, (candidate, c)) (shared b) -> In ("master"%string, (candidate, c')) (shared b) -> x p c = x "master"%string c'.
(** the same values by column and by name *)
Definition same_values (x : nat -> Qc) (s : solver) (y : string -> Qc) : Prop :=
  forall i v, nth_error (s_vars s) i = Some v -> x i = y (sv_name v).
