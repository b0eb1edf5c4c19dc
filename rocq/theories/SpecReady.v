(** Specification vocabulary: what a user must provide for a problem to be built.  Nothing here
    uses the visitors' code, the linearisation or the construction of problems. *)
From Verif Require Import Base Expr Visitors LinearExpr Model Study Strategy Optim SpecExpr SpecSyntax
  SpecVisitors SpecExpansion SpecLinear SpecModel SpecOptim.

(** ** Names *)
(** variable [n] of component [c] is part of the problem *)
Definition chosen_variable (o : settings) (c n : string) : Prop :=
  exists k v, In k (all_components (o_network o)) /\ co_id k = c /\
    In v (get_variables (o_selection o) (co_model k)) /\ v_name v = n.
(** component [c] has a parameter [n], of a structure satisfying [P] *)
Definition has_parameter (P : indexing -> Prop) (o : settings) (c n : string) : Prop :=
  exists k p, In k (all_components (o_network o)) /\ co_id k = c /\
    In p (map snd (m_parameters (co_model k))) /\ p_name p = n /\ P (p_structure p).
Definition is_constant_structure (ix : indexing) : Prop := ix_time ix = false /\ ix_scenario ix = false.

(** ** Shape of expressions *)
(** the argument of a time operator: numbers and constant parameters, and an integer value *)
Definition constant_argument (o : settings) (id : string) (k : expr) : Prop :=
  all_nodes (fun x => match x with
    | Lit (Fin _) | Neg _ | Mul _ _ | Div _ _ => True
    | Add l => l <> []
    | Param n => has_parameter is_constant_structure o id n
    | _ => False end) k /\
  exists x t s z, den (component_world o x id) k t s = Some (Z2Qc z).
(** operators that can be expanded.  What is evaluated at a fixed timestep contains no port and
    nothing else at a fixed timestep. *)
Definition ready_node (o : settings) (id : string) (x : expr) : Prop :=
  match x with
  | CVar _ _ | CParam _ _ | PVar _ _ _ _ | PParam _ _ _ _ | Cmp _ _ _ => False
  | Add l => l <> []
  | TShift _ k => constant_argument o id k
  | TEval a k => constant_argument o id k /\ no_fixed_step a /\ no_port a
  | TSum _ f t => constant_argument o id f /\ constant_argument o id t
  | ScenOp _ op => op = Expectation
  | _ => True
  end.
(** names of the component, and ports: a plain port field has exactly one definition *)
Definition ready_leaf (o : settings) (id : string) (x : expr) : Prop :=
  match x with
  | Var n => chosen_variable o id n
  | Param n => has_parameter (fun _ => True) o id n
  | PortField p f => exists d, connected (o_network o) id p f = [d]
  | PortAgg (PortField _ _) PortSum => True
  | _ => False
  end.

(** ** Affine expressions: [ports p f] tells whether what is connected to a field contains
    decision variables *)
Section Affine.
  Context (ports : string -> string -> bool).
  (** a decision variable occurs *)
  Fixpoint decides (e : expr) : bool :=
    match e with
    | Var _ | CVar _ _ | PVar _ _ _ _ => true
    | Lit _ | Param _ | CParam _ _ | PParam _ _ _ _ => false
    | Neg a | TShift a _ | TEval a _ | TSum a _ _ | AllSum a | ScenOp a _ | PortAgg a _ => decides a
    | Add l => existsb decides l
    | Mul a b | Div a b | Cmp a b _ => decides a || decides b
    | PortField p f => ports p f
    end.
  (** no product of two parts with decision variables, no division by such a part *)
  Fixpoint affine (e : expr) : Prop :=
    match e with
    | Neg a | TShift a _ | TEval a _ | TSum a _ _ | AllSum a | ScenOp a _ => affine a
    | Add l => fold_right (fun x acc => affine x /\ acc) True l
    | Mul a b => affine a /\ affine b /\ (decides a = false \/ decides b = false)
    | Div a b => affine a /\ affine b /\ decides b = false
    | Cmp _ _ _ => False
    | _ => True
    end.
End Affine.
Definition port_decides (n : network) (id p f : string) : bool :=
  existsb (fun d => decides (fun _ _ => false) (snd d)) (connected n id p f).

(** ** Expressions of components *)
(** whatever the step of the block and the scenario, the expression has a value *)
Definition has_values (o : settings) (id : string) (e : expr) : Prop :=
  forall t s, (0 <= t < Z.of_nat (List.length (o_block o)))%Z -> (0 <= s < o_scenarios o)%Z ->
  exists x, admissible_decisions o x /\ den (component_world o x id) e t s <> None.
Definition ready_expression (o : settings) (id : string) (e : expr) : Prop :=
  all_nodes (ready_node o id) e /\ all_leaves (ready_leaf o id) e /\
  affine (port_decides (o_network o) id) e /\ has_values o id e.
Definition ready_definition (o : settings) (d : string * expr) : Prop :=
  all_nodes (ready_node o (fst d)) (snd d) /\ all_leaves (ready_leaf o (fst d)) (snd d) /\
  affine (fun _ _ => false) (snd d).

(** ** Formulas on parameters: what bounds are made of *)
Definition formula_node (x : expr) : Prop :=
  match x with
  | Lit _ | Neg _ | Mul _ _ | Div _ _ | Param _ | PortField _ _ | PortAgg _ _ => True
  | Add l => l <> []
  | _ => False
  end.
(** [e] without ports *)
Definition plain_formula (o : settings) (id : string) (e : expr) : Prop :=
  all_nodes formula_node e /\
  all_leaves (fun x => match x with Param n => has_parameter (fun _ => True) o id n | _ => False end) e.
Definition formula_leaf (o : settings) (id : string) (x : expr) : Prop :=
  match x with
  | Param n => has_parameter (fun _ => True) o id n
  | PortField p f => exists d, connected (o_network o) id p f = [d] /\ plain_formula o (fst d) (snd d)
  | PortAgg (PortField p f) PortSum =>
      Forall (fun d => plain_formula o (fst d) (snd d)) (connected (o_network o) id p f)
  | _ => False
  end.
Definition formula (o : settings) (id : string) (e : expr) : Prop :=
  all_nodes formula_node e /\ all_leaves (formula_leaf o id) e.
(** the bound of a constraint *)
Definition ready_bound (o : settings) (id : string) (inf : num) (e : expr) : Prop :=
  e = Lit inf \/ (formula o id e /\ has_values o id e).

(** ** Data: the dimensions along which it is given *)
Fixpoint given_per_time (d : data) : bool :=
  match d with
  | ConstantData _ | ScenarioSeriesData _ _ => false
  | TimeSeriesData _ | TimeScenarioSeriesData _ _ => true
  | TreeData l => existsb (fun kd => given_per_time (snd kd)) l
  end.
Fixpoint given_per_scenario (d : data) : bool :=
  match d with
  | ConstantData _ | TimeSeriesData _ => false
  | ScenarioSeriesData _ _ | TimeScenarioSeriesData _ _ => true
  | TreeData l => existsb (fun kd => given_per_scenario (snd kd)) l
  end.
Definition fits (d : data) (ix : indexing) : Prop :=
  (given_per_time d = true -> ix_time ix = true) /\ (given_per_scenario d = true -> ix_scenario ix = true).

(** ** Variables: bounds that depend on nothing on which the variable does not, and in order *)
Definition ready_variable_bound (o : settings) (id : string) (v : variable) (b : option expr) : Prop :=
  forall e, b = Some e ->
  (exists w, e = Lit w /\ w <> NaN) \/
  (finite_literals e /\ formula o id e /\
   (varies_in_time (o_network o) id e = true -> ix_time (v_structure v) = true) /\
   (varies_in_scenario (o_network o) id e = true -> ix_scenario (v_structure v) = true)).
(** [v] is the value of the bound at the variable's own timestep and scenario; where the variable has
    none, at the first one *)
Definition bound_reads (o : settings) (c : string) (default : num) (b : option expr) (t s : option Z) (v : num) : Prop :=
  match b with
  | None => v = default
  | Some (Lit w) => v = w
  | Some e => exists q x, v = Fin q /\ den (component_world o x c) e (odefault 0%Z t) (odefault 0%Z s) = Some q
  end.
Definition ready_variable (o : settings) (c : component) (v : variable) : Prop :=
  ready_variable_bound o (co_id c) v (v_lower v) /\ ready_variable_bound o (co_id c) v (v_upper v) /\
  forall t s, instance_of o c v t s ->
  exists lo hi, bound_reads o (co_id c) NInf (v_lower v) t s lo /\
                bound_reads o (co_id c) PInf (v_upper v) t s hi /\ num_le lo hi.

(** ** Problems *)
Definition ready_problem (o : settings) : Prop :=
  (** data *)
  (forall c p, In c (map snd (n_components (o_network o))) -> In p (map snd (m_parameters (co_model c))) ->
     exists d, get_data (o_database o) (co_id c) (p_name p) = Ok d /\ fits d (p_structure p)) /\
  (** definitions of the connected ports *)
  (forall k f d, In k (n_connections (o_network o)) -> In d (brought k f) -> ready_definition o d) /\
  (** variables *)
  (forall c v, In c (all_components (o_network o)) -> In v (get_variables (o_selection o) (co_model c)) ->
     ready_variable o c v) /\
  (** constraints *)
  (forall c k, In c (all_components (o_network o)) -> In k (get_constraints (o_selection o) (co_model c)) ->
     ready_expression o (co_id c) (c_expr k) /\
     ready_bound o (co_id c) NInf (c_lower k) /\ ready_bound o (co_id c) PInf (c_upper k)) /\
  (** objectives, which vary neither in time nor with the scenario *)
  (forall c e, In (c, e) (contributions o) ->
     ready_expression o (co_id c) e /\
     varies_in_time (o_network o) (co_id c) e = false /\ varies_in_scenario (o_network o) (co_id c) e = false).
