(** Specification of coupling constraints, decomposed problems and the structure file (C39, C56). *)
From Coq Require Import Permutation Ascii.
From Verif Require Import Base Expr LinearExpr Model Study Strategy Optim Tree Fusion Benders SpecOptim SpecModelEq SpecFusion.
Local Open Scope string_scope.

(** ** What a user does with decision trees, in order *)
Inductive event :=
| NewNode (c : node_call)                               (* a node is created, or refused *)
| NewNetwork (id : string)                              (* an empty network, to be passed as coupling_network *)
| NewInfo                                               (* an empty CouplingInfo, to be passed as coupling_info *)
| Couple (self : nat) (c : coupling_call)               (* define_coupling_constraint, accepted or refused *)
| Build (root : nat) (db : database) (order : list string). (* build_benders_decomposed_problem *)
Definition step (f : forest) (e : event) : forest :=
  match e with
  | NewNode c => fst (new_node c f)
  | NewNetwork id => {| f_nodes := f_nodes f; f_networks := (f_networks f ++ [new_network id])%list; f_infos := f_infos f |}
  | NewInfo => {| f_nodes := f_nodes f; f_networks := f_networks f;
                  f_infos := (f_infos f ++ [{| ci_variables := []; ci_constraints := [] |}])%list |}
  | Couple self c => match define_coupling_constraint f self c with Ok f' => f' | Err _ => f end
  | Build root db order => fst (build_benders f root db order)
  end.
Definition history (evs : list event) : forest := fold_left step evs initial_forest.

(** ** Coupling equations: child - increment = parent, or 0 for a root *)
Record equation := { eq_child : string; eq_increment : string; eq_parent : option string }.
Definition equation_holds (y : string -> Qc) (e : equation) : Prop :=
  (y (eq_child e) - y (eq_increment e) = match eq_parent e with Some p => y p | None => 0 end)%Qc.
Definition equation_names (e : equation) : list string :=
  eq_child e :: eq_increment e :: match eq_parent e with Some p => [p] | None => [] end.
(** the variable of a component at a node of the tree *)
Definition joined (node component variable : string) : string := node ++ "_" ++ component ++ "_" ++ variable.
Definition parent_node (f : forest) (n : tree_node) : option tree_node :=
  match tn_parent n with Some p => nth_error (f_nodes f) p | None => None end.
Definition equation_of (f : forest) (n : tree_node) (c : coupling_call) : equation :=
  {| eq_child := joined (tn_id n) (co_id (given_component (cc_child c))) (cc_cumulative_child c);
     eq_increment := joined (tn_id n) (co_id (given_component (cc_child c))) (cc_incremental_child c);
     eq_parent := option_map (fun p => joined (tn_id p) (co_id (given_component (cc_parent c))) (cc_cumulative_parent c))
                    (parent_node f n) |}.
(** an accepted call asked for equation [e], on a node with coupling info [k] *)
Definition asked (evs : list event) (k : nat) (e : equation) : Prop :=
  exists before self c after n f', evs = (before ++ Couple self c :: after)%list /\
    nth_error (f_nodes (history before)) self = Some n /\ tn_coupling_info n = k /\
    define_coupling_constraint (history before) self c = Ok f' /\ e = equation_of (history before) n c.

(** the dicts of all models of a network have each key once *)
Definition proper_network (net : network) : Prop := forall c, In c (all_components net) -> proper_model (co_model c).
(** a component of the network with this id has the variable *)
Definition has_variable (net : network) (id n : string) : Prop :=
  exists c, In c (all_components net) /\ co_id c = id /\ In n (map fst (m_variables (co_model c))).

(** ** The problems of a tree *)
(** investments of a node: its probability, its data, one timestep, no scenario *)
Definition investment_settings (n : tree_node) (p : num) (db : database) : settings :=
  {| o_network := tn_network n; o_database := db; o_block := [0%Z]; o_scenarios := 0; o_cycle := true;
     o_selection := InvestmentProblem; o_risk := ExpectedValue p; o_tree_node := tn_id n; o_full_names := true |}.
(** operation of a node over one block *)
Definition operation_settings (n : tree_node) (p : num) (db : database) (timesteps : list Z) : settings :=
  {| o_network := tn_network n; o_database := db; o_block := timesteps; o_scenarios := tc_scenarios (tn_config n); o_cycle := true;
     o_selection := OperationalProblem; o_risk := ExpectedValue p; o_tree_node := tn_id n; o_full_names := true |}.
(** [st] is the investment problem of node [i] *)
Definition investment_problem (f : forest) (db : database) (i : nat) (st : state) : Prop :=
  exists n p, nth_error (f_nodes f) i = Some n /\ tn_prob n = Some p /\ build_problem (investment_settings n p db) = Ok st.
(** the variables of the set, in any order *)
Definition some_order (f : forest) (root : nat) (order : list string) : Prop :=
  exists n i, nth_error (f_nodes f) root = Some n /\ nth_error (f_infos f) (tn_coupling_info n) = Some i /\
    Permutation order (ci_variables i).

(** names that can be told apart: ids of nodes and of components are not empty, are distinct and none extends another by an
    underscore; constraints of a component have distinct names *)
Definition apart (ids : list string) : Prop :=
  NoDup ids /\ ~ In "" ids /\ forall a b, In a ids -> In b ids -> ~ extends a b.
Definition apart_tree (f : forest) (nodes : list nat) : Prop :=
  (exists ns, map (nth_error (f_nodes f)) nodes = map Some ns /\ apart (map tn_id ns)) /\
  forall i n, In i nodes -> nth_error (f_nodes f) i = Some n ->
    apart (map co_id (all_components (tn_network n))) /\ named_network (tn_network n) /\
    forall c, In c (all_components (tn_network n)) -> NoDup (map c_name (get_constraints InvestmentProblem (co_model c))).

(** ** The structure file *)
(** the columns of a problem: the name of each variable and its position *)
Definition columns (p : problem) : list (string * nat) := combine (variable_names p) (seq 0 (List.length (variable_names p))).
(** one entry: a problem, a candidate and its column in the problem *)
Definition entry : Type := string * (string * nat).
(** all variables of the master and, for each subproblem, those of its variables that are variables of the master *)
Definition shared (b : benders) : list entry :=
  (map (pair "master") (columns (bd_master b)) ++
   flat_map (fun s => map (pair (pb_name s))
               (filter (fun nc => existsb (String.eqb (fst nc)) (variable_names (bd_master b))) (columns s))) (bd_subproblems b))%list.
(** how a text is read: non-empty lines, cut at spaces *)
Fixpoint split (c : ascii) (s : string) : list string :=
  match s with
  | EmptyString => [""]
  | String a s => if Ascii.eqb a c then "" :: split c s
                  else match split c s with [] => [String a ""] | w :: ws => String a w :: ws end
  end.
Definition pieces (c : ascii) (s : string) : list string := filter (fun w => negb (String.eqb w "")) (split c s).
Definition rows_of_text (text : string) : list (list string) := map (pieces " "%char) (pieces "010"%char text).
Definition as_row (e : entry) : list string := [fst e; fst (snd e); string_of_Z (Z.of_nat (snd (snd e)))].
(** words that fit the columns of the file *)
Fixpoint plain (s : string) : bool :=
  match s with
  | EmptyString => true
  | String a s => negb (Ascii.eqb a " "%char) && negb (Ascii.eqb a "010"%char) && plain s
  end.
Definition fits (e : entry) : Prop :=
  fst e <> "" /\ plain (fst e) = true /\ fst (snd e) <> "" /\ plain (fst (snd e)) = true /\ (String.length (fst (snd e)) < 50)%nat /\
  (String.length (string_of_Z (Z.of_nat (snd (snd e)))) < 10)%nat.
