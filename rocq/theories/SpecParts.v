(** Specification vocabulary for C78: a network made of two parts that are not connected to each other. *)
From Coq Require Import Permutation.
From Verif Require Import Base Expr Model Study Strategy Optim System SpecModel SpecSystem SpecOptim SpecFusion SpecOrder.

(** the problem of another network, on the same data, block, scenarios and options *)
Definition with_network (o : settings) (n : network) : settings := {|
  o_network := n; o_database := o_database o; o_block := o_block o; o_scenarios := o_scenarios o; o_cycle := o_cycle o;
  o_selection := o_selection o; o_risk := o_risk o; o_tree_node := o_tree_node o; o_full_names := o_full_names o |}.
(** the same problem with other data *)
Definition with_database (o : settings) (db : database) : settings := {|
  o_network := o_network o; o_database := db; o_block := o_block o; o_scenarios := o_scenarios o; o_cycle := o_cycle o;
  o_selection := o_selection o; o_risk := o_risk o; o_tree_node := o_tree_node o; o_full_names := o_full_names o |}.
(** connections join nodes and components of the network *)
Definition self_contained (n : network) : Prop := forall k, In k (n_connections n) ->
  In (pr_component (pc_port1 k)) (all_components n) /\ In (pr_component (pc_port2 k)) (all_components n).
(** the nodes, components and connections of the one, then those of the other *)
Definition side_by_side (n1 n2 n : network) : Prop :=
  n_nodes n = n_nodes n1 ++ n_nodes n2 /\ n_components n = n_components n1 ++ n_components n2 /\
  n_connections n = n_connections n1 ++ n_connections n2.
(** a part of a network *)
Definition part (n : network) : Prop := built_network n /\ named_network n /\ self_contained n.

(** ** Two linear programs in one *)
(** the row with its columns renumbered by [f] *)
Definition moved_row (f : nat -> nat) (r : solver_row) : solver_row :=
  {| sr_name := sr_name r; sr_lb := sr_lb r; sr_ub := sr_ub r; sr_coefs := map (renumber f) (sr_coefs r) |}.
(** each column of [s] is a column of [s1] or of [s2], and the rows and the objective are those of both *)
Record union_of (f1 f2 : nat -> nat) (s1 s2 s : solver) : Prop := {
  un_first : forall i j, f1 i = f1 j -> i = j;
  un_second : forall i j, f2 i = f2 j -> i = j;
  un_apart : forall i j, (i < List.length (s_vars s1))%nat -> (j < List.length (s_vars s2))%nat -> f1 i <> f2 j;
  un_columns : List.length (s_vars s) = (List.length (s_vars s1) + List.length (s_vars s2))%nat;
  un_vars1 : forall i, nth_error (s_vars s) (f1 i) = nth_error (s_vars s1) i;
  un_vars2 : forall i, nth_error (s_vars s) (f2 i) = nth_error (s_vars s2) i;
  un_rows : Permutation (s_rows s) (map (moved_row f1) (s_rows s1) ++ map (moved_row f2) (s_rows s2));
  un_objective : Permutation (s_objective s) (map (renumber f1) (s_objective s1) ++ map (renumber f2) (s_objective s2));
  un_offset : s_offset s = nadd (s_offset s1) (s_offset s2)
}.

(** ** Solutions *)
(** values allowed by the problem: integer variables have integer values *)
Definition whole_number (q : Qc) : Prop := exists z, q = Q2Qc (inject_Z z).
Definition allowed (y : string -> Qc) (s : solver) : Prop :=
  feasible y s /\ forall v, In v (s_vars s) -> sv_integer v = true -> whole_number (y (sv_name v)).
Definition objective_at (y : string -> Qc) (s : solver) : option Qc := objective_value (by_name s y) s.
(** no allowed values cost less *)
Definition cheapest (y : string -> Qc) (s : solver) : Prop :=
  allowed y s /\ exists q, objective_at y s = Some q /\ forall y' q', allowed y' s -> objective_at y' s = Some q' -> (q <= q')%Qc.

(** ** Two system files in one *)
Definition put_together (i1 i2 : input_system) : input_system := {|
  is_nodes := is_nodes i1 ++ is_nodes i2; is_components := is_components i1 ++ is_components i2;
  is_connections := is_connections i1 ++ is_connections i2 |}.
(** the connections of the file are between nodes and components of the file *)
Definition contained_file (i : input_system) : Prop := forall k, In k (is_connections i) ->
  In (icn_component1 k) (input_ids i) /\ In (icn_component2 k) (input_ids i).
