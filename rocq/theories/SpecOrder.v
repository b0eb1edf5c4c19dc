(** Specification vocabulary for C71: what changes when nodes, components and connections are given in another order. *)
From Coq Require Import Permutation.
From Verif Require Import Base Expr Model Study Strategy Optim SpecModel SpecOptim System SpecSystem.

(** the same nodes, components and connections in another order *)
Definition reordered (n n' : network) : Prop :=
  Permutation (n_nodes n) (n_nodes n') /\ Permutation (n_components n) (n_components n') /\
  Permutation (n_connections n) (n_connections n').
(** problems of reordered networks, on the same data, block, scenarios and options *)
Definition reordered_settings (o o' : settings) : Prop :=
  reordered (o_network o) (o_network o') /\
  (forall c p, get_data (o_database o') c p = get_data (o_database o) c p) /\
  o_block o' = o_block o /\ o_scenarios o' = o_scenarios o /\ o_cycle o' = o_cycle o /\ o_selection o' = o_selection o /\
  o_risk o' = o_risk o /\ o_tree_node o' = o_tree_node o /\ o_full_names o' = o_full_names o.

(** the definitions of port fields were made by `port_field_def` *)
Definition checked_definitions (m : model) : Prop :=
  forall k d, In (k, d) (m_port_definitions m) -> mk_port_field_def (fst (d_field d)) (snd (d_field d)) (d_definition d) = Ok d.
Definition sound_connections (n : network) : Prop :=
  forall k, In k (n_connections n) ->
    checked_definitions (co_model (pr_component (pc_port1 k))) /\ checked_definitions (co_model (pr_component (pc_port2 k))).
Definition sound_network (n : network) : Prop :=
  built_network n /\ distinct_ids n /\ named_network n /\ sound_connections n.

(** ** The same linear program, its columns renumbered by [f], rows and terms in any order *)
Definition renumber (f : nat -> nat) (ic : nat * num) : nat * num := (f (fst ic), snd ic).
Definition same_row (f : nat -> nat) (r r' : solver_row) : Prop :=
  sr_name r' = sr_name r /\ sr_lb r' = sr_lb r /\ sr_ub r' = sr_ub r /\
  Permutation (map (renumber f) (sr_coefs r)) (sr_coefs r').
Definition same_program (f : nat -> nat) (s s' : solver) : Prop :=
  (forall i j, f i = f j -> i = j) /\
  List.length (s_vars s') = List.length (s_vars s) /\ (forall i, nth_error (s_vars s') (f i) = nth_error (s_vars s) i) /\
  (exists rows, Permutation rows (s_rows s') /\ Forall2 (same_row f) (s_rows s) rows) /\
  Permutation (map (renumber f) (s_objective s)) (s_objective s') /\ s_offset s' = s_offset s.

(** ** The same system file with its nodes, components and connections in another order *)
Definition reordered_file (i i' : input_system) : Prop :=
  Permutation (is_nodes i) (is_nodes i') /\ Permutation (is_components i) (is_components i') /\
  Permutation (is_connections i) (is_connections i').
