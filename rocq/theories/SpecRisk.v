(** Specification vocabulary for C94: the weight given to a problem. *)
From Verif Require Import Base Expr Model Study Strategy Optim SpecOptim.

(** the same problem weighted otherwise: another risk strategy is handed to build_problem (optimization.py, strategy.py:85-113) *)
Definition with_risk (o : settings) (r : risk) : settings := {|
  o_network := o_network o; o_database := o_database o; o_block := o_block o; o_scenarios := o_scenarios o;
  o_cycle := o_cycle o; o_selection := o_selection o; o_risk := r; o_tree_node := o_tree_node o; o_full_names := o_full_names o |}.
