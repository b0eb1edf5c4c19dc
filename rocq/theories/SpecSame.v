(** Specification vocabulary for C90: scenarios with the same data. *)
From Verif Require Import Base Expr Model Study Strategy Optim SpecOptim SpecPrecise.

(** whatever the timestep, the data give in every scenario of the problem what they give in the first one *)
Definition same_scenarios (o : settings) : Prop :=
  forall c n d s t, get_data (o_database o) c n = Ok d -> (0 <= s < o_scenarios o)%Z ->
  get_value d t (Some s) (o_tree_node o) = get_value d t (Some 0%Z) (o_tree_node o).
(** the cost of the best solutions *)
Definition least_cost (s : solver) (v : Qc) : Prop := exists y, optimal y s /\ objective_value y s = Some v.
