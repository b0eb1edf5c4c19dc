(** Specification vocabulary for C91: the same scenarios in another order. *)
From Verif Require Import Base Expr Model Study Strategy Optim SpecOptim SpecReady SpecPrecise SpecBlock.

(** [p] gives every scenario a number of the same range, no two the same one; [q] goes back *)
Definition reordering (S : Z) (p q : Z -> Z) : Prop :=
  forall s, (0 <= s < S)%Z -> (0 <= p s < S)%Z /\ (0 <= q s < S)%Z /\ q (p s) = s /\ p (q s) = s.
(** what [db'] gives in scenario [s], the data of the problem give in scenario [p s]; what is read without scenario is the same *)
Definition reordered_data (o : settings) (p : Z -> Z) (db' : database) : Prop :=
  (forall c n, (exists d, get_data (o_database o) c n = Ok d) <-> (exists d, get_data db' c n = Ok d)) /\
  forall c n d d', get_data (o_database o) c n = Ok d -> get_data db' c n = Ok d' ->
  forall t, get_value d' t None (o_tree_node o) = get_value d t None (o_tree_node o) /\
  forall s, (0 <= s < o_scenarios o)%Z -> get_value d' t (Some s) (o_tree_node o) = get_value d t (Some (p s)) (o_tree_node o).
(** the decisions in the new order *)
Definition reordered_decisions (p : Z -> Z) (x : decisions) : decisions := fun c n t s => x c n t (p s).
(** all that C66 asks for building a problem, and C81 for its being exactly the one written *)
Definition complete_problem (o : settings) : Prop := good_problem o /\ ready_problem o /\ precise_problem o.
