(** Specification vocabulary for C92: scenarios that are repeated or left out. *)
From Verif Require Import Base Expr Model Study Strategy Optim SpecOptim.

(** the same problem with another number of scenarios and other data *)
Definition with_scenarios (o : settings) (S : Z) (db : database) : settings := {|
  o_network := o_network o; o_database := db; o_block := o_block o; o_scenarios := S;
  o_cycle := o_cycle o; o_selection := o_selection o; o_risk := o_risk o; o_tree_node := o_tree_node o; o_full_names := o_full_names o |}.
(** each of the [S] scenarios is one of those of the problem *)
Definition chooses (o : settings) (S : Z) (p : Z -> Z) : Prop := forall s, (0 <= s < S)%Z -> (0 <= p s < o_scenarios o)%Z.
(** none is left out *)
Definition chooses_all (o : settings) (S : Z) (p : Z -> Z) : Prop := forall s, (0 <= s < o_scenarios o)%Z -> exists r, (0 <= r < S)%Z /\ p r = s.
(** what [db] gives in scenario [s], the data of the problem give in scenario [p s]; what is read without scenario is the same *)
Definition chosen_data (o : settings) (S : Z) (p : Z -> Z) (db : database) : Prop :=
  forall c n d, get_data (o_database o) c n = Ok d -> exists d', get_data db c n = Ok d' /\
  forall t, get_value d' t None (o_tree_node o) = get_value d t None (o_tree_node o) /\
  forall s, (0 <= s < S)%Z -> get_value d' t (Some s) (o_tree_node o) = get_value d t (Some (p s)) (o_tree_node o).
