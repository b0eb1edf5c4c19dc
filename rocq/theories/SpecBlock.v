(** Specification vocabulary for C88: what a block reads of the data. *)
From Verif Require Import Base Expr Model Study Strategy Optim.

(** the same problem with another block of timesteps and other data *)
Definition with_block (o : settings) (block : list Z) (db : database) : settings := {|
  o_network := o_network o; o_database := db; o_block := block; o_scenarios := o_scenarios o;
  o_cycle := o_cycle o; o_selection := o_selection o; o_risk := o_risk o; o_tree_node := o_tree_node o; o_full_names := o_full_names o |}.
(** a scenario of the problem, or none *)
Definition simulated (o : settings) (s : option Z) : Prop :=
  match s with Some z => (0 <= z < o_scenarios o)%Z | None => True end.
(** every value that the data of [o] give at a step of its block, the data base [db] gives at the same step of
    [block]; so too for what is read without timestep; only the scenarios of [o] are looked at *)
Definition gives_as_much (o : settings) (block : list Z) (db : database) : Prop :=
  List.length block = List.length (o_block o) /\
  forall c n d, get_data (o_database o) c n = Ok d ->
  exists d', get_data db c n = Ok d' /\
  forall s v, simulated o s ->
    (get_value d None s (o_tree_node o) = Ok v -> get_value d' None s (o_tree_node o) = Ok v) /\
    forall i a a', nth_error (o_block o) i = Some a -> nth_error block i = Some a' ->
      get_value d (Some a) s (o_tree_node o) = Ok v -> get_value d' (Some a') s (o_tree_node o) = Ok v.
(** the same data [k] timesteps later; rows added before the first one of a matrix are copies of it *)
Fixpoint moved (k : nat) (d : data) : data :=
  match d with
  | ConstantData v => ConstantData v
  | TimeSeriesData m => TimeSeriesData (map (fun tv => (fst tv + Z.of_nat k, snd tv)%Z) m)
  | ScenarioSeriesData m sc => ScenarioSeriesData m sc
  | TimeScenarioSeriesData rows sc => TimeScenarioSeriesData (repeat (hd [] rows) k ++ rows) sc
  | TreeData children => TreeData (map (fun kd => (fst kd, moved k (snd kd))) children)
  end.
Definition moved_data (k : nat) (db : database) : database := map (fun kd => (fst kd, moved k (snd kd))) db.
Definition moved_block (k : nat) (block : list Z) : list Z := map (fun t => t + Z.of_nat k)%Z block.
