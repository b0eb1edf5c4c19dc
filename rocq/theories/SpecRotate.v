(** Specification vocabulary for C96: where the cycle of a block starts. *)
From Verif Require Import Base Expr Visitors Model Study Strategy Optim SpecExpr SpecSyntax SpecModel SpecOptim SpecPrecise SpecBlock.

(** the block that starts [r] timesteps later, the first [r] ones coming last *)
Definition rotate_block (r : nat) (b : list Z) : list Z := skipn r b ++ firstn r b.
Definition rotating (r : nat) (o : settings) : settings := with_block o (rotate_block r (o_block o)) (o_database o).
(** the same decisions, counted from the new start *)
Definition counted_from (r : nat) (x : decisions) : decisions := fun c n t s => x c n (t + Z.of_nat r)%Z s.
(** the expression names no timestep by its position in the block: it has no [x[2]], only shifts such as [x[t-1]] and sums *)
Definition no_position : expr -> Prop :=
  all_nodes (fun x => match x with TEval _ _ | PVar _ _ _ _ | PParam _ _ _ _ => False | _ => True end).
(** nor does any constraint, objective or connected definition of the problem *)
Definition no_positions (o : settings) : Prop :=
  (forall c k, In c (all_components (o_network o)) -> In k (get_constraints (o_selection o) (co_model c)) -> no_position (c_expr k)) /\
  (forall ce, In ce (contributions o) -> no_position (snd ce)) /\
  (forall c p f d, In d (connected (o_network o) c p f) -> no_position (snd d)).
