(** Specification of decision trees (C38, C53). *)
From Verif Require Import Base Expr Model Study Tree.
Local Open Scope list_scope.

(** trees as mathematical objects: number of the node, probability, subtrees *)
Inductive dtree := DTree (i : nat) (p : Qc) (ts : list dtree).
Definition root_node (t : dtree) : nat := match t with DTree i _ _ => i end.
Definition root_prob (t : dtree) : Qc := match t with DTree _ p _ => p end.
Definition qsum (l : list Qc) : Qc := fold_right Qcplus 0%Qc l.
(** sum of the probabilities of the leaves *)
Fixpoint leaf_sum (t : dtree) : Qc :=
  match t with
  | DTree _ p [] => p
  | DTree _ _ ts => qsum (map leaf_sum ts)
  end.
(** number of edges on the longest path to a leaf *)
Fixpoint height (t : dtree) : nat :=
  match t with DTree _ _ ts => fold_right (fun u h => Nat.max (S (height u)) h) O ts end.

(** the node objects form the tree [t] under its root *)
Fixpoint tree_at (nodes : list tree_node) (t : dtree) : Prop :=
  match t with
  | DTree i p ts =>
      (exists n, nth_error nodes i = Some n /\ tn_prob n = Some (Fin p) /\ tn_children n = map root_node ts) /\
      (fix all (l : list dtree) : Prop := match l with [] => True | u :: l => tree_at nodes u /\ all l end) ts
  end.

(** what a sequence of calls of the constructor leaves behind, refused calls included *)
Definition created (calls : list node_call) : forest := fold_left (fun f c => fst (new_node c f)) calls initial_forest.
(** no call passes children; parents exist *)
Definition top_down (calls : list node_call) : Prop :=
  forall i c, nth_error calls i = Some c -> nc_children c = [] /\ forall p, nc_parent c = Some p -> (p < i)%nat.
(** the product of the probabilities passed for the nodes from the root to node [i] *)
Inductive path_product (calls : list node_call) : nat -> num -> Prop :=
| pp_root i c : nth_error calls i = Some c -> nc_parent c = None -> path_product calls i (nc_prob c)
| pp_child i c p q : nth_error calls i = Some c -> nc_parent c = Some p -> path_product calls p q ->
    path_product calls i (nmul (nc_prob c) q).

(** node [j] is [k] levels below node [i], by calls that pass parents *)
Inductive levels_below (calls : list node_call) (i : nat) : nat -> nat -> Prop :=
| lb_self : levels_below calls i O i
| lb_child k j c p : levels_below calls i k p -> nth_error calls j = Some c -> nc_parent c = Some p ->
    levels_below calls i (S k) j.
(** node [j] is created with parent [i] *)
Definition child (calls : list node_call) (i j : nat) : Prop :=
  exists c, nth_error calls j = Some c /\ nc_parent c = Some i.
(** node [i] is given the probability [given i], between 0 and 1 *)
Definition valid_probabilities (calls : list node_call) (given : nat -> Qc) : Prop :=
  forall i c, nth_error calls i = Some c -> nc_prob c = Fin (given i) /\ (0 <= given i)%Qc /\ (given i <= 1)%Qc.
(** [cs] lists the children of node [i], each once *)
Definition lists_children (calls : list node_call) (i : nat) (cs : list nat) : Prop :=
  NoDup cs /\ forall j, In j cs <-> child calls i j.
