(** Decision trees (src/andromede/simulation/decision_tree.py).  Definitions only. *)
From Verif Require Import Base Expr Model Study.
Local Open Scope string_scope.
Local Open Scope list_scope.

(** ** Nodes as objects *)
(** decision_tree.py:29-32 `InterDecisionTimeScenarioConfig`; a block (time_block.py:34-44) is its id and timesteps *)
Record tree_config := { tc_blocks : list (Z * list Z); tc_scenarios : Z }.
(** decision_tree.py:35-38 `CouplingInfo`; the set of variables is a list without repetition *)
Record coupling_info := { ci_variables : list string; ci_constraints : dict string expr }.
(** decision_tree.py:41-48 `DecisionTreeNode`.  Nodes, coupling networks and coupling infos are objects, known by
    their position among the objects created; [tn_prob] is None while the attribute is not set. *)
Record tree_node := {
  tn_id : string;
  tn_config : tree_config;
  tn_network : network;
  tn_prob : option num;
  tn_parent : option nat;
  tn_children : list nat;
  tn_coupling_network : nat;
  tn_coupling_info : nat
}.
(** all objects created so far; decision_tree.py:35-48 *)
Record forest := { f_nodes : list tree_node; f_networks : list network; f_infos : list coupling_info }.
(** decision_tree.py:58-59: the default arguments are created once, when the class is defined *)
Definition initial_forest : forest :=
  {| f_nodes := []; f_networks := [new_network "_Coupler"];
     f_infos := [{| ci_variables := []; ci_constraints := [] |}] |}.

(** assignment to an attribute of the object at position [i]; decision_tree.py:61-73 *)
Fixpoint update {A} (i : nat) (f : A -> A) (l : list A) : list A :=
  match l, i with
  | [], _ => []
  | a :: l, O => f a :: l
  | a :: l, S i => a :: update i f l
  end.
(** `self.prob = p`, decision_tree.py:71 *)
Definition set_prob (p : num) (n : tree_node) : tree_node :=
  {| tn_id := tn_id n; tn_config := tn_config n; tn_network := tn_network n; tn_prob := Some p; tn_parent := tn_parent n;
     tn_children := tn_children n; tn_coupling_network := tn_coupling_network n; tn_coupling_info := tn_coupling_info n |}.
(** the parent held by a node (anytree NodeMixin, used at decision_tree.py:66) *)
Definition with_parent (p : option nat) (n : tree_node) : tree_node :=
  {| tn_id := tn_id n; tn_config := tn_config n; tn_network := tn_network n; tn_prob := tn_prob n; tn_parent := p;
     tn_children := tn_children n; tn_coupling_network := tn_coupling_network n; tn_coupling_info := tn_coupling_info n |}.
(** the children held by a node (anytree NodeMixin, used at decision_tree.py:73) *)
Definition with_children (g : list nat -> list nat) (n : tree_node) : tree_node :=
  {| tn_id := tn_id n; tn_config := tn_config n; tn_network := tn_network n; tn_prob := tn_prob n; tn_parent := tn_parent n;
     tn_children := g (tn_children n); tn_coupling_network := tn_coupling_network n; tn_coupling_info := tn_coupling_info n |}.

(** ** The library anytree, as far as decision_tree.py:66, 73, 81, 87 use it *)
(** the parent of a node; decision_tree.py:66, 71 *)
Definition parent_of (nodes : list tree_node) (i : nat) : option nat :=
  match nth_error nodes i with Some n => tn_parent n | None => None end.
(** `iter_path_reverse`: the node, its parent, and so on; anytree, for the assignment at decision_tree.py:66 *)
Fixpoint path_reverse (fuel : nat) (nodes : list tree_node) (i : nat) : list nat :=
  match fuel with
  | O => []
  | S fuel => i :: match parent_of nodes i with Some p => path_reverse fuel nodes p | None => [] end
  end.
(** `==` on optional objects; anytree, for the assignment at decision_tree.py:66 *)
Definition same_parent (a b : option nat) : bool :=
  match a, b with Some a, Some b => Nat.eqb a b | None, None => true | _, _ => false end.
(** the setter of `parent`: check for loops (LoopError, a RuntimeError), detach, attach; anytree,
    for the assignment at decision_tree.py:66 *)
Definition set_parent (nodes : list tree_node) (self : nat) (value : option nat) : result (list tree_node) :=
  if same_parent (parent_of nodes self) value then Ok nodes
  else
    let attach nodes :=
      let detached := match parent_of nodes self with
                      | Some q => update q (with_children (filter (fun c => negb (Nat.eqb c self)))) nodes
                      | None => nodes
                      end in
      match value with
      | Some p => update self (with_parent value) (update p (with_children (fun l => l ++ [self])) detached)
      | None => update self (with_parent value) detached
      end in
    match value with
    | Some p => if existsb (Nat.eqb self) (path_reverse (S (List.length nodes)) nodes p) then Err RuntimeErr
                else Ok (attach nodes)
    | None => Ok (attach nodes)
    end.
(** detaching the children of a node; anytree, for the assignment at decision_tree.py:73 *)
Definition delete_children (nodes : list tree_node) (self : nat) : list tree_node :=
  match nth_error nodes self with
  | None => nodes
  | Some n => fold_left (fun nodes c => match set_parent nodes c None with Ok nodes => nodes | Err _ => nodes end)
                (tn_children n) nodes
  end.
(** attaching children one after the other; the nodes as they are when an error is raised; anytree,
    for the assignment at decision_tree.py:73 *)
Fixpoint attach_children (nodes : list tree_node) (self : nat) (children : list nat) : list tree_node * result unit :=
  match children with
  | [] => (nodes, Ok tt)
  | c :: children =>
      match set_parent nodes c (Some self) with
      | Ok nodes => attach_children nodes self children
      | Err e => (nodes, Err e)
      end
  end.
(** a child given twice (TreeError, a RuntimeError); anytree, for the assignment at decision_tree.py:73 *)
Fixpoint has_repetition (l : list nat) : bool :=
  match l with [] => false | a :: l => existsb (Nat.eqb a) l || has_repetition l end.
(** the setter of `children` on a node without children: nothing stays attached after an error; anytree,
    for the assignment at decision_tree.py:73 *)
Definition set_children (nodes : list tree_node) (self : nat) (children : list nat) : list tree_node * result unit :=
  if has_repetition children then (nodes, Err RuntimeErr)
  else match attach_children nodes self children with
       | (nodes, Ok tt) => (nodes, Ok tt)
       | (nodes, Err e) => (delete_children nodes self, Err e)
       end.

(** ** Construction *)
(** the arguments of a call of the constructor, decision_tree.py:50-60; None for the shared default objects *)
Record node_call := {
  nc_id : string;
  nc_config : tree_config;
  nc_network : network;
  nc_parent : option nat;
  nc_children : list nat;
  nc_prob : num;
  nc_coupling_network : option nat;
  nc_coupling_info : option nat
}.
(** the attribute `prob` of a node; decision_tree.py:71, 87 *)
Definition prob_of (nodes : list tree_node) (i : nat) : result num :=
  match nth_error nodes i with
  | Some n => match tn_prob n with Some p => Ok p | None => Err AttributeErr end
  | None => Err KeyError
  end.
(** `prob * (parent.prob if parent is not None else 1)`, decision_tree.py:71 *)
Definition path_probability (nodes : list tree_node) (prob : num) (parent : option nat) : result num :=
  match parent with
  | Some p => q <- prob_of nodes p ;; Ok (nmul prob q)
  | None => Ok (nmul prob n1)
  end.
(** decision_tree.py:50-73 `DecisionTreeNode.__init__`: the objects afterwards, and the new node or the exception.
    The parent is set before the probability is checked. *)
Definition new_node (c : node_call) (f : forest) : forest * result nat :=
  let self := List.length (f_nodes f) in
  let made nodes := {| f_nodes := nodes; f_networks := f_networks f; f_infos := f_infos f |} in
  let nodes := f_nodes f ++ [{| tn_id := nc_id c; tn_config := nc_config c; tn_network := nc_network c; tn_prob := None;
                                tn_parent := None; tn_children := [];
                                tn_coupling_network := match nc_coupling_network c with Some i => i | None => O end;
                                tn_coupling_info := match nc_coupling_info c with Some i => i | None => O end |}] in
  match set_parent nodes self (nc_parent c) with
  | Err e => (made nodes, Err e)
  | Ok nodes =>
      if nltb (nc_prob c) n0 || nltb n1 (nc_prob c) then (made nodes, Err ValueError)
      else match path_probability nodes (nc_prob c) (nc_parent c) with
           | Err e => (made nodes, Err e)
           | Ok p =>
               let nodes := update self (set_prob p) nodes in
               match nc_children c with
               | [] => (made nodes, Ok self)
               | children => match set_children nodes self children with
                             | (nodes, Ok tt) => (made nodes, Ok self)
                             | (nodes, Err e) => (made nodes, Err e)
                             end
               end
           end
  end.

(** ** Probabilities *)
(** the default relative tolerance of math.isclose, decision_tree.py:87 *)
Definition default_rel_tol : num := Fin (Q2Qc (1 # 1000000000)).
(** `all(...)` that stops at the first False or exception, decision_tree.py:92 *)
Fixpoint all_true {A} (f : A -> result bool) (l : list A) : result bool :=
  match l with
  | [] => Ok true
  | a :: l => b <- f a ;; if b : bool then all_true f l else Ok false
  end.
(** decision_tree.py:80-92 `is_leaves_prob_sum_one` *)
Fixpoint leaves_prob_sum_one (fuel : nat) (nodes : list tree_node) (i : nat) : result bool :=
  match fuel with
  | O => Err OutOfFuel
  | S fuel =>
      match nth_error nodes i with
      | None => Err KeyError
      | Some n =>
          match tn_children n with
          | [] => Ok true
          | children =>
              p <- prob_of nodes i ;;
              ps <- mapM (prob_of nodes) children ;;
              close <- isclose default_rel_tol n0 p (fold_left nadd ps n0) ;;
              if close then all_true (leaves_prob_sum_one fuel nodes) children else Ok false
          end
      end
  end.
(** the same, with the depth of recursion that a tree can need; decision_tree.py:80-92 *)
Definition is_leaves_prob_sum_one (f : forest) (i : nat) : result bool :=
  leaves_prob_sum_one (S (List.length (f_nodes f))) (f_nodes f) i.

(** ** Traversal *)
(** the children of a node; decision_tree.py:78, 81, 87, 92 *)
Definition children_of (nodes : list tree_node) (i : nat) : list nat :=
  match nth_error nodes i with Some n => tn_children n | None => [] end.
(** decision_tree.py:75-78 `traverse`: anytree's LevelOrderIter, level after level, at most [fuel] levels *)
Fixpoint level_order (fuel : nat) (nodes : list tree_node) (level : list nat) : list nat :=
  match fuel with
  | O => []
  | S fuel => match level with
              | [] => []
              | _ => level ++ level_order fuel nodes (flat_map (children_of nodes) level)
              end
  end.
(** `traverse(depth)`; without depth, as many levels as there are nodes; decision_tree.py:75-78 *)
Definition traverse (f : forest) (i : nat) (depth : option nat) : list nat :=
  level_order (match depth with Some d => d | None => List.length (f_nodes f) end) (f_nodes f) [i].
