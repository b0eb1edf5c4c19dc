(** Theorems about decision trees (C38, C53). *)
From Coq Require Import Permutation.
From Verif Require Import Base BaseFacts Expr Model Study Tree SpecTree SpecOutput OutputFacts TreeFacts.
Local Open Scope string_scope.
Local Open Scope list_scope.

(** ** An example: a root with two children, the second of which has two children *)
Definition ex_call (id : string) (parent : option nat) (p : Q) : node_call :=
  {| nc_id := id; nc_config := {| tc_blocks := [(1%Z, [0%Z])]; tc_scenarios := 1 |}; nc_network := new_network id;
     nc_parent := parent; nc_children := []; nc_prob := Fin (Q2Qc p); nc_coupling_network := None; nc_coupling_info := None |}.
Definition ex_calls : list node_call :=
  [ex_call "root" None (1 # 1); ex_call "a" (Some 0%nat) (1 # 4); ex_call "b" (Some 0%nat) (3 # 4);
   ex_call "c" (Some 2%nat) (1 # 3); ex_call "d" (Some 2%nat) (2 # 3)].
Definition ex_given (i : nat) : Qc :=
  match nth_error ex_calls i with Some c => match nc_prob c with Fin q => q | _ => 0%Qc end | None => 0%Qc end.
Definition ex_tree : dtree :=
  DTree 0 1%Qc [DTree 1 (Q2Qc (1 # 4)) []; DTree 2 (Q2Qc (3 # 4)) [DTree 3 (Q2Qc (1 # 4)) []; DTree 4 (Q2Qc (1 # 2)) []]].
Ltac each_node := repeat match goal with
  | H : nth_error [] ?i = Some _ |- _ => destruct i; discriminate H
  | H : nth_error (_ :: _) ?i = Some _ |- _ => destruct i; cbn [nth_error] in H; [injection H as <-|]
  end.
Example ex_top_down : top_down ex_calls.
Proof. intros i c H. unfold ex_calls in H. each_node; (split; [reflexivity|]); cbn; intros p [=]; subst; repeat constructor. Qed.
Example ex_valid : valid_probabilities ex_calls ex_given.
Proof. intros i c H. unfold ex_calls in H. each_node; (split; [reflexivity|split; discriminate]). Qed.

(** ** C38 *)
(** the probability of a node is the product of the probabilities passed on its path, whatever calls are made *)
Theorem C38_product : forall calls i p,
  prob_of (f_nodes (created calls)) i = Ok p -> path_product calls i p.
Proof. exact (fun calls i p H => proj1 (created_probs calls i p H)). Qed.
Print Assumptions C38_product.
Example C38_product_example : prob_of (f_nodes (created ex_calls)) 4 = Ok (Fin (Q2Qc (1 # 2))).
Proof. vm_compute. f_equal. f_equal. apply Qc_is_canon. reflexivity. Qed.

(** probabilities outside [0, 1] are refused, those inside are accepted and set *)
Theorem C38_refused : forall calls c, top_down (calls ++ [c]) ->
  (exists q, nc_prob c = Fin q /\ (q < 0 \/ 1 < q)%Qc) \/ nc_prob c = PInf \/ nc_prob c = NInf ->
  snd (new_node c (created calls)) = Err ValueError.
Proof. exact refused. Qed.
Print Assumptions C38_refused.
Example C38_refused_example : top_down (ex_calls ++ [ex_call "e" (Some 1%nat) (5 # 4)]).
Proof. intros i c H. cbn [ex_calls app] in H. each_node; (split; [reflexivity|]); cbn; intros p [=]; subst; repeat constructor. Qed.

Theorem C38_set : forall calls given i, top_down calls -> valid_probabilities calls given -> (i < List.length calls)%nat ->
  exists p, prob_of (f_nodes (created calls)) i = Ok p /\ path_product calls i p.
Proof. exact (fun calls given i T V H => match created_valid calls given T V i H with ex_intro _ p P => ex_intro _ p (conj P (proj1 (created_probs calls i p P))) end). Qed.
Print Assumptions C38_set.

(** what the check says when it answers, for trees built from the root downwards *)
Theorem C38_check_exact : forall calls given i, top_down calls -> valid_probabilities calls given -> (i < List.length calls)%nat ->
  exists b, is_leaves_prob_sum_one (created calls) i = Ok b /\
  (b = true <-> forall k j cs, levels_below calls i k j -> lists_children calls j cs -> cs <> [] ->
     path_product calls j n0 \/ near_number (Q2Qc (1 # 1000000000)) 0 n1 (Fin (qsum (map given cs)))).
Proof. exact check_exact. Qed.
Print Assumptions C38_check_exact.
Example C38_check_example : is_leaves_prob_sum_one (created ex_calls) 0 = Ok true.
Proof. vm_compute. reflexivity. Qed.

(** the leaves of a tree that passes the check sum to the probability of its root, within the tolerance per level,
    whatever calls are made *)
Theorem C38_leaves_sum : forall calls i q,
  is_leaves_prob_sum_one (created calls) i = Ok true -> prob_of (f_nodes (created calls)) i = Ok (Fin q) ->
  exists t, tree_at (f_nodes (created calls)) t /\ root_node t = i /\ root_prob t = q /\
    ((1 - Q2Qc (1 # 1000000000)) ^ height t * q <= leaf_sum t)%Qc /\ ((1 - Q2Qc (1 # 1000000000)) ^ height t * leaf_sum t <= q)%Qc.
Proof. exact leaves_sum. Qed.
Print Assumptions C38_leaves_sum.
Example C38_leaves_example : leaf_sum ex_tree = 1%Qc /\ height ex_tree = 2%nat.
Proof. split; [apply Qc_is_canon; reflexivity|reflexivity]. Qed.

(** exact conditional probabilities give exact sums *)
Theorem C38_exact : forall calls given i, top_down calls -> valid_probabilities calls given -> (i < List.length calls)%nat ->
  (forall k j cs, levels_below calls i k j -> lists_children calls j cs -> cs <> [] -> qsum (map given cs) = 1%Qc) ->
  exists t, tree_at (f_nodes (created calls)) t /\ root_node t = i /\ leaf_sum t = root_prob t.
Proof. exact exact_tree. Qed.
Print Assumptions C38_exact.
Example C38_exact_example : forall k j cs, levels_below ex_calls 0 k j -> lists_children ex_calls j cs -> cs <> [] -> qsum (map ex_given cs) = 1%Qc.
Proof.
  intros k j cs H L N. apply lists_children_kids in L. rewrite (qsum_perm _ _ (Permutation_map ex_given L)).
  assert (J := levels_in ex_calls 0 k j ltac:(repeat constructor) H). cbn in J.
  destruct j as [|[|[|[|[|j]]]]]; [apply Qc_is_canon; reflexivity| |apply Qc_is_canon; reflexivity| | |exfalso; do 5 apply le_S_n in J; inversion J];
    (exfalso; apply N; apply Permutation_nil; apply Permutation_sym; exact L).
Qed.

(** a refused node stays a child of its parent, and the check then raises an exception *)
Theorem C38_refused_node_stays_refuted : exists calls c,
  top_down (calls ++ [c]) /\ is_leaves_prob_sum_one (created calls) 0 = Ok true /\
  snd (new_node c (created calls)) = Err ValueError /\
  In (List.length calls) (traverse (created (calls ++ [c])) 0 None) /\
  is_leaves_prob_sum_one (created (calls ++ [c])) 0 = Err AttributeErr.
Proof.
  exists ex_calls, (ex_call "e" (Some 1%nat) (5 # 4)). split; [exact C38_refused_example|].
  split; [vm_compute; reflexivity|]. split; [vm_compute; reflexivity|]. split; [vm_compute; tauto|vm_compute; reflexivity].
Qed.
Print Assumptions C38_refused_node_stays_refuted.

(** a probability that is not a number is accepted *)
Theorem C38_nan_refuted : exists c, nc_prob c = NaN /\ snd (new_node c initial_forest) = Ok 0%nat /\
  is_leaves_prob_sum_one (created [c]) 0 = Ok true.
Proof.
  exists {| nc_id := "root"; nc_config := {| tc_blocks := []; tc_scenarios := 1 |}; nc_network := new_network "n"; nc_parent := None;
    nc_children := []; nc_prob := NaN; nc_coupling_network := None; nc_coupling_info := None |}. vm_compute. auto.
Qed.
Print Assumptions C38_nan_refuted.

(** children given through `children=` keep their probabilities: the tree of the example, built from its leaves, is
    refused by the check *)
Definition ex_up (id : string) (children : list nat) (p : Q) : node_call :=
  {| nc_id := id; nc_config := {| tc_blocks := [(1%Z, [0%Z])]; tc_scenarios := 1 |}; nc_network := new_network id;
     nc_parent := None; nc_children := children; nc_prob := Fin (Q2Qc p); nc_coupling_network := None; nc_coupling_info := None |}.
Theorem C38_children_argument_refuted : exists calls t,
  tree_at (f_nodes (created calls)) t /\ root_node t = 4%nat /\ leaf_sum t <> root_prob t /\
  is_leaves_prob_sum_one (created calls) 4 = Ok false /\
  map (fun c => (nc_id c, nc_prob c)) calls =
    map (fun c => (nc_id c, nc_prob c)) [ex_call "c" None (1 # 3); ex_call "d" None (2 # 3); ex_call "a" None (1 # 4); ex_call "b" None (3 # 4); ex_call "root" None (1 # 1)].
Proof.
  exists [ex_up "c" [] (1 # 3); ex_up "d" [] (2 # 3); ex_up "a" [] (1 # 4); ex_up "b" [0%nat; 1%nat] (3 # 4); ex_up "root" [2%nat; 3%nat] (1 # 1)].
  exists (DTree 4 (Q2Qc (1 # 1)) [DTree 2 (Q2Qc (1 # 4)) []; DTree 3 (Q2Qc (3 # 4)) [DTree 0 (Q2Qc (1 # 3)) []; DTree 1 (Q2Qc (2 # 3)) []]]).
  split.
  - assert (Q : forall a b : Qc, this a = this b -> Some (Fin a) = Some (Fin b)) by (intros; do 2 f_equal; apply Qc_is_canon; congruence).
    cbn [tree_at]. repeat split; (eexists; split; [reflexivity|split; [apply Q; reflexivity|reflexivity]]).
  - split; [reflexivity|]. split; [discriminate|]. split; [vm_compute; reflexivity|]. reflexivity.
Qed.
Print Assumptions C38_children_argument_refuted.

(** ** C53 *)
(** the nodes visited: level after level, each node below once *)
Theorem C53_levels : forall calls i depth, top_down calls ->
  exists ls, traverse (created calls) i depth = concat ls /\
    List.length ls = (match depth with Some d => d | None => List.length calls end) /\
    forall k l, nth_error ls k = Some l -> NoDup l /\ forall j, In j l <-> levels_below calls i k j.
Proof. exact traverse_levels. Qed.
Print Assumptions C53_levels.
Theorem C53_once : forall calls i depth, top_down calls -> NoDup (traverse (created calls) i depth).
Proof. exact traverse_nodup. Qed.
Print Assumptions C53_once.
Theorem C53_visited : forall calls i depth j, top_down calls -> (i < List.length calls)%nat ->
  In j (traverse (created calls) i depth) <-> exists k, levels_below calls i k j /\ forall d, depth = Some d -> (k < d)%nat.
Proof. exact traverse_In. Qed.
Print Assumptions C53_visited.
Example C53_example : traverse (created ex_calls) 0 None = [0; 1; 2; 3; 4]%nat /\ traverse (created ex_calls) 0 (Some 2%nat) = [0; 1; 2]%nat.
Proof. vm_compute. auto. Qed.
