(** Coupling constraints of decision trees, Benders decomposition and its structure file
    (src/andromede/simulation/decision_tree.py, benders_decomposed.py).  Definitions only. *)
From Coq Require Import Ascii.
From Verif Require Import Base Expr Visitors LinearExpr Model Study Strategy Optim ModelEq Tree Fusion.
Local Open Scope list_scope.
Local Open Scope string_scope.

(** ** Coupling constraints *)
(** the objects that can be given as a component: `Node` is a class of its own (study/network.py:48-54), and `==`
    generated by @dataclass is false between objects of different classes *)
Inductive given := GivenNode (c : component) | GivenComponent (c : component).
(** the component that is given, study/network.py:28-34 *)
Definition given_component (g : given) : component := match g with GivenNode c | GivenComponent c => c end.
(** `g in network.all_components`, decision_tree.py:110, 115.  Python also accepts a component that is the same object as
    one of the network when `==` is not true between the two (a literal NaN): simplified here *)
Definition given_in (g : given) (n : network) : result bool :=
  match g with
  | GivenNode c => component_in c (map snd (n_nodes n))
  | GivenComponent c => component_in c (map snd (n_components n))
  end.
(** study/network.py:36-37 `is_variable_in_model` *)
Definition is_variable_in_model (c : component) (n : string) : bool := dmem String.eqb n (m_variables (co_model c)).
(** the arguments of `define_coupling_constraint`, decision_tree.py:94-101 *)
Record coupling_call := {
  cc_parent : given;
  cc_cumulative_parent : string;
  cc_child : given;
  cc_cumulative_child : string;
  cc_incremental_child : string
}.
(** `set.add`, decision_tree.py:139, 145, 146 *)
Definition set_add (n : string) (l : list string) : list string :=
  if existsb (String.eqb n) l then l else (l ++ [n])%list.
(** decision_tree.py:110-113: the check on the parent's network, made only if there is a parent *)
Definition check_parent (parent : option tree_node) (g : given) : result unit :=
  match parent with
  | None => Ok tt
  | Some p => b <- given_in g (tn_network p) ;; if b : bool then Ok tt else Err RuntimeErr
  end.
(** decision_tree.py:109-131: the checks *)
Definition check_coupling (parent : option tree_node) (self : tree_node) (c : coupling_call) : result unit :=
  _ <- check_parent parent (cc_parent c) ;;
  b <- given_in (cc_child c) (tn_network self) ;;
  if negb b then Err RuntimeErr
  else if negb (is_variable_in_model (given_component (cc_parent c)) (cc_cumulative_parent c)) then Err ValueError
  else if negb (is_variable_in_model (given_component (cc_child c)) (cc_cumulative_child c)) then Err ValueError
  else if negb (is_variable_in_model (given_component (cc_child c)) (cc_incremental_child c)) then Err ValueError
  else Ok tt.
(** decision_tree.py:133-152: the coupling info afterwards *)
Definition couple (parent : option tree_node) (self : tree_node) (c : coupling_call) (i : coupling_info) : coupling_info :=
  let prefix_par := match parent with Some p => tn_id p ++ "_" ++ co_id (given_component (cc_parent c)) | None => "" end in
  let cumulative_par := match parent with Some _ => prefix_par ++ "_" ++ cc_cumulative_parent c | None => "" end in
  let prefix_chd := tn_id self ++ "_" ++ co_id (given_component (cc_child c)) in
  let cumulative_chd := prefix_chd ++ "_" ++ cc_cumulative_child c in
  let incremental_chd := prefix_chd ++ "_" ++ cc_incremental_child c in
  let variables := match parent with Some _ => set_add cumulative_par (ci_variables i) | None => ci_variables i end in
  let key := prefix_par ++ "_" ++ prefix_chd ++ "_" ++ string_of_Z (Z.of_nat (List.length (ci_constraints i))) in
  {| ci_variables := set_add incremental_chd (set_add cumulative_chd variables);
     ci_constraints :=
       dset String.eqb key
         (py_cmp (py_sub (Var cumulative_chd) (Var incremental_chd))
            (if String.eqb cumulative_par "" then Lit n0 else Var cumulative_par) EQUAL)
         (ci_constraints i) |}.
(** changes to the coupling infos, decision_tree.py:139-152 *)
Definition with_infos (f : forest) (infos : list coupling_info) : forest :=
  {| f_nodes := f_nodes f; f_networks := f_networks f; f_infos := infos |}.
(** the node object at a position, decision_tree.py:94 *)
Definition node_at (f : forest) (i : nat) : result tree_node :=
  match nth_error (f_nodes f) i with Some n => Ok n | None => Err KeyError end.
(** the coupling info object at a position, decision_tree.py:65 *)
Definition info_at (f : forest) (i : nat) : result coupling_info :=
  match nth_error (f_infos f) i with Some c => Ok c | None => Err KeyError end.
(** decision_tree.py:94-152 `define_coupling_constraint`; objects that do not exist are never met in python *)
Definition define_coupling_constraint (f : forest) (self : nat) (c : coupling_call) : result forest :=
  n <- node_at f self ;;
  _ <- info_at f (tn_coupling_info n) ;;
  let parent := match tn_parent n with Some p => nth_error (f_nodes f) p | None => None end in
  _ <- check_coupling parent n c ;;
  Ok (with_infos f (update (tn_coupling_info n) (couple parent n c) (f_infos f))).

(** decision_tree.py:171-180: the variables of the coupling model *)
Definition coupling_variable (n : string) : result variable :=
  float_variable n (Some (Lit n0)) None {| ix_time := false; ix_scenario := false |} INVESTMENT.
(** decision_tree.py:182-189: its constraints *)
Definition coupling_row (ke : string * expr) : result constraint :=
  mk_constraint (fst ke) (snd ke) minus_infinity plus_infinity INVESTMENT.
(** decision_tree.py:192-199: the component added to the coupling network *)
Definition coupling_component (order : list string) (i : coupling_info) : result component :=
  vs <- mapM coupling_variable order ;;
  cs <- mapM coupling_row (ci_constraints i) ;;
  m <- make_model "" cs [] [] vs None None false [] [] ;;
  Ok {| co_model := m; co_id := "coupling" |}.
(** decision_tree.py:154-199 `_add_coupling_constraints`; python may go through the set of variables in any order, which
    is [order] *)
Definition add_coupling_constraints (f : forest) (self : nat) (order : list string) : result forest :=
  n <- node_at f self ;;
  i <- info_at f (tn_coupling_info n) ;;
  c <- coupling_component order i ;;
  Ok {| f_nodes := f_nodes f; f_networks := update (tn_coupling_network n) (add_component c) (f_networks f);
        f_infos := f_infos f |}.

(** ** Building the problems *)
(** benders_decomposed.py:44-75 `BendersDecomposedProblem` *)
Record benders := { bd_master : problem; bd_subproblems : list problem }.
(** build_problem with a name, optimization.py:749-788 *)
Definition named_problem (name : string) (o : settings) : result problem :=
  st <- build_problem o ;; Ok {| pb_name := name; pb_state := st |}.
(** benders_decomposed.py:239-256: the settings of the coupler (block 0 with timestep 0, no scenario, names without prefix);
    the argument border_management (222) is not passed on *)
Definition coupler_settings (n : network) (db : database) : settings :=
  {| o_network := n; o_database := db; o_block := [0%Z]; o_scenarios := 0; o_cycle := true; o_selection := InvestmentProblem;
     o_risk := ExpectedValue n0; o_tree_node := ""; o_full_names := false |}.
(** benders_decomposed.py:264-276: the settings of a master *)
Definition master_settings (n : tree_node) (p : num) (db : database) : settings :=
  {| o_network := tn_network n; o_database := db; o_block := [0%Z]; o_scenarios := 0; o_cycle := true;
     o_selection := InvestmentProblem; o_risk := ExpectedValue p; o_tree_node := tn_id n; o_full_names := true |}.
(** benders_decomposed.py:281-293: the settings of a subproblem *)
Definition subproblem_settings (n : tree_node) (p : num) (block : list Z) (db : database) : settings :=
  {| o_network := tn_network n; o_database := db; o_block := block; o_scenarios := tc_scenarios (tn_config n); o_cycle := true;
     o_selection := OperationalProblem; o_risk := ExpectedValue p; o_tree_node := tn_id n; o_full_names := true |}.
(** benders_decomposed.py:262 *)
Definition suffix_tree (size : nat) (n : tree_node) : string := if Nat.ltb 1 size then "_" ++ tn_id n else "".
(** benders_decomposed.py:279 *)
Definition suffix_block (blocks : list (Z * list Z)) (id : Z) : string :=
  if Nat.ltb 1 (List.length blocks) then "_b" ++ string_of_Z id else "".
(** benders_decomposed.py:278-293: the subproblem of a block *)
Definition build_subproblem (db : database) (size : nat) (n : tree_node) (p : num) (b : Z * list Z) : result problem :=
  named_problem ("subproblem" ++ suffix_tree size n ++ suffix_block (tc_blocks (tn_config n)) (fst b))
    (subproblem_settings n p (snd b) db).
(** benders_decomposed.py:261-293: the master and the subproblems of a node of the tree *)
Definition build_node (f : forest) (db : database) (size : nat) (i : nat) : result (problem * list problem) :=
  n <- node_at f i ;;
  p <- prob_of (f_nodes f) i ;;
  m <- named_problem ("master" ++ suffix_tree size n) (master_settings n p db) ;;
  ss <- mapM (build_subproblem db size n p) (tc_blocks (tn_config n)) ;;
  Ok (m, ss).
(** benders_decomposed.py:246-299; `size` (262) is the number of nodes of the tree below the root given *)
Definition build_problems (f : forest) (root : nat) (db : database) : result benders :=
  n <- node_at f root ;;
  net <- match nth_error (f_networks f) (tn_coupling_network n) with Some net => Ok net | None => Err KeyError end ;;
  coupler <- named_problem "coupler" (coupler_settings net db) ;;
  let nodes := traverse f root None in
  parts <- mapM (build_node f db (List.length nodes)) nodes ;;
  master <- fusion_problems (map fst parts) coupler ;;
  Ok {| bd_master := master; bd_subproblems := flat_map snd parts |}.
(** benders_decomposed.py:218-299 `build_benders_decomposed_problem`: the objects afterwards, and the problem or the
    exception *)
Definition build_benders (f : forest) (root : nat) (db : database) (order : list string) : forest * result benders :=
  match is_leaves_prob_sum_one f root with
  | Err e => (f, Err e)
  | Ok false => (f, Err ValueError)
  | Ok true =>
      match add_coupling_constraints f root order with
      | Err e => (f, Err e)
      | Ok f => (f, build_problems f root db)
      end
  end.

(** ** The structure file *)
(** benders_decomposed.py:91-95: the columns of the master by name *)
Definition master_columns (p : problem) : dict string nat :=
  fold_left (fun d ki => dset String.eqb (vi_name (snd ki)) (vi_column (snd ki)) d) (st_infos (pb_state p)) [].
(** benders_decomposed.py:100-105: the columns of a subproblem that are candidates *)
Definition candidate_columns (candidates : dict string nat) (p : problem) : dict string nat :=
  fold_left (fun d ki => if dmem String.eqb (vi_name (snd ki)) candidates
                         then dset String.eqb (vi_name (snd ki)) (vi_column (snd ki)) d else d)
    (st_infos (pb_state p)) [].
(** benders_decomposed.py:85-105 `problem_to_candidates` *)
Definition problem_to_candidates (b : benders) : dict string (dict string nat) :=
  let candidates := master_columns (bd_master b) in
  fold_left (fun d p => dset String.eqb (pb_name p) (candidate_columns candidates p) d) (bd_subproblems b)
    [("master", candidates)].
(** the padding of `f"{s:>n}"`, benders_decomposed.py:110 *)
Fixpoint spaces (n : nat) : string := match n with O => "" | S n => String " "%char (spaces n) end.
(** `f"{s:>n}"`: what is longer is not cut, benders_decomposed.py:110 *)
Definition right_aligned (n : nat) (s : string) : string := spaces (n - String.length s) ++ s.
(** benders_decomposed.py:110: one line *)
Definition structure_line (problem candidate : string) (index : nat) : string :=
  right_aligned 50 problem ++ right_aligned 50 candidate ++ right_aligned 10 (string_of_Z (Z.of_nat index)) ++ String "010"%char "".
(** benders_decomposed.py:77-112 `export_structure` *)
Definition export_structure (b : benders) : result string :=
  match bd_subproblems b with
  | [] => Err RuntimeErr
  | _ => Ok (fold_left (fun text pc => fold_left (fun text ci => text ++ structure_line (fst pc) (fst ci) (snd ci)) (snd pc) text)
               (problem_to_candidates b) "")
  end.
