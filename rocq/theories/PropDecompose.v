(** Theorems about decomposed problems and the whole they decompose (C70). *)
From Coq Require Import Lia Permutation.
From Verif Require Import Base BaseFacts Expr Visitors Model Study Strategy Optim Tree Fusion Benders.
From Verif Require Import SpecExpr SpecLinear SpecModel SpecOptim SpecFusion SpecBenders SpecDecompose ExampleProblem PropBenders.
From Verif Require Import DecomposeFacts DecomposeTree DecomposeColumns.
Local Open Scope string_scope.
Local Open Scope list_scope.

(** ** One problem and its two parts *)
(** variables, feasible values and objective of the problem with investments and operation are those of the two parts together *)
Theorem C70_parts : forall o whole_state investment_state operation_state, usable_block o -> built_network (o_network o) ->
  distinct_ids (o_network o) -> named_network (o_network o) -> settled_network (o_network o) -> suitable_network (o_network o) (o_database o) ->
  build_problem (whole o) = Ok whole_state -> build_problem (investments o) = Ok investment_state ->
  build_problem (operation o) = Ok operation_state ->
  (forall v, In v (s_vars (st_solver whole_state)) <-> In v (s_vars (st_solver investment_state)) \/ In v (s_vars (st_solver operation_state))) /\
  (forall y, feasible y (st_solver whole_state) <-> feasible y (st_solver investment_state) /\ feasible y (st_solver operation_state)) /\
  forall y, objective_value (by_name (st_solver whole_state) y) (st_solver whole_state) =
    olift2 Qcplus (objective_value (by_name (st_solver investment_state) y) (st_solver investment_state))
                  (objective_value (by_name (st_solver operation_state) y) (st_solver operation_state)).
Proof.
  intros o A M S Hu Hb Hd Hn Hs Hdata HA HM HS. split; [exact (vars_parts o Hd Hn Hs A M S HA HM HS)|]. split.
  - exact (feasible_parts o Hu Hb Hd Hn Hs Hdata A M S HA HM HS).
  - exact (objective_parts o Hu Hb Hd Hn Hs A M S HA HM HS).
Qed.
Print Assumptions C70_parts.

(** when the two parts can be built, so can the whole *)
Theorem C70_builds : forall o investment_state operation_state, usable_block o -> built_network (o_network o) ->
  distinct_ids (o_network o) -> named_network (o_network o) -> settled_network (o_network o) -> suitable_network (o_network o) (o_database o) ->
  build_problem (investments o) = Ok investment_state -> build_problem (operation o) = Ok operation_state ->
  exists whole_state, build_problem (whole o) = Ok whole_state.
Proof. intros o M S Hu Hb Hd Hn Hs Hdata. exact (whole_built o Hu Hb Hd Hn Hs Hdata M S). Qed.
Print Assumptions C70_builds.

(** ** Trees *)
(** every node has a whole problem over each of its blocks *)
Theorem C70_wholes : forall evs root db order f' b n, nth_error (f_nodes (history evs)) root = Some n ->
  some_order (history evs) root order -> build_benders (history evs) root db order = (f', Ok b) ->
  apart_tree (history evs) (traverse (history evs) root None) -> settled_tree (history evs) (traverse (history evs) root None) db ->
  exists wholes, Forall2 (whole_of db) (cells (history evs) (traverse (history evs) root None)) wholes.
Proof. exact wholes_exist. Qed.
Print Assumptions C70_wholes.

(** values of the candidates and of the subproblems are feasible for the master and the subproblems exactly when they satisfy
    the coupling equations and are feasible for the whole problem of each node over each block *)
Theorem C70_feasible : forall evs root db order f' b n wholes, nth_error (f_nodes (history evs)) root = Some n ->
  some_order (history evs) root order -> build_benders (history evs) root db order = (f', Ok b) ->
  (1 < List.length (traverse (history evs) root None))%nat -> apart_tree (history evs) (traverse (history evs) root None) ->
  settled_tree (history evs) (traverse (history evs) root None) db -> rows_with_terms (history evs) (traverse (history evs) root None) db ->
  coupled_investments evs (tn_coupling_info n) (traverse (history evs) root None) db ->
  Forall2 (whole_of db) (cells (history evs) (traverse (history evs) root None)) wholes ->
  forall y zs, linked b y zs ->
    (feasible y (solver_of (bd_master b)) /\ all_feasible zs (map solver_of (bd_subproblems b))) <->
    ((forall q, asked evs (tn_coupling_info n) q -> equation_holds y q) /\ all_feasible zs (map st_solver wholes)).
Proof. exact tree_feasible. Qed.
Print Assumptions C70_feasible.

(** with one block per node, costs are the same too *)
Theorem C70_cost : forall evs root db order f' b n wholes, nth_error (f_nodes (history evs)) root = Some n ->
  some_order (history evs) root order -> build_benders (history evs) root db order = (f', Ok b) ->
  (1 < List.length (traverse (history evs) root None))%nat -> apart_tree (history evs) (traverse (history evs) root None) ->
  settled_tree (history evs) (traverse (history evs) root None) db -> one_block_each (history evs) (traverse (history evs) root None) ->
  Forall2 (whole_of db) (cells (history evs) (traverse (history evs) root None)) wholes ->
  forall y zs, linked b y zs -> List.length zs = List.length (bd_subproblems b) ->
    olift2 Qcplus (cost y (solver_of (bd_master b))) (total_cost zs (map solver_of (bd_subproblems b))) = total_cost zs (map st_solver wholes).
Proof. exact tree_cost. Qed.
Print Assumptions C70_cost.

(** with several blocks, the whole problems count the investments of a node once per block; the master counts them once
    (C56_master) *)
Theorem C70_blocks : forall evs root db order f' b n wholes, nth_error (f_nodes (history evs)) root = Some n ->
  some_order (history evs) root order -> build_benders (history evs) root db order = (f', Ok b) ->
  (1 < List.length (traverse (history evs) root None))%nat -> apart_tree (history evs) (traverse (history evs) root None) ->
  settled_tree (history evs) (traverse (history evs) root None) db ->
  Forall2 (whole_of db) (cells (history evs) (traverse (history evs) root None)) wholes ->
  exists invs, Forall2 (investment_of db) (cells (history evs) (traverse (history evs) root None)) invs /\
    forall y zs, linked b y zs -> List.length zs = List.length (bd_subproblems b) ->
    total_cost zs (map st_solver wholes) =
    olift2 Qcplus (osum (map (fun st => cost y (st_solver st)) invs)) (total_cost zs (map solver_of (bd_subproblems b))).
Proof. exact tree_blocks. Qed.
Print Assumptions C70_blocks.

(** with one block per node, so is the optimum *)
Theorem C70_optimum : forall evs root db order f' b n wholes, nth_error (f_nodes (history evs)) root = Some n ->
  some_order (history evs) root order -> build_benders (history evs) root db order = (f', Ok b) ->
  (1 < List.length (traverse (history evs) root None))%nat -> apart_tree (history evs) (traverse (history evs) root None) ->
  settled_tree (history evs) (traverse (history evs) root None) db -> rows_with_terms (history evs) (traverse (history evs) root None) db ->
  coupled_investments evs (tn_coupling_info n) (traverse (history evs) root None) db -> one_block_each (history evs) (traverse (history evs) root None) ->
  Forall2 (whole_of db) (cells (history evs) (traverse (history evs) root None)) wholes ->
  forall y zs,
    best (fun a => linked b (fst a) (snd a) /\ feasible (fst a) (solver_of (bd_master b)) /\ all_feasible (snd a) (map solver_of (bd_subproblems b)))
         (fun a => olift2 Qcplus (cost (fst a) (solver_of (bd_master b))) (total_cost (snd a) (map solver_of (bd_subproblems b)))) (y, zs) <->
    best (fun a => linked b (fst a) (snd a) /\ (forall q, asked evs (tn_coupling_info n) q -> equation_holds (fst a) q) /\
                   all_feasible (snd a) (map st_solver wholes))
         (fun a => total_cost (snd a) (map st_solver wholes)) (y, zs).
Proof. exact tree_optimum. Qed.
Print Assumptions C70_optimum.

(** and in terms of the files: values of the columns satisfy the problems and the structure file exactly when they are values
    of the variables that satisfy the coupling equations and the whole problems *)
Theorem C70_files : forall evs root db order f' b n wholes, nth_error (f_nodes (history evs)) root = Some n ->
  some_order (history evs) root order -> build_benders (history evs) root db order = (f', Ok b) ->
  (1 < List.length (traverse (history evs) root None))%nat -> apart_tree (history evs) (traverse (history evs) root None) ->
  settled_tree (history evs) (traverse (history evs) root None) db -> rows_with_terms (history evs) (traverse (history evs) root None) db ->
  coupled_investments evs (tn_coupling_info n) (traverse (history evs) root None) db ->
  (forall i n, In i (traverse (history evs) root None) -> nth_error (f_nodes (history evs)) i = Some n -> NoDup (map fst (tc_blocks (tn_config n)))) ->
  (forall s, In s (bd_subproblems b) -> NoDup (variable_names s)) ->
  Forall2 (whole_of db) (cells (history evs) (traverse (history evs) root None)) wholes ->
  forall x, solves b x <->
    exists y zs, linked b y zs /\ same_values (x "master") (solver_of (bd_master b)) y /\
      Forall2 (fun z s => same_values (x (pb_name s)) (solver_of s) z) zs (bd_subproblems b) /\
      (forall q, asked evs (tn_coupling_info n) q -> equation_holds y q) /\ all_feasible zs (map st_solver wholes).
Proof. exact tree_files. Qed.
Print Assumptions C70_files.

(** a tree of one node: nothing is coupled *)
Theorem C70_single : forall evs root db order f' b wholes, some_order (history evs) root order ->
  build_benders (history evs) root db order = (f', Ok b) -> List.length (traverse (history evs) root None) = 1%nat ->
  apart_tree (history evs) (traverse (history evs) root None) -> settled_tree (history evs) (traverse (history evs) root None) db ->
  Forall2 (whole_of db) (cells (history evs) (traverse (history evs) root None)) wholes ->
  (forall y zs, linked b y zs ->
     (feasible y (solver_of (bd_master b)) /\ all_feasible zs (map solver_of (bd_subproblems b))) <-> all_feasible zs (map st_solver wholes)) /\
  (one_block_each (history evs) (traverse (history evs) root None) -> forall y zs, linked b y zs ->
     List.length zs = List.length (bd_subproblems b) ->
     olift2 Qcplus (cost y (solver_of (bd_master b))) (total_cost zs (map solver_of (bd_subproblems b))) = total_cost zs (map st_solver wholes)).
Proof. exact single_node. Qed.
Print Assumptions C70_single.

(** ** An example: capacity added in two periods, within a limit, at a price *)
Definition exd_constraint (n : string) (e lb ub : expr) (c : problem_context) : constraint :=
  {| c_name := n; c_expr := e; c_lower := lb; c_upper := ub; c_context := c |}.
Definition exd_model (limit : indexing) : model := {|
  m_id := "candidate";
  m_constraints := [("capacity", exd_constraint "capacity" (Add [Var "p"; Neg (Var "total")]) (Lit NInf) (nzl 0) OPERATIONAL);
                    ("demand", exd_constraint "demand" (Var "p") (Param "load") (Lit PInf) OPERATIONAL);
                    ("room", exd_constraint "room" (Add [Var "added"; Mul (nzl 2) (Var "total"); Neg (Param "limit")]) (Lit NInf) (nzl 0) INVESTMENT)];
  m_binding_constraints := []; m_inter_block_dyn := false;
  m_parameters := [("price", exp_parameter "price" constant_index); ("limit", exp_parameter "limit" limit);
                   ("load", exp_parameter "load" time_and_scenario)];
  m_variables := [("p", exb_variable "p" time_and_scenario (Some (nzl 100)) OPERATIONAL);
                  ("total", exb_variable "total" constant_index None COUPLING);
                  ("added", exb_variable "added" constant_index (Some (nzl 40)) INVESTMENT)];
  m_operational := Some (ScenOp (AllSum (Mul (nzl 10) (Var "p"))) Expectation);
  m_investment := Some (Add [Mul (Param "price") (Var "added"); nzl 7]);
  m_ports := []; m_port_definitions := [] |}.
Definition exd_component (limit : indexing) : component := {| co_model := exd_model limit; co_id := "wind" |}.
Definition exd_network (limit : indexing) : network := add_component (exd_component limit) (new_network "study").
Definition exd_call (limit : indexing) : coupling_call :=
  {| cc_parent := GivenComponent (exd_component limit); cc_cumulative_parent := "total";
     cc_child := GivenComponent (exd_component limit); cc_cumulative_child := "total"; cc_incremental_child := "added" |}.
Definition exd_history (limit : indexing) : list event :=
  [exb_node "now" None (1 # 1) [(1%Z, [0%Z; 1%Z])] (exd_network limit) None;
   exb_node "later" (Some 0%nat) (1 # 1) [(1%Z, [2%Z])] (exd_network limit) None;
   Couple 0 (exd_call limit); Couple 1 (exd_call limit)].
Definition exd_db (limit : data) : database :=
  [(("wind", "price"), ConstantData (nz 3)); (("wind", "limit"), limit);
   (("wind", "load"), TimeScenarioSeriesData [[nz 5; nz 6]; [nz 7; nz 8]; [nz 9; nz 4]] None)].
Definition exd_order : list string := ["now_wind_added"; "later_wind_added"; "later_wind_total"; "now_wind_total"].
Definition exd_of (limit : indexing) (d : data) : benders :=
  match snd (build_benders (history (exd_history limit)) 0 (exd_db d) exd_order) with Ok b => b | Err _ => exb_built end.
(** values that satisfy all constraints when the limit is 60 *)
Definition exd_values (x : string) : Qc :=
  if existsb (String.eqb x) ["later_wind_total"; "later_wind_p_s0"; "later_wind_p_s1"] then Z2Qc 9
  else if String.eqb x "later_wind_added" then 1%Qc else Z2Qc 8.
Definition at_least_b (lb : num) (v : Qc) : bool := match lb with NInf => true | Fin q => Qcleb q v | _ => false end.
Definition at_most_b (ub : num) (v : Qc) : bool := match ub with PInf => true | Fin q => Qcleb v q | _ => false end.
Definition feasible_b (y : string -> Qc) (s : solver) : bool :=
  forallb (fun v => at_least_b (sv_lb v) (y (sv_name v)) && at_most_b (sv_ub v) (y (sv_name v))) (s_vars s) &&
  forallb (fun r => match coefs_value (by_name s y) (sr_coefs r) with
                    | Some v => at_least_b (sr_lb r) v && at_most_b (sr_ub r) v
                    | None => false end) (s_rows s).
Lemma at_least_checked lb v : at_least_b lb v = true <-> at_least lb v.
Proof. destruct lb; cbn; try easy. apply Qcleb_le. Qed.
Lemma at_most_checked ub v : at_most_b ub v = true <-> at_most ub v.
Proof. destruct ub; cbn; try easy. apply Qcleb_le. Qed.
Lemma feasible_checked y s : feasible_b y s = true <-> feasible y s.
Proof.
  unfold feasible_b, feasible. rewrite andb_true_iff, !forallb_forall. split; intros [B R]; split.
  - intros v Hv. specialize (B v Hv). apply andb_true_iff in B as [B1 B2]. split; [now apply at_least_checked|now apply at_most_checked].
  - intros r Hr. specialize (R r Hr). destruct (coefs_value _ _) as [v|] eqn:E; [|discriminate]. apply andb_true_iff in R as [R1 R2].
    exists v. split; [exact E|]. split; [now apply at_least_checked|now apply at_most_checked].
  - intros v Hv. destruct (B v Hv) as [B1 B2]. apply andb_true_iff. split; [now apply at_least_checked|now apply at_most_checked].
  - intros r Hr. destruct (R r Hr) as (v & E & R1 & R2). rewrite E. apply andb_true_iff. split; [now apply at_least_checked|now apply at_most_checked].
Qed.
Definition all_feasible_b (zs : list (string -> Qc)) (ss : list solver) : bool :=
  Nat.eqb (List.length zs) (List.length ss) && forallb (fun p => feasible_b (fst p) (snd p)) (combine zs ss).
Lemma all_feasible_checked zs ss : all_feasible_b zs ss = true <-> all_feasible zs ss.
Proof.
  unfold all_feasible_b, all_feasible. rewrite andb_true_iff, Nat.eqb_eq. revert ss. induction zs as [|z zs IH]; intros [|s ss]; cbn.
  - split; [constructor|split; reflexivity].
  - split; [intros [K _]; discriminate K|intros K; inversion K].
  - split; [intros [K _]; discriminate K|intros K; inversion K].
  - rewrite andb_true_iff, feasible_checked. split.
    + intros (K1 & K2 & K3). constructor; [exact K2|]. apply IH. split; [lia|exact K3].
    + intros K. inversion K as [|? ? ? ? K1 K2]; subst. apply IH in K2 as [K2 K3]. split; [lia|]. split; assumption.
Qed.

Definition exd_evs : list event := exd_history constant_index.
Definition exd_data : database := exd_db (ConstantData (nz 60)).
Definition exd_built : benders := exd_of constant_index (ConstantData (nz 60)).
Lemma exd_named limit : named_model (exd_model limit).
Proof. split; [solve_named|]. split; [solve_named|]. split; [solve_named|]. split; [solve_named|]. split; solve_named. Qed.
Lemma exd_nodes i n : In i [0; 1]%nat -> nth_error (f_nodes (history exd_evs)) i = Some n ->
  tn_network n = exd_network constant_index /\ tc_blocks (tn_config n) = [(1%Z, if Nat.eqb i 0 then [0%Z; 1%Z] else [2%Z])] /\ tn_prob n = Some n1.
Proof. intros Hi Hn. apply some_node_of in Hn. rewrite Hn. clear Hn. destruct Hi as [<-|[<-|[]]]; vm_compute; auto. Qed.
Lemma exd_traverse : traverse (history exd_evs) 0 None = [0; 1]%nat.
Proof. vm_compute. reflexivity. Qed.
Example exd_builds : some_order (history exd_evs) 0 exd_order /\
  build_benders (history exd_evs) 0 exd_data exd_order = (fst (build_benders (history exd_evs) 0 exd_data exd_order), Ok exd_built) /\
  apart_tree (history exd_evs) (traverse (history exd_evs) 0 None).
Proof.
  split; [order_ok exd_evs 0%nat|]. split; [vm_compute; reflexivity|]. rewrite exd_traverse. split.
  - exists (map (some_node (history exd_evs)) [0; 1]%nat). split.
    + cbn [map]. rewrite !some_node_at by (vm_compute; reflexivity). reflexivity.
    + assert (E : map tn_id (map (some_node (history exd_evs)) [0; 1]%nat) = ["now"; "later"]) by (vm_compute; reflexivity).
      rewrite E. apart_names.
  - intros i n Hi Hn. destruct (exd_nodes i n Hi Hn) as (-> & _). split; [vm_compute; apart_names|]. split.
    + intros c [<-|[]]. apply exd_named.
    + intros c [<-|[]]. vm_compute. nodup.
Qed.
Example exd_settled : settled_tree (history exd_evs) (traverse (history exd_evs) 0 None) exd_data.
Proof.
  rewrite exd_traverse. intros i n Hi Hn. destruct (exd_nodes i n Hi Hn) as (-> & -> & _).
  split; [apply bn_component, bn_new|]. split; [|split; [|split; [discriminate|]]].
  - intros c [<-|[]]. split; [|split].
    + intros v [<-|[<-|[<-|[]]]] [K|K]; try discriminate K; now split.
    + intros k [<-|[<-|[<-|[]]]] [K|K]; try discriminate K.
      split; [|split; repeat split; exact I]. cbn. split; [discriminate|]. repeat split; try discriminate.
      * eexists. split; [right; right; left; reflexivity|]. now repeat split.
      * eexists. split; [right; left; reflexivity|]. now repeat split.
      * eexists. split; [right; left; reflexivity|]. now repeat split.
    + intros e [= <-]. cbn. split; [discriminate|]. repeat split.
      * eexists. split; [left; reflexivity|]. now repeat split.
      * eexists. split; [right; right; left; reflexivity|]. now repeat split.
  - intros c p [<-|[]] [<-|[<-|[<-|[]]]]; (eexists; split; [reflexivity|]); split; intros K; try discriminate K; intros t; intros; reflexivity.
  - intros blk [<-|[]]. destruct (Nat.eqb i 0); discriminate.
Qed.
Example exd_rows : rows_with_terms (history exd_evs) (traverse (history exd_evs) 0 None) exd_data.
Proof.
  rewrite exd_traverse. intros i st r Hi (n & p & Hn & Hp & Hb) Hr. apply some_node_of in Hn. subst n.
  destruct Hi as [<-|[<-|[]]]; (injection Hp as <-); vm_compute in Hb; injection Hb as <-; destruct Hr as [<-|[]];
    (eexists; eexists; split; [left; reflexivity|]); discriminate.
Qed.
Example exd_coupled : coupled_investments exd_evs 0 (traverse (history exd_evs) 0 None) exd_data.
Proof.
  assert (B : forall i, In i [0; 1]%nat -> exists st, investment_problem (history exd_evs) exd_data i st /\
    map sv_name (s_vars (st_solver st)) = map (fun v => joined (tn_id (some_node (history exd_evs) i)) "wind" v) ["total"; "added"]).
  { intros i [<-|[<-|[]]].
    - eexists. split; [exists (some_node (history exd_evs) 0), n1; split; [apply some_node_at; vm_compute; reflexivity|]; split; vm_compute; reflexivity|]. vm_compute. reflexivity.
    - eexists. split; [exists (some_node (history exd_evs) 1), n1; split; [apply some_node_at; vm_compute; reflexivity|]; split; vm_compute; reflexivity|]. vm_compute. reflexivity. }
  rewrite exd_traverse. intros q x (before & self & c & after & n & f' & E & Hn & _ & _ & ->) Hx.
  destruct (B 0%nat) as (st0 & B0 & N0); [cbn; auto|]. destruct (B 1%nat) as (st1 & B1 & N1); [cbn; auto|].
  assert (G : x = "now_wind_total" \/ x = "now_wind_added" \/ x = "later_wind_total" \/ x = "later_wind_added").
  { clear B B0 B1 N0 N1. destruct before as [|e1 before]; [discriminate E|]. injection E as <- E.
    destruct before as [|e2 before]; [discriminate E|]. injection E as <- E.
    destruct before as [|e3 before].
    - injection E as <- <- <-. apply some_node_of in Hn. rewrite Hn in Hx. vm_compute in Hx. intuition.
    - injection E as <- E. destruct before as [|e4 before].
      + injection E as <- <- <-. apply some_node_of in Hn. rewrite Hn in Hx. vm_compute in Hx. intuition.
      + injection E as <- E. destruct before; discriminate E. }
  destruct G as [-> | [-> | [-> | ->]]].
  - exists 0%nat, st0. split; [cbn; auto|]. split; [exact B0|]. rewrite N0. vm_compute. auto.
  - exists 0%nat, st0. split; [cbn; auto|]. split; [exact B0|]. rewrite N0. vm_compute. auto.
  - exists 1%nat, st1. split; [cbn; auto|]. split; [exact B1|]. rewrite N1. vm_compute. auto.
  - exists 1%nat, st1. split; [cbn; auto|]. split; [exact B1|]. rewrite N1. vm_compute. auto.
Qed.
Example exd_one_block : one_block_each (history exd_evs) (traverse (history exd_evs) 0 None).
Proof. rewrite exd_traverse. intros i n Hi Hn. destruct (exd_nodes i n Hi Hn) as (_ & -> & _). reflexivity. Qed.
(** the whole problems of the two nodes *)
Definition exd_whole (limit : indexing) (d : data) (i : nat) (blk : list Z) : state :=
  match build_problem (node_settings (some_node (history (exd_history limit)) i) n1 (exd_db d) blk) with Ok st => st | Err _ => initial_state end.
Definition exd_wholes (limit : indexing) (d : data) : list state := [exd_whole limit d 0 [0%Z; 1%Z]; exd_whole limit d 1 [2%Z]].
Example exd_wholes_built : Forall2 (whole_of exd_data) (cells (history exd_evs) (traverse (history exd_evs) 0 None))
  (exd_wholes constant_index (ConstantData (nz 60))).
Proof. constructor; [|constructor; [|constructor]]; exists n1; split; vm_compute; reflexivity. Qed.
Example exd_linked limit d zs : zs = [exd_values; exd_values] -> linked (exd_of limit d) exd_values zs.
Proof. intros -> z x [<-|[<-|[]]] _; reflexivity. Qed.
(** the values are feasible for the decomposed problem, its costs are 27 and 160 + 90 *)
Example C70_example :
  (feasible exd_values (solver_of (bd_master exd_built)) /\
   all_feasible [exd_values; exd_values] (map solver_of (bd_subproblems exd_built))) /\
  cost exd_values (solver_of (bd_master exd_built)) = Some (Z2Qc 27) /\
  total_cost [exd_values; exd_values] (map solver_of (bd_subproblems exd_built)) = Some (Z2Qc 250) /\
  total_cost [exd_values; exd_values] (map st_solver (exd_wholes constant_index (ConstantData (nz 60)))) = Some (Z2Qc 277).
Proof.
  split; [|split; [|split]; vm_compute; f_equal; apply Qc_is_canon; reflexivity].
  split; [apply feasible_checked; vm_compute; reflexivity|]. apply all_feasible_checked. vm_compute. reflexivity.
Qed.
(** so they are for the whole problems, and the coupling equations hold *)
Example C70_example_whole : (forall q, asked exd_evs 0 q -> equation_holds exd_values q) /\
  all_feasible [exd_values; exd_values] (map st_solver (exd_wholes constant_index (ConstantData (nz 60)))).
Proof.
  destruct exd_builds as (Ho & Hb & Ap).
  refine (proj1 (C70_feasible exd_evs 0 exd_data exd_order _ exd_built (some_node (history exd_evs) 0) _ _ Ho Hb _ Ap exd_settled exd_rows _ exd_wholes_built
    exd_values [exd_values; exd_values] _) (proj1 C70_example)).
  - apply some_node_at. vm_compute. reflexivity.
  - rewrite exd_traverse. cbn. lia.
  - exact exd_coupled.
  - now apply (exd_linked constant_index (ConstantData (nz 60))).
Qed.
(** columns that solve the problems *)
Definition exd_columns (p : string) (i : nat) : Qc :=
  let s := if String.eqb p "master" then solver_of (bd_master exd_built)
           else if String.eqb p "subproblem_now" then solver_of (nth 0 (bd_subproblems exd_built) (bd_master exd_built))
           else solver_of (nth 1 (bd_subproblems exd_built) (bd_master exd_built)) in
  by_name s exd_values i.
Example exd_distinct : map pb_name (bd_subproblems exd_built) = ["subproblem_now"; "subproblem_later"] /\
  (forall s, In s (bd_subproblems exd_built) -> NoDup (variable_names s)) /\
  forall i n, In i (traverse (history exd_evs) 0 None) -> nth_error (f_nodes (history exd_evs)) i = Some n -> NoDup (map fst (tc_blocks (tn_config n))).
Proof.
  split; [vm_compute; reflexivity|]. split.
  - intros s Hs. assert (K : In (variable_names s) (map variable_names (bd_subproblems exd_built))) by exact (in_map variable_names _ s Hs).
    revert K. generalize (variable_names s). clear. intros l K. evaluate (map variable_names (bd_subproblems exd_built)). repeat (destruct K as [<-|K]; [nodup|]). destruct K.
  - rewrite exd_traverse. intros i n Hi Hn. destruct (exd_nodes i n Hi Hn) as (_ & -> & _). nodup.
Qed.
Lemma by_name_same s y : same_values (by_name s y) s y.
Proof. intros i v Hi. unfold by_name. now rewrite Hi. Qed.
Example C70_files_example : solves exd_built exd_columns.
Proof.
  destruct exd_builds as (Ho & Hb & Ap). destruct exd_distinct as (En & Nv & Nb).
  refine (proj2 (C70_files exd_evs 0 exd_data exd_order _ exd_built (some_node (history exd_evs) 0) (exd_wholes constant_index (ConstantData (nz 60)))
    _ Ho Hb _ Ap exd_settled exd_rows _ Nb Nv exd_wholes_built exd_columns) _).
  - apply some_node_at. vm_compute. reflexivity.
  - rewrite exd_traverse. cbn. lia.
  - exact exd_coupled.
  - exists exd_values, [exd_values; exd_values]. split; [now apply (exd_linked constant_index (ConstantData (nz 60)))|]. split; [exact (by_name_same _ exd_values)|].
    split; [|exact C70_example_whole].
    assert (G : forall l, map pb_name l = ["subproblem_now"; "subproblem_later"] ->
      forall d, Forall2 (fun z s => same_values (fun i => by_name (if String.eqb (pb_name s) "subproblem_now" then solver_of (nth 0 l d) else solver_of (nth 1 l d)) exd_values i) (solver_of s) z)
        [exd_values; exd_values] l).
    { intros [|a [|c [|? ?]]] E d; try discriminate E. injection E as Ea Ec. constructor; [|constructor; [|constructor]];
        rewrite ?Ea, ?Ec; cbn [String.eqb Ascii.eqb Bool.eqb nth]; apply by_name_same. }
    specialize (G _ En (bd_master exd_built)). revert G En. unfold exd_columns. generalize (bd_subproblems exd_built) (bd_master exd_built). clear.
    intros l d G En. destruct l as [|a [|c [|? ?]]]; try discriminate En. injection En as Ea Ec.
    inversion G as [|? ? ? ? G1 G2]; subst. inversion G2 as [|? ? ? ? G3 G4]; subst. constructor; [|constructor; [|constructor]].
    + rewrite Ea in G1 |- *. exact G1.
    + rewrite Ec in G3 |- *. exact G3.
Qed.
Definition exd_settings : settings := node_settings (some_node (history exd_evs) 0) n1 exd_data [0%Z; 1%Z].
Example C70_parts_example : usable_block exd_settings /\ built_network (o_network exd_settings) /\ distinct_ids (o_network exd_settings) /\
  (exists a m s, build_problem (whole exd_settings) = Ok a /\ build_problem (investments exd_settings) = Ok m /\ build_problem (operation exd_settings) = Ok s /\
     List.length (s_vars (st_solver a)) = 6%nat /\ List.length (s_vars (st_solver m)) = 2%nat /\ List.length (s_vars (st_solver s)) = 5%nat).
Proof.
  split; [split; [discriminate|reflexivity]|]. split; [apply bn_component, bn_new|]. split; [vm_compute; nodup|].
  eexists. eexists. eexists. split; [vm_compute; reflexivity|]. split; [vm_compute; reflexivity|]. split; [vm_compute; reflexivity|].
  vm_compute. auto.
Qed.

(** ** What is lost when investments depend on the scenario or on time *)
Definition lost (limit : indexing) (d : data) : Prop :=
  exists order f' b wholes y zs,
  some_order (history (exd_history limit)) 0 order /\ build_benders (history (exd_history limit)) 0 (exd_db d) order = (f', Ok b) /\
  Forall2 (whole_of (exd_db d)) (cells (history (exd_history limit)) (traverse (history (exd_history limit)) 0 None)) wholes /\
  one_block_each (history (exd_history limit)) (traverse (history (exd_history limit)) 0 None) /\
  linked b y zs /\ feasible y (solver_of (bd_master b)) /\ all_feasible zs (map solver_of (bd_subproblems b)) /\
  (* but not feasible for the whole problem *)
  ~ all_feasible zs (map st_solver wholes).
Ltac lost_at limit d :=
  exists exd_order, (fst (build_benders (history (exd_history limit)) 0 (exd_db d) exd_order)), (exd_of limit d), (exd_wholes limit d), exd_values, [exd_values; exd_values];
  split; [order_ok (exd_history limit) 0%nat|];
  split; [vm_compute; reflexivity|];
  split; [constructor; [|constructor; [|constructor]]; exists n1; split; vm_compute; reflexivity|];
  split; [let T := fresh in assert (T : traverse (history (exd_history limit)) 0 None = [0; 1]%nat) by (vm_compute; reflexivity); rewrite T;
          let i := fresh in let n := fresh in let Hi := fresh in let Hn := fresh in intros i n Hi Hn; apply some_node_of in Hn; rewrite Hn;
          destruct Hi as [<-|[<-|[]]]; vm_compute; reflexivity|];
  split; [now apply exd_linked|];
  split; [apply feasible_checked; vm_compute; reflexivity|];
  split; [apply all_feasible_checked; vm_compute; reflexivity|];
  rewrite <- all_feasible_checked; vm_compute; discriminate.
(** an investment constraint that depends on the scenario is in no problem *)
Theorem C70_scenario_constraint_refuted : lost scenario_only (ScenarioSeriesData [(0%Z, nz 60); (1%Z, nz 5)] None).
Proof. lost_at scenario_only (ScenarioSeriesData [(0%Z, nz 60); (1%Z, nz 5)] None). Qed.
Print Assumptions C70_scenario_constraint_refuted.
(** one that depends on time is enforced at timestep 0 only *)
Theorem C70_time_constraint_refuted : lost time_only (TimeSeriesData [(0%Z, nz 60); (1%Z, nz 5); (2%Z, nz 60)]).
Proof. lost_at time_only (TimeSeriesData [(0%Z, nz 60); (1%Z, nz 5); (2%Z, nz 60)]). Qed.
Print Assumptions C70_time_constraint_refuted.
