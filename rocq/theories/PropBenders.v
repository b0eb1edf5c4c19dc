(** Theorems about coupling constraints, decomposed problems and the structure file (C39, C56). *)
From Coq Require Import Lia Permutation.
From Verif Require Import Base BaseFacts Expr Visitors Model Study Strategy Optim ModelEq Tree Fusion Benders.
From Verif Require Import SpecExpr SpecLinear SpecModel SpecOptim SpecModelEq SpecFusion SpecBenders ExampleProblem.
From Verif Require Import DecompositionFacts StructureFacts.
Local Open Scope string_scope.
Local Open Scope list_scope.

(** ** An example: capacity added over two periods, the second with two outcomes *)
Definition exb_variable (n : string) (ix : indexing) (ub : option expr) (c : problem_context) : variable :=
  {| v_name := n; v_type := CONTINUOUS; v_lower := Some (nzl 0); v_upper := ub; v_structure := ix; v_context := c |}.
Definition exb_model : model := {|
  m_id := "candidate";
  m_constraints := [("capacity", exp_constraint "capacity" (Add [Var "p"; Neg (Var "total")]) (Lit NInf) (nzl 0))];
  m_binding_constraints := []; m_inter_block_dyn := false; m_parameters := [];
  m_variables := [("p", exb_variable "p" time_and_scenario (Some (nzl 100)) OPERATIONAL);
                  ("total", exb_variable "total" constant_index None COUPLING);
                  ("added", exb_variable "added" constant_index (Some (nzl 40)) INVESTMENT)];
  m_operational := Some (ScenOp (AllSum (Mul (nzl 10) (Var "p"))) Expectation);
  m_investment := Some (Mul (nzl 3) (Var "added"));
  m_ports := []; m_port_definitions := [] |}.
Definition exb_component (id : string) : component := {| co_model := exb_model; co_id := id |}.
Definition exb_network (ids : list string) : network :=
  fold_left (fun n id => add_component (exb_component id) n) ids (new_network "study").
Definition exb_node (id : string) (parent : option nat) (p : Q) (blocks : list (Z * list Z)) (net : network) (info : option nat) : event :=
  NewNode {| nc_id := id; nc_config := {| tc_blocks := blocks; tc_scenarios := 2 |}; nc_network := net;
             nc_parent := parent; nc_children := []; nc_prob := Fin (Q2Qc p); nc_coupling_network := info; nc_coupling_info := info |}.
Definition exb_couple (self : nat) (id : string) : event :=
  Couple self {| cc_parent := GivenComponent (exb_component id); cc_cumulative_parent := "total";
                 cc_child := GivenComponent (exb_component id); cc_cumulative_child := "total"; cc_incremental_child := "added" |}.
Definition exb_blocks : list (Z * list Z) := [(1%Z, [0%Z; 1%Z]); (2%Z, [2%Z])].
Definition exb_history : list event :=
  [exb_node "now" None (1 # 1) exb_blocks (exb_network ["sun"; "wind"]) None;
   exb_node "low" (Some 0%nat) (1 # 4) [(1%Z, [0%Z])] (exb_network ["wind"]) None;
   exb_node "high" (Some 0%nat) (3 # 4) [(1%Z, [0%Z])] (exb_network ["wind"]) None;
   exb_couple 0 "wind"; exb_couple 1 "wind"; exb_couple 2 "wind"].
Definition exb_order : list string :=
  ["high_wind_added"; "low_wind_added"; "low_wind_total"; "now_wind_total"; "now_wind_added"; "high_wind_total"].
Definition exb_result : forest * result benders := build_benders (history exb_history) 0 [] exb_order.
Definition exb_built : benders :=
  match snd exb_result with Ok b => b | Err _ => {| bd_master := {| pb_name := ""; pb_state := initial_state |}; bd_subproblems := [] |} end.
Definition some_node (f : forest) (i : nat) : tree_node :=
  match nth_error (f_nodes f) i with
  | Some n => n
  | None => {| tn_id := ""; tn_config := {| tc_blocks := []; tc_scenarios := 0 |}; tn_network := new_network ""; tn_prob := None;
               tn_parent := None; tn_children := []; tn_coupling_network := 0; tn_coupling_info := 0 |}
  end.
Lemma some_node_at f i : Nat.ltb i (List.length (f_nodes f)) = true -> nth_error (f_nodes f) i = Some (some_node f i).
Proof.
  intros H. apply Nat.ltb_lt in H. unfold some_node. destruct (nth_error (f_nodes f) i) eqn:E; [reflexivity|]. apply nth_error_None in E. lia.
Qed.
Lemma some_node_of f i n : nth_error (f_nodes f) i = Some n -> n = some_node f i.
Proof. unfold some_node. now intros ->. Qed.
Ltac nodup := cbn; repeat (apply NoDup_cons; [cbn; intuition discriminate|]); apply NoDup_nil.
Ltac apart_names := split; [nodup|split; [cbn; intuition discriminate|
  let a := fresh in let b := fresh in let Ha := fresh in let Hb := fresh in let z := fresh in let E := fresh in
  intros a b Ha Hb (z & E); cbn in Ha, Hb; intuition subst; discriminate]].
Ltac evaluate t := let x := eval vm_compute in t in let E := fresh in assert (E : t = x) by (vm_compute; reflexivity); rewrite E in *; clear E.
Ltac permuted := apply NoDup_Permutation; [nodup|nodup|let x := fresh in intros x; cbn; tauto].
Lemma exb_named ids : named_network (exb_network ids) /\ forall c, In c (all_components (exb_network ids)) -> co_model c = exb_model.
Proof.
  assert (H : forall c, In c (all_components (exb_network ids)) -> co_model c = exb_model).
  { unfold exb_network. assert (G : forall n, (forall c, In c (all_components n) -> co_model c = exb_model) ->
      forall c, In c (all_components (fold_left (fun n id => add_component (exb_component id) n) ids n)) -> co_model c = exb_model).
    { induction ids as [|id ids IH]; intros n Hn; cbn [fold_left]; [exact Hn|]. apply IH. intros c Hc. unfold all_components, add_component in Hc. cbn in Hc.
      apply in_app_or in Hc as [Hc|Hc]; [apply Hn, in_or_app; now left|]. apply in_map_iff in Hc as ([k c'] & <- & Hc). cbn.
      assert (S : forall d, In (k, c') (dset String.eqb id (exb_component id) d) -> c' = exb_component id \/ In (k, c') d).
      { induction d as [|[k0 x] d IHd]; cbn; [intros [[= <- <-]|[]]; auto|]. destruct (String.eqb id k0); cbn; intros [E|E]; auto.
        - injection E as <- <-. auto.
        - destruct (IHd E); auto. }
      apply S in Hc as [->|Hc]; [reflexivity|]. apply Hn, in_or_app. right. apply in_map_iff. exists (k, c'). auto. }
    apply G. intros c []. }
  split; [|exact H]. intros c Hc. rewrite (H c Hc). clear.
  split; [solve_named|]. split; [solve_named|]. split; [solve_named|]. split; [solve_named|]. split; solve_named.
Qed.
Example exb_order_ok : some_order (history exb_history) 0 exb_order.
Proof.
  exists (some_node (history exb_history) 0), (match f_infos (history exb_history) with i :: _ => i | [] => {| ci_variables := []; ci_constraints := [] |} end).
  split; [apply some_node_at; reflexivity|]. split; [reflexivity|]. vm_compute. permuted.
Qed.
Example exb_apart : apart_tree (history exb_history) (traverse (history exb_history) 0 None).
Proof.
  assert (T : traverse (history exb_history) 0 None = [0; 1; 2]%nat) by (vm_compute; reflexivity). rewrite T. split.
  - exists (map (some_node (history exb_history)) [0; 1; 2]%nat). split.
    + cbn [map]. rewrite !some_node_at by (vm_compute; reflexivity). reflexivity.
    + assert (E : map tn_id (map (some_node (history exb_history)) [0; 1; 2]%nat) = ["now"; "low"; "high"]) by (vm_compute; reflexivity).
      rewrite E. apart_names.
  - assert (G : forall i n, In i [0; 1; 2]%nat -> nth_error (f_nodes (history exb_history)) i = Some n ->
      tn_network n = exb_network (if Nat.eqb i 0 then ["sun"; "wind"] else ["wind"])).
    { intros i n Hi Hn. apply some_node_of in Hn. rewrite Hn. clear Hn.
      destruct Hi as [<-|[<-|[<-|[]]]]; vm_compute; reflexivity. }
    intros i n Hi Hn. rewrite (G i n Hi Hn). split; [destruct (Nat.eqb i 0); vm_compute; apart_names|]. split; [apply exb_named|].
    intros c Hc. rewrite (proj2 (exb_named _) c Hc). vm_compute. constructor.
Qed.
Example exb_builds : build_benders (history exb_history) 0 [] exb_order = (fst exb_result, Ok exb_built) /\
  is_leaves_prob_sum_one (history exb_history) 0 = Ok true /\ List.length (traverse (history exb_history) 0 None) = 3%nat.
Proof. split; [unfold exb_built, exb_result; vm_compute; reflexivity|]. split; vm_compute; reflexivity. Qed.

(** ** C56 *)
(** a constraint is accepted only between variables of the networks of the node and of its parent *)
Theorem C56_accepted_calls : forall f self c f' n, define_coupling_constraint f self c = Ok f' -> nth_error (f_nodes f) self = Some n ->
  proper_model (co_model (given_component (cc_child c))) -> proper_model (co_model (given_component (cc_parent c))) -> proper_network (tn_network n) ->
  has_variable (tn_network n) (co_id (given_component (cc_child c))) (cc_cumulative_child c) /\
  has_variable (tn_network n) (co_id (given_component (cc_child c))) (cc_incremental_child c) /\
  forall p, parent_node f n = Some p -> proper_network (tn_network p) ->
    has_variable (tn_network p) (co_id (given_component (cc_parent c))) (cc_cumulative_parent c).
Proof. exact accepted_call. Qed.
Print Assumptions C56_accepted_calls.
Definition accepted (r : result forest) : bool := match r with Ok _ => true | Err _ => false end.
Example C56_accepted_calls_example :
  accepted (define_coupling_constraint (history (firstn 4 exb_history)) 1
    {| cc_parent := GivenComponent (exb_component "wind"); cc_cumulative_parent := "total";
       cc_child := GivenComponent (exb_component "wind"); cc_cumulative_child := "total"; cc_incremental_child := "added" |}) = true /\
  (* the network of "low" has no sun *)
  define_coupling_constraint (history (firstn 4 exb_history)) 1
    {| cc_parent := GivenComponent (exb_component "sun"); cc_cumulative_parent := "total";
       cc_child := GivenComponent (exb_component "sun"); cc_cumulative_child := "total"; cc_incremental_child := "added" |} = Err RuntimeErr.
Proof. split; vm_compute; reflexivity. Qed.

(** every constraint asked for is enforced by the master: what is installed at a node is what was installed at its
    parent plus what is added *)
Theorem C56_enforced : forall evs root db order f' b n y, nth_error (f_nodes (history evs)) root = Some n ->
  some_order (history evs) root order -> build_benders (history evs) root db order = (f', Ok b) ->
  (1 < List.length (traverse (history evs) root None))%nat -> rows_hold y (solver_of (bd_master b)) ->
  forall q, asked evs (tn_coupling_info n) q -> equation_holds y q.
Proof. exact coupling_enforced. Qed.
Print Assumptions C56_enforced.

(** the master has the investment problems of all nodes, the constraints asked for and nothing else; its cost is the sum
    of their costs *)
Theorem C56_master : forall evs root db order f' b n, nth_error (f_nodes (history evs)) root = Some n ->
  some_order (history evs) root order -> build_benders (history evs) root db order = (f', Ok b) ->
  (1 < List.length (traverse (history evs) root None))%nat -> apart_tree (history evs) (traverse (history evs) root None) ->
  exists sts, Forall2 (investment_problem (history evs) db) (traverse (history evs) root None) sts /\
    (forall y, feasible y (solver_of (bd_master b)) <->
       (forall q, asked evs (tn_coupling_info n) q -> equation_holds y q) /\
       (forall q x, asked evs (tn_coupling_info n) q -> In x (equation_names q) ->
          (forall st, In st sts -> ~ In x (map sv_name (s_vars (st_solver st)))) -> (0 <= y x)%Qc) /\
       (forall st, In st sts -> bounds_hold y (st_solver st) /\ term_rows_hold y (st_solver st))) /\
    (forall y, cost y (solver_of (bd_master b)) = osum (map (fun st => cost y (st_solver st)) sts)) /\
    (forall x, In x (variable_names (bd_master b)) <->
       (exists q, asked evs (tn_coupling_info n) q /\ In x (equation_names q)) \/
       exists st, In st sts /\ In x (map sv_name (s_vars (st_solver st)))) /\
    NoDup (variable_names (bd_master b)) /\ sound_columns (pb_state (bd_master b)) /\ pb_name (bd_master b) = "master".
Proof. exact master_meaning. Qed.
Print Assumptions C56_master.
(** the example meets the hypotheses: exb_order_ok, exb_apart, exb_builds; 30 units now, 20 more if demand is high *)
Definition exb_plan (x : string) : Qc :=
  if existsb (String.eqb x) ["now_wind_added"; "now_wind_total"; "low_wind_total"] then Z2Qc 30
  else if String.eqb x "high_wind_added" then Z2Qc 20 else if String.eqb x "high_wind_total" then Z2Qc 50 else 0%Qc.
Example C56_master_example :
  exists c, cost exb_plan (solver_of (bd_master exb_built)) = Some c /\ c = Z2Qc (3 * 30 + 45) /\ (* 3 * 30 + 3/4 * 3 * 20 *)
  variable_names (bd_master exb_built) = exb_order ++ ["now_sun_total"; "now_sun_added"] /\
  List.length (s_rows (solver_of (bd_master exb_built))) = 3%nat.
Proof.
  eexists. split; [vm_compute; reflexivity|]. split; [apply Qc_is_canon; reflexivity|]. split; vm_compute; reflexivity.
Qed.
Definition exb_asked (parent child : string) : equation :=
  {| eq_child := joined child "wind" "total"; eq_increment := joined child "wind" "added";
     eq_parent := if String.eqb parent "" then None else Some (joined parent "wind" "total") |}.
Example C56_enforced_example : asked exb_history 0 (exb_asked "now" "high") /\ asked exb_history 0 (exb_asked "" "now").
Proof.
  split.
  - exists (firstn 5 exb_history), 2%nat. eexists. exists [], (some_node (history (firstn 5 exb_history)) 2).
    exists (match define_coupling_constraint (history (firstn 5 exb_history)) 2 {| cc_parent := GivenComponent (exb_component "wind"); cc_cumulative_parent := "total";
       cc_child := GivenComponent (exb_component "wind"); cc_cumulative_child := "total"; cc_incremental_child := "added" |} with Ok f => f | Err _ => initial_forest end).
    split; [reflexivity|]. split; [apply some_node_at; vm_compute; reflexivity|]. split; [vm_compute; reflexivity|]. split; vm_compute; reflexivity.
  - exists (firstn 3 exb_history), 0%nat. eexists. exists (skipn 4 exb_history), (some_node (history (firstn 3 exb_history)) 0).
    exists (match define_coupling_constraint (history (firstn 3 exb_history)) 0 {| cc_parent := GivenComponent (exb_component "wind"); cc_cumulative_parent := "total";
       cc_child := GivenComponent (exb_component "wind"); cc_cumulative_child := "total"; cc_incremental_child := "added" |} with Ok f => f | Err _ => initial_forest end).
    split; [reflexivity|]. split; [apply some_node_at; vm_compute; reflexivity|]. split; [vm_compute; reflexivity|]. split; vm_compute; reflexivity.
Qed.

(** a tree of one node: the master is its investment problem *)
Theorem C56_single : forall evs root db order f' b, some_order (history evs) root order ->
  build_benders (history evs) root db order = (f', Ok b) -> List.length (traverse (history evs) root None) = 1%nat ->
  exists i n p st, traverse (history evs) root None = [i] /\ nth_error (f_nodes (history evs)) i = Some n /\ tn_prob n = Some p /\
    build_problem (investment_settings n p db) = Ok st /\ bd_master b = {| pb_name := "master"; pb_state := st |}.
Proof. exact single_master. Qed.
Print Assumptions C56_single.
Example C56_single_example : List.length (traverse (history exb_history) 1 None) = 1%nat /\
  match snd (build_benders (history [exb_node "now" None (1 # 1) exb_blocks (exb_network ["sun"; "wind"]) None]) 0 [] []) with
  | Ok b => variable_names (bd_master b) = ["now_sun_total"; "now_sun_added"; "now_wind_total"; "now_wind_added"] | Err _ => False end.
Proof. split; vm_compute; reflexivity. Qed.

(** one subproblem for each node and block: the operation of the node over the block *)
Theorem C56_subproblems : forall evs root db order f' b, some_order (history evs) root order ->
  build_benders (history evs) root db order = (f', Ok b) ->
  exists sss, bd_subproblems b = concat sss /\
    Forall2 (fun i ss => exists n p, nth_error (f_nodes (history evs)) i = Some n /\ tn_prob n = Some p /\
       Forall2 (fun blk s => build_problem (operation_settings n p db (snd blk)) = Ok (pb_state s) /\
                  pb_name s = ("subproblem" ++ (if Nat.ltb 1 (List.length (traverse (history evs) root None)) then "_" ++ tn_id n else "")
                               ++ (if Nat.ltb 1 (List.length (tc_blocks (tn_config n))) then "_b" ++ string_of_Z (fst blk) else ""))%string)
               (tc_blocks (tn_config n)) ss)
      (traverse (history evs) root None) sss.
Proof. exact subproblems_meaning. Qed.
Print Assumptions C56_subproblems.
Example C56_subproblems_example :
  map pb_name (bd_subproblems exb_built) = ["subproblem_now_b1"; "subproblem_now_b2"; "subproblem_low"; "subproblem_high"].
Proof. vm_compute. reflexivity. Qed.

(** a tree is accepted when its probabilities are right and the problems of its nodes can be built *)
Theorem C56_builds : forall evs root db order n net, nth_error (f_nodes (history evs)) root = Some n -> some_order (history evs) root order ->
  nth_error (f_networks (history evs)) (tn_coupling_network n) = Some net ->
  (1 < List.length (traverse (history evs) root None))%nat -> apart_tree (history evs) (traverse (history evs) root None) ->
  (exists f' b, build_benders (history evs) root db order = (f', Ok b)) <->
  is_leaves_prob_sum_one (history evs) root = Ok true /\
  forall i, In i (traverse (history evs) root None) -> exists n p, nth_error (f_nodes (history evs)) i = Some n /\ tn_prob n = Some p /\
    (exists st, build_problem (investment_settings n p db) = Ok st) /\
    forall blk, In blk (tc_blocks (tn_config n)) -> exists st, build_problem (operation_settings n p db (snd blk)) = Ok st.
Proof. exact build_accepted. Qed.
Print Assumptions C56_builds.
Example C56_builds_example : exists net, nth_error (f_networks (history exb_history)) (tn_coupling_network (some_node (history exb_history) 0)) = Some net.
Proof. eexists. vm_compute. reflexivity. Qed.

(** coupling constraints leak from one tree to another when CouplingInfo is left to its default value *)
Definition exb_leak : list event :=
  [exb_node "x" None (1 # 1) [(1%Z, [0%Z])] (exb_network ["wind"]) None; exb_couple 0 "wind"].
Definition exb_second (k : option nat) : list event :=
  [exb_node "now" None (1 # 1) [(1%Z, [0%Z])] (exb_network ["wind"]) k; exb_node "low" (Some 1%nat) (1 # 1) [(1%Z, [0%Z])] (exb_network ["wind"]) k].
Theorem C56_shared_info_refuted : exists evs order f' b,
  (* the tree of nodes 1 and 2, on which no constraint is asked for *)
  traverse (history evs) 1 None = [1; 2]%nat /\ (forall self c, In (Couple self c) evs -> self = 0%nat) /\
  some_order (history evs) 1 order /\ build_benders (history evs) 1 [] order = (f', Ok b) /\
  (* a variable of the other tree, and a constraint on it *)
  In "x_wind_total" (variable_names (bd_master b)) /\
  forall y, rows_hold y (solver_of (bd_master b)) -> y "x_wind_total" = y "x_wind_added".
Proof.
  set (evs := exb_leak ++ exb_second None). set (order := ["x_wind_total"; "x_wind_added"]).
  assert (Ho : some_order (history evs) 1 order).
  { exists (some_node (history evs) 1), (match f_infos (history evs) with i :: _ => i | [] => {| ci_variables := []; ci_constraints := [] |} end).
    split; [apply some_node_at; vm_compute; reflexivity|]. split; [vm_compute; reflexivity|]. vm_compute. permuted. }
  set (r := build_benders (history evs) 1 [] order).
  exists evs, order, (fst r), (match snd r with Ok b => b | Err _ => exb_built end).
  assert (Hb : build_benders (history evs) 1 [] order = (fst r, Ok (match snd r with Ok b => b | Err _ => exb_built end))) by (vm_compute; reflexivity).
  split; [vm_compute; reflexivity|].
  split; [cbn; intros self c H; repeat (destruct H as [H|H]; [try discriminate H; now injection H as <- _|]); destruct H|].
  split; [exact Ho|]. split; [exact Hb|]. split; [vm_compute; tauto|]. intros y Hy.
  assert (L : (1 < List.length (traverse (history evs) 1 None))%nat) by (vm_compute; lia).
  assert (Q : asked evs (tn_coupling_info (some_node (history evs) 1)) {| eq_child := "x_wind_total"; eq_increment := "x_wind_added"; eq_parent := None |}).
  { exists (firstn 1 exb_leak), 0%nat. eexists. exists (exb_second None), (some_node (history (firstn 1 exb_leak)) 0).
    exists (match define_coupling_constraint (history (firstn 1 exb_leak)) 0 {| cc_parent := GivenComponent (exb_component "wind"); cc_cumulative_parent := "total";
       cc_child := GivenComponent (exb_component "wind"); cc_cumulative_child := "total"; cc_incremental_child := "added" |} with Ok f => f | Err _ => initial_forest end).
    split; [reflexivity|]. split; [apply some_node_at; vm_compute; reflexivity|]. split; [vm_compute; reflexivity|]. split; vm_compute; reflexivity. }
  assert (Hn : nth_error (f_nodes (history evs)) 1 = Some (some_node (history evs) 1)) by (apply some_node_at; vm_compute; reflexivity).
  revert Ho Hb L Hn Q Hy. generalize (match snd r with Ok b => b | Err _ => exb_built end). generalize (fst r).
  generalize (some_node (history evs) 1). clearbody evs order. intros n f' b Ho Hb L Hn Q Hy.
  pose proof (coupling_enforced evs 1 [] order f' b n y Hn Ho Hb L Hy _ Q) as E.
  unfold equation_holds in E. cbn [eq_child eq_increment eq_parent] in E.
  transitivity (y "x_wind_total" - y "x_wind_added" + y "x_wind_added")%Qc; [ring|]. rewrite E. ring.
Qed.
Print Assumptions C56_shared_info_refuted.

(** a tree of one node ignores the constraint asked for *)
Definition exb_call (id : string) : coupling_call :=
  {| cc_parent := GivenComponent (exb_component id); cc_cumulative_parent := "total";
     cc_child := GivenComponent (exb_component id); cc_cumulative_child := "total"; cc_incremental_child := "added" |}.
Definition after_call (f : forest) (self : nat) (c : coupling_call) : forest :=
  match define_coupling_constraint f self c with Ok f => f | Err _ => initial_forest end.
Ltac asked_at before self c after := exists before, self, c, after, (some_node (history before) self), (after_call (history before) self c);
  split; [reflexivity|]; split; [apply some_node_at; vm_compute; reflexivity|]; split; [vm_compute; reflexivity|]; split; vm_compute; reflexivity.
Lemma bounds_checked y s : forallb (fun v => nleb (sv_lb v) (Fin (y (sv_name v))) && nleb (Fin (y (sv_name v))) (sv_ub v)) (s_vars s) = true -> bounds_hold y s.
Proof.
  intros H v Hv. rewrite forallb_forall in H. specialize (H v Hv). apply andb_true_iff in H as [H1 H2].
  split; [destruct (sv_lb v)|destruct (sv_ub v)]; cbn in *; try discriminate; auto; now apply Qcleb_le.
Qed.
Theorem C56_single_node_refuted : exists evs order f' b q y,
  traverse (history evs) 0 None = [0%nat] /\ some_order (history evs) 0 order /\ build_benders (history evs) 0 [] order = (f', Ok b) /\
  asked evs 0 q /\ feasible y (solver_of (bd_master b)) /\ ~ equation_holds y q.
Proof.
  set (order := ["x_wind_total"; "x_wind_added"]). set (r := build_benders (history exb_leak) 0 [] order).
  exists exb_leak, order, (fst r), (match snd r with Ok b => b | Err _ => exb_built end),
    {| eq_child := "x_wind_total"; eq_increment := "x_wind_added"; eq_parent := None |}, (fun x => if String.eqb x "x_wind_total" then 1%Qc else 0%Qc).
  split; [vm_compute; reflexivity|]. split.
  { exists (some_node (history exb_leak) 0), (match f_infos (history exb_leak) with i :: _ => i | [] => {| ci_variables := []; ci_constraints := [] |} end).
    split; [apply some_node_at; vm_compute; reflexivity|]. split; [vm_compute; reflexivity|]. vm_compute. permuted. }
  split; [vm_compute; reflexivity|]. split; [asked_at (firstn 1 exb_leak) 0%nat (exb_call "wind") (@nil event)|]. split.
  - split; [apply bounds_checked; vm_compute; reflexivity|]. intros row Hr. vm_compute in Hr. destruct Hr.
  - unfold equation_holds. cbn [eq_child eq_increment eq_parent String.eqb]. vm_compute. discriminate.
Qed.
Print Assumptions C56_single_node_refuted.

(** the constraint on a node without an id is about variables that are not those of the node *)
Definition exb_unnamed : list event :=
  [exb_node "" None (1 # 1) [(1%Z, [0%Z])] (exb_network ["wind"]) None; exb_node "low" (Some 0%nat) (1 # 1) [(1%Z, [0%Z])] (exb_network ["wind"]) None;
   exb_couple 0 "wind"].
Theorem C56_unnamed_node_refuted : exists evs order f' b q y,
  List.length (traverse (history evs) 0 None) = 2%nat /\ some_order (history evs) 0 order /\ build_benders (history evs) 0 [] order = (f', Ok b) /\
  asked evs 0 q /\ feasible y (solver_of (bd_master b)) /\
  (* the variables of the node, and the variables of the constraint *)
  In "wind_total" (variable_names (bd_master b)) /\ In "wind_added" (variable_names (bd_master b)) /\ (y "wind_total" <> y "wind_added") /\
  equation_names q = ["_wind_total"; "_wind_added"].
Proof.
  set (order := ["_wind_total"; "_wind_added"]). set (r := build_benders (history exb_unnamed) 0 [] order).
  exists exb_unnamed, order, (fst r), (match snd r with Ok b => b | Err _ => exb_built end),
    {| eq_child := "_wind_total"; eq_increment := "_wind_added"; eq_parent := None |}, (fun x => if String.eqb x "wind_total" then 1%Qc else 0%Qc).
  split; [vm_compute; reflexivity|]. split.
  { exists (some_node (history exb_unnamed) 0), (match f_infos (history exb_unnamed) with i :: _ => i | [] => {| ci_variables := []; ci_constraints := [] |} end).
    split; [apply some_node_at; vm_compute; reflexivity|]. split; [vm_compute; reflexivity|]. vm_compute. permuted. }
  split; [vm_compute; reflexivity|]. split; [asked_at (firstn 2 exb_unnamed) 0%nat (exb_call "wind") (@nil event)|]. split; [split|].
  - apply bounds_checked; vm_compute; reflexivity.
  - intros row Hr. vm_compute in Hr. destruct Hr as [<-|[]]. exists 0%Qc. split; [vm_compute; f_equal; apply Qc_is_canon; reflexivity|]. split; vm_compute; discriminate.
  - split; [vm_compute; tauto|]. split; [vm_compute; tauto|]. split; [vm_compute; discriminate|reflexivity].
Qed.
Print Assumptions C56_unnamed_node_refuted.

(** a variable that depends on the scenario is accepted in a constraint, but its bounds are not in the master *)
Definition exb_model_with (total added : indexing) (inv : option expr) : model := {|
  m_id := "candidate"; m_constraints := []; m_binding_constraints := []; m_inter_block_dyn := false; m_parameters := [];
  m_variables := [("total", exb_variable "total" total None COUPLING); ("added", exb_variable "added" added (Some (nzl 40)) INVESTMENT)];
  m_operational := None; m_investment := inv; m_ports := []; m_port_definitions := [] |}.
Definition exb_network_with (c : component) : network := add_component c (new_network "study").
Definition scenario_only : indexing := {| ix_time := false; ix_scenario := true |}.
Definition exb_wind (total added : indexing) (inv : option expr) : component := {| co_model := exb_model_with total added inv; co_id := "wind" |}.
Definition exb_call_on (c : component) : coupling_call :=
  {| cc_parent := GivenComponent c; cc_cumulative_parent := "total";
     cc_child := GivenComponent c; cc_cumulative_child := "total"; cc_incremental_child := "added" |}.
Definition exb_scenario : list event :=
  [exb_node "now" None (1 # 1) [(1%Z, [0%Z])] (exb_network_with (exb_wind constant_index scenario_only None)) None;
   exb_node "low" (Some 0%nat) (1 # 1) [(1%Z, [0%Z])] (exb_network_with (exb_wind constant_index scenario_only None)) None;
   Couple 0 (exb_call_on (exb_wind constant_index scenario_only None))].
Theorem C56_scenario_variable_refuted : exists evs order f' b q y,
  List.length (traverse (history evs) 0 None) = 2%nat /\ some_order (history evs) 0 order /\ build_benders (history evs) 0 [] order = (f', Ok b) /\
  asked evs 0 q /\ eq_increment q = "now_wind_added" /\ feasible y (solver_of (bd_master b)) /\
  (* more than the upper bound of the variable *)
  option_map v_upper (dget String.eqb "added" (m_variables (exb_model_with constant_index scenario_only None))) = Some (Some (nzl 40)) /\
  y "now_wind_added" = Z2Qc 100.
Proof.
  set (order := ["now_wind_total"; "now_wind_added"]). set (r := build_benders (history exb_scenario) 0 [] order).
  exists exb_scenario, order, (fst r), (match snd r with Ok b => b | Err _ => exb_built end),
    {| eq_child := "now_wind_total"; eq_increment := "now_wind_added"; eq_parent := None |}, (fun _ => Z2Qc 100).
  split; [vm_compute; reflexivity|]. split.
  { exists (some_node (history exb_scenario) 0), (match f_infos (history exb_scenario) with i :: _ => i | [] => {| ci_variables := []; ci_constraints := [] |} end).
    split; [apply some_node_at; vm_compute; reflexivity|]. split; [vm_compute; reflexivity|]. vm_compute. permuted. }
  split; [vm_compute; reflexivity|]. split; [asked_at (firstn 2 exb_scenario) 0%nat (exb_call_on (exb_wind constant_index scenario_only None)) (@nil event)|].
  split; [reflexivity|]. split; [split|].
  - apply bounds_checked; vm_compute; reflexivity.
  - intros row Hr. vm_compute in Hr. destruct Hr as [<-|[]]. exists 0%Qc. split; [vm_compute; f_equal; apply Qc_is_canon; reflexivity|]. split; vm_compute; discriminate.
  - split; reflexivity.
Qed.
Print Assumptions C56_scenario_variable_refuted.

(** ** C39 *)
(** the file, read line by line: every variable of the master, and every variable of a subproblem that is in the master
    under the same name, with its column in each problem *)
Theorem C39_structure : forall evs root db order f' b n, nth_error (f_nodes (history evs)) root = Some n ->
  some_order (history evs) root order -> build_benders (history evs) root db order = (f', Ok b) ->
  (0 < List.length (traverse (history evs) root None))%nat -> apart_tree (history evs) (traverse (history evs) root None) ->
  (forall i n, In i (traverse (history evs) root None) -> nth_error (f_nodes (history evs)) i = Some n -> NoDup (map fst (tc_blocks (tn_config n)))) ->
  (forall s, In s (bd_subproblems b) -> NoDup (variable_names s)) ->
  bd_subproblems b <> [] -> Forall fits (shared b) ->
  exists text rows, export_structure b = Ok text /\ Permutation rows (shared b) /\ rows_of_text text = map as_row rows.
Proof. exact built_file. Qed.
Print Assumptions C39_structure.
Example C39_structure_example : List.length (shared exb_built) = 14%nat /\ Forall fits (shared exb_built) /\
  In ("subproblem_now_b2", ("now_wind_total", 5%nat)) (shared exb_built) /\ In ("master", ("now_wind_total", 3%nat)) (shared exb_built) /\
  (forall s, In s (bd_subproblems exb_built) -> NoDup (variable_names s)) /\
  forall i n, In i (traverse (history exb_history) 0 None) -> nth_error (f_nodes (history exb_history)) i = Some n -> NoDup (map fst (tc_blocks (tn_config n))).
Proof.
  split; [vm_compute; reflexivity|]. split; [|split; [vm_compute; tauto|split; [vm_compute; tauto|split]]].
  - evaluate (shared exb_built). apply Forall_forall. intros e He.
    repeat (destruct He as [<-|He]; [unfold fits; cbn; repeat split; try discriminate; repeat constructor|]). destruct He.
  - intros s Hs. assert (K : In (variable_names s) (map variable_names (bd_subproblems exb_built))) by exact (in_map variable_names _ s Hs).
    revert K. generalize (variable_names s). clear. intros l K. evaluate (map variable_names (bd_subproblems exb_built)). repeat (destruct K as [<-|K]; [nodup|]). destruct K.
  - intros i n Hi Hn. apply some_node_of in Hn. rewrite Hn. clear Hn. evaluate (traverse (history exb_history) 0 None).
    destruct Hi as [<-|[<-|[<-|[]]]]; vm_compute; nodup.
Qed.
(** for any master and subproblems with distinct names *)
Theorem C39_any : forall b, bd_subproblems b <> [] -> NoDup ("master" :: map pb_name (bd_subproblems b)) ->
  sound_columns (pb_state (bd_master b)) /\ NoDup (variable_names (bd_master b)) ->
  Forall (fun s => sound_columns (pb_state s) /\ NoDup (variable_names s)) (bd_subproblems b) -> Forall fits (shared b) ->
  exists text rows, export_structure b = Ok text /\ Permutation rows (shared b) /\ rows_of_text text = map as_row rows.
Proof. exact structure_rows. Qed.
Print Assumptions C39_any.
(** without subproblems there is no file *)
Theorem C39_without_subproblems : forall b, bd_subproblems b = [] <-> export_structure b = Err RuntimeErr.
Proof. exact no_file. Qed.
Print Assumptions C39_without_subproblems.

(** a candidate that depends on time has another name in the subproblem: nothing links it to the master *)
Definition exb_timed : list event :=
  [exb_node "now" None (1 # 1) [(1%Z, [0%Z; 1%Z])] (exb_network_with (exb_wind time_only constant_index None)) None].
Definition exb_of (evs : list event) (root : nat) (order : list string) : benders :=
  match snd (build_benders (history evs) root [] order) with Ok b => b | Err _ => exb_built end.
Definition exb_text (b : benders) : string := match export_structure b with Ok t => t | Err _ => "" end.
Ltac order_ok evs root := exists (some_node (history evs) root), (match f_infos (history evs) with i :: _ => i | [] => {| ci_variables := []; ci_constraints := [] |} end);
  split; [apply some_node_at; vm_compute; reflexivity|]; split; [vm_compute; reflexivity|]; vm_compute; permuted.
Theorem C39_time_dependent_refuted : exists evs order f' b s text,
  some_order (history evs) 0 order /\ build_benders (history evs) 0 [] order = (f', Ok b) /\ bd_subproblems b = [s] /\
  In "now_wind_total" (variable_names (bd_master b)) /\
  In "now_wind_total_t0" (variable_names s) /\ In "now_wind_total_t1" (variable_names s) /\
  export_structure b = Ok text /\ forall row, In row (rows_of_text text) -> hd "" row = "master".
Proof.
  exists exb_timed, [], (fst (build_benders (history exb_timed) 0 [] [])), (exb_of exb_timed 0 []),
    (hd (bd_master exb_built) (bd_subproblems (exb_of exb_timed 0 []))), (exb_text (exb_of exb_timed 0 [])).
  split; [order_ok exb_timed 0%nat|]. split; [vm_compute; reflexivity|]. split; [vm_compute; reflexivity|]. split; [vm_compute; tauto|].
  split; [vm_compute; tauto|]. split; [vm_compute; tauto|]. split; [vm_compute; reflexivity|].
  evaluate (rows_of_text (exb_text (exb_of exb_timed 0 []))). intros row H. repeat (destruct H as [<-|H]; [reflexivity|]). destruct H.
Qed.
Print Assumptions C39_time_dependent_refuted.

(** names of fifty characters run together with the name of the problem *)
Definition exb_long : list event :=
  [exb_node "now" None (1 # 1) [(1%Z, [0%Z])] (exb_network ["wind_offshore_north_sea_zone_with_grid_connection"]) None].
Theorem C39_long_names_refuted : exists evs order f' b text,
  some_order (history evs) 0 order /\ build_benders (history evs) 0 [] order = (f', Ok b) /\ export_structure b = Ok text /\
  In "now_wind_offshore_north_sea_zone_with_grid_connection_total" (variable_names (bd_master b)) /\
  rows_of_text text =
    [["masternow_wind_offshore_north_sea_zone_with_grid_connection_total"; "0"]; ["masternow_wind_offshore_north_sea_zone_with_grid_connection_added"; "1"];
     ["subproblemnow_wind_offshore_north_sea_zone_with_grid_connection_total"; "2"]].
Proof.
  exists exb_long, [], (fst (build_benders (history exb_long) 0 [] [])), (exb_of exb_long 0 []), (exb_text (exb_of exb_long 0 [])).
  split; [order_ok exb_long 0%nat|]. split; [vm_compute; reflexivity|]. split; [vm_compute; reflexivity|]. split; [vm_compute; tauto|]. vm_compute. reflexivity.
Qed.
Print Assumptions C39_long_names_refuted.

(** block 1 of node "a" and node "a_b1" give subproblems of the same name: only the last is in the file *)
Definition exb_clash : list event :=
  [exb_node "a" None (1 # 1) [(1%Z, [0%Z]); (2%Z, [1%Z])] (exb_network ["wind"]) None; exb_node "a_b1" (Some 0%nat) (1 # 1) [(1%Z, [0%Z])] (exb_network ["sun"]) None].
Theorem C39_same_names_refuted : exists evs order f' b text,
  some_order (history evs) 0 order /\ build_benders (history evs) 0 [] order = (f', Ok b) /\ export_structure b = Ok text /\
  map pb_name (bd_subproblems b) = ["subproblem_a_b1"; "subproblem_a_b2"; "subproblem_a_b1"] /\
  In ("subproblem_a_b1", ("a_wind_total", 2%nat)) (shared b) /\ ~ In (as_row ("subproblem_a_b1", ("a_wind_total", 2%nat))) (rows_of_text text) /\
  Forall fits (shared b).
Proof.
  exists exb_clash, [], (fst (build_benders (history exb_clash) 0 [] [])), (exb_of exb_clash 0 []), (exb_text (exb_of exb_clash 0 [])).
  split; [order_ok exb_clash 0%nat|]. split; [vm_compute; reflexivity|]. split; [vm_compute; reflexivity|]. split; [vm_compute; reflexivity|].
  split; [vm_compute; tauto|]. split.
  - evaluate (rows_of_text (exb_text (exb_of exb_clash 0 []))). intros H. repeat (destruct H as [H|H]; [discriminate H|]). destruct H.
  - evaluate (shared (exb_of exb_clash 0 [])). apply Forall_forall. intros e He.
    repeat (destruct He as [<-|He]; [unfold fits; cbn; repeat split; try discriminate; repeat constructor|]). destruct He.
Qed.
Print Assumptions C39_same_names_refuted.
