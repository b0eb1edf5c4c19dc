(** A problem for the examples: a generator and a load on a node, two timesteps, two scenarios. *)
From Coq Require Import Lia.
From Verif Require Import Base Expr Visitors Expansion LinearExpr Linearize Model Study Strategy Optim
  BaseFacts SpecExpr SpecSyntax SpecVisitors SpecExpansion SpecLinear SpecModel SpecOptim ModelFacts.

Local Open Scope string_scope.
Local Open Scope list_scope.

(** data made of finite numbers *)
Definition is_fin (v : num) : bool := match v with Fin _ => true | _ => false end.
Definition data_finite (d : data) : bool :=
  match d with
  | ConstantData v => is_fin v
  | TimeSeriesData m | ScenarioSeriesData m _ => forallb (fun kv => is_fin (snd kv)) m
  | TimeScenarioSeriesData rows _ => forallb (forallb is_fin) rows
  | TreeData _ => false
  end.
Lemma is_fin_ok v : is_fin v = true -> exists q, v = Fin q.
Proof. destruct v; try discriminate. eauto. Qed.
Lemma iloc_In {A} (l : list A) i a : iloc l i = Ok a -> In a l.
Proof.
  unfold iloc. destruct (_ && _); [|discriminate]. destruct (nth_error l _) eqn:E; [|discriminate].
  intros [= <-]. eapply nth_error_In; eauto.
Qed.
Lemma data_finite_ok d t s node v : data_finite d = true -> get_value d t s node = Ok v -> exists q, v = Fin q.
Proof.
  intros Hf H. apply is_fin_ok. destruct d; cbn in Hf, H; try discriminate.
  - injection H as <-. exact Hf.
  - destruct t; [|discriminate]. destruct (dget Z.eqb z series) eqn:E; [|discriminate]. injection H as <-.
    apply (dget_In Z.eqb Z.eqb_eq) in E. rewrite forallb_forall in Hf. exact (Hf _ E).
  - destruct s; [|discriminate]. inv_bind H. destruct (dget Z.eqb v0 series) eqn:E; [|discriminate]. injection H as <-.
    apply (dget_In Z.eqb Z.eqb_eq) in E. rewrite forallb_forall in Hf. exact (Hf _ E).
  - destruct t; [|discriminate]. destruct s; [|discriminate]. inv_bind H. inv_bind H.
    apply iloc_In in H, H1. rewrite forallb_forall in Hf. specialize (Hf _ H1). rewrite forallb_forall in Hf. auto.
Qed.
Lemma database_finite o : forallb (fun kd => data_finite (snd kd)) (o_database o) = true -> finite_values o.
Proof.
  intros Hf c n d t s v Hd Hv. unfold get_data in Hd. destruct (dget pfi_eqb (c, n) (o_database o)) eqn:E; [|discriminate].
  injection Hd as <-. apply (dget_In pfi_eqb pfi_eqb_eq) in E. rewrite forallb_forall in Hf.
  eapply data_finite_ok; [exact (Hf _ E)|exact Hv].
Qed.

Definition time_and_scenario : indexing := {| ix_time := true; ix_scenario := true |}.
Definition time_only : indexing := {| ix_time := true; ix_scenario := false |}.
Definition constant_index : indexing := {| ix_time := false; ix_scenario := false |}.
Definition nzl (z : Z) : expr := Lit (nz z).

Definition exp_port : model_port := {| mp_type := {| pt_id := "power"; pt_fields := ["flow"] |}; mp_name := "balance" |}.
Definition exp_variable (n : string) (ix : indexing) (ub : option expr) (c : problem_context) : variable :=
  {| v_name := n; v_type := CONTINUOUS; v_lower := Some (nzl 0); v_upper := ub; v_structure := ix; v_context := c |}.
Definition exp_parameter (n : string) (ix : indexing) : parameter :=
  {| p_name := n; p_type := CONTINUOUS; p_structure := ix |}.
Definition exp_constraint (n : string) (e lb ub : expr) : constraint :=
  {| c_name := n; c_expr := e; c_lower := lb; c_upper := ub; c_context := OPERATIONAL |}.

(** p - p[t-1] <= ramp, p <= inv, cost is the expectation of the sum of cost * p plus 3 inv *)
Definition exp_generator : model := {|
  m_id := "generator";
  m_constraints := [("ramp", exp_constraint "ramp" (Add [Var "p"; Neg (TShift (Var "p") (nzl (-1)))]) (Lit NInf) (Param "ramp"));
                    ("capacity", exp_constraint "capacity" (Add [Var "p"; Neg (Var "inv")]) (Lit NInf) (nzl 0))];
  m_binding_constraints := []; m_inter_block_dyn := false;
  m_parameters := [("pmax", exp_parameter "pmax" time_only); ("cost", exp_parameter "cost" constant_index);
                   ("ramp", exp_parameter "ramp" constant_index)];
  m_variables := [("p", exp_variable "p" time_and_scenario (Some (Param "pmax")) OPERATIONAL);
                  ("inv", exp_variable "inv" constant_index None COUPLING)];
  m_operational := Some (ScenOp (AllSum (Mul (Param "cost") (Var "p"))) Expectation);
  m_investment := Some (Mul (nzl 3) (Var "inv"));
  m_ports := [("balance", exp_port)];
  m_port_definitions := [(("balance", "flow"), {| d_field := ("balance", "flow"); d_definition := Var "p" |})] |}.
Definition exp_load : model := {|
  m_id := "load"; m_constraints := []; m_binding_constraints := []; m_inter_block_dyn := false;
  m_parameters := [("demand", exp_parameter "demand" time_and_scenario)];
  m_variables := []; m_operational := None; m_investment := None;
  m_ports := [("balance", exp_port)];
  m_port_definitions := [(("balance", "flow"), {| d_field := ("balance", "flow"); d_definition := Neg (Param "demand") |})] |}.
Definition exp_node_model : model := {|
  m_id := "node"; m_constraints := [];
  m_binding_constraints := [("balance", exp_constraint "balance" (PortAgg (PortField "balance" "flow") PortSum) (nzl 0) (nzl 0))];
  m_inter_block_dyn := false; m_parameters := []; m_variables := []; m_operational := None; m_investment := None;
  m_ports := [("balance", exp_port)]; m_port_definitions := [] |}.
Definition exp_g : component := {| co_model := exp_generator; co_id := "G" |}.
Definition exp_d : component := {| co_model := exp_load; co_id := "D" |}.
Definition exp_n : component := {| co_model := exp_node_model; co_id := "N" |}.
Definition exp_ref (c : component) : port_ref := {| pr_component := c; pr_port := "balance" |}.
Definition exp_network : result network :=
  n <- connect (exp_ref exp_g) (exp_ref exp_n)
         (add_component exp_d (add_component exp_g (add_node exp_n (new_network "net")))) ;;
  connect (exp_ref exp_n) (exp_ref exp_d) n.
Definition the_network : network :=
  match exp_network with Ok n => n | Err _ => new_network "none" end.
Definition exp_database : database :=
  [(("G", "pmax"), TimeSeriesData [(5%Z, nz 100); (6%Z, nz 200)]); (("G", "cost"), ConstantData (nz 7));
   (("G", "ramp"), ConstantData (nz 50));
   (("D", "demand"), TimeScenarioSeriesData
      (map (fun t => [nz (10 * t); nz (10 * t + 5)]) (zrange 0 7)) None)].
Definition exp_settings : settings := {|
  o_network := the_network; o_database := exp_database; o_block := [5%Z; 6%Z]; o_scenarios := 2;
  o_cycle := true; o_selection := MergedProblem; o_risk := UniformRisk; o_tree_node := ""; o_full_names := true |}.
Definition exp_built : state := match build_problem exp_settings with Ok st => st | Err _ => initial_state end.
Lemma exp_builds : build_problem exp_settings = Ok exp_built.
Proof. vm_compute. reflexivity. Qed.

Lemma exp_network_built : built_network the_network.
Proof.
  unfold the_network, exp_network. destruct (connect _ _ _) as [n1|] eqn:E1; [|apply bn_new]. cbn [bind].
  destruct (connect (exp_ref exp_n) (exp_ref exp_d) n1) as [n2|] eqn:E2; [|apply bn_new].
  eapply bn_connect; [|exact E2]. eapply bn_connect; [|exact E1]. apply bn_component, bn_component, bn_node, bn_new.
Qed.
Ltac solve_nodup := cbn; repeat (apply NoDup_cons; [cbn; intuition discriminate|]); apply NoDup_nil.
Ltac solve_named := split; [solve_nodup|cbn; intros ? ? H; repeat (destruct H as [[= <- <-]|H]; [reflexivity|]); destruct H].
Ltac solve_nodes := cbn; repeat split; auto; try exact I.
Lemma exp_generator_good : good_model exp_generator.
Proof.
  split; [|split; [|split]].
  - split; [solve_named|]. split; [solve_named|]. split; [solve_named|]. split; [solve_named|]. split; solve_named.
  - intros k [<-|[<-|[]]]; (split; [split; [|split; [|split]]; solve_nodes|]); (split; [now left|right; solve_nodes]).
  - intros e [[= <-]|[= <-]]; (split; [|split; [|split]]; solve_nodes).
  - intros f d [[= <- <-]|[]]. split; [|split; [|split; [|split]]]; solve_nodes.
Qed.
Lemma exp_load_good : good_model exp_load.
Proof.
  split; [|split; [|split]].
  - split; [solve_named|]. split; [solve_named|]. split; [solve_named|]. split; [solve_named|]. split; solve_named.
  - intros k [].
  - intros e [[=]|[=]].
  - intros f d [[= <- <-]|[]]. split; [|split; [|split; [|split]]]; solve_nodes.
Qed.
Lemma exp_node_good : good_model exp_node_model.
Proof.
  split; [|split; [|split]].
  - split; [solve_named|]. split; [solve_named|]. split; [solve_named|]. split; [solve_named|]. split; solve_named.
  - intros k [<-|[]]; (split; [split; [|split; [|split]]; solve_nodes|]); (split; right; solve_nodes).
  - intros e [[=]|[=]].
  - intros f d [].
Qed.
Lemma exp_good : good_problem exp_settings.
Proof.
  split; [split; [discriminate|reflexivity]|]. split; [cbn; lia|]. split; [discriminate|].
  split; [exact exp_network_built|]. split; [unfold distinct_ids; vm_compute; solve_nodup|].
  split; [|split; [|split]].
  - intros c Hc. cbn in Hc. destruct Hc as [<-|[<-|[<-|[]]]]; [exact exp_node_good|exact exp_generator_good|exact exp_load_good].
  - intros k Hk. cbn in Hk. destruct Hk as [<-|[<-|[]]]; split;
      first [exact exp_node_good|exact exp_generator_good|exact exp_load_good].
  - apply database_finite. reflexivity.
  - intros c p Hc Hp. cbn in Hc. destruct Hc as [<-|[]]. destruct Hp.
Qed.
Lemma exp_follow : forall c k, In c (all_components (o_network exp_settings)) ->
  In k (get_constraints (o_selection exp_settings) (co_model c)) ->
  bounds_follow (o_network exp_settings) (co_id c) k.
Proof.
  intros c k Hc Hk. cbn in Hc. destruct Hc as [<-|[<-|[<-|[]]]]; cbn in Hk.
  - destruct Hk as [<-|[]]. split; intros _; reflexivity.
  - destruct Hk as [<-|[<-|[]]]; split; intros _; reflexivity.
  - destruct Hk.
Qed.

(** ** One component alone, for the counterexamples *)
Definition lone_settings (m : model) (db : database) : settings := {|
  o_network := add_component {| co_model := m; co_id := "G" |} (new_network "net"); o_database := db;
  o_block := [5%Z; 6%Z]; o_scenarios := 1; o_cycle := true; o_selection := MergedProblem;
  o_risk := UniformRisk; o_tree_node := ""; o_full_names := true |}.
Lemma lone_good m db : good_model m -> forallb (fun kd => data_finite (snd kd)) db = true ->
  good_problem (lone_settings m db).
Proof.
  intros Hm Hdb. split; [split; [discriminate|reflexivity]|]. split; [cbn; lia|]. split; [discriminate|].
  split; [apply bn_component, bn_new|]. split; [unfold distinct_ids; vm_compute; solve_nodup|].
  split; [|split; [|split]].
  - intros c [<-|[]]. exact Hm.
  - intros k [].
  - apply database_finite. exact Hdb.
  - intros c p [].
Qed.
(** an investment limited by a bound that varies in time *)
Definition exp_limited : model := {|
  m_id := "limited";
  m_constraints := [("limit", exp_constraint "limit" (Var "inv") (Lit NInf) (Param "limit"))];
  m_binding_constraints := []; m_inter_block_dyn := false;
  m_parameters := [("limit", exp_parameter "limit" time_only)];
  m_variables := [("inv", exp_variable "inv" constant_index None COUPLING)];
  m_operational := None; m_investment := None; m_ports := []; m_port_definitions := [] |}.
Definition limited_settings : settings :=
  lone_settings exp_limited [(("G", "limit"), TimeSeriesData [(5%Z, nz 100); (6%Z, nz 50)])].
Definition limited_built : state := match build_problem limited_settings with Ok st => st | Err _ => initial_state end.
Lemma limited_builds : build_problem limited_settings = Ok limited_built.
Proof. vm_compute. reflexivity. Qed.
Lemma limited_good : good_problem limited_settings.
Proof.
  apply lone_good; [|reflexivity]. split; [|split; [|split]].
  - split; [solve_named|]. split; [solve_named|]. split; [solve_named|]. split; [solve_named|]. split; solve_named.
  - intros k [<-|[]]; (split; [split; [|split; [|split]]; solve_nodes|]); (split; [now left|right; solve_nodes]).
  - intros e [[=]|[=]].
  - intros f d [].
Qed.
(** a model with one variable per name, bounded by 0 and an optional expression *)
Definition exp_holder (names : list string) (ub : option expr) (ps : list parameter) : model := {|
  m_id := "holder"; m_constraints := []; m_binding_constraints := []; m_inter_block_dyn := false;
  m_parameters := map (fun p => (p_name p, p)) ps;
  m_variables := map (fun n => (n, exp_variable n constant_index ub OPERATIONAL)) names;
  m_operational := None; m_investment := None; m_ports := []; m_port_definitions := [] |}.
