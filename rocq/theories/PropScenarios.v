(** C80: the scenarios of a problem are independent of each other: the problem is the problems of its scenarios put
    together, which share the variables that do not depend on the scenario, at the average of their costs. *)
From Coq Require Import Lia.
From Verif Require Import Base BaseFacts Expr Visitors Expansion LinearExpr Linearize Model Study Strategy Optim
  SpecExpr SpecSyntax SpecExpansion SpecLinear SpecModel SpecOptim SpecOrder ExampleProblem SpecScenarios ScenarioFacts ScenarioCost.
Local Open Scope string_scope.
Local Open Scope list_scope.

(** Every column and every row of the problem is that of the problem of a scenario, with the same bounds, type and
    coefficients, and every one of these is in the problem; two scenarios share a column exactly when its variable
    does not depend on the scenario.  Partial: constraints whose bounds depend on the scenario while their
    expression does not are left out, see [C80_bounds_refuted]. *)
Theorem C80_together_partial :
  forall o st os sts, good_problem o -> constraints_by_scenario o -> scenario_bounds_follow o -> build_problem o = Ok st ->
  (forall s, (0 <= s < o_scenarios o)%Z -> one_scenario s o (os s) /\ build_problem (os s) = Ok (sts s)) ->
  exists f, put_together o st os sts f.
Proof. exact scenarios_together. Qed.
Print Assumptions C80_together_partial.

(** The solutions of the problem are the solutions of the problems of all scenarios that agree on what is shared. *)
Theorem C80_solutions :
  forall o st os sts f, put_together o st os sts f ->
  forall y, solves y (st_solver st) <-> forall s, (0 <= s < o_scenarios o)%Z -> solves (fun i => y (f s i)) (st_solver (sts s)).
Proof. exact together_solves. Qed.
Print Assumptions C80_solutions.

(** Their cost is the average over the scenarios of their costs in the problems of the scenarios, up to the terms
    that the linearization drops, at most one for each mention of a decision and each smaller than 1e-16. *)
Theorem C80_costs :
  forall o st os sts f, good_problem o -> averaged_costs o -> build_problem o = Ok st ->
  (forall s, (0 <= s < o_scenarios o)%Z -> one_scenario s o (os s) /\ good_problem (os s) /\ build_problem (os s) = Ok (sts s)) ->
  put_together o st os sts f ->
  exists d ds, few (list_sum (map (contribution_mentions o) (contributions o))) d /\
  (forall s, (0 <= s < o_scenarios o)%Z -> few (list_sum (map (contribution_mentions (os s)) (contributions (os s)))) (ds s)) /\
  forall x y t z, admissible_decisions o x -> represents o st y x -> exists v,
    olift2 Qcplus (objective_value y (st_solver st)) (terms_value (read (world o x) t z) d) = Some v /\
    omean (o_scenarios o) (map (fun s => olift2 Qcplus (objective_value (fun i => y (f s i)) (st_solver (sts s))) (terms_value (read (world (os s) (seen_in s x)) t 0) (ds s)))
      (zrange 0 (o_scenarios o))) = Some v.
Proof. exact scenarios_cost. Qed.
Print Assumptions C80_costs.

(** The settings of every scenario exist: the same ones, the one scenario reading the series where the scenario did. *)
Theorem C80_settings : forall s o, one_scenario s o (settings_of s o).
Proof. exact settings_of_one. Qed.
Print Assumptions C80_settings.

(** ** A generator and a load over two timesteps and two scenarios, with one investment for both scenarios *)
Definition exs_built (s : Z) : state := match build_problem (settings_of s exp_settings) with Ok st => st | Err _ => initial_state end.
Lemma exs_scenarios s : (0 <= s < 2)%Z -> s = 0%Z \/ s = 1%Z.
Proof. lia. Qed.
Lemma exs_good s : good_problem (settings_of s exp_settings).
Proof.
  destruct exp_good as (H1 & _ & H3 & H4 & H5 & H6 & H7 & _ & _). split; [exact H1|]. split; [cbn; lia|]. split; [exact H3|]. split; [exact H4|]. split; [exact H5|]. split; [exact H6|]. split; [exact H7|]. split.
  - apply database_finite. reflexivity.
  - intros c p Hc Hp. cbn in Hc. destruct Hc as [<-|[]]. destruct Hp.
Qed.
Lemma exs_builds s : (0 <= s < 2)%Z -> build_problem (settings_of s exp_settings) = Ok (exs_built s).
Proof. intros Hs. destruct (exs_scenarios s Hs) as [-> | ->]; vm_compute; reflexivity. Qed.
Lemma exs_constraints : constraints_by_scenario exp_settings.
Proof.
  intros c k Hc Hk. cbn in Hc. destruct Hc as [<-|[<-|[<-|[]]]]; cbn in Hk; [destruct Hk as [<-|[]]|destruct Hk as [<-|[<-|[]]]|destruct Hk]; unfold no_scenario_operator; solve_nodes.
Qed.
Lemma exs_bounds : scenario_bounds_follow exp_settings.
Proof.
  intros c k Hc Hk. cbn in Hc. destruct Hc as [<-|[<-|[<-|[]]]]; cbn in Hk; [destruct Hk as [<-|[]]|destruct Hk as [<-|[<-|[]]]|destruct Hk]; intros _; reflexivity.
Qed.
Lemma exs_costs : averaged_costs exp_settings.
Proof.
  intros c e H. vm_compute in H. repeat (destruct H as [[= <- <-]|H]); [apply av_expectation; unfold by_scenario; solve_nodes|apply av_steady; split; [solve_nodes|reflexivity]|destruct H].
Qed.
Example C80_example :
  good_problem exp_settings /\ constraints_by_scenario exp_settings /\ scenario_bounds_follow exp_settings /\ averaged_costs exp_settings /\
  build_problem exp_settings = Ok exp_built /\
  (forall s, (0 <= s < o_scenarios exp_settings)%Z -> one_scenario s exp_settings (settings_of s exp_settings) /\ good_problem (settings_of s exp_settings) /\
     build_problem (settings_of s exp_settings) = Ok (exs_built s)) /\
  List.length (s_vars (st_solver exp_built)) = 5%nat /\ List.length (s_rows (st_solver exp_built)) = 12%nat /\
  map sv_name (s_vars (st_solver (exs_built 1))) = ["G_p_t0"; "G_p_t1"; "G_inv"] /\ List.length (s_rows (st_solver (exs_built 1))) = 6%nat /\
  map sr_lb (firstn 4 (s_rows (st_solver exp_built))) = [nz 50; nz 55; nz 60; nz 65] /\ map sr_lb (firstn 2 (s_rows (st_solver (exs_built 1)))) = [nz 55; nz 65].
Proof.
  split; [exact exp_good|]. split; [exact exs_constraints|]. split; [exact exs_bounds|]. split; [exact exs_costs|]. split; [exact exp_builds|].
  split; [intros s Hs; split; [apply settings_of_one|]; split; [apply exs_good|now apply exs_builds]|]. repeat apply conj; vm_compute; reflexivity.
Qed.

(** ** A limit that depends on the scenario, on an investment that does not: only the limit of the first scenario is
    in the problem *)
Definition exs_scenario_only : indexing := {| ix_time := false; ix_scenario := true |}.
Definition exs_limited : model := {|
  m_id := "limited";
  m_constraints := [("limit", exp_constraint "limit" (Var "inv") (Lit NInf) (Param "limit"))];
  m_binding_constraints := []; m_inter_block_dyn := false;
  m_parameters := [("limit", exp_parameter "limit" exs_scenario_only)];
  m_variables := [("inv", exp_variable "inv" constant_index None COUPLING)];
  m_operational := None; m_investment := None; m_ports := []; m_port_definitions := [] |}.
Definition exs_limits : settings :=
  let l := lone_settings exs_limited [(("G", "limit"), ScenarioSeriesData [(0%Z, nz 100); (1%Z, nz 50)] None)] in
  {| o_network := o_network l; o_database := o_database l; o_block := o_block l; o_scenarios := 2; o_cycle := true; o_selection := MergedProblem;
     o_risk := UniformRisk; o_tree_node := ""; o_full_names := true |}.
Definition built_of (o : settings) : state := match build_problem o with Ok st => st | Err _ => initial_state end.
Theorem C80_bounds_refuted :
  exists o st os sts, good_problem o /\ constraints_by_scenario o /\ build_problem o = Ok st /\
  (forall s, (0 <= s < o_scenarios o)%Z -> one_scenario s o (os s) /\ build_problem (os s) = Ok (sts s)) /\
  ~ exists f, put_together o st os sts f.
Proof.
  exists exs_limits, (built_of exs_limits), (fun s => settings_of s exs_limits), (fun s => built_of (settings_of s exs_limits)). split; [|split; [|split; [|split]]].
  - split; [split; [discriminate|reflexivity]|]. split; [cbn; lia|]. split; [discriminate|].
    split; [apply bn_component, bn_new|]. split; [unfold distinct_ids; vm_compute; solve_nodup|]. split; [|split; [|split]].
    + intros c [<-|[]]. split; [|split; [|split]].
      * split; [solve_named|]. split; [solve_named|]. split; [solve_named|]. split; [solve_named|]. split; solve_named.
      * intros k [<-|[]]; (split; [split; [|split; [|split]]; solve_nodes|]); (split; [now left|right; solve_nodes]).
      * intros e [[=]|[=]].
      * intros f d [].
    + intros k [].
    + apply database_finite. reflexivity.
    + intros c p [].
  - intros c k [<-|[]] [<-|[]]. unfold no_scenario_operator. solve_nodes.
  - vm_compute. reflexivity.
  - intros s Hs. split; [apply settings_of_one|]. destruct (exs_scenarios s Hs) as [-> | ->]; vm_compute; reflexivity.
  - intros [f [P1 _ _ _]]. destruct (P1 1%Z) as [[_ _ F] _]; [vm_compute; split; [discriminate|reflexivity]|].
    vm_compute in F. destruct (F _ (or_introl eq_refl)) as (r & [<-|[]] & _ & E & _). discriminate E.
Qed.
Print Assumptions C80_bounds_refuted.
