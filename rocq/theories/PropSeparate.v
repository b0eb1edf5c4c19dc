(** C87: solving the scenarios of a problem one by one. *)
From Coq Require Import Lia.
From Verif Require Import Base BaseFacts Expr Visitors Expansion LinearExpr Linearize Model Study Strategy Optim
  SpecExpr SpecSyntax SpecExpansion SpecLinear SpecModel SpecOptim SpecOrder ExampleProblem SpecScenarios SpecPrecise SpecSeparate
  ScenarioFacts ScenarioCost PreciseFacts ScenarioExact PropScenarios PropPrecise.
Local Open Scope string_scope.
Local Open Scope list_scope.

(** When costs have limited precision, what a solution costs is exactly the average of what it costs in the problems of the scenarios. *)
Theorem C87_average :
  forall o st os sts f, good_problem o -> averaged_costs o -> build_problem o = Ok st ->
  (forall s, (0 <= s < o_scenarios o)%Z -> one_scenario s o (os s) /\ good_problem (os s) /\ build_problem (os s) = Ok (sts s)) ->
  put_together o st os sts f -> precise_costs o -> (forall s, (0 <= s < o_scenarios o)%Z -> precise_costs (os s)) ->
  forall y, exists v, objective_value y (st_solver st) = Some v /\
  omean (o_scenarios o) (map (fun s => objective_value (fun i => y (f s i)) (st_solver (sts s))) (zrange 0 (o_scenarios o))) = Some v.
Proof. exact average_cost. Qed.
Print Assumptions C87_average.

(** So no solution costs less than the average of the least costs of the scenarios. *)
Theorem C87_least :
  forall o st os sts f, good_problem o -> averaged_costs o -> build_problem o = Ok st ->
  (forall s, (0 <= s < o_scenarios o)%Z -> one_scenario s o (os s) /\ good_problem (os s) /\ build_problem (os s) = Ok (sts s)) ->
  put_together o st os sts f -> precise_costs o -> (forall s, (0 <= s < o_scenarios o)%Z -> precise_costs (os s)) ->
  forall y least v, solves y (st_solver st) -> objective_value y (st_solver st) = Some v ->
  (forall s y1 v1, (0 <= s < o_scenarios o)%Z -> solves y1 (st_solver (sts s)) -> objective_value y1 (st_solver (sts s)) = Some v1 -> (least s <= v1)%Qc) ->
  exists w, omean (o_scenarios o) (map (fun s => Some (least s)) (zrange 0 (o_scenarios o))) = Some w /\ (w <= v)%Qc.
Proof. exact least_costs. Qed.
Print Assumptions C87_least.

(** And optimal solutions of all scenarios that agree on what is shared make an optimal solution. *)
Theorem C87_parts :
  forall o st os sts f, good_problem o -> averaged_costs o -> build_problem o = Ok st ->
  (forall s, (0 <= s < o_scenarios o)%Z -> one_scenario s o (os s) /\ good_problem (os s) /\ build_problem (os s) = Ok (sts s)) ->
  put_together o st os sts f -> precise_costs o -> (forall s, (0 <= s < o_scenarios o)%Z -> precise_costs (os s)) ->
  forall y, (forall s, (0 <= s < o_scenarios o)%Z -> optimal (fun i => y (f s i)) (st_solver (sts s))) -> optimal y (st_solver st).
Proof. exact parts_optimal. Qed.
Print Assumptions C87_parts.

(** When every variable depends on the scenario, the optimal solutions are exactly the optimal solutions of all scenarios. *)
Theorem C87_separate :
  forall o st os sts f, good_problem o -> averaged_costs o -> build_problem o = Ok st ->
  (forall s, (0 <= s < o_scenarios o)%Z -> one_scenario s o (os s) /\ good_problem (os s) /\ build_problem (os s) = Ok (sts s)) ->
  put_together o st os sts f -> precise_costs o -> (forall s, (0 <= s < o_scenarios o)%Z -> precise_problem (os s)) -> scenario_variables o ->
  forall y, optimal y (st_solver st) <-> forall s, (0 <= s < o_scenarios o)%Z -> optimal (fun i => y (f s i)) (st_solver (sts s)).
Proof. exact scenarios_separate. Qed.
Print Assumptions C87_separate.

(** ** A generator that must serve a demand of 100 or 50, according to the scenario *)
Definition exq_scenario_only : indexing := {| ix_time := false; ix_scenario := true |}.
Definition exq_generator : model := {|
  m_id := "generator";
  m_constraints := [("serve", exp_constraint "serve" (Var "p") (Param "demand") (Lit PInf))];
  m_binding_constraints := []; m_inter_block_dyn := false;
  m_parameters := [("demand", exp_parameter "demand" exq_scenario_only)];
  m_variables := [("p", exp_variable "p" time_and_scenario None OPERATIONAL)];
  m_operational := Some (ScenOp (AllSum (Mul (nzl 3) (Var "p"))) Expectation); m_investment := None; m_ports := []; m_port_definitions := [] |}.
Definition exq_settings : settings :=
  let l := lone_settings exq_generator [(("G", "demand"), ScenarioSeriesData [(0%Z, nz 100); (1%Z, nz 50)] None)] in
  {| o_network := o_network l; o_database := o_database l; o_block := o_block l; o_scenarios := 2; o_cycle := true; o_selection := MergedProblem;
     o_risk := UniformRisk; o_tree_node := ""; o_full_names := true |}.
Lemma exq_good o : o_network o = o_network exq_settings -> o_block o = o_block exq_settings -> (1 <= o_scenarios o)%Z -> o_risk o = UniformRisk ->
  o_selection o = MergedProblem -> forallb (fun kd => data_finite (snd kd)) (o_database o) = true -> o_cycle o = true -> o_full_names o = true -> good_problem o.
Proof.
  intros E1 E2 E3 E4 E5 E6 E7 E8. split; [split; [rewrite E2; discriminate|exact E7]|]. split; [exact E3|]. split; [rewrite E4; discriminate|].
  rewrite E1. split; [apply bn_component, bn_new|]. split; [unfold distinct_ids; vm_compute; solve_nodup|]. split; [|split; [|split]].
  - intros c [<-|[]]. split; [|split; [|split]].
    + split; [solve_named|]. split; [solve_named|]. split; [solve_named|]. split; [solve_named|]. split; solve_named.
    + intros k [<-|[]]; (split; [split; [|split; [|split]]; solve_nodes|]); (split; [right; solve_nodes|now left]).
    + intros e [[= <-]|[=]]. split; [|split; [|split]]; solve_nodes.
    + intros f d [].
  - intros k [].
  - now apply database_finite.
  - intros c p [].
Qed.
Definition exq_state : state := built_of exq_settings.
Definition exq_states (s : Z) : state := built_of (settings_of s exq_settings).
Lemma exq_builds : build_problem exq_settings = Ok exq_state.
Proof. vm_compute. reflexivity. Qed.
Lemma exq_scenarios s : (0 <= s < 2)%Z ->
  one_scenario s exq_settings (settings_of s exq_settings) /\ good_problem (settings_of s exq_settings) /\ build_problem (settings_of s exq_settings) = Ok (exq_states s).
Proof.
  intros Hs. split; [apply settings_of_one|]. split; [apply exq_good; try reflexivity; cbn; lia|].
  destruct (exs_scenarios s Hs) as [-> | ->]; vm_compute; reflexivity.
Qed.
Lemma exq_costs : averaged_costs exq_settings.
Proof. intros c e H. vm_compute in H. destruct H as [[= <- <-]|[]]. apply av_expectation. unfold by_scenario. solve_nodes. Qed.
Lemma exq_precise_costs o : contributions o = contributions exq_settings -> o_risk o = UniformRisk -> (o_scenarios o | 2)%Z -> precise_costs o.
Proof.
  intros E1 E2 E3 ce Hce. rewrite E1 in Hce. vm_compute in Hce. destruct Hce as [<-|[]]. exists 2%Z, 1%Z, 1%Qc. rewrite E2.
  split; [lia|]. split; [lia|]. split; [discriminate|]. split; [|split; [reflexivity|apply multiple_1]].
  exists 1%Z. split; [lia|]. split; [rewrite Z.mul_1_l; exact E3|]. exists 1%Z, 1%Z. split; [lia|]. split; [lia|]. split; [exists 1%Z; reflexivity|].
  split; [|exact I]. eexists. split; [reflexivity|exact (one_multiple 1 3)].
Qed.
Lemma exq_precise s : precise_problem (settings_of s exq_settings).
Proof.
  split; [|split].
  - intros c k Hc Hk. destruct Hc as [<-|[]]. destruct Hk as [<-|[]]. split; [|split; intros _; reflexivity].
    exists 1%Z. split; [split; [lia|discriminate]|]. exact I.
  - apply exq_precise_costs; [reflexivity|reflexivity|]. exists 2%Z. reflexivity.
  - intros c v Hc Hv. destruct Hc as [<-|[]]. destruct Hv as [<-|[]]. split; intros e [= <-]. left. eexists. split; [reflexivity|discriminate].
Qed.
Example C87_example :
  good_problem exq_settings /\ averaged_costs exq_settings /\ build_problem exq_settings = Ok exq_state /\ precise_costs exq_settings /\
  (forall s, (0 <= s < 2)%Z -> precise_problem (settings_of s exq_settings)) /\ scenario_variables exq_settings /\
  objective_value (fun i => Z2Qc (nth i [100; 50; 100; 50]%Z 0%Z)) (st_solver exq_state) = Some (Z2Qc 450) /\
  objective_value (fun _ => Z2Qc 100) (st_solver (exq_states 0)) = Some (Z2Qc 600) /\
  objective_value (fun _ => Z2Qc 50) (st_solver (exq_states 1)) = Some (Z2Qc 300) /\
  exists f, put_together exq_settings exq_state (fun s => settings_of s exq_settings) exq_states f /\
  forall y, optimal y (st_solver exq_state) <-> forall s, (0 <= s < 2)%Z -> optimal (fun i => y (f s i)) (st_solver (exq_states s)).
Proof.
  assert (G : good_problem exq_settings) by (apply exq_good; try reflexivity; cbn; lia).
  assert (P : precise_costs exq_settings) by (apply exq_precise_costs; [reflexivity|reflexivity|now exists 1%Z]).
  assert (V : scenario_variables exq_settings).
  { intros c v Hc Hv. destruct Hc as [<-|[]]. destruct Hv as [<-|[]]. reflexivity. }
  split; [exact G|]. split; [exact exq_costs|]. split; [exact exq_builds|]. split; [exact P|].
  split; [intros s _; apply exq_precise|]. split; [exact V|]. do 3 (split; [vm_compute; do 2 f_equal; apply Qc_is_canon; reflexivity|]).
  destruct (C80_together_partial exq_settings exq_state (fun s => settings_of s exq_settings) exq_states G) as [f T].
  - intros c k [<-|[]] [<-|[]]. unfold no_scenario_operator. solve_nodes.
  - intros c k [<-|[]] [<-|[]] _. reflexivity.
  - exact exq_builds.
  - intros s Hs. split; apply exq_scenarios; exact Hs.
  - exists f. split; [exact T|].
    apply (C87_separate exq_settings exq_state (fun s => settings_of s exq_settings) exq_states f G exq_costs exq_builds exq_scenarios T P (fun s _ => exq_precise s) V).
Qed.
