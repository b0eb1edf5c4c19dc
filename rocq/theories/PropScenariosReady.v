(** C80 and C87 for problems whose data and models are complete: nothing is asked of the problems of the scenarios. *)
From Coq Require Import Lia.
From Verif Require Import Base BaseFacts Expr Visitors Expansion LinearExpr Linearize Model Study Strategy Optim
  SpecExpr SpecSyntax SpecExpansion SpecLinear SpecModel SpecOptim SpecReady SpecOrder ExampleProblem SpecScenarios SpecPrecise SpecSeparate
  ScenarioFacts ScenarioCost PreciseFacts ScenarioExact ScenarioReady OptimReady PropScenarios PropPrecise PropReady PropSeparate.
Local Open Scope string_scope.
Local Open Scope list_scope.

(** When a problem is complete (C66), whose constraints are about one scenario at a time and whose costs are averages, so
    is the problem of each of its scenarios: it can be built. *)
Theorem C80_scenarios_built :
  forall s o, good_problem o -> ready_problem o -> constraints_by_scenario o -> averaged_costs o -> (0 <= s < o_scenarios o)%Z ->
  good_problem (settings_of s o) /\ ready_problem (settings_of s o) /\ exists st, build_problem (settings_of s o) = Ok st.
Proof. intros s o H1 H2 H3 H4 H5. destruct (settings_of_ready s o H1 H2 H3 H4 H5) as [H6 H7]. split; [exact H6|]. split; [exact H7|now apply problem_built]. Qed.
Print Assumptions C80_scenarios_built.

(** So a complete problem is the problems of its scenarios put together.  Partial as [C80_together_partial]. *)
Theorem C80_complete_partial :
  forall o, good_problem o -> ready_problem o -> constraints_by_scenario o -> averaged_costs o -> scenario_bounds_follow o ->
  exists st sts f, build_problem o = Ok st /\ (forall s, (0 <= s < o_scenarios o)%Z -> build_problem (settings_of s o) = Ok (sts s)) /\
  put_together o st (fun s => settings_of s o) sts f.
Proof. exact ready_together. Qed.
Print Assumptions C80_complete_partial.

(** When moreover data have limited precision and every variable depends on the scenario, its optimal solutions are exactly the
    optimal solutions of all its scenarios. *)
Theorem C87_complete :
  forall o, good_problem o -> ready_problem o -> precise_problem o -> constraints_by_scenario o -> averaged_costs o -> scenario_variables o ->
  exists st sts f, build_problem o = Ok st /\ (forall s, (0 <= s < o_scenarios o)%Z -> build_problem (settings_of s o) = Ok (sts s)) /\
  put_together o st (fun s => settings_of s o) sts f /\
  forall y, optimal y (st_solver st) <-> forall s, (0 <= s < o_scenarios o)%Z -> optimal (fun i => y (f s i)) (st_solver (sts s)).
Proof. exact ready_separate. Qed.
Print Assumptions C87_complete.

(** ** The generator and load of C80, and the generator of C87 *)
Lemma exq_has_values id e :
  (forall t s, (t = 0 \/ t = 1)%Z -> (s = 0 \/ s = 1)%Z ->
     den (component_world exq_settings (fun _ _ _ _ => Z2Qc 0) id) e t s <> None) -> has_values exq_settings id e.
Proof. intros H t s Ht Hs. exists (fun _ _ _ _ => Z2Qc 0). split; [split; auto|]. apply H; apply small2; assumption. Qed.
Lemma exq_ready : ready_problem exq_settings.
Proof.
  pose (g := {| co_model := exq_generator; co_id := "G" |}).
  assert (Hp : chosen_variable exq_settings "G" "p") by a_variable g (exp_variable "p" time_and_scenario None OPERATIONAL).
  assert (Hd : has_parameter (fun _ => True) exq_settings "G" "demand") by a_parameter g (exp_parameter "demand" exq_scenario_only).
  split; [|split; [|split; [|split]]].
  - intros c p [<-|[]] [<-|[]]. eexists. split; [reflexivity|]. split; cbn; auto.
  - intros k f d [].
  - intros c v [<-|[]] [<-|[]]. split; [|split].
    + intros e [= <-]. left. exists (nz 0). split; [reflexivity|discriminate].
    + intros e [=].
    + intros t s _. exists (nz 0), PInf. split; [reflexivity|]. split; [reflexivity|exact I].
  - intros c k [<-|[]] [<-|[]]. split; [|split; [right|left; reflexivity]].
    + split; [cbn; tauto|]. split; [exact Hp|]. split; [exact I|]. apply exq_has_values; intros t s [->| ->] [->| ->]; vm_compute; discriminate.
    + split; [split; [solve_nodes|exact Hd]|]. apply exq_has_values; intros t s [->| ->] [->| ->]; vm_compute; discriminate.
  - intros c e Hin. vm_compute in Hin. destruct Hin as [[= <- <-]|[]]. split; [|split; reflexivity]. split; [cbn; tauto|]. split; [cbn; auto|]. split; [cbn; auto|].
    apply exq_has_values; intros t s [->| ->] [->| ->]; vm_compute; discriminate.
Qed.
Example C87_complete_example :
  (good_problem exp_settings /\ ready_problem exp_settings /\ constraints_by_scenario exp_settings /\ averaged_costs exp_settings /\ scenario_bounds_follow exp_settings) /\
  good_problem exq_settings /\ ready_problem exq_settings /\ precise_problem exq_settings /\ constraints_by_scenario exq_settings /\ averaged_costs exq_settings /\
  scenario_variables exq_settings /\ o_scenarios exq_settings = 2%Z.
Proof.
  split; [split; [exact exp_good|]; split; [exact exp_ready|]; split; [exact exs_constraints|]; split; [exact exs_costs|exact exs_bounds]|].
  split; [apply exq_good; try reflexivity; cbn; lia|]. split; [exact exq_ready|]. split.
  - split; [|split].
    + intros c k [<-|[]] [<-|[]]. split; [|split; intros _; reflexivity]. exists 1%Z. split; [split; [lia|discriminate]|]. exact I.
    + apply exq_precise_costs; [reflexivity|reflexivity|now exists 1%Z].
    + intros c v [<-|[]] [<-|[]]. split; intros e [= <-]. left. eexists. split; [reflexivity|discriminate].
  - split; [intros c k [<-|[]] [<-|[]]; unfold no_scenario_operator; solve_nodes|]. split; [exact exq_costs|]. split; [|reflexivity].
    intros c v [<-|[]] [<-|[]]. reflexivity.
Qed.
