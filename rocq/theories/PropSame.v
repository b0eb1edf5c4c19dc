(** C90: scenarios with the same data change nothing. *)
From Coq Require Import Lia.
From Verif Require Import Base BaseFacts Expr Visitors Expansion LinearExpr Linearize Model Study Strategy Optim
  SpecExpr SpecSyntax SpecExpansion SpecLinear SpecModel SpecOptim SpecReady SpecOrder ExampleProblem SpecScenarios SpecPrecise SpecSeparate SpecSame
  ScenarioFacts ScenarioCost PreciseFacts ScenarioExact ScenarioReady ScenarioSame OptimReady PropScenarios PropPrecise PropReady PropSeparate PropScenariosReady.
Local Open Scope string_scope.
Local Open Scope list_scope.

(** When all scenarios of a complete problem have the same data, its cost is least at the cost at which the problem of any
    one of its scenarios is least, and one of them has a best solution just when the other has. *)
Theorem C90_least_cost :
  forall o, good_problem o -> ready_problem o -> precise_problem o -> constraints_by_scenario o -> averaged_costs o -> same_scenarios o ->
  exists st, build_problem o = Ok st /\ forall s, (0 <= s < o_scenarios o)%Z ->
  exists st1, build_problem (settings_of s o) = Ok st1 /\ forall v, least_cost (st_solver st) v <-> least_cost (st_solver st1) v.
Proof.
  intros o H1 H2 H3 H4 H5 H6. destruct (same_together o H1 H2 H3 H4 H5 H6) as (st & st1 & B & B1 & _ & _ & H). exists st. split; [exact B|].
  intros s Hs. exists st1. split; [now apply B1|exact H].
Qed.
Print Assumptions C90_least_cost.

(** Every solution for one scenario can be used in all of them, at the same cost; and of every solution for all scenarios
    the decisions of some scenario are a solution for one that costs no more. *)
Theorem C90_solutions :
  forall o, good_problem o -> ready_problem o -> precise_problem o -> constraints_by_scenario o -> averaged_costs o -> same_scenarios o ->
  exists st, build_problem o = Ok st /\ forall s, (0 <= s < o_scenarios o)%Z ->
  exists st1, build_problem (settings_of s o) = Ok st1 /\
  (forall y1, solves y1 (st_solver st1) -> exists y, solves y (st_solver st) /\ objective_value y (st_solver st) = objective_value y1 (st_solver st1)) /\
  (forall y v, solves y (st_solver st) -> objective_value y (st_solver st) = Some v ->
     exists y1 v1, solves y1 (st_solver st1) /\ objective_value y1 (st_solver st1) = Some v1 /\ (v1 <= v)%Qc).
Proof.
  intros o H1 H2 H3 H4 H5 H6. destruct (same_together o H1 H2 H3 H4 H5 H6) as (st & st1 & B & B1 & G1 & G2 & _). exists st. split; [exact B|].
  intros s Hs. exists st1. split; [now apply B1|]. split; [exact G1|exact G2].
Qed.
Print Assumptions C90_solutions.

(** The problems of the scenarios are one and the same. *)
Theorem C90_one_problem :
  forall o s st0 st1, (1 <= o_scenarios o)%Z -> same_scenarios o -> (0 <= s < o_scenarios o)%Z ->
  build_problem (settings_of 0 o) = Ok st0 -> build_problem (settings_of s o) = Ok st1 -> st1 = st0.
Proof. exact same_built. Qed.
Print Assumptions C90_one_problem.

(** ** The generator of C87, its demand being 100 in both scenarios *)
Definition exz_settings : settings :=
  {| o_network := o_network exq_settings; o_database := [(("G", "demand"), ScenarioSeriesData [(0%Z, nz 100); (1%Z, nz 100)] None)];
     o_block := o_block exq_settings; o_scenarios := 2; o_cycle := true; o_selection := MergedProblem;
     o_risk := UniformRisk; o_tree_node := ""; o_full_names := true |}.
Lemma exz_has_values id e :
  (forall t s, (t = 0 \/ t = 1)%Z -> (s = 0 \/ s = 1)%Z ->
     den (component_world exz_settings (fun _ _ _ _ => Z2Qc 0) id) e t s <> None) -> has_values exz_settings id e.
Proof. intros H t s Ht Hs. exists (fun _ _ _ _ => Z2Qc 0). split; [split; auto|]. apply H; apply small2; assumption. Qed.
Lemma exz_ready : ready_problem exz_settings.
Proof.
  pose (g := {| co_model := exq_generator; co_id := "G" |}).
  assert (Hp : chosen_variable exz_settings "G" "p") by a_variable g (exp_variable "p" time_and_scenario None OPERATIONAL).
  assert (Hd : has_parameter (fun _ => True) exz_settings "G" "demand") by a_parameter g (exp_parameter "demand" exq_scenario_only).
  split; [|split; [|split; [|split]]].
  - intros c p [<-|[]] [<-|[]]. eexists. split; [reflexivity|]. split; cbn; auto.
  - intros k f d [].
  - intros c v [<-|[]] [<-|[]]. split; [|split].
    + intros e [= <-]. left. exists (nz 0). split; [reflexivity|discriminate].
    + intros e [=].
    + intros t s _. exists (nz 0), PInf. split; [reflexivity|]. split; [reflexivity|exact I].
  - intros c k [<-|[]] [<-|[]]. split; [|split; [right|left; reflexivity]].
    + split; [cbn; tauto|]. split; [exact Hp|]. split; [exact I|]. apply exz_has_values; intros t s [->| ->] [->| ->]; vm_compute; discriminate.
    + split; [split; [solve_nodes|exact Hd]|]. apply exz_has_values; intros t s [->| ->] [->| ->]; vm_compute; discriminate.
  - intros c e Hin. vm_compute in Hin. destruct Hin as [[= <- <-]|[]]. split; [|split; reflexivity]. split; [cbn; tauto|]. split; [cbn; auto|]. split; [cbn; auto|].
    apply exz_has_values; intros t s [->| ->] [->| ->]; vm_compute; discriminate.
Qed.
Example C90_example :
  good_problem exz_settings /\ ready_problem exz_settings /\ precise_problem exz_settings /\ constraints_by_scenario exz_settings /\
  averaged_costs exz_settings /\ same_scenarios exz_settings /\ ~ same_scenarios exq_settings /\ o_scenarios exz_settings = 2%Z /\
  objective_value (fun _ => Z2Qc 100) (st_solver (built_of exz_settings)) = Some (Z2Qc 600) /\
  objective_value (fun _ => Z2Qc 100) (st_solver (built_of (settings_of 0 exz_settings))) = Some (Z2Qc 600) /\
  List.length (s_vars (st_solver (built_of exz_settings))) = 4%nat /\
  List.length (s_vars (st_solver (built_of (settings_of 0 exz_settings)))) = 2%nat.
Proof.
  split; [apply exq_good; try reflexivity; cbn; lia|]. split; [exact exz_ready|]. split.
  - split; [|split].
    + intros c k [<-|[]] [<-|[]]. split; [|split; intros _; reflexivity]. exists 1%Z. split; [split; [lia|discriminate]|]. exact I.
    + apply exq_precise_costs; [reflexivity|reflexivity|now exists 1%Z].
    + intros c v [<-|[]] [<-|[]]. split; intros e [= <-]. left. eexists. split; [reflexivity|discriminate].
  - split; [intros c k [<-|[]] [<-|[]]; unfold no_scenario_operator; solve_nodes|]. split; [exact exq_costs|]. split; [|split].
    + intros c n d s t Hd Hs. assert (s = 0 \/ s = 1)%Z as [-> | ->] by (cbn in Hs; lia); [reflexivity|].
      unfold get_data in Hd. cbn [exz_settings o_database dget] in Hd. destruct (pfi_eqb _ _); [|discriminate]. injection Hd as <-. reflexivity.
    + intros H. specialize (H "G" "demand" _ 1%Z None eq_refl ltac:(cbn; lia)). vm_compute in H. discriminate.
    + repeat (split; [first [reflexivity|vm_compute; do 2 f_equal; apply Qc_is_canon; reflexivity]|]). reflexivity.
Qed.
