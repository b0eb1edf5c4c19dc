(** C92: scenarios that are repeated or left out. *)
From Coq Require Import Lia.
From Verif Require Import Base BaseFacts Expr Visitors Expansion LinearExpr Linearize Model Study Strategy Optim
  SpecExpr SpecSyntax SpecExpansion SpecLinear SpecModel SpecOptim SpecReady SpecOrder ExampleProblem SpecScenarios SpecPrecise SpecSeparate SpecBlock SpecSame SpecReorder SpecRepeat
  ScenarioFacts ScenarioCost PreciseFacts ScenarioExact ScenarioReady ScenarioRepeat OptimReady PropScenarios PropPrecise PropReady PropSeparate PropScenariosReady PropSame.
Local Open Scope string_scope.
Local Open Scope list_scope.

(** Let data give in each of [S'] scenarios [s] what the data of a problem give in its scenario [p s].  Decisions that are a
    solution of the problem, taken in [s] as in [p s], are one for these data, and conversely if no scenario is left out; their cost
    is the average of the costs in the scenarios [p s], each counted as often as it occurs. *)
Theorem C92_chosen :
  forall o S' p db', complete_problem o -> complete_problem (with_scenarios o S' db') -> constraints_by_scenario o -> averaged_costs o ->
  chooses o S' p -> chosen_data o S' p db' ->
  exists st st' sts f, build_problem o = Ok st /\ build_problem (with_scenarios o S' db') = Ok st' /\
  (forall s, (0 <= s < o_scenarios o)%Z -> build_problem (settings_of s o) = Ok (sts s)) /\ put_together o st (fun s => settings_of s o) sts f /\
  forall x y y', admissible_decisions o x -> represents o st y x -> represents (with_scenarios o S' db') st' y' (reordered_decisions p x) ->
    (solves y (st_solver st) -> solves y' (st_solver st')) /\ (chooses_all o S' p -> solves y' (st_solver st') -> solves y (st_solver st)) /\
    exists v, objective_value y' (st_solver st') = Some v /\
      omean S' (map (fun s => objective_value (fun i => y (f (p s) i)) (st_solver (sts (p s)))) (zrange 0 S')) = Some v.
Proof. exact repeated_together. Qed.
Print Assumptions C92_chosen.

(** The scenarios being repeated [k] times, one series after the other, the least cost stays the same. *)
Theorem C92_even :
  forall o k db', let S' := (k * o_scenarios o)%Z in
  complete_problem o -> complete_problem (with_scenarios o S' db') -> constraints_by_scenario o -> averaged_costs o -> (1 <= k)%Z ->
  chosen_data o S' (fun s => s mod o_scenarios o)%Z db' ->
  (forall c n d', get_data db' c n = Ok d' -> exists d, get_data (o_database o) c n = Ok d) ->
  exists st st', build_problem o = Ok st /\ build_problem (with_scenarios o S' db') = Ok st' /\
  forall v, least_cost (st_solver st) v <-> least_cost (st_solver st') v.
Proof. exact even_together. Qed.
Print Assumptions C92_even.

(** ** The generator of C87 with its two scenarios, with these two scenarios twice, and with the first one twice and not the second *)
Definition exv_database : database := [(("G", "demand"), ScenarioSeriesData [(0%Z, nz 100); (1%Z, nz 50); (2%Z, nz 100); (3%Z, nz 50)] None)].
Definition exv_settings : settings := with_scenarios exq_settings 4 exv_database.
Lemma exv_has_values id e :
  (forall t s, (t = 0 \/ t = 1)%Z -> (s = 0 \/ s = 1 \/ s = 2 \/ s = 3)%Z ->
     den (component_world exv_settings (fun _ _ _ _ => Z2Qc 0) id) e t s <> None) -> has_values exv_settings id e.
Proof. intros H t s Ht Hs. exists (fun _ _ _ _ => Z2Qc 0). split; [split; auto|]. apply H; [now apply small2|]. cbn in Hs. lia. Qed.
Lemma exv_ready : ready_problem exv_settings.
Proof.
  pose (g := {| co_model := exq_generator; co_id := "G" |}).
  assert (Hp : chosen_variable exv_settings "G" "p") by a_variable g (exp_variable "p" time_and_scenario None OPERATIONAL).
  assert (Hd : has_parameter (fun _ => True) exv_settings "G" "demand") by a_parameter g (exp_parameter "demand" exq_scenario_only).
  split; [|split; [|split; [|split]]].
  - intros c p [<-|[]] [<-|[]]. eexists. split; [reflexivity|]. split; cbn; auto.
  - intros k f d [].
  - intros c v [<-|[]] [<-|[]]. split; [|split].
    + intros e [= <-]. left. exists (nz 0). split; [reflexivity|discriminate].
    + intros e [=].
    + intros t s _. exists (nz 0), PInf. split; [reflexivity|]. split; [reflexivity|exact I].
  - intros c k [<-|[]] [<-|[]]. split; [|split; [right|left; reflexivity]].
    + split; [cbn; tauto|]. split; [exact Hp|]. split; [exact I|]. apply exv_has_values; intros t s [->| ->] [->|[->|[->| ->]]]; vm_compute; discriminate.
    + split; [split; [solve_nodes|exact Hd]|]. apply exv_has_values; intros t s [->| ->] [->|[->|[->| ->]]]; vm_compute; discriminate.
  - intros c e Hin. vm_compute in Hin. destruct Hin as [[= <- <-]|[]]. split; [|split; reflexivity]. split; [cbn; tauto|]. split; [cbn; auto|]. split; [cbn; auto|].
    apply exv_has_values; intros t s [->| ->] [->|[->|[->| ->]]]; vm_compute; discriminate.
Qed.
Lemma exv_precise_costs : precise_costs exv_settings.
Proof.
  intros ce Hce. vm_compute in Hce. destruct Hce as [<-|[]]. exists 4%Z, 1%Z, 1%Qc.
  split; [lia|]. split; [lia|]. split; [discriminate|]. split; [|split; [reflexivity|apply multiple_1]].
  exists 1%Z. split; [lia|]. split; [now exists 1%Z|]. exists 1%Z, 1%Z. split; [lia|]. split; [lia|]. split; [exists 1%Z; reflexivity|].
  split; [|exact I]. eexists. split; [reflexivity|exact (one_multiple 1 3)].
Qed.
Example C92_example :
  complete_problem exq_settings /\ complete_problem exv_settings /\ complete_problem (with_scenarios exq_settings 2 (o_database exz_settings)) /\
  constraints_by_scenario exq_settings /\ averaged_costs exq_settings /\
  chosen_data exq_settings (2 * o_scenarios exq_settings) (fun s => s mod o_scenarios exq_settings)%Z exv_database /\
  (forall c n d', get_data exv_database c n = Ok d' -> exists d, get_data (o_database exq_settings) c n = Ok d) /\
  chooses exq_settings 2 (fun _ => 0%Z) /\ chosen_data exq_settings 2 (fun _ => 0%Z) (o_database exz_settings) /\
  objective_value (fun i => Z2Qc (nth i [100; 50; 100; 50]%Z 0%Z)) (st_solver (built_of exq_settings)) = Some (Z2Qc 450) /\
  objective_value (fun i => Z2Qc (nth i [100; 50; 100; 50; 100; 50; 100; 50]%Z 0%Z)) (st_solver (built_of exv_settings)) = Some (Z2Qc 450).
Proof.
  split; [split; [apply exq_good; try reflexivity; cbn; lia|]; split; [exact exq_ready|]; split; [|split];
    [ intros c k [<-|[]] [<-|[]]; (split; [|split; intros _; reflexivity]); exists 1%Z; (split; [split; [lia|discriminate]|]); exact I
    | apply exq_precise_costs; [reflexivity|reflexivity|now exists 1%Z]
    | intros c v [<-|[]] [<-|[]]; split; intros e [= <-]; left; eexists; (split; [reflexivity|discriminate]) ]|].
  split; [split; [apply exq_good; try reflexivity; cbn; lia|]; split; [exact exv_ready|]; split; [|split];
    [ intros c k [<-|[]] [<-|[]]; (split; [|split; intros _; reflexivity]); exists 1%Z; (split; [split; [lia|discriminate]|]); exact I
    | exact exv_precise_costs
    | intros c v [<-|[]] [<-|[]]; split; intros e [= <-]; left; eexists; (split; [reflexivity|discriminate]) ]|].
  split; [split; [apply exq_good; try reflexivity; cbn; lia|]; split; [exact exz_ready|]; split; [|split];
    [ intros c k [<-|[]] [<-|[]]; (split; [|split; intros _; reflexivity]); exists 1%Z; (split; [split; [lia|discriminate]|]); exact I
    | apply exq_precise_costs; [reflexivity|reflexivity|now exists 1%Z]
    | intros c v [<-|[]] [<-|[]]; split; intros e [= <-]; left; eexists; (split; [reflexivity|discriminate]) ]|].
  split; [intros c k [<-|[]] [<-|[]]; unfold no_scenario_operator; solve_nodes|]. split; [exact exq_costs|].
  change (2 * o_scenarios exq_settings)%Z with 4%Z. change (o_scenarios exq_settings) with 2%Z.
  split; [|split; [|split; [|split; [|split]]]].
  - intros c n d Hd. unfold get_data, exv_database in *. cbn [exq_settings lone_settings o_database dget] in *. destruct (pfi_eqb _ _); [|discriminate].
    injection Hd as <-. eexists. split; [reflexivity|]. intros t. split; [reflexivity|]. intros s Hs.
    assert (s = 0 \/ s = 1 \/ s = 2 \/ s = 3)%Z as [-> | [-> | [-> | ->]]] by lia; reflexivity.
  - intros c n d'. unfold get_data, exv_database. cbn [exq_settings lone_settings o_database dget]. destruct (pfi_eqb _ _); [|discriminate]. eexists; reflexivity.
  - intros s Hs. cbn. lia.
  - intros c n d Hd. unfold get_data in *. cbn [exq_settings exz_settings lone_settings o_database dget] in *. destruct (pfi_eqb _ _); [|discriminate].
    injection Hd as <-. eexists. split; [reflexivity|]. intros t. split; [reflexivity|]. intros s Hs.
    assert (s = 0 \/ s = 1)%Z as [-> | ->] by lia; reflexivity.
  - vm_compute; do 2 f_equal; try (apply Qc_is_canon; reflexivity).
  - vm_compute; do 2 f_equal; try (apply Qc_is_canon; reflexivity).
Qed.
