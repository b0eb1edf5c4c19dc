(** C91: the order of the scenarios does not matter. *)
From Coq Require Import Lia.
From Verif Require Import Base BaseFacts Expr Visitors Expansion LinearExpr Linearize Model Study Strategy Optim
  SpecExpr SpecSyntax SpecExpansion SpecLinear SpecModel SpecOptim SpecReady SpecOrder ExampleProblem SpecScenarios SpecPrecise SpecSeparate SpecBlock SpecSame SpecReorder
  ScenarioFacts ScenarioCost PreciseFacts ScenarioExact ScenarioReady ScenarioReorder OptimReady PropScenarios PropPrecise PropReady PropSeparate PropScenariosReady.
Local Open Scope string_scope.
Local Open Scope list_scope.

(** Let the data of a problem give in scenario [p s] what other data give in scenario [s].  Then decisions are a solution for
    the first data just when the same decisions, in the new order, are one for the other data, at the same cost. *)
Theorem C91_decisions :
  forall o p q db', complete_problem o -> complete_problem (with_block o (o_block o) db') -> constraints_by_scenario o -> averaged_costs o ->
  reordering (o_scenarios o) p q -> reordered_data o p db' ->
  exists st st', build_problem o = Ok st /\ build_problem (with_block o (o_block o) db') = Ok st' /\
  forall x y y', admissible_decisions o x -> represents o st y x -> represents (with_block o (o_block o) db') st' y' (reordered_decisions p x) ->
    (solves y (st_solver st) <-> solves y' (st_solver st')) /\ objective_value y (st_solver st) = objective_value y' (st_solver st').
Proof. exact reordered_together. Qed.
Print Assumptions C91_decisions.

(** So the least cost is the same. *)
Theorem C91_least_cost :
  forall o p q db', complete_problem o -> complete_problem (with_block o (o_block o) db') -> constraints_by_scenario o -> averaged_costs o ->
  reordering (o_scenarios o) p q -> reordered_data o p db' ->
  exists st st', build_problem o = Ok st /\ build_problem (with_block o (o_block o) db') = Ok st' /\
  forall v, least_cost (st_solver st) v <-> least_cost (st_solver st') v.
Proof. exact reordered_least. Qed.
Print Assumptions C91_least_cost.

(** ** The generator of C87 with its two scenarios, and with the two exchanged *)
Definition exw_database : database := [(("G", "demand"), ScenarioSeriesData [(0%Z, nz 50); (1%Z, nz 100)] None)].
Definition exw_settings : settings := with_block exq_settings (o_block exq_settings) exw_database.
Definition exchanged (s : Z) : Z := (1 - s)%Z.
Lemma exw_has_values id e :
  (forall t s, (t = 0 \/ t = 1)%Z -> (s = 0 \/ s = 1)%Z ->
     den (component_world exw_settings (fun _ _ _ _ => Z2Qc 0) id) e t s <> None) -> has_values exw_settings id e.
Proof. intros H t s Ht Hs. exists (fun _ _ _ _ => Z2Qc 0). split; [split; auto|]. apply H; apply small2; assumption. Qed.
Lemma exw_ready : ready_problem exw_settings.
Proof.
  pose (g := {| co_model := exq_generator; co_id := "G" |}).
  assert (Hp : chosen_variable exw_settings "G" "p") by a_variable g (exp_variable "p" time_and_scenario None OPERATIONAL).
  assert (Hd : has_parameter (fun _ => True) exw_settings "G" "demand") by a_parameter g (exp_parameter "demand" exq_scenario_only).
  split; [|split; [|split; [|split]]].
  - intros c p [<-|[]] [<-|[]]. eexists. split; [reflexivity|]. split; cbn; auto.
  - intros k f d [].
  - intros c v [<-|[]] [<-|[]]. split; [|split].
    + intros e [= <-]. left. exists (nz 0). split; [reflexivity|discriminate].
    + intros e [=].
    + intros t s _. exists (nz 0), PInf. split; [reflexivity|]. split; [reflexivity|exact I].
  - intros c k [<-|[]] [<-|[]]. split; [|split; [right|left; reflexivity]].
    + split; [cbn; tauto|]. split; [exact Hp|]. split; [exact I|]. apply exw_has_values; intros t s [->| ->] [->| ->]; vm_compute; discriminate.
    + split; [split; [solve_nodes|exact Hd]|]. apply exw_has_values; intros t s [->| ->] [->| ->]; vm_compute; discriminate.
  - intros c e Hin. vm_compute in Hin. destruct Hin as [[= <- <-]|[]]. split; [|split; reflexivity]. split; [cbn; tauto|]. split; [cbn; auto|]. split; [cbn; auto|].
    apply exw_has_values; intros t s [->| ->] [->| ->]; vm_compute; discriminate.
Qed.
Example C91_example :
  complete_problem exq_settings /\ complete_problem exw_settings /\ constraints_by_scenario exq_settings /\ averaged_costs exq_settings /\
  reordering (o_scenarios exq_settings) exchanged exchanged /\ reordered_data exq_settings exchanged exw_database /\
  (forall p, reordered_data exq_settings p exw_database -> p 0%Z <> 0%Z) /\
  objective_value (fun i => Z2Qc (nth i [100; 50; 100; 50]%Z 0%Z)) (st_solver (built_of exq_settings)) = Some (Z2Qc 450) /\
  objective_value (fun i => Z2Qc (nth i [50; 100; 50; 100]%Z 0%Z)) (st_solver (built_of exw_settings)) = Some (Z2Qc 450).
Proof.
  split; [split; [apply exq_good; try reflexivity; cbn; lia|]; split; [exact exq_ready|]; split; [|split];
    [ intros c k [<-|[]] [<-|[]]; (split; [|split; intros _; reflexivity]); exists 1%Z; (split; [split; [lia|discriminate]|]); exact I
    | apply exq_precise_costs; [reflexivity|reflexivity|now exists 1%Z]
    | intros c v [<-|[]] [<-|[]]; split; intros e [= <-]; left; eexists; (split; [reflexivity|discriminate]) ]|].
  split; [split; [apply exq_good; try reflexivity; cbn; lia|]; split; [exact exw_ready|]; split; [|split];
    [ intros c k [<-|[]] [<-|[]]; (split; [|split; intros _; reflexivity]); exists 1%Z; (split; [split; [lia|discriminate]|]); exact I
    | apply exq_precise_costs; [reflexivity|reflexivity|now exists 1%Z]
    | intros c v [<-|[]] [<-|[]]; split; intros e [= <-]; left; eexists; (split; [reflexivity|discriminate]) ]|].
  split; [intros c k [<-|[]] [<-|[]]; unfold no_scenario_operator; solve_nodes|]. split; [exact exq_costs|].
  split; [change (o_scenarios exq_settings) with 2%Z; intros s Hs; unfold exchanged; lia|]. split; [split|split].
  - intros c n. unfold get_data, exw_database. cbn [exq_settings lone_settings o_database dget]. destruct (pfi_eqb _ _); split; intros [d Hd]; first [discriminate|eexists; reflexivity].
  - intros c n d d' Hd Hd' t. unfold get_data, exw_database in *. cbn [exq_settings lone_settings o_database dget] in *. destruct (pfi_eqb _ _); [|discriminate].
    injection Hd as <-. injection Hd' as <-. split; [reflexivity|]. intros s Hs. cbn in Hs. assert (s = 0 \/ s = 1)%Z as [-> | ->] by lia; reflexivity.
  - intros p [_ H] E. destruct (H "G" "demand" _ _ eq_refl eq_refl None) as [_ G]. specialize (G 0%Z ltac:(cbn; lia)). rewrite E in G. vm_compute in G. discriminate.
  - split; vm_compute; do 2 f_equal; apply Qc_is_canon; reflexivity.
Qed.
