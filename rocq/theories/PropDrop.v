(** C93: leaving out constraints. *)
From Coq Require Import Lia.
From Verif Require Import Base BaseFacts Expr Visitors Expansion LinearExpr Linearize Model Study Strategy Optim
  SpecExpr SpecSyntax SpecExpansion SpecLinear SpecModel SpecOptim SpecReady SpecOrder ExampleProblem SpecScenarios SpecPrecise SpecSeparate SpecParts SpecSame SpecReorder SpecDrop
  ScenarioFacts ScenarioCost PreciseFacts ScenarioExact ScenarioReady DropFacts DropReady OptimReady PropScenarios PropPrecise PropReady PropSeparate PropScenariosReady.
Local Open Scope string_scope.
Local Open Scope list_scope.

(** Decisions are a solution of a problem just when they are one of the problem whose models lack some constraints, and satisfy
    these constraints at every timestep and in every scenario; they cost the same in both. *)
Theorem C93_solutions :
  forall keep o, complete_problem o ->
  exists st st', build_problem o = Ok st /\ build_problem (dropping keep o) = Ok st' /\
  forall x y y', admissible_decisions o x -> represents o st y x -> represents (dropping keep o) st' y' x ->
    (solves y (st_solver st) <-> solves y' (st_solver st') /\ dropped_hold keep o x) /\ objective_value y (st_solver st) = objective_value y' (st_solver st').
Proof. intros keep o C. destruct (drop_together keep o C (dropped_complete keep o C)) as (st & st' & B & B' & H & _). exists st, st'. auto. Qed.
Print Assumptions C93_solutions.

(** So a constraint more never lowers the optimal cost. *)
Theorem C93_cost :
  forall keep o, complete_problem o ->
  exists st st', build_problem o = Ok st /\ build_problem (dropping keep o) = Ok st' /\
  forall v v', least_cost (st_solver st) v -> least_cost (st_solver st') v' -> (v' <= v)%Qc.
Proof. intros keep o C. destruct (drop_together keep o C (dropped_complete keep o C)) as (st & st' & B & B' & _ & H & _). exists st, st'. auto. Qed.
Print Assumptions C93_cost.

(** And constraints that an optimal solution found without them satisfies do not change it. *)
Theorem C93_optimum :
  forall keep o, complete_problem o ->
  exists st st', build_problem o = Ok st /\ build_problem (dropping keep o) = Ok st' /\
  forall x y y', admissible_decisions o x -> represents o st y x -> represents (dropping keep o) st' y' x ->
    optimal y' (st_solver st') -> dropped_hold keep o x -> optimal y (st_solver st).
Proof. intros keep o C. destruct (drop_together keep o C (dropped_complete keep o C)) as (st & st' & B & B' & _ & _ & H). exists st, st'. auto. Qed.
Print Assumptions C93_optimum.

(** ** The generator of C87 without the duty to serve the demand *)
Definition exy_keep (m : string) (k : constraint) : bool := negb (String.eqb (c_name k) "serve").
Definition exy_settings : settings := dropping exy_keep exq_settings.
Lemma exy_good : good_problem exy_settings.
Proof.
  split; [split; [discriminate|reflexivity]|]. split; [cbn; lia|]. split; [discriminate|].
  split; [exact (bn_component {| co_model := drop_model exy_keep exq_generator; co_id := "G" |} (new_network (n_id (o_network exq_settings))) (bn_new _))|]. split; [unfold distinct_ids; vm_compute; solve_nodup|]. split; [|split; [|split]].
  - intros c [<-|[]]. split; [|split; [|split]].
    + split; [solve_named|]. split; [solve_named|]. split; [solve_named|]. split; [solve_named|]. split; solve_named.
    + intros k [].
    + intros e [[= <-]|[=]]. split; [|split; [|split]]; solve_nodes.
    + intros f d [].
  - intros k [].
  - now apply database_finite.
  - intros c p [].
Qed.
Lemma exy_has_values id e :
  (forall t s, (t = 0 \/ t = 1)%Z -> (s = 0 \/ s = 1)%Z ->
     den (component_world exy_settings (fun _ _ _ _ => Z2Qc 0) id) e t s <> None) -> has_values exy_settings id e.
Proof. intros H t s Ht Hs. exists (fun _ _ _ _ => Z2Qc 0). split; [split; auto|]. apply H; apply small2; assumption. Qed.
Lemma exy_ready : ready_problem exy_settings.
Proof.
  pose (g := {| co_model := drop_model exy_keep exq_generator; co_id := "G" |}).
  assert (Hp : chosen_variable exy_settings "G" "p") by a_variable g (exp_variable "p" time_and_scenario None OPERATIONAL).
  split; [|split; [|split; [|split]]].
  - intros c p [<-|[]] [<-|[]]. eexists. split; [reflexivity|]. split; cbn; auto.
  - intros k f d [].
  - intros c v [<-|[]] [<-|[]]. split; [|split].
    + intros e [= <-]. left. exists (nz 0). split; [reflexivity|discriminate].
    + intros e [=].
    + intros t s _. exists (nz 0), PInf. split; [reflexivity|]. split; [reflexivity|exact I].
  - intros c k [<-|[]] [].
  - intros c e Hin. vm_compute in Hin. destruct Hin as [[= <- <-]|[]]. split; [|split; reflexivity]. split; [cbn; tauto|]. split; [cbn; auto|]. split; [cbn; auto|].
    apply exy_has_values; intros t s [->| ->] [->| ->]; vm_compute; discriminate.
Qed.
Lemma exy_precise_costs : precise_costs exy_settings.
Proof.
  intros ce Hce. vm_compute in Hce. destruct Hce as [<-|[]]. exists 2%Z, 1%Z, 1%Qc.
  split; [lia|]. split; [lia|]. split; [discriminate|]. split; [|split; [reflexivity|apply multiple_1]].
  exists 1%Z. split; [lia|]. split; [now exists 1%Z|]. exists 1%Z, 1%Z. split; [lia|]. split; [lia|]. split; [exists 1%Z; reflexivity|].
  split; [|exact I]. eexists. split; [reflexivity|exact (one_multiple 1 3)].
Qed.
Example C93_example :
  complete_problem exq_settings /\ complete_problem exy_settings /\
  List.length (s_rows (st_solver (built_of exq_settings))) = 4%nat /\ s_rows (st_solver (built_of exy_settings)) = [] /\
  objective_value (fun i => Z2Qc (nth i [100; 50; 100; 50]%Z 0%Z)) (st_solver (built_of exq_settings)) = Some (Z2Qc 450) /\
  objective_value (fun _ => Z2Qc 0) (st_solver (built_of exy_settings)) = Some (Z2Qc 0).
Proof.
  split; [split; [apply exq_good; try reflexivity; cbn; lia|]; split; [exact exq_ready|]; split; [|split];
    [ intros c k [<-|[]] [<-|[]]; (split; [|split; intros _; reflexivity]); exists 1%Z; (split; [split; [lia|discriminate]|]); exact I
    | apply exq_precise_costs; [reflexivity|reflexivity|now exists 1%Z]
    | intros c v [<-|[]] [<-|[]]; split; intros e [= <-]; left; eexists; (split; [reflexivity|discriminate]) ]|].
  split; [split; [exact exy_good|]; split; [exact exy_ready|]; split; [|split];
    [ intros c k [<-|[]] []
    | exact exy_precise_costs
    | intros c v [<-|[]] [<-|[]]; split; intros e [= <-]; left; eexists; (split; [reflexivity|discriminate]) ]|].
  split; [reflexivity|]. split; [reflexivity|]. split; vm_compute; do 2 f_equal; try (apply Qc_is_canon; reflexivity).
Qed.
