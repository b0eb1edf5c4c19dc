(** C94: the weight given to a problem. *)
From Coq Require Import Lia.
From Verif Require Import Base BaseFacts Expr Visitors Expansion LinearExpr Linearize Model Study Strategy Optim
  SpecExpr SpecSyntax SpecExpansion SpecLinear SpecModel SpecOptim SpecReady SpecOrder ExampleProblem SpecScenarios SpecPrecise SpecSeparate SpecSame SpecReorder SpecRisk
  ScenarioFacts ScenarioCost PreciseFacts ScenarioExact ScenarioReady RiskFacts OptimReady PropScenarios PropPrecise PropReady PropSeparate PropScenariosReady.
Local Open Scope string_scope.
Local Open Scope list_scope.

(** Let a problem be weighted by the probability of a node of a decision tree instead of another one.  Decisions are a solution
    with one weight just when they are with the other, their cost changes in the proportion of the weights, and they are optimal
    with one just when they are with the other. *)
Theorem C94_weights :
  forall o r p p', complete_problem o -> risk_factor (o_risk o) = Some p -> risk_factor r = Some p' -> (0 < p)%Qc -> (0 < p')%Qc ->
  (forall ce, In ce (contributions o) -> precise_contribution (with_risk o r) ce) ->
  exists st st', build_problem o = Ok st /\ build_problem (with_risk o r) = Ok st' /\
  forall x y y', admissible_decisions o x -> represents o st y x -> represents (with_risk o r) st' y' x ->
    (solves y (st_solver st) <-> solves y' (st_solver st')) /\
    (exists w, objective_value y (st_solver st) = Some (p * w)%Qc /\ objective_value y' (st_solver st') = Some (p' * w)%Qc) /\
    (optimal y (st_solver st) <-> optimal y' (st_solver st')).
Proof. exact risk_together. Qed.
Print Assumptions C94_weights.

(** ** The generator of C87, alone and at a node of probability 1/4 *)
Definition quarter : Qc := Q2Qc (1 # 4).
Example C94_example :
  complete_problem exq_settings /\ risk_factor (o_risk exq_settings) = Some 1%Qc /\ risk_factor (ExpectedValue (Fin quarter)) = Some quarter /\
  (0 < 1)%Qc /\ (0 < quarter)%Qc /\
  (forall ce, In ce (contributions exq_settings) -> precise_contribution (with_risk exq_settings (ExpectedValue (Fin quarter))) ce) /\
  objective_value (fun i => Z2Qc (nth i [100; 50; 100; 50]%Z 0%Z)) (st_solver (built_of exq_settings)) = Some (Z2Qc 450) /\
  objective_value (fun i => Z2Qc (nth i [100; 50; 100; 50]%Z 0%Z)) (st_solver (built_of (with_risk exq_settings (ExpectedValue (Fin quarter))))) = Some (quarter * Z2Qc 450)%Qc.
Proof.
  split; [split; [apply exq_good; try reflexivity; cbn; lia|]; split; [exact exq_ready|]; split; [|split];
    [ intros c k [<-|[]] [<-|[]]; (split; [|split; intros _; reflexivity]); exists 1%Z; (split; [split; [lia|discriminate]|]); exact I
    | apply exq_precise_costs; [reflexivity|reflexivity|now exists 1%Z]
    | intros c v [<-|[]] [<-|[]]; split; intros e [= <-]; left; eexists; (split; [reflexivity|discriminate]) ]|].
  split; [reflexivity|]. split; [reflexivity|]. split; [reflexivity|]. split; [reflexivity|]. split.
  - intros ce Hce. vm_compute in Hce. destruct Hce as [<-|[]]. exists 2%Z, 4%Z, quarter.
    split; [lia|]. split; [lia|]. split; [discriminate|]. split; [|split; [reflexivity|exists 1%Z; apply Qc_is_canon; reflexivity]].
    exists 1%Z. split; [lia|]. split; [now exists 1%Z|]. exists 1%Z, 1%Z. split; [lia|]. split; [lia|]. split; [exists 1%Z; reflexivity|].
    split; [|exact I]. eexists. split; [reflexivity|exact (one_multiple 1 3)].
  - split; vm_compute; f_equal; apply Qc_is_canon; reflexivity.
Qed.
