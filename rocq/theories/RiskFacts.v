(** The weight given to a problem (see PropRisk.v). *)
From Coq Require Import Lia.
From Verif Require Import Base BaseFacts Expr Visitors LinearExpr Model Study Strategy Optim SpecExpr ExprFacts SpecSyntax SpecExpansion SpecLinear SpecModel
  SpecOptim SpecReady SpecScenarios SpecPrecise SpecSame SpecReorder SpecRisk OptimFacts OptimMeaning OptimProblem OptimReady OptimNames PreciseFacts PreciseProblem ScenarioExact DropFacts.

Lemma weighted_sum (f : component * expr -> option Qc) p l v : osum (map (fun ce => olift2 Qcmult (Some p) (f ce)) l) = Some v ->
  exists w, osum (map f l) = Some w /\ v = (p * w)%Qc.
Proof.
  revert v. induction l as [|a l IH]; intros v.
  - intros [= <-]. exists 0%Qc. split; [reflexivity|ring].
  - change (olift2 Qcplus (olift2 Qcmult (Some p) (f a)) (osum (map (fun ce => olift2 Qcmult (Some p) (f ce)) l)) = Some v ->
      exists w, olift2 Qcplus (f a) (osum (map f l)) = Some w /\ v = (p * w)%Qc).
    destruct (osum (map (fun ce => olift2 Qcmult (Some p) (f ce)) l)) as [v'|]; [|destruct (f a); discriminate].
    destruct (IH v' eq_refl) as (w & -> & ->). destruct (f a) as [u|]; [|discriminate]. intros [= <-]. exists (u + w)%Qc. split; [reflexivity|ring].
Qed.
Lemma weighted_cost o p x v : risk_factor (o_risk o) = Some p -> plan_cost o x = Some v ->
  exists w, osum (map (fun ce => den (component_world o x (co_id (fst ce))) (snd ce) 0 0) (contributions o)) = Some w /\ v = (p * w)%Qc.
Proof. intros E H. unfold plan_cost, contribution_value in H. rewrite E in H. now apply weighted_sum in H. Qed.
Section Risk.
  Context (o : settings) (r : risk) (st st' : state) (p p' : Qc).
  Hypothesis Hg : good_problem o.
  Hypothesis Hg' : good_problem (with_risk o r).
  Hypothesis Hst : build_problem o = Ok st.
  Hypothesis Hst' : build_problem (with_risk o r) = Ok st'.
  Hypothesis HP : precise_problem o.
  Hypothesis HP' : precise_problem (with_risk o r).
  Hypothesis Hp : risk_factor (o_risk o) = Some p.
  Hypothesis Hp' : risk_factor r = Some p'.
  Lemma risk_solution x y y' : admissible_decisions o x -> represents o st y x -> represents (with_risk o r) st' y' x ->
    (solves y (st_solver st) <-> solves y' (st_solver st')) /\
    exists w, objective_value y (st_solver st) = Some (p * w)%Qc /\ objective_value y' (st_solver st') = Some (p' * w)%Qc.
  Proof.
    intros Hx Hr Hr'. split.
    - rewrite (exact_plans o st Hg Hst HP x y Hx Hr), (exact_plans _ st' Hg' Hst' HP' x y' Hx Hr'). reflexivity.
    - destruct (exact_cost o st Hg Hst HP x y Hx Hr) as [E N]. destruct (exact_cost _ st' Hg' Hst' HP' x y' Hx Hr') as [E' N'].
      destruct (plan_cost o x) as [v|] eqn:V; [|contradiction]. destruct (plan_cost (with_risk o r) x) as [v'|] eqn:V'; [|contradiction].
      destruct (weighted_cost o p x v Hp V) as (w & W & ->). destruct (weighted_cost (with_risk o r) p' x v' Hp' V') as (w' & W' & ->).
      change (osum (map (fun ce => den (component_world o x (co_id (fst ce))) (snd ce) 0 0) (contributions o)) = Some w') in W'. rewrite W in W'. injection W' as <-. eauto.
  Qed.
  Hypothesis Pos : (0 < p)%Qc.
  Hypothesis Pos' : (0 < p')%Qc.
  Lemma times_le a b q : (0 < q)%Qc -> (q * a <= q * b)%Qc <-> (a <= b)%Qc.
  Proof.
    intros H. rewrite !(Qcmult_comm q). split; [now apply Qcmult_lt_0_le_reg_r|]. intros L. apply Qcmult_le_compat_r; [exact L|]. now apply Qclt_le_weak.
  Qed.
  Lemma risk_optimal x y y' : admissible_decisions o x -> represents o st y x -> represents (with_risk o r) st' y' x ->
    optimal y (st_solver st) <-> optimal y' (st_solver st').
  Proof.
    intros Hx Hr Hr'. destruct (risk_solution x y y' Hx Hr Hr') as (A & w & E & E'). split; intros (S1 & v & V & Best).
    - rewrite E in V. injection V as <-. split; [now apply A|]. exists (p' * w)%Qc. split; [exact E'|]. intros z u Hz Eu.
      destruct (decisions_of_values _ st' z Hg' Hst') as (x2 & Hx2 & Hr2). destruct (values_of o st x2 Hg Hst Hx2) as [z' Hr2'].
      destruct (risk_solution x2 z' z Hx2 Hr2' Hr2) as (A2 & w2 & E2 & E2'). rewrite Eu in E2'. injection E2' as ->. apply times_le; [exact Pos'|].
      apply (times_le _ _ p Pos). apply (Best z'); [now apply A2|exact E2].
    - rewrite E' in V. injection V as <-. split; [now apply A|]. exists (p * w)%Qc. split; [exact E|]. intros z u Hz Eu.
      destruct (decisions_of_values _ st z Hg Hst) as (x2 & Hx2 & Hr2). destruct (values_of _ st' x2 Hg' Hst' Hx2) as [z' Hr2'].
      destruct (risk_solution x2 z z' Hx2 Hr2 Hr2') as (A2 & w2 & E2 & E2'). rewrite Eu in E2. injection E2 as ->. apply times_le; [exact Pos|].
      apply (times_le _ _ p' Pos'). apply (Best z'); [now apply A2|exact E2'].
  Qed.
End Risk.
Lemma risk_complete o r p' : complete_problem o -> risk_factor r = Some p' -> (forall ce, In ce (contributions o) -> precise_contribution (with_risk o r) ce) ->
  complete_problem (with_risk o r).
Proof.
  intros ((A & B & _ & C) & R & P1 & _ & P3) Hr HC. split; [|split].
  - split; [exact A|]. split; [exact B|]. split; [cbn; congruence|exact C].
  - destruct R as (R1 & R2 & R3 & R4 & R5). split; [exact R1|]. split; [exact R2|]. split; [exact R3|]. split; [exact R4|exact R5].
  - split; [exact P1|]. split; [exact HC|exact P3].
Qed.
Lemma risk_together o r p p' : complete_problem o -> risk_factor (o_risk o) = Some p -> risk_factor r = Some p' -> (0 < p)%Qc -> (0 < p')%Qc ->
  (forall ce, In ce (contributions o) -> precise_contribution (with_risk o r) ce) ->
  exists st st', build_problem o = Ok st /\ build_problem (with_risk o r) = Ok st' /\
  forall x y y', admissible_decisions o x -> represents o st y x -> represents (with_risk o r) st' y' x ->
    (solves y (st_solver st) <-> solves y' (st_solver st')) /\
    (exists w, objective_value y (st_solver st) = Some (p * w)%Qc /\ objective_value y' (st_solver st') = Some (p' * w)%Qc) /\
    (optimal y (st_solver st) <-> optimal y' (st_solver st')).
Proof.
  intros C Hp Hp' L L' HC. pose proof (risk_complete o r p' C Hp' HC) as (G' & R' & P'). destruct C as (G & R & P).
  destruct (problem_built o G R) as [st Hst]. destruct (problem_built _ G' R') as [st' Hst']. exists st, st'. split; [exact Hst|]. split; [exact Hst'|].
  intros x y y' Hx Hr Hr'. destruct (risk_solution o r st st' p p' G G' Hst Hst' P P' Hp Hp' x y y' Hx Hr Hr') as [A B]. split; [exact A|]. split; [exact B|].
  now apply (risk_optimal o r st st' p p' G G' Hst Hst' P P' Hp Hp' L L' x).
Qed.
