(** Scenarios with the same data (see PropSame.v). *)
From Coq Require Import Lia.
From Verif Require Import Base BaseFacts Expr Visitors LinearExpr Model Study Strategy Optim SpecExpr SpecSyntax SpecExpansion SpecLinear SpecModel
  SpecOptim SpecReady SpecOrder SpecScenarios SpecPrecise SpecSeparate SpecBlock SpecSame OptimFacts OptimMeaning OptimProblem OptimNames PreciseFacts PreciseProblem
  ScenarioFacts ScenarioCost ScenarioExact ScenarioReady BlockFacts.

Lemma least_of (a : Z -> Qc) l : l <> [] -> exists s, In s l /\ forall r, In r l -> (a s <= a r)%Qc.
Proof.
  induction l as [|z l IH]; intros H; [contradiction|]. destruct l as [|z' l].
  - exists z. split; [now left|]. intros r [<-|[]]. apply Qcle_refl.
  - destruct IH as (s & Hs & Hl); [discriminate|]. destruct (Qclt_le_dec (a z) (a s)) as [L|L].
    + exists z. split; [now left|]. intros r [<-|Hr]; [apply Qcle_refl|]. eapply Qcle_trans; [apply Qclt_le_weak; exact L|now apply Hl].
    + exists s. split; [now right|]. intros r [<-|Hr]; [exact L|now apply Hl].
Qed.
(** some scenario costs at most the average *)
Lemma below_mean S F v : (1 <= S)%Z -> mean_of S F v -> exists s a, (0 <= s < S)%Z /\ F s = Some a /\ (a <= v)%Qc.
Proof.
  intros HS M. pose proof M as (vs & M1 & _). destruct (least_of vs (zrange 0 S)) as (s & Hs & Hl).
  { intros E. assert (X : In 0%Z (zrange 0 S)) by (apply zrange_In; lia). rewrite E in X. destruct X. }
  apply zrange_In in Hs. exists s, (vs s). split; [exact Hs|]. split; [now apply M1|].
  apply (mean_le S HS (fun _ => Some (vs s)) F); [now apply mean_const|exact M|].
  intros r a b Hr [= <-] Hb. rewrite (M1 r Hr) in Hb. injection Hb as <-. apply Hl. now apply zrange_In.
Qed.

Lemma same_built o s st0 sts : (1 <= o_scenarios o)%Z -> same_scenarios o -> (0 <= s < o_scenarios o)%Z ->
  build_problem (settings_of 0 o) = Ok st0 -> build_problem (settings_of s o) = Ok sts -> sts = st0.
Proof.
  intros HS Same Hs H0 H1.
  assert (HG : gives_as_much (settings_of 0 o) (o_block o) (o_database (settings_of s o))).
  { split; [reflexivity|]. cbn [settings_of o_database o_tree_node o_block]. intros c n d Hd. apply data_of_get in Hd. destruct Hd as (d0 & Hd & ->).
    exists (data_of s d0). split; [now apply data_of_found|].
    assert (X : forall t sc, simulated (settings_of 0 o) sc -> get_value (data_of s d0) t sc (o_tree_node o) = get_value (data_of 0 d0) t sc (o_tree_node o)).
    { intros t sc Hsc. rewrite !data_of_any. destruct sc as [z|]; [|reflexivity]. cbn [simulated settings_of o_scenarios] in Hsc. assert (z = 0%Z) by lia. subst z.
      cbn [read_back]. eapply Same; eauto. }
    intros sc v Hsc. split; [now rewrite X|]. intros i a a' Ha Ha' Hv. rewrite Ha in Ha'. injection Ha' as <-. now rewrite X. }
  destruct (build_steps _ _ H1) as (ports & _ & _ & Hreq & _).
  assert (K : build_problem (settings_of s o) = Ok st0).
  { refine (block_data_kept (settings_of 0 o) (o_block o) (o_database (settings_of s o)) _ HG _ st0 H0); [cbn; lia|]. 
    unfold build_problem in H1. apply bind_ok in H1. destruct H1 as ([] & H1 & _). exact H1. }
  congruence.
Qed.

Section Same.
  Context (o : settings) (st st1 : state) (f : Z -> nat -> nat).
  Hypothesis Hgood : good_problem o.
  Hypothesis HA : averaged_costs o.
  Hypothesis Hst : build_problem o = Ok st.
  Hypothesis Hos : forall s, (0 <= s < o_scenarios o)%Z -> one_scenario s o (settings_of s o) /\ good_problem (settings_of s o) /\ build_problem (settings_of s o) = Ok st1.
  Hypothesis HT : put_together o st (fun s => settings_of s o) (fun _ => st1) f.
  Hypothesis HP : precise_problem o.
  Notation S := (o_scenarios o).
  Let HS : (1 <= S)%Z := proj1 (proj2 Hgood).
  Notation part y s := (fun i => y (f s i)).
  Let average := exact_average o st (fun s => settings_of s o) (fun _ => st1) f Hgood HA Hst Hos HT (proj1 (proj2 HP))
    (fun s _ => proj1 (proj2 (settings_of_precise s o HP))).
  Lemma copied y1 : exists y, forall s, (0 <= s < S)%Z ->
    (solves (part y s) (st_solver st1) <-> solves y1 (st_solver st1)) /\ objective_value (part y s) (st_solver st1) = objective_value y1 (st_solver st1).
  Proof.
    destruct (Hos 0%Z) as (_ & Hg & Hb); [lia|]. destruct (decisions_of_values (settings_of 0 o) st1 y1 Hg Hb) as (x1 & [A1 A2] & Hr1).
    pose (x := fun c n t (_ : Z) => x1 c n t 0%Z).
    assert (Hx : admissible_decisions o x).
    { split; [intros c n t r; apply A1|]. intros c v Hc Hv. split; [|reflexivity]. intros Ht t t' r. apply (proj1 (A2 c v Hc Hv) Ht). }
    assert (Y : exists y, represents o st y x).
    { pose proof Hgood as (Hu & _ & _ & _ & Hd & Hm & _). apply represented_exists; auto. intros c Hc. apply (Hm c Hc). }
    destruct Y as [y Hy]. exists y. intros s Hs. destruct (Hos s Hs) as (HO & Hg' & Hb').
    apply (same_part (fun s => settings_of s o) s (settings_of s o) st1 (seen_in s x) _ _ Hg' Hb' (settings_of_precise s o HP) eq_refl).
    - eapply admissible_in; eauto.
    - eapply represents_in; eauto. now apply (pt_found _ _ _ _ _ HT).
    - pose proof (first_scenario o (fun s => settings_of s o) (fun _ => st1) Hos s x1 y1 Hs Hr1) as X. exact X.
  Qed.
  Lemma copies y1 : solves y1 (st_solver st1) -> exists y, solves y (st_solver st) /\ objective_value y (st_solver st) = objective_value y1 (st_solver st1).
  Proof.
    intros H. destruct (copied y1) as [y Hy]. exists y. split; [apply (together_solves _ _ _ _ _ HT); intros s Hs; now apply (Hy s Hs)|].
    destruct (average y) as (v & E & M). rewrite E. pose proof M as (vs & M1 & _). assert (H0 : (0 <= 0 < S)%Z) by lia. pose proof (M1 0%Z H0) as E1. rewrite (proj2 (Hy 0%Z H0)) in E1. rewrite E1. f_equal.
    apply (mean_unique S HS _ _ _ M). apply (mean_ext S (fun _ => Some (vs 0%Z))); [|now apply mean_const]. intros s Hs. cbn beta. now rewrite (proj2 (Hy s Hs)).
  Qed.
  Lemma some_part y v : solves y (st_solver st) -> objective_value y (st_solver st) = Some v ->
    exists y1 v1, solves y1 (st_solver st1) /\ objective_value y1 (st_solver st1) = Some v1 /\ (v1 <= v)%Qc.
  Proof.
    intros H E. destruct (average y) as (v' & E' & M). rewrite E in E'. injection E' as <-. destruct (below_mean S _ v HS M) as (s & a & Hs & Ea & L).
    exists (part y s), a. split; [|split; [exact Ea|exact L]]. now apply (together_solves _ _ _ _ _ HT).
  Qed.
  Lemma same_least v : least_cost (st_solver st) v <-> least_cost (st_solver st1) v.
  Proof.
    split; intros (y & (Hy & v' & E' & Best) & E); rewrite E in E'; injection E' as <-.
    - destruct (some_part y v Hy E) as (y1 & v1 & H1 & E1 & L). destruct (copies y1 H1) as (y' & H' & E'). rewrite E1 in E'.
      assert (v1 = v) by (apply Qcle_antisym; [exact L|exact (Best y' v1 H' E')]). subst v1.
      exists y1. split; [|exact E1]. split; [exact H1|]. exists v. split; [exact E1|]. intros y2 v2 H2 E2. destruct (copies y2 H2) as (y3 & H3 & E3). apply (Best y3 v2 H3). congruence.
    - destruct (copies y Hy) as (y' & H' & E'). rewrite E in E'. exists y'. split; [|exact E']. split; [exact H'|]. exists v. split; [exact E'|].
      intros y2 v2 H2 E2. destruct (some_part y2 v2 H2 E2) as (y3 & v3 & H3 & E3 & L). eapply Qcle_trans; [exact (Best y3 v3 H3 E3)|exact L].
  Qed.
End Same.

Lemma same_together o : good_problem o -> ready_problem o -> precise_problem o -> constraints_by_scenario o -> averaged_costs o -> same_scenarios o ->
  exists st st1, build_problem o = Ok st /\ (forall s, (0 <= s < o_scenarios o)%Z -> build_problem (settings_of s o) = Ok st1) /\
  (forall y1, solves y1 (st_solver st1) -> exists y, solves y (st_solver st) /\ objective_value y (st_solver st) = objective_value y1 (st_solver st1)) /\
  (forall y v, solves y (st_solver st) -> objective_value y (st_solver st) = Some v ->
    exists y1 v1, solves y1 (st_solver st1) /\ objective_value y1 (st_solver st1) = Some v1 /\ (v1 <= v)%Qc) /\
  forall v, least_cost (st_solver st) v <-> least_cost (st_solver st1) v.
Proof.
  intros Hgood Hready HP HC HA Same. destruct (ready_scenarios o Hgood Hready HC HA) as (st & sts & Hst & Hsts). pose proof (proj1 (proj2 Hgood)) as HS.
  assert (H1 : forall s, (0 <= s < o_scenarios o)%Z -> one_scenario s o (settings_of s o) /\ good_problem (settings_of s o) /\ build_problem (settings_of s o) = Ok (sts 0%Z)).
  { intros s Hs. destruct (Hsts s Hs) as (A & B & C). split; [exact A|]. split; [exact B|]. rewrite C. f_equal.
    apply (same_built o s (sts 0%Z) (sts s) HS Same Hs); [apply (Hsts 0%Z); lia|exact C]. }
  destruct (scenarios_together o st (fun s => settings_of s o) (fun _ => sts 0%Z) Hgood HC (precise_bounds o HP) Hst) as [f Hf]; [intros s Hs; split; apply (H1 s Hs)|].
  exists st, (sts 0%Z). split; [exact Hst|]. split; [intros s Hs; apply (H1 s Hs)|].
  split; [exact (copies o st (sts 0%Z) f Hgood HA Hst H1 Hf HP)|]. split; [exact (some_part o st (sts 0%Z) f Hgood HA Hst H1 Hf HP)|].
  exact (same_least o st (sts 0%Z) f Hgood HA Hst H1 Hf HP).
Qed.
