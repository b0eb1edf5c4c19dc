(** The same scenarios in another order (see PropReorder.v). *)
From Coq Require Import Lia Permutation.
From Verif Require Import Base BaseFacts Expr Visitors LinearExpr Model Study Strategy Optim SpecExpr SpecSyntax SpecExpansion SpecLinear SpecModel
  SpecOptim SpecReady SpecOrder SpecScenarios SpecPrecise SpecSeparate SpecBlock SpecSame SpecReorder OptimFacts OptimMeaning OptimProblem OptimNames PreciseFacts PreciseProblem
  ScenarioFacts ScenarioCost ScenarioExact ScenarioReady BlockFacts ScenarioSame.

Lemma total_permuted vs l l' : Permutation l l' -> total vs l = total vs l'.
Proof.
  induction 1 as [|z l l' _ IH|a b l|l1 l2 l3 _ IH1 _ IH2]; [reflexivity| | |congruence].
  - change (vs z + total vs l = vs z + total vs l')%Qc. now rewrite IH.
  - change (vs b + (vs a + total vs l) = vs a + (vs b + total vs l))%Qc. ring.
Qed.
Lemma total_renamed vs p l : total (fun s => vs (p s)) l = total vs (map p l).
Proof. induction l as [|z l IH]; [reflexivity|]. change (vs (p z) + total (fun s => vs (p s)) l = vs (p z) + total vs (map p l))%Qc. now rewrite IH. Qed.
Lemma reordered_range S p q : reordering S p q -> Permutation (map p (zrange 0 S)) (zrange 0 S).
Proof.
  intros R. assert (N : forall l, (forall s, In s l -> (0 <= s < S)%Z) -> NoDup l -> NoDup (map p l)).
  { induction l as [|z l IH]; intros H N; [constructor|]. inversion N as [|? ? N1 N2]; subst. cbn [map]. constructor.
    - intros Hin. apply in_map_iff in Hin. destruct Hin as (r & E & Hr). apply N1. destruct (R z) as (_ & _ & Ez & _); [apply H; now left|].
      destruct (R r) as (_ & _ & Er & _); [apply H; now right|]. rewrite <- Ez, <- E, Er. exact Hr.
    - apply IH; auto. intros s Hs. apply H. now right. }
  apply NoDup_Permutation.
  - apply N; [|apply zrange_nodup]. intros s Hs. now apply zrange_In in Hs.
  - apply zrange_nodup.
  - intros s. rewrite in_map_iff, zrange_In. split.
    + intros (r & <- & Hr). apply zrange_In in Hr. apply (R r Hr).
    + intros Hs. destruct (R s Hs) as (_ & Hq & _ & E). exists (q s). split; [exact E|now apply zrange_In].
Qed.
Lemma mean_reordered S p q F v : reordering S p q -> mean_of S F v -> mean_of S (fun s => F (p s)) v.
Proof.
  intros R (vs & M1 & M2). exists (fun s => vs (p s)). split; [intros s Hs; exact (M1 (p s) (proj1 (R s Hs)))|].
  rewrite M2, (total_renamed vs p). symmetry. apply total_permuted. eapply reordered_range; eauto.
Qed.

Section Reorder.
  Context (o : settings) (db' : database) (p q : Z -> Z) (st st' : state) (sts sts' : Z -> state) (f f' : Z -> nat -> nat).
  Let o' := with_block o (o_block o) db'.
  Hypothesis HR : reordering (o_scenarios o) p q.
  Hypothesis HD : reordered_data o p db'.
  Lemma reordered_built s a b : (0 <= s < o_scenarios o)%Z ->
    build_problem (settings_of (p s) o) = Ok a -> build_problem (settings_of s o') = Ok b -> b = a.
  Proof.
    intros Hs H0 H1.
    assert (HG : gives_as_much (settings_of (p s) o) (o_block o) (o_database (settings_of s o'))).
    { split; [reflexivity|]. cbn [settings_of o_database o_tree_node o_block o' with_block]. intros c n d Hd. apply data_of_get in Hd. destruct Hd as (d0 & Hd & ->).
      destruct (proj1 (proj1 HD c n) (ex_intro _ d0 Hd)) as [d' Hd'].
      exists (data_of s d'). split; [now apply data_of_found|].
      assert (X : forall t sc, simulated (settings_of (p s) o) sc -> get_value (data_of s d') t sc (o_tree_node o) = get_value (data_of (p s) d0) t sc (o_tree_node o)).
      { intros t sc Hsc. rewrite !data_of_any. destruct (proj2 HD c n d0 d' Hd Hd' t) as [D1 D2]. destruct sc as [z|]; [|exact D1].
        cbn [simulated settings_of o_scenarios] in Hsc. assert (z = 0%Z) by lia. subst z. cbn [read_back]. now apply D2. }
      intros sc v Hsc. split; [now rewrite X|]. intros i x x' Ha Ha' Hv. rewrite Ha in Ha'. injection Ha' as <-. now rewrite X. }
    assert (K : build_problem (settings_of s o') = Ok a).
    { refine (block_data_kept (settings_of (p s) o) (o_block o) (o_database (settings_of s o')) _ HG _ a H0); [cbn; lia|].
      unfold build_problem in H1. apply bind_ok in H1. destruct H1 as ([] & H1 & _). exact H1. }
    congruence.
  Qed.
  Hypothesis Hgood : good_problem o.
  Hypothesis Hgood' : good_problem o'.
  Hypothesis HA : averaged_costs o.
  Hypothesis Hst : build_problem o = Ok st.
  Hypothesis Hst' : build_problem o' = Ok st'.
  Hypothesis Hos : forall s, (0 <= s < o_scenarios o)%Z -> one_scenario s o (settings_of s o) /\ good_problem (settings_of s o) /\ build_problem (settings_of s o) = Ok (sts s).
  Hypothesis Hos' : forall s, (0 <= s < o_scenarios o)%Z -> one_scenario s o' (settings_of s o') /\ good_problem (settings_of s o') /\ build_problem (settings_of s o') = Ok (sts' s).
  Hypothesis HT : put_together o st (fun s => settings_of s o) sts f.
  Hypothesis HT' : put_together o' st' (fun s => settings_of s o') sts' f'.
  Hypothesis HP : precise_problem o.
  Hypothesis HP' : precise_problem o'.
  Notation S := (o_scenarios o).
  Let HS : (1 <= S)%Z := proj1 (proj2 Hgood).
  Let average := exact_average o st (fun s => settings_of s o) sts f Hgood HA Hst Hos HT (proj1 (proj2 HP))
    (fun s _ => proj1 (proj2 (settings_of_precise s o HP))).
  Let average' := exact_average o' st' (fun s => settings_of s o') sts' f' Hgood' HA Hst' Hos' HT' (proj1 (proj2 HP'))
    (fun s _ => proj1 (proj2 (settings_of_precise s o' HP'))).
  Lemma reordered_admissible x : admissible_decisions o x -> admissible_decisions o' (reordered_decisions p x).
  Proof. intros [A1 A2]. split; [intros c n t r; apply A1|]. intros c v Hc Hv. destruct (A2 c v Hc Hv) as [B1 B2]. split; [intros Ht t t' r; now apply B1|intros Hs t s s'; now apply B2]. Qed.
  Lemma reordered_solution x y y' : admissible_decisions o x -> represents o st y x -> represents o' st' y' (reordered_decisions p x) ->
    (solves y (st_solver st) <-> solves y' (st_solver st')) /\ objective_value y (st_solver st) = objective_value y' (st_solver st').
  Proof.
    intros Hx Hr Hr'.
    assert (Q : forall s, (0 <= s < S)%Z -> (solves (fun i => y (f (p s) i)) (st_solver (sts (p s))) <-> solves (fun i => y' (f' s i)) (st_solver (sts' s))) /\
      objective_value (fun i => y (f (p s) i)) (st_solver (sts (p s))) = objective_value (fun i => y' (f' s i)) (st_solver (sts' s))).
    { intros s Hs. pose proof (proj1 (HR s Hs)) as Hps. destruct (Hos (p s) Hps) as (HO & Hg & Hb). destruct (Hos' s Hs) as (HO' & Hg' & Hb').
      pose proof (reordered_built s _ _ Hs Hb Hb') as E. rewrite E in Hb' |- *.
      apply (same_part (fun s => settings_of s o) (p s) (settings_of (p s) o) (sts (p s)) (seen_in (p s) x) _ _ Hg Hb (settings_of_precise (p s) o HP) eq_refl).
      - eapply admissible_in; eauto.
      - eapply represents_in; eauto. now apply (pt_found _ _ _ _ _ HT).
      - assert (X : represents (settings_of s o') (sts' s) (fun i => y' (f' s i)) (seen_in s (reordered_decisions p x)))
          by (apply (represents_in s o' (settings_of s o') st' (sts' s) (f' s)); [exact Hs|exact HO'|now apply (pt_found _ _ _ _ _ HT')|exact Hr']). rewrite E in X. exact X. }
    split.
    - rewrite (together_solves _ _ _ _ _ HT y), (together_solves _ _ _ _ _ HT' y'). split.
      + intros H s Hs. apply (Q s Hs). apply H. apply (HR s Hs).
      + intros H s Hs. destruct (HR s Hs) as (_ & Hq & _ & E). rewrite <- E. apply (Q (q s) Hq). now apply H.
    - destruct (average y) as (v & E & M). destruct (average' y') as (v' & E' & M'). rewrite E, E'. f_equal.
      apply (mean_reordered S p q _ _ HR) in M. apply (mean_unique S HS _ _ _ M). revert M'. apply mean_ext. intros s Hs. symmetry. now apply Q.
  Qed.
End Reorder.

Lemma reordered_back o p q db' : reordering (o_scenarios o) p q -> reordered_data o p db' ->
  reordering (o_scenarios (with_block o (o_block o) db')) q p /\ reordered_data (with_block o (o_block o) db') q (o_database o).
Proof.
  intros HR [D1 D2]. split.
  - intros s Hs. destruct (HR s Hs) as (A & B & C & D). auto.
  - split; [intros c n; symmetry; apply D1|]. cbn [with_block o_database o_tree_node o_scenarios]. intros c n d d' Hd Hd' t. destruct (D2 c n d' d Hd' Hd t) as [E1 E2].
    split; [now symmetry|]. intros s Hs. destruct (HR s Hs) as (_ & B & _ & D). rewrite (E2 (q s) B), D. reflexivity.
Qed.

Lemma reordered_together o p q db' : complete_problem o -> complete_problem (with_block o (o_block o) db') -> constraints_by_scenario o -> averaged_costs o ->
  reordering (o_scenarios o) p q -> reordered_data o p db' ->
  exists st st', build_problem o = Ok st /\ build_problem (with_block o (o_block o) db') = Ok st' /\
  forall x y y', admissible_decisions o x -> represents o st y x -> represents (with_block o (o_block o) db') st' y' (reordered_decisions p x) ->
    (solves y (st_solver st) <-> solves y' (st_solver st')) /\ objective_value y (st_solver st) = objective_value y' (st_solver st').
Proof.
  intros (G & R & P) (G' & R' & P') HC HA HR HD. set (o' := with_block o (o_block o) db') in *.
  destruct (ready_scenarios o G R HC HA) as (st & sts & Hst & Hsts). destruct (ready_scenarios o' G' R' HC HA) as (st' & sts' & Hst' & Hsts').
  destruct (scenarios_together o st (fun s => settings_of s o) sts G HC (precise_bounds o P) Hst) as [f Hf]; [intros s Hs; split; apply (Hsts s Hs)|].
  destruct (scenarios_together o' st' (fun s => settings_of s o') sts' G' HC (precise_bounds o' P') Hst') as [f' Hf']; [intros s Hs; split; apply (Hsts' s Hs)|].
  exists st, st'. split; [exact Hst|]. split; [exact Hst'|].
  exact (reordered_solution o db' p q st st' sts sts' f f' HR HD G G' HA Hst Hst' Hsts Hsts' Hf Hf' P P').
Qed.
Lemma reordered_each o p q db' : complete_problem o -> complete_problem (with_block o (o_block o) db') -> constraints_by_scenario o -> averaged_costs o ->
  reordering (o_scenarios o) p q -> reordered_data o p db' ->
  exists st st', build_problem o = Ok st /\ build_problem (with_block o (o_block o) db') = Ok st' /\
  forall y, solves y (st_solver st) -> exists y', solves y' (st_solver st') /\ objective_value y' (st_solver st') = objective_value y (st_solver st).
Proof.
  intros C C' HC HA HR HD. destruct (reordered_together o p q db' C C' HC HA HR HD) as (st & st' & Hst & Hst' & H). exists st, st'. split; [exact Hst|]. split; [exact Hst'|].
  intros y Hy. destruct (decisions_of_values o st y (proj1 C) Hst) as (x & Hx & Hr).
  assert (Y : exists y', represents (with_block o (o_block o) db') st' y' (reordered_decisions p x)).
  { pose proof C' as ((Hu & _ & _ & _ & Hd & Hm & _) & _). apply represented_exists; auto; [intros c Hc; apply (Hm c Hc)|]. now apply reordered_admissible. }
  destruct Y as [y' Hy']. destruct (H x y y' Hx Hr Hy') as [H1 H2]. exists y'. split; [now apply H1|now symmetry].
Qed.
Lemma best_same (s s' : solver) :
  (forall y, solves y s -> exists y', solves y' s' /\ objective_value y' s' = objective_value y s) ->
  (forall y, solves y s' -> exists y', solves y' s /\ objective_value y' s = objective_value y s') -> forall v, least_cost s v -> least_cost s' v.
Proof.
  intros F B v (y & (Hy & w & E & Best) & Ev). rewrite Ev in E. injection E as <-. destruct (F y Hy) as (y' & Hy' & E'). rewrite Ev in E'.
  exists y'. split; [|exact E']. split; [exact Hy'|]. exists v. split; [exact E'|]. intros z u Hz Eu. destruct (B z Hz) as (z' & Hz' & Ez). apply (Best z' u Hz'). congruence.
Qed.
Lemma reordered_least o p q db' : complete_problem o -> complete_problem (with_block o (o_block o) db') -> constraints_by_scenario o -> averaged_costs o ->
  reordering (o_scenarios o) p q -> reordered_data o p db' ->
  exists st st', build_problem o = Ok st /\ build_problem (with_block o (o_block o) db') = Ok st' /\
  forall v, least_cost (st_solver st) v <-> least_cost (st_solver st') v.
Proof.
  intros C C' HC HA HR HD. destruct (reordered_each o p q db' C C' HC HA HR HD) as (st & st' & Hst & Hst' & F). exists st, st'. split; [exact Hst|]. split; [exact Hst'|].
  destruct (reordered_back o p q db' HR HD) as [HR' HD'].
  assert (W : with_block (with_block o (o_block o) db') (o_block o) (o_database o) = o) by (destruct o; reflexivity).
  assert (C2 : complete_problem (with_block (with_block o (o_block o) db') (o_block (with_block o (o_block o) db')) (o_database o))) by (cbn [with_block o_block]; rewrite W; exact C).
  destruct (reordered_each (with_block o (o_block o) db') q p (o_database o) C' C2 HC HA HR' HD') as (a & b & Ha & Hb & B).
  rewrite Hst' in Ha. injection Ha as <-. change (o_block (with_block o (o_block o) db')) with (o_block o) in Hb. rewrite W, Hst in Hb. injection Hb as <-.
  intros v. split; apply best_same; assumption.
Qed.
