(** Solving the scenarios of a problem one by one (see PropSeparate.v). *)
From Coq Require Import Lia.
From Verif Require Import Base BaseFacts Expr Visitors LinearExpr Model Study Strategy Optim SpecExpr SpecSyntax SpecExpansion SpecLinear SpecModel
  SpecOptim SpecOrder SpecScenarios SpecPrecise SpecSeparate OptimFacts OptimMeaning OptimProblem OptimNames PreciseFacts PreciseProblem
  ScenarioFacts ScenarioCost.

(** ** Averages *)
Section Means.
  Context (S : Z) (HS : (1 <= S)%Z).
  Lemma total_le a b l : (forall s, In s l -> (a s <= b s)%Qc) -> (total a l <= total b l)%Qc.
  Proof.
    induction l as [|z l IH]; intros H; [apply Qcle_refl|]. change (a z + total a l <= b z + total b l)%Qc. apply Qcplus_le_compat; [apply H; now left|].
    apply IH. intros s Hs. apply H. now right.
  Qed.
  Lemma S_positive : (0 < Z2Qc S)%Qc.
  Proof. rewrite <- Z2Qc_0. apply (proj2 (Z2Qc_lt _ _)). lia. Qed.
  Lemma mean_unique F v w : mean_of S F v -> mean_of S F w -> v = w.
  Proof. intros H1 H2. apply (mean_omean S HS) in H1, H2. congruence. Qed.
  Lemma mean_le F G v w : mean_of S F v -> mean_of S G w ->
    (forall s a b, (0 <= s < S)%Z -> F s = Some a -> G s = Some b -> (a <= b)%Qc) -> (v <= w)%Qc.
  Proof.
    intros (a & A1 & A2) (b & B1 & B2) H. apply (Qcmult_lt_0_le_reg_r _ _ (Z2Qc S) S_positive). rewrite !(Qcmult_comm _ (Z2Qc S)), A2, B2.
    apply total_le. intros s Hs. apply zrange_In in Hs. eapply H; eauto.
  Qed.
  (** all but one being the same *)
  Lemma total_one a b s l : NoDup l -> In s l -> (forall r, In r l -> r <> s -> a r = b r) -> (total b l - total a l = b s - a s)%Qc.
  Proof.
    induction l as [|z l IH]; intros N Hs H; [destruct Hs|]. inversion N as [|? ? N1 N2]; subst.
    change ((b z + total b l) - (a z + total a l) = b s - a s)%Qc. destruct Hs as [<-|Hs].
    - assert (E : total a l = total b l).
      { clear -H N1. revert H N1. induction l as [|r l IH]; intros H N1; [reflexivity|]. change (a r + total a l = b r + total b l)%Qc. f_equal.
        - apply H; [right; now left|]. intros ->. apply N1. now left.
        - apply IH; [|intros X; apply N1; now right]. intros r' [<-|Hr] Hn; apply H; auto; [now left|right; now right]. }
      rewrite E. ring.
    - rewrite (H z (or_introl eq_refl)) by (intros ->; contradiction).
      transitivity (total b l - total a l)%Qc; [ring|]. apply IH; auto. intros r Hr. apply H. now right.
  Qed.
  Lemma mean_one F G v w s a b : mean_of S F v -> mean_of S G w -> (0 <= s < S)%Z -> F s = Some a -> G s = Some b ->
    (forall r, (0 <= r < S)%Z -> r <> s -> F r = G r) -> (v <= w)%Qc -> (a <= b)%Qc.
  Proof.
    intros (va & A1 & A2) (vb & B1 & B2) Hs Ha Hb H Hvw. rewrite (A1 s Hs) in Ha. rewrite (B1 s Hs) in Hb. injection Ha as <-. injection Hb as <-.
    assert (E : (total vb (zrange 0 S) - total va (zrange 0 S) = vb s - va s)%Qc).
    { apply total_one; [apply zrange_nodup|now apply zrange_In|]. intros r Hr Hn. apply zrange_In in Hr. specialize (H r Hr Hn). rewrite (A1 r Hr), (B1 r Hr) in H. congruence. }
    rewrite <- A2, <- B2 in E.
    assert (P : (0 <= vb s - va s)%Qc).
    { rewrite <- E. replace (Z2Qc S * w - Z2Qc S * v)%Qc with ((w - v) * Z2Qc S)%Qc by ring. replace 0%Qc with (0 * Z2Qc S)%Qc by ring.
      apply Qcmult_le_compat_r; [|apply Qclt_le_weak, S_positive]. replace 0%Qc with (v - v)%Qc by ring. apply Qcplus_le_compat; [exact Hvw|apply Qcle_refl]. }
    replace (va s) with (0 + va s)%Qc by ring. replace (vb s) with ((vb s - va s) + va s)%Qc by ring. apply Qcplus_le_compat; [exact P|apply Qcle_refl].
  Qed.
End Means.

Section Separate.
  Context (o : settings) (st : state) (os : Z -> settings) (sts : Z -> state) (f : Z -> nat -> nat).
  Hypothesis Hgood : good_problem o.
  Hypothesis HA : averaged_costs o.
  Hypothesis Hst : build_problem o = Ok st.
  Hypothesis Hos : forall s, (0 <= s < o_scenarios o)%Z -> one_scenario s o (os s) /\ good_problem (os s) /\ build_problem (os s) = Ok (sts s).
  Hypothesis HT : put_together o st os sts f.
  Hypothesis HP : precise_costs o.
  Hypothesis HPs : forall s, (0 <= s < o_scenarios o)%Z -> precise_costs (os s).
  Notation S := (o_scenarios o).
  Let HS : (1 <= S)%Z := proj1 (proj2 Hgood).
  Notation part y s := (fun i => y (f s i)).

  Lemma decisions_of_values o' st' (y : nat -> Qc) : good_problem o' -> build_problem o' = Ok st' -> exists x, admissible_decisions o' x /\ represents o' st' y x.
  Proof. intros (Hu & _ & _ & _ & Hd & Hm & _) Hb. apply decisions_exist; auto. intros c Hc. apply (Hm c Hc). Qed.
  Lemma exact_average y : exists v, objective_value y (st_solver st) = Some v /\ mean_of S (fun s => objective_value (part y s) (st_solver (sts s))) v.
  Proof.
    destruct (decisions_of_values o st y Hgood Hst) as (x & Hx & Hr).
    destruct (exact_objective o st Hgood Hst HP x y 0%Z 0%Z Hx Hr) as (v & E1 & E2). exists v. split; [exact E1|].
    destruct (build_steps o st Hst) as (ports & _ & _ & Hreq & HPo & _).
    pose proof (contributions_value o os x ports Hgood Hreq HPo Hx (fun s Hs => proj1 (Hos s Hs)) 0%Z 0%Z v HA E2) as M. revert M. apply mean_ext.
    intros s Hs. destruct (Hos s Hs) as (HO & Hg & Hb).
    destruct (exact_objective (os s) (sts s) Hg Hb (HPs s Hs) (seen_in s x) (part y s) 0%Z 0%Z) as (w & W1 & W2).
    - eapply admissible_in; eauto.
    - eapply represents_in; eauto. now apply (pt_found _ _ _ _ _ HT).
    - rewrite (one_contributions s o (os s) HO) in W2. now rewrite W1, W2.
  Qed.
  Lemma average_cost y : exists v, objective_value y (st_solver st) = Some v /\
    omean S (map (fun s => objective_value (part y s) (st_solver (sts s))) (zrange 0 S)) = Some v.
  Proof. destruct (exact_average y) as (v & E & M). exists v. split; [exact E|]. now apply mean_omean. Qed.
  Lemma parts_optimal y : (forall s, (0 <= s < S)%Z -> optimal (part y s) (st_solver (sts s))) -> optimal y (st_solver st).
  Proof.
    intros H. split; [apply (together_solves _ _ _ _ _ HT); intros s Hs; apply (H s Hs)|]. destruct (exact_average y) as (v & E & M). exists v. split; [exact E|].
    intros y' v' Hs' E'. destruct (exact_average y') as (w & W & M'). rewrite E' in W. injection W as <-.
    apply (mean_le S HS _ _ _ _ M M'). intros s a b Hs Ea Eb. destruct (H s Hs) as (_ & a' & Ea' & Best). rewrite Ea in Ea'. injection Ea' as <-.
    apply (Best (part y' s)); [|exact Eb]. now apply (together_solves _ _ _ _ _ HT).
  Qed.
  Lemma least_costs y least v : solves y (st_solver st) -> objective_value y (st_solver st) = Some v ->
    (forall s y1 v1, (0 <= s < S)%Z -> solves y1 (st_solver (sts s)) -> objective_value y1 (st_solver (sts s)) = Some v1 -> (least s <= v1)%Qc) ->
    exists w, omean S (map (fun s => Some (least s)) (zrange 0 S)) = Some w /\ (w <= v)%Qc.
  Proof.
    intros Hy E H. destruct (exact_average y) as (v' & E' & M). rewrite E in E'. injection E' as <-.
    assert (ML : mean_of S (fun s => Some (least s)) (total least (zrange 0 S) / Z2Qc S)%Qc).
    { exists least. split; [reflexivity|]. field. now apply S_nonzero. }
    eexists. split; [apply (mean_omean S HS); exact ML|]. apply (mean_le S HS _ _ _ _ ML M). intros s a b Hs [= <-] Eb.
    apply (H s (part y s) b Hs); [|exact Eb]. now apply (together_solves _ _ _ _ _ HT).
  Qed.

  (** ** Nothing shared *)
  Hypothesis Own : scenario_variables o.
  Hypothesis Exact : forall s, (0 <= s < S)%Z -> precise_problem (os s).
  Definition replaced (s : Z) (x1 x : decisions) : decisions := fun c n t r => if (r =? s)%Z then x1 c n t 0%Z else x c n t r.
  Lemma replaced_admissible s x1 x : (0 <= s < S)%Z -> admissible_decisions (os s) x1 -> admissible_decisions o x -> admissible_decisions o (replaced s x1 x).
  Proof.
    intros Hs [A1 A2] [B1 B2]. destruct (Hos s Hs) as (HO & _). rewrite (os_block _ _ _ HO) in A1. rewrite (os_network _ _ _ HO) in A2. split.
    - intros c n t r. unfold replaced. destruct (r =? s)%Z; auto.
    - intros c v Hc Hv. split.
      + intros Ht t t' r. unfold replaced. destruct (r =? s)%Z; [now apply (proj1 (A2 c v Hc Hv))|now apply (proj1 (B2 c v Hc Hv))].
      + intros Hn. rewrite (Own c v Hc Hv) in Hn. discriminate.
  Qed.
  Lemma same_part s o1 st1 x y y' : good_problem o1 -> build_problem o1 = Ok st1 -> precise_problem o1 -> o1 = os s -> admissible_decisions o1 x ->
    represents o1 st1 y x -> represents o1 st1 y' x ->
    (solves y (st_solver st1) <-> solves y' (st_solver st1)) /\ objective_value y (st_solver st1) = objective_value y' (st_solver st1).
  Proof.
    intros Hg Hb Hp _ Hx H1 H2. split.
    - now rewrite (exact_plans o1 st1 Hg Hb Hp x y Hx H1), (exact_plans o1 st1 Hg Hb Hp x y' Hx H2).
    - now rewrite (proj1 (exact_cost o1 st1 Hg Hb Hp x y Hx H1)), (proj1 (exact_cost o1 st1 Hg Hb Hp x y' Hx H2)).
  Qed.
  Lemma first_scenario s x1 y1 : (0 <= s < S)%Z -> represents (os s) (sts s) y1 x1 -> represents (os s) (sts s) y1 (fun c n t _ => x1 c n t 0%Z).
  Proof.
    intros Hs H c v t sc i Hi Hg t' s'. pose proof Hi as (_ & _ & _ & I4). rewrite (os_scenarios _ _ _ (proj1 (Hos s Hs))) in I4. destruct sc as [z|].
    - cbn in I4. assert (z = 0%Z) by lia. subst z. exact (H c v t (Some 0%Z) i Hi Hg t' s').
    - exact (H c v t None i Hi Hg t' 0%Z).
  Qed.
  Lemma separate y : optimal y (st_solver st) <-> forall s, (0 <= s < S)%Z -> optimal (part y s) (st_solver (sts s)).
  Proof.
    split; [|apply parts_optimal]. intros (Hy & v & E & Best) s Hs.
    assert (Hp : forall r, (0 <= r < S)%Z -> solves (part y r) (st_solver (sts r))) by (intros r Hr; now apply (together_solves _ _ _ _ _ HT)).
    split; [now apply Hp|]. destruct (exact_average y) as (v' & E' & M). rewrite E in E'. injection E' as <-.
    assert (Es : exists a, objective_value (part y s) (st_solver (sts s)) = Some a) by (destruct M as (vs & M1 & _); exists (vs s); now apply M1).
    destruct Es as [a Ea]. exists a. split; [exact Ea|]. intros y1 v1 Hy1 E1.
    destruct (decisions_of_values o st y Hgood Hst) as (x & Hx & Hr). destruct (Hos s Hs) as (HO & Hg & Hb).
    destruct (decisions_of_values (os s) (sts s) y1 Hg Hb) as (x1 & Hx1 & Hr1).
    pose proof (replaced_admissible s x1 x Hs Hx1 Hx) as Hx'.
    assert (Y : exists y', represents o st y' (replaced s x1 x)).
    { pose proof Hgood as (Hu & _ & _ & _ & Hd & Hm & _). apply represented_exists; auto. intros c Hc. apply (Hm c Hc). }
    destruct Y as [y' Hr'].
    assert (Q1 : (solves (part y' s) (st_solver (sts s)) <-> solves y1 (st_solver (sts s))) /\
      objective_value (part y' s) (st_solver (sts s)) = objective_value y1 (st_solver (sts s))).
    { apply (same_part s (os s) (sts s) (seen_in s (replaced s x1 x)) _ _ Hg Hb (Exact s Hs) eq_refl).
      - eapply admissible_in; eauto.
      - eapply represents_in; eauto. now apply (pt_found _ _ _ _ _ HT).
      - pose proof (first_scenario s x1 y1 Hs Hr1) as X. intros c w t sc i Hi Hgi t' s'. rewrite (X c w t sc i Hi Hgi t' s'). unfold seen_in, replaced.
        now rewrite Z.eqb_refl. }
    assert (Q2 : forall r, (0 <= r < S)%Z -> r <> s -> (solves (part y' r) (st_solver (sts r)) <-> solves (part y r) (st_solver (sts r))) /\
      objective_value (part y' r) (st_solver (sts r)) = objective_value (part y r) (st_solver (sts r))).
    { intros r Hr0 Hn. destruct (Hos r Hr0) as (HO' & Hg' & Hb').
      apply (same_part r (os r) (sts r) (seen_in r x) _ _ Hg' Hb' (Exact r Hr0) eq_refl).
      - eapply admissible_in; eauto.
      - assert (X : represents (os r) (sts r) (part y' r) (seen_in r (replaced s x1 x))) by (eapply represents_in; eauto; now apply (pt_found _ _ _ _ _ HT)).
        intros c w t sc i Hi Hgi t' s'. rewrite (X c w t sc i Hi Hgi t' s'). unfold seen_in, replaced. now rewrite (proj2 (Z.eqb_neq r s) Hn).
      - eapply represents_in; eauto. now apply (pt_found _ _ _ _ _ HT). }
    assert (Hy' : solves y' (st_solver st)).
    { apply (together_solves _ _ _ _ _ HT). intros r Hr0. destruct (Z.eq_dec r s) as [->|Hn]; [now apply Q1|]. apply (Q2 r Hr0 Hn). now apply Hp. }
    destruct (exact_average y') as (w & Ew & M').
    apply (mean_one S HS _ _ v w s a v1 M M' Hs Ea).
    - now rewrite (proj2 Q1).
    - intros r Hr0 Hn. symmetry. now apply Q2.
    - exact (Best y' w Hy' Ew).
  Qed.
End Separate.
Lemma scenarios_separate o st os sts f : good_problem o -> averaged_costs o -> build_problem o = Ok st ->
  (forall s, (0 <= s < o_scenarios o)%Z -> one_scenario s o (os s) /\ good_problem (os s) /\ build_problem (os s) = Ok (sts s)) ->
  put_together o st os sts f -> precise_costs o -> (forall s, (0 <= s < o_scenarios o)%Z -> precise_problem (os s)) -> scenario_variables o ->
  forall y, optimal y (st_solver st) <-> forall s, (0 <= s < o_scenarios o)%Z -> optimal (fun i => y (f s i)) (st_solver (sts s)).
Proof.
  intros Hg HA Hst Hos HT HP Exact Own y.
  exact (separate o st os sts f Hg HA Hst Hos HT HP (fun s Hs => proj1 (proj2 (Exact s Hs))) Own Exact y).
Qed.
