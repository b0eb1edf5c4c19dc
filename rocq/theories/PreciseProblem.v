(** The problem solved is the one written, when data have limited precision (C81). *)
From Coq Require Import Lia.
From Verif Require Import Base Expr Visitors Expansion LinearExpr Linearize Model Study Strategy Optim
  BaseFacts SpecExpr SpecSyntax SpecVisitors SpecExpansion SpecLinear SpecModel SpecOptim SpecScenarios SpecPrecise
  ExprFacts CopyFacts VisitorFacts ExpansionFacts LinearFacts ModelFacts OptimFacts OptimMeaning MentionFacts
  PreciseFacts OptimProblem OptimNames.

Lemma combined {A B C} (R : A -> B * C -> Prop) (P : A -> C -> Prop) l (b : list B) (c : list C) : List.length b = List.length c ->
  (forall a p, R a p -> P a (snd p)) -> Forall2 R l (combine b c) -> Forall2 P l c.
Proof.
  intros HL HP. revert b c HL. induction l as [|a l IH]; intros [|x b] [|y c] HL H; inversion H; subst; try discriminate; constructor.
  - match goal with H : R _ _ |- _ => exact (HP _ _ H) end.
  - eapply IH; [|eassumption]. now injection HL.
Qed.
Lemma exact_rows o st : good_problem o -> build_problem o = Ok st ->
  Forall2 (fun i row => let '(c, k, t0, s0) := i in precise_constraint o c k ->
      forall x y, admissible_decisions o x -> represents o st y x -> forall t s, stands_for o i t s ->
      (row_sat y row <-> constraint_holds (component_world o x (co_id c)) (c_expr k) (c_lower k) (c_upper k) t s))
    (row_instances o) (s_rows (st_solver st)).
Proof.
  intros Hg Hb. destruct (problem_rows_exact o st Hg Hb) as (drops & HL & HF). revert HF. apply combined; [exact HL|].
  intros [[[c k] t0] s0] [d row] (_ & V & _ & M) HP x y Hx Hy t s Hts. cbn [fst snd] in *.
  rewrite (M x y Hx Hy t s Hts). apply without_vanishing. auto.
Qed.
Lemma exact_objective o st : good_problem o -> build_problem o = Ok st ->
  (forall ce, In ce (contributions o) -> precise_contribution o ce) ->
  forall x y t s, admissible_decisions o x -> represents o st y x ->
  exists v, objective_value y (st_solver st) = Some v /\ osum (map (contribution_value o x t s) (contributions o)) = Some v.
Proof.
  intros Hg Hb HP x y t s Hx Hy. destruct (objective_exact o st Hg Hb) as (d & _ & V & M).
  destruct (M x y t s Hx Hy) as (v & E1 & E2). exists v. split; [|exact E1]. rewrite (vanishing_value _ _ (V HP)) in E2.
  destruct (objective_value y (st_solver st)) as [w|]; [|discriminate]. cbn in E2. injection E2 as <-. f_equal. ring.
Qed.
Lemma Forall2_In_left {A B} (R : A -> B -> Prop) l l' a : Forall2 R l l' -> In a l -> exists b, In b l' /\ R a b.
Proof. induction 1 as [|x y l l' H HF IH]; intros []; [subst; exists y; split; [now left|exact H]|]. destruct (IH H0) as (b & Hb & Hr). exists b. split; [now right|exact Hr]. Qed.
Lemma Forall2_In_right {A B} (R : A -> B -> Prop) l l' b : Forall2 R l l' -> In b l' -> exists a, In a l /\ R a b.
Proof. induction 1 as [|x y l l' H HF IH]; intros []; [subst; exists x; split; [now left|exact H]|]. destruct (IH H0) as (a & Ha & Hr). exists a. split; [now right|exact Hr]. Qed.
Lemma zero_or_one (q : Qc) : (0 <= q)%Qc -> (q <= 1)%Qc -> (exists z, q = Z2Qc z) -> q = 0%Qc \/ q = 1%Qc.
Proof.
  intros H0 H1 [z ->]. rewrite <- Z2Qc_0 in H0 |- *. rewrite <- Z2Qc_1 in H1 |- *. apply (proj1 (Z2Qc_le _ _)) in H0. apply (proj1 (Z2Qc_le _ _)) in H1.
  assert (E : z = 0%Z \/ z = 1%Z) by lia. destruct E as [-> | ->]; auto.
Qed.
Lemma written_lower o id b t s v : good_variable_bound b -> bound_is o id NInf b t s v -> forall x t' s' q,
  at_least v q <-> (forall e, b = Some e -> lower_ok (component_world o x id) e (odefault t' t) (odefault s' s) q).
Proof.
  intros Hg Hb x t' s' q. destruct b as [e|]; cbn [bound_is] in Hb.
  2:{ subst v. cbn. split; [discriminate|auto]. }
  assert (E : at_least v q <-> lower_ok (component_world o x id) e (odefault t' t) (odefault s' s) q).
  { destruct (Hg e eq_refl) as [(w & -> & Hn)|[Hfin _]].
    - subst v. unfold lower_ok. destruct w; cbn; try tauto; [|split; [tauto|intros (? & [=] & _)]].
      split; [eauto|]. intros (? & [= <-] & H). exact H.
    - rewrite (lower_finite _ _ _ _ _ Hfin).
      assert (B : exists r, v = Fin r /\ den (component_world o x id) e (odefault t' t) (odefault s' s) = Some r).
      { destruct e; try (destruct Hb as (r & -> & Hr); exists r; split; [reflexivity|apply Hr]). subst v.
        destruct v0 as [r| | |]; try (apply all_nodes_root in Hfin; contradiction). exists r. split; reflexivity. }
      destruct B as (r & -> & Hr). cbn. rewrite Hr. split; [eauto|]. intros (? & [= <-] & H). exact H. }
  split; [intros H e' [= <-]; now apply E|intros H; apply E; now apply H].
Qed.
Lemma written_upper o id b t s v : good_variable_bound b -> bound_is o id PInf b t s v -> forall x t' s' q,
  at_most v q <-> (forall e, b = Some e -> upper_ok (component_world o x id) e (odefault t' t) (odefault s' s) q).
Proof.
  intros Hg Hb x t' s' q. destruct b as [e|]; cbn [bound_is] in Hb.
  2:{ subst v. cbn. split; [discriminate|auto]. }
  assert (E : at_most v q <-> upper_ok (component_world o x id) e (odefault t' t) (odefault s' s) q).
  { destruct (Hg e eq_refl) as [(w & -> & Hn)|[Hfin _]].
    - subst v. unfold upper_ok. destruct w; cbn; try tauto; [|split; [tauto|intros (? & [=] & _)]].
      split; [eauto|]. intros (? & [= <-] & H). exact H.
    - rewrite (upper_finite _ _ _ _ _ Hfin).
      assert (B : exists r, v = Fin r /\ den (component_world o x id) e (odefault t' t) (odefault s' s) = Some r).
      { destruct e; try (destruct Hb as (r & -> & Hr); exists r; split; [reflexivity|apply Hr]). subst v.
        destruct v0 as [r| | |]; try (apply all_nodes_root in Hfin; contradiction). exists r. split; reflexivity. }
      destruct B as (r & -> & Hr). cbn. rewrite Hr. split; [eauto|]. intros (? & [= <-] & H). exact H. }
  split; [intros H e' [= <-]; now apply E|intros H; apply E; now apply H].
Qed.
Section Plans.
  Context (o : settings) (st : state).
  Hypothesis Hgood : good_problem o.
  Hypothesis Hb : build_problem o = Ok st.
  Hypothesis HP : precise_problem o.
  Lemma exact_columns x y : admissible_decisions o x -> represents o st y x ->
    (forall i v, nth_error (s_vars (st_solver st)) i = Some v -> in_column v (y i)) <->
    (forall c v t s, instance_of o c v t s ->
       allowed o x c v (odefault 0%Z t) (odefault 0%Z s) (x (co_id c) (v_name v) (odefault 0%Z t) (odefault 0%Z s))).
  Proof.
    intros Hx Hy. pose proof Hgood as (Hu & HS & Hrisk & Hbn & Hd & Hm & Hk & Hf & _).
    assert (Hnn : named_network (o_network o)) by (intros c Hc; apply (Hm c Hc)).
    pose proof (variable_bounds o st Hu Hd Hnn Hbn Hk Hf Hb) as HB.
    pose proof (reads_variable o st Hu Hd Hnn Hb) as (H1 & _ & H3 & _).
    destruct HP as (_ & _ & HV).
    assert (G : forall i sv, nth_error (s_vars (st_solver st)) i = Some sv ->
      exists c v t s, instance_of o c v t s /\ get_component_variable o st t s (co_id c) (v_name v) = Ok i /\
      (in_column sv (y i) <-> allowed o x c v (odefault 0%Z t) (odefault 0%Z s) (x (co_id c) (v_name v) (odefault 0%Z t) (odefault 0%Z s)))).
    { intros i sv Hi. destruct (HB i sv Hi) as (c & v & t & s & Hin & Hg & Hbd). exists c, v, t, s. split; [exact Hin|]. split; [exact Hg|].
      destruct (HV c v (proj1 Hin) (proj1 (proj2 Hin))) as [HL HU]. specialize (Hbd HL HU).
      rewrite <- (Hy c v t s i Hin Hg 0%Z 0%Z). unfold in_column, allowed. destruct (v_type v).
      - destruct Hbd as (A & B & _ & E). rewrite (written_lower _ _ _ _ _ _ HL A x 0%Z 0%Z), (written_upper _ _ _ _ _ _ HU B x 0%Z 0%Z), E. intuition discriminate.
      - destruct Hbd as (A & B & _ & E). rewrite (written_lower _ _ _ _ _ _ HL A x 0%Z 0%Z), (written_upper _ _ _ _ _ _ HU B x 0%Z 0%Z), E. intuition.
      - destruct Hbd as (-> & -> & ->). cbn. split.
        + intros (A & B & D). apply zero_or_one; auto.
        + intros [-> | ->]; repeat split; try (apply Qcle_refl); try discriminate; intros _; [exists 0%Z; now rewrite Z2Qc_0|exists 1%Z; now rewrite Z2Qc_1]. }
    split.
    - intros H c v t s Hin. destruct (H1 c v t s Hin) as (i & sv & Hi & _ & Hget).
      destruct (G i sv Hi) as (c' & v' & t' & s' & Hin' & Hget' & E). 
      assert (Hw : forall t, (exists c v s, instance_of o c v t s) -> wrapped o t = t).
      { intros [z|] (c1 & v1 & s1 & (_ & _ & Ht & _)); [|reflexivity]. cbn in Ht |- *. f_equal. apply Z.mod_small. lia. }
      assert (Ht : wrapped o t = t) by (apply Hw; eauto). assert (Ht' : wrapped o t' = t') by (apply Hw; eauto).
      destruct (H3 _ _ _ _ _ _ _ _ _ (Hget t Ht) Hget') as (Eid & Ev & Et & Es). rewrite Ht, Ht' in Et. subst t' s'.
      destruct (instance_unique o Hd Hnn _ _ _ _ _ _ _ _ Hin Hin' Eid Ev) as [-> ->]. apply E. now apply H.
    - intros H i sv Hi. destruct (G i sv Hi) as (c' & v' & t' & s' & Hin' & _ & E). apply E. now apply H.
  Qed.
  Lemma exact_constraints x y : admissible_decisions o x -> represents o st y x ->
    Forall (row_sat y) (s_rows (st_solver st)) <->
    (forall c k t s, In c (all_components (o_network o)) -> In k (get_constraints (o_selection o) (co_model c)) ->
     (0 <= t < Z.of_nat (List.length (o_block o)))%Z -> (0 <= s < o_scenarios o)%Z ->
     constraint_holds (component_world o x (co_id c)) (c_expr k) (c_lower k) (c_upper k) t s).
  Proof.
    intros Hx Hy. destruct HP as (HC & _ & _).
    pose proof (exact_rows o st Hgood Hb) as HR.
    assert (HI : forall c k t0 s0, In (c, k, t0, s0) (row_instances o) ->
      In c (all_components (o_network o)) /\ In k (get_constraints (o_selection o) (co_model c)) /\
      (0 <= t0 < Z.of_nat (List.length (o_block o)))%Z /\ (0 <= s0 < o_scenarios o)%Z).
    { intros c k t0 s0 Hin. unfold row_instances in Hin. apply in_flat_map in Hin as (c' & Hc & Hin). apply in_flat_map in Hin as (k' & Hk & Hin).
      apply in_map_iff in Hin as ([t1 s1] & [= -> -> -> ->] & Hts). apply in_prod_iff in Hts as [Ht Hs]. split; [exact Hc|]. split; [exact Hk|]. split.
      - destruct Hgood as ([Hu _] & _). unfold steps in Ht. destruct (varies_in_time _ _ _); [now apply zrange_In in Ht|].
        destruct Ht as [<-|[]]. destruct (o_block o); [congruence|]. cbn [List.length]. lia.
      - destruct Hgood as (_ & HS & _). unfold steps in Hs. destruct (varies_in_scenario _ _ _); [now apply zrange_In in Hs|].
        destruct Hs as [<-|[]]. lia. }
    split.
    - intros HF c k t s Hc Hk Ht Hs. destruct (HC c k Hc Hk) as [HPk HB].
      destruct (Forall2_In_left _ _ _ _ HR (row_cover o c k t s Hc Hk Ht Hs)) as (row & Hrow & M). cbv beta iota in M.
      rewrite Forall_forall in HF. exact (proj1 (M HPk x y Hx Hy t s (row_stands o c k t s HB)) (HF row Hrow)).
    - intros H. apply Forall_forall. intros row Hrow. destruct (Forall2_In_right _ _ _ _ HR Hrow) as ([[[c k] t0] s0] & Hin & M). cbv beta iota in M.
      destruct (HI c k t0 s0 Hin) as (Hc & Hk & Ht & Hs). apply (M (proj1 (HC c k Hc Hk)) x y Hx Hy t0 s0); [split; auto|]. now apply H.
  Qed.
  Lemma exact_plans x y : admissible_decisions o x -> represents o st y x -> solves y (st_solver st) <-> feasible_plan o x.
  Proof. intros Hx Hy. unfold solves, feasible_plan. now rewrite (exact_columns x y Hx Hy), (exact_constraints x y Hx Hy). Qed.
  Lemma exact_cost x y : admissible_decisions o x -> represents o st y x ->
    objective_value y (st_solver st) = plan_cost o x /\ plan_cost o x <> None.
  Proof.
    intros Hx Hy. destruct (exact_objective o st Hgood Hb (proj1 (proj2 HP)) x y 0%Z 0%Z Hx Hy) as (v & E1 & E2).
    unfold plan_cost. rewrite E1, E2. split; [reflexivity|discriminate].
  Qed.
  Lemma exact_optimum x y : admissible_decisions o x -> represents o st y x -> optimal y (st_solver st) <-> cheapest_plan o x.
  Proof.
    intros Hx Hy. pose proof Hgood as (Hu & _ & _ & _ & Hd & Hm & _).
    assert (Hnn : named_network (o_network o)) by (intros c Hc; apply (Hm c Hc)).
    unfold optimal, cheapest_plan. rewrite (exact_plans x y Hx Hy), (proj1 (exact_cost x y Hx Hy)). apply and_iff_compat_l.
    split; intros (v & E & H); exists v; (split; [exact E|]).
    - intros x' v' Hx' Hf Hc. destruct (represented_exists o st Hu Hd Hnn Hb x' Hx') as [y' Hy'].
      apply (H y' v'); [now apply (exact_plans x' y')|]. now rewrite (proj1 (exact_cost x' y' Hx' Hy')).
    - intros y' v' Hs Hc. destruct (decisions_exist o st Hu Hd Hnn Hb y') as (x' & Hx' & Hy').
      apply (H x' v' Hx'); [now apply (exact_plans x' y')|]. now rewrite <- (proj1 (exact_cost x' y' Hx' Hy')).
  Qed.
End Plans.
