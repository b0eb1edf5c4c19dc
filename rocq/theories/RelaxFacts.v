(** Relaxing whole-number variables (see PropRelax.v). *)
From Coq Require Import Lia.
From Verif Require Import Base BaseFacts Expr Visitors LinearExpr Model Study Strategy Optim SpecExpr ExprFacts SpecSyntax SpecExpansion SpecLinear SpecModel
  SpecOptim SpecReady SpecScenarios SpecPrecise SpecParts SpecSame SpecReorder SpecRelax OptimFacts OptimMeaning OptimProblem OptimReady OptimNames PreciseFacts PreciseProblem ScenarioExact ScenarioReady DropFacts.

Section Relax.
  Context (free : string -> string -> bool).
  Lemma relax_components n : all_components (relax_network free n) = map (relax_component free) (all_components n).
  Proof. unfold all_components. cbn [relax_network n_nodes n_components]. rewrite map_app, !map_map. reflexivity. Qed.
  Lemma relax_connected n c p f : connected (relax_network free n) c p f = connected n c p f.
  Proof. unfold connected. cbn [relax_network n_connections]. induction (n_connections n) as [|k l IH]; [reflexivity|]. cbn [map flat_map]. rewrite IH. reflexivity. Qed.
  Lemma relax_world o x c e t s : den (component_world (relaxing free o) x c) e t s = den (component_world o x c) e t s.
  Proof. apply den_ports; try reflexivity. intros p f. cbn [component_world e_port relaxing with_network o_network]. rewrite relax_connected. reflexivity. Qed.
  Lemma relax_variables sel m v' : In v' (get_variables sel (relax_model free m)) <-> exists v, v' = relax_variable free (m_id m) v /\ In v (get_variables sel m).
  Proof.
    unfold get_variables. cbn [relax_model m_variables]. rewrite map_map. cbn [snd]. rewrite filter_In, in_map_iff. split.
    - intros [(kv & <- & H) K]. exists (snd kv). split; [reflexivity|]. apply filter_In. split; [now apply in_map|exact K].
    - intros (v & -> & H). apply filter_In in H. destruct H as [H K]. apply in_map_iff in H. destruct H as (kv & <- & H). split; [now exists kv|exact K].
  Qed.
  Lemma relax_lower o x c lb t s v : lower_ok (component_world (relaxing free o) x c) lb t s v <-> lower_ok (component_world o x c) lb t s v.
  Proof. unfold lower_ok. now rewrite relax_world. Qed.
  Lemma relax_upper o x c lb t s v : upper_ok (component_world (relaxing free o) x c) lb t s v <-> upper_ok (component_world o x c) lb t s v.
  Proof. unfold upper_ok. now rewrite relax_world. Qed.
  Lemma relax_holds o x c e lb ub t s : constraint_holds (component_world (relaxing free o) x c) e lb ub t s <-> constraint_holds (component_world o x c) e lb ub t s.
  Proof. unfold constraint_holds. rewrite relax_world. split; intros (v & H1 & H2 & H3); exists v; (split; [exact H1|]); (split; [now apply relax_lower|now apply relax_upper]). Qed.
  Lemma relax_allowed o x c v t s q :
    SpecPrecise.allowed o x c v t s q <-> SpecPrecise.allowed (relaxing free o) x (relax_component free c) (relax_variable free (m_id (co_model c)) v) t s q /\
      (v_type v = INTEGER -> free (m_id (co_model c)) (v_name v) = true -> exists z, q = Z2Qc z).
  Proof.
    unfold SpecPrecise.allowed. cbn [relax_component co_id relax_variable v_type v_lower v_upper].
    assert (L : (forall e, v_lower v = Some e -> lower_ok (component_world (relaxing free o) x (co_id c)) e t s q) <-> (forall e, v_lower v = Some e -> lower_ok (component_world o x (co_id c)) e t s q)).
    { split; intros H e He; apply relax_lower; now apply H. }
    assert (U : (forall e, v_upper v = Some e -> upper_ok (component_world (relaxing free o) x (co_id c)) e t s q) <-> (forall e, v_upper v = Some e -> upper_ok (component_world o x (co_id c)) e t s q)).
    { split; intros H e He; apply relax_upper; now apply H. }
    destruct (v_type v); [|destruct (free (m_id (co_model c)) (v_name v))|].
    - rewrite L, U. split; [intros H; split; [exact H|discriminate]|tauto].
    - rewrite L, U. split.
      + intros (H1 & H2 & H3). split; [|auto]. split; [exact H1|]. split; [exact H2|discriminate].
      + intros [(H1 & H2 & _) H3]. auto.
    - rewrite L, U. split; [intros H; split; [exact H|discriminate]|tauto].
    - split; [intros H; split; [exact H|discriminate]|tauto].
  Qed.
  Lemma relax_cost o x : plan_cost (relaxing free o) x = plan_cost o x.
  Proof.
    unfold plan_cost. f_equal. unfold contributions. cbn [relaxing with_network o_network o_selection]. rewrite relax_components.
    induction (all_components (o_network o)) as [|c l IH]; [reflexivity|]. cbn [map flat_map]. rewrite !map_app, IH. f_equal.
    assert (E : forall l : list (option expr), map (contribution_value (relaxing free o) x 0 0) (flat_map (fun e => match e with Some e => [(relax_component free c, e)] | None => [] end) l) =
      map (contribution_value o x 0 0) (flat_map (fun e => match e with Some e => [(c, e)] | None => [] end) l)).
    { induction l0 as [|[e|] l0 IH0]; cbn [flat_map]; rewrite ?map_app, ?IH0; auto. cbn [map app]. f_equal.
      unfold contribution_value. cbn [fst snd relax_component co_id relaxing with_network o_risk]. now rewrite relax_world. }
    apply E.
  Qed.
  Lemma relax_plan o x : feasible_plan o x <-> feasible_plan (relaxing free o) x /\ relaxed_whole free o x.
  Proof.
    unfold feasible_plan, relaxed_whole. cbn [relaxing with_network o_network o_selection o_block o_scenarios]. rewrite relax_components. split.
    - intros [H1 H2]. split; [split|].
      + intros c' v' t s (I1 & I2 & I3 & I4). cbn [relaxing with_network o_network] in I1. rewrite relax_components in I1. apply in_map_iff in I1. destruct I1 as (c & <- & Hc).
        cbn [relax_component co_model relaxing with_network o_selection] in I2. apply relax_variables in I2. destruct I2 as (v & -> & Hv).
        apply (relax_allowed o x c v). apply (H1 c v t s). repeat split; auto.
      + intros c' k t s Hc' Hk Ht Hs. apply in_map_iff in Hc'. destruct Hc' as (c & <- & Hc). cbn [relax_component co_id].
        apply relax_holds. now apply H2.
      + intros c v t s I T F. pose proof (proj1 (relax_allowed o x c v _ _ _) (H1 c v t s I)) as [_ W]. now apply W.
    - intros [[H1 H2] H3]. split.
      + intros c v t s I. apply relax_allowed. split; [|now apply H3]. destruct I as (I1 & I2 & I3 & I4).
        apply (H1 (relax_component free c) (relax_variable free (m_id (co_model c)) v) t s). repeat split; auto.
        * cbn [relaxing with_network o_network]. rewrite relax_components. now apply in_map.
        * apply relax_variables. exists v. auto.
      + intros c k t s Hc Hk Ht Hs. apply relax_holds. apply (H2 (relax_component free c) k t s); auto. now apply in_map.
  Qed.
  Lemma relax_admissible o x : admissible_decisions o x <-> admissible_decisions (relaxing free o) x.
  Proof.
    unfold admissible_decisions. cbn [relaxing with_network o_network o_block]. rewrite relax_components. split; intros [H1 H2]; (split; [exact H1|]).
    - intros c' v' Hc' Hv. apply in_map_iff in Hc'. destruct Hc' as (c & <- & Hc). cbn [relax_component co_model relax_model m_variables] in Hv. rewrite map_map in Hv.
      apply in_map_iff in Hv. destruct Hv as (kv & <- & Hv). exact (H2 c (snd kv) Hc (in_map snd _ _ Hv)).
    - intros c v Hc Hv. apply (H2 (relax_component free c) (relax_variable free (m_id (co_model c)) v)); [now apply in_map|].
      cbn [relax_component co_model relax_model m_variables]. rewrite map_map. apply in_map_iff in Hv. destruct Hv as (kv & <- & Hv). apply in_map_iff. now exists kv.
  Qed.
  Context (o : settings) (st st' : state).
  Hypothesis Hg : good_problem o.
  Hypothesis Hg' : good_problem (relaxing free o).
  Hypothesis Hst : build_problem o = Ok st.
  Hypothesis Hst' : build_problem (relaxing free o) = Ok st'.
  Hypothesis HP : precise_problem o.
  Hypothesis HP' : precise_problem (relaxing free o).
  Lemma relax_solution x y y' : admissible_decisions o x -> represents o st y x -> represents (relaxing free o) st' y' x ->
    (solves y (st_solver st) <-> solves y' (st_solver st') /\ relaxed_whole free o x) /\
    objective_value y (st_solver st) = objective_value y' (st_solver st').
  Proof.
    intros Hx Hr Hr'. pose proof (proj1 (relax_admissible o x) Hx) as Hx'. split.
    - rewrite (exact_plans o st Hg Hst HP x y Hx Hr), (exact_plans _ st' Hg' Hst' HP' x y' Hx' Hr'). apply relax_plan.
    - rewrite (proj1 (exact_cost o st Hg Hst HP x y Hx Hr)), (proj1 (exact_cost _ st' Hg' Hst' HP' x y' Hx' Hr')). symmetry. apply relax_cost.
  Qed.
  Lemma relax_least v v' : least_cost (st_solver st) v -> least_cost (st_solver st') v' -> (v' <= v)%Qc.
  Proof.
    intros (y & (Hy & _) & E) (y1 & (Hy1 & w & E1 & Best) & E2). rewrite E2 in E1. injection E1 as <-.
    destruct (decisions_of_values o st y Hg Hst) as (x & Hx & Hr). destruct (values_of _ st' x Hg' Hst' (proj1 (relax_admissible o x) Hx)) as [y' Hr'].
    destruct (relax_solution x y y' Hx Hr Hr') as [A B]. apply (Best y'); [now apply A|congruence].
  Qed.
  Lemma relax_optimal x y y' : admissible_decisions o x -> represents o st y x -> represents (relaxing free o) st' y' x ->
    optimal y' (st_solver st') -> relaxed_whole free o x -> optimal y (st_solver st).
  Proof.
    intros Hx Hr Hr' (Hy' & v & E & Best) HD. destruct (relax_solution x y y' Hx Hr Hr') as [A B]. split; [now apply A|]. exists v. split; [congruence|].
    intros z w Hz Ew. destruct (decisions_of_values o st z Hg Hst) as (x2 & Hx2 & Hr2). destruct (values_of _ st' x2 Hg' Hst' (proj1 (relax_admissible o x2) Hx2)) as [z' Hr2'].
    destruct (relax_solution x2 z z' Hx2 Hr2 Hr2') as [A2 B2]. apply (Best z'); [now apply A2|congruence].
  Qed.
End Relax.
Lemma relax_together free o : complete_problem o -> complete_problem (relaxing free o) ->
  exists st st', build_problem o = Ok st /\ build_problem (relaxing free o) = Ok st' /\
  (forall x y y', admissible_decisions o x -> represents o st y x -> represents (relaxing free o) st' y' x ->
    (solves y (st_solver st) <-> solves y' (st_solver st') /\ relaxed_whole free o x) /\ objective_value y (st_solver st) = objective_value y' (st_solver st')) /\
  (forall v v', least_cost (st_solver st) v -> least_cost (st_solver st') v' -> (v' <= v)%Qc) /\
  (forall x y y', admissible_decisions o x -> represents o st y x -> represents (relaxing free o) st' y' x ->
    optimal y' (st_solver st') -> relaxed_whole free o x -> optimal y (st_solver st)).
Proof.
  intros (G & R & P) (G' & R' & P'). destruct (problem_built o G R) as [st Hst]. destruct (problem_built _ G' R') as [st' Hst']. exists st, st'.
  split; [exact Hst|]. split; [exact Hst'|]. split; [|split].
  - intros x y y'. now apply relax_solution.
  - intros v v'. now apply (relax_least free o).
  - intros x y y'. now apply relax_optimal.
Qed.
