(** Leaving out constraints of the models (see PropDrop.v). *)
From Coq Require Import Lia.
From Verif Require Import Base BaseFacts Expr Visitors LinearExpr Model Study Strategy Optim SpecExpr ExprFacts SpecSyntax SpecExpansion SpecLinear SpecModel
  SpecOptim SpecReady SpecScenarios SpecPrecise SpecParts SpecSame SpecReorder SpecDrop OptimFacts OptimMeaning OptimProblem OptimReady OptimNames PreciseFacts PreciseProblem ScenarioExact ScenarioReady.

(** worlds that differ in nothing give expressions the same values *)
Lemma den_ports E E' : e_var E = e_var E' -> e_par E = e_par E' -> e_cvar E = e_cvar E' -> e_cpar E = e_cpar E' -> e_T E = e_T E' -> e_S E = e_S E' ->
  (forall p f, e_port E p f = e_port E' p f) -> forall e t s, den E e t s = den E' e t s.
Proof.
  intros H1 H2 H3 H4 H5 H6 H7 e. induction e using expr_ind'; intros t s; cbn [den]; rewrite ?H1, ?H2, ?H3, ?H4, ?H5, ?H6, ?H7; auto.
  - now rewrite IHe.
  - f_equal. apply map_ext_Forall. revert H. apply Forall_impl. auto.
  - now rewrite IHe1, IHe2.
  - now rewrite IHe1, IHe2.
  - rewrite IHe2. destruct (oint _); auto.
  - rewrite IHe2. destruct (oint _); auto.
  - rewrite IHe2, IHe3. destruct (oint _); auto. destruct (oint _); auto. f_equal. apply map_ext. auto.
  - f_equal. apply map_ext. auto.
  - destruct o; auto; rewrite (map_ext (fun i => den E e t i) (fun i => den E' e t i)); auto.
  - destruct e; auto. destruct a; auto. now rewrite H7.
Qed.
Section Drop.
  Context (keep : string -> constraint -> bool).
  Lemma drop_components n : all_components (drop_network keep n) = map (drop_component keep) (all_components n).
  Proof. unfold all_components. cbn [drop_network n_nodes n_components]. rewrite map_app, !map_map. reflexivity. Qed.
  Lemma drop_definition r f : definition_of (drop_ref keep r) f = definition_of r f.
  Proof. reflexivity. Qed.
  Lemma drop_connected n c p f : connected (drop_network keep n) c p f = connected n c p f.
  Proof. unfold connected. cbn [drop_network n_connections]. induction (n_connections n) as [|k l IH]; [reflexivity|]. cbn [map flat_map]. rewrite IH. reflexivity. Qed.
  Lemma drop_world o x c e t s : den (component_world (dropping keep o) x c) e t s = den (component_world o x c) e t s.
  Proof. apply den_ports; try reflexivity. intros p f. cbn [component_world e_port dropping with_network o_network]. rewrite drop_connected. reflexivity. Qed.
  Lemma filter_snd (m : string) (d : dict string constraint) : map snd (filter (fun kc => keep m (snd kc)) d) = filter (keep m) (map snd d).
  Proof. induction d as [|[a b] d IH]; [reflexivity|]. cbn [filter snd map]. destruct (keep m b); cbn [map snd]; now rewrite IH. Qed.
  Lemma drop_constraints sel m k : In k (get_constraints sel (drop_model keep m)) <-> In k (get_constraints sel m) /\ keep (m_id m) k = true.
  Proof.
    unfold get_constraints. rewrite !filter_In. unfold get_all_constraints. cbn [drop_model m_binding_constraints m_constraints].
    rewrite !filter_snd, !in_app_iff, !filter_In. tauto.
  Qed.
  Lemma drop_lower o x c lb t s v : lower_ok (component_world (dropping keep o) x c) lb t s v <-> lower_ok (component_world o x c) lb t s v.
  Proof. unfold lower_ok. now rewrite drop_world. Qed.
  Lemma drop_upper o x c lb t s v : upper_ok (component_world (dropping keep o) x c) lb t s v <-> upper_ok (component_world o x c) lb t s v.
  Proof. unfold upper_ok. now rewrite drop_world. Qed.
  Lemma drop_holds o x c e lb ub t s : constraint_holds (component_world (dropping keep o) x c) e lb ub t s <-> constraint_holds (component_world o x c) e lb ub t s.
  Proof. unfold constraint_holds. rewrite drop_world. split; intros (v & H1 & H2 & H3); exists v; (split; [exact H1|]); (split; [now apply drop_lower|now apply drop_upper]). Qed.
  Lemma drop_allowed o x c v t s q : SpecPrecise.allowed (dropping keep o) x (drop_component keep c) v t s q <-> SpecPrecise.allowed o x c v t s q.
  Proof.
    unfold SpecPrecise.allowed. cbn [drop_component co_id]. destruct (v_type v); try reflexivity;
      (split; intros (H1 & H2 & H3); (split; [intros e He; apply drop_lower; now apply H1|split; [intros e He; apply drop_upper; now apply H2|exact H3]])).
  Qed.
  Lemma drop_cost o x : plan_cost (dropping keep o) x = plan_cost o x.
  Proof.
    unfold plan_cost. f_equal. unfold contributions. cbn [dropping with_network o_network o_selection]. rewrite drop_components.
    induction (all_components (o_network o)) as [|c l IH]; [reflexivity|]. cbn [map flat_map]. rewrite !map_app, IH. f_equal.
    assert (E : forall l : list (option expr), map (contribution_value (dropping keep o) x 0 0) (flat_map (fun e => match e with Some e => [(drop_component keep c, e)] | None => [] end) l) =
      map (contribution_value o x 0 0) (flat_map (fun e => match e with Some e => [(c, e)] | None => [] end) l)).
    { induction l0 as [|[e|] l0 IH0]; cbn [flat_map]; rewrite ?map_app, ?IH0; auto. cbn [map app]. f_equal.
      unfold contribution_value. cbn [fst snd drop_component co_id dropping with_network o_risk]. now rewrite drop_world. }
    apply E.
  Qed.
  Lemma drop_plan o x : feasible_plan o x <-> feasible_plan (dropping keep o) x /\ dropped_hold keep o x.
  Proof.
    unfold feasible_plan, dropped_hold. cbn [dropping with_network o_network o_selection o_block o_scenarios]. rewrite drop_components. split.
    - intros [H1 H2]. split; [split|].
      + intros c' v t s (I1 & I2 & I3 & I4). cbn [dropping with_network o_network] in I1. rewrite drop_components in I1. apply in_map_iff in I1. destruct I1 as (c & <- & Hc).
        apply drop_allowed. apply (H1 c v t s). repeat split; auto.
      + intros c' k t s Hc' Hk Ht Hs. apply in_map_iff in Hc'. destruct Hc' as (c & <- & Hc). cbn [drop_component co_model co_id] in *. apply drop_constraints in Hk.
        apply drop_holds. apply H2; tauto.
      + intros c k t s Hc Hk _ Ht Hs. now apply H2.
    - intros [[H1 H2] H3]. split.
      + intros c v t s (I1 & I2 & I3 & I4). apply (drop_allowed o x c). apply (H1 (drop_component keep c) v t s). repeat split; auto.
        cbn [dropping with_network o_network]. rewrite drop_components. now apply in_map.
      + intros c k t s Hc Hk Ht Hs. destruct (keep (m_id (co_model c)) k) eqn:E; [|now apply H3].
        apply drop_holds. apply (H2 (drop_component keep c) k t s); auto; [now apply in_map|]. apply drop_constraints. auto.
  Qed.
  Lemma drop_admissible o x : admissible_decisions o x <-> admissible_decisions (dropping keep o) x.
  Proof.
    unfold admissible_decisions. cbn [dropping with_network o_network o_block]. rewrite drop_components. split; intros [H1 H2]; (split; [exact H1|]).
    - intros c' v Hc' Hv. apply in_map_iff in Hc'. destruct Hc' as (c & <- & Hc). exact (H2 c v Hc Hv).
    - intros c v Hc Hv. apply (H2 (drop_component keep c) v); [now apply in_map|exact Hv].
  Qed.
  Context (o : settings) (st st' : state).
  Hypothesis Hg : good_problem o.
  Hypothesis Hg' : good_problem (dropping keep o).
  Hypothesis Hst : build_problem o = Ok st.
  Hypothesis Hst' : build_problem (dropping keep o) = Ok st'.
  Hypothesis HP : precise_problem o.
  Hypothesis HP' : precise_problem (dropping keep o).
  Lemma drop_solution x y y' : admissible_decisions o x -> represents o st y x -> represents (dropping keep o) st' y' x ->
    (solves y (st_solver st) <-> solves y' (st_solver st') /\ dropped_hold keep o x) /\
    objective_value y (st_solver st) = objective_value y' (st_solver st').
  Proof.
    intros Hx Hr Hr'. pose proof (proj1 (drop_admissible o x) Hx) as Hx'. split.
    - rewrite (exact_plans o st Hg Hst HP x y Hx Hr), (exact_plans _ st' Hg' Hst' HP' x y' Hx' Hr'). apply drop_plan.
    - rewrite (proj1 (exact_cost o st Hg Hst HP x y Hx Hr)), (proj1 (exact_cost _ st' Hg' Hst' HP' x y' Hx' Hr')). symmetry. apply drop_cost.
  Qed.
  Lemma values_of o1 st1 x : good_problem o1 -> build_problem o1 = Ok st1 -> admissible_decisions o1 x -> exists y, represents o1 st1 y x.
  Proof. intros (Hu & _ & _ & _ & Hd & Hm & _) Hb Hx. apply represented_exists; auto. intros c Hc. apply (Hm c Hc). Qed.
  Lemma drop_least v v' : least_cost (st_solver st) v -> least_cost (st_solver st') v' -> (v' <= v)%Qc.
  Proof.
    intros (y & (Hy & _) & E) (y1 & (Hy1 & w & E1 & Best) & E2). rewrite E2 in E1. injection E1 as <-.
    destruct (decisions_of_values o st y Hg Hst) as (x & Hx & Hr). destruct (values_of _ st' x Hg' Hst' (proj1 (drop_admissible o x) Hx)) as [y' Hr'].
    destruct (drop_solution x y y' Hx Hr Hr') as [A B]. apply (Best y'); [now apply A|congruence].
  Qed.
  Lemma drop_optimal x y y' : admissible_decisions o x -> represents o st y x -> represents (dropping keep o) st' y' x ->
    optimal y' (st_solver st') -> dropped_hold keep o x -> optimal y (st_solver st).
  Proof.
    intros Hx Hr Hr' (Hy' & v & E & Best) HD. destruct (drop_solution x y y' Hx Hr Hr') as [A B]. split; [now apply A|]. exists v. split; [congruence|].
    intros z w Hz Ew. destruct (decisions_of_values o st z Hg Hst) as (x2 & Hx2 & Hr2). destruct (values_of _ st' x2 Hg' Hst' (proj1 (drop_admissible o x2) Hx2)) as [z' Hr2'].
    destruct (drop_solution x2 z z' Hx2 Hr2 Hr2') as [A2 B2]. apply (Best z'); [now apply A2|congruence].
  Qed.
End Drop.
Lemma drop_together keep o : complete_problem o -> complete_problem (dropping keep o) ->
  exists st st', build_problem o = Ok st /\ build_problem (dropping keep o) = Ok st' /\
  (forall x y y', admissible_decisions o x -> represents o st y x -> represents (dropping keep o) st' y' x ->
    (solves y (st_solver st) <-> solves y' (st_solver st') /\ dropped_hold keep o x) /\ objective_value y (st_solver st) = objective_value y' (st_solver st')) /\
  (forall v v', least_cost (st_solver st) v -> least_cost (st_solver st') v' -> (v' <= v)%Qc) /\
  (forall x y y', admissible_decisions o x -> represents o st y x -> represents (dropping keep o) st' y' x ->
    optimal y' (st_solver st') -> dropped_hold keep o x -> optimal y (st_solver st)).
Proof.
  intros (G & R & P) (G' & R' & P'). destruct (problem_built o G R) as [st Hst]. destruct (problem_built _ G' R') as [st' Hst']. exists st, st'.
  split; [exact Hst|]. split; [exact Hst'|]. split; [|split].
  - intros x y y'. now apply drop_solution.
  - intros v v'. now apply (drop_least keep o).
  - intros x y y'. now apply drop_optimal.
Qed.
