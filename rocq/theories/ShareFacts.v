(** Problems with some of the objectives, see SpecShare.v: they are complete, have the same solutions, and their costs add up. *)
From Coq Require Import Lia.
From Verif Require Import Base BaseFacts Expr Visitors LinearExpr Model Study Strategy Optim SpecExpr ExprFacts SpecSyntax SpecVisitors SpecLinear SpecModel
  SpecOptim SpecReady SpecScenarios SpecPrecise SpecParts SpecBlock SpecSame SpecReorder SpecShare LinearFacts OptimReady PreciseProblem ScenarioExact ScenarioReorder StructureFacts DropFacts
  ModelChange.
From Verif Require DecomposeFacts.

Section Share.
  Context (keep : string -> bool -> bool) (o : settings).
  Notation o' := (sharing keep o).
  Notation n' := (share_network keep (o_network o)).
  Lemma share_components n : all_components (share_network keep n) = map (share_component keep) (all_components n).
  Proof. unfold all_components. cbn [share_network n_nodes n_components]. rewrite map_app, !map_map. reflexivity. Qed.
  Lemma share_connected n c p f : connected (share_network keep n) c p f = connected n c p f.
  Proof. unfold connected. cbn [share_network n_connections]. induction (n_connections n) as [|k l IH]; [reflexivity|]. cbn [map flat_map]. rewrite IH. reflexivity. Qed.
  Lemma share_world x c e t s : den (component_world o' x c) e t s = den (component_world o x c) e t s.
  Proof. apply den_ports; try reflexivity. intros p f. cbn [component_world e_port sharing with_network o_network]. rewrite share_connected. reflexivity. Qed.
  Lemma share_lower x c lb t s v : lower_ok (component_world o' x c) lb t s v <-> lower_ok (component_world o x c) lb t s v.
  Proof. unfold lower_ok. now rewrite share_world. Qed.
  Lemma share_upper x c lb t s v : upper_ok (component_world o' x c) lb t s v <-> upper_ok (component_world o x c) lb t s v.
  Proof. unfold upper_ok. now rewrite share_world. Qed.
  Lemma share_holds x c e lb ub t s : constraint_holds (component_world o' x c) e lb ub t s <-> constraint_holds (component_world o x c) e lb ub t s.
  Proof. unfold constraint_holds. rewrite share_world. split; intros (v & H1 & H2 & H3); exists v; (split; [exact H1|]); (split; [now apply share_lower|now apply share_upper]). Qed.
  Lemma share_allowed x c v t s q : SpecPrecise.allowed o' x (share_component keep c) v t s q <-> SpecPrecise.allowed o x c v t s q.
  Proof.
    unfold SpecPrecise.allowed. cbn [share_component co_id]. destruct (v_type v); try reflexivity;
      (split; intros (H1 & H2 & H3); (split; [intros e He; apply share_lower; now apply H1|split; [intros e He; apply share_upper; now apply H2|exact H3]])).
  Qed.
  Lemma share_plan x : feasible_plan o x <-> feasible_plan o' x.
  Proof.
    unfold feasible_plan. cbn [sharing with_network o_network o_selection o_block o_scenarios]. rewrite share_components. split.
    - intros [H1 H2]. split.
      + intros c' v t s (I1 & I2 & I3 & I4). cbn [sharing with_network o_network] in I1. rewrite share_components in I1. apply in_map_iff in I1. destruct I1 as (c & <- & Hc).
        apply share_allowed. apply (H1 c v t s). repeat split; auto.
      + intros c' k t s Hc' Hk Ht Hs. apply in_map_iff in Hc'. destruct Hc' as (c & <- & Hc). apply share_holds. now apply (H2 c).
    - intros [H1 H2]. split.
      + intros c v t s (I1 & I2 & I3 & I4). apply (share_allowed x c). apply (H1 (share_component keep c) v t s). repeat split; auto.
        cbn [sharing with_network o_network]. rewrite share_components. now apply in_map.
      + intros c k t s Hc Hk Ht Hs. apply share_holds. apply (H2 (share_component keep c) k t s); auto. now apply in_map.
  Qed.
  Lemma share_admissible x : admissible_decisions o x <-> admissible_decisions o' x.
  Proof.
    unfold admissible_decisions. cbn [sharing with_network o_network o_block]. rewrite share_components. split; intros [H1 H2]; (split; [exact H1|]).
    - intros c' v Hc' Hv. apply in_map_iff in Hc'. destruct Hc' as (c & <- & Hc). exact (H2 c v Hc Hv).
    - intros c v Hc Hv. apply (H2 (share_component keep c) v); [now apply in_map|exact Hv].
  Qed.
  Lemma share_structure id : local_structure n' id = local_structure (o_network o) id.
  Proof.
    unfold local_structure. change n' with (change_network (share_model keep) (o_network o)). rewrite changed_component. now destruct (get_component (o_network o) id).
  Qed.
  Lemma share_in c' : In c' (all_components n') -> exists c, c' = share_component keep c /\ In c (all_components (o_network o)).
  Proof. rewrite share_components. intros H. apply in_map_iff in H. destruct H as (c & <- & H). now exists c. Qed.
  Lemma share_parameter P c n : has_parameter P o c n -> has_parameter P o' c n.
  Proof.
    intros (k & p & H1 & H2 & H3). exists (share_component keep k), p. split; [|split; [exact H2|exact H3]]. cbn [sharing with_network o_network]. rewrite share_components. now apply in_map.
  Qed.
  Lemma share_variable c n : chosen_variable o c n -> chosen_variable o' c n.
  Proof.
    intros (k & p & H1 & H2 & H3). exists (share_component keep k), p. split; [|split; [exact H2|exact H3]]. cbn [sharing with_network o_network]. rewrite share_components. now apply in_map.
  Qed.
  Let A1 : forall c p f, connected (o_network o') c p f = connected (o_network o) c p f := share_connected (o_network o).
  Let A2 id n : get_parameter_structure (local_structure (o_network o') id) n = get_parameter_structure (local_structure (o_network o) id) n := f_equal (fun s => get_parameter_structure s n) (share_structure id).
  Let A3 id n : get_variable_structure (local_structure (o_network o') id) n = get_variable_structure (local_structure (o_network o) id) n := f_equal (fun s => get_variable_structure s n) (share_structure id).
  Let A4 x : admissible_decisions o x -> admissible_decisions o' x := proj1 (share_admissible x).
  Let A5 := share_world.
  Lemma share_contribution ce : In ce (contributions o') -> exists c, fst ce = share_component keep c /\ In (c, snd ce) (contributions o).
  Proof.
    unfold contributions. cbn [sharing with_network o_network o_selection]. rewrite share_components. intros H. apply in_flat_map in H. destruct H as (c' & H1 & H2).
    apply in_map_iff in H1. destruct H1 as (c & <- & Hc). apply in_flat_map in H2. destruct H2 as (e & He & H3). destruct e as [e|]; [|contradiction]. destruct H3 as [<-|[]].
    exists c. split; [reflexivity|]. apply in_flat_map. exists c. split; [exact Hc|]. apply in_flat_map. exists (Some e). split; [|now left].
    revert He. cbn [share_component co_model]. destruct (o_selection o); cbn [get_objectives share_model m_operational m_investment fst snd];
      destruct (keep (m_id (co_model c)) true), (keep (m_id (co_model c)) false); cbn [In]; intuition discriminate.
  Qed.
  Lemma share_good_model m : good_model m -> good_model (share_model keep m).
  Proof.
    intros (N & K & H & D). split; [exact N|]. split; [exact K|]. split; [|exact D]. intros e He. apply H. revert He. cbn [share_model m_operational m_investment].
    destruct (keep (m_id m) true), (keep (m_id m) false); intuition discriminate.
  Qed.
  Lemma share_good : good_problem o -> good_problem o'.
  Proof.
    intros (H1 & H2 & H3 & H4 & H5 & H6 & H7 & H8 & H9). split; [exact H1|]. split; [exact H2|]. split; [exact H3|].
    split; [exact (built_changed (share_model keep) (fun _ => eq_refl) (fun _ => eq_refl) _ H4)|]. split; [exact (changed_ids (share_model keep) _ H5)|]. split; [|split; [|split; [exact H8|]]].
    - intros c' Hc'. apply share_in in Hc'. destruct Hc' as (c & -> & Hc). apply share_good_model. now apply H6.
    - intros k' Hk'. cbn in Hk'. apply in_map_iff in Hk'. destruct Hk' as (k & <- & Hk). destruct (H7 k Hk). split; now apply share_good_model.
    - intros c' p Hc' Hp. cbn [sharing with_network o_network share_network n_nodes] in Hc'. rewrite map_map in Hc'. apply in_map_iff in Hc'. destruct Hc' as (ic & <- & Hc). apply (H9 (snd ic) p); [now apply in_map|exact Hp].
  Qed.
  Lemma share_ready : ready_problem o -> ready_problem o'.
  Proof.
    intros (R1 & R2 & R3 & R4 & R5). split; [|split; [|split; [|split]]].
    - intros c' p Hc' Hp. cbn [sharing with_network o_network share_network n_components] in Hc'. rewrite map_map in Hc'. apply in_map_iff in Hc'. destruct Hc' as (ic & <- & Hc). apply (R1 (snd ic) p); [now apply in_map|exact Hp].
    - intros k' f d Hk' Hd. cbn in Hk'. apply in_map_iff in Hk'. destruct Hk' as (k & <- & Hk). apply (definition_alike o); auto using share_parameter, share_variable. exact (R2 k f d Hk Hd).
    - intros c' v Hc' Hv. apply share_in in Hc'. destruct Hc' as (c & -> & Hc). destruct (R3 c v Hc Hv) as (B1 & B2 & B3).
      split; [apply (variable_bound_alike o o') with (v := v); auto using share_parameter|]. split; [apply (variable_bound_alike o o') with (v := v); auto using share_parameter|].
      intros t s (_ & _ & I3 & I4). destruct (B3 t s) as (lo & hi & L & H & O); [split; [exact Hc|split; [exact Hv|split; [exact I3|exact I4]]]|]. exists lo, hi.
      split; [now apply (reads_alike o)|]. split; [now apply (reads_alike o)|exact O].
    - intros c' k Hc' Hk. apply share_in in Hc'. destruct Hc' as (c & -> & Hc). destruct (R4 c k Hc Hk) as (H1 & H2 & H3).
      split; [apply (expression_alike o); auto using share_parameter, share_variable|]. split; apply (bound_alike o); auto using share_parameter, share_variable.
    - intros c' e Hin. destruct (share_contribution _ Hin) as (c & E & Hc). cbn [fst snd] in *. subst c'. destruct (R5 c e Hc) as (H1 & H2 & H3).
      split; [apply (expression_alike o); auto using share_parameter, share_variable|]. unfold varies_in_time, varies_in_scenario in *. rewrite !(varies_in_alike o o' A1 A2 A3). split; [exact H2|exact H3].
  Qed.
  Lemma share_precise : precise_problem o -> precise_problem o'.
  Proof.
    intros (H1 & H2 & H3). split; [|split].
    - intros c' k Hc' Hk. apply share_in in Hc'. destruct Hc' as (c & -> & Hc). destruct (H1 c k Hc Hk) as [(D & HD & HP) HB].
      split; [|now apply (follow_alike o)]. exists D. split; [exact HD|]. now apply (precise_in_alike o).
    - intros ce Hce. destruct (share_contribution _ Hce) as (c & E & Hc). destruct (H2 _ Hc) as (D1 & D2 & p & K1 & K2 & K3 & K4 & K5). exists D1, D2, p.
      split; [exact K1|]. split; [exact K2|]. split; [exact K3|]. split; [|exact K5]. rewrite E. now apply (precise_in_alike o).
    - intros c' v Hc' Hv. apply share_in in Hc'. destruct Hc' as (c & -> & Hc). exact (H3 c v Hc Hv).
  Qed.
End Share.
Lemma shared_complete keep o : complete_problem o -> complete_problem (sharing keep o).
Proof. intros (G & R & P). split; [now apply share_good|]. split; [now apply share_ready|now apply share_precise]. Qed.
Lemma share_cost keep o x : plan_cost o x = oplus (plan_cost (sharing keep o) x) (plan_cost (sharing (others keep) o) x).
Proof.
  unfold plan_cost, contributions. cbn [sharing with_network o_network o_selection]. rewrite !share_components.
  rewrite !flat_map_concat_map, !map_map, <- !flat_map_concat_map. apply DecomposeFacts.osum_two. intros c _.
  assert (G : forall k e, contribution_value (sharing k o) x 0 0 (share_component k c, e) = contribution_value o x 0 0 (c, e)).
  { intros k e. unfold contribution_value. cbn [fst snd share_component co_id sharing with_network o_risk]. now rewrite share_world. }
  assert (Z0 : forall a, oplus a (Some 0%Qc) = a) by (intros [a|]; cbn; [f_equal; ring|reflexivity]).
  assert (Z1 : forall a, oplus (Some 0%Qc) a = a) by (intros [a|]; cbn; [f_equal; ring|reflexivity]).
  assert (Z2 : forall a b, oplus a b = oplus b a) by (intros [a|] [b|]; cbn; try reflexivity; f_equal; ring).
  cbn [share_component co_model]. destruct (o_selection o); cbn [get_objectives share_model m_operational m_investment flat_map]; unfold others;
    destruct (keep (m_id (co_model c)) true), (keep (m_id (co_model c)) false), (m_operational (co_model c)) as [e1|], (m_investment (co_model c)) as [e2|]; cbn [negb app map];
    rewrite ?G, ?osum_cons; change (osum []) with (Some 0%Qc); rewrite ?Z0, ?Z1; auto.
Qed.
Section Both.
  Context (keep : string -> bool -> bool) (o : settings) (st st1 st2 : state).
  Notation o1 := (sharing keep o).
  Notation o2 := (sharing (others keep) o).
  Hypothesis HC : complete_problem o.
  Hypothesis Hst : build_problem o = Ok st.
  Hypothesis Hst1 : build_problem o1 = Ok st1.
  Hypothesis Hst2 : build_problem o2 = Ok st2.
  Lemma share_solution k o' st' : o' = sharing k o -> build_problem o' = Ok st' -> forall x y y', admissible_decisions o x -> represents o st y x -> represents o' st' y' x ->
    (solves y (st_solver st) <-> solves y' (st_solver st')) /\ objective_value y' (st_solver st') = plan_cost o' x.
  Proof.
    intros -> B x y y' Hx Hr Hr'. destruct HC as (G & R & P). destruct (shared_complete k o HC) as (G' & R' & P'). pose proof (proj1 (share_admissible k o x) Hx) as Hx'. split.
    - rewrite (exact_plans o st G Hst P x y Hx Hr), (exact_plans _ st' G' B P' x y' Hx' Hr'). apply share_plan.
    - exact (proj1 (exact_cost _ st' G' B P' x y' Hx' Hr')).
  Qed.
  Lemma share_sum x y y1 y2 : admissible_decisions o x -> represents o st y x -> represents o1 st1 y1 x -> represents o2 st2 y2 x ->
    objective_value y (st_solver st) = oplus (objective_value y1 (st_solver st1)) (objective_value y2 (st_solver st2)).
  Proof.
    intros Hx Hr H1 H2. destruct HC as (G & R & P). rewrite (proj1 (exact_cost o st G Hst P x y Hx Hr)).
    rewrite (proj2 (share_solution keep o1 st1 eq_refl Hst1 x y y1 Hx Hr H1)), (proj2 (share_solution (others keep) o2 st2 eq_refl Hst2 x y y2 Hx Hr H2)). apply share_cost.
  Qed.
  Lemma all_values z : exists x z1 z2, admissible_decisions o x /\ represents o st z x /\ represents o1 st1 z1 x /\ represents o2 st2 z2 x.
  Proof.
    destruct HC as (G & _). destruct (decisions_of_values o st z G Hst) as (x & Hx & Hr).
    destruct (values_of o1 st1 x (proj1 (shared_complete keep o HC)) Hst1 (proj1 (share_admissible keep o x) Hx)) as [z1 Hr1].
    destruct (values_of o2 st2 x (proj1 (shared_complete (others keep) o HC)) Hst2 (proj1 (share_admissible (others keep) o x) Hx)) as [z2 Hr2].
    exists x, z1, z2. auto.
  Qed.
  (** no solution costs less than the least costs of the two shares together *)
  Lemma share_below v1 v2 : (forall y v, solves y (st_solver st1) -> objective_value y (st_solver st1) = Some v -> (v1 <= v)%Qc) ->
    (forall y v, solves y (st_solver st2) -> objective_value y (st_solver st2) = Some v -> (v2 <= v)%Qc) ->
    forall z v, solves z (st_solver st) -> objective_value z (st_solver st) = Some v -> (v1 + v2 <= v)%Qc.
  Proof.
    intros B1 B2 z v Hz E. destruct (all_values z) as (x & z1 & z2 & Hx & Hr & Hr1 & Hr2). pose proof (share_sum x z z1 z2 Hx Hr Hr1 Hr2) as ES. rewrite E in ES.
    destruct (objective_value z1 (st_solver st1)) as [w1|] eqn:E1; [|discriminate]. destruct (objective_value z2 (st_solver st2)) as [w2|] eqn:E2; [|discriminate]. injection ES as ->.
    apply Qcplus_le_compat.
    - apply (B1 z1); [|exact E1]. now apply (proj1 (share_solution keep o1 st1 eq_refl Hst1 x z z1 Hx Hr Hr1)).
    - apply (B2 z2); [|exact E2]. now apply (proj1 (share_solution (others keep) o2 st2 eq_refl Hst2 x z z2 Hx Hr Hr2)).
  Qed.
End Both.
Lemma share_together keep o : complete_problem o ->
  exists st st1 st2, build_problem o = Ok st /\ build_problem (sharing keep o) = Ok st1 /\ build_problem (sharing (others keep) o) = Ok st2 /\
  (forall x y y1 y2, admissible_decisions o x -> represents o st y x -> represents (sharing keep o) st1 y1 x -> represents (sharing (others keep) o) st2 y2 x ->
    (solves y (st_solver st) <-> solves y1 (st_solver st1)) /\ (solves y (st_solver st) <-> solves y2 (st_solver st2)) /\
    (exists v1 v2, objective_value y1 (st_solver st1) = Some v1 /\ objective_value y2 (st_solver st2) = Some v2 /\ objective_value y (st_solver st) = Some (v1 + v2)%Qc) /\
    (optimal y1 (st_solver st1) -> optimal y2 (st_solver st2) -> optimal y (st_solver st))) /\
  (forall v v1 v2, least_cost (st_solver st) v -> least_cost (st_solver st1) v1 -> least_cost (st_solver st2) v2 -> (v1 + v2 <= v)%Qc).
Proof.
  intros HC. pose proof HC as (G & R & P). destruct (shared_complete keep o HC) as (G1 & R1 & _). destruct (shared_complete (others keep) o HC) as (G2 & R2 & _).
  destruct (problem_built o G R) as [st Hst]. destruct (problem_built _ G1 R1) as [st1 Hst1]. destruct (problem_built _ G2 R2) as [st2 Hst2]. exists st, st1, st2.
  split; [exact Hst|]. split; [exact Hst1|]. split; [exact Hst2|]. split.
  - intros x y y1 y2 Hx Hr Hr1 Hr2. pose proof (proj1 (share_solution o st HC Hst keep _ st1 eq_refl Hst1 x y y1 Hx Hr Hr1)) as S1.
    split; [exact S1|]. split; [exact (proj1 (share_solution o st HC Hst (others keep) _ st2 eq_refl Hst2 x y y2 Hx Hr Hr2))|].
    pose proof (share_sum keep o st st1 st2 HC Hst Hst1 Hst2 x y y1 y2 Hx Hr Hr1 Hr2) as ES. split.
    { destruct (exact_cost o st G Hst P x y Hx Hr) as [EC NC]. rewrite EC in ES. destruct (plan_cost o x) as [v|]; [|congruence]. rewrite EC.
      destruct (objective_value y1 (st_solver st1)) as [v1|]; [|discriminate]. destruct (objective_value y2 (st_solver st2)) as [v2|]; [|discriminate]. injection ES as ->. now exists v1, v2. }
    intros (Hy1 & v1 & E1 & B1) (Hy2 & v2 & E2 & B2). split; [now apply S1|]. exists (v1 + v2)%Qc. split; [now rewrite ES, E1, E2|].
    now apply (share_below keep o st st1 st2 HC Hst Hst1 Hst2).
  - intros v v1 v2 (y & (Hy & _) & E) (y1 & (Hy1 & w1 & F1 & B1) & E1) (y2 & (Hy2 & w2 & F2 & B2) & E2). rewrite E1 in F1. rewrite E2 in F2. injection F1 as <-. injection F2 as <-.
    now apply (share_below keep o st st1 st2 HC Hst Hst1 Hst2 v1 v2 B1 B2 y).
Qed.
