(** C95: whole-number variables that may take any value. *)
From Coq Require Import Lia.
From Verif Require Import Base BaseFacts Expr Visitors Expansion LinearExpr Linearize Model Study Strategy Optim
  SpecExpr SpecSyntax SpecExpansion SpecLinear SpecModel SpecOptim SpecReady SpecOrder ExampleProblem SpecScenarios SpecPrecise SpecSeparate SpecParts SpecSame SpecReorder SpecRelax
  ScenarioFacts ScenarioCost PreciseFacts ScenarioExact ScenarioReady RelaxFacts RelaxReady OptimReady PropScenarios PropPrecise PropReady PropSeparate PropScenariosReady.
Local Open Scope string_scope.
Local Open Scope list_scope.

(** Decisions are a solution of a problem just when they are one of the problem in which some whole-number variables may take any
    value, and give these variables whole values; they cost the same in both. *)
Theorem C95_solutions :
  forall free o, complete_problem o ->
  exists st st', build_problem o = Ok st /\ build_problem (relaxing free o) = Ok st' /\
  forall x y y', admissible_decisions o x -> represents o st y x -> represents (relaxing free o) st' y' x ->
    (solves y (st_solver st) <-> solves y' (st_solver st') /\ relaxed_whole free o x) /\ objective_value y (st_solver st) = objective_value y' (st_solver st').
Proof. intros free o C. destruct (relax_together free o C (relaxed_complete free o C)) as (st & st' & B & B' & H & _). exists st, st'. auto. Qed.
Print Assumptions C95_solutions.

(** So the relaxed problem gives a lower bound of the optimal cost. *)
Theorem C95_bound :
  forall free o, complete_problem o ->
  exists st st', build_problem o = Ok st /\ build_problem (relaxing free o) = Ok st' /\
  forall v v', least_cost (st_solver st) v -> least_cost (st_solver st') v' -> (v' <= v)%Qc.
Proof. intros free o C. destruct (relax_together free o C (relaxed_complete free o C)) as (st & st' & B & B' & _ & H & _). exists st, st'. auto. Qed.
Print Assumptions C95_bound.

(** And an optimal solution of the relaxed problem with whole values is one of the problem itself. *)
Theorem C95_optimum :
  forall free o, complete_problem o ->
  exists st st', build_problem o = Ok st /\ build_problem (relaxing free o) = Ok st' /\
  forall x y y', admissible_decisions o x -> represents o st y x -> represents (relaxing free o) st' y' x ->
    optimal y' (st_solver st') -> relaxed_whole free o x -> optimal y (st_solver st).
Proof. intros free o C. destruct (relax_together free o C (relaxed_complete free o C)) as (st & st' & B & B' & _ & _ & H). exists st, st'. auto. Qed.
Print Assumptions C95_optimum.

(** ** A generator of whole power that must serve a demand of 5/2 or 50, according to the scenario *)
Definition exw_power (ty : value_type) : variable :=
  {| v_name := "p"; v_type := ty; v_lower := Some (nzl 0); v_upper := None; v_structure := time_and_scenario; v_context := OPERATIONAL |}.
Definition exw_generator (ty : value_type) : model := {|
  m_id := "generator";
  m_constraints := [("serve", exp_constraint "serve" (Var "p") (Param "demand") (Lit PInf))];
  m_binding_constraints := []; m_inter_block_dyn := false;
  m_parameters := [("demand", exp_parameter "demand" exq_scenario_only)];
  m_variables := [("p", exw_power ty)];
  m_operational := Some (ScenOp (AllSum (Mul (nzl 3) (Var "p"))) Expectation); m_investment := None; m_ports := []; m_port_definitions := [] |}.
Definition exw_half : Qc := Q2Qc (5 # 2).
Definition exw_settings (ty : value_type) : settings :=
  let l := lone_settings (exw_generator ty) [(("G", "demand"), ScenarioSeriesData [(0%Z, Fin exw_half); (1%Z, nz 50)] None)] in
  {| o_network := o_network l; o_database := o_database l; o_block := o_block l; o_scenarios := 2; o_cycle := true; o_selection := MergedProblem;
     o_risk := UniformRisk; o_tree_node := ""; o_full_names := true |}.
Definition exw_free (m v : string) : bool := String.eqb v "p".
Lemma exw_relaxed : relaxing exw_free (exw_settings INTEGER) = exw_settings CONTINUOUS.
Proof. reflexivity. Qed.
Lemma exw_good ty : good_problem (exw_settings ty).
Proof.
  split; [split; [discriminate|reflexivity]|]. split; [cbn; lia|]. split; [discriminate|].
  split; [apply bn_component, bn_new|]. split; [unfold distinct_ids; vm_compute; solve_nodup|]. split; [|split; [|split]].
  - intros c [<-|[]]. split; [|split; [|split]].
    + split; [solve_named|]. split; [solve_named|]. split; [solve_named|]. split; [solve_named|]. split; solve_named.
    + intros k [<-|[]]; (split; [split; [|split; [|split]]; solve_nodes|]); (split; [right; solve_nodes|now left]).
    + intros e [[= <-]|[=]]. split; [|split; [|split]]; solve_nodes.
    + intros f d [].
  - intros k [].
  - now apply database_finite.
  - intros c p [].
Qed.
Lemma exw_has_values ty id e :
  (forall t s, (t = 0 \/ t = 1)%Z -> (s = 0 \/ s = 1)%Z ->
     den (component_world (exw_settings ty) (fun _ _ _ _ => Z2Qc 0) id) e t s <> None) -> has_values (exw_settings ty) id e.
Proof. intros H t s Ht Hs. exists (fun _ _ _ _ => Z2Qc 0). split; [split; auto|]. apply H; apply small2; assumption. Qed.
Lemma exw_ready ty : ty <> BOOLEAN -> ready_problem (exw_settings ty).
Proof.
  intros NB. pose (g := {| co_model := exw_generator ty; co_id := "G" |}).
  assert (Hp : chosen_variable (exw_settings ty) "G" "p") by a_variable g (exw_power ty).
  assert (Hd : has_parameter (fun _ => True) (exw_settings ty) "G" "demand") by a_parameter g (exp_parameter "demand" exq_scenario_only).
  split; [|split; [|split; [|split]]].
  - intros c p [<-|[]] [<-|[]]. eexists. split; [reflexivity|]. split; cbn; auto.
  - intros k f d [].
  - intros c v [<-|[]] [<-|[]]. split; [|split].
    + intros e [= <-]. left. exists (nz 0). split; [reflexivity|discriminate].
    + intros e [=].
    + intros t s _. exists (nz 0), PInf. split; [reflexivity|]. split; [reflexivity|]. destruct ty; try exact I; congruence.
  - intros c k [<-|[]] [<-|[]]. split; [|split; [right|left; reflexivity]].
    + split; [cbn; tauto|]. split; [exact Hp|]. split; [exact I|]. apply exw_has_values; intros t s [->| ->] [->| ->]; vm_compute; discriminate.
    + split; [split; [solve_nodes|exact Hd]|]. apply exw_has_values; intros t s [->| ->] [->| ->]; vm_compute; discriminate.
  - intros c e Hin. vm_compute in Hin. destruct Hin as [[= <- <-]|[]]. split; [|split; reflexivity]. split; [cbn; tauto|]. split; [cbn; auto|]. split; [cbn; auto|].
    apply exw_has_values; intros t s [->| ->] [->| ->]; vm_compute; discriminate.
Qed.
Lemma exw_precise ty : precise_problem (exw_settings ty).
Proof.
  split; [|split].
  - intros c k [<-|[]] [<-|[]]. split; [|split; intros _; reflexivity]. exists 1%Z. split; [split; [lia|discriminate]|]. exact I.
  - intros ce Hce. vm_compute in Hce. destruct Hce as [<-|[]]. exists 2%Z, 1%Z, 1%Qc.
    split; [lia|]. split; [lia|]. split; [discriminate|]. split; [|split; [reflexivity|apply multiple_1]].
    exists 1%Z. split; [lia|]. split; [now exists 1%Z|]. exists 1%Z, 1%Z. split; [lia|]. split; [lia|]. split; [exists 1%Z; reflexivity|].
    split; [|exact I]. eexists. split; [reflexivity|exact (one_multiple 1 3)].
  - intros c v [<-|[]] [<-|[]]. split; intros e [= <-]. left. eexists. split; [reflexivity|discriminate].
Qed.
Example C95_example :
  complete_problem (exw_settings INTEGER) /\ complete_problem (relaxing exw_free (exw_settings INTEGER)) /\
  map sv_integer (s_vars (st_solver (built_of (exw_settings INTEGER)))) = [true; true; true; true] /\
  map sv_integer (s_vars (st_solver (built_of (relaxing exw_free (exw_settings INTEGER))))) = [false; false; false; false] /\
  objective_value (fun i => nth i [Z2Qc 3; Z2Qc 50; Z2Qc 3; Z2Qc 50] 0%Qc) (st_solver (built_of (exw_settings INTEGER))) = Some (Z2Qc 159) /\
  objective_value (fun i => nth i [exw_half; Z2Qc 50; exw_half; Z2Qc 50] 0%Qc) (st_solver (built_of (relaxing exw_free (exw_settings INTEGER)))) = Some (Q2Qc (315 # 2)).
Proof.
  rewrite exw_relaxed.
  split; [split; [apply exw_good|split; [apply exw_ready; discriminate|apply exw_precise]]|].
  split; [split; [apply exw_good|split; [apply exw_ready; discriminate|apply exw_precise]]|].
  split; [reflexivity|]. split; [reflexivity|]. split; vm_compute; f_equal; apply Qc_is_canon; reflexivity.
Qed.
