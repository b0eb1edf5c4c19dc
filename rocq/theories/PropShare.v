(** C97: the objectives one by one. *)
From Coq Require Import Lia.
From Verif Require Import Base BaseFacts Expr Visitors Expansion LinearExpr Linearize Model Study Strategy Optim
  SpecExpr SpecSyntax SpecExpansion SpecLinear SpecModel SpecOptim SpecReady SpecOrder ExampleProblem SpecScenarios SpecPrecise SpecSeparate SpecParts SpecSame SpecReorder SpecShare
  ScenarioFacts ScenarioCost PreciseFacts ScenarioExact ScenarioReady ShareFacts OptimReady PropScenarios PropPrecise PropReady PropSeparate PropScenariosReady.
Local Open Scope string_scope.
Local Open Scope list_scope.

(** Take a problem, the one whose models keep only some of their objectives, and the one whose models keep only the others. The three
    have the same solutions, and decisions cost in the first what they cost in the two others together. *)
Theorem C97_costs :
  forall keep o, complete_problem o ->
  exists st st1 st2, build_problem o = Ok st /\ build_problem (sharing keep o) = Ok st1 /\ build_problem (sharing (others keep) o) = Ok st2 /\
  forall x y y1 y2, admissible_decisions o x -> represents o st y x -> represents (sharing keep o) st1 y1 x -> represents (sharing (others keep) o) st2 y2 x ->
    (solves y (st_solver st) <-> solves y1 (st_solver st1)) /\ (solves y (st_solver st) <-> solves y2 (st_solver st2)) /\
    exists v1 v2, objective_value y1 (st_solver st1) = Some v1 /\ objective_value y2 (st_solver st2) = Some v2 /\ objective_value y (st_solver st) = Some (v1 + v2)%Qc.
Proof.
  intros keep o C. destruct (share_together keep o C) as (st & st1 & st2 & B & B1 & B2 & H & _). exists st, st1, st2. split; [exact B|]. split; [exact B1|]. split; [exact B2|].
  intros x y y1 y2 Hx Hr H1 H2. destruct (H x y y1 y2 Hx Hr H1 H2) as (S1 & S2 & S3 & _). auto.
Qed.
Print Assumptions C97_costs.

(** So the least costs of the two together are a lower bound of the least cost of the problem. *)
Theorem C97_bound :
  forall keep o, complete_problem o ->
  exists st st1 st2, build_problem o = Ok st /\ build_problem (sharing keep o) = Ok st1 /\ build_problem (sharing (others keep) o) = Ok st2 /\
  forall v v1 v2, least_cost (st_solver st) v -> least_cost (st_solver st1) v1 -> least_cost (st_solver st2) v2 -> (v1 + v2 <= v)%Qc.
Proof. intros keep o C. destruct (share_together keep o C) as (st & st1 & st2 & B & B1 & B2 & _ & H). exists st, st1, st2. auto. Qed.
Print Assumptions C97_bound.

(** And decisions that are optimal for both are optimal for the problem. *)
Theorem C97_optimum :
  forall keep o, complete_problem o ->
  exists st st1 st2, build_problem o = Ok st /\ build_problem (sharing keep o) = Ok st1 /\ build_problem (sharing (others keep) o) = Ok st2 /\
  forall x y y1 y2, admissible_decisions o x -> represents o st y x -> represents (sharing keep o) st1 y1 x -> represents (sharing (others keep) o) st2 y2 x ->
    optimal y1 (st_solver st1) -> optimal y2 (st_solver st2) -> optimal y (st_solver st).
Proof.
  intros keep o C. destruct (share_together keep o C) as (st & st1 & st2 & B & B1 & B2 & H & _). exists st, st1, st2. split; [exact B|]. split; [exact B1|]. split; [exact B2|].
  intros x y y1 y2 Hx Hr H1 H2. apply (H x y y1 y2 Hx Hr H1 H2).
Qed.
Print Assumptions C97_optimum.

(** ** A generator with a price for running and one for investment *)
Definition exs_power : variable :=
  {| v_name := "p"; v_type := CONTINUOUS; v_lower := Some (nzl 0); v_upper := None; v_structure := time_and_scenario; v_context := OPERATIONAL |}.
Definition exs_generator : model := {|
  m_id := "generator";
  m_constraints := [("serve", exp_constraint "serve" (Var "p") (Param "demand") (Lit PInf))];
  m_binding_constraints := []; m_inter_block_dyn := false;
  m_parameters := [("demand", exp_parameter "demand" exq_scenario_only)];
  m_variables := [("p", exs_power)];
  m_operational := Some (ScenOp (AllSum (Mul (nzl 3) (Var "p"))) Expectation); m_investment := Some (ScenOp (AllSum (Mul (nzl 5) (Var "p"))) Expectation); m_ports := []; m_port_definitions := [] |}.
Definition exs_half : Qc := Q2Qc (5 # 2).
Definition exs_settings : settings :=
  let l := lone_settings exs_generator [(("G", "demand"), ScenarioSeriesData [(0%Z, Fin exs_half); (1%Z, nz 50)] None)] in
  {| o_network := o_network l; o_database := o_database l; o_block := o_block l; o_scenarios := 2; o_cycle := true; o_selection := MergedProblem;
     o_risk := UniformRisk; o_tree_node := ""; o_full_names := true |}.
Lemma exs_good : good_problem exs_settings.
Proof.
  split; [split; [discriminate|reflexivity]|]. split; [cbn; lia|]. split; [discriminate|].
  split; [apply bn_component, bn_new|]. split; [unfold distinct_ids; vm_compute; solve_nodup|]. split; [|split; [|split]].
  - intros c [<-|[]]. split; [|split; [|split]].
    + split; [solve_named|]. split; [solve_named|]. split; [solve_named|]. split; [solve_named|]. split; solve_named.
    + intros k [<-|[]]; (split; [split; [|split; [|split]]; solve_nodes|]); (split; [right; solve_nodes|now left]).
    + intros e [[= <-]|[= <-]]; (split; [|split; [|split]]; solve_nodes).
    + intros f d [].
  - intros k [].
  - now apply database_finite.
  - intros c p [].
Qed.
Lemma exs_has_values id e :
  (forall t s, (t = 0 \/ t = 1)%Z -> (s = 0 \/ s = 1)%Z ->
     den (component_world exs_settings (fun _ _ _ _ => Z2Qc 0) id) e t s <> None) -> has_values exs_settings id e.
Proof. intros H t s Ht Hs. exists (fun _ _ _ _ => Z2Qc 0). split; [split; auto|]. apply H; apply small2; assumption. Qed.
Lemma exs_ready : ready_problem exs_settings.
Proof.
  pose (g := {| co_model := exs_generator; co_id := "G" |}).
  assert (Hp : chosen_variable exs_settings "G" "p") by a_variable g exs_power.
  assert (Hd : has_parameter (fun _ => True) exs_settings "G" "demand") by a_parameter g (exp_parameter "demand" exq_scenario_only).
  split; [|split; [|split; [|split]]].
  - intros c p [<-|[]] [<-|[]]. eexists. split; [reflexivity|]. split; cbn; auto.
  - intros k f d [].
  - intros c v [<-|[]] [<-|[]]. split; [|split].
    + intros e [= <-]. left. exists (nz 0). split; [reflexivity|discriminate].
    + intros e [=].
    + intros t s _. exists (nz 0), PInf. split; [reflexivity|]. split; [reflexivity|]. exact I.
  - intros c k [<-|[]] [<-|[]]. split; [|split; [right|left; reflexivity]].
    + split; [cbn; tauto|]. split; [exact Hp|]. split; [exact I|]. apply exs_has_values; intros t s [->| ->] [->| ->]; vm_compute; discriminate.
    + split; [split; [solve_nodes|exact Hd]|]. apply exs_has_values; intros t s [->| ->] [->| ->]; vm_compute; discriminate.
  - intros c e Hin. vm_compute in Hin. destruct Hin as [[= <- <-]|[[= <- <-]|[]]]; (split; [|split; reflexivity]); (split; [cbn; tauto|]); (split; [cbn; auto|]); (split; [cbn; auto|]);
    apply exs_has_values; intros t s [->| ->] [->| ->]; vm_compute; discriminate.
Qed.
Lemma exs_precise : precise_problem exs_settings.
Proof.
  split; [|split].
  - intros c k [<-|[]] [<-|[]]. split; [|split; intros _; reflexivity]. exists 1%Z. split; [split; [lia|discriminate]|]. exact I.
  - intros ce Hce. vm_compute in Hce. destruct Hce as [<-|[<-|[]]]; exists 2%Z, 1%Z, 1%Qc;
    (split; [lia|]); (split; [lia|]); (split; [discriminate|]); (split; [|split; [reflexivity|apply multiple_1]]);
    exists 1%Z; (split; [lia|]); (split; [now exists 1%Z|]); exists 1%Z, 1%Z; (split; [lia|]); (split; [lia|]); (split; [exists 1%Z; reflexivity|]);
    (split; [|exact I]); eexists; (split; [reflexivity|]); [exact (one_multiple 1 3)|exact (one_multiple 1 5)].
  - intros c v [<-|[]] [<-|[]]. split; intros e [= <-]. left. eexists. split; [reflexivity|discriminate].
Qed.
Definition exs_keep (m : string) (operational : bool) : bool := operational.
Example C97_example :
  complete_problem exs_settings /\
  let y i := nth i [exs_half; Z2Qc 50; exs_half; Z2Qc 50] 0%Qc in
  objective_value y (st_solver (built_of exs_settings)) = Some (Z2Qc 420) /\
  objective_value y (st_solver (built_of (sharing exs_keep exs_settings))) = Some (Q2Qc (315 # 2)) /\
  objective_value y (st_solver (built_of (sharing (others exs_keep) exs_settings))) = Some (Q2Qc (525 # 2)).
Proof.
  split; [split; [exact exs_good|split; [exact exs_ready|exact exs_precise]]|]. split; [|split]; vm_compute; f_equal; apply Qc_is_canon; reflexivity.
Qed.
