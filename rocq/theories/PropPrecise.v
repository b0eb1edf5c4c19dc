(** Property theorems C81: with data of limited precision the problem solved is exactly the one written. *)
From Coq Require Import Lia.
From Verif Require Import Base Expr Visitors Expansion LinearExpr Linearize Model Study Strategy Optim
  BaseFacts SpecExpr SpecSyntax SpecVisitors SpecExpansion SpecLinear SpecModel SpecOptim SpecScenarios SpecPrecise
  OptimProblem PreciseFacts PreciseProblem ExampleProblem.

Local Open Scope string_scope.
Local Open Scope list_scope.

(** ** C81 *)

(** A row made of a constraint whose coefficients are whole numbers of [1 / D], [D] at most 1e16, is satisfied exactly
    when the constraint holds, at the timesteps and scenarios for which the row stands: no term is lost. *)
Theorem C81_rows :
  forall o st, good_problem o -> build_problem o = Ok st ->
  Forall2 (fun i row => let '(c, k, t0, s0) := i in precise_constraint o c k ->
      forall x y, admissible_decisions o x -> represents o st y x -> forall t s, stands_for o i t s ->
      (row_sat y row <-> constraint_holds (component_world o x (co_id c)) (c_expr k) (c_lower k) (c_upper k) t s))
    (row_instances o) (s_rows (st_solver st)).
Proof. exact exact_rows. Qed.
Print Assumptions C81_rows.

(** And the objective is the sum of the objectives of the components, when so are their coefficients times the
    probability. *)
Theorem C81_objective :
  forall o st, good_problem o -> build_problem o = Ok st ->
  (forall ce, In ce (contributions o) -> precise_contribution o ce) ->
  forall x y t s, admissible_decisions o x -> represents o st y x ->
  exists v, objective_value y (st_solver st) = Some v /\ osum (map (contribution_value o x t s) (contributions o)) = Some v.
Proof. exact exact_objective. Qed.
Print Assumptions C81_objective.

(** So an assignment of the solver's variables is accepted exactly when the decisions it represents are within their
    bounds and satisfy every constraint of every component at every timestep and in every scenario. *)
Theorem C81_feasible :
  forall o st, good_problem o -> build_problem o = Ok st -> precise_problem o ->
  forall x y, admissible_decisions o x -> represents o st y x -> solves y (st_solver st) <-> feasible_plan o x.
Proof. exact exact_plans. Qed.
Print Assumptions C81_feasible.

(** And what the solver must find, an optimal assignment, is a cheapest plan of the model; and conversely. *)
Theorem C81_optimum :
  forall o st, good_problem o -> build_problem o = Ok st -> precise_problem o ->
  forall x y, admissible_decisions o x -> represents o st y x -> optimal y (st_solver st) <-> cheapest_plan o x.
Proof. exact exact_optimum. Qed.
Print Assumptions C81_optimum.

(** ** A generator and a load on a node: whole numbers, averages of two scenarios. *)
Lemma one_multiple D z : multiple D (Z2Qc z).
Proof. exists (z * D)%Z. now rewrite Z2Qc_mul. Qed.
Lemma exp_data c n : data_values exp_settings c n (multiple 1).
Proof.
  assert (HZ : forall kd, In kd exp_database -> forall t s v, get_value (snd kd) t s "" = Ok (Fin v) -> exists z, v = Z2Qc z).
  { intros kd [<-|[<-|[<-|[<-|[]]]]] t s v H; cbn [snd] in H.
    - cbn in H. destruct t as [t|]; [|discriminate]. destruct (t =? 5)%Z; [injection H as <-; eexists; reflexivity|]. destruct (t =? 6)%Z; [injection H as <-; eexists; reflexivity|discriminate].
    - injection H as <-. eexists; reflexivity.
    - injection H as <-. eexists; reflexivity.
    - unfold get_value in H. destruct t; [|discriminate]. destruct s; [|discriminate]. inv_bind H. inv_bind H. apply iloc_In in H, H1.
      apply in_map_iff in H1 as (w & <- & _). destruct H as [H|[H|[]]]; injection H as <-; eexists; reflexivity. }
  intros t s q H. unfold data_at, get_data in H. change (o_database exp_settings) with exp_database in H.
  destruct (dget pfi_eqb (c, n) exp_database) eqn:E; [|discriminate]. apply (dget_In pfi_eqb ModelFacts.pfi_eqb_eq) in E.
  destruct (nth_error _ _); [|discriminate]. destruct (get_value _ _ _ _) as [[v| | |]|] eqn:G; try discriminate. injection H as <-.
  destruct (HZ _ E _ _ _ G) as [w ->]. apply one_multiple.
Qed.
Lemma exp_data_any c n D : (1 <= D)%Z -> data_values exp_settings c n (multiple D).
Proof. intros HD t s q H. eapply multiple_divides; [|exact (exp_data c n t s q H)]. exists D. ring. Qed.
Lemma exp_precise : precise_problem exp_settings.
Proof.
  split; [|split].
  - intros c k Hc Hk. split; [|now apply exp_follow]. exists 1%Z. split; [split; [lia|discriminate]|].
    cbn in Hc. destruct Hc as [<-|[<-|[<-|[]]]]; cbn in Hk; [destruct Hk as [<-|[]]|destruct Hk as [<-|[<-|[]]]|destruct Hk].
    + intros d Hd. vm_compute in Hd. destruct Hd as [<-|[<-|[]]]; cbn; [exact I|apply exp_data].
    + cbn. auto.
    + cbn. auto.
  - intros ce Hce. cbn in Hce. destruct Hce as [<-|[<-|[]]].
    + exists 2%Z, 1%Z, 1%Qc. repeat split; try lia; try discriminate; [|apply multiple_1].
      exists 1%Z. split; [lia|]. split; [now exists 1%Z|]. exists 1%Z, 1%Z. repeat split; try lia; [now exists 1%Z|apply exp_data].
    + exists 1%Z, 1%Z, 1%Qc. repeat split; try lia; try discriminate; [|apply multiple_1].
      exists 1%Z, 1%Z. repeat split; try lia; [now exists 1%Z|]. eexists. split; [reflexivity|apply one_multiple].
  - intros c v Hc Hv. cbn in Hc. destruct Hc as [<-|[<-|[<-|[]]]]; cbn in Hv; try contradiction.
    destruct Hv as [<-|[<-|[]]]; split; intros e [= <-];
      first [left; eexists; split; [reflexivity|discriminate] | right; split; solve_nodes].
Qed.
Example C81_example :
  good_problem exp_settings /\ build_problem exp_settings = Ok exp_built /\ precise_problem exp_settings /\
  List.length (s_rows (st_solver exp_built)) = 12%nat.
Proof. split; [exact exp_good|]. split; [exact exp_builds|]. split; [exact exp_precise|]. vm_compute. reflexivity. Qed.

(** ** The limit matters: [1e-17 p >= 1] is lost, the plan that satisfies it is refused. *)
Definition faint : model := {|
  m_id := "faint";
  m_constraints := [("most", exp_constraint "most" (Mul (Lit (Fin (Q2Qc (1 # 100000000000000000)))) (Var "p")) (nzl 1) (Lit PInf))];
  m_binding_constraints := []; m_inter_block_dyn := false; m_parameters := [];
  m_variables := [("p", exp_variable "p" constant_index None OPERATIONAL)];
  m_operational := None; m_investment := None; m_ports := []; m_port_definitions := [] |}.
Definition faint_settings : settings := lone_settings faint [].
Definition faint_built : state := match build_problem faint_settings with Ok st => st | Err _ => initial_state end.
Theorem C81_refuted :
  exists o st x y, good_problem o /\ build_problem o = Ok st /\ admissible_decisions o x /\ represents o st y x /\
  feasible_plan o x /\ ~ solves y (st_solver st).
Proof.
  exists faint_settings, faint_built, (fun _ _ _ _ => Z2Qc (10 ^ 17)), (fun _ => Z2Qc (10 ^ 17)).
  split.
  { apply lone_good; [|reflexivity]. split; [|split; [|split]].
    - split; [solve_named|]. split; [solve_named|]. split; [solve_named|]. split; [solve_named|]. split; solve_named.
    - intros k [<-|[]]; (split; [split; [|split; [|split]]; solve_nodes|]); (split; [right; solve_nodes|now left]).
    - intros e [[=]|[=]].
    - intros f d []. }
  split; [vm_compute; reflexivity|]. split; [split; auto|]. split; [intros c v t s i _ _ t' s'; reflexivity|]. split; [split|].
  - intros c v t s (Hc & Hv & _). destruct Hc as [<-|[]]. destruct Hv as [<-|[]]. split; [|split; discriminate].
    intros e [= <-]. exists 0%Qc. split; [reflexivity|vm_compute; discriminate].
  - intros c k t s Hc Hk _ _. destruct Hc as [<-|[]]. destruct Hk as [<-|[]]. eexists. split; [vm_compute; reflexivity|].
    split; [|exact I]. exists 1%Qc. split; [vm_compute; reflexivity|vm_compute; discriminate].
  - intros [_ H]. vm_compute in H. inversion H as [|? ? (v & Hv & Hl & _) _]. vm_compute in Hv. injection Hv as <-. vm_compute in Hl. apply Hl. reflexivity.
Qed.
Print Assumptions C81_refuted.
