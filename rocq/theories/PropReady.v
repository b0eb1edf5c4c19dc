(** Property theorem C66: the problems that can be built are built. *)
From Coq Require Import Lia.
From Verif Require Import Base Expr Visitors Expansion LinearExpr Linearize Model Study Strategy Optim
  BaseFacts SpecExpr SpecSyntax SpecVisitors SpecExpansion SpecLinear SpecModel SpecOptim SpecReady
  OptimProblem OptimReady ExampleProblem.

Local Open Scope string_scope.
Local Open Scope list_scope.

(** ** C66 *)

(** A problem whose parameters have data, whose names, ports and operators are those the models may
    use, whose expressions are affine and have values, and whose bounds are in order, is built: no
    exception comes out of the construction. *)
Theorem C66_ready_problems_built :
  forall o, good_problem o -> ready_problem o -> exists st, build_problem o = Ok st.
Proof. exact problem_built. Qed.
Print Assumptions C66_ready_problems_built.

(** And the rows of what is built are the constraints of the models, at the timesteps and scenarios for
    which they stand (see [C45_rows_cover_partial]), up to terms below 1e-16, no more in
    each row than the decisions its constraint mentions. *)
Theorem C66_ready_problems_faithful :
  forall o, good_problem o -> ready_problem o ->
  exists st drops, build_problem o = Ok st /\
  Forall2 (fun i d => few (instance_mentions o i) d) (row_instances o) drops /\
  forall x y, admissible_decisions o x -> represents o st y x ->
  (Forall (row_sat y) (s_rows (st_solver st)) <->
   Forall2 (fun i d => let '(c, k, _, _) := i in
       forall t s, stands_for o i t s ->
       holds_without d (component_world o x (co_id c)) (c_expr k) (c_lower k) (c_upper k) t s)
     (row_instances o) drops).
Proof.
  intros o Hg Hr. destruct (problem_built o Hg Hr) as [st Hst].
  destruct (problem_meaning o st Hg Hst) as (drops & Hd & H). exists st, drops. auto.
Qed.
Print Assumptions C66_ready_problems_faithful.

(** ** The example is ready: ramps, capacities, a balance, an expected cost and an investment. *)
Ltac a_parameter c p := exists c, p; split; [cbn; tauto|split; [reflexivity|split; [cbn; tauto|split; [reflexivity|now try split]]]].
Ltac a_variable c v := exists c, v; split; [cbn; tauto|split; [reflexivity|split; [cbn; tauto|reflexivity]]].
Lemma small2 z : (0 <= z < 2)%Z -> z = 0%Z \/ z = 1%Z.
Proof. lia. Qed.
Lemma exp_has_values id e :
  (forall t s, (t = 0 \/ t = 1)%Z -> (s = 0 \/ s = 1)%Z ->
     den (component_world exp_settings (fun _ _ _ _ => Z2Qc 0) id) e t s <> None) -> has_values exp_settings id e.
Proof.
  intros H t s Ht Hs. exists (fun _ _ _ _ => Z2Qc 0). split; [split; auto|].
  apply H; apply small2; assumption.
Qed.
Ltac exp_values := apply exp_has_values; intros t s [->| ->] [->| ->]; vm_compute; discriminate.
Lemma exp_ready : ready_problem exp_settings.
Proof.
  pose (gp := exp_variable "p" time_and_scenario (Some (Param "pmax")) OPERATIONAL).
  pose (gi := exp_variable "inv" constant_index None COUPLING).
  assert (Hp : chosen_variable exp_settings "G" "p") by a_variable exp_g gp.
  assert (Hi : chosen_variable exp_settings "G" "inv") by a_variable exp_g gi.
  assert (Hmax : has_parameter (fun _ => True) exp_settings "G" "pmax") by a_parameter exp_g (exp_parameter "pmax" time_only).
  assert (Hcost : has_parameter (fun _ => True) exp_settings "G" "cost") by a_parameter exp_g (exp_parameter "cost" constant_index).
  assert (Hramp : has_parameter (fun _ => True) exp_settings "G" "ramp") by a_parameter exp_g (exp_parameter "ramp" constant_index).
  assert (Hdem : has_parameter (fun _ => True) exp_settings "D" "demand") by a_parameter exp_d (exp_parameter "demand" time_and_scenario).
  assert (Hone : constant_argument exp_settings "G" (nzl (-1))).
  { split; [solve_nodes|]. exists (fun _ _ _ _ => Z2Qc 0), 0%Z, 0%Z, (-1)%Z. reflexivity. }
  split; [|split; [|split; [|split]]].
  - intros c p Hc Hin. cbn in Hc. destruct Hc as [<-|[<-|[]]]; cbn in Hin.
    + destruct Hin as [<-|[<-|[<-|[]]]]; (eexists; split; [reflexivity|]); split; cbn; auto; discriminate.
    + destruct Hin as [<-|[]]; (eexists; split; [reflexivity|]); split; cbn; auto.
  - intros k f d Hk Hb. cbn in Hk. unfold brought, definition_of in Hb. destruct Hk as [<-|[<-|[]]]; cbn in Hb.
    + destruct (f =? "flow") eqn:E.
      * apply String.eqb_eq in E. subst f. destruct Hb as [<-|[]]. split; [solve_nodes|]. split; [exact Hp|exact I].
      * unfold pfi_eqb in Hb. cbn -[String.eqb] in Hb. rewrite ?E in Hb. cbn in Hb. rewrite ?E in Hb. destruct Hb.
    + destruct (f =? "flow") eqn:E.
      * apply String.eqb_eq in E. subst f. destruct Hb as [<-|[]]. split; [cbn; tauto|]. split; [exact Hdem|exact I].
      * unfold pfi_eqb in Hb. cbn -[String.eqb] in Hb. rewrite ?E in Hb. cbn in Hb. rewrite ?E in Hb. destruct Hb.
  - intros c v Hc Hv. cbn in Hc. destruct Hc as [<-|[<-|[<-|[]]]]; cbn in Hv; try contradiction.
    destruct Hv as [<-|[<-|[]]].
    + split; [|split].
      * intros e [= <-]. left. exists (nz 0). split; [reflexivity|discriminate].
      * intros e [= <-]. right. split; [solve_nodes|]. split; [split; [solve_nodes|exact Hmax]|]. split; reflexivity.
      * intros t s (_ & _ & Ht & Hs). cbn in Ht. 
        destruct t as [z|]; [|discriminate Ht]. destruct Ht as (_ & Hz). apply small2 in Hz.
        destruct Hz as [-> | ->].
        -- exists (nz 0), (nz 100). split; [reflexivity|]. split; [|discriminate].
           exists (Z2Qc 100), (fun _ _ _ _ => Z2Qc 0). split; reflexivity.
        -- exists (nz 0), (nz 200). split; [reflexivity|]. split; [|discriminate].
           exists (Z2Qc 200), (fun _ _ _ _ => Z2Qc 0). split; reflexivity.
    + split; [|split].
      * intros e [= <-]. left. exists (nz 0). split; [reflexivity|discriminate].
      * intros e [=].
      * intros t s _. exists (nz 0), PInf. split; [reflexivity|]. split; [reflexivity|exact I].
  - intros c k Hc Hk. cbn in Hc. destruct Hc as [<-|[<-|[<-|[]]]]; cbn in Hk; try contradiction.
    + destruct Hk as [<-|[]]. split; [|split].
      * split; [cbn; tauto|]. split; [exact I|]. split; [exact I|]. exp_values.
      * right. split; [split; [solve_nodes|exact I]|exp_values].
      * right. split; [split; [solve_nodes|exact I]|exp_values].
    + destruct Hk as [<-|[<-|[]]].
      * split; [|split; [left; reflexivity|right]].
        -- split; [cbn; repeat (split; try exact I; try discriminate; try exact Hone)|].
           split; [cbn; auto|]. split; [cbn; auto|]. exp_values.
        -- split; [split; [solve_nodes|exact Hramp]|exp_values].
      * split; [|split; [left; reflexivity|right]].
        -- split; [cbn; repeat (split; try exact I; try discriminate)|].
           split; [cbn; auto|]. split; [cbn; auto|]. exp_values.
        -- split; [split; [solve_nodes|exact I]|exp_values].
  - intros c e Hin. cbn in Hin. destruct Hin as [[= <- <-]|[[= <- <-]|[]]].
    + split; [|split; reflexivity]. split; [cbn; tauto|]. split; [cbn; auto|]. split; [cbn; auto|]. exp_values.
    + split; [|split; reflexivity]. split; [cbn; tauto|]. split; [cbn; auto|]. split; [cbn; auto|]. exp_values.
Qed.
Example C66_example :
  good_problem exp_settings /\ ready_problem exp_settings /\
  (forall c k, In c (all_components (o_network exp_settings)) ->
     In k (get_constraints (o_selection exp_settings) (co_model c)) ->
     bounds_follow (o_network exp_settings) (co_id c) k) /\
  List.length (constraint_instances exp_settings) = 12%nat.
Proof. split; [exact exp_good|]. split; [exact exp_ready|]. split; [exact exp_follow|reflexivity]. Qed.
