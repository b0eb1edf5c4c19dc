(** C96: where the cycle of a block starts does not matter. *)
From Coq Require Import Lia.
From Verif Require Import Base BaseFacts Expr Visitors Expansion LinearExpr Linearize Model Study Strategy Optim
  SpecExpr SpecSyntax SpecExpansion SpecLinear SpecModel SpecOptim SpecReady SpecOrder ExampleProblem SpecScenarios SpecPrecise SpecSeparate SpecBlock SpecSame SpecReorder SpecRotate
  ScenarioFacts ScenarioCost PreciseFacts ScenarioExact ScenarioReady RotateFacts RotateReady OptimReady PropScenarios PropPrecise PropReady PropSeparate PropScenariosReady.
Local Open Scope string_scope.
Local Open Scope list_scope.

(** Let no constraint, objective or port definition of a problem name a timestep by its position in the block, and let the block start [r] timesteps later,
    its first [r] timesteps coming last.  Then decisions are a solution just when the same decisions, counted from the new start,
    are one of the problem with the new block, at the same cost. *)
Theorem C96_decisions :
  forall o r, complete_problem o -> (r <= List.length (o_block o))%nat -> no_positions o ->
  exists st st', build_problem o = Ok st /\ build_problem (rotating r o) = Ok st' /\
  forall x y y', admissible_decisions o x -> represents o st y x -> represents (rotating r o) st' y' (counted_from r x) ->
    (solves y (st_solver st) <-> solves y' (st_solver st')) /\ objective_value y (st_solver st) = objective_value y' (st_solver st').
Proof. intros o r C Hr N. destruct (rotated_together o r C (rotated_complete o r C Hr N) Hr N) as (st & st' & E & E' & H & _). exists st, st'. auto. Qed.
Print Assumptions C96_decisions.

(** So the least cost is the same. *)
Theorem C96_least_cost :
  forall o r, complete_problem o -> (r <= List.length (o_block o))%nat -> no_positions o ->
  exists st st', build_problem o = Ok st /\ build_problem (rotating r o) = Ok st' /\
  forall v, least_cost (st_solver st) v <-> least_cost (st_solver st') v.
Proof. intros o r C Hr N. destruct (rotated_together o r C (rotated_complete o r C Hr N) Hr N) as (st & st' & E & E' & _ & H). exists st, st'. auto. Qed.
Print Assumptions C96_least_cost.

(** ** A generator that serves a demand of 100 at timestep 5 and 50 at timestep 6, and whose power increases by at most 30 *)
Definition exf_generator : model := {|
  m_id := "generator";
  m_constraints := [("serve", exp_constraint "serve" (Var "p") (Param "demand") (Lit PInf));
                    ("ramp", exp_constraint "ramp" (Add [Var "p"; Neg (TShift (Var "p") (nzl (-1)))]) (Lit NInf) (nzl 30))];
  m_binding_constraints := []; m_inter_block_dyn := false;
  m_parameters := [("demand", exp_parameter "demand" time_only)];
  m_variables := [("p", exp_variable "p" time_and_scenario None OPERATIONAL)];
  m_operational := Some (ScenOp (AllSum (Mul (nzl 3) (Var "p"))) Expectation); m_investment := None; m_ports := []; m_port_definitions := [] |}.
Definition exf_database : database := [(("G", "demand"), TimeSeriesData [(5%Z, nz 100); (6%Z, nz 50)])].
Definition exf_settings (b : list Z) : settings := with_block (lone_settings exf_generator exf_database) b exf_database.
Definition exf_block (b : list Z) : Prop := b = [5%Z; 6%Z] \/ b = [6%Z; 5%Z].
Lemma exf_good b : exf_block b -> good_problem (exf_settings b).
Proof.
  intros Hb. split; [split; [destruct Hb as [-> | ->]; discriminate|reflexivity]|]. split; [cbn; lia|]. split; [discriminate|].
  split; [apply bn_component, bn_new|]. split; [unfold distinct_ids; vm_compute; solve_nodup|]. split; [|split; [|split]].
  - intros c [<-|[]]. split; [|split; [|split]].
    + split; [solve_named|]. split; [solve_named|]. split; [solve_named|]. split; [solve_named|]. split; solve_named.
    + intros k [<-|[<-|[]]].
      * (split; [split; [|split; [|split]]; solve_nodes|]); (split; [right; solve_nodes|now left]).
      * split; [split; [|split; [|split]]; solve_nodes; try discriminate|]. split; [now left|right; solve_nodes].
    + intros e [[= <-]|[=]]. split; [|split; [|split]]; solve_nodes.
    + intros f d [].
  - intros k [].
  - now apply database_finite.
  - intros c p [].
Qed.
Lemma exf_has_values b id e : exf_block b ->
  (forall t, (t = 0 \/ t = 1)%Z -> den (component_world (exf_settings b) (fun _ _ _ _ => Z2Qc 0) id) e t 0 <> None) -> has_values (exf_settings b) id e.
Proof.
  intros Hb H t s Ht Hs. exists (fun _ _ _ _ => Z2Qc 0). split; [split; auto|]. cbn in Hs. replace s with 0%Z by lia. apply H.
  destruct Hb as [-> | ->]; now apply small2.
Qed.
Ltac exf_values Hb := apply exf_has_values; [exact Hb|]; intros t [->| ->]; destruct Hb as [-> | ->]; vm_compute; discriminate.
Lemma exf_ready b : exf_block b -> ready_problem (exf_settings b).
Proof.
  intros Hb. pose (g := {| co_model := exf_generator; co_id := "G" |}).
  assert (Hp : chosen_variable (exf_settings b) "G" "p") by a_variable g (exp_variable "p" time_and_scenario None OPERATIONAL).
  assert (Hd : has_parameter (fun _ => True) (exf_settings b) "G" "demand") by a_parameter g (exp_parameter "demand" time_only).
  assert (Hone : constant_argument (exf_settings b) "G" (nzl (-1))).
  { split; [solve_nodes|]. exists (fun _ _ _ _ => Z2Qc 0), 0%Z, 0%Z, (-1)%Z. reflexivity. }
  split; [|split; [|split; [|split]]].
  - intros c p [<-|[]] [<-|[]]. eexists. split; [reflexivity|]. split; cbn; auto.
  - intros k f d [].
  - intros c v [<-|[]] [<-|[]]. split; [|split].
    + intros e [= <-]. left. exists (nz 0). split; [reflexivity|discriminate].
    + intros e [=].
    + intros t s _. exists (nz 0), PInf. split; [reflexivity|]. split; [reflexivity|exact I].
  - intros c k [<-|[]] [<-|[<-|[]]].
    + split; [|split; [right|left; reflexivity]].
      * split; [cbn; tauto|]. split; [exact Hp|]. split; [exact I|]. exf_values Hb.
      * split; [split; [solve_nodes|exact Hd]|]. exf_values Hb.
    + split; [|split; [left; reflexivity|right]].
      * split; [cbn; repeat (split; try exact I; try discriminate; try exact Hone)|]. split; [cbn; auto|]. split; [cbn; auto|]. exf_values Hb.
      * split; [split; solve_nodes|]. exf_values Hb.
  - intros c e Hin. destruct Hin as [[= <- <-]|[]]. split; [|split; reflexivity]. split; [cbn; tauto|]. split; [cbn; auto|]. split; [cbn; auto|]. exf_values Hb.
Qed.
Lemma exf_precise b : precise_problem (exf_settings b).
Proof.
  split; [|split].
  - intros c k [<-|[]] [<-|[<-|[]]]; (split; [|split; intros _; reflexivity]); exists 1%Z; (split; [split; [lia|discriminate]|]); cbn; auto.
  - intros ce Hce. destruct Hce as [<-|[]]. exists 1%Z, 1%Z, 1%Qc.
    split; [lia|]. split; [lia|]. split; [discriminate|]. split; [|split; [reflexivity|apply multiple_1]].
    exists 1%Z. split; [lia|]. split; [now exists 1%Z|]. exists 1%Z, 1%Z. split; [lia|]. split; [lia|]. split; [exists 1%Z; reflexivity|].
    split; [|exact I]. eexists. split; [reflexivity|exact (one_multiple 1 3)].
  - intros c v [<-|[]] [<-|[]]. split; intros e [= <-]. left. eexists. split; [reflexivity|discriminate].
Qed.
Example C96_example :
  let o := exf_settings [5; 6]%Z in
  complete_problem o /\ (1 <= List.length (o_block o))%nat /\ no_positions o /\
  o_block (rotating 1 o) = [6; 5]%Z /\
  objective_value (fun i => Z2Qc (nth i [100; 70]%Z 0%Z)) (st_solver (built_of o)) = Some (Z2Qc 510) /\
  objective_value (fun i => Z2Qc (nth i [70; 100]%Z 0%Z)) (st_solver (built_of (rotating 1 o))) = Some (Z2Qc 510).
Proof.
  intros o. assert (B1 : exf_block [5; 6]%Z) by now left.
  split; [split; [now apply exf_good|split; [now apply exf_ready|apply exf_precise]]|].
  split; [cbn; lia|]. split; [|split; [reflexivity|]].
  - split; [|split].
    + intros c k [<-|[]] [<-|[<-|[]]]; unfold no_position; solve_nodes.
    + intros ce [<-|[]]. unfold no_position. solve_nodes.
    + intros c p f d [].
  - split; vm_compute; f_equal; apply Qc_is_canon; reflexivity.
Qed.
