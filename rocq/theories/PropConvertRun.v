(** C68: the converted networks and studies that run. *)
From Coq Require Import Lia.
From Verif Require Import Base BaseFacts Expr LinearExpr Study Optim System Library Main SpecExpr SpecLibrary SpecLinear SpecOptim SpecMain SpecRun MainFacts RunNeeds
  Pypsa SpecPypsa PypsaFacts PypsaAccept PypsaProblem SpecConvert PypsaReady PypsaNeeds PropPypsa.
Local Open Scope string_scope.
Local Open Scope list_scope.

(** A PyPSA network whose tables are full runs once converted, up to the call of the solver, exactly when its buses exist, its
    time series are given to attributes that may depend on the time, and its limits are in order; in whatever order python goes
    through its sets. *)
Theorem C68_network_exactly : forall order n sys files T S order', set_order order -> convert_pypsa order n = Ok (sys, files) ->
  good_network n T -> (1 <= T)%Z -> (1 <= S)%Z -> any_order order' ->
  (consistent_network n T <-> exists o st, main_cli order' [pypsa_library] sys (series_directory files) T S = Ok (o, st)).
Proof.
  intros order n sys files T S order' H1 H2 H3 H4 H5 H6. split.
  - intros H. exact (converted_runs order n sys files T S order' H1 H2 H3 H H4 H5 H6).
  - intros (o & st & H). exact (running_consistent order n sys files T S order' o st H1 H2 H3 H4 H5 H6 H).
Qed.
Print Assumptions C68_network_exactly.
(** From the tables alone: both commands succeed exactly for the networks that are supported and consistent. *)
Theorem C68_network_commands : forall order n T S order', set_order order -> good_network n T -> all_columns n ->
  (1 <= T)%Z -> (1 <= S)%Z -> any_order order' ->
  (supported n /\ consistent_network n T <->
   exists sys files o st, convert_pypsa order n = Ok (sys, files) /\
     main_cli order' [pypsa_library] sys (series_directory files) T S = Ok (o, st)).
Proof.
  intros order n T S order' H1 H3 Hc H4 H5 H6. split.
  - intros [Sp H]. destruct (C60_supported_accepted order n T H1 H3 Hc Sp) as [[sys files] H2]. exists sys, files.
    destruct (converted_runs order n sys files T S order' H1 H2 H3 H H4 H5 H6) as (o & st & R). exists o, st. split; [exact H2|exact R].
  - intros (sys & files & o & st & H2 & H). split; [exact (C60_unsupported_refused _ _ _ H2)|].
    exact (running_consistent order n sys files T S order' o st H1 H2 H3 H4 H5 H6 H).
Qed.
Print Assumptions C68_network_commands.

(** the network of PropPypsa.v, with a bus, limits of a capacity and a time series to choose *)
Definition exq_network (bus : string) (at_most : Z) (series : string) : pypsa_network :=
  let n := exp_network true in {|
  pn_name := "demo"; pn_investment_periods := 0; pn_weightings := [n1; n1];
  pn_generators := {| df_index := ["gas"; "wind"];
    df_columns := [("bus", [CText "north"; CText bus]); ("carrier", [CText "methane"; CText ""]);
      ("p_nom", exp_numbers [0; 40]); ("p_nom_extendable", [CBool true; CBool false]); ("p_nom_min", exp_numbers [10; 0]);
      ("p_nom_max", exp_numbers [at_most; 50]); ("p_min_pu", exp_numbers [0; 0]); ("p_max_pu", exp_numbers [1; 1]);
      ("marginal_cost", exp_numbers [50; 0]); ("capital_cost", exp_numbers [7; 3]); ("e_sum_min", [CNum NInf; CNum NInf]);
      ("e_sum_max", [CNum PInf; CNum PInf]); ("sign", exp_numbers [1; 1]); ("efficiency", exp_numbers [2; 1]);
      ("marginal_cost_quadratic", exp_numbers [0; 0]); ("active", [CBool true; CBool true]);
      ("committable", [CBool false; CBool false])]%Z |};
  pn_generators_t := [(series, [("wind", [Fin (Q2Qc (1 # 2)); n1])])];
  pn_loads := pn_loads n; pn_loads_t := pn_loads_t n; pn_buses := pn_buses n; pn_buses_t := pn_buses_t n;
  pn_links := pn_links n; pn_links_t := pn_links_t n; pn_storage_units := pn_storage_units n; pn_storage_units_t := pn_storage_units_t n;
  pn_stores := pn_stores n; pn_stores_t := pn_stores_t n; pn_carriers := pn_carriers n; pn_global_constraints := pn_global_constraints n |}%Z.
Definition exq_study (n : pypsa_network) : input_system * dict string frame :=
  match convert_pypsa exp_order n with Ok r => r | Err _ => ({| is_nodes := []; is_components := []; is_connections := [] |}, []) end.
Notation exq_run n := (main_cli exp_main_order [pypsa_library] (fst (exq_study n)) (series_directory (snd (exq_study n))) 2 1).
Definition exq_fine := exq_network "south" 30 "p_max_pu".
Definition exq_nowhere := exq_network "west" 30 "p_max_pu".
Definition exq_inverted := exq_network "south" 5 "p_max_pu".
Definition exq_changing := exq_network "south" 30 "sign".
Lemma exq_all_columns bus m series : all_columns (exq_network bus m series).
Proof. intros [] a H; cbn in H; repeat (destruct H as [<-|H]; [reflexivity|]); destruct H. Qed.
Lemma exq_fine_good : good_network exq_fine 2. Proof. good. Qed.
Lemma exq_nowhere_good : good_network exq_nowhere 2. Proof. good. Qed.
Lemma exq_inverted_good : good_network exq_inverted 2. Proof. good. Qed.
Lemma exq_changing_good : good_network exq_changing 2. Proof. good. Qed.
(** one network that runs, and three that are converted and do not run: an unknown bus, a capacity between 10 and 5, a time
    series for a sign *)
Example C68_network_example :
  (good_network exq_fine 2 /\ all_columns exq_fine /\ supported exq_fine /\ consistent_network exq_fine 2 /\
   convert_pypsa exp_order exq_fine = Ok (exq_study exq_fine) /\ exists o st, exq_run exq_fine = Ok (o, st)) /\
  (good_network exq_nowhere 2 /\ convert_pypsa exp_order exq_nowhere = Ok (exq_study exq_nowhere) /\
   ~ consistent_network exq_nowhere 2 /\ exists e, exq_run exq_nowhere = Err e) /\
  (good_network exq_inverted 2 /\ convert_pypsa exp_order exq_inverted = Ok (exq_study exq_inverted) /\
   ~ consistent_network exq_inverted 2 /\ exists e, exq_run exq_inverted = Err e) /\
  (good_network exq_changing 2 /\ convert_pypsa exp_order exq_changing = Ok (exq_study exq_changing) /\
   ~ consistent_network exq_changing 2 /\ exists e, exq_run exq_changing = Err e).
Proof.
  assert (E : exists o st, exq_run exq_fine = Ok (o, st)).
  { destruct (exq_run exq_fine) as [[o st]|e] eqn:E; [|vm_compute in E; discriminate]. eauto. }
  assert (C : convert_pypsa exp_order exq_fine = Ok (exq_study exq_fine)) by (vm_compute; reflexivity).
  split; [|split; [|split]].
  - split; [exact exq_fine_good|]. split; [apply exq_all_columns|]. split; [exact (accepted_supported _ _ _ C)|].
    split; [|split; [exact C|exact E]]. destruct E as (o & st & E).
    exact (running_consistent exp_order exq_fine (fst (exq_study exq_fine)) (snd (exq_study exq_fine)) 2 1 exp_main_order o st
      exp_set_order C exq_fine_good ltac:(lia) ltac:(lia) exp_any_order E).
  - split; [exact exq_nowhere_good|]. split; [vm_compute; reflexivity|]. split; [|eexists; vm_compute; reflexivity].
    intros (H & _). specialize (H Generators "wind" "bus" "west" ltac:(cbn; tauto) ltac:(cbn; tauto) eq_refl). cbn in H. intuition discriminate.
  - split; [exact exq_inverted_good|]. split; [vm_compute; reflexivity|]. split; [|eexists; vm_compute; reflexivity].
    intros (_ & _ & H). specialize (H Generators "gas" "p_nom" false 0%Z ltac:(cbn; tauto) ltac:(cbn; tauto) ltac:(lia)). vm_compute in H. now apply H.
  - split; [exact exq_changing_good|]. split; [vm_compute; reflexivity|]. split; [|eexists; vm_compute; reflexivity].
    intros (_ & H & _). specialize (H Generators "wind" "sign" [Fin (Q2Qc (1 # 2)); n1] eq_refl ltac:(cbn; tauto)). cbn in H. intuition discriminate.
Qed.
