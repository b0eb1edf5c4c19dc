(** C68: the converted Antares studies that run. *)
From Coq Require Import Ascii Lia.
From Verif Require Import Base BaseFacts Expr LinearExpr Study Strategy Optim System Library Main SpecExpr SpecLibrary SpecSystem SpecLinear SpecOptim SpecMain
  SpecPypsa Pypsa Thermal Antares SpecThermal SpecAntares AntaresFacts AntaresStudy AntaresProblem SpecAntaresRun AntaresReady AntaresNeeds PropAntares PropAntaresRun.
Local Open Scope list_scope.
Local Open Scope string_scope.

(** An Antares study with full data and distinct ids runs once converted, up to the call of the solver, exactly when its elements
    are in areas of the study, its limits are in order, and it has one scenario if it has thermal clusters. *)
Theorem C68_study_exactly : forall before per s sys files directory period T S order,
  convert_antares before per s = Ok (sys, files) -> hours_of per (Z.of_nat period) ->
  good_antares s directory period T S -> any_order order ->
  (consistent_study s directory T S <->
   exists o st, main_cli order [antares_library; andromede_v1_library] sys (directory_after directory files) T S = Ok (o, st)).
Proof.
  intros before per s sys files directory period T S order H1 H2 H3 H4. split.
  - intros H. exact (converted_study_runs before per s sys files directory period T S order H1 H2 H3 H H4).
  - intros (o & st & H). exact (running_study_consistent before per s sys files directory period T S order o st H1 H2 H3 H4 H).
Qed.
Print Assumptions C68_study_exactly.
(** the study of PropAntares.v, with a capacity of its storage and the end of its link to choose *)
Definition exs_study (injection : Z) (to : string) : an_study := {|
  an_path := "study";
  an_areas := map (fun a => (ar_id a, a)) [
    exa_area "fr" [exa_cluster "fr" "gas" 2 10 [20; 15]%Z; exa_cluster "fr" (withdrawal_cluster "fr") 1 6 [6; 3]%Z]
      [{| so_area := "fr"; so_id := "tank"; so_efficiency := nz 1; so_initial_level := nz 1; so_reservoir_capacity := nz 10;
          so_injection_nominal_capacity := nz injection; so_withdrawal_nominal_capacity := nz 4 |}]
      (Some (exa_table 1 [[12]; [18]]%Z));
    exa_it;
    exa_area reserve [exa_cluster reserve (stock_cluster "fr" "1") 1 20 [20; 10]%Z; exa_cluster reserve (stock_cluster "fr" "2") 1 20 [20; 10]%Z] [] None];
  an_links := map (fun k => (ln_id k, k)) [exa_link "fr" to; exa_link "fr" reserve];
  an_constraints := an_constraints exa_study; an_read := exa_read |}.
Definition exs_directory (name : string) : result frame :=
  if existsb (String.eqb name) ["study/input/links/fr/capacities/es_direct"; "study/input/links/fr/capacities/es_indirect"]
  then Ok [[nz 7]; [nz 8]] else exr_directory name.
Notation exs_run s := (main_cli exr_order [antares_library; andromede_v1_library] (fst (exr_converted s))
  (directory_after exs_directory (snd (exr_converted s))) 2 1).
Definition exs_inverted : an_study := exs_study (-4) "it".
Definition exs_nowhere : an_study := exs_study 4 "es".
Lemma exs_inverted_good : good_antares exs_inverted exs_directory 168 2 1.
Proof. goodness. Qed.
Lemma exs_nowhere_good : good_antares exs_nowhere exs_directory 168 2 1.
Proof. goodness. Qed.
(** one study that runs, and three that are converted and do not run: a storage of negative capacity, a link to an unknown area,
    a cluster in two scenarios *)
Example C68_study_example :
  (good_antares exa_study exr_directory 168 2 1 /\ consistent_study exa_study exr_directory 2 1 /\ exists o st, exr_run exa_study 1 = Ok (o, st)) /\
  (good_antares exs_inverted exs_directory 168 2 1 /\ convert_antares [] None exs_inverted = Ok (exr_converted exs_inverted) /\
   ~ consistent_study exs_inverted exs_directory 2 1 /\ exists e, exs_run exs_inverted = Err e) /\
  (good_antares exs_nowhere exs_directory 168 2 1 /\ convert_antares [] None exs_nowhere = Ok (exr_converted exs_nowhere) /\
   ~ consistent_study exs_nowhere exs_directory 2 1 /\ exists e, exs_run exs_nowhere = Err e) /\
  (good_antares exr_wide exr_twice 168 2 2 /\ ~ consistent_study exr_wide exr_twice 2 2).
Proof.
  assert (E : exists o st, exr_run exa_study 1 = Ok (o, st)) by (destruct exr_runs as (o & st & E & _); exists o, st; exact E).
  split; [|split; [|split]].
  - split; [exact exr_good|]. split; [|exact E]. destruct E as (o & st & E).
    exact (running_study_consistent [] None exa_study _ _ exr_directory 168 2 1 exr_order o st exr_converts hours_none exr_good exr_any_order E).
  - split; [exact exs_inverted_good|]. split; [vm_compute; reflexivity|]. split; [|eexists; vm_compute; reflexivity].
    intros (_ & H & _). specialize (fun e => H e "p_injection" false 0%Z 0%Z).
    assert (He : exists e a o, In e (everything exs_inverted) /\ e = Storage a o /\ so_injection_nominal_capacity o = nz (-4))
      by (eexists _, _, _; split; [right; right; right; left; reflexivity|split; reflexivity]).
    destruct He as (e & a & o & He & -> & Ei). specialize (H _ He ltac:(cbn; tauto) ltac:(lia) ltac:(lia)).
    cbn in He. repeat (destruct He as [He|He]; [first [discriminate He|injection He as <- <-]|]); vm_compute in H; try (now apply H); destruct He.
  - split; [exact exs_nowhere_good|]. split; [vm_compute; reflexivity|]. split; [|eexists; vm_compute; reflexivity].
    intros (H & _). destruct (H (Link (exa_link "fr" "es")) "es") as (a & Ha & Ea); [cbn; tauto|cbn; tauto|].
    cbn in Ha. repeat (destruct Ha as [Ha|Ha]; [injection Ha as <-; discriminate Ea|]). destruct Ha.
  - split; [exact exr_wide_good|]. intros (_ & _ & H).
    assert (X : exists a g, In (Cluster a g) (elements exr_wide)) by (eexists _, _; now left). destruct X as (a & g & X). discriminate (H a g X).
Qed.
