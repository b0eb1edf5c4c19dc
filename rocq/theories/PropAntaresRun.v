(** Antares studies converted and run: C64 and C65. *)
From Coq Require Import Ascii Lia.
From Verif Require Import Base BaseFacts Expr LinearExpr Study Strategy Optim System Library Main SpecExpr SpecLibrary SpecSystem SpecLinear SpecOptim SpecMain
  SpecPypsa Pypsa Thermal Antares SpecThermal SpecAntares AntaresFacts AntaresStudy AntaresProblem PropAntares.
Local Open Scope list_scope.
Local Open Scope string_scope.

(** ** The study of the examples, the files it refers to and what the converter writes *)
Definition exr_directory (name : string) : result frame :=
  let rows l := Ok (map (fun v => [nz v]) l) in
  if String.eqb name "study/input/load/series/load_fr" then rows [12; 18]%Z
  else if String.eqb name "study/input/load/series/load_it" then rows [3; 4]%Z
  else if String.eqb name "study/input/thermal/series/fr/gas/series" then rows [20; 15]%Z
  else if String.eqb name "study/input/links/fr/capacities/it_direct" then rows [7; 8]%Z
  else if String.eqb name "study/input/links/fr/capacities/it_indirect" then rows [6; 5]%Z
  else if String.eqb name "study/input/st-storage/series/fr/tank/inflows" then rows [1; 2]%Z
  else if String.eqb name "study/input/st-storage/series/fr/tank/lower-rule-curve" then rows [0; 0]%Z
  else if String.eqb name "study/input/st-storage/series/fr/tank/upper-rule-curve" then rows [1; 1]%Z
  else if String.eqb name "study/input/st-storage/series/fr/tank/PMAX-injection" then rows [1; 1]%Z
  else if String.eqb name "study/input/st-storage/series/fr/tank/PMAX-withdrawal" then rows [1; 1]%Z
  else Err FileNotFoundErr.
Definition exr_order (treated stack s : list string) : list string := s.
Lemma exr_any_order : any_order exr_order. Proof. intros a b c. reflexivity. Qed.
Definition exr_converted (s : an_study) : input_system * list (string * table) :=
  match convert_antares [] None s with Ok r => r | Err _ => ({| is_nodes := []; is_components := []; is_connections := [] |}, []) end.
Notation exr_run s S := (main_cli exr_order [antares_library; andromede_v1_library] (fst (exr_converted s))
  (directory_after exr_directory (snd (exr_converted s))) 2 S).
Lemma exr_converts : convert_antares [] None exa_study = Ok (fst (exr_converted exa_study), snd (exr_converted exa_study)).
Proof. vm_compute. reflexivity. Qed.
Ltac finite := let H := fresh in let v := fresh in intros v H; each_of H ltac:(eexists; reflexivity).
Ltac full := eexists; split; [reflexivity|]; split; [cbn; lia|]; let H := fresh in let row := fresh in intros row H;
  each_of H ltac:(split; [cbn; lia|finite]).
Ltac nonzero := eexists; split; [vm_compute; reflexivity|discriminate].
Ltac goodness :=
  split; [lia|]; split; [lia|]; split; [lia|]; split; [named|];
  split; [cbn; repeat constructor; cbn; intuition discriminate|]; split; [|split];
  [ let e := fresh "e" in let He := fresh "He" in
    intros e He; cbn in He; destruct He as [<-|[<-|[<-|[<-|[<-|[<-|[<-|[]]]]]]]];
    [ split; eexists; reflexivity
    | split; eexists; reflexivity
    | split; [reflexivity|]; split; [eexists _, _, _, _, _; split; [apply exa_regular|split; [reflexivity|split; [lia|cbn; lia]]]|];
      split; [finite|reflexivity]
    | split; [reflexivity|]; split; [finite|]; let f := fresh in let Hf := fresh in intros f Hf; each_of Hf ltac:(full)
    | eexists; split; [reflexivity|]; split; [reflexivity|]; split; [cbn; lia|];
      let row := fresh in let H := fresh in intros row H; each_of H ltac:(split; [cbn; lia|finite])
    | let way := fresh in let Hw := fresh in intros way Hw; each_of Hw ltac:(full)
    | split; [let v := fresh in let Hv := fresh in intros v Hv; each_of Hv ltac:(nonzero)|]; split; [eexists; reflexivity|];
      split; [eexists; reflexivity|]; repeat split; cbn; try lia; finite ]
  | cbn; repeat constructor; cbn; intuition discriminate
  | let f := fresh in let Hf := fresh in
    intros f Hf; cbn in Hf; repeat (destruct Hf as [<-|Hf]; [cbn; intuition discriminate|]); destruct Hf ].
Lemma exr_good : good_antares exa_study exr_directory 168 2 1.
Proof. goodness. Qed.
Lemma exr_runs : exists o st, exr_run exa_study 1 = Ok (o, st) /\
  List.length (s_rows (st_solver st)) = 25%nat /\ List.length (s_vars (st_solver st)) = 36%nat.
Proof.
  destruct (exr_run exa_study 1) as [[o st]|e] eqn:E; [|vm_compute in E; discriminate]. exists o, st. split; [reflexivity|].
  assert (X : match exr_run exa_study 1 with Ok (_, st) => (List.length (s_rows (st_solver st)), List.length (s_vars (st_solver st)))
    | Err _ => (0, 0)%nat end = (25, 36)%nat) by (vm_compute; reflexivity).
  rewrite E in X. clear E. injection X as X1 X2. split; [exact X1|exact X2].
Qed.

(** ** C64: which converted studies can be run *)
(** A study that runs has neither wind nor solar production: the converter writes them with the model `renewable` of the
    library `andromede_v1`, which has no model of this name. *)
Theorem C64_productions : forall before per s sys files directory T S order o st,
  convert_antares before per s = Ok (sys, files) -> any_order order -> well_named s ->
  main_cli order [antares_library; andromede_v1_library] sys directory T S = Ok (o, st) ->
  forall a, In a (areas_of s) -> useful (ar_wind a) = false /\ useful (ar_solar a) = false.
Proof. exact run_productions. Qed.
Print Assumptions C64_productions.
(** the study of the examples runs; with wind in "it" it is converted, and not run *)
Definition exr_windy : an_study := exa_with [exa_fr; {| ar_id := "it"; ar_energy_cost_unsupplied := nz 1000; ar_energy_cost_spilled := nz 5;
  ar_renewables := []; ar_thermals := []; ar_storages := []; ar_load := None; ar_wind := Some (exa_table 1 [[3]; [4]]%Z); ar_solar := None |}].
Example C64_productions_example : any_order exr_order /\ well_named exa_study /\ (exists o st, exr_run exa_study 1 = Ok (o, st)) /\
  well_named exr_windy /\ convert_antares [] None exr_windy = Ok (exr_converted exr_windy) /\ exists e, exr_run exr_windy 1 = Err e.
Proof.
  split; [exact exr_any_order|]. split; [exact exa_named|].
  split; [destruct exr_runs as (o & st & E & _); exists o, st; exact E|]. split; [named|]. split; [vm_compute; reflexivity|].
  eexists. vm_compute. reflexivity.
Qed.

(** Nor does it have renewable clusters when its ids differ: the converter writes their capacity as `p_max_unit`, and the model
    needs a parameter `nominal_capacity`. *)
Theorem C64_renewables : forall before per s sys files directory T S order o st,
  convert_antares before per s = Ok (sys, files) -> any_order order -> well_named s ->
  main_cli order [antares_library; andromede_v1_library] sys directory T S = Ok (o, st) ->
  forall a, NoDup (map element_id (everything s)) -> In a (areas_of s) -> ar_renewables a = [].
Proof. exact run_renewables. Qed.
Print Assumptions C64_renewables.
(** with a renewable cluster whose series is in the directory, the study is converted and not run *)
Definition exr_renewable : an_study := exa_with [exa_fr; {| ar_id := "it"; ar_energy_cost_unsupplied := nz 1000; ar_energy_cost_spilled := nz 5;
  ar_renewables := [("field", {| rn_area := "it"; rn_id := "field"; rn_nominal_capacity := nz 10; rn_unit_count := 1 |})];
  ar_thermals := []; ar_storages := []; ar_load := None; ar_wind := None; ar_solar := None |}].
Definition exr_sunny (name : string) : result frame :=
  match exr_directory name with Err _ => Ok [[nz 1]; [nz 2]]%Z | r => r end.
Example C64_renewables_example : NoDup (map element_id (everything exa_study)) /\ (exists o st, exr_run exa_study 1 = Ok (o, st)) /\
  well_named exr_renewable /\ NoDup (map element_id (everything exr_renewable)) /\
  convert_antares [] None exr_renewable = Ok (exr_converted exr_renewable) /\
  exists e, main_cli exr_order [antares_library; andromede_v1_library] (fst (exr_converted exr_renewable))
    (directory_after exr_sunny (snd (exr_converted exr_renewable))) 2 1 = Err e.
Proof.
  split; [cbn; repeat constructor; cbn; intuition discriminate|].
  split; [destruct exr_runs as (o & st & E & _); exists o, st; exact E|]. split; [named|].
  split; [cbn; repeat constructor; cbn; intuition discriminate|]. split; [vm_compute; reflexivity|]. eexists. vm_compute. reflexivity.
Qed.

(** A study with a thermal cluster runs in one scenario only: the series of the least power has one column, and the parameter it
    is given to depends on the scenario. *)
Theorem C64_scenarios : forall before per s sys files directory T S order o st,
  convert_antares before per s = Ok (sys, files) -> any_order order ->
  forall period, hours_of per (Z.of_nat period) -> good_antares s directory period T S ->
  main_cli order [antares_library; andromede_v1_library] sys (directory_after directory files) T S = Ok (o, st) ->
  forall a g, In (Cluster a g) (elements s) -> S = 1%Z.
Proof. exact antares_scenarios. Qed.
Print Assumptions C64_scenarios.
(** the same study and files, with two columns in every file *)
Definition exr_twice (name : string) : result frame :=
  if String.eqb name "study/input/thermal/series/fr/gas/series" then exr_directory name
  else match exr_directory name with Ok rows => Ok (map (fun row => (row ++ row)%list) rows) | Err e => Err e end.
Definition exr_wide : an_study := exa_with [
  exa_area "fr" [exa_cluster "fr" "gas" 2 10 [20; 15]%Z; exa_cluster "fr" (withdrawal_cluster "fr") 1 6 [6; 3]%Z] [exa_storage "fr" "tank"]
    (Some (exa_table 2 [[12; 12]; [18; 18]]%Z)); exa_it].
Lemma exr_wide_good : good_antares exr_wide exr_twice 168 2 2.
Proof. goodness. Qed.
Example C64_scenarios_example : good_antares exa_study exr_directory 168 2 1 /\ (exists o st, exr_run exa_study 1 = Ok (o, st)) /\
  (exists a g, In (Cluster a g) (elements exa_study)) /\
  good_antares exr_wide exr_twice 168 2 2 /\ convert_antares [] None exr_wide = Ok (exr_converted exr_wide) /\
  main_cli exr_order [antares_library; andromede_v1_library] (fst (exr_converted exr_wide))
    (directory_after exr_twice (snd (exr_converted exr_wide))) 2 2 = Err IndexError.
Proof.
  split; [exact exr_good|]. split; [destruct exr_runs as (o & st & E & _); exists o, st; exact E|].
  split; [eexists _, _; now left|]. split; [exact exr_wide_good|]. split; vm_compute; reflexivity.
Qed.

(** Two areas with a load: both components are called "load", the run is accepted, and the area "fr", which asks for 12, is
    balanced against the 3 of "it". *)
Definition exr_two : an_study := exa_with [exa_fr; exa_area "it" [] [] (Some (exa_table 1 [[3]; [4]]%Z))].
Theorem C64_loads_refuted : exists before per s sys files directory T S order o st a m row,
  convert_antares before per s = Ok (sys, files) /\ any_order order /\ well_named s /\
  main_cli order [antares_library; andromede_v1_library] sys (directory_after directory files) T S = Ok (o, st) /\
  In a (areas_of s) /\ ar_load a = Some m /\ directory (matrix_place s "load" (ar_id a)) = Ok (tb_rows m) /\
  In row (s_rows (st_solver st)) /\ sr_name row = (ar_id a ++ "_balance_t0_s0")%string /\
  nth 0 (nth 0 (tb_rows m) []) NaN = nz 12 /\ sr_lb row = nz 3 /\ sr_ub row = nz 3.
Proof.
  exists [], None, exr_two, (fst (exr_converted exr_two)), (snd (exr_converted exr_two)), exr_directory, 2%Z, 1%Z, exr_order.
  destruct (exr_run exr_two 1) as [[o st]|e] eqn:E; [|vm_compute in E; discriminate].
  assert (X : match exr_run exr_two 1 with
    | Ok (_, st) => match find (fun r => String.eqb (sr_name r) "fr_balance_t0_s0") (s_rows (st_solver st)) with
        | Some r => (sr_lb r, sr_ub r) | None => (NaN, NaN) end
    | Err _ => (NaN, NaN) end = (nz 3, nz 3)) by (vm_compute; f_equal; f_equal; now apply Qc_is_canon).
  rewrite E in X. destruct (find _ (s_rows (st_solver st))) as [row|] eqn:F; [|discriminate X]. injection X as X1 X2.
  apply find_some in F. destruct F as [F1 F2]. apply String.eqb_eq in F2.
  exists o, st, exa_fr, (exa_table 1 [[12]; [18]]%Z), row. split; [vm_compute; reflexivity|]. split; [exact exr_any_order|].
  split; [named|]. split; [reflexivity|]. split; [now left|]. split; [reflexivity|]. split; [reflexivity|].
  split; [exact F1|]. split; [exact F2|]. split; [reflexivity|]. split; [exact X1|exact X2].
Qed.
Print Assumptions C64_loads_refuted.

(** ** C65: the problem of a converted study *)
(** Every row of the problem is one of the constraints of the study at one timestep in one scenario, and every constraint has its
    row: balances of the areas with their unsupplied energy and spillage, flows of the links, commitment of the thermal clusters
    with what C43 says of the units, levels of storages and batteries. Missing: the terms dropped because their coefficients are
    below 1e-16, no more of them in a row than its constraint has quantities; studies whose ids collide (see [C64_loads_refuted]); data for every timestep and scenario, and capacities of
    batteries other than zero, are asked for. *)
Theorem C65_rows_partial : forall before per s sys files directory T S order o st,
  convert_antares before per s = Ok (sys, files) -> any_order order ->
  forall period, hours_of per (Z.of_nat period) -> good_antares s directory period T S ->
  main_cli order [antares_library; andromede_v1_library] sys (directory_after directory files) T S = Ok (o, st) ->
  exists drops, List.length drops = List.length (s_rows (st_solver st)) /\
  (forall j row d, nth_error (s_rows (st_solver st)) j = Some row -> nth_error drops j = Some d ->
     exists r t sc, In (fst (row_place r)) (everything s) /\ (0 <= t < T)%Z /\ (0 <= sc < S)%Z /\ few (row_size s r) d /\
       sr_name row = (element_id (fst (row_place r)) ++ "_" ++ snd (row_place r) ++ "_t" ++ string_of_Z t ++ "_s" ++ string_of_Z sc)%string /\
       forall x y, study_decisions T x -> study_values s T S o st y x ->
       (row_sat y row <-> exists w, terms_value (decisions_at x t sc) d = Some w /\ row_holds s directory period T x r w t sc)) /\
  (forall r t sc, In (fst (row_place r)) (everything s) -> (0 <= t < T)%Z -> (0 <= sc < S)%Z ->
     exists j row d, nth_error (s_rows (st_solver st)) j = Some row /\ nth_error drops j = Some d /\ few (row_size s r) d /\
       forall x y, study_decisions T x -> study_values s T S o st y x ->
       (row_sat y row <-> exists w, terms_value (decisions_at x t sc) d = Some w /\ row_holds s directory period T x r w t sc)).
Proof. exact antares_rows. Qed.
Print Assumptions C65_rows_partial.
Example C65_rows_example : any_order exr_order /\
  convert_antares [] None exa_study = Ok (fst (exr_converted exa_study), snd (exr_converted exa_study)) /\
  hours_of None (Z.of_nat 168) /\ good_antares exa_study exr_directory 168 2 1 /\
  exists o st, exr_run exa_study 1 = Ok (o, st) /\ List.length (s_rows (st_solver st)) = 25%nat /\ List.length (s_vars (st_solver st)) = 36%nat.
Proof.
  split; [exact exr_any_order|]. split; [exact exr_converts|]. split; [exact hours_none|]. split; [exact exr_good|exact exr_runs].
Qed.
(** in the balance of the first area the plant, the tank and the battery twice, the link, spillage and unsupplied energy; in that of
    the second one the link, spillage and unsupplied energy; the plant stays on for two hours and off for one *)
Example C65_sizes_example :
  let gas := exa_cluster "fr" "gas" 2 10 [20; 15]%Z in
  map (row_size exa_study) [AreaBalance exa_fr; AreaBalance exa_it; UpTime exa_fr gas; DownTime exa_fr gas] = [8; 3; 5; 2]%nat /\
  study_cost_size exa_study 2 1 = 16%nat.
Proof. split; vm_compute; reflexivity. Qed.

(** The objective is the cost of the study, in expectation over the scenarios: unsupplied energy and spillage, generation,
    starts and units on, injection into batteries; up to terms whose coefficients are below 1e-16, no more of them than the cost
    has quantities. *)
Theorem C65_cost_partial : forall before per s sys files directory T S order o st,
  convert_antares before per s = Ok (sys, files) -> any_order order ->
  forall period, hours_of per (Z.of_nat period) -> good_antares s directory period T S ->
  main_cli order [antares_library; andromede_v1_library] sys (directory_after directory files) T S = Ok (o, st) ->
  exists dropped, few (study_cost_size s T S) dropped /\
  forall x y t sc, study_decisions T x -> study_values s T S o st y x -> (0 <= sc)%Z ->
  olift2 Qcplus (objective_value y (st_solver st)) (terms_value (decisions_at x t sc) dropped) = Some (study_cost s T S x).
Proof. exact antares_objective. Qed.
Print Assumptions C65_cost_partial.
(** 5 for each unit of spillage and 1000 for what is not supplied, in both areas; 30 for what the plant generates, 10 for a start and
    1 for a unit on; 2 and 3 for what is stored in the battery *)
Example C65_cost_example : exists o st, exr_run exa_study 1 = Ok (o, st) /\
  study_cost exa_study 2 1 (fun _ _ _ _ => 1%Qc) = Z2Qc (2 * 2 * (5 + 1000) + 2 * (30 + 10 + 1) + 2 + 3) /\
  objective_value (fun _ => 1%Qc) (st_solver st) = Some (Z2Qc (2 * 2 * (5 + 1000) + 2 * (30 + 10 + 1) + 2 + 3)).
Proof.
  destruct exr_runs as (o & st & E & _). exists o, st. split; [exact E|]. split; [apply Qc_is_canon; vm_compute; reflexivity|].
  assert (X : match exr_run exa_study 1 with Ok (_, st) => match objective_value (fun _ => 1%Qc) (st_solver st) with
                | Some q => Qceqb q (Z2Qc (2 * 2 * (5 + 1000) + 2 * (30 + 10 + 1) + 2 + 3)) | None => false end | Err _ => false end = true)
    by (vm_compute; reflexivity).
  rewrite E in X. destruct (objective_value (fun _ => 1%Qc) (st_solver st)) as [q|]; [|discriminate]. now apply Qceqb_eq in X as ->.
Qed.

(** Every quantity has one variable, with the name of the element; two quantities share a variable only when they are the same
    quantity of the same element at the same timestep in the same scenario; decisions about the study correspond to values of the
    variables. *)
Theorem C65_decisions_partial : forall before per s sys files directory T S order o st,
  convert_antares before per s = Ok (sys, files) -> any_order order ->
  forall period, hours_of per (Z.of_nat period) -> good_antares s directory period T S ->
  main_cli order [antares_library; andromede_v1_library] sys (directory_after directory files) T S = Ok (o, st) ->
  (forall e q b t sc, In e (everything s) -> In (q, b) (quantities_of e) -> (0 <= t < T)%Z -> (0 <= sc < S)%Z ->
     exists i sv, kept_in o st e q t sc i /\ nth_error (s_vars (st_solver st)) i = Some sv /\
       sv_name sv = solver_variable_name o (element_id e) q (Some t) (Some sc)) /\
  (forall e q b t sc e' q' b' t' sc' i, In e (everything s) -> In (q, b) (quantities_of e) ->
     In e' (everything s) -> In (q', b') (quantities_of e') -> (0 <= t < T)%Z -> (0 <= t' < T)%Z ->
     kept_in o st e q t sc i -> kept_in o st e' q' t' sc' i -> e = e' /\ q = q' /\ t = t' /\ sc = sc') /\
  (forall x, study_decisions T x -> exists y, study_values s T S o st y x) /\
  (forall y, exists x, study_decisions T x /\ study_values s T S o st y x).
Proof. exact antares_places. Qed.
Print Assumptions C65_decisions_partial.
Definition exr_placed (o : settings) (st : state) : bool :=
  match get_component_variable o st (Some 1%Z) (Some 0%Z) "gas" "nb_units_on", get_component_variable o st (Some 0%Z) (Some 0%Z) "battery_fr" "level",
    nth_error (s_vars (st_solver st)) 11, nth_error (s_vars (st_solver st)) 34 with
  | Ok i, Ok j, Some v, Some w => Nat.eqb i 11 && Nat.eqb j 34 && String.eqb (sv_name v) "gas_nb_units_on_t1" && sv_integer v &&
      String.eqb (sv_name w) "battery_fr_level_t0" && neqb (sv_ub v) (nz 2) && neqb (sv_ub w) (nz 20)
  | _, _, _, _ => false end.
Lemma exr_placed_ok o st : exr_placed o st = true -> exists a g b c v w, In (Cluster a g) (everything exa_study) /\ In (Battery b c) (everything exa_study) /\
  kept_in o st (Cluster a g) "nb_units_on" 1 0 11 /\ kept_in o st (Battery b c) "level" 0 0 34 /\
  nth_error (s_vars (st_solver st)) 11 = Some v /\ nth_error (s_vars (st_solver st)) 34 = Some w /\
  sv_name v = "gas_nb_units_on_t1" /\ sv_name w = "battery_fr_level_t0" /\ sv_integer v = true /\ sv_ub v = nz 2 /\ sv_ub w = nz 20.
Proof.
  unfold exr_placed. destruct (get_component_variable o st (Some 1%Z) _ _ _) as [i|] eqn:E1; [|discriminate].
  destruct (get_component_variable o st (Some 0%Z) _ _ _) as [j|] eqn:E2; [|discriminate].
  destruct (nth_error _ 11) as [v|] eqn:E3; [|discriminate]. destruct (nth_error _ 34) as [w|] eqn:E4; [|discriminate].
  rewrite !andb_true_iff. intros ((((((H1 & H2) & H3) & H4) & H5) & H6) & H7). apply Nat.eqb_eq in H1, H2. apply String.eqb_eq in H3, H5. subst.
  eexists _, _, _, _, v, w. split; [do 2 right; left; reflexivity|]. split; [do 6 right; left; reflexivity|].
  split; [exact E1|]. split; [exact E2|]. split; [reflexivity|]. split; [reflexivity|]. split; [exact H3|]. split; [exact H5|].
  split; [exact H4|]. split; [now apply neqb_eq|now apply neqb_eq].
Qed.
(** the units on at the second timestep are an integer variable between 0 and 2, the level of the battery at the first is at most 20 *)
Example C65_decisions_example : exists o st, exr_run exa_study 1 = Ok (o, st) /\ exists a g b c v w,
  In (Cluster a g) (everything exa_study) /\ In (Battery b c) (everything exa_study) /\
  kept_in o st (Cluster a g) "nb_units_on" 1 0 11 /\ kept_in o st (Battery b c) "level" 0 0 34 /\
  nth_error (s_vars (st_solver st)) 11 = Some v /\ nth_error (s_vars (st_solver st)) 34 = Some w /\
  sv_name v = "gas_nb_units_on_t1" /\ sv_name w = "battery_fr_level_t0" /\ sv_integer v = true /\ sv_ub v = nz 2 /\ sv_ub w = nz 20.
Proof.
  destruct exr_runs as (o & st & E & _). exists o, st. split; [exact E|]. apply exr_placed_ok.
  assert (X : match exr_run exa_study 1 with Ok (o, st) => exr_placed o st | Err _ => false end = true) by (vm_compute; reflexivity).
  rewrite E in X. exact X.
Qed.

(** Every variable holds a quantity of the study, with its limits, which are in order, and it is integer when the quantity is. *)
Theorem C65_variables_partial : forall before per s sys files directory T S order o st,
  convert_antares before per s = Ok (sys, files) -> any_order order ->
  forall period, hours_of per (Z.of_nat period) -> good_antares s directory period T S ->
  main_cli order [antares_library; andromede_v1_library] sys (directory_after directory files) T S = Ok (o, st) ->
  forall i sv, nth_error (s_vars (st_solver st)) i = Some sv ->
  exists e q t sc, In e (everything s) /\ In (q, sv_integer sv) (quantities_of e) /\ (0 <= t < T)%Z /\ (0 <= sc < S)%Z /\
    kept_in o st e q t sc i /\ (sv_lb sv, sv_ub sv) = quantity_limits s directory T e q t sc /\ num_le (sv_lb sv) (sv_ub sv).
Proof. exact antares_variables. Qed.
Print Assumptions C65_variables_partial.
(** the hypotheses are those of [C65_rows_example]; two of the variables are those of [C65_decisions_example] *)
Example C65_variables_example : exists o st, exr_run exa_study 1 = Ok (o, st) /\ List.length (s_vars (st_solver st)) = 36%nat /\
  good_antares exa_study exr_directory 168 2 1.
Proof. destruct exr_runs as (o & st & E & _ & L). exists o, st. split; [exact E|]. split; [exact L|exact exr_good]. Qed.
