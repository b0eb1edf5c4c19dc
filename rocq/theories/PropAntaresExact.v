(** Antares studies of limited precision, converted and run: C83 and C84. *)
From Coq Require Import Ascii Lia.
From Verif Require Import Base BaseFacts Expr LinearExpr Study Strategy Optim System Library Main SpecExpr SpecLibrary SpecSystem SpecLinear SpecOptim SpecMain
  SpecPypsa Pypsa Thermal Antares SpecThermal SpecAntares AntaresFacts AntaresStudy AntaresProblem SpecScenarios SpecPrecise PreciseFacts SpecAntaresExact
  AntaresExact AntaresLaws AntaresRuns PropAntares PropAntaresRun.
Local Open Scope list_scope.
Local Open Scope string_scope.

(** ** C83: the problem solved is the one the study describes *)

(** When the numbers of the study that multiply quantities or stand alone in constraints are whole numbers of [1 / D], with [D * D]
    and [D * S] at most 1e16, values of the solver's variables are allowed exactly when the decisions they stand for are within the
    limits of the study, integers where numbers of units are, and satisfy its constraints at every hour, in every scenario. *)
Theorem C83_feasible : forall before per s sys files directory T S order o st,
  convert_antares before per s = Ok (sys, files) -> any_order order ->
  forall period, hours_of per (Z.of_nat period) -> good_antares s directory period T S ->
  main_cli order [antares_library; andromede_v1_library] sys (directory_after directory files) T S = Ok (o, st) ->
  precise_antares s directory S ->
  forall x y, study_decisions T x -> study_values s T S o st y x ->
  solves y (st_solver st) <-> study_feasible s directory period T S x.
Proof. exact antares_feasible. Qed.
Print Assumptions C83_feasible.

(** What the solver minimises is the cost of the study. *)
Theorem C83_cost : forall before per s sys files directory T S order o st,
  convert_antares before per s = Ok (sys, files) -> any_order order ->
  forall period, hours_of per (Z.of_nat period) -> good_antares s directory period T S ->
  main_cli order [antares_library; andromede_v1_library] sys (directory_after directory files) T S = Ok (o, st) ->
  precise_antares s directory S ->
  forall x y, study_decisions T x -> study_values s T S o st y x ->
  objective_value y (st_solver st) = Some (study_cost s T S x).
Proof. exact antares_cost. Qed.
Print Assumptions C83_cost.

(** So an optimal solution is a cheapest plan of the study, and conversely. *)
Theorem C83_optimum : forall before per s sys files directory T S order o st,
  convert_antares before per s = Ok (sys, files) -> any_order order ->
  forall period, hours_of per (Z.of_nat period) -> good_antares s directory period T S ->
  main_cli order [antares_library; andromede_v1_library] sys (directory_after directory files) T S = Ok (o, st) ->
  precise_antares s directory S ->
  forall x y, study_decisions T x -> study_values s T S o st y x ->
  optimal y (st_solver st) <-> study_cheapest s directory period T S x.
Proof. exact antares_optimum. Qed.
Print Assumptions C83_optimum.

(** *** The study of the examples, whose numbers are integers *)
Lemma exr_precise : precise_antares exa_study exr_directory 1.
Proof.
  exists 1%Z. split; [lia|]. split; [vm_compute; discriminate|]. split; [vm_compute; discriminate|].
  assert (W : forall z, whole 1 (nz z)) by (intros z; apply whole_Z).
  intros e He. cbn in He. destruct He as [<-|[<-|[<-|[<-|[<-|[<-|[<-|[]]]]]]]].
  - split; apply W.
  - split; apply W.
  - intros v Hv. each_of Hv ltac:(apply W).
  - split; [intros v Hv; each_of Hv ltac:(apply W)|]. intros rows Hr. vm_compute in Hr. injection Hr as <-. intros row v Hrow Hv.
    destruct Hrow as [<-|[<-|[]]]; destruct Hv as [<-|[]]; [exact (W 1%Z)|exact (W 2%Z)].
  - intros m [= <-] row v Hrow Hv. cbn in Hrow. destruct Hrow as [<-|[<-|[]]]; destruct Hv as [<-|[]]; apply W.
  - exact I.
  - split; [apply W|]. split; [|intros v Hv; cbn in Hv; each_of Hv ltac:(apply W)].
    apply W.
Qed.
(** gas covers the demand with the inflows of the storage, up to what it can offer: 11 in the first hour, 15 in the second,
    where 1 is missing *)
Definition exr_plan (c q : string) (t sc : Z) : Qc :=
  let at_ id n := (String.eqb c id && String.eqb q n)%bool in
  let hours a b := Z2Qc (if Z.even t then a else b) in
  if at_ "gas" "generation" then hours 11%Z 15%Z else if at_ "gas" "nb_units_on" then hours 2%Z 2%Z
  else if at_ "tank" "p_withdrawal" then hours 1%Z 2%Z else if at_ "tank" "level" then hours 10%Z 10%Z
  else if at_ "fr" "unsupplied_energy" then hours 0%Z 1%Z else 0%Qc.
Lemma exr_plan_decisions : study_decisions 2 exr_plan.
Proof. intros c q t sc. unfold exr_plan. replace (Z.even (t + 2)) with (Z.even t); [reflexivity|]. rewrite Z.even_add. now destruct (Z.even t). Qed.
Lemma exr_plan_feasible : study_feasible exa_study exr_directory 168 2 1 exr_plan.
Proof.
  split.
  - intros e q b t sc He Hq Ht Hs. assert (sc = 0%Z) by lia. subst sc. cbn in He.
    assert (Tt : t = 0%Z \/ t = 1%Z) by lia.
    destruct He as [<-|[<-|[<-|[<-|[<-|[<-|[<-|[]]]]]]]]; cbn in Hq;
      repeat (destruct Hq as [[= <- <-]|Hq]; [destruct Tt as [-> | ->]; (split; [split; vm_compute; first [exact I|discriminate]|first [discriminate|intros _; eexists; reflexivity|intros _; exists 0%Z; vm_compute; reflexivity]])|]); destruct Hq.
  - intros r t sc Hr Ht Hs. assert (sc = 0%Z) by lia. subst sc. assert (Tt : t = 0%Z \/ t = 1%Z) by lia.
    destruct r; cbn in Hr;
      repeat (destruct Hr as [Hr|Hr]; [try discriminate Hr; injection Hr; intros; subst;
        destruct Tt as [-> | ->]; first [apply Qc_is_canon; vm_compute; reflexivity|vm_compute; discriminate]|]); destruct Hr.
Qed.
Example C83_example : any_order exr_order /\ convert_antares [] None exa_study = Ok (fst (exr_converted exa_study), snd (exr_converted exa_study)) /\
  hours_of None (Z.of_nat 168) /\ good_antares exa_study exr_directory 168 2 1 /\ precise_antares exa_study exr_directory 1 /\
  study_decisions 2 exr_plan /\ study_cost exa_study 2 1 exr_plan = Z2Qc 1784 /\
  exists o st y, exr_run exa_study 1 = Ok (o, st) /\ study_values exa_study 2 1 o st y exr_plan /\
    solves y (st_solver st) /\ objective_value y (st_solver st) = Some (Z2Qc 1784).
Proof.
  assert (C : study_cost exa_study 2 1 exr_plan = Z2Qc 1784) by (apply Qc_is_canon; vm_compute; reflexivity).
  split; [exact exr_any_order|]. split; [exact exr_converts|]. split; [constructor|]. split; [exact exr_good|]. split; [exact exr_precise|].
  split; [exact exr_plan_decisions|]. split; [exact C|].
  destruct exr_runs as (o & st & E & _). exists o, st.
  destruct (antares_places [] None exa_study _ _ exr_directory 2 1 exr_order o st exr_converts exr_any_order 168 hours_none exr_good E) as (_ & _ & P & _).
  destruct (P exr_plan exr_plan_decisions) as (y & Hy). exists y. split; [exact E|]. split; [exact Hy|]. split.
  - apply (C83_feasible [] None exa_study _ _ exr_directory 2 1 exr_order o st exr_converts exr_any_order 168 hours_none exr_good E exr_precise exr_plan y exr_plan_decisions Hy).
    exact exr_plan_feasible.
  - rewrite <- C. exact (C83_cost [] None exa_study _ _ exr_directory 2 1 exr_order o st exr_converts exr_any_order 168 hours_none exr_good E exr_precise exr_plan y exr_plan_decisions Hy).
Qed.

(** ** C84: what holds for the whole system and over the whole horizon *)

(** At every hour, what the areas spill less what they miss is what clusters, storages and batteries produce less the demand: what
    is sent over a link arrives. *)
Theorem C84_balance : forall before per s sys files directory T S order o st,
  convert_antares before per s = Ok (sys, files) -> any_order order ->
  forall period, hours_of per (Z.of_nat period) -> good_antares s directory period T S ->
  main_cli order [antares_library; andromede_v1_library] sys (directory_after directory files) T S = Ok (o, st) ->
  precise_antares s directory S ->
  forall x y, study_decisions T x -> study_values s T S o st y x -> solves y (st_solver st) ->
  forall t sc, areas_present s -> (0 <= t < T)%Z -> (0 <= sc < S)%Z ->
  qsum (fun n => (x (element_id n) "spillage" t sc - x (element_id n) "unsupplied_energy" t sc)%Qc) (nodes s) = qsum (net_power T x t sc) (elements s).
Proof. exact solution_balance. Qed.
Print Assumptions C84_balance.

(** So no solution supplies more than what clusters offer and stores can release. *)
Theorem C84_shortage : forall before per s sys files directory T S order o st,
  convert_antares before per s = Ok (sys, files) -> any_order order ->
  forall period, hours_of per (Z.of_nat period) -> good_antares s directory period T S ->
  main_cli order [antares_library; andromede_v1_library] sys (directory_after directory files) T S = Ok (o, st) ->
  precise_antares s directory S ->
  forall x y, study_decisions T x -> study_values s T S o st y x -> solves y (st_solver st) ->
  forall t sc, areas_present s -> (0 <= t < T)%Z -> (0 <= sc < S)%Z ->
  (- qsum (most_power s directory T t sc) (elements s) <= qsum (fun n => x (element_id n) "unsupplied_energy" t sc) (nodes s))%Qc.
Proof. exact solution_shortage. Qed.
Print Assumptions C84_shortage.

(** Over the horizon, what storages and batteries release is what they are given: they end as they began. *)
Theorem C84_stored : forall before per s sys files directory T S order o st,
  convert_antares before per s = Ok (sys, files) -> any_order order ->
  forall period, hours_of per (Z.of_nat period) -> good_antares s directory period T S ->
  main_cli order [antares_library; andromede_v1_library] sys (directory_after directory files) T S = Ok (o, st) ->
  precise_antares s directory S ->
  forall x y, study_decisions T x -> study_values s T S o st y x -> solves y (st_solver st) ->
  (forall a k sc, In (Storage a k) (elements s) -> (0 <= sc < S)%Z ->
     over_time T (fun t sc => (fin (so_efficiency k) * x (so_id k) "p_injection" t sc + storage_series s directory T k "inflows" t sc)%Qc) sc =
     over_time T (fun t sc => x (so_id k) "p_withdrawal" t sc) sc) /\
  (forall a b sc, In (Battery a b) (elements s) -> (0 <= sc < S)%Z ->
     (fin (bt_charging b) * over_time T (fun t sc => x (element_id (Battery a b)) "p_injection" t sc) sc =
      fin (bt_discharging b) * over_time T (fun t sc => x (element_id (Battery a b)) "p_withdrawal" t sc) sc)%Qc).
Proof. exact solution_stored. Qed.
Print Assumptions C84_stored.

(** So a storage whose inflows are more than all it can release makes the problem impossible: they cannot be spilled. *)
Theorem C84_overflow : forall before per s sys files directory T S order o st,
  convert_antares before per s = Ok (sys, files) -> any_order order ->
  forall period, hours_of per (Z.of_nat period) -> good_antares s directory period T S ->
  main_cli order [antares_library; andromede_v1_library] sys (directory_after directory files) T S = Ok (o, st) ->
  precise_antares s directory S ->
  forall a k sc, In (Storage a k) (elements s) -> (0 <= sc < S)%Z -> (0 <= fin (so_efficiency k))%Qc ->
  (over_time T (fun t sc => storage_series s directory T k "PMAX-withdrawal" t sc * fin (so_withdrawal_nominal_capacity k)) sc <
   over_time T (storage_series s directory T k "inflows") sc)%Qc ->
  forall y, ~ solves y (st_solver st).
Proof. exact overflow. Qed.
Print Assumptions C84_overflow.

(** Units of a cluster are started as often as they are stopped; when no unit is ever lost, those started in the last
    [min_up_time] hours are on; when none is ever regained, those stopped in the last [min_down_time] hours are off. *)
Theorem C84_units : forall before per s sys files directory T S order o st,
  convert_antares before per s = Ok (sys, files) -> any_order order ->
  forall period, hours_of per (Z.of_nat period) -> good_antares s directory period T S ->
  main_cli order [antares_library; andromede_v1_library] sys (directory_after directory files) T S = Ok (o, st) ->
  precise_antares s directory S ->
  forall x y, study_decisions T x -> study_values s T S o st y x -> solves y (st_solver st) ->
  forall a g, In (Cluster a g) (elements s) -> let v q t := x (th_id (at_cluster g)) q t 0%Z in let c := at_cluster g in
  qsum (v "nb_starting") (zrange 0 T) = qsum (v "nb_stopping") (zrange 0 T) /\
  ((forall t, units_lost c period (hour T t) 0 = 0%Z) -> forall t, (0 <= t < T)%Z -> (lately (at_min_up_time g) (v "nb_starting") t <= v "nb_units_on" t)%Qc) /\
  ((forall t, units_regained c period (hour T t) 0 = 0%Z) -> forall t, (0 <= t < T)%Z ->
     (lately (at_min_down_time g) (v "nb_stopping") t + v "nb_units_on" t <= Z2Qc (most_units c (hour T (t - at_min_down_time g)) 0))%Qc).
Proof. exact solution_units. Qed.
Print Assumptions C84_units.

(** *** The study of the examples: its plan is a solution (C83_example), its areas are all there, the cluster "gas" loses and regains
    no unit, and in the second hour 22 can be produced where 18 is asked for; with inflows of 5 there is none *)
Lemma exr_present : areas_present exa_study.
Proof. intros e He. cbn in He. destruct He as [<-|[<-|[<-|[<-|[<-|[]]]]]]; cbn; tauto. Qed.
Definition exr_flood (name : string) : result frame :=
  if String.eqb name "study/input/st-storage/series/fr/tank/inflows" then Ok [[nz 5]; [nz 5]] else exr_directory name.
Lemma exr_flood_good : good_antares exa_study exr_flood 168 2 1.
Proof. goodness. Qed.
Lemma exr_flood_precise : precise_antares exa_study exr_flood 1.
Proof.
  destruct exr_precise as (D & H1 & H2 & H3 & P). exists D. split; [exact H1|]. split; [exact H2|]. split; [exact H3|]. intros e He. specialize (P e He).
  destruct e; try exact P. destruct P as [P1 P2]. split; [exact P1|]. cbn in He. destruct He as [He|[He|[He|[He|[He|[He|[He|[]]]]]]]]; try discriminate He.
  injection He as <- <-. intros rows Hr. vm_compute in Hr. injection Hr as <-. intros row v Hrow Hv.
  destruct Hrow as [<-|[<-|[]]]; destruct Hv as [<-|[]]; exact (whole_Z D 5).
Qed.
Example C84_example : areas_present exa_study /\
  (In (Cluster exa_fr (exa_cluster "fr" "gas" 2 10 [20; 15]%Z)) (elements exa_study) /\ forall t,
     units_lost (at_cluster (exa_cluster "fr" "gas" 2 10 [20; 15]%Z)) 168 (hour 2 t) 0 = 0%Z /\
     units_regained (at_cluster (exa_cluster "fr" "gas" 2 10 [20; 15]%Z)) 168 (hour 2 t) 0 = 0%Z) /\
  qsum (most_power exa_study exr_directory 2 1 0) (elements exa_study) = Z2Qc 4 /\
  (exists b, In (Battery exa_fr b) (elements exa_study)) /\ In (Storage exa_fr (exa_storage "fr" "tank")) (elements exa_study) /\
  good_antares exa_study exr_flood 168 2 1 /\ precise_antares exa_study exr_flood 1 /\
  exists o st, main_cli exr_order [antares_library; andromede_v1_library] (fst (exr_converted exa_study))
    (directory_after exr_flood (snd (exr_converted exa_study))) 2 1 = Ok (o, st) /\ forall y, ~ solves y (st_solver st).
Proof.
  split; [exact exr_present|]. split.
  { split; [now left|]. intros t. unfold hour. pose proof (Z.mod_pos_bound t 2 ltac:(lia)) as B.
    assert (E : (t mod 2 = 0 \/ t mod 2 = 1)%Z) by lia. destruct E as [-> | ->]; split; vm_compute; reflexivity. }
  split; [apply Qc_is_canon; vm_compute; reflexivity|]. split; [eexists; cbn; do 4 right; now left|]. split; [right; now left|].
  split; [exact exr_flood_good|]. split; [exact exr_flood_precise|].
  destruct (main_cli exr_order [antares_library; andromede_v1_library] (fst (exr_converted exa_study)) (directory_after exr_flood (snd (exr_converted exa_study))) 2 1)
    as [[o st]|e] eqn:E; [|vm_compute in E; discriminate]. exists o, st. split; [reflexivity|].
  apply (C84_overflow [] None exa_study _ _ exr_flood 2 1 exr_order o st exr_converts exr_any_order 168 hours_none exr_flood_good E exr_flood_precise
    exa_fr (exa_storage "fr" "tank") 0%Z).
  - right. now left.
  - lia.
  - vm_compute. discriminate.
  - vm_compute. reflexivity.
Qed.
