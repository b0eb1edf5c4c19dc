(** Conversion of Antares studies: C62 and C63. *)
From Coq Require Import Ascii Lia.
From Verif Require Import Base BaseFacts Study System Library Pypsa Thermal Antares SpecSystem SpecThermal SpecAntares AntaresFacts.
Local Open Scope list_scope.
Local Open Scope string_scope.

(** ** Examples *)
Definition exa_table (width : nat) (rows : list (list Z)) : table := {| tb_width := width; tb_rows := map (map nz) rows |}.
Definition exa_cluster (area id : string) (count size : Z) (series : list Z) : an_thermal := {|
  at_cluster := {| th_area := area; th_id := id; th_modulation := exa_table 4 (map (fun _ => [1; 1; 1; 0]%Z) series);
    th_series := exa_table 1 (map (fun v => [v]) series); th_unit_count := count; th_nominal_capacity := nz size |};
  at_min_stable_power := nz 1; at_efficiency := nz 100; at_marginal_cost := nz 30; at_fixed_cost := nz 1; at_startup_cost := nz 10;
  at_min_up_time := 2; at_min_down_time := 1 |}.
Definition exa_area (id : string) (clusters : list an_thermal) (storages : list an_storage) (load : option table) : an_area := {|
  ar_id := id; ar_energy_cost_unsupplied := nz 1000; ar_energy_cost_spilled := nz 5; ar_renewables := [];
  ar_thermals := map (fun t => (th_id (at_cluster t), t)) clusters; ar_storages := map (fun o => (so_id o, o)) storages;
  ar_load := load; ar_wind := None; ar_solar := None |}.
Definition exa_storage (area id : string) : an_storage := {|
  so_area := area; so_id := id; so_efficiency := nz 1; so_initial_level := nz 1; so_reservoir_capacity := nz 10;
  so_injection_nominal_capacity := nz 4; so_withdrawal_nominal_capacity := nz 4 |}.
Definition exa_link (from to : string) : an_link := {| ln_id := from ++ " / " ++ to; ln_from := from; ln_to := to |}.
Definition exa_read (ty : file_type) (area other : string) : result table :=
  match ty with
  | THERMAL_SERIES => if String.eqb area reserve then Ok (exa_table 1 [[20]; [10]]%Z) else Ok (exa_table 1 [[6]; [3]]%Z)
  | LINKS_CAPACITIES_DIRECT => Ok (exa_table 1 [[4]; [5]]%Z)
  | LINKS_PARAMETERS => Ok (exa_table 1 [[2]; [3]]%Z)
  end.
(** the areas [areas], the last one being the reserve for a battery in "fr" *)
Definition exa_with (areas : list an_area) : an_study := {|
  an_path := "study";
  an_areas := map (fun a => (ar_id a, a)) (areas ++ [exa_area reserve
    [exa_cluster reserve (stock_cluster "fr" "1") 1 20 [20; 10]%Z; exa_cluster reserve (stock_cluster "fr" "2") 1 20 [20; 10]%Z] [] None])%list;
  an_links := map (fun k => (ln_id k, k)) [exa_link "fr" "it"; exa_link "fr" reserve];
  an_constraints := [("batteries_fr", [("fr%z_batteries", nz (-1)); ("fr.fr_batteries_inj", nz 1)])];
  an_read := exa_read |}.
Definition exa_fr : an_area :=
  exa_area "fr" [exa_cluster "fr" "gas" 2 10 [20; 15]%Z; exa_cluster "fr" (withdrawal_cluster "fr") 1 6 [6; 3]%Z] [exa_storage "fr" "tank"]
    (Some (exa_table 1 [[12]; [18]]%Z)).
Definition exa_it : an_area := exa_area "it" [] [] None.
(** an area with a cluster, a storage, a load and a battery, linked to an area without anything *)
Definition exa_study : an_study := exa_with [exa_fr; exa_it].
(** the same areas, the other way round *)
Definition exa_reversed : an_study := exa_with [exa_it; exa_fr].
Ltac each_of H tac := cbn in H; repeat (destruct H as [<-|H]; [tac|]); destruct H.
Ltac named := let H := fresh in
  split; [let k := fresh in let a := fresh in intros k a H; cbn in H; repeat (destruct H as [H|H]; [injection H as <- <-; reflexivity|]); destruct H
         |let a := fresh in intros a H; each_of H ltac:(split; cbn; repeat split; discriminate)].
Lemma exa_named : well_named exa_study. Proof. named. Qed.
Lemma exa_reversed_named : well_named exa_reversed. Proof. named. Qed.

(** ** C62: the study written *)
Theorem C62_study before period s sys files : well_named s -> convert_antares before period s = Ok (sys, files) ->
  is_nodes sys = map (component_of s) (nodes s) /\ is_components sys = map (component_of s) (elements s) /\
  is_connections sys = flat_map connections_of (elements s).
Proof.
  intros N H. destruct (conversion s N period) as (r & E & _ & R). rewrite E in H. destruct (R sys files H) as (A & B & C & _). auto.
Qed.
Print Assumptions C62_study.
Example C62_study_example : well_named exa_study /\
  exists sys files, convert_antares [] None exa_study = Ok (sys, files) /\
  map ic_id (is_nodes sys) = ["fr"; "it"] /\ map ic_id (is_components sys) = ["gas"; "tank"; "load"; "fr / it"; "battery_fr"] /\
  map element_id (elements exa_study) = ["gas"; "tank"; "load"; "fr / it"; "battery_fr"] /\ List.length (is_connections sys) = 6%nat.
Proof. split; [exact exa_named|]. eexists _, _. split; [vm_compute; reflexivity|]. vm_compute. repeat split. Qed.

(** the clusters kept are those that do not stand for batteries *)
Theorem C62_clusters before period s sys files : well_named s -> convert_antares before period s = Ok (sys, files) ->
  (forall a t, In a (areas_of s) -> In t (map snd (ar_thermals a)) -> ~ serves_battery s (ar_id a) (th_id (at_cluster t)) ->
     In (component_of s (Cluster a t)) (is_components sys)) /\
  (forall c, In c (is_components sys) -> ic_model c = "antares-historic.thermal" ->
     exists a t, In a (areas_of s) /\ In t (map snd (ar_thermals a)) /\ ~ serves_battery s (ar_id a) (th_id (at_cluster t)) /\
       c = component_of s (Cluster a t)).
Proof. exact (clusters_converted before period s sys files). Qed.
Print Assumptions C62_clusters.
Example C62_clusters_example : exists sys files, convert_antares [] None exa_study = Ok (sys, files) /\
  serves_battery exa_study "fr" "fr_batteries_inj" /\ ~ serves_battery exa_study "fr" "gas".
Proof.
  eexists _, _. split; [vm_compute; reflexivity|]. rewrite <- !serves_reflect. split; [reflexivity|discriminate].
Qed.

(** links: all but those from an area to the reserve *)
Theorem C62_links before period s sys files : well_named s -> convert_antares before period s = Ok (sys, files) ->
  forall c, (In c (is_components sys) /\ ic_model c = "antares-historic.link") <->
    exists k, In k (map snd (an_links s)) /\ ~ (In (ln_from k) (area_ids s) /\ ln_to k = reserve) /\ c = component_of s (Link k).
Proof. exact (links_converted before period s sys files). Qed.
Print Assumptions C62_links.
Example C62_links_example : In (exa_link "fr" reserve) (map snd (an_links exa_study)) /\ In "fr" (area_ids exa_study).
Proof. cbn. auto. Qed.

(** what is written for the clusters; C43 says what the tables hold *)
Theorem C62_cluster_files before period s sys files a t id hours : well_named s -> convert_antares before period s = Ok (sys, files) -> hours_of period hours ->
  In a (areas_of s) -> In t (map snd (ar_thermals a)) -> ~ serves_battery s (ar_id a) (th_id (at_cluster t)) -> In id known ->
  exists content, In (cluster_place s (th_area (at_cluster t)) (th_id (at_cluster t)) (id ++ ".txt"), content) files /\
    written (an_path s) (at_cluster t) id hours content.
Proof. exact (cluster_files before period s sys files a t id hours). Qed.
Print Assumptions C62_cluster_files.
Example C62_cluster_files_example : exists sys files t, convert_antares [] None exa_study = Ok (sys, files) /\
  In t (map snd (ar_thermals exa_fr)) /\ ~ serves_battery exa_study "fr" (th_id (at_cluster t)) /\
  dget String.eqb "study/input/thermal/series/fr/gas/nb_units_max_variation_forward.txt" files = Some (exa_table 1 [[0]; [0]]%Z).
Proof.
  eexists _, _, _. split; [vm_compute; reflexivity|]. split; [now left|]. rewrite <- serves_reflect. split; [discriminate|]. vm_compute. reflexivity.
Qed.

(** nothing else is written than these files and those of batteries *)
Theorem C62_other_files before period s sys files name content : well_named s -> convert_antares before period s = Ok (sys, files) ->
  In (name, content) files ->
  (exists a t id, In a (areas_of s) /\ In t (map snd (ar_thermals a)) /\ ~ serves_battery s (ar_id a) (th_id (at_cluster t)) /\ In id known /\
     name = cluster_place s (th_area (at_cluster t)) (th_id (at_cluster t)) (id ++ ".txt")) \/
  (exists a, In a (battery_areas s) /\ In name [
     cluster_place s reserve (stock_cluster (ar_id a) "1") ("upper_rule_curve_" ++ reserve ++ ".txt");
     link_place s (ar_id a) ("capacities/p_max_injection_modulation_" ++ ar_id a ++ ".txt");
     cluster_place s (ar_id a) (withdrawal_cluster (ar_id a)) ("p_max_withdrawal_modulation_" ++ ar_id a ++ ".txt");
     link_place s (ar_id a) ("marginal_cost_" ++ ar_id a ++ ".txt")]).
Proof. exact (other_files before period s sys files name content). Qed.
Print Assumptions C62_other_files.
Example C62_other_files_example : exists sys files, convert_antares [] None exa_study = Ok (sys, files) /\ map fst files = [
  "study/input/thermal/series/fr/gas/p_min_cluster.txt"; "study/input/thermal/series/fr/gas/nb_units_min.txt";
  "study/input/thermal/series/fr/gas/nb_units_max.txt"; "study/input/thermal/series/fr/gas/nb_units_max_variation_forward.txt";
  "study/input/thermal/series/fr/gas/nb_units_max_variation_backward.txt";
  "study/input/thermal/series/z_batteries/z_batteries_batteries_fr_1/upper_rule_curve_z_batteries.txt";
  "study/input/links/fr/capacities/p_max_injection_modulation_fr.txt";
  "study/input/thermal/series/fr/fr_batteries_inj/p_max_withdrawal_modulation_fr.txt"; "study/input/links/fr/marginal_cost_fr.txt"].
Proof. eexists _, _. split; [vm_compute; reflexivity|]. reflexivity. Qed.

(** regular clusters and matrices are enough *)
Theorem C62_accepted before period p s : well_named s -> reads_fine s -> hours_of period (Z.of_nat p) -> (0 < p)%nat ->
  (forall a t, In a (areas_of s) -> In t (map snd (ar_thermals a)) -> ~ serves_battery s (ar_id a) (th_id (at_cluster t)) ->
     exists n m modulation power size, regular (at_cluster t) n m modulation power size /\ (0 < size)%Qc /\ (0 < m)%nat) ->
  exists sys files, convert_antares before period s = Ok (sys, files).
Proof. exact (conversion_accepts before period p s). Qed.
Print Assumptions C62_accepted.
Lemma exa_fine areas : reads_fine (exa_with areas).
Proof.
  intros ty a o. destruct ty; cbn; [destruct (String.eqb a reserve)| |]; split; cbn; try lia; discriminate.
Qed.
Lemma exa_regular area id count size series : regular (at_cluster (exa_cluster area id count size series)) (List.length series) 1
  (fun _ => 0%Qc) (fun i _ => Z2Qc (nth i series 0%Z)) (Z2Qc size).
Proof.
  assert (L : forall A B (f : A -> B) (l : list A), List.length (map f l) = List.length l) by (intros; apply map_length).
  constructor; cbn [at_cluster exa_cluster th_series th_modulation th_nominal_capacity tb_width tb_rows exa_table].
  - split; [split; [|split]|]; cbn [tb_rows tb_width exa_table].
    + now rewrite !L.
    + reflexivity.
    + intros row H. rewrite map_map in H. apply in_map_iff in H as (v & <- & _). reflexivity.
    + intros i j Hi Hj. unfold at_cell. cbn [tb_rows exa_table]. rewrite map_map, nth_error_map.
      rewrite (nth_error_nth' series 0%Z Hi). cbn. replace j with 0%nat by lia. reflexivity.
  - lia.
  - now rewrite !L.
  - intros i Hi. unfold at_cell. cbn [tb_rows exa_table]. rewrite map_map, nth_error_map. rewrite (nth_error_nth' series 0%Z Hi). reflexivity.
  - reflexivity.
Qed.
Example C62_accepted_example : well_named exa_study /\ reads_fine exa_study /\ hours_of None (Z.of_nat 168) /\
  forall a t, In a (areas_of exa_study) -> In t (map snd (ar_thermals a)) ->
     exists n m modulation power size, regular (at_cluster t) n m modulation power size /\ (0 < size)%Qc /\ (0 < m)%nat.
Proof.
  split; [exact exa_named|]. split; [apply exa_fine|]. split; [exact hours_none|]. intros a t Ha Ht.
  each_of Ha ltac:(each_of Ht ltac:(eexists _, _, _, _, _; split; [apply exa_regular|split; [reflexivity|lia]])).
Qed.

(** the reserve has no component, but what it holds besides the objects of batteries is still connected to it *)
Theorem C62_connections_refuted : exists s sys files k, well_named s /\ convert_antares [] None s = Ok (sys, files) /\
  In k (is_connections sys) /\ ~ In (icn_component2 k) (map ic_id (is_nodes sys)) /\ ~ In (icn_component2 k) (map ic_id (is_components sys)).
Proof.
  exists (exa_with [exa_fr; exa_it; exa_area reserve [] [] (Some (exa_table 1 [[12]; [18]]%Z))]). eexists _, _, _.
  split; [named|]. split; [vm_compute; reflexivity|]. split; [do 3 right; now left|]. cbn. split; intuition discriminate.
Qed.
Print Assumptions C62_connections_refuted.
(** the loads of all areas have the same id *)
Theorem C62_distinct_refuted : exists s sys files, well_named s /\ NoDup (area_ids s) /\ convert_antares [] None s = Ok (sys, files) /\
  map ic_id (filter (fun c => String.eqb (ic_model c) "antares-historic.load") (is_components sys)) = ["load"; "load"] /\
  ~ NoDup (map ic_id (is_components sys)).
Proof.
  exists (exa_with [exa_fr; exa_area "it" [] [] (Some (exa_table 1 [[3]; [4]]%Z))]). eexists _, _.
  split; [named|]. split; [cbn; repeat constructor; cbn; intuition discriminate|]. split; [vm_compute; reflexivity|]. split; [reflexivity|].
  cbn. intros H. inversion_clear H as [|? ? _ H1]. inversion_clear H1 as [|? ? _ H2]. inversion_clear H2 as [|? ? H3 _]. apply H3. now left.
Qed.
Print Assumptions C62_distinct_refuted.
(** the connections of wind and solar production name a component that does not exist *)
Theorem C62_production_refuted : exists s sys files k, well_named s /\ convert_antares [] None s = Ok (sys, files) /\
  In k (is_connections sys) /\ ~ In (icn_component1 k) (map ic_id (is_nodes sys)) /\ ~ In (icn_component1 k) (map ic_id (is_components sys)).
Proof.
  exists (exa_with [exa_fr; {| ar_id := "it"; ar_energy_cost_unsupplied := nz 1000; ar_energy_cost_spilled := nz 5; ar_renewables := [];
    ar_thermals := []; ar_storages := []; ar_load := None; ar_wind := Some (exa_table 1 [[3]; [4]]%Z); ar_solar := None |}]). eexists _, _, _.
  split; [named|]. split; [vm_compute; reflexivity|]. split; [do 3 right; now left|]. cbn. split; intuition discriminate.
Qed.
Print Assumptions C62_production_refuted.

(** ** C63: batteries *)
(** earlier conversions of the same process, whose values the class keeps, have no effect *)
Theorem C63_history before before' period s : well_named s -> convert_antares before period s = convert_antares before' period s.
Proof. exact (conversion_history before before' period s). Qed.
Print Assumptions C63_history.
Example C63_history_example : well_named exa_study /\
  exists r, convert_antares [("reservoir_capacity", nz 7); ("injection_nominal_capacity", nz 0)] None exa_study = Ok r.
Proof. split; [exact exa_named|]. eexists. vm_compute. reflexivity. Qed.

(** when every area has the objects of a battery, every area gets it *)
Theorem C63_every_battery_partial before period s sys files : well_named s -> convert_antares before period s = Ok (sys, files) ->
  (forall a, In a (battery_areas s) -> battery_of s (ar_id a) <> None) ->
  forall a, In a (battery_areas s) -> exists b, battery_of s (ar_id a) = Some b /\
    In (component_of s (Battery a b)) (is_components sys) /\ incl (connections_of (Battery a b)) (is_connections sys) /\
    incl (battery_files s (ar_id a) b) files.
Proof. exact (every_battery before period s sys files). Qed.
Print Assumptions C63_every_battery_partial.
Definition exa_alone : an_study := exa_with [exa_fr].
Example C63_every_battery_example : well_named exa_alone /\ (forall a, In a (battery_areas exa_alone) -> battery_of exa_alone (ar_id a) <> None) /\
  In exa_fr (battery_areas exa_alone) /\ exists r, convert_antares [] None exa_alone = Ok r.
Proof.
  split; [named|]. split; [|split; [now left|eexists; vm_compute; reflexivity]].
  intros a H. each_of H discriminate.
Qed.
(** the first areas of the study, up to the first one without battery, get theirs *)
Theorem C63_first_batteries before period s sys files : well_named s -> convert_antares before period s = Ok (sys, files) ->
  forall c, (In c (is_components sys) /\ ic_model c = "andromede-v1-models.battery") <->
    exists before_ a after b, battery_areas s = (before_ ++ a :: after)%list /\ (forall a', In a' before_ -> battery_of s (ar_id a') <> None) /\
      battery_of s (ar_id a) = Some b /\ c = component_of s (Battery a b).
Proof. exact (first_batteries before period s sys files). Qed.
Print Assumptions C63_first_batteries.
Example C63_first_batteries_example : exists sys files, convert_antares [] None exa_study = Ok (sys, files) /\
  exists c, In c (is_components sys) /\ ic_model c = "andromede-v1-models.battery" /\ ic_id c = "battery_fr".
Proof. eexists _, _. split; [vm_compute; reflexivity|]. eexists. split; [do 4 right; now left|]. split; reflexivity. Qed.
(** an area with all the objects of a battery loses it when an area without battery comes before: no battery, and neither
    the cluster that stood for it nor its link *)
Theorem C63_every_battery_refuted : exists s sys files a b, well_named s /\ convert_antares [] None s = Ok (sys, files) /\
  In a (battery_areas s) /\ battery_of s (ar_id a) = Some b /\
  ~ In ("battery_" ++ ar_id a) (map ic_id (is_components sys)) /\ ~ In (withdrawal_cluster (ar_id a)) (map ic_id (is_components sys)) /\
  ~ In (ar_id a ++ " / " ++ reserve) (map ic_id (is_components sys)).
Proof.
  exists exa_reversed. eexists _, _, exa_fr, _. split; [exact exa_reversed_named|]. split; [vm_compute; reflexivity|].
  split; [cbn; auto|]. split; [vm_compute; reflexivity|]. cbn. repeat split; intuition discriminate.
Qed.
Print Assumptions C63_every_battery_refuted.

(** the greatest injection of a battery is the greatest capacity of the link to the reserve *)
Theorem C63_injection s a b l : battery_of s a = Some b -> bt_injections b = map Fin l ->
  exists q, bt_injection b = Fin q /\ In q l /\ forall v, In v l -> (v <= q)%Qc.
Proof. exact (battery_injection s a b l). Qed.
Print Assumptions C63_injection.
Example C63_injection_example : exists b, battery_of exa_study "fr" = Some b /\ bt_injections b = map Fin [Z2Qc 4; Z2Qc 5] /\ bt_injection b = nz 5.
Proof. eexists. split; [vm_compute; reflexivity|]. split; vm_compute; reflexivity. Qed.
