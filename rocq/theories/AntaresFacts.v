(** Facts about the conversion of Antares studies. *)
From Coq Require Import Ascii Permutation Lia.
From Verif Require Import Base BaseFacts Study System Library Pypsa Thermal Antares SpecSystem SystemFacts SpecThermal ThermalFacts PypsaAccept SpecAntares.
Local Open Scope list_scope.
Local Open Scope string_scope.

(** ** The template of an area *)
Definition battery_parameters (id : string) : list ytree := [
  battery_parameter "reservoir_capacity" false false "thermal"
    (YMap [("area", YText reserve); ("cluster", YText (stock_cluster id "1")); ("field", YText "nominalcapacity")]);
  battery_parameter "injection_nominal_capacity" false false "link"
    (YMap [("area_from", YText id); ("area_to", YText reserve); ("timeseries_file_type", YText "links_capacities_direct");
           ("column", YNumber n0); ("operation", YMap [("type", YText "max")])]);
  battery_parameter "withdrawal_nominal_capacity" false false "thermal"
    (YMap [("area", YText id); ("cluster", YText (withdrawal_cluster id)); ("field", YText "nominalcapacity")]);
  battery_parameter "efficiency_injection" false false "binding_constraint"
    (YMap [("id", YText ("batteries_" ++ id)); ("field", YText (id ++ "%" ++ reserve));
           ("operation", YMap [("multiply_by", YNumber (nz (-1)))])]);
  battery_parameter "efficiency_withdrawal" false false "binding_constraint"
    (YMap [("id", YText ("batteries_" ++ id)); ("field", YText (id ++ "." ++ withdrawal_cluster id))]);
  battery_parameter "lower_rule_curve" false false "constant" (YNumber n0);
  battery_parameter "upper_rule_curve" true false "thermal"
    (YMap [("area", YText reserve); ("cluster", YText (stock_cluster id "1"));
           ("timeseries_file_type", YText "thermal_series"); ("column", YNumber n0);
           ("operation", YMap [("divide_by", YText "reservoir_capacity")])]);
  battery_parameter "p_max_injection_modulation" true false "link"
    (YMap [("area_from", YText id); ("area_to", YText reserve); ("timeseries_file_type", YText "links_capacities_direct");
           ("column", YNumber n0); ("operation", YMap [("divide_by", YText "injection_nominal_capacity")])]);
  battery_parameter "p_max_withdrawal_modulation" true false "thermal"
    (YMap [("area", YText id); ("cluster", YText (withdrawal_cluster id)); ("timeseries_file_type", YText "thermal_series");
           ("column", YNumber n0); ("operation", YMap [("divide_by", YText "withdrawal_nominal_capacity")])]);
  battery_parameter "marginal_cost" true false "link"
    (YMap [("area_from", YText id); ("area_to", YText reserve); ("timeseries_file_type", YText "links_parameters");
           ("column", YNumber n0)])].
Definition pattern : string := "${area}".
Lemma pattern_of_template : area_pattern battery_template = Ok pattern.
Proof. reflexivity. Qed.
Lemma template_of_area id :
  (let data := match_area_pattern pattern id battery_template in
   c <- yitem data "component" ;; i <- yitem c "id" ;; i <- ytext (Some i) ;;
   model <- yitem data "model" ;; model <- ytext (Some model) ;;
   ps <- yitem c "parameters" ;; ps <- ylist ps ;; Ok (i, model, ps)) =
  Ok ("battery_" ++ id, "andromede-v1-models.battery", battery_parameters id).
Proof.
  unfold battery_parameters, battery_parameter, stock_cluster, withdrawal_cluster. cbv -[append nz n0]. rewrite !app_nil_string. reflexivity.
Qed.
Definition legacy_objects : legacy := {|
  lg_links := [YText "${area}%z_batteries"]; lg_nodes := [YText "z_batteries"];
  lg_thermals := [YText "${area}.${area}_batteries_inj"; YText "z_batteries.z_batteries_batteries_${area}_1"; YText "z_batteries.z_batteries_batteries_${area}_2"] |}.
Lemma legacy_of_template : extract_legacy battery_template = Ok legacy_objects.
Proof. reflexivity. Qed.
Lemma legacy_links id : map (match_area_pattern pattern id) (lg_links legacy_objects) = [YText (id ++ "%" ++ reserve)].
Proof. cbv -[append]. reflexivity. Qed.
Lemma legacy_thermals id : map (match_area_pattern pattern id) (lg_thermals legacy_objects) =
  [YText (id ++ "." ++ withdrawal_cluster id); YText (reserve ++ "." ++ stock_cluster id "1"); YText (reserve ++ "." ++ stock_cluster id "2")].
Proof. unfold stock_cluster, withdrawal_cluster. cbv -[append]. reflexivity. Qed.

(** ** The parameters of a battery, one by one *)
Definition capacity_of (s : an_study) (area cluster : string) : result num :=
  a <- item (an_areas s) area ;; t <- item (ar_thermals a) cluster ;; Ok (th_nominal_capacity (at_cluster t)).
Definition series_read (s : an_study) (ty : file_type) (area other : string) : result (an_area * list num) :=
  a <- item (an_areas s) area ;; t <- an_read s ty area other ;; l <- column 0 t ;; Ok (a, l).
Definition weight_of (s : an_study) (bc field : string) : result num :=
  terms <- item (an_constraints s) bc ;; item terms field.
Definition with_value (id : string) (v : num) (st : bc_state) : bc_state :=
  {| bs_values := dset String.eqb id v (bs_values st); bs_files := bs_files st |}.
Definition with_file (path : string) (l : list num) (st : bc_state) : bc_state :=
  {| bs_values := bs_values st; bs_files := (bs_files st ++ [(path, {| tb_width := 1; tb_rows := map (fun v => [v]) l |})])%list |}.
Definition of_time (id path : string) : input_parameter :=
  {| ip_id := id; ip_time := true; ip_scenario := false; ip_value := inr path; ip_group := None |}.

Ltac run := unfold convert_parameter, convert_param_value, calculate_value, process_time_series, battery_parameter, then_do, lift; cbn -[append item column py_max].
Lemma step_capacity s id area cluster st :
  convert_parameter s (battery_parameter id false false "thermal"
    (YMap [("area", YText area); ("cluster", YText cluster); ("field", YText "nominalcapacity")])) st =
  match capacity_of s area cluster with Ok v => (with_value id v st, Ok (const id v)) | Err e => (st, Err e) end.
Proof.
  unfold capacity_of. run. destruct (item (an_areas s) area) as [a|]; cbn -[append item]; [|reflexivity].
  destruct (item (ar_thermals a) cluster); reflexivity.
Qed.
Lemma step_weight s id bc field st :
  convert_parameter s (battery_parameter id false false "binding_constraint" (YMap [("id", YText bc); ("field", YText field)])) st =
  match weight_of s bc field with Ok v => (st, Ok (const id v)) | Err e => (st, Err e) end.
Proof.
  unfold weight_of. run. destruct (item (an_constraints s) bc) as [a|]; cbn -[append item]; [|reflexivity].
  destruct (item a field); reflexivity.
Qed.
Lemma step_weight_times s id bc field k st :
  convert_parameter s (battery_parameter id false false "binding_constraint"
    (YMap [("id", YText bc); ("field", YText field); ("operation", YMap [("multiply_by", YNumber k)])])) st =
  match weight_of s bc field with Ok v => (st, Ok (const id (nmul v k))) | Err e => (st, Err e) end.
Proof.
  unfold weight_of. run. destruct (item (an_constraints s) bc) as [a|]; cbn -[append item]; [|reflexivity].
  destruct (item a field); reflexivity.
Qed.
Lemma step_constant s id v st :
  convert_parameter s (battery_parameter id false false "constant" (YNumber v)) st = (st, Ok (const id v)).
Proof. reflexivity. Qed.
Lemma step_max s id from to st :
  convert_parameter s (battery_parameter id false false "link"
    (YMap [("area_from", YText from); ("area_to", YText to); ("timeseries_file_type", YText "links_capacities_direct");
           ("column", YNumber n0); ("operation", YMap [("type", YText "max")])])) st =
  match series_read s LINKS_CAPACITIES_DIRECT from to with
  | Ok (_, l) => match py_max l with Ok v => (with_value id v st, Ok (const id v)) | Err e => (st, Err e) end
  | Err e => (st, Err e)
  end.
Proof.
  unfold series_read. run. destruct (item (an_areas s) from) as [a|]; cbn -[append item column py_max]; [|reflexivity].
  destruct (an_read s LINKS_CAPACITIES_DIRECT from to) as [t|]; cbn -[append item column py_max]; [|reflexivity].
  destruct (column 0 t) as [l|]; cbn -[append item column py_max]; [|reflexivity].
  destruct (py_max l); reflexivity.
Qed.
Lemma step_link_divided s id from to by_ v st : dget String.eqb by_ (bs_values st) = Some v ->
  convert_parameter s (battery_parameter id true false "link"
    (YMap [("area_from", YText from); ("area_to", YText to); ("timeseries_file_type", YText "links_capacities_direct");
           ("column", YNumber n0); ("operation", YMap [("divide_by", YText by_)])])) st =
  match series_read s LINKS_CAPACITIES_DIRECT from to with
  | Ok (a, l) => let name := parent_directory s LINKS_CAPACITIES_DIRECT from to ++ "/" ++ id ++ "_" ++ ar_id a in
      (with_file (name ++ ".txt") (map (fun x => np_div x v) l) st, Ok (of_time id name))
  | Err e => (st, Err e)
  end.
Proof.
  intros K. unfold series_read. run. destruct (item (an_areas s) from) as [a|]; cbn -[append item column py_max]; [|reflexivity].
  destruct (an_read s LINKS_CAPACITIES_DIRECT from to) as [t|]; cbn -[append item column py_max]; [|reflexivity].
  destruct (column 0 t) as [l|]; cbn -[append item column py_max]; [|reflexivity].
  rewrite K. reflexivity.
Qed.
Lemma step_thermal_divided s id area cluster by_ v st : dget String.eqb by_ (bs_values st) = Some v ->
  convert_parameter s (battery_parameter id true false "thermal"
    (YMap [("area", YText area); ("cluster", YText cluster); ("timeseries_file_type", YText "thermal_series");
           ("column", YNumber n0); ("operation", YMap [("divide_by", YText by_)])])) st =
  match series_read s THERMAL_SERIES area cluster with
  | Ok (a, l) => let name := parent_directory s THERMAL_SERIES area cluster ++ "/" ++ id ++ "_" ++ ar_id a in
      (with_file (name ++ ".txt") (map (fun x => np_div x v) l) st, Ok (of_time id name))
  | Err e => (st, Err e)
  end.
Proof.
  intros K. unfold series_read. run. destruct (item (an_areas s) area) as [a|]; cbn -[append item column py_max]; [|reflexivity].
  destruct (an_read s THERMAL_SERIES area cluster) as [t|]; cbn -[append item column py_max]; [|reflexivity].
  destruct (column 0 t) as [l|]; cbn -[append item column py_max]; [|reflexivity].
  rewrite K. reflexivity.
Qed.
Lemma step_link_plain s id from to st :
  convert_parameter s (battery_parameter id true false "link"
    (YMap [("area_from", YText from); ("area_to", YText to); ("timeseries_file_type", YText "links_parameters");
           ("column", YNumber n0)])) st =
  match series_read s LINKS_PARAMETERS from to with
  | Ok (a, l) => let name := parent_directory s LINKS_PARAMETERS from to ++ "/" ++ id ++ "_" ++ ar_id a in
      (with_file (name ++ ".txt") l st, Ok (of_time id name))
  | Err e => (st, Err e)
  end.
Proof.
  unfold series_read. run. destruct (item (an_areas s) from) as [a|]; cbn -[append item column py_max]; [|reflexivity].
  destruct (an_read s LINKS_PARAMETERS from to) as [t|]; cbn -[append item column py_max]; [|reflexivity].
  destruct (column 0 t) as [l|]; reflexivity.
Qed.

(** ** The parameters of a battery together *)
Definition keyed (s : an_study) : Prop := forall k a, dget String.eqb k (an_areas s) = Some a -> ar_id a = k.
Definition battery_given (s : an_study) (id : string) (b : battery) : list input_parameter := [
  const "reservoir_capacity" (bt_reservoir b); const "injection_nominal_capacity" (bt_injection b);
  const "withdrawal_nominal_capacity" (bt_withdrawal b); const "efficiency_injection" (bt_charging b);
  const "efficiency_withdrawal" (bt_discharging b); const "lower_rule_curve" n0;
  of_time "upper_rule_curve" (cluster_place s reserve (stock_cluster id "1") ("upper_rule_curve_" ++ reserve));
  of_time "p_max_injection_modulation" (link_place s id ("capacities/p_max_injection_modulation_" ++ id));
  of_time "p_max_withdrawal_modulation" (cluster_place s id (withdrawal_cluster id) ("p_max_withdrawal_modulation_" ++ id));
  of_time "marginal_cost" (link_place s id ("marginal_cost_" ++ id))].
(** the names under which files of the battery of an area are written *)
Definition battery_names (s : an_study) (id : string) : list string := [
  cluster_place s reserve (stock_cluster id "1") ("upper_rule_curve_" ++ reserve ++ ".txt");
  link_place s id ("capacities/p_max_injection_modulation_" ++ id ++ ".txt");
  cluster_place s id (withdrawal_cluster id) ("p_max_withdrawal_modulation_" ++ id ++ ".txt");
  link_place s id ("marginal_cost_" ++ id ++ ".txt")].
Lemma names_of_files s id b : map fst (battery_files s id b) = battery_names s id.
Proof. reflexivity. Qed.
(** the statement writes the files [fs] and gives [r], whatever was computed before *)
Definition writes {A} (m : stateful A) (fs : list (string * table)) (r : result A) : Prop :=
  forall st, exists vs, m st = ({| bs_values := vs; bs_files := (bs_files st ++ fs)%list |}, r).
Lemma stays st : st = {| bs_values := bs_values st; bs_files := (bs_files st ++ [])%list |}.
Proof. destruct st. cbn. now rewrite app_nil_r. Qed.
Lemma column_first ty s a o t l : an_read s ty a o = Ok t -> column 0 t = Ok l -> first_column (an_read s ty a o) = Some l.
Proof.
  intros -> H. unfold column in H. unfold first_column. destruct (Nat.ltb 0 (tb_width t)); [|discriminate]. now injection H as <-.
Qed.
Lemma column_first_none ty s a o : (forall t l, an_read s ty a o = Ok t -> column 0 t = Ok l -> False) -> first_column (an_read s ty a o) = None.
Proof.
  intros H. unfold first_column. destruct (an_read s ty a o) as [t|]; [|reflexivity]. unfold column in H.
  destruct (Nat.ltb 0 (tb_width t)) eqn:E; [|reflexivity]. exfalso. eapply H; [reflexivity|]. rewrite E. reflexivity.
Qed.
Lemma highest v l : fold_left (fun acc x => if nltb acc x then x else acc) l v = greatest v l.
Proof. revert v. induction l as [|x l IH]; intros v; cbn; [reflexivity|apply IH]. Qed.
Definition missing (e : err) : Prop := e = KeyError \/ e = FileNotFoundErr.
Lemma series_read_cases s ty a o :
  (exists x l, dget String.eqb a (an_areas s) = Some x /\ first_column (an_read s ty a o) = Some l /\ series_read s ty a o = Ok (x, l)) \/
  (exists e, (series_read s ty a o = Err e /\ (dget String.eqb a (an_areas s) = None \/ first_column (an_read s ty a o) = None)) /\ (reads_fine s -> missing e)).
Proof.
  unfold series_read, item. destruct (dget String.eqb a (an_areas s)) as [x|]; cbn; [|right; eexists; split; [split; [reflexivity|now left]|intros _; now left]].
  destruct (an_read s ty a o) as [t|e] eqn:E; cbn; [|right; exists e; split; [split; [reflexivity|now right]|]].
  2: { intros F. specialize (F ty a o). rewrite E in F. now right. }
  unfold first_column, column, Nat.ltb, Nat.leb. destruct (tb_width t) eqn:Ew; cbn.
  { right. eexists. split; [split; [reflexivity|now right]|]. intros F. specialize (F ty a o). rewrite E, Ew in F. destruct F. lia. }
  left. exists x. eexists. repeat split.
Qed.
Lemma capacity_cases s a c :
  (exists x t, dget String.eqb a (an_areas s) = Some x /\ dget String.eqb c (ar_thermals x) = Some t /\ capacity_of s a c = Ok (th_nominal_capacity (at_cluster t))) \/
  (exists e, (capacity_of s a c = Err e /\ (forall x, dget String.eqb a (an_areas s) = Some x -> dget String.eqb c (ar_thermals x) = None)) /\ (reads_fine s -> missing e)).
Proof.
  unfold capacity_of, item. destruct (dget String.eqb a (an_areas s)) as [x|]; cbn; [|right; eexists; split; [split; [reflexivity|discriminate]|intros _; now left]].
  destruct (dget String.eqb c (ar_thermals x)) as [t|] eqn:E; cbn; [left; exists x, t; repeat split; exact E|right; eexists; split; [split; [reflexivity|]|intros _; now left]].
  intros y H. injection H as <-. exact E.
Qed.
Lemma weight_cases s bc f :
  (exists w v, dget String.eqb bc (an_constraints s) = Some w /\ dget String.eqb f w = Some v /\ weight_of s bc f = Ok v) \/
  (exists e, (weight_of s bc f = Err e /\ (forall w, dget String.eqb bc (an_constraints s) = Some w -> dget String.eqb f w = None)) /\ (reads_fine s -> missing e)).
Proof.
  unfold weight_of, item. destruct (dget String.eqb bc (an_constraints s)) as [x|]; cbn; [|right; eexists; split; [split; [reflexivity|discriminate]|intros _; now left]].
  destruct (dget String.eqb f x) as [t|] eqn:E; cbn; [left; exists x, t; repeat split; exact E|right; eexists; split; [split; [reflexivity|]|intros _; now left]].
  intros y H. injection H as <-. exact E.
Qed.
Lemma battery_of_inv s id b : battery_of s id = Some b ->
  exists z a w stock out v1 v2 l1 v l l3 l4,
    dget String.eqb reserve (an_areas s) = Some z /\ dget String.eqb id (an_areas s) = Some a /\
    dget String.eqb ("batteries_" ++ id) (an_constraints s) = Some w /\
    dget String.eqb (stock_cluster id "1") (ar_thermals z) = Some stock /\ dget String.eqb (withdrawal_cluster id) (ar_thermals a) = Some out /\
    dget String.eqb (id ++ "%" ++ reserve) w = Some v1 /\ dget String.eqb (id ++ "." ++ withdrawal_cluster id) w = Some v2 /\
    first_column (an_read s THERMAL_SERIES reserve (stock_cluster id "1")) = Some l1 /\
    first_column (an_read s LINKS_CAPACITIES_DIRECT id reserve) = Some (v :: l) /\
    first_column (an_read s THERMAL_SERIES id (withdrawal_cluster id)) = Some l3 /\
    first_column (an_read s LINKS_PARAMETERS id reserve) = Some l4 /\
    b = {| bt_reservoir := th_nominal_capacity (at_cluster stock); bt_injection := greatest v l;
           bt_withdrawal := th_nominal_capacity (at_cluster out);
           bt_charging := nmul v1 (nz (-1)); bt_discharging := v2;
           bt_levels := l1; bt_injections := v :: l; bt_withdrawals := l3; bt_costs := l4 |}.
Proof.
  unfold battery_of. intros H.
  repeat match type of H with context [match ?x with _ => _ end] => destruct x eqn:?; try discriminate H end.
  injection H as <-. repeat eexists; eauto.
Qed.
Lemma each_cons {A B} (f : A -> stateful B) a l st :
  each_do f (a :: l) st = let '(st, r) := f a st in match r with
    | Ok b => let '(st, r) := each_do f l st in match r with Ok bs => (st, Ok (b :: bs)) | Err e => (st, Err e) end
    | Err e => (st, Err e) end.
Proof. cbn. unfold then_do, lift. destruct (f a st) as [st' [b|e]]; [|reflexivity]. destruct (each_do f l st') as [st'' [bs|e]]; reflexivity. Qed.
Ltac lookup := cbn [with_value with_file bs_values]; repeat first [rewrite (dget_dset_same String.eqb String.eqb_eq)|rewrite (dget_dset_other String.eqb String.eqb_eq) by discriminate]; reflexivity.
Definition names_written (s : an_study) (id : string) (fs : list (string * table)) : Prop := incl (map fst fs) (battery_names s id).
Ltac absent E := let B := fresh "B" in destruct (battery_of _ _) eqn:B;
  [exfalso; apply battery_of_inv in B as (z' & a' & w' & stock' & out' & v1' & v2' & l1' & v' & l' & l3' & l4' & B1 & B2 & B3 & B4 & B5 & B6 & B7 & B8 & B9 & B10 & B11 & _);
   first [specialize (E _ B1); congruence|specialize (E _ B2); congruence|specialize (E _ B3); congruence|destruct E; congruence|congruence]|reflexivity].
Lemma cluster_name s area id p : parent_directory s THERMAL_SERIES area id ++ "/" ++ p = cluster_place s area id p.
Proof. unfold cluster_place, place, parent_directory. rewrite !app_assoc_string. reflexivity. Qed.
Lemma capacities_name s from to p : parent_directory s LINKS_CAPACITIES_DIRECT from to ++ "/" ++ p = link_place s from ("capacities/" ++ p).
Proof. unfold link_place, place, parent_directory. rewrite !app_assoc_string. reflexivity. Qed.
Lemma parameters_name s from to p : parent_directory s LINKS_PARAMETERS from to ++ "/" ++ p = link_place s from p.
Proof. unfold link_place, place, parent_directory. rewrite !app_assoc_string. reflexivity. Qed.
Lemma cluster_suffix s area id p q : cluster_place s area id p ++ q = cluster_place s area id (p ++ q).
Proof. unfold cluster_place, place. rewrite !app_assoc_string. reflexivity. Qed.
Lemma link_suffix s from p q : link_place s from p ++ q = link_place s from (p ++ q).
Proof. unfold link_place, place. rewrite !app_assoc_string. reflexivity. Qed.
Lemma file_scaled path l v st : with_file path (map (fun x => np_div x v) l) st =
  {| bs_values := bs_values st; bs_files := (bs_files st ++ [(path, scaled l v)])%list |}.
Proof. unfold with_file, scaled. now rewrite map_map. Qed.
Ltac step E := rewrite each_cons; first [rewrite step_capacity|rewrite step_max|rewrite step_weight_times|rewrite step_weight|
  rewrite step_link_plain|erewrite step_thermal_divided by lookup|erewrite step_link_divided by lookup]; rewrite E; cbn beta iota zeta.
Ltac over st := eexists; first [now rewrite (stays st) at 1|cbn [bs_files with_value with_file]; rewrite <- ?app_assoc; cbn [app]; first [reflexivity|now rewrite app_nil_r]].
Lemma battery_run s id : keyed s -> exists fs r,
  writes (each_do (convert_parameter s) (battery_parameters id)) fs r /\ names_written s id fs /\
  match battery_of s id with
  | Some b => r = Ok (battery_given s id b) /\ fs = battery_files s id b
  | None => exists e, r = Err e /\ (reads_fine s -> missing e)
  end.
Proof.
  intros K.
  Ltac tidy := cbv zeta; rewrite ?file_scaled, ?highest, ?cluster_name, ?capacities_name, ?parameters_name, ?cluster_suffix, ?link_suffix, ?app_assoc_string;
    repeat match goal with K : keyed _, E : dget _ _ (an_areas _) = Some ?a |- context [ar_id ?a] => rewrite (K _ _ E) end.
  assert (End : forall e fs, writes (each_do (convert_parameter s) (battery_parameters id)) fs (Err e) -> names_written s id fs ->
    battery_of s id = None -> (reads_fine s -> missing e) -> exists fs r, writes (each_do (convert_parameter s) (battery_parameters id)) fs r /\ names_written s id fs /\
    match battery_of s id with Some b => r = Ok (battery_given s id b) /\ fs = battery_files s id b | None => exists e, r = Err e /\ (reads_fine s -> missing e) end).
  { intros e fs W N B M. exists fs, (Err e). rewrite B. eauto. }
  unfold writes in *. unfold battery_parameters in *.
  destruct (capacity_cases s reserve (stock_cluster id "1")) as [(z & stock & Ez & Es & E1)|(e & (E1 & N) & X)].
  2: { apply (End e []); [|intros n []|absent N|exact X]. intros st. step E1. over st. }
  destruct (series_read_cases s LINKS_CAPACITIES_DIRECT id reserve) as [(a & l2 & Ea & F2 & E2)|(e & (E2 & N) & X)].
  2: { apply (End e []); [|intros n []|absent N|exact X]. intros st. step E1. step E2. over st. }
  destruct l2 as [|v l2].
  { apply (End ValueError []); [|intros n []|absent F2|]. 2: { intros F. specialize (F LINKS_CAPACITIES_DIRECT id reserve). unfold first_column in F2. destruct (an_read s LINKS_CAPACITIES_DIRECT id reserve) as [t|]; [|discriminate]. destruct F as [_ F]. destruct (Nat.ltb 0 (tb_width t)); [|discriminate]. destruct (tb_rows t); [contradiction|discriminate]. }
    intros st. step E1. step E2. cbn [py_max]. over st. }
  destruct (capacity_cases s id (withdrawal_cluster id)) as [(a' & out & Ea' & Eo & E3)|(e & (E3 & N) & X)].
  2: { apply (End e []); [|intros n []|absent N|exact X]. intros st. step E1. step E2. cbn [py_max]. step E3. over st. }
  rewrite Ea in Ea'. injection Ea' as <-.
  destruct (weight_cases s ("batteries_" ++ id) (id ++ "%" ++ reserve)) as [(w & v1 & Ew & Ev1 & E4)|(e & (E4 & N) & X)].
  2: { apply (End e []); [|intros n []|absent N|exact X]. intros st. step E1. step E2. cbn [py_max]. step E3. step E4. over st. }
  destruct (weight_cases s ("batteries_" ++ id) (id ++ "." ++ withdrawal_cluster id)) as [(w' & v2 & Ew' & Ev2 & E5)|(e & (E5 & N) & X)].
  2: { apply (End e []); [|intros n []|absent N|exact X]. intros st. step E1. step E2. cbn [py_max]. step E3. step E4. step E5. over st. }
  rewrite Ew in Ew'. injection Ew' as <-.
  destruct (series_read_cases s THERMAL_SERIES reserve (stock_cluster id "1")) as [(z' & l1 & Ez' & F1 & E6)|(e & (E6 & N) & X)].
  2: { apply (End e []); [|intros n []|absent N|exact X]. intros st. step E1. step E2. cbn [py_max]. step E3. step E4. step E5.
       rewrite each_cons, step_constant. step E6. over st. }
  rewrite Ez in Ez'. injection Ez' as <-.
  set (f1 := (cluster_place s reserve (stock_cluster id "1") ("upper_rule_curve_" ++ reserve ++ ".txt"), scaled l1 (th_nominal_capacity (at_cluster stock)))).
  assert (N1 : forall fs, names_written s id fs -> names_written s id (f1 :: fs)) by (intros fs H n [<-|I]; [now left|exact (H n I)]).
  set (f2 := (link_place s id ("capacities/p_max_injection_modulation_" ++ id ++ ".txt"), scaled (v :: l2) (greatest v l2))).
  assert (N2 : forall fs, names_written s id fs -> names_written s id (f2 :: fs)) by (intros fs H n [<-|I]; [right; now left|exact (H n I)]).
  destruct (series_read_cases s THERMAL_SERIES id (withdrawal_cluster id)) as [(a' & l3 & Ea' & F3 & E8)|(e & (E8 & N) & X)].
  2: { apply (End e [f1; f2]); [|apply N1, N2; intros n []|absent N|exact X]. intros st. step E1. step E2. cbn [py_max]. step E3. step E4. step E5.
       rewrite each_cons, step_constant. step E6. step E2. step E8. tidy. over st. }
  clear Ea'.
  set (f3 := (cluster_place s id (withdrawal_cluster id) ("p_max_withdrawal_modulation_" ++ id ++ ".txt"), scaled l3 (th_nominal_capacity (at_cluster out)))).
  assert (N3 : forall fs, names_written s id fs -> names_written s id (f3 :: fs)) by (intros fs H n [<-|I]; [right; right; now left|exact (H n I)]).
  rename a' into a2. assert (a2 = a) as -> by (unfold series_read, item in E8; rewrite Ea in E8; cbn in E8; destruct (an_read s THERMAL_SERIES id (withdrawal_cluster id)) as [t|]; [|discriminate]; cbn in E8; destruct (column 0 t); [|discriminate]; cbn in E8; congruence).
  destruct (series_read_cases s LINKS_PARAMETERS id reserve) as [(a' & l4 & Ea' & F4 & E9)|(e & (E9 & N) & X)].
  2: { apply (End e [f1; f2; f3]); [|apply N1, N2, N3; intros n []|absent N|exact X]. intros st. step E1. step E2. cbn [py_max]. step E3. step E4. step E5.
       rewrite each_cons, step_constant. step E6. step E2. step E8. step E9. tidy. over st. }
  rewrite Ea in Ea'. injection Ea' as <-.
  set (b := {| bt_reservoir := th_nominal_capacity (at_cluster stock); bt_injection := greatest v l2; bt_withdrawal := th_nominal_capacity (at_cluster out);
    bt_charging := nmul v1 (nz (-1)); bt_discharging := v2; bt_levels := l1; bt_injections := v :: l2; bt_withdrawals := l3; bt_costs := l4 |}).
  assert (B : battery_of s id = Some b) by (unfold battery_of; rewrite Ez, Ea, Ew, Es, Eo, Ev1, Ev2, F1, F2, F3, F4; reflexivity).
  exists (battery_files s id b), (Ok (battery_given s id b)). rewrite B. split; [|split; [|split; reflexivity]].
  - intros st. step E1. step E2. cbn [py_max]. step E3. step E4. step E5. rewrite each_cons, step_constant. step E6. step E2. step E8. step E9. tidy.
    cbn [each_do]. unfold lift. eexists. unfold with_file. cbn [bs_files with_value with_file bs_values]. rewrite <- !app_assoc. cbn [app]. reflexivity.
  - unfold names_written. rewrite names_of_files. apply incl_refl.
Qed.

(** ** The batteries, area after area *)
Definition battery_component (s : an_study) (id : string) (b : battery) : input_component :=
  an_component ("battery_" ++ id) "andromede-v1-models.battery" (battery_given s id b).
Definition battery_connection (id : string) : input_connection := an_connection ("battery_" ++ id) "injection_port" id "balance_port".
Lemma one_battery s a : keyed s -> exists fs r, writes (convert_battery pattern battery_template s a) fs r /\ names_written s (ar_id a) fs /\
  match battery_of s (ar_id a) with
  | Some b => r = Ok (battery_component s (ar_id a) b, battery_connection (ar_id a)) /\ fs = battery_files s (ar_id a) b
  | None => exists e, r = Err e /\ (reads_fine s -> missing e)
  end.
Proof.
  intros K. destruct (battery_run s (ar_id a) K) as (fs & r & W & N & R).
  exists fs, (match r with Ok ps => Ok (an_component ("battery_" ++ ar_id a) "andromede-v1-models.battery" ps, battery_connection (ar_id a)) | Err e => Err e end).
  split; [|split; [exact N|]].
  - intros st. unfold convert_battery. pose proof (template_of_area (ar_id a)) as T. cbv zeta in T |- *. rewrite T. unfold then_do, lift. destruct (W st) as (vs & ->). exists vs. destruct r; reflexivity.
  - destruct (battery_of s (ar_id a)) as [b|]; [destruct R as [-> ->]; split; reflexivity|destruct R as (e & -> & M); eauto].
Qed.
Lemma all_batteries s : keyed s -> forall areas done, exists fs r,
  (forall st, exists vs, convert_batteries pattern battery_template s areas done st = ({| bs_values := vs; bs_files := (bs_files st ++ fs)%list |}, r)) /\
  (reads_fine s -> exists d, r = Ok d) /\
  forall d, r = Ok d ->
    let bs := leading (fun a => battery_of s (ar_id a)) areas in
    d = ((fst done ++ map (fun ab => battery_component s (ar_id (fst ab)) (snd ab)) bs)%list,
         (snd done ++ map (fun ab => battery_connection (ar_id (fst ab))) bs)%list) /\
    exists left, fs = (flat_map (fun ab => battery_files s (ar_id (fst ab)) (snd ab)) bs ++ left)%list /\
      (left = [] \/ exists a rest, areas = (map fst bs ++ a :: rest)%list /\ battery_of s (ar_id a) = None /\ names_written s (ar_id a) left).
Proof.
  intros K. induction areas as [|a areas IH]; intros done.
  - exists [], (Ok done). split; [intros st; exists (bs_values st); cbn; now rewrite <- stays|]. split; [eauto|].
    intros d H. injection H as <-. cbn. rewrite !app_nil_r. split; [now destruct done|]. exists []. auto.
  - destruct (one_battery s a K) as (fs & r & W & N & R). cbn [convert_batteries leading].
    destruct (battery_of s (ar_id a)) as [b|] eqn:B.
    + destruct R as [-> ->].
      destruct (IH ((fst done ++ [battery_component s (ar_id a) b])%list, (snd done ++ [battery_connection (ar_id a)])%list)) as (fs & r & W' & F & R).
      exists (battery_files s (ar_id a) b ++ fs)%list, r. split.
      * intros st. destruct (W st) as (vs & ->). destruct (W' {| bs_values := vs; bs_files := (bs_files st ++ battery_files s (ar_id a) b)%list |}) as (vs' & E).
        exists vs'. rewrite E. cbn [bs_files]. now rewrite <- app_assoc.
      * split; [exact F|]. intros d H. destruct (R d H) as (-> & left & -> & L). cbn [fst snd map flat_map]. rewrite <- !app_assoc. cbn [app].
        split; [reflexivity|]. exists left. rewrite <- ?app_assoc. split; [reflexivity|].
        destruct L as [->|(a' & rest & Er & Na & Nl)]; [now left|right]. exists a', rest. rewrite Er at 1. auto.
    + destruct R as (e & -> & Me). exists fs.
      exists (match e with KeyError | FileNotFoundErr => Ok done | e => Err e end). split.
      * intros st. destruct (W st) as (vs & ->). exists vs. destruct e; reflexivity.
      * split; [intros F; destruct (Me F) as [->| ->]; eauto|]. intros d H. cbn. rewrite !app_nil_r. assert (d = done) as -> by (destruct e; congruence).
        split; [now destruct done|]. exists fs. split; [reflexivity|]. right. exists a, areas. auto.
Qed.

(** ** Objects that stand for batteries *)
Lemma free_of_app k a b : free_of k a -> free_of k b -> free_of k (a ++ b).
Proof. induction a as [|x a IH]; cbn; [auto|]. intros [H1 H2] H. auto. Qed.
Lemma free_first k a b s : free_of k s -> (a ++ String k b)%string = s -> False.
Proof. revert s. induction a as [|x a IH]; intros [|y s] F H; cbn in *; try discriminate; injection H as -> H; [now apply (proj1 F)|exact (IH s (proj2 F) H)]. Qed.
Lemma separated k a b a' b' : free_of k a' -> free_of k b' -> (a ++ String k b = a' ++ String k b')%string -> a = a' /\ b = b'.
Proof.
  intros Ha Hb. revert a Ha. induction a' as [|y a' IH]; intros [|x a] Ha H; cbn in *.
  - split; congruence.
  - injection H as -> H. destruct (free_first _ _ _ _ Hb H).
  - injection H as -> H. now destruct (proj1 Ha).
  - injection H as -> H. destruct (IH a (proj2 Ha) H) as [-> ->]. auto.
Qed.
Lemma same_pair k a b a' b' : free_of k a' -> free_of k b' -> String.eqb (a ++ String k b) (a' ++ String k b') = (String.eqb a a' && String.eqb b b')%bool.
Proof.
  intros Ha Ha'. destruct (String.eqb_spec (a ++ String k b) (a' ++ String k b')) as [E|N].
  - destruct (separated _ _ _ _ _ Ha Ha' E) as [-> ->]. now rewrite !String.eqb_refl.
  - destruct (String.eqb_spec a a') as [->|]; [|reflexivity]. destruct (String.eqb_spec b b') as [->|]; [|reflexivity]. contradiction.
Qed.
Lemma existsb_flat {A B} (p : B -> bool) (f : A -> list B) l : existsb p (flat_map f l) = existsb (fun a => existsb p (f a)) l.
Proof. induction l as [|a l IH]; cbn; [reflexivity|]. now rewrite existsb_app, IH. Qed.
Lemma existsb_ext_in {A} (p q : A -> bool) l : (forall a, In a l -> p a = q a) -> existsb p l = existsb q l.
Proof. intros H. induction l as [|a l IH]; cbn; [reflexivity|]. rewrite H, IH; cbn; auto. intros b Hb. apply H. now right. Qed.
Lemma existsb_map {A B} (p : B -> bool) (f : A -> B) l : existsb p (map f l) = existsb (fun a => p (f a)) l.
Proof. induction l as [|a l IH]; cbn; [reflexivity|now rewrite IH]. Qed.
Lemma flat_map_ext_in {A B} (f g : A -> list B) l : (forall a, In a l -> f a = g a) -> flat_map f l = flat_map g l.
Proof. intros H. induction l as [|a l IH]; cbn; [reflexivity|]. rewrite H, IH; cbn; auto. intros b Hb. apply H. now right. Qed.
Section Named.
  Context (s : an_study) (Named : well_named s).
  Lemma keyed_named : keyed s.
  Proof. intros k a H. symmetry. apply (proj1 Named k a). exact (dget_In String.eqb String.eqb_eq _ _ _ H). Qed.
  Ltac free := unfold withdrawal_cluster, stock_cluster; repeat apply free_of_app; try assumption; cbn; repeat split; discriminate.
  Lemma excluded_thermals area id :
    ymember (area ++ "." ++ id) (to_exclude pattern s (lg_thermals legacy_objects)) = serves_batteryb s area id.
  Proof.
    unfold ymember, to_exclude, serves_batteryb, area_ids. rewrite existsb_flat, existsb_map. apply existsb_ext_in. intros b Hb.
    rewrite legacy_thermals. destruct (proj2 Named b Hb) as [D _]. cbn [existsb]. cbn [append]. rewrite !same_pair by free.
    destruct (String.eqb area (ar_id b)), (String.eqb area reserve); cbn; rewrite ?orb_false_r; reflexivity.
  Qed.
  Lemma excluded_links from to :
    ymember (from ++ "%" ++ to) (to_exclude pattern s (lg_links legacy_objects)) = to_reserve s from to.
  Proof.
    unfold ymember, to_exclude, to_reserve, area_ids. rewrite existsb_flat, existsb_map.
    transitivity (existsb (fun b => String.eqb from (ar_id b) && String.eqb to reserve)%bool (areas_of s)).
    - apply existsb_ext_in. intros b Hb. rewrite legacy_links. destruct (proj2 Named b Hb) as [_ D]. cbn [existsb]. cbn [append].
      rewrite same_pair by free. now rewrite orb_false_r.
    - induction (areas_of s) as [|b l IH]; cbn; [reflexivity|]. rewrite IH. destruct (String.eqb from (ar_id b)), (String.eqb to reserve), (existsb (fun a => String.eqb from (ar_id a)) l); reflexivity.
  Qed.
End Named.

(** ** Clusters *)
Lemma parameter_path s c id : build_csv_path (an_path s) c id = cluster_place s (th_area c) (th_id c) (id ++ ".txt").
Proof. unfold build_csv_path, series_path, cluster_place, place. rewrite !app_assoc_string. reflexivity. Qed.
Lemma made_parameter s c id period t : prepro_parameter id period c = Some (Ok t) ->
  generate_component_parameter (an_path s) c id period =
  Ok ((cluster_place s (th_area c) (th_id c) (id ++ ".txt"), t),
      {| cp_id := id; cp_time_dependent := true; cp_scenario_dependent := true; cp_value := cluster_place s (th_area c) (th_id c) id |}).
Proof.
  intros H. unfold generate_component_parameter. rewrite H. cbn [bind]. rewrite parameter_path. do 3 f_equal.
  rewrite <- cluster_suffix. apply removesuffix_app.
Qed.
Definition file_made (s : an_study) (period : Z) (c : cluster) (id : string) (f : string * table) : Prop :=
  fst f = cluster_place s (th_area c) (th_id c) (id ++ ".txt") /\ prepro_parameter id period c = Some (Ok (snd f)).
Lemma cluster_converted s period a t m : convert_thermal s period t = Ok m ->
  fst m = component_of s (Cluster a t) /\ Forall2 (file_made s period (at_cluster t)) known (snd m).
Proof.
  intros H. unfold convert_thermal in H. cbn [mapM fst snd] in H.
  assert (G : forall id p r, generate_component_parameter (an_path s) (at_cluster t) id p = Ok r ->
    exists tb, prepro_parameter id p (at_cluster t) = Some (Ok tb)).
  { intros id p r E. unfold generate_component_parameter in E. destruct (prepro_parameter id p (at_cluster t)) as [[tb|]|]; [eauto|discriminate|discriminate]. }
  repeat match type of H with
  | context [generate_component_parameter ?a ?c ?i ?p] =>
      let E := fresh "E" in let r := fresh "r" in let tb := fresh "tb" in
      destruct (generate_component_parameter a c i p) as [r|] eqn:E; [|discriminate H];
      destruct (G _ _ _ E) as (tb & ?); rewrite (made_parameter s c i p tb) in E by assumption; injection E as <-; cbn [bind] in H
  end.
  injection H as <-. cbn [fst snd map]. split.
  - unfold component_of, an_component. f_equal. f_equal. cbn. unfold series_path, cluster_place, place. rewrite ?app_assoc_string. reflexivity.
  - repeat constructor; assumption.
Qed.

(** ** The whole study *)
Lemma valid_battery_areas s :
  (ps <- yitem battery_template "template-parameters" ;; ps <- ylist ps ;; valid_areas (an_areas s) ps) =
  Ok (filter (fun ka => negb (String.eqb (fst ka) reserve || String.eqb (fst ka) reserve_pcomp)) (an_areas s)).
Proof. cbn. f_equal. apply filter_ext. intros ka. now rewrite orb_false_r. Qed.
Lemma matrix_useful m : (match m with Some t => check_dataframe_validity t | None => false end) = useful m.
Proof.
  destruct m as [t|]; [|reflexivity]. unfold check_dataframe_validity, useful. rewrite !negb_orb.
  assert (E : negb (forallb (forallb (fun v => neqb v n0)) (tb_rows t)) = existsb (existsb (fun v => negb (neqb v n0))) (tb_rows t)).
  { induction (tb_rows t) as [|r l IH]; cbn; [reflexivity|]. rewrite negb_andb, IH. f_equal.
    clear. induction r as [|v r IH]; cbn; [reflexivity|]. now rewrite negb_andb, IH. }
  rewrite E. destruct (tb_width t) as [|w]; [reflexivity|]. cbn. destruct (tb_rows t); reflexivity.
Qed.
Definition cluster_pairs (s : an_study) : list (an_area * an_thermal) :=
  flat_map (fun a => map (pair a) (filter (fun t => negb (serves_batteryb s (ar_id a) (th_id (at_cluster t)))) (map snd (ar_thermals a)))) (areas_of s).
Definition battery_pairs (s : an_study) : list (an_area * battery) := leading (fun a => battery_of s (ar_id a)) (battery_areas s).
Lemma map_flat {A B C} (g : B -> C) (f : A -> list B) l : map g (flat_map f l) = flat_map (fun a => map g (f a)) l.
Proof. induction l as [|a l IH]; cbn; [reflexivity|]. now rewrite map_app, IH. Qed.
Lemma flat_one {A B} (f : A -> B) l : flat_map (fun a => [f a]) l = map f l.
Proof. induction l as [|a l IH]; cbn; [reflexivity|now rewrite IH]. Qed.
Lemma flat_map_map {A B C} (g : A -> B) (f : B -> list C) l : flat_map f (map g l) = flat_map (fun a => f (g a)) l.
Proof. induction l as [|a l IH]; cbn; [reflexivity|now rewrite IH]. Qed.
Lemma mapM_Forall2 {A B} (f : A -> result B) l r : mapM f l = Ok r -> Forall2 (fun a b => f a = Ok b) l r.
Proof. apply mapM_ok. Qed.
Section Study.
  Context (s : an_study) (Named : well_named s).
  Lemma kept_clusters : kept_thermals pattern legacy_objects s = cluster_pairs s.
  Proof. unfold kept_thermals, cluster_pairs. apply flat_map_ext_in. intros a Ha. f_equal. apply filter_ext. intros t. now rewrite excluded_thermals. Qed.
  Lemma links_kept : kept_links pattern legacy_objects s = filter (fun k => negb (to_reserve s (ln_from k) (ln_to k))) (map snd (an_links s)).
  Proof. unfold kept_links. apply filter_ext. intros k. now rewrite excluded_links. Qed.
  Lemma matrices matrix : with_matrix matrix s = filter (fun a => useful (matrix a)) (areas_of s).
  Proof. unfold with_matrix. apply filter_ext. intros a. apply matrix_useful. Qed.
  Lemma area_nodes : convert_areas legacy_objects s = map (component_of s) (nodes s).
  Proof.
    unfold convert_areas, nodes. rewrite map_map. f_equal. apply filter_ext. intros a. cbn. now rewrite orb_false_r.
  Qed.
  Lemma elements_split : elements s =
    (map Renewable (flat_map (fun a => map snd (ar_renewables a)) (areas_of s)) ++
     map (fun at_ => Cluster (fst at_) (snd at_)) (cluster_pairs s) ++ map (fun ao => Storage (fst ao) (snd ao)) (storages_of s) ++
     map Load (with_matrix ar_load s) ++ map Wind (with_matrix ar_wind s) ++ map Solar (with_matrix ar_solar s) ++
     map Link (kept_links pattern legacy_objects s) ++ map (fun ab => Battery (fst ab) (snd ab)) (battery_pairs s))%list.
  Proof.
    unfold elements, cluster_pairs, storages_of, battery_pairs. rewrite !matrices, links_kept, !map_flat. f_equal. f_equal; [|f_equal].
    - apply flat_map_ext_in. intros a _. now rewrite map_map.
    - apply flat_map_ext_in. intros a _. now rewrite !map_map.
  Qed.
  (** the files written, clusters first *)
  Definition conversion_files (period : Z) (files : list (string * table)) : Prop :=
    exists made left, files = (flat_map snd made ++ flat_map (fun ab => battery_files s (ar_id (fst ab)) (snd ab)) (battery_pairs s) ++ left)%list /\
      Forall2 (fun at_ (m : input_component * list (string * table)) => convert_thermal s period (snd at_) = Ok m) (cluster_pairs s) made /\
      (left = [] \/ exists a rest, battery_areas s = (map fst (battery_pairs s) ++ a :: rest)%list /\
         battery_of s (ar_id a) = None /\ names_written s (ar_id a) left).
  Lemma conversion period : exists r, (forall before, convert_antares before period s = r) /\
    (reads_fine s -> (forall a t, In (a, t) (cluster_pairs s) -> exists m, convert_thermal s (converter_period period) t = Ok m) -> exists x, r = Ok x) /\
    forall sys files, r = Ok (sys, files) ->
      is_nodes sys = map (component_of s) (nodes s) /\ is_components sys = map (component_of s) (elements s) /\
      is_connections sys = flat_map connections_of (elements s) /\ conversion_files (converter_period period) files.
  Proof.
    destruct (all_batteries s (keyed_named s Named) (battery_areas s) ([], [])) as (fs & rb & W & F & R).
    unfold convert_antares, convert_with. rewrite pattern_of_template, legacy_of_template. cbn [bind].
    pose proof (valid_battery_areas s) as V. cbn [bind] in V.
    exists (thermals <- convert_thermals pattern legacy_objects s (converter_period period) ;;
       batteries <- rb ;;
       let all := [convert_renewables s; fst thermals; convert_storages s; convert_loads s; convert_matrix "wind" ar_wind s;
                   convert_matrix "solar" ar_solar s; convert_links pattern legacy_objects s; batteries] in
       Ok ({| is_nodes := convert_areas legacy_objects s; is_components := flat_map fst all; is_connections := flat_map snd all |},
           (snd thermals ++ fs)%list)).
    split.
    - intros before. destruct (yitem battery_template "template-parameters") as [ps|] eqn:E1; [|discriminate V]. cbn [bind] in *.
      destruct (ylist ps) as [l|] eqn:E2; [|discriminate V]. cbn [bind] in *. rewrite V. cbn [bind].
      destruct (convert_thermals pattern legacy_objects s (converter_period period)) as [th|]; [|reflexivity]. cbn [bind].
      destruct (W {| bs_values := before; bs_files := [] |}) as (vs & E). unfold battery_areas in E. rewrite E. cbn [bs_files app]. reflexivity.
    - split. { intros Fi C. destruct (F Fi) as (d & ->). unfold convert_thermals. rewrite kept_clusters.
        destruct (mapM_accepts (fun at_ => convert_thermal s (converter_period period) (snd at_)) (cluster_pairs s)) as (made & ->); [|cbn; eauto].
        intros [a t] H. exact (C a t H). }
      intros sys files H. unfold convert_thermals in H. rewrite kept_clusters in H.
      destruct (mapM (fun at_ => convert_thermal s (converter_period period) (snd at_)) (cluster_pairs s)) as [made|] eqn:M; [|discriminate H].
      cbn [bind] in H. destruct rb as [d|]; [|discriminate H]. cbn [bind] in H. destruct (R d eq_refl) as (-> & left & -> & L). injection H as <- <-.
      apply mapM_Forall2 in M. cbn [is_nodes is_components is_connections fst snd app].
      assert (C : map fst made = map (component_of s) (map (fun at_ => Cluster (fst at_) (snd at_)) (cluster_pairs s))).
      { rewrite map_map. clear - M. induction M as [|at_ m l ms H M IH]; cbn; [reflexivity|]. rewrite IH. f_equal.
        exact (proj1 (cluster_converted s _ (fst at_) (snd at_) m H)). }
      split; [apply area_nodes|]. split; [|split].
      + rewrite elements_split, !map_app, C, !map_map. cbn [flat_map]. rewrite app_nil_r. reflexivity.
      + rewrite elements_split, !flat_map_app. cbn [flat_map]. rewrite app_nil_r, !flat_map_map. cbn [connections_of].
        rewrite !flat_one. reflexivity.
      + exists made, left. split; [reflexivity|]. split; [exact M|exact L].
  Qed.
End Study.

(** ** Consequences *)
Lemma serves_reflect s area id : serves_batteryb s area id = true <-> serves_battery s area id.
Proof.
  unfold serves_batteryb, serves_battery, is_withdrawal, is_stock. rewrite existsb_exists. split.
  - intros (b & Hb & H). apply orb_true_iff in H as [H|H]; apply andb_true_iff in H as [H1 H2]; apply String.eqb_eq in H1; subst.
    + apply String.eqb_eq in H2. left. auto.
    + right. split; [reflexivity|]. exists b. split; [exact Hb|]. apply orb_true_iff in H2 as [H2|H2]; apply String.eqb_eq in H2; auto.
  - intros [(H & ->)|(-> & b & Hb & H)].
    + exists area. rewrite !String.eqb_refl. auto.
    + exists b. split; [exact Hb|]. apply orb_true_iff. right. rewrite String.eqb_refl. apply orb_true_iff. rewrite !String.eqb_eq. exact H.
Qed.
Lemma cluster_accepts s c t n m modulation power size period : at_cluster t = c -> (0 < size)%Qc -> (0 < period)%nat -> (0 < m)%nat ->
  regular c n m modulation power size -> exists x, convert_thermal s (Z.of_nat period) t = Ok x.
Proof.
  intros <- Hs Hp Hm G. destruct (p_min_values _ _ _ _ _ _ G) as (t1 & _ & E1 & _). destruct (units_min_values _ _ _ _ _ _ Hs G) as (t2 & _ & E2 & _).
  destruct (variation_values FORWARD _ _ _ _ _ _ _ Hs Hp Hm G) as (t3 & E3 & _). destruct (variation_values BACKWARD _ _ _ _ _ _ _ Hs Hp Hm G) as (t4 & E4 & _).
  unfold convert_thermal. cbn [mapM fst snd].
  rewrite (made_parameter s _ "p_min_cluster" _ t1) by (cbn; now rewrite E1). rewrite (made_parameter s _ "nb_units_min" _ t2) by (cbn; now rewrite E2).
  rewrite (made_parameter s _ "nb_units_max" _ (nb_units_max (at_cluster t))) by reflexivity.
  rewrite (made_parameter s _ "nb_units_max_variation_forward" _ t3) by (cbn; now rewrite E3).
  rewrite (made_parameter s _ "nb_units_max_variation_backward" _ t4) by (cbn; now rewrite E4). cbn. eauto.
Qed.
Lemma cluster_in s a t : In (a, t) (cluster_pairs s) <-> In a (areas_of s) /\ In t (map snd (ar_thermals a)) /\ ~ serves_battery s (ar_id a) (th_id (at_cluster t)).
Proof.
  unfold cluster_pairs. rewrite in_flat_map. split.
  - intros (b & Hb & H). apply in_map_iff in H as (u & E & H). injection E as -> ->. apply filter_In in H as [H1 H2]. repeat split; auto.
    rewrite <- serves_reflect. now destruct (serves_batteryb s (ar_id a) (th_id (at_cluster t))).
  - intros (Ha & Ht & N). exists a. split; [exact Ha|]. apply in_map. apply filter_In. split; [exact Ht|]. rewrite <- serves_reflect in N.
    now destruct (serves_batteryb s (ar_id a) (th_id (at_cluster t))).
Qed.
Lemma leading_all {A B} (f : A -> option B) l : (forall a, In a l -> f a <> None) -> forall a, In a l -> exists b, f a = Some b /\ In (a, b) (leading f l).
Proof.
  induction l as [|x l IH]; intros H a Ha; [destruct Ha|]. cbn. destruct (f x) as [b|] eqn:E; [|now destruct (H x (or_introl eq_refl))].
  destruct Ha as [->|Ha]; [exists b; cbn; auto|]. destruct (IH (fun y Hy => H y (or_intror Hy)) a Ha) as (b' & E' & I). exists b'. cbn. auto.
Qed.
Lemma leading_in {A B} (f : A -> option B) l a b : In (a, b) (leading f l) -> In a l /\ f a = Some b.
Proof.
  induction l as [|x l IH]; cbn; [intros []|]. destruct (f x) as [y|] eqn:E; [|intros []]. intros [H|H]; [injection H as -> ->; auto|]. destruct (IH H). auto.
Qed.
Lemma nltb_fin q x : nltb (Fin q) (Fin x) = true <-> (q < x)%Qc.
Proof.
  unfold nltb. cbn [nleb neqb]. rewrite andb_true_iff, negb_true_iff, Qcleb_le. split.
  - intros [H N]. apply Qcle_lt_or_eq in H as [H|H]; [exact H|]. apply Qceqb_eq in H. congruence.
  - intros H. split; [now apply Qclt_le_weak|]. destruct (Qceqb q x) eqn:E; [|reflexivity]. apply Qceqb_eq in E. subst. now destruct (Qclt_not_eq _ _ H).
Qed.
Lemma greatest_is q l : exists m, greatest (Fin q) (map Fin l) = Fin m /\ In m (q :: l) /\ forall v, In v (q :: l) -> (v <= m)%Qc.
Proof.
  revert q. induction l as [|x l IH]; intros q; cbn [map greatest].
  - exists q. cbn. split; [reflexivity|]. split; [now left|]. intros v [->|[]]. apply Qcle_refl.
  - destruct (nltb (Fin q) (Fin x)) eqn:E; [destruct (IH x) as (m & E1 & I & L)|destruct (IH q) as (m & E1 & I & L)]; exists m; (split; [exact E1|]).
    + apply nltb_fin in E. split; [destruct I; cbn; auto|]. intros v [->|H]; [|now apply L]. apply Qcle_trans with x; [now apply Qclt_le_weak|apply L; now left].
    + split; [destruct I; cbn; auto|]. intros v [->|[->|H]]; [apply L; now left| |apply L; now right].
      apply Qcle_trans with q; [|apply L; now left]. destruct (Qclt_le_dec q v) as [X|X]; [|exact X]. apply nltb_fin in X. congruence.
Qed.
Lemma conversion_history before before' period s : well_named s -> convert_antares before period s = convert_antares before' period s.
Proof. intros N. destruct (conversion s N period) as (r & E & _). now rewrite !E. Qed.
Lemma conversion_ok before period s sys files : well_named s -> convert_antares before period s = Ok (sys, files) ->
  is_nodes sys = map (component_of s) (nodes s) /\ is_components sys = map (component_of s) (elements s) /\
  is_connections sys = flat_map connections_of (elements s) /\ conversion_files s (converter_period period) files.
Proof. intros N H. destruct (conversion s N period) as (r & E & _ & R). rewrite E in H. exact (R sys files H). Qed.
Lemma element_cases s e : well_named s -> In e (elements s) ->
  (exists a r, e = Renewable r /\ In a (areas_of s) /\ In r (map snd (ar_renewables a))) \/
  (exists a t, e = Cluster a t /\ In (a, t) (cluster_pairs s)) \/
  (exists a o, e = Storage a o /\ In (a, o) (storages_of s)) \/
  (exists a, e = Load a /\ In a (areas_of s) /\ useful (ar_load a) = true) \/
  (exists a, e = Wind a /\ In a (areas_of s) /\ useful (ar_wind a) = true) \/
  (exists a, e = Solar a /\ In a (areas_of s) /\ useful (ar_solar a) = true) \/
  (exists k, e = Link k /\ In k (map snd (an_links s)) /\ to_reserve s (ln_from k) (ln_to k) = false) \/
  (exists a b, e = Battery a b /\ In (a, b) (battery_pairs s)).
Proof.
  intros N H. rewrite (elements_split s N), !in_app_iff in H.
  destruct H as [H|[H|[H|[H|[H|[H|[H|H]]]]]]]; apply in_map_iff in H as (x & <- & H).
  - left. apply in_flat_map in H as (a & Ha & H). exists a, x. auto.
  - right; left. exists (fst x), (snd x). now destruct x.
  - right; right; left. exists (fst x), (snd x). now destruct x.
  - do 3 right; left. rewrite matrices in H. apply filter_In in H. exists x. tauto.
  - do 4 right; left. rewrite matrices in H. apply filter_In in H. exists x. tauto.
  - do 5 right; left. rewrite matrices in H. apply filter_In in H. exists x. tauto.
  - do 6 right; left. rewrite (links_kept s N) in H. apply filter_In in H as [H1 H2]. exists x. repeat split; auto. now destruct (to_reserve s (ln_from x) (ln_to x)).
  - do 7 right. exists (fst x), (snd x). now destruct x.
Qed.
Lemma cluster_element s a t : well_named s -> In (a, t) (cluster_pairs s) -> In (Cluster a t) (elements s).
Proof. intros N H. rewrite (elements_split s N), !in_app_iff. right; left. apply in_map_iff. exists (a, t). auto. Qed.
Lemma link_element s k : well_named s -> In k (map snd (an_links s)) -> to_reserve s (ln_from k) (ln_to k) = false -> In (Link k) (elements s).
Proof. intros N H E. rewrite (elements_split s N), !in_app_iff. do 6 right; left. apply in_map. rewrite (links_kept s N). apply filter_In. now rewrite E. Qed.
Lemma battery_element s a b : well_named s -> In (a, b) (battery_pairs s) -> In (Battery a b) (elements s).
Proof. intros N H. rewrite (elements_split s N), !in_app_iff. do 7 right. apply in_map_iff. exists (a, b). auto. Qed.
Lemma clusters_converted before period s sys files : well_named s -> convert_antares before period s = Ok (sys, files) ->
  (forall a t, In a (areas_of s) -> In t (map snd (ar_thermals a)) -> ~ serves_battery s (ar_id a) (th_id (at_cluster t)) ->
     In (component_of s (Cluster a t)) (is_components sys)) /\
  (forall c, In c (is_components sys) -> ic_model c = "antares-historic.thermal" ->
     exists a t, In a (areas_of s) /\ In t (map snd (ar_thermals a)) /\ ~ serves_battery s (ar_id a) (th_id (at_cluster t)) /\
       c = component_of s (Cluster a t)).
Proof.
  intros N H. destruct (conversion_ok before period s sys files N H) as (_ & E & _). rewrite E. split.
  - intros a t Ha Ht Nb. apply in_map. apply cluster_element; [exact N|]. now apply cluster_in.
  - intros c Hc M. apply in_map_iff in Hc as (e & <- & He).
    destruct (element_cases s e N He) as [(? & ? & -> & _)|[(a & t & -> & P)|[(? & ? & -> & _)|[(? & -> & _)|[(? & -> & _)|[(? & -> & _)|[(? & -> & _)|(? & ? & -> & _)]]]]]]];
      try discriminate M. apply cluster_in in P as (P1 & P2 & P3). exists a, t. auto.
Qed.
Lemma links_converted before period s sys files : well_named s -> convert_antares before period s = Ok (sys, files) ->
  forall c, (In c (is_components sys) /\ ic_model c = "antares-historic.link") <->
    exists k, In k (map snd (an_links s)) /\ ~ (In (ln_from k) (area_ids s) /\ ln_to k = reserve) /\ c = component_of s (Link k).
Proof.
  intros N H c. destruct (conversion_ok before period s sys files N H) as (_ & E & _). rewrite E.
  assert (T : forall k, to_reserve s (ln_from k) (ln_to k) = false <-> ~ (In (ln_from k) (area_ids s) /\ ln_to k = reserve)).
  { intros k. unfold to_reserve. rewrite andb_false_iff. split.
    - intros [X|X] [A B]; [|now rewrite B, String.eqb_refl in X]. enough (existsb (String.eqb (ln_from k)) (area_ids s) = true) by congruence.
      apply existsb_exists. exists (ln_from k). split; [exact A|apply String.eqb_refl].
    - intros X. destruct (existsb (String.eqb (ln_from k)) (area_ids s)) eqn:E1; [|now left]. destruct (String.eqb (ln_to k) reserve) eqn:E2; [|now right].
      exfalso. apply X. apply String.eqb_eq in E2. apply existsb_exists in E1 as (y & Hy & E1). apply String.eqb_eq in E1. subst y. auto. }
  split.
  - intros [Hc M]. apply in_map_iff in Hc as (e & <- & He).
    destruct (element_cases s e N He) as [(? & ? & -> & _)|[(a & t & -> & P)|[(? & ? & -> & _)|[(? & -> & _)|[(? & -> & _)|[(? & -> & _)|[(k & -> & P1 & P2)|(? & ? & -> & _)]]]]]]];
      try discriminate M. exists k. rewrite <- T. auto.
  - intros (k & Hk & X & ->). split; [|reflexivity]. apply in_map. apply link_element; [exact N|exact Hk|]. now apply T.
Qed.
Lemma hours_period per h : hours_of per h -> converter_period per = h.
Proof.
  intros [h' H| |]; [|reflexivity|reflexivity]. unfold converter_period. destruct (Z.eqb_spec h' 0); [contradiction|reflexivity].
Qed.
Lemma cluster_files before period s sys files a t id hours : well_named s -> convert_antares before period s = Ok (sys, files) -> hours_of period hours ->
  In a (areas_of s) -> In t (map snd (ar_thermals a)) -> ~ serves_battery s (ar_id a) (th_id (at_cluster t)) -> In id known ->
  exists content, In (cluster_place s (th_area (at_cluster t)) (th_id (at_cluster t)) (id ++ ".txt"), content) files /\
    written (an_path s) (at_cluster t) id hours content.
Proof.
  intros N H Hh Ha Ht Nb Hid. destruct (conversion_ok before period s sys files N H) as (_ & _ & _ & made & left & -> & F & _).
  destruct (Forall2_In_l _ _ _ (a, t) F) as (m & Hm & E); [now apply cluster_in|]. cbn [snd] in E.
  destruct (cluster_converted s _ a t m E) as [_ G]. destruct (Forall2_In_l _ _ _ id G Hid) as ([p content] & Hf & E1 & E2). cbn in E1, E2. subst p.
  exists content. split; [|rewrite (hours_period _ _ Hh) in E2; now apply written_of]. apply in_or_app. left. apply in_flat_map. eauto.
Qed.
Lemma other_files before period s sys files name content : well_named s -> convert_antares before period s = Ok (sys, files) ->
  In (name, content) files ->
  (exists a t id, In a (areas_of s) /\ In t (map snd (ar_thermals a)) /\ ~ serves_battery s (ar_id a) (th_id (at_cluster t)) /\ In id known /\
     name = cluster_place s (th_area (at_cluster t)) (th_id (at_cluster t)) (id ++ ".txt")) \/
  (exists a, In a (battery_areas s) /\ In name (battery_names s (ar_id a))).
Proof.
  intros N H Hf. destruct (conversion_ok before period s sys files N H) as (_ & _ & _ & made & left & -> & F & L).
  rewrite !in_app_iff in Hf. destruct Hf as [Hf|[Hf|Hf]].
  - left. apply in_flat_map in Hf as (m & Hm & Hf). destruct (Forall2_In_r _ _ _ m F Hm) as ([a t] & Hat & E). cbn [snd] in E.
    destruct (cluster_converted s _ a t m E) as [_ G]. destruct (Forall2_In_r _ _ _ _ G Hf) as (id & Hid & E1 & _). cbn in E1.
    apply cluster_in in Hat as (A & B & C). exists a, t, id. auto.
  - right. apply in_flat_map in Hf as ([a b] & Hab & Hf). apply leading_in in Hab as [Ha _]. exists a. split; [exact Ha|].
    rewrite <- (names_of_files s (ar_id a) b). apply (in_map fst) in Hf. exact Hf.
  - right. destruct L as [->|(a & rest & E & _ & W)]; [destruct Hf|]. exists a. split; [rewrite E; apply in_or_app; right; now left|].
    apply W. apply (in_map fst) in Hf. exact Hf.
Qed.
Lemma conversion_accepts before period p s : well_named s -> reads_fine s -> hours_of period (Z.of_nat p) -> (0 < p)%nat ->
  (forall a t, In a (areas_of s) -> In t (map snd (ar_thermals a)) -> ~ serves_battery s (ar_id a) (th_id (at_cluster t)) ->
     exists n m modulation power size, regular (at_cluster t) n m modulation power size /\ (0 < size)%Qc /\ (0 < m)%nat) ->
  exists sys files, convert_antares before period s = Ok (sys, files).
Proof.
  intros N R Ep Hp C. apply hours_period in Ep. destruct (conversion s N period) as (r & E & A & _). rewrite E.
  destruct (A R) as ([sys files] & ->); [|eauto]. intros a t Hat. apply cluster_in in Hat as (H1 & H2 & H3).
  destruct (C a t H1 H2 H3) as (n & m & md & pw & sz & G & G1 & G2). rewrite Ep. exact (cluster_accepts s _ t n m md pw sz p eq_refl G1 Hp G2 G).
Qed.
Lemma battery_stands before period s sys files a b : well_named s -> convert_antares before period s = Ok (sys, files) -> In (a, b) (battery_pairs s) ->
  In (component_of s (Battery a b)) (is_components sys) /\ incl (connections_of (Battery a b)) (is_connections sys) /\
    incl (battery_files s (ar_id a) b) files.
Proof.
  intros N H P. destruct (conversion_ok before period s sys files N H) as (_ & E1 & E2 & made & left & -> & _).
  pose proof (battery_element s a b N P) as B. split; [rewrite E1; now apply in_map|]. split.
  - intros k Hk. rewrite E2. apply in_flat_map. eauto.
  - intros f Hf. rewrite !in_app_iff. right; left. apply in_flat_map. exists (a, b). auto.
Qed.
Lemma every_battery before period s sys files : well_named s -> convert_antares before period s = Ok (sys, files) ->
  (forall a, In a (battery_areas s) -> battery_of s (ar_id a) <> None) ->
  forall a, In a (battery_areas s) -> exists b, battery_of s (ar_id a) = Some b /\
    In (component_of s (Battery a b)) (is_components sys) /\ incl (connections_of (Battery a b)) (is_connections sys) /\
    incl (battery_files s (ar_id a) b) files.
Proof.
  intros N H All a Ha. destruct (leading_all (fun a => battery_of s (ar_id a)) _ All a Ha) as (b & E & P). exists b. split; [exact E|].
  exact (battery_stands before period s sys files a b N H P).
Qed.
Lemma leading_split {A B} (f : A -> option B) l a b : In (a, b) (leading f l) <->
  exists l1 l2, l = (l1 ++ a :: l2)%list /\ (forall x, In x l1 -> f x <> None) /\ f a = Some b.
Proof.
  induction l as [|x l IH]; cbn.
  - split; [intros []|]. intros ([|] & l2 & E & _); discriminate.
  - destruct (f x) as [y|] eqn:E; cbn.
    + split.
      * intros [H|H]; [injection H as <- <-; exists [], l; repeat split; auto; intros _ []|].
        apply IH in H as (l1 & l2 & -> & H1 & H2). exists (x :: l1), l2. repeat split; auto. intros z [<-|Hz]; [congruence|auto].
      * intros (l1 & l2 & H & H1 & H2). destruct l1 as [|z l1]; cbn in H; injection H as <- ->; [left; congruence|]. right. apply IH. exists l1, l2. repeat split; auto.
        intros z Hz. apply H1. now right.
    + split; [intros []|]. intros (l1 & l2 & H & H1 & H2). destruct l1 as [|z l1]; cbn in H; injection H as <- ->; [congruence|]. now destruct (H1 x (or_introl eq_refl)).
Qed.
Lemma first_batteries before period s sys files : well_named s -> convert_antares before period s = Ok (sys, files) ->
  forall c, (In c (is_components sys) /\ ic_model c = "andromede-v1-models.battery") <->
    exists before_ a after b, battery_areas s = (before_ ++ a :: after)%list /\ (forall a', In a' before_ -> battery_of s (ar_id a') <> None) /\
      battery_of s (ar_id a) = Some b /\ c = component_of s (Battery a b).
Proof.
  intros N H c. destruct (conversion_ok before period s sys files N H) as (_ & E & _). split.
  - rewrite E. intros [Hc M]. apply in_map_iff in Hc as (e & <- & He).
    destruct (element_cases s e N He) as [(? & ? & -> & _)|[(? & ? & -> & P)|[(? & ? & -> & _)|[(? & -> & _)|[(? & -> & _)|[(? & -> & _)|[(? & -> & _)|(a & b & -> & P)]]]]]]];
      try discriminate M. apply leading_split in P as (l1 & l2 & P1 & P2 & P3). exists l1, a, l2, b. auto.
  - intros (l1 & a & l2 & b & P1 & P2 & P3 & ->). split; [|reflexivity].
    apply (battery_stands before period s sys files a b N H). apply leading_split. exists l1, l2. auto.
Qed.
Lemma battery_injection s a b l : battery_of s a = Some b -> bt_injections b = map Fin l ->
  exists q, bt_injection b = Fin q /\ In q l /\ forall v, In v l -> (v <= q)%Qc.
Proof.
  intros H E. apply battery_of_inv in H as (z & x & w & stock & out & v1 & v2 & l1 & v & l2 & l3 & l4 & _ & _ & _ & _ & _ & _ & _ & _ & _ & _ & _ & ->).
  cbn in *. destruct l as [|q l]; [discriminate|]. injection E as -> ->. exact (greatest_is q l).
Qed.
