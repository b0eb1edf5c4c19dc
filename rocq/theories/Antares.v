(** Conversion of Antares studies (src/andromede/input_converter/src/converter.py, data_preprocessing/binding_constraints.py,
    data_preprocessing/dataclasses.py, utils.py; data/model_configuration/battery.yaml) and the libraries of models it refers to
    (libs/antares_historic, libs/reference_models).  Definitions only.  antares_craft, which reads the study from its directory,
    is outside /repo: the model starts from the objects it gives.  Writing the system to YAML (utils.py:49-55) and reading it
    back is not modelled, nor are failures of the file system, logs and path parts such as `..`. *)
From Coq Require Import Ascii.
From Verif Require Import Base Study System Library Thermal Pypsa.
Local Open Scope string_scope.
Local Open Scope list_scope.

(** ** The study, as the converter reads it through antares_craft *)
(** converter.py:154-178: what is read of a renewable cluster *)
Record an_renewable := { rn_area : string; rn_id : string; rn_unit_count : Z; rn_nominal_capacity : num }.
(** converter.py:216-301: what is read of a thermal cluster, beside what thermal.py reads *)
Record an_thermal := {
  at_cluster : cluster;
  at_min_stable_power : num; at_efficiency : num; at_marginal_cost : num; at_fixed_cost : num; at_startup_cost : num;
  at_min_up_time : Z; at_min_down_time : Z
}.
(** converter.py:326-385: what is read of a short-term storage *)
Record an_storage := {
  so_area : string; so_id : string; so_efficiency : num; so_initial_level : num; so_reservoir_capacity : num;
  so_injection_nominal_capacity : num; so_withdrawal_nominal_capacity : num
}.
(** converter.py:442-481: what is read of a link *)
Record an_link := { ln_id : string; ln_from : string; ln_to : string }.
(** converter.py:122-145, 154, 215, 326, 504-509, 541-547, 579-584: what is read of an area; a matrix is None when its file
    does not exist (`series_path.exists()`) *)
Record an_area := {
  ar_id : string; ar_energy_cost_unsupplied : num; ar_energy_cost_spilled : num;
  ar_renewables : dict string an_renewable; ar_thermals : dict string an_thermal; ar_storages : dict string an_storage;
  ar_load : option table; ar_wind : option table; ar_solar : option table
}.
(** antares_craft's `TimeSeriesFileType`, the members that battery.yaml names (:55, 90, 102, 114, 125) *)
Inductive file_type := THERMAL_SERIES | LINKS_CAPACITIES_DIRECT | LINKS_PARAMETERS.
(** converter.py:65-76, binding_constraints.py:43, 46, 57-63, 88, 96-97: the study; [an_read kind area other] is
    `read_timeseries`, [other] being the cluster or the second area; the terms of a binding constraint have weights *)
Record an_study := {
  an_path : string;
  an_areas : dict string an_area;
  an_links : dict string an_link;
  an_constraints : dict string (dict string num);
  an_read : file_type -> string -> string -> result table
}.

(** ** Values of a YAML file, converter.py:78-91, 617, 667 *)
Inductive ytree :=
| YText (s : string)
| YNumber (v : num)
| YFlag (b : bool)
| YList (l : list ytree)
| YMap (m : list (string * ytree)).
(** python's `str.replace`, converter.py:88; [skip] characters belong to the last occurrence *)
Fixpoint replace_from (skip : nat) (old new s : string) : string :=
  match s with
  | EmptyString => EmptyString
  | String c s' =>
      match skip with
      | S k => replace_from k old new s'
      | O => if String.prefix old s then (new ++ replace_from (String.length old - 1)%nat old new s')%string
             else String c (replace_from 0 old new s')
      end
  end.
(** converter.py:88, for a pattern that is not empty *)
Definition str_replace (old new s : string) : string := replace_from 0 old new s.
(** a dict comprehension, converter.py:80-85: the last value of a key *)
Definition as_dict {A} (l : list (string * A)) : dict string A :=
  fold_left (fun d kv => dset String.eqb (fst kv) (snd kv) d) l [].
(** converter.py:78-91 `_match_area_pattern` *)
Fixpoint match_area_pattern (pattern value : string) (o : ytree) : ytree :=
  match o with
  | YMap m => YMap (as_dict (map (fun kv => let '(k, v) := kv in (str_replace pattern value k, match_area_pattern pattern value v)) m))
  | YList l => YList (map (match_area_pattern pattern value) l)
  | YText s => YText (str_replace pattern value s)
  | o => o
  end.
(** `d.get(key)` on a mapping, converter.py:108-113, 629-635; AttributeError on something else *)
Definition yget (o : ytree) (key : string) : result (option ytree) :=
  match o with YMap m => Ok (dget String.eqb key m) | _ => Err AttributeErr end.
(** `d[key]`, converter.py:625-626, 637, 645, 656; binding_constraints.py:109 *)
Definition yitem (o : ytree) (key : string) : result ytree :=
  match o with
  | YMap m => match dget String.eqb key m with Some v => Ok v | None => Err KeyError end
  | _ => Err TypeError
  end.
(** iteration over a list, converter.py:103, 637, 656 *)
Definition ylist (o : ytree) : result (list ytree) := match o with YList l => Ok l | _ => Err TypeError end.
(** `legacy.get(key, [])`, converter.py:108-113 *)
Definition ylist_or_empty (o : ytree) (key : string) : result (list ytree) :=
  v <- yget o key ;; match v with Some v => ylist v | None => Ok [] end.
(** `text in list`, converter.py:123, 217, 444, 661 *)
Definition ymember (s : string) (l : list ytree) : bool :=
  existsb (fun o => match o with YText s' => String.eqb s s' | _ => false end) l.
(** python's `bool(...)` and `if ...`, converter.py:630-633, 657 *)
Definition ytrue (o : option ytree) : bool :=
  match o with
  | None => false
  | Some (YText s) => negb (String.eqb s "")
  | Some (YNumber v) => negb (neqb v n0)
  | Some (YFlag b) => b
  | Some (YList l) => match l with [] => false | _ => true end
  | Some (YMap m) => match m with [] => false | _ => true end
  end.

(** ** The template of batteries *)
(** data/model_configuration/battery.yaml:34-46, 49-60: one parameter of the component *)
Definition battery_parameter (id : string) (time scenario : bool) (type : string) (data : ytree) : ytree :=
  YMap [("id", YText id); ("time-dependent", YFlag time); ("scenario-dependent", YFlag scenario);
        ("value", YMap [("type", YText type); ("data", data)])].
(** battery.yaml:17-162 `template`; descriptions are shortened *)
Definition battery_template : ytree := YMap [
  ("name", YText "battery");
  ("generator-version-compatibility", YText "X.Y");
  ("model", YText "andromede-v1-models.battery");
  ("template-parameters", YList [YMap [("name", YText "area"); ("description", YText "Area identifier");
    ("exclude", YList [YText "z_batteries"; YText "z_batteries_pcomp"])]]);
  ("component", YMap [
    ("id", YText "battery_${area}");
    ("parameters", YList [
      battery_parameter "reservoir_capacity" false false "thermal"
        (YMap [("area", YText "z_batteries"); ("cluster", YText "z_batteries_batteries_${area}_1"); ("field", YText "nominalcapacity")]);
      battery_parameter "injection_nominal_capacity" false false "link"
        (YMap [("area_from", YText "${area}"); ("area_to", YText "z_batteries"); ("timeseries_file_type", YText "links_capacities_direct");
               ("column", YNumber n0); ("operation", YMap [("type", YText "max")])]);
      battery_parameter "withdrawal_nominal_capacity" false false "thermal"
        (YMap [("area", YText "${area}"); ("cluster", YText "${area}_batteries_inj"); ("field", YText "nominalcapacity")]);
      battery_parameter "efficiency_injection" false false "binding_constraint"
        (YMap [("id", YText "batteries_${area}"); ("field", YText "${area}%z_batteries");
               ("operation", YMap [("multiply_by", YNumber (nz (-1)))])]);
      battery_parameter "efficiency_withdrawal" false false "binding_constraint"
        (YMap [("id", YText "batteries_${area}"); ("field", YText "${area}.${area}_batteries_inj")]);
      battery_parameter "lower_rule_curve" false false "constant" (YNumber n0);
      battery_parameter "upper_rule_curve" true false "thermal"
        (YMap [("area", YText "z_batteries"); ("cluster", YText "z_batteries_batteries_${area}_1");
               ("timeseries_file_type", YText "thermal_series"); ("column", YNumber n0);
               ("operation", YMap [("divide_by", YText "reservoir_capacity")])]);
      battery_parameter "p_max_injection_modulation" true false "link"
        (YMap [("area_from", YText "${area}"); ("area_to", YText "z_batteries"); ("timeseries_file_type", YText "links_capacities_direct");
               ("column", YNumber n0); ("operation", YMap [("divide_by", YText "injection_nominal_capacity")])]);
      battery_parameter "p_max_withdrawal_modulation" true false "thermal"
        (YMap [("area", YText "${area}"); ("cluster", YText "${area}_batteries_inj"); ("timeseries_file_type", YText "thermal_series");
               ("column", YNumber n0); ("operation", YMap [("divide_by", YText "withdrawal_nominal_capacity")])]);
      battery_parameter "marginal_cost" true false "link"
        (YMap [("area_from", YText "${area}"); ("area_to", YText "z_batteries"); ("timeseries_file_type", YText "links_parameters");
               ("column", YNumber n0)])])]);
  ("connections", YList [YMap [("component1", YText "battery_${area}"); ("port1", YText "injection_port");
    ("component2", YText "${area}"); ("port2", YText "balance_port")]]);
  ("area-connections", YList [YMap [("component", YText "battery_${area}"); ("port", YText "injection_port"); ("area", YText "${area}")]]);
  ("legacy-objects-to-delete", YMap [
    ("binding_constraints", YList [YText "batteries_${area}"; YText "battery_level_${area}"]);
    ("links", YList [YText "${area}%z_batteries"]);
    ("nodes", YList [YText "z_batteries"]);
    ("thermal_clusters", YList [YText "${area}.${area}_batteries_inj"; YText "z_batteries.z_batteries_batteries_${area}_1";
      YText "z_batteries.z_batteries_batteries_${area}_2"])])].

(** ** Objects that exist only for batteries *)
(** converter.py:106-114 `_extract_legacy_objects_from_model_config`, without the binding constraints, which nothing reads *)
Record legacy := { lg_links : list ytree; lg_nodes : list ytree; lg_thermals : list ytree }.
(** converter.py:106-114 *)
Definition extract_legacy (template : ytree) : result legacy :=
  l <- yget template "legacy-objects-to-delete" ;;
  let l := match l with Some l => l | None => YMap [] end in
  _ <- ylist_or_empty l "binding_constraints" ;;
  links <- ylist_or_empty l "links" ;;
  nodes <- ylist_or_empty l "nodes" ;;
  thermals <- ylist_or_empty l "thermal_clusters" ;;
  Ok {| lg_links := links; lg_nodes := nodes; lg_thermals := thermals |}.
(** `self.areas.values()`, converter.py:76, 122 *)
Definition areas_of (s : an_study) : list an_area := map snd (an_areas s).
(** converter.py:93-104 `_legacy_component_to_exclude` *)
Definition to_exclude (pattern : string) (s : an_study) (components : list ytree) : list ytree :=
  flat_map (fun a => map (match_area_pattern pattern (ar_id a)) components) (areas_of s).
(** converter.py:655-663 `_extract_valid_areas_from_model_config` *)
Fixpoint valid_areas (areas : dict string an_area) (parameters : list ytree) : result (dict string an_area) :=
  match parameters with
  | [] => Ok []
  | p :: rest =>
      excluded <- yget p "exclude" ;;
      if ytrue excluded then
        excluded <- match excluded with Some o => ylist o | None => Ok [] end ;;
        Ok (filter (fun ka => negb (ymember (fst ka) excluded)) areas)
      else valid_areas areas rest
  end.

(** ** Components *)
(** an InputComponentParameter with a number, converter.py:131-142 *)
Definition const (id : string) (v : num) : input_parameter :=
  {| ip_id := id; ip_time := false; ip_scenario := false; ip_value := inl v; ip_group := None |}.
(** an InputComponentParameter with a series, converter.py:180-185 *)
Definition series_parameter (id path : string) : input_parameter :=
  {| ip_id := id; ip_time := true; ip_scenario := true; ip_value := inr path; ip_group := None |}.
(** `f"{lib_id}.{model}"`, converter.py:128, 167, 229, 344, 464, 515, 552, 588 *)
Definition historic (model : string) : string := ("antares-historic." ++ model)%string.
(** an InputComponent, converter.py:126-144 *)
Definition an_component (id model : string) (parameters : list input_parameter) : input_component :=
  {| ic_id := id; ic_model := model; ic_group := None; ic_parameters := Some parameters |}.
(** an InputPortConnections, converter.py:189-196 *)
Definition an_connection (c1 p1 c2 p2 : string) : input_connection :=
  {| icn_component1 := c1; icn_port1 := p1; icn_component2 := c2; icn_port2 := p2 |}.
(** what a conversion method returns, converter.py:149, 204 *)
Definition converted : Type := (list input_component * list input_connection)%type.

(** converter.py:116-145 `_convert_area_to_component_list` *)
Definition convert_areas (l : legacy) (s : an_study) : list input_component :=
  map (fun a => an_component (ar_id a) (historic "area")
                  [const "ens_cost" (ar_energy_cost_unsupplied a); const "spillage_cost" (ar_energy_cost_spilled a)])
    (filter (fun a => negb (ymember (ar_id a) (lg_nodes l))) (areas_of s)).
(** converter.py:156-164, 184: the path without its suffix *)
Definition renewable_path (s : an_study) (r : an_renewable) : string :=
  (an_path s ++ "/input/renewables/series/" ++ rn_area r ++ "/" ++ rn_id r ++ "/series")%string.
(** converter.py:147-200 `_convert_renewable_to_component_list` *)
Definition convert_renewables (s : an_study) : converted :=
  let rs := flat_map (fun a => map snd (ar_renewables a)) (areas_of s) in
  (map (fun r => an_component (rn_id r) (historic "renewable")
                   [const "unit_count" (nz (rn_unit_count r)); const "p_max_unit" (rn_nominal_capacity r);
                    series_parameter "generation" (renewable_path s r)]) rs,
   map (fun r => an_connection (rn_id r) "balance_port" (rn_area r) "balance_port") rs).

(** the parameters of thermal.py as parameters of components, thermal.py:117-122 *)
Definition of_component_parameter (p : component_parameter) : input_parameter :=
  {| ip_id := cp_id p; ip_time := cp_time_dependent p; ip_scenario := cp_scenario_dependent p; ip_value := inr (cp_value p); ip_group := None |}.
(** converter.py:227-301: the component of a cluster, and the files written on the way *)
Definition convert_thermal (s : an_study) (period : Z) (t : an_thermal) : result (input_component * list (string * table)) :=
  let c := at_cluster t in
  made <- mapM (fun ip => generate_component_parameter (an_path s) c (fst ip) (snd ip))
    [("p_min_cluster", default_period); ("nb_units_min", default_period); ("nb_units_max", default_period);
     ("nb_units_max_variation_forward", period); ("nb_units_max_variation_backward", period)] ;;
  Ok (an_component (th_id c) (historic "thermal")
        (map (fun m => of_component_parameter (snd m)) made ++
         [const "unit_count" (nz (th_unit_count c)); const "p_min_unit" (at_min_stable_power t); const "efficiency" (at_efficiency t);
          const "p_max_unit" (th_nominal_capacity c); const "generation_cost" (at_marginal_cost t); const "fixed_cost" (at_fixed_cost t);
          const "startup_cost" (at_startup_cost t); const "d_min_up" (nz (at_min_up_time t)); const "d_min_down" (nz (at_min_down_time t));
          series_parameter "p_max_cluster" (series_path (an_path s) c ++ "/series")%string]),
      map fst made).
(** converter.py:214-218: the clusters converted, with their area *)
Definition kept_thermals (pattern : string) (l : legacy) (s : an_study) : list (an_area * an_thermal) :=
  let excluded := to_exclude pattern s (lg_thermals l) in
  flat_map (fun a => map (pair a)
              (filter (fun t => negb (ymember (ar_id a ++ "." ++ th_id (at_cluster t))%string excluded)) (map snd (ar_thermals a))))
    (areas_of s).
(** converter.py:202-316 `_convert_thermal_to_component_list` *)
Definition convert_thermals (pattern : string) (l : legacy) (s : an_study) (period : Z)
  : result (converted * list (string * table)) :=
  let ts := kept_thermals pattern l s in
  made <- mapM (fun at_ => convert_thermal s period (snd at_)) ts ;;
  Ok ((map fst made,
       map (fun at_ => an_connection (th_id (at_cluster (snd at_))) "balance_port" (ar_id (fst at_)) "balance_port") ts),
      flat_map snd made).

(** converter.py:328-340: the directory of the series of a storage *)
Definition storage_path (s : an_study) (o : an_storage) (series : string) : string :=
  (an_path s ++ "/input/st-storage/series/" ++ so_area o ++ "/" ++ so_id o ++ "/" ++ series)%string.
(** converter.py:341-412: the component of a storage *)
Definition convert_storage (s : an_study) (o : an_storage) : input_component :=
  an_component (so_id o) (historic "short-term-storage")
    [const "efficiency_injection" (so_efficiency o); const "efficiency_withdrawal" n1; const "initial_level" (so_initial_level o);
     const "reservoir_capacity" (so_reservoir_capacity o); const "injection_nominal_capacity" (so_injection_nominal_capacity o);
     const "withdrawal_nominal_capacity" (so_withdrawal_nominal_capacity o);
     series_parameter "inflows" (storage_path s o "inflows"); series_parameter "lower_rule_curve" (storage_path s o "lower-rule-curve");
     series_parameter "upper_rule_curve" (storage_path s o "upper-rule-curve");
     series_parameter "p_max_injection_modulation" (storage_path s o "PMAX-injection");
     series_parameter "p_max_withdrawal_modulation" (storage_path s o "PMAX-withdrawal")].
(** converter.py:325-327: the storages, with their area *)
Definition storages_of (s : an_study) : list (an_area * an_storage) :=
  flat_map (fun a => map (pair a) (map snd (ar_storages a))) (areas_of s).
(** converter.py:318-426 `_convert_st_storage_to_component_list` *)
Definition convert_storages (s : an_study) : converted :=
  (map (fun ao => convert_storage s (snd ao)) (storages_of s),
   map (fun ao => an_connection (so_id (snd ao)) "injection_port" (ar_id (fst ao)) "balance_port") (storages_of s)).

(** converter.py:446-461 *)
Definition capacity_path (s : an_study) (l : an_link) (direction : string) : string :=
  (an_path s ++ "/input/links/" ++ ln_from l ++ "/capacities/" ++ ln_to l ++ direction)%string.
(** converter.py:441-445: the links converted *)
Definition kept_links (pattern : string) (l : legacy) (s : an_study) : list an_link :=
  let excluded := to_exclude pattern s (lg_links l) in
  filter (fun k => negb (ymember (ln_from k ++ "%" ++ ln_to k)%string excluded)) (map snd (an_links s)).
(** converter.py:428-496 `_convert_link_to_component_list` *)
Definition convert_links (pattern : string) (l : legacy) (s : an_study) : converted :=
  let ks := kept_links pattern l s in
  (map (fun k => an_component (ln_id k) (historic "link")
                   [series_parameter "capacity_direct" (capacity_path s k "_direct");
                    series_parameter "capacity_indirect" (capacity_path s k "_indirect")]) ks,
   flat_map (fun k => [an_connection (ln_id k) "in_port" (ln_from k) "balance_port";
                       an_connection (ln_id k) "out_port" (ln_to k) "balance_port"]) ks).

(** utils.py:35-46 `check_dataframe_validity` *)
Definition check_dataframe_validity (t : table) : bool :=
  negb ((Nat.eqb (tb_width t) 0 || Nat.eqb (List.length (tb_rows t)) 0) ||
        forallb (forallb (fun v => neqb v n0)) (tb_rows t)).
(** converter.py:504-509, 541-547, 579-584: the areas with a valid matrix *)
Definition with_matrix (matrix : an_area -> option table) (s : an_study) : list an_area :=
  filter (fun a => match matrix a with Some t => check_dataframe_validity t | None => false end) (areas_of s).
(** converter.py:505-507, 522: the path of a matrix, without its suffix *)
Definition matrix_path (kind : string) (s : an_study) (a : an_area) : string :=
  (an_path s ++ "/input/" ++ kind ++ "/series/" ++ kind ++ "_" ++ ar_id a)%string.
(** converter.py:498-533 `_convert_wind_to_component_list` and 535-571 `_convert_solar_to_component_list`, alike up to the
    word [kind]: the component has the id of the area *)
Definition convert_matrix (kind : string) (matrix : an_area -> option table) (s : an_study) : converted :=
  (map (fun a => an_component (ar_id a) (historic kind) [series_parameter kind (matrix_path kind s a)]) (with_matrix matrix s),
   map (fun a => an_connection kind "balance_port" (ar_id a) "balance_port") (with_matrix matrix s)).
(** converter.py:573-608 `_convert_load_to_component_list`: the component is called "load" in every area *)
Definition convert_loads (s : an_study) : converted :=
  (map (fun a => an_component "load" (historic "load") [series_parameter "load" (matrix_path "load" s a)]) (with_matrix ar_load s),
   map (fun a => an_connection "load" "balance_port" (ar_id a) "balance_port") (with_matrix ar_load s)).

(** ** Values of the parameters of batteries *)
(** dataclasses.py:8-12 `Operation` *)
Record operation := { op_type : option string; op_multiply : option (string + num); op_divide : option (string + num) }.
(** dataclasses.py:45-76; the data of TimeseriesData is not used *)
Inductive bc_data :=
| TimeseriesData'
| BindingConstraintData (id field : string) (o : option operation)
| ThermalData (area cluster : string) (column : option nat) (field : option string) (o : option operation) (ts : option string)
| LinkData (column : nat) (area_from area_to : string) (ts : string) (o : option operation).

(** keyword arguments of a dataclass, binding_constraints.py:122-124: TypeError when one is unknown or missing *)
Definition check_keys (allowed required : list string) (m : list (string * ytree)) : result unit :=
  if forallb (fun kv => existsb (String.eqb (fst kv)) allowed) m && forallb (fun k => dmem String.eqb k m) required
  then Ok tt else Err TypeError.
(** an argument that is a text, dataclasses.py:53-76; python does not check this, a value of another kind is refused here *)
Definition text_arg (k : string) (m : list (string * ytree)) : result (option string) :=
  match dget String.eqb k m with None => Ok None | Some (YText s) => Ok (Some s) | Some _ => Err TypeError end.
(** a text without default, dataclasses.py:54-55, 62-63, 73-75 *)
Definition required_text (k : string) (m : list (string * ytree)) : result string :=
  o <- text_arg k m ;; match o with Some s => Ok s | None => Err TypeError end.
(** a column, dataclasses.py:48, 64, 72: a natural number; other kinds are refused here *)
Definition column_arg (m : list (string * ytree)) : result (option nat) :=
  match dget String.eqb "column" m with
  | None => Ok None
  | Some (YNumber (Fin q)) => if Qcleb 0 q && Qceqb q (Z2Qc (Qround.Qfloor (this q))) then Ok (Some (Z.to_nat (Qround.Qfloor (this q)))) else Err TypeError
  | Some _ => Err TypeError
  end.
(** a factor, dataclasses.py:11-12: a number or the name of a value; other kinds are refused here *)
Definition factor_arg (k : string) (m : list (string * ytree)) : result (option (string + num)) :=
  match dget String.eqb k m with
  | None => Ok None
  | Some (YText s) => Ok (Some (inl s))
  | Some (YNumber v) => Ok (Some (inr v))
  | Some _ => Err TypeError
  end.
(** binding_constraints.py:121-122 `Operation( **data["operation"])` when there is one *)
Definition operation_arg (m : list (string * ytree)) : result (option operation) :=
  match dget String.eqb "operation" m with
  | None => Ok None
  | Some (YMap o) =>
      _ <- check_keys ["type"; "multiply_by"; "divide_by"] [] o ;;
      type <- text_arg "type" o ;;
      multiply <- factor_arg "multiply_by" o ;;
      divide <- factor_arg "divide_by" o ;;
      Ok (Some {| op_type := type; op_multiply := multiply; op_divide := divide |})
  | Some _ => Err TypeError
  end.
(** dataclasses.py:14-42, the value `resolve(...)` *)
Definition resolve_factor (values : option (dict string num)) (f : string + num) : result num :=
  match f with
  | inr v => Ok v
  | inl name => match values with
                | Some d => match dget String.eqb name d with Some v => Ok v | None => Err ValueError end
                | None => Err ValueError
                end
  end.
(** python's `max` of a series, dataclasses.py:31 *)
Definition py_max (l : list num) : result num :=
  match l with [] => Err ValueError | v :: l => Ok (fold_left (fun acc x => if nltb acc x then x else acc) l v) end.
(** dataclasses.py:14-42 `execute` on a series: a number or a series *)
Definition execute_series (o : operation) (l : list num) (values : dict string num) : result (num + list num) :=
  if match op_type o with Some t => String.eqb t "max" | None => false end then m <- py_max l ;; Ok (inl m)
  else match op_multiply o, op_divide o with
       | Some f, _ => v <- resolve_factor (Some values) f ;; Ok (inr (map (fun a => nmul a v) l))
       | None, Some f => v <- resolve_factor (Some values) f ;; Ok (inr (map (fun a => np_div a v) l))
       | None, None => Err ValueError
       end.
(** dataclasses.py:14-42 `execute` on a number, without values (binding_constraints.py:99); `max` of a number is a TypeError *)
Definition execute_number (o : operation) (a : num) : result num :=
  if match op_type o with Some t => String.eqb t "max" | None => false end then Err TypeError
  else match op_multiply o, op_divide o with
       | Some f, _ => v <- resolve_factor None f ;; Ok (nmul a v)
       | None, Some f => v <- resolve_factor None f ;; ndiv a v
       | None, None => Err ValueError
       end.

(** binding_constraints.py:38: the values computed, which all instances of the class share, and the files written *)
Record bc_state := { bs_values : dict string num; bs_files : list (string * table) }.
(** python statements that may raise: the state is kept when they do, binding_constraints.py:45-124 *)
Definition stateful (A : Type) : Type := bc_state -> bc_state * result A.
(** a result, as a stateful statement, binding_constraints.py:46 *)
Definition lift {A} (r : result A) : stateful A := fun st => (st, r).
(** one statement after another, binding_constraints.py:46-81 *)
Definition then_do {A B} (m : stateful A) (f : A -> stateful B) : stateful B :=
  fun st => let '(st, r) := m st in match r with Ok a => f a st | Err e => (st, Err e) end.
(** `self.preprocessed_values[self.id] = v`, binding_constraints.py:71, 92 *)
Definition set_value (id : string) (v : num) : stateful unit :=
  fun st => ({| bs_values := dset String.eqb id v (bs_values st); bs_files := bs_files st |}, Ok tt).
(** `to_csv(output_file)` of a series, binding_constraints.py:74, 76-78 *)
Definition write_series (path : string) (l : list num) : stateful unit :=
  fun st => ({| bs_values := bs_values st;
                bs_files := bs_files st ++ [(path, {| tb_width := 1; tb_rows := map (fun v => [v]) l |})] |}, Ok tt).

(** `getattr(TimeSeriesFileType, name.upper())`, binding_constraints.py:47, for the names that battery.yaml uses *)
Definition file_type_of (name : string) : result file_type :=
  if String.eqb name "thermal_series" then Ok THERMAL_SERIES
  else if String.eqb name "links_capacities_direct" then Ok LINKS_CAPACITIES_DIRECT
  else if String.eqb name "links_parameters" then Ok LINKS_PARAMETERS
  else Err AttributeErr.
(** `input_path.parent`, binding_constraints.py:52-54, 67: the directories of antares_craft, as in the results of
    tests/input_converter/resources/mini_test_batterie_BP23/reference.yaml:100-113 *)
Definition parent_directory (s : an_study) (ty : file_type) (area other : string) : string :=
  match ty with
  | THERMAL_SERIES => (an_path s ++ "/input/thermal/series/" ++ area ++ "/" ++ other)%string
  | LINKS_CAPACITIES_DIRECT => (an_path s ++ "/input/links/" ++ area ++ "/capacities")%string
  | LINKS_PARAMETERS => (an_path s ++ "/input/links/" ++ area)%string
  end.
(** `d[key]` of a dict of python, binding_constraints.py:46, 88-90, 96-97 *)
Definition item {A} (d : dict string A) (k : string) : result A :=
  match dget String.eqb k d with Some v => Ok v | None => Err KeyError end.
(** binding_constraints.py:45-81 `_process_time_series`; [other] is the second area or the cluster *)
Definition process_time_series (s : an_study) (id area_id other ts : string) (col : option nat) (o : option operation)
  : stateful (num + string) :=
  then_do (lift (item (an_areas s) area_id)) (fun area =>
  then_do (lift (file_type_of ts)) (fun ty =>
  then_do (lift (an_read s ty area_id other)) (fun data =>
  then_do (lift (match col with Some k => column k data | None => Err TypeError end)) (fun l =>
  let name := (parent_directory s ty area_id other ++ "/" ++ id ++ "_" ++ ar_id area)%string in
  match o with
  | Some o => fun st =>
      (then_do (lift (execute_series o l (bs_values st))) (fun r =>
       match r with
       | inl v => then_do (set_value id v) (fun _ => lift (Ok (inl v)))
       | inr l => then_do (write_series (name ++ ".txt") l) (fun _ => lift (Ok (inr name)))
       end)) st
  | None => then_do (write_series (name ++ ".txt") l) (fun _ => lift (Ok (inr name)))
  end)))).
(** binding_constraints.py:22-27 `FIELD_ALIAS_MAP` and `getattr(thermal.properties, ...)`, 90-91 *)
Definition thermal_field (t : an_thermal) (field : option string) : result num :=
  match field with
  | None => Err KeyError
  | Some f =>
      if String.eqb f "nominalcapacity" then Ok (th_nominal_capacity (at_cluster t))
      else if String.eqb f "min-stable-power" then Ok (at_min_stable_power t)
      else if String.eqb f "min-up-time" then Ok (nz (at_min_up_time t))
      else if String.eqb f "min-down-time" then Ok (nz (at_min_down_time t))
      else Err KeyError
  end.
(** binding_constraints.py:83-105 `calculate_value` *)
Definition calculate_value (s : an_study) (id : string) (d : bc_data) : stateful (num + string) :=
  match d with
  | ThermalData area cluster col field o ts =>
      match ts with
      | Some ts => process_time_series s id area cluster ts col o
      | None =>
          then_do (lift (a <- item (an_areas s) area ;; t <- item (ar_thermals a) cluster ;; thermal_field t field)) (fun v =>
          then_do (set_value id v) (fun _ => lift (Ok (inl v))))
      end
  | BindingConstraintData bc field o =>
      lift (terms <- item (an_constraints s) bc ;; weight <- item terms field ;;
            match o with Some o => v <- execute_number o weight ;; Ok (inl v) | None => Ok (inl weight) end)
  | LinkData col from to ts o => process_time_series s id from to ts (Some col) o
  | TimeseriesData' => lift (Ok (inr ""))
  end.
(** binding_constraints.py:28-33, 124: the object of the class of a type *)
Definition data_object (type : string) (m : list (string * ytree)) : result bc_data :=
  o <- operation_arg m ;;
  if String.eqb type "timeseries" then _ <- check_keys ["path"; "column"; "operation"] ["path"; "column"] m ;; Ok TimeseriesData'
  else if String.eqb type "binding_constraint" then
    _ <- check_keys ["id"; "field"; "operation"; "timeseries_file_type"] ["id"; "field"] m ;;
    id <- required_text "id" m ;; field <- required_text "field" m ;; Ok (BindingConstraintData id field o)
  else if String.eqb type "thermal" then
    _ <- check_keys ["area"; "cluster"; "column"; "field"; "operation"; "timeseries_file_type"] ["area"; "cluster"] m ;;
    area <- required_text "area" m ;; cluster <- required_text "cluster" m ;; col <- column_arg m ;;
    field <- text_arg "field" m ;; ts <- text_arg "timeseries_file_type" m ;; Ok (ThermalData area cluster col field o ts)
  else
    _ <- check_keys ["column"; "area_from"; "area_to"; "timeseries_file_type"; "operation"]
           ["column"; "area_from"; "area_to"; "timeseries_file_type"] m ;;
    from <- required_text "area_from" m ;; to <- required_text "area_to" m ;; ts <- required_text "timeseries_file_type" m ;;
    col <- column_arg m ;;
    match col with Some k => Ok (LinkData k from to ts o) | None => Err TypeError end.
(** binding_constraints.py:107-124 `convert_param_value`; a text is not read as a number in a constant *)
Definition convert_param_value (s : an_study) (id : string) (parameter : option ytree) : stateful (num + string) :=
  then_do (lift (match parameter with Some p => yitem p "type" | None => Err TypeError end)) (fun type =>
  match type, parameter with
  | YText ty, Some p =>
      then_do (lift (yget p "data")) (fun data =>
      if String.eqb ty "constant" then
        lift (match data with
              | Some (YNumber v) => Ok (inl v)
              | Some (YFlag b) => Ok (inl (if b then n1 else n0))
              | Some (YText _) | None => Err ValueError
              | Some _ => Err TypeError
              end)
      else if existsb (String.eqb ty) ["timeseries"; "binding_constraint"; "thermal"; "link"] then
        then_do (lift (match data with
                       | Some (YMap m) => data_object ty m
                       | None => data_object ty []
                       | Some _ => Err TypeError
                       end)) (calculate_value s id)
      else lift (Err ValueError))
  | _, _ => lift (Err ValueError)
  end).

(** ** Batteries *)
(** `str(param.get("id"))` and the id of a component, converter.py:625, 629, 645; other kinds are refused *)
Definition ytext (o : option ytree) : result string := match o with Some (YText s) => Ok s | _ => Err ValueError end.
(** converter.py:628-636: one parameter *)
Definition convert_parameter (s : an_study) (p : ytree) : stateful input_parameter :=
  then_do (lift (o <- yget p "id" ;; ytext o)) (fun id =>
  then_do (lift (yget p "time-dependent")) (fun time =>
  then_do (lift (yget p "scenario-dependent")) (fun scenario =>
  then_do (lift (yget p "value")) (fun value =>
  then_do (convert_param_value s id value) (fun v =>
  lift (Ok {| ip_id := id; ip_time := ytrue time; ip_scenario := ytrue scenario; ip_value := v; ip_group := None |})))))).
(** a list comprehension, converter.py:627-638 *)
Fixpoint each_do {A B} (f : A -> stateful B) (l : list A) : stateful (list B) :=
  match l with
  | [] => lift (Ok [])
  | a :: l => then_do (f a) (fun b => then_do (each_do f l) (fun bs => lift (Ok (b :: bs))))
  end.
(** converter.py:619-649: the battery of an area *)
Definition convert_battery (pattern : string) (template : ytree) (s : an_study) (a : an_area)
  : stateful (input_component * input_connection) :=
  let data := match_area_pattern pattern (ar_id a) template in
  then_do (lift (c <- yitem data "component" ;; id <- yitem c "id" ;; id <- ytext (Some id) ;;
                 model <- yitem data "model" ;; model <- ytext (Some model) ;;
                 ps <- yitem c "parameters" ;; ps <- ylist ps ;; Ok (id, model, ps))) (fun imp =>
  let '(id, model, ps) := imp in
  then_do (each_do (convert_parameter s) ps) (fun parameters =>
  lift (Ok (an_component id model parameters, an_connection id "injection_port" (ar_id a) "balance_port")))).
(** converter.py:618-653: the loop and its handler; the batteries made before the exception are kept *)
Fixpoint convert_batteries (pattern : string) (template : ytree) (s : an_study) (areas : list an_area) (done : converted)
  (st : bc_state) : bc_state * result converted :=
  match areas with
  | [] => (st, Ok done)
  | a :: areas =>
      let '(st, r) := convert_battery pattern template s a st in
      match r with
      | Ok (c, k) => convert_batteries pattern template s areas (fst done ++ [c], snd done ++ [k]) st
      | Err KeyError | Err FileNotFoundErr => (st, Ok done)
      | Err e => (st, Err e)
      end
  end.

(** ** The study *)
(** converter.py:669 *)
Definition area_pattern (template : ytree) : result string :=
  ps <- yitem template "template-parameters" ;;
  ps <- ylist ps ;;
  match ps with
  | [] => Err IndexError
  | p :: _ => name <- yitem p "name" ;; name <- ytext (Some name) ;; Ok ("${" ++ name ++ "}")%string
  end.
(** converter.py:665-707 `convert_study_to_input_study`, with the template [template] instead of the one read at line 667, and
    the values [before] that earlier conversions of the same process left in the class (binding_constraints.py:38): the
    system, and the files written in the order of their writing *)
Definition convert_with (template : ytree) (before : dict string num) (period : option Z) (s : an_study)
  : result (input_system * list (string * table)) :=
  pattern <- area_pattern template ;;
  l <- extract_legacy template ;;
  ps <- yitem template "template-parameters" ;;
  ps <- ylist ps ;;
  valid <- valid_areas (an_areas s) ps ;;
  let areas := convert_areas l s in
  let renewables := convert_renewables s in
  thermals <- convert_thermals pattern l s (converter_period period) ;;
  let storages := convert_storages s in
  let loads := convert_loads s in
  let wind := convert_matrix "wind" ar_wind s in
  let solar := convert_matrix "solar" ar_solar s in
  let links := convert_links pattern l s in
  let '(st, batteries) := convert_batteries pattern template s (map snd valid) ([], []) {| bs_values := before; bs_files := [] |} in
  batteries <- batteries ;;
  let all := [renewables; fst thermals; storages; loads; wind; solar; links; batteries] in
  Ok ({| is_nodes := areas; is_components := flat_map fst all; is_connections := flat_map snd all |},
      snd thermals ++ bs_files st).
(** converter.py:665-707 with battery.yaml *)
Definition convert_antares : dict string num -> option Z -> an_study -> result (input_system * list (string * table)) :=
  convert_with battery_template.
(** the directory of the study after the conversion, as `load_ts_from_txt` reads it (study/data.py:135-147): a file written is
    read back as it was written *)
Definition directory_after (directory : string -> result frame) (written : list (string * table)) (name : string) : result frame :=
  match dget String.eqb (name ++ ".txt")%string (as_dict written) with Some t => Ok (tb_rows t) | None => directory name end.

(** ** The libraries of models *)
(** an integer variable, antares_historic.yml:116-127 *)
Definition yint (id : string) (lower upper : option string) : in_variable :=
  {| yv_id := id; yv_time := true; yv_scenario := true; yv_lower := lower; yv_upper := upper; yv_type := "integer" |}.
(** libs/antares_historic/antares_historic.yml:22-37 *)
Definition lib_area : in_model := {|
  ym_id := "area";
  ym_parameters := [yparam "spillage_cost" false false; yparam "ens_cost" false false];
  ym_variables := [yvar "spillage" true true (Some "0") None; yvar "unsupplied_energy" true true (Some "0") None];
  ym_ports := [yport "balance_port" "flow"]; ym_definitions := [];
  ym_binding_constraints := [yrow "balance" "sum_connections(balance_port.flow) = spillage - unsupplied_energy"];
  ym_constraints := [];
  ym_objective := Some "expec(sum(spillage_cost * spillage + ens_cost * unsupplied_energy))" |}.
(** antares_historic.yml:39-50 *)
Definition lib_an_load : in_model := {|
  ym_id := "load"; ym_parameters := [yparam "load" true true]; ym_variables := [];
  ym_ports := [yport "balance_port" "flow"]; ym_definitions := [ydef "balance_port" "flow" "-load"];
  ym_binding_constraints := []; ym_constraints := []; ym_objective := None |}.
(** antares_historic.yml:52-82 *)
Definition lib_an_link : in_model := {|
  ym_id := "link";
  ym_parameters := [yparam "capacity_direct" true true; yparam "capacity_indirect" true true];
  ym_variables := [yvar "flow_direct" true true (Some "0") (Some "capacity_direct");
    yvar "flow_indirect" true true (Some "0") (Some "capacity_indirect"); yvar "flow" true true None None];
  ym_ports := [yport "out_port" "flow"; yport "in_port" "flow"];
  ym_definitions := [ydef "out_port" "flow" "flow"; ydef "in_port" "flow" "-flow"];
  ym_binding_constraints := [];
  ym_constraints := [yrow "flow_direct_indirect" "flow = flow_direct - flow_indirect"]; ym_objective := None |}.
(** antares_historic.yml:84-97 *)
Definition lib_renewable : in_model := {|
  ym_id := "renewable";
  ym_parameters := [yparam "nominal_capacity" false false; yparam "unit_count" false false; yparam "generation" true true];
  ym_variables := []; ym_ports := [yport "balance_port" "flow"]; ym_definitions := [ydef "balance_port" "flow" "generation"];
  ym_binding_constraints := []; ym_constraints := []; ym_objective := None |}.
(** antares_historic.yml:99-167 *)
Definition lib_thermal : in_model := {|
  ym_id := "thermal";
  ym_parameters := [yparam "p_min_cluster" true true; yparam "p_max_cluster" true true; yparam "p_min_unit" false false;
    yparam "p_max_unit" false false; yparam "generation_cost" false false; yparam "startup_cost" false false;
    yparam "fixed_cost" false false; yparam "d_min_up" false false; yparam "d_min_down" false false;
    yparam "nb_units_min" true true; yparam "nb_units_max" true true; yparam "nb_units_max_variation_forward" true true;
    yparam "nb_units_max_variation_backward" true true];
  ym_variables := [yvar "generation" true true (Some "p_min_cluster") (Some "p_max_cluster");
    yint "nb_units_on" (Some "nb_units_min") (Some "nb_units_max"); yint "nb_starting" (Some "0") (Some "nb_units_max");
    yint "nb_stopping" (Some "0") None; yvar "nb_failing" true true (Some "0") None];
  ym_ports := [yport "balance_port" "flow"]; ym_definitions := [ydef "balance_port" "flow" "generation"];
  ym_binding_constraints := [];
  ym_constraints := [yrow "max_generation" "generation <= nb_units_on * p_max_unit";
    yrow "min_generation" "generation >= nb_units_on * p_min_unit";
    yrow "on_units_dynamics" "nb_units_on = nb_units_on[t-1] + nb_starting - nb_stopping";
    yrow "nb_failing_lower_than_stopping" "nb_failing <= nb_stopping";
    yrow "nb_failing_lower_than_max_variation" "nb_failing <= nb_units_max_variation_forward";
    yrow "min_up_duration" "sum(t-d_min_up + 1 .. t, nb_starting - nb_failing) <= nb_units_on";
    yrow "min_down_duration" "sum(t-d_min_down + 1 .. t, nb_stopping) <= nb_units_max[t-d_min_down] - nb_units_on + sum(t-d_min_down + 1 .. t, nb_units_max_variation_backward)"];
  ym_objective := Some "expec(sum(generation_cost * generation + startup_cost * nb_starting + fixed_cost * nb_units_on))" |}.
(** antares_historic.yml:169-226 *)
Definition lib_short_term_storage : in_model := {|
  ym_id := "short-term-storage";
  ym_parameters := [yparam "reservoir_capacity" false false; yparam "injection_nominal_capacity" false false;
    yparam "withdrawal_nominal_capacity" false false; yparam "efficiency_injection" false false;
    yparam "efficiency_withdrawal" false false; yparam "lower_rule_curve" true true; yparam "upper_rule_curve" true true;
    yparam "p_max_injection_modulation" true true; yparam "p_max_withdrawal_modulation" true true; yparam "inflows" true true;
    yparam "initial_level" false false];
  ym_variables := [yvar "p_injection" true true (Some "0") (Some "p_max_injection_modulation * injection_nominal_capacity");
    yvar "p_withdrawal" true true (Some "0") (Some "p_max_withdrawal_modulation * withdrawal_nominal_capacity");
    yvar "level" true true (Some "lower_rule_curve * reservoir_capacity") (Some "upper_rule_curve * reservoir_capacity")];
  ym_ports := [yport "injection_port" "flow"]; ym_definitions := [ydef "injection_port" "flow" "p_withdrawal - p_injection"];
  ym_binding_constraints := [];
  ym_constraints := [yrow "initial_level" "level[0] = initial_level * reservoir_capacity";
    yrow "Level equation" "level[t+1] = level + efficiency_injection * p_injection - efficiency_withdrawal * p_withdrawal + inflows"];
  ym_objective := None |}.
(** antares_historic.yml:12-226 *)
Definition antares_library : in_library := {|
  yl_id := "antares-historic"; yl_dependencies := []; yl_port_types := [{| yt_id := "flow"; yt_fields := ["flow"] |}];
  yl_models := [lib_area; lib_an_load; lib_an_link; lib_renewable; lib_thermal; lib_short_term_storage] |}.
(** libs/reference_models/andromede_v1_models.yml:23-43 *)
Definition lib_dsr : in_model := {|
  ym_id := "dsr"; ym_parameters := [yparam "max_load" true true; yparam "curtailment_price" false false];
  ym_variables := [yvar "curtailment" true true (Some "0") (Some "max_load")];
  ym_ports := [yport "balance_port" "flow"]; ym_definitions := [ydef "balance_port" "flow" "-max_load + curtailment"];
  ym_binding_constraints := []; ym_constraints := []; ym_objective := Some "expec(sum(curtailment * curtailment_price))" |}.
(** andromede_v1_models.yml:46-69 *)
Definition lib_electrolyser : in_model := {|
  ym_id := "electrolyser"; ym_parameters := [yparam "efficiency" false false; yparam "p_max" true true];
  ym_variables := [yvar "power" true true (Some "0") (Some "p_max")];
  ym_ports := [yport "power_port" "flow"; yport "hydrogen_port" "flow"];
  ym_definitions := [ydef "power_port" "flow" "-power"; ydef "hydrogen_port" "flow" "efficiency * power"];
  ym_binding_constraints := []; ym_constraints := []; ym_objective := None |}.
(** andromede_v1_models.yml:71-127 *)
Definition lib_battery : in_model := {|
  ym_id := "battery";
  ym_parameters := [yparam "reservoir_capacity" false false; yparam "injection_nominal_capacity" false false;
    yparam "withdrawal_nominal_capacity" false false; yparam "efficiency_injection" false false;
    yparam "efficiency_withdrawal" false false; yparam "lower_rule_curve" true true; yparam "upper_rule_curve" true true;
    yparam "p_max_injection_modulation" true true; yparam "p_max_withdrawal_modulation" true true;
    yparam "marginal_cost" true false];
  ym_variables := [yvar "p_injection" true true (Some "0") (Some "p_max_injection_modulation * injection_nominal_capacity");
    yvar "p_withdrawal" true true (Some "0") (Some "p_max_withdrawal_modulation * withdrawal_nominal_capacity");
    yvar "level" true true (Some "lower_rule_curve * reservoir_capacity") (Some "upper_rule_curve * reservoir_capacity")];
  ym_ports := [yport "injection_port" "flow"]; ym_definitions := [ydef "injection_port" "flow" "p_withdrawal - p_injection"];
  ym_binding_constraints := [];
  ym_constraints := [yrow "level_equation" "level[t+1] = level + efficiency_injection * p_injection - efficiency_withdrawal * p_withdrawal"];
  ym_objective := Some "expec(sum(marginal_cost * p_injection))" |}.
(** andromede_v1_models.yml:13-127 *)
Definition andromede_v1_library : in_library := {|
  yl_id := "andromede-v1-models"; yl_dependencies := []; yl_port_types := [{| yt_id := "flow"; yt_fields := ["flow"] |}];
  yl_models := [lib_dsr; lib_electrolyser; lib_battery] |}.
