(** The converter of PyPSA networks (src/andromede/pypsa_converter/pypsa_converter.py, pypsa_converter/utils.py) and the
    library of models it refers to (src/andromede/libs/pypsa_models/pypsa_models.yml).  Definitions only. *)
From Verif Require Import Base Study System Library.
Local Open Scope string_scope.
Local Open Scope list_scope.

(** ** Tables, as far as the converter uses pandas *)
(** a value in a table of components; pypsa_converter.py:33, 539 *)
Inductive pcell := CNum (v : num) | CText (s : string) | CBool (b : bool).
(** a DataFrame with the names of components as index (pypsa_converter.py:33); every column is as long as the index,
    and the index has no repetition (PyPSA's tables are so) *)
Record dataframe := { df_index : list string; df_columns : dict string (list pcell) }.
(** the tables of time series of a class of components, pypsa_converter.py:34: by attribute, then by component; the values
    are by snapshot *)
Definition series_tables : Type := dict string (dict string (list num)).

(** `df[name]`, pypsa_converter.py:100-134, 204, 330, 558 *)
Definition col (df : dataframe) (name : string) : result (list pcell) :=
  match dget String.eqb name (df_columns df) with Some c => Ok c | None => Err KeyError end.
(** the entry of a column at a row of the index, pypsa_converter.py:139, 189, 539 *)
Definition cell_at (df : dataframe) (c : list pcell) (row : string) : option pcell :=
  dget String.eqb row (combine (df_index df) c).
(** `df.loc[row, name]`, pypsa_converter.py:139-145, 344-347, 356-358, 539 *)
Definition loc (df : dataframe) (row name : string) : result pcell :=
  c <- col df name ;;
  match cell_at df c row with Some v => Ok v | None => Err KeyError end.
(** `x == v` for a number v, True and False being 1 and 0, pypsa_converter.py:100-134, 204-205 *)
Definition cell_is (v : num) (c : pcell) : bool :=
  match c with
  | CNum x => neqb x v
  | CBool b => neqb (if b then n1 else n0) v
  | CText _ => false
  end.
(** `df[name] = values` for an existing or a new column, pypsa_converter.py:157-159, 190, 204-205 *)
Definition set_col (name : string) (values : list pcell) (df : dataframe) : dataframe :=
  {| df_index := df_index df; df_columns := dset String.eqb name values (df_columns df) |}.

(** ** Networks *)
(** what the converter reads of a `pypsa.Network`, pypsa_converter.py:78-81, 97-183, 206-322, 330-376 *)
Record pypsa_network := {
  pn_name : string;
  pn_investment_periods : nat;
  pn_weightings : list num;
  pn_generators : dataframe; pn_generators_t : series_tables;
  pn_loads : dataframe; pn_loads_t : series_tables;
  pn_buses : dataframe; pn_buses_t : series_tables;
  pn_links : dataframe; pn_links_t : series_tables;
  pn_storage_units : dataframe; pn_storage_units_t : series_tables;
  pn_stores : dataframe; pn_stores_t : series_tables;
  pn_carriers : dataframe;
  pn_global_constraints : dataframe
}.

(** `assert`, pypsa_converter.py:97-98, 138-147 *)
Definition require (b : bool) : result unit := if b then Ok tt else Err AssertionErr.
(** `if not all(df[name] == v): raise ValueError`, pypsa_converter.py:100-135 *)
Definition require_all (df : dataframe) (name : string) (v : num) : result unit :=
  c <- col df name ;; if forallb (cell_is v) c then Ok tt else Err ValueError.
(** pypsa_converter.py:137-147: one global constraint *)
Definition check_global_constraint (df : dataframe) (id : string) : result unit :=
  type <- loc df id "type" ;;
  _ <- require (match type with CText s => String.eqb s "primary_energy" | _ => false end) ;;
  attribute <- loc df id "carrier_attribute" ;;
  require (match attribute with CText s => String.eqb s "co2_emissions" | _ => false end).
(** pypsa_converter.py:95-147 `_pypsa_network_assertion`; the checks named after storage units and stores look at the
    links (115, 128) *)
Definition network_assertion (n : pypsa_network) : result unit :=
  _ <- require (Nat.eqb (pn_investment_periods n) 0) ;;
  _ <- require (forallb (neqb n1) (pn_weightings n)) ;;
  _ <- require_all (pn_generators n) "marginal_cost_quadratic" n0 ;;
  _ <- require_all (pn_generators n) "active" n1 ;;
  _ <- require_all (pn_generators n) "committable" n0 ;;
  _ <- require_all (pn_loads n) "active" n1 ;;
  _ <- require_all (pn_links n) "active" n1 ;;
  _ <- require_all (pn_links n) "active" n1 ;;
  _ <- require_all (pn_storage_units n) "sign" n1 ;;
  _ <- require_all (pn_storage_units n) "cyclic_state_of_charge" n1 ;;
  _ <- require_all (pn_storage_units n) "marginal_cost_quadratic" n0 ;;
  _ <- require_all (pn_links n) "active" n1 ;;
  _ <- require_all (pn_stores n) "sign" n1 ;;
  _ <- require_all (pn_stores n) "e_cyclic" n1 ;;
  _ <- require_all (pn_stores n) "marginal_cost_quadratic" n0 ;;
  _ <- mapM (check_global_constraint (pn_global_constraints n)) (df_index (pn_global_constraints n)) ;;
  Ok tt.

(** ** Preprocessing *)
(** pypsa_converter/utils.py:19 `PYPSA_CONVERTER_MAX_FLOAT` *)
Definition max_float : num := Fin (Z2Qc (10 ^ 20)).
(** `max(min(float(el), MAX), MAX * -1)`, pypsa_converter/utils.py:24-27: comparisons with NaN are false *)
Definition limited (v : num) : num :=
  let low := if nltb max_float v then max_float else v in
  if nltb low (nneg max_float) then nneg max_float else low.
(** pypsa_converter/utils.py:22-29 `any_to_float`; numbers written as text are not modelled *)
Definition any_to_float (c : pcell) : result num :=
  match c with
  | CNum v => Ok (limited v)
  | CBool b => Ok (if b then n1 else n0)
  | CText _ => Err TypeError
  end.
(** pypsa_converter.py:80 *)
Definition null_carrier : string := "null".
(** pypsa_converter.py:150-159: the table of carriers with the fictitious one; PyPSA skips a name that exists, and fills
    the other attributes, which the converter does not read *)
Definition add_null_carrier (df : dataframe) : dataframe :=
  let df :=
    if existsb (String.eqb null_carrier) (df_index df) then df
    else {| df_index := df_index df ++ [null_carrier];
            df_columns := map (fun kc => (fst kc, snd kc ++
              [if String.eqb (fst kc) "co2_emissions" then CNum n0
               else if String.eqb (fst kc) "max_growth" then CNum max_float else CText ""])) (df_columns df) |} in
  set_col "carrier" (map CText (df_index df)) df.
(** pypsa_converter.py:161-163 and so on: the index with a suffix *)
Definition rename (suffix : string) (df : dataframe) : dataframe :=
  {| df_index := map (fun c => c ++ suffix)%string (df_index df); df_columns := df_columns df |}.
(** pypsa_converter.py:164-165 and so on: the columns of the time series with the same suffix *)
Definition rename_series (suffix : string) (d : series_tables) : series_tables :=
  map (fun at_ => (fst at_, map (fun cv => (fst cv ++ suffix, snd cv)%string) (snd at_))) d.
(** pypsa_converter.py:149-183 `_pypsa_network_preprocessing`; buses and links keep their names *)
Definition network_preprocessing (n : pypsa_network) : pypsa_network := {|
  pn_name := pn_name n; pn_investment_periods := pn_investment_periods n; pn_weightings := pn_weightings n;
  pn_generators := rename "_generator" (pn_generators n); pn_generators_t := rename_series "_generator" (pn_generators_t n);
  pn_loads := rename "_load" (pn_loads n); pn_loads_t := rename_series "_load" (pn_loads_t n);
  pn_buses := pn_buses n; pn_buses_t := pn_buses_t n;
  pn_links := pn_links n; pn_links_t := pn_links_t n;
  pn_storage_units := rename "_storage" (pn_storage_units n); pn_storage_units_t := rename_series "_storage" (pn_storage_units_t n);
  pn_stores := rename "_store" (pn_stores n); pn_stores_t := rename_series "_store" (pn_stores_t n);
  pn_carriers := add_null_carrier (pn_carriers n);
  pn_global_constraints := pn_global_constraints n |}.

(** pypsa_converter.py:188-190: the carrier of a component; `len` of something else than a text raises *)
Definition with_carrier (c : pcell) : result pcell :=
  match c with
  | CText s => Ok (CText (if Nat.eqb (String.length s) 0 then null_carrier else s))
  | _ => Err TypeError
  end.
(** pypsa_converter.py:191-200: `df.join(carriers, on="carrier", how="left", rsuffix="_carrier")`: NaN for an unknown
    carrier; a column that already bears a suffixed name, which pandas refuses, is not modelled *)
Definition join_carriers (carriers df : dataframe) (names : list pcell) : dataframe :=
  fold_left (fun df' kc =>
    set_col (if dmem String.eqb (fst kc) (df_columns df) then fst kc ++ "_carrier" else fst kc)%string
      (map (fun c => match c with
                     | CText s => match cell_at carriers (snd kc) s with Some v => v | None => CNum NaN end
                     | _ => CNum NaN
                     end) names) df')
    (df_columns carriers) df.
(** `df.loc[df[flag] == False, field] = ...`, pypsa_converter.py:203-205; a column that does not exist is made *)
Definition assign_where (flags values : list pcell) (field : string) (df : dataframe) : dataframe :=
  let old := match dget String.eqb field (df_columns df) with
             | Some c => c
             | None => repeat (CNum NaN) (List.length (df_index df))
             end in
  set_col field (map (fun fvo => if cell_is n0 (fst fvo) then fst (snd fvo) else snd (snd fvo))
                   (combine flags (combine values old))) df.
(** pypsa_converter.py:185-205 `_preprocess_pypsa_components` *)
Definition preprocess_components (carriers : dataframe) (capa : string) (df : dataframe) : result dataframe :=
  carrier <- col df "carrier" ;;
  names <- mapM with_carrier carrier ;;
  let df := join_carriers carriers (set_col "carrier" names df) names in
  flags <- col df (capa ++ "_extendable") ;;
  values <- col df capa ;;
  let df := assign_where flags values (capa ++ "_min") df in
  let df := assign_where flags values (capa ++ "_max") df in
  Ok (assign_where flags (map (fun _ => CNum n0) flags) "capital_cost" df).
(** pypsa_converter.py:84-88 *)
Definition preprocess (n : pypsa_network) : result pypsa_network :=
  let n := network_preprocessing n in
  generators <- preprocess_components (pn_carriers n) "p_nom" (pn_generators n) ;;
  stores <- preprocess_components (pn_carriers n) "e_nom" (pn_stores n) ;;
  storage_units <- preprocess_components (pn_carriers n) "p_nom" (pn_storage_units n) ;;
  links <- preprocess_components (pn_carriers n) "p_nom" (pn_links n) ;;
  Ok {| pn_name := pn_name n; pn_investment_periods := pn_investment_periods n; pn_weightings := pn_weightings n;
        pn_generators := generators; pn_generators_t := pn_generators_t n;
        pn_loads := pn_loads n; pn_loads_t := pn_loads_t n;
        pn_buses := pn_buses n; pn_buses_t := pn_buses_t n;
        pn_links := links; pn_links_t := pn_links_t n;
        pn_storage_units := storage_units; pn_storage_units_t := pn_storage_units_t n;
        pn_stores := stores; pn_stores_t := pn_stores_t n;
        pn_carriers := pn_carriers n; pn_global_constraints := pn_global_constraints n |}.

(** ** Conversion *)
(** pypsa_converter.py:30-37 `PyPSAComponentData` *)
Record class_data := {
  cd_constant : dataframe;
  cd_series : series_tables;
  cd_model : string;
  cd_parameters : dict string string;
  cd_connections : dict string (string * string)
}.
(** pypsa_converter.py:214-226 *)
Definition generator_parameters : dict string string :=
  [("p_nom_min", "p_nom_min"); ("p_nom_max", "p_nom_max"); ("p_min_pu", "p_min_pu"); ("p_max_pu", "p_max_pu");
   ("marginal_cost", "marginal_cost"); ("capital_cost", "capital_cost"); ("e_sum_min", "e_sum_min");
   ("e_sum_max", "e_sum_max"); ("sign", "sign"); ("efficiency", "efficiency"); ("co2_emissions", "emission_factor")].
(** pypsa_converter.py:235-239 *)
Definition load_parameters : dict string string := [("p_set", "p_set"); ("q_set", "q_set"); ("sign", "sign")].
(** pypsa_converter.py:248-255 *)
Definition bus_parameters : dict string string :=
  [("v_nom", "v_nom"); ("x", "x"); ("y", "y"); ("v_mag_pu_set", "v_mag_pu_set"); ("v_mag_pu_min", "v_mag_pu_min");
   ("v_mag_pu_max", "v_mag_pu_max")].
(** pypsa_converter.py:264-272 *)
Definition link_parameters : dict string string :=
  [("efficiency", "efficiency"); ("p_nom_min", "p_nom_min"); ("p_nom_max", "p_nom_max"); ("p_min_pu", "p_min_pu");
   ("p_max_pu", "p_max_pu"); ("marginal_cost", "marginal_cost"); ("capital_cost", "capital_cost")].
(** pypsa_converter.py:284-300 *)
Definition storage_unit_parameters : dict string string :=
  [("p_nom_min", "p_nom_min"); ("p_nom_max", "p_nom_max"); ("p_min_pu", "p_min_pu"); ("p_max_pu", "p_max_pu");
   ("sign", "sign"); ("efficiency_store", "efficiency_store"); ("efficiency_dispatch", "efficiency_dispatch");
   ("standing_loss", "standing_loss"); ("max_hours", "max_hours"); ("marginal_cost", "marginal_cost");
   ("capital_cost", "capital_cost"); ("marginal_cost_storage", "marginal_cost_storage"); ("spill_cost", "spill_cost");
   ("inflow", "inflow"); ("co2_emissions", "emission_factor")].
(** pypsa_converter.py:309-320 *)
Definition store_parameters : dict string string :=
  [("sign", "sign"); ("e_nom_min", "e_nom_min"); ("e_nom_max", "e_nom_max"); ("e_min_pu", "e_min_pu");
   ("e_max_pu", "e_max_pu"); ("standing_loss", "standing_loss"); ("marginal_cost", "marginal_cost");
   ("capital_cost", "capital_cost"); ("marginal_cost_storage", "marginal_cost_storage"); ("co2_emissions", "emission_factor")].
(** pypsa_converter.py:207-322, 380-399 `_register_pypsa_components` *)
Definition registered (n : pypsa_network) : list class_data :=
  let balance := [("bus", ("p_balance_port", "p_balance_port"))] in
  [{| cd_constant := pn_generators n; cd_series := pn_generators_t n; cd_model := "generator";
      cd_parameters := generator_parameters; cd_connections := balance |};
   {| cd_constant := pn_loads n; cd_series := pn_loads_t n; cd_model := "load";
      cd_parameters := load_parameters; cd_connections := balance |};
   {| cd_constant := pn_buses n; cd_series := pn_buses_t n; cd_model := "bus";
      cd_parameters := bus_parameters; cd_connections := [] |};
   {| cd_constant := pn_links n; cd_series := pn_links_t n; cd_model := "link";
      cd_parameters := link_parameters;
      cd_connections := [("bus0", ("p0_port", "p_balance_port")); ("bus1", ("p1_port", "p_balance_port"))] |};
   {| cd_constant := pn_storage_units n; cd_series := pn_storage_units_t n; cd_model := "storage_unit";
      cd_parameters := storage_unit_parameters; cd_connections := balance |};
   {| cd_constant := pn_stores n; cd_series := pn_stores_t n; cd_model := "store";
      cd_parameters := store_parameters; cd_connections := balance |}].

(** pypsa_converter.py:324-332 `_add_contributors_to_globalconstraints` *)
Definition contributors (df : dataframe) : result (list string) :=
  carrier <- col df "carrier" ;;
  Ok (map fst (filter (fun kc => match snd kc with CText s => negb (String.eqb s null_carrier) | _ => true end)
                 (combine (df_index df) carrier))).
(** pypsa_converter.py:52-61 `PyPSAGlobalConstraintData`, as far as it is used: the port is always `emission_port` *)
Record constraint_data := { gc_name : string; gc_constant : num; gc_model : string; gc_components : list string }.
(** pypsa_converter.py:341-378: one global constraint; a constant that is not a number is not modelled *)
Definition registered_constraint (df : dataframe) (components : list string) (id : string) : result constraint_data :=
  sense <- loc df id "sense" ;;
  attribute <- loc df id "carrier_attribute" ;;
  constant <- loc df id "constant" ;;
  match attribute, sense, constant with
  | CText a, CText s, CNum q =>
      if String.eqb a "co2_emissions" && String.eqb s "<=" then
        Ok {| gc_name := id; gc_constant := q; gc_model := "global_constraint_co2_max"; gc_components := components |}
      else if String.eqb a "co2_emissions" && String.eqb s "==" then
        Ok {| gc_name := id; gc_constant := q; gc_model := "global_constraint_co2_eq"; gc_components := components |}
      else Err ValueError
  | _, _, _ => Err ValueError
  end.
(** pypsa_converter.py:334-378 `_register_pypsa_globalconstraints` *)
Definition registered_constraints (n : pypsa_network) : result (list constraint_data) :=
  g <- contributors (pn_generators n) ;;
  s <- contributors (pn_stores n) ;;
  u <- contributors (pn_storage_units n) ;;
  mapM (registered_constraint (pn_global_constraints n) (g ++ s ++ u)) (df_index (pn_global_constraints n)).

(** pypsa_converter.py:39-49 `check_params_consistency` *)
Definition check_params_consistency (d : class_data) : result unit :=
  if forallb (fun k => dmem String.eqb k (df_columns (cd_constant d))) (map fst (cd_parameters d) ++ map fst (cd_connections d))
  then Ok tt else Err ValueError.
(** pypsa_converter.py:507: the name of a time series *)
Definition series_name (system component parameter : string) : string := system ++ "_" ++ component ++ "_" ++ parameter.
(** pypsa_converter.py:444-450, 498-515 `_write_and_register_timeseries`: the series written, each with the component and
    the parameter; [order] is the order in which python goes through the set of parameters *)
Definition written_series (order : list string -> list string) (d : class_data)
  : list ((string * string) * list num) :=
  flat_map (fun p => match dget String.eqb p (cd_series d) with
                     | Some table => map (fun cv => ((fst cv, p), snd cv)) table
                     | None => []
                     end)
    (order (filter (fun p => dmem String.eqb p (cd_series d)) (map fst (cd_parameters d)))).
(** the files of the directory of series afterwards, pypsa_converter.py:509-513; printing and reading numbers in text files
    is not modelled *)
Definition write_files (system : string) (written : list ((string * string) * list num)) (files : dict string frame)
  : dict string frame :=
  fold_left (fun files w => dset String.eqb (series_name system (fst (fst w)) (snd (fst w))) (map (fun v => [v]) (snd w)) files)
    written files.
(** pypsa_converter.py:508, 533-538: the name of the series of a component and parameter, if there is one *)
Definition series_of (system : string) (written : list ((string * string) * list num)) (component p : string) : option string :=
  if existsb (fun w => String.eqb component (fst (fst w)) && String.eqb p (snd (fst w))) written
  then Some (series_name system component p) else None.
(** pypsa_converter.py:531-541: one parameter *)
Definition gems_parameter (system : string) (d : class_data) (written : list ((string * string) * list num))
  (component : string) (pg : string * string) : result input_parameter :=
  match series_of system written component (fst pg) with
  | Some name => Ok {| ip_id := snd pg; ip_time := true; ip_scenario := false; ip_value := inr name; ip_group := None |}
  | None =>
      c <- loc (cd_constant d) component (fst pg) ;;
      v <- any_to_float c ;;
      Ok {| ip_id := snd pg; ip_time := false; ip_scenario := false; ip_value := inl v; ip_group := None |}
  end.
(** pypsa_converter.py:79 *)
Definition pypsalib_id : string := "pypsa_models".
(** pypsa_converter.py:517-546 `_create_gems_components`, one component *)
Definition gems_component (system : string) (d : class_data) (written : list ((string * string) * list num))
  (component : string) : result input_component :=
  ps <- mapM (gems_parameter system d written component) (cd_parameters d) ;;
  Ok {| ic_id := component; ic_model := pypsalib_id ++ "." ++ cd_model d; ic_group := None; ic_parameters := Some ps |}.
(** pypsa_converter.py:548-568 `_create_gems_connections`; a bus that is not a text is refused by pydantic *)
Definition gems_connections (d : class_data) : result (list input_connection) :=
  ls <- mapM (fun bp : string * (string * string) =>
          buses <- col (cd_constant d) (fst bp) ;;
          mapM (fun cb : string * pcell =>
                  match snd cb with
                  | CText b => Ok {| icn_component1 := b; icn_port1 := snd (snd bp);
                                     icn_component2 := fst cb; icn_port2 := fst (snd bp) |}
                  | _ => Err ValueError
                  end) (combine (df_index (cd_constant d)) buses))
          (cd_connections d) ;;
  Ok (concat ls).
(** pypsa_converter.py:428-463 `_convert_pypsa_components_of_given_model` *)
Definition convert_components (order : list string -> list string) (system : string) (d : class_data)
  : result (list input_component * list input_connection) :=
  _ <- check_params_consistency d ;;
  let written := written_series order d in
  connections <- gems_connections d ;;
  components <- mapM (gems_component system d written) (df_index (cd_constant d)) ;;
  Ok (components, connections).
(** pypsa_converter.py:465-496 `_convert_pypsa_globalconstraint_of_given_model` *)
Definition convert_constraint (g : constraint_data) : input_component * list input_connection :=
  ({| ic_id := gc_name g; ic_model := pypsalib_id ++ "." ++ gc_model g; ic_group := None;
      ic_parameters := Some [{| ip_id := "quota"; ip_time := false; ip_scenario := false; ip_value := inl (gc_constant g);
                                ip_group := None |}] |},
   map (fun c => {| icn_component1 := gc_name g; icn_port1 := "emission_port"; icn_component2 := c;
                    icn_port2 := "emission_port" |}) (gc_components g)).
(** pypsa_converter.py:65-93, 401-426: construction of the converter and `to_gems_study`: the system, and the series
    written, by name *)
Definition convert_pypsa (order : list string -> list string) (n : pypsa_network) : result (input_system * dict string frame) :=
  _ <- network_assertion n ;;
  n <- preprocess n ;;
  constraints <- registered_constraints n ;;
  parts <- mapM (convert_components order (pn_name n)) (registered n) ;;
  let globals := map convert_constraint constraints in
  Ok ({| is_nodes := [];
         is_components := flat_map fst parts ++ map fst globals;
         is_connections := flat_map snd parts ++ flat_map snd globals |},
      fold_left (fun files d => write_files (pn_name n) (written_series order d) files) (registered n) []).
(** the directory of series as `load_ts_from_txt` reads it, study/data.py:135-147 *)
Definition series_directory (files : dict string frame) (name : string) : result frame :=
  match dget String.eqb name files with Some f => Ok f | None => Err GenericException end.

(** ** The library of models: libs/pypsa_models/pypsa_models.yml *)
(** `time-dependent` and `scenario-dependent` of a parameter, pypsa_models.yml:37-39 *)
Definition yparam (id : string) (time scenario : bool) : in_parameter := {| yp_id := id; yp_time := time; yp_scenario := scenario |}.
(** a variable with the defaults of model/parsing.py:35-44 *)
Definition yvar (id : string) (time scenario : bool) (lower upper : option string) : in_variable :=
  {| yv_id := id; yv_time := time; yv_scenario := scenario; yv_lower := lower; yv_upper := upper; yv_type := "continuous" |}.
(** a constraint without bounds, pypsa_models.yml:64-68 *)
Definition yrow (id expression : string) : in_constraint :=
  {| yc_id := id; yc_expression := expression; yc_lower := None; yc_upper := None |}.
(** a port, pypsa_models.yml:59-63 *)
Definition yport (id type : string) : in_model_port := {| yo_id := id; yo_type := type |}.
(** a definition, pypsa_models.yml:90-96 *)
Definition ydef (port field definition : string) : in_definition :=
  {| yd_port := port; yd_field := field; yd_definition := definition |}.

(** pypsa_models.yml:34-68 *)
Definition lib_bus : in_model := {|
  ym_id := "bus";
  ym_parameters := [yparam "v_nom" false false; yparam "x" false false; yparam "y" false false;
    yparam "v_mag_pu_set" true false; yparam "v_mag_pu_min" false false; yparam "v_mag_pu_max" false false];
  ym_variables := [];
  ym_ports := [yport "p_balance_port" "flow"; yport "q_balance_port" "flow"];
  ym_definitions := [];
  ym_binding_constraints := [yrow "p_balance" "sum_connections(p_balance_port.flow) = 0";
    yrow "q_balance" "sum_connections(q_balance_port.flow) = 0"];
  ym_constraints := []; ym_objective := None |}.
(** pypsa_models.yml:70-96 *)
Definition lib_load : in_model := {|
  ym_id := "load";
  ym_parameters := [yparam "p_set" true true; yparam "q_set" true true; yparam "sign" false false];
  ym_variables := [];
  ym_ports := [yport "p_balance_port" "flow"; yport "q_balance_port" "flow"];
  ym_definitions := [ydef "p_balance_port" "flow" "sign * p_set"; ydef "q_balance_port" "flow" "sign * q_set"];
  ym_binding_constraints := []; ym_constraints := []; ym_objective := None |}.
(** pypsa_models.yml:98-194 *)
Definition lib_generator : in_model := {|
  ym_id := "generator";
  ym_parameters := [yparam "p_nom_min" false false; yparam "p_nom_max" false false; yparam "p_min_pu" true false;
    yparam "p_max_pu" true false; yparam "e_sum_min" false false; yparam "e_sum_max" false false; yparam "sign" false false;
    yparam "marginal_cost" true false; yparam "capital_cost" false false; yparam "efficiency" true false;
    yparam "emission_factor" false false];
  ym_variables := [yvar "p_nom" false false (Some "p_nom_min") (Some "p_nom_max"); yvar "p" true true None None];
  ym_ports := [yport "p_balance_port" "flow"; yport "emission_port" "emission"];
  ym_definitions := [ydef "p_balance_port" "flow" "p*sign"; ydef "emission_port" "emission" "p*emission_factor/efficiency"];
  ym_binding_constraints := [];
  ym_constraints := [yrow "min_dispatch" "p >=p_nom * p_min_pu"; yrow "max_dispatch" "p <=p_nom * p_max_pu";
    yrow "min_production" "sum(p) >= e_sum_min"; yrow "max_production" "sum(p) <= e_sum_max"];
  ym_objective := Some "expec(sum(marginal_cost * p)) + p_nom * capital_cost" |}.
(** pypsa_models.yml:196-278 *)
Definition lib_link : in_model := {|
  ym_id := "link";
  ym_parameters := [yparam "efficiency" true false; yparam "p_nom_min" false false; yparam "p_nom_max" false false;
    yparam "p_min_pu" true false; yparam "p_max_pu" true false; yparam "capital_cost" false false;
    yparam "marginal_cost" true false];
  ym_variables := [yvar "p_nom" false false (Some "p_nom_min") (Some "p_nom_max"); yvar "p0" true true None None];
  ym_ports := [yport "p0_port" "flow"; yport "p1_port" "flow"];
  ym_definitions := [ydef "p0_port" "flow" "-p0"; ydef "p1_port" "flow" "efficiency * p0"];
  ym_binding_constraints := [];
  ym_constraints := [yrow "p0_upper" "p0 <= p_max_pu * p_nom"; yrow "p0_lower" "p0 >= p_min_pu * p_nom"];
  ym_objective := Some "expec(sum(marginal_cost * p0)) + capital_cost * p_nom" |}.
(** pypsa_models.yml:281-384 *)
Definition lib_storage_unit : in_model := {|
  ym_id := "storage_unit";
  ym_parameters := [yparam "p_nom_min" false false; yparam "p_nom_max" false false; yparam "p_min_pu" true false;
    yparam "p_max_pu" true false; yparam "sign" false false; yparam "spill_cost" true false; yparam "marginal_cost" true false;
    yparam "marginal_cost_storage" true false; yparam "capital_cost" false false; yparam "max_hours" false false;
    yparam "efficiency_store" true false; yparam "efficiency_dispatch" true false; yparam "standing_loss" true false;
    yparam "inflow" true true; yparam "emission_factor" false false];
  ym_variables := [yvar "p_nom" false false (Some "p_nom_min") (Some "p_nom_max");
    yvar "p_store" true true (Some "0") (Some "p_max_pu * p_nom_max");
    yvar "p_dispatch" true true (Some "0") (Some "p_max_pu * p_nom_max");
    yvar "state_of_charge" true true (Some "0") (Some "max_hours * p_nom_max");
    yvar "spill" true true (Some "0") None];
  ym_ports := [yport "p_balance_port" "flow"; yport "emission_port" "emission"];
  ym_definitions := [ydef "p_balance_port" "flow" "p_dispatch - p_store"; ydef "emission_port" "emission" "emission_factor * 0"];
  ym_binding_constraints := [];
  ym_constraints := [yrow "p_store_upper" "p_store <= p_max_pu * p_nom"; yrow "p_dispatch_upper" "p_store <= p_max_pu * p_nom";
    yrow "state_of_charge_upper" "state_of_charge <= max_hours * p_nom";
    yrow "state_of_charge_balance" "state_of_charge = (1- standing_loss) * state_of_charge[t-1] + efficiency_store * p_store - p_dispatch / efficiency_dispatch  + inflow - spill"];
  ym_objective := Some "expec(sum(marginal_cost * p_dispatch + spill_cost*spill + marginal_cost_storage * state_of_charge)) + capital_cost * p_nom" |}.
(** pypsa_models.yml:386-461 *)
Definition lib_store : in_model := {|
  ym_id := "store";
  ym_parameters := [yparam "e_nom_min" false false; yparam "e_nom_max" false false; yparam "e_min_pu" true false;
    yparam "e_max_pu" true false; yparam "sign" false false; yparam "marginal_cost" true false;
    yparam "marginal_cost_storage" true false; yparam "capital_cost" false false; yparam "standing_loss" true false;
    yparam "emission_factor" false false];
  ym_variables := [yvar "e_nom" false false (Some "e_nom_min") (Some "e_nom_max"); yvar "e" true true None None;
    yvar "p" true true None None];
  ym_ports := [yport "p_balance_port" "flow"; yport "emission_port" "emission"];
  ym_definitions := [ydef "p_balance_port" "flow" "p"; ydef "emission_port" "emission" "emission_factor * 0"];
  ym_binding_constraints := [];
  ym_constraints := [yrow "e_upper" "e <= e_max_pu * e_nom"; yrow "e_lower" "e >= e_min_pu * e_nom";
    yrow "energy_balance" "e = (1 - standing_loss) * e[t-1] - p"];
  ym_objective := Some "expec(sum(marginal_cost * p + marginal_cost_storage * e)) + capital_cost * e_nom" |}.
(** pypsa_models.yml:467-482 *)
Definition lib_co2_max : in_model := {|
  ym_id := "global_constraint_co2_max";
  ym_parameters := [yparam "quota" false false]; ym_variables := [];
  ym_ports := [yport "emission_port" "emission"]; ym_definitions := [];
  ym_binding_constraints := [yrow "constraint_expression" "sum(sum_connections(emission_port.emission)) <= quota"];
  ym_constraints := []; ym_objective := None |}.
(** pypsa_models.yml:484-499 *)
Definition lib_co2_eq : in_model := {|
  ym_id := "global_constraint_co2_eq";
  ym_parameters := [yparam "quota" false false]; ym_variables := [];
  ym_ports := [yport "emission_port" "emission"]; ym_definitions := [];
  ym_binding_constraints := [yrow "constraint_expression" "sum(sum_connections(emission_port.emission)) = quota"];
  ym_constraints := []; ym_objective := None |}.
(** pypsa_models.yml:18-499; port types 23-31 *)
Definition pypsa_library : in_library := {|
  yl_id := "pypsa_models"; yl_dependencies := [];
  yl_port_types := [{| yt_id := "flow"; yt_fields := ["flow"] |}; {| yt_id := "emission"; yt_fields := ["emission"] |}];
  yl_models := [lib_bus; lib_load; lib_generator; lib_link; lib_storage_unit; lib_store; lib_co2_max; lib_co2_eq] |}.
