(** From system files to networks and data (src/andromede/study/resolve_components.py,
    study/parsing.py, model/library.py).  Definitions only.  Reading YAML, CSV and text files is
    not modelled: the model starts from the parsed records. *)
From Coq Require Import Ascii.
From Verif Require Import Base Expr Visitors Model Study.

(** study/parsing.py:37-41 `InputPortConnections` *)
Record input_connection := {
  icn_component1 : string; icn_port1 : string; icn_component2 : string; icn_port2 : string }.
(** study/parsing.py:44-49 `InputComponentParameter`; the value is a number or a file name *)
Record input_parameter := {
  ip_id : string; ip_time : bool; ip_scenario : bool; ip_value : num + string;
  ip_group : option string }.
(** study/parsing.py:52-56 `InputComponent` *)
Record input_component := {
  ic_id : string; ic_model : string; ic_group : option string;
  ic_parameters : option (list input_parameter) }.
(** study/parsing.py:59-63 `InputSystem` (the unused field is left out) *)
Record input_system := {
  is_nodes : list input_component; is_components : list input_component;
  is_connections : list input_connection }.

(** model/library.py:18-22 `Library` *)
Record library := { l_id : string; l_port_types : dict string port_type; l_models : dict string model }.

(** resolve_components.py:42-46 `System` *)
Record system := {
  sy_components : dict string component; sy_nodes : dict string component;
  sy_connections : list ports_connection }.
(** resolve_components.py:49-58 `system()` *)
Definition mk_system (components nodes : list component) (connections : list ports_connection) : system := {|
  sy_components := dict_of String.eqb co_id components;
  sy_nodes := dict_of String.eqb co_id nodes;
  sy_connections := connections |}.

(** `s.split(".")`, resolve_components.py:82 *)
Fixpoint split_dot (s : string) : list string :=
  match s with
  | EmptyString => [EmptyString]
  | String a s =>
      if Ascii.eqb a "."%char then EmptyString :: split_dot s
      else match split_dot s with
           | p :: ps => String a p :: ps
           | [] => [String a EmptyString]
           end
  end.
(** resolve_components.py:79-88 `_resolve_component` *)
Definition resolve_component (libraries : dict string library) (c : input_component) : result component :=
  match split_dot (ic_model c) with
  | [lib_id; model_id] =>
      match dget String.eqb lib_id libraries with
      | None => Err KeyError
      | Some lib =>
          match dget String.eqb model_id (l_models lib) with
          | None => Err KeyError
          | Some m => Ok {| co_model := m; co_id := ic_id c |}
          end
      end
  | _ => Err ValueError
  end.

(** resolve_components.py:109-113 `_get_component_by_id` *)
Definition get_component_by_id (all : list component) (id : string) : option component :=
  dget String.eqb id (dict_of String.eqb co_id all).
(** resolve_components.py:91-106 `_resolve_connections` *)
Definition resolve_connection (all : list component) (c : input_connection) : result ports_connection :=
  match get_component_by_id all (icn_component1 c), get_component_by_id all (icn_component2 c) with
  | Some c1, Some c2 =>
      mk_connection {| pr_component := c1; pr_port := icn_port1 c |} {| pr_component := c2; pr_port := icn_port2 c |}
  | _, _ => Err AssertionErr
  end.
(** resolve_components.py:61-76 `resolve_system` *)
Definition resolve_system (i : input_system) (libraries : dict string library) : result system :=
  components <- mapM (resolve_component libraries) (is_components i) ;;
  nodes <- mapM (resolve_component libraries) (is_nodes i) ;;
  connections <- mapM (resolve_connection (components ++ nodes)) (is_connections i) ;;
  Ok (mk_system components nodes connections).

(** resolve_components.py:116-130 `consistency_check` (returns True or raises) *)
Definition consistency_check (study : dict string component) (models : dict string model) : result bool :=
  _ <- mapM (fun kc => if dmem String.eqb (m_id (co_model (snd kc))) models then Ok tt else Err ValueError) study ;;
  Ok true.

(** resolve_components.py:133-146 `build_network`; the python class of nodes (Node instead of
    Component) is not modelled *)
Definition build_network (s : system) : result network :=
  let with_nodes := fold_left (fun n kc => add_node {| co_model := co_model (snd kc); co_id := fst kc |} n)
                      (sy_nodes s) (new_network "study") in
  let with_components := fold_left (fun n kc => add_component (snd kc) n) (sy_components s) with_nodes in
  foldM (fun n c => connect (pc_port1 c) (pc_port2 c) n) with_components (sy_connections s).

(** ** Data.  [files] is `load_ts_from_txt` (study/data.py:135-147) for the directory of the study:
    the rows of the named file, or an exception *)
Definition frame : Type := list (list num).
(** resolve_components.py:168-195 `_build_data` *)
Definition build_data (files : string -> result frame) (time scenario : bool) (value : num + string)
  (sc : option scenarization) : result data :=
  match value with
  | inr name =>
      ts <- files name ;;
      if time && scenario then Ok (TimeScenarioSeriesData ts sc)
      else if time then m <- dataframe_to_time_series ts ;; Ok (TimeSeriesData m)
      else if scenario then m <- dataframe_to_scenario_series ts ;; Ok (ScenarioSeriesData m sc)
      else Err ValueError
  | inl v => if time || scenario then Err ValueError else Ok (ConstantData v)
  end.
(** `comp.parameters or []`, resolve_components.py:156, 224 *)
Definition parameters_of (c : input_component) : list input_parameter :=
  match ic_parameters c with Some l => l | None => [] end.
(** resolve_components.py:149-165 `build_data_base` *)
Definition build_data_base (files : string -> result frame) (i : input_system) : result database :=
  foldM (fun db c =>
           foldM (fun db p =>
                    d <- build_data files (ip_time p) (ip_scenario p) (ip_value p) None ;;
                    Ok (add_data (ic_id c) (ip_id p) d db))
             db (parameters_of c))
    [] (is_components i ++ is_nodes i).

(** a row of the scenario builder, study/parsing.py:31-34: name, year, scenario *)
Definition builder_row : Type := (string * (Z * Z))%type.
(** resolve_components.py:198-207 `_resolve_scenarization` *)
Definition resolve_scenarization (rows : list builder_row) : result (dict string scenarization) :=
  foldM (fun out row =>
           let '(name, (year, scenario)) := row in
           match dget String.eqb name out with
           | Some sc => sc' <- add_year year scenario sc ;; Ok (dset String.eqb name sc' out)
           | None => Ok (dset String.eqb name [(year, scenario)] out)
           end)
    [] rows.
(** `if g: scenarization = scenarizations[g]`, resolve_components.py:220-221, 225-226; an empty
    string is false *)
Definition choose_group (scs : dict string scenarization) (g : option string) (current : option scenarization)
  : result (option scenarization) :=
  match g with
  | None | Some EmptyString => Ok current
  | Some g => match dget String.eqb g scs with Some sc => Ok (Some sc) | None => Err KeyError end
  end.
(** resolve_components.py:224-234: one parameter; the group of a parameter stays for the next ones *)
Definition scenarized_parameter (files : string -> result frame) (scs : dict string scenarization) (cid : string)
  (acc : database * option scenarization) (p : input_parameter) : result (database * option scenarization) :=
  sc <- choose_group scs (ip_group p) (snd acc) ;;
  d <- build_data files (ip_time p) (ip_scenario p) (ip_value p) sc ;;
  Ok (add_data cid (ip_id p) d (fst acc), sc).
(** resolve_components.py:219-234: one component *)
Definition scenarized_component (files : string -> result frame) (scs : dict string scenarization)
  (db : database) (c : input_component) : result database :=
  sc <- choose_group scs (ic_group c) None ;;
  r <- foldM (scenarized_parameter files scs (ic_id c)) (db, sc) (parameters_of c) ;;
  Ok (fst r).
(** resolve_components.py:210-236 `build_scenarized_data_base`; only the components are visited *)
Definition build_scenarized_data_base (files : string -> result frame) (i : input_system)
  (rows : list builder_row) : result database :=
  scs <- resolve_scenarization rows ;;
  foldM (scenarized_component files scs) [] (is_components i).
