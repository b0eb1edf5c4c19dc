(** From the contents of YAML files to the records of libraries and systems, and back (src/andromede/model/parsing.py,
    study/parsing.py, utils.py, input_converter/src/utils.py, pypsa_converter/utils.py).  Definitions only.  The text of the files is
    not modelled: the model starts from what yaml.safe_load returns and ends with what yaml.dump is given.  Validation is that of
    pydantic 2.10, in its default mode, for the types of these classes. *)
From Coq Require Import Ascii.
From Verif Require Import Base Expr Model Study Strategy Optim System Library.
Local Open Scope string_scope.
Local Open Scope list_scope.

(** what `safe_load` returns (model/parsing.py:22, study/parsing.py:27).  Dates are left out, and so are keys that are not text:
    a class refuses both *)
Inductive tree := TNull | TBool (b : bool) | TInt (z : Z) | TFloat (v : num) | TText (s : string) | TList (l : list tree) | TDict (d : dict string tree).

(** utils.py:76-77 `_to_kebab` *)
Fixpoint kebab (s : string) : string :=
  match s with
  | EmptyString => EmptyString
  | String c s => String (if Ascii.eqb c "_"%char then "-"%char else c) (kebab s)
  end.

(** ** Values *)
(** a field `str`, e.g. model/parsing.py:30 *)
Definition as_text (t : tree) : result string :=
  match t with TText s => Ok s | _ => Err ValueError end.
(** a field `str` of a class with `coerce_numbers_to_str`, model/parsing.py:43-44: a number is replaced by its text, a boolean is
    refused.  [show] is `str` on a float, as in print.py:59-60 *)
Definition as_text_or_number (show : num -> string) (t : tree) : result string :=
  match t with TText s => Ok s | TInt z => Ok (string_of_Z z) | TFloat v => Ok (show v) | _ => Err ValueError end.
(** lower case of ASCII letters, for the texts that a field `bool` reads (model/parsing.py:31) *)
Fixpoint lower (s : string) : string :=
  match s with
  | EmptyString => EmptyString
  | String c s =>
      let n := nat_of_ascii c in
      String (if Nat.leb 65 n && Nat.leb n 90 then ascii_of_nat (n + 32) else c) (lower s)
  end.
(** a field `bool`, e.g. model/parsing.py:31: booleans, the numbers 0 and 1, and some texts *)
Definition as_bool (t : tree) : result bool :=
  match t with
  | TBool b => Ok b
  | TInt z => if Z.eqb z 0 then Ok false else if Z.eqb z 1 then Ok true else Err ValueError
  | TFloat (Fin q) => if Qceqb q 0 then Ok false else if Qceqb q 1 then Ok true else Err ValueError
  | TText s =>
      if existsb (String.eqb (lower s)) ["0"; "off"; "f"; "false"; "n"; "no"] then Ok false
      else if existsb (String.eqb (lower s)) ["1"; "on"; "t"; "true"; "y"; "yes"] then Ok true
      else Err ValueError
  | _ => Err ValueError
  end.
(** a field `Union[float, str]`, study/parsing.py:48: texts stay texts; booleans are numbers for python *)
Definition as_value (t : tree) : result (num + string) :=
  match t with
  | TText s => Ok (inr s)
  | TFloat v => Ok (inl v)
  | TInt z => Ok (inl (nz z))
  | TBool b => Ok (inl (if b then n1 else n0))
  | _ => Err ValueError
  end.
(** a field `Optional[...]`, e.g. model/parsing.py:39 *)
Definition as_optional {A} (f : tree -> result A) (t : tree) : result (option A) :=
  match t with TNull => Ok None | _ => a <- f t ;; Ok (Some a) end.
(** a field `List[...]`, e.g. model/parsing.py:60 *)
Definition as_list {A} (f : tree -> result A) (t : tree) : result (list A) :=
  match t with TList l => mapM f l | _ => Err ValueError end.

(** ** Classes *)
(** the entry of a field: under its alias (utils.py:82), else under its name (84 `populate_by_name`) *)
Definition entry (d : dict string tree) (name : string) : option (string * tree) :=
  match dget String.eqb (kebab name) d with
  | Some t => Some (kebab name, t)
  | None => match dget String.eqb name d with Some t => Some (name, t) | None => None end
  end.
(** one field: its entry, else its default (e.g. model/parsing.py:30-32) *)
Definition field {A} (d : dict string tree) (name : string) (f : tree -> result A) (default : option A) : result A :=
  match entry d name with
  | Some (_, t) => f t
  | None => match default with Some a => Ok a | None => Err ValueError end
  end.
(** whether a key was used for a field, utils.py:83 `extra = "forbid"` *)
Definition used (d : dict string tree) (names : list string) (key : string) : bool :=
  existsb (fun name => match entry d name with Some (k, _) => String.eqb k key | None => false end) names.
(** the entries of an object of a class with these fields, utils.py:80-84; all validation errors are ValueErrors *)
Definition as_record (names : list string) (t : tree) : result (dict string tree) :=
  match t with
  | TDict d => if forallb (used d names) (map fst d) then Ok d else Err ValueError
  | _ => Err ValueError
  end.

(** ** Libraries *)
(** model/parsing.py:29-32 `InputParameter` *)
Definition read_parameter (t : tree) : result in_parameter :=
  d <- as_record ["id"; "time_dependent"; "scenario_dependent"] t ;;
  id <- field d "id" as_text None ;;
  time <- field d "time_dependent" as_bool (Some false) ;;
  scenario <- field d "scenario_dependent" as_bool (Some false) ;;
  Ok {| yp_id := id; yp_time := time; yp_scenario := scenario |}.
(** model/parsing.py:35-44 `InputVariable` *)
Definition read_variable (show : num -> string) (t : tree) : result in_variable :=
  d <- as_record ["id"; "time_dependent"; "scenario_dependent"; "lower_bound"; "upper_bound"; "variable_type"] t ;;
  id <- field d "id" (as_text_or_number show) None ;;
  time <- field d "time_dependent" as_bool (Some true) ;;
  scenario <- field d "scenario_dependent" as_bool (Some true) ;;
  lower <- field d "lower_bound" (as_optional (as_text_or_number show)) (Some None) ;;
  upper <- field d "upper_bound" (as_optional (as_text_or_number show)) (Some None) ;;
  type <- field d "variable_type" (as_text_or_number show) (Some "continuous") ;;
  Ok {| yv_id := id; yv_time := time; yv_scenario := scenario; yv_lower := lower; yv_upper := upper; yv_type := type |}.
(** model/parsing.py:47-51 `InputConstraint` *)
Definition read_constraint (t : tree) : result in_constraint :=
  d <- as_record ["id"; "expression"; "lower_bound"; "upper_bound"] t ;;
  id <- field d "id" as_text None ;;
  expression <- field d "expression" as_text None ;;
  lower <- field d "lower_bound" (as_optional as_text) (Some None) ;;
  upper <- field d "upper_bound" (as_optional as_text) (Some None) ;;
  Ok {| yc_id := id; yc_expression := expression; yc_lower := lower; yc_upper := upper |}.
(** model/parsing.py:54-55 `InputField` *)
Definition read_field (t : tree) : result string :=
  d <- as_record ["id"] t ;; field d "id" as_text None.
(** model/parsing.py:58-61 `InputPortType`; the description is read and dropped *)
Definition read_port_type (t : tree) : result in_port_type :=
  d <- as_record ["id"; "fields"; "description"] t ;;
  id <- field d "id" as_text None ;;
  fields <- field d "fields" (as_list read_field) (Some []) ;;
  _ <- field d "description" (as_optional as_text) (Some None) ;;
  Ok {| yt_id := id; yt_fields := fields |}.
(** model/parsing.py:64-66 `InputModelPort` *)
Definition read_model_port (t : tree) : result in_model_port :=
  d <- as_record ["id"; "type"] t ;;
  id <- field d "id" as_text None ;;
  type <- field d "type" as_text None ;;
  Ok {| yo_id := id; yo_type := type |}.
(** model/parsing.py:69-72 `InputPortFieldDefinition` *)
Definition read_definition (t : tree) : result in_definition :=
  d <- as_record ["port"; "field"; "definition"] t ;;
  port <- field d "port" as_text None ;;
  name <- field d "field" as_text None ;;
  definition <- field d "definition" as_text None ;;
  Ok {| yd_port := port; yd_field := name; yd_definition := definition |}.
(** model/parsing.py:75-84 `InputModel` *)
Definition read_model (show : num -> string) (t : tree) : result in_model :=
  d <- as_record ["id"; "parameters"; "variables"; "ports"; "port_field_definitions"; "binding_constraints"; "constraints"; "objective"; "description"] t ;;
  id <- field d "id" as_text None ;;
  parameters <- field d "parameters" (as_list read_parameter) (Some []) ;;
  variables <- field d "variables" (as_list (read_variable show)) (Some []) ;;
  ports <- field d "ports" (as_list read_model_port) (Some []) ;;
  definitions <- field d "port_field_definitions" (as_list read_definition) (Some []) ;;
  binding <- field d "binding_constraints" (as_list read_constraint) (Some []) ;;
  constraints <- field d "constraints" (as_list read_constraint) (Some []) ;;
  objective <- field d "objective" (as_optional as_text) (Some None) ;;
  _ <- field d "description" (as_optional as_text) (Some None) ;;
  Ok {| ym_id := id; ym_parameters := parameters; ym_variables := variables; ym_ports := ports; ym_definitions := definitions;
        ym_binding_constraints := binding; ym_constraints := constraints; ym_objective := objective |}.
(** model/parsing.py:87-92 `InputLibrary` *)
Definition read_library (show : num -> string) (t : tree) : result in_library :=
  d <- as_record ["id"; "dependencies"; "port_types"; "models"; "description"] t ;;
  id <- field d "id" as_text None ;;
  dependencies <- field d "dependencies" (as_list as_text) (Some []) ;;
  port_types <- field d "port_types" (as_list read_port_type) (Some []) ;;
  models <- field d "models" (as_list (read_model show)) (Some []) ;;
  _ <- field d "description" (as_optional as_text) (Some None) ;;
  Ok {| yl_id := id; yl_dependencies := dependencies; yl_port_types := port_types; yl_models := models |}.
(** `tree[key]`, model/parsing.py:24, study/parsing.py:28: other keys of the file are not looked at *)
Definition top (key : string) (t : tree) : result tree :=
  match t with
  | TDict d => match dget String.eqb key d with Some t => Ok t | None => Err KeyError end
  | _ => Err TypeError
  end.
(** model/parsing.py:21-26 `parse_yaml_library` *)
Definition parse_yaml_library (show : num -> string) (t : tree) : result in_library :=
  t <- top "library" t ;; read_library show t.

(** ** Systems *)
(** study/parsing.py:37-41 `InputPortConnections` *)
Definition read_connection (t : tree) : result input_connection :=
  d <- as_record ["component1"; "port1"; "component2"; "port2"] t ;;
  component1 <- field d "component1" as_text None ;;
  port1 <- field d "port1" as_text None ;;
  component2 <- field d "component2" as_text None ;;
  port2 <- field d "port2" as_text None ;;
  Ok {| icn_component1 := component1; icn_port1 := port1; icn_component2 := component2; icn_port2 := port2 |}.
(** study/parsing.py:44-49 `InputComponentParameter` *)
Definition read_component_parameter (t : tree) : result input_parameter :=
  d <- as_record ["id"; "time_dependent"; "scenario_dependent"; "value"; "scenario_group"] t ;;
  id <- field d "id" as_text None ;;
  time <- field d "time_dependent" as_bool (Some false) ;;
  scenario <- field d "scenario_dependent" as_bool (Some false) ;;
  value <- field d "value" as_value None ;;
  group <- field d "scenario_group" (as_optional as_text) (Some None) ;;
  Ok {| ip_id := id; ip_time := time; ip_scenario := scenario; ip_value := value; ip_group := group |}.
(** study/parsing.py:52-56 `InputComponent` *)
Definition read_component (t : tree) : result input_component :=
  d <- as_record ["id"; "model"; "scenario_group"; "parameters"] t ;;
  id <- field d "id" as_text None ;;
  model <- field d "model" as_text None ;;
  group <- field d "scenario_group" (as_optional as_text) (Some None) ;;
  parameters <- field d "parameters" (as_optional (as_list read_component_parameter)) (Some None) ;;
  Ok {| ic_id := id; ic_model := model; ic_group := group; ic_parameters := parameters |}.
(** study/parsing.py:59-63 `InputSystem`; the field model_libraries is read and dropped *)
Definition read_system (t : tree) : result input_system :=
  d <- as_record ["model_libraries"; "nodes"; "components"; "connections"] t ;;
  _ <- field d "model_libraries" (as_optional as_text) (Some None) ;;
  nodes <- field d "nodes" (as_list read_component) (Some []) ;;
  components <- field d "components" (as_list read_component) (Some []) ;;
  connections <- field d "connections" (as_list read_connection) (Some []) ;;
  Ok {| is_nodes := nodes; is_components := components; is_connections := connections |}.
(** study/parsing.py:26-28 `parse_yaml_components`; pydantic's ValidationError is a ValueError *)
Definition parse_yaml_components (t : tree) : result input_system :=
  t <- top "system" t ;; read_system t.

(** ** Writing *)
(** the arguments of `InputComponentParameter(...)`, study/parsing.py:44-49; None stands for an argument left out *)
Record parameter_args := {
  pa_id : string; pa_time : option bool; pa_scenario : option bool; pa_value : num + string; pa_group : option (option string) }.
(** the arguments of `InputComponent(...)`, study/parsing.py:52-56 *)
Record component_args := {
  ca_id : string; ca_model : string; ca_group : option (option string); ca_parameters : option (option (list parameter_args)) }.
(** the arguments of `InputSystem(...)`, study/parsing.py:59-63 *)
Record system_args := {
  sa_libraries : option (option string); sa_nodes : option (list component_args); sa_components : option (list component_args);
  sa_connections : option (list input_connection) }.
(** an argument or the default of the field, e.g. study/parsing.py:46 *)
Definition or_default {A} (default : A) (o : option A) : A := match o with Some a => a | None => default end.
(** study/parsing.py:44-49 *)
Definition new_parameter (a : parameter_args) : input_parameter := {|
  ip_id := pa_id a; ip_time := or_default false (pa_time a); ip_scenario := or_default false (pa_scenario a); ip_value := pa_value a;
  ip_group := or_default None (pa_group a) |}.
(** study/parsing.py:52-56 *)
Definition new_component (a : component_args) : input_component := {|
  ic_id := ca_id a; ic_model := ca_model a; ic_group := or_default None (ca_group a);
  ic_parameters := option_map (map new_parameter) (or_default None (ca_parameters a)) |}.
(** study/parsing.py:59-63 *)
Definition new_system (a : system_args) : input_system := {|
  is_nodes := map new_component (or_default [] (sa_nodes a)); is_components := map new_component (or_default [] (sa_components a));
  is_connections := or_default [] (sa_connections a) |}.

(** `model_dump(by_alias=True, exclude_unset=True)`, input_converter/src/utils.py:52: one field, under its alias, if it was given *)
Definition dump_field {A} (name : string) (f : A -> tree) (o : option A) : dict string tree :=
  match o with Some a => [(kebab name, f a)] | None => [] end.
(** a field that may be None, e.g. study/parsing.py:49 *)
Definition dump_optional {A} (f : A -> tree) (o : option A) : tree := match o with Some a => f a | None => TNull end.
(** the value of a parameter, study/parsing.py:48 *)
Definition dump_value (v : num + string) : tree := match v with inl v => TFloat v | inr s => TText s end.
(** input_converter/src/utils.py:52 on `InputComponentParameter` *)
Definition dump_parameter (a : parameter_args) : tree := TDict (
  dump_field "id" TText (Some (pa_id a)) ++ dump_field "time_dependent" TBool (pa_time a) ++
  dump_field "scenario_dependent" TBool (pa_scenario a) ++ dump_field "value" dump_value (Some (pa_value a)) ++
  dump_field "scenario_group" (dump_optional TText) (pa_group a)).
(** input_converter/src/utils.py:52 on `InputComponent` *)
Definition dump_component (a : component_args) : tree := TDict (
  dump_field "id" TText (Some (ca_id a)) ++ dump_field "model" TText (Some (ca_model a)) ++
  dump_field "scenario_group" (dump_optional TText) (ca_group a) ++
  dump_field "parameters" (dump_optional (fun l => TList (map dump_parameter l))) (ca_parameters a)).
(** input_converter/src/utils.py:52 on `InputPortConnections` *)
Definition dump_connection (k : input_connection) : tree := TDict [
  (kebab "component1", TText (icn_component1 k)); (kebab "port1", TText (icn_port1 k));
  (kebab "component2", TText (icn_component2 k)); (kebab "port2", TText (icn_port2 k))].
(** input_converter/src/utils.py:49-55 and pypsa_converter/utils.py:32-38 `transform_to_yaml`, on an `InputSystem` *)
Definition transform_to_yaml (a : system_args) : tree := TDict [("system", TDict (
  dump_field "model_libraries" (dump_optional TText) (sa_libraries a) ++
  dump_field "nodes" (fun l => TList (map dump_component l)) (sa_nodes a) ++
  dump_field "components" (fun l => TList (map dump_component l)) (sa_components a) ++
  dump_field "connections" (fun l => TList (map dump_connection l)) (sa_connections a)))].

(** ** The arguments that the converters give: all but the groups of scenarios and the libraries *)
(** e.g. converter.py:130-135, thermal.py:117-122, pypsa_converter.py:476-481, 531-543 *)
Definition converter_parameter (p : input_parameter) : parameter_args := {|
  pa_id := ip_id p; pa_time := Some (ip_time p); pa_scenario := Some (ip_scenario p); pa_value := ip_value p; pa_group := None |}.
(** e.g. converter.py:126-146, pypsa_converter.py:472-484, 527-547 *)
Definition converter_component (c : input_component) : component_args := {|
  ca_id := ic_id c; ca_model := ic_model c; ca_group := None;
  ca_parameters := Some (option_map (map converter_parameter) (ic_parameters c)) |}.
(** converter.py:703-707, pypsa_converter.py:424-426 *)
Definition converter_args (i : input_system) : system_args := {|
  sa_libraries := None; sa_nodes := Some (map converter_component (is_nodes i));
  sa_components := Some (map converter_component (is_components i)); sa_connections := Some (is_connections i) |}.
