(** Networks and data (src/andromede/study/network.py, data.py).  Definitions only. *)
From Verif Require Import Base Expr Visitors Model.

(** study/network.py:27-58 `Component`, `Node` (a node is a component) *)
Record component := { co_model : model; co_id : string }.

(** study/network.py:60-63 `PortRef` *)
Record port_ref := { pr_component : component; pr_port : string }.

(** study/network.py:66-70 `PortsConnection`; [master_port] is keyed by the field name *)
Record ports_connection := {
  pc_port1 : port_ref;
  pc_port2 : port_ref;
  pc_master : dict string port_ref
}.

(** `==` generated for PortType, model/port.py:50-61 *)
Fixpoint strings_eqb (a b : list string) : bool :=
  match a, b with
  | [], [] => true
  | x :: a, y :: b => String.eqb x y && strings_eqb a b
  | _, _ => false
  end.
(** `==` generated for PortType, model/port.py:50-61 *)
Definition port_type_eqb (a b : port_type) : bool :=
  String.eqb (pt_id a) (pt_id b) && strings_eqb (pt_fields a) (pt_fields b).

(** study/network.py:88-108: the definers of each field *)
Fixpoint masters (m1 m2 : model) (name1 name2 : string) (r1 r2 : port_ref) (fields : list string)
  (acc : dict string port_ref) : result (dict string port_ref) :=
  match fields with
  | [] => Ok acc
  | f :: fields =>
      let def1 := dmem pfi_eqb (name1, f) (m_port_definitions m1) in
      let def2 := dmem pfi_eqb (name2, f) (m_port_definitions m2) in
      if negb def1 && negb def2 then Err ValueError
      else if def1 && def2 then Err ValueError
      else masters m1 m2 name1 name2 r1 r2 fields (dset String.eqb f (if def1 then r1 else r2) acc)
  end.

(** study/network.py:72-108 `PortsConnection.__post_init__`, `__validate_ports` *)
Definition mk_connection (r1 r2 : port_ref) : result ports_connection :=
  let m1 := co_model (pr_component r1) in
  let m2 := co_model (pr_component r2) in
  match dget String.eqb (pr_port r1) (m_ports m1), dget String.eqb (pr_port r2) (m_ports m2) with
  | Some p1, Some p2 =>
      if negb (port_type_eqb (mp_type p1) (mp_type p2)) then Err ValueError
      else
        ms <- masters m1 m2 (mp_name p1) (mp_name p2) r1 r2 (pt_fields (mp_type p1)) [] ;;
        Ok {| pc_port1 := r1; pc_port2 := r2; pc_master := ms |}
  | _, _ => Err ValueError
  end.

(** study/network.py:122-131 `Network` *)
Record network := {
  n_id : string;
  n_nodes : dict string component;
  n_components : dict string component;
  n_connections : list ports_connection
}.

(** study/network.py:137-139 `add_component` *)
Definition add_component (c : component) (n : network) : network := {|
  n_id := n_id n; n_nodes := n_nodes n;
  n_components := dset String.eqb (co_id c) c (n_components n);
  n_connections := n_connections n |}.
(** study/network.py:152-153 `add_node` *)
Definition add_node (c : component) (n : network) : network := {|
  n_id := n_id n; n_nodes := dset String.eqb (co_id c) c (n_nodes n);
  n_components := n_components n; n_connections := n_connections n |}.
(** study/network.py:141-146 `get_component` *)
Definition get_component (n : network) (id : string) : result component :=
  match dget String.eqb id (n_components n) with
  | Some c => Ok c
  | None => match dget String.eqb id (n_nodes n) with Some c => Ok c | None => Err KeyError end
  end.
(** study/network.py:162-167 `all_components`: nodes, then components *)
Definition all_components (n : network) : list component :=
  map snd (n_nodes n) ++ map snd (n_components n).
(** study/network.py:169-171 `connect` *)
Definition connect (r1 r2 : port_ref) (n : network) : result network :=
  c <- mk_connection r1 r2 ;;
  Ok {| n_id := n_id n; n_nodes := n_nodes n; n_components := n_components n;
        n_connections := n_connections n ++ [c] |}.
(** a new network, study/network.py:122-131 *)
Definition new_network (id : string) : network :=
  {| n_id := id; n_nodes := []; n_components := []; n_connections := [] |}.

(** study/network.py:117-119, 183-195 `Network.replicate`: `replace` starts from empty dicts (the fields
    are init=False), then everything is added again; each connection is validated again *)
Definition replicate_connection (c : ports_connection) : result ports_connection :=
  mk_connection (pc_port1 c) (pc_port2 c).
(** study/network.py:183-195 `Network.replicate` *)
Definition replicate (n : network) (id : string) : result network :=
  cs <- mapM replicate_connection (n_connections n) ;;
  let with_nodes := fold_left (fun r kc => add_node (snd kc) r) (n_nodes n) (new_network id) in
  let with_components := fold_left (fun r kc => add_component (snd kc) r) (n_components n) with_nodes in
  Ok {| n_id := n_id with_components; n_nodes := n_nodes with_components;
        n_components := n_components with_components; n_connections := cs |}.

(** ** Data *)

(** study/data.py:38-48 `Scenarization` *)
Definition scenarization : Type := dict Z Z.
(** study/data.py:42-43 `get_scenario_for_year` *)
Definition get_scenario_for_year (s : scenarization) (y : Z) : result Z :=
  match dget Z.eqb y s with Some c => Ok c | None => Err KeyError end.
(** study/data.py:45-48 `add_year` *)
Definition add_year (y c : Z) (s : scenarization) : result scenarization :=
  if dmem Z.eqb y s then Err ValueError else Ok (s ++ [(y, c)]).

(** study/data.py:51-221: data structures; a DataFrame is its list of rows *)
Inductive data :=
| ConstantData (v : num)
| TimeSeriesData (series : dict Z num)
| ScenarioSeriesData (series : dict Z num) (sc : option scenarization)
| TimeScenarioSeriesData (rows : list (list num)) (sc : option scenarization)
| TreeData (children : list (string * data)).

(** study/data.py:198: pandas `iloc[i]` on a sequence: negative positions count from the end *)
Definition iloc {A} (l : list A) (i : Z) : result A :=
  let n := Z.of_nat (List.length l) in
  let j := if (i <? 0)%Z then (i + n)%Z else i in
  if (0 <=? j)%Z && (j <? n)%Z
  then match nth_error l (Z.to_nat j) with Some a => Ok a | None => Err IndexError end
  else Err IndexError.

(** study/data.py:124-125, 196-197: scenario seen through the scenarisation *)
Definition data_scenario (sc : option scenarization) (s : Z) : result Z :=
  match sc with Some m => get_scenario_for_year m s | None => Ok s end.

(** study/data.py:72-75, 94-99, 119-126, 189-199, 212-215 `get_value` *)
Fixpoint get_value (d : data) (timestep scenario : option Z) (node : string) : result num :=
  match d with
  | ConstantData v => Ok v
  | TimeSeriesData m =>
      match timestep with
      | None => Err KeyError
      | Some t => match dget Z.eqb t m with Some v => Ok v | None => Err KeyError end
      end
  | ScenarioSeriesData m sc =>
      match scenario with
      | None => Err KeyError
      | Some s =>
          c <- data_scenario sc s ;;
          match dget Z.eqb c m with Some v => Ok v | None => Err KeyError end
      end
  | TimeScenarioSeriesData rows sc =>
      match timestep, scenario with
      | None, _ => Err KeyError
      | Some _, None => Err KeyError
      | Some t, Some s => c <- data_scenario sc s ;; row <- iloc rows t ;; iloc row c
      end
  | TreeData children =>
      (fix find (l : list (string * data)) : result num :=
         match l with
         | [] => Err KeyError
         | (k, d) :: l => if String.eqb node k then get_value d timestep scenario EmptyString else find l
         end) children
  end.

(** study/data.py:78-81, 101-105, 128-132, 201-205, 217-221 `check_requirement` *)
Fixpoint check_requirement (d : data) (time scenario : bool) : bool :=
  match d with
  | ConstantData _ => true
  | TimeSeriesData _ => time
  | ScenarioSeriesData _ _ => scenario
  | TimeScenarioSeriesData _ _ => time && scenario
  | TreeData children => forallb (fun kd => check_requirement (snd kd) time scenario) children
  end.

(** study/data.py:150-175: data frames to series, [rows] the frame (an empty frame is taken to have
    one column) *)
Definition dataframe_to_time_series (rows : list (list num)) : result (dict Z num) :=
  vs <- mapM (fun r => match r with [v] => Ok v | _ => Err ValueError end) rows ;;
  Ok (combine (zrange 0 (Z.of_nat (List.length vs))) vs).
(** study/data.py:162-175 `dataframe_to_scenario_series` *)
Definition dataframe_to_scenario_series (rows : list (list num)) : result (dict Z num) :=
  match rows with
  | [r] => Ok (combine (zrange 0 (Z.of_nat (List.length r))) r)
  | _ => Err ValueError
  end.

(** study/data.py:224-249 `DataBase`, keyed by (component id, parameter name) *)
Definition database : Type := dict (string * string) data.
(** study/data.py:243-244 `get_data` *)
Definition get_data (db : database) (c n : string) : result data :=
  match dget pfi_eqb (c, n) db with Some d => Ok d | None => Err KeyError end.
(** study/data.py:246-249 `add_data` *)
Definition add_data (c n : string) (d : data) (db : database) : database := dset pfi_eqb (c, n) d db.
(** study/data.py:251-257 `DataBase.get_value` *)
Definition db_get_value (db : database) (c n : string) (t s : Z) : result num :=
  match dget pfi_eqb (c, n) db with
  | Some d => get_value d (Some t) (Some s) EmptyString
  | None => Err KeyError
  end.

(** study/data.py:259-270 `requirements_consistency`; only [network.components] is visited *)
Definition check_component_data (db : database) (c : component) : result unit :=
  _ <- mapM (fun kp =>
         let p := snd kp in
         d <- get_data db (co_id c) (p_name p) ;;
         match dget String.eqb (p_name p) (m_parameters (co_model c)) with
         | None => Err KeyError
         | Some q => if check_requirement d (ix_time (p_structure q)) (ix_scenario (p_structure q))
                     then Ok tt else Err ValueError
         end) (m_parameters (co_model c)) ;;
  Ok tt.
(** study/data.py:259-270 `requirements_consistency` *)
Definition requirements_consistency (db : database) (n : network) : result unit :=
  _ <- mapM (fun kc => check_component_data db (snd kc)) (n_components n) ;; Ok tt.
