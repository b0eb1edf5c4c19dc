(** Specification vocabulary for C72 and C73: what the contents of a file say. *)
From Coq Require Import Ascii Permutation.
From Verif Require Import Base Expr Model Study Strategy Optim System Library Yaml.
Local Open Scope string_scope.
Local Open Scope list_scope.

(** ** Keys *)
(** the same word with hyphens *)
Definition hyphens (s : string) : string :=
  string_of_list_ascii (map (fun c => if Ascii.eqb c "_"%char then "-"%char else c) (list_ascii_of_string s)).
Definition keys (d : dict string tree) : list string := map fst d.
(** what a mapping gives for a field, in either spelling *)
Definition under (d : dict string tree) (name : string) (t : tree) : Prop :=
  dget String.eqb (hyphens name) d = Some t \/ dget String.eqb name d = Some t.
(** a mapping with no other keys than these fields, each of them in one spelling *)
Definition mapping (names : list string) (t : tree) (d : dict string tree) : Prop :=
  t = TDict d /\
  (forall k, In k (keys d) -> exists name, In name names /\ (k = name \/ k = hyphens name)) /\
  (forall name, In name names -> In name (keys d) -> In (hyphens name) (keys d) -> name = hyphens name).
(** a field that has to be given *)
Definition required (d : dict string tree) (name : string) (P : tree -> Prop) : Prop := exists t, under d name t /\ P t.
(** a field that may be left out *)
Definition optional (d : dict string tree) (name : string) (P : tree -> Prop) (left_out : Prop) : Prop :=
  required d name P \/ (~ In name (keys d) /\ ~ In (hyphens name) (keys d) /\ left_out).

(** ** Values *)
Definition text (t : tree) (s : string) : Prop := t = TText s.
Definition text_or_number (show : num -> string) (t : tree) (s : string) : Prop :=
  t = TText s \/ (exists z, t = TInt z /\ s = string_of_Z z) \/ (exists v, t = TFloat v /\ s = show v).
(** the same letters, whether in upper or lower case *)
Fixpoint any_case (s w : string) : Prop :=
  match s, w with
  | EmptyString, EmptyString => True
  | String a s, String b w => ((a = b /\ ~ (65 <= nat_of_ascii a <= 90)%nat) \/
      ((65 <= nat_of_ascii a <= 90)%nat /\ nat_of_ascii b = (nat_of_ascii a + 32)%nat)) /\ any_case s w
  | _, _ => False
  end.
Definition words (b : bool) : list string := if b then ["1"; "on"; "t"; "true"; "y"; "yes"] else ["0"; "off"; "f"; "false"; "n"; "no"].
Definition boolean (t : tree) (b : bool) : Prop :=
  t = TBool b \/ t = TInt (if b then 1 else 0) \/ t = TFloat (if b then n1 else n0) \/
  (exists s w, t = TText s /\ In w (words b) /\ any_case s w).
Definition value (t : tree) (v : num + string) : Prop :=
  (exists s, t = TText s /\ v = inr s) \/ (exists x, t = TFloat x /\ v = inl x) \/ (exists z, t = TInt z /\ v = inl (nz z)) \/
  (exists b : bool, t = TBool b /\ v = inl (nz (if b then 1 else 0))).
Definition nothing_or {A} (P : tree -> A -> Prop) (t : tree) (o : option A) : Prop :=
  (t = TNull /\ o = None) \/ (t <> TNull /\ exists a, o = Some a /\ P t a).
Definition sequence {A} (P : tree -> A -> Prop) (t : tree) (l : list A) : Prop := exists ts, t = TList ts /\ Forall2 P ts l.
(** a remark, which the program does not use *)
Definition remark (t : tree) : Prop := t = TNull \/ exists s, t = TText s.

(** ** Libraries *)
Definition parameter_says (t : tree) (p : in_parameter) : Prop := exists d,
  mapping ["id"; "time_dependent"; "scenario_dependent"] t d /\
  required d "id" (fun t => text t (yp_id p)) /\
  optional d "time_dependent" (fun t => boolean t (yp_time p)) (yp_time p = false) /\
  optional d "scenario_dependent" (fun t => boolean t (yp_scenario p)) (yp_scenario p = false).
Definition variable_says (show : num -> string) (t : tree) (v : in_variable) : Prop := exists d,
  mapping ["id"; "time_dependent"; "scenario_dependent"; "lower_bound"; "upper_bound"; "variable_type"] t d /\
  required d "id" (fun t => text_or_number show t (yv_id v)) /\
  optional d "time_dependent" (fun t => boolean t (yv_time v)) (yv_time v = true) /\
  optional d "scenario_dependent" (fun t => boolean t (yv_scenario v)) (yv_scenario v = true) /\
  optional d "lower_bound" (fun t => nothing_or (text_or_number show) t (yv_lower v)) (yv_lower v = None) /\
  optional d "upper_bound" (fun t => nothing_or (text_or_number show) t (yv_upper v)) (yv_upper v = None) /\
  optional d "variable_type" (fun t => text_or_number show t (yv_type v)) (yv_type v = "continuous").
Definition constraint_says (t : tree) (c : in_constraint) : Prop := exists d,
  mapping ["id"; "expression"; "lower_bound"; "upper_bound"] t d /\
  required d "id" (fun t => text t (yc_id c)) /\
  required d "expression" (fun t => text t (yc_expression c)) /\
  optional d "lower_bound" (fun t => nothing_or text t (yc_lower c)) (yc_lower c = None) /\
  optional d "upper_bound" (fun t => nothing_or text t (yc_upper c)) (yc_upper c = None).
Definition field_says (t : tree) (name : string) : Prop := exists d,
  mapping ["id"] t d /\ required d "id" (fun t => text t name).
Definition port_type_says (t : tree) (p : in_port_type) : Prop := exists d,
  mapping ["id"; "fields"; "description"] t d /\
  required d "id" (fun t => text t (yt_id p)) /\
  optional d "fields" (fun t => sequence field_says t (yt_fields p)) (yt_fields p = []) /\
  optional d "description" remark True.
Definition model_port_says (t : tree) (p : in_model_port) : Prop := exists d,
  mapping ["id"; "type"] t d /\ required d "id" (fun t => text t (yo_id p)) /\ required d "type" (fun t => text t (yo_type p)).
Definition definition_says (t : tree) (p : in_definition) : Prop := exists d,
  mapping ["port"; "field"; "definition"] t d /\ required d "port" (fun t => text t (yd_port p)) /\
  required d "field" (fun t => text t (yd_field p)) /\ required d "definition" (fun t => text t (yd_definition p)).
Definition model_says (show : num -> string) (t : tree) (m : in_model) : Prop := exists d,
  mapping ["id"; "parameters"; "variables"; "ports"; "port_field_definitions"; "binding_constraints"; "constraints"; "objective"; "description"] t d /\
  required d "id" (fun t => text t (ym_id m)) /\
  optional d "parameters" (fun t => sequence parameter_says t (ym_parameters m)) (ym_parameters m = []) /\
  optional d "variables" (fun t => sequence (variable_says show) t (ym_variables m)) (ym_variables m = []) /\
  optional d "ports" (fun t => sequence model_port_says t (ym_ports m)) (ym_ports m = []) /\
  optional d "port_field_definitions" (fun t => sequence definition_says t (ym_definitions m)) (ym_definitions m = []) /\
  optional d "binding_constraints" (fun t => sequence constraint_says t (ym_binding_constraints m)) (ym_binding_constraints m = []) /\
  optional d "constraints" (fun t => sequence constraint_says t (ym_constraints m)) (ym_constraints m = []) /\
  optional d "objective" (fun t => nothing_or text t (ym_objective m)) (ym_objective m = None) /\
  optional d "description" remark True.
Definition library_says (show : num -> string) (t : tree) (l : in_library) : Prop := exists d,
  mapping ["id"; "dependencies"; "port_types"; "models"; "description"] t d /\
  required d "id" (fun t => text t (yl_id l)) /\
  optional d "dependencies" (fun t => sequence text t (yl_dependencies l)) (yl_dependencies l = []) /\
  optional d "port_types" (fun t => sequence port_type_says t (yl_port_types l)) (yl_port_types l = []) /\
  optional d "models" (fun t => sequence (model_says show) t (yl_models l)) (yl_models l = []) /\
  optional d "description" remark True.
(** the contents of a library file *)
Definition library_file (show : num -> string) (t : tree) (l : in_library) : Prop :=
  exists d t', t = TDict d /\ dget String.eqb "library" d = Some t' /\ library_says show t' l.

(** ** Systems *)
Definition connection_says (t : tree) (k : input_connection) : Prop := exists d,
  mapping ["component1"; "port1"; "component2"; "port2"] t d /\
  required d "component1" (fun t => text t (icn_component1 k)) /\ required d "port1" (fun t => text t (icn_port1 k)) /\
  required d "component2" (fun t => text t (icn_component2 k)) /\ required d "port2" (fun t => text t (icn_port2 k)).
Definition component_parameter_says (t : tree) (p : input_parameter) : Prop := exists d,
  mapping ["id"; "time_dependent"; "scenario_dependent"; "value"; "scenario_group"] t d /\
  required d "id" (fun t => text t (ip_id p)) /\
  optional d "time_dependent" (fun t => boolean t (ip_time p)) (ip_time p = false) /\
  optional d "scenario_dependent" (fun t => boolean t (ip_scenario p)) (ip_scenario p = false) /\
  required d "value" (fun t => value t (ip_value p)) /\
  optional d "scenario_group" (fun t => nothing_or text t (ip_group p)) (ip_group p = None).
Definition component_says (t : tree) (c : input_component) : Prop := exists d,
  mapping ["id"; "model"; "scenario_group"; "parameters"] t d /\
  required d "id" (fun t => text t (ic_id c)) /\
  required d "model" (fun t => text t (ic_model c)) /\
  optional d "scenario_group" (fun t => nothing_or text t (ic_group c)) (ic_group c = None) /\
  optional d "parameters" (fun t => nothing_or (sequence component_parameter_says) t (ic_parameters c)) (ic_parameters c = None).
Definition system_says (t : tree) (i : input_system) : Prop := exists d,
  mapping ["model_libraries"; "nodes"; "components"; "connections"] t d /\
  optional d "model_libraries" remark True /\
  optional d "nodes" (fun t => sequence component_says t (is_nodes i)) (is_nodes i = []) /\
  optional d "components" (fun t => sequence component_says t (is_components i)) (is_components i = []) /\
  optional d "connections" (fun t => sequence connection_says t (is_connections i)) (is_connections i = []).
(** the contents of a system file *)
Definition system_file (t : tree) (i : input_system) : Prop :=
  exists d t', t = TDict d /\ dget String.eqb "system" d = Some t' /\ system_says t' i.

(** ** The same contents, the keys of the mappings in another order *)
Inductive same_tree : tree -> tree -> Prop :=
| st_same t : same_tree t t
| st_list l l' : Forall2 same_tree l l' -> same_tree (TList l) (TList l')
| st_dict d d1 d' : NoDup (keys d) -> Permutation d d1 -> Forall2 (fun a b => fst a = fst b /\ same_tree (snd a) (snd b)) d1 d' ->
    same_tree (TDict d) (TDict d').

(** ** Systems without groups of scenarios *)
Definition no_groups (i : input_system) : Prop :=
  forall c, In c (is_nodes i ++ is_components i) ->
    ic_group c = None /\ forall l p, ic_parameters c = Some l -> In p l -> ip_group p = None.
