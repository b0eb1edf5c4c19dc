(** Models: parameters, variables, constraints, ports (src/andromede/model).  Definitions only. *)
From Verif Require Import Base Expr Visitors.

(** model/common.py:19-28 *)
Inductive value_type := CONTINUOUS | INTEGER | BOOLEAN.
(** model/common.py:25-28 `ProblemContext` *)
Inductive problem_context := OPERATIONAL | INVESTMENT | COUPLING.

(** model/parameter.py:20-30 `Parameter` *)
Record parameter := { p_name : string; p_type : value_type; p_structure : indexing }.

(** model/variable.py:23-34 `Variable` *)
Record variable := {
  v_name : string;
  v_type : value_type;
  v_lower : option expr;
  v_upper : option expr;
  v_structure : indexing;
  v_context : problem_context
}.

(** model/variable.py:37-40: `if bound and not is_constant(bound): raise ValueError`; expression
    nodes are truthy *)
Definition check_variable_bound (b : option expr) : result unit :=
  match b with
  | None => Ok tt
  | Some e => c <- is_constant e ;; if c then Ok tt else Err ValueError
  end.
(** model/variable.py:36-40 `Variable.__post_init__` *)
Definition mk_variable (n : string) (ty : value_type) (lb ub : option expr) (st : indexing)
  (ctx : problem_context) : result variable :=
  _ <- check_variable_bound lb ;;
  _ <- check_variable_bound ub ;;
  Ok {| v_name := n; v_type := ty; v_lower := lb; v_upper := ub; v_structure := st; v_context := ctx |}.
(** model/variable.py:57-86 `int_variable`, `bool_var`, `float_variable` *)
Definition int_variable n lb ub st ctx := mk_variable n INTEGER lb ub st ctx.
(** model/variable.py:69-74 `bool_var` *)
Definition bool_var n st ctx := mk_variable n BOOLEAN (Some (Lit n0)) (Some (Lit n1)) st ctx.
(** model/variable.py:77-86 `float_variable` *)
Definition float_variable n lb ub st ctx := mk_variable n CONTINUOUS lb ub st ctx.

(** model/constraint.py:33-45 `Constraint` *)
Record constraint := {
  c_name : string;
  c_expr : expr;
  c_lower : expr;
  c_upper : expr;
  c_context : problem_context
}.

(** model/constraint.py:43-44: default bounds *)
Definition minus_infinity : expr := Lit NInf.
(** model/constraint.py:44: the default upper bound *)
Definition plus_infinity : expr := Lit PInf.

(** model/constraint.py:47-81 `Constraint.__post_init__` *)
Definition mk_constraint (n : string) (e lb ub : expr) (ctx : problem_context) : result constraint :=
  match e with
  | Cmp l r c =>
      if negb (is_unbounded lb) || negb (is_unbounded ub) then Err ValueError
      else
        let (lb', ub') := match c with
                          | LESS_THAN => (minus_infinity, Lit n0)
                          | GREATER_THAN => (Lit n0, plus_infinity)
                          | EQUAL => (Lit n0, Lit n0)
                          end in
        Ok {| c_name := n; c_expr := py_sub l r; c_lower := lb'; c_upper := ub'; c_context := ctx |}
  | _ =>
      kl <- is_constant lb ;;
      if negb kl then Err ValueError else
      ku <- is_constant ub ;;
      if negb ku then Err ValueError else
      if is_unbounded lb && is_non_negative lb then Err ValueError else
      if is_unbounded ub && negb (is_non_negative ub) then Err ValueError else
      Ok {| c_name := n; c_expr := e; c_lower := lb; c_upper := ub; c_context := ctx |}
  end.

(** model/port.py:45-61 `PortField` (its name), `PortType` *)
Record port_type := { pt_id : string; pt_fields : list string }.
(** model/model.py:75-85 `ModelPort` *)
Record model_port := { mp_type : port_type; mp_name : string }.
(** model/port.py:64-67 `PortFieldId` = (port name, field name) *)
Definition port_field_id : Type := (string * string)%type.
(** `==` on PortFieldId, model/port.py:64-67 *)
Definition pfi_eqb (a b : port_field_id) : bool :=
  String.eqb (fst a) (fst b) && String.eqb (snd a) (snd b).

(** model/port.py:73-80 `PortFieldDefinition` *)
Record port_field_def := { d_field : port_field_id; d_definition : expr }.

(** model/port.py:95-169 `_PortFieldExpressionChecker`: shift, timestep and bound arguments are
    not visited *)
Fixpoint check_port_expression (e : expr) : result unit :=
  match e with
  | Lit _ | Var _ | Param _ => Ok tt
  | Neg a | TShift a _ | TEval a _ | TSum a _ _ | AllSum a | ScenOp a _ => check_port_expression a
  | Add l => _ <- mapM check_port_expression l ;; Ok tt
  | Mul a b | Div a b => _ <- check_port_expression a ;; check_port_expression b
  | Cmp _ _ _ | CParam _ _ | CVar _ _ | PParam _ _ _ _ | PVar _ _ _ _ | PortField _ _ | PortAgg _ _ =>
      Err ValueError
  end.
(** model/port.py:82-83, 89-92, 172-173 `port_field_def` *)
Definition mk_port_field_def (port field : string) (definition : expr) : result port_field_def :=
  _ <- check_port_expression definition ;;
  Ok {| d_field := (port, field); d_definition := definition |}.

(** model/model.py:91-109 `Model` *)
Record model := {
  m_id : string;
  m_constraints : dict string constraint;
  m_binding_constraints : dict string constraint;
  m_inter_block_dyn : bool;
  m_parameters : dict string parameter;
  m_variables : dict string variable;
  m_operational : option expr;
  m_investment : option expr;
  m_ports : dict string model_port;
  m_port_definitions : dict port_field_id port_field_def
}.

(** model/model.py:33-55 `_make_structure_provider` *)
(** a lookup of model/model.py:36, 39 *)
Definition dict_structure {A} (f : A -> indexing) (d : dict string A) (n : string) : result indexing :=
  match dget String.eqb n d with Some a => Ok (f a) | None => Err KeyError end.
(** model/model.py:33-55 `_make_structure_provider` *)
Definition model_structure_provider (parameters : dict string parameter)
  (variables : dict string variable) : structure_provider := {|
  get_parameter_structure := dict_structure p_structure parameters;
  get_variable_structure := dict_structure v_structure variables;
  get_component_variable_structure := fun _ _ => Err NotImplementedErr;
  get_component_parameter_structure := fun _ _ => Err NotImplementedErr
|}.

(** model/model.py:58-72 `_is_objective_contribution_valid` (returns True or raises) *)
Definition check_objective (parameters : dict string parameter) (variables : dict string variable)
  (o : option expr) : result unit :=
  match o with
  | None => Ok tt
  | Some e =>
      lin <- is_linear e ;;
      if negb lin then Err ValueError else
      ix <- compute_indexation (model_structure_provider parameters variables) e ;;
      if ix_time ix || ix_scenario ix then Err ValueError else Ok tt
  end.

(** model/model.py:122-131: the port field definitions refer to existing fields *)
Definition check_definition (ports : dict string model_port) (d : port_field_def) : result unit :=
  match dget String.eqb (fst (d_field d)) ports with
  | None => Err ValueError
  | Some p => if existsb (String.eqb (snd (d_field d))) (pt_fields (mp_type p)) then Ok tt
              else Err ValueError
  end.

(** model/model.py:111-131 `Model.__post_init__` *)
Definition check_model (m : model) : result model :=
  _ <- check_objective (m_parameters m) (m_variables m) (m_operational m) ;;
  _ <- check_objective (m_parameters m) (m_variables m) (m_investment m) ;;
  _ <- mapM (fun kd => check_definition (m_ports m) (snd kd)) (m_port_definitions m) ;;
  Ok m.

(** model/model.py:173-184: `{key(x): x for x in l}` *)
Definition dict_of {K A} (eqb : K -> K -> bool) (key : A -> K) (l : list A) : dict K A :=
  fold_left (fun d a => dset eqb (key a) a d) l [].

(** model/model.py:161-170: two ports with the same name are refused *)
Fixpoint unique_ports (seen : dict string model_port) (l : list model_port)
  : result (dict string model_port) :=
  match l with
  | [] => Ok seen
  | p :: l => if dmem String.eqb (mp_name p) seen then Err ValueError
              else unique_ports (seen ++ [(mp_name p, p)]) l
  end.

(** model/model.py:146-186 `model()`; an absent list is the empty list *)
Definition make_model (id : string) (constraints binding_constraints : list constraint)
  (parameters : list parameter) (variables : list variable)
  (operational investment : option expr) (inter_block_dyn : bool)
  (ports : list model_port) (definitions : list port_field_def) : result model :=
  ps <- unique_ports [] ports ;;
  check_model {|
    m_id := id;
    m_constraints := dict_of String.eqb c_name constraints;
    m_binding_constraints := dict_of String.eqb c_name binding_constraints;
    m_inter_block_dyn := inter_block_dyn;
    m_parameters := dict_of String.eqb p_name parameters;
    m_variables := dict_of String.eqb v_name variables;
    m_operational := operational;
    m_investment := investment;
    m_ports := ps;
    m_port_definitions := dict_of pfi_eqb d_field definitions
  |}.

(** model/model.py:133-139 `get_all_constraints` *)
Definition get_all_constraints (m : model) : list constraint :=
  map snd (m_binding_constraints m) ++ map snd (m_constraints m).
