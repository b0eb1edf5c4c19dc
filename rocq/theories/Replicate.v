(** Copies with changes of the parts of a model and of models (`replicate`, i.e. `dataclasses.replace`), and libraries
    built from objects (model/library.py).  Definitions only. *)
From Verif Require Import Base Expr Visitors Model Study.

(** dataclasses.replace, called by model/constraint.py:83-84, model/variable.py:42-43, model/parameter.py:32-33,
    model/port.py:69-70, 85-86 and model/model.py:87-88, 141-143: a field given as a keyword has the value given, any other
    that of the object.  Keywords that are no field (TypeError) are not modelled. *)
Definition changed {A} (change : option A) (current : A) : A :=
  match change with Some a => a | None => current end.

(** the keywords of model/parameter.py:32-33 *)
Record parameter_changes := { pc_name : option string; pc_type : option value_type; pc_structure : option indexing }.
(** model/parameter.py:32-33 `Parameter.replicate`; the class checks nothing *)
Definition replicate_parameter (p : parameter) (c : parameter_changes) : parameter :=
  {| p_name := changed (pc_name c) (p_name p); p_type := changed (pc_type c) (p_type p);
     p_structure := changed (pc_structure c) (p_structure p) |}.
(** model/parameter.py:36-40 `int_parameter` *)
Definition int_parameter (n : string) (st : indexing) : parameter :=
  {| p_name := n; p_type := INTEGER; p_structure := st |}.
(** model/parameter.py:43-47 `float_parameter` *)
Definition float_parameter (n : string) (st : indexing) : parameter :=
  {| p_name := n; p_type := CONTINUOUS; p_structure := st |}.

(** the keywords of model/variable.py:42-43; a bound may be changed to None *)
Record variable_changes := {
  vc_name : option string; vc_type : option value_type; vc_lower : option (option expr); vc_upper : option (option expr);
  vc_structure : option indexing; vc_context : option problem_context }.
(** model/variable.py:42-43 `Variable.replicate`: the copy is checked as a new variable *)
Definition replicate_variable (v : variable) (c : variable_changes) : result variable :=
  mk_variable (changed (vc_name c) (v_name v)) (changed (vc_type c) (v_type v)) (changed (vc_lower c) (v_lower v))
    (changed (vc_upper c) (v_upper v)) (changed (vc_structure c) (v_structure v)) (changed (vc_context c) (v_context v)).

(** the keywords of model/constraint.py:83-84 *)
Record constraint_changes := {
  cc_name : option string; cc_expr : option expr; cc_lower : option expr; cc_upper : option expr;
  cc_context : option problem_context }.
(** model/constraint.py:83-84 `Constraint.replicate`: the copy is made as a new constraint *)
Definition replicate_constraint (k : constraint) (c : constraint_changes) : result constraint :=
  mk_constraint (changed (cc_name c) (c_name k)) (changed (cc_expr c) (c_expr k)) (changed (cc_lower c) (c_lower k))
    (changed (cc_upper c) (c_upper k)) (changed (cc_context c) (c_context k)).

(** model/port.py:69-70 `PortFieldId.replicate` *)
Definition replicate_field_id (i : port_field_id) (port field : option string) : port_field_id :=
  (changed port (fst i), changed field (snd i)).
(** model/port.py:85-86 `PortFieldDefinition.replicate`: the copy is checked as a new definition *)
Definition replicate_definition (d : port_field_def) (field : option port_field_id) (definition : option expr)
  : result port_field_def :=
  let f := changed field (d_field d) in mk_port_field_def (fst f) (snd f) (changed definition (d_definition d)).
(** model/model.py:87-88 `ModelPort.replicate` *)
Definition replicate_port (p : model_port) (type : option port_type) (name : option string) : model_port :=
  {| mp_type := changed type (mp_type p); mp_name := changed name (mp_name p) |}.

(** A model as an object: its six dictionaries are held by reference.  model/model.py:91-109; the constraints and variables
    inside the dictionaries, which are references too, are taken by value *)
Record model_object := {
  o_id : string;
  o_constraints : nat;
  o_binding_constraints : nat;
  o_inter_block_dyn : bool;
  o_parameters : nat;
  o_variables : nat;
  o_operational : option expr;
  o_investment : option expr;
  o_ports : nat;
  o_port_definitions : nat
}.
(** the dictionaries of all models, by reference (model/model.py:99-109): one store for each type of dictionary; a reference
    that was never given out holds the empty dictionary *)
Record dictionaries := {
  h_constraints : nat -> dict string constraint;
  h_parameters : nat -> dict string parameter;
  h_variables : nat -> dict string variable;
  h_ports : nat -> dict string model_port;
  h_definitions : nat -> dict port_field_id port_field_def
}.
(** the contents of a model object, model/model.py:91-109 *)
Definition contents (h : dictionaries) (o : model_object) : model := {|
  m_id := o_id o;
  m_constraints := h_constraints h (o_constraints o);
  m_binding_constraints := h_constraints h (o_binding_constraints o);
  m_inter_block_dyn := o_inter_block_dyn o;
  m_parameters := h_parameters h (o_parameters o);
  m_variables := h_variables h (o_variables o);
  m_operational := o_operational o;
  m_investment := o_investment o;
  m_ports := h_ports h (o_ports o);
  m_port_definitions := h_definitions h (o_port_definitions o)
|}.
(** the keywords of model/model.py:141-143 *)
Record model_changes := {
  mc_id : option string; mc_constraints : option nat; mc_binding_constraints : option nat; mc_inter_block_dyn : option bool;
  mc_parameters : option nat; mc_variables : option nat; mc_operational : option (option expr);
  mc_investment : option (option expr); mc_ports : option nat; mc_port_definitions : option nat }.
(** model/model.py:141-143 `Model.replicate`: the copy holds the references of the model and is checked as a new model *)
Definition replicate_model (h : dictionaries) (o : model_object) (c : model_changes) : result model_object :=
  let o' := {|
    o_id := changed (mc_id c) (o_id o);
    o_constraints := changed (mc_constraints c) (o_constraints o);
    o_binding_constraints := changed (mc_binding_constraints c) (o_binding_constraints o);
    o_inter_block_dyn := changed (mc_inter_block_dyn c) (o_inter_block_dyn o);
    o_parameters := changed (mc_parameters c) (o_parameters o);
    o_variables := changed (mc_variables c) (o_variables o);
    o_operational := changed (mc_operational c) (o_operational o);
    o_investment := changed (mc_investment c) (o_investment o);
    o_ports := changed (mc_ports c) (o_ports o);
    o_port_definitions := changed (mc_port_definitions c) (o_port_definitions o) |} in
  _ <- check_model (contents h o') ;; Ok o'.

(** assignment `d[key] = value` to the dictionary of constraints at a reference; model/model.py:100-101 *)
Definition assign_constraint (h : dictionaries) (at_ : nat) (key : string) (k : constraint) : dictionaries := {|
  h_constraints := fun i => if Nat.eqb i at_ then dset String.eqb key k (h_constraints h i) else h_constraints h i;
  h_parameters := h_parameters h; h_variables := h_variables h; h_ports := h_ports h; h_definitions := h_definitions h |}.

(** model/library.py:18-22 `Library` of objects *)
Record object_library := { ol_id : string; ol_port_types : dict string port_type; ol_models : dict string model }.
(** model/library.py:25-34 `library()` *)
Definition library_of (id : string) (port_types : list port_type) (models : list model) : object_library :=
  {| ol_id := id; ol_port_types := dict_of String.eqb pt_id port_types; ol_models := dict_of String.eqb m_id models |}.
