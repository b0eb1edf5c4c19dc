(** `==` on models and components (the methods generated by @dataclass, and those of Constraint and Variable).
    Definitions only.  The shortcut of python's containers for identical objects is not modelled: it changes the answer
    only when a compared constraint or variable holds a literal NaN. *)
From Verif Require Import Base Expr Visitors Model Study.
Local Open Scope list_scope.

(** `and`, and the comparison of tuples behind @dataclass: the right side is evaluated only when the left is true;
    model/constraint.py:89-94, model/variable.py:48-54 *)
Definition also (a b : result bool) : result bool := x <- a ;; if x : bool then b else Ok false.

(** `==` on the enum ValueType, model/common.py:19-22 *)
Definition value_type_eqb (a b : value_type) : bool :=
  match a, b with
  | CONTINUOUS, CONTINUOUS | INTEGER, INTEGER | BOOLEAN, BOOLEAN => true
  | _, _ => false
  end.
(** `==` on IndexingStructure, expression/indexing_structure.py:16-23 *)
Definition structure_eqb (a b : indexing) : bool :=
  Bool.eqb (ix_time a) (ix_time b) && Bool.eqb (ix_scenario a) (ix_scenario b).
(** model/constraint.py:86-94 `Constraint.__eq__` *)
Definition constraint_eq (a b : constraint) : result bool :=
  also (Ok (String.eqb (c_name a) (c_name b)))
    (also (expressions_equal (c_expr a) (c_expr b) n0 n0)
       (also (expressions_equal_if_present (Some (c_lower a)) (Some (c_lower b)))
          (expressions_equal_if_present (Some (c_upper a)) (Some (c_upper b))))).
(** model/variable.py:45-54 `Variable.__eq__` *)
Definition variable_eq (a b : variable) : result bool :=
  also (Ok (String.eqb (v_name a) (v_name b)))
    (also (Ok (value_type_eqb (v_type a) (v_type b)))
       (also (expressions_equal_if_present (v_lower a) (v_lower b))
          (also (expressions_equal_if_present (v_upper a) (v_upper b))
             (Ok (structure_eqb (v_structure a) (v_structure b)))))).
(** `==` generated for Parameter, model/parameter.py:20-30 *)
Definition parameter_eq (a b : parameter) : result bool :=
  Ok (String.eqb (p_name a) (p_name b) && value_type_eqb (p_type a) (p_type b) && structure_eqb (p_structure a) (p_structure b)).
(** `==` generated for ModelPort, model/model.py:75-85 *)
Definition model_port_eq (a b : model_port) : result bool :=
  Ok (port_type_eqb (mp_type a) (mp_type b) && String.eqb (mp_name a) (mp_name b)).
(** `==` generated for PortFieldDefinition, model/port.py:73-80: `==` on two expression nodes (expression.py:95-96)
    builds a comparison node, which is truthy *)
Definition port_field_def_eq (a b : port_field_def) : result bool :=
  Ok (pfi_eqb (d_field a) (d_field b)).
(** `==` on optional expression nodes: a node compared to None raises TypeError (expression.py:127-132) *)
Definition optional_node_eq (a b : option expr) : result bool :=
  match a, b with
  | None, None => Ok true
  | Some _, Some _ => Ok true
  | _, _ => Err TypeError
  end.

(** python's `==` of two dicts (used at model/model.py:97-109) *)
Fixpoint entries_eq {K A} (eqb : K -> K -> bool) (eq : A -> A -> result bool) (a b : dict K A) : result bool :=
  match a with
  | [] => Ok true
  | (k, x) :: a => match dget eqb k b with
                   | None => Ok false
                   | Some y => also (eq x y) (entries_eq eqb eq a b)
                   end
  end.
(** the lengths are compared first; model/model.py:91-109 *)
Definition dict_eq {K A} (eqb : K -> K -> bool) (eq : A -> A -> result bool) (a b : dict K A) : result bool :=
  if Nat.eqb (List.length a) (List.length b) then entries_eq eqb eq a b else Ok false.

(** `==` generated for Model, model/model.py:91-109 *)
Definition model_eq (a b : model) : result bool :=
  also (Ok (String.eqb (m_id a) (m_id b)))
 (also (dict_eq String.eqb constraint_eq (m_constraints a) (m_constraints b))
 (also (dict_eq String.eqb constraint_eq (m_binding_constraints a) (m_binding_constraints b))
 (also (Ok (Bool.eqb (m_inter_block_dyn a) (m_inter_block_dyn b)))
 (also (dict_eq String.eqb parameter_eq (m_parameters a) (m_parameters b))
 (also (dict_eq String.eqb variable_eq (m_variables a) (m_variables b))
 (also (optional_node_eq (m_operational a) (m_operational b))
 (also (optional_node_eq (m_investment a) (m_investment b))
 (also (dict_eq String.eqb model_port_eq (m_ports a) (m_ports b))
       (dict_eq pfi_eqb port_field_def_eq (m_port_definitions a) (m_port_definitions b)))))))))).
(** `==` generated for Component, study/network.py:27-34, between two objects of the same class *)
Definition component_eqv (a b : component) : result bool :=
  also (model_eq (co_model a) (co_model b)) (Ok (String.eqb (co_id a) (co_id b))).
(** `component in list`; simulation/decision_tree.py:110, 115 *)
Fixpoint component_in (c : component) (l : list component) : result bool :=
  match l with
  | [] => Ok false
  | d :: l => x <- component_eqv d c ;; if x : bool then Ok true else component_in c l
  end.
