(** Specification of model equality (C54). *)
From Verif Require Import Base Expr Visitors Model Study SpecSyntax SpecOutput.

(** two dicts have the same keys and related values *)
Definition same_entries {K A} (eqb : K -> K -> bool) (R : A -> A -> Prop) (a b : dict K A) : Prop :=
  forall k, match dget eqb k a, dget eqb k b with
            | Some x, Some y => R x y
            | None, None => True
            | _, _ => False
            end.
(** the same expression, without literal NaN (which differs from itself) *)
Definition same_expr (a b : expr) : Prop := a = b /\ no_nan a.
Definition same_optional (a b : option expr) : Prop :=
  match a, b with Some a, Some b => same_expr a b | None, None => True | _, _ => False end.
(** the same up to the context *)
Definition same_constraint (a b : constraint) : Prop :=
  c_name a = c_name b /\ same_expr (c_expr a) (c_expr b) /\ same_expr (c_lower a) (c_lower b) /\ same_expr (c_upper a) (c_upper b).
Definition same_variable (a b : variable) : Prop :=
  v_name a = v_name b /\ v_type a = v_type b /\ same_optional (v_lower a) (v_lower b) /\
  same_optional (v_upper a) (v_upper b) /\ v_structure a = v_structure b.
(** both present or both absent *)
Definition same_presence {A} (a b : option A) : Prop := a = None <-> b = None.
(** everything but the contexts, the objectives' and the port definitions' contents *)
Definition same_but_contents (a b : model) : Prop :=
  m_id a = m_id b /\ m_inter_block_dyn a = m_inter_block_dyn b /\
  same_entries String.eqb same_constraint (m_constraints a) (m_constraints b) /\
  same_entries String.eqb same_constraint (m_binding_constraints a) (m_binding_constraints b) /\
  same_entries String.eqb Logic.eq (m_parameters a) (m_parameters b) /\
  same_entries String.eqb same_variable (m_variables a) (m_variables b) /\
  same_presence (m_operational a) (m_operational b) /\ same_presence (m_investment a) (m_investment b) /\
  same_entries String.eqb Logic.eq (m_ports a) (m_ports b) /\
  same_entries pfi_eqb (fun d e => d_field d = d_field e) (m_port_definitions a) (m_port_definitions b).
(** dicts have each key once *)
Definition proper_model (m : model) : Prop :=
  NoDup (map fst (m_constraints m)) /\ NoDup (map fst (m_binding_constraints m)) /\ NoDup (map fst (m_parameters m)) /\
  NoDup (map fst (m_variables m)) /\ NoDup (map fst (m_ports m)) /\ NoDup (map fst (m_port_definitions m)).
(** no literal NaN in constraints and bounds *)
Definition without_nan (m : model) : Prop :=
  (forall c, In c (map snd (m_constraints m)) -> no_nan (c_expr c) /\ no_nan (c_lower c) /\ no_nan (c_upper c)) /\
  (forall c, In c (map snd (m_binding_constraints m)) -> no_nan (c_expr c) /\ no_nan (c_lower c) /\ no_nan (c_upper c)) /\
  (forall v e, In v (map snd (m_variables m)) -> v_lower v = Some e \/ v_upper v = Some e -> no_nan e).
