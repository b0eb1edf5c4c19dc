(** Specification: copies with changes, and objects kept by name. *)
From Verif Require Import Base Expr Model Replicate.

(** the value of a field of a copy: the one given, or else the one of the object copied *)
Definition takes {A} (given : option A) (old new : A) : Prop :=
  match given with Some a => new = a | None => new = old end.

(** no keyword at all *)
Definition same_parameter : parameter_changes := {| pc_name := None; pc_type := None; pc_structure := None |}.
Definition same_variable : variable_changes :=
  {| vc_name := None; vc_type := None; vc_lower := None; vc_upper := None; vc_structure := None; vc_context := None |}.
Definition same_constraint : constraint_changes :=
  {| cc_name := None; cc_expr := None; cc_lower := None; cc_upper := None; cc_context := None |}.
Definition same_model : model_changes :=
  {| mc_id := None; mc_constraints := None; mc_binding_constraints := None; mc_inter_block_dyn := None; mc_parameters := None;
     mc_variables := None; mc_operational := None; mc_investment := None; mc_ports := None; mc_port_definitions := None |}.

Definition copied_variable (v : variable) (c : variable_changes) (v' : variable) : Prop :=
  takes (vc_name c) (v_name v) (v_name v') /\ takes (vc_type c) (v_type v) (v_type v') /\
  takes (vc_lower c) (v_lower v) (v_lower v') /\ takes (vc_upper c) (v_upper v) (v_upper v') /\
  takes (vc_structure c) (v_structure v) (v_structure v') /\ takes (vc_context c) (v_context v) (v_context v').
Definition copied_constraint (k : constraint) (c : constraint_changes) (k' : constraint) : Prop :=
  takes (cc_name c) (c_name k) (c_name k') /\ takes (cc_expr c) (c_expr k) (c_expr k') /\
  takes (cc_lower c) (c_lower k) (c_lower k') /\ takes (cc_upper c) (c_upper k) (c_upper k') /\
  takes (cc_context c) (c_context k) (c_context k').
Definition copied_model (o : model_object) (c : model_changes) (o' : model_object) : Prop :=
  takes (mc_id c) (o_id o) (o_id o') /\ takes (mc_constraints c) (o_constraints o) (o_constraints o') /\
  takes (mc_binding_constraints c) (o_binding_constraints o) (o_binding_constraints o') /\
  takes (mc_inter_block_dyn c) (o_inter_block_dyn o) (o_inter_block_dyn o') /\
  takes (mc_parameters c) (o_parameters o) (o_parameters o') /\ takes (mc_variables c) (o_variables o) (o_variables o') /\
  takes (mc_operational c) (o_operational o) (o_operational o') /\ takes (mc_investment c) (o_investment o) (o_investment o') /\
  takes (mc_ports c) (o_ports o) (o_ports o') /\ takes (mc_port_definitions c) (o_port_definitions o) (o_port_definitions o').

(** [a] is the last object of the list with the name [n] *)
Definition last_named {N A} (name : A -> N) (l : list A) (n : N) (a : A) : Prop :=
  exists before after, l = before ++ a :: after /\ name a = n /\ forall b, In b after -> name b <> n.
(** what is kept under each name, and once: the last object with it *)
Definition kept_by_name {N A} (name : A -> N) (l : list A) (d : dict N A) : Prop :=
  NoDup (map fst d) /\ forall n a, In (n, a) d <-> last_named name l n a.
