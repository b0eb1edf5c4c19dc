(** Specification vocabulary for C95: whole-number variables that may take any value. *)
From Verif Require Import Base Expr Model Study Strategy Optim SpecLinear SpecModel SpecOptim SpecPrecise SpecParts.

Section Relax.
  (** which variables are relaxed: the id of the model and the name of the variable *)
  Context (free : string -> string -> bool).
  (** a relaxed INTEGER variable is CONTINUOUS (model/common.py, ValueType); all else is as it was *)
  Definition relax_variable (m : string) (v : variable) : variable := {|
    v_name := v_name v; v_type := match v_type v with INTEGER => if free m (v_name v) then CONTINUOUS else INTEGER | ty => ty end;
    v_lower := v_lower v; v_upper := v_upper v; v_structure := v_structure v; v_context := v_context v |}.
  Definition relax_model (m : model) : model := {|
    m_id := m_id m; m_constraints := m_constraints m; m_binding_constraints := m_binding_constraints m;
    m_inter_block_dyn := m_inter_block_dyn m; m_parameters := m_parameters m;
    m_variables := map (fun kv => (fst kv, relax_variable (m_id m) (snd kv))) (m_variables m);
    m_operational := m_operational m; m_investment := m_investment m; m_ports := m_ports m; m_port_definitions := m_port_definitions m |}.
  Definition relax_component (c : component) : component := {| co_model := relax_model (co_model c); co_id := co_id c |}.
  Definition relax_ref (r : port_ref) : port_ref := {| pr_component := relax_component (pr_component r); pr_port := pr_port r |}.
  Definition relax_connection (k : ports_connection) : ports_connection := {|
    pc_port1 := relax_ref (pc_port1 k); pc_port2 := relax_ref (pc_port2 k); pc_master := map (fun fr => (fst fr, relax_ref (snd fr))) (pc_master k) |}.
  (** the network in which the chosen variables of all models are relaxed *)
  Definition relax_network (n : network) : network := {|
    n_id := n_id n; n_nodes := map (fun ic => (fst ic, relax_component (snd ic))) (n_nodes n);
    n_components := map (fun ic => (fst ic, relax_component (snd ic))) (n_components n); n_connections := map relax_connection (n_connections n) |}.
  Definition relaxing (o : settings) : settings := with_network o (relax_network (o_network o)).
  (** the relaxed variables happen to have whole values *)
  Definition relaxed_whole (o : settings) (x : decisions) : Prop :=
    forall c v t s, instance_of o c v t s -> v_type v = INTEGER -> free (m_id (co_model c)) (v_name v) = true ->
    exists z, x (co_id c) (v_name v) (odefault 0%Z t) (odefault 0%Z s) = Z2Qc z.
End Relax.
