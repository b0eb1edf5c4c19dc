(** Specification vocabulary for C93: leaving out constraints of the models. *)
From Verif Require Import Base Expr Model Study Strategy Optim SpecModel SpecOptim SpecPrecise SpecParts.

Section Drop.
  (** which constraints are kept: the id of the model and the constraint *)
  Context (keep : string -> constraint -> bool).
  Definition drop_model (m : model) : model := {|
    m_id := m_id m; m_constraints := filter (fun kc => keep (m_id m) (snd kc)) (m_constraints m);
    m_binding_constraints := filter (fun kc => keep (m_id m) (snd kc)) (m_binding_constraints m);
    m_inter_block_dyn := m_inter_block_dyn m; m_parameters := m_parameters m; m_variables := m_variables m;
    m_operational := m_operational m; m_investment := m_investment m; m_ports := m_ports m; m_port_definitions := m_port_definitions m |}.
  Definition drop_component (c : component) : component := {| co_model := drop_model (co_model c); co_id := co_id c |}.
  Definition drop_ref (r : port_ref) : port_ref := {| pr_component := drop_component (pr_component r); pr_port := pr_port r |}.
  Definition drop_connection (k : ports_connection) : ports_connection := {|
    pc_port1 := drop_ref (pc_port1 k); pc_port2 := drop_ref (pc_port2 k); pc_master := map (fun fr => (fst fr, drop_ref (snd fr))) (pc_master k) |}.
  (** the network in which all models have only the constraints kept *)
  Definition drop_network (n : network) : network := {|
    n_id := n_id n; n_nodes := map (fun ic => (fst ic, drop_component (snd ic))) (n_nodes n);
    n_components := map (fun ic => (fst ic, drop_component (snd ic))) (n_components n); n_connections := map drop_connection (n_connections n) |}.
  Definition dropping (o : settings) : settings := with_network o (drop_network (o_network o)).
  (** the decisions satisfy the constraints left out *)
  Definition dropped_hold (o : settings) (x : decisions) : Prop :=
    forall c k t s, In c (all_components (o_network o)) -> In k (get_constraints (o_selection o) (co_model c)) -> keep (m_id (co_model c)) k = false ->
    (0 <= t < Z.of_nat (List.length (o_block o)))%Z -> (0 <= s < o_scenarios o)%Z ->
    constraint_holds (component_world o x (co_id c)) (c_expr k) (c_lower k) (c_upper k) t s.
End Drop.
