(** Specification vocabulary for C97: keeping only some of the objectives of the models. *)
From Verif Require Import Base Expr Model Study Strategy Optim SpecModel SpecOptim SpecPrecise SpecParts.

Section Share.
  (** which objectives are kept: the id of the model, and whether it is the operational objective or that of investments *)
  Context (keep : string -> bool -> bool).
  Definition share_model (m : model) : model := {|
    m_id := m_id m; m_constraints := m_constraints m; m_binding_constraints := m_binding_constraints m;
    m_inter_block_dyn := m_inter_block_dyn m; m_parameters := m_parameters m; m_variables := m_variables m;
    m_operational := if keep (m_id m) true then m_operational m else None;
    m_investment := if keep (m_id m) false then m_investment m else None; m_ports := m_ports m; m_port_definitions := m_port_definitions m |}.
  Definition share_component (c : component) : component := {| co_model := share_model (co_model c); co_id := co_id c |}.
  Definition share_ref (r : port_ref) : port_ref := {| pr_component := share_component (pr_component r); pr_port := pr_port r |}.
  Definition share_connection (k : ports_connection) : ports_connection := {|
    pc_port1 := share_ref (pc_port1 k); pc_port2 := share_ref (pc_port2 k); pc_master := map (fun fr => (fst fr, share_ref (snd fr))) (pc_master k) |}.
  (** the network in which all models have only the objectives kept *)
  Definition share_network (n : network) : network := {|
    n_id := n_id n; n_nodes := map (fun ic => (fst ic, share_component (snd ic))) (n_nodes n);
    n_components := map (fun ic => (fst ic, share_component (snd ic))) (n_components n); n_connections := map share_connection (n_connections n) |}.
  Definition sharing (o : settings) : settings := with_network o (share_network (o_network o)).
End Share.
(** the other objectives *)
Definition others (keep : string -> bool -> bool) : string -> bool -> bool := fun m operational => negb (keep m operational).
