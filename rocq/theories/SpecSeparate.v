(** Specification vocabulary for C87: problems whose scenarios share nothing. *)
From Verif Require Import Base Expr Visitors LinearExpr Model Study Strategy Optim SpecExpr SpecModel SpecOptim SpecPrecise.

(** costs are of limited precision *)
Definition precise_costs (o : settings) : Prop := forall ce, In ce (contributions o) -> precise_contribution o ce.
(** every variable depends on the scenario *)
Definition scenario_variables (o : settings) : Prop :=
  forall c v, In c (all_components (o_network o)) -> In v (map snd (m_variables (co_model c))) -> ix_scenario (v_structure v) = true.
