(** Problem and risk strategies (src/andromede/simulation/strategy.py).  Definitions only. *)
From Verif Require Import Base Expr Visitors Model.

(** strategy.py:50, 61, 73: the three classes deriving from `ModelSelectionStrategy` *)
Inductive selection := MergedProblem | InvestmentProblem | OperationalProblem.

(** `==` on the enum ProblemContext, strategy.py:64, 76 *)
Definition context_eqb (a b : problem_context) : bool :=
  match a, b with
  | OPERATIONAL, OPERATIONAL | INVESTMENT, INVESTMENT | COUPLING, COUPLING => true
  | _, _ => false
  end.

(** strategy.py:51-52, 62-65, 74-77 `_keep_from_context` *)
Definition keep_from_context (s : selection) (c : problem_context) : bool :=
  match s with
  | MergedProblem => true
  | InvestmentProblem => context_eqb c INVESTMENT || context_eqb c COUPLING
  | OperationalProblem => context_eqb c OPERATIONAL || context_eqb c COUPLING
  end.

(** strategy.py:29-32 *)
Definition get_variables (s : selection) (m : model) : list variable :=
  filter (fun v => keep_from_context s (v_context v)) (map snd (m_variables m)).
(** strategy.py:34-37 *)
Definition get_constraints (s : selection) (m : model) : list constraint :=
  filter (fun c => keep_from_context s (c_context c)) (get_all_constraints m).
(** strategy.py:54-58, 67-70, 79-82 *)
Definition get_objectives (s : selection) (m : model) : list (option expr) :=
  match s with
  | MergedProblem => [m_operational m; m_investment m]
  | InvestmentProblem => [m_investment m]
  | OperationalProblem => [m_operational m]
  end.

(** strategy.py:103, 108: the classes deriving from `RiskManagementStrategy` *)
Inductive risk := UniformRisk | ExpectedValue (prob : num).
(** strategy.py:104-105, 112-113 `_modify_expression` *)
Definition modify_expression (r : risk) (e : expr) : expr :=
  match r with
  | UniformRisk => e
  | ExpectedValue p => py_mul (Lit p) e
  end.
