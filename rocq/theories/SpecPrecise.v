(** Specification vocabulary for C81: numbers with a common denominator. *)
From Verif Require Import Base Expr LinearExpr Model Study Strategy Optim SpecExpr SpecLinear SpecModel SpecOptim SpecScenarios.

(** [q] is a whole number of [1 / D] *)
Definition multiple (D : Z) (q : Qc) : Prop := exists z, (q * Z2Qc D = Z2Qc z)%Qc.

(** all coefficients of an expression are whole numbers of [1 / D]: those of a sum are those of its operands, those of a
    product of wholes of [1 / D1] and of [1 / D2] are wholes of [1 / (D1 D2)]; divisors are written numbers or data;
    [own] and [data] say what holds of all values of the data, [ports] what is connected to the ports *)
Section Precise.
  Context (S : Z) (data : string -> string -> (Qc -> Prop) -> Prop) (own : string -> (Qc -> Prop) -> Prop)
    (ports : string -> string -> Z -> Prop).
  Definition divisor (D : Z) (e : expr) : Prop :=
    match e with
    | Lit v => exists q, v = Fin q /\ multiple D (/ q)%Qc
    | Param n => own n (fun q => multiple D (/ q)%Qc)
    | CParam c n | PParam c n _ _ => data c n (fun q => multiple D (/ q)%Qc)
    | _ => False
    end.
  Fixpoint precise (D : Z) (e : expr) : Prop :=
    match e with
    | Lit v => exists q, v = Fin q /\ multiple D q
    | Var _ | CVar _ _ | PVar _ _ _ _ => True
    | Param n => own n (multiple D)
    | CParam c n | PParam c n _ _ => data c n (multiple D)
    | Neg a | TShift a _ | TEval a _ | TSum a _ _ | AllSum a => precise D a
    | Add l => fold_right (fun a P => precise D a /\ P) True l
    | Mul a b => exists D1 D2, (1 <= D1)%Z /\ (1 <= D2)%Z /\ (D1 * D2 | D)%Z /\ precise D1 a /\ precise D2 b
    | Div a b => exists D1 D2, (1 <= D1)%Z /\ (1 <= D2)%Z /\ (D1 * D2 | D)%Z /\ precise D1 a /\ divisor D2 b
    | ScenOp a _ => exists D1, (1 <= D1)%Z /\ (D1 * S | D)%Z /\ precise D1 a
    | PortField p f | PortAgg (PortField p f) _ => ports p f D
    | PortAgg _ _ => False
    | Cmp _ _ _ => False
    end.
End Precise.

(** all data of parameter [n] of component [c] are such that [P] *)
Definition data_values (o : settings) (c n : string) (P : Qc -> Prop) : Prop := forall t s q, data_at o c n t s = Some q -> P q.
(** an expression of component [c], with what is connected to its ports *)
Definition precise_in (o : settings) (c : string) (D : Z) (e : expr) : Prop :=
  precise (o_scenarios o) (data_values o) (data_values o c)
    (fun p f D => forall d, In d (connected (o_network o) c p f) ->
       precise (o_scenarios o) (data_values o) (data_values o (fst d)) (fun _ _ _ => False) D (snd d)) D e.
(** the least number that is kept is [1e-16] *)
Definition in_range (D : Z) : Prop := (1 <= D <= 10 ^ 16)%Z.
(** constraint [k] of component [c] has coefficients of limited precision *)
Definition precise_constraint (o : settings) (c : component) (k : constraint) : Prop :=
  exists D, in_range D /\ precise_in o (co_id c) D (c_expr k).
(** an objective, times the probability of the node of the decision tree *)
Definition precise_contribution (o : settings) (ce : component * expr) : Prop :=
  exists D1 D2 p, (1 <= D1)%Z /\ (1 <= D2)%Z /\ (D1 * D2 <= 10 ^ 16)%Z /\ precise_in o (co_id (fst ce)) D1 (snd ce) /\
    risk_factor (o_risk o) = Some p /\ multiple D2 p.

(** no term is lost *)
Definition vanishing (l : list term) : Prop := Forall (fun kt => snd kt = n0) l.

(** ** Plans *)
(** the value of a variable is one its definition allows: the bounds as written at its own timestep and scenario *)
Definition allowed (o : settings) (x : decisions) (c : component) (v : variable) (t s : Z) (q : Qc) : Prop :=
  match v_type v with
  | BOOLEAN => q = 0%Qc \/ q = 1%Qc
  | ty => (forall e, v_lower v = Some e -> lower_ok (component_world o x (co_id c)) e t s q) /\
          (forall e, v_upper v = Some e -> upper_ok (component_world o x (co_id c)) e t s q) /\
          (ty = INTEGER -> exists z, q = Z2Qc z)
  end.
(** the decisions are within the bounds of the variables and satisfy every constraint of every component at every
    timestep of the block, in every scenario *)
Definition feasible_plan (o : settings) (x : decisions) : Prop :=
  (forall c v t s, instance_of o c v t s ->
     allowed o x c v (odefault 0%Z t) (odefault 0%Z s) (x (co_id c) (v_name v) (odefault 0%Z t) (odefault 0%Z s))) /\
  (forall c k t s, In c (all_components (o_network o)) -> In k (get_constraints (o_selection o) (co_model c)) ->
     (0 <= t < Z.of_nat (List.length (o_block o)))%Z -> (0 <= s < o_scenarios o)%Z ->
     constraint_holds (component_world o x (co_id c)) (c_expr k) (c_lower k) (c_upper k) t s).
(** what the plan costs: the sum of the objectives of the components, weighted as the risk strategy says *)
Definition plan_cost (o : settings) (x : decisions) : option Qc := osum (map (contribution_value o x 0 0) (contributions o)).
Definition cheapest_plan (o : settings) (x : decisions) : Prop :=
  feasible_plan o x /\ exists v, plan_cost o x = Some v /\
  forall x' v', admissible_decisions o x' -> feasible_plan o x' -> plan_cost o x' = Some v' -> (v <= v')%Qc.
(** a solution of the solver's problem *)
Definition optimal (y : nat -> Qc) (s : solver) : Prop :=
  solves y s /\ exists v, objective_value y s = Some v /\
  forall y' v', solves y' s -> objective_value y' s = Some v' -> (v <= v')%Qc.
(** all of a problem is of limited precision; bounds of constraints depend on nothing on which their expressions do
    not, and those of variables are numbers *)
Definition precise_problem (o : settings) : Prop :=
  (forall c k, In c (all_components (o_network o)) -> In k (get_constraints (o_selection o) (co_model c)) ->
     precise_constraint o c k /\ bounds_follow (o_network o) (co_id c) k) /\
  (forall ce, In ce (contributions o) -> precise_contribution o ce) /\
  (forall c v, In c (all_components (o_network o)) -> In v (get_variables (o_selection o) (co_model c)) ->
     good_variable_bound (v_lower v) /\ good_variable_bound (v_upper v)).
