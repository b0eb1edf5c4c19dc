(** The visitors of src/andromede/expression: copy, evaluation, parameter resolution,
    component context, port resolution, degree, indexing, equality.  Definitions only.
    The dispatch function `visit` (visitor.py:132-174) is Gallina pattern matching. *)
From Verif Require Import Base Expr.

(** visitor.py:215-220 `ExpressionVisitorOperations.addition`, generic in `+`:
    `res = operands[0]; for o in operands[1:]: res = res + o`. *)
Definition sum_operands {T} (plus : T -> T -> T) (vs : list T) : result T :=
  match vs with
  | [] => Err IndexError
  | v :: vs' => Ok (fold_left plus vs' v)
  end.

(** ** copy.py:38-96 `CopyVisitor`.
    Subclasses of CopyVisitor override some methods; the record lists the overridable ones.
    [on_agg] is [None] when port_field_aggregator is not overridden. *)
Record copier := {
  on_var : string -> result expr;
  on_param : string -> result expr;
  on_cvar : string -> string -> result expr;
  on_cparam : string -> string -> result expr;
  on_pvar : string -> string -> time_index -> scenario_index -> result expr;
  on_pparam : string -> string -> time_index -> scenario_index -> result expr;
  on_port : string -> string -> result expr;
  on_agg : option (expr -> port_agg -> result expr)
}.

(** copy.py:43-96 together with visitor.py:212-230 *)
Fixpoint copy_with (c : copier) (e : expr) : result expr :=
  match e with
  | Lit v => Ok (Lit v)
  | Neg a => a' <- copy_with c a ;; Ok (py_neg a')
  | Add l => vs <- mapM (copy_with c) l ;; sum_operands py_add vs
  | Mul a b => a' <- copy_with c a ;; b' <- copy_with c b ;; Ok (py_mul a' b')
  | Div a b => a' <- copy_with c a ;; b' <- copy_with c b ;; Ok (py_div a' b')
  | Cmp a b o => a' <- copy_with c a ;; b' <- copy_with c b ;; Ok (Cmp a' b' o)
  | Var n => on_var c n
  | Param n => on_param c n
  | CVar i n => on_cvar c i n
  | CParam i n => on_cparam c i n
  | PVar i n ti si => on_pvar c i n ti si
  | PParam i n ti si => on_pparam c i n ti si
  | TShift a k => a' <- copy_with c a ;; k' <- copy_with c k ;; Ok (TShift a' k')
  | TEval a k => a' <- copy_with c a ;; k' <- copy_with c k ;; Ok (TEval a' k')
  | TSum a f t =>
      a' <- copy_with c a ;; f' <- copy_with c f ;; t' <- copy_with c t ;; Ok (TSum a' f' t')
  | AllSum a => a' <- copy_with c a ;; Ok (AllSum a')
  | ScenOp a o => a' <- copy_with c a ;; Ok (ScenOp a' o)
  | PortField p f => on_port c p f
  | PortAgg a g =>
      match on_agg c with
      | Some h => h a g
      | None => a' <- copy_with c a ;; Ok (PortAgg a' g)
      end
  end.

(** copy.py:51-96, the leaf methods of CopyVisitor itself *)
Definition plain_copier : copier := {|
  on_var := fun n => Ok (Var n);
  on_param := fun n => Ok (Param n);
  on_cvar := fun i n => Ok (CVar i n);
  on_cparam := fun i n => Ok (CParam i n);
  on_pvar := fun i n ti si => Ok (PVar i n ti si);
  on_pparam := fun i n ti si => Ok (PParam i n ti si);
  on_port := fun p f => Ok (PortField p f);
  on_agg := None
|}.

(** copy.py:99-100 *)
Definition copy_expression (e : expr) : result expr := copy_with plain_copier e.

(** ** evaluate.py:42-62 `ValueProvider` *)
Record value_provider := {
  get_variable_value : string -> result num;
  get_parameter_value : string -> result num;
  get_component_variable_value : string -> string -> result num;
  get_component_parameter_value : string -> string -> result num
}.

(** evaluate.py:65-85 `EvaluationContext`: dictionaries; components not supported *)
Definition evaluation_context (variables parameters : dict string num) : value_provider := {|
  get_variable_value := fun n =>
    match dget String.eqb n variables with Some v => Ok v | None => Err KeyError end;
  get_parameter_value := fun n =>
    match dget String.eqb n parameters with Some v => Ok v | None => Err KeyError end;
  get_component_variable_value := fun _ _ => Err NotImplementedErr;
  get_component_parameter_value := fun _ _ => Err NotImplementedErr
|}.

(** evaluate.py:88-144 `EvaluationVisitor`, `evaluate` (with visitor.py:212-230) *)
Fixpoint evaluate (vp : value_provider) (e : expr) : result num :=
  match e with
  | Lit v => Ok v
  | Neg a => v <- evaluate vp a ;; Ok (nneg v)
  | Add l => vs <- mapM (evaluate vp) l ;; sum_operands nadd vs
  | Mul a b => x <- evaluate vp a ;; y <- evaluate vp b ;; Ok (nmul x y)
  | Div a b => x <- evaluate vp a ;; y <- evaluate vp b ;; ndiv x y
  | Cmp _ _ _ => Err ValueError
  | Var n => get_variable_value vp n
  | Param n => get_parameter_value vp n
  | CParam c n => get_component_parameter_value vp c n
  | CVar c n => get_component_variable_value vp c n
  | PParam _ _ _ _ => Err ValueError
  | PVar _ _ _ _ => Err ValueError
  | TShift _ _ | TEval _ _ | TSum _ _ _ | AllSum _ | ScenOp _ _
  | PortField _ _ | PortAgg _ _ => Err NotImplementedErr
  end.

(** ** evaluate_parameters.py:38-60 `ParameterResolver`, `resolve_parameters` *)
Definition parameter_resolver (gp : string -> result num) (gcp : string -> string -> result num)
  : copier := {|
  on_var := on_var plain_copier;
  on_param := fun n => v <- gp n ;; Ok (Lit v);
  on_cvar := on_cvar plain_copier;
  on_cparam := fun c n => v <- gcp c n ;; Ok (Lit v);
  on_pvar := on_pvar plain_copier;
  on_pparam := on_pparam plain_copier;
  on_port := on_port plain_copier;
  on_agg := None
|}.
(** evaluate_parameters.py:57-60 `resolve_parameters` *)
Definition resolve_parameters gp gcp (e : expr) : result expr :=
  copy_with (parameter_resolver gp gcp) e.

(** ** context_adder.py:28-65 `ContextAdder`, `add_component_context` *)
Definition context_adder (id : string) : copier := {|
  on_var := fun n => Ok (CVar id n);
  on_param := fun n => Ok (CParam id n);
  on_cvar := fun _ _ => Err ValueError;
  on_cparam := fun _ _ => Err ValueError;
  on_pvar := fun _ _ _ _ => Err ValueError;
  on_pparam := fun _ _ _ _ => Err ValueError;
  on_port := on_port plain_copier;
  on_agg := None
|}.
(** context_adder.py:64-65 `add_component_context` *)
Definition add_component_context (id : string) (e : expr) : result expr :=
  copy_with (context_adder id) e.

(** ** port_resolver.py:25-80.
    port_resolver.py:25-32 `PortFieldKey` = (component id, (port name, field name)). *)
Definition port_field_key : Type := (string * (string * string))%type.
(** `==` generated for PortFieldKey, port_resolver.py:25-32 *)
Definition pfk_eqb (a b : port_field_key) : bool :=
  String.eqb (fst a) (fst b) && String.eqb (fst (snd a)) (fst (snd b))
  && String.eqb (snd (snd a)) (snd (snd b)).

(** port_resolver.py:45-56 `PortResolver.port_field` *)
Definition resolve_port_field (cid : string) (ports : dict port_field_key (list expr))
  (p f : string) : result expr :=
  match dget pfk_eqb (cid, (p, f)) ports with
  | None => Err KeyError
  | Some [e] => Ok e
  | Some _ => Err ValueError
  end.

(** port_resolver.py:58-72 `PortResolver.port_field_aggregator` *)
Definition resolve_port_aggregator (cid : string) (ports : dict port_field_key (list expr))
  (operand : expr) (g : port_agg) : result expr :=
  match g with
  | PortSum =>
      match operand with
      | PortField p f =>
          Ok (sum_expressions
                (match dget pfk_eqb (cid, (p, f)) ports with Some l => l | None => [] end))
      | _ => Err ValueError
      end
  | _ => Err NotImplementedErr
  end.

(** port_resolver.py:35-43, 75-80 *)
Definition port_resolver (cid : string) (ports : dict port_field_key (list expr)) : copier := {|
  on_var := on_var plain_copier;
  on_param := on_param plain_copier;
  on_cvar := on_cvar plain_copier;
  on_cparam := on_cparam plain_copier;
  on_pvar := on_pvar plain_copier;
  on_pparam := on_pparam plain_copier;
  on_port := resolve_port_field cid ports;
  on_agg := Some (resolve_port_aggregator cid ports)
|}.
(** port_resolver.py:75-80 `resolve_port` *)
Definition resolve_port (e : expr) (cid : string) (ports : dict port_field_key (list expr))
  : result expr := copy_with (port_resolver cid ports) e.

(** ** degree.py:42-129.
    scenario_operator.py:27-29, 37-39, 47-49: degree of a scenario operator. *)
Definition scen_op_degree (o : scen_op) : result nat :=
  match o with
  | Expectation => Ok 1%nat
  | Variance => Ok 2%nat
  | ScenarioOperatorBase => Err NotImplementedErr
  end.

(** python `max(l)`: ValueError on an empty list; degree.py:56 *)
Definition py_max (l : list nat) : result nat :=
  match l with
  | [] => Err ValueError
  | x :: l' => Ok (fold_left Nat.max l' x)
  end.

(** degree.py:42-115 `ExpressionDegreeVisitor`, `compute_degree` *)
Fixpoint compute_degree (e : expr) : result nat :=
  match e with
  | Lit _ => Ok 0%nat
  | Neg a => compute_degree a
  | Add l => ds <- mapM compute_degree l ;; py_max ds
  | Mul a b => x <- compute_degree a ;; y <- compute_degree b ;; Ok (x + y)%nat
  | Div a b =>
      y <- compute_degree b ;;
      if Nat.eqb y 0 then compute_degree a else Err ValueError
  | Cmp a b _ => x <- compute_degree a ;; y <- compute_degree b ;; Ok (Nat.max x y)
  | Var _ | CVar _ _ | PVar _ _ _ _ => Ok 1%nat
  | Param _ | CParam _ _ | PParam _ _ _ _ => Ok 0%nat
  | TShift a _ => compute_degree a
  | TEval a _ => compute_degree a
  | TSum a _ _ => compute_degree a
  | AllSum a => compute_degree a
  | ScenOp a o => d <- scen_op_degree o ;; x <- compute_degree a ;; Ok (d * x)%nat
  | PortField _ _ => Ok 1%nat
  | PortAgg a _ => compute_degree a
  end.

(** degree.py:118-122 *)
Definition is_constant (e : expr) : result bool :=
  d <- compute_degree e ;; Ok (Nat.eqb d 0).
(** degree.py:125-129 *)
Definition is_linear (e : expr) : result bool :=
  d <- compute_degree e ;; Ok (Nat.leb d 1).

(** ** indexing_structure.py:16-40 *)
Record indexing := { ix_time : bool; ix_scenario : bool }.
(** indexing_structure.py:25-28 `__or__` *)
Definition ix_or (a b : indexing) : indexing :=
  {| ix_time := ix_time a || ix_time b; ix_scenario := ix_scenario a || ix_scenario b |}.
(** indexing_structure.py:36-37 `is_time_scenario_varying` *)
Definition is_time_scenario_varying (a : indexing) : bool := ix_time a && ix_scenario a.

(** indexing.py:44-63 `IndexingStructureProvider` *)
Record structure_provider := {
  get_parameter_structure : string -> result indexing;
  get_variable_structure : string -> result indexing;
  get_component_variable_structure : string -> string -> result indexing;
  get_component_parameter_structure : string -> string -> result indexing
}.

(** indexing.py:80-90 `_combine`: visits operands left to right and stops as soon as both
    dimensions vary.  [visit] is the recursive call. *)
Section Combine.
  Context {A : Type} (visit : A -> result indexing).
  (** loop of indexing.py:86-89 *)
  Fixpoint combine_loop (res : indexing) (l : list A) : result indexing :=
    match l with
    | [] => Ok res
    | o :: l' =>
        r <- visit o ;;
        let res' := ix_or res r in
        if is_time_scenario_varying res' then Ok res' else combine_loop res' l'
    end.
  (** indexing.py:81-85 *)
  Definition combine_ix (l : list A) : result indexing :=
    match l with
    | [] => Ok {| ix_time := false; ix_scenario := false |}
    | o :: l' =>
        res <- visit o ;;
        if is_time_scenario_varying res then Ok res else combine_loop res l'
    end.
End Combine.

(** indexing.py:67-166 `TimeScenarioIndexingVisitor`, `compute_indexation` *)
Fixpoint compute_indexation (sp : structure_provider) (e : expr) : result indexing :=
  match e with
  | Lit _ => Ok {| ix_time := false; ix_scenario := false |}
  | Neg a => compute_indexation sp a
  | Add l => combine_ix (compute_indexation sp) l
  | Mul a b | Div a b | Cmp a b _ =>
      (* _combine([left, right]) *)
      ra <- compute_indexation sp a ;;
      if is_time_scenario_varying ra then Ok ra
      else rb <- compute_indexation sp b ;; Ok (ix_or ra rb)
  | Var n => get_variable_structure sp n
  | Param n => get_parameter_structure sp n
  | CVar c n => get_component_variable_structure sp c n
  | CParam c n => get_component_parameter_structure sp c n
  | PVar _ _ _ _ | PParam _ _ _ _ => Err ValueError
  | TShift a _ => compute_indexation sp a
  | TEval a _ =>
      r <- compute_indexation sp a ;; Ok {| ix_time := false; ix_scenario := ix_scenario r |}
  | TSum a _ _ => compute_indexation sp a
  | AllSum a =>
      r <- compute_indexation sp a ;; Ok {| ix_time := false; ix_scenario := ix_scenario r |}
  | ScenOp a _ =>
      r <- compute_indexation sp a ;; Ok {| ix_time := ix_time r; ix_scenario := false |}
  | PortField _ _ | PortAgg _ _ => Err ValueError
  end.

(** ** equality.py:44-225.
    expression.py:194-269: TimeIndex/ScenarioIndex are plain dataclasses, so `==` compares
    class and fields. *)
Definition time_index_eqb (a b : time_index) : bool :=
  match a, b with
  | NoTimeIndex, NoTimeIndex => true
  | TimeShift x, TimeShift y => Z.eqb x y
  | TimeStep x, TimeStep y => Z.eqb x y
  | _, _ => false
  end.
(** expression.py:194-269: `==` on ScenarioIndex *)
Definition scenario_index_eqb (a b : scenario_index) : bool :=
  match a, b with
  | NoScenarioIndex, NoScenarioIndex => true
  | CurrentScenarioIndex, CurrentScenarioIndex => true
  | OneScenarioIndex x, OneScenarioIndex y => Z.eqb x y
  | _, _ => false
  end.
(** Enum and string comparisons of equality.py:145, 206, 214 *)
Definition comparator_eqb (a b : comparator) : bool :=
  match a, b with
  | LESS_THAN, LESS_THAN | EQUAL, EQUAL | GREATER_THAN, GREATER_THAN => true
  | _, _ => false
  end.
(** the scenario operators compared at equality.py:206 *)
Definition scen_op_eqb (a b : scen_op) : bool :=
  match a, b with
  | Expectation, Expectation | Variance, Variance
  | ScenarioOperatorBase, ScenarioOperatorBase => true
  | _, _ => false
  end.
(** the aggregators compared at equality.py:214 *)
Definition port_agg_eqb (a b : port_agg) : bool :=
  match a, b with
  | PortSum, PortSum | PortAggregatorBase, PortAggregatorBase => true
  | _, _ => false
  end.

(** python `a and b` where evaluating [b] may raise; equality.py:129-134 *)
Definition andM (a b : result bool) : result bool :=
  x <- a ;; if x then b else Ok false.

(** equality.py:129-134: `len(l) == len(r) and all(visit(l, r) for l, r in zip(...))` *)
Section AllZip.
  Context {A : Type} (f : A -> A -> result bool).
  (** the loop of equality.py:129-134 *)
  Fixpoint all_zip (l r : list A) : result bool :=
    match l, r with
    | x :: l', y :: r' => andM (f x y) (all_zip l' r')
    | _, _ => Ok true
    end.
End AllZip.

(** equality.py:59-216 `EqualityVisitor.visit`; nodes of different classes are unequal
    (lines 60-61) *)
Fixpoint eq_visit (rel_tol abs_tol : num) (l r : expr) {struct l} : result bool :=
  let rec := eq_visit rel_tol abs_tol in
  match l, r with
  | Lit x, Lit y => isclose rel_tol abs_tol x y
  | Neg a, Neg b => rec a b
  | Add la, Add lb =>
      if Nat.eqb (List.length la) (List.length lb) then
        all_zip (eq_visit rel_tol abs_tol) la lb
      else Ok false
  | Div a b, Div c d => andM (rec a c) (rec b d)
  | Mul a b, Mul c d => andM (rec a c) (rec b d)
  | Cmp a b o, Cmp c d p => if comparator_eqb o p then andM (rec a c) (rec b d) else Ok false
  | Var n, Var m => Ok (String.eqb n m)
  | Param n, Param m => Ok (String.eqb n m)
  | CVar c n, CVar d m => Ok (String.eqb n m && String.eqb c d)
  | CParam c n, CParam d m => Ok (String.eqb n m && String.eqb c d)
  | PVar c n ti si, PVar d m tj sj =>
      Ok (String.eqb n m && String.eqb c d && time_index_eqb ti tj && scenario_index_eqb si sj)
  | PParam c n ti si, PParam d m tj sj =>
      Ok (String.eqb n m && String.eqb c d && time_index_eqb ti tj && scenario_index_eqb si sj)
  | TShift a k, TShift b j => andM (rec k j) (rec a b)
  | TEval a k, TEval b j => andM (rec k j) (rec a b)
  | TSum a f t, TSum b g u => andM (rec f g) (andM (rec t u) (rec a b))
  | AllSum a, AllSum b => rec a b
  | ScenOp a o, ScenOp b p => if scen_op_eqb o p then rec a b else Ok false
  | PortField p f, PortField q g => Ok (String.eqb p q && String.eqb f g)
  | PortAgg a g, PortAgg b h => if port_agg_eqb g h then rec a b else Ok false
  | _, _ => Ok false
  end.

(** equality.py:49-57 (tolerance check) and 219-225 `expressions_equal` *)
Definition expressions_equal (l r : expr) (abs_tol rel_tol : num) : result bool :=
  if nltb abs_tol n0 then Err ValueError
  else if nltb rel_tol n0 then Err ValueError
  else eq_visit rel_tol abs_tol l r.

(** equality.py:228-236 `expressions_equal_if_present` (default tolerances 0) *)
Definition expressions_equal_if_present (l r : option expr) : result bool :=
  match l, r with
  | None, None => Ok true
  | None, _ | _, None => Ok false
  | Some a, Some b => expressions_equal a b n0 n0
  end.
