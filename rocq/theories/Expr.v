(** Expression trees and the python operators on them
    (src/andromede/expression/expression.py).  Definitions only. *)
From Verif Require Import Base.

(** expression.py:194-230: TimeIndex = NoTimeIndex | TimeShift(k) | TimeStep(k) *)
Inductive time_index := NoTimeIndex | TimeShift (k : Z) | TimeStep (k : Z).

(** expression.py:233-269: ScenarioIndex = NoScenarioIndex | CurrentScenarioIndex | OneScenarioIndex(s) *)
Inductive scenario_index := NoScenarioIndex | CurrentScenarioIndex | OneScenarioIndex (s : Z).

(** expression.py:377-380 *)
Inductive comparator := LESS_THAN | EQUAL | GREATER_THAN.

(** expression.py:429-444 and scenario_operator.py:20-49: valid names of scenario operators.
    [ScenarioOperatorBase] is the abstract base class, whose name also passes the
    `issubclass` validity check of ScenarioOperatorNode.__post_init__. *)
Inductive scen_op := Expectation | Variance | ScenarioOperatorBase.

(** expression.py:348-363 and port_operator.py:20-33: valid names of port aggregators;
    [PortAggregatorBase] is the base class, accepted by the same kind of check. *)
Inductive port_agg := PortSum | PortAggregatorBase.

(** expression.py:144-444: the node classes.  Nodes are immutable (frozen dataclasses), so a
    tree is a faithful model of a DAG of shared nodes.  Literals may be python ints or
    floats; both are [num]. *)
Inductive expr :=
| Lit (v : num)                                                       (* LiteralNode, 326 *)
| Neg (e : expr)                                                      (* NegationNode, 366 *)
| Add (l : list expr)                                                 (* AdditionNode, 388 *)
| Mul (a b : expr)                                                    (* MultiplicationNode, 393 *)
| Div (a b : expr)                                                    (* DivisionNode, 398 *)
| Cmp (a b : expr) (c : comparator)                                   (* ComparisonNode, 383 *)
| Var (n : string)                                                    (* VariableNode, 144 *)
| Param (n : string)                                                  (* ParameterNode, 167 *)
| CVar (c n : string)                                                 (* ComponentVariableNode, 290 *)
| CParam (c n : string)                                               (* ComponentParameterNode, 176 *)
| PVar (c n : string) (ti : time_index) (si : scenario_index)         (* ProblemVariableNode, 308 *)
| PParam (c n : string) (ti : time_index) (si : scenario_index)       (* ProblemParameterNode, 272 *)
| TShift (e k : expr)                                                 (* TimeShiftNode, 403 *)
| TEval (e k : expr)                                                  (* TimeEvalNode, 408 *)
| TSum (e a b : expr)                                                 (* TimeSumNode, 413 *)
| AllSum (e : expr)                                                   (* AllTimeSumNode, 419 *)
| ScenOp (e : expr) (o : scen_op)                                     (* ScenarioOperatorNode, 429 *)
| PortField (p f : string)                                            (* PortFieldNode, 153 *)
| PortAgg (e : expr) (a : port_agg).                                  (* PortFieldAggregatorNode, 348 *)

(** expression.py:46-47: `x.operands if isinstance(x, AdditionNode) else [x]` *)
Definition add_operands (e : expr) : list expr :=
  match e with Add l => l | _ => [e] end.

(** expression.py:39-40 `__neg__` *)
Definition py_neg (e : expr) : expr := Neg e.

(** expression.py:42-48 `__add__` on two nodes *)
Definition py_add (lhs rhs : expr) : expr := Add (add_operands lhs ++ add_operands rhs).

(** expression.py:54-61 `__sub__` on two nodes *)
Definition py_sub (lhs rhs : expr) : expr :=
  Add (add_operands lhs ++ map py_neg (add_operands rhs)).

(** expression.py:67-68 `__mul__`, 73-74 `__truediv__` on two nodes *)
Definition py_mul (lhs rhs : expr) : expr := Mul lhs rhs.
(** expression.py:73-74 `__truediv__` on two nodes *)
Definition py_div (lhs rhs : expr) : expr := Div lhs rhs.

(** expression.py:127-132 `_wrap_in_node` of a number *)
Definition wrap_num (v : num) : expr := Lit v.

(** expression.py:42-77 with a number on the right: `e + v`, `e - v`, `e * v`, `e / v` *)
Definition py_add_num (e : expr) (v : num) : expr := py_add e (wrap_num v).
(** expression.py:54-61 with a number on the right: `e - v` *)
Definition py_sub_num (e : expr) (v : num) : expr := py_sub e (wrap_num v).
(** expression.py:67-68 with a number on the right: `e * v` *)
Definition py_mul_num (e : expr) (v : num) : expr := py_mul e (wrap_num v).
(** expression.py:73-74 with a number on the right: `e / v` *)
Definition py_div_num (e : expr) (v : num) : expr := py_div e (wrap_num v).

(** expression.py:50-52 `__radd__`: `v + e` *)
Definition py_radd (v : num) (e : expr) : expr := py_add (wrap_num v) e.

(** expression.py:63-65 `__rsub__`: `v - e`.  The code returns `lhs + self`. *)
Definition py_rsub (v : num) (e : expr) : expr := py_add (wrap_num v) e.

(** expression.py:70-71 `__rmul__`, 76-77 `__rtruediv__` *)
Definition py_rmul (v : num) (e : expr) : expr := py_mul (wrap_num v) e.
(** expression.py:76-77 `__rtruediv__`: `v / e` *)
Definition py_rdiv (v : num) (e : expr) : expr := py_div (wrap_num v) e.

(** expression.py:79-90 `__le__`, `__ge__`, `__eq__` *)
Definition py_cmp (a b : expr) (c : comparator) : expr := Cmp a b c.

(** expression.py:92-105 `time_sum` *)
Definition time_sum (e : expr) (from_shift to_shift : option expr) : result expr :=
  match from_shift, to_shift with
  | None, None => Ok (AllSum e)
  | Some a, Some b => Ok (TSum e a b)
  | _, _ => Err ValueError
  end.

(** expression.py:107-112 `sum_connections` *)
Definition sum_connections (e : expr) : result expr :=
  match e with
  | PortField _ _ => Ok (PortAgg e PortSum)
  | _ => Err ValueError
  end.

(** expression.py:114-124 `shift`, `eval`, `expec`, `variance` *)
Definition py_shift (e k : expr) : expr := TShift e k.
(** expression.py:117-118 `eval` *)
Definition py_eval (e k : expr) : expr := TEval e k.
(** expression.py:120-121 `expec` *)
Definition py_expec (e : expr) : expr := ScenOp e Expectation.
(** expression.py:123-124 `variance` *)
Definition py_variance (e : expr) : expr := ScenOp e Variance.

(** expression.py:335-336 `is_unbounded` *)
Definition is_unbounded (e : expr) : bool :=
  match e with Lit v => neqb (nabs v) PInf | _ => false end.

(** expression.py:339-340 `is_non_negative` *)
Definition is_non_negative (e : expr) : bool :=
  match e with Lit v => nleb n0 v | _ => false end.

(** expression.py:447-452 `sum_expressions` *)
Definition sum_expressions (l : list expr) : expr :=
  match l with
  | [] => Lit n0
  | [e] => e
  | _ => Add l
  end.
