(** Printing of expressions (src/andromede/expression/print.py).  Definitions only. *)
From Verif Require Import Base Expr.
Local Open Scope string_scope.

(** print.py:44-48 `_COMPARISON_OPERATOR_TO_STRING` *)
Definition comparator_text (c : comparator) : string :=
  match c with LESS_THAN => "<=" | EQUAL => "==" | GREATER_THAN => ">=" end.
(** `str(node.name)` of a scenario operator, print.py:125-126, expression.py:430: the name of the class *)
Definition scen_op_text (o : scen_op) : string :=
  match o with Expectation => "Expectation" | Variance => "Variance" | ScenarioOperatorBase => "ScenarioOperator" end.
(** the aggregator, print.py:131-132, expression.py:349: the name of the class *)
Definition aggregator_text (a : port_agg) : string :=
  match a with PortSum => "PortSum" | PortAggregatorBase => "PortAggregator" end.

(** print.py:51-132 `PrinterVisitor`.  [show] is `str` on the value of a literal (print.py:59-60), which is not modelled: it
    depends on whether the value is an int or a float and on the shortest decimal representation of floats. *)
Section Print.
  Variable show : num -> string.
  (** print.py:51-132 `PrinterVisitor` *)
  Fixpoint print_expr (e : expr) : string :=
    match e with
    | Lit v => show v
    | Neg a => "-(" ++ print_expr a ++ ")"
    | Add l =>
        match l with
        | [] => ""
        | a :: l =>
            "(" ++ fold_left (fun res o => match o with
                                           | Neg b => res ++ " - " ++ print_expr b
                                           | _ => res ++ " + " ++ print_expr o
                                           end) l (print_expr a) ++ ")"
        end
    | Mul a b => "(" ++ print_expr a ++ " * " ++ print_expr b ++ ")"
    | Div a b => "(" ++ print_expr a ++ " / " ++ print_expr b ++ ")"
    | Cmp a b c => print_expr a ++ " " ++ comparator_text c ++ " " ++ print_expr b
    | Var x | Param x => x
    | CVar c x | CParam c x | PVar c x _ _ | PParam c x _ _ => c ++ "." ++ x
    | TShift a k => "(" ++ print_expr a ++ ".shift(" ++ print_expr k ++ "))"
    | TEval a k => "(" ++ print_expr a ++ ".eval(" ++ print_expr k ++ "))"
    | TSum a f u => "(" ++ print_expr a ++ ".time_sum(" ++ print_expr f ++ ", " ++ print_expr u ++ "))"
    | AllSum a => "(" ++ print_expr a ++ ".time_sum())"
    | ScenOp a o => "(" ++ print_expr a ++ "." ++ scen_op_text o ++ ")"
    | PortField p f => p ++ "." ++ f
    | PortAgg a g => "(" ++ print_expr a ++ "." ++ aggregator_text g ++ ")"
    end.
End Print.
