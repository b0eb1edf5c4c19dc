(** Specification of what can be read back from a printed expression (C57). *)
From Verif Require Import Base Expr Parse SpecExpr SpecParse.
Local Open Scope string_scope.
Local Open Scope list_scope.

(** a decimal numeral without exponent, possibly signed, and its value *)
Inductive numeral : string -> Qc -> Prop :=
| nu_positive n : is_number n -> numeral n (decimal_value n)
| nu_negative n : is_number n -> numeral ("-" ++ n)%string (- decimal_value n)%Qc.
Definition plain_word (x : string) : Prop := is_word x /\ ~ keyword x.

(** expressions made of literals shown as numerals, names that can be written, port fields, and arithmetic *)
Fixpoint arithmetic (show : num -> string) (ids : identifiers) (e : expr) : Prop :=
  match e with
  | Lit v => exists q, v = Fin q /\ numeral (show v) q
  | Var x => plain_word x /\ In x (id_variables ids)
  | Param x => plain_word x /\ In x (id_parameters ids) /\ ~ In x (id_variables ids)
  | PortField p f => plain_word p /\ plain_word f
  | Neg a => arithmetic show ids a
  | Add l => l <> [] /\ (fix all l := match l with [] => True | a :: l => arithmetic show ids a /\ all l end) l
  | Mul a b | Div a b => arithmetic show ids a /\ arithmetic show ids b
  | _ => False
  end.
