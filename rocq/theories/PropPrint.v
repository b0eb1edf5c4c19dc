(** Theorems about printed expressions (C57). *)
From Coq Require Import Ascii Lia.
From Verif Require Import Base BaseFacts Expr SpecExpr Parse SpecParse LexFacts Optim Print SpecPrint PrintFacts.
Local Open Scope string_scope.
Local Open Scope list_scope.

(** python's `str` of an integer, and anything for other numbers *)
Definition ex_show (v : num) : string := match v with Fin q => string_of_Z (Qnum (this q)) | _ => "inf" end.
Definition ex_names : identifiers := {| id_variables := ["x"; "y_2"]; id_parameters := ["cost"] |}.
Definition ex_lit (z : Z) : expr := Lit (Fin (Z2Qc z)).
Definition ex_arith : expr :=
  Add [Neg (Mul (ex_lit (-3)) (Var "x")); Neg (ex_lit (-2)); Div (Neg (Neg (Var "y_2"))) (Param "cost"); Add [PortField "p" "flow"; ex_lit 7]].
Lemma ex_word x : starts letter x -> all_chars (fun c => letter c \/ digit c) x -> ~ keyword x -> plain_word x.
Proof. intros A B C. split; [split|]; assumption. Qed.
Ltac plain_name := apply ex_word; [apply letter_iff; reflexivity|cbn; repeat split; apply word_char_iff; reflexivity|cbn; intuition discriminate].
Lemma ex_number z : Qnum (this (Z2Qc z)) = z.
Proof.
  unfold Z2Qc, Q2Qc. cbn [this]. unfold inject_Z, Qred. cbn [Qnum Qden]. destruct (Z.ggcd z 1) as [g [a b]] eqn:G.
  pose proof (Z.ggcd_gcd z 1) as K. pose proof (Z.ggcd_correct_divisors z 1) as D. rewrite G in K, D. cbn in K, D. rewrite Z.gcd_1_r in K. subst g. cbn. lia.
Qed.
Lemma ex_literal z : arithmetic ex_show ex_names (ex_lit z).
Proof. exists (Z2Qc z). split; [reflexivity|]. cbn [ex_show]. rewrite ex_number. apply integer_numeral. Qed.
Lemma ex_arithmetic : arithmetic ex_show ex_names ex_arith.
Proof.
  repeat first [exact I | apply ex_literal | discriminate | plain_name | (cbn; intuition discriminate) | split].
Qed.

(** ** C57 *)
(** Printed arithmetic is accepted by the parser and read back to an expression of the same meaning: signs, quotients and
    nested sums are not changed by printing.  The hypothesis on literals is that they are shown as decimal numerals. *)
Theorem C57_read_back_partial : forall show ids e, arithmetic show ids e ->
  exists x, parse_expression (print_expr show e) ids = Ok (PVal x) /\ forall E t s, den E x t s = den E e t s.
Proof. exact print_parse. Qed.
Print Assumptions C57_read_back_partial.
Example C57_read_back_example : arithmetic ex_show ex_names ex_arith /\
  print_expr ex_show ex_arith = "(-((-3 * x)) - -2 + (-(-(y_2)) / cost) + (p.flow + 7))".
Proof. split; [exact ex_arithmetic|reflexivity]. Qed.

(** the same for inequalities *)
Theorem C57_inequality_partial : forall show ids a b c, c <> EQUAL -> arithmetic show ids a -> arithmetic show ids b ->
  exists x y, parse_expression (print_expr show (Cmp a b c)) ids = Ok (PVal (Cmp x y c)) /\
    forall E t s, den E x t s = den E a t s /\ den E y t s = den E b t s.
Proof. exact print_parse_comparison. Qed.
Print Assumptions C57_inequality_partial.
Example C57_inequality_example : arithmetic ex_show ex_names (Var "x") /\ arithmetic ex_show ex_names ex_arith /\ LESS_THAN <> EQUAL.
Proof. split; [split; [plain_name|cbn; auto]|]. split; [exact ex_arithmetic|discriminate]. Qed.

(** two expressions of different meaning are not printed alike *)
Theorem C57_distinct_partial : forall show ids e e', arithmetic show ids e -> arithmetic show ids e' ->
  print_expr show e = print_expr show e' -> forall E t s, den E e t s = den E e' t s.
Proof.
  intros show ids e e' A A' H E t s. destruct (print_parse show ids e A) as (x & P & M), (print_parse show ids e' A') as (x' & P' & M').
  rewrite H, P' in P. injection P as <-. now rewrite <- M, <- M'.
Qed.
Print Assumptions C57_distinct_partial.
(** without the hypotheses a variable and a parameter of the same name are printed alike *)
Example C57_distinct_example : arithmetic ex_show ex_names ex_arith /\ arithmetic ex_show ex_names (Add [ex_arith; Neg (Var "x")]) /\
  print_expr ex_show (Var "x") = print_expr ex_show (Param "x") /\ ~ arithmetic ex_show ex_names (Param "x").
Proof.
  split; [exact ex_arithmetic|]. split; [|split; [reflexivity|cbn; intuition discriminate]].
  split; [discriminate|]. split; [exact ex_arithmetic|]. split; [|exact I]. split; [plain_name|cbn; auto].
Qed.

(** integers are shown as numerals *)
Theorem C57_integers : forall z, numeral (string_of_Z z) (Z2Qc z).
Proof. exact integer_numeral. Qed.
Print Assumptions C57_integers.
Example C57_integers_example : string_of_Z (-120) = "-120".
Proof. reflexivity. Qed.

(** printed equations are not accepted: the sign is printed as two signs of the grammar *)
Theorem C57_equation_refuted : exists show ids a b,
  arithmetic show ids a /\ arithmetic show ids b /\ parse_expression (print_expr show (Cmp a b EQUAL)) ids = Err GenericException.
Proof.
  exists ex_show, ex_names, (Var "x"), (ex_lit 1). split; [split; [plain_name|cbn; auto]|]. split; [apply ex_literal|]. vm_compute. reflexivity.
Qed.
Print Assumptions C57_equation_refuted.

(** an expectation is printed as a port field is, and read back as one *)
Theorem C57_expectation_refuted : exists show ids,
  print_expr show (ScenOp (Var "x") Expectation) = print_expr show (Add [PortField "x" "Expectation"]) /\
  parse_expression (print_expr show (ScenOp (Var "x") Expectation)) ids = Ok (PVal (PortField "x" "Expectation")) /\
  In "x" (id_variables ids).
Proof. exists ex_show, ex_names. split; [reflexivity|]. split; [vm_compute; reflexivity|cbn; auto]. Qed.
Print Assumptions C57_expectation_refuted.

(** shifts, sums over time and sums over connections are not printed in the language of the parser *)
Theorem C57_time_refuted : exists show ids, In "x" (id_variables ids) /\
  parse_expression (print_expr show (TShift (Var "x") (ex_lit 1))) ids = Err GenericException /\
  parse_expression (print_expr show (TEval (Var "x") (ex_lit 1))) ids = Err GenericException /\
  parse_expression (print_expr show (TSum (Var "x") (ex_lit 0) (ex_lit 1))) ids = Err GenericException /\
  parse_expression (print_expr show (AllSum (Var "x"))) ids = Err GenericException /\
  parse_expression (print_expr show (PortAgg (PortField "p" "flow") PortSum)) ids = Err GenericException.
Proof. exists ex_show, ex_names. split; [cbn; auto|]. repeat split; vm_compute; reflexivity. Qed.
Print Assumptions C57_time_refuted.

(** a sum without operands is printed as nothing *)
Theorem C57_empty_sum_refuted : forall show ids, parse_expression (print_expr show (Add [])) ids = Err GenericException.
Proof. intros show ids. reflexivity. Qed.
Print Assumptions C57_empty_sum_refuted.
