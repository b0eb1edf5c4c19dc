(** C44, C47: the text of expressions. *)
From Coq Require Import Ascii Lia.
From Verif Require Import Base BaseFacts Expr SpecExpr Parse SpecParse LexFacts ParseFacts ParseMeaning.
Local Open Scope string_scope.
Local Open Scope list_scope.

(** Example text: 2 * x[t - p*2] + sum(t..t+1, y) / 4 - x *)
Definition ex_ids : identifiers := {| id_variables := ["x"; "y"]; id_parameters := ["p"; "x"] |}.
Definition ex_text : string := "2 * x[t - p*2] + sum(t..t+1,y)/4 -	x".
Definition ex_written : wexpr :=
  WAdd Minus
    (WAdd Plus
       (WMul Times (WNumber "2") (WAt "x" (WThen WNow Minus (WTimes (WFactor (WName "p")) Times (WNumber "2")))))
       (WMul Over (WSumOver WNow (WThen WNow Plus (WFactor (WNumber "1"))) (WName "y")) (WNumber "4")))
    (WName "x").
Example ex_text_hypotheses :
  spells ex_text (tokens ex_written) /\ unambiguous ex_written /\ plain ex_written /\ declared ex_ids ex_written.
Proof.
  split; [apply lex_spells; vm_compute; reflexivity|].
  split; [cbn; repeat split; lia|]. split; [cbn; auto 20|]. cbn. tauto.
Qed.

(** C44.  Reading a text gives an expression that means what is written: operators associate to the
    left with the usual precedence, in shifts too, for every text, every declaration of names and
    every world.  Missing (see the refutations): brackets after a parenthesis, and shifts whose first
    term divides and goes on with another factor ([plain]). *)
Theorem C44_text_means_what_is_written_partial : forall text e ids,
  spells text (tokens e) -> unambiguous e -> plain e -> declared ids e ->
  exists x, parse_expression text ids = Ok (PVal x) /\
    forall E t s, den E x t s = meaning E (id_variables ids) e t s.
Proof. exact parse_expression_meaning. Qed.
Print Assumptions C44_text_means_what_is_written_partial.
Example C44_text_example :
  exists x, parse_expression ex_text ex_ids = Ok (PVal x) /\
    x = Add [Mul (Lit (Fin (Z2Qc 2))) (TShift (Var "x") (Mul (Neg (Param "p")) (Lit (Fin (Z2Qc 2)))));
             Div (TSum (Var "y") (Lit n0) (Lit (Fin (Z2Qc 1)))) (Lit (Fin (Z2Qc 4))); Neg (Var "x")].
Proof. eexists. split; [vm_compute; reflexivity|]. vm_compute. reflexivity. Qed.

(** both sides of a comparison, and its sign *)
Theorem C44_comparison_partial : forall text c l r ids,
  spells text (tokens (WCmp c l r)) -> unambiguous (WCmp c l r) -> plain (WCmp c l r) -> declared ids (WCmp c l r) ->
  exists a b, parse_expression text ids = Ok (PVal (Cmp a b c)) /\
    forall E t s, den E a t s = meaning E (id_variables ids) l t s /\ den E b t s = meaning E (id_variables ids) r t s.
Proof. exact parse_expression_comparison. Qed.
Print Assumptions C44_comparison_partial.
Example C44_comparison_example :
  let e := WCmp LESS_THAN (WAdd Plus (WName "x") (WNumber "0.5")) (WName "p") in
  spells "x+0.5<=p" (tokens e) /\ unambiguous e /\ plain e /\ declared ex_ids e.
Proof.
  cbv zeta. split; [apply lex_spells; vm_compute; reflexivity|]. split; [cbn; repeat split; lia|].
  split; [cbn; auto|cbn; tauto].
Qed.

(** x[t] is x itself *)
Theorem C44_now : forall text x ids,
  spells text (tokens (WAt x WNow)) -> In x (id_variables ids) ->
  parse_expression text ids = Ok (PVal (Var x)).
Proof. exact parse_now. Qed.
Print Assumptions C44_now.
Example C44_now_example : spells " x [t]" (tokens (WAt "x" WNow)) /\ In "x" (id_variables ex_ids).
Proof. split; [apply lex_spells; vm_compute; reflexivity|cbn; auto]. Qed.

(** A text can be read in one way only: the precedences leave no choice. *)
Theorem C44_one_reading : forall text e e',
  spells text (tokens e) -> spells text (tokens e') -> unambiguous e -> unambiguous e' -> e = e'.
Proof. exact reading_unique. Qed.
Print Assumptions C44_one_reading.
(** the other grouping of the same tokens is not [unambiguous] *)
Example C44_one_reading_example :
  let e := WAdd Minus (WAdd Minus (WName "x") (WName "y")) (WName "p") in
  let e' := WAdd Minus (WName "x") (WAdd Minus (WName "y") (WName "p")) in
  spells "x-y-p" (tokens e) /\ spells "x-y-p" (tokens e') /\ unambiguous e /\ ~ unambiguous e'.
Proof.
  cbv zeta. split; [apply lex_spells; vm_compute; reflexivity|]. split; [apply lex_spells; vm_compute; reflexivity|].
  split; [cbn; repeat split; lia|]. cbn. lia.
Qed.

(** In a shift, 8/2/2 is read as 8/(2/2): x[t+8/2/2] is read as x[t+8] instead of x[t+2]. *)
Theorem C44_division_refuted : exists text e ids x E t s,
  spells text (tokens e) /\ unambiguous e /\ declared ids e /\
  parse_expression text ids = Ok (PVal x) /\
  den E x t s = Some (Z2Qc 8) /\ meaning E (id_variables ids) e t s = Some (Z2Qc 2).
Proof.
  exists "x[t+8/2/2]",
    (WAt "x" (WThen WNow Plus (WTimes (WTimes (WFactor (WNumber "8")) Over (WNumber "2")) Over (WNumber "2")))), ex_ids.
  eexists.
  exists {| e_var := fun _ t _ => Z2Qc t; e_par := fun _ _ _ => None; e_cvar := fun _ _ _ _ => 0%Qc;
            e_cpar := fun _ _ _ _ => None; e_port := fun _ _ => []; e_T := 1; e_S := 1 |}, 0%Z, 0%Z.
  split; [apply lex_spells; vm_compute; reflexivity|]. split; [cbn; tauto|]. split; [cbn; tauto|].
  split; [vm_compute; reflexivity|]. split; vm_compute; f_equal; apply Qc_is_canon; reflexivity.
Qed.
Print Assumptions C44_division_refuted.

(** In a product outside a shift the same text is read from the left. *)
Example C44_division_outside :
  parse_expression "8/2/2" ex_ids = Ok (PVal (Div (Div (Lit (Fin (Z2Qc 8))) (Lit (Fin (Z2Qc 2)))) (Lit (Fin (Z2Qc 2))))).
Proof. vm_compute. reflexivity. Qed.

(** A shift or an index after a parenthesis is accepted by the grammar and gives no expression. *)
Theorem C44_parenthesis_refuted : exists text e ids,
  spells text (tokens e) /\ unambiguous e /\ declared ids e /\
  (exists E t s q, meaning E (id_variables ids) e t s = Some q) /\
  parse_expression text ids = Ok PNone.
Proof.
  exists "(x)[t+1]", (WAtParen (WName "x") (WThen WNow Plus (WFactor (WNumber "1")))), ex_ids.
  split; [apply lex_spells; vm_compute; reflexivity|]. split; [cbn; tauto|]. split; [cbn; tauto|].
  split; [|vm_compute; reflexivity].
  exists {| e_var := fun _ t _ => Z2Qc t; e_par := fun _ _ _ => None; e_cvar := fun _ _ _ _ => 0%Qc;
            e_cpar := fun _ _ _ _ => None; e_port := fun _ _ => []; e_T := 1; e_S := 1 |}, 0%Z, 0%Z.
  eexists. vm_compute. reflexivity.
Qed.
Print Assumptions C44_parenthesis_refuted.

(** C47.  A text is cut into the longest possible tokens: the lexer accepts exactly the texts that
    spell tokens, and gives those. *)
Theorem C47_tokens : forall text ts, lex text = Ok ts <-> spells text ts.
Proof. exact lex_spells. Qed.
Print Assumptions C47_tokens.
Example C47_tokens_example : exists ts, lex "sum(t..t+1, 1.5x_2>=sums)" = Ok ts /\ List.length ts = 13%nat.
Proof. eexists. split; [vm_compute; reflexivity|reflexivity]. Qed.

(** Whatever is accepted follows the grammar and uses declared names and known functions only. *)
Theorem C47_accepted : forall text ids v, parse_expression text ids = Ok v ->
  exists e, spells text (tokens e) /\ unambiguous e /\ declared ids e.
Proof. exact parse_expression_accepts. Qed.
Print Assumptions C47_accepted.
Example C47_accepted_example : exists v, parse_expression ex_text ex_ids = Ok v.
Proof. eexists. vm_compute. reflexivity. Qed.

(** Names that are not declared are refused, wherever they are. *)
Theorem C47_undeclared_refused : forall text e ids,
  spells text (tokens e) -> unambiguous e -> ~ declared ids e -> parse_expression text ids = Err GenericException.
Proof. exact parse_undeclared. Qed.
Print Assumptions C47_undeclared_refused.
Example C47_undeclared_example :
  let e := WAt "x" (WThen WNow Plus (WFactor (WParen (WMul Times (WName "q") (WNumber "2"))))) in
  spells "x[t+(q*2)]" (tokens e) /\ unambiguous e /\ ~ declared ex_ids e.
Proof.
  cbv zeta. split; [apply lex_spells; vm_compute; reflexivity|]. split; [cbn; repeat split; lia|].
  cbn. intros H. decompose [and or] H; try discriminate; tauto.
Qed.

(** A name declared both as a variable and as a parameter is the variable. *)
Theorem C47_variable_first : forall text x ids,
  spells text (tokens (WName x)) ->
  parse_expression text ids =
    (if existsb (String.eqb x) (id_variables ids) then Ok (PVal (Var x))
     else if existsb (String.eqb x) (id_parameters ids) then Ok (PVal (Param x)) else Err GenericException).
Proof. exact parse_name. Qed.
Print Assumptions C47_variable_first.
Example C47_variable_first_example : spells "x" (tokens (WName "x")) /\
  In "x" (id_variables ex_ids) /\ In "x" (id_parameters ex_ids).
Proof. split; [apply lex_spells; vm_compute; reflexivity|cbn; auto]. Qed.

(** Every failure is the one exception of the module. *)
Theorem C47_failures : forall text ids k, parse_expression text ids = Err k -> k = GenericException.
Proof. exact parse_expression_fails. Qed.
Print Assumptions C47_failures.
Example C47_failures_example : parse_expression "expect(x)" ex_ids = Err GenericException.
Proof. vm_compute. reflexivity. Qed.
