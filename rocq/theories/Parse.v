(** Text of expressions to expression trees (src/andromede/expression/parsing/parse_expression.py,
    grammar/Expr.g4 and the parser ANTLR generated from it, parsing/antlr/ExprParser.py).
    Definitions only. *)
From Coq Require Import Ascii.
From Verif Require Import Base Expr Visitors.
Local Open Scope char_scope.

(** ** Tokens: grammar/Expr.g4:76-79 and the literals of the rules, antlr/Expr.tokens *)
Inductive sign := Plus | Minus.
(** Expr.g4:25, 59, 66 *)
Inductive mulop := Times | Over.
(** Expr.g4:16-35, 76-79, antlr/Expr.tokens *)
Inductive token :=
| TkNumber (n : string) | TkTime | TkIdentifier (s : string) | TkComparison (c : comparator)
| TkSign (s : sign) | TkMulop (o : mulop) | TkDot | TkDotDot | TkComma
| TkOpen | TkClose | TkOpenBracket | TkCloseBracket | TkSum | TkSumConnections.

(** Expr.g4:72-74: DIGIT, CHAR, CHAR_OR_DIGIT *)
Definition between (lo hi c : ascii) : bool :=
  (N_of_ascii lo <=? N_of_ascii c)%N && (N_of_ascii c <=? N_of_ascii hi)%N.
(** Expr.g4:72 DIGIT *)
Definition is_digit (c : ascii) : bool := between "0" "9" c.
(** Expr.g4:73 CHAR *)
Definition is_char (c : ascii) : bool := between "a" "z" c || between "A" "Z" c || Ascii.eqb c "_".
(** Expr.g4:74 CHAR_OR_DIGIT *)
Definition is_char_or_digit (c : ascii) : bool := is_char c || is_digit c.
(** Expr.g4:81 WS *)
Definition is_space (c : ascii) : bool :=
  Ascii.eqb c " " || Ascii.eqb c "009" || Ascii.eqb c "010" || Ascii.eqb c "013".

(** the longest prefix of characters satisfying [f], and the rest (the `+`, `*` of Expr.g4:76, 78) *)
Fixpoint span (f : ascii -> bool) (s : string) : string * string :=
  match s with
  | EmptyString => (EmptyString, EmptyString)
  | String c s' => if f c then let '(a, b) := span f s' in (String c a, b) else (EmptyString, s)
  end.

(** Expr.g4:76 NUMBER, longest match; [s] starts with a digit *)
Definition lex_number (s : string) : string * string :=
  let '(digits, rest) := span is_digit s in
  match rest with
  | String c (String d rest') =>
      if Ascii.eqb c "." && is_digit d
      then let '(frac, rest'') := span is_digit (String d rest') in
           ((digits ++ String "." frac)%string, rest'')
      else (digits, rest)
  | _ => (digits, rest)
  end.
(** Expr.g4:77-78 and the literals 'sum', 'sum_connections': of two tokens of the same length the
    one defined first is taken *)
Definition word (w : string) : token :=
  if String.eqb w "sum" then TkSum
  else if String.eqb w "sum_connections" then TkSumConnections
  else if String.eqb w "t" then TkTime
  else TkIdentifier w.
(** One token at the front of a text that does not start with white space.  A character that starts
    no token is an error here; the ANTLR runtime (not in the repository) reports it on the console
    and drops it: such texts are outside the model; Expr.g4:16-35, 76-79 *)
Definition lex_one (s : string) : result (token * string) :=
  match s with
  | EmptyString => Err GenericException
  | String c s' =>
      if is_digit c then let '(n, rest) := lex_number s in Ok (TkNumber n, rest)
      else if is_char c then let '(w, rest) := span is_char_or_digit s in Ok (word w, rest)
      else
        match c with
        | "=" => Ok (TkComparison EQUAL, s')
        | ">" => match s' with String "=" s'' => Ok (TkComparison GREATER_THAN, s'') | _ => Err GenericException end
        | "<" => match s' with String "=" s'' => Ok (TkComparison LESS_THAN, s'') | _ => Err GenericException end
        | "." => match s' with String "." s'' => Ok (TkDotDot, s'') | _ => Ok (TkDot, s') end
        | "," => Ok (TkComma, s')
        | "+" => Ok (TkSign Plus, s')
        | "-" => Ok (TkSign Minus, s')
        | "*" => Ok (TkMulop Times, s')
        | "/" => Ok (TkMulop Over, s')
        | "(" => Ok (TkOpen, s')
        | ")" => Ok (TkClose, s')
        | "[" => Ok (TkOpenBracket, s')
        | "]" => Ok (TkCloseBracket, s')
        | _ => Err GenericException
        end
  end.
(** antlr/ExprLexer.py; [fuel] is the length of the text; Expr.g4:72-81 *)
Fixpoint lex_fuel (fuel : nat) (s : string) : result (list token) :=
  match snd (span is_space s) with
  | EmptyString => Ok []
  | s => match fuel with
         | O => Err OutOfFuel
         | S fuel => r <- lex_one s ;; ts <- lex_fuel fuel (snd r) ;; Ok (fst r :: ts)
         end
  end.
(** Expr.g4:72-81, antlr/ExprLexer.py *)
Definition lex (s : string) : result (list token) := lex_fuel (String.length s) s.

(** ** Parse trees: grammar/Expr.g4:16-69, one constructor per labelled alternative *)
Inductive atom := ANumber (n : string) | AIdentifier (s : string).
(** Expr.g4:20-36, 47, 58-69 *)
Inductive pexpr :=
| PAtom (a : atom)                                  (* unsignedAtom *)
| PPortField (p f : string)                         (* portField *)
| PNeg (e : pexpr)                                  (* negation *)
| PParen (e : pexpr)                                (* expression *)
| PMuldiv (o : mulop) (l r : pexpr)                 (* muldiv *)
| PAddsub (o : sign) (l r : pexpr)                  (* addsub *)
| PComparison (c : comparator) (l r : pexpr)        (* comparison *)
| PAllTimeSum (e : pexpr)                           (* allTimeSum *)
| PPortFieldSum (p f : string)                      (* portFieldSum *)
| PTimeSum (from to : pshift) (e : pexpr)           (* timeSum *)
| PFunction (f : string) (e : pexpr)                (* function *)
| PTimeShift (x : string) (k : pshift)              (* timeShift *)
| PTimeIndex (x : string) (k : pexpr)               (* timeIndex *)
| PTimeShiftExpr (e : pexpr) (k : pshift)           (* timeShiftExpr *)
| PTimeIndexExpr (e k : pexpr)                      (* timeIndexExpr *)
with pshift :=
| ShiftNone                                         (* t *)
| ShiftBy (s : pshift_expr)                         (* t shift_expr *)
with pshift_expr :=
| ShiftMuldiv (o : mulop) (l : pshift_expr) (r : pright)
| ShiftAddsub (o : sign) (l : pshift_expr) (r : pright)
| SignedAtom (s : sign) (a : atom)
| SignedExpression (s : sign) (e : pexpr)
with pright :=
| RightMuldiv (o : mulop) (l r : pright)
| RightExpression (e : pexpr)
| RightAtom (a : atom).

(** ** The parser (antlr/ExprParser.py).  Each rule is a function from tokens to a tree and the tokens left.  The fuel of
    [parse] always suffices.  Where the generated code asks the runtime to choose an alternative
    (adaptivePredict), the model looks at the next tokens as stated; the loops of left recursive
    rules go on as long as they can (ANTLR resolves ambiguity for the first alternative);
    ExprParser.py:2064-2093 and the other rules *)
Definition taken (A : Type) : Type := result (A * list token).

(** ExprParser.py:2064-2093 `atom` *)
Definition p_atom (ts : list token) : taken atom :=
  match ts with
  | TkNumber n :: ts => Ok (ANumber n, ts)
  | TkIdentifier x :: ts => Ok (AIdentifier x, ts)
  | _ => Err GenericException
  end.
(** `self.match(...)` of the closing parenthesis (ExprParser.py:1790) *)
Definition p_close (ts : list token) : result (list token) :=
  match ts with TkClose :: ts => Ok ts | _ => Err GenericException end.
(** and of the closing bracket (ExprParser.py:1868) *)
Definition p_close_bracket (ts : list token) : result (list token) :=
  match ts with TkCloseBracket :: ts => Ok ts | _ => Err GenericException end.

(** ExprParser.py:1741-2015 `expr`: [p_primary] the first part (decision 0), [p_loop] the loop
    (decisions 1, 2); 2118-2139 `shift`; 2230-2360 `shift_expr`; 2429-2507 `right_expr` *)
Fixpoint p_expr (n : nat) (p : Z) (ts : list token) {struct n} : taken pexpr :=
  match n with
  | O => Err OutOfFuel
  | S n => r <- p_primary n ts ;; p_loop n p (fst r) (snd r)
  end
with p_loop (n : nat) (p : Z) (l : pexpr) (ts : list token) {struct n} : taken pexpr :=
  match n with
  | O => Err OutOfFuel
  | S n =>
      match ts with
      | TkMulop o :: ts' =>
          if (p <=? 11)%Z then r <- p_expr n 12 ts' ;; p_loop n p (PMuldiv o l (fst r)) (snd r) else Ok (l, ts)
      | TkSign o :: ts' =>
          if (p <=? 10)%Z then r <- p_expr n 11 ts' ;; p_loop n p (PAddsub o l (fst r)) (snd r) else Ok (l, ts)
      | TkComparison c :: ts' =>
          if (p <=? 9)%Z then r <- p_expr n 10 ts' ;; p_loop n p (PComparison c l (fst r)) (snd r) else Ok (l, ts)
      | _ => Ok (l, ts)
      end
  end
with p_primary (n : nat) (ts : list token) {struct n} : taken pexpr :=
  match n with
  | O => Err OutOfFuel
  | S n =>
      match ts with
      | TkNumber x :: ts => Ok (PAtom (ANumber x), ts)
      | TkIdentifier x :: TkDot :: ts =>
          match ts with
          | TkIdentifier f :: ts => Ok (PPortField x f, ts)
          | _ => Err GenericException
          end
      | TkIdentifier x :: TkOpen :: ts =>
          r <- p_expr n 0 ts ;; ts <- p_close (snd r) ;; Ok (PFunction x (fst r), ts)
      | TkIdentifier x :: TkOpenBracket :: ts =>
          match ts with
          | TkTime :: _ => r <- p_shift n ts ;; ts <- p_close_bracket (snd r) ;; Ok (PTimeShift x (fst r), ts)
          | _ => r <- p_expr n 0 ts ;; ts <- p_close_bracket (snd r) ;; Ok (PTimeIndex x (fst r), ts)
          end
      | TkIdentifier x :: ts => Ok (PAtom (AIdentifier x), ts)
      | TkSign Minus :: ts => r <- p_expr n 13 ts ;; Ok (PNeg (fst r), snd r)
      | TkOpen :: ts =>
          r <- p_expr n 0 ts ;; ts <- p_close (snd r) ;;
          match ts with
          | TkOpenBracket :: ts =>
              match ts with
              | TkTime :: _ => k <- p_shift n ts ;; ts <- p_close_bracket (snd k) ;; Ok (PTimeShiftExpr (fst r) (fst k), ts)
              | _ => k <- p_expr n 0 ts ;; ts <- p_close_bracket (snd k) ;; Ok (PTimeIndexExpr (fst r) (fst k), ts)
              end
          | _ => Ok (PParen (fst r), ts)
          end
      | TkSum :: TkOpen :: ts =>
          match ts with
          | TkTime :: _ =>
              a <- p_shift n ts ;;
              match snd a with
              | TkDotDot :: ts =>
                  b <- p_shift n ts ;;
                  match snd b with
                  | TkComma :: ts => r <- p_expr n 0 ts ;; ts <- p_close (snd r) ;; Ok (PTimeSum (fst a) (fst b) (fst r), ts)
                  | _ => Err GenericException
                  end
              | _ => Err GenericException
              end
          | _ => r <- p_expr n 0 ts ;; ts <- p_close (snd r) ;; Ok (PAllTimeSum (fst r), ts)
          end
      | TkSumConnections :: TkOpen :: TkIdentifier p :: TkDot :: TkIdentifier f :: ts =>
          ts <- p_close ts ;; Ok (PPortFieldSum p f, ts)
      | _ => Err GenericException
      end
  end
with p_shift (n : nat) (ts : list token) {struct n} : taken pshift :=
  match n with
  | O => Err OutOfFuel
  | S n =>
      match ts with
      | TkTime :: ts =>
          match ts with
          | TkSign _ :: _ => r <- p_shift_expr n ts ;; Ok (ShiftBy (fst r), snd r)
          | _ => Ok (ShiftNone, ts)
          end
      | _ => Err GenericException
      end
  end
with p_shift_expr (n : nat) (ts : list token) {struct n} : taken pshift_expr :=
  match n with
  | O => Err OutOfFuel
  | S n =>
      match ts with
      | TkSign o :: TkOpen :: ts =>
          r <- p_expr n 0 ts ;; ts <- p_close (snd r) ;; p_shift_loop n (SignedExpression o (fst r)) ts
      | TkSign o :: ts => r <- p_atom ts ;; p_shift_loop n (SignedAtom o (fst r)) (snd r)
      | _ => Err GenericException
      end
  end
with p_shift_loop (n : nat) (l : pshift_expr) (ts : list token) {struct n} : taken pshift_expr :=
  match n with
  | O => Err OutOfFuel
  | S n =>
      match ts with
      | TkMulop o :: ts => r <- p_right n 0 ts ;; p_shift_loop n (ShiftMuldiv o l (fst r)) (snd r)
      | TkSign o :: ts => r <- p_right n 0 ts ;; p_shift_loop n (ShiftAddsub o l (fst r)) (snd r)
      | _ => Ok (l, ts)
      end
  end
with p_right (n : nat) (p : Z) (ts : list token) {struct n} : taken pright :=
  match n with
  | O => Err OutOfFuel
  | S n =>
      match ts with
      | TkOpen :: ts => r <- p_expr n 0 ts ;; ts <- p_close (snd r) ;; p_right_loop n p (RightExpression (fst r)) ts
      | _ => r <- p_atom ts ;; p_right_loop n p (RightAtom (fst r)) (snd r)
      end
  end
with p_right_loop (n : nat) (p : Z) (l : pright) (ts : list token) {struct n} : taken pright :=
  match n with
  | O => Err OutOfFuel
  | S n =>
      match ts with
      | TkMulop o :: ts' =>
          if (p <=? 3)%Z then r <- p_right n 4 ts' ;; p_right_loop n p (RightMuldiv o l (fst r)) (snd r) else Ok (l, ts)
      | _ => Ok (l, ts)
      end
  end.
(** ExprParser.py:1432-1447 `fullexpr` *)
Definition parse (ts : list token) : result pexpr :=
  r <- p_expr (4 * List.length ts + 4) 0 ts ;;
  match snd r with [] => Ok (fst r) | _ => Err GenericException end.

(** ** The visitor *)
(** parse_expression.py:31-44 `ModelIdentifiers` *)
Record identifiers := { id_variables : list string; id_parameters : list string }.

(** `float(text)` of a NUMBER, parse_expression.py:68-69; decimals are exact here *)
Definition digit_value (c : ascii) : Z := Z.of_N (N_of_ascii c) - 48.
(** parse_expression.py:68-69 *)
Fixpoint digits_value (acc : Z) (s : string) : Z :=
  match s with EmptyString => acc | String c s => digits_value (10 * acc + digit_value c) s end.
(** parse_expression.py:68-69 *)
Definition number_value (text : string) : Qc :=
  let '(digits, rest) := span is_digit text in
  match rest with
  | String _ frac =>
      (Z2Qc (digits_value (digits_value 0 digits) frac) / Z2Qc (10 ^ Z.of_nat (String.length frac)))%Qc
  | EmptyString => Z2Qc (digits_value 0 digits)
  end.

(** What a visit method gives: an expression, python's None, or a comparison built on None (or an
    expression built on such a comparison), which is not an expression tree; parse_expression.py:48-253 *)
Inductive pvalue := PVal (e : expr) | PNone | PBroken.

(** expression.py:39-77, 127-141: an operator on two operands: None is refused (TypeError) *)
Definition on_two (f : expr -> expr -> expr) (l r : pvalue) : result pvalue :=
  match l, r with
  | PNone, _ | _, PNone => Err TypeError
  | PVal a, PVal b => Ok (PVal (f a b))
  | _, _ => Ok PBroken
  end.
(** the same for one operand: expression.py:39-40, 117-121 *)
Definition on_one (f : expr -> expr) (a : pvalue) : result pvalue :=
  match a with
  | PNone => Err TypeError
  | PVal a => Ok (PVal (f a))
  | PBroken => Ok PBroken
  end.
(** parse_expression.py:76-95, 177-196, 221-229: `left * right`, `left / right`, `left + right`, `left - right` *)
Definition apply_mulop (o : mulop) : pvalue -> pvalue -> result pvalue :=
  match o with Times => on_two py_mul | Over => on_two py_div end.
(** parse_expression.py:87-95, 177-185 *)
Definition apply_sign (o : sign) : pvalue -> pvalue -> result pvalue :=
  match o with Plus => on_two py_add | Minus => on_two py_sub end.
(** parse_expression.py:199-212: `-x` or `x` *)
Definition apply_unary (o : sign) (v : pvalue) : result pvalue :=
  match o with Minus => on_one py_neg v | Plus => Ok v end.

(** parse_expression.py:109-114 `_convert_identifier` *)
Definition convert_identifier (ids : identifiers) (x : string) : result expr :=
  if existsb (String.eqb x) (id_variables ids) then Ok (Var x)
  else if existsb (String.eqb x) (id_parameters ids) then Ok (Param x)
  else Err ValueError.
(** parse_expression.py:68-73, 106-107, 232-233 *)
Definition visit_atom (ids : identifiers) (a : atom) : result pvalue :=
  match a with
  | ANumber n => Ok (PVal (Lit (Fin (number_value n))))
  | AIdentifier x => e <- convert_identifier ids x ;; Ok (PVal e)
  end.
(** parse_expression.py:121-130: a comparison of what the visits gave *)
Definition apply_comparison (c : comparator) (l r : pvalue) : pvalue :=
  match l, r with PVal a, PVal b => PVal (Cmp a b c) | _, _ => PBroken end.
(** parse_expression.py:142-148 `visitTimeShift` *)
Definition apply_shift (x : expr) (k : pvalue) : result pvalue :=
  match k with
  | PNone => Err TypeError
  | PBroken => Ok PBroken
  | PVal k => eq <- expressions_equal k (Lit n0) n0 n0 ;; Ok (PVal (if eq then x else py_shift x k))
  end.
(** expression.py:92-105 `time_sum` on what the visits gave; None has no method `time_sum` *)
Definition apply_time_sum (e a b : pvalue) : result pvalue :=
  match e with
  | PNone => Err AttributeErr
  | _ =>
      match a, b with
      | PNone, PNone => on_one AllSum e
      | PNone, _ | _, PNone => Err ValueError
      | PVal a, PVal b => on_one (fun e => TSum e a b) e
      | _, _ => Ok PBroken
      end
  end.

(** parse_expression.py:56-233 and 236-238, one branch per visit method.  timeShiftExpr and timeIndexExpr have no
    visit method: the default visits the children and gives the result for the last one, the token
    `]`, which is None. *)
Fixpoint visit (ids : identifiers) (e : pexpr) {struct e} : result pvalue :=
  match e with
  | PAtom a => visit_atom ids a
  | PPortField p f => Ok (PVal (PortField p f))
  | PNeg e => v <- visit ids e ;; on_one py_neg v
  | PParen e => visit ids e
  | PMuldiv o l r => a <- visit ids l ;; b <- visit ids r ;; apply_mulop o a b
  | PAddsub o l r => a <- visit ids l ;; b <- visit ids r ;; apply_sign o a b
  | PComparison c l r => a <- visit ids l ;; b <- visit ids r ;; Ok (apply_comparison c a b)
  | PAllTimeSum e => v <- visit ids e ;; apply_time_sum v PNone PNone
  | PPortFieldSum p f => Ok (PVal (PortAgg (PortField p f) PortSum))
  | PTimeSum a b e => v <- visit ids e ;; a <- visit_shift ids a ;; b <- visit_shift ids b ;; apply_time_sum v a b
  | PFunction f e => v <- visit ids e ;; if String.eqb f "expec" then on_one py_expec v else Err ValueError
  | PTimeShift x k => x <- convert_identifier ids x ;; k <- visit_shift ids k ;; apply_shift x k
  | PTimeIndex x k => x <- convert_identifier ids x ;; k <- visit ids k ;; on_one (py_eval x) k
  | PTimeShiftExpr e k => _ <- visit ids e ;; _ <- visit_shift ids k ;; Ok PNone
  | PTimeIndexExpr e k => _ <- visit ids e ;; _ <- visit ids k ;; Ok PNone
  end
with visit_shift (ids : identifiers) (k : pshift) {struct k} : result pvalue :=
  match k with
  | ShiftNone => Ok (PVal (Lit n0))
  | ShiftBy s => visit_shift_expr ids s
  end
with visit_shift_expr (ids : identifiers) (s : pshift_expr) {struct s} : result pvalue :=
  match s with
  | ShiftMuldiv o l r => a <- visit_shift_expr ids l ;; b <- visit_right ids r ;; apply_mulop o a b
  | ShiftAddsub o l r => a <- visit_shift_expr ids l ;; b <- visit_right ids r ;; apply_sign o a b
  | SignedAtom o a => v <- visit_atom ids a ;; apply_unary o v
  | SignedExpression o e => v <- visit ids e ;; apply_unary o v
  end
with visit_right (ids : identifiers) (r : pright) {struct r} : result pvalue :=
  match r with
  | RightMuldiv o l r => a <- visit_right ids l ;; b <- visit_right ids r ;; apply_mulop o a b
  | RightExpression e => visit ids e
  | RightAtom a => visit_atom ids a
  end.

(** parse_expression.py:245-263 `parse_expression`: every exception becomes an AntaresParseException *)
Definition parse_expression (text : string) (ids : identifiers) : result pvalue :=
  match (ts <- lex text ;; tree <- parse ts ;; visit ids tree) with
  | Ok v => Ok v
  | Err _ => Err GenericException
  end.
