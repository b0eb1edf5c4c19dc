(** Specification of the text of expressions, independent of the lexer, the parser and the visitor.

    [spells text ts]: how a text is cut into tokens.  [wexpr]: what can be written, arithmetic being
    written without redundant structure: [tokens] gives the tokens of it and [meaning] its value,
    reading operators with the usual precedence and from the left to the right. *)
From Coq Require Import Ascii.
From Verif Require Import Base Expr SpecExpr Parse.
Local Open Scope string_scope.
Local Open Scope list_scope.

(** ** Characters and tokens *)
Definition digit (c : ascii) : Prop := exists k, (48 <= k <= 57)%nat /\ c = ascii_of_nat k.
Fixpoint all_chars (P : ascii -> Prop) (s : string) : Prop :=
  match s with EmptyString => True | String c s => P c /\ all_chars P s end.
Definition starts (P : ascii -> Prop) (s : string) : Prop :=
  match s with EmptyString => False | String c _ => P c end.
Definition blank (c : ascii) : Prop := In c [" "; "009"; "010"; "013"]%char.
Definition letter (c : ascii) : Prop :=
  (exists k, (65 <= k <= 90 \/ 97 <= k <= 122)%nat /\ c = ascii_of_nat k) \/ c = "_"%char.

Definition digits (s : string) : Prop := s <> "" /\ all_chars digit s.
Definition is_number (n : string) : Prop :=
  digits n \/ exists a b, digits a /\ digits b /\ n = (a ++ "." ++ b)%string.
Definition is_word (w : string) : Prop :=
  starts letter w /\ all_chars (fun c => letter c \/ digit c) w.
Definition keyword (w : string) : Prop := In w ["sum"; "sum_connections"; "t"].

(** the text of one token *)
Inductive token_text : token -> string -> Prop :=
| tt_number n : is_number n -> token_text (TkNumber n) n
| tt_word w : is_word w -> ~ keyword w -> token_text (TkIdentifier w) w
| tt_time : token_text TkTime "t"
| tt_sum : token_text TkSum "sum"
| tt_sumc : token_text TkSumConnections "sum_connections"
| tt_eq : token_text (TkComparison EQUAL) "="
| tt_le : token_text (TkComparison LESS_THAN) "<="
| tt_ge : token_text (TkComparison GREATER_THAN) ">="
| tt_plus : token_text (TkSign Plus) "+"
| tt_minus : token_text (TkSign Minus) "-"
| tt_times : token_text (TkMulop Times) "*"
| tt_over : token_text (TkMulop Over) "/"
| tt_dot : token_text TkDot "."
| tt_dotdot : token_text TkDotDot ".."
| tt_comma : token_text TkComma ","
| tt_open : token_text TkOpen "("
| tt_close : token_text TkClose ")"
| tt_openb : token_text TkOpenBracket "["
| tt_closeb : token_text TkCloseBracket "]".

(** the token could not have been longer *)
Definition may_follow (tk : token) (rest : string) : Prop :=
  match tk with
  | TkNumber n =>
      ~ starts digit rest /\
      (digits n -> forall c rest', rest = String "." (String c rest') -> ~ digit c)
  | TkIdentifier _ | TkTime | TkSum | TkSumConnections => ~ starts (fun c => letter c \/ digit c) rest
  | TkDot => ~ starts (eq "."%char) rest
  | _ => True
  end.

Inductive spells : string -> list token -> Prop :=
| sp_end s : all_chars blank s -> spells s []
| sp_token w s rest tk ts :
    all_chars blank w -> token_text tk s -> may_follow tk rest -> spells rest ts ->
    spells (w ++ s ++ rest)%string (tk :: ts).

(** value of a decimal number *)
Fixpoint natural (s : string) : Z :=
  match s with
  | EmptyString => 0
  | String c s => (Z.of_nat (nat_of_ascii c - nat_of_ascii "0") * 10 ^ Z.of_nat (String.length s) + natural s)%Z
  end.
Fixpoint split_point (s : string) : string * option string :=
  match s with
  | EmptyString => (EmptyString, None)
  | String c s => if Ascii.eqb c "." then (EmptyString, Some s)
                  else let '(a, b) := split_point s in (String c a, b)
  end.
Definition decimal_value (n : string) : Qc :=
  match split_point n with
  | (a, None) => Z2Qc (natural a)
  | (a, Some b) => Z2Qc (natural a) + Z2Qc (natural b) / Z2Qc (10 ^ Z.of_nat (String.length b))
  end.

(** ** What can be written *)
Inductive wexpr :=
| WNumber (n : string)                      (* 1.5 *)
| WName (x : string)                        (* x *)
| WField (p f : string)                     (* p.f *)
| WNeg (e : wexpr)                          (* -e *)
| WParen (e : wexpr)                        (* (e) *)
| WMul (o : mulop) (l r : wexpr)            (* l * r, l / r *)
| WAdd (o : sign) (l r : wexpr)             (* l + r, l - r *)
| WCmp (c : comparator) (l r : wexpr)       (* l <= r ... *)
| WSumAll (e : wexpr)                       (* sum(e) *)
| WSumPorts (p f : string)                  (* sum_connections(p.f) *)
| WSumOver (a b : wshift) (e : wexpr)       (* sum(t-1..t+1, e) *)
| WCall (f : string) (e : wexpr)            (* expec(e) *)
| WAt (x : string) (k : wshift)             (* x[t+1] *)
| WIndex (x : string) (k : wexpr)           (* x[1] *)
| WAtParen (e : wexpr) (k : wshift)         (* (e)[t+1] *)
| WIndexParen (e k : wexpr)                 (* (e)[1] *)
with wshift :=
| WNow                                      (* t *)
| WThen (k : wshift) (o : sign) (m : wproduct)   (* t ... + m *)
with wproduct :=
| WFactor (f : wexpr)                       (* f *)
| WTimes (m : wproduct) (o : mulop) (f : wexpr). (* m * f, m / f *)

Fixpoint tokens (e : wexpr) : list token :=
  match e with
  | WNumber n => [TkNumber n]
  | WName x => [TkIdentifier x]
  | WField p f => [TkIdentifier p; TkDot; TkIdentifier f]
  | WNeg e => TkSign Minus :: tokens e
  | WParen e => TkOpen :: tokens e ++ [TkClose]
  | WMul o l r => tokens l ++ TkMulop o :: tokens r
  | WAdd o l r => tokens l ++ TkSign o :: tokens r
  | WCmp c l r => tokens l ++ TkComparison c :: tokens r
  | WSumAll e => TkSum :: TkOpen :: tokens e ++ [TkClose]
  | WSumPorts p f => [TkSumConnections; TkOpen; TkIdentifier p; TkDot; TkIdentifier f; TkClose]
  | WSumOver a b e =>
      TkSum :: TkOpen :: shift_tokens a ++ TkDotDot :: shift_tokens b ++ TkComma :: tokens e ++ [TkClose]
  | WCall f e => TkIdentifier f :: TkOpen :: tokens e ++ [TkClose]
  | WAt x k => TkIdentifier x :: TkOpenBracket :: shift_tokens k ++ [TkCloseBracket]
  | WIndex x k => TkIdentifier x :: TkOpenBracket :: tokens k ++ [TkCloseBracket]
  | WAtParen e k => TkOpen :: tokens e ++ TkClose :: TkOpenBracket :: shift_tokens k ++ [TkCloseBracket]
  | WIndexParen e k => TkOpen :: tokens e ++ TkClose :: TkOpenBracket :: tokens k ++ [TkCloseBracket]
  end
with shift_tokens (k : wshift) : list token :=
  match k with
  | WNow => [TkTime]
  | WThen k o m => shift_tokens k ++ TkSign o :: product_tokens m
  end
with product_tokens (m : wproduct) : list token :=
  match m with
  | WFactor f => tokens f
  | WTimes m o f => product_tokens m ++ TkMulop o :: tokens f
  end.

(** how tightly the outermost construct binds *)
Definition strength (e : wexpr) : Z :=
  match e with WMul _ _ _ => 11 | WAdd _ _ _ => 10 | WCmp _ _ _ => 9 | _ => 13 end.
Definition simple_factor (e : wexpr) : Prop :=
  match e with WNumber _ | WName _ | WParen _ => True | _ => False end.

(** no parenthesis is missing: a product binds more tightly than a sum and a sum more than a
    comparison; at the same level what is on the left comes first; a minus sign applies to what
    follows directly; the factors of a shift are numbers, names and parentheses *)
Fixpoint unambiguous (e : wexpr) : Prop :=
  match e with
  | WNumber _ | WName _ | WField _ _ | WSumPorts _ _ => True
  | WNeg e => (13 <= strength e)%Z /\ unambiguous e
  | WMul _ l r => (11 <= strength l)%Z /\ (12 <= strength r)%Z /\ unambiguous l /\ unambiguous r
  | WAdd _ l r => (10 <= strength l)%Z /\ (11 <= strength r)%Z /\ unambiguous l /\ unambiguous r
  | WCmp _ l r => (9 <= strength l)%Z /\ (10 <= strength r)%Z /\ unambiguous l /\ unambiguous r
  | WParen e | WSumAll e | WCall _ e | WIndex _ e => unambiguous e
  | WSumOver a b e => unambiguous_shift a /\ unambiguous_shift b /\ unambiguous e
  | WAt _ k => unambiguous_shift k
  | WAtParen e k => unambiguous e /\ unambiguous_shift k
  | WIndexParen e k => unambiguous e /\ unambiguous k
  end
with unambiguous_shift (k : wshift) : Prop :=
  match k with
  | WNow => True
  | WThen k _ m => unambiguous_shift k /\ unambiguous_product m
  end
with unambiguous_product (m : wproduct) : Prop :=
  match m with
  | WFactor f => simple_factor f /\ unambiguous f
  | WTimes m _ f => unambiguous_product m /\ simple_factor f /\ unambiguous f
  end.

(** ** Meaning.  [vars] are the names that are variables; other names are parameters. *)
Section Meaning.
  Variable E : env.
  Variable vars : list string.

  Definition name_value (x : string) (t s : Z) : option Qc :=
    if existsb (String.eqb x) vars then Some (e_var E x t s) else e_par E x t s.
  Definition muldiv (o : mulop) : option Qc -> option Qc -> option Qc :=
    match o with Times => olift2 Qcmult | Over => odiv end.
  Definition addsub (o : sign) : option Qc -> option Qc -> option Qc :=
    match o with Plus => olift2 Qcplus | Minus => olift2 Qcminus end.

  Fixpoint meaning (e : wexpr) (t s : Z) : option Qc :=
    match e with
    | WNumber n => Some (decimal_value n)
    | WName x => name_value x t s
    | WField p f => match e_port E p f with [v] => v t s | _ => None end
    | WNeg e => option_map Qcopp (meaning e t s)
    | WParen e => meaning e t s
    | WMul o l r => muldiv o (meaning l t s) (meaning r t s)
    | WAdd o l r => addsub o (meaning l t s) (meaning r t s)
    | WCmp _ _ _ => None
    | WSumAll e => osum (map (fun i => meaning e i s) (zrange 0 (e_T E)))
    | WSumPorts p f => osum (map (fun v => v t s) (e_port E p f))
    | WSumOver a b e =>
        match oint (shift_meaning a t s), oint (shift_meaning b t s) with
        | Some i, Some j => osum (map (fun k => meaning e (t + k) s) (zrange i (j + 1)))
        | _, _ => None
        end
    | WCall f e => if String.eqb f "expec" then omean (e_S E) (map (fun i => meaning e t i) (zrange 0 (e_S E))) else None
    | WAt x k => match oint (shift_meaning k t s) with Some z => name_value x (t + z) s | None => None end
    | WIndex x k => match oint (meaning k t s) with Some z => name_value x z s | None => None end
    | WAtParen e k => match oint (shift_meaning k t s) with Some z => meaning e (t + z) s | None => None end
    | WIndexParen e k => match oint (meaning k t s) with Some z => meaning e z s | None => None end
    end
  with shift_meaning (k : wshift) (t s : Z) : option Qc :=
    match k with
    | WNow => Some 0
    | WThen k o m => addsub o (shift_meaning k t s) (product_meaning m t s)
    end
  with product_meaning (m : wproduct) (t s : Z) : option Qc :=
    match m with
    | WFactor f => meaning f t s
    | WTimes m o f => muldiv o (product_meaning m t s) (meaning f t s)
    end.
End Meaning.

(** every name is declared and every function is known *)
Fixpoint declared (ids : identifiers) (e : wexpr) : Prop :=
  let known x := In x (id_variables ids) \/ In x (id_parameters ids) in
  match e with
  | WNumber _ | WField _ _ | WSumPorts _ _ => True
  | WName x => known x
  | WNeg e | WParen e | WSumAll e => declared ids e
  | WMul _ l r | WAdd _ l r | WCmp _ l r => declared ids l /\ declared ids r
  | WSumOver a b e => declared_shift ids a /\ declared_shift ids b /\ declared ids e
  | WCall f e => f = "expec" /\ declared ids e
  | WAt x k => known x /\ declared_shift ids k
  | WIndex x k => known x /\ declared ids k
  | WAtParen e k => declared ids e /\ declared_shift ids k
  | WIndexParen e k => declared ids e /\ declared ids k
  end
with declared_shift (ids : identifiers) (k : wshift) : Prop :=
  match k with
  | WNow => True
  | WThen k _ m => declared_shift ids k /\ declared_product ids m
  end
with declared_product (ids : identifiers) (m : wproduct) : Prop :=
  match m with
  | WFactor f => declared ids f
  | WTimes m _ f => declared_product ids m /\ declared ids f
  end.

(** The two ways in which the code does not read what is written: brackets after a parenthesis, and a
    shift whose first term starts with a division and goes on with another factor. *)
Fixpoint first_division (m : wproduct) : bool :=
  match m with
  | WTimes (WFactor _) Over _ => true
  | WTimes m _ _ => first_division m
  | _ => false
  end.
Definition misread_term (m : wproduct) : bool :=
  match m with WTimes (WTimes _ _ _) _ _ => first_division m | _ => false end.
Fixpoint plain (e : wexpr) : Prop :=
  match e with
  | WNumber _ | WName _ | WField _ _ | WSumPorts _ _ => True
  | WNeg e | WParen e | WSumAll e | WCall _ e | WIndex _ e => plain e
  | WMul _ l r | WAdd _ l r | WCmp _ l r => plain l /\ plain r
  | WSumOver a b e => plain_shift a /\ plain_shift b /\ plain e
  | WAt _ k => plain_shift k
  | WAtParen _ _ | WIndexParen _ _ => False
  end
with plain_shift (k : wshift) : Prop :=
  match k with
  | WNow => True
  | WThen WNow _ m => misread_term m = false /\ plain_product m
  | WThen k _ m => plain_shift k /\ plain_product m
  end
with plain_product (m : wproduct) : Prop :=
  match m with
  | WFactor f => plain f
  | WTimes m _ f => plain_product m /\ plain f
  end.
