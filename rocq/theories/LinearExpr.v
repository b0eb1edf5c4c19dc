(** Linear expressions (src/andromede/simulation/linear_expression.py).  Definitions only.
    This file gives the value-level model: each operator as a function of the values of its
    operands.  Which objects are mutated or shared is the subject of LinearHeap.v. *)
From Verif Require Import Base.

(** linear_expression.py:119-129 `TermKey` (frozen dataclass, compared field by field) *)
Record term_key := {
  tk_component : string;
  tk_variable : string;
  tk_time : option Z;
  tk_scenario : option Z
}.

(** `==` on Optional[int]; linear_expression.py:119-129, the indices of TermKey *)
Definition oz_eqb (a b : option Z) : bool :=
  match a, b with
  | None, None => true
  | Some x, Some y => Z.eqb x y
  | _, _ => false
  end.
(** `==` generated for TermKey, linear_expression.py:119 *)
Definition tk_eqb (a b : term_key) : bool :=
  String.eqb (tk_component a) (tk_component b) && String.eqb (tk_variable a) (tk_variable b)
  && oz_eqb (tk_time a) (tk_time b) && oz_eqb (tk_scenario a) (tk_scenario b).

(** linear_expression.py:31 `EPS = 10 ** (-16)` (the float is taken as the exact rational) *)
Definition EPS : Qc := Q2Qc (1 # (10 ^ 16)).

(** linear_expression.py:34-35 `is_close_abs` *)
Definition is_close_abs (value other eps : num) : bool := nltb (nabs (nsub value other)) eps.
(** linear_expression.py:38-47 *)
Definition is_zero (v : num) : bool := is_close_abs v n0 (Fin EPS).
(** linear_expression.py:42-43 *)
Definition is_one (v : num) : bool := is_close_abs v n1 (Fin EPS).
(** linear_expression.py:46-47 *)
Definition is_minus_one (v : num) : bool := is_close_abs v (nz (-1)) (Fin EPS).

(** linear_expression.py:171-211 `Term`, `generate_key`.  A Term is its key and coefficient; a
    dict entry [k: Term] is modelled by (k, coefficient), i.e. the identity repeated inside the
    Term is taken to be that of its key (true for every dict built by this module and by
    linearize.py; a caller handing a mismatched dict to the constructor is not modelled). *)
Definition term : Type := (term_key * num)%type.
(** linear_expression.py:266, the type of `terms` *)
Definition terms_dict : Type := dict term_key num.

(** linear_expression.py:249-267 `LinearExpression` *)
Record lin_expr := { le_terms : terms_dict; le_constant : num }.

(** linear_expression.py:284-287: constructor from a dict *)
Definition non_zero_terms (d : terms_dict) : terms_dict :=
  filter (fun kt => negb (is_zero (snd kt))) d.
(** linear_expression.py:269-287: the object made from a dict *)
Definition le_of_dict (d : terms_dict) (constant : num) : lin_expr :=
  {| le_terms := non_zero_terms d; le_constant := constant |}.

(** linear_expression.py:288-291: constructor from a list; a later term with the same key
    replaces an earlier one *)
Definition le_of_list (l : list term) (constant : num) : lin_expr :=
  {| le_terms := fold_left (fun d kt =>
                    if is_zero (snd kt) then d else dset tk_eqb (fst kt) (snd kt) d) l [];
     le_constant := constant |}.

(** linear_expression.py:269-275: `LinearExpression()` *)
Definition le_empty : lin_expr := {| le_terms := []; le_constant := n0 |}.

(** linear_expression.py:297-298 `is_zero` *)
Definition le_is_zero (e : lin_expr) : bool :=
  match le_terms e with [] => is_zero (le_constant e) | _ => false end.

(** linear_expression.py:214-226 `_merge_dicts`; both dicts have distinct keys, so the result
    is the list of the entries in insertion order *)
Definition merge_dicts (lhs rhs : terms_dict) (f : option num -> option num -> num) : terms_dict :=
  map (fun kv => (fst kv, f (Some (snd kv)) (dget tk_eqb (fst kv) rhs))) lhs
  ++ map (fun kv => (fst kv, f None (Some (snd kv))))
       (filter (fun kv => negb (dmem tk_eqb (fst kv) lhs)) rhs).

(** linear_expression.py:229-236 `_add_terms`; two absent terms never occur ([_merge_dicts]
    calls it with at least one), the ValueError there is not modelled *)
Definition add_terms (l r : option num) : num :=
  match l, r with
  | Some a, Some b => nadd a b
  | Some a, None => a
  | None, Some b => b
  | None, None => NaN
  end.
(** linear_expression.py:239-246 `_substract_terms`, same remark *)
Definition substract_terms (l r : option num) : num :=
  match l, r with
  | Some a, Some b => nsub a b
  | Some a, None => a
  | None, Some b => nneg b
  | None, None => NaN
  end.

(** linear_expression.py:429-433 `remove_zeros_from_terms` *)
Definition remove_zeros (d : terms_dict) : terms_dict :=
  filter (fun kt => negb (is_close_abs (snd kt) n0 (Fin EPS))) d.

(** linear_expression.py:327-334 `__iadd__`: new value of self *)
Definition le_iadd (self rhs : lin_expr) : lin_expr :=
  {| le_terms := remove_zeros (merge_dicts (le_terms self) (le_terms rhs) add_terms);
     le_constant := nadd (le_constant self) (le_constant rhs) |}.
(** linear_expression.py:336-340 `__add__` *)
Definition le_add (a b : lin_expr) : lin_expr := le_iadd (le_iadd le_empty a) b.

(** linear_expression.py:342-349 `__isub__` *)
Definition le_isub (self rhs : lin_expr) : lin_expr :=
  {| le_terms := remove_zeros (merge_dicts (le_terms self) (le_terms rhs) substract_terms);
     le_constant := nsub (le_constant self) (le_constant rhs) |}.
(** linear_expression.py:351-355 `__sub__` *)
Definition le_sub (a b : lin_expr) : lin_expr := le_isub (le_iadd le_empty a) b.
(** linear_expression.py:357-360 `__neg__` *)
Definition le_neg (a : lin_expr) : lin_expr := le_isub le_empty a.

(** python truth value of a dict; linear_expression.py:366, 369, 403 *)
Definition has_terms (e : lin_expr) : bool := match le_terms e with [] => false | _ => true end.

(** linear_expression.py:362-391 `__imul__`: value of the returned expression *)
Definition le_imul (self rhs : lin_expr) : result lin_expr :=
  if has_terms self && has_terms rhs then Err ValueError
  else
    let (left, const) := if has_terms self then (self, rhs) else (rhs, self) in
    if is_close_abs (le_constant const) n0 (Fin EPS) then Ok le_empty
    else if is_close_abs (le_constant const) n1 (Fin EPS) then Ok left
    else Ok {| le_terms := map (fun kt => (fst kt, nmul (snd kt) (le_constant const))) (le_terms left);
               le_constant := nmul (le_constant left) (le_constant const) |}.
(** linear_expression.py:393-397 `__mul__` *)
Definition le_mul (a b : lin_expr) : result lin_expr := le_imul (le_iadd le_empty a) b.

(** linear_expression.py:399-420 `__itruediv__`.  Divisions by rhs.constant are float divisions;
    the divisor is not zero here, so the [Err] of [ndiv] is not reached. *)
Definition le_itruediv (self rhs : lin_expr) : result lin_expr :=
  if has_terms rhs then Err ValueError
  else if is_close_abs (le_constant rhs) n0 (Fin EPS) then Err ZeroDivisionError
  else if is_close_abs (le_constant rhs) n1 (Fin EPS) then Ok self
  else
    c <- ndiv (le_constant self) (le_constant rhs) ;;
    ts <- mapM (fun kt => q <- ndiv (snd kt) (le_constant rhs) ;; Ok (fst kt, q)) (le_terms self) ;;
    Ok {| le_terms := ts; le_constant := c |}.
(** linear_expression.py:422-427 `__truediv__` *)
Definition le_truediv (a b : lin_expr) : result lin_expr := le_itruediv (le_iadd le_empty a) b.

(** python `==` of the two term dicts: same keys, equal coefficients (float `==`); linear_expression.py:319-325 *)
Definition terms_eqb (a b : terms_dict) : bool :=
  Nat.eqb (List.length a) (List.length b) &&
  forallb (fun kt => match dget tk_eqb (fst kt) b with
                     | Some v => neqb (snd kt) v
                     | None => false end) a.
(** linear_expression.py:319-325 `__eq__` *)
Definition le_eqb (a b : lin_expr) : bool :=
  is_close_abs (le_constant a) (le_constant b) (Fin EPS) && terms_eqb (le_terms a) (le_terms b).
