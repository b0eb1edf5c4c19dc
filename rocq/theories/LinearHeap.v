(** Linear expressions as mutable objects (src/andromede/simulation/linear_expression.py).
    Definitions only.  LinearExpr.v gives the values computed by the operators; here each
    operator acts on a heap, so that sharing of the [terms] dict between objects is visible.
    [Term] objects are frozen and need no heap. *)
From Verif Require Import Base LinearExpr.

(** linear_expression.py:266-267: an object holds a reference to a dict and a constant *)
Record obj := { o_dict : nat; o_constant : num }.
(** the heap: all LinearExpression objects and all term dicts ever created, in creation order; linear_expression.py:249-267 *)
Record heap := { h_objs : list obj; h_dicts : list terms_dict }.

(** an object of the heap replaced: assignments to attributes, linear_expression.py:274-275, 328-334 *)
Fixpoint list_set {A} (n : nat) (a : A) (l : list A) : list A :=
  match l, n with
  | [], _ => []
  | _ :: l, O => a :: l
  | b :: l, S n => b :: list_set n a l
  end.

(** attribute reads; a reference that is not on the heap does not occur in Python and gives
    [AttributeErr]; linear_expression.py:327-334 *)
Definition get_obj (h : heap) (i : nat) : result obj :=
  match nth_error (h_objs h) i with Some o => Ok o | None => Err AttributeErr end.
(** `self.terms`, linear_expression.py:332 *)
Definition get_terms (h : heap) (i : nat) : result terms_dict :=
  o <- get_obj h i ;;
  match nth_error (h_dicts h) (o_dict o) with Some d => Ok d | None => Err AttributeErr end.
(** `self.constant`, linear_expression.py:330 *)
Definition get_constant (h : heap) (i : nat) : result num :=
  o <- get_obj h i ;; Ok (o_constant o).

(** attribute writes: `self.constant = c`, `self.terms = <new dict d>`, and item assignment in
    the existing dict; linear_expression.py:330, 345 *)
Definition set_constant (h : heap) (i : nat) (c : num) : result heap :=
  o <- get_obj h i ;;
  Ok {| h_objs := list_set i {| o_dict := o_dict o; o_constant := c |} (h_objs h);
        h_dicts := h_dicts h |}.
(** `self.terms = ...`, linear_expression.py:331-332, 346-347 *)
Definition set_new_terms (h : heap) (i : nat) (d : terms_dict) : result heap :=
  o <- get_obj h i ;;
  Ok {| h_objs := list_set i {| o_dict := List.length (h_dicts h); o_constant := o_constant o |} (h_objs h);
        h_dicts := h_dicts h ++ [d] |}.
(** item assignment in `self.terms`, linear_expression.py:382-389, 412-419, 431-433 *)
Definition mutate_terms (h : heap) (i : nat) (d : terms_dict) : result heap :=
  o <- get_obj h i ;;
  Ok {| h_objs := h_objs h; h_dicts := list_set (o_dict o) d (h_dicts h) |}.

(** linear_expression.py:269-295: a new object with its own dict *)
Definition h_new (h : heap) (e : lin_expr) : heap * nat :=
  ({| h_objs := h_objs h ++ [{| o_dict := List.length (h_dicts h); o_constant := le_constant e |}];
      h_dicts := h_dicts h ++ [le_terms e] |}, List.length (h_objs h)).

(** linear_expression.py:327-334 `__iadd__`; the zeros are removed from the new dict before
    it is stored (Python stores it, then deletes the zeros from it) *)
Definition h_iadd (h : heap) (self rhs : nat) : result (heap * nat) :=
  c1 <- get_constant h self ;;
  c2 <- get_constant h rhs ;;
  h1 <- set_constant h self (nadd c1 c2) ;;
  d1 <- get_terms h1 self ;;
  d2 <- get_terms h1 rhs ;;
  h2 <- set_new_terms h1 self (remove_zeros (merge_dicts d1 d2 add_terms)) ;;
  Ok (h2, self).
(** linear_expression.py:342-349 `__isub__`, same remark *)
Definition h_isub (h : heap) (self rhs : nat) : result (heap * nat) :=
  c1 <- get_constant h self ;;
  c2 <- get_constant h rhs ;;
  h1 <- set_constant h self (nsub c1 c2) ;;
  d1 <- get_terms h1 self ;;
  d2 <- get_terms h1 rhs ;;
  h2 <- set_new_terms h1 self (remove_zeros (merge_dicts d1 d2 substract_terms)) ;;
  Ok (h2, self).

(** linear_expression.py:436-438 `_copy_expression`: the dict is shared *)
Definition h_copy (h : heap) (src dst : nat) : result heap :=
  o <- get_obj h src ;;
  _ <- get_obj h dst ;;
  Ok {| h_objs := list_set dst {| o_dict := o_dict o; o_constant := o_constant o |} (h_objs h);
        h_dicts := h_dicts h |}.

(** linear_expression.py:362-391 `__imul__` *)
Definition h_imul (h : heap) (self rhs : nat) : result (heap * nat) :=
  ds <- get_terms h self ;;
  dr <- get_terms h rhs ;;
  match ds, dr with
  | _ :: _, _ :: _ => Err ValueError
  | _, _ =>
      let (left, const) := match ds with _ :: _ => (self, rhs) | [] => (rhs, self) end in
      c <- get_constant h const ;;
      if is_close_abs c n0 (Fin EPS) then Ok (h_new h le_empty)
      else if is_close_abs c n1 (Fin EPS) then
        h1 <- h_copy h left self ;; Ok (h1, self)
      else
        cl <- get_constant h left ;;
        h1 <- set_constant h left (nmul cl c) ;;
        c1 <- get_constant h1 const ;;
        d <- get_terms h1 left ;;
        h2 <- mutate_terms h1 left (map (fun kt => (fst kt, nmul (snd kt) c1)) d) ;;
        h3 <- h_copy h2 left self ;;
        Ok (h3, self)
  end.

(** linear_expression.py:399-420 `__itruediv__` *)
Definition h_itruediv (h : heap) (self rhs : nat) : result (heap * nat) :=
  dr <- get_terms h rhs ;;
  match dr with
  | _ :: _ => Err ValueError
  | [] =>
      c <- get_constant h rhs ;;
      if is_close_abs c n0 (Fin EPS) then Err ZeroDivisionError
      else if is_close_abs c n1 (Fin EPS) then Ok (h, self)
      else
        cs <- get_constant h self ;;
        q <- ndiv cs c ;;
        h1 <- set_constant h self q ;;
        d <- get_terms h1 self ;;
        c1 <- get_constant h1 rhs ;;
        d' <- mapM (fun kt => q <- ndiv (snd kt) c1 ;; Ok (fst kt, q)) d ;;
        h2 <- mutate_terms h1 self d' ;;
        Ok (h2, self)
  end.

(** linear_expression.py:336-340, 351-355, 357-360, 393-397, 422-427: the operators start from a
    new empty object *)
Definition h_add (h : heap) (a b : nat) : result (heap * nat) :=
  let (h0, r) := h_new h le_empty in
  x <- h_iadd h0 r a ;; h_iadd (fst x) (snd x) b.
(** linear_expression.py:351-355 `__sub__` *)
Definition h_sub (h : heap) (a b : nat) : result (heap * nat) :=
  let (h0, r) := h_new h le_empty in
  x <- h_iadd h0 r a ;; h_isub (fst x) (snd x) b.
(** linear_expression.py:357-360 `__neg__` *)
Definition h_neg (h : heap) (a : nat) : result (heap * nat) :=
  let (h0, r) := h_new h le_empty in h_isub h0 r a.
(** linear_expression.py:393-397 `__mul__` *)
Definition h_mul (h : heap) (a b : nat) : result (heap * nat) :=
  let (h0, r) := h_new h le_empty in
  x <- h_iadd h0 r a ;; h_imul (fst x) (snd x) b.
(** linear_expression.py:422-427 `__truediv__` *)
Definition h_truediv (h : heap) (a b : nat) : result (heap * nat) :=
  let (h0, r) := h_new h le_empty in
  x <- h_iadd h0 r a ;; h_itruediv (fst x) (snd x) b.

(** the value of an object; linear_expression.py:266-267 *)
Definition h_value (h : heap) (i : nat) : result lin_expr :=
  d <- get_terms h i ;; c <- get_constant h i ;; Ok {| le_terms := d; le_constant := c |}.

(** one statement of a program working on linear expressions; the references are positions on
    the heap; linear_expression.py:269-427 *)
Inductive stmt :=
| SNew (e : lin_expr)
| SAdd (a b : nat) | SSub (a b : nat) | SNeg (a : nat) | SMul (a b : nat) | SDiv (a b : nat)
| SIAdd (a b : nat) | SISub (a b : nat) | SIMul (a b : nat) | SIDiv (a b : nat).
(** the method run by each statement, linear_expression.py:269-427 *)
Definition exec (h : heap) (s : stmt) : result (heap * nat) :=
  match s with
  | SNew e => Ok (h_new h e)
  | SAdd a b => h_add h a b
  | SSub a b => h_sub h a b
  | SNeg a => h_neg h a
  | SMul a b => h_mul h a b
  | SDiv a b => h_truediv h a b
  | SIAdd a b => h_iadd h a b
  | SISub a b => h_isub h a b
  | SIMul a b => h_imul h a b
  | SIDiv a b => h_itruediv h a b
  end.
(** a program; a statement that raises leaves the heap as it was and the program goes on
    (the errors are raised before any write, except that a new empty object may remain,
    which nothing refers to); linear_expression.py:269-427 *)
Fixpoint exec_all (h : heap) (p : list stmt) : heap :=
  match p with
  | [] => h
  | s :: p => match exec h s with Ok (h', _) => exec_all h' p | Err _ => exec_all h p end
  end.
