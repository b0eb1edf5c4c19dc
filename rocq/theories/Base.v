(** Base layer of the model: exceptions as values, python numbers, dicts, ranges.

    This file contains definitions only (no proofs).  The definitions here model python
    built-ins rather than lines of /repo; where a built-in is used by the repository the
    place is cited. *)
From Coq Require Export String ZArith QArith Qcanon Bool List.
Export ListNotations.

(** ** Exceptions as values.
    Kinds of python exceptions raised by the modelled code (messages are not modelled), e.g. in
    expression/evaluate.py:76, 101, 122 and linearize.py:154, 171, 186. *)
Inductive err :=
| ValueError          (* `raise ValueError(...)`, e.g. expression/copy users, linearize.py:154 *)
| KeyError            (* `d[k]` on a missing key, e.g. expression/evaluate.py:76 *)
| IndexError          (* `l[0]` on an empty list, expression/visitor.py:217 *)
| TypeError           (* linearize.py:186 *)
| ZeroDivisionError   (* float division, linearize.py:171 *)
| NotImplementedErr   (* `raise NotImplementedError()`, expression/evaluate.py:122 *)
| AttributeErr        (* attribute access on None *)
| RuntimeErr          (* `raise RuntimeError(...)`, simulation/optimization.py:333 *)
| AssertionErr        (* `assert`, study/resolve_components.py:102 *)
| GenericException    (* `raise Exception(...)` *)
| FileNotFoundErr     (* `raise FileNotFoundError`, input_converter/src/utils.py:23, 60 *)
| UnboundLocalErr     (* a name used before it is bound, study/data.py:142 *)
| SeriesImportErr     (* `AntaresTimeSeriesImportError`, main/main.py:32-33, 79-82 *)
| SystemExit          (* `parser.error`, study/parsing.py:102, 116 *)
| OutOfFuel.          (* only for fuelled recursion; excluded in the theorems *)

(** what a call returns or raises, e.g. expression/evaluate.py:100-107 *)
Inductive result (A : Type) :=
| Ok (a : A)
| Err (e : err).
Arguments Ok {A} a.
Arguments Err {A} e.

(** Sequencing: python statements stop at the first exception; e.g. linearize.py:144-160 *)
Definition bind {A B} (x : result A) (f : A -> result B) : result B :=
  match x with Ok a => f a | Err e => Err e end.
(** notation of [bind], for sequences of statements such as linearize.py:144-160 *)
Notation "x <- a ;; b" := (bind a (fun x => b))
  (at level 61, a at next level, right associativity).
(** the same with a pattern, for the tuple assignments such as simulation/output_values.py:86 *)
Notation "' p <- a ;; b" := (bind a (fun p => b))
  (at level 61, p pattern, a at next level, right associativity).

(** whether a call returns, as opposed to the raises of, e.g., expression/evaluate.py:100-107 *)
Definition is_ok {A} (x : result A) : bool := match x with Ok _ => true | Err _ => false end.

(** [[f(x) for x in l]] where [f] may raise: left to right, first exception wins. *)
Section MapM.
  Context {A B : Type} (f : A -> result B).
  (** e.g. expression/visitor.py:216 *)
  Fixpoint mapM (l : list A) : result (list B) :=
    match l with
    | [] => Ok []
    | a :: l' => b <- f a ;; bs <- mapM l' ;; Ok (b :: bs)
    end.
End MapM.

(** [for x in l: acc = f(acc, x)] where [f] may raise. *)
Section FoldM.
  Context {A B : Type} (f : B -> A -> result B).
  (** e.g. expression/visitor.py:218-219 *)
  Fixpoint foldM (acc : B) (l : list A) : result B :=
    match l with
    | [] => Ok acc
    | a :: l' => acc' <- f acc a ;; foldM acc' l'
    end.
End FoldM.

(** ** Python floats without rounding: exact rationals plus the IEEE special values: the type float of,
    e.g., expression/evaluate.py:97 and simulation/linear_expression.py:267. *)
Inductive num :=
| Fin (q : Qc)
| PInf
| NInf
| NaN.

(** `<=` on finite numbers, used by [nleb] (expression/expression.py:340) *)
Definition Qcleb (a b : Qc) : bool := Qle_bool a b.
(** `<` on finite numbers (decision_tree.py:68) *)
Definition Qcltb (a b : Qc) : bool := negb (Qle_bool b a).
(** `==` on finite numbers, used by [neqb] (expression/expression.py:336) *)
Definition Qceqb (a b : Qc) : bool := Qeq_bool a b.
(** `abs` of a finite number, used by [nabs] (simulation/linear_expression.py:34-35) *)
Definition Qcabs (a : Qc) : Qc := if Qcleb 0 a then a else (- a)%Qc.
(** an int seen as a number (linear_expression.py:275, `self.constant = 0`) *)
Definition Z2Qc (z : Z) : Qc := Q2Qc (inject_Z z).

(** an int literal where a float is expected, e.g. linear_expression.py:46-47 *)
Definition nz (z : Z) : num := Fin (Z2Qc z).
(** the literal 0, e.g. linear_expression.py:38-39 *)
Definition n0 : num := Fin 0%Qc.
(** the literal 1, e.g. linear_expression.py:42-43 *)
Definition n1 : num := Fin 1%Qc.

(** float [-x]; expression/visitor.py:213 *)
Definition nneg (a : num) : num :=
  match a with Fin q => Fin (- q)%Qc | PInf => NInf | NInf => PInf | NaN => NaN end.

(** float [x + y]: inf + -inf = nan; expression/visitor.py:219 *)
Definition nadd (a b : num) : num :=
  match a, b with
  | NaN, _ | _, NaN => NaN
  | Fin x, Fin y => Fin (x + y)%Qc
  | Fin _, b => b
  | a, Fin _ => a
  | PInf, PInf => PInf
  | NInf, NInf => NInf
  | _, _ => NaN
  end.

(** float [x - y]; linear_expression.py:35 *)
Definition nsub (a b : num) : num := nadd a (nneg b).

(** sign of a finite number, as used by the rules for infinities; for `*` and `/` at expression/visitor.py:225, 230 *)
Definition qsgn (q : Qc) : comparison := (q ?= 0)%Qc.

(** [inf * q]; for `*` and `/` at expression/visitor.py:225, 230 *)
Definition inf_times (q : Qc) : num :=
  match qsgn q with Gt => PInf | Lt => NInf | Eq => NaN end.

(** float [x * y]: 0 * inf = nan *)
Definition nmul (a b : num) : num :=
  match a, b with
  | NaN, _ | _, NaN => NaN
  | Fin x, Fin y => Fin (x * y)%Qc
  | Fin x, PInf => inf_times x
  | Fin x, NInf => nneg (inf_times x)
  | PInf, Fin y => inf_times y
  | NInf, Fin y => nneg (inf_times y)
  | PInf, PInf => PInf
  | NInf, NInf => PInf
  | _, _ => NInf
  end.

(** float [x / y]: division by zero raises ZeroDivisionError, whatever the dividend; expression/visitor.py:230 *)
Definition ndiv (a b : num) : result num :=
  match b with
  | Fin y =>
      if Qceqb y 0 then Err ZeroDivisionError
      else Ok (match a with
               | Fin x => Fin (x / y)%Qc
               | PInf => inf_times y
               | NInf => nneg (inf_times y)
               | NaN => NaN
               end)
  | NaN => Ok NaN
  | _ => Ok (match a with Fin _ => n0 | _ => NaN end)
  end.

(** comparisons; any comparison with nan is False; expression/expression.py:340 *)
Definition nleb (a b : num) : bool :=
  match a, b with
  | NaN, _ | _, NaN => false
  | Fin x, Fin y => Qcleb x y
  | NInf, _ => true
  | _, PInf => true
  | _, _ => false
  end.
(** float `==`, expression/expression.py:336 *)
Definition neqb (a b : num) : bool :=
  match a, b with
  | Fin x, Fin y => Qceqb x y
  | PInf, PInf => true
  | NInf, NInf => true
  | _, _ => false
  end.
(** float `<`, simulation/linear_expression.py:34-35, decision_tree.py:68 *)
Definition nltb (a b : num) : bool := nleb a b && negb (neqb a b).
(** `abs(x)`, simulation/linear_expression.py:34-35 *)
Definition nabs (a : num) : num :=
  match a with Fin q => Fin (Qcabs q) | PInf | NInf => PInf | NaN => NaN end.
(** whether a float is infinite, as math.isclose asks (expression/equality.py:117) *)
Definition nisinf (a : num) : bool := match a with PInf | NInf => true | _ => false end.

(** [math.isclose(a, b, rel_tol=rel, abs_tol=abs)] of the python standard library
    (used in expression/equality.py:117, simulation/output_values.py, decision_tree.py). *)
Definition isclose (rel_tol abs_tol a b : num) : result bool :=
  if nltb rel_tol n0 || nltb abs_tol n0 then Err ValueError
  else if neqb a b then Ok true
  else if nisinf a || nisinf b then Ok false
  else
    let diff := nabs (nsub b a) in
    Ok (nleb diff (nabs (nmul rel_tol b)) || nleb diff (nabs (nmul rel_tol a))
        || nleb diff abs_tol).

(** ** Python dicts: insertion ordered; updating an existing key keeps its place. *)
Section Dict.
  Context {K V : Type} (eqb : K -> K -> bool).
  (** e.g. expression/evaluate.py:72-73 *)
  Definition dict := list (K * V).
  (** `d.get(k)`; `d[k]` raises KeyError where this is None, e.g. expression/evaluate.py:75-79 *)
  Fixpoint dget (k : K) (d : dict) : option V :=
    match d with
    | [] => None
    | (k', v) :: d' => if eqb k k' then Some v else dget k d'
    end.
  (** `d[k] = v`, e.g. study/data.py:48, 249 *)
  Fixpoint dset (k : K) (v : V) (d : dict) : dict :=
    match d with
    | [] => [(k, v)]
    | (k', v') :: d' => if eqb k k' then (k', v) :: d' else (k', v') :: dset k v d'
    end.
  (** `k in d`, e.g. study/data.py:46, 254 *)
  Definition dmem (k : K) (d : dict) : bool :=
    match dget k d with Some _ => true | None => false end.
End Dict.
Arguments dict K V : clear implicits.

(** [range(a, b)] over integers; simulation/optimization.py:253, 256 *)
Definition zrange (a b : Z) : list Z :=
  map (fun i => (a + Z.of_nat i)%Z) (seq 0 (Z.to_nat (b - a))).
