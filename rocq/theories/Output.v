(** Output values (src/andromede/simulation/output_values.py).  Definitions only. *)
From Verif Require Import Base Expr LinearExpr Optim.
Local Open Scope list_scope.

(** what `value` takes and returns, output_values.py:85, 102: a number or a list whose items are
    numbers or lists of numbers *)
Inductive out_item := INum (v : num) | IList (l : list num).
(** output_values.py:85, 102 *)
Inductive out_value := VNum (v : num) | VList (l : list out_item).

(** study/data.py:22-25 `TimeScenarioIndex` as (time, scenario), with its generated `==` *)
Definition tsi : Type := (Z * Z)%type.
(** `==` generated for TimeScenarioIndex, study/data.py:22-25 *)
Definition tsi_eqb (a b : tsi) : bool := (fst a =? fst b)%Z && (snd a =? snd b)%Z.

(** output_values.py:30-44 `OutputValues.Variable`; [ov_size] is (scenarios, timesteps) *)
Record out_var := {
  ov_name : string;
  ov_value : dict tsi num;
  ov_size : Z * Z;
  ov_ignore : bool
}.
(** output_values.py:41-44: a variable just made *)
Definition new_var (name : string) : out_var :=
  {| ov_name := name; ov_value := []; ov_size := (0, 0)%Z; ov_ignore := false |}.

(** `self._value[TimeScenarioIndex(t, s)]`, output_values.py:90-97 *)
Definition value_at (v : out_var) (t s : Z) : result num :=
  match dget tsi_eqb (t, s) (ov_value v) with Some x => Ok x | None => Err KeyError end.
(** output_values.py:84-99 `value` *)
Definition value (v : out_var) : result out_value :=
  let (size_s, size_t) := ov_size v in
  if (size_t =? 1)%Z then
    if (size_s =? 1)%Z then x <- value_at v 0 0 ;; Ok (VNum x)
    else l <- mapM (fun s => x <- value_at v 0 s ;; Ok (INum x)) (zrange 0 size_s) ;; Ok (VList l)
  else
    l <- mapM (fun s => r <- mapM (fun t => value_at v t s) (zrange 0 size_t) ;; Ok (IList r)) (zrange 0 size_s) ;;
    Ok (VList l).

(** python's `enumerate`, output_values.py:107, 110 *)
Definition enumerate {A} (l : list A) : list (Z * A) := combine (zrange 0 (Z.of_nat (List.length l))) l.
(** output_values.py:107-117: one turn of the loop over scenarios; values so far and [size_t] *)
Definition write_item (acc : dict tsi num * Z) (si : Z * out_item) : dict tsi num * Z :=
  match snd si with
  | IList l => (fold_left (fun d tv => dset tsi_eqb (fst tv, fst si) (snd tv) d) (enumerate l) (fst acc),
                Z.of_nat (List.length l))
  | INum x => (dset tsi_eqb (0%Z, fst si) x (fst acc), snd acc)
  end.
(** output_values.py:101-122 `value.setter` *)
Definition set_value (values : out_value) (v : out_var) : out_var :=
  match values with
  | VList l =>
      let (d, size_t) := fold_left write_item (enumerate l) (ov_value v, 1%Z) in
      {| ov_name := ov_name v; ov_value := d; ov_size := (Z.of_nat (List.length l), size_t); ov_ignore := ov_ignore v |}
  | VNum x =>
      {| ov_name := ov_name v; ov_value := dset tsi_eqb (0, 0)%Z x (ov_value v); ov_size := (1, 1)%Z; ov_ignore := ov_ignore v |}
  end.
(** output_values.py:124-135 `_set` *)
Definition set_one (timestep scenario : option Z) (x : num) (v : out_var) : out_var :=
  let t := match timestep with None => 0%Z | Some t => t end in
  let s := match scenario with None => 0%Z | Some s => s end in
  {| ov_name := ov_name v; ov_value := dset tsi_eqb (t, s) x (ov_value v);
     ov_size := if dmem tsi_eqb (t, s) (ov_value v) then ov_size v
                else (Z.max (fst (ov_size v)) (s + 1), Z.max (snd (ov_size v)) (t + 1))%Z;
     ov_ignore := ov_ignore v |}.
(** `ignore = b` on a variable, output_values.py:44 *)
Definition set_var_ignore (b : bool) (v : out_var) : out_var :=
  {| ov_name := ov_name v; ov_value := ov_value v; ov_size := ov_size v; ov_ignore := b |}.

(** output_values.py:137-143 `OutputValues.Component` *)
Record out_component := { oc_id : string; oc_variables : dict string out_var; oc_ignore : bool }.
(** output_values.py:137-143: a Component as constructed with its id *)
Definition new_component (id : string) : out_component := {| oc_id := id; oc_variables := []; oc_ignore := false |}.
(** output_values.py:175-178: `_components` of an OutputValues *)
Definition outputs : Type := dict string out_component.

(** output_values.py:170-173 `Component.var`: the variable, and the component after the call *)
Definition component_var (c : out_component) (name : string) : out_var * out_component :=
  match dget String.eqb name (oc_variables c) with
  | Some v => (v, c)
  | None => (new_var name, {| oc_id := oc_id c; oc_variables := dset String.eqb name (new_var name) (oc_variables c);
                              oc_ignore := oc_ignore c |})
  end.
(** output_values.py:213-216 `component`: the component, and the outputs after the call *)
Definition output_component (o : outputs) (id : string) : out_component * outputs :=
  match dget String.eqb id o with
  | Some c => (c, o)
  | None => (new_component id, dset String.eqb id (new_component id) o)
  end.

(** a method [f] of the variable that `o.component(id).var(name)` returns, which changes it in place
    (output_values.py:207-211 and callers); the dicts hold the changed objects *)
Definition change_var (id name : string) (f : out_var -> out_var) (o : outputs) : outputs :=
  let (c, o) := output_component o id in
  let (v, c) := component_var c name in
  dset String.eqb id {| oc_id := oc_id c; oc_variables := dset String.eqb name (f v) (oc_variables c);
                        oc_ignore := oc_ignore c |} o.
(** `o.component(id).ignore = b`, output_values.py:143 *)
Definition change_ignore (id : string) (b : bool) (o : outputs) : outputs :=
  let (c, o) := output_component o id in
  dset String.eqb id {| oc_id := oc_id c; oc_variables := oc_variables c; oc_ignore := b |} o.
(** `o.component(id).var(name).value`; output_values.py:84-99 *)
Definition read_output (id name : string) (o : outputs) : result out_value :=
  value (fst (component_var (fst (output_component o id)) name)).

(** output_values.py:202-211 `_build_components`; [solution i] is `solution_value()` of the i-th
    variable of the solver *)
Definition build_outputs (solution : nat -> num) (variables : dict term_key nat) : outputs :=
  fold_left (fun o kv => change_var (tk_component (fst kv)) (tk_variable (fst kv))
                           (set_one (tk_time (fst kv)) (tk_scenario (fst kv)) (solution (snd kv))) o)
    variables [].

(** ** Comparison *)
(** `d1.keys() == d2.keys()`; output_values.py:67 *)
Definition keys_eqb {K V W} (eqb : K -> K -> bool) (a : dict K V) (b : dict K W) : bool :=
  forallb (fun kv => dmem eqb (fst kv) b) a && forallb (fun kv => dmem eqb (fst kv) a) b.
(** python `==` of two dicts of floats; equality of identical NaN objects is not modelled; output_values.py:52 *)
Definition values_eqb {K} (eqb : K -> K -> bool) (a b : dict K num) : bool :=
  keys_eqb eqb a b &&
  forallb (fun kv => match dget eqb (fst kv) a, dget eqb (fst kv) b with
                     | Some x, Some y => neqb x y | _, _ => false end) a.
(** `all(...)` over a generator that may raise; output_values.py:68-76 *)
Fixpoint allM {A} (f : A -> result bool) (l : list A) : result bool :=
  match l with
  | [] => Ok true
  | a :: r => b <- f a ;; if b then allM f r else Ok false
  end.
(** `all(math.isclose(a[key], b[key], ...) for key in a)`, output_values.py:66-74, 277-285 *)
Definition values_close {K} (eqb : K -> K -> bool) (rel_tol abs_tol : num) (a b : dict K num) : result bool :=
  allM (fun kv => match dget eqb (fst kv) a, dget eqb (fst kv) b with
                  | Some x, Some y => isclose rel_tol abs_tol x y
                  | _, _ => Err KeyError end) a.

(** python `==` of two pairs of ints; output_values.py:51, 66 *)
Definition size_eqb (a b : Z * Z) : bool := (fst a =? fst b)%Z && (snd a =? snd b)%Z.
(** output_values.py:46-53 `Variable.__eq__` *)
Definition var_eqb (a b : out_var) : bool :=
  (ov_ignore a || ov_ignore b) ||
  (String.eqb (ov_name a) (ov_name b) && size_eqb (ov_size a) (ov_size b)
   && values_eqb tsi_eqb (ov_value a) (ov_value b)).
(** output_values.py:55-76 `Variable.is_close` *)
Definition var_is_close (rel_tol abs_tol : num) (a b : out_var) : result bool :=
  if ov_ignore a || ov_ignore b then Ok true
  else if String.eqb (ov_name a) (ov_name b) && size_eqb (ov_size a) (ov_size b)
          && keys_eqb tsi_eqb (ov_value a) (ov_value b)
  then values_close tsi_eqb rel_tol abs_tol (ov_value a) (ov_value b)
  else Ok false.

(** output_values.py:222-250 `_are_mappings_close`.  The keys in common are taken in the order of
    [lhs]; python's order of a set differs, which matters only for which exception or result comes
    first with a negative tolerance. *)
Definition are_mappings_close {A} (ignore : A -> bool) (eq : A -> A -> result bool)
  (is_close : num -> num -> A -> A -> result bool) (lhs rhs : dict string A) (rel_tol abs_tol : num) : result bool :=
  if existsb (fun k => negb (dmem String.eqb k rhs) &&
                       match dget String.eqb k lhs with Some a => negb (ignore a) | None => false end) (map fst lhs) then Ok false
  else if existsb (fun k => negb (dmem String.eqb k lhs) &&
                       match dget String.eqb k rhs with Some b => negb (ignore b) | None => false end) (map fst rhs) then Ok false
  else
    allM (fun k => match dget String.eqb k lhs, dget String.eqb k rhs with
                   | Some a, Some b => if neqb rel_tol abs_tol && neqb abs_tol n0 then eq a b
                                       else is_close rel_tol abs_tol a b
                   | _, _ => Ok true
                   end) (map fst lhs).

(** output_values.py:150-162 `Component.is_close` *)
Definition component_is_close (rel_tol abs_tol : num) (a b : out_component) : result bool :=
  if oc_ignore a || oc_ignore b then Ok true
  else if String.eqb (oc_id a) (oc_id b)
  then are_mappings_close ov_ignore (fun v w => Ok (var_eqb v w)) var_is_close (oc_variables a) (oc_variables b) rel_tol abs_tol
  else Ok false.
(** output_values.py:145-148 `Component.__eq__` *)
Definition component_eq (a b : out_component) : result bool := component_is_close n0 n0 a b.
(** output_values.py:188-193 `OutputValues.is_close` *)
Definition outputs_is_close (rel_tol abs_tol : num) (a b : outputs) : result bool :=
  are_mappings_close oc_ignore component_eq component_is_close a b rel_tol abs_tol.
(** output_values.py:183-186 `OutputValues.__eq__` *)
Definition outputs_eq (a b : outputs) : result bool :=
  are_mappings_close oc_ignore component_eq component_is_close a b n0 n0.

(** ** Benders solutions *)
(** output_values.py:253-255, 310-316: the two entries of `data` that are compared *)
Record benders_solution := { bs_overall_cost : num; bs_candidates : dict string num }.
(** output_values.py:257-263 `__eq__` *)
Definition benders_eqb (a b : benders_solution) : bool :=
  neqb (bs_overall_cost a) (bs_overall_cost b) && values_eqb String.eqb (bs_candidates a) (bs_candidates b).
(** output_values.py:265-286 `is_close` *)
Definition benders_is_close (rel_tol abs_tol : num) (a b : benders_solution) : result bool :=
  c <- isclose rel_tol abs_tol (bs_overall_cost a) (bs_overall_cost b) ;;
  if c && keys_eqb String.eqb (bs_candidates a) (bs_candidates b)
  then values_close String.eqb rel_tol abs_tol (bs_candidates a) (bs_candidates b)
  else Ok false.
