(** Specification of output values (C36, C37, C51, C52). *)
From Verif Require Import Base Expr LinearExpr Optim Output SpecVisitors.
Local Open Scope list_scope.

(** ** Shapes *)
(** a table of [S] scenarios and [T] timesteps, as the documentation of OutputValues.Variable shows
    it (output_values.py:32-39): a number, a list over scenarios, or a list of lists over time *)
Definition shown (S T : Z) (m : Z -> Z -> num) : out_value :=
  if (T =? 1)%Z then
    if (S =? 1)%Z then VNum (m 0 0)%Z
    else VList (map (fun s => INum (m 0%Z s)) (zrange 0 S))
  else VList (map (fun s => IList (map (fun t => m t s) (zrange 0 T))) (zrange 0 S)).

(** values whose shape is that of a table with more than one scenario, or more than one timestep *)
Inductive keeps_shape : out_value -> Prop :=
| ks_number x : keeps_shape (VNum x)
| ks_scenarios l : List.length l <> 1%nat -> keeps_shape (VList (map INum l))
| ks_table T rows : T <> 1%nat -> rows <> [] -> Forall (fun r => List.length r = T) rows -> keeps_shape (VList (map IList rows)).

(** ** Comparison *)
(** equal numbers *)
Definition same_number (x y : num) : Prop := x = y /\ x <> NaN.
(** numbers close within tolerances *)
Definition near_number (r a : Qc) (x y : num) : Prop :=
  same_number x y \/
  exists p q, x = Fin p /\ y = Fin q /\
    (Qcabs (p - q) <= a \/ Qcabs (p - q) <= r * Qcabs p \/ Qcabs (p - q) <= r * Qcabs q)%Qc.

(** two dicts agree at every key; entries of only one of them satisfy [lone] *)
Definition agree {K A} (eqb : K -> K -> bool) (lone : A -> Prop) (R : A -> A -> Prop) (a b : dict K A) : Prop :=
  forall k, match dget eqb k a, dget eqb k b with
            | Some x, Some y => R x y
            | Some x, None => lone x
            | None, Some y => lone y
            | None, None => True
            end.
Section Agreement.
  Variable R : num -> num -> Prop.
  Definition agree_var (a b : out_var) : Prop :=
    ov_ignore a = true \/ ov_ignore b = true \/
    ov_name a = ov_name b /\ ov_size a = ov_size b /\ agree tsi_eqb (fun _ => False) R (ov_value a) (ov_value b).
  Definition agree_component (a b : out_component) : Prop :=
    oc_ignore a = true \/ oc_ignore b = true \/
    oc_id a = oc_id b /\ agree String.eqb (fun v => ov_ignore v = true) agree_var (oc_variables a) (oc_variables b).
  Definition agree_outputs (a b : outputs) : Prop :=
    agree String.eqb (fun c => oc_ignore c = true) agree_component a b.
End Agreement.

(** no NaN among the values *)
Definition no_nan_outputs (o : outputs) : Prop :=
  forall k c n v i x, dget String.eqb k o = Some c -> dget String.eqb n (oc_variables c) = Some v ->
  dget tsi_eqb i (ov_value v) = Some x -> x <> NaN.

(** without a component, without a variable of a component *)
Definition without {A} (k : string) (d : dict string A) : dict string A :=
  filter (fun ka => negb (String.eqb k (fst ka))) d.
Definition without_var (k n : string) (o : outputs) : outputs :=
  map (fun kc => if String.eqb k (fst kc)
                 then (fst kc, {| oc_id := oc_id (snd kc); oc_variables := without n (oc_variables (snd kc));
                                  oc_ignore := oc_ignore (snd kc) |})
                 else kc) o.

(** the component is ignored in one of the two; the variable is *)
Definition ignored_in (k : string) (o : outputs) : Prop :=
  exists c, dget String.eqb k o = Some c /\ oc_ignore c = true.
Definition var_ignored_in (k n : string) (o : outputs) : Prop :=
  exists c v, dget String.eqb k o = Some c /\ dget String.eqb n (oc_variables c) = Some v /\ ov_ignore v = true.

(** the variable holds a table *)
Definition holds_table (v : out_var) (S T : Z) (m : Z -> Z -> num) : Prop :=
  ov_size v = (S, T) /\
  forall t s, (0 <= t < T)%Z -> (0 <= s < S)%Z -> dget tsi_eqb (t, s) (ov_value v) = Some (m t s).
(** the variable is in the outputs *)
Definition listed (id name : string) (o : outputs) : Prop :=
  exists c, dget String.eqb id o = Some c /\ In name (map fst (oc_variables c)).
(** number of steps and scenarios of a variable *)
Definition extent (depends : bool) (n : Z) : Z := if depends then n else 1%Z.

(** Benders solutions *)
Definition agree_benders (R : num -> num -> Prop) (a b : benders_solution) : Prop :=
  R (bs_overall_cost a) (bs_overall_cost b) /\ agree String.eqb (fun _ => False) R (bs_candidates a) (bs_candidates b).
