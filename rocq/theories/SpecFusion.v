(** Specification of merged problems (C40): what a solver problem means when variables are known by their name. *)
From Verif Require Import Base Expr LinearExpr Optim Fusion SpecExpr SpecLinear SpecOptim.
Local Open Scope string_scope.

(** the solver of a problem *)
Definition solver_of (p : problem) : solver := st_solver (pb_state p).
(** the values [y] of variables by name, read by position *)
Definition by_name (s : solver) (y : string -> Qc) (i : nat) : Qc :=
  match nth_error (s_vars s) i with Some v => y (sv_name v) | None => 0%Qc end.
Definition within (v : solver_var) (q : Qc) : Prop := at_least (sv_lb v) q /\ at_most (sv_ub v) q.
(** all variables within their bounds, all rows satisfied (integrality left out) *)
Definition bounds_hold (y : string -> Qc) (s : solver) : Prop := forall v, In v (s_vars s) -> within v (y (sv_name v)).
Definition rows_hold (y : string -> Qc) (s : solver) : Prop := forall r, In r (s_rows s) -> row_sat (by_name s y) r.
Definition feasible (y : string -> Qc) (s : solver) : Prop := bounds_hold y s /\ rows_hold y s.
(** value of the objective, its offset left out *)
Definition cost (y : string -> Qc) (s : solver) : option Qc := coefs_value (by_name s y) (s_objective s).

(** variables have distinct names; each coefficient is about one of them, once *)
Definition sound_coefs (s : solver) (d : dict nat num) : Prop :=
  NoDup (map fst d) /\ forall i c, In (i, c) d -> (i < List.length (s_vars s))%nat.
Definition sound_solver (s : solver) : Prop :=
  NoDup (map sv_name (s_vars s)) /\ (forall r, In r (s_rows s) -> sound_coefs s (sr_coefs r)) /\ sound_coefs s (s_objective s).
Definition variable_names (p : problem) : list string := map sv_name (s_vars (solver_of p)).
(** how the rows of a master are called in the merged problem *)
Definition row_keys (p : problem) : list string := map (fun r => (pb_name p ++ "_" ++ sr_name r)%string) (s_rows (solver_of p)).
(** some coefficient is not zero *)
Definition has_term (r : solver_row) : Prop := exists i c, In (i, c) (sr_coefs r) /\ c <> n0.
(** column ids are positions *)
Definition sound_columns (st : state) : Prop :=
  NoDup (map fst (st_infos st)) /\ List.length (st_infos st) = List.length (s_vars (st_solver st)) /\
  forall i v, nth_error (s_vars (st_solver st)) i = Some v ->
  exists info, dget String.eqb (sv_name v) (st_infos st) = Some info /\ vi_name info = sv_name v /\ vi_column info = i.

(** several masters, with variables and rows of different names; the coupler has no cost on a variable of a master *)
Record mergeable (masters : list problem) (coupler : problem) : Prop := {
  mg_several : List.length masters <> 1%nat;
  mg_coupler : sound_solver (solver_of coupler) /\ sound_columns (pb_state coupler);
  mg_masters : forall m, In m masters -> sound_solver (solver_of m) /\ sound_columns (pb_state m);
  mg_variables : NoDup (flat_map variable_names masters);
  mg_rows : NoDup (flat_map row_keys masters);
  mg_objective : forall k v, In k (map fst (s_objective (solver_of coupler))) -> nth_error (s_vars (solver_of coupler)) k = Some v ->
    ~ In (sv_name v) (flat_map variable_names masters)
}.
(** the variables of the coupler that are in no master *)
Definition coupler_only (masters : list problem) (coupler : problem) (v : solver_var) : Prop :=
  In v (s_vars (solver_of coupler)) /\ ~ In (sv_name v) (flat_map variable_names masters).
(** all rows of a problem that are about some variable are satisfied *)
Definition term_rows_hold (y : string -> Qc) (s : solver) : Prop :=
  forall r, In r (s_rows s) -> has_term r -> row_sat (by_name s y) r.
