(** Property theorems about expressions: C01-C09.  Statements only; proofs are in *Facts.v. *)
From Coq Require Import Lia Permutation.
From Verif Require Import Base Expr Visitors SpecExpr SpecSyntax SpecVisitors
  BaseFacts ExprFacts CopyFacts VisitorFacts EqFacts DegreeFacts.

(** small world used in the examples: x = 7, y = 2, p = 3 *)
Definition ex_vars : dict string num := [("x"%string, nz 7); ("y"%string, nz 2)].
Definition ex_pars : dict string num := [("p"%string, nz 3)].
Definition ex_ctx : value_provider := evaluation_context ex_vars ex_pars.

(** * C01 *)
(** Operators on two expressions: same arithmetic on results, same failures.  The two
    hypotheses exclude a sum over no operand, which cannot be evaluated by itself. *)
Theorem C01_operators_evaluate_as_arithmetic :
  forall vp a b, a <> Add [] -> b <> Add [] ->
  evaluate vp (py_neg a) = (x <- evaluate vp a ;; Ok (nneg x)) /\
  evaluate vp (py_add a b) = (x <- evaluate vp a ;; y <- evaluate vp b ;; Ok (nadd x y)) /\
  evaluate vp (py_sub a b) = (x <- evaluate vp a ;; y <- evaluate vp b ;; Ok (nsub x y)) /\
  evaluate vp (py_mul a b) = (x <- evaluate vp a ;; y <- evaluate vp b ;; Ok (nmul x y)) /\
  evaluate vp (py_div a b) = (x <- evaluate vp a ;; y <- evaluate vp b ;; ndiv x y).
Proof.
  intros vp a b Ha Hb.
  exact (conj eq_refl (conj (evaluate_py_add_eq vp a b Ha Hb)
    (conj (evaluate_py_sub_eq vp a b Ha Hb) (conj eq_refl eq_refl)))).
Qed.
Print Assumptions C01_operators_evaluate_as_arithmetic.

Example C01_example :
  evaluate ex_ctx (py_sub (py_add (Var "x") (Lit (nz 1))) (py_add (Var "y") (Param "p")))
  = Ok (nz 3) /\ py_add (Var "x") (Lit (nz 1)) <> Add [].
Proof. split; [|discriminate]. qcex. Qed.

(** On finite values: exact rational arithmetic. *)
Theorem C01_operators_on_finite_values :
  forall vp a b x y, a <> Add [] -> b <> Add [] ->
  evaluate vp a = Ok (Fin x) -> evaluate vp b = Ok (Fin y) ->
  evaluate vp (py_neg a) = Ok (Fin (- x)) /\
  evaluate vp (py_add a b) = Ok (Fin (x + y)) /\
  evaluate vp (py_sub a b) = Ok (Fin (x - y)) /\
  evaluate vp (py_mul a b) = Ok (Fin (x * y)) /\
  (y <> 0%Qc -> evaluate vp (py_div a b) = Ok (Fin (x / y))) /\
  (y = 0%Qc -> evaluate vp (py_div a b) = Err ZeroDivisionError).
Proof.
  intros vp a b x y Ha Hb Hx Hy.
  pose proof (C01_operators_evaluate_as_arithmetic vp a b Ha Hb) as (E1 & E2 & E3 & E4 & E5).
  rewrite E1, E2, E3, E4, E5, Hx, Hy. cbn [bind].
  repeat split; try reflexivity; intros H; unfold ndiv.
  - now rewrite (proj2 (Qceqb_neq y 0) H).
  - now rewrite (proj2 (Qceqb_eq y 0) H).
Qed.
Print Assumptions C01_operators_on_finite_values.

(** A number on either side of the operator behaves as the literal; all but `v - e`. *)
Theorem C01_operators_with_a_number :
  forall vp e v, e <> Add [] ->
  evaluate vp (py_add_num e v) = (x <- evaluate vp e ;; Ok (nadd x v)) /\
  evaluate vp (py_radd v e) = (x <- evaluate vp e ;; Ok (nadd v x)) /\
  evaluate vp (py_sub_num e v) = (x <- evaluate vp e ;; Ok (nsub x v)) /\
  evaluate vp (py_mul_num e v) = (x <- evaluate vp e ;; Ok (nmul x v)) /\
  evaluate vp (py_rmul v e) = (x <- evaluate vp e ;; Ok (nmul v x)) /\
  evaluate vp (py_div_num e v) = (x <- evaluate vp e ;; ndiv x v) /\
  evaluate vp (py_rdiv v e) = (x <- evaluate vp e ;; ndiv v x).
Proof.
  intros vp e v He.
  assert (Hl : Lit v <> Add []) by discriminate.
  unfold py_add_num, py_radd, py_sub_num, py_mul_num, py_rmul, py_div_num, py_rdiv, wrap_num.
  rewrite (evaluate_py_add_eq vp e (Lit v) He Hl), (evaluate_py_add_eq vp (Lit v) e Hl He),
    (evaluate_py_sub_eq vp e (Lit v) He Hl).
  cbn. repeat split.
Qed.
Print Assumptions C01_operators_with_a_number.

(** `v - e` evaluates to v + e: the claim fails for subtraction from a number. *)
Theorem C01_number_minus_expression_refuted :
  exists vp v e x, evaluate vp e = Ok (Fin x) /\ e <> Add [] /\
    evaluate vp (py_rsub (Fin v) e) <> Ok (Fin (v - x)).
Proof.
  exists ex_ctx, (Z2Qc 5), (Var "x"), (Z2Qc 7). split; [reflexivity|]. split; [discriminate|].
  vm_compute. discriminate.
Qed.
Print Assumptions C01_number_minus_expression_refuted.

(** What `v - e` does instead, for every expression. *)
Theorem C01_number_minus_expression_adds :
  forall vp e v, e <> Add [] ->
  evaluate vp (py_rsub v e) = (x <- evaluate vp e ;; Ok (nadd v x)).
Proof.
  intros vp e v He. unfold py_rsub. rewrite (evaluate_py_add_eq vp (wrap_num v) e); auto.
  discriminate.
Qed.
Print Assumptions C01_number_minus_expression_adds.

(** The hypothesis on empty sums is needed: an empty sum cannot be evaluated, but its sum with
    another expression can. *)
Theorem C01_empty_sum_refuted :
  exists vp b v, evaluate vp (Add []) = Err IndexError /\ evaluate vp (py_add (Add []) b) = Ok v.
Proof. exists ex_ctx, (Var "x"), (nz 7). split; reflexivity. Qed.
Print Assumptions C01_empty_sum_refuted.

(** Evaluation computes the mathematical value of an arithmetic expression, and fails exactly
    where there is none (division by zero, missing parameter). *)
Theorem C01_evaluation_is_mathematical_value :
  forall vp E t s e, provides vp E t s -> arithmetic e -> no_empty_sum e ->
  match den E e t s with
  | Some q => evaluate vp e = Ok (Fin q)
  | None => is_ok (evaluate vp e) = false
  end.
Proof. exact evaluate_den. Qed.
Print Assumptions C01_evaluation_is_mathematical_value.

Definition ex_env : env := {|
  e_var := fun n t s => if String.eqb n "x" then Z2Qc (7 + t) else Z2Qc (2 + s);
  e_par := fun n t s => if String.eqb n "p" then Some (Z2Qc 3) else None;
  e_cvar := fun c n t s => Z2Qc (t + 10 * s);
  e_cpar := fun c n t s => if String.eqb c "c" then Some (Z2Qc (t - s)) else None;
  e_port := fun p f => [];
  e_T := 4; e_S := 2 |}.
Definition ex_vp : value_provider := {|
  get_variable_value := fun n => Ok (Fin (e_var ex_env n 1 1));
  get_parameter_value := fun n =>
    match e_par ex_env n 1 1 with Some q => Ok (Fin q) | None => Err KeyError end;
  get_component_variable_value := fun c n => Ok (Fin (e_cvar ex_env c n 1 1));
  get_component_parameter_value := fun c n =>
    match e_cpar ex_env c n 1 1 with Some q => Ok (Fin q) | None => Err KeyError end |}.
Example C01_example_world :
  provides ex_vp ex_env 1 1 /\
  arithmetic (py_div (py_add (Var "x") (Var "y")) (Param "p")) /\
  no_empty_sum (py_div (py_add (Var "x") (Var "y")) (Param "p")) /\
  den ex_env (py_div (py_add (Var "x") (Var "y")) (Param "p")) 1 1 = Some (Z2Qc 11 / Z2Qc 3)%Qc.
Proof.
  split; [|split; [|split]].
  - repeat split; intros; cbn.
    + destruct (String.eqb n "p"); reflexivity.
    + destruct (String.eqb c "c"); reflexivity.
  - cbn. tauto.
  - cbn. intuition discriminate.
  - qcex.
Qed.

(** * C02 *)
Theorem C02_copy_evaluates_the_same :
  forall vp e e', copy_expression e = Ok e' -> evaluate vp e' = evaluate vp e.
Proof. exact copy_evaluate. Qed.
Print Assumptions C02_copy_evaluates_the_same.

Theorem C02_copy_of_evaluable_succeeds :
  forall vp e v, evaluate vp e = Ok v ->
  exists e', copy_expression e = Ok e' /\ evaluate vp e' = Ok v.
Proof. exact copy_evaluate_total. Qed.
Print Assumptions C02_copy_of_evaluable_succeeds.

Theorem C02_copy_succeeds_iff_no_empty_sum :
  forall e, no_empty_sum e <-> exists e', copy_expression e = Ok e'.
Proof. exact copy_ok_iff. Qed.
Print Assumptions C02_copy_succeeds_iff_no_empty_sum.

(** Also for expressions with time and scenario operators and ports. *)
Theorem C02_copy_preserves_meaning :
  forall E e e', aggregators_on_ports e -> copy_expression e = Ok e' ->
  forall t s, den E e' t s = den E e t s.
Proof. exact copy_den. Qed.
Print Assumptions C02_copy_preserves_meaning.

Theorem C02_copy_idempotent :
  forall e e', copy_expression e = Ok e' -> copy_expression e' = Ok e'.
Proof. exact copy_idempotent. Qed.
Print Assumptions C02_copy_idempotent.

Theorem C02_copy_of_flat_is_identical :
  forall e, flat e -> copy_expression e = Ok e.
Proof. exact copy_flat_id. Qed.
Print Assumptions C02_copy_of_flat_is_identical.

(** Everything built with the python operators and methods is copied identically. *)
Theorem C02_copy_of_built_is_identical :
  forall e, built e -> copy_expression e = Ok e.
Proof. intros e H. exact (copy_flat_id e (built_flat e H)). Qed.
Print Assumptions C02_copy_of_built_is_identical.

(** nested sums are flattened: same meaning, different tree *)
Definition ex_nested : expr := Add [Add [Var "x"; Var "y"]; TShift (Add [Param "p"]) (Lit (nz 1))].
Example C02_example :
  copy_expression ex_nested = Ok (Add [Var "x"; Var "y"; TShift (Param "p") (Lit (nz 1))]) /\
  aggregators_on_ports ex_nested /\ no_empty_sum ex_nested /\
  evaluate ex_ctx (Add [Add [Var "x"]; Param "p"]) = Ok (nz 10) /\
  built (py_sub (py_add (Var "x") (Var "y")) (py_mul (Param "p") (Var "x"))).
Proof.
  split; [reflexivity|]. split; [cbn; intuition|]. split; [cbn; intuition discriminate|].
  split; [qcex|].
  repeat constructor.
Qed.

(** Hence a copy need not be "equal" to its original for the library's own equality. *)
Theorem C02_copy_equal_to_original_refuted :
  exists e e', copy_expression e = Ok e' /\ expressions_equal e' e n0 n0 = Ok false.
Proof. exists ex_nested. eexists. split; reflexivity. Qed.
Print Assumptions C02_copy_equal_to_original_refuted.

(** * C03 *)
Theorem C03_resolved_has_no_parameter :
  forall gp gcp e e', aggregators_on_ports e ->
  resolve_parameters gp gcp e = Ok e' -> no_param e'.
Proof. exact resolve_parameters_no_param. Qed.
Print Assumptions C03_resolved_has_no_parameter.

(** [vp] is arbitrary: its parameter part is irrelevant for the resolved expression. *)
Theorem C03_resolution_commutes_with_evaluation :
  forall gp gcp vp e e', resolve_parameters gp gcp e = Ok e' ->
  evaluate vp e' = evaluate (with_parameters vp gp gcp) e.
Proof. exact resolve_parameters_evaluate. Qed.
Print Assumptions C03_resolution_commutes_with_evaluation.

Theorem C03_resolution_succeeds_when_evaluable :
  forall gp gcp vp e v, evaluate (with_parameters vp gp gcp) e = Ok v ->
  exists e', resolve_parameters gp gcp e = Ok e' /\ evaluate vp e' = Ok v.
Proof. exact resolve_parameters_total. Qed.
Print Assumptions C03_resolution_succeeds_when_evaluable.

Example C03_example :
  let gp := get_parameter_value ex_ctx in
  let gcp := get_component_parameter_value ex_ctx in
  let e := py_add (py_mul (Param "p") (Var "x")) (Lit (nz 1)) in
  resolve_parameters gp gcp e = Ok (Add [Mul (Lit (nz 3)) (Var "x"); Lit (nz 1)]) /\
  aggregators_on_ports e /\
  evaluate (with_parameters (evaluation_context ex_vars []) gp gcp) e = Ok (nz 22).
Proof.
  cbn zeta. split; [reflexivity|]. split; [cbn; tauto|].
  qcex.
Qed.

(** * C04 *)
Theorem C04_equality_is_structural :
  forall l r, expressions_equal l r n0 n0 = Ok true <-> l = r /\ no_nan l.
Proof. exact expressions_equal_zero. Qed.
Print Assumptions C04_equality_is_structural.

Theorem C04_equality_reflexive :
  forall e abs_tol rel_tol, tol_ok abs_tol -> tol_ok rel_tol -> no_nan e ->
  expressions_equal e e abs_tol rel_tol = Ok true.
Proof. exact expressions_equal_refl. Qed.
Print Assumptions C04_equality_reflexive.

Theorem C04_equality_symmetric :
  forall l r abs_tol rel_tol,
  expressions_equal l r abs_tol rel_tol = expressions_equal r l abs_tol rel_tol.
Proof. exact expressions_equal_sym. Qed.
Print Assumptions C04_equality_symmetric.

Theorem C04_equality_total_or_bad_tolerance :
  forall l r abs_tol rel_tol,
  (nltb abs_tol n0 = true \/ nltb rel_tol n0 = true ->
     expressions_equal l r abs_tol rel_tol = Err ValueError) /\
  (nltb abs_tol n0 = false -> nltb rel_tol n0 = false ->
     exists b, expressions_equal l r abs_tol rel_tol = Ok b).
Proof. exact expressions_equal_total. Qed.
Print Assumptions C04_equality_total_or_bad_tolerance.

(** The absence of NaN is needed for reflexivity. *)
Theorem C04_reflexivity_with_nan_refuted :
  exists e, expressions_equal e e n0 n0 = Ok false.
Proof. exists (Lit NaN). reflexivity. Qed.
Print Assumptions C04_reflexivity_with_nan_refuted.

Example C04_example :
  tol_ok (nz 1) /\ tol_ok n0 /\
  no_nan (TSum (Var "x") (Lit (nz 0)) (Lit PInf)) /\
  expressions_equal (Lit (nz 5)) (Lit (nz 6)) (nz 1) n0 = Ok true /\
  expressions_equal (Lit (nz 5)) (Lit (nz 7)) (nz 1) n0 = Ok false /\
  expressions_equal (PVar "c" "x" (TimeShift 1) NoScenarioIndex)
                    (PVar "c" "x" (TimeShift 2) NoScenarioIndex) n0 n0 = Ok false /\
  nltb (nz (-1)) n0 = true.
Proof.
  repeat split; try reflexivity; intros H; discriminate H.
Qed.

(** * C05 *)
Theorem C05_constant_is_independent_of_variables :
  forall E E' e, is_constant e = Ok true -> same_data E E' -> var_free_time_args e ->
  forall t s, den E e t s = den E' e t s.
Proof. exact is_constant_den. Qed.
Print Assumptions C05_constant_is_independent_of_variables.

Theorem C05_constant_evaluates_independently_of_variables :
  forall vp vp' e, is_constant e = Ok true ->
  (forall n, get_parameter_value vp n = get_parameter_value vp' n) ->
  (forall c n, get_component_parameter_value vp c n = get_component_parameter_value vp' c n) ->
  evaluate vp e = evaluate vp' e.
Proof. exact is_constant_evaluate. Qed.
Print Assumptions C05_constant_evaluates_independently_of_variables.

Theorem C05_linear_is_affine :
  forall lam E0 E1 E e, is_linear e = Ok true -> interpolates lam E0 E1 E -> var_free_time_args e ->
  forall t s a b, den E0 e t s = Some a -> den E1 e t s = Some b ->
  den E e t s = Some ((1 - lam) * a + lam * b)%Qc.
Proof. exact is_linear_den. Qed.
Print Assumptions C05_linear_is_affine.

(** A comparison is constant or linear exactly when both of its sides are. *)
Theorem C05_comparison_sides :
  forall a b c, (is_linear (Cmp a b c) = Ok true <-> is_linear a = Ok true /\ is_linear b = Ok true) /\
    (is_constant (Cmp a b c) = Ok true <-> is_constant a = Ok true /\ is_constant b = Ok true).
Proof. exact degree_comparison. Qed.
Print Assumptions C05_comparison_sides.
Example C05_comparison_example :
  is_linear (Cmp (Var "x") (py_mul (Param "p") (Var "y")) LESS_THAN) = Ok true /\
  is_linear (Cmp (Var "x") (py_mul (Var "x") (Var "y")) LESS_THAN) = Ok false.
Proof. split; reflexivity. Qed.

(** Without the restriction on time arguments the claim fails: degrees ignore shift arguments. *)
Definition env_with_x (v : Z) : env := {|
  e_var := fun n t s => if String.eqb n "x" then Z2Qc v else 0%Qc;
  e_par := fun n t s => Some (Z2Qc t);
  e_cvar := fun _ _ _ _ => 0%Qc; e_cpar := fun _ _ _ _ => None;
  e_port := fun _ _ => []; e_T := 3; e_S := 1 |}.
Theorem C05_variable_shift_refuted :
  exists E E' e t s, is_constant e = Ok true /\ same_data E E' /\ den E e t s <> den E' e t s.
Proof.
  exists (env_with_x 1), (env_with_x 2), (TShift (Param "p") (Var "x")), 0%Z, 0%Z.
  split; [reflexivity|]. split; [repeat split|]. vm_compute. discriminate.
Qed.
Print Assumptions C05_variable_shift_refuted.

Example C05_example :
  let e := py_add (py_mul (Param "p") (TShift (Var "x") (Lit (nz 1)))) (Lit (nz 4)) in
  is_linear e = Ok true /\ var_free_time_args e /\
  is_constant (py_div (Param "p") (Lit (nz 2))) = Ok true /\
  is_linear (py_mul (Var "x") (Var "x")) = Ok false /\
  interpolates (1 / Z2Qc 2) (env_with_x 2) (env_with_x 4) (env_with_x 3) /\
  den (env_with_x 2) e 1 0 = Some (Z2Qc 6) /\ den (env_with_x 4) e 1 0 = Some (Z2Qc 8).
Proof.
  cbn zeta. repeat split; try reflexivity.
  - intros n t s. cbn. destruct (String.eqb n "x"); apply Qc_is_canon; reflexivity.
  - intros i v0 v1 v t s H. cbn in H. destruct i; discriminate.
Qed.

(** * C06 *)
Theorem C06_indexing_sound :
  forall sp E e ix, respects sp E -> fixed_time_args E e -> compute_indexation sp e = Ok ix ->
  (ix_time ix = false -> forall t t' s, den E e t s = den E e t' s) /\
  (ix_scenario ix = false -> forall t s s', den E e t s = den E e t s').
Proof. intros sp E e ix HR HF. exact (indexation_sound sp E e HR HF ix). Qed.
Print Assumptions C06_indexing_sound.

Definition ex_sp : structure_provider := {|
  get_parameter_structure := fun _ => Ok {| ix_time := false; ix_scenario := false |};
  get_variable_structure := fun n =>
    if String.eqb n "x" then Ok {| ix_time := true; ix_scenario := false |}
    else Ok {| ix_time := false; ix_scenario := true |};
  get_component_variable_structure := fun _ _ => Ok {| ix_time := true; ix_scenario := true |};
  get_component_parameter_structure := fun _ _ => Ok {| ix_time := true; ix_scenario := true |} |}.
Example C06_example :
  respects ex_sp ex_env /\
  fixed_time_args ex_env (py_mul (TEval (Var "x") (Lit (nz 2))) (Var "y")) /\
  compute_indexation ex_sp (py_mul (TEval (Var "x") (Lit (nz 2))) (Var "y"))
    = Ok {| ix_time := false; ix_scenario := true |}.
Proof.
  split; [|split; [cbn; tauto|reflexivity]].
  repeat split; cbn in *; intros.
  - destruct (String.eqb n "x"); [|reflexivity]. injection H as <-. discriminate.
  - destruct (String.eqb n "x"); [reflexivity|]. injection H as <-. discriminate.
  - injection H as <-. discriminate.
  - injection H as <-. discriminate.
  - injection H as <-. discriminate.
  - injection H as <-. discriminate.
Qed.

(** A timestep given by a time-dependent parameter escapes the analysis. *)
Theorem C06_time_dependent_argument_refuted :
  exists sp E e ix t t' s, respects sp E /\ compute_indexation sp e = Ok ix /\
    ix_time ix = false /\ den E e t s <> den E e t' s.
Proof.
  exists {| get_parameter_structure := fun _ => Ok {| ix_time := true; ix_scenario := true |};
            get_variable_structure := fun _ => Ok {| ix_time := true; ix_scenario := true |};
            get_component_variable_structure := fun _ _ => Err KeyError;
            get_component_parameter_structure := fun _ _ => Err KeyError |}.
  exists {| e_var := fun n t s => Z2Qc t; e_par := fun n t s => Some (Z2Qc t);
            e_cvar := fun _ _ _ _ => 0%Qc; e_cpar := fun _ _ _ _ => None;
            e_port := fun _ _ => []; e_T := 3; e_S := 1 |}.
  exists (TEval (Var "x") (Param "p")), {| ix_time := false; ix_scenario := true |}, 0%Z, 1%Z, 0%Z.
  split; [|split; [reflexivity|split; [reflexivity|vm_compute; discriminate]]].
  repeat split; cbn in *; intros; try discriminate; injection H as <-; discriminate.
Qed.
Print Assumptions C06_time_dependent_argument_refuted.

(** * C07 *)
Theorem C07_indexing_is_union_of_operands :
  forall sp e, all_names_known sp e ->
  compute_indexation sp e =
  Ok {| ix_time := time_dependent sp e; ix_scenario := scenario_dependent sp e |}.
Proof. exact indexation_exact. Qed.
Print Assumptions C07_indexing_is_union_of_operands.

Theorem C07_indexing_independent_of_operand_order :
  forall sp l l', Permutation l l' -> all_names_known sp (Add l) ->
  compute_indexation sp (Add l) = compute_indexation sp (Add l').
Proof. exact indexation_order. Qed.
Print Assumptions C07_indexing_independent_of_operand_order.

Example C07_example :
  all_names_known ex_sp (Add [Var "x"; Var "y"; Param "p"]) /\
  compute_indexation ex_sp (Add [Var "x"; Var "y"; Param "p"])
    = Ok {| ix_time := true; ix_scenario := true |} /\
  compute_indexation ex_sp (Add [Param "p"; AllSum (Var "x")])
    = Ok {| ix_time := false; ix_scenario := false |} /\
  Permutation [Var "x"; Var "y"; Param "p"] [Var "y"; Param "p"; Var "x"].
Proof.
  repeat split. change [Var "y"; Param "p"; Var "x"] with ([Var "y"; Param "p"] ++ [Var "x"]).
  apply Permutation_cons_append.
Qed.

(** * C08 *)
Theorem C08_context_meaning :
  forall E id e e', aggregators_on_ports e -> add_component_context id e = Ok e' ->
  forall t s, den E e' t s = den (local_env E id) e t s.
Proof. exact context_den. Qed.
Print Assumptions C08_context_meaning.

Theorem C08_context_evaluates_on_own_names :
  forall vp id e e', add_component_context id e = Ok e' ->
  evaluate vp e' = evaluate (local_provider vp id) e.
Proof. exact context_evaluate. Qed.
Print Assumptions C08_context_evaluates_on_own_names.

Theorem C08_context_binds_only_that_component :
  forall id e e', aggregators_on_ports e -> add_component_context id e = Ok e' ->
  only_names_of id e'.
Proof. exact context_only_names. Qed.
Print Assumptions C08_context_binds_only_that_component.

Theorem C08_context_rejects_bound_names :
  forall id e, (no_component_name e /\ no_empty_sum e) <->
  exists e', add_component_context id e = Ok e'.
Proof. exact context_ok_iff. Qed.
Print Assumptions C08_context_rejects_bound_names.

Example C08_example :
  let e := py_add (py_mul (Param "p") (TShift (Var "x") (Lit (nz 1)))) (PortField "q" "f") in
  add_component_context "c" e =
    Ok (Add [Mul (CParam "c" "p") (TShift (CVar "c" "x") (Lit (nz 1))); PortField "q" "f"]) /\
  aggregators_on_ports e /\ no_component_name e /\ no_empty_sum e /\
  add_component_context "d" (CVar "c" "x") = Err ValueError.
Proof. cbn. repeat split; discriminate. Qed.

(** * C09 *)
Theorem C09_port_resolution_meaning :
  forall E cid ports e e', resolve_port e cid ports = Ok e' ->
  forall t s, den E e' t s = den (port_env E cid ports) e t s.
Proof. exact resolve_port_den. Qed.
Print Assumptions C09_port_resolution_meaning.

Theorem C09_no_port_remains :
  forall cid ports e e',
  (forall k l d, dget pfk_eqb k ports = Some l -> In d l -> no_port d) ->
  resolve_port e cid ports = Ok e' -> no_port e'.
Proof. exact resolve_port_no_port. Qed.
Print Assumptions C09_no_port_remains.

Theorem C09_accepted_iff_unique_definitions :
  forall cid ports e, no_empty_sum e ->
  (all_leaves (ports_resolvable cid ports) e <-> exists e', resolve_port e cid ports = Ok e').
Proof. exact resolve_port_ok_iff. Qed.
Print Assumptions C09_accepted_iff_unique_definitions.

(** in particular: the aggregated port field is the sum of all registered definitions *)
Theorem C09_sum_connections_value :
  forall E cid ports p f e e', sum_connections (PortField p f) = Ok e ->
  resolve_port e cid ports = Ok e' ->
  forall t s, den E e' t s =
    osum (map (fun d => den E d t s)
            (match dget pfk_eqb (cid, (p, f)) ports with Some l => l | None => [] end)).
Proof.
  intros E cid ports p f e e' H Hr t s. rewrite (resolve_port_den E cid ports e e' Hr t s).
  cbn in H. injection H as <-. cbn. now rewrite map_map.
Qed.
Print Assumptions C09_sum_connections_value.

Definition ex_ports : dict port_field_key (list expr) :=
  [(("n"%string, ("q"%string, "flow"%string)), [CVar "g" "gen"; Neg (CParam "d" "demand")]);
   (("g"%string, ("q"%string, "flow"%string)), [CVar "g" "gen"])].
Example C09_example :
  resolve_port (PortAgg (PortField "q" "flow") PortSum) "n" ex_ports
    = Ok (Add [CVar "g" "gen"; Neg (CParam "d" "demand")]) /\
  resolve_port (PortField "q" "flow") "g" ex_ports = Ok (CVar "g" "gen") /\
  resolve_port (PortField "q" "flow") "n" ex_ports = Err ValueError /\
  resolve_port (PortField "q" "other") "n" ex_ports = Err KeyError /\
  (forall k l d, dget pfk_eqb k ex_ports = Some l -> In d l -> no_port d).
Proof.
  repeat split. intros k l d H Hd. unfold ex_ports, dget in H.
  destruct (pfk_eqb k _); [injection H as <-; cbn in Hd; destruct Hd as [<-|[<-|[]]]; cbn; auto|].
  destruct (pfk_eqb k _); [injection H as <-; cbn in Hd; destruct Hd as [<-|[]]; cbn; auto|].
  discriminate.
Qed.
