(** Property theorems C14-C16, C41, C42: linear expressions. *)
From Coq Require Import Lia Permutation.
From Verif Require Import Base Expr Visitors LinearExpr Linearize LinearHeap BaseFacts SpecExpr
  SpecSyntax SpecVisitors SpecLinear LinearFacts LinearOpsFacts HeapFacts.

(** ** Example data: 2 * x[t+1] + (x[t+1] - p) / 4, parameter p worth 3 + t *)
Definition exl_x (k : Z) : expr := PVar "c" "x" (TimeShift k) CurrentScenarioIndex.
Definition exl_p : expr := PParam "c" "p" (TimeShift 0) CurrentScenarioIndex.
Definition exl_e : expr := Add [Mul (Lit (nz 2)) (exl_x 1); Div (Add [exl_x 1; Neg exl_p]) (Lit (nz 4))].
Definition exl_get : parameter_getter := fun _ _ t _ =>
  match t with Some t => Ok (nz (3 + t)) | None => Err ValueError end.
Definition exl_env : env := {|
  e_var := fun _ _ _ => 0%Qc; e_par := fun _ _ _ => None;
  e_cvar := fun _ _ t s => Z2Qc (7 * t + s); e_cpar := fun _ _ t _ => Some (Z2Qc (3 + t));
  e_port := fun _ _ => []; e_T := 10; e_S := 1 |}.
Definition exl_key (t : Z) : term_key :=
  {| tk_component := "c"; tk_variable := "x"; tk_time := Some t; tk_scenario := Some 0%Z |}.

(** ** C14 *)

(** The terms left out depend only on the expression and the data, not on the assignment. *)
Theorem C14_linear_form_has_value_of_expression :
  forall e timestep scenario vp L,
  linearize_expression e timestep scenario vp = Ok L -> finite_literals e ->
  exists dropped, negligible dropped /\ distinct_keys dropped /\
    (forall kt, In kt dropped -> ~ In (fst kt) (map fst (le_terms L))) /\
    forall E t s,
      timestep = None \/ timestep = Some t -> scenario = None \/ scenario = Some s ->
      (forall g, vp = Some g -> getter_gives g E t s) ->
      exists v w, den E e t s = Some v /\ le_value (read E t s) L = Some w /\
        olift2 Qcplus (Some w) (terms_value (read E t s) dropped) = Some v.
Proof. intros; eapply linearize_value; eauto. Qed.
Print Assumptions C14_linear_form_has_value_of_expression.

(** The expression of the example has one term, 9/4 x[t+1], and constant -(3+t)/4; at t = 5 the
    value is 9/4 * 42 - 2. *)
Example C14_example :
  finite_literals exl_e /\ getter_gives exl_get exl_env 5 0 /\
  (exists L, linearize_expression exl_e (Some 5%Z) (Some 0%Z) (Some exl_get) = Ok L /\
     map fst (le_terms L) = [exl_key 6] /\ 
     le_value (read exl_env 5 0) L = Some (Q2Qc (185 # 2))) /\
  den exl_env exl_e 5 0 = Some (Q2Qc (185 # 2)).
Proof.
  split; [vm_compute; tauto|]. split.
  - intros c n ot os v H. destruct ot as [t|]; [|discriminate]. cbn in H. injection H as <-.
    eexists; split; reflexivity.
  - split; [eexists; split; [reflexivity|split; vm_compute; reflexivity]|vm_compute; reflexivity].
Qed.
(** a case where a term is left out: 1e-17 x *)
Example C14_example_dropped :
  let e := Mul (Lit (Fin (Q2Qc (1 # 10 ^ 17)))) (exl_x 1) in
  exists L, linearize_expression e (Some 5%Z) (Some 0%Z) None = Ok L /\ le_terms L = [] /\
  le_value (read exl_env 5 0) L = Some 0%Qc /\ den exl_env e 5 0 <> Some 0%Qc.
Proof. eexists; split; [reflexivity|]. split; [vm_compute; reflexivity|]. split; [vm_compute; reflexivity|]. vm_compute. discriminate. Qed.

(** ** C15 *)
Theorem C15_normal_form :
  forall e timestep scenario vp L,
  linearize_expression e timestep scenario vp = Ok L ->
  distinct_keys (le_terms L) /\ Forall (fun kt => ~ negligible [kt]) (le_terms L).
Proof. intros e t s vp L H. exact (linearize_normal e t s vp L H). Qed.
Print Assumptions C15_normal_form.

(** x[t+1] occurs three times, x[t] twice with coefficients cancelling *)
Example C15_example :
  let e := Add [exl_x 1; exl_x 0; Mul (Lit (nz 3)) (exl_x 1); Neg (exl_x 0); exl_x 1] in
  exists L, linearize_expression e (Some 0%Z) (Some 0%Z) None = Ok L /\ le_terms L = [(exl_key 1, nz 5)].
Proof. eexists; split; [reflexivity|]. vm_compute. reflexivity. Qed.

(** ** C16 *)
Theorem C16_product_of_variables_rejected :
  forall timestep scenario vp a b, has_variable a -> has_variable b ->
  (forall L, linearize_expression (Mul a b) timestep scenario vp <> Ok L) /\
  (forall A B, linearize_expression a timestep scenario vp = Ok A ->
     linearize_expression b timestep scenario vp = Ok B ->
     linearize_expression (Mul a b) timestep scenario vp = Err ValueError).
Proof.
  intros. split; [now apply nonlinear_product|]. intros. eapply nonlinear_product_error; eauto.
Qed.
Print Assumptions C16_product_of_variables_rejected.

Theorem C16_division_by_variables_rejected :
  forall timestep scenario vp a b, has_variable b ->
  (forall L, linearize_expression (Div a b) timestep scenario vp <> Ok L) /\
  (forall A B, linearize_expression a timestep scenario vp = Ok A ->
     linearize_expression b timestep scenario vp = Ok B ->
     linearize_expression (Div a b) timestep scenario vp = Err ValueError).
Proof.
  intros. split; [now apply nonlinear_division|]. intros. eapply nonlinear_division_error; eauto.
Qed.
Print Assumptions C16_division_by_variables_rejected.

(** The degree visitor and the lineariser agree: what has degree at most one is linearised
    (unless a division by zero occurs), and what is linearised has degree at most one. *)
Theorem C16_linear_accepted :
  forall t scenario vp e d, all_data_available vp -> indexed_arithmetic e ->
  compute_degree e = Ok d -> (d <= 1)%nat ->
  (exists L, linearize_expression e (Some t) scenario vp = Ok L) \/
  linearize_expression e (Some t) scenario vp = Err ZeroDivisionError.
Proof.
  intros t scenario vp e d Hv Hi Hd Hle.
  destruct (degree1_linearizable t scenario vp e Hv Hi d Hd Hle) as [[D HD]|HD];
    unfold linearize_expression; rewrite HD; cbn; eauto.
Qed.
Print Assumptions C16_linear_accepted.

Theorem C16_accepted_is_linear :
  forall timestep scenario vp e L, indexed_arithmetic e ->
  linearize_expression e timestep scenario vp = Ok L -> is_linear e = Ok true.
Proof.
  intros timestep scenario vp e L Hi H. unfold linearize_expression in H. inv_bind H.
  destruct (linearizable_degree1 _ _ _ _ Hi _ H0) as (d & Hd & Hle). unfold is_linear. rewrite Hd. cbn.
  f_equal. apply Nat.leb_le. exact Hle.
Qed.
Print Assumptions C16_accepted_is_linear.

Theorem C16_constant_has_no_terms :
  forall timestep scenario vp e L, indexed_arithmetic e -> is_constant e = Ok true ->
  linearize_expression e timestep scenario vp = Ok L -> le_terms L = [].
Proof. intros; eapply constant_no_terms; eauto. Qed.
Print Assumptions C16_constant_has_no_terms.

Example C16_example :
  has_variable (exl_x 1) /\ indexed_arithmetic exl_e /\ compute_degree exl_e = Ok 1%nat /\
  all_data_available (Some (fun _ _ _ _ => Ok n1)) /\
  linearize_expression (Mul (exl_x 0) (exl_x 1)) (Some 0%Z) None None = Err ValueError /\
  is_constant (Mul exl_p exl_p) = Ok true /\
  exists L, linearize_expression (Mul exl_p exl_p) (Some 0%Z) None (Some exl_get) = Ok L.
Proof.
  split; [vm_compute; tauto|]. split; [repeat split; discriminate|]. split; [reflexivity|].
  split; [eexists; split; [reflexivity|]; eauto|]. split; [reflexivity|]. split; [reflexivity|].
  eexists; reflexivity.
Qed.

(** ** C41 *)
Theorem C41_sum_pointwise :
  forall a b, distinct_keys (le_terms a) -> distinct_keys (le_terms b) ->
  exists d1 d2, negligible d1 /\ negligible d2 /\ distinct_keys d1 /\ distinct_keys d2 /\
    incl d1 (le_terms a) /\ incl (map fst d2) (map fst (le_terms a ++ le_terms b)) /\
    (normal_form a -> d1 = []) /\
    forall x, olift2 Qcplus (le_value x (le_add a b)) (terms_value x (d1 ++ d2))
              = olift2 Qcplus (le_value x a) (le_value x b).
Proof. exact add_value. Qed.
Print Assumptions C41_sum_pointwise.

Theorem C41_difference_pointwise :
  forall a b, distinct_keys (le_terms a) -> distinct_keys (le_terms b) ->
  exists d1 d2, negligible d1 /\ negligible d2 /\ distinct_keys d1 /\ distinct_keys d2 /\
    incl d1 (le_terms a) /\ incl (map fst d2) (map fst (le_terms a ++ le_terms b)) /\
    (normal_form a -> d1 = []) /\
    forall x, olift2 Qcplus (le_value x (le_sub a b)) (terms_value x (d1 ++ d2))
              = olift2 Qcminus (le_value x a) (le_value x b).
Proof. exact sub_value. Qed.
Print Assumptions C41_difference_pointwise.

Theorem C41_opposite_pointwise :
  forall a, distinct_keys (le_terms a) ->
  exists d, negligible d /\ distinct_keys d /\ incl (map fst d) (map fst (le_terms a)) /\ (normal_form a -> d = []) /\
    forall x, olift2 Qcplus (le_value x (le_neg a)) (terms_value x d) = option_map Qcopp (le_value x a).
Proof. exact neg_value. Qed.
Print Assumptions C41_opposite_pointwise.

(** Products: one factor is constant; its value [c] may be rounded to 0 or 1 when within 1e-16.
    [a0] is the left operand without its negligible terms. *)
Theorem C41_product_pointwise :
  forall a b r, distinct_keys (le_terms a) -> finite_expr a -> finite_expr b ->
  le_mul a b = Ok r ->
  exists dropped, negligible dropped /\ distinct_keys dropped /\ incl dropped (le_terms a) /\ (normal_form a -> dropped = []) /\
  exists a0, (forall x, olift2 Qcplus (le_value x a0) (terms_value x dropped) = le_value x a) /\
  exists c c', (c' = c \/ (c' = 0%Qc \/ c' = 1%Qc) /\ (Qcabs (c - c') < Q2Qc (1 # 10 ^ 16))%Qc) /\
    (((forall x, le_value x b = Some c) /\
      (forall x v, le_value x a0 = Some v -> le_value x r = Some (v * c')%Qc))
     \/ ((forall x, le_value x a0 = Some c) /\
         (forall x v, le_value x b = Some v -> le_value x r = Some (v * c')%Qc))).
Proof. exact mul_value. Qed.
Print Assumptions C41_product_pointwise.

Theorem C41_quotient_pointwise :
  forall a b r, distinct_keys (le_terms a) -> finite_expr b ->
  le_truediv a b = Ok r ->
  exists dropped, negligible dropped /\ distinct_keys dropped /\ incl dropped (le_terms a) /\ (normal_form a -> dropped = []) /\
  exists a0, (forall x, olift2 Qcplus (le_value x a0) (terms_value x dropped) = le_value x a) /\
  exists c c', (c' = c \/ c' = 1%Qc /\ (Qcabs (c - c') < Q2Qc (1 # 10 ^ 16))%Qc) /\ c' <> 0%Qc /\
    (forall x, le_value x b = Some c) /\
    (forall x v, le_value x a0 = Some v -> le_value x r = Some (v / c')%Qc).
Proof. exact div_value. Qed.
Print Assumptions C41_quotient_pointwise.

Theorem C41_errors :
  forall a b,
  ((exists kt, In kt (le_terms a) /\ ~ negligible [kt]) -> le_terms b <> [] ->
     le_mul a b = Err ValueError) /\
  (le_terms a = [] \/ le_terms b = [] -> exists r, le_mul a b = Ok r) /\
  (le_terms b <> [] -> le_truediv a b = Err ValueError) /\
  (le_terms b = [] -> (exists c, le_constant b = Fin c /\ (Qcabs c < Q2Qc (1 # 10 ^ 16))%Qc) ->
     le_truediv a b = Err ZeroDivisionError) /\
  (forall c, le_terms b = [] -> le_constant b = Fin c -> (Q2Qc (1 # 10 ^ 16) <= Qcabs c)%Qc ->
     exists r, le_truediv a b = Ok r).
Proof.
  intros a b. split; [apply mul_error|]. split; [apply mul_ok|]. split; [apply div_errors|].
  split; [apply div_errors|]. intros c. apply div_ok.
Qed.
Print Assumptions C41_errors.

(** Equality: the same terms in any order, and constants closer than 1e-16; equal expressions have
    values closer than 1e-16 everywhere. *)
Theorem C41_equality :
  forall a b, distinct_keys (le_terms a) -> distinct_keys (le_terms b) -> finite_expr a -> finite_expr b ->
  (le_eqb a b = true <->
   Permutation (le_terms a) (le_terms b) /\
   exists ca cb, le_constant a = Fin ca /\ le_constant b = Fin cb /\ (Qcabs (ca - cb) < Q2Qc (1 # 10 ^ 16))%Qc) /\
  (le_eqb a b = true -> forall x, exists va vb, le_value x a = Some va /\ le_value x b = Some vb /\
    (Qcabs (va - vb) < Q2Qc (1 # 10 ^ 16))%Qc).
Proof. intros a b Na Nb Fa Fb. exact (conj (equality_spec a b Na Nb Fa Fb) (equality_value a b Na Nb Fa Fb)). Qed.
Print Assumptions C41_equality.
Example C41_equality_example :
  let a := {| le_terms := [(exl_key 0, nz 2); (exl_key 1, nz 3)]; le_constant := nz 4 |} in
  let b := {| le_terms := [(exl_key 1, nz 3); (exl_key 0, nz 2)]; le_constant := nz 4 |} in
  distinct_keys (le_terms a) /\ finite_expr a /\ finite_expr b /\ le_eqb a b = true /\
  le_eqb a {| le_terms := [(exl_key 1, nz 3)]; le_constant := nz 4 |} = false.
Proof.
  cbv zeta. split; [repeat constructor; cbn; intuition discriminate|].
  assert (F : forall l, l = [(exl_key 0, nz 2); (exl_key 1, nz 3)] \/ l = [(exl_key 1, nz 3); (exl_key 0, nz 2)] ->
    finite_expr {| le_terms := l; le_constant := nz 4 |}).
  { intros l H. do 3 (split; [discriminate|]). destruct H; subst l; repeat constructor; eexists; reflexivity. }
  split; [apply F; auto|]. split; [apply F; auto|]. split; vm_compute; reflexivity.
Qed.

Definition exl_a : lin_expr := {| le_terms := [(exl_key 0, nz 2); (exl_key 1, nz 3)]; le_constant := nz 4 |}.
Definition exl_b : lin_expr := {| le_terms := [(exl_key 1, nz (-3)); (exl_key 2, nz 1)]; le_constant := nz 1 |}.
Definition exl_c : lin_expr := {| le_terms := []; le_constant := nz 5 |}.
Example C41_example :
  normal_form exl_a /\ distinct_keys (le_terms exl_b) /\ finite_expr exl_a /\ finite_expr exl_c /\
  le_add exl_a exl_b = {| le_terms := [(exl_key 0, nz 2); (exl_key 2, nz 1)]; le_constant := nz 5 |} /\
  (exists r, le_mul exl_a exl_c = Ok r /\ le_terms r = [(exl_key 0, nz 10); (exl_key 1, nz 15)]) /\
  (exists r, le_mul exl_c exl_a = Ok r /\ le_terms r = [(exl_key 0, nz 10); (exl_key 1, nz 15)]) /\
  le_mul exl_a exl_b = Err ValueError.
Proof.
  split; [split|].
  - repeat constructor; cbn; intuition discriminate.
  - repeat constructor; intros H; inversion H as [|? ? (c & Hc & Hlt)]; subst; cbn in Hc;
      injection Hc as <-; vm_compute in Hlt; discriminate.
  - split; [repeat constructor; cbn; intuition discriminate|].
    split; [repeat split; try discriminate; repeat constructor; cbn; eexists; reflexivity|].
    split; [repeat split; try discriminate; repeat constructor|].
    split; [vm_compute; reflexivity|].
    split; [eexists; split; [reflexivity|vm_compute; reflexivity]|].
    split; [eexists; split; [reflexivity|vm_compute; reflexivity]|]. reflexivity.
Qed.

(** ** C42 *)

(** Full statement: for every separated heap, any program and any object that is not the
    target of an in-place operation, the object keeps its value.  Missing below:
    multiplications whose left operand is a non-zero constant, for which it is false
    (C42_constant_times_expression_refuted, C42_one_times_expression_shares_refuted). *)
Theorem C42_operands_unchanged_partial :
  forall h s h' r, separated h -> left_not_constant h s -> target s = None ->
  exec h s = Ok (h', r) ->
  separated h' /\ (List.length (h_objs h) <= r)%nat /\
  forall i, (i < List.length (h_objs h))%nat -> h_value h' i = h_value h i.
Proof. exact operators_leave_operands. Qed.
Print Assumptions C42_operands_unchanged_partial.

Theorem C42_history_keeps_values_partial :
  forall p h i, separated h -> no_constant_left_factor h p ->
  (i < List.length (h_objs h))%nat -> ~ In (Some i) (map target p) ->
  separated (exec_all h p) /\ h_value (exec_all h p) i = h_value h i.
Proof. exact history_unchanged. Qed.
Print Assumptions C42_history_keeps_values_partial.

(** the object operators compute the values of C41; a product with a constant that is not zero on the left
    is written into the right operand too *)
Theorem C42_operators_compute_values :
  forall h a b ea eb, separated h -> h_value h a = Ok ea -> h_value h b = Ok eb ->
  (forall h' r, h_add h a b = Ok (h', r) -> h_value h' r = Ok (le_add ea eb)) /\
  (forall h' r, h_sub h a b = Ok (h', r) -> h_value h' r = Ok (le_sub ea eb)) /\
  (forall h' r, h_neg h a = Ok (h', r) -> h_value h' r = Ok (le_neg ea)) /\
  (forall h' r, h_truediv h a b = Ok (h', r) -> exists e, le_truediv ea eb = Ok e /\ h_value h' r = Ok e) /\
  (forall h' r, h_mul h a b = Ok (h', r) -> exists e, le_mul ea eb = Ok e /\ h_value h' r = Ok e /\
     (le_terms ea = [] -> (forall c, le_constant ea = Fin c -> (Q2Qc (1 # 10 ^ 16) <= Qcabs c)%Qc) -> h_value h' b = Ok e)).
Proof. exact operator_values. Qed.
Print Assumptions C42_operators_compute_values.

(** [5 * (2x + 3y + 4)] as a product of linear expressions changes the right operand *)
Definition exl_heap : heap := exec_all {| h_objs := []; h_dicts := [] |} [SNew exl_c; SNew exl_a; SNew exl_b].
Theorem C42_constant_times_expression_refuted :
  exists h a b h' r, separated h /\ h_mul h a b = Ok (h', r) /\
    (b < List.length (h_objs h))%nat /\ h_value h' b <> h_value h b.
Proof.
  exists exl_heap, 0%nat, 1%nat. eexists. eexists. split.
  - split.
    + intros [|[|[|[|i]]]] o H; cbn in H; try discriminate; injection H as <-; cbn; lia.
    + intros [|[|[|[|i]]]] [|[|[|[|j]]]] oi oj Hi Hj He; cbn in Hi, Hj; try discriminate; try reflexivity;
        injection Hi as <-; injection Hj as <-; discriminate.
  - split; [reflexivity|]. split; [cbn; lia|]. vm_compute. discriminate.
Qed.
Print Assumptions C42_constant_times_expression_refuted.

(** after [r = 1 * b], dividing [r] in place changes [b] *)
Theorem C42_one_times_expression_shares_refuted :
  exists h a b c h' r h'' r', separated h /\ h_mul h a b = Ok (h', r) /\ h_value h' b = h_value h b /\
    h_itruediv h' r c = Ok (h'', r') /\ r <> b /\ h_value h'' b <> h_value h' b.
Proof.
  exists (exec_all exl_heap [SNew {| le_terms := []; le_constant := n1 |}]), 3%nat, 1%nat, 0%nat.
  eexists. eexists. eexists. eexists. split.
  - split.
    + intros [|[|[|[|[|i]]]]] o H; cbn in H; try discriminate; injection H as <-; cbn; lia.
    + intros [|[|[|[|[|i]]]]] [|[|[|[|[|j]]]]] oi oj Hi Hj He; cbn in Hi, Hj; try discriminate; try reflexivity;
        injection Hi as <-; injection Hj as <-; discriminate.
  - split; [reflexivity|]. split; [vm_compute; reflexivity|]. split; [reflexivity|].
    split; [discriminate|]. vm_compute. discriminate.
Qed.
Print Assumptions C42_one_times_expression_shares_refuted.

(** a program meeting the hypotheses: r = a + b; r *= 5; s = r / 5; s -= b *)
Example C42_example :
  separated exl_heap /\
  no_constant_left_factor exl_heap [SAdd 1 2; SIMul 3 0; SDiv 3 0; SISub 4 2] /\
  h_value (exec_all exl_heap [SAdd 1 2; SIMul 3 0; SDiv 3 0; SISub 4 2]) 1 = Ok exl_a /\
  h_value (exec_all exl_heap [SAdd 1 2; SIMul 3 0; SDiv 3 0; SISub 4 2]) 4 <>
  h_value (exec_all exl_heap [SAdd 1 2; SIMul 3 0; SDiv 3 0]) 4.
Proof.
  split; [|split].
  - split.
    + intros [|[|[|[|i]]]] o H; cbn in H; try discriminate; injection H as <-; cbn; lia.
    + intros [|[|[|[|i]]]] [|[|[|[|j]]]] oi oj Hi Hj He; cbn in Hi, Hj; try discriminate; try reflexivity;
        injection Hi as <-; injection Hj as <-; discriminate.
  - cbn [no_constant_left_factor left_not_constant].
    split; [exact I|]. vm_compute exec. cbv iota beta. split; [|vm_compute; tauto].
    intros va Hva. left. vm_compute in Hva. injection Hva as <-. cbn [le_terms].
    eexists; split; [left; reflexivity|]. intros H. inversion H as [|? ? (c & Hc & Hlt)]; subst.
    cbn in Hc. injection Hc as <-. vm_compute in Hlt. discriminate.
  - split; [vm_compute; reflexivity|]. vm_compute. discriminate.
Qed.

(** ** C50.  A linear expression built from terms with distinct keys is in normal form and its value is
    that of the terms and the constant, up to those of its terms that are below 1e-16.  Missing: terms with the same key. *)
Theorem C50_built_from_terms_partial : forall l c, distinct_keys l ->
  (normal_form (le_of_list l c) /\ normal_form (le_of_dict l c)) /\
  exists dropped, negligible dropped /\ distinct_keys dropped /\ incl dropped l /\ forall x,
    olift2 Qcplus (le_value x (le_of_list l c)) (terms_value x dropped) = olift2 Qcplus (nval c) (terms_value x l) /\
    olift2 Qcplus (le_value x (le_of_dict l c)) (terms_value x dropped) = olift2 Qcplus (nval c) (terms_value x l).
Proof. exact constructors_value. Qed.
Print Assumptions C50_built_from_terms_partial.
Example C50_example : distinct_keys [(exl_key 0, nz 2); (exl_key 1, Fin (Q2Qc (1 # 10 ^ 17))); (exl_key 2, nz (-3))] /\
  le_of_list [(exl_key 0, nz 2); (exl_key 1, Fin (Q2Qc (1 # 10 ^ 17))); (exl_key 2, nz (-3))] (nz 7)
  = {| le_terms := [(exl_key 0, nz 2); (exl_key 2, nz (-3))]; le_constant := nz 7 |}.
Proof. split; [repeat constructor; cbn; intuition discriminate|vm_compute; reflexivity]. Qed.

(** Whatever the keys: each variable has the coefficient of the last term of the list that is about it and is not
    below 1e-16, and a variable without such a term does not appear. *)
Theorem C50_built_exactly : forall l c,
  le_constant (le_of_list l c) = c /\ normal_form (le_of_list l c) /\
  forall k v, In (k, v) (le_terms (le_of_list l c)) <->
    exists before after, l = before ++ (k, v) :: after /\ ~ negligible [(k, v)] /\
      forall w, In (k, w) after -> negligible [(k, w)].
Proof. exact list_constructor_exact. Qed.
Print Assumptions C50_built_exactly.
Example C50_built_exactly_example :
  le_of_list [(exl_key 0, nz 2); (exl_key 1, nz 5); (exl_key 0, nz 3); (exl_key 0, Fin (Q2Qc (1 # 10 ^ 17)))] (nz 7)
  = {| le_terms := [(exl_key 0, nz 3); (exl_key 1, nz 5)]; le_constant := nz 7 |}.
Proof. vm_compute. reflexivity. Qed.

(** Two terms with the same key in a list: the first is lost, 2x + 3x is built as 3x. *)
Theorem C50_same_key_refuted : exists l x, le_value x (le_of_list l n0) <> terms_value x l.
Proof.
  exists [(exl_key 0, nz 2); (exl_key 0, nz 3)], (fun _ => 1%Qc). vm_compute. discriminate.
Qed.
Print Assumptions C50_same_key_refuted.
