(** Facts about operator expansion (C10-C13). *)
From Coq Require Import Lia Permutation.
From Verif Require Import Base Expr Visitors Expansion BaseFacts SpecExpr SpecSyntax SpecVisitors
  SpecExpansion ExprFacts CopyFacts VisitorFacts DegreeFacts.

(** arithmetic-only trees: no time or scenario operator, no port aggregator *)
Definition op_free (x : expr) : Prop :=
  match x with
  | TShift _ _ | TEval _ _ | TSum _ _ _ | AllSum _ | ScenOp _ _ | PortAgg _ _ => False
  | _ => True
  end.

(** Copying an operator-free expression, read at another point of another world. *)
Lemma copy_op_free_den (c : copier) (E E' : env) t s t' s' e e' :
  all_nodes op_free e ->
  all_leaves (fun x => forall x', copy_with c x = Ok x' -> den E' x' t' s' = den E x t s) e ->
  copy_with c e = Ok e' ->
  den E' e' t' s' = den E e t s.
Proof.
  revert e'. induction e using expr_ind'; intros e' HN HL Hc;
    try (apply HL; assumption);
    try (apply all_nodes_root in HN; contradiction).
  - copy_step Hc. reflexivity.
  - copy_step Hc. cbn. erewrite IHe; eauto. now cbn in HN.
  - copy_step Hc. rewrite (den_sum_operands _ _ _ _ _ Hc). cbn [den]. f_equal.
    cbn [all_leaves] in HL. rewrite fold_and_Forall in HL. apply all_nodes_Add in HN.
    destruct HN as [_ HN].
    apply mapM_ok in H0. clear Hc. induction H0 as [|x y l l' Hxy Hl IHl]; [reflexivity|].
    inversion H; inversion HL; inversion HN; subst. cbn [map]. f_equal; auto.
  - copy_step Hc. cbn [all_nodes all_leaves] in HN, HL. cbn. erewrite IHe1, IHe2; try tauto; eauto.
  - copy_step Hc. cbn [all_nodes all_leaves] in HN, HL. cbn. erewrite IHe1, IHe2; try tauto; eauto.
  - copy_step Hc. reflexivity.
Qed.

(** Copying preserves a predicate on nodes that holds of arithmetic nodes and of none of the
    operators. *)
Definition arith_pred (P : expr -> Prop) : Prop :=
  (forall v, P (Lit v)) /\ (forall a, P (Neg a)) /\ (forall l, P (Add l)) /\
  (forall a b, P (Mul a b)) /\ (forall a b, P (Div a b)) /\ (forall a b c, P (Cmp a b c)).

Lemma copy_op_free_nodes (c : copier) (P : expr -> Prop) e e' :
  arith_pred P ->
  all_nodes op_free e ->
  all_leaves (fun x => forall x', copy_with c x = Ok x' -> all_nodes P x') e ->
  copy_with c e = Ok e' -> all_nodes P e'.
Proof.
  intros (HLit & HNeg & HAdd & HMul & HDiv & HCmp).
  revert e'. induction e using expr_ind'; intros e' HN HL Hc; try (apply HL; assumption);
    try (apply all_nodes_root in HN; contradiction);
    try (copy_step Hc; cbn in HN, HL; cbn; intuition eauto; fail).
  copy_step Hc. destruct v as [|v vs]; cbn [sum_operands] in Hc; [discriminate|].
  injection Hc as <-. cbn [all_leaves] in HL. rewrite fold_and_Forall in HL.
  apply all_nodes_Add in HN. destruct HN as [_ HN].
  apply mapM_ok in H0.
  assert (HF : Forall (all_nodes P) (v :: vs)).
  { induction H0 as [|x y l l' Hxy Hl IHl]; [constructor|]. inversion H; inversion HL; inversion HN; subst.
    constructor; eauto. }
  inversion HF; subst. apply fold_py_add_nodes; auto.
Qed.

(** ** C13 *)
Lemma expanded_op_free sp e : expanded sp e -> all_nodes op_free e.
Proof.
  apply all_nodes_imp. intros x. destruct x; cbn; tauto.
Qed.

Lemma expanded_arith sp : arith_pred (fun x => match x with
    | PVar c n ti si => exists ix, get_component_variable_structure sp c n = Ok ix /\
                                   time_indexed ix ti /\ scenario_indexed ix si
    | PParam c n ti si => exists ix, get_component_parameter_structure sp c n = Ok ix /\
                                     time_indexed ix ti /\ scenario_indexed ix si
    | Lit _ | Neg _ | Add _ | Mul _ _ | Div _ _ | Cmp _ _ _ => True
    | _ => False end).
Proof. repeat split; cbn; auto. Qed.

Lemma apply_timeshift_expanded sp k X X' :
  expanded sp X -> apply_timeshift X k = Ok X' -> expanded sp X'.
Proof.
  intros HX. apply copy_op_free_nodes; [apply expanded_arith | eapply expanded_op_free; eauto|].
  apply all_leaves_nodes in HX. revert HX. apply all_leaves_imp.
  intros x (Hk & HP & _) x' E. destruct x; try contradiction; cbn in E; injection E as <-;
    destruct HP as (ix & H1 & H2 & H3); cbn; (split; [|auto]); exists ix; repeat split; auto;
    unfold time_indexed in *; destruct (ix_time ix); destruct ti; cbn; congruence.
Qed.

Lemma apply_timestep_expanded sp k b X X' :
  expanded sp X -> apply_timestep X k b = Ok X' -> expanded sp X'.
Proof.
  intros HX. apply copy_op_free_nodes; [apply expanded_arith | eapply expanded_op_free; eauto|].
  apply all_leaves_nodes in HX. revert HX. apply all_leaves_imp.
  intros x (Hk & HP & _) x' E. destruct x; try contradiction; cbn in E; inv_bind E; injection E as <-;
    destruct HP as (ix & H1 & H2 & H3); cbn; (split; [|auto]); exists ix; repeat split; auto;
    unfold time_indexed in *; destruct (ix_time ix); destruct ti; cbn in H; try destruct b;
    try discriminate H; injection H as <-; congruence.
Qed.

Lemma apply_scenario_expanded sp k X X' :
  expanded sp X -> apply_scenario X k = Ok X' -> expanded sp X'.
Proof.
  intros HX. apply copy_op_free_nodes; [apply expanded_arith | eapply expanded_op_free; eauto|].
  apply all_leaves_nodes in HX. revert HX. apply all_leaves_imp.
  intros x (Hk & HP & _) x' E. destruct x; try contradiction; cbn in E; injection E as <-;
    destruct HP as (ix & H1 & H2 & H3); cbn; (split; [|auto]); exists ix; repeat split; auto;
    unfold scenario_indexed in *; destruct (ix_scenario ix); destruct si; cbn; congruence.
Qed.

Lemma sum_expressions_nodes (P : expr -> Prop) l :
  arith_pred P -> Forall (all_nodes P) l -> all_nodes P (sum_expressions l).
Proof.
  intros (HLit & HNeg & HAdd & HMul & HDiv & HCmp) HF.
  destruct l as [|a [|b l]]; cbn [sum_expressions].
  - cbn. auto.
  - now inversion HF.
  - apply all_nodes_Add. split; auto.
Qed.

Lemma mapM_Forall {A B} (f : A -> result B) (P : B -> Prop) l ys :
  mapM f l = Ok ys -> (forall x y, In x l -> f x = Ok y -> P y) -> Forall P ys.
Proof.
  intros H HP. apply mapM_ok in H. induction H; constructor.
  - eapply HP; eauto. now left.
  - apply IHForall2. intros. eapply HP; eauto. now right.
Qed.

Lemma expand_expanded d ev sp e :
  component_names_only e ->
  forall e', expand d ev sp e = Ok e' -> expanded sp e'.
Proof.
  unfold component_names_only. induction e using expr_ind'; intros HN e' He.
  3:{ apply all_nodes_Add in HN. destruct HN as [_ HN]. cbn [expand] in He. inv_bind He.
      destruct v as [|v vs]; cbn [sum_operands] in He; [discriminate|]. injection He as <-.
      assert (HF : Forall (expanded sp) (v :: vs)).
      { eapply mapM_Forall; eauto. intros x y Hx Hy. rewrite Forall_forall in H, HN. eauto. }
      inversion HF; subst. apply fold_py_add_nodes; auto. }
  all: cbn [expand] in He; cbn [all_nodes] in HN; try tauto; try discriminate.
  - injection He as <-. cbn. auto.
  - inv_bind He. injection He as <-. cbn. split; auto. apply IHe; tauto.
  - inv_bind He. inv_bind He. injection He as <-. cbn. repeat split; [apply IHe1|apply IHe2]; tauto.
  - inv_bind He. inv_bind He. injection He as <-. cbn. repeat split; [apply IHe1|apply IHe2]; tauto.
  - inv_bind He. inv_bind He. injection He as <-. cbn. repeat split; [apply IHe1|apply IHe2]; tauto.
  - inv_bind He. injection He as <-. cbn. split; auto. exists v. split; auto.
    unfold time_indexed, scenario_indexed, initial_time_index, initial_scenario_index.
    destruct (ix_time v), (ix_scenario v); split; congruence.
  - inv_bind He. injection He as <-. cbn. split; auto. exists v. split; auto.
    unfold time_indexed, scenario_indexed, initial_time_index, initial_scenario_index.
    destruct (ix_time v), (ix_scenario v); split; congruence.
  - inv_bind He. inv_bind He. eapply apply_timeshift_expanded; eauto. apply IHe1; tauto.
  - inv_bind He. inv_bind He. eapply apply_timestep_expanded; eauto. apply IHe1; tauto.
  - inv_bind He. inv_bind He. inv_bind He. inv_bind He. injection He as <-.
    apply sum_expressions_nodes; [apply expanded_arith|]. eapply mapM_Forall; eauto.
    intros x y _ Hy. eapply apply_timeshift_expanded; eauto. apply IHe1; tauto.
  - inv_bind He. inv_bind He. injection He as <-.
    apply sum_expressions_nodes; [apply expanded_arith|]. eapply mapM_Forall; eauto.
    intros x y _ Hy. cbn beta in Hy; eapply apply_timestep_expanded; eauto. apply IHe; tauto.
  - destruct o; try discriminate. inv_bind He. inv_bind He. injection He as <-.
    cbn. repeat split. apply sum_expressions_nodes; [apply expanded_arith|]. eapply mapM_Forall; eauto.
    intros x y _ Hy. cbn beta in Hy; eapply apply_scenario_expanded; eauto. apply IHe; tauto.
Qed.

(** no scenario operator: no fixed scenario index appears *)
Definition not_one_scenario (x : expr) : Prop :=
  op_free x /\
  match x with
  | PVar _ _ _ (OneScenarioIndex _) | PParam _ _ _ (OneScenarioIndex _) => False
  | _ => True
  end.

Lemma not_one_arith : arith_pred not_one_scenario.
Proof. repeat split; cbn; auto. Qed.

Lemma copy_not_one c X X' :
  (forall x x', leaf_kind x -> not_one_scenario x -> copy_with c x = Ok x' -> all_nodes not_one_scenario x') ->
  all_nodes not_one_scenario X -> copy_with c X = Ok X' -> all_nodes not_one_scenario X'.
Proof.
  intros Hc HX. apply copy_op_free_nodes; [apply not_one_arith | | ].
  - eapply all_nodes_imp; [|exact HX]. intros x [H _]. exact H.
  - apply all_leaves_nodes in HX. revert HX. apply all_leaves_imp.
    intros x (Hk & HP & _) x' E. eauto.
Qed.

Lemma expand_not_one d ev sp e :
  component_names_only e -> no_scenario_operator e ->
  forall e', expand d ev sp e = Ok e' -> all_nodes not_one_scenario e'.
Proof.
  assert (Hshift : forall k X X', all_nodes not_one_scenario X -> apply_timeshift X k = Ok X' ->
            all_nodes not_one_scenario X').
  { intros k X X'. apply copy_not_one. intros x x' Hk [H1 H2] E.
    destruct x; try contradiction; cbn in E; injection E as <-; cbn;
      repeat split; destruct si; auto. }
  assert (Hstep : forall k b X X', all_nodes not_one_scenario X -> apply_timestep X k b = Ok X' ->
            all_nodes not_one_scenario X').
  { intros k b X X'. apply copy_not_one. intros x x' Hk [H1 H2] E.
    destruct x; try contradiction; cbn in E; try inv_bind E; injection E as <-; cbn;
      repeat split; destruct si; auto. }
  unfold component_names_only, no_scenario_operator. induction e using expr_ind'; intros HN HS e' He.
  3:{ apply all_nodes_Add in HN, HS. destruct HN as [_ HN], HS as [_ HS]. cbn [expand] in He. inv_bind He.
      destruct v as [|v vs]; cbn [sum_operands] in He; [discriminate|]. injection He as <-.
      assert (HF : Forall (all_nodes not_one_scenario) (v :: vs)).
      { eapply mapM_Forall; eauto. intros x y Hx Hy. rewrite Forall_forall in H, HN, HS. eauto. }
      inversion HF; subst. apply fold_py_add_nodes; auto. intros l0. split; exact I. }
  all: cbn [expand] in He; cbn [all_nodes] in HN, HS; try tauto; try discriminate.
  - injection He as <-. cbn. auto.
  - inv_bind He. injection He as <-. cbn. split; [split; exact I|]. apply IHe; tauto.
  - inv_bind He. inv_bind He. injection He as <-. cbn. split; [split; exact I|]. split; [apply IHe1|apply IHe2]; tauto.
  - inv_bind He. inv_bind He. injection He as <-. cbn. split; [split; exact I|]. split; [apply IHe1|apply IHe2]; tauto.
  - inv_bind He. inv_bind He. injection He as <-. cbn. split; [split; exact I|]. split; [apply IHe1|apply IHe2]; tauto.
  - inv_bind He. injection He as <-. cbn. split; auto. split; [exact I|].
    unfold initial_scenario_index. destruct (ix_scenario v); exact I.
  - inv_bind He. injection He as <-. cbn. split; auto. split; [exact I|].
    unfold initial_scenario_index. destruct (ix_scenario v); exact I.
  - inv_bind He. inv_bind He. eapply Hshift; eauto. apply IHe1; tauto.
  - inv_bind He. inv_bind He. eapply Hstep; eauto. apply IHe1; tauto.
  - inv_bind He. inv_bind He. inv_bind He. inv_bind He. injection He as <-.
    apply sum_expressions_nodes; [apply not_one_arith|]. eapply mapM_Forall; eauto.
    intros x y _ Hy. eapply Hshift; eauto. apply IHe1; tauto.
  - inv_bind He. inv_bind He. injection He as <-.
    apply sum_expressions_nodes; [apply not_one_arith|]. eapply mapM_Forall; eauto.
    intros x y _ Hy. cbn beta in Hy. eapply Hstep; eauto. apply IHe; tauto.
Qed.

(** ** Semantics of the three index visitors *)
Lemma apply_timeshift_den sp E k X X' :
  respects sp E -> expanded sp X -> apply_timeshift X k = Ok X' ->
  forall t s, den E X' t s = den (shift_env k E) X t s.
Proof.
  intros (_ & _ & Hcv & Hcp) HX HA t s. revert HA. apply copy_op_free_den.
  - eapply expanded_op_free; eauto.
  - apply all_leaves_nodes in HX. revert HX. apply all_leaves_imp.
    intros x (Hk & HP & _) x' E'. destruct x; try contradiction; cbn in E'; injection E' as <-;
      destruct HP as (ix & H1 & H2 & H3); cbn; destruct ti; cbn; auto.
    + unfold time_indexed in H2. destruct (ix_time ix) eqn:Ei; [congruence|].
      destruct (Hcv _ _ _ H1) as [Hc _]. f_equal. auto.
    + do 2 f_equal. lia.
    + unfold time_indexed in H2. destruct (ix_time ix) eqn:Ei; [congruence|].
      destruct (Hcp _ _ _ H1) as [Hc _]. auto.
    + f_equal. lia.
Qed.

Lemma apply_timestep_den sp E k b X X' :
  respects sp E -> expanded sp X -> apply_timestep X k b = Ok X' ->
  forall t s, den E X' t s = den E X k s.
Proof.
  intros (_ & _ & Hcv & Hcp) HX HA t s. revert HA. apply copy_op_free_den.
  - eapply expanded_op_free; eauto.
  - apply all_leaves_nodes in HX. revert HX. apply all_leaves_imp.
    intros x (Hk & HP & _) x' E'. destruct x; try contradiction; cbn in E'; inv_bind E'; injection E' as <-;
      destruct HP as (ix & H1 & H2 & H3); cbn; destruct ti; cbn in H; try destruct b;
      try discriminate H; injection H as <-; cbn; auto.
    all: try (unfold time_indexed in H2; destruct (ix_time ix) eqn:Ei; [congruence|];
         first [ destruct (Hcv _ _ _ H1) as [Hc _] | destruct (Hcp _ _ _ H1) as [Hc _] ];
         first [ now apply Hc | f_equal; now apply Hc ]).

    all: rewrite Z.add_comm; reflexivity.
Qed.

Lemma apply_scenario_den sp E k X X' :
  respects sp E -> expanded sp X -> all_nodes not_one_scenario X -> apply_scenario X k = Ok X' ->
  forall t s, den E X' t s = den E X t k.
Proof.
  intros (_ & _ & Hcv & Hcp) HX HO HA t s. revert HA. apply copy_op_free_den.
  - eapply expanded_op_free; eauto.
  - pose proof (all_nodes_and _ _ _ HX HO) as H. apply all_leaves_nodes in H. revert H.
    apply all_leaves_imp. cbn beta.
    intros x (Hk & [HP [_ HQ]] & _) x' E'. destruct x; try contradiction; cbn in E'; injection E' as <-;
      destruct HP as (ix & H1 & H2 & H3); cbn; destruct si; cbn; auto; try contradiction.
    + unfold scenario_indexed in H3. destruct (ix_scenario ix) eqn:Ei; [congruence|].
      destruct (Hcv _ _ _ H1) as [_ Hc]. f_equal. auto.
    + unfold scenario_indexed in H3. destruct (ix_scenario ix) eqn:Ei; [congruence|].
      destruct (Hcp _ _ _ H1) as [_ Hc]. auto.
Qed.

(** ** Cyclic sums *)
Lemma osum_perm l l' : Permutation l l' -> osum l = osum l'.
Proof.
  induction 1 as [|x l l' H IH|x y l|l l' l'' H1 IH1 H2 IH2]; cbn; auto.
  - now rewrite IH.
  - destruct x, y, (osum l); try reflexivity. f_equal. ring.
  - congruence.
Qed.

Definition periodic {A} (T : Z) (f : Z -> A) : Prop := forall t, f (t + T)%Z = f t.

Lemma periodic_sum_1 T (f : Z -> option Qc) :
  (0 <= T)%Z -> periodic T f ->
  osum (map (fun i => f (i + 1)%Z) (zrange 0 T)) = osum (map f (zrange 0 T)).
Proof.
  intros HT HP. destruct (Z.eq_dec T 0) as [->|Hne]; [reflexivity|].
  assert (Hp : (0 < T)%Z) by lia.
  rewrite <- (map_map (fun i => (i + 1)%Z) f), <- zrange_shift.
  change (0 + 1)%Z with 1%Z.
  rewrite (zrange_snoc 1 T) by lia. rewrite (zrange_cons 0 T) by lia. cbn [map].
  rewrite map_app. cbn [map]. change (0 + 1)%Z with 1%Z.
  replace (f T) with (f 0%Z) by (rewrite <- (HP 0%Z); f_equal; lia).
  apply osum_perm. apply Permutation_sym, Permutation_cons_append.
Qed.

Lemma periodic_shift {A} T k (f : Z -> A) : periodic T f -> periodic T (fun t => f (t + k)%Z).
Proof. intros H t. rewrite <- (H (t + k)%Z). f_equal. lia. Qed.

Lemma periodic_sum_nat T (f : Z -> option Qc) : (0 <= T)%Z -> periodic T f ->
  forall n, osum (map (fun i => f (i + Z.of_nat n)%Z) (zrange 0 T)) = osum (map f (zrange 0 T)).
Proof.
  intros HT HP. induction n as [|n IH].
  - f_equal. apply map_ext. intros i. f_equal. lia.
  - rewrite <- IH. rewrite <- (periodic_sum_1 T (fun i => f (i + Z.of_nat n)%Z) HT).
    + f_equal. apply map_ext. intros i. f_equal. lia.
    + now apply periodic_shift.
Qed.

Lemma periodic_sum T k (f : Z -> option Qc) : periodic T f ->
  osum (map (fun i => f (i + k)%Z) (zrange 0 T)) = osum (map f (zrange 0 T)).
Proof.
  intros HP. destruct (Z_le_gt_dec T 0) as [HT|HT].
  { rewrite zrange_empty by lia. reflexivity. }
  assert (H0 : (0 <= T)%Z) by lia.
  destruct (Z_le_gt_dec 0 k) as [Hk|Hk].
  - replace k with (Z.of_nat (Z.to_nat k)) by lia. now apply periodic_sum_nat.
  - rewrite <- (periodic_sum_nat T (fun i => f (i + k)%Z) H0 (periodic_shift T k f HP) (Z.to_nat (- k))).
    f_equal. apply map_ext. intros i. f_equal. lia.
Qed.

(** ** Shifted worlds *)
Lemma shift_env_cyclic k E : cyclic E -> cyclic (shift_env k E).
Proof.
  intros [H1 H2]. split; cbn; intros.
  - rewrite <- (H1 c n (t + k)%Z). f_equal. lia.
  - rewrite <- (H2 c n (t + k)%Z). f_equal. lia.
Qed.

Lemma shift_env_respects sp k E : respects sp E -> respects sp (shift_env k E).
Proof.
  intros (H1 & H2 & H3 & H4). split; [|split; [|split]]; cbn; auto.
  - intros c n ix Hix. destruct (H3 c n ix Hix) as [Ha Hb]. split; intros; auto.
  - intros c n ix Hix. destruct (H4 c n ix Hix) as [Ha Hb]. split; intros; auto.
Qed.

(** all values of component-only expressions repeat with the block length *)
Lemma cyclic_den E e : cyclic E -> component_names_only e ->
  forall t s, den E e (t + e_T E) s = den E e t s.
Proof.
  intros [H1 H2]. unfold component_names_only.
  induction e using expr_ind'; intros HN t s.
  3:{ apply all_nodes_Add in HN. destruct HN as [_ HN]. cbn [den]. f_equal. apply map_ext_in.
      intros x Hx. rewrite Forall_forall in H, HN. auto. }
  all: cbn [all_nodes] in HN; try tauto; cbn [den]; auto.
  - now rewrite IHe.
  - now rewrite IHe1, IHe2.
  - now rewrite IHe1, IHe2.
  - f_equal. apply H1.
  - rewrite IHe2 by tauto. destruct (oint _); auto.
    replace (t + e_T E + z)%Z with (t + z + e_T E)%Z by lia. apply IHe1. tauto.
  - rewrite IHe2 by tauto. reflexivity.
  - rewrite IHe2, IHe3 by tauto. destruct (oint _); auto. destruct (oint _); auto.
    f_equal. apply map_ext. intros i.
    replace (t + e_T E + i)%Z with (t + i + e_T E)%Z by lia. apply IHe1. tauto.
  - assert (Hm : map (fun i : Z => den E e (t + e_T E) i) (zrange 0 (e_S E)) =
                 map (fun i : Z => den E e t i) (zrange 0 (e_S E))).
    { apply map_ext. intros i. apply IHe. tauto. }
    destruct o; now rewrite ?Hm.
Qed.

(** reading the shifted world now = reading the world later, unless a timestep is fixed *)
Lemma shift_env_den (cyc : Prop) k E e :
  (cyc -> cyclic E) -> component_names_only e -> no_eval e -> (cyc \/ no_all_sum e) ->
  forall t s, den (shift_env k E) e t s = den E e (t + k) s.
Proof.
  intros Hcyc. unfold component_names_only, no_eval, no_all_sum.
  induction e using expr_ind'; intros HN HV HA t s.
  3:{ apply all_nodes_Add in HN, HV. destruct HN as [_ HN], HV as [_ HV]. cbn [den]. f_equal.
      apply map_ext_in. intros x Hx. rewrite Forall_forall in H, HN, HV. apply H; auto.
      destruct HA as [HA|HA]; auto. right. apply all_nodes_Add in HA. destruct HA as [_ HA].
      rewrite Forall_forall in HA. auto. }
  all: cbn [all_nodes] in HN, HV; try tauto; cbn [den]; auto.
  - rewrite IHe; auto; try tauto. destruct HA; auto. right. cbn in *; tauto.
  - rewrite IHe1, IHe2; auto; try tauto; (destruct HA; auto; right; cbn in *; tauto).
  - rewrite IHe1, IHe2; auto; try tauto; (destruct HA; auto; right; cbn in *; tauto).
  - rewrite IHe2; auto; try tauto; [|destruct HA; auto; right; cbn in *; tauto].
    destruct (oint _); auto. rewrite IHe1; auto; try tauto; [|destruct HA; auto; right; cbn in *; tauto].
    f_equal. lia.
  - rewrite IHe2, IHe3; auto; try tauto; try (destruct HA; auto; right; cbn in *; tauto).
    destruct (oint _); auto. destruct (oint _); auto. f_equal. apply map_ext. intros i.
    rewrite IHe1; auto; try tauto; [|destruct HA; auto; right; cbn in *; tauto].
    f_equal. lia.
  - destruct HA as [HA|HA]; [|cbn in HA; tauto].
    pose proof (periodic_sum (e_T E) k (fun i => den E e i s)) as Hs.
    cbn [shift_env e_T]. rewrite <- Hs.
    + f_equal. apply map_ext. intros i. apply IHe; try tauto.
    + intros u. apply cyclic_den; auto. unfold component_names_only. tauto.
  - cbn [shift_env e_S].
    assert (Hm : map (fun i : Z => den (shift_env k E) e t i) (zrange 0 (e_S E)) =
                 map (fun i : Z => den E e (t + k) i) (zrange 0 (e_S E))).
    { apply map_ext. intros i. apply IHe; try tauto. destruct HA; auto. right. cbn in *; tauto. }
    destruct o; now rewrite ?Hm.
Qed.

(** time arguments are those of the whole expression *)
Lemma all_nodes_sub_imp (P Q R : expr -> Prop) e :
  (forall x, P x -> all_nodes R x -> Q x) -> all_nodes R e -> all_nodes P e -> all_nodes Q e.
Proof.
  intros HPQ. induction e using expr_ind'; intros HR HP.
  3:{ pose proof HR as HR0. rewrite all_nodes_Add in *. destruct HR as [HR HRF], HP as [HP HPF]. split.
      - apply HPQ; auto. now apply all_nodes_Add.
      - clear HR0 HR HP HPQ. induction H as [|x l Hx Hl IHl]; [constructor|].
        inversion HRF; inversion HPF; subst. constructor; auto. }
  all: pose proof HR as HR0; cbn [all_nodes] in HR, HP |- *; intuition auto.
Qed.

Lemma evaluator_sound_shift (cyc : Prop) k E ev e :
  (cyc -> cyclic E) -> component_names_only e -> no_eval e -> (cyc \/ no_all_sum e) ->
  evaluator_sound E ev e -> evaluator_sound (shift_env k E) ev e.
Proof.
  intros Hcyc HN HV HA. unfold evaluator_sound, time_args.
  assert (HR : all_nodes (fun x =>
      (match x with Var _ | Param _ | PVar _ _ _ _ | PParam _ _ _ _ | PortField _ _ | PortAgg _ _ => False
       | _ => True end) /\ (match x with TEval _ _ => False | _ => True end) /\
      (cyc \/ match x with AllSum _ => False | _ => True end)) e).
  { repeat apply all_nodes_and; auto. destruct HA as [HA|HA].
    - clear -HA. induction e using expr_ind'; cbn; auto 6.
      rewrite (fold_and_Forall (all_nodes _)). auto.
    - eapply all_nodes_imp; [|exact HA]. intros x Hx. now right. }
  assert (Hsub : forall x, all_nodes (fun x =>
      (match x with Var _ | Param _ | PVar _ _ _ _ | PParam _ _ _ _ | PortField _ _ | PortAgg _ _ => False
       | _ => True end) /\ (match x with TEval _ _ => False | _ => True end) /\
      (cyc \/ match x with AllSum _ => False | _ => True end)) x ->
      forall z, (forall t s, den E x t s = Some (Z2Qc z)) ->
      forall t s, den (shift_env k E) x t s = Some (Z2Qc z)).
  { intros x Hx z Hz t s.
    assert (HAx : cyc \/ no_all_sum x).
    { destruct HA as [HA|HA]; auto. 
      assert (Hx2 : all_nodes (fun y => cyc \/ match y with AllSum _ => False | _ => True end) x).
      { eapply all_nodes_imp; [|exact Hx]. cbn. tauto. }
      clear -Hx2.
      assert (HG : cyc \/ all_nodes (fun y => match y with AllSum _ => False | _ => True end) x).
      { induction x using expr_ind'.
        3:{ apply all_nodes_Add in Hx2. destruct Hx2 as [_ Hx2].
            assert (cyc \/ Forall (all_nodes (fun y => match y with AllSum _ => False | _ => True end)) l).
            { induction H as [|y l Hy Hl IHl]; [right; constructor|]. inversion Hx2; subst.
              destruct (Hy H1) as [|Hy']; auto. destruct (IHl H2) as [|Hl']; auto. }
            destruct H0; auto. right. apply all_nodes_Add. auto. }
        all: cbn [all_nodes] in *; intuition auto. }
      exact HG. }
    rewrite (shift_env_den cyc); auto.
    - eapply all_nodes_imp; [|exact Hx]. cbn. tauto.
    - eapply all_nodes_imp; [|exact Hx]. cbn. tauto. }
  intros HE. revert HE. 
  assert (Hkids : forall x, all_nodes (fun x =>
      (match x with Var _ | Param _ | PVar _ _ _ _ | PParam _ _ _ _ | PortField _ _ | PortAgg _ _ => False
       | _ => True end) /\ (match x with TEval _ _ => False | _ => True end) /\
      (cyc \/ match x with AllSum _ => False | _ => True end)) x ->
    (match x with
     | TShift _ k0 | TEval _ k0 => forall z : Z, ev k0 = Ok z -> forall t s : Z, den E k0 t s = Some (Z2Qc z)
     | TSum _ a b =>
       (forall z : Z, ev a = Ok z -> forall t s : Z, den E a t s = Some (Z2Qc z)) /\
       (forall z : Z, ev b = Ok z -> forall t s : Z, den E b t s = Some (Z2Qc z))
     | _ => True end) ->
    (match x with
     | TShift _ k0 | TEval _ k0 => forall z : Z, ev k0 = Ok z -> forall t s : Z, den (shift_env k E) k0 t s = Some (Z2Qc z)
     | TSum _ a b =>
       (forall z : Z, ev a = Ok z -> forall t s : Z, den (shift_env k E) a t s = Some (Z2Qc z)) /\
       (forall z : Z, ev b = Ok z -> forall t s : Z, den (shift_env k E) b t s = Some (Z2Qc z))
     | _ => True end)).
  { intros x Hx. destruct x; auto; cbn [all_nodes] in Hx.
    - intros Hk z Hz. apply Hsub; [tauto|]. now apply Hk.
    - intros Hk z Hz. apply Hsub; [tauto|]. now apply Hk.
    - intros [Ha Hb]. split; intros z Hz; apply Hsub; try tauto; auto. }
  intros HE. eapply (all_nodes_sub_imp _ _ _ e); [|exact HR|exact HE].
  intros x Hx HRx. now apply Hkids.
Qed.

(** ** C10 / C12: expansion preserves the mathematical meaning *)
Lemma oint_Z z : oint (Some (Z2Qc z)) = Some z.
Proof.
  cbn. unfold Qc_int.
  assert (H : this (Z2Qc z) = inject_Z z).
  { unfold Z2Qc, Q2Qc. cbn [this]. unfold Qred, inject_Z.
    pose proof (Z.ggcd_gcd z 1) as Hg. pose proof (Z.ggcd_correct_divisors z 1) as Hd.
    destruct (Z.ggcd z 1) as [g [a b]]. cbn in *. rewrite Z.gcd_1_r in Hg. subst g.
    destruct Hd as [H1 H2]. replace a with z by lia. replace b with 1%Z by lia. reflexivity. }
  rewrite H. reflexivity.
Qed.

Lemma mapM_den_map {A} E (f : A -> result expr) (g : A -> option Qc) l nodes t s :
  mapM f l = Ok nodes ->
  (forall x y, In x l -> f x = Ok y -> den E y t s = g x) ->
  map (fun y => den E y t s) nodes = map g l.
Proof.
  intros H Hg. apply mapM_ok in H. induction H as [|x y l l' Hxy Hl IHl]; [reflexivity|].
  cbn [map]. f_equal.
  - apply Hg; auto. now left.
  - apply IHl. intros. apply Hg; auto. now right.
Qed.

Lemma expand_den (cyc : Prop) d ev sp e :
  component_names_only e -> well_nested cyc e ->
  forall E e', (cyc -> cyclic E) -> respects sp E -> evaluator_sound E ev e ->
  e_T E = timesteps_count d -> e_S E = scenarios_count d -> (0 <= scenarios_count d)%Z ->
  expand d ev sp e = Ok e' ->
  forall t s, den E e' t s = den E e t s.
Proof.
  unfold well_nested.
  induction e using expr_ind'; intros HN HW E e' Hcyc HR HE HT HS HS0 He t s.
  3:{ pose proof HN as HN'. unfold component_names_only in HN'.
      apply all_nodes_Add in HN', HW. destruct HN' as [_ HN'], HW as [_ HW].
      unfold evaluator_sound, time_args in HE. apply all_nodes_Add in HE. destruct HE as [_ HE].
      cbn [expand] in He. inv_bind He. rewrite (den_sum_operands _ _ _ _ _ He). cbn [den]. f_equal.
      eapply mapM_den_map; eauto. intros x y Hx Hy. cbn beta.
      rewrite Forall_forall in H, HN', HW, HE.
      apply (H x Hx (HN' x Hx) (HW x Hx) E y); auto. exact (HE x Hx). }
  all: try (unfold component_names_only in HN; apply all_nodes_root in HN; contradiction).
  all: cbn [expand] in He.
  - injection He as <-. reflexivity.
  - inv_bind He. injection He as <-. unfold component_names_only, evaluator_sound, time_args in *.
    cbn [all_nodes] in *. cbn [den py_neg]. rewrite (IHe (proj2 HN) (proj2 HW) E v); auto. exact (proj2 HE).
  - inv_bind He. inv_bind He. injection He as <-. unfold component_names_only, evaluator_sound, time_args in *.
    cbn [all_nodes] in *.
    destruct HN as (_ & HN1 & HN2), HW as (_ & HW1 & HW2), HE as (_ & HE1 & HE2).
    cbn [den py_mul py_div]. rewrite (IHe1 HN1 HW1 E v), (IHe2 HN2 HW2 E v0); auto.
  - inv_bind He. inv_bind He. injection He as <-. unfold component_names_only, evaluator_sound, time_args in *.
    cbn [all_nodes] in *.
    destruct HN as (_ & HN1 & HN2), HW as (_ & HW1 & HW2), HE as (_ & HE1 & HE2).
    cbn [den py_mul py_div]. rewrite (IHe1 HN1 HW1 E v), (IHe2 HN2 HW2 E v0); auto.
  - inv_bind He. inv_bind He. injection He as <-. reflexivity.
  - (* CVar *) inv_bind He. injection He as <-. destruct HR as (_ & _ & Hcv & _).
    destruct (Hcv _ _ _ H) as [H1 H2]. cbn. unfold initial_time_index, initial_scenario_index.
    destruct (ix_time v), (ix_scenario v); cbn; rewrite ?Z.add_0_r; reflexivity.
  - (* CParam *) inv_bind He. injection He as <-. cbn. unfold initial_time_index, initial_scenario_index.
    destruct (ix_time v), (ix_scenario v); cbn; rewrite ?Z.add_0_r; reflexivity.
  - (* TShift *) inv_bind He. inv_bind He.
    pose proof HN as HN0. unfold component_names_only, evaluator_sound, time_args in HN, HE.
    cbn [all_nodes] in HN, HW, HE. destruct HN as (_ & HN1 & HN2), HW as ((HW1 & HW2) & HW3 & HW4),
      HE as (HE1 & HE2 & HE3).
    rewrite (apply_timeshift_den sp E v v0 e') by
      first [assumption | eapply expand_expanded; [exact HN1 | eassumption]].
    rewrite (IHe1 HN1 HW3 (shift_env v E) v0).
    + rewrite (shift_env_den cyc) by assumption. cbn [den]. rewrite (HE1 v H), oint_Z. reflexivity.
    + intros Hc. apply shift_env_cyclic. auto.
    + now apply shift_env_respects.
    + eapply evaluator_sound_shift; eauto.
    + exact HT.
    + exact HS.
    + exact HS0.
    + exact H0.
  - (* TEval *) inv_bind He. inv_bind He.
    unfold component_names_only, evaluator_sound, time_args in HN, HE.
    cbn [all_nodes] in HN, HW, HE. destruct HN as (_ & HN1 & HN2), HW as (_ & HW3 & HW4),
      HE as (HE1 & HE2 & HE3).
    rewrite (apply_timestep_den sp E v false v0 e') by
      first [assumption | eapply expand_expanded; [exact HN1 | eassumption]].
    rewrite (IHe1 HN1 HW3 E v0) by assumption.
    cbn [den]. rewrite (HE1 v H), oint_Z. reflexivity.
  - (* TSum *) inv_bind He. inv_bind He. inv_bind He. inv_bind He. injection He as <-.
    unfold component_names_only, evaluator_sound, time_args in HN, HE.
    cbn [all_nodes] in HN, HW, HE.
    destruct HN as (_ & HN1 & HN2 & HN3), HW as ((HW1 & HW2) & HW3 & HW4 & HW5),
      HE as ((HE1 & HE1') & HE2 & HE3 & HE4).
    rewrite den_sum_expressions. cbn [den]. rewrite (HE1 v H), (HE1' v0 H0), !oint_Z. f_equal.
    eapply mapM_den_map; [exact H2|]. intros k y Hk Hy. cbn beta.
    rewrite (apply_timeshift_den sp E k v1 y) by
      first [assumption | eapply expand_expanded; [exact HN1 | eassumption]].
    rewrite (IHe1 HN1 HW3 (shift_env k E) v1).
    + now rewrite (shift_env_den cyc) by assumption.
    + intros Hc. apply shift_env_cyclic. auto.
    + now apply shift_env_respects.
    + eapply evaluator_sound_shift; eauto.
    + exact HT.
    + exact HS.
    + exact HS0.
    + exact H1.
  - (* AllSum *) inv_bind He. inv_bind He. injection He as <-.
    unfold component_names_only, evaluator_sound, time_args in HN, HE.
    cbn [all_nodes] in HN, HW, HE.
    rewrite den_sum_expressions. cbn [den]. rewrite HT. f_equal.
    eapply mapM_den_map; [exact H0|]. intros k y Hk Hy. cbn beta.
    rewrite (apply_timestep_den sp E k true v y) by
      first [assumption | eapply expand_expanded; [exact (proj2 HN) | eassumption]].
    apply (IHe (proj2 HN) (proj2 HW)); auto. exact (proj2 HE).
  - (* ScenOp *) destruct o; try discriminate. inv_bind He. inv_bind He. injection He as <-.
    unfold component_names_only, evaluator_sound, time_args in HN, HE.
    cbn [all_nodes] in HN, HW, HE.
    unfold py_div_num, py_div, wrap_num, nz. cbn [den].
    rewrite den_sum_expressions. rewrite HS.
    rewrite (mapM_den_map E (apply_scenario v) (fun i => den E e t i) (zrange 0 (scenarios_count d)) v0 t s H0).
    + unfold omean, odiv, olift2. destruct (scenarios_count d <=? 0)%Z eqn:Es.
      * apply Z.leb_le in Es. assert (Hz : scenarios_count d = 0%Z) by lia. rewrite Hz.
        cbn. replace (Qceqb (Z2Qc 0) 0) with true by reflexivity. reflexivity.
      * apply Z.leb_gt in Es. destruct (osum _); [|reflexivity].
        replace (Qceqb (Z2Qc (scenarios_count d)) 0) with false; [reflexivity|].
        symmetry. apply Qceqb_neq. apply Z2Qc_nonzero. lia.
    + intros k y Hk Hy.
      rewrite (apply_scenario_den sp E k v y); auto.
      * apply (IHe (proj2 HN) (proj2 HW)); auto. exact (proj2 HE).
      * eapply expand_expanded; [exact (proj2 HN) | eassumption].
      * eapply expand_not_one; [exact (proj2 HN) | exact (proj1 HW) | eassumption].
Qed.

(** ** Success of expansion *)
Definition not_step (x : expr) : Prop :=
  op_free x /\
  match x with PVar _ _ (TimeStep _) _ | PParam _ _ (TimeStep _) _ => False | _ => True end.

Lemma not_step_arith : arith_pred not_step.
Proof. repeat split; cbn; auto. Qed.

Lemma copy_op_free_ok c X :
  all_nodes op_free X -> no_empty_sum X ->
  all_leaves (fun x => exists x', copy_with c x = Ok x' /\ no_empty_sum x') X ->
  exists X', copy_with c X = Ok X' /\ no_empty_sum X'.
Proof.
  unfold no_empty_sum. induction X using expr_ind'; intros HO HN HL;
    try (apply HL; assumption);
    try (apply all_nodes_root in HO; contradiction).
  - exists (Lit v). cbn. repeat split; discriminate.
  - cbn in HO, HN, HL. destruct IHX as (X' & H1 & H2); try tauto. cbn. rewrite H1. cbn.
    eexists; split; [reflexivity|]. cbn. split; [discriminate|auto].
  - apply all_nodes_Add in HO, HN. destruct HO as [_ HO], HN as [HN1 HN].
    cbn [all_leaves] in HL. rewrite fold_and_Forall in HL.
    assert (HF : exists vs, mapM (copy_with c) l = Ok vs /\ Forall (all_nodes (fun x => x <> Add [])) vs).
    { clear HN1. induction H as [|x l Hx Hl IHl]; [exists []; split; [reflexivity|constructor]|].
      inversion HO; inversion HN; inversion HL; subst.
      destruct Hx as (y & Hy1 & Hy2); auto. destruct IHl as (ys & H1' & H2'); auto.
      exists (y :: ys). cbn. rewrite Hy1, H1'. split; [reflexivity|constructor; auto]. }
    destruct HF as (vs & Hvs & HF). cbn [copy_with]. rewrite Hvs. cbn [bind].
    assert (vs <> []).
    { intros ->. apply mapM_length in Hvs. destruct l; [congruence|discriminate]. }
    destruct vs as [|v vs]; [congruence|]. cbn [sum_operands]. eexists; split; [reflexivity|].
    inversion HF; subst. clear - H3 H4. revert v H3. induction H4 as [|b l Hb Hl IHl]; intros v Hv; cbn [fold_left]; auto.
    apply IHl. unfold py_add. apply all_nodes_Add. split.
    + assert (Hne : v <> Add []) by now apply all_nodes_root in Hv.
      pose proof (add_operands_nonempty v Hne). destruct (add_operands v); [congruence|discriminate].
    + apply Forall_app. split; now apply add_operands_nodes.
  - cbn in HO, HN, HL. destruct IHX1 as (a & A1 & A2), IHX2 as (b & B1 & B2); try tauto.
    cbn. rewrite A1, B1. cbn. eexists; split; [reflexivity|]. cbn. repeat split; auto; discriminate.
  - cbn in HO, HN, HL. destruct IHX1 as (a & A1 & A2), IHX2 as (b & B1 & B2); try tauto.
    cbn. rewrite A1, B1. cbn. eexists; split; [reflexivity|]. cbn. repeat split; auto; discriminate.
  - cbn in HO, HN, HL. destruct IHX1 as (a & A1 & A2), IHX2 as (b & B1 & B2); try tauto.
    cbn. rewrite A1, B1. cbn. eexists; split; [reflexivity|]. cbn. repeat split; auto; discriminate.
Qed.

Lemma index_copy_ok sp c X :
  expanded sp X -> no_empty_sum X ->
  (forall i n ti si, (exists a b, copy_with c (PVar i n ti si) = Ok (PVar i n a b))) ->
  (forall i n ti si, (exists a b, copy_with c (PParam i n ti si) = Ok (PParam i n a b))) ->
  exists X', copy_with c X = Ok X' /\ no_empty_sum X'.
Proof.
  intros HX HN H1 H2. apply copy_op_free_ok; auto.
  - eapply expanded_op_free; eauto.
  - apply all_leaves_nodes in HX. revert HX. apply all_leaves_imp.
    intros x (Hk & HP & _). destruct x; try contradiction.
    + destruct (H1 c0 n ti si) as (a & b & ->). eexists; split; [reflexivity|].
      cbn. split; [discriminate|auto].
    + destruct (H2 c0 n ti si) as (a & b & ->). eexists; split; [reflexivity|].
      cbn. split; [discriminate|auto].
Qed.

Lemma expandable_names ev sp e : expandable ev sp e -> component_names_only e.
Proof. apply all_nodes_imp. intros x. destruct x; cbn; tauto. Qed.

Lemma expand_not_step d ev sp e :
  component_names_only e -> no_fixed_step e ->
  forall e', expand d ev sp e = Ok e' -> all_nodes not_step e'.
Proof.
  assert (Hc : forall c X X',
    (forall x x', leaf_kind x -> not_step x -> copy_with c x = Ok x' -> all_nodes not_step x') ->
    all_nodes not_step X -> copy_with c X = Ok X' -> all_nodes not_step X').
  { intros c X X' Hc HX. apply copy_op_free_nodes; [apply not_step_arith | | ].
    - eapply all_nodes_imp; [|exact HX]. intros x [H _]. exact H.
    - apply all_leaves_nodes in HX. revert HX. apply all_leaves_imp.
      intros x (Hk & HP & _) x' E. eauto. }
  assert (Hshift : forall k X X', all_nodes not_step X -> apply_timeshift X k = Ok X' ->
            all_nodes not_step X').
  { intros k X X'. apply Hc. intros x x' Hk [H1 H2] E.
    destruct x; try contradiction; cbn in E; injection E as <-; cbn;
      repeat split; destruct ti; auto. }
  assert (Hscen : forall k X X', all_nodes not_step X -> apply_scenario X k = Ok X' ->
            all_nodes not_step X').
  { intros k X X'. apply Hc. intros x x' Hk [H1 H2] E.
    destruct x; try contradiction; cbn in E; injection E as <-; cbn;
      repeat split; destruct ti; auto. }
  unfold component_names_only, no_fixed_step. induction e using expr_ind'; intros HN HS e' He.
  3:{ apply all_nodes_Add in HN, HS. destruct HN as [_ HN], HS as [_ HS]. cbn [expand] in He. inv_bind He.
      destruct v as [|v vs]; cbn [sum_operands] in He; [discriminate|]. injection He as <-.
      assert (HF : Forall (all_nodes not_step) (v :: vs)).
      { eapply mapM_Forall; eauto. intros x y Hx Hy. rewrite Forall_forall in H, HN, HS. eauto. }
      inversion HF; subst. apply fold_py_add_nodes; auto. intros l0. split; exact I. }
  all: cbn [expand] in He; cbn [all_nodes] in HN, HS; try tauto; try discriminate.
  - injection He as <-. cbn. auto.
  - inv_bind He. injection He as <-. cbn. split; [split; exact I|]. apply IHe; tauto.
  - inv_bind He. inv_bind He. injection He as <-. cbn. split; [split; exact I|]. split; [apply IHe1|apply IHe2]; tauto.
  - inv_bind He. inv_bind He. injection He as <-. cbn. split; [split; exact I|]. split; [apply IHe1|apply IHe2]; tauto.
  - inv_bind He. inv_bind He. injection He as <-. cbn. split; [split; exact I|]. split; [apply IHe1|apply IHe2]; tauto.
  - inv_bind He. injection He as <-. cbn. split; auto. split; [exact I|].
    unfold initial_time_index. destruct (ix_time v); exact I.
  - inv_bind He. injection He as <-. cbn. split; auto. split; [exact I|].
    unfold initial_time_index. destruct (ix_time v); exact I.
  - inv_bind He. inv_bind He. eapply Hshift; eauto. apply IHe1; tauto.
  - inv_bind He. inv_bind He. inv_bind He. inv_bind He. injection He as <-.
    apply sum_expressions_nodes; [apply not_step_arith|]. eapply mapM_Forall; eauto.
    intros x y _ Hy. eapply Hshift; eauto. apply IHe1; tauto.
  - destruct o; try discriminate. inv_bind He. inv_bind He. injection He as <-.
    cbn. split; [split; exact I|]. split; [|repeat split].
    apply sum_expressions_nodes; [apply not_step_arith|]. eapply mapM_Forall; eauto.
    intros x y _ Hy. eapply Hscen; eauto. apply IHe; tauto.
Qed.

Lemma sum_expressions_not_empty l :
  Forall no_empty_sum l -> no_empty_sum (sum_expressions l).
Proof.
  unfold no_empty_sum. intros HF. destruct l as [|a [|b l]]; cbn [sum_expressions].
  - cbn. repeat split; discriminate.
  - now inversion HF.
  - apply all_nodes_Add. split; [discriminate|auto].
Qed.

Lemma mapM_ok_Forall {A B} (f : A -> result B) (P : B -> Prop) l :
  (forall x, In x l -> exists y, f x = Ok y /\ P y) -> exists ys, mapM f l = Ok ys /\ Forall P ys.
Proof.
  induction l as [|a l IH]; intros H; [exists []; split; [reflexivity|constructor]|].
  destruct (H a) as (y & Hy & HP); [now left|].
  destruct IH as (ys & Hys & HF); [intros; apply H; now right|].
  exists (y :: ys). cbn. rewrite Hy, Hys. split; [reflexivity|constructor; auto].
Qed.

Lemma is_ok_ex {A} (r : result A) : is_ok r = true -> exists a, r = Ok a.
Proof. destruct r; cbn; [eauto|discriminate]. Qed.

Lemma expand_ok d ev sp e :
  expandable ev sp e -> exists e', expand d ev sp e = Ok e' /\ no_empty_sum e'.
Proof.
  assert (Hshift : forall k X, expanded sp X -> no_empty_sum X ->
            exists X', apply_timeshift X k = Ok X' /\ no_empty_sum X').
  { intros k X HX HN. eapply index_copy_ok; eauto; intros; cbn; eauto. }
  assert (Hscen : forall k X, expanded sp X -> no_empty_sum X ->
            exists X', apply_scenario X k = Ok X' /\ no_empty_sum X').
  { intros k X HX HN. eapply index_copy_ok; eauto; intros; cbn; eauto. }
  assert (Hall : forall k X, expanded sp X -> no_empty_sum X ->
            exists X', apply_timestep X k true = Ok X' /\ no_empty_sum X').
  { intros k X HX HN. eapply index_copy_ok; eauto; intros; cbn; destruct ti; cbn; eauto. }
  induction e using expr_ind'; intros HE; pose proof (expandable_names _ _ _ HE) as HN;
    pose proof (expand_expanded d ev sp _ HN) as HX.
  3:{ unfold expandable in HE. apply all_nodes_Add in HE. destruct HE as [HE1 HE].
      destruct (mapM_ok_Forall (expand d ev sp) no_empty_sum l) as (vs & Hvs & HF).
      { intros x Hx. rewrite Forall_forall in H, HE. apply H; auto. exact (HE x Hx). }
      cbn [expand]. rewrite Hvs. cbn [bind].
      assert (vs <> []).
      { intros ->. apply mapM_length in Hvs. destruct l; [contradiction|discriminate]. }
      destruct vs as [|v vs]; [congruence|]. cbn [sum_operands]. eexists; split; [reflexivity|].
      inversion HF; subst. clear - H3 H4. unfold no_empty_sum in *. revert v H3.
      induction H4 as [|b l Hb Hl IHl]; intros v Hv; cbn [fold_left]; auto.
      apply IHl. unfold py_add. apply all_nodes_Add. split.
      + assert (Hne : v <> Add []) by now apply all_nodes_root in Hv.
        pose proof (add_operands_nonempty v Hne). destruct (add_operands v); [congruence|discriminate].
      + apply Forall_app. split; now apply add_operands_nodes. }
  all: try (apply all_nodes_root in HN; contradiction).
  all: unfold expandable in HE; cbn [all_nodes] in HE; unfold no_empty_sum in *; cbn [expand] in *.
  - eexists; split; [reflexivity|]. cbn. repeat split; discriminate.
  - destruct IHe as (a & A1 & A2); [exact (proj2 HE)|]. rewrite A1. cbn. eexists; split; [reflexivity|].
    cbn. split; [discriminate|auto].
  - destruct HE as (_ & HE1 & HE2).
    destruct IHe1 as (a & A1 & A2), IHe2 as (b & B1 & B2); auto. rewrite A1, B1. cbn.
    eexists; split; [reflexivity|]. cbn. repeat split; auto; discriminate.
  - destruct HE as (_ & HE1 & HE2).
    destruct IHe1 as (a & A1 & A2), IHe2 as (b & B1 & B2); auto. rewrite A1, B1. cbn.
    eexists; split; [reflexivity|]. cbn. repeat split; auto; discriminate.
  - destruct HE as (_ & HE1 & HE2).
    destruct IHe1 as (a & A1 & A2), IHe2 as (b & B1 & B2); auto. rewrite A1, B1. cbn.
    eexists; split; [reflexivity|]. cbn. repeat split; auto; discriminate.
  - destruct HE as [HE _]. apply is_ok_ex in HE. destruct HE as [ix ->]. cbn.
    eexists; split; [reflexivity|]. cbn. repeat split; discriminate.
  - destruct HE as [HE _]. apply is_ok_ex in HE. destruct HE as [ix ->]. cbn.
    eexists; split; [reflexivity|]. cbn. repeat split; discriminate.
  - destruct HE as (HE0 & HE1 & HE2). apply is_ok_ex in HE0. destruct HE0 as [z Hz].
    destruct IHe1 as (a & A1 & A2); auto. rewrite Hz, A1. cbn [bind]. apply Hshift; auto.
    eapply expand_expanded; [|exact A1]. eapply expandable_names; eauto.
  - destruct HE as ((HE0 & HF) & HE1 & HE2). apply is_ok_ex in HE0. destruct HE0 as [z Hz].
    destruct IHe1 as (a & A1 & A2); auto. rewrite Hz, A1. cbn [bind].
    pose proof (expandable_names _ _ _ HE1) as HN1.
    pose proof (expand_expanded _ _ _ _ HN1 _ A1) as HXa.
    pose proof (expand_not_step _ _ _ _ HN1 HF _ A1) as HSa.
    apply copy_op_free_ok; auto.
    + eapply expanded_op_free; eauto.
    + pose proof (all_nodes_and _ _ _ HXa HSa) as H. apply all_leaves_nodes in H. revert H.
      apply all_leaves_imp. cbn beta. intros x (Hk & [HP [_ HQ]] & _).
      destruct x; try contradiction; destruct ti; try contradiction; cbn;
        (eexists; split; [reflexivity|]; cbn; split; [discriminate|auto]).
  - destruct HE as ((HE0 & HE0') & HE1 & HE2 & HE3). apply is_ok_ex in HE0, HE0'.
    destruct HE0 as [z Hz], HE0' as [z' Hz'].
    destruct IHe1 as (a & A1 & A2); auto. rewrite Hz, Hz', A1. cbn [bind].
    destruct (mapM_ok_Forall (apply_timeshift a) no_empty_sum (zrange z (z' + 1))) as (ys & Hys & HF).
    { intros k _. apply Hshift; auto. eapply expand_expanded; [|exact A1]. eapply expandable_names; eauto. }
    rewrite Hys. cbn [bind]. eexists; split; [reflexivity|]. now apply sum_expressions_not_empty.
  - destruct HE as (_ & HE1).
    destruct IHe as (a & A1 & A2); auto. rewrite A1. cbn [bind].
    destruct (mapM_ok_Forall (fun t => apply_timestep a t true) no_empty_sum (zrange 0 (timesteps_count d))) as (ys & Hys & HF).
    { intros k _. apply Hall; auto. eapply expand_expanded; [|exact A1]. eapply expandable_names; eauto. }
    rewrite Hys. cbn [bind]. eexists; split; [reflexivity|]. now apply sum_expressions_not_empty.
  - destruct HE as (-> & HE1).
    destruct IHe as (a & A1 & A2); auto. rewrite A1. cbn [bind].
    destruct (mapM_ok_Forall (apply_scenario a) no_empty_sum (zrange 0 (scenarios_count d))) as (ys & Hys & HF).
    { intros k _. apply Hscen; auto. eapply expand_expanded; [|exact A1]. eapply expandable_names; eauto. }
    rewrite Hys. cbn [bind]. eexists; split; [reflexivity|]. cbn.
    repeat split; try discriminate. now apply sum_expressions_not_empty.
Qed.

(** ** No operator survives, whatever the input *)
Definition no_op_left (x : expr) : Prop :=
  match x with
  | TShift _ _ | TEval _ _ | TSum _ _ _ | AllSum _ | ScenOp _ _ | CVar _ _ | CParam _ _ => False
  | _ => True end.

Lemma copy_no_op_left c X :
  (forall x x', leaf_kind x -> no_op_left x -> (forall a g, x <> PortAgg a g) ->
     copy_with c x = Ok x' -> all_nodes no_op_left x') ->
  on_agg c = None ->
  all_nodes no_op_left X -> forall X', copy_with c X = Ok X' -> all_nodes no_op_left X'.
Proof.
  intros Hc Hagg. induction X using expr_ind'; intros HN X' HX;
    try (apply all_nodes_root in HN; contradiction);
    try (refine (Hc _ X' _ _ _ HX); [exact I | exact I | discriminate]).
  - copy_step HX. cbn. auto.
  - copy_step HX. cbn in *. split; auto. apply IHX; tauto.
  - copy_step HX. destruct v as [|v vs]; cbn [sum_operands] in HX; [discriminate|].
    injection HX as <-. apply all_nodes_Add in HN. destruct HN as [_ HN].
    assert (HF : Forall (all_nodes no_op_left) (v :: vs)).
    { eapply mapM_Forall; eauto. intros x y Hx Hy. rewrite Forall_forall in H, HN. eauto. }
    inversion HF; subst. apply fold_py_add_nodes; auto. intros; exact I.
  - copy_step HX. cbn in *. repeat split; [apply IHX1|apply IHX2]; tauto.
  - copy_step HX. cbn in *. repeat split; [apply IHX1|apply IHX2]; tauto.
  - copy_step HX. cbn in *. repeat split; [apply IHX1|apply IHX2]; tauto.
  - cbn [copy_with] in HX. rewrite Hagg in HX. inv_bind HX. injection HX as <-. cbn in *.
    split; auto. apply IHX; tauto.
Qed.

Lemma expand_no_operator d ev sp e :
  forall e', expand d ev sp e = Ok e' -> all_nodes no_op_left e'.
Proof.
  assert (Hshift : forall k X X', all_nodes no_op_left X -> apply_timeshift X k = Ok X' ->
            all_nodes no_op_left X').
  { intros k X X' HX. apply copy_no_op_left; auto. intros x x' Hk H1 H2 E.
    destruct x; try contradiction; cbn in E; injection E as <- || destruct (H2 _ _ eq_refl); cbn; auto. }
  assert (Hscen : forall k X X', all_nodes no_op_left X -> apply_scenario X k = Ok X' ->
            all_nodes no_op_left X').
  { intros k X X' HX. apply copy_no_op_left; auto. intros x x' Hk H1 H2 E.
    destruct x; try contradiction; cbn in E; injection E as <- || destruct (H2 _ _ eq_refl); cbn; auto. }
  assert (Hstep : forall k b X X', all_nodes no_op_left X -> apply_timestep X k b = Ok X' ->
            all_nodes no_op_left X').
  { intros k b X X' HX. apply copy_no_op_left; auto. intros x x' Hk H1 H2 E.
    destruct x; try contradiction; try destruct (H2 _ _ eq_refl); cbn in E;
      try (inv_bind E); injection E as <-; cbn; auto. }
  assert (Hsum : forall l, Forall (all_nodes no_op_left) l -> all_nodes no_op_left (sum_expressions l)).
  { intros l Hl. apply sum_expressions_nodes; auto. repeat split; exact I. }
  induction e using expr_ind'; intros e' He; cbn [expand] in He; try discriminate;
    repeat inv_bind He; try (injection He as <-); try (cbn; intuition auto; fail).
  - destruct v as [|v vs]; cbn [sum_operands] in He; [discriminate|].
    injection He as <-. 
    assert (HF : Forall (all_nodes no_op_left) (v :: vs)).
    { eapply mapM_Forall; eauto. intros x y Hx Hy. rewrite Forall_forall in H. eauto. }
    inversion HF; subst. apply fold_py_add_nodes; auto. intros; exact I.
  - refine (Hshift _ _ _ _ He). apply IHe1; assumption.
  - refine (Hstep _ _ _ _ _ He). apply IHe1; assumption.
  - apply Hsum. eapply mapM_Forall; [eassumption|]. intros x y _ Hy. refine (Hshift _ _ _ _ Hy).
    apply IHe1; assumption.
  - apply Hsum. eapply mapM_Forall; [eassumption|]. intros x y _ Hy. refine (Hstep _ _ _ _ _ Hy).
    apply IHe; assumption.
  - destruct o; try discriminate. repeat inv_bind He. injection He as <-. cbn. repeat split.
    apply Hsum. eapply mapM_Forall; [eassumption|]. intros x y _ Hy. refine (Hscen _ _ _ _ Hy).
    apply IHe; assumption.
Qed.
