(** Facts on expressions used to show that well-formed problems are built: copies, expansion,
    linearisation and evaluation succeed. *)
From Coq Require Import Lia.
From Verif Require Import Base BaseFacts Expr Visitors LinearExpr Linearize Expansion Model Study Strategy Optim
  SpecExpr SpecSyntax SpecVisitors SpecExpansion SpecLinear SpecModel SpecOptim SpecReady
  ExprFacts CopyFacts VisitorFacts DegreeFacts ExpansionFacts LinearFacts ModelFacts OptimFacts OptimMeaning.

Notation none := (fun _ _ : string => false).

(** ** Copies *)
Lemma py_add_not_nil a b : a <> Add [] -> add_operands a ++ add_operands b <> [].
Proof.
  intros Ha H. apply app_eq_nil in H. destruct H as [H _]. destruct a; try discriminate. cbn in H. now subst.
Qed.
Lemma py_add_nodes' (P : expr -> Prop) a b : (forall l, l <> [] -> P (Add l)) -> a <> Add [] ->
  all_nodes P a -> all_nodes P b -> all_nodes P (py_add a b).
Proof.
  intros HP Hn Ha Hb. unfold py_add. apply all_nodes_Add. split; [apply HP; now apply py_add_not_nil|].
  apply Forall_app. split.
  - destruct a; cbn; try (constructor; [exact Ha|constructor]). apply all_nodes_Add in Ha. apply Ha.
  - destruct b; cbn; try (constructor; [exact Hb|constructor]). apply all_nodes_Add in Hb. apply Hb.
Qed.
Lemma fold_add_nodes' (P : expr -> Prop) l : (forall l, l <> [] -> P (Add l)) -> ~ P (Add []) -> forall a,
  all_nodes P a -> Forall (all_nodes P) l -> all_nodes P (fold_left py_add l a).
Proof.
  intros HP Hn. induction l as [|b l IH]; intros a Ha Hl; cbn; [exact Ha|]. inversion Hl; subst. apply IH; auto.
  apply py_add_nodes'; auto. intros ->. apply all_nodes_root in Ha. contradiction.
Qed.

(** predicates carried from the nodes of an expression to those of its copy *)
Definition carried (c : copier) (N N' : expr -> Prop) : Prop :=
  (forall v, N (Lit v) -> N' (Lit v)) /\ (forall a, N' (Neg a)) /\ (forall l, l <> [] -> N' (Add l)) /\ ~ N' (Add []) /\
  (forall a b, N' (Mul a b)) /\ (forall a b, N' (Div a b)) /\
  (forall a b k a' b', N (Cmp a b k) -> N' (Cmp a' b' k)) /\
  (forall a k a' k', N (TShift a k) -> copy_with c a = Ok a' -> copy_with c k = Ok k' -> N' (TShift a' k')) /\
  (forall a k a' k', N (TEval a k) -> copy_with c a = Ok a' -> copy_with c k = Ok k' -> N' (TEval a' k')) /\
  (forall a f t a' f' t', N (TSum a f t) -> copy_with c a = Ok a' -> copy_with c f = Ok f' -> copy_with c t = Ok t' ->
     N' (TSum a' f' t')) /\
  (forall a a', N (AllSum a) -> N' (AllSum a')) /\
  (forall a op a', N (ScenOp a op) -> N' (ScenOp a' op)).
Lemma copy_nodes c N N' (L : expr -> Prop) e : carried c N N' ->
  (forall x x', leaf_kind x -> N x -> L x -> copy_with c x = Ok x' -> all_nodes N' x') ->
  forall e', all_nodes N e -> all_leaves L e -> copy_with c e = Ok e' -> all_nodes N' e'.
Proof.
  intros (HLit & HNeg & HAdd & HNil & HMul & HDiv & HCmp & HTSh & HTE & HTS & HAS & HSO) Hl.
  induction e using expr_ind'; intros e' HN HL HE.
  3:{ copy_step HE. destruct v as [|v vs]; cbn [sum_operands] in HE; [discriminate|].
      injection HE as <-. apply all_nodes_Add in HN. destruct HN as [_ HN].
      cbn [all_leaves] in HL. apply fold_and_Forall in HL.
      assert (HF : Forall (all_nodes N') (v :: vs)).
      { eapply mapM_Forall; eauto. intros x y Hx Hy. rewrite Forall_forall in H, HN, HL. eauto. }
      inversion HF; subst. apply fold_add_nodes'; auto. }
  all: try (refine (Hl _ _ _ _ _ HE); [exact I|apply all_nodes_root in HN; exact HN|exact HL]).
  all: copy_step HE; cbn [all_nodes all_leaves py_neg py_mul py_div] in HN, HL |- *; intuition eauto.
Qed.
(** leaves *)
Lemma fold_add_leaves (P : expr -> Prop) l : forall a,
  all_leaves P a -> Forall (all_leaves P) l -> all_leaves P (fold_left py_add l a).
Proof.
  induction l as [|b l IH]; intros a Ha Hl; cbn; [exact Ha|]. inversion Hl; subst. apply IH; auto.
  unfold py_add. cbn [all_leaves]. apply fold_and_Forall, Forall_app. split.
  - destruct a; cbn; try (constructor; [exact Ha|constructor]). cbn [all_leaves] in Ha. now apply fold_and_Forall in Ha.
  - destruct b; cbn; try (constructor; [exact H1|constructor]). cbn [all_leaves] in H1. now apply fold_and_Forall in H1.
Qed.
Lemma copy_leaves c (L L' : expr -> Prop) e :
  (forall x x', leaf_kind x -> L x -> copy_with c x = Ok x' -> all_leaves L' x') ->
  forall e', all_leaves L e -> copy_with c e = Ok e' -> all_leaves L' e'.
Proof.
  intros Hl. induction e using expr_ind'; intros e' HL HE.
  3:{ copy_step HE. destruct v as [|v vs]; cbn [sum_operands] in HE; [discriminate|].
      injection HE as <-. cbn [all_leaves] in HL. apply fold_and_Forall in HL.
      assert (HF : Forall (all_leaves L') (v :: vs)).
      { eapply mapM_Forall; eauto. intros x y Hx Hy. rewrite Forall_forall in H, HL. eauto. }
      inversion HF; subst. apply fold_add_leaves; auto. }
  all: try (refine (Hl _ _ _ _ HE); [exact I|exact HL]).
  all: copy_step HE; cbn [all_leaves py_neg py_mul py_div] in HL |- *; intuition eauto.
Qed.

(** ** Affine expressions *)
Lemma decides_operands ports a : existsb (decides ports) (add_operands a) = decides ports a.
Proof. destruct a; cbn; rewrite ?orb_false_r; reflexivity. Qed.
Lemma decides_fold ports l : forall a,
  decides ports (fold_left py_add l a) = decides ports a || existsb (decides ports) l.
Proof.
  induction l as [|b l IH]; intros a; cbn [fold_left existsb]; [now rewrite orb_false_r|].
  rewrite IH. cbn [py_add decides]. now rewrite existsb_app, !decides_operands, orb_assoc.
Qed.
Lemma affine_operands ports a : affine ports a -> Forall (affine ports) (add_operands a).
Proof. destruct a; cbn; intros H; try (constructor; [exact H|constructor]). now apply fold_and_Forall in H. Qed.
Lemma affine_Add ports l : affine ports (Add l) <-> Forall (affine ports) l.
Proof. cbn. apply fold_and_Forall. Qed.
Lemma affine_fold ports l : forall a, affine ports a -> Forall (affine ports) l -> affine ports (fold_left py_add l a).
Proof.
  induction l as [|b l IH]; intros a Ha Hl; cbn [fold_left]; [exact Ha|]. inversion Hl; subst. apply IH; auto.
  unfold py_add. apply affine_Add, Forall_app. split; now apply affine_operands.
Qed.
Lemma affine_sum ports l : Forall (affine ports) l -> affine ports (sum_expressions l).
Proof.
  destruct l as [|a [|b l]]; intros H; [exact I|now inversion H|]. cbn [sum_expressions]. now apply affine_Add.
Qed.
Lemma decides_sum ports l : decides ports (sum_expressions l) = existsb (decides ports) l.
Proof. destruct l as [|a [|b l]]; cbn; rewrite ?orb_false_r; reflexivity. Qed.

(** the second expression is affine and decides no more than the first *)
Definition tame (ports ports' : string -> string -> bool) (e e' : expr) : Prop :=
  affine ports' e' /\ (decides ports' e' = true -> decides ports e = true).
Lemma tame_false ports ports' e e' : tame ports ports' e e' -> decides ports e = false -> decides ports' e' = false.
Proof. intros [_ H] He. destruct (decides ports' e'); auto. now rewrite H in He. Qed.
Lemma tame_list ports ports' l l' : Forall2 (tame ports ports') l l' ->
  Forall (affine ports') l' /\ (existsb (decides ports') l' = true -> existsb (decides ports) l = true).
Proof.
  intros H. induction H as [|a b l m [Ha Hd] Hl [IH1 IH2]]; [split; [constructor|auto]|].
  split; [now constructor|]. cbn. rewrite !orb_true_iff. tauto.
Qed.
Lemma copy_tame c ports ports' e :
  (forall x x', leaf_kind x -> agg_ok x -> copy_with c x = Ok x' -> tame ports ports' x x') ->
  forall e', aggregators_on_ports e -> affine ports e -> copy_with c e = Ok e' -> tame ports ports' e e'.
Proof.
  intros Hc. unfold aggregators_on_ports. induction e using expr_ind'; intros e' HA HF HE.
  3:{ copy_step HE. destruct v as [|v vs]; cbn [sum_operands] in HE; [discriminate|].
      injection HE as <-. apply all_nodes_Add in HA. destruct HA as [_ HA]. apply affine_Add in HF.
      apply mapM_ok in H0.
      assert (HT : Forall2 (tame ports ports') l (v :: vs)).
      { clear - H H0 HA HF. induction H0 as [|a b l m Hab Hl IH]; constructor; inversion H; inversion HA; inversion HF; subst; auto. }
      apply tame_list in HT. destruct HT as [H1 H2]. inversion H1; subst. split; [now apply affine_fold|].
      rewrite decides_fold. exact H2. }
  all: try (refine (Hc _ _ _ _ HE); [exact I|apply all_nodes_root in HA; exact HA]).
  all: copy_step HE; cbn [all_nodes affine] in HA, HF.
  all: repeat match goal with
       | IH : forall e', _ -> _ -> copy_with ?k ?a = Ok e' -> _, H : copy_with ?k ?a = Ok ?v |- _ =>
           specialize (fun x y => IH v x y H)
       end.
  - split; [exact I|discriminate].
  - apply IHe; tauto.
  - destruct IHe1 as [A1 D1]; [tauto..|]. destruct IHe2 as [A2 D2]; [tauto..|]. split; cbn [affine decides py_mul].
    + split; [exact A1|]. split; [exact A2|]. destruct HF as (_ & _ & [HF|HF]); [left|right];
        [destruct (decides ports' v) eqn:E|destruct (decides ports' v0) eqn:E]; auto; exfalso.
      * rewrite D1 in HF; auto; discriminate. * rewrite D2 in HF; auto; discriminate.
    + rewrite !orb_true_iff. tauto.
  - destruct IHe1 as [A1 D1]; [tauto..|]. destruct IHe2 as [A2 D2]; [tauto..|]. split; cbn [affine decides py_div].
    + split; [exact A1|]. split; [exact A2|]. destruct (decides ports' v0) eqn:E; auto.
      destruct HF as (_ & _ & HF). rewrite D2 in HF; auto; discriminate.
    + rewrite !orb_true_iff. tauto.
  - contradiction.
  - apply IHe1; tauto.
  - apply IHe1; tauto.
  - apply IHe1; tauto.
  - apply IHe; tauto.
  - apply IHe; tauto.
Qed.
Lemma index_copy_tame sp c X X' : expanded sp X ->
  (forall i n ti si x', copy_with c (PVar i n ti si) = Ok x' -> exists a b, x' = PVar i n a b) ->
  (forall i n ti si x', copy_with c (PParam i n ti si) = Ok x' -> exists a b, x' = PParam i n a b) ->
  affine none X -> copy_with c X = Ok X' -> tame none none X X'.
Proof.
  intros HX Hv Hp HF HE. revert X' HE. unfold expanded in HX. induction X using expr_ind'; intros e' HE;
    try (apply all_nodes_root in HX; contradiction).
  3:{ copy_step HE. destruct v as [|v vs]; cbn [sum_operands] in HE; [discriminate|].
      injection HE as <-. apply all_nodes_Add in HX. destruct HX as [_ HX]. apply affine_Add in HF.
      apply mapM_ok in H0.
      assert (HT : Forall2 (tame none none) l (v :: vs)).
      { clear - H H0 HX HF. induction H0 as [|a b l m Hab Hl IH]; constructor; inversion H; inversion HX; inversion HF; subst; auto. }
      apply tame_list in HT. destruct HT as [H1 H2]. inversion H1; subst. split; [now apply affine_fold|].
      rewrite decides_fold. exact H2. }
  5:{ destruct (Hv _ _ _ _ _ HE) as (a & b & ->). split; cbn; auto. }
  5:{ destruct (Hp _ _ _ _ _ HE) as (a & b & ->). split; cbn; auto. }
  all: copy_step HE; cbn [all_nodes affine] in HX, HF.
  all: repeat match goal with
       | IH : _ -> _ -> forall e', copy_with ?k ?a = Ok e' -> _, H : copy_with ?k ?a = Ok ?v |- _ =>
           specialize (fun x y => IH x y v H)
       end.
  - split; [exact I|discriminate].
  - apply IHX; tauto.
  - destruct IHX1 as [A1 D1]; [tauto..|]. destruct IHX2 as [A2 D2]; [tauto..|]. split; cbn [affine decides py_mul].
    + split; [exact A1|]. split; [exact A2|]. destruct HF as (_ & _ & [HF|HF]); [left|right];
        [destruct (decides none v) eqn:E|destruct (decides none v0) eqn:E]; auto; exfalso.
      * rewrite D1 in HF; auto; discriminate. * rewrite D2 in HF; auto; discriminate.
    + rewrite !orb_true_iff. tauto.
  - destruct IHX1 as [A1 D1]; [tauto..|]. destruct IHX2 as [A2 D2]; [tauto..|]. split; cbn [affine decides py_div].
    + split; [exact A1|]. split; [exact A2|]. destruct (decides none v0) eqn:E; auto.
      destruct HF as (_ & _ & HF). rewrite D2 in HF; auto; discriminate.
    + rewrite !orb_true_iff. tauto.
Qed.

(** ** Expansion keeps expressions affine *)
Lemma shift_tame sp k X X' : expanded sp X -> affine none X -> apply_timeshift X k = Ok X' -> tame none none X X'.
Proof.
  intros HX HF. apply index_copy_tame with (sp := sp); auto; intros i n ti si x' E; cbn in E; injection E as <-; eauto.
Qed.
Lemma step_tame sp k b X X' : expanded sp X -> affine none X -> apply_timestep X k b = Ok X' -> tame none none X X'.
Proof.
  intros HX HF. apply index_copy_tame with (sp := sp); auto; intros i n ti si x' E; cbn in E; inv_bind E; injection E as <-; eauto.
Qed.
Lemma scenario_tame sp k X X' : expanded sp X -> affine none X -> apply_scenario X k = Ok X' -> tame none none X X'.
Proof.
  intros HX HF. apply index_copy_tame with (sp := sp); auto; intros i n ti si x' E; cbn in E; injection E as <-; eauto.
Qed.
Lemma tame_sum {A} (f : A -> result expr) X l l' : mapM f l = Ok l' -> (forall a b, f a = Ok b -> tame none none X b) ->
  tame none none X (sum_expressions l').
Proof.
  intros H HT. assert (HF : Forall (tame none none X) l') by (eapply mapM_Forall; eauto).
  split.
  - apply affine_sum. eapply Forall_impl; [|exact HF]. intros y Hy. apply Hy.
  - rewrite decides_sum. intros E. apply existsb_exists in E. destruct E as (y & Hy & E). rewrite Forall_forall in HF.
    now apply (HF y Hy).
Qed.
Lemma tame_trans X Y Z : tame none none X Y -> tame none none Y Z -> tame none none X Z.
Proof. intros [_ H1] [A H2]. split; auto. Qed.
Lemma expand_tame d ev sp e : component_names_only e -> affine none e ->
  forall e', expand d ev sp e = Ok e' -> tame none none e e'.
Proof.
  assert (HO : forall a a', component_names_only a -> expand d ev sp a = Ok a' -> expanded sp a')
    by (intros; eapply expand_expanded; eauto).
  unfold component_names_only in *. induction e using expr_ind'; intros HN HF e' He.
  3:{ cbn [expand] in He. inv_bind He. destruct v as [|v vs]; cbn [sum_operands] in He; [discriminate|].
      injection He as <-. apply all_nodes_Add in HN. destruct HN as [_ HN]. apply affine_Add in HF.
      apply mapM_ok in H0.
      assert (HT : Forall2 (tame none none) l (v :: vs)).
      { clear - H H0 HN HF. induction H0 as [|a b l m Hab Hl IH]; constructor; inversion H; inversion HN; inversion HF; subst; auto. }
      apply tame_list in HT. destruct HT as [H1 H2]. inversion H1; subst. split; [now apply affine_fold|].
      rewrite decides_fold. exact H2. }
  all: cbn [expand] in He; cbn [all_nodes affine] in HN, HF; try tauto; try discriminate.
  - injection He as <-. split; [exact I|discriminate].
  - inv_bind He. injection He as <-. exact (IHe (proj2 HN) HF _ H).
  - inv_bind He. inv_bind He. injection He as <-.
    destruct (IHe1 ltac:(tauto) ltac:(tauto) _ H) as [A1 D1]. destruct (IHe2 ltac:(tauto) ltac:(tauto) _ H0) as [A2 D2].
    split; cbn [affine decides py_mul].
    + split; [exact A1|]. split; [exact A2|]. destruct HF as (_ & _ & [HF|HF]); [left|right];
        [destruct (decides none v) eqn:E|destruct (decides none v0) eqn:E]; auto; exfalso.
      * rewrite D1 in HF; auto; discriminate. * rewrite D2 in HF; auto; discriminate.
    + rewrite !orb_true_iff. tauto.
  - inv_bind He. inv_bind He. injection He as <-.
    destruct (IHe1 ltac:(tauto) ltac:(tauto) _ H) as [A1 D1]. destruct (IHe2 ltac:(tauto) ltac:(tauto) _ H0) as [A2 D2].
    split; cbn [affine decides py_div].
    + split; [exact A1|]. split; [exact A2|]. destruct (decides none v0) eqn:E; auto.
      destruct HF as (_ & _ & HF). rewrite D2 in HF; auto; discriminate.
    + rewrite !orb_true_iff. tauto.
  - inv_bind He. injection He as <-. split; cbn; auto.
  - inv_bind He. injection He as <-. split; cbn; auto.
  - inv_bind He. inv_bind He. assert (HT := IHe1 ltac:(tauto) ltac:(tauto) _ H0).
    apply (tame_trans _ _ _ HT). eapply shift_tame; [eapply HO; [|exact H0]; tauto|apply HT|exact He].
  - inv_bind He. inv_bind He. assert (HT := IHe1 ltac:(tauto) ltac:(tauto) _ H0).
    apply (tame_trans _ _ _ HT). eapply step_tame; [eapply HO; [|exact H0]; tauto|apply HT|exact He].
  - inv_bind He. inv_bind He. inv_bind He. inv_bind He. injection He as <-.
    assert (HT := IHe1 ltac:(tauto) ltac:(tauto) _ H1). apply (tame_trans _ _ _ HT).
    eapply tame_sum; [exact H2|]. intros k b Hb. eapply shift_tame; [eapply HO; [|exact H1]; tauto|apply HT|exact Hb].
  - inv_bind He. inv_bind He. injection He as <-.
    assert (HT := IHe ltac:(tauto) ltac:(tauto) _ H). apply (tame_trans _ _ _ HT).
    eapply tame_sum; [exact H0|]. intros k b Hb. eapply step_tame; [eapply HO; [|exact H]; tauto|apply HT|exact Hb].
  - destruct o; try discriminate. inv_bind He. inv_bind He. injection He as <-.
    assert (HT := IHe ltac:(tauto) ltac:(tauto) _ H).
    assert (HS : tame none none v (sum_expressions v0)).
    { eapply tame_sum; [exact H0|]. intros k b Hb. eapply scenario_tame; [eapply HO; [|exact H]; tauto|apply HT|exact Hb]. }
    destruct (tame_trans _ _ _ HT HS) as [A D]. split; cbn [py_div_num py_div affine decides wrap_num].
    + split; [exact A|]. split; [exact I|reflexivity].
    + rewrite orb_false_r. exact D.
Qed.

(** ** The indices after expansion *)
Definition leaf_index (P : time_index -> scenario_index -> Prop) (x : expr) : Prop :=
  match x with PVar _ _ ti si | PParam _ _ ti si => P ti si | _ => True end.
Lemma leaf_index_arith P : arith_pred (leaf_index P).
Proof. repeat split; cbn; auto. Qed.
Lemma index_copy sp c P P' X X' : expanded sp X -> all_nodes (leaf_index P) X ->
  (forall i n ti si x', P ti si -> copy_with c (PVar i n ti si) = Ok x' -> exists a b, x' = PVar i n a b /\ P' a b) ->
  (forall i n ti si x', P ti si -> copy_with c (PParam i n ti si) = Ok x' -> exists a b, x' = PParam i n a b /\ P' a b) ->
  copy_with c X = Ok X' -> all_nodes (leaf_index P') X'.
Proof.
  intros HX HP Hv Hp. apply copy_op_free_nodes; [apply leaf_index_arith|eapply expanded_op_free; eauto|].
  unfold expanded in HX. eapply all_leaves_imp; [|exact (all_leaves_nodes _ _ (all_nodes_and _ _ _ HX HP))].
  intros x (Hk & [H1 H2] & _) x' E. destruct x; try contradiction.
  - destruct (Hv _ _ _ _ _ H2 E) as (a & b & -> & H). cbn. auto.
  - destruct (Hp _ _ _ _ _ H2 E) as (a & b & -> & H). cbn. auto.
Qed.
(** [vt], [vs]: whether the expression may vary in time, with the scenario *)
Definition index_ok (S : Z) (vt vs : bool) (ti : time_index) (si : scenario_index) : Prop :=
  (vt = false -> forall k, ti <> TimeShift k) /\ (vs = false -> si <> CurrentScenarioIndex) /\
  (forall k, si = OneScenarioIndex k -> (0 <= k < S)%Z).
Lemma index_ok_weaken S vt vs vt' vs' X : (vt' = false -> vt = false) -> (vs' = false -> vs = false) ->
  all_nodes (leaf_index (index_ok S vt vs)) X -> all_nodes (leaf_index (index_ok S vt' vs')) X.
Proof.
  intros Ht Hs. apply all_nodes_imp. intros x. destruct x; cbn; auto; intros (H1 & H2 & H3); split; auto; split; auto.
Qed.
Lemma shift_index_ok sp S vt vs k X X' : expanded sp X -> all_nodes (leaf_index (index_ok S vt vs)) X ->
  apply_timeshift X k = Ok X' -> all_nodes (leaf_index (index_ok S vt vs)) X'.
Proof.
  intros HX HP. eapply index_copy; [exact HX|exact HP| |]; intros i n ti si x' (H1 & H2 & H3) E; cbn in E;
    injection E as <-; eexists; eexists; (split; [reflexivity|]); (split; [|split; auto]);
    intros Hv j; destruct ti; cbn; try discriminate; exfalso; eapply H1; eauto.
Qed.
Lemma step_index_ok sp S vt vs k b X X' : expanded sp X -> all_nodes (leaf_index (index_ok S vt vs)) X ->
  apply_timestep X k b = Ok X' -> all_nodes (leaf_index (index_ok S false vs)) X'.
Proof.
  intros HX HP. eapply index_copy; [exact HX|exact HP| |]; intros i n ti si x' (H1 & H2 & H3) E; cbn in E;
    inv_bind E; injection E as <-; eexists; eexists; (split; [reflexivity|]); (split; [|split; auto]);
    intros _ j; destruct ti; cbn in H; try (destruct b); try discriminate H; injection H as <-; discriminate.
Qed.
Lemma scenario_index_ok sp S vt vs k X X' : (0 <= k < S)%Z -> expanded sp X -> all_nodes (leaf_index (index_ok S vt vs)) X ->
  apply_scenario X k = Ok X' -> all_nodes (leaf_index (index_ok S vt false)) X'.
Proof.
  intros Hk HX HP. eapply index_copy; [exact HX|exact HP| |]; intros i n ti si x' (H1 & H2 & H3) E; cbn in E;
    injection E as <-; eexists; eexists; (split; [reflexivity|]); (split; [auto|]); (split; [intros _|intros j]);
    destruct si; cbn; try discriminate; intros Hj; injection Hj as <-; exact Hk.
Qed.
Lemma expand_index_ok d ev sp e : component_names_only e -> forall e', expand d ev sp e = Ok e' ->
  all_nodes (leaf_index (index_ok (scenarios_count d) (varies ix_time true false sp none e)
                           (varies ix_scenario false true sp none e))) e'.
Proof.
  assert (HO : forall a a', component_names_only a -> expand d ev sp a = Ok a' -> expanded sp a')
    by (intros; eapply expand_expanded; eauto).
  assert (Hsum : forall P l, Forall (all_nodes (leaf_index P)) l -> all_nodes (leaf_index P) (sum_expressions l))
    by (intros; apply sum_expressions_nodes; [apply leaf_index_arith|assumption]).
  unfold component_names_only in *. induction e using expr_ind'; intros HN e' He.
  3:{ cbn [expand] in He. inv_bind He. destruct v as [|v vs]; cbn [sum_operands] in He; [discriminate|].
      injection He as <-. apply all_nodes_Add in HN. destruct HN as [_ HN].
      assert (HF : Forall (all_nodes (leaf_index (index_ok (scenarios_count d)
                 (varies ix_time true false sp none (Add l)) (varies ix_scenario false true sp none (Add l))))) (v :: vs)).
      { eapply mapM_Forall; eauto. intros x y Hx Hy. rewrite Forall_forall in H, HN.
        eapply index_ok_weaken; [| |exact (H x Hx (HN x Hx) y Hy)]; cbn [varies]; intros E;
        match goal with |- ?v = false => destruct v eqn:Ev; auto end; rewrite <- E; symmetry; apply existsb_exists; eauto. }
      inversion HF; subst. apply fold_py_add_nodes; auto. intros; exact I. }
  all: cbn [expand] in He; cbn [all_nodes] in HN; try tauto; try discriminate; cbn [varies negb andb].
  - injection He as <-. cbn. auto.
  - inv_bind He. injection He as <-. cbn [py_neg all_nodes]. split; [exact I|]. apply IHe; tauto.
  - inv_bind He. inv_bind He. injection He as <-. cbn [py_mul all_nodes]. split; [exact I|].
    split; [refine (index_ok_weaken _ _ _ _ _ _ _ _ (IHe1 (proj1 (proj2 HN)) _ H))|refine (index_ok_weaken _ _ _ _ _ _ _ _ (IHe2 (proj2 (proj2 HN)) _ H0))];
      rewrite !orb_false_iff; tauto.
  - inv_bind He. inv_bind He. injection He as <-. cbn [py_div all_nodes]. split; [exact I|].
    split; [refine (index_ok_weaken _ _ _ _ _ _ _ _ (IHe1 (proj1 (proj2 HN)) _ H))|refine (index_ok_weaken _ _ _ _ _ _ _ _ (IHe2 (proj2 (proj2 HN)) _ H0))];
      rewrite !orb_false_iff; tauto.
  - inv_bind He. inv_bind He. injection He as <-. cbn [all_nodes]. split; [exact I|].
    split; [refine (index_ok_weaken _ _ _ _ _ _ _ _ (IHe1 (proj1 (proj2 HN)) _ H))|refine (index_ok_weaken _ _ _ _ _ _ _ _ (IHe2 (proj2 (proj2 HN)) _ H0))];
      rewrite !orb_false_iff; tauto.
  - inv_bind He. injection He as <-. cbn [all_nodes leaf_index]. split; [|exact I]. rewrite H. cbn [may_vary].
    unfold initial_time_index, initial_scenario_index. split; [|split].
    + intros -> k. discriminate. + intros ->. discriminate. + intros k. destruct (ix_scenario v); discriminate.
  - inv_bind He. injection He as <-. cbn [all_nodes leaf_index]. split; [|exact I]. rewrite H. cbn [may_vary].
    unfold initial_time_index, initial_scenario_index. split; [|split].
    + intros -> k. discriminate. + intros ->. discriminate. + intros k. destruct (ix_scenario v); discriminate.
  - inv_bind He. inv_bind He. eapply shift_index_ok; [eapply HO; [|exact H0]; tauto|apply IHe1; [tauto|exact H0]|exact He].
  - inv_bind He. inv_bind He. eapply step_index_ok; [eapply HO; [|exact H0]; tauto|apply IHe1; [tauto|exact H0]|exact He].
  - inv_bind He. inv_bind He. inv_bind He. inv_bind He. injection He as <-.
    apply Hsum. eapply mapM_Forall; eauto. intros x y _ Hy.
    eapply shift_index_ok; [eapply HO; [|exact H1]; tauto|apply IHe1; [tauto|exact H1]|exact Hy].
  - inv_bind He. inv_bind He. injection He as <-. apply Hsum. eapply mapM_Forall; eauto. intros x y _ Hy.
    eapply step_index_ok; [eapply HO; [|exact H]; tauto|apply IHe; [tauto|exact H]|exact Hy].
  - destruct o; try discriminate. inv_bind He. inv_bind He. injection He as <-. cbn [py_div_num py_div all_nodes wrap_num].
    split; [exact I|]. split; [|cbn; auto]. apply Hsum. eapply mapM_Forall; eauto. intros x y Hx Hy. apply zrange_In in Hx.
    eapply scenario_index_ok; [exact Hx|eapply HO; [|exact H]; tauto|apply IHe; [tauto|exact H]|exact Hy].
Qed.

(** ** Linearisation succeeds on affine expressions that have a value *)
Lemma osum_some l v : osum l = Some v -> Forall (fun x => x <> None) l.
Proof.
  revert v. induction l as [|x l IH]; intros v H; [constructor|]. cbn in H. destruct x; [|discriminate].
  destruct (osum l) eqn:E; [|discriminate]. constructor; [discriminate|eauto].
Qed.
Lemma decides_no_pvar e : indexed_arithmetic e -> decides none e = false -> all_nodes no_pvar e.
Proof.
  unfold indexed_arithmetic. induction e using expr_ind'; intros HI Hd; try (apply all_nodes_root in HI; contradiction);
    try (cbn; tauto); try discriminate.
  - cbn in HI, Hd |- *. split; [exact I|]. apply IHe; tauto.
  - apply all_nodes_Add in HI. destruct HI as [_ HI]. apply all_nodes_Add. split; [exact I|].
    apply Forall_forall. intros x Hx. rewrite Forall_forall in H, HI. apply H; auto.
    destruct (decides none x) eqn:E; auto. rewrite <- Hd. symmetry. cbn. apply existsb_exists. eauto.
  - cbn in HI, Hd |- *. apply orb_false_iff in Hd. split; [exact I|]. split; [apply IHe1|apply IHe2]; tauto.
  - cbn in HI, Hd |- *. apply orb_false_iff in Hd. split; [exact I|]. split; [apply IHe1|apply IHe2]; tauto.
Qed.
(** what is read can be read *)
Definition readable (E : env) (t s : Z) (ot os : option Z) (g : parameter_getter) (x : expr) : Prop :=
  match x with
  | PVar _ _ ti _ => exists k, get_timestep ot ti = Ok k
  | PParam c n ti si => forall q, e_cpar E c n (at_time ti t) (at_scenario si s) = Some q ->
      exists k v, get_timestep ot ti = Ok k /\ g c n k (get_scenario os si) = Ok v
  | _ => True
  end.
Lemma lin_build_succeeds E t s ot os g e :
  ot = None \/ ot = Some t -> os = None \/ os = Some s -> getter_gives g E t s ->
  finite_literals e -> indexed_arithmetic e -> affine none e -> all_nodes (readable E t s ot os g) e ->
  forall v, den E e t s = Some v -> exists D, lin_build ot os (Some g) e = Ok D.
Proof.
  intros Hot Hos Hg. unfold finite_literals, indexed_arithmetic. induction e using expr_ind'; intros HF HI HA HR w Hv;
    try (apply all_nodes_root in HI; contradiction).
  - eexists; reflexivity.
  - cbn [den] in Hv. destruct (den E e t s) as [q|] eqn:Ed; [|discriminate].
    cbn [all_nodes affine] in HF, HI, HA, HR. cbn [lin_build].
    destruct (IHe ltac:(tauto) ltac:(tauto) HA ltac:(tauto) _ eq_refl) as [D HD]. rewrite HD. eexists; reflexivity.
  - apply all_nodes_Add in HF, HI, HR. destruct HF as [_ HF], HI as [_ HI], HR as [_ HR]. apply affine_Add in HA.
    cbn [den] in Hv. apply osum_some in Hv. rewrite Forall_forall in *.
    destruct (mapM_ok_Forall (lin_build ot os (Some g)) (fun _ => True) l) as (ds & Hds & _).
    { intros x Hx. destruct (den E x t s) as [q|] eqn:Ed.
      - destruct (H x Hx (HF x Hx) (HI x Hx) (HA x Hx) (HR x Hx) q Ed) as [D HD]. eauto.
      - exfalso. apply (Hv None); auto. rewrite <- Ed. apply in_map_iff. eauto. }
    cbn [lin_build]. rewrite Hds. eexists; reflexivity.
  - cbn [den] in Hv. destruct (den E e1 t s) as [q1|] eqn:E1; [|discriminate].
    destruct (den E e2 t s) as [q2|] eqn:E2; [|discriminate].
    cbn [all_nodes affine] in HF, HI, HA, HR. cbn [lin_build].
    destruct (IHe1 ltac:(tauto) ltac:(tauto) ltac:(tauto) ltac:(tauto) _ eq_refl) as [D1 HD1].
    destruct (IHe2 ltac:(tauto) ltac:(tauto) ltac:(tauto) ltac:(tauto) _ eq_refl) as [D2 HD2].
    rewrite HD1, HD2. cbn [bind]. destruct HA as (_ & _ & [Hd|Hd]).
    + apply decides_no_pvar in Hd; [|unfold indexed_arithmetic; tauto]. apply (lin_terms_nil _ _ _ _ _ HD1) in Hd.
      rewrite Hd. eexists; reflexivity.
    + apply decides_no_pvar in Hd; [|unfold indexed_arithmetic; tauto]. apply (lin_terms_nil _ _ _ _ _ HD2) in Hd.
      rewrite Hd. destruct (is_nil (ld_terms D1)); eexists; reflexivity.
  - cbn [den] in Hv. destruct (den E e1 t s) as [q1|] eqn:E1; [|discriminate].
    destruct (den E e2 t s) as [q2|] eqn:E2; [|discriminate].
    cbn [all_nodes affine] in HF, HI, HA, HR. cbn [lin_build].
    destruct (IHe1 ltac:(tauto) ltac:(tauto) ltac:(tauto) ltac:(tauto) _ eq_refl) as [D1 HD1].
    destruct (IHe2 ltac:(tauto) ltac:(tauto) ltac:(tauto) ltac:(tauto) _ eq_refl) as [D2 HD2].
    rewrite HD1, HD2. cbn [bind]. destruct HA as (_ & _ & Hd).
    apply decides_no_pvar in Hd; [|unfold indexed_arithmetic; tauto]. apply (lin_terms_nil _ _ _ _ _ HD2) in Hd.
    rewrite Hd. cbn [is_nil].
    assert (Hgg : forall g', Some g = Some g' -> getter_gives g' E t s) by (intros g' Eg; injection Eg as <-; exact Hg).
    destruct (lin_build_den E t s ot os (Some g) e2 Hot Hos Hgg ltac:(unfold finite_literals; tauto) D2 HD2) as [_ V2].
    destruct (lin_build_den E t s ot os (Some g) e1 Hot Hos Hgg ltac:(unfold finite_literals; tauto) D1 HD1) as [[[c1 C1] F1] _].
    unfold data_value in V2. rewrite Hd, E2 in V2. cbn in V2.
    destruct (ld_constant D2) as [c2| | |] eqn:C2; cbn in V2; try discriminate.
    assert (Hz : c2 <> 0%Qc).
    { intros ->. injection V2 as <-. cbn in Hv. discriminate. }
    assert (Hnd : forall q, exists r, ndiv (Fin q) (Fin c2) = Ok r).
    { intros q. cbn. destruct (Qceqb c2 0) eqn:Ez; [apply Qceqb_eq in Ez; contradiction|]. eexists; reflexivity. }
    rewrite C1. destruct (Hnd c1) as [r Hr]. rewrite Hr. cbn [bind].
    match goal with |- context [mapM ?f (ld_terms D1)] =>
      destruct (mapM_ok_Forall f (fun _ => True) (ld_terms D1)) as (ts & Hts & _) end.
    { intros kt Hkt. rewrite Forall_forall in F1. destruct (F1 kt Hkt) as [c Hc]. rewrite Hc.
      destruct (Hnd c) as [r' Hr']. rewrite Hr'. eexists; split; [reflexivity|exact I]. }
    rewrite Hts. eexists; reflexivity.
  - cbn [lin_build]. apply all_nodes_root in HR. destruct HR as [k Hk]. rewrite Hk. eexists; reflexivity.
  - cbn [lin_build]. apply all_nodes_root in HR. cbn [den] in Hv. destruct (HR _ Hv) as (k & r & Hk & Hr).
    rewrite Hk. cbn [bind]. rewrite Hr. eexists; reflexivity.
Qed.
(** the keys of the terms *)
Lemma map_coefs_keys (Q : term_key -> Prop) f l : Forall (fun kt => Q (fst kt)) l -> Forall (fun kt => Q (fst kt)) (map_coefs f l).
Proof. intros H. unfold map_coefs. apply Forall_forall. intros x Hx. apply in_map_iff in Hx. destruct Hx as (y & <- & Hy).
  rewrite Forall_forall in H. exact (H y Hy). Qed.
Lemma lin_build_keys (Q : term_key -> Prop) ot os vp e :
  all_nodes (fun x => match x with
    | PVar c n ti si => forall k, get_timestep ot ti = Ok k ->
        Q {| tk_component := c; tk_variable := n; tk_time := k; tk_scenario := get_scenario os si |}
    | _ => True end) e ->
  forall D, lin_build ot os vp e = Ok D -> Forall (fun kt => Q (fst kt)) (ld_terms D).
Proof.
  induction e using expr_ind'; intros HN D HD; cbn [lin_build] in HD; try discriminate.
  - injection HD as <-. constructor.
  - inv_bind HD. injection HD as <-. cbn [ld_terms]. apply map_coefs_keys. apply IHe; [apply HN|assumption].
  - inv_bind HD. injection HD as <-. rewrite lin_fold_terms. cbn [ld_terms app].
    apply all_nodes_Add in HN. destruct HN as [_ HN]. apply mapM_ok in H0.
    induction H0 as [|a b l m Hab Hl IH]; [constructor|]. inversion H; inversion HN; subst. cbn. apply Forall_app. split; auto.
  - inv_bind HD. inv_bind HD. cbn [all_nodes] in HN.
    destruct (is_nil _); [|destruct (is_nil _); [|discriminate]]; injection HD as <-; cbn [ld_terms]; apply map_coefs_keys;
      [apply IHe2|apply IHe1]; tauto.
  - inv_bind HD. inv_bind HD. cbn [all_nodes] in HN. destruct (is_nil _); [|discriminate]. inv_bind HD. inv_bind HD.
    injection HD as <-. cbn [ld_terms]. apply mapM_ok in H2. assert (HF := IHe1 ltac:(tauto) _ H). clear - H2 HF.
    induction H2 as [|a b l m Hab Hl IH]; [constructor|]. inversion HF; subst. inv_bind Hab. injection Hab as <-. constructor; auto.
  - inv_bind HD. injection HD as <-. cbn [ld_terms]. constructor; [|constructor]. apply all_nodes_root in HN. now apply HN.
  - inv_bind HD. destruct vp; [|discriminate]. inv_bind HD. injection HD as <-. constructor.
Qed.
Lemma accumulate_keys (Q : term_key -> Prop) l : forall d, Forall (fun kt => Q (fst kt)) d ->
  Forall (fun kt => Q (fst kt)) l -> Forall (fun kt => Q (fst kt)) (fold_left accumulate l d).
Proof.
  induction l as [|a l IH]; intros d Hd Hl; cbn [fold_left]; [exact Hd|]. inversion Hl; subst. apply IH; auto.
  unfold accumulate. destruct (dget tk_eqb (fst a) d) eqn:E; [|apply Forall_app; split; auto].
  clear - Hd H1. induction d as [|[k v] d IHd]; cbn; [constructor; auto|]. inversion Hd; subst.
  destruct (tk_eqb (fst a) k); constructor; auto.
Qed.
Lemma linearize_keys (Q : term_key -> Prop) e ot os vp L : linearize_expression e ot os vp = Ok L ->
  all_nodes (fun x => match x with
    | PVar c n ti si => forall k, get_timestep ot ti = Ok k ->
        Q {| tk_component := c; tk_variable := n; tk_time := k; tk_scenario := get_scenario os si |}
    | _ => True end) e ->
  Forall (fun kt => Q (fst kt)) (le_terms L).
Proof.
  intros H HN. unfold linearize_expression in H. inv_bind H. injection H as <-. cbn.
  unfold non_zero_terms. apply Forall_forall. intros kt Hkt. apply filter_In in Hkt. destruct Hkt as [Hkt _].
  pose proof (accumulate_keys Q (ld_terms v) [] ltac:(constructor) (lin_build_keys Q ot os vp e HN v H0)) as HF.
  rewrite Forall_forall in HF. exact (HF kt Hkt).
Qed.

(** ** Evaluation succeeds on formulas that have a value *)
Definition evaluates (vp : value_provider) (E : env) (t s : Z) (x : expr) : Prop :=
  match x with
  | Lit _ | Neg _ | Mul _ _ | Div _ _ => True
  | Add l => l <> []
  | CParam c n => forall q, e_cpar E c n t s = Some q -> exists v, get_component_parameter_value vp c n = Ok v
  | _ => False
  end.
Lemma evaluate_succeeds vp E t s e : parameters_only vp E t s -> finite_literals e ->
  all_nodes (evaluates vp E t s) e -> forall q, den E e t s = Some q -> evaluate vp e = Ok (Fin q).
Proof.
  intros HP HF HN q Hq.
  assert (HG : exists v, evaluate vp e = Ok v).
  { revert q Hq. unfold finite_literals in *. induction e using expr_ind'; intros q Hq; try (apply all_nodes_root in HN; contradiction).
    - eexists; reflexivity.
    - cbn [den] in Hq. destruct (den E e t s) as [q1|] eqn:E1; [|discriminate]. cbn [all_nodes] in HF, HN.
      destruct (IHe ltac:(tauto) ltac:(tauto) _ eq_refl) as [v Hv]. cbn [evaluate]. rewrite Hv. eexists; reflexivity.
    - apply all_nodes_Add in HF, HN. destruct HF as [_ HF], HN as [Hne HN]. cbn [evaluates] in Hne.
      cbn [den] in Hq. apply osum_some in Hq. rewrite Forall_forall in *.
      destruct (mapM_ok_Forall (evaluate vp) (fun _ => True) l) as (vs & Hvs & _).
      { intros x Hx. destruct (den E x t s) as [r|] eqn:Ed.
        - destruct (H x Hx (HF x Hx) (HN x Hx) r Ed) as [v Hv]. eauto.
        - exfalso. apply (Hq None); auto. rewrite <- Ed. apply in_map_iff. eauto. }
      cbn [evaluate]. rewrite Hvs. cbn [bind]. destruct vs as [|v vs]; [|eexists; reflexivity].
      destruct l as [|a l]; [contradiction|]. cbn in Hvs. destruct (evaluate vp a); cbn in Hvs; [|discriminate].
      destruct (mapM (evaluate vp) l); cbn in Hvs; discriminate.
    - cbn [den] in Hq. destruct (den E e1 t s) as [q1|] eqn:E1; [|discriminate].
      destruct (den E e2 t s) as [q2|] eqn:E2; [|discriminate]. cbn [all_nodes] in HF, HN.
      destruct (IHe1 ltac:(tauto) ltac:(tauto) _ eq_refl) as [v1 Hv1], (IHe2 ltac:(tauto) ltac:(tauto) _ eq_refl) as [v2 Hv2].
      cbn [evaluate]. rewrite Hv1, Hv2. eexists; reflexivity.
    - cbn [den] in Hq. destruct (den E e1 t s) as [q1|] eqn:E1; [|discriminate].
      destruct (den E e2 t s) as [q2|] eqn:E2; [|discriminate]. cbn [all_nodes] in HF, HN.
      destruct (IHe1 ltac:(tauto) ltac:(tauto) _ eq_refl) as [v1 Hv1], (IHe2 ltac:(tauto) ltac:(tauto) _ eq_refl) as [v2 Hv2].
      cbn [evaluate]. rewrite Hv1, Hv2. cbn [bind].
      destruct (evaluate_value vp E t s e1 HP ltac:(unfold finite_literals; tauto) _ Hv1) as (r1 & -> & _).
      destruct (evaluate_value vp E t s e2 HP ltac:(unfold finite_literals; tauto) _ Hv2) as (r2 & -> & Hr2).
      rewrite E2 in Hr2. injection Hr2 as ->. cbn in Hq |- *. destruct (Qceqb r2 0); [discriminate|]. eexists; reflexivity.
    - apply all_nodes_root in HN. cbn [den] in Hq. exact (HN q Hq). }
  destruct HG as [v Hv]. rewrite Hv. destruct (evaluate_value vp E t s e HP HF v Hv) as (r & -> & Hr). congruence.
Qed.
