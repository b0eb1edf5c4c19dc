(** Loosened limits (C89). *)
From Coq Require Import Lia.
From Verif Require Import Base BaseFacts Expr Visitors LinearExpr Linearize Expansion Model Study Strategy Optim
  SpecExpr SpecSyntax SpecVisitors SpecExpansion SpecLinear SpecModel SpecOptim SpecParts SpecScenarios SpecPrecise
  ExprFacts CopyFacts VisitorFacts ExpansionFacts DecomposeFacts DataFacts SpecLoose.

Lemma Forall2_same_length {A B} (R : A -> B -> Prop) l l' : Forall2 R l l' -> List.length l' = List.length l.
Proof. induction 1; cbn; auto. Qed.

(** ** Bounds *)
Definition above (v v' : num) : Prop := v = v' \/ nleb v v' = true.
Lemma Qcleb_le x y : Qcleb x y = true <-> (x <= y)%Qc.
Proof. apply Qle_bool_iff. Qed.
Lemma at_most_above v v' q : above v v' -> at_most v q -> at_most v' q.
Proof.
  intros [<-|H]; [auto|]. destruct v, v'; cbn in *; try discriminate; auto; try contradiction. apply Qcleb_le in H. intros. eapply Qcle_trans; eauto.
Qed.
Lemma at_least_below v v' q : above v' v -> at_least v q -> at_least v' q.
Proof.
  intros [->|H]; [auto|]. destruct v, v'; cbn in *; try discriminate; auto; try contradiction. apply Qcleb_le in H. intros. eapply Qcle_trans; eauto.
Qed.
Lemma Qc_shift (x y k : Qc) : (x <= y)%Qc -> (x + k <= y + k)%Qc.
Proof. intros. apply Qcplus_le_compat; [assumption|apply Qcle_refl]. Qed.
Lemma at_most_shift v v' k q : above v v' -> at_most (nsub v k) q -> at_most (nsub v' k) q.
Proof.
  intros [<-|H]; [auto|]. destruct v, v', k; unfold nsub, nneg, nadd, at_most, at_least, nleb in *; try discriminate; auto; try contradiction. apply Qcleb_le in H. intros Hq. eapply Qcle_trans; [exact Hq|now apply Qc_shift].
Qed.
Lemma at_least_shift v v' k q : above v' v -> at_least (nsub v k) q -> at_least (nsub v' k) q.
Proof.
  intros [->|H]; [auto|]. destruct v, v', k; unfold nsub, nneg, nadd, at_most, at_least, nleb in *; try discriminate; auto; try contradiction. apply Qcleb_le in H. intros Hq. refine (Qcle_trans _ _ _ _ Hq). now apply Qc_shift.
Qed.
Lemma nltb_fin x y : nltb (Fin x) (Fin y) = false <-> (y <= x)%Qc.
Proof.
  unfold nltb. cbn. unfold Qcleb, Qceqb. split.
  - intros H. destruct (Qle_bool x y) eqn:E1; cbn in H.
    + apply Bool.negb_false_iff in H. apply Qeq_bool_iff in H. unfold Qcle. rewrite H. apply Qle_refl.
    + destruct (Qclt_le_dec x y) as [L|L]; [|exact L]. apply Qclt_le_weak in L. apply Qle_bool_iff in L. congruence.
  - intros H. destruct (Qle_bool x y) eqn:E1; [|reflexivity]. cbn. apply Qle_bool_iff in E1. apply Bool.negb_false_iff. apply Qeq_bool_iff. now apply Qle_antisym.
Qed.
Lemma in_order_still l l' u u' : above u u' -> above l' l -> nltb u l = false -> nltb u' l' = false.
Proof.
  intros HU HL. destruct HU as [<-|HU], HL as [<-|HL]; auto.
  - destruct u, l, l'; cbn in *; try discriminate; auto; try (intros; discriminate). rewrite !nltb_fin. apply Qcleb_le in HL. intros. eapply Qcle_trans; eauto.
  - destruct u, l', u'; cbn in *; try discriminate; auto; try (intros; discriminate). rewrite !nltb_fin. apply Qcleb_le in HU. intros. eapply Qcle_trans; eauto.
  - destruct u, l, l', u'; cbn in *; try discriminate; auto; try (intros; discriminate). rewrite !nltb_fin. apply Qcleb_le in HL, HU. intros. eapply Qcle_trans; [|exact HU]. eapply Qcle_trans; eauto.
Qed.

(** ** Expressions without limits *)
Definition leafy (Q : expr -> Prop) : Prop := forall x, ~ leaf_kind x \/ (exists a g, x = PortAgg a g) -> Q x.
Lemma copy_leafy (P Q : expr -> Prop) c X : leafy Q ->
  match on_agg c with None => True | Some h => forall a g x', h a g = Ok x' -> all_nodes Q x' end ->
  (forall x x', leaf_kind x -> P x -> (forall a g, x <> PortAgg a g) -> copy_with c x = Ok x' -> all_nodes Q x') ->
  forall X', all_nodes P X -> copy_with c X = Ok X' -> all_nodes Q X'.
Proof.
  intros HQ HA Hl.
  assert (L0 : forall v, Q (Lit v)) by (intros; apply HQ; left; cbn; tauto).
  assert (L1 : forall a, Q (Neg a)) by (intros; apply HQ; left; cbn; tauto).
  assert (L2 : forall l, Q (Add l)) by (intros; apply HQ; left; cbn; tauto).
  assert (L3 : forall a b, Q (Mul a b)) by (intros; apply HQ; left; cbn; tauto).
  assert (L4 : forall a b, Q (Div a b)) by (intros; apply HQ; left; cbn; tauto).
  assert (L5 : forall a b o, Q (Cmp a b o)) by (intros; apply HQ; left; cbn; tauto).
  assert (L6 : forall a b, Q (TShift a b)) by (intros; apply HQ; left; cbn; tauto).
  assert (L7 : forall a b, Q (TEval a b)) by (intros; apply HQ; left; cbn; tauto).
  assert (L8 : forall a b d, Q (TSum a b d)) by (intros; apply HQ; left; cbn; tauto).
  assert (L9 : forall a, Q (AllSum a)) by (intros; apply HQ; left; cbn; tauto).
  assert (LA : forall a o, Q (ScenOp a o)) by (intros; apply HQ; left; cbn; tauto).
  assert (LB : forall a g, Q (PortAgg a g)) by (intros; apply HQ; right; eauto).
  induction X using expr_ind'; intros X' HN HE.
  3:{ cbn [copy_with] in HE. inv_bind HE. destruct v as [|v vs]; cbn [sum_operands] in HE; [discriminate|].
      injection HE as <-. apply all_nodes_Add in HN. destruct HN as [_ HN].
      assert (HF : Forall (all_nodes Q) (v :: vs)).
      { eapply mapM_Forall; eauto. intros x y Hx Hy. rewrite Forall_forall in H, HN. eauto. }
      inversion HF; subst. apply fold_py_add_nodes; auto. }
  all: try (refine (Hl _ _ _ _ _ HE); [exact I|apply all_nodes_root in HN; exact HN|discriminate]).
  all: cbn [copy_with] in HE; try (destruct (on_agg c) as [h|] eqn:EA; [now apply HA in HE|]); repeat inv_bind HE; injection HE as <-; cbn [all_nodes py_neg py_mul py_div] in HN |- *; intuition eauto.
Qed.

Section Loose.
  Context (upper lower : string -> string -> Prop).
  Notation L := (fun c p => upper c p \/ lower c p).
  Definition free : expr -> Prop := all_nodes (fun x => match x with CParam c p | PParam c p _ _ => ~ L c p | _ => True end).
  Lemma free_leafy : leafy (fun x => match x with CParam c p | PParam c p _ _ => ~ L c p | _ => True end).
  Proof. intros x [H|(a & g & ->)]; [|exact I]. destruct x; cbn in *; auto; exfalso; apply H; exact I. Qed.
  Lemma free_arith : arith_pred (fun x => match x with CParam c p | PParam c p _ _ => ~ L c p | _ => True end).
  Proof. repeat split; cbn; auto. Qed.
  Lemma context_free id e X : without_limits L id e -> add_component_context id e = Ok X -> free X.
  Proof.
    apply copy_leafy; [apply free_leafy|exact I|]. intros x x' Hk HP Hp E. destruct x; try contradiction; cbn in E; try discriminate; try (injection E as <-; cbn in *; tauto). now edestruct Hp.
  Qed.
  Definition ports_free (ports : dict port_field_key (list expr)) : Prop := Forall (fun kl => Forall free (snd kl)) ports.
  Lemma found_free ports k l : ports_free ports -> dget pfk_eqb k ports = Some l -> Forall free l.
  Proof.
    intros HP. induction HP as [|[k0 l0] ports H _ IH]; cbn; [discriminate|]. destruct (pfk_eqb k k0); [intros [= <-]; exact H|exact IH].
  Qed.
  Lemma resolve_free id ports e X : ports_free ports -> free e -> resolve_port e id ports = Ok X -> free X.
  Proof.
    intros HP. apply copy_leafy; [apply free_leafy| |].
    - cbn. intros a g x' E. unfold resolve_port_aggregator in E. destruct g; try discriminate. destruct a; try discriminate. injection E as <-.
      apply sum_expressions_nodes; [apply free_arith|]. destruct (dget pfk_eqb _ ports) as [l|] eqn:Ed; [|constructor]. exact (found_free _ _ _ HP Ed).
    - intros x x' Hk HX Hp E. destruct x; try contradiction; cbn in E; try (injection E as <-; cbn in *; tauto); [|now edestruct Hp].
      unfold resolve_port_field in E. destruct (dget pfk_eqb _ ports) as [l|] eqn:Ed; [|discriminate]. apply (found_free _ _ _ HP) in Ed. destruct l as [|d [|]]; try discriminate. injection E as <-. now inversion Ed.
  Qed.
  Lemma instantiate_free st id e X : ports_free (st_ports st) -> without_limits L id e -> instantiate st e id = Ok X -> free X.
  Proof. intros HP HE H. unfold instantiate in H. inv_bind H. eapply resolve_free; [exact HP|eapply context_free; [exact HE|exact H0]|exact H]. Qed.
  Lemma dset_free k l ports : ports_free ports -> Forall free l -> ports_free (dset pfk_eqb k l ports).
  Proof.
    intros HP HL. induction HP as [|[k0 l0] ports H HP IH]; cbn; [repeat constructor; exact HL|]. destruct (pfk_eqb k k0); constructor; auto.
  Qed.
  Lemma register_free c p f e ports : ports_free ports -> free e -> ports_free (register_port_expression c p f e ports).
  Proof.
    intros HP HE. unfold register_port_expression. apply dset_free; [exact HP|]. apply Forall_app. split; [|repeat constructor; exact HE].
    destruct (dget pfk_eqb _ ports) as [l|] eqn:Ed; [exact (found_free _ _ _ HP Ed)|constructor].
  Qed.

  Lemma expand_free_agree d ev ev' sp e : (forall x, free x -> ev x = ev' x) -> free e -> expand d ev sp e = expand d ev' sp e.
  Proof.
    intros HE. induction e using expr_ind'; intros HN.
    3:{ apply all_nodes_Add in HN. destruct HN as [_ HN]. cbn [expand]. rewrite Forall_forall in H, HN.
        replace (mapM (expand d ev' sp) l) with (mapM (expand d ev sp) l); [reflexivity|].
        apply mapM_ext. rewrite Forall_forall. intros a Ha. apply H; auto. apply (HN a Ha). }
    all: unfold free in HN; cbn [all_nodes] in HN; cbn [expand]; auto.
    - now rewrite IHe by apply HN.
    - now rewrite IHe1, IHe2 by apply HN.
    - now rewrite IHe1, IHe2 by apply HN.
    - now rewrite IHe1, IHe2 by apply HN.
    - rewrite (HE e2) by apply HN. now rewrite IHe1 by apply HN.
    - rewrite (HE e2) by apply HN. now rewrite IHe1 by apply HN.
    - rewrite (HE e2), (HE e3) by apply HN. now rewrite IHe1 by apply HN.
    - now rewrite IHe by apply HN.
    - now rewrite IHe by apply HN.
    - now rewrite IHe by apply HN.
  Qed.
  Lemma expand_free d ev sp e : forall X, free e -> expand d ev sp e = Ok X -> free X.
  Proof.
    assert (Hshift : forall k X X', free X -> apply_timeshift X k = Ok X' -> free X').
    { intros k X X'. apply copy_leafy; [apply free_leafy|exact I|]. intros x x' Hk HB Hp E. destruct x; try contradiction; cbn in E; try (injection E as <-; cbn in *; tauto). now edestruct Hp. }
    assert (Hstep : forall k b X X', free X -> apply_timestep X k b = Ok X' -> free X').
    { intros k b X X'. apply copy_leafy; [apply free_leafy|exact I|]. intros x x' Hk HB Hp E. destruct x; try contradiction; cbn in E; try inv_bind E; try (injection E as <-; cbn in *; tauto). now edestruct Hp. }
    assert (Hscen : forall k X X', free X -> apply_scenario X k = Ok X' -> free X').
    { intros k X X'. apply copy_leafy; [apply free_leafy|exact I|]. intros x x' Hk HB Hp E. destruct x; try contradiction; cbn in E; try (injection E as <-; cbn in *; tauto). now edestruct Hp. }
    induction e using expr_ind'; intros X HN He; cbn [expand] in He.
    3:{ inv_bind He. destruct v as [|v vs]; cbn [sum_operands] in He; [discriminate|]. injection He as <-.
        apply all_nodes_Add in HN. destruct HN as [_ HN].
        assert (HF : Forall free (v :: vs)).
        { eapply mapM_Forall; [eassumption|]. intros x y Hx Hy. rewrite Forall_forall in H, HN. exact (H x Hx y (HN x Hx) Hy). }
        inversion HF; subst. apply fold_py_add_nodes; auto; intros; exact I. }
    all: unfold free in HN; cbn [all_nodes] in HN; try discriminate.
    - injection He as <-. exact HN.
    - inv_bind He. injection He as <-. cbn. split; [exact I|]. apply IHe; [apply HN|reflexivity || assumption].
    - inv_bind He. inv_bind He. injection He as <-. cbn. split; [exact I|]. split; [apply IHe1|apply IHe2]; tauto.
    - inv_bind He. inv_bind He. injection He as <-. cbn. split; [exact I|]. split; [apply IHe1|apply IHe2]; tauto.
    - inv_bind He. inv_bind He. injection He as <-. cbn. split; [exact I|]. split; [apply IHe1|apply IHe2]; tauto.
    - injection He as <-. exact HN.
    - injection He as <-. exact HN.
    - inv_bind He. injection He as <-. exact HN.
    - inv_bind He. injection He as <-. exact HN.
    - inv_bind He. inv_bind He. eapply Hshift; [|exact He]. apply IHe1; tauto.
    - inv_bind He. inv_bind He. eapply Hstep; [|exact He]. apply IHe1; tauto.
    - inv_bind He. inv_bind He. inv_bind He. inv_bind He. injection He as <-. apply sum_expressions_nodes; [apply free_arith|].
      eapply mapM_Forall; [eassumption|]. cbn beta. intros x y _ Hy. eapply Hshift; [|exact Hy]. apply IHe1; tauto.
    - inv_bind He. inv_bind He. injection He as <-. apply sum_expressions_nodes; [apply free_arith|].
      eapply mapM_Forall; [eassumption|]. cbn beta. intros x y _ Hy. eapply Hstep; [|exact Hy]. apply IHe; tauto.
    - destruct o; try discriminate. inv_bind He. inv_bind He. injection He as <-. cbn. repeat split.
      apply sum_expressions_nodes; [apply free_arith|]. eapply mapM_Forall; [eassumption|]. cbn beta. intros x y Hx Hy. eapply Hscen; [|exact Hy]. apply IHe; tauto.
    - injection He as <-. exact HN.
    - inv_bind He. injection He as <-. cbn. split; [exact I|]. apply IHe; tauto.
  Qed.
  Lemma lin_free_agree g g' t s e : (forall c p t s, ~ L c p -> g c p t s = g' c p t s) -> free e -> lin_build t s (Some g) e = lin_build t s (Some g') e.
  Proof.
    intros HG. induction e using expr_ind'; intros HN.
    3:{ apply all_nodes_Add in HN. destruct HN as [_ HN]. cbn [lin_build]. rewrite Forall_forall in H, HN.
        replace (mapM (lin_build t s (Some g')) l) with (mapM (lin_build t s (Some g)) l); [reflexivity|].
        apply mapM_ext. rewrite Forall_forall. intros a Ha. apply H; auto. apply (HN a Ha). }
    all: unfold free in HN; cbn [all_nodes] in HN; cbn [lin_build]; auto.
    - now rewrite IHe by apply HN.
    - now rewrite IHe1, IHe2 by apply HN.
    - now rewrite IHe1, IHe2 by apply HN.
    - destruct (get_timestep t ti); cbn [bind]; [|reflexivity]. rewrite HG; [reflexivity|]. tauto.
  Qed.

  (** ** The problem *)
  Context (o : settings) (db : database).
  Context (HO : only_limits upper lower (o_network o)) (HD : loosened upper lower o db).
  Notation o' := (with_database o db).
  Lemma value_free t s c p : ~ L c p -> parameter_value o t s c p = parameter_value o' t s c p.
  Proof. intros H. unfold parameter_value. cbn [o_database with_database]. now rewrite (proj1 HD). Qed.
  Lemma value_limit t s c p v : L c p -> parameter_value o t s c p = Ok v ->
    exists v', parameter_value o' t s c p = Ok v' /\ (upper c p -> nleb v v' = true) /\ (lower c p -> nleb v' v = true).
  Proof.
    intros HL H. unfold parameter_value in *. apply bind_ok in H as (d & Hd & H). apply bind_ok in H as (a & Ha & H).
    destruct (proj2 HD c p d HL Hd) as (d' & Hd' & Hv). cbn [o_database with_database]. rewrite Hd'. cbn [bind].
    change (block_timestep_to_absolute_timestep o' t) with (block_timestep_to_absolute_timestep o t). rewrite Ha. cbn [bind]. exact (Hv _ _ _ H).
  Qed.
  Lemma compute_free e t s : free e -> compute_expression_value o e t s = compute_expression_value o' e t s.
  Proof.
    intros HN. unfold compute_expression_value. apply evaluate_agree. revert HN. apply all_nodes_imp. intros x Hx. destruct x; cbn in *; auto. now apply value_free.
  Qed.
  Lemma time_bound_free e : free e -> evaluate_time_bound o e = evaluate_time_bound o' e.
  Proof.
    intros HN. unfold evaluate_time_bound. f_equal. apply evaluate_agree. revert HN. apply all_nodes_imp. intros x Hx. destruct x; cbn in *; auto.
    match goal with |- bind (component_structure o _ _ ?a ?b) _ = _ =>
      change (component_structure o' m_parameters p_structure a b) with (component_structure o m_parameters p_structure a b) end.
    destruct (component_structure o _ _ _ _) as [ix|]; cbn [bind]; [|reflexivity]. destruct (ix_time ix || ix_scenario ix)%bool; [reflexivity|]. now apply value_free.
  Qed.
  Lemma context_expand_free e : free e -> context_expand o e = context_expand o' e.
  Proof. intros HN. unfold context_expand, expand_operators. apply expand_free_agree; [exact time_bound_free|exact HN]. Qed.
  Lemma context_linearize_free e t s : free e -> context_linearize o e t s = context_linearize o' e t s.
  Proof. intros HN. unfold context_linearize, linearize_expression. f_equal. apply lin_free_agree; [|exact HN]. intros. now apply value_free. Qed.

  (** a bound after instantiation *)
  Definition bound_of (limit : string -> string -> Prop) (e : expr) : Prop := free e \/ exists c p, e = CParam c p /\ limit c p.
  Lemma instantiate_by limit st id e X : ports_free (st_ports st) -> bound_by limit L id e -> instantiate st e id = Ok X -> bound_of limit X.
  Proof.
    intros HP [H|(p & -> & Hp)] E; [left; eapply instantiate_free; eauto|]. right. exists id, p. split; [|exact Hp]. cbn in E. now injection E as <-.
  Qed.
  Lemma upper_value e t s v : bound_of upper e -> compute_expression_value o e t s = Ok v -> exists v', compute_expression_value o' e t s = Ok v' /\ above v v'.
  Proof.
    intros [H|(c & p & -> & Hp)] E; [exists v; rewrite <- compute_free by exact H; split; [exact E|now left]|].
    change (parameter_value o t s c p = Ok v) in E. destruct (value_limit t s c p v (or_introl Hp) E) as (v' & E' & Hu & _). exists v'. split; [exact E'|right; auto].
  Qed.
  Lemma lower_value e t s v : bound_of lower e -> compute_expression_value o e t s = Ok v -> exists v', compute_expression_value o' e t s = Ok v' /\ above v' v.
  Proof.
    intros [H|(c & p & -> & Hp)] E; [exists v; rewrite <- compute_free by exact H; split; [exact E|now left]|].
    change (parameter_value o t s c p = Ok v) in E. destruct (value_limit t s c p v (or_intror Hp) E) as (v' & E' & _ & Hl). exists v'. split; [exact E'|right; auto].
  Qed.

  (** ** States *)
  Definition looser (st st' : state) : Prop :=
    st_variables st' = st_variables st /\ st_infos st' = st_infos st /\ st_ports st' = st_ports st /\ looser_solver (st_solver st) (st_solver st') /\ ports_free (st_ports st).
  Lemma foldM_related {A B} (R : B -> B -> Prop) (f f' : B -> A -> result B) l :
    (forall a acc acc' b, In a l -> R acc acc' -> f acc a = Ok b -> exists b', f' acc' a = Ok b' /\ R b b') ->
    forall acc acc' b, R acc acc' -> foldM f acc l = Ok b -> exists b', foldM f' acc' l = Ok b' /\ R b b'.
  Proof.
    induction l as [|a l IH]; intros H acc acc' b HR E; cbn [foldM] in *; [injection E as <-; eauto|]. apply bind_ok in E as (x & Ex & E).
    destruct (H a acc acc' x (or_introl eq_refl) HR Ex) as (x' & Ex' & HR'). rewrite Ex'. cbn [bind]. eapply IH; eauto. intros; eapply H; eauto. now right.
  Qed.
  Lemma instantiate_same st st' e id : looser st st' -> instantiate st' e id = instantiate st e id.
  Proof. intros (_ & _ & H & _). unfold instantiate. now rewrite H. Qed.
  Lemma looked c : In c (all_components (o_network o)) -> looked_at (o_network o) c.
  Proof. now left. Qed.
  Lemma create_variable_looser c v st st' r : In c (all_components (o_network o)) -> In v (map snd (m_variables (co_model c))) -> looser st st' ->
    create_variable o c st v = Ok r -> exists r', create_variable o' c st' v = Ok r' /\ looser r r'.
  Proof.
    intros Hc Hv HR H. unfold create_variable in *. apply bind_ok in H as (lbe & El & H). apply bind_ok in H as (ube & Eu & H).
    destruct (proj1 (HO c (looked c Hc)) v Hv) as [Bl Bu]. pose proof HR as (_ & _ & HP & _ & HF).
    assert (IB : forall b, instantiate_bound st' b (co_id c) = instantiate_bound st b (co_id c)).
    { intros [b|]; cbn; [|reflexivity]. now rewrite (instantiate_same st st' b _ HR). }
    rewrite !IB, El, Eu. cbn [bind].
    assert (Hl : forall e, lbe = Some e -> bound_of lower e).
    { intros e ->. destruct (v_lower v) as [b|]; cbn in El; [|discriminate]. apply bind_ok in El as (x & Ex & El). injection El as ->. eapply instantiate_by; [exact HF|now apply Bl|exact Ex]. }
    assert (Hu : forall e, ube = Some e -> bound_of upper e).
    { intros e ->. destruct (v_upper v) as [b|]; cbn in Eu; [|discriminate]. apply bind_ok in Eu as (x & Ex & Eu). injection Eu as ->. eapply instantiate_by; [exact HF|now apply Bu|exact Ex]. }
    clear El Eu IB. revert H. apply (foldM_related looser); [|exact HR]. clear st st' HR HP HF.
    intros [t s] st st' x _ HR H. unfold create_variable_instance in *. apply bind_ok in H as (l & El & H). apply bind_ok in H as (u & Eu & H).
    assert (Vl : exists l', bound_value o' NInf lbe t s = Ok l' /\ above l' l).
    { destruct lbe as [e|]; cbn in El |- *; [eapply lower_value; eauto|]. injection El as <-. exists NInf. split; [reflexivity|now left]. }
    assert (Vu : exists u', bound_value o' PInf ube t s = Ok u' /\ above u u').
    { destruct ube as [e|]; cbn in Eu |- *; [eapply upper_value; eauto|]. injection Eu as <-. exists PInf. split; [reflexivity|now left]. }
    destruct Vl as (l' & El' & Al). destruct Vu as (u' & Eu' & Au). rewrite El'. cbn [bind]. rewrite Eu'. cbn [bind].
    destruct (nltb u l) eqn:En; [discriminate|]. rewrite (in_order_still l l' u u' Au Al En). injection H as <-. eexists. split; [reflexivity|].
    destruct HR as (R1 & R2 & R3 & (S1 & S2 & S3 & S4) & R5). unfold looser, register_component_variable, add_solver_var. cbn. rewrite R1, R2, R3, S3, S4.
    rewrite (Forall2_same_length _ _ _ S1). split; [reflexivity|]. split; [reflexivity|]. split; [reflexivity|]. split; [|exact R5]. split; [|cbn; auto]. cbn.
    apply Forall2_app; [exact S1|]. constructor; [|constructor]. change (solver_variable_name o' (co_id c) (v_name v) t s) with (solver_variable_name o (co_id c) (v_name v) t s).
    unfold new_solver_var. destruct (v_type v); (split; [reflexivity|]; split; [reflexivity|]; cbn [sv_lb sv_ub]; split; intros q; [apply at_least_below|apply at_most_above]; auto; now left).
  Qed.
  Lemma sub_free a b : free a -> free b -> free (py_sub a b).
  Proof.
    intros Ha Hb. assert (O : forall e, free e -> Forall free (add_operands e)).
    { intros e He. destruct e; cbn [add_operands]; try (constructor; [exact He|constructor]). now apply all_nodes_Add in He. }
    unfold py_sub. apply all_nodes_Add. split; [exact I|]. apply Forall_app. split; [now apply O|]. apply Forall_map.
    apply O in Hb. revert Hb. apply Forall_impl. intros x Hx. cbn. split; [exact I|exact Hx].
  Qed.
  Lemma instantiated_bounds st id k ic : ports_free (st_ports st) -> without_limits L id (c_expr k) -> bound_by lower L id (c_lower k) -> bound_by upper L id (c_upper k) ->
    instantiate_constraint st id k = Ok ic -> free (c_expr ic) /\ bound_of lower (c_lower ic) /\ bound_of upper (c_upper ic).
  Proof.
    intros HF He Hl Hu H. unfold instantiate_constraint in H. apply bind_ok in H as (e & Ee & H). apply bind_ok in H as (l & El & H). apply bind_ok in H as (u & Eu & H).
    apply (instantiate_free _ _ _ _ HF He) in Ee. apply (instantiate_by _ _ _ _ _ HF Hl) in El. apply (instantiate_by _ _ _ _ _ HF Hu) in Eu.
    clear - Ee El Eu H. unfold mk_constraint in H.
    destruct e; try (repeat match type of H with bind _ _ = _ => let x := fresh in let E := fresh in apply bind_ok in H as (x & E & H) | (if ?b then _ else _) = _ => destruct b; try discriminate end; injection H as <-; auto).
    destruct (_ || _)%bool; [discriminate|]. assert (F : forall v, free (Lit v)) by (intros; cbn; auto).
    assert (E : free (py_sub e1 e2)). { destruct Ee as (_ & F1 & F2). now apply sub_free. }
    destruct c; injection H as <-; cbn [c_expr c_lower c_upper]; (split; [exact E|]; split; left; apply F).
  Qed.

  Lemma mapM_related {A B} (R : B -> B -> Prop) (f f' : A -> result B) l :
    (forall a b, In a l -> f a = Ok b -> exists b', f' a = Ok b' /\ R b b') -> forall bs, mapM f l = Ok bs -> exists bs', mapM f' l = Ok bs' /\ Forall2 R bs bs'.
  Proof.
    induction l as [|a l IH]; intros H bs E; cbn [mapM] in *; [injection E as <-; eauto|]. apply bind_ok in E as (b & Eb & E). apply bind_ok in E as (bs0 & Es & E). injection E as <-.
    destruct (H a b (or_introl eq_refl) Eb) as (b' & Eb' & HR). destruct (IH (fun a b Ha => H a b (or_intror Ha)) bs0 Es) as (bs' & Es' & HRs).
    rewrite Eb'. cbn [bind]. rewrite Es'. cbn [bind]. eauto.
  Qed.
  Lemma get_solver_var_same st st' k : looser st st' -> get_solver_var o' st' k = get_solver_var o st k.
  Proof. intros (H & _). unfold get_solver_var, get_component_variable. now rewrite H. Qed.
  Lemma create_constraint_looser c k st st' r : In c (all_components (o_network o)) -> In k (get_all_constraints (co_model c)) -> looser st st' ->
    create_component_constraint o (co_id c) st k = Ok r -> exists r', create_component_constraint o' (co_id c) st' k = Ok r' /\ looser r r'.
  Proof.
    intros Hc Hk HR H. pose proof HR as (R1 & R2 & R3 & (S1 & S2 & S3 & S4) & HF). destruct (proj1 (proj2 (HO c (looked c Hc))) k Hk) as (Be & Bl & Bu).
    unfold create_component_constraint in *. apply bind_ok in H as (ic & Ei & H). apply bind_ok in H as (rows & Er & H). injection H as <-.
    destruct (instantiated_bounds st _ _ _ HF Be Bl Bu Ei) as (Fe & Fl & Fu).
    assert (Ei' : instantiate_constraint st' (co_id c) k = Ok ic). { rewrite <- Ei. unfold instantiate_constraint. now rewrite !(instantiate_same st st' _ _ HR). }
    rewrite Ei'. cbn [bind]. unfold create_constraint in *. apply bind_ok in Er as (X & EX & Er). apply bind_ok in Er as (ix & Eix & Er).
    assert (FX : free X) by (eapply expand_free; [exact Fe|exact EX]). rewrite <- (context_expand_free _ Fe), EX. cbn [bind].
    change (constraint_indexing o' ic) with (constraint_indexing o ic). rewrite Eix. cbn [bind].
    destruct (mapM_related looser_row (fun ts => create_row o st ic X (fst ts) (snd ts)) (fun ts => create_row o' st' ic X (fst ts) (snd ts)) (list_prod (get_time_indices o ix) (get_scenario_indices o ix))) with (2 := Er) as (rows' & Er' & HRs).
    { intros [t s] row _ Ho. cbn [fst snd] in *. unfold create_row in *. apply bind_ok in Ho as (lin & Elin & Ho). apply bind_ok in Ho as (lb & Elb & Ho). apply bind_ok in Ho as (ub & Eub & Ho).
      rewrite <- (context_linearize_free _ _ _ FX), Elin. cbn [bind]. destruct (lower_value _ _ _ _ Fl Elb) as (lb' & Elb' & Al). destruct (upper_value _ _ _ _ Fu Eub) as (ub' & Eub' & Au).
      rewrite Elb'. cbn [bind]. rewrite Eub'. cbn [bind]. unfold make_constraint in *. apply bind_ok in Ho as (coefs & Ec & Ho). injection Ho as <-.
      assert (Ec' : foldM (add_term o' st') [] (le_terms lin) = Ok coefs).
      { rewrite <- Ec. apply OptimFacts.foldM_ext. intros acc kt _. unfold add_term. now rewrite (get_solver_var_same st st' _ HR). }
      rewrite Ec'. cbn [bind]. eexists. split; [reflexivity|]. split; [reflexivity|]. split; [reflexivity|]. cbn [sr_lb sr_ub]. split; intros q; [now apply at_least_shift|now apply at_most_shift]. }
    change (list_prod (get_time_indices o' ix) (get_scenario_indices o' ix)) with (list_prod (get_time_indices o ix) (get_scenario_indices o ix)). rewrite Er'. cbn [bind]. eexists. split; [reflexivity|]. split; [exact R1|]. split; [exact R2|]. split; [exact R3|]. split; [|exact HF].
    split; [exact S1|]. split; [|cbn; auto]. cbn. apply Forall2_app; assumption.
  Qed.
  Lemma modified_without id r e : without_limits L id e -> without_limits L id (modify_expression r e).
  Proof. intros H. destruct r; [exact H|]. cbn. split; [exact I|]. split; [split; exact I || exact I|exact H]. Qed.
  Lemma create_objective_looser c obj st st' r : In c (all_components (o_network o)) -> obj = m_operational (co_model c) \/ obj = m_investment (co_model c) -> looser st st' ->
    create_component_objective o c st obj = Ok r -> exists r', create_component_objective o' c st' obj = Ok r' /\ looser r r'.
  Proof.
    intros Hc Hobj HR H. destruct obj as [e|]; cbn [create_component_objective] in *; [|injection H as <-; eauto]. change (o_risk o') with (o_risk o).
    pose proof HR as (R1 & R2 & R3 & (S1 & S2 & S3 & S4) & HF).
    assert (We : without_limits L (co_id c) (modify_expression (o_risk o) e)).
    { apply modified_without. apply (proj1 (proj2 (proj2 (HO c (looked c Hc))))). destruct Hobj as [-> | ->]; auto. }
    unfold create_objective in *. apply bind_ok in H as (i & Ei & H). apply bind_ok in H as (X & EX & H). apply bind_ok in H as (lin & El & H). apply bind_ok in H as (st1 & Ef & H). injection H as <-.
    rewrite (instantiate_same st st' _ _ HR), Ei. cbn [bind]. assert (Fi : free i) by (eapply instantiate_free; eauto). rewrite <- (context_expand_free _ Fi), EX. cbn [bind].
    assert (FX : free X) by (eapply expand_free; [exact Fi|exact EX]). rewrite <- (context_linearize_free _ _ _ FX), El. cbn [bind].
    destruct (foldM_related looser (add_objective_term o) (add_objective_term o') (le_terms lin)) with (2 := HR) (3 := Ef) as (st1' & Ef' & HR1).
    { clear - HO HD. intros kt a a' b _ HR H. unfold add_objective_term in *. apply bind_ok in H as (i & Ei & H). apply bind_ok in H as (v & Ev & H). apply bind_ok in H as (infos & En & H). injection H as <-.
      rewrite (get_solver_var_same a a' _ HR), Ei. cbn [bind]. pose proof HR as (R1 & R2 & R3 & (S1 & S2 & S3 & S4) & HF).
      assert (exists v', nth_error (s_vars (st_solver a')) i = Some v' /\ sv_name v' = sv_name v) as (v' & Ev' & En').
      { clear - S1 Ev. revert i Ev. induction S1 as [|x x' l l' Hx _ IH]; intros [|i] Ev; cbn in *; try discriminate; eauto. destruct (Some x) eqn:E; [|discriminate]. injection Ev as <-. injection E as ->. exists x'. split; [reflexivity|apply Hx]. }
      rewrite Ev'. cbn [bind]. rewrite En', R2, En. cbn [bind]. eexists. split; [reflexivity|]. split; [exact R1|]. split; [reflexivity|]. split; [exact R3|]. split; [|exact HF].
      split; [exact S1|]. split; [exact S2|]. cbn. now rewrite S3. }
    rewrite Ef'. cbn [bind]. eexists. split; [reflexivity|]. destruct HR1 as (Q1 & Q2 & Q3 & (T1 & T2 & T3 & T4) & QF). split; [exact Q1|]. split; [exact Q2|]. split; [exact Q3|]. split; [|exact QF].
    split; [exact T1|]. split; [exact T2|]. split; [exact T3|]. cbn. now rewrite T4.
  Qed.
  Lemma registered_free ports : register_connections o = Ok ports -> ports_free ports.
  Proof.
    intros H. unfold register_connections in H. revert H. apply (foldM_inv ports_free); [|constructor]. intros acc k acc' Hk HA H. revert H. apply (foldM_inv ports_free); [|exact HA].
    intros a [f m] a' Hm Ha H. unfold register_field in H. destruct (dget pfi_eqb _ _) as [d|] eqn:Ed; [|discriminate]. apply bind_ok in H as (e & Ee & H). injection H as <-.
    assert (Fe : free e).
    { eapply context_free; [|exact Ee]. assert (Hl : looked_at (o_network o) (pr_component m)) by (right; exists k, f, m; auto).
      apply (dget_In pfi_eqb ModelFacts.pfi_eqb_eq) in Ed. exact (proj2 (proj2 (proj2 (HO _ Hl))) _ _ Ed). }
    now repeat apply register_free.
  Qed.
  Lemma over_all {X} (get : component -> list X) (f f' : component -> state -> X -> result state) :
    (forall c x st st' r, In c (all_components (o_network o)) -> In x (get c) -> looser st st' -> f c st x = Ok r -> exists r', f' c st' x = Ok r' /\ looser r r') ->
    forall st st' r, looser st st' -> foldM (fun st c => foldM (f c) st (get c)) st (all_components (o_network o)) = Ok r ->
    exists r', foldM (fun st c => foldM (f' c) st (get c)) st' (all_components (o_network o)) = Ok r' /\ looser r r'.
  Proof.
    intros H st st' r HR. apply (foldM_related looser); [|exact HR]. intros c a a' b Hc HA. apply (foldM_related looser); [|exact HA]. intros x p p' q Hx HP. now apply H.
  Qed.
  Theorem limits_loosened st : requirements_consistency db (o_network o) = Ok tt -> build_problem o = Ok st ->
    exists st', build_problem o' = Ok st' /\ looser_solver (st_solver st) (st_solver st').
  Proof.
    intros HQ H. unfold build_problem in *. change (o_network o') with (o_network o). change (o_database o') with db. rewrite HQ. cbn [bind]. apply bind_ok in H as (u & _ & H).
    unfold optimization_problem in *. change (register_connections o') with (register_connections o). apply bind_ok in H as (ports & Ep & H). apply bind_ok in H as (st1 & E1 & H). apply bind_ok in H as (st2 & E2 & H).
    rewrite Ep. cbn [bind]. assert (H0 : looser (set_ports initial_state ports) (set_ports initial_state ports)).
    { split; [reflexivity|]. split; [reflexivity|]. split; [reflexivity|]. split; [|exact (registered_free _ Ep)]. split; [constructor|]. split; [constructor|]. split; reflexivity. }
    unfold create_variables, create_constraints, create_objectives in *. change (o_network o') with (o_network o). change (o_selection o') with (o_selection o).
    destruct (over_all (fun c => get_variables (o_selection o) (co_model c)) (fun c => create_variable o c) (fun c => create_variable o' c)) with (2 := H0) (3 := E1) as (st1' & E1' & R1).
    { intros c x a a' r Hc Hx HR. apply create_variable_looser; auto. now apply filter_In in Hx. }
    rewrite E1'. cbn [bind].
    destruct (over_all (fun c => get_constraints (o_selection o) (co_model c)) (fun c => create_component_constraint o (co_id c)) (fun c => create_component_constraint o' (co_id c))) with (2 := R1) (3 := E2) as (st2' & E2' & R2).
    { intros c x a a' r Hc Hx HR. apply create_constraint_looser; auto. now apply filter_In in Hx. }
    rewrite E2'. cbn [bind].
    destruct (over_all (fun c => get_objectives (o_selection o) (co_model c)) (fun c => create_component_objective o c) (fun c => create_component_objective o' c)) with (2 := R2) (3 := H) as (st' & E' & R).
    { intros c x a a' r Hc Hx HR. apply create_objective_looser; auto. unfold get_objectives in Hx. destruct (o_selection o); cbn in Hx; intuition auto. }
    exists st'. split; [exact E'|]. exact (proj1 (proj2 (proj2 (proj2 R)))).
  Qed.
End Loose.

(** ** Solutions *)
Lemma looser_solves s s' y : looser_solver s s' -> solves y s -> solves y s'.
Proof.
  intros (S1 & S2 & _) [C R]. split.
  - revert C. clear S2 R. intros C i v' Ev'.
    assert (exists v, nth_error (s_vars s) i = Some v /\ looser_column v v') as (v & Ev & (_ & Hi & Hl & Hu)).
    { clear C. revert i Ev'. induction S1 as [|x x' l l' Hx _ IH]; intros [|i] Ev; cbn in *; try discriminate; eauto. injection Ev as <-. eauto. }
    destruct (C i v Ev) as (C1 & C2 & C3). split; [auto|]. split; [auto|]. now rewrite Hi.
  - clear S1 C. induction S2 as [|r r' l l' (_ & Hc & Hl & Hu) _ IH]; [constructor|]. inversion R as [|? ? (q & Hq & Q1 & Q2) R']; subst. constructor; [|now apply IH].
    exists q. rewrite Hc. auto.
Qed.
Lemma looser_cost s s' y : looser_solver s s' -> objective_value y s' = objective_value y s.
Proof. intros (_ & _ & H1 & H2). unfold objective_value. now rewrite H1, H2. Qed.
Lemma looser_better s s' y y' v v' : looser_solver s s' -> solves y s -> objective_value y s = Some v -> optimal y' s' -> objective_value y' s' = Some v' -> (v' <= v)%Qc.
Proof.
  intros HL Hy Hv (_ & w & Ew & Hw) Hv'. rewrite Hv' in Ew. injection Ew as <-. apply (Hw y v); [eapply looser_solves; eauto|]. now rewrite (looser_cost _ _ _ HL).
Qed.
