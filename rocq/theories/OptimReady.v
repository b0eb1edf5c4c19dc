(** Well-formed problems are built (C66). *)
From Coq Require Import Lia.
From Verif Require Import Base BaseFacts Expr Visitors LinearExpr Linearize Expansion Model Study Strategy Optim
  SpecExpr SpecSyntax SpecVisitors SpecExpansion SpecLinear SpecModel SpecOptim SpecReady
  ExprFacts CopyFacts VisitorFacts DegreeFacts ExpansionFacts LinearFacts ModelFacts OptimFacts OptimMeaning OptimProblem
  ReadyFacts.

(** ** Data *)
Lemma fits_requirement d ix : fits d ix -> check_requirement d (ix_time ix) (ix_scenario ix) = true.
Proof.
  unfold fits. destruct ix as [tm sc]. cbn [ix_time ix_scenario]. induction d using data_ind'; cbn; intros [H1 H2];
    rewrite ?H1, ?H2 by reflexivity; auto.
  apply forallb_forall. intros kd Hkd. rewrite Forall_forall in H. apply H; [exact Hkd|]. split; intros E; [apply H1|apply H2];
    apply existsb_exists; eauto.
Qed.

(** ** Expressions without ports nor decisions depend on parameters only *)
Definition pure_node (x : expr) : Prop :=
  match x with Lit _ | Neg _ | Add _ | Mul _ _ | Div _ _ | Param _ | CParam _ _ => True | _ => False end.
Lemma den_pure E E' e : (forall n t s, e_par E n t s = e_par E' n t s) ->
  (forall c n t s, e_cpar E c n t s = e_cpar E' c n t s) -> all_nodes pure_node e ->
  forall t s, den E e t s = den E' e t s.
Proof.
  intros Hp Hc. induction e using expr_ind'; intros HN t s; try (apply all_nodes_root in HN; contradiction); cbn [den];
    try (cbn [all_nodes] in HN; rewrite ?IHe, ?IHe1, ?IHe2 by tauto; auto; fail).
  apply all_nodes_Add in HN. destruct HN as [_ HN]. f_equal. apply map_ext_in. intros x Hx.
  rewrite Forall_forall in H, HN. auto.
Qed.
Lemma all_leaves_and (P Q : expr -> Prop) e : all_leaves P e -> all_leaves Q e -> all_leaves (fun x => P x /\ Q x) e.
Proof.
  induction e using expr_ind'; intros HP HQ; try (cbn in *; tauto). cbn [all_leaves] in *.
  apply fold_and_Forall in HP, HQ. apply fold_and_Forall. rewrite Forall_forall in *. auto.
Qed.
Lemma all_leaves_true e : all_leaves (fun _ => True) e.
Proof.
  induction e using expr_ind'; cbn; auto. apply fold_and_Forall. exact H.
Qed.

Lemma float_to_int_Z z : float_to_int (Fin (Z2Qc z)) = Ok z.
Proof.
  assert (H : this (Z2Qc z) = inject_Z z).
  { change (Qred (inject_Z z) = inject_Z z). unfold Qred, inject_Z. rewrite (surjective_pairing (Z.ggcd z 1)).
    pose proof (Z.ggcd_gcd z 1) as H1. pose proof (Z.ggcd_correct_divisors z 1) as H2.
    destruct (Z.ggcd z 1) as [g [a b]]. cbn in H1 |- *. rewrite Z.gcd_1_r in H1. subst g. destruct H2 as [H2 H3].
    replace a with z by lia. replace b with 1%Z by lia. reflexivity. }
  unfold float_to_int. rewrite H. reflexivity.
Qed.

(** ** Arguments of time operators, once names are those of components *)
Definition argument_node (o : settings) (x : expr) : Prop :=
  match x with
  | Lit (Fin _) | Neg _ | Mul _ _ | Div _ _ => True
  | Add l => l <> []
  | CParam c n => has_parameter is_constant_structure o c n
  | _ => False
  end.
Definition argument (o : settings) (k : expr) : Prop :=
  all_nodes (argument_node o) k /\ exists x t s z, den (world o x) k t s = Some (Z2Qc z).
Lemma argument_carried c o : carried c (argument_node o) (argument_node o).
Proof. repeat split; cbn; auto. Qed.
Lemma argument_context o id k k' : constant_argument o id k -> add_component_context id k = Ok k' -> argument o k'.
Proof.
  intros [HN (x & t & s & z & Hz)] E. split.
  - refine (copy_nodes (context_adder id) _ _ (fun _ => True) k _ _ _ HN (all_leaves_true k) E).
    + repeat split; cbn; auto.
    + intros y y' Hk Hy _ Ey. destruct y; try contradiction. cbn in Ey. injection Ey as <-. cbn. auto.
  - exists x, t, s, z. assert (HP : all_nodes pure_node k) by (eapply all_nodes_imp; [|exact HN]; intros y; destruct y; cbn; tauto).
    rewrite (context_den (world o x) id k k'); [|eapply all_nodes_imp; [|exact HP]; intros y; destruct y; cbn; tauto|exact E].
    rewrite <- Hz. apply den_pure; auto.
Qed.
Lemma argument_resolved o cid ports k k' : argument o k -> resolve_port k cid ports = Ok k' -> argument o k'.
Proof.
  intros [HN (x & t & s & z & Hz)] E. split.
  - refine (copy_nodes (port_resolver cid ports) _ _ (fun _ => True) k (argument_carried _ o) _ _ HN (all_leaves_true k) E).
    intros y y' Hk Hy _ Ey. destruct y; try contradiction. cbn in Ey. injection Ey as <-. cbn. auto.
  - exists x, t, s, z. rewrite (resolve_port_den _ _ _ _ _ E), <- Hz. apply den_pure; auto.
    eapply all_nodes_imp; [|exact HN]. intros y. destruct y; cbn; tauto.
Qed.

(** ** Nodes of instantiated expressions; [ports]: ports are not yet resolved *)
Definition grounded (ports : bool) (o : settings) (x : expr) : Prop :=
  match x with
  | CVar c n => chosen_variable o c n
  | CParam c n => has_parameter (fun _ => True) o c n
  | Var _ | Param _ | PVar _ _ _ _ | PParam _ _ _ _ | Cmp _ _ _ => False
  | PortField _ _ | PortAgg _ _ => ports = true
  | Add l => l <> []
  | TShift _ k => argument o k
  | TEval a k => argument o k /\ no_fixed_step a /\ no_port a
  | TSum _ f t => argument o f /\ argument o t
  | ScenOp _ op => op = Expectation
  | Lit _ | Neg _ | Mul _ _ | Div _ _ | AllSum _ => True
  end.
Definition loose (x : expr) : Prop :=
  match x with
  | TEval _ _ | AllSum _ | PortField _ _ | PortAgg _ _ => False
  | Add l => l <> []
  | _ => True
  end.
Lemma loose_split a : all_nodes loose a -> no_fixed_step a /\ no_port a.
Proof. intros H. split; (eapply all_nodes_imp; [|exact H]); intros y; destruct y; cbn; tauto. Qed.
Definition looser (x : expr) : Prop :=
  match x with TEval _ _ | AllSum _ | PortField _ _ | PortAgg _ _ => False | _ => True end.
Lemma looser_join a : no_fixed_step a -> no_port a -> all_nodes looser a.
Proof. intros H1 H2. eapply all_nodes_imp; [|exact (all_nodes_and _ _ _ H1 H2)]. intros y. destruct y; cbn; tauto. Qed.
Lemma context_loose id a a' : no_fixed_step a -> no_port a -> add_component_context id a = Ok a' -> no_fixed_step a' /\ no_port a'.
Proof.
  intros H1 H2 E. apply loose_split.
  refine (copy_nodes (context_adder id) looser loose (fun _ => True) a _ _ _ (looser_join _ H1 H2) (all_leaves_true a) E).
  - repeat split; cbn; auto.
  - intros y y' Hk Hy _ Ey. destruct y; try contradiction; cbn in Ey; try discriminate; injection Ey as <-; cbn; auto.
Qed.
Lemma resolved_loose cid ports a a' : no_fixed_step a -> no_port a -> resolve_port a cid ports = Ok a' -> no_fixed_step a' /\ no_port a'.
Proof.
  intros H1 H2 E. apply loose_split.
  refine (copy_nodes (port_resolver cid ports) looser loose (fun _ => True) a _ _ _ (looser_join _ H1 H2) (all_leaves_true a) E).
  - repeat split; cbn; auto.
  - intros y y' Hk Hy _ Ey. destruct y; try contradiction; cbn in Ey; try discriminate; injection Ey as <-; cbn; auto.
Qed.
Lemma context_grounded o id e e' : all_nodes (ready_node o id) e -> all_leaves (ready_leaf o id) e ->
  add_component_context id e = Ok e' -> all_nodes (grounded true o) e'.
Proof.
  intros HN HL E. refine (copy_nodes (context_adder id) (ready_node o id) (grounded true o) (ready_leaf o id) e _ _ _ HN HL E).
  - refine (conj _ (conj _ (conj _ (conj _ (conj _ (conj _ (conj _ (conj _ (conj _ (conj _ (conj _ _))))))))))); cbn [ready_node grounded]; auto.
    + intros a k a' k' H1 _ Ek. exact (argument_context _ _ _ _ H1 Ek).
    + intros a k a' k' (H1 & H2 & H3) Ea Ek. split; [exact (argument_context _ _ _ _ H1 Ek)|exact (context_loose _ _ _ H2 H3 Ea)].
    + intros a f t a' f' t' [H1 H2] Ea Ef Et. split; [exact (argument_context _ _ _ _ H1 Ef)|exact (argument_context _ _ _ _ H2 Et)].
  - intros y y' Hk Hy Hl Ey. destruct y; try contradiction; cbn in Ey; try (injection Ey as <-; cbn; auto; fail).
    inv_bind Ey. injection Ey as <-. destruct y; try contradiction. cbn in H. injection H as <-. cbn. auto.
Qed.

Section Ready.
  Context (o : settings).
  Hypothesis Hgood : good_problem o.
  Hypothesis Hready : ready_problem o.
  Let Hu : usable_block o := proj1 Hgood.
  Let HS : (1 <= o_scenarios o)%Z := proj1 (proj2 Hgood).
  Let Hb : built_network (o_network o) := proj1 (proj2 (proj2 (proj2 Hgood))).
  Let Hd : distinct_ids (o_network o) := proj1 (proj2 (proj2 (proj2 (proj2 Hgood)))).
  Let Hm := proj1 (proj2 (proj2 (proj2 (proj2 (proj2 Hgood))))).
  Let Hg : good_connections (o_network o) := proj1 (proj2 (proj2 (proj2 (proj2 (proj2 (proj2 Hgood)))))).
  Let Hf : finite_values o := proj1 (proj2 (proj2 (proj2 (proj2 (proj2 (proj2 (proj2 Hgood))))))).

  Lemma ready_requirements : requirements_consistency (o_database o) (o_network o) = Ok tt.
  Proof.
    apply requirements_accept.
    - intros c Hc. apply (Hm c). apply in_or_app. now right.
    - intros c p Hc Hp. destruct (proj1 Hready c p Hc Hp) as (d & H1 & H2). exists d. split; [exact H1|]. now apply check_suits, fits_requirement.
  Qed.
  Lemma ready_ports : exists ports, register_connections o = Ok ports.
  Proof.
    apply register_connections_ok; [exact Hb|intros k Hk; split; apply (Hg k Hk)|].
    intros k f d Hk Hin. destruct (proj1 (proj2 Hready) k f d Hk Hin) as (HN & _).
    split; (eapply all_nodes_imp; [|exact HN]); intros x; destruct x; cbn; try tauto; try discriminate.
    intros H E. injection E as ->. contradiction.
  Qed.
  Lemma ready_suitable c p : In c (all_components (o_network o)) -> In p (map snd (m_parameters (co_model c))) ->
    has_suitable_data (o_database o) (co_id c) p.
  Proof.
    intros Hc Hp. unfold all_components in Hc. apply in_app_or in Hc. destruct Hc as [Hc|Hc].
    - now apply (proj2 (proj2 (proj2 (proj2 (proj2 (proj2 (proj2 (proj2 Hgood)))))))).
    - eapply requirements_ok; eauto using ready_requirements. intros c' Hc'. apply (Hm c'). apply in_or_app. now right.
  Qed.

  (** names *)
  Lemma component_found k : In k (all_components (o_network o)) -> get_component (o_network o) (co_id k) = Ok k.
  Proof.
    intros Hk. destruct (get_component (o_network o) (co_id k)) as [k'|e] eqn:E.
    - destruct (get_component_known _ _ _ Hb E) as [Hin Hid]. f_equal. eapply NoDup_map_inj_in; eauto.
    - exfalso. unfold get_component in E. apply built_network_named in Hb. destruct Hb as [[N1 H1] [N2 H2]].
      apply in_app_or in Hk. destruct (dget String.eqb (co_id k) (n_components (o_network o))) eqn:E1; [discriminate|].
      destruct (dget String.eqb (co_id k) (n_nodes (o_network o))) eqn:E2; [discriminate|].
      apply (dget_None String.eqb String.eqb_eq) in E1, E2.
      destruct Hk as [Hk|Hk]; apply in_map_iff in Hk; destruct Hk as ([i k0] & <- & Hk); cbn [snd] in *.
      + apply E2. rewrite (H1 _ _ Hk). apply in_map_iff. exists (i, k0). auto.
      + apply E1. rewrite (H2 _ _ Hk). apply in_map_iff. exists (i, k0). auto.
  Qed.
  Lemma parameter_found k p : In k (all_components (o_network o)) -> In p (map snd (m_parameters (co_model k))) ->
    component_structure o m_parameters p_structure (co_id k) (p_name p) = Ok (p_structure p).
  Proof.
    intros Hk Hp. unfold component_structure. rewrite (component_found k Hk). cbn [bind].
    destruct (Hm k Hk) as ((_ & _ & [N H] & _) & _). apply in_map_iff in Hp. destruct Hp as ([n p'] & <- & Hp).
    cbn [snd]. rewrite (H _ _ Hp). now rewrite (In_dget_nodup String.eqb String.eqb_eq _ _ _ N Hp).
  Qed.
  Lemma variable_found k v : In k (all_components (o_network o)) -> In v (map snd (m_variables (co_model k))) ->
    component_structure o m_variables v_structure (co_id k) (v_name v) = Ok (v_structure v).
  Proof.
    intros Hk Hp. unfold component_structure. rewrite (component_found k Hk). cbn [bind].
    destruct (Hm k Hk) as ((_ & _ & _ & [N H] & _) & _). apply in_map_iff in Hp. destruct Hp as ([n p'] & <- & Hp).
    cbn [snd]. rewrite (H _ _ Hp). now rewrite (In_dget_nodup String.eqb String.eqb_eq _ _ _ N Hp).
  Qed.
  Lemma chosen_structure c n : chosen_variable o c n -> exists k v, In k (all_components (o_network o)) /\ co_id k = c /\
    In v (get_variables (o_selection o) (co_model k)) /\ v_name v = n /\
    component_structure o m_variables v_structure c n = Ok (v_structure v).
  Proof.
    intros (k & v & Hk & <- & Hv & <-). exists k, v. repeat (split; [auto|]). apply variable_found; auto.
    unfold get_variables in Hv. apply filter_In in Hv. apply Hv.
  Qed.
  (** a parameter whose value exists can be read, with or without the indices it does not need *)
  Lemma parameter_read c n t s q ot os : forall k p, In k (all_components (o_network o)) -> co_id k = c ->
    In p (map snd (m_parameters (co_model k))) -> p_name p = n ->
    data_at o c n t s = Some q ->
    (ix_time (p_structure p) = true -> ot = Some t) -> (ix_scenario (p_structure p) = true -> os = Some s) ->
    parameter_value o ot os c n = Ok (Fin q).
  Proof.
    intros k p Hk <- Hp <- Hq Ht Hs. destruct (ready_suitable k p Hk Hp) as (d & Hdat & Hit & His).
    unfold data_at in Hq. unfold parameter_value. rewrite Hdat in *. cbn [bind].
    destruct (absolute_timestep o t Hu) as (a & Ha & Hba). fold (block_length o) in Hq. rewrite Ha in Hq.
    destruct (get_value d (Some a) (Some s) (o_tree_node o)) as [[w| | |]|] eqn:Ev; try discriminate. injection Hq as ->.
    assert (HA : exists a', block_timestep_to_absolute_timestep o ot = Ok a' /\ get_value d a' (Some s) (o_tree_node o) = Ok (Fin q)).
    { destruct (ix_time (p_structure p)) eqn:E.
      - rewrite (Ht eq_refl), Hba. eauto.
      - destruct ot as [z|].
        + destruct (absolute_timestep o z Hu) as (b & _ & Hb'). rewrite Hb'. eexists; split; [reflexivity|].
          rewrite <- Ev. now apply Hit.
        + eexists; split; [reflexivity|]. rewrite <- Ev. now apply Hit. }
    destruct HA as (a' & -> & HA). cbn [bind]. rewrite <- HA.
    destruct (ix_scenario (p_structure p)) eqn:E; [now rewrite (Hs eq_refl)|now apply His].
  Qed.
  (** time arguments are evaluated *)
  Lemma argument_evaluates k : argument o k -> exists z, evaluate_time_bound o k = Ok z.
  Proof.
    intros [HN (x & t & s & z & Hz)]. exists z. unfold evaluate_time_bound.
    rewrite (evaluate_succeeds (constant_value_provider o) (world o x) t s k) with (q := Z2Qc z).
    - cbn [bind]. apply float_to_int_Z.
    - now apply constant_provider_world.
    - eapply all_nodes_imp; [|exact HN]. intros y. destruct y as [[]| | | | | | | | | | | | | | | | | |]; cbn; tauto.
    - eapply all_nodes_imp; [|exact HN]. intros y. destruct y as [[]| | | | | | | | | | | | | | | | | |]; cbn; try tauto.
      intros (p & q & Hp & <- & Hq & <- & [E1 E2]) v Hv. rewrite (parameter_found p q Hp Hq). cbn [bind]. rewrite E1, E2. cbn [orb].
      eexists. eapply parameter_read; eauto; congruence.
    - exact Hz.
  Qed.

  Section Stage.
  Context (st : state).
  Hypothesis Hr : register_connections o = Ok (st_ports st).
  Notation ports := (st_ports st).

  (** what is registered for a field *)
  Lemma connected_brought c p f d : In d (connected (o_network o) c p f) ->
    exists k, In k (n_connections (o_network o)) /\ In d (brought k f).
  Proof.
    unfold connected. intros H. apply in_flat_map in H. destruct H as (k & Hk & H). exists k. split; [exact Hk|].
    apply in_app_or in H. destruct H as [H|H]; destruct (is_port _ c p); try contradiction; exact H.
  Qed.
  Lemma field_registered c p f : Forall2 (fun d e => add_component_context (fst d) (snd d) = Ok e)
    (connected (o_network o) c p f) (match dget pfk_eqb (c, (p, f)) ports with Some l => l | None => [] end).
  Proof. apply connections_registered; auto. intros k Hk. split; apply (Hg k Hk). Qed.
  Lemma registered_of c p f l e : dget pfk_eqb (c, (p, f)) ports = Some l -> In e l ->
    exists d, In d (connected (o_network o) c p f) /\ add_component_context (fst d) (snd d) = Ok e.
  Proof.
    intros E He. pose proof (field_registered c p f) as H. rewrite E in H. clear E.
    induction H as [|d x ds l Hdx Hl IH]; [contradiction|]. destruct He as [->|He].
    - exists d. split; [now left|exact Hdx].
    - destruct (IH He) as (d' & H1 & H2). exists d'. split; [now right|exact H2].
  Qed.
  Lemma registered_one c p f d : connected (o_network o) c p f = [d] ->
    exists e, dget pfk_eqb (c, (p, f)) ports = Some [e] /\ add_component_context (fst d) (snd d) = Ok e.
  Proof.
    intros E. pose proof (field_registered c p f) as H. rewrite E in H. inversion H as [|a b m n H1 H2 E1 E2]; subst.
    inversion H2; subst. destruct (dget _ _ _) as [l|]; [|discriminate]. subst. eauto.
  Qed.
  Lemma definition_grounded c p f l e : dget pfk_eqb (c, (p, f)) ports = Some l -> In e l ->
    all_nodes (grounded false o) e.
  Proof.
    intros E He. destruct (registered_of _ _ _ _ _ E He) as (d & Hcd & Hc). destruct (connected_brought _ _ _ _ Hcd) as (k & Hk & Hin).
    destruct (proj1 (proj2 Hready) k f d Hk Hin) as (HN & HL & _).
    pose proof (context_grounded _ _ _ _ HN HL Hc) as HG.
    destruct (connected_good (o_network o) c p f d Hg Hcd) as (_ & _ & Hnp & _).
    pose proof (context_no_port _ _ _ Hnp Hc) as Hnp'.
    eapply all_nodes_imp; [|exact (all_nodes_and _ _ _ HG Hnp')]. intros y. destruct y; cbn; tauto.
  Qed.
  Lemma sum_nodes (P : expr -> Prop) l : (forall l, l <> [] -> P (Add l)) -> P (Lit n0) -> Forall (all_nodes P) l ->
    all_nodes P (sum_expressions l).
  Proof.
    intros HA H0 HF. destruct l as [|a [|b l]]; cbn [sum_expressions].
    - cbn. auto. - now inversion HF. - apply all_nodes_Add. split; [apply HA; discriminate|exact HF].
  Qed.

  Definition resolvable_leaf (id : string) (x : expr) : Prop :=
    match x with
    | CVar _ _ | CParam _ _ => True
    | PortField p f => exists d, connected (o_network o) id p f = [d]
    | PortAgg (PortField _ _) PortSum => True
    | _ => False
    end.
  Lemma resolvable_resolves id e : no_empty_sum e -> all_leaves (resolvable_leaf id) e -> exists e', resolve_port e id ports = Ok e'.
  Proof.
    intros HE HL. apply resolve_port_ok_iff; [exact HE|]. eapply all_leaves_imp; [|exact HL].
    intros x. destruct x; cbn; try tauto. intros [d Hd']. destruct (registered_one _ _ _ _ Hd') as (e' & He & _). eauto.
  Qed.
  (** the copy that binds names and replaces ports *)
  Lemma instantiate_nodes id (N1 N2 N3 : expr -> Prop) (L : expr -> Prop) e :
    all_nodes N1 e -> all_leaves L e ->
    (forall x, N1 x -> match x with Add l => l <> [] | CVar _ _ | CParam _ _ | PVar _ _ _ _ | PParam _ _ _ _ => False | _ => True end) ->
    (forall x, leaf_kind x -> L x -> match x with
       | Var _ | Param _ => True | PortField p f => exists d, connected (o_network o) id p f = [d]
       | PortAgg (PortField _ _) PortSum => True | _ => False end) ->
    carried (context_adder id) N1 N2 ->
    (forall x x', leaf_kind x -> N1 x -> L x -> copy_with (context_adder id) x = Ok x' -> all_nodes N2 x') ->
    carried (port_resolver id ports) N2 N3 ->
    (forall c n, N2 (CVar c n) -> N3 (CVar c n)) -> (forall c n, N2 (CParam c n) -> N3 (CParam c n)) ->
    N3 (Lit n0) -> (forall n, ~ N2 (Var n)) -> (forall n, ~ N2 (Param n)) ->
    (forall p f d e', L (PortField p f) -> connected (o_network o) id p f = [d] -> add_component_context (fst d) (snd d) = Ok e' -> all_nodes N3 e') ->
    (forall p f d e', L (PortAgg (PortField p f) PortSum) -> In d (connected (o_network o) id p f) ->
       add_component_context (fst d) (snd d) = Ok e' -> all_nodes N3 e') ->
    exists e', instantiate st e id = Ok e' /\ all_nodes N3 e'.
  Proof.
    intros HN HL HN1 HL1 C12 L12 C23 HV HP H0 HnV HnP HPF HPA.
    destruct (proj1 (context_ok_iff id e)) as [e1 E1].
    { split; (eapply all_nodes_imp; [|exact HN]); intros x Hx; specialize (HN1 x Hx); destruct x; auto; try discriminate.
      intros E. injection E as ->. now apply HN1. }
    pose proof (copy_nodes _ _ _ _ e C12 L12 _ HN HL E1) as HN2.
    set (L2 := fun x => match x with
                 | CVar _ _ | CParam _ _ => True
                 | PortField p f => L (PortField p f)
                 | PortAgg (PortField p f) PortSum => L (PortAgg (PortField p f) PortSum)
                 | _ => False end).
    assert (HL2 : all_leaves L2 e1).
    { apply (copy_leaves (context_adder id) (fun x => leaf_kind x /\ L x) L2 e) with (e' := e1); [|exact (all_leaves_and _ _ _ (all_leaves_kind e) HL)|exact E1].
      intros x x' Hk [_ Hl] Ex. pose proof (HL1 x Hk Hl) as HL1x. destruct x; try contradiction; cbn in Ex; try discriminate; try (injection Ex as <-; unfold L2; cbn; auto; fail).
      destruct x; try contradiction. cbn in Ex. injection Ex as <-. cbn [all_leaves]. unfold L2. destruct a; try contradiction. exact Hl. }
    assert (HR2 : all_leaves (resolvable_leaf id) e1).
    { eapply all_leaves_imp; [|exact (all_leaves_and _ _ _ (all_leaves_kind e1) HL2)]. intros x [Hk Hl]. unfold L2 in Hl.
      destruct x; try contradiction; try exact I.
      + exact (HL1 (PortField _ _) I Hl).
      + destruct x; try contradiction. destruct a; [exact I|contradiction]. }
    destruct C23 as (C1 & C2 & C3 & C4 & Crest).
    assert (HE1 : no_empty_sum e1).
    { destruct C12 as (_ & _ & _ & A4 & _). eapply all_nodes_imp; [|exact HN2]. intros x Hx ->. contradiction. }
    destruct (resolvable_resolves id e1 HE1 HR2) as [e2 E2].
    exists e2. unfold instantiate. rewrite E1. cbn [bind]. split; [exact E2|].
    refine (copy_nodes (port_resolver id ports) N2 N3 L2 e1 (conj C1 (conj C2 (conj C3 (conj C4 Crest)))) _ _ HN2 HL2 E2).
    intros x x' Hk Hx Hl Ex. destruct x; try contradiction; cbn in Ex.
    - injection Ex as <-. cbn. auto. - injection Ex as <-. cbn. auto.
    - destruct (HL1 (PortField _ _) I Hl) as [d Hd']. destruct (registered_one _ _ _ _ Hd') as (e' & He & Hc).
      unfold resolve_port_field in Ex. rewrite He in Ex. injection Ex as <-. eauto.
    - unfold L2 in Hl. destruct x; try contradiction. destruct a; try contradiction. cbn in Ex.
      injection Ex as <-. apply sum_nodes; auto. apply Forall_forall. intros y Hy.
      destruct (dget pfk_eqb (id, (p, f)) ports) as [l|] eqn:El; [|contradiction].
      destruct (registered_of _ _ _ _ _ El Hy) as (d & Hd' & Hc). eauto.
  Qed.
  Lemma instantiate_ready id e : all_nodes (ready_node o id) e -> all_leaves (ready_leaf o id) e ->
    exists e', instantiate st e id = Ok e' /\ all_nodes (grounded false o) e'.
  Proof.
    intros HN HL. apply (instantiate_nodes id (ready_node o id) (grounded true o) (grounded false o) (ready_leaf o id) e HN HL).
    - intros x. destruct x; cbn; auto.
    - intros x _. destruct x; cbn; auto.
    - refine (conj _ (conj _ (conj _ (conj _ (conj _ (conj _ (conj _ (conj _ (conj _ (conj _ (conj _ _))))))))))); cbn [ready_node grounded]; auto.
      + intros a k a' k' H1 _ Ek. exact (argument_context _ _ _ _ H1 Ek).
      + intros a k a' k' (H1 & H2 & H3) Ea Ek. split; [exact (argument_context _ _ _ _ H1 Ek)|exact (context_loose _ _ _ H2 H3 Ea)].
      + intros a f t a' f' t' [H1 H2] Ea Ef Et. split; [exact (argument_context _ _ _ _ H1 Ef)|exact (argument_context _ _ _ _ H2 Et)].
    - intros y y' Hk Hy Hl Ey. destruct y; try contradiction; cbn in Ey; try (injection Ey as <-; cbn; auto; fail).
      inv_bind Ey. injection Ey as <-. destruct y; try contradiction. cbn in H. injection H as <-. cbn. auto.
    - refine (conj _ (conj _ (conj _ (conj _ (conj _ (conj _ (conj _ (conj _ (conj _ (conj _ (conj _ _))))))))))); cbn [grounded]; auto.
      + intros a k a' k' H1 _ Ek. exact (argument_resolved _ _ _ _ _ H1 Ek).
      + intros a k a' k' (H1 & H2 & H3) Ea Ek. split; [exact (argument_resolved _ _ _ _ _ H1 Ek)|exact (resolved_loose _ _ _ _ H2 H3 Ea)].
      + intros a f t a' f' t' [H1 H2] Ea Ef Et. split; [exact (argument_resolved _ _ _ _ _ H1 Ef)|exact (argument_resolved _ _ _ _ _ H2 Et)].
    - cbn; auto. - cbn; auto. - cbn; auto. - cbn; auto. - cbn; auto.
    - intros p f d e' _ Hc Ed. destruct (registered_one _ _ _ _ Hc) as (e2 & E2 & Hc2).
      assert (e2 = e') by congruence. subst e2. eapply definition_grounded; [exact E2|now left].
    - intros p f d e' _ Hc Ed.
      destruct (dget pfk_eqb (id, (p, f)) ports) as [l|] eqn:El.
      2:{ pose proof (field_registered id p f) as HF. rewrite El in HF. inversion HF as [E|]. rewrite <- E in Hc. contradiction. }
      apply (definition_grounded id p f l e' El). pose proof (field_registered id p f) as HF. rewrite El in HF. clear El.
      induction HF as [|a b m n H1 H2 IH]; [contradiction|]. destruct Hc as [->|Hc]; [left; congruence|right; auto].
  Qed.

  (** bounds *)
  Definition ground_formula (b : bool) (x : expr) : Prop :=
    match x with
    | Lit _ | Neg _ | Mul _ _ | Div _ _ => True
    | Add l => l <> []
    | CParam c n => has_parameter (fun _ => True) o c n
    | PortField _ _ | PortAgg _ _ => b = true
    | _ => False
    end.
  Lemma ground_carried c b b' : carried c (ground_formula b) (ground_formula b').
  Proof. refine (conj _ (conj _ (conj _ (conj _ (conj _ (conj _ (conj _ (conj _ (conj _ (conj _ (conj _ _))))))))))); cbn; auto; try tauto. Qed.
  Lemma formula_carried c b : carried c formula_node (ground_formula b).
  Proof. refine (conj _ (conj _ (conj _ (conj _ (conj _ (conj _ (conj _ (conj _ (conj _ (conj _ (conj _ _))))))))))); cbn; auto; try tauto. Qed.
  Lemma plain_ground id e e' : plain_formula o id e -> add_component_context id e = Ok e' -> all_nodes (ground_formula false) e'.
  Proof.
    intros [HN HL] E. refine (copy_nodes (context_adder id) formula_node (ground_formula false) _ e (formula_carried _ _) _ _ HN HL E).
    intros x x' Hk Hx Hl Ex. destruct x; try contradiction. cbn in Ex. injection Ex as <-. cbn. auto.
  Qed.
  Lemma instantiate_formula id e : formula o id e -> exists e', instantiate st e id = Ok e' /\ all_nodes (ground_formula false) e'.
  Proof.
    intros [HN HL]. apply (instantiate_nodes id formula_node (ground_formula true) (ground_formula false) (formula_leaf o id) e HN HL).
    - intros x. destruct x; cbn; auto.
    - intros x _. destruct x; cbn; auto. + intros (d & H & _). eauto. + destruct x; auto. destruct a; auto.
    - apply formula_carried.
    - intros x x' Hk Hx Hl Ex. destruct x; try contradiction; cbn in Ex; try (injection Ex as <-; cbn; auto; fail).
      inv_bind Ex. injection Ex as <-. destruct x; try contradiction. cbn in H. injection H as <-. cbn. auto.
    - apply ground_carried.
    - cbn; auto. - cbn; auto. - cbn; auto. - cbn; auto. - cbn; auto.
    - intros p f d e' (d' & Hc' & Hp) Hc Ed. rewrite Hc in Hc'. injection Hc' as <-. exact (plain_ground _ _ _ Hp Ed).
    - intros p f d e' Hl Hc Ed. cbn in Hl. rewrite Forall_forall in Hl. exact (plain_ground _ _ _ (Hl d Hc) Ed).
  Qed.

  (** affine expressions stay so *)
  Lemma context_tame id (pd : string -> string -> bool) e e' : aggregators_on_ports e -> affine pd e -> add_component_context id e = Ok e' ->
    tame pd pd e e'.
  Proof.
    intros HA HF E. refine (copy_tame (context_adder id) pd pd e _ e' HA HF E).
    intros x x' Hk Ha Ex. destruct x; try contradiction; cbn in Ex; try discriminate; try (injection Ex as <-; split; cbn; auto; fail).
    inv_bind Ex. injection Ex as <-. destruct x; try contradiction. cbn in H. injection H as <-. split; cbn; auto.
  Qed.
  Lemma definition_tame c p f d e' : In d (connected (o_network o) c p f) -> add_component_context (fst d) (snd d) = Ok e' ->
    tame none none (snd d) e'.
  Proof.
    intros Hc E. destruct (connected_brought _ _ _ _ Hc) as (k & Hk & Hin).
    destruct (proj1 (proj2 Hready) k f d Hk Hin) as (_ & _ & HF).
    destruct (connected_good (o_network o) c p f d Hg Hc) as (_ & _ & Hnp & _).
    apply (context_tame (fst d)); auto. now apply no_port_aggregators.
  Qed.
  Lemma instantiate_affine id e e' : aggregators_on_ports e -> affine (port_decides (o_network o) id) e ->
    instantiate st e id = Ok e' -> affine none e'.
  Proof.
    intros HA HF E. unfold instantiate in E. inv_bind E.
    destruct (context_tame id _ e v HA HF H) as [HF1 _]. pose proof (context_aggregators _ _ _ HA H) as HA1.
    refine (proj1 (copy_tame (port_resolver id ports) (port_decides (o_network o) id) none v _ e' HA1 HF1 E)).
    assert (HD : forall p f e2, In e2 (match dget pfk_eqb (id, (p, f)) ports with Some l => l | None => [] end) ->
              affine none e2 /\ (decides none e2 = true -> port_decides (o_network o) id p f = true)).
    { intros p f e2 He. destruct (dget pfk_eqb (id, (p, f)) ports) as [l|] eqn:El; [|contradiction].
      destruct (registered_of _ _ _ _ _ El He) as (d & Hc & Ed). destruct (definition_tame _ _ _ _ _ Hc Ed) as [T1 T2].
      split; [exact T1|]. intros H2. unfold port_decides. apply existsb_exists. eauto. }
    intros x x' Hk Ha Ex. destruct x; try contradiction; cbn in Ex; try (injection Ex as <-; split; cbn; auto; fail).
    - specialize (HD p f). unfold resolve_port_field in Ex. destruct (dget pfk_eqb (id, (p, f)) ports) as [[|a [|b l]]|]; try discriminate.
      injection Ex as <-. apply HD. now left.
    - destruct a; [|discriminate]. destruct x; try contradiction. cbn in Ex. injection Ex as <-. specialize (HD p f). split.
      + apply affine_sum. apply Forall_forall. intros y Hy. now apply HD.
      + rewrite decides_sum. intros H2. apply existsb_exists in H2. destruct H2 as (y & Hy & H2). cbn. now apply (HD y Hy).
  Qed.

  (** expansion *)
  Definition chosen_provider : structure_provider := {|
    get_parameter_structure := fun _ => Err RuntimeErr;
    get_variable_structure := fun _ => Err RuntimeErr;
    get_component_variable_structure := fun c n =>
      comp <- get_component (o_network o) c ;;
      match find (fun v => String.eqb (v_name v) n) (get_variables (o_selection o) (co_model comp)) with
      | Some v => Ok (v_structure v) | None => Err KeyError end;
    get_component_parameter_structure := component_structure o m_parameters p_structure
  |}.
  Lemma chosen_of c n ix : get_component_variable_structure chosen_provider c n = Ok ix ->
    exists k v, In k (all_components (o_network o)) /\ co_id k = c /\ In v (get_variables (o_selection o) (co_model k)) /\
      v_name v = n /\ v_structure v = ix.
  Proof.
    cbn. intros E. inv_bind E. destruct (get_component_known _ _ _ Hb H) as [H1 H2].
    destruct (find _ _) as [w|] eqn:Ef; [|discriminate]. injection E as <-. apply find_some in Ef. destruct Ef as [H3 H4].
    apply String.eqb_eq in H4. exists v, w. auto.
  Qed.
  Lemma chosen_known c n : chosen_variable o c n -> is_ok (get_component_variable_structure chosen_provider c n) = true.
  Proof.
    intros (k & v & Hk & <- & Hv & <-). cbn. rewrite (component_found k Hk). cbn [bind].
    destruct (find _ _) as [w|] eqn:Ef; [reflexivity|]. exfalso. apply (find_none _ _ Ef v) in Hv. now rewrite String.eqb_refl in Hv.
  Qed.
  Lemma chosen_below c n ix : get_component_variable_structure chosen_provider c n = Ok ix ->
    get_component_variable_structure (data_structure_provider o) c n = Ok ix.
  Proof.
    intros E. destruct (chosen_of _ _ _ E) as (k & v & Hk & <- & Hv & <- & <-). cbn. apply variable_found; auto.
    unfold get_variables in Hv. apply filter_In in Hv. apply Hv.
  Qed.
  Lemma expand_more d ev sp sp' e :
    (forall c n ix, get_component_variable_structure sp c n = Ok ix -> get_component_variable_structure sp' c n = Ok ix) ->
    (forall c n ix, get_component_parameter_structure sp c n = Ok ix -> get_component_parameter_structure sp' c n = Ok ix) ->
    forall e', expand d ev sp e = Ok e' -> expand d ev sp' e = Ok e'.
  Proof.
    intros HV HP. induction e using expr_ind'; intros e' He; cbn [expand] in He |- *; auto.
    - inv_bind He. rewrite (IHe _ H). exact He.
    - inv_bind He. replace (mapM (expand d ev sp') l) with (Ok v : result (list expr)); [exact He|]. clear He. symmetry.
      revert v H0. induction H as [|a l Ha Hl IH]; intros v Hv; cbn in Hv |- *; [exact Hv|].
      inv_bind Hv. inv_bind Hv. rewrite (Ha _ H), (IH _ H0). exact Hv.
    - inv_bind He. inv_bind He. rewrite (IHe1 _ H), (IHe2 _ H0). exact He.
    - inv_bind He. inv_bind He. rewrite (IHe1 _ H), (IHe2 _ H0). exact He.
    - inv_bind He. inv_bind He. rewrite (IHe1 _ H), (IHe2 _ H0). exact He.
    - inv_bind He. rewrite (HV _ _ _ H). exact He.
    - inv_bind He. rewrite (HP _ _ _ H). exact He.
    - inv_bind He. inv_bind He. rewrite H. cbn [bind]. rewrite (IHe1 _ H0). exact He.
    - inv_bind He. inv_bind He. rewrite H. cbn [bind]. rewrite (IHe1 _ H0). exact He.
    - inv_bind He. inv_bind He. inv_bind He. rewrite H, H0. cbn [bind]. rewrite (IHe1 _ H1). exact He.
    - inv_bind He. rewrite (IHe _ H). exact He.
    - destruct o0; auto. inv_bind He. rewrite (IHe _ H). exact He.
    - inv_bind He. rewrite (IHe _ H). exact He.
  Qed.
  Lemma expands e : all_nodes (grounded false o) e ->
    exists ex, context_expand o e = Ok ex /\ no_empty_sum ex /\ expanded chosen_provider ex /\
      all_names_known (data_structure_provider o) e /\ component_names_only e.
  Proof.
    intros HN.
    assert (HE : expandable (evaluate_time_bound o) chosen_provider e).
    { eapply all_nodes_imp; [|exact HN]. intros x. destruct x; cbn [grounded]; try tauto; try discriminate.
      - destruct l; tauto.
      - apply chosen_known.
      - intros (k & p & Hk & <- & Hp & <- & _). cbn. now rewrite (parameter_found k p Hk Hp).
      - intros Ha. destruct (argument_evaluates _ Ha) as [z ->]. reflexivity.
      - intros (Ha & Hn & _). destruct (argument_evaluates _ Ha) as [z ->]. auto.
      - intros (Ha & Hb'). destruct (argument_evaluates _ Ha) as [z ->]. destruct (argument_evaluates _ Hb') as [z' ->]. auto. }
    assert (HC : component_names_only e).
    { eapply all_nodes_imp; [|exact HN]. intros x. destruct x; cbn; try tauto; try discriminate. }
    destruct (expand_ok {| timesteps_count := block_length o; scenarios_count := o_scenarios o |} _ _ _ HE) as (ex & Hex & Hne).
    exists ex. split; [|split; [exact Hne|split; [|split; [|exact HC]]]].
    - unfold context_expand, expand_operators. eapply expand_more; [exact chosen_below| |exact Hex]. auto.
    - eapply expand_expanded; eauto.
    - eapply all_nodes_imp; [|exact HN]. intros x. destruct x; cbn [grounded]; try tauto; try discriminate.
      + intros (k & v & Hk & <- & Hv & <-). cbn. rewrite (variable_found k v Hk); [reflexivity|].
        unfold get_variables in Hv. apply filter_In in Hv. apply Hv.
      + intros (k & p & Hk & <- & Hp & <- & _). cbn. now rewrite (parameter_found k p Hk Hp).
  Qed.
  Lemma affine_arithmetic sp e : expanded sp e -> no_empty_sum e -> affine none e -> indexed_arithmetic e.
  Proof.
    unfold expanded, no_empty_sum, indexed_arithmetic. induction e using expr_ind'; intros HX HE HF;
      try (apply all_nodes_root in HX; contradiction); try contradiction; try (cbn; tauto).
    - cbn [all_nodes affine] in *. split; [exact I|]. apply IHe; tauto.
    - apply all_nodes_Add in HX, HE. destruct HX as [_ HX], HE as [Hne HE]. apply affine_Add in HF.
      apply all_nodes_Add. split; [congruence|]. rewrite Forall_forall in *. auto.
    - cbn [all_nodes affine] in *. split; [exact I|]. split; [apply IHe1|apply IHe2]; tauto.
    - cbn [all_nodes affine] in *. split; [exact I|]. split; [apply IHe1|apply IHe2]; tauto.
  Qed.
  (** linear forms *)
  Lemma structure_parameter c n ix : component_structure o m_parameters p_structure c n = Ok ix ->
    exists k p, In k (all_components (o_network o)) /\ co_id k = c /\ In p (map snd (m_parameters (co_model k))) /\
      p_name p = n /\ p_structure p = ix.
  Proof.
    unfold component_structure. intros E. inv_bind E. destruct (get_component_known _ _ _ Hb H) as [H1 H2].
    destruct (dget String.eqb n (m_parameters (co_model v))) as [p|] eqn:Ed; [|discriminate]. injection E as <-.
    apply (dget_In String.eqb String.eqb_eq) in Ed. exists v, p. split; [exact H1|]. split; [exact H2|].
    split; [apply in_map_iff; exists (n, p); auto|]. split; [|reflexivity].
    destruct (Hm v H1) as ((_ & _ & [_ HN] & _) & _). exact (HN _ _ Ed).
  Qed.
  Definition fixes (o1 : option Z) (z : Z) (varies : bool) : Prop := o1 = Some z \/ (o1 = None /\ varies = false).
  Lemma fixes_timestep ot t vt ti : fixes ot t vt -> (vt = false -> forall k, ti <> TimeShift k) ->
    exists k, get_timestep ot ti = Ok k /\ (ti <> NoTimeIndex -> k = Some (at_time ti t)) /\ (ti = NoTimeIndex -> k = None).
  Proof.
    intros Hf0 Hv. destruct ti as [|k|k]; cbn.
    - eexists; split; [reflexivity|]. split; congruence.
    - destruct Hf0 as [->|[-> E]]; [|exfalso; eapply Hv; eauto]. eexists; split; [reflexivity|]. split; [reflexivity|discriminate].
    - eexists; split; [reflexivity|]. split; [reflexivity|discriminate].
  Qed.
  Lemma fixes_scenario os s vs si : fixes os s vs -> (vs = false -> si <> CurrentScenarioIndex) ->
    (si <> NoScenarioIndex -> get_scenario os si = Some (at_scenario si s)) /\ (si = NoScenarioIndex -> get_scenario os si = None).
  Proof.
    intros Hf0 Hv. destruct si; cbn; (split; [|congruence]); intros H; try congruence.
    destruct Hf0 as [->|[-> E]]; [reflexivity|]. now apply Hv in E.
  Qed.
  Definition created (st' : state) : Prop :=
    st_variables st' = combine (map inst_key (var_insts o)) (seq 0 (List.length (var_insts o))).
  Lemma instance_read st' k v t s : created st' -> instance_of o k v (wrapped o t) s ->
    exists i, get_component_variable o st' t s (co_id k) (v_name v) = Ok i.
  Proof.
    intros Hc Hi. apply var_insts_In in Hi. apply In_nth_error in Hi. destruct Hi as [i Hi]. exists i.
    apply lookup_iff; auto.
    - intros c Hin. apply (Hm c Hin).
    - apply nth_inst. exists k, v. auto.
  Qed.
  Lemma linearizes id e ot os t s : good_expression e -> ready_expression o id e ->
    (0 <= t < Z.of_nat (List.length (o_block o)))%Z -> (0 <= s < o_scenarios o)%Z ->
    fixes ot t (varies_in_time (o_network o) id e) -> fixes os s (varies_in_scenario (o_network o) id e) ->
    exists e' ex L, instantiate st e id = Ok e' /\ all_nodes (grounded false o) e' /\ context_expand o e' = Ok ex /\
      context_linearize o ex ot os = Ok L /\
      forall st', created st' -> Forall (fun kt => exists i, get_solver_var o st' (fst kt) = Ok i) (le_terms L).
  Proof.
    intros He (HN & HL & HF & HV) Ht Hs Hot Hos.
    destruct (instantiate_ready id e HN HL) as (e' & E' & HG).
    destruct (expands e' HG) as (ex & Ex & Hne & Hch & Hkn & Hcn).
    destruct (HV t s Ht Hs) as (x & Hx & Hden). destruct He as (He1 & Hagg & He3 & He4).
    destruct (expanded_meaning o st Hgood ready_requirements Hr id e e' ex (conj He1 (conj Hagg (conj He3 He4))) E' Ex) as (Hfin & _ & _ & Hmean).
    destruct (Hmean x Hx) as [_ Hd2].
    assert (Hsp : expanded (data_structure_provider o) ex) by (eapply expand_expanded; eauto).
    pose proof (instantiate_affine id e e' Hagg HF E') as HA.
    destruct (expand_tame _ _ _ _ Hcn HA _ Ex) as [HAx _].
    pose proof (affine_arithmetic _ _ Hch Hne HAx) as HI.
    pose proof (expand_index_ok _ _ _ _ Hcn _ Ex) as Hix.
    assert (Vt : varies ix_time true false (data_structure_provider o) none e' = varies_in_time (o_network o) id e)
      by (apply (instantiate_varies o st ix_time true false Hb Hg Hr id e e' Hagg E')).
    assert (Vs : varies ix_scenario false true (data_structure_provider o) none e' = varies_in_scenario (o_network o) id e)
      by (apply (instantiate_varies o st ix_scenario false true Hb Hg Hr id e e' Hagg E')).
    rewrite Vt, Vs in Hix. cbn [scenarios_count] in Hix.
    destruct (den (component_world o x id) e t s) as [q|] eqn:Eq; [|contradiction].
    destruct (lin_build_succeeds (world o x) t s ot os (fun c n t s => parameter_value o t s c n) ex) with (v := q) as [D HD]; auto.
    - destruct Hot as [->|[-> _]]; auto.
    - destruct Hos as [->|[-> _]]; auto.
    - now apply getter_world.
    - eapply all_nodes_imp; [|exact (all_nodes_and _ _ _ Hix Hsp)]. intros y. destruct y; cbn; auto.
      + intros [(I1 & _) _]. destruct (fixes_timestep _ _ _ ti Hot I1) as (k & Hk & _). eauto.
      + intros [(I1 & I2 & I3) (ix & Hst & Hti & Hsi)] r Hr'.
        destruct (fixes_timestep _ _ _ ti Hot I1) as (k & Hk & K1 & K2). exists k, (Fin r). split; [exact Hk|].
        destruct (structure_parameter _ _ _ Hst) as (c0 & p0 & Hc & Hid & Hp & Hn & <-).
        destruct (fixes_scenario _ _ _ si Hos I2) as [S1 S2].
        eapply parameter_read; eauto.
        * intros E. unfold time_indexed in Hti. rewrite E in Hti. auto.
        * intros E. unfold scenario_indexed in Hsi. rewrite E in Hsi. auto.
    - rewrite Hd2. exact Eq.
    - assert (HLin : exists L, context_linearize o ex ot os = Ok L).
      { unfold context_linearize, linearize_expression.
        match goal with |- context [bind ?X] => assert (HX : X = Ok D) by exact HD end. rewrite HX. eexists; reflexivity. }
      destruct HLin as [L HLin]. exists e', ex, L. split; [exact E'|]. split; [exact HG|]. split; [exact Ex|]. split; [exact HLin|].
      intros st' Hc. apply (linearize_keys (fun k => exists i, get_solver_var o st' k = Ok i) _ _ _ _ _ HLin).
      eapply all_nodes_imp; [|exact (all_nodes_and _ _ _ Hix Hch)]. intros y. destruct y; auto.
      intros [(I1 & I2 & I3) (ix & Hst & Hti & Hsi)] k Hk. unfold get_solver_var. cbn [tk_time tk_scenario tk_component tk_variable].
      destruct (chosen_of _ _ _ Hst) as (c0 & v0 & Hcc & <- & Hv & <- & <-).
      destruct (fixes_timestep _ _ _ ti Hot I1) as (k' & Hk' & K1 & K2). assert (k' = k) by congruence. subst k'.
      destruct (fixes_scenario _ _ _ si Hos I2) as [S1 S2].
      apply instance_read; auto. split; [exact Hcc|]. split; [exact Hv|]. split.
      + unfold time_indexed in Hti. destruct (ix_time (v_structure v0)).
        * rewrite (K1 Hti). cbn. split; [reflexivity|]. apply Z.mod_pos_bound. lia.
        * rewrite (K2 Hti). reflexivity.
      + unfold scenario_indexed in Hsi. destruct (ix_scenario (v_structure v0)).
        * rewrite (S1 Hsi). cbn. split; [reflexivity|]. destruct si; cbn; [congruence|exact Hs|now apply I3].
        * rewrite (S2 Hsi). reflexivity.
  Qed.
  (** bounds of constraints *)
  Lemma ground_degree e : all_nodes (ground_formula false) e -> compute_degree e = Ok 0%nat.
  Proof.
    induction e using expr_ind'; intros HN; try (apply all_nodes_root in HN; contradiction); try (apply all_nodes_root in HN; discriminate); cbn [compute_degree].
    - reflexivity.
    - apply IHe. apply HN.
    - apply all_nodes_Add in HN. destruct HN as [Hne HN]. cbn [ground_formula] in Hne.
      assert (HM : mapM compute_degree l = Ok (map (fun _ => 0%nat) l)).
      { clear Hne. induction H as [|a l Ha Hl IH]; [reflexivity|]. inversion HN; subst. cbn. rewrite (Ha H1), (IH H2). reflexivity. }
      rewrite HM. cbn [bind]. destruct l as [|a l]; [contradiction|]. cbn. f_equal. clear. induction l as [|b l IH]; cbn; auto.
    - cbn [all_nodes] in HN. rewrite IHe1, IHe2 by tauto. reflexivity.
    - cbn [all_nodes] in HN. rewrite IHe1, IHe2 by tauto. reflexivity.
    - reflexivity.
  Qed.
  Lemma ground_constant e : all_nodes (ground_formula false) e -> is_constant e = Ok true.
  Proof. intros H. unfold is_constant. rewrite (ground_degree e H). reflexivity. Qed.
  Lemma finite_bounded e : finite_literals e -> is_unbounded e = false.
  Proof. intros H. apply all_nodes_root in H. destruct e as [[]| | | | | | | | | | | | | | | | | |]; try reflexivity; contradiction. Qed.
  Lemma formula_value e x t s ot os q : all_nodes (ground_formula false) e -> finite_literals e ->
    all_nodes (fun y => match y with CParam c n => forall ix, component_structure o m_parameters p_structure c n = Ok ix ->
       (ix_time ix = true -> ot = Some t) /\ (ix_scenario ix = true -> os = Some s) | _ => True end) e ->
    odefault t ot = t -> odefault s os = s ->
    den (world o x) e t s = Some q -> compute_expression_value o e ot os = Ok (Fin q).
  Proof.
    intros HN HF HI Et Es Hq. unfold compute_expression_value.
    apply (evaluate_succeeds (make_value_provider o ot os) (world o x) t s e); auto.
    - rewrite <- Et, <- Es. now apply provider_world.
    - eapply all_nodes_imp; [|exact (all_nodes_and _ _ _ HN HI)]. intros y. destruct y; cbn; try tauto; try (intros [? _]; discriminate).
      intros [(k & p & Hk & <- & Hp & <- & _) Hi] r Hr'. exists (Fin r). destruct (Hi _ (parameter_found k p Hk Hp)) as [I1 I2].
      eapply parameter_read; eauto.
  Qed.
  Lemma some_time : (0 <= 0 < Z.of_nat (List.length (o_block o)))%Z.
  Proof. pose proof (block_length_pos o Hu). unfold block_length in *. lia. Qed.
  Lemma row_bound id inf e : inf = NInf \/ inf = PInf -> good_bound inf e -> ready_bound o id inf e ->
    exists e', instantiate st e id = Ok e' /\ is_constant e' = Ok true /\ (is_unbounded e' = false \/ e' = Lit inf) /\
    forall t s, (0 <= t < Z.of_nat (List.length (o_block o)))%Z -> (0 <= s < o_scenarios o)%Z ->
      exists v, compute_expression_value o e' (Some t) (Some s) = Ok v.
  Proof.
    intros Hinf Hgb Hrb.
    assert (HLit : e = Lit inf -> exists e', instantiate st e id = Ok e' /\ is_constant e' = Ok true /\ (is_unbounded e' = false \/ e' = Lit inf) /\
      forall t s, (0 <= t < Z.of_nat (List.length (o_block o)))%Z -> (0 <= s < o_scenarios o)%Z ->
      exists v, compute_expression_value o e' (Some t) (Some s) = Ok v).
    { intros ->. exists (Lit inf). split; [reflexivity|]. split; [reflexivity|]. split; [now right|].
      intros t s _ _. exists inf. reflexivity. }
    destruct Hrb as [E|[HF HV]]; [exact (HLit E)|]. destruct Hgb as [E|[Hfin Hagg]]; [exact (HLit E)|].
    destruct (instantiate_formula id e HF) as (e' & E' & HG). exists e'. split; [exact E'|]. split; [now apply ground_constant|].
    assert (Hf' : finite_literals e') by (exact (instantiate_finite o st Hb Hg Hr id e e' Hagg Hfin E')).
    split; [left; now apply finite_bounded|].
    intros t s Ht Hs. destruct (HV t s Ht Hs) as (x & Hx & Hden).
    destruct (den (component_world o x id) e t s) as [q|] eqn:Eq; [|contradiction]. exists (Fin q).
    apply (formula_value e' x t s); auto.
    - eapply all_nodes_imp; [|exact HG]. intros y. destruct y; auto.
    - rewrite <- Eq. apply (instantiate_den o st Hb Hg Hr x id e e' Hagg E').
  Qed.
  (** bounds of variables *)
  Lemma varies_parameters dim ft fs sp e : all_nodes (ground_formula false) e -> varies dim ft fs sp none e = false ->
    all_nodes (fun y => match y with CParam c n => may_vary dim (get_component_parameter_structure sp c n) = false | _ => True end) e.
  Proof.
    induction e using expr_ind'; intros HN HV; try (apply all_nodes_root in HN; contradiction); try (apply all_nodes_root in HN; discriminate).
    - cbn; auto.
    - cbn [all_nodes varies] in *. split; [exact I|]. apply IHe; tauto.
    - apply all_nodes_Add in HN. destruct HN as [_ HN]. apply all_nodes_Add. split; [exact I|].
      rewrite Forall_forall in *. intros y Hy. apply H; auto. destruct (varies dim ft fs sp none y) eqn:E; auto.
      rewrite <- HV. symmetry. cbn. apply existsb_exists. eauto.
    - cbn [all_nodes varies] in *. apply orb_false_iff in HV. split; [exact I|]. split; [apply IHe1|apply IHe2]; tauto.
    - cbn [all_nodes varies] in *. apply orb_false_iff in HV. split; [exact I|]. split; [apply IHe1|apply IHe2]; tauto.
    - cbn [all_nodes varies] in *. auto.
  Qed.
  Lemma formula_aggregators id e : formula o id e -> aggregators_on_ports e.
  Proof.
    intros [HN HL]. unfold aggregators_on_ports. revert HN HL. induction e using expr_ind'; intros HN HL; try (apply all_nodes_root in HN; contradiction); try (cbn; tauto).
    - cbn [all_nodes all_leaves] in *. split; [exact I|]. apply IHe; tauto.
    - apply all_nodes_Add in HN. destruct HN as [_ HN]. cbn [all_leaves] in HL. apply fold_and_Forall in HL. apply all_nodes_Add. split; [exact I|].
      rewrite Forall_forall in *. auto.
    - cbn [all_nodes all_leaves] in *. split; [exact I|]. split; [apply IHe1|apply IHe2]; tauto.
    - cbn [all_nodes all_leaves] in *. split; [exact I|]. split; [apply IHe1|apply IHe2]; tauto.
    - cbn [all_leaves formula_leaf] in HL. destruct e; try contradiction. cbn. auto.
  Qed.
  Lemma variable_bound id v b default : ready_variable_bound o id v b ->
    exists be, instantiate_bound st b id = Ok be /\
    forall t s w, index_of (ix_time (v_structure v)) (Z.of_nat (List.length (o_block o))) t ->
      index_of (ix_scenario (v_structure v)) (o_scenarios o) s ->
      bound_reads o id default b t s w -> bound_value o default be t s = Ok w.
  Proof.
    intros Hrb. destruct b as [e|]; cbn [instantiate_bound].
    2:{ exists None. split; [reflexivity|]. intros t s w _ _ ->. reflexivity. }
    destruct (Hrb e eq_refl) as [(w & -> & _)|(Hfin & HF & HVt & HVs)].
    { exists (Some (Lit w)). split; [reflexivity|]. intros t s w' _ _ ->. reflexivity. }
    pose proof (formula_aggregators id e HF) as Hagg.
    destruct (instantiate_formula id e HF) as (e' & E' & HG). rewrite E'. exists (Some e'). split; [reflexivity|].
    intros t s w Ht Hs Hw. cbn [bound_value].
    assert (Hf' : finite_literals e') by (exact (instantiate_finite o st Hb Hg Hr id e e' Hagg Hfin E')).
    assert (Hq : exists q x, w = Fin q /\ den (component_world o x id) e (odefault 0%Z t) (odefault 0%Z s) = Some q).
    { destruct e; try exact Hw. cbn in Hw. subst w. apply all_nodes_root in Hfin. destruct v0; try contradiction.
      eexists. exists (fun _ _ _ _ => 0%Qc). split; reflexivity. }
    destruct Hq as (q & x & -> & Hq).
    apply (formula_value e' x (odefault 0%Z t) (odefault 0%Z s)); auto.
    - assert (Vt : varies ix_time true false (data_structure_provider o) none e' = varies_in_time (o_network o) id e)
        by (apply (instantiate_varies o st ix_time true false Hb Hg Hr id e e' Hagg E')).
      assert (Vs : varies ix_scenario false true (data_structure_provider o) none e' = varies_in_scenario (o_network o) id e)
        by (apply (instantiate_varies o st ix_scenario false true Hb Hg Hr id e e' Hagg E')).
      assert (H1 : t = None -> all_nodes (fun y => match y with CParam c n => may_vary ix_time (get_component_parameter_structure (data_structure_provider o) c n) = false | _ => True end) e').
      { intros ->. cbn in Ht. apply (varies_parameters ix_time true false); auto. rewrite Vt.
        destruct (varies_in_time _ _ _); auto. rewrite HVt in Ht by reflexivity. discriminate. }
      assert (H2 : s = None -> all_nodes (fun y => match y with CParam c n => may_vary ix_scenario (get_component_parameter_structure (data_structure_provider o) c n) = false | _ => True end) e').
      { intros ->. cbn in Hs. apply (varies_parameters ix_scenario false true); auto. rewrite Vs.
        destruct (varies_in_scenario _ _ _); auto. rewrite HVs in Hs by reflexivity. discriminate. }
      assert (H1' : all_nodes (fun y => match y with CParam c n => t = None -> may_vary ix_time (get_component_parameter_structure (data_structure_provider o) c n) = false | _ => True end) e').
      { destruct t; [|eapply all_nodes_imp; [|exact (H1 eq_refl)]; intros y; destruct y; auto].
        eapply all_nodes_imp; [|exact HG]. intros y; destruct y; auto; discriminate. }
      assert (H2' : all_nodes (fun y => match y with CParam c n => s = None -> may_vary ix_scenario (get_component_parameter_structure (data_structure_provider o) c n) = false | _ => True end) e').
      { destruct s; [|eapply all_nodes_imp; [|exact (H2 eq_refl)]; intros y; destruct y; auto].
        eapply all_nodes_imp; [|exact HG]. intros y; destruct y; auto; discriminate. }
      eapply all_nodes_imp; [|exact (all_nodes_and _ _ _ H1' H2')]. intros y. destruct y; auto. intros [A B] ix Hix.
      cbn [data_structure_provider get_component_parameter_structure] in A, B. rewrite Hix in A, B. cbn [may_vary] in A, B.
      split; intros Hi; [destruct t; [reflexivity|]|destruct s; [reflexivity|]]; [rewrite A in Hi by reflexivity|rewrite B in Hi by reflexivity]; discriminate.
    - destruct t; reflexivity.
    - destruct s; reflexivity.
    - rewrite <- Hq. apply (instantiate_den o st Hb Hg Hr x id e e' Hagg E').
  Qed.
  End Stage.

  (** ** The whole construction *)
  Lemma foldM_ok {A B} (f : B -> A -> result B) (J : B -> Prop) l :
    (forall acc a, In a l -> J acc -> exists acc', f acc a = Ok acc' /\ J acc') ->
    forall acc, J acc -> exists acc', foldM f acc l = Ok acc' /\ J acc'.
  Proof.
    induction l as [|a l IH]; intros H acc Hj; cbn [foldM]; [eauto|].
    destruct (H acc a (or_introl eq_refl) Hj) as (acc1 & E & Hj1). rewrite E. cbn [bind]. apply IH; auto. intros acc2 b Hb' Hj2.
    apply H; [now right|exact Hj2].
  Qed.
  Lemma le_not_lt lo hi : num_le lo hi -> nltb hi lo = false.
  Proof.
    unfold nltb. destruct lo as [p| | |], hi as [q| | |]; cbn; try tauto; try reflexivity. intros H.
    destruct (Qcleb q p) eqn:E; [|reflexivity]. apply Qcleb_le in E. cbn. rewrite (Qcle_antisym _ _ E H).
    rewrite (proj2 (Qceqb_eq p p) eq_refl). reflexivity.
  Qed.
  Lemma variables_created st : register_connections o = Ok (st_ports st) ->
    exists st', create_variables o st = Ok st' /\ st_ports st' = st_ports st.
  Proof.
    intros Hr. unfold create_variables. apply (foldM_ok _ (fun st' => st_ports st' = st_ports st)); [|reflexivity].
    intros st1 c Hc Hp1. apply foldM_ok; [|exact Hp1]. intros st2 v Hv Hp2.
    destruct (proj1 (proj2 (proj2 Hready)) c v Hc Hv) as (B1 & B2 & HB).
    assert (Hr2 : register_connections o = Ok (st_ports st2)) by (rewrite Hp2; exact Hr).
    destruct (variable_bound st2 Hr2 (co_id c) v (v_lower v) NInf B1) as (lbe & L1 & L2).
    destruct (variable_bound st2 Hr2 (co_id c) v (v_upper v) PInf B2) as (ube & U1 & U2).
    unfold create_variable. rewrite L1. cbn [bind]. rewrite U1. cbn [bind].
    apply foldM_ok; [|exact Hp2]. intros st3 [t s] Hts Hp3. apply variable_instances_In in Hts. destruct Hts as [Ht Hs].
    destruct (HB t s) as (lo & hi & Blo & Bhi & Hle); [split; [exact Hc|split; [exact Hv|split; assumption]]|].
    unfold create_variable_instance. rewrite (L2 _ _ _ Ht Hs Blo). cbn [bind]. rewrite (U2 _ _ _ Ht Hs Bhi). cbn [bind].
    rewrite (le_not_lt _ _ Hle). eexists; split; [reflexivity|]. cbn. exact Hp3.
  Qed.
  (** every solver variable is described *)
  Definition described (st : state) : Prop :=
    forall sv, In sv (s_vars (st_solver st)) -> In (sv_name sv) (map fst (st_infos st)).
  Lemma dset_key_in {K A} (eqb : K -> K -> bool) (Heq : forall a b, eqb a b = true <-> a = b) k (a : A) d x :
    In x (map fst (dset eqb k a d)) <-> x = k \/ In x (map fst d).
  Proof.
    induction d as [|[k' a'] d IH]; cbn; [split; [intros [->|[]]; now left|intros [->|[]]; now left]|].
    destruct (eqb k k') eqn:E; cbn.
    - apply Heq in E. subst k'. split; [intros [->|H]; auto|intros [->|[->|H]]; auto].
    - rewrite IH. split; [intros [->|[->|H]]; auto|intros [->|[->|H]]; auto].
  Qed.
  Lemma add_all_described l : forall st, NoDup (map fst (st_variables st) ++ map (fun p => inst_key (fst p)) l) ->
    described st -> described (fold_left add_one l st).
  Proof.
    induction l as [|p l IH]; intros st HN HD; cbn [fold_left]; [exact HD|].
    destruct p as [[[c v] [t s]] sv]. apply IH.
    - cbn. rewrite (OptimFacts.dset_new tk_eqb tk_eqb_eq).
      + rewrite map_app, <- app_assoc. exact HN.
      + intros Hin. apply NoDup_remove in HN. apply (proj2 HN). apply in_or_app. left. exact Hin.
    - intros sv' Hsv'. cbn in Hsv' |- *. cbn [map inst_key fst] in HN.
      match goal with |- context [dmem tk_eqb ?k ?d] => destruct (dmem tk_eqb k d) eqn:Ed end.
      + exfalso. apply (dmem_In tk_eqb tk_eqb_eq) in Ed. apply NoDup_remove in HN. apply (proj2 HN). apply in_or_app. left. exact Ed.
      + apply (dset_key_in String.eqb String.eqb_eq). apply in_app_or in Hsv'. destruct Hsv' as [H|[<-|[]]]; [right; now apply HD|now left].
  Qed.
  Definition complete_state (ports : dict port_field_key (list expr)) (st : state) : Prop :=
    created st /\ described st /\ st_ports st = ports /\ List.length (s_vars (st_solver st)) = List.length (var_insts o).
  Lemma named : named_network (o_network o).
  Proof. intros c Hc. apply (Hm c Hc). Qed.
  Lemma variables_complete ports st' : create_variables o (set_ports initial_state ports) = Ok st' -> complete_state ports st'.
  Proof.
    intros H. destruct (created_state o (set_ports initial_state ports) st' Hd named eq_refl eq_refl H) as (H1 & H2 & H3 & _).
    split; [exact H1|]. split; [|split; [exact H3|symmetry; exact (Forall2_len _ _ _ H2)]].
    destruct (create_variables_spec _ _ _ H) as (svs & HF & ->). apply add_all_described.
    - cbn [set_ports st_variables initial_state map app]. pose proof (Forall2_len _ _ _ HF) as Hlen.
      destruct (combine_map_fst _ _ Hlen) as [C1 _].
      replace (map (fun p : inst * solver_var => inst_key (fst p)) (combine (var_insts o) svs)) with (map inst_key (var_insts o))
        by (rewrite <- C1 at 1; now rewrite map_map).
      apply keys_nodup; [exact Hd|exact named].
    - intros sv [].
  Qed.
  Lemma range_time ix t : In t (get_time_indices o ix) -> (0 <= t < Z.of_nat (List.length (o_block o)))%Z.
  Proof.
    pose proof some_time. unfold get_time_indices, block_length. destruct (ix_time ix); intros H'; apply zrange_In in H'; lia.
  Qed.
  Lemma range_scenario ix s : In s (get_scenario_indices o ix) -> (0 <= s < o_scenarios o)%Z.
  Proof. unfold get_scenario_indices. destruct (ix_scenario ix); intros H'; apply zrange_In in H'; lia. Qed.
  Lemma mapM_all {A B} (f : A -> result B) l : (forall a, In a l -> exists b, f a = Ok b) -> exists m, mapM f l = Ok m.
  Proof.
    intros H. destruct (mapM_ok_Forall f (fun _ => True) l) as (m & Em & _); [|eauto]. intros a Ha. destruct (H a Ha) as [b Eb]. eauto.
  Qed.
  Lemma constraint_created ports st c k : register_connections o = Ok ports -> complete_state ports st ->
    In c (all_components (o_network o)) -> In k (get_constraints (o_selection o) (co_model c)) ->
    exists st', create_component_constraint o (co_id c) st k = Ok st' /\ complete_state ports st'.
  Proof.
    intros Hr (C1 & C2 & C3 & C4) Hc Hk. subst ports.
    destruct (proj1 (proj2 (proj2 (proj2 Hready))) c k Hc Hk) as (He & Hlb & Hub).
    assert (Hgk : good_constraint k).
    { apply (Hm c Hc). unfold get_constraints in Hk. apply filter_In in Hk. apply Hk. }
    destruct Hgk as (Ge & Glb & Gub).
    destruct (row_bound st Hr (co_id c) NInf (c_lower k) (or_introl eq_refl) Glb Hlb) as (lb & L1 & L2 & L3 & L4).
    destruct (row_bound st Hr (co_id c) PInf (c_upper k) (or_intror eq_refl) Gub Hub) as (ub & U1 & U2 & U3 & U4).
    destruct (instantiate_ready st Hr (co_id c) (c_expr k) (proj1 He) (proj1 (proj2 He))) as (e' & E' & HG).
    destruct (expands e' HG) as (ex & Ex & _ & _ & Hkn & _).
    assert (HI : instantiate_constraint st (co_id c) k = Ok {| c_name := co_id c ++ "_" ++ c_name k; c_expr := e'; c_lower := lb; c_upper := ub; c_context := OPERATIONAL |}).
    { unfold instantiate_constraint. rewrite E'. cbn [bind]. rewrite L1. cbn [bind]. rewrite U1. cbn [bind].
      assert (HC : forall a b c', e' <> Cmp a b c') by (intros a b c' ->; apply all_nodes_root in HG; contradiction).
      assert (HLB : is_unbounded lb && is_non_negative lb = false) by (destruct L3 as [->| ->]; reflexivity).
      assert (HUB : is_unbounded ub && negb (is_non_negative ub) = false) by (destruct U3 as [->| ->]; reflexivity).
      unfold mk_constraint. destruct e'; try (rewrite L2; cbn [bind negb]; rewrite U2; cbn [bind negb]; rewrite HLB, HUB; reflexivity).
      exfalso. eapply HC; reflexivity. }
    assert (HR : exists rows, create_constraint o st {| c_name := co_id c ++ "_" ++ c_name k; c_expr := e'; c_lower := lb; c_upper := ub; c_context := OPERATIONAL |} = Ok rows).
    { unfold create_constraint, constraint_indexing, context_indexing. cbn [c_expr]. rewrite Ex. cbn [bind].
      rewrite (indexation_exact _ _ Hkn). cbn [bind]. apply mapM_all. intros [t s] Hts. apply in_prod_iff in Hts. destruct Hts as [Ht Hs].
      apply range_time in Ht. apply range_scenario in Hs. cbn [fst snd].
      destruct (linearizes st Hr (co_id c) (c_expr k) (Some t) (Some s) t s Ge He Ht Hs (or_introl eq_refl) (or_introl eq_refl))
        as (e2 & ex2 & L & E2 & _ & Ex2 & HL & HT).
      assert (e2 = e') by congruence. subst e2. assert (ex2 = ex) by congruence. subst ex2.
      unfold create_row. rewrite HL. cbn [bind c_lower c_upper c_name]. destruct (L4 t s Ht Hs) as [v1 V1]. destruct (U4 t s Ht Hs) as [v2 V2].
      rewrite V1. cbn [bind]. rewrite V2. cbn [bind]. apply make_constraint_ok. exact (HT st C1). }
    destruct HR as [rows HR]. unfold create_component_constraint. rewrite HI. cbn [bind]. rewrite HR. cbn [bind].
    eexists; split; [reflexivity|]. split; [exact C1|]. split; [exact C2|]. split; [reflexivity|exact C4].
  Qed.
  Lemma constraints_created ports st : register_connections o = Ok ports -> complete_state ports st ->
    exists st', create_constraints o st = Ok st' /\ complete_state ports st'.
  Proof.
    intros Hr HC. unfold create_constraints. apply foldM_ok; [|exact HC]. intros st1 c Hc H1. apply foldM_ok; [|exact H1].
    intros st2 k Hk H2. eapply constraint_created; eauto.
  Qed.
  Lemma objective_term ports st kt : complete_state ports st -> (exists i, get_solver_var o st (fst kt) = Ok i) ->
    exists st', add_objective_term o st kt = Ok st' /\ complete_state ports st'.
  Proof.
    intros (C1 & C2 & C3 & C4) [i Hi]. unfold add_objective_term. rewrite Hi. cbn [bind].
    assert (Hn : exists sv, nth_error (s_vars (st_solver st)) i = Some sv).
    { unfold get_solver_var in Hi. apply lookup_iff in Hi; auto using named.
      assert (Hlt : (i < List.length (var_insts o))%nat).
      { rewrite <- (map_length inst_key). apply nth_error_Some. congruence. }
      rewrite <- C4 in Hlt. apply nth_error_Some in Hlt. destruct (nth_error (s_vars (st_solver st)) i); [eauto|contradiction]. }
    destruct Hn as [sv Hsv]. rewrite Hsv. cbn [bind].
    assert (HM : exists infos, mark_in_objective (sv_name sv) (st_infos st) = Ok infos /\ forall n, In n (map fst (st_infos st)) -> In n (map fst infos)).
    { unfold mark_in_objective. destruct (dget String.eqb (sv_name sv) (st_infos st)) as [vi|] eqn:Ed.
      - eexists; split; [reflexivity|]. intros n Hin. apply (dset_key_in String.eqb String.eqb_eq). now right.
      - exfalso. apply (dget_None String.eqb String.eqb_eq) in Ed. apply Ed. apply C2. eapply nth_error_In; eauto. }
    destruct HM as (infos & HM & Hkeys). rewrite HM. cbn [bind]. eexists; split; [reflexivity|].
    split; [exact C1|]. split; [|split; [exact C3|exact C4]]. intros sv' Hin. cbn in Hin |- *. apply Hkeys. now apply C2.
  Qed.
  Lemma modified_ready id e r : risk_factor r <> None -> ready_expression o id e -> ready_expression o id (modify_expression r e).
  Proof.
    intros Hrisk (H1 & H2 & H3 & H4). destruct r as [|[q| | |]]; cbn in Hrisk; try congruence;
      cbn [modify_expression]; [repeat split; assumption|].
    split; [|split; [|split]].
    - unfold py_mul. cbn [all_nodes ready_node]. auto.
    - unfold py_mul. cbn [all_leaves]. auto.
    - unfold py_mul. cbn [affine decides]. auto.
    - intros t s Ht Hs. destruct (H4 t s Ht Hs) as (x & Hx & Hdx). exists x. split; [exact Hx|]. unfold py_mul. cbn [den].
      destruct (den _ e t s); [discriminate|contradiction].
  Qed.
  Lemma modified_varies dim ft fs n id e r : varies_in dim ft fs n id (modify_expression r e) = varies_in dim ft fs n id e.
  Proof. destruct r; reflexivity. Qed.
  Lemma objective_created ports st c e : register_connections o = Ok ports -> complete_state ports st ->
    In (c, e) (contributions o) -> exists st', create_component_objective o c st (Some e) = Ok st' /\ complete_state ports st'.
  Proof.
    intros Hr HC Hce. destruct (proj2 (proj2 (proj2 (proj2 Hready))) c e Hce) as (He & Ht & Hs).
    assert (Hr' : register_connections o = Ok (st_ports st)) by (destruct HC as (_ & _ & -> & _); exact Hr).
    assert (Ge : good_expression e).
    { unfold contributions in Hce. apply in_flat_map in Hce. destruct Hce as (c' & Hc' & Hce). apply in_flat_map in Hce.
      destruct Hce as (oe & Hoe & Hce). destruct oe as [e1|]; [|contradiction]. destruct Hce as [E|[]]. injection E as -> ->.
      apply (Hm c Hc'). destruct (o_selection o); cbn in Hoe; intuition. }
    apply (modified_ready _ _ (o_risk o)) in He; [|apply Hgood]. apply (modified_good (o_risk o)) in Ge; [|apply Hgood].
    destruct (linearizes st Hr' (co_id c) (modify_expression (o_risk o) e) None None 0%Z 0%Z Ge He some_time)
      as (e2 & ex2 & L & E2 & _ & Ex2 & HL & HT).
    - lia.
    - right. split; [reflexivity|]. rewrite <- Ht. apply modified_varies.
    - right. split; [reflexivity|]. rewrite <- Hs. apply modified_varies.
    - cbn [create_component_objective]. unfold create_objective. rewrite E2. cbn [bind]. rewrite Ex2. cbn [bind]. rewrite HL. cbn [bind].
      destruct (foldM_ok (add_objective_term o) (complete_state ports) (le_terms L)) with (acc := st) as (st1 & E1 & HC1).
      + intros acc kt Hkt Hacc. apply objective_term; [exact Hacc|]. specialize (HT acc (proj1 Hacc)). rewrite Forall_forall in HT. exact (HT kt Hkt).
      + exact HC.
      + rewrite E1. cbn [bind]. eexists; split; [reflexivity|]. exact HC1.
  Qed.
  Lemma objectives_created ports st : register_connections o = Ok ports -> complete_state ports st ->
    exists st', create_objectives o st = Ok st' /\ complete_state ports st'.
  Proof.
    intros Hr HC. unfold create_objectives. apply foldM_ok; [|exact HC]. intros st1 c Hc H1. apply foldM_ok; [|exact H1].
    intros st2 [e|] Hk H2; [|eexists; split; [reflexivity|exact H2]]. eapply objective_created; eauto.
    unfold contributions. apply in_flat_map. exists c. split; [exact Hc|]. apply in_flat_map. exists (Some e). split; [exact Hk|now left].
  Qed.
  Lemma problem_built : exists st, build_problem o = Ok st.
  Proof.
    destruct ready_ports as [ports Hp]. unfold build_problem. rewrite ready_requirements. cbn [bind].
    unfold optimization_problem. rewrite Hp. cbn [bind].
    destruct (variables_created (set_ports initial_state ports) Hp) as (st1 & E1 & _). rewrite E1. cbn [bind].
    pose proof (variables_complete _ _ E1) as C1.
    destruct (constraints_created ports st1 Hp C1) as (st2 & E2 & C2). rewrite E2. cbn [bind].
    destruct (objectives_created ports st2 Hp C2) as (st3 & E3 & _). eauto.
  Qed.
End Ready.
