(** The problems of the scenarios of a problem (C80). *)
From Coq Require Import Lia.
From Verif Require Import Base BaseFacts Expr Visitors LinearExpr Linearize Expansion Model Study Strategy Optim Tree
  SpecExpr SpecSyntax SpecVisitors SpecExpansion SpecLinear SpecModel SpecOptim SpecReady SpecFusion
  ExprFacts CopyFacts VisitorFacts DegreeFacts ExpansionFacts LinearFacts ModelFacts OptimFacts OptimMeaning OptimProblem ReadyFacts OptimReady
  SpecDecompose DecomposeFacts SpecOrder OrderFacts OrderProblem OrderFiles SpecParts PartsFacts SpecScenarios.

(** ** Expressions without scenario operators *)
Lemma expand_one_scenario d d' ev ev' sp e : timesteps_count d' = timesteps_count d -> (forall x, ev' x = ev x) -> no_scenario_operator e ->
  expand d' ev' sp e = expand d ev sp e.
Proof.
  intros HT HE. unfold no_scenario_operator. induction e using expr_ind'; intros HN.
  3:{ apply all_nodes_Add in HN. destruct HN as [_ HN]. cbn [expand]. rewrite Forall_forall in H, HN.
      replace (mapM (expand d' ev' sp) l) with (mapM (expand d ev sp) l); [reflexivity|].
      apply mapM_ext. rewrite Forall_forall. intros a Ha. symmetry. apply H; auto. }
  all: cbn [all_nodes] in HN; cbn [expand]; auto.
  - now rewrite IHe by apply HN.
  - now rewrite IHe1, IHe2 by apply HN.
  - now rewrite IHe1, IHe2 by apply HN.
  - now rewrite IHe1, IHe2 by apply HN.
  - rewrite HE. now rewrite IHe1 by apply HN.
  - rewrite HE. now rewrite IHe1 by apply HN.
  - rewrite !HE. now rewrite IHe1 by apply HN.
  - rewrite HT. now rewrite IHe by apply HN.
  - destruct HN. contradiction.
  - now rewrite IHe by apply HN.
Qed.
(** what does not vary with the scenario has no scenario index once expanded *)
Definition no_scenario_index (x : expr) : Prop :=
  op_free x /\ match x with PVar _ _ _ si | PParam _ _ _ si => si = NoScenarioIndex | _ => True end.
Lemma no_index_arith : arith_pred no_scenario_index.
Proof. repeat split; cbn; auto. Qed.
Lemma copy_no_index c X X' :
  (forall x x', leaf_kind x -> no_scenario_index x -> copy_with c x = Ok x' -> all_nodes no_scenario_index x') ->
  all_nodes no_scenario_index X -> copy_with c X = Ok X' -> all_nodes no_scenario_index X'.
Proof.
  intros Hc HX. apply copy_op_free_nodes; [apply no_index_arith | | ].
  - eapply all_nodes_imp; [|exact HX]. intros x [H _]. exact H.
  - apply all_leaves_nodes in HX. revert HX. apply all_leaves_imp. intros x (Hk & HP & _) x' E. eauto.
Qed.
Lemma expand_no_index d ev sp e : component_names_only e -> no_scenario_operator e ->
  varies ix_scenario false true sp (fun _ _ => false) e = false ->
  forall e', expand d ev sp e = Ok e' -> all_nodes no_scenario_index e'.
Proof.
  assert (Hshift : forall k X X', all_nodes no_scenario_index X -> apply_timeshift X k = Ok X' -> all_nodes no_scenario_index X').
  { intros k X X'. apply copy_no_index. intros x x' Hk [H1 H2] E.
    destruct x; try contradiction; cbn in E; injection E as <-; cbn; repeat split; auto. }
  assert (Hstep : forall k b X X', all_nodes no_scenario_index X -> apply_timestep X k b = Ok X' -> all_nodes no_scenario_index X').
  { intros k b X X'. apply copy_no_index. intros x x' Hk [H1 H2] E.
    destruct x; try contradiction; cbn in E; try inv_bind E; injection E as <-; cbn; repeat split; auto. }
  unfold component_names_only, no_scenario_operator. induction e using expr_ind'; intros HN HS HV e' He.
  3:{ apply all_nodes_Add in HN, HS. destruct HN as [_ HN], HS as [_ HS]. cbn [expand] in He. inv_bind He.
      destruct v as [|v vs]; cbn [sum_operands] in He; [discriminate|]. injection He as <-.
      assert (HF : Forall (all_nodes no_scenario_index) (v :: vs)).
      { eapply mapM_Forall; eauto. intros x y Hx Hy. rewrite Forall_forall in H, HN, HS. apply (H x Hx (HN x Hx) (HS x Hx)); [|exact Hy].
        cbn [varies] in HV. destruct (varies ix_scenario false true sp _ x) eqn:E; [|reflexivity]. 
        rewrite <- HV. symmetry. apply existsb_exists. eauto. }
      inversion HF; subst. apply fold_py_add_nodes; auto. intros l0. split; exact I. }
  all: cbn [expand] in He; cbn [all_nodes] in HN, HS; cbn [varies] in HV; try tauto; try discriminate.
  all: try (apply orb_false_iff in HV; destruct HV as [HV1 HV2]).
  - injection He as <-. cbn. auto.
  - inv_bind He. injection He as <-. cbn. split; [split; exact I|]. apply IHe; tauto.
  - inv_bind He. inv_bind He. injection He as <-. cbn. split; [split; exact I|]. split; [apply IHe1|apply IHe2]; tauto.
  - inv_bind He. inv_bind He. injection He as <-. cbn. split; [split; exact I|]. split; [apply IHe1|apply IHe2]; tauto.
  - inv_bind He. inv_bind He. injection He as <-. cbn. split; [split; exact I|]. split; [apply IHe1|apply IHe2]; tauto.
  - inv_bind He. injection He as <-. cbn. split; auto. split; [exact I|]. rewrite H in HV. cbn in HV. unfold initial_scenario_index. now rewrite HV.
  - inv_bind He. injection He as <-. cbn. split; auto. split; [exact I|]. rewrite H in HV. cbn in HV. unfold initial_scenario_index. now rewrite HV.
  - inv_bind He. inv_bind He. eapply Hshift; eauto. apply IHe1; tauto.
  - inv_bind He. inv_bind He. eapply Hstep; eauto. apply IHe1; tauto.
  - inv_bind He. inv_bind He. inv_bind He. inv_bind He. injection He as <-.
    apply sum_expressions_nodes; [apply no_index_arith|]. eapply mapM_Forall; eauto.
    intros x y _ Hy. eapply Hshift; eauto. apply IHe1; tauto.
  - inv_bind He. inv_bind He. injection He as <-.
    apply sum_expressions_nodes; [apply no_index_arith|]. eapply mapM_Forall; eauto.
    intros x y _ Hy. cbn beta in Hy. eapply Hstep; eauto. apply IHe; tauto.
Qed.
Lemma lin_no_index t s s' g e : all_nodes no_scenario_index e -> lin_build t s g e = lin_build t s' g e.
Proof.
  induction e using expr_ind'; intros HN.
  3:{ apply all_nodes_Add in HN. destruct HN as [_ HN]. cbn [lin_build]. rewrite Forall_forall in H, HN.
      replace (mapM (lin_build t s' g) l) with (mapM (lin_build t s g) l); [reflexivity|].
      apply mapM_ext. rewrite Forall_forall. intros a Ha. apply H; auto. }
  all: pose proof (all_nodes_root _ _ HN) as HR; cbn [all_nodes] in HN; cbn [lin_build]; auto.
  - now rewrite IHe by apply HN.
  - now rewrite IHe1, IHe2 by apply HN.
  - now rewrite IHe1, IHe2 by apply HN.
  - destruct HR as [_ ->]. reflexivity.
  - destruct HR as [_ ->]. reflexivity.
Qed.
(** what does not vary with the scenario has the same value in all *)
Lemma evaluate_steady vp vp' sp e : (forall n, get_variable_value vp n = get_variable_value vp' n) -> (forall n, get_parameter_value vp n = get_parameter_value vp' n) ->
  (forall c n, get_component_variable_value vp c n = get_component_variable_value vp' c n) ->
  (forall c n, may_vary ix_scenario (get_component_parameter_structure sp c n) = false -> get_component_parameter_value vp c n = get_component_parameter_value vp' c n) ->
  varies ix_scenario false true sp (fun _ _ => false) e = false -> evaluate vp e = evaluate vp' e.
Proof.
  intros H1 H2 H3 H4. induction e using expr_ind'; intros HV; cbn [varies] in HV; cbn [evaluate]; auto;
    try (apply orb_false_iff in HV; destruct HV as [HV1 HV2]); try (now rewrite IHe); try (now rewrite IHe1, IHe2).
  assert (E : mapM (evaluate vp) l = mapM (evaluate vp') l); [|now rewrite E].
  apply mapM_ext. rewrite Forall_forall in *. intros x Hx. apply H; auto.
  destruct (varies ix_scenario false true sp _ x) eqn:E; [|reflexivity]. rewrite <- HV. symmetry. apply existsb_exists. eauto.
Qed.

(** ** Reading scenario [s] instead of scenario 0 *)
Section Reading.
  Context (s : Z).
  Definition read_in (sc : option Z) : option Z := option_map (fun _ => s) sc.
  Definition key_in (k : term_key) : term_key :=
    {| tk_component := tk_component k; tk_variable := tk_variable k; tk_time := tk_time k; tk_scenario := read_in (tk_scenario k) |}.
  Definition term_in (kt : term) : term := (key_in (fst kt), snd kt).
  Definition data_in (d : lin_data) : lin_data := {| ld_terms := map term_in (ld_terms d); ld_constant := ld_constant d |}.
  Definition form_in (L : lin_expr) : lin_expr := {| le_terms := map term_in (le_terms L); le_constant := le_constant L |}.
  Definition first_scenario (sc : option Z) : Prop := sc = None \/ sc = Some 0%Z.
  Definition first_key (k : term_key) : Prop := first_scenario (tk_scenario k).
  Lemma key_in_inj k k' : first_key k -> first_key k' -> key_in k = key_in k' -> k = k'.
  Proof.
    destruct k as [c n t z], k' as [c' n' t' z']. unfold first_key, first_scenario, key_in. cbn. intros [-> | ->] [-> | ->] E; cbn in E; congruence.
  Qed.
  Lemma key_in_eqb k k' : first_key k -> first_key k' -> tk_eqb (key_in k) (key_in k') = tk_eqb k k'.
  Proof.
    destruct k as [c n t z], k' as [c' n' t' z']. unfold first_key, first_scenario, key_in, tk_eqb. cbn. intros [-> | ->] [-> | ->]; cbn; rewrite ?Z.eqb_refl; reflexivity.
  Qed.
  Lemma dget_in k (d : terms_dict) : first_key k -> Forall (fun kt => first_key (fst kt)) d -> dget tk_eqb (key_in k) (map term_in d) = dget tk_eqb k d.
  Proof.
    intros Hk. induction 1 as [|[k' c] d Hk' _ IH]; cbn; [reflexivity|]. rewrite key_in_eqb by assumption. destruct (tk_eqb k k'); [reflexivity|exact IH].
  Qed.
  Lemma dset_in k c (d : terms_dict) : first_key k -> Forall (fun kt => first_key (fst kt)) d -> dset tk_eqb (key_in k) c (map term_in d) = map term_in (dset tk_eqb k c d).
  Proof.
    intros Hk. induction 1 as [|[k' c'] d Hk' _ IH]; cbn; [reflexivity|]. cbn [fst] in Hk'. rewrite key_in_eqb by assumption. destruct (tk_eqb k k'); cbn; [reflexivity|now rewrite IH].
  Qed.
  Lemma accumulate_in ts : forall d, Forall (fun kt => first_key (fst kt)) ts -> Forall (fun kt => first_key (fst kt)) d ->
    fold_left accumulate (map term_in ts) (map term_in d) = map term_in (fold_left accumulate ts d).
  Proof.
    induction ts as [|[k c] ts IH]; intros d HF HD; cbn [map fold_left]; [reflexivity|]. inversion HF as [|? ? Hk HF']; subst. cbn [fst] in Hk.
    assert (E : accumulate (map term_in d) (term_in (k, c)) = map term_in (accumulate d (k, c))).
    { unfold accumulate. cbn [fst snd term_in]. rewrite (dget_in k d Hk HD). destruct (dget tk_eqb k d); [now apply dset_in|]. now rewrite map_app. }
    rewrite E. apply IH; [exact HF'|]. apply (accumulate_keys first_key [(k, c)] d HD). constructor; [exact Hk|constructor].
  Qed.
  Lemma form_in_spec d : Forall (fun kt => first_key (fst kt)) (ld_terms d) -> ld_to_expr (data_in d) = form_in (ld_to_expr d).
  Proof.
    intros HF. unfold ld_to_expr, le_of_dict, form_in, data_in. cbn [ld_terms ld_constant le_terms le_constant]. f_equal.
    pose proof (accumulate_in (ld_terms d) [] HF ltac:(constructor)) as E. cbn [map] in E. transitivity (non_zero_terms (map term_in (fold_left accumulate (ld_terms d) []))); [f_equal; exact E|]. clear E. unfold non_zero_terms.
    induction (fold_left accumulate (ld_terms d) []) as [|[k c] l IH]; [reflexivity|]. cbn [map filter]. cbn [term_in fst snd].
    destruct (is_zero c); cbn [negb]; rewrite IH; reflexivity.
  Qed.
  Lemma lin_in t (g g1 : parameter_getter) e : (forall c n t sc, first_scenario sc -> g c n t (read_in sc) = g1 c n t sc) -> all_nodes not_one_scenario e ->
    lin_build t (Some s) (Some g) e = (d <- lin_build t (Some 0%Z) (Some g1) e ;; Ok (data_in d)).
  Proof.
    intros HG. assert (HS : forall si, (match si with OneScenarioIndex _ => False | _ => True end) ->
      get_scenario (Some s) si = read_in (get_scenario (Some 0%Z) si) /\ first_scenario (get_scenario (Some 0%Z) si)).
    { intros si Hz; destruct si; try contradiction; cbn; split; unfold first_scenario; auto. }
    assert (HM : forall h l, map_coefs h (map term_in l) = map term_in (map_coefs h l)).
    { intros h l. unfold map_coefs. rewrite !map_map. reflexivity. }
    assert (HI : forall l, is_nil (map term_in l) = is_nil l) by (intros [|]; reflexivity).
    induction e using expr_ind'; intros HN.
    3:{ apply all_nodes_Add in HN. destruct HN as [_ HN]. cbn [lin_build]. rewrite Forall_forall in H, HN.
        assert (E : mapM (lin_build t (Some s) (Some g)) l = (ds <- mapM (lin_build t (Some 0%Z) (Some g1)) l ;; Ok (map data_in ds))).
        { clear - H HN. induction l as [|a l IH]; [reflexivity|]. cbn [mapM]. rewrite (H a (or_introl eq_refl) (HN a (or_introl eq_refl))).
          destruct (lin_build t (Some 0%Z) (Some g1) a); cbn [bind]; [|reflexivity]. rewrite IH by (intros; first [apply H|apply HN]; auto; now right).
          destruct (mapM (lin_build t (Some 0%Z) (Some g1)) l); cbn [bind]; reflexivity. }
        rewrite E. destruct (mapM (lin_build t (Some 0%Z) (Some g1)) l) as [ds|]; cbn [bind]; [|reflexivity]. f_equal.
        change {| ld_terms := []; ld_constant := n0 |} with (data_in {| ld_terms := []; ld_constant := n0 |}) at 1.
        generalize {| ld_terms := []; ld_constant := n0 |}. clear. induction ds as [|d ds IH]; intros acc; cbn [map fold_left]; [reflexivity|].
        rewrite <- IH. f_equal. unfold data_in. cbn. now rewrite map_app. }
    all: pose proof (all_nodes_root _ _ HN) as HR; cbn [all_nodes] in HN; cbn [lin_build]; auto.
    - rewrite IHe by apply HN. destruct (lin_build t (Some 0%Z) (Some g1) e); cbn [bind]; [|reflexivity]. unfold data_in. cbn [ld_terms ld_constant]. now rewrite HM.
    - rewrite IHe1, IHe2 by apply HN. destruct (lin_build t (Some 0%Z) (Some g1) e1); cbn [bind]; [|reflexivity]. destruct (lin_build t (Some 0%Z) (Some g1) e2); cbn [bind]; [|reflexivity].
      cbn [data_in ld_terms ld_constant]. rewrite !HI. destruct (is_nil (ld_terms _)); [cbn [bind]; unfold data_in; cbn [ld_terms ld_constant]; now rewrite HM|].
      destruct (is_nil (ld_terms _)); [cbn [bind]; unfold data_in; cbn [ld_terms ld_constant]; now rewrite HM|reflexivity].
    - rewrite IHe1, IHe2 by apply HN. destruct (lin_build t (Some 0%Z) (Some g1) e1) as [d1|]; cbn [bind]; [|reflexivity]. destruct (lin_build t (Some 0%Z) (Some g1) e2) as [d2|]; cbn [bind]; [|reflexivity].
      cbn [data_in ld_terms ld_constant]. rewrite HI. destruct (is_nil (ld_terms d2)); [|reflexivity]. destruct (ndiv _ _); cbn [bind]; [|reflexivity].
      assert (E : forall l, mapM (fun kt : term_key * num => q <- ndiv (snd kt) (ld_constant d2) ;; Ok (fst kt, q)) (map term_in l) =
        (ts <- mapM (fun kt : term_key * num => q <- ndiv (snd kt) (ld_constant d2) ;; Ok (fst kt, q)) l ;; Ok (map term_in ts))).
      { induction l as [|[k c] l IH]; [reflexivity|]. cbn [map mapM]. cbn [term_in fst snd]. destruct (ndiv c _); cbn [bind]; [|reflexivity]. rewrite IH. match goal with |- context [mapM ?f l] => destruct (mapM f l) end; reflexivity. }
      rewrite E. match goal with |- context [mapM ?f (ld_terms d1)] => destruct (mapM f (ld_terms d1)) end; reflexivity.
    - destruct HR as [_ HR]. destruct (get_timestep t ti); cbn [bind]; [|reflexivity]. destruct (HS si) as [-> _]; [destruct si; auto|]. reflexivity.
    - destruct HR as [_ HR]. destruct (get_timestep t ti); cbn [bind]; [|reflexivity]. destruct (HS si) as [-> HF]; [destruct si; auto|]. rewrite HG by exact HF. destruct (g1 _ _ _ _); reflexivity.
  Qed.
  Lemma linearize_in t (g g1 : parameter_getter) e : (forall c n t sc, first_scenario sc -> g c n t (read_in sc) = g1 c n t sc) -> all_nodes not_one_scenario e ->
    linearize_expression e t (Some s) (Some g) = (L <- linearize_expression e t (Some 0%Z) (Some g1) ;; Ok (form_in L)).
  Proof.
    intros HG HN. unfold linearize_expression. rewrite (lin_in t g g1 e HG HN). destruct (lin_build t (Some 0%Z) (Some g1) e) as [d|] eqn:E; cbn [bind]; [|reflexivity].
    f_equal. apply form_in_spec. revert E. apply lin_build_keys. revert HN. apply all_nodes_imp. intros x [_ Hx]. destruct x; auto. intros k _. unfold first_key. cbn.
    destruct si; try contradiction; cbn; unfold first_scenario; auto.
  Qed.
End Reading.

(** ** Columns *)
Lemma chosen_positions {A B} (h : A -> B) l1 (l : list B) : (forall a, In a l1 -> In (h a) l) ->
  exists f : nat -> nat, forall i a, nth_error l1 i = Some a -> nth_error l (f i) = Some (h a).
Proof.
  induction l1 as [|a l1 IH]; intros H; [exists (fun i => i); intros [|i] a E; discriminate|].
  destruct IH as [f Hf]; [intros; apply H; now right|]. destruct (In_nth_error _ _ (H a (or_introl eq_refl))) as [j Hj].
  exists (fun i => match i with O => j | S i => f i end). intros [|i] b E; [injection E as <-; exact Hj|]. now apply Hf.
Qed.
Definition inst_in (s : Z) (a : inst) : inst := let '(c, v, (t, sc)) := a in (c, v, (t, read_in s sc)).
Lemma inst_in_key s a : inst_key (inst_in s a) = key_in s (inst_key a).
Proof. destruct a as [[c v] [t sc]]. reflexivity. Qed.
Section One.
  Context (s : Z) (o o1 : settings) (HO : one_scenario s o o1) (Hs : (0 <= s < o_scenarios o)%Z).
  Hypothesis (Hu : usable_block o) (Hd : distinct_ids (o_network o)) (Hn : named_network (o_network o)).
  Lemma one_usable : usable_block o1.
  Proof. unfold usable_block. rewrite (os_block _ _ _ HO), (os_cycle _ _ _ HO). exact Hu. Qed.
  Lemma one_distinct : distinct_ids (o_network o1).
  Proof. rewrite (os_network _ _ _ HO). exact Hd. Qed.
  Lemma one_named : named_network (o_network o1).
  Proof. rewrite (os_network _ _ _ HO). exact Hn. Qed.
  Lemma one_length : block_length o1 = block_length o.
  Proof. unfold block_length. now rewrite (os_block _ _ _ HO). Qed.
  Lemma one_wrapped t : wrapped o1 t = wrapped o t.
  Proof. unfold wrapped. now rewrite (os_block _ _ _ HO). Qed.
  Lemma one_timestep t : block_timestep_to_absolute_timestep o1 t = block_timestep_to_absolute_timestep o t.
  Proof. unfold block_timestep_to_absolute_timestep, wrap_timestep. now rewrite one_length, (os_block _ _ _ HO), (os_cycle _ _ _ HO). Qed.
  Lemma one_parameter t sc c n : first_scenario sc -> parameter_value o t (read_in s sc) c n = parameter_value o1 t sc c n.
  Proof.
    intros Hsc. unfold parameter_value. rewrite one_timestep, (os_tree_node _ _ _ HO). pose proof (os_data _ _ _ HO c n) as HD.
    destruct (get_data (o_database o) c n) as [d|e], (get_data (o_database o1) c n) as [d1|e1]; try contradiction; cbn [bind]; [|now subst].
    destruct (block_timestep_to_absolute_timestep o t) as [a|]; cbn [bind]; [|reflexivity]. destruct (HD a) as [H0 H1]. destruct Hsc as [-> | ->]; cbn [read_in option_map]; now symmetry.
  Qed.
  Lemma one_value e t sc : first_scenario sc -> compute_expression_value o e t (read_in s sc) = compute_expression_value o1 e t sc.
  Proof.
    intros Hsc. unfold compute_expression_value. apply evaluate_agree. apply all_nodes_imp with (P := fun _ => True).
    - intros x _. destruct x; cbn; auto. now apply one_parameter.
    - clear. induction e using expr_ind'; try (cbn; tauto). apply all_nodes_Add. split; auto.
  Qed.
  Lemma one_structure {A} (get : model -> dict string A) f c x : component_structure o1 get f c x = component_structure o get f c x.
  Proof. unfold component_structure. now rewrite (os_network _ _ _ HO). Qed.
  Lemma one_provider : data_structure_provider o1 = data_structure_provider o.
  Proof. unfold data_structure_provider, component_structure. now rewrite (os_network _ _ _ HO). Qed.
  Lemma one_time_bound e : evaluate_time_bound o1 e = evaluate_time_bound o e.
  Proof.
    unfold evaluate_time_bound. f_equal. apply evaluate_agree. apply all_nodes_imp with (P := fun _ => True).
    - intros x _. destruct x; cbn; auto. rewrite one_structure. destruct (component_structure o m_parameters p_structure c n) as [ix|]; cbn [bind]; [|reflexivity]. destruct (_ || _)%bool; [reflexivity|].
      symmetry. apply (one_parameter None None). now left.
    - clear. induction e using expr_ind'; try (cbn; tauto). apply all_nodes_Add. split; auto.
  Qed.
  Lemma one_expand e : no_scenario_operator e -> context_expand o1 e = context_expand o e.
  Proof.
    intros HN. unfold context_expand, expand_operators. rewrite one_provider. apply expand_one_scenario; [exact one_length|exact one_time_bound|exact HN].
  Qed.
  Lemma one_ports : register_connections o1 = register_connections o.
  Proof. unfold register_connections. now rewrite (os_network _ _ _ HO). Qed.
  Lemma one_var_pairs : var_pairs o1 = var_pairs o.
  Proof. unfold var_pairs. now rewrite (os_network _ _ _ HO), (os_selection _ _ _ HO). Qed.
  Lemma one_row_pairs : row_pairs o1 = row_pairs o.
  Proof. unfold row_pairs. now rewrite (os_network _ _ _ HO), (os_selection _ _ _ HO). Qed.
  Lemma one_contributions : contributions o1 = contributions o.
  Proof. unfold contributions. now rewrite (os_network _ _ _ HO), (os_selection _ _ _ HO). Qed.
  Lemma one_instance c v t sc : In (c, v, (t, sc)) (var_insts o1) -> first_scenario sc /\ In (c, v, (t, read_in s sc)) (var_insts o).
  Proof.
    rewrite !var_insts_In. unfold instance_of. rewrite (os_network _ _ _ HO), (os_selection _ _ _ HO), (os_block _ _ _ HO), (os_scenarios _ _ _ HO).
    intros (H1 & H2 & H3 & H4). destruct sc as [z|]; cbn in H4 |- *; unfold first_scenario; [|auto]. destruct H4 as [H4 H5]. split; [right; f_equal; lia|auto 10].
  Qed.
  Lemma one_instance_back c v t z : In (c, v, (t, Some z)) (var_insts o) -> In (c, v, (t, Some 0%Z)) (var_insts o1).
  Proof.
    rewrite !var_insts_In. unfold instance_of. rewrite (os_network _ _ _ HO), (os_selection _ _ _ HO), (os_block _ _ _ HO), (os_scenarios _ _ _ HO).
    intros (H1 & H2 & H3 & H4 & H5). cbn. split; [exact H1|]. split; [exact H2|]. split; [exact H3|]. split; [exact H4|lia].
  Qed.
  Lemma one_instance_none c v t : In (c, v, (t, None)) (var_insts o) -> In (c, v, (t, None)) (var_insts o1).
  Proof.
    rewrite !var_insts_In. unfold instance_of. rewrite (os_network _ _ _ HO), (os_selection _ _ _ HO), (os_block _ _ _ HO). cbn. auto.
  Qed.
  Definition columns_at (f : nat -> nat) : Prop :=
    (forall i j, f i = f j -> i = j) /\ forall i a, nth_error (var_insts o1) i = Some a -> nth_error (var_insts o) (f i) = Some (inst_in s a).
  Lemma inst_in_inj a b : In a (var_insts o1) -> In b (var_insts o1) -> inst_in s a = inst_in s b -> a = b.
  Proof.
    destruct a as [[c v] [t sc]], b as [[c' v'] [t' sc']]. intros Ha Hb E. destruct (one_instance _ _ _ _ Ha) as [Fa _], (one_instance _ _ _ _ Hb) as [Fb _].
    cbn in E. injection E as -> -> -> E. destruct Fa as [-> | ->], Fb as [-> | ->]; cbn in E; congruence.
  Qed.
  Lemma columns_exist : NoDup (map inst_key (var_insts o1)) -> exists f, columns_at f.
  Proof.
    intros ND. destruct (chosen_positions (inst_in s) (var_insts o1) (var_insts o)) as [f Hf].
    { intros [[c v] [t sc]] Hin. apply one_instance in Hin. apply Hin. }
    set (L1 := List.length (var_insts o1)) in *. set (L := List.length (var_insts o)).
    assert (IN : forall i, (i < L1)%nat -> exists a, nth_error (var_insts o1) i = Some a).
    { intros i Hi. destruct (nth_error (var_insts o1) i) as [a|] eqn:E; [eauto|]. apply nth_error_None in E. fold L1 in E. lia. }
    assert (LT : forall i a, nth_error (var_insts o1) i = Some a -> (f i < L)%nat).
    { intros i a E. apply Hf in E. apply nth_error_Some. congruence. }
    exists (fun i => if (i <? L1)%nat then f i else (L + i)%nat). split.
    - intros i j. destruct (Nat.ltb_spec i L1) as [Hi|Hi], (Nat.ltb_spec j L1) as [Hj|Hj]; intros E; try lia.
      + destruct (IN i Hi) as [a Ea], (IN j Hj) as [b Eb]. pose proof (Hf _ _ Ea) as Fa. pose proof (Hf _ _ Eb) as Fb. rewrite E in Fa. rewrite Fa in Fb. injection Fb as Fb.
        apply inst_in_inj in Fb; [|eapply nth_error_In; eauto|eapply nth_error_In; eauto]. subst b.
        apply NoDup_map_inv in ND. rewrite NoDup_nth_error in ND. apply ND; [exact Hi|congruence].
      + destruct (IN i Hi) as [a Ea]. pose proof (LT _ _ Ea). lia.
      + destruct (IN j Hj) as [a Ea]. pose proof (LT _ _ Ea). lia.
    - intros i a E. assert (Hi : (i < L1)%nat) by (apply nth_error_Some; congruence). destruct (Nat.ltb_spec i L1); [now apply Hf|lia].
  Qed.
End One.

(** ** Rows and columns of the problem of a scenario *)
Lemma reads_unique o st ts T T' : Forall2 (reads_term o st) ts T -> Forall2 (reads_term o st) ts T' -> T = T'.
Proof.
  intros H. revert T'. induction H as [|kt ic ts T [E1 E2] _ IH]; intros T' H'; inversion H' as [|? ic' ? T'' [E3 E4] H'']; subst; [reflexivity|]. f_equal; [|now apply IH].
  destruct ic, ic'; cbn in *. congruence.
Qed.
Lemma mapM_In {A B} (f : A -> result B) l ys y : mapM f l = Ok ys -> In y ys <-> exists x, In x l /\ f x = Ok y.
Proof.
  intros H. apply mapM_ok in H. induction H as [|a b l ys E _ IH]; cbn [In]; [firstorder|]. rewrite IH. split.
  - intros [<-|(x & Hx & Ex)]; [exists a|exists x]; auto.
  - intros (x & [<-|Hx] & Ex); [left; congruence|right; eauto].
Qed.
Lemma mapM_total {A B} (f : A -> result B) l ys x : mapM f l = Ok ys -> In x l -> exists y, f x = Ok y.
Proof. intros H. apply mapM_ok in H. induction H as [|a b l ys E _ IH]; cbn [In]; [contradiction|]. intros [<-|Hx]; eauto. Qed.
Section OneBuilt.
  Context (s : Z) (o o1 : settings) (HO : one_scenario s o o1) (Hs : (0 <= s < o_scenarios o)%Z).
  Hypothesis Hgood : good_problem o.
  Hypothesis Hreq : requirements_consistency (o_database o) (o_network o) = Ok tt.
  Context (st st1 : state) (f : nat -> nat) (Hf : columns_at s o o1 f) (HC : created o st) (HC1 : created o1 st1).
  Hypothesis (HP : register_connections o = Ok (st_ports st)) (HP1 : st_ports st1 = st_ports st).
  Lemma ob_usable : usable_block o.
  Proof. exact (proj1 Hgood). Qed.
  Lemma ob_distinct : distinct_ids (o_network o).
  Proof. pose proof Hgood as (_ & _ & _ & Hb & Hd & Hm & Hk & _). auto. Qed.
  Lemma ob_named : named_network (o_network o).
  Proof. destruct Hgood as (_ & _ & _ & _ & _ & Hm & _). intros c Hc. apply (Hm c Hc). Qed.
  Lemma ob_connections : good_connections (o_network o).
  Proof. pose proof Hgood as (_ & _ & _ & Hb & Hd & Hm & Hk & _). auto. Qed.
  Lemma ob_built : built_network (o_network o).
  Proof. pose proof Hgood as (_ & _ & _ & Hb & Hd & Hm & Hk & _). auto. Qed.
  Lemma lookup_in t sc c n i : get_component_variable o1 st1 t sc c n = Ok i -> first_scenario sc /\ get_component_variable o st t (read_in s sc) c n = Ok (f i).
  Proof.
    intros H. apply (lookup_iff o1 st1 _ _ _ _ _ (one_usable s o o1 HO ob_usable) (one_distinct s o o1 HO ob_distinct) (one_named s o o1 HO ob_named) HC1) in H.
    rewrite nth_error_map in H. destruct (nth_error (var_insts o1) i) as [a|] eqn:E; [|discriminate]. cbn [option_map] in H. injection H as H.
    assert (F : first_scenario sc).
    { destruct a as [[c' v] [t' sc']]. cbn in H. injection H as _ _ _ <-. apply nth_error_In in E. apply (one_instance s o o1 HO Hs _ _ _ _ E). }
    split; [exact F|]. apply (lookup_iff o st _ _ _ _ _ ob_usable ob_distinct ob_named HC). rewrite nth_error_map, (proj2 Hf _ _ E). cbn [option_map]. f_equal.
    rewrite inst_in_key, H. unfold key_in. cbn. now rewrite (one_wrapped s o o1 HO).
  Qed.
  Lemma lookup_key_in k i : get_solver_var o1 st1 k = Ok i -> get_solver_var o st (key_in s k) = Ok (f i).
  Proof. intros H. apply lookup_in in H. apply H. Qed.
  Lemma terms_in ts T : Forall2 (reads_term o1 st1) ts T -> Forall2 (reads_term o st) (map (term_in s) ts) (map (renumber f) T).
  Proof. induction 1 as [|kt ic ts T [E1 E2] _ IH]; constructor; [|exact IH]. split; [now apply lookup_key_in|exact E2]. Qed.
  Lemma make_row_in t z t' z' x x' lb ub L r r1 : make_constraint o1 st1 t z x lb ub L = Ok r1 -> make_constraint o st t' z' x' lb ub (form_in s L) = Ok r -> copied_row f r1 r.
  Proof.
    unfold make_constraint. intros H1 H. inv_bind H1. inv_bind H. injection H1 as <-. injection H as <-. apply add_terms_entries in H0, H2.
    destruct H0 as (T1 & HT1 & ->), H2 as (T & HT & ->). cbn [form_in le_terms] in HT. rewrite (reads_unique _ _ _ _ _ HT (terms_in _ _ HT1)).
    unfold copied_row. cbn [sr_lb sr_ub sr_coefs form_in le_constant]. split; [reflexivity|]. split; [reflexivity|]. exact (entries_renumber f (proj1 Hf) T1 []).
  Qed.
  Lemma context_in X t : all_nodes not_one_scenario X -> context_linearize o X t (Some s) = (L <- context_linearize o1 X t (Some 0%Z) ;; Ok (form_in s L)).
  Proof. intros HX. apply (linearize_in s t _ (fun c n t s => parameter_value o1 t s c n) X); [|exact HX]. intros. now apply (one_parameter s o o1 HO). Qed.
  Lemma row_in ic X t r r1 : all_nodes not_one_scenario X -> create_row o1 st1 ic X t 0 = Ok r1 -> create_row o st ic X t s = Ok r -> copied_row f r1 r.
  Proof.
    intros HX H1 H. unfold create_row in *. apply bind_ok in H1 as (L1 & A1 & H1). apply bind_ok in H1 as (l1 & B1 & H1). apply bind_ok in H1 as (u1 & C1 & H1).
    apply bind_ok in H as (L & A & H). apply bind_ok in H as (l & B & H). apply bind_ok in H as (u & C & H).
    change (Some s) with (read_in s (Some 0%Z)) in B, C. rewrite (one_value s o o1 HO) in B, C by (now right).
    rewrite (context_in X _ HX) in A.
    rewrite A1 in A. cbn [bind] in A. injection A as <-. assert (l1 = l) by congruence. assert (u1 = u) by congruence. subst. eapply make_row_in; eauto.
  Qed.
  Lemma parameter_steady t c n z z' : may_vary ix_scenario (component_structure o m_parameters p_structure c n) = false ->
    parameter_value o t (Some z) c n = parameter_value o t (Some z') c n.
  Proof.
    intros HV. unfold component_structure in HV. destruct (get_component (o_network o) c) as [k|] eqn:E; [|discriminate]. cbn [bind] in HV.
    destruct (dget String.eqb n (m_parameters (co_model k))) as [p|] eqn:Ep; [|discriminate]. cbn in HV.
    destruct (get_component_known _ _ _ ob_built E) as [Hin <-]. apply (dget_In String.eqb String.eqb_eq) in Ep.
    pose proof Hgood as (_ & _ & _ & _ & _ & Hm & _ & _ & Hnd). destruct (Hm k Hin) as ((_ & _ & [_ Hnp] & _) & _). specialize (Hnp _ _ Ep). subst n.
    assert (HD : has_suitable_data (o_database o) (co_id k) p).
    { assert (Hp : In p (map snd (m_parameters (co_model k)))) by (apply in_map_iff; eexists; split; [|exact Ep]; reflexivity).
      unfold all_components in Hin. apply in_app_or in Hin. destruct Hin as [Hin|Hin]; [now apply Hnd|]. eapply requirements_ok; eauto. intros c' Hc'. apply (Hm c'). apply in_or_app. now right. }
    destruct HD as (d & Ed & _ & HS). unfold parameter_value. rewrite Ed. cbn [bind]. destruct (block_timestep_to_absolute_timestep o t); cbn [bind]; [|reflexivity]. now apply HS.
  Qed.
  Lemma value_steady e t z z' : varies ix_scenario false true (data_structure_provider o) none e = false ->
    compute_expression_value o e (Some t) (Some z) = compute_expression_value o e (Some t) (Some z').
  Proof.
    intros HV. unfold compute_expression_value. apply (evaluate_steady _ _ (data_structure_provider o)); auto.
    intros c n Hc. cbn in *. now apply parameter_steady.
  Qed.
  Lemma row_steady ic X t r r1 z : all_nodes no_scenario_index X -> varies ix_scenario false true (data_structure_provider o) none (c_lower ic) = false ->
    varies ix_scenario false true (data_structure_provider o) none (c_upper ic) = false ->
    create_row o1 st1 ic X t 0 = Ok r1 -> create_row o st ic X t z = Ok r -> copied_row f r1 r.
  Proof.
    intros HX HL HU H1 H. unfold create_row in H. rewrite (value_steady _ t z s HL), (value_steady _ t z s HU) in H.
    assert (EC : context_linearize o X (Some t) (Some z) = context_linearize o X (Some t) (Some s)) by (unfold context_linearize, linearize_expression; f_equal; apply lin_no_index; exact HX).
    rewrite EC in H. clear EC. apply bind_ok in H as (L & A & H). apply bind_ok in H as (l & B & H). apply bind_ok in H as (u & C & H).
    assert (N1 : all_nodes not_one_scenario X) by (eapply all_nodes_imp; [|exact HX]; intros x [Hx Hx']; split; [exact Hx|]; destruct x; auto; now subst si).
    unfold create_row in H1. apply bind_ok in H1 as (L1 & A1 & H1). apply bind_ok in H1 as (l1 & B1 & H1). apply bind_ok in H1 as (u1 & C1 & H1).
    change (Some s) with (read_in s (Some 0%Z)) in B, C. rewrite (one_value s o o1 HO) in B, C by (now right).
    rewrite (context_in X _ N1) in A.
    rewrite A1 in A. cbn [bind] in A. injection A as <-. assert (l1 = l) by congruence. assert (u1 = u) by congruence. subst. eapply make_row_in; eauto.
  Qed.
  Lemma made_in a v w : In a (var_insts o1) -> made o1 st1 a v -> made o st (inst_in s a) w -> same_column v w.
  Proof.
    destruct a as [[c x] [t sc]]. intros Hin (l1 & u1 & B1 & B2 & _ & ->) (l & u & B3 & B4 & _ & ->). destruct (one_instance s o o1 HO Hs _ _ _ _ Hin) as [F _].
    assert (G : forall d b w1 w, bound_of o1 st1 d b (co_id c) t sc w1 -> bound_of o st d b (co_id c) t (read_in s sc) w -> w1 = w).
    { intros d [b|] w1 w; cbn; [|congruence]. intros (e1 & E1 & E2) (e & E3 & E4). rewrite (instantiate_same st st1) in E1 by exact HP1. rewrite E1 in E3. injection E3 as <-.
      rewrite (one_value s o o1 HO) in E4 by exact F. congruence. }
    rewrite (G _ _ _ _ B1 B3), (G _ _ _ _ B2 B4). unfold same_column, new_solver_var. destruct (v_type x); auto.
  Qed.
  Lemma instantiated_free cid e e' : aggregators_on_ports e -> no_scenario_operator e -> instantiate st e cid = Ok e' -> no_scenario_operator e'.
  Proof.
    apply (instantiate_shape o st ob_built ob_connections HP).
    - repeat split; cbn; auto.
    - intros x. destruct x; cbn; auto.
  Qed.
  (** the rows of one constraint *)
  Lemma block_known ck rows rows1 : In (fst ck) (all_components (o_network o)) -> good_constraint (snd ck) -> no_scenario_operator (c_expr (snd ck)) -> block_rows o st ck rows -> block_rows o1 st1 ck rows1 ->
    exists ic X ix times, (instantiate_constraint st (co_id (fst ck)) (snd ck) = Ok ic /\ context_expand o (c_expr ic) = Ok X /\ constraint_indexing o ic = Ok ix /\ times = get_time_indices o ix) /\ (forall r1, In r1 rows1 <-> exists t, In t times /\ create_row o1 st1 ic X t 0 = Ok r1) /\
    (forall t, In t times -> exists r1, create_row o1 st1 ic X t 0 = Ok r1) /\
    (forall t z, In t times -> In z (steps (varies_in_scenario (o_network o) (co_id (fst ck)) (c_expr (snd ck))) (o_scenarios o)) -> exists r, create_row o st ic X t z = Ok r) /\
    (forall r, In r rows <-> exists t z, In t times /\ In z (steps (varies_in_scenario (o_network o) (co_id (fst ck)) (c_expr (snd ck))) (o_scenarios o)) /\ create_row o st ic X t z = Ok r) /\
    all_nodes not_one_scenario X /\ (varies_in_scenario (o_network o) (co_id (fst ck)) (c_expr (snd ck)) = false -> all_nodes no_scenario_index X) /\
    varies ix_scenario false true (data_structure_provider o) none (c_lower ic) = varies_in_scenario (o_network o) (co_id (fst ck)) (c_lower (snd ck)) /\
    varies ix_scenario false true (data_structure_provider o) none (c_upper ic) = varies_in_scenario (o_network o) (co_id (fst ck)) (c_upper (snd ck)).
  Proof.
    destruct ck as [c k]. cbn [fst snd]. intros Hc Hk Hfree (ic & Hic & Hr) (ic1 & Hic1 & Hr1). cbn [fst snd] in *.
    assert (E : instantiate_constraint st1 (co_id c) k = instantiate_constraint st (co_id c) k).
    { unfold instantiate_constraint. now rewrite !(instantiate_same st st1) by exact HP1. }
    rewrite E, Hic in Hic1. injection Hic1 as <-. clear E.
    destruct (instantiated_constraint o st Hgood HP _ k ic Hk Hic) as (_ & He & Hl & Hup). pose proof Hk as ((_ & Hagg & _) & Hkl & Hku).
    pose proof (instantiated_free _ _ _ Hagg Hfree He) as Hfree'. pose proof (instantiate_names o st ob_built ob_connections HP _ _ _ Hagg He) as Hnames.
    unfold create_constraint, constraint_indexing, context_indexing in Hr, Hr1. rewrite (one_expand s o o1 HO _ Hfree') in Hr1. rewrite (one_provider s o o1 HO) in Hr1.
    inv_bind Hr. inv_bind Hr. rename v into X, v0 into ix. rewrite H in Hr1. cbn [bind] in Hr1. rewrite H0 in Hr1. cbn [bind] in Hr1.
    destruct (indexation_varies _ (fun _ _ => false) _ _ H0) as [_ Hvs].
    rewrite (instantiate_varies o st ix_scenario false true ob_built ob_connections HP (co_id c) _ _ Hagg He) in Hvs.
    fold (varies_in_scenario (o_network o) (co_id c) (c_expr k)) in Hvs.
    assert (ET : get_time_indices o1 ix = get_time_indices o ix) by (unfold get_time_indices; now rewrite (one_length s o o1 HO)).
    assert (ES : get_scenario_indices o1 ix = [0%Z]) by (unfold get_scenario_indices; rewrite (os_scenarios _ _ _ HO); now destruct (ix_scenario ix)).
    exists ic, X, ix, (get_time_indices o ix). rewrite ET, ES in Hr1. split; [auto|]. repeat split.
    - intros Hin. apply (mapM_In _ _ _ _ Hr1) in Hin. destruct Hin as ([t z] & Hin & Hx). apply in_prod_iff in Hin. destruct Hin as [Ht [<-|[]]]. eauto.
    - intros (t & Ht & Hx). apply (mapM_In _ _ _ _ Hr1). exists (t, 0%Z). split; [apply in_prod_iff; split; [exact Ht|now left]|exact Hx].
    - intros t Ht. apply (mapM_total _ _ _ (t, 0%Z) Hr1). apply in_prod_iff. split; [exact Ht|now left].
    - intros t z Ht Hz. apply (mapM_total _ _ _ (t, z) Hr). apply in_prod_iff. split; [exact Ht|]. unfold get_scenario_indices. rewrite Hvs. unfold steps in Hz. destruct (varies_in_scenario _ _ _); exact Hz.
    - intros Hin. apply (mapM_In _ _ _ _ Hr) in Hin. destruct Hin as ([t z] & Hin & Hx). apply in_prod_iff in Hin. destruct Hin as [Ht Hz]. exists t, z. split; [exact Ht|]. split; [|exact Hx].
      unfold get_scenario_indices in Hz. rewrite Hvs in Hz. unfold steps. destruct (varies_in_scenario _ _ _); exact Hz.
    - intros (t & z & Ht & Hz & Hx). apply (mapM_In _ _ _ _ Hr). exists (t, z). split; [apply in_prod_iff; split; [exact Ht|]|exact Hx].
      unfold get_scenario_indices. rewrite Hvs. unfold steps in Hz. destruct (varies_in_scenario _ _ _); exact Hz.
    - eapply expand_not_one; eauto.
    - intros HV. eapply expand_no_index; [exact Hnames|exact Hfree'| |exact H]. transitivity (varies_in_scenario (o_network o) (co_id c) (c_expr k)); [|exact HV]. now apply (instantiate_varies o st ix_scenario false true ob_built ob_connections HP).
    - assert (Ha : aggregators_on_ports (c_lower k)) by (destruct Hkl as [->|[_ Ha]]; [repeat split|exact Ha]). now apply (instantiate_varies o st ix_scenario false true ob_built ob_connections HP).
    - assert (Ha : aggregators_on_ports (c_upper k)) by (destruct Hku as [->|[_ Ha]]; [repeat split|exact Ha]). now apply (instantiate_varies o st ix_scenario false true ob_built ob_connections HP).
  Qed.

  Lemma block_copied ck rows rows1 : In ck (row_pairs o) -> good_constraint (snd ck) -> constraints_by_scenario o -> scenario_bounds_follow o -> block_rows o st ck rows -> block_rows o1 st1 ck rows1 ->
    (forall r1, In r1 rows1 -> exists r, In r rows /\ copied_row f r1 r) /\
    (forall ic X ix t z r, instantiate_constraint st (co_id (fst ck)) (snd ck) = Ok ic -> context_expand o (c_expr ic) = Ok X -> constraint_indexing o ic = Ok ix ->
       In t (get_time_indices o ix) -> z = s -> create_row o st ic X t z = Ok r -> exists r1, In r1 rows1 /\ copied_row f r1 r).
  Proof.
    intros Hin Hk HB HF HR HR1. unfold row_pairs in Hin. apply in_flat_map in Hin. destruct Hin as (c & Hc & Hin). apply in_map_iff in Hin. destruct Hin as (k & <- & Hin). cbn [fst snd] in *.
    destruct (block_known (c, k) rows rows1 Hc Hk (HB _ _ Hc Hin) HR HR1) as (ic & X & ix & times & (I1 & I2 & I3 & ->) & Q1 & A1 & A2 & Q2 & Q3 & Q4 & Q5 & Q6). cbn [fst snd] in *.
    specialize (HF _ _ Hc Hin). rewrite <- Q5, <- Q6 in HF. revert Q2 Q4 A2 HF. generalize (varies_in_scenario (o_network o) (co_id c) (c_expr k)) as V. intros V Q2 Q4 A2 HF.
    assert (CP : forall t z r r1, z = (if V then s else 0%Z) \/ z = s -> create_row o1 st1 ic X t 0 = Ok r1 -> create_row o st ic X t z = Ok r -> copied_row f r1 r).
    { intros t z r r1 Hz E1 E. destruct V; [assert (z = s) by (destruct Hz; auto); subst z; eapply row_in; eauto|].
      destruct (varies ix_scenario false true (data_structure_provider o) none (c_lower ic)) eqn:EL; [discriminate (HF eq_refl)|].
      destruct (varies ix_scenario false true (data_structure_provider o) none (c_upper ic)) eqn:EU; [discriminate (HF eq_refl)|]. eapply row_steady; eauto. }
    split.
    - intros r1 H1. apply Q1 in H1. destruct H1 as (t & Ht & E1). assert (Hz : In (if V then s else 0%Z) (steps V (o_scenarios o))) by (destruct V; cbn [steps]; [apply zrange_In; lia|now left]).
      destruct (A2 t _ Ht Hz) as [r Er]. exists r. split; [apply Q2; eauto|eauto].
    - intros ic' X' ix' t z r J1 J2 J3 Ht Hz Er. assert (ic' = ic) by congruence. subst ic'. assert (X' = X) by congruence. subst X'. assert (ix' = ix) by congruence. subst ix'.
      destruct (A1 t Ht) as [r1 E1]. exists r1. split; [apply Q1; eauto|eauto].
  Qed.
End OneBuilt.

(** ** All the scenarios *)
Lemma Forall2_nth_right {A B} (R : A -> B -> Prop) l m : Forall2 R l m -> forall i b, nth_error m i = Some b -> exists a, nth_error l i = Some a /\ R a b.
Proof. induction 1 as [|a b l m Hab Hl IH]; intros [|i] x Hx; cbn in Hx |- *; try discriminate; [injection Hx as <-; eauto|eauto]. Qed.
Lemma chosen_functions {A} (P : Z -> A -> Prop) (d : A) n : (0 <= n)%Z -> (forall s, (0 <= s < n)%Z -> exists a, P s a) -> exists F, forall s, (0 <= s < n)%Z -> P s (F s).
Proof.
  intros Hn. revert n Hn. apply (natlike_ind (fun n => (forall s, (0 <= s < n)%Z -> exists a, P s a) -> exists F, forall s, (0 <= s < n)%Z -> P s (F s))).
  - intros _. exists (fun _ => d). lia.
  - intros n Hn IH H. destruct IH as [F HF]; [intros; apply H; lia|]. destruct (H n) as [a Ha]; [lia|].
    exists (fun s => if (s =? n)%Z then a else F s). intros s Hs. destruct (Z.eqb_spec s n) as [->|Hne]; [exact Ha|]. apply HF. lia.
Qed.
Lemma row_pairs_good o ck : good_problem o -> In ck (row_pairs o) -> good_constraint (snd ck).
Proof.
  intros (_ & _ & _ & _ & _ & Hm & _) Hin. unfold row_pairs in Hin. apply in_flat_map in Hin. destruct Hin as (c & Hc & Hin). apply in_map_iff in Hin. destruct Hin as (k & <- & Hin). cbn [snd].
  apply (Hm c Hc). unfold get_constraints in Hin. apply filter_In in Hin. apply Hin.
Qed.
Lemma var_insts_same o o' : o_network o' = o_network o -> o_selection o' = o_selection o -> o_block o' = o_block o -> o_scenarios o' = o_scenarios o -> var_insts o' = var_insts o.
Proof. intros E1 E2 E3 E4. unfold var_insts, var_pairs, variable_instances, get_time_indices, get_scenario_indices, block_length. now rewrite E1, E2, E3, E4. Qed.
Section Many.
  Context (o : settings) (st : state) (os : Z -> settings) (sts : Z -> state).
  Hypothesis (Hgood : good_problem o) (HB : constraints_by_scenario o) (HF : scenario_bounds_follow o) (Hst : build_problem o = Ok st).
  Hypothesis Hos : forall s, (0 <= s < o_scenarios o)%Z -> one_scenario s o (os s) /\ build_problem (os s) = Ok (sts s).
  Let Hu : usable_block o := ob_usable o Hgood.
  Let Hd : distinct_ids (o_network o) := ob_distinct o Hgood.
  Let Hn : named_network (o_network o) := ob_named o Hgood.
  Let HS : (1 <= o_scenarios o)%Z := proj1 (proj2 Hgood).
  Lemma many_instances s s' : (0 <= s < o_scenarios o)%Z -> (0 <= s' < o_scenarios o)%Z -> var_insts (os s) = var_insts (os s').
  Proof.
    intros Hs Hs'. destruct (Hos s Hs) as [HO _], (Hos s' Hs') as [HO' _]. apply var_insts_same.
    - now rewrite (os_network _ _ _ HO), (os_network _ _ _ HO').
    - now rewrite (os_selection _ _ _ HO), (os_selection _ _ _ HO').
    - now rewrite (os_block _ _ _ HO), (os_block _ _ _ HO').
    - now rewrite (os_scenarios _ _ _ HO), (os_scenarios _ _ _ HO').
  Qed.
  Lemma many_nodup s : (0 <= s < o_scenarios o)%Z -> NoDup (map inst_key (var_insts (os s))).
  Proof. intros Hs. destruct (Hos s Hs) as [HO _]. apply keys_nodup; [exact (one_distinct s o _ HO Hd)|exact (one_named s o _ HO Hn)]. Qed.
  Lemma many_positions : exists f : Z -> nat -> nat, forall s, (0 <= s < o_scenarios o)%Z -> columns_at s o (os s) (f s).
  Proof.
    apply (chosen_functions (fun s f => columns_at s o (os s) f) (fun i => i)); [lia|]. intros s Hs. destruct (Hos s Hs) as [HO _]. apply columns_exist; auto. now apply many_nodup.
  Qed.
  Context (f : Z -> nat -> nat) (Hf : forall s, (0 <= s < o_scenarios o)%Z -> columns_at s o (os s) (f s)).
  Lemma many_created s : (0 <= s < o_scenarios o)%Z -> created (os s) (sts s) /\ List.length (s_vars (st_solver (sts s))) = List.length (var_insts (os s)).
  Proof.
    intros Hs. destruct (Hos s Hs) as [HO H]. destruct (built_variables (os s) (sts s) (one_distinct s o _ HO Hd) (one_named s o _ HO Hn) H) as (p & _ & _ & E & HM).
    split; [exact E|]. symmetry. exact (Forall2_len _ _ _ HM).
  Qed.
  Lemma many_found s : (0 <= s < o_scenarios o)%Z -> found_in (f s) (st_solver (sts s)) (st_solver st) /\ same_decisions s (os s) o (sts s) st (f s).
  Proof.
    intros Hs. destruct (Hos s Hs) as [HO H]. pose proof (Hf s Hs) as HC.
    destruct (built_known o Hd Hn st Hst) as (ports & sv & rss & Ls & T & B).
    destruct (built_known (os s) (one_distinct s o _ HO Hd) (one_named s o _ HO Hn) (sts s) H) as (ports1 & sv1 & rss1 & Ls1 & T1 & B1).
    assert (EP : ports1 = ports) by (pose proof (bf_ports _ _ _ _ _ _ _ B1) as E1; rewrite (one_ports s o _ HO), (bf_ports _ _ _ _ _ _ _ B) in E1; congruence). subst ports1.
    split; [constructor|].
    - apply HC.
    - intros i v E. destruct (Forall2_nth_right _ _ _ (bf_made _ _ _ _ _ _ _ B1) _ _ E) as (a & Ea & Ma). destruct (Forall2_nth_left _ _ _ (bf_made _ _ _ _ _ _ _ B) _ _ (proj2 HC _ _ Ea)) as (w & Ew & Mw).
      exists w. split; [exact Ew|]. eapply (made_in s o (os s) HO Hs (set_ports initial_state ports) (set_ports initial_state ports)); eauto. eapply nth_error_In; eauto.
    - intros r1 Hr1. rewrite (bf_all_rows _ _ _ _ _ _ _ B1) in Hr1. apply in_concat in Hr1. destruct Hr1 as (rows1 & HR1 & Hr1). apply In_nth_error in HR1. destruct HR1 as [i HR1].
      destruct (Forall2_nth_right _ _ _ (bf_rows _ _ _ _ _ _ _ B1) _ _ HR1) as (ck & Eck & K1). rewrite (one_row_pairs s o _ HO) in Eck.
      destruct (Forall2_nth_left _ _ _ (bf_rows _ _ _ _ _ _ _ B) _ _ Eck) as (rows & HR & K).
      destruct (block_copied s o (os s) HO Hs Hgood (bf_req _ _ _ _ _ _ _ B) sv sv1 (f s) HC (bf_created _ _ _ _ _ _ _ B) (bf_created _ _ _ _ _ _ _ B1)) with (ck := ck) (rows := rows) (rows1 := rows1) as [G _]; auto.
      { rewrite (bf_state _ _ _ _ _ _ _ B). exact (bf_ports _ _ _ _ _ _ _ B). }
      { now rewrite (bf_state _ _ _ _ _ _ _ B), (bf_state _ _ _ _ _ _ _ B1). }
      { eapply nth_error_In; eauto. }
      { apply (row_pairs_good o); [exact Hgood|]. eapply nth_error_In; eauto. }
      destruct (G r1 Hr1) as (r & Hr & Cr). exists r. split; [|exact Cr]. rewrite (bf_all_rows _ _ _ _ _ _ _ B). apply in_concat. exists rows. split; [eapply nth_error_In; eauto|exact Hr].
    - destruct (built_variables o st Hd Hn Hst) as (p & _ & _ & E & _). intros c n t.
      split; intros i Hi; apply (lookup_in s o (os s) HO Hs Hgood st (sts s) (f s) HC E (proj1 (many_created s Hs))) in Hi; apply Hi.
  Qed.
  Lemma many_rows r : In r (s_rows (st_solver st)) -> exists s r1, (0 <= s < o_scenarios o)%Z /\ In r1 (s_rows (st_solver (sts s))) /\ copied_row (f s) r1 r.
  Proof.
    intros Hr. destruct (built_known o Hd Hn st Hst) as (ports & sv & rss & Ls & T & B).
    rewrite (bf_all_rows _ _ _ _ _ _ _ B) in Hr. apply in_concat in Hr. destruct Hr as (rows & HR & Hr). apply In_nth_error in HR. destruct HR as [i HR].
    destruct (Forall2_nth_right _ _ _ (bf_rows _ _ _ _ _ _ _ B) _ _ HR) as (ck & Eck & K). pose proof K as (ic & I1 & I2). unfold create_constraint in I2. inv_bind I2. inv_bind I2. rename v into X, v0 into ix.
    apply (mapM_In _ _ _ _ I2) in Hr. destruct Hr as ([t s] & Hin & Er). cbn [fst snd] in Er. apply in_prod_iff in Hin. destruct Hin as [Ht Hz].
    assert (Hs : (0 <= s < o_scenarios o)%Z). { unfold get_scenario_indices in Hz. destruct (ix_scenario ix); [now apply zrange_In in Hz|destruct Hz as [<-|[]]; lia]. }
    destruct (Hos s Hs) as [HO Hb]. destruct (built_known (os s) (one_distinct s o _ HO Hd) (one_named s o _ HO Hn) (sts s) Hb) as (ports1 & sv1 & rss1 & Ls1 & T1 & B1).
    assert (EP : ports1 = ports) by (pose proof (bf_ports _ _ _ _ _ _ _ B1) as E1; rewrite (one_ports s o _ HO), (bf_ports _ _ _ _ _ _ _ B) in E1; congruence). subst ports1.
    assert (Eck1 : nth_error (row_pairs (os s)) i = Some ck) by (now rewrite (one_row_pairs s o _ HO)).
    destruct (Forall2_nth_left _ _ _ (bf_rows _ _ _ _ _ _ _ B1) _ _ Eck1) as (rows1 & HR1 & K1).
    destruct (block_copied s o (os s) HO Hs Hgood (bf_req _ _ _ _ _ _ _ B) sv sv1 (f s) (Hf s Hs) (bf_created _ _ _ _ _ _ _ B) (bf_created _ _ _ _ _ _ _ B1)) with (ck := ck) (rows := rows) (rows1 := rows1) as [_ G]; auto.
    { rewrite (bf_state _ _ _ _ _ _ _ B). exact (bf_ports _ _ _ _ _ _ _ B). }
    { now rewrite (bf_state _ _ _ _ _ _ _ B), (bf_state _ _ _ _ _ _ _ B1). }
    { eapply nth_error_In; eauto. }
    { apply (row_pairs_good o); [exact Hgood|]. eapply nth_error_In; eauto. }
    destruct (G ic X ix t s r I1 H H0 Ht eq_refl Er) as (r1 & Hr1 & C). exists s, r1. split; [exact Hs|]. split; [|exact C].
    rewrite (bf_all_rows _ _ _ _ _ _ _ B1). apply in_concat. exists rows1. split; [eapply nth_error_In; eauto|exact Hr1].
  Qed.
  Lemma many_columns j : (j < List.length (s_vars (st_solver st)))%nat ->
    exists s i, (0 <= s < o_scenarios o)%Z /\ (i < List.length (s_vars (st_solver (sts s))))%nat /\ f s i = j.
  Proof.
    intros Hj. destruct (built_variables o st Hd Hn Hst) as (p & _ & _ & _ & HM). rewrite <- (Forall2_len _ _ _ HM) in Hj.
    destruct (nth_error (var_insts o) j) as [a|] eqn:E; [|apply nth_error_None in E; lia]. destruct a as [[c v] [t sc]]. pose proof (nth_error_In _ _ E) as Hin.
    assert (G : exists s a1, (0 <= s < o_scenarios o)%Z /\ In a1 (var_insts (os s)) /\ inst_in s a1 = (c, v, (t, sc))).
    { destruct sc as [z|].
      - assert (Hz : (0 <= z < o_scenarios o)%Z) by (apply var_insts_In in Hin; apply Hin). exists z, (c, v, (t, Some 0%Z)). split; [exact Hz|]. split; [|reflexivity].
        destruct (Hos z Hz) as [HO _]. eapply (one_instance_back z o (os z) HO); eauto.
      - exists 0%Z, (c, v, (t, None)). split; [lia|]. split; [|reflexivity]. destruct (Hos 0%Z) as [HO _]; [lia|]. now apply (one_instance_none 0%Z o (os 0%Z) HO). }
    destruct G as (s & a1 & Hs & Ha & Ei). apply In_nth_error in Ha. destruct Ha as [i Ea]. exists s, i. split; [exact Hs|]. split.
    - rewrite (proj2 (many_created s Hs)). apply nth_error_Some. congruence.
    - pose proof (proj2 (Hf s Hs) _ _ Ea) as E2. rewrite Ei in E2. pose proof (keys_nodup o Hd Hn) as ND. apply NoDup_map_inv in ND. rewrite NoDup_nth_error in ND.
      apply ND; [apply nth_error_Some; congruence|congruence].
  Qed.
  Lemma many_shared s s' i i' : (0 <= s < o_scenarios o)%Z -> (0 <= s' < o_scenarios o)%Z -> s <> s' ->
    (i < List.length (s_vars (st_solver (sts s))))%nat -> (i' < List.length (s_vars (st_solver (sts s'))))%nat ->
    f s i = f s' i' <-> i = i' /\ exists c n t, get_component_variable (os s) (sts s) t None c n = Ok i.
  Proof.
    intros Hs Hs' Hne Hi Hi'. destruct (Hos s Hs) as [HO _]. rewrite (proj2 (many_created s Hs)) in Hi. rewrite (proj2 (many_created s' Hs')) in Hi'. rewrite (many_instances s' s Hs' Hs) in Hi'.
    destruct (nth_error (var_insts (os s)) i) as [a|] eqn:E; [|apply nth_error_None in E; lia].
    destruct (nth_error (var_insts (os s)) i') as [a'|] eqn:E'; [|apply nth_error_None in E'; lia].
    pose proof (proj2 (Hf s Hs) _ _ E) as F. assert (E'' : nth_error (var_insts (os s')) i' = Some a') by (now rewrite (many_instances s' s Hs' Hs)). pose proof (proj2 (Hf s' Hs') _ _ E'') as F'.
    destruct a as [[c v] [t sc]], a' as [[c' v'] [t' sc']]. destruct (one_instance s o (os s) HO Hs _ _ _ _ (nth_error_In _ _ E)) as [G _]. destruct (one_instance s o (os s) HO Hs _ _ _ _ (nth_error_In _ _ E')) as [G' _].
    cbn [inst_in] in F, F'. split.
    - intros EF. rewrite EF, F' in F. injection F as -> -> -> EZ. assert (sc = None /\ sc' = None) as [-> ->].
      { destruct G as [-> | ->], G' as [-> | ->]; cbn in EZ; split; congruence. }
      split; [pose proof (many_nodup s Hs) as ND; apply NoDup_map_inv in ND; rewrite NoDup_nth_error in ND; apply ND; [exact Hi|congruence]|].
      pose proof (nth_error_In _ _ E) as Hin. apply var_insts_In in Hin. destruct Hin as (_ & _ & Ht & _). exists (co_id c), (v_name v), t.
      apply (lookup_iff (os s) (sts s) _ _ _ _ _ (one_usable s o _ HO Hu) (one_distinct s o _ HO Hd) (one_named s o _ HO Hn) (proj1 (many_created s Hs))).
      rewrite nth_error_map, E. cbn [option_map inst_key]. do 2 f_equal. destruct t as [t|]; [|reflexivity]. cbn. f_equal. symmetry. apply Z.mod_small. apply Ht.
    - intros [-> (d & n & t'' & H)]. apply (lookup_iff (os s) (sts s) _ _ _ _ _ (one_usable s o _ HO Hu) (one_distinct s o _ HO Hd) (one_named s o _ HO Hn) (proj1 (many_created s Hs))) in H.
      rewrite nth_error_map, E in H. cbn [option_map inst_key] in H. injection H as _ _ _ ->. rewrite E in E'. injection E' as <- <- <- <-. change (read_in s None) with (@None Z) in F. change (read_in s' None) with (@None Z) in F'.
      rewrite <- F' in F. pose proof (keys_nodup o Hd Hn) as ND. apply NoDup_map_inv in ND. rewrite NoDup_nth_error in ND. apply ND; [apply nth_error_Some; congruence|exact F].
  Qed.
  Lemma many_together : put_together o st os sts f.
  Proof. constructor; [apply many_found|apply many_columns|apply many_rows|apply many_shared]. Qed.
End Many.
Lemma scenarios_together o st os sts : good_problem o -> constraints_by_scenario o -> scenario_bounds_follow o -> build_problem o = Ok st ->
  (forall s, (0 <= s < o_scenarios o)%Z -> one_scenario s o (os s) /\ build_problem (os s) = Ok (sts s)) -> exists f, put_together o st os sts f.
Proof. intros Hg HB HF Hst Hos. destruct (many_positions o os sts Hg Hos) as [f Hf]. exists f. now apply many_together. Qed.
