(** Facts on the parts of decomposed problems (C70). *)
From Coq Require Import Lia Permutation.
From Verif Require Import Base BaseFacts Expr Visitors LinearExpr Linearize Expansion Model Study Strategy Optim Tree Fusion Benders
  SpecExpr SpecSyntax SpecVisitors SpecExpansion SpecLinear SpecModel SpecOptim SpecReady SpecFusion SpecBenders SpecDecompose
  ExprFacts CopyFacts VisitorFacts DegreeFacts ExpansionFacts LinearFacts ModelFacts OptimFacts OptimMeaning OptimProblem ReadyFacts OptimReady.

(** ** Expressions that depend neither on the timestep nor on the scenario *)
Definition fixed_node (n : network) (x : expr) : Prop :=
  match x with
  | Lit _ | Neg _ | Mul _ _ | Div _ _ => True
  | Add l => l <> []
  | CVar c v => exists k a, In k (all_components n) /\ co_id k = c /\ In a (map snd (m_variables (co_model k))) /\ v_name a = v /\
      fixed_index (v_structure a)
  | CParam c p => exists k a, In k (all_components n) /\ co_id k = c /\ In a (map snd (m_parameters (co_model k))) /\ p_name a = p /\
      fixed_index (p_structure a)
  | _ => False
  end.
Lemma fixed_carried c N n : (forall a b k, ~ N (Cmp a b k)) -> (forall a k, ~ N (TShift a k)) -> (forall a k, ~ N (TEval a k)) ->
  (forall a f t, ~ N (TSum a f t)) -> (forall a, ~ N (AllSum a)) -> (forall a op, ~ N (ScenOp a op)) -> carried c N (fixed_node n).
Proof. intros H1 H2 H3 H4 H5 H6. unfold carried. cbn. repeat split; intros; try easy; try congruence; exfalso;
  first [eapply H1; eassumption|eapply H2; eassumption|eapply H3; eassumption|eapply H4; eassumption|eapply H5; eassumption|eapply H6; eassumption]. Qed.
(** after expansion: names without index *)
Definition plain_index (x : expr) : Prop :=
  match x with
  | Lit _ | Neg _ | Mul _ _ | Div _ _ => True
  | Add l => l <> []
  | PVar _ _ NoTimeIndex NoScenarioIndex | PParam _ _ NoTimeIndex NoScenarioIndex => True
  | _ => False
  end.


Section Settled.
  Context (o : settings).
  Notation n := (o_network o).
  Context (Hb : built_network n) (Hd : distinct_ids n) (Hn : named_network n).

  Lemma component_is k : In k (all_components n) -> forall k', get_component n (co_id k) = Ok k' -> k' = k.
  Proof.
    intros Hc k' E. destruct (get_component_known _ _ _ Hb E) as [Hin Hid]. eapply NoDup_map_inj_in; eauto.
  Qed.
  Lemma structure_is {A} (get : model -> dict string A) (f : A -> indexing) (nm : A -> string) k a ix :
    named_dict nm (get (co_model k)) -> In k (all_components n) -> In a (map snd (get (co_model k))) ->
    component_structure o get f (co_id k) (nm a) = Ok ix -> ix = f a.
  Proof.
    intros [N H] Hk Ha E. unfold component_structure in E. inv_bind E. rewrite (component_is k Hk _ H0) in *.
    apply in_map_iff in Ha. destruct Ha as ([k' a'] & E1 & Hin). cbn in E1. subst a'.
    rewrite (H _ _ Hin), (In_dget_nodup String.eqb String.eqb_eq _ _ _ N Hin) in E. congruence.
  Qed.
  Lemma instantiate_settled st c e e' : In c (all_components n) -> settled (co_model c) e ->
    instantiate st e (co_id c) = Ok e' -> all_nodes (fixed_node n) e'.
  Proof.
    intros Hc He H. unfold instantiate in H. inv_bind H.
    assert (F : all_nodes (fixed_node n) v).
    { refine (copy_nodes (context_adder (co_id c)) (settled_node (co_model c)) _ (fun _ => True) e _ _ _ He (all_leaves_true e) H0).
      - apply fixed_carried; cbn; tauto.
      - intros x x' Hk HN _ HE. destruct x; cbn in HN, HE; try contradiction; try discriminate; injection HE as <-; cbn; split; auto.
        + destruct HN as (a & Ha & Hna & Hf). exists c, a. auto.
        + destruct HN as (a & Ha & Hna & Hf). exists c, a. auto. }
    refine (copy_nodes (port_resolver (co_id c) (st_ports st)) (fixed_node n) _ (fun _ => True) v _ _ _ F (all_leaves_true v) H).
    - apply fixed_carried; cbn; tauto.
    - intros x x' Hk HN _ HE. destruct x; cbn in HN, HE; try contradiction; injection HE as <-; cbn; auto.
  Qed.
  Lemma expand_settled d d' ev ev' e : all_nodes (fixed_node n) e ->
    expand d ev (data_structure_provider o) e = expand d' ev' (data_structure_provider o) e /\
    forall e', expand d ev (data_structure_provider o) e = Ok e' -> all_nodes plain_index e'.
  Proof.
    induction e using expr_ind'; intros HN.
    3:{ apply all_nodes_Add in HN. destruct HN as [Hl HN]. rewrite Forall_forall in H, HN. cbn [expand].
        assert (E : mapM (expand d ev (data_structure_provider o)) l = mapM (expand d' ev' (data_structure_provider o)) l)
          by (apply mapM_ext; rewrite Forall_forall; intros a Ha; apply H; auto).
        rewrite <- E. split; [reflexivity|]. intros e' He. inv_bind He.
        assert (F : Forall (all_nodes plain_index) v).
        { apply (mapM_Forall (expand d ev (data_structure_provider o)) _ l); [exact H0|]. intros x y Ha Hab. eapply H; eauto. }
        destruct v as [|x v]; cbn in He; [discriminate|]. injection He as <-. inversion F; subst.
        apply fold_add_nodes'; auto; cbn; congruence. }
    all: pose proof (all_nodes_root _ _ HN) as HR; cbn in HR; try contradiction; cbn [all_nodes] in HN; cbn [expand].
    - split; [reflexivity|]. intros e' [= <-]. now split.
    - destruct (IHe (proj2 HN)) as [E F]. rewrite E. split; [reflexivity|]. intros e' He. inv_bind He. injection He as <-.
      rewrite <- E in H. cbn. split; [exact I|eauto].
    - destruct HN as (_ & HN1 & HN2). destruct (IHe1 HN1) as [E1 F1], (IHe2 HN2) as [E2 F2]. rewrite E1, E2. split; [reflexivity|].
      intros e' He. inv_bind He. inv_bind He. injection He as <-. rewrite <- E1 in H. rewrite <- E2 in H0. cbn. eauto.
    - destruct HN as (_ & HN1 & HN2). destruct (IHe1 HN1) as [E1 F1], (IHe2 HN2) as [E2 F2]. rewrite E1, E2. split; [reflexivity|].
      intros e' He. inv_bind He. inv_bind He. injection He as <-. rewrite <- E1 in H. rewrite <- E2 in H0. cbn. eauto.
    - split; [reflexivity|]. intros e' He. inv_bind He. injection He as <-. cbn in H.
      destruct HR as (k & a & Hk & <- & Ha & <- & Ht & Hs).
      apply (structure_is m_variables v_structure v_name) in H; auto; [|apply (Hn k Hk)]. subst v.
      cbn. unfold initial_time_index, initial_scenario_index. rewrite Ht, Hs. now split.
    - split; [reflexivity|]. intros e' He. inv_bind He. injection He as <-. cbn in H.
      destruct HR as (k & a & Hk & <- & Ha & <- & Ht & Hs).
      apply (structure_is m_parameters p_structure p_name) in H; auto; [|apply (Hn k Hk)]. subst v.
      cbn. unfold initial_time_index, initial_scenario_index. rewrite Ht, Hs. now split.
  Qed.
  Lemma fixed_or a b : fixed_index a -> fixed_index b -> fixed_index (ix_or a b).
  Proof. unfold fixed_index, ix_or. cbn. intros [-> ->] [-> ->]. auto. Qed.
  Lemma combine_loop_fixed l : Forall (fun e => all_nodes (fixed_node n) e -> forall ix, context_indexing o e = Ok ix -> fixed_index ix) l ->
    Forall (all_nodes (fixed_node n)) l ->
    forall r ix, fixed_index r -> combine_loop (context_indexing o) r l = Ok ix -> fixed_index ix.
  Proof.
    induction 1 as [|a l Ha Hl IH]; intros HF r ix Hr H; cbn in H; [congruence|]. inversion HF; subst. inv_bind H.
    assert (F : fixed_index (ix_or r v)) by (apply fixed_or; eauto).
    destruct (is_time_scenario_varying (ix_or r v)); [congruence|]. eapply IH; eauto.
  Qed.
  Lemma indexing_settled e : all_nodes (fixed_node n) e -> forall ix, context_indexing o e = Ok ix -> fixed_index ix.
  Proof.
    induction e using expr_ind'; intros HN ix Hix.
    3:{ apply all_nodes_Add in HN. destruct HN as [Hl HN]. destruct l as [|a l]; [contradiction|]. inversion H; inversion HN; subst.
        unfold context_indexing in Hix. cbn [compute_indexation combine_ix] in Hix. inv_bind Hix.
        assert (F : fixed_index v) by (eapply H2; eauto). destruct (is_time_scenario_varying v); [congruence|].
        eapply combine_loop_fixed; eauto. }
    all: pose proof (all_nodes_root _ _ HN) as HR; cbn in HR; try contradiction; cbn [all_nodes] in HN;
      unfold context_indexing in *; cbn [compute_indexation] in Hix.
    - injection Hix as <-. now split.
    - eapply IHe; eauto. apply HN.
    - inv_bind Hix. assert (F : fixed_index v) by (eapply IHe1; eauto; apply HN). destruct (is_time_scenario_varying v); [congruence|].
      inv_bind Hix. injection Hix as <-. apply fixed_or; [exact F|]. eapply IHe2; eauto. apply HN.
    - inv_bind Hix. assert (F : fixed_index v) by (eapply IHe1; eauto; apply HN). destruct (is_time_scenario_varying v); [congruence|].
      inv_bind Hix. injection Hix as <-. apply fixed_or; [exact F|]. eapply IHe2; eauto. apply HN.
    - destruct HR as (k & a & Hk & <- & Ha & <- & Hf). cbn in Hix.
      apply (structure_is m_variables v_structure v_name) in Hix; auto; [|apply (Hn k Hk)]. now subst ix.
    - destruct HR as (k & a & Hk & <- & Ha & <- & Hf). cbn in Hix.
      apply (structure_is m_parameters p_structure p_name) in Hix; auto; [|apply (Hn k Hk)]. now subst ix.
  Qed.
End Settled.

(** linear forms do not depend on the step *)
Lemma linear_plain g g' t s t' s' e : (forall c n, g c n None None = g' c n None None) -> all_nodes plain_index e ->
  lin_build t s (Some g) e = lin_build t' s' (Some g') e.
Proof.
  intros Hg. induction e using expr_ind'; intros HN.
  3:{ apply all_nodes_Add in HN. destruct HN as [_ HN]. cbn [lin_build]. rewrite Forall_forall in H, HN.
      replace (mapM (lin_build t' s' (Some g')) l) with (mapM (lin_build t s (Some g)) l); [reflexivity|].
      apply mapM_ext. rewrite Forall_forall. intros a Ha. apply H; auto. }
  all: pose proof (all_nodes_root _ _ HN) as HR; cbn in HR; try contradiction; cbn [all_nodes] in HN; cbn [lin_build].
  - reflexivity.
  - now rewrite IHe by apply HN.
  - now rewrite IHe1, IHe2 by apply HN.
  - now rewrite IHe1, IHe2 by apply HN.
  - destruct ti; try contradiction; destruct si; try contradiction. reflexivity.
  - destruct ti; try contradiction; destruct si; try contradiction. cbn. now rewrite Hg.
Qed.
Lemma evaluate_agree vp vp' e : all_nodes (fun x => match x with
    | CParam c p => get_component_parameter_value vp c p = get_component_parameter_value vp' c p
    | CVar c p => get_component_variable_value vp c p = get_component_variable_value vp' c p
    | Var p => get_variable_value vp p = get_variable_value vp' p
    | Param p => get_parameter_value vp p = get_parameter_value vp' p
    | _ => True end) e -> evaluate vp e = evaluate vp' e.
Proof.
  induction e using expr_ind'; intros HN.
  3:{ apply all_nodes_Add in HN. destruct HN as [_ HN]. cbn [evaluate]. rewrite Forall_forall in H, HN.
      replace (mapM (evaluate vp') l) with (mapM (evaluate vp) l); [reflexivity|].
      apply mapM_ext. rewrite Forall_forall. intros a Ha. apply H; auto. }
  all: pose proof (all_nodes_root _ _ HN) as HR; cbn in HR; cbn [all_nodes] in HN; cbn [evaluate]; auto.
  - now rewrite IHe by apply HN.
  - now rewrite IHe1, IHe2 by apply HN.
  - now rewrite IHe1, IHe2 by apply HN.
Qed.

(** ** Built problems read by names *)
Definition named_values (o : settings) (y : string -> Qc) : assignment := fun k =>
  y (solver_variable_name o (tk_component k) (tk_variable k) (wrapped o (tk_time k)) (tk_scenario k)).
Definition form_holds (x : assignment) (lb ub : num) (L : lin_expr) : Prop :=
  exists v, terms_value x (le_terms L) = Some v /\ at_least (nsub lb (nadd n0 (le_constant L))) v /\
    at_most (nsub ub (nadd n0 (le_constant L))) v.
(** all rows of a constraint *)
Definition constraint_holds (o : settings) (st : state) (x : assignment) (ck : component * constraint) : Prop :=
  exists ic ex ix, instantiate_constraint st (co_id (fst ck)) (snd ck) = Ok ic /\ context_expand o (c_expr ic) = Ok ex /\
    constraint_indexing o ic = Ok ix /\
    forall t s, In t (get_time_indices o ix) -> In s (get_scenario_indices o ix) ->
    exists L lb ub, context_linearize o ex (Some t) (Some s) = Ok L /\ compute_expression_value o (c_lower ic) (Some t) (Some s) = Ok lb /\
      compute_expression_value o (c_upper ic) (Some t) (Some s) = Ok ub /\ form_holds x lb ub L.
Definition objective_form (o : settings) (st : state) (ce : component * expr) : result lin_expr :=
  inst <- instantiate st (modify_expression (o_risk o) (snd ce)) (co_id (fst ce)) ;;
  expanded <- context_expand o inst ;; context_linearize o expanded None None.
Definition contribution_at (g : assignment -> lin_expr -> option Qc) (o : settings) (st : state) (x : assignment) (ce : component * expr) : option Qc :=
  match objective_form o st ce with Ok L => g x L | Err _ => None end.
(** a form without its constant *)
Definition le_cost (x : assignment) (L : lin_expr) : option Qc := terms_value x (le_terms L).

Lemma create_objective_cost o c st e st' : NoDup (map fst (s_objective (st_solver st))) ->
  create_component_objective o c st (Some e) = Ok st' ->
  exists L, contribution_form o st (c, e) L /\ NoDup (map fst (s_objective (st_solver st'))) /\
    forall y x, reads o st y x ->
    coefs_value y (s_objective (st_solver st')) = oplus (coefs_value y (s_objective (st_solver st))) (le_cost x L).
Proof.
  intros Hnd H. cbn in H. unfold create_objective in H. inv_bind H. inv_bind H. inv_bind H. inv_bind H.
  exists v1. split; [exists v, v0; auto|]. assert (Hs : st' = add_offset (le_constant v1) v2) by congruence. subst st'. split.
  - cbn. destruct (objective_terms_value o (fun _ => 0%Qc) (fun _ => 0%Qc) (le_terms v1) st v2) as [HA _]; auto.
    intros k i _. reflexivity.
  - intros y x Hr. destruct (objective_terms_value o y x (le_terms v1) st v2 Hr Hnd H3) as [_ HB]. exact HB.
Qed.
Lemma create_objectives_cost o st st' : NoDup (map fst (s_objective (st_solver st))) ->
  create_objectives o st = Ok st' ->
  exists Ls, Forall2 (contribution_form o st) (contributions o) Ls /\
    forall y x, reads o st y x ->
    coefs_value y (s_objective (st_solver st')) = oplus (coefs_value y (s_objective (st_solver st))) (osum (map (le_cost x) Ls)).
Proof.
  intros Hnd H. apply create_objectives_flat in H. rewrite contributions_given.
  revert st Hnd H. induction (obj_pairs o) as [|[c [e|]] l IH]; intros st Hnd H; cbn [foldM fst snd] in H.
  - exists []. split; [constructor|]. intros y x _. injection H as <-. cbn. now rewrite oplus_0_r.
  - inv_bind H. pose proof H0 as Hobj. apply create_objective_cost in H0; [|exact Hnd].
    destruct H0 as (L & HL & Hnd1 & Hv).
    cbn in Hobj. apply create_objective_same in Hobj. destruct Hobj as [(E1 & E2 & _) _].
    destruct (IH v Hnd1 H) as (Ls & HLs & Hvs). exists (L :: Ls). cbn [given flat_map fst snd app]. split.
    + constructor; [exact HL|]. eapply Forall2_weaken; [|exact HLs]. intros a b. now apply contribution_form_same.
    + intros y x Hr. rewrite (Hvs y x), (Hv y x Hr).
      * cbn [map]. rewrite osum_cons. symmetry. apply oplus_assoc.
      * intros k i Hi. apply Hr. unfold get_solver_var in *. now rewrite (get_variable_same o st v) in Hi.
  - cbn in H. exact (IH st Hnd H).
Qed.

Lemma make_constraint_holds o st t s name lb ub e row : make_constraint o st t s name lb ub e = Ok row ->
  forall y x, reads o st y x -> (row_sat y row <-> form_holds x lb ub e).
Proof.
  unfold make_constraint. intros H y x Hr. inv_bind H. injection H as <-.
  destruct (add_terms_value o st y x (le_terms e) Hr [] v (NoDup_nil _) H0) as [_ Hv].
  unfold row_sat, form_holds. cbn [sr_coefs sr_lb sr_ub]. rewrite Hv. rewrite oplus_0_r. reflexivity.
Qed.
Lemma Forall2_nth_left {A B} (R : A -> B -> Prop) l m : Forall2 R l m -> forall i a, nth_error l i = Some a ->
  exists b, nth_error m i = Some b /\ R a b.
Proof. induction 1 as [|a b l m Hab Hl IH]; intros [|i] x Hx; cbn in Hx |- *; try discriminate; [injection Hx as <-; eauto|eauto]. Qed.
Lemma Forall2_in_right {A B} (R : A -> B -> Prop) l m : Forall2 R l m -> forall b, In b m -> exists a, In a l /\ R a b.
Proof. induction 1 as [|a b l m Hab Hl IH]; intros x Hx; [contradiction|]. destruct Hx as [<-|Hx]; [exists a; split; [now left|exact Hab]|].
  destruct (IH x Hx) as (c & Hc & HR). exists c. split; [now right|exact HR]. Qed.
Lemma named_reads o st y : usable_block o -> distinct_ids (o_network o) -> named_network (o_network o) -> build_problem o = Ok st ->
  reads o st (by_name (st_solver st) y) (named_values o y).
Proof.
  intros Hu Hd Hn H [c n t s] i Hi. destruct (built_variables o st Hd Hn H) as (ports & _ & _ & Hv & HF).
  unfold get_solver_var in Hi. cbn in Hi. apply lookup_iff in Hi; auto. apply nth_inst in Hi. destruct Hi as (k & v & Hi & <- & <-).
  unfold named_values, by_name. cbn.
  destruct (Forall2_nth_left _ _ _ HF _ _ Hi) as (sv & Esv & Hm). rewrite Esv. now rewrite (made_name _ _ _ _ Hm).
Qed.
Section Built.
  Context (o : settings) (st : state).
  Hypothesis (Hu : usable_block o) (Hd : distinct_ids (o_network o)) (Hn : named_network (o_network o)).
  Hypothesis H : build_problem o = Ok st.

  Lemma same_rows_steps : exists st1 rss, Forall2 (block_rows o st1) (row_pairs o) rss /\ s_rows (st_solver st) = concat rss /\
    same_variables st1 st.
  Proof.
    destruct (build_steps o st H) as (ports & st1 & st2 & _ & Hp & H1 & H2 & H3).
    destruct (created_state o (set_ports initial_state ports) st1 Hd Hn eq_refl eq_refl H1) as (Hv & HF & Hpo & Hro & _).
    destruct (create_constraints_spec _ _ _ H2) as (rss & HR & ->). destruct (create_objectives_same _ _ _ H3) as [HS HS'].
    exists st1, rss. split; [exact HR|]. split; [|exact HS]. rewrite HS'. cbn. rewrite Hro. reflexivity.
  Qed.
  Lemma reads_same st1 y x : same_variables st1 st -> reads o st y x -> reads o st1 y x.
  Proof.
    intros (E & _ & _) Hr k i Hi. apply Hr. unfold get_solver_var in *. now rewrite (get_variable_same o st1 st _ _ _ _ E).
  Qed.
  Lemma instantiate_constraint_same st1 st2 cid k : st_ports st2 = st_ports st1 ->
    instantiate_constraint st2 cid k = instantiate_constraint st1 cid k.
  Proof. intros E. unfold instantiate_constraint. now rewrite !(instantiate_same st1 st2) by exact E. Qed.
  Lemma rows_hold_named y : rows_hold y (st_solver st) <->
    forall ck, In ck (row_pairs o) -> constraint_holds o st (named_values o y) ck.
  Proof.
    destruct same_rows_steps as (st1 & rss & HF & Er & HS). pose proof (named_reads o st y Hu Hd Hn H) as Hr.
    pose proof (reads_same _ _ _ HS Hr) as Hr1. unfold rows_hold. rewrite Er. clear Er.
    set (x := named_values o y) in *. set (z := by_name (st_solver st) y) in *.
    assert (G : forall ck rows, block_rows o st1 ck rows -> (forall r, In r rows -> row_sat z r) <-> constraint_holds o st x ck).
    { intros [c k] rows (ic & Hic & Hrows). cbn [fst snd] in Hic. unfold create_constraint in Hrows. inv_bind Hrows. inv_bind Hrows.
      apply mapM_ok in Hrows.
      assert (Hic' : instantiate_constraint st (co_id c) k = Ok ic).
      { rewrite <- Hic. apply instantiate_constraint_same. apply HS. }
      split.
      - intros Hall. exists ic, v, v0. split; [exact Hic'|]. split; [exact H0|]. split; [exact H1|]. intros t s Ht Hs.
        assert (Hin : In (t, s) (list_prod (get_time_indices o v0) (get_scenario_indices o v0))) by (apply in_prod; auto).
        apply In_nth_error in Hin. destruct Hin as [i Hi]. destruct (Forall2_nth_left _ _ _ Hrows _ _ Hi) as (r & Er & Hcr).
        cbn [fst snd] in Hcr. unfold create_row in Hcr. inv_bind Hcr. inv_bind Hcr. inv_bind Hcr. exists v1, v2, v3.
        repeat (split; [assumption|]). apply (make_constraint_holds _ _ _ _ _ _ _ _ _ Hcr _ _ Hr1). apply Hall. eapply nth_error_In; eauto.
      - intros (ic' & ex & ix & Hi & He & Hx & Hall) r Hin. cbn [fst snd] in Hi. assert (ic' = ic) by congruence. subst ic'.
        assert (ex = v) by congruence. assert (ix = v0) by congruence. subst ex ix.
        destruct (Forall2_in_right _ _ _ Hrows _ Hin) as ([t s] & Hts & Hcr). apply in_prod_iff in Hts.
        destruct (Hall t s (proj1 Hts) (proj2 Hts)) as (L & lb & ub & E1 & E2 & E3 & Hf).
        cbn [fst snd] in Hcr. unfold create_row in Hcr. rewrite E1 in Hcr. cbn [bind] in Hcr. rewrite E2 in Hcr. cbn [bind] in Hcr.
        rewrite E3 in Hcr. cbn [bind] in Hcr. apply (make_constraint_holds _ _ _ _ _ _ _ _ _ Hcr _ _ Hr1). exact Hf. }
    clear HS Hr Hr1. induction HF as [|ck rows cks rss Hck HF IH]; cbn; [split; contradiction|]. split.
    - intros Hall ck' [<-|Hin]; [apply (G ck rows Hck); intros r Hr'; apply Hall; apply in_or_app; now left|].
      apply IH; [|exact Hin]. intros r Hr'. apply Hall. apply in_or_app. now right.
    - intros Hall r Hin. apply in_app_or in Hin. destruct Hin as [Hin|Hin]; [exact (proj2 (G ck rows Hck) (Hall ck (or_introl eq_refl)) r Hin)|].
      apply IH; [|exact Hin]. intros ck' Hin'. apply Hall. now right.
  Qed.
  Lemma forms_same st1 g x Ls : st_ports st = st_ports st1 -> Forall2 (contribution_form o st1) (contributions o) Ls ->
    osum (map (g x) Ls) = osum (map (contribution_at g o st x) (contributions o)).
  Proof.
    intros HS HL. f_equal. induction HL as [|ce L ces Ls Hce HL IH]; [reflexivity|]. cbn [map]. f_equal; [|exact IH].
    destruct Hce as (i & ex & Hi & He & Hli). unfold contribution_at, objective_form.
    rewrite (instantiate_same st1 st) by exact HS. rewrite Hi. cbn [bind].
    rewrite He. cbn [bind]. rewrite Hli. reflexivity.
  Qed.
  Lemma objective_named y : objective_value (by_name (st_solver st) y) (st_solver st) =
    osum (map (contribution_at le_value o st (named_values o y)) (contributions o)).
  Proof.
    destruct (build_steps o st H) as (ports & st1 & st2 & _ & Hp & H1 & H2 & H3).
    destruct (created_state o (set_ports initial_state ports) st1 Hd Hn eq_refl eq_refl H1) as (Hv & HF & Hpo & Hro & Hob & Hof).
    destruct (create_constraints_spec _ _ _ H2) as (rss & HR & ->). destruct (create_objectives_same _ _ _ H3) as [HS HS'].
    assert (ND : NoDup (map fst (s_objective (st_solver (set_rows st1 (s_rows (st_solver st1) ++ concat rss)))))) by (cbn; rewrite Hob; constructor).
    destruct (create_objectives_value _ _ _ ND H3) as (Ls & HL & Hval).
    rewrite (Hval _ (named_values o y)) by (apply (reads_same _ _ _ HS), named_reads; assumption).
    unfold objective_value at 1. cbn [set_rows st_solver s_offset s_objective]. rewrite Hob, Hof. cbn [set_ports initial_state st_solver new_solver s_offset s_objective].
    rewrite <- (forms_same _ le_value (named_values o y) Ls (proj1 (proj2 HS)) HL).
    cbn [coefs_value map osum nval n0 nz]. rewrite !oplus_0_l. reflexivity.
  Qed.
  Lemma cost_named y : cost y (st_solver st) = osum (map (contribution_at le_cost o st (named_values o y)) (contributions o)).
  Proof.
    destruct (build_steps o st H) as (ports & st1 & st2 & _ & Hp & H1 & H2 & H3).
    destruct (created_state o (set_ports initial_state ports) st1 Hd Hn eq_refl eq_refl H1) as (Hv & HF & Hpo & Hro & Hob & Hof).
    destruct (create_constraints_spec _ _ _ H2) as (rss & HR & ->). destruct (create_objectives_same _ _ _ H3) as [HS HS'].
    assert (ND : NoDup (map fst (s_objective (st_solver (set_rows st1 (s_rows (st_solver st1) ++ concat rss)))))) by (cbn; rewrite Hob; constructor).
    destruct (create_objectives_cost _ _ _ ND H3) as (Ls & HL & Hval). unfold cost.
    rewrite (Hval _ (named_values o y)) by (apply (reads_same _ _ _ HS), named_reads; assumption).
    cbn [set_rows st_solver s_offset s_objective]. rewrite Hob. cbn [set_ports initial_state st_solver new_solver s_offset s_objective].
    rewrite <- (forms_same _ le_cost (named_values o y) Ls (proj1 (proj2 HS)) HL).
    cbn [coefs_value map osum nval n0 nz]. rewrite !oplus_0_l. reflexivity.
  Qed.
End Built.

(** ** The parts and the whole *)
Lemma osum_two {A B} (f g h : B -> option Qc) (F G H : A -> list B) l :
  (forall a, In a l -> osum (map f (F a)) = oplus (osum (map g (G a))) (osum (map h (H a)))) ->
  osum (map f (flat_map F l)) = oplus (osum (map g (flat_map G l))) (osum (map h (flat_map H l))).
Proof.
  induction l as [|a l IH]; intros E; [reflexivity|]. cbn [flat_map]. rewrite !map_app, !osum_app. rewrite E by now left.
  rewrite IH by (intros b Hb; apply E; now right).
  rewrite <- !oplus_assoc. f_equal. rewrite !oplus_assoc. f_equal. apply oplus_comm.
Qed.
Section Parts.
  Context (o : settings).
  Notation n := (o_network o).
  Hypothesis (Hu : usable_block o) (Hb : built_network n) (Hd : distinct_ids n) (Hn : named_network n)
    (Hs : settled_network n) (Hdata : suitable_network n (o_database o)).
  Notation A := (whole o).
  Notation M := (investments o).
  Notation S := (operation o).

  Lemma usable_M : usable_block M.
  Proof. split; [discriminate|]. apply Hu. Qed.
  Lemma value_zero e : all_nodes (fixed_node n) e ->
    compute_expression_value M e (Some 0%Z) (Some 0%Z) = compute_expression_value A e (Some 0%Z) (Some 0%Z).
  Proof.
    intros HN. unfold compute_expression_value. apply evaluate_agree. revert HN. apply all_nodes_imp. intros x Hx. destruct x; try exact I; try contradiction.
    - reflexivity.
    - cbn in Hx. destruct Hx as (k & a & Hk & <- & Ha & <- & Ht & Hsc). cbn. unfold parameter_value.
      destruct (Hdata k a Hk Ha) as (d & Ed & It & Is). change (o_database A) with (o_database o). change (o_database M) with (o_database o).
      rewrite Ed. cbn [bind].
      destruct (absolute_timestep A 0%Z Hu) as (a1 & _ & ->). destruct (absolute_timestep M 0%Z usable_M) as (a2 & _ & ->). cbn [bind].
      apply (It Ht).
  Qed.
  Lemma parameter_none c p : parameter_value M None None c p = parameter_value A None None c p.
  Proof. reflexivity. Qed.
  (** values by name agree where there is no index *)
  Definition no_index (k : term_key) : Prop := tk_time k = None /\ tk_scenario k = None.
  Lemma named_none y k : no_index k -> named_values M y k = named_values A y k.
  Proof. intros [Ht Hsc]. unfold named_values. rewrite Ht, Hsc. reflexivity. Qed.
  Lemma terms_none y l : Forall (fun kt => no_index (fst kt)) l -> terms_value (named_values M y) l = terms_value (named_values A y) l.
  Proof.
    intros HF. unfold terms_value. f_equal. apply map_ext_in. intros kt Hkt. rewrite Forall_forall in HF. unfold term_value.
    now rewrite (named_none y _ (HF kt Hkt)).
  Qed.
  Lemma linear_settled e t s t' s' : all_nodes plain_index e -> context_linearize M e t s = context_linearize A e t' s'.
  Proof.
    intros HN. unfold context_linearize, linearize_expression.
    rewrite (linear_plain (fun c n t s => parameter_value M t s c n) (fun c n t s => parameter_value A t s c n) t s t' s' e parameter_none HN).
    reflexivity.
  Qed.
  Lemma linear_none o' e t s L : all_nodes plain_index e -> context_linearize o' e t s = Ok L -> Forall (fun kt => no_index (fst kt)) (le_terms L).
  Proof.
    intros HN HL. eapply linearize_keys; [exact HL|]. revert HN. apply all_nodes_imp. intros x Hx. destruct x; try exact I.
    cbn in Hx. destruct ti; try contradiction; destruct si; try contradiction. cbn. intros k [= <-]. split; reflexivity.
  Qed.
  Lemma form_settled y lb ub L : Forall (fun kt => no_index (fst kt)) (le_terms L) ->
    form_holds (named_values M y) lb ub L <-> form_holds (named_values A y) lb ub L.
  Proof. intros HF. unfold form_holds. now rewrite (terms_none y _ HF). Qed.
  Lemma expand_M e : all_nodes (fixed_node n) e -> context_expand M e = context_expand A e /\
    forall e', context_expand A e = Ok e' -> all_nodes plain_index e'.
  Proof.
    intros HN. unfold context_expand, expand_operators. change (data_structure_provider M) with (data_structure_provider o).
    change (data_structure_provider A) with (data_structure_provider o). split; [apply (expand_settled o Hb Hd Hn _ _ _ _ e HN)|].
    intros e' He. exact (proj2 (expand_settled o Hb Hd Hn _ {| timesteps_count := 0; scenarios_count := 0 |} _ (evaluate_time_bound A) e HN) e' He).
  Qed.
  Lemma indices_zero o' ix : fixed_index ix -> get_time_indices o' ix = [0%Z] /\ get_scenario_indices o' ix = [0%Z].
  Proof. intros [E1 E2]. unfold get_time_indices, get_scenario_indices. rewrite E1, E2. split; reflexivity. Qed.

  Context (stA stM stS : state).
  Hypothesis (HA : build_problem A = Ok stA) (HM : build_problem M = Ok stM) (HS : build_problem S = Ok stS).
  Lemma ports_M : st_ports stM = st_ports stA.
  Proof.
    destruct (built_variables A stA Hd Hn HA) as (p & E1 & E2 & _). destruct (built_variables M stM Hd Hn HM) as (p' & E1' & E2' & _).
    change (register_connections M) with (register_connections A) in E1'. congruence.
  Qed.
  Lemma ports_S : st_ports stS = st_ports stA.
  Proof.
    destruct (built_variables A stA Hd Hn HA) as (p & E1 & E2 & _). destruct (built_variables S stS Hd Hn HS) as (p' & E1' & E2' & _).
    change (register_connections S) with (register_connections A) in E1'. congruence.
  Qed.
  Lemma holds_S y ck : constraint_holds S stS (named_values S y) ck <-> constraint_holds A stA (named_values A y) ck.
  Proof.
    unfold constraint_holds. rewrite (instantiate_constraint_same stA stS) by exact ports_S. reflexivity.
  Qed.
  Lemma investment_constraint c k : In c (all_components n) -> In k (get_all_constraints (co_model c)) -> of_investment (c_context k) ->
    forall ic, instantiate_constraint stA (co_id c) k = Ok ic ->
    all_nodes (fixed_node n) (c_expr ic) /\ all_nodes (fixed_node n) (c_lower ic) /\ all_nodes (fixed_node n) (c_upper ic).
  Proof.
    intros Hc Hk Hi ic Hic. destruct (proj1 (proj2 (Hs c Hc)) k Hk Hi) as (S1 & S2 & S3). unfold instantiate_constraint in Hic.
    inv_bind Hic. inv_bind Hic. inv_bind Hic.
    pose proof (instantiate_settled o stA c _ _ Hc S1 H) as F1. pose proof (instantiate_settled o stA c _ _ Hc S2 H0) as F2.
    pose proof (instantiate_settled o stA c _ _ Hc S3 H1) as F3.
    apply mk_constraint_bounds in Hic; [destruct Hic as (-> & _); auto|]. intros l r k' ->. apply all_nodes_root in F1. contradiction.
  Qed.
  Lemma holds_M y c k : In c (all_components n) -> In k (get_all_constraints (co_model c)) -> of_investment (c_context k) ->
    constraint_holds M stM (named_values M y) (c, k) <-> constraint_holds A stA (named_values A y) (c, k).
  Proof.
    intros Hc Hk Hi. unfold constraint_holds. cbn [fst snd]. rewrite (instantiate_constraint_same stA stM) by exact ports_M.
    split; intros (ic & ex & ix & H1 & H2 & H3 & H4); exists ic, ex, ix;
      destruct (investment_constraint c k Hc Hk Hi ic H1) as (F1 & F2 & F3); destruct (expand_M _ F1) as [EX PX].
    - assert (F : fixed_index ix) by (eapply (indexing_settled o Hb Hd Hn); [exact F1|exact H3]).
      destruct (indices_zero M ix F) as [T1 T2]. destruct (indices_zero A ix F) as [U1 U2]. rewrite T1, T2 in H4. rewrite U1, U2.
      split; [exact H1|]. split; [now rewrite <- EX|]. split; [exact H3|]. intros t s [<-|[]] [<-|[]].
      destruct (H4 0%Z 0%Z (or_introl eq_refl) (or_introl eq_refl)) as (L & lb & ub & E1 & E2 & E3 & Hf). exists L, lb, ub.
      rewrite EX in H2. specialize (PX _ H2).
      split; [now rewrite <- (linear_settled ex (Some 0%Z) (Some 0%Z) (Some 0%Z) (Some 0%Z) PX)|]. rewrite <- !value_zero by assumption.
      repeat (split; [assumption|]). apply form_settled; [|exact Hf]. eapply linear_none; eauto.
    - assert (F : fixed_index ix) by (eapply (indexing_settled o Hb Hd Hn); [exact F1|exact H3]).
      destruct (indices_zero M ix F) as [T1 T2]. destruct (indices_zero A ix F) as [U1 U2]. rewrite U1, U2 in H4. rewrite T1, T2.
      split; [exact H1|]. split; [now rewrite EX|]. split; [exact H3|]. intros t s [<-|[]] [<-|[]].
      destruct (H4 0%Z 0%Z (or_introl eq_refl) (or_introl eq_refl)) as (L & lb & ub & E1 & E2 & E3 & Hf). exists L, lb, ub.
      specialize (PX _ H2).
      split; [now rewrite (linear_settled ex (Some 0%Z) (Some 0%Z) (Some 0%Z) (Some 0%Z) PX)|]. rewrite !value_zero by assumption.
      repeat (split; [assumption|]). apply form_settled; [|exact Hf]. eapply linear_none; eauto.
  Qed.
  Lemma pair_M c k : In (c, k) (row_pairs M) <-> In c (all_components n) /\ In k (get_all_constraints (co_model c)) /\ of_investment (c_context k).
  Proof.
    unfold row_pairs. rewrite in_flat_map. split.
    - intros (c' & Hc & Hin). apply in_map_iff in Hin. destruct Hin as (k' & [= -> ->] & Hk). apply filter_In in Hk. destruct Hk as [Hk Hx].
      split; [exact Hc|]. split; [exact Hk|]. cbn in Hx. unfold of_investment. destruct (c_context k); cbn in Hx; auto; discriminate.
    - intros (Hc & Hk & Hi). exists c. split; [exact Hc|]. apply in_map. apply filter_In. split; [exact Hk|].
      destruct Hi as [-> | ->]; reflexivity.
  Qed.
  Lemma pair_S c k : In (c, k) (row_pairs S) <-> In c (all_components n) /\ In k (get_all_constraints (co_model c)) /\
    (c_context k = OPERATIONAL \/ c_context k = COUPLING).
  Proof.
    unfold row_pairs. rewrite in_flat_map. split.
    - intros (c' & Hc & Hin). apply in_map_iff in Hin. destruct Hin as (k' & [= -> ->] & Hk). apply filter_In in Hk. destruct Hk as [Hk Hx].
      split; [exact Hc|]. split; [exact Hk|]. cbn in Hx. destruct (c_context k); cbn in Hx; auto; discriminate.
    - intros (Hc & Hk & Hi). exists c. split; [exact Hc|]. apply in_map. apply filter_In. split; [exact Hk|].
      destruct Hi as [-> | ->]; reflexivity.
  Qed.
  Lemma pair_A c k : In (c, k) (row_pairs A) <-> In c (all_components n) /\ In k (get_all_constraints (co_model c)).
  Proof.
    unfold row_pairs. rewrite in_flat_map. split.
    - intros (c' & Hc & Hin). apply in_map_iff in Hin. destruct Hin as (k' & [= -> ->] & Hk). apply filter_In in Hk. split; [exact Hc|apply Hk].
    - intros (Hc & Hk). exists c. split; [exact Hc|]. apply in_map. apply filter_In. split; [exact Hk|reflexivity].
  Qed.
  Lemma rows_parts y : rows_hold y (st_solver stA) <-> rows_hold y (st_solver stM) /\ rows_hold y (st_solver stS).
  Proof.
    rewrite (rows_hold_named A stA Hu Hd Hn HA), (rows_hold_named M stM usable_M Hd Hn HM), (rows_hold_named S stS Hu Hd Hn HS). split.
    - intros Hall. split; intros [c k] Hin.
      + apply pair_M in Hin. destruct Hin as (Hc & Hk & Hi). apply (holds_M y c k Hc Hk Hi). apply Hall. now apply pair_A.
      + apply pair_S in Hin. destruct Hin as (Hc & Hk & Hi). apply holds_S. apply Hall. now apply pair_A.
    - intros [H1 H2] [c k] Hin. apply pair_A in Hin. destruct Hin as [Hc Hk]. destruct (c_context k) eqn:E.
      + apply holds_S. apply H2. apply pair_S. auto.
      + apply (holds_M y c k Hc Hk); [left; exact E|]. apply H1. apply pair_M. unfold of_investment. auto.
      + apply holds_S. apply H2. apply pair_S. auto.
  Qed.

  (** variables *)
  Lemma made_one o' st0 i sv sv' : made o' st0 i sv -> made o' st0 i sv' -> sv = sv'.
  Proof.
    destruct i as [[c v] [t s]]. intros (l & u & B1 & B2 & _ & ->) (l' & u' & B1' & B2' & _ & ->).
    assert (El : l = l').
    { destruct (v_lower v); cbn in B1, B1'; [|congruence]. destruct B1 as (e1 & I1 & V1), B1' as (e2 & I2 & V2). congruence. }
    assert (Eu : u = u').
    { destruct (v_upper v); cbn in B2, B2'; [|congruence]. destruct B2 as (e1 & I1 & V1), B2' as (e2 & I2 & V2). congruence. }
    now subst.
  Qed.
  Lemma vars_iff o' st : distinct_ids (o_network o') -> named_network (o_network o') -> build_problem o' = Ok st ->
    forall sv, In sv (s_vars (st_solver st)) <->
    exists i, In i (var_insts o') /\ made o' (set_ports initial_state (st_ports st)) i sv.
  Proof.
    intros Hd' Hn' Hbu sv. destruct (built_variables o' st Hd' Hn' Hbu) as (ports & _ & -> & _ & HF). split.
    - intros Hin. exact (Forall2_in_right _ _ _ HF sv Hin).
    - intros (i & Hi & Hm). apply In_nth_error in Hi. destruct Hi as [p Hp]. destruct (Forall2_nth_left _ _ _ HF _ _ Hp) as (sv' & E & Hm').
      rewrite (made_one _ _ _ _ _ Hm Hm'). eapply nth_error_In; eauto.
  Qed.
  Lemma variable_context c v : In c (all_components n) -> In v (get_variables MergedProblem (co_model c)) <->
    In v (get_variables InvestmentProblem (co_model c)) \/ In v (get_variables OperationalProblem (co_model c)).
  Proof.
    intros _. unfold get_variables. rewrite !filter_In. cbn. destruct (v_context v); cbn; tauto.
  Qed.
  Lemma inst_M c v t s : instance_of M c v t s <-> In c (all_components n) /\ In v (get_variables InvestmentProblem (co_model c)) /\ t = None /\ s = None.
  Proof.
    unfold instance_of. cbn [investments o_network o_selection o_block o_scenarios]. split.
    - intros (Hc & Hv & Ht & Hsc). split; [exact Hc|]. split; [exact Hv|]. apply filter_In in Hv. destruct Hv as [Hv Hx].
      destruct (proj1 (Hs c Hc) v Hv) as [F1 F2].
      { unfold of_investment. destruct (v_context v); cbn in Hx; auto; discriminate. }
      rewrite F1 in Ht. rewrite F2 in Hsc. destruct t, s; cbn in Ht, Hsc; try (destruct Ht; discriminate); try (destruct Hsc; discriminate). auto.
    - intros (Hc & Hv & -> & ->). split; [exact Hc|]. split; [exact Hv|]. apply filter_In in Hv. destruct Hv as [Hv Hx].
      destruct (proj1 (Hs c Hc) v Hv) as [F1 F2].
      { unfold of_investment. destruct (v_context v); cbn in Hx; auto; discriminate. }
      rewrite F1, F2. split; reflexivity.
  Qed.
  Lemma inst_A c v t s : instance_of A c v t s <-> instance_of M c v t s \/ instance_of S c v t s.
  Proof.
    rewrite inst_M. unfold instance_of. cbn [whole operation selecting o_network o_selection o_block o_scenarios]. split.
    - intros (Hc & Hv & Ht & Hsc). apply (variable_context c v Hc) in Hv. destruct Hv as [Hv|Hv]; [left|right; auto].
      apply (inst_M c v t s). apply inst_M. split; [exact Hc|]. split; [exact Hv|]. apply filter_In in Hv. destruct Hv as [Hv Hx].
      destruct (proj1 (Hs c Hc) v Hv) as [F1 F2].
      { unfold of_investment. destruct (v_context v); cbn in Hx; auto; discriminate. }
      rewrite F1 in Ht. rewrite F2 in Hsc. destruct t, s; cbn in Ht, Hsc; try (destruct Ht; discriminate); try (destruct Hsc; discriminate). auto.
    - intros [H|(Hc & Hv & Ht & Hsc)].
      + pose proof (proj2 (inst_M c v t s) H) as (Hc & Hv & _). split; [exact Hc|]. split; [apply (variable_context c v Hc); now left|].
        destruct H as (_ & _ & -> & ->). apply filter_In in Hv. destruct Hv as [Hv Hx]. destruct (proj1 (Hs c Hc) v Hv) as [F1 F2].
        { unfold of_investment. destruct (v_context v); cbn in Hx; auto; discriminate. }
        rewrite F1, F2. split; reflexivity.
      + split; [exact Hc|]. split; [apply (variable_context c v Hc); now right|]. auto.
  Qed.
  Lemma made_M c v st0 sv : made M st0 (c, v, (None, None)) sv <-> made A st0 (c, v, (None, None)) sv.
  Proof. reflexivity. Qed.
  Lemma made_S i st0 sv : made S st0 i sv <-> made A st0 i sv.
  Proof. reflexivity. Qed.
  Lemma vars_parts sv : In sv (s_vars (st_solver stA)) <-> In sv (s_vars (st_solver stM)) \/ In sv (s_vars (st_solver stS)).
  Proof.
    rewrite (vars_iff A stA Hd Hn HA), (vars_iff M stM Hd Hn HM), (vars_iff S stS Hd Hn HS), ports_M, ports_S. split.
    - intros ([[c v] [t s]] & Hi & Hm). apply var_insts_In in Hi. apply inst_A in Hi. destruct Hi as [Hi|Hi].
      + left. exists (c, v, (t, s)). pose proof Hi as Hi'. apply inst_M in Hi'. destruct Hi' as (_ & _ & -> & ->).
        split; [now apply var_insts_In|exact Hm].
      + right. exists (c, v, (t, s)). split; [now apply var_insts_In|exact Hm].
    - intros [([[c v] [t s]] & Hi & Hm)|([[c v] [t s]] & Hi & Hm)]; apply var_insts_In in Hi; exists (c, v, (t, s));
        (split; [apply var_insts_In, inst_A; auto|]).
      + apply inst_M in Hi. destruct Hi as (_ & _ & -> & ->). exact Hm.
      + exact Hm.
  Qed.
  Lemma feasible_parts y : feasible y (st_solver stA) <-> feasible y (st_solver stM) /\ feasible y (st_solver stS).
  Proof.
    unfold feasible. rewrite rows_parts. unfold bounds_hold. split.
    - intros (H1 & H2 & H3). split; (split; [|assumption]); intros v Hv; apply H1; apply vars_parts; auto.
    - intros ((H1 & H2) & H3 & H4). split; [|auto]. intros v Hv. apply vars_parts in Hv. destruct Hv; auto.
  Qed.

  (** objectives *)
  Lemma modify_settled m r e : settled m e -> settled m (modify_expression r e).
  Proof. intros H. destruct r; [exact H|]. unfold settled, modify_expression, py_mul. cbn. auto. Qed.
  Definition by_terms (g : assignment -> lin_expr -> option Qc) : Prop :=
    forall x x' L, terms_value x (le_terms L) = terms_value x' (le_terms L) -> g x L = g x' L.
  Lemma contribution_M g y c e : by_terms g -> In c (all_components n) -> m_investment (co_model c) = Some e ->
    contribution_at g M stM (named_values M y) (c, e) = contribution_at g A stA (named_values A y) (c, e).
  Proof.
    intros Hg Hc He. pose proof (proj2 (proj2 (Hs c Hc)) e He) as Hse. apply (modify_settled _ (o_risk o)) in Hse.
    unfold contribution_at, objective_form. cbn [fst snd]. change (o_risk M) with (o_risk o). change (o_risk A) with (o_risk o).
    rewrite (instantiate_same stA stM) by exact ports_M.
    destruct (instantiate stA (modify_expression (o_risk o) e) (co_id c)) as [i|er] eqn:Ei; cbn [bind]; [|reflexivity].
    pose proof (instantiate_settled o stA c _ _ Hc Hse Ei) as F. destruct (expand_M _ F) as [EX PX]. rewrite EX.
    destruct (context_expand A i) as [ex|er] eqn:Ex; cbn [bind]; [|reflexivity]. specialize (PX _ eq_refl).
    rewrite (linear_settled ex None None None None PX). destruct (context_linearize A ex None None) as [L|er] eqn:EL; [|reflexivity].
    apply Hg. exact (terms_none y _ (linear_none _ _ _ _ _ PX EL)).
  Qed.
  Lemma contribution_S g y ce : contribution_at g S stS (named_values S y) ce = contribution_at g A stA (named_values A y) ce.
  Proof.
    unfold contribution_at, objective_form. change (o_risk S) with (o_risk A). rewrite (instantiate_same stA stS) by exact ports_S. reflexivity.
  Qed.
  Lemma contributions_parts g y : by_terms g -> osum (map (contribution_at g A stA (named_values A y)) (contributions A)) =
    oplus (osum (map (contribution_at g M stM (named_values M y)) (contributions M))) (osum (map (contribution_at g S stS (named_values S y)) (contributions S))).
  Proof.
    intros Hg. unfold contributions. cbn [whole operation investments selecting o_network o_selection get_objectives].
    apply osum_two. intros c Hc. cbn [flat_map]. rewrite !app_nil_r, !map_app, !osum_app.
    destruct (m_operational (co_model c)) as [e|], (m_investment (co_model c)) as [e'|] eqn:Ee; cbn [map];
      rewrite ?osum_cons, ?contribution_S, ?(contribution_M g y c e' Hg Hc Ee); cbn [osum];
      rewrite ?oplus_0_r, ?oplus_0_l; try reflexivity. apply oplus_comm.
  Qed.
  Lemma objective_parts y : objective_value (by_name (st_solver stA) y) (st_solver stA) =
    olift2 Qcplus (objective_value (by_name (st_solver stM) y) (st_solver stM)) (objective_value (by_name (st_solver stS) y) (st_solver stS)).
  Proof.
    rewrite (objective_named A stA Hu Hd Hn HA), (objective_named M stM usable_M Hd Hn HM), (objective_named S stS Hu Hd Hn HS).
    apply contributions_parts. intros x x' L E. unfold le_value. now rewrite E.
  Qed.
  Lemma cost_parts y : cost y (st_solver stA) = olift2 Qcplus (cost y (st_solver stM)) (cost y (st_solver stS)).
  Proof.
    rewrite (cost_named A stA Hu Hd Hn HA), (cost_named M stM usable_M Hd Hn HM), (cost_named S stS Hu Hd Hn HS).
    apply contributions_parts. intros x x' L E. exact E.
  Qed.
End Parts.

(** ** When the parts can be built, so can the whole *)
Lemma foldM_each {A B} (f : B -> A -> result B) (I : B -> Prop) l : (forall acc a acc', In a l -> I acc -> f acc a = Ok acc' -> I acc') ->
  forall acc acc', I acc -> foldM f acc l = Ok acc' -> forall a, In a l -> exists acc1 acc2, I acc1 /\ f acc1 a = Ok acc2.
Proof.
  induction l as [|b l IH]; intros Hp acc acc' Hi H a Ha; [contradiction|]. cbn in H. inv_bind H. destruct Ha as [<-|Ha].
  - exists acc, v. auto.
  - eapply IH with (acc := v); [|eapply Hp; [now left|exact Hi|exact H0]|exact H|exact Ha]. intros x y z Hy. apply Hp. now right.
Qed.
Lemma create_instance_ports o c v lbe ube st ts st' : create_variable_instance o c v lbe ube st ts = Ok st' -> st_ports st' = st_ports st.
Proof.
  unfold create_variable_instance. destruct ts as [t s]. intros H. inv_bind H. inv_bind H. destruct (nltb v1 v0); [discriminate|].
  injection H as <-. reflexivity.
Qed.
Lemma create_variable_ports o c st v st' : create_variable o c st v = Ok st' -> st_ports st' = st_ports st.
Proof. intros H. exact (creates_ports _ _ _ _ (create_variable_spec _ _ _ _ _ H)). Qed.
Lemma create_variable_any o o' c st v st' st2 : create_variable o c st v = Ok st' -> st_ports st2 = st_ports st ->
  (forall ts, In ts (variable_instances o' (v_structure v)) -> In ts (variable_instances o (v_structure v)) /\
     forall lbe ube st, create_variable_instance o' c v lbe ube st ts = create_variable_instance o c v lbe ube st ts) ->
  exists st2', create_variable o' c st2 v = Ok st2' /\ st_ports st2' = st_ports st2.
Proof.
  intros H Hp HI. unfold create_variable in *. inv_bind H. inv_bind H.
  assert (E : forall b, instantiate_bound st2 b (co_id c) = instantiate_bound st b (co_id c)).
  { intros [b|]; [|reflexivity]. cbn. now rewrite (instantiate_same st st2) by exact Hp. }
  rewrite !E, H0. cbn [bind]. rewrite H1. cbn [bind].
  apply (foldM_ok _ (fun s => st_ports s = st_ports st2)); [|reflexivity]. intros acc ts Hts Hacc.
  destruct (HI ts Hts) as [Hin Heq].
  destruct (foldM_each _ (fun _ => True) _ (fun _ _ _ _ _ _ => I) _ _ I H ts Hin) as (a1 & a2 & _ & Ha). rewrite Heq.
  unfold create_variable_instance in Ha |- *. destruct ts as [t s]. inv_bind Ha. inv_bind Ha. rewrite H2. cbn [bind]. rewrite H3. cbn [bind].
  destruct (nltb v3 v2); [discriminate|]. eexists; split; [reflexivity|]. cbn. exact Hacc.
Qed.
Section Complete.
  Context (o : settings) (Hu : usable_block o) (Hd : distinct_ids (o_network o)) (Hn : named_network (o_network o)).
  Lemma variables_described ports st' : create_variables o (set_ports initial_state ports) = Ok st' -> complete_state o ports st'.
  Proof.
    intros H. destruct (created_state o (set_ports initial_state ports) st' Hd Hn eq_refl eq_refl H) as (H1 & H2 & H3 & _).
    split; [exact H1|]. split; [|split; [exact H3|symmetry; exact (Forall2_len _ _ _ H2)]].
    destruct (create_variables_spec _ _ _ H) as (svs & HF & ->). apply add_all_described.
    - cbn [set_ports st_variables initial_state map app]. pose proof (Forall2_len _ _ _ HF) as Hlen.
      destruct (combine_map_fst _ _ Hlen) as [C1 _].
      replace (map (fun p : inst * solver_var => inst_key (fst p)) (combine (var_insts o) svs)) with (map inst_key (var_insts o))
        by (rewrite <- C1 at 1; now rewrite map_map).
      now apply keys_nodup.
    - intros sv [].
  Qed.
  Lemma objective_term_added ports st kt : complete_state o ports st -> (exists i, get_solver_var o st (fst kt) = Ok i) ->
    exists st', add_objective_term o st kt = Ok st' /\ complete_state o ports st'.
  Proof.
    intros (C1 & C2 & C3 & C4) [i Hi]. unfold add_objective_term. rewrite Hi. cbn [bind].
    assert (Hnth : exists sv, nth_error (s_vars (st_solver st)) i = Some sv).
    { unfold get_solver_var in Hi. apply lookup_iff in Hi; auto.
      assert (Hlt : (i < List.length (var_insts o))%nat).
      { rewrite <- (map_length inst_key). apply nth_error_Some. congruence. }
      rewrite <- C4 in Hlt. apply nth_error_Some in Hlt. destruct (nth_error (s_vars (st_solver st)) i); [eauto|contradiction]. }
    destruct Hnth as [sv Hsv]. rewrite Hsv. cbn [bind].
    assert (HM : exists infos, mark_in_objective (sv_name sv) (st_infos st) = Ok infos /\ forall n, In n (map fst (st_infos st)) -> In n (map fst infos)).
    { unfold mark_in_objective. destruct (dget String.eqb (sv_name sv) (st_infos st)) as [vi|] eqn:Ed.
      - eexists; split; [reflexivity|]. intros n Hin. apply (dset_key_in String.eqb String.eqb_eq). now right.
      - exfalso. apply (dget_None String.eqb String.eqb_eq) in Ed. apply Ed. apply C2. eapply nth_error_In; eauto. }
    destruct HM as (infos & HM & Hkeys). rewrite HM. cbn [bind]. eexists; split; [reflexivity|].
    split; [exact C1|]. split; [|split; [exact C3|exact C4]]. intros sv' Hin. cbn in Hin |- *. apply Hkeys. now apply C2.
  Qed.
End Complete.
(** each contribution of a problem that is built has a form whose variables are found *)
Lemma objectives_found o st st' : create_objectives o st = Ok st' -> forall ce, In ce (contributions o) ->
  exists L, objective_form o st ce = Ok L /\ Forall (fun kt => exists i, get_solver_var o st (fst kt) = Ok i) (le_terms L).
Proof.
  intros H [c e] Hce. rewrite contributions_given in Hce. apply create_objectives_flat in H.
  assert (Hin : In (c, Some e) (obj_pairs o)).
  { clear H. induction (obj_pairs o) as [|[c' [e'|]] l IH]; cbn in Hce; [contradiction| |].
    - destruct Hce as [[= -> ->]|Hce]; [now left|right; auto].
    - right; auto. }
  assert (HP : forall acc (a : component * option expr) acc', In a (obj_pairs o) -> same_variables st acc ->
    create_component_objective o (fst a) acc (snd a) = Ok acc' -> same_variables st acc').
  { intros acc [c' e'] acc' _ H1 Hc. cbn [fst snd] in Hc. destruct e' as [e'|]; cbn in Hc; [|injection Hc as <-; exact H1].
    apply create_objective_same in Hc. eapply same_variables_trans; [exact H1|apply Hc]. }
  destruct (foldM_each _ (same_variables st) _ HP _ _ (same_variables_refl st) H _ Hin) as (a1 & a2 & HS & Ha).
  cbn [fst snd create_component_objective] in Ha. unfold create_objective in Ha. inv_bind Ha. inv_bind Ha. inv_bind Ha. inv_bind Ha.
  exists v1. unfold objective_form. cbn [fst snd].
  rewrite (instantiate_same st a1) in H0 by apply HS. rewrite H0. cbn [bind]. rewrite H1. cbn [bind]. split; [exact H2|].
  apply Forall_forall. intros kt Hkt.
  assert (HP' : forall acc a acc', In a (le_terms v1) -> same_variables st acc -> add_objective_term o acc a = Ok acc' -> same_variables st acc').
  { intros acc a acc' _ HS' Ht. eapply same_variables_trans; [exact HS'|]. 
    apply (add_objective_terms_same o [a] acc acc'). cbn. rewrite Ht. reflexivity. }
  destruct (foldM_each _ (same_variables st) _ HP' _ _ HS H3 _ Hkt) as (b1 & b2 & HB & Hb'). unfold add_objective_term in Hb'.
  inv_bind Hb'. exists v3. unfold get_solver_var in *. now rewrite <- (get_variable_same o st b1) by apply HB.
Qed.

Section Assemble.
  Context (o : settings).
  Notation n := (o_network o).
  Hypothesis (Hu : usable_block o) (Hb : built_network n) (Hd : distinct_ids n) (Hn : named_network n)
    (Hs : settled_network n) (Hdata : suitable_network n (o_database o)).
  Notation A := (whole o).
  Notation M := (investments o).
  Notation S := (operation o).
  Context (stM stS : state).
  Hypothesis (HM : build_problem M = Ok stM) (HS : build_problem S = Ok stS).

  Lemma found_S st1 st k i : created S st1 -> created A st -> get_solver_var S st1 k = Ok i -> exists j, get_solver_var A st k = Ok j.
  Proof.
    intros C1 C2 Hi. destruct k as [c v t s]. unfold get_solver_var in *. cbn [tk_component tk_variable tk_time tk_scenario] in *.
    apply lookup_iff in Hi; auto. apply nth_inst in Hi. destruct Hi as (k & a & Hi & E1 & E2). apply nth_error_In in Hi.
    apply var_insts_In in Hi. assert (HI : instance_of A k a (wrapped S t) s) by (apply (inst_A o Hs); now right).
    apply var_insts_In in HI. apply In_nth_error in HI. destruct HI as [j Hj]. exists j. apply lookup_iff; auto. apply nth_inst. eauto.
  Qed.
  Lemma found_M st1 st k i : created M st1 -> created A st -> no_index k -> get_solver_var M st1 k = Ok i -> exists j, get_solver_var A st k = Ok j.
  Proof.
    intros C1 C2 [Et Es] Hi. destruct k as [c v t s]. unfold get_solver_var in *. cbn [tk_component tk_variable tk_time tk_scenario] in *. subst t s.
    apply lookup_iff in Hi; auto; [|apply (usable_M o Hu)]. apply nth_inst in Hi. destruct Hi as (k & a & Hi & E1 & E2). apply nth_error_In in Hi.
    apply var_insts_In in Hi. assert (HI : instance_of A k a None None) by (apply (inst_A o Hs); now left).
    apply var_insts_In in HI. apply In_nth_error in HI. destruct HI as [j Hj]. exists j. apply lookup_iff; auto. apply nth_inst. eauto.
  Qed.
  Lemma whole_variables ports : register_connections o = Ok ports -> exists st, create_variables A (set_ports initial_state ports) = Ok st.
  Proof.
    intros Hp. destruct (build_steps M stM HM) as (pM & m1 & m2 & _ & PM & VM & _). destruct (build_steps S stS HS) as (pS & s1 & s2 & _ & PS & VS & _).
    change (register_connections M) with (register_connections o) in PM. change (register_connections S) with (register_connections o) in PS.
    assert (pM = ports) by congruence. assert (pS = ports) by congruence. subst pM pS.
    assert (G : exists st, create_variables A (set_ports initial_state ports) = Ok st /\ st_ports st = ports); [|destruct G as (st & G & _); eauto].
    unfold create_variables. apply (foldM_ok _ (fun st => st_ports st = ports)); [|reflexivity]. intros st c Hc Hst.
    apply (foldM_ok _ (fun st => st_ports st = ports)); [|exact Hst]. clear st Hst. intros st v Hv Hst.
    assert (IV : forall o' (l : list variable) acc a acc', In a l -> st_ports acc = ports -> create_variable o' c acc a = Ok acc' -> st_ports acc' = ports).
    { intros o' l acc a acc' _ E HE. apply create_variable_ports in HE. congruence. }
    assert (IC : forall o' (l : list component) acc a acc', In a l -> st_ports acc = ports ->
      foldM (create_variable o' a) acc (get_variables (o_selection o') (co_model a)) = Ok acc' -> st_ports acc' = ports).
    { intros o' l acc a acc' _ E HE.
      apply (foldM_invariant _ (fun st => st_ports st = ports)) in HE; auto. intros x y z _ E' HE'. apply create_variable_ports in HE'. congruence. }
    rewrite <- Hst. apply (variable_context o c v Hc) in Hv. destruct Hv as [Hv|Hv].
    - unfold create_variables in VM. destruct (foldM_each _ (fun st => st_ports st = ports) _ (IC M _) (set_ports initial_state ports) _ eq_refl VM c Hc) as (a1 & a2 & P1 & F1).
      destruct (foldM_each _ (fun st => st_ports st = ports) _ (IV M _) _ _ P1 F1 v Hv) as (b1 & b2 & P2 & F2).
      eapply create_variable_any; [exact F2|congruence|]. intros [t s] Hts.
      assert (HI : instance_of A c v t s).
      { apply variable_instances_In in Hts. split; [exact Hc|]. split; [apply (variable_context o c v Hc); now left|]. exact Hts. }
      assert (HI' : t = None /\ s = None).
      { pose proof Hv as Hv'. apply filter_In in Hv'. destruct Hv' as [Hv1 Hv2]. destruct (proj1 (Hs c Hc) v Hv1) as [G1 G2].
        { unfold of_investment. destruct (v_context v); cbn in Hv2; auto; discriminate. }
        destruct HI as (_ & _ & Ht & Hsc). rewrite G1 in Ht. rewrite G2 in Hsc.
        destruct t, s; cbn in Ht, Hsc; try (destruct Ht; discriminate); try (destruct Hsc; discriminate). auto. }
      destruct HI' as [-> ->]. split; [|reflexivity]. apply variable_instances_In.
      assert (HI2 : instance_of M c v None None) by (apply (inst_M o Hs); auto). destruct HI2 as (_ & _ & HI2). exact HI2.
    - unfold create_variables in VS. destruct (foldM_each _ (fun st => st_ports st = ports) _ (IC S _) (set_ports initial_state ports) _ eq_refl VS c Hc) as (a1 & a2 & P1 & F1).
      destruct (foldM_each _ (fun st => st_ports st = ports) _ (IV S _) _ _ P1 F1 v Hv) as (b1 & b2 & P2 & F2).
      eapply create_variable_any; [exact F2|congruence|]. intros ts Hts. split; [exact Hts|]. reflexivity.
  Qed.
  Lemma whole_constraint ports st c k : register_connections o = Ok ports -> complete_state A ports st ->
    In (c, k) (row_pairs A) -> exists st', create_component_constraint A (co_id c) st k = Ok st' /\ complete_state A ports st'.
  Proof.
    intros Hp HC Hck. destruct HC as (C1 & C2 & C3 & C4).
    assert (G : exists rows, block_rows A st (c, k) rows).
    { apply (pair_A o) in Hck. destruct Hck as [Hc Hk].
      assert (HX : In (c, k) (row_pairs S) \/ (In (c, k) (row_pairs M) /\ of_investment (c_context k))).
      { rewrite (pair_S o), (pair_M o). unfold of_investment. destruct (c_context k); auto 6. }
      destruct HX as [HX|[HX Hi]].
      - destruct (build_steps S stS HS) as (pS & s1 & s2 & _ & PS & VS & RS & _). change (register_connections S) with (register_connections o) in PS.
        assert (pS = ports) by congruence. subst pS. destruct (variables_described S Hd Hn _ _ VS) as (K1 & _ & K3 & _).
        destruct (create_constraints_spec _ _ _ RS) as (rss & HF & _). apply In_nth_error in HX. destruct HX as [i Hi].
        destruct (Forall2_nth_left _ _ _ HF _ _ Hi) as (rows & _ & ic & Hic & Hrows). cbn [fst snd] in Hic.
        unfold create_constraint in Hrows. inv_bind Hrows. inv_bind Hrows. apply mapM_ok in Hrows.
        assert (HR : exists rows', create_constraint A st ic = Ok rows').
        { unfold create_constraint. change (context_expand A) with (context_expand S). rewrite H. cbn [bind].
          change (constraint_indexing A) with (constraint_indexing S). rewrite H0. cbn [bind]. apply mapM_all. intros [t s] Hts.
          apply In_nth_error in Hts. destruct Hts as [j Hj]. destruct (Forall2_nth_left _ _ _ Hrows _ _ Hj) as (r & _ & Hr).
          cbn [fst snd] in Hr |- *. unfold create_row in Hr |- *. inv_bind Hr. inv_bind Hr. inv_bind Hr.
          change (context_linearize A) with (context_linearize S). rewrite H1. cbn [bind].
          change (compute_expression_value A) with (compute_expression_value S). rewrite H2. cbn [bind]. rewrite H3. cbn [bind].
          apply make_constraint_ok. assert (E : exists row, make_constraint S s1 t s (c_name ic) v2 v3 v1 = Ok row) by eauto.
          apply make_constraint_ok in E. revert E. apply Forall_impl. intros kt (q & Hq). eapply found_S; eauto. }
        destruct HR as [rows' HR]. exists rows', ic. cbn [fst snd]. split; [|exact HR].
        rewrite <- Hic. apply instantiate_constraint_same. congruence.
      - destruct (build_steps M stM HM) as (pM & m1 & m2 & _ & PM & VM & RM & _). change (register_connections M) with (register_connections o) in PM.
        assert (pM = ports) by congruence. subst pM. destruct (variables_described M Hd Hn _ _ VM) as (K1 & _ & K3 & _).
        destruct (create_constraints_spec _ _ _ RM) as (rss & HF & _). apply In_nth_error in HX. destruct HX as [i Hi'].
        destruct (Forall2_nth_left _ _ _ HF _ _ Hi') as (rows & _ & ic & Hic & Hrows). cbn [fst snd] in Hic.
        rewrite (instantiate_constraint_same st m1) in Hic by congruence.
        destruct (investment_constraint o Hs st c k Hc Hk Hi ic Hic) as (F1 & F2 & F3).
        destruct (expand_M o Hb Hd Hn _ F1) as [EX PX].
        unfold create_constraint in Hrows. inv_bind Hrows. inv_bind Hrows. apply mapM_ok in Hrows.
        assert (Fx : fixed_index v0) by (eapply (indexing_settled o Hb Hd Hn); [exact F1|exact H0]).
        assert (HR : exists rows', create_constraint A st ic = Ok rows').
        { unfold create_constraint. rewrite <- EX. rewrite H. cbn [bind].
          change (constraint_indexing A) with (constraint_indexing M). rewrite H0. cbn [bind]. rewrite EX in H. specialize (PX _ H).
          destruct (indices_zero M v0 Fx) as [T1 T2]. destruct (indices_zero A v0 Fx) as [U1 U2]. rewrite T1, T2 in Hrows. rewrite U1, U2.
          apply mapM_all. intros [t s] [[= <- <-]|[]].
          destruct (Forall2_nth_left _ _ _ Hrows 0%nat _ eq_refl) as (r & _ & Hr).
          cbn [fst snd] in Hr |- *. unfold create_row in Hr |- *. inv_bind Hr. inv_bind Hr. inv_bind Hr.
          pose proof (linear_settled o v (Some 0%Z) (Some 0%Z) (Some 0%Z) (Some 0%Z) PX) as EL. rewrite <- EL, H1. cbn [bind].
          rewrite <- !(value_zero o Hu Hdata) by assumption. rewrite H2. cbn [bind]. rewrite H3. cbn [bind].
          apply make_constraint_ok. assert (E : exists row, make_constraint M m1 0 0 (c_name ic) v2 v3 v1 = Ok row) by eauto.
          apply make_constraint_ok in E. pose proof (linear_none M v _ _ _ PX H1) as NI. rewrite Forall_forall in E, NI |- *.
          intros kt Hkt. destruct (E kt Hkt) as [q Hq]. eapply found_M; eauto. }
        destruct HR as [rows' HR]. exists rows', ic. cbn [fst snd]. split; [exact Hic|exact HR]. }
    destruct G as (rows & ic & Hic & Hrows). cbn [fst snd] in Hic. unfold create_component_constraint. rewrite Hic. cbn [bind]. rewrite Hrows. cbn [bind].
    eexists; split; [reflexivity|]. split; [exact C1|]. split; [exact C2|]. split; [exact C3|exact C4].
  Qed.
  Lemma whole_objective ports st c e : register_connections o = Ok ports -> complete_state A ports st -> In c (all_components n) ->
    In (Some e) (get_objectives MergedProblem (co_model c)) ->
    exists st', create_component_objective A c st (Some e) = Ok st' /\ complete_state A ports st'.
  Proof.
    intros Hp HC Hc He. pose proof HC as (C1 & C2 & C3 & C4).
    assert (G : exists L, objective_form A st (c, e) = Ok L /\
      Forall (fun kt => forall st', created A st' -> exists i, get_solver_var A st' (fst kt) = Ok i) (le_terms L)).
    { cbn in He. destruct He as [He|[He|[]]].
      - destruct (build_steps S stS HS) as (pS & s1 & s2 & _ & PS & VS & RS & OS). change (register_connections S) with (register_connections o) in PS.
        assert (pS = ports) by congruence. subst pS. destruct (variables_described S Hd Hn _ _ VS) as (K1 & _ & K3 & _).
        destruct (create_constraints_spec _ _ _ RS) as (rss & _ & ->).
        destruct (objectives_found _ _ _ OS (c, e)) as (L & HL & HT).
        { unfold contributions. apply in_flat_map. exists c. split; [exact Hc|]. cbn. rewrite He. now left. }
        exists L. split.
        + rewrite <- HL. unfold objective_form. change (o_risk S) with (o_risk A). rewrite (instantiate_same s1 (set_rows s1 (s_rows (st_solver s1) ++ concat rss))) by reflexivity.
          rewrite (instantiate_same s1 st) by congruence. reflexivity.
        + revert HT. apply Forall_impl. intros kt [q Hq] st' Hst'. eapply (found_S s1); eauto.
      - destruct (build_steps M stM HM) as (pM & m1 & m2 & _ & PM & VM & RM & OM). change (register_connections M) with (register_connections o) in PM.
        assert (pM = ports) by congruence. subst pM. destruct (variables_described M Hd Hn _ _ VM) as (K1 & _ & K3 & _).
        destruct (create_constraints_spec _ _ _ RM) as (rss & _ & ->).
        destruct (objectives_found _ _ _ OM (c, e)) as (L & HL & HT).
        { unfold contributions. apply in_flat_map. exists c. split; [exact Hc|]. cbn. rewrite He. now left. }
        pose proof (proj2 (proj2 (Hs c Hc)) e He) as Hse. apply (modify_settled _ (o_risk o)) in Hse.
        unfold objective_form in HL. cbn [fst snd] in HL. inv_bind HL. inv_bind HL.
        change (instantiate m1 (modify_expression (o_risk o) e) (co_id c) = Ok v) in H.
        rewrite (instantiate_same st m1) in H by congruence.
        pose proof (instantiate_settled o st c _ _ Hc Hse H) as F. destruct (expand_M o Hb Hd Hn _ F) as [EX PX]. rewrite EX in H0. specialize (PX _ H0).
        exists L. split.
        + unfold objective_form. cbn [fst snd]. change (o_risk A) with (o_risk o). rewrite H. cbn [bind]. rewrite H0. cbn [bind].
          rewrite <- HL. symmetry. apply linear_settled. exact PX.
        + pose proof (linear_none M _ _ _ _ PX HL) as NI. rewrite Forall_forall in HT, NI |- *. intros kt Hkt st' Hst'.
          destruct (HT kt Hkt) as [q Hq]. eapply (found_M m1); eauto. }
    destruct G as (L & HL & HT). unfold objective_form in HL. cbn [fst snd] in HL. inv_bind HL. inv_bind HL.
    cbn [create_component_objective]. unfold create_objective. rewrite H. cbn [bind]. rewrite H0. cbn [bind]. rewrite HL. cbn [bind].
    destruct (foldM_ok (add_objective_term A) (complete_state A ports) (le_terms L)) with (acc := st) as (st1 & E1 & HC1).
    + intros acc kt Hkt Hacc. apply objective_term_added; auto. rewrite Forall_forall in HT. apply (HT kt Hkt). apply Hacc.
    + exact HC.
    + rewrite E1. cbn [bind]. eexists; split; [reflexivity|]. exact HC1.
  Qed.
  Lemma whole_built : exists stA, build_problem A = Ok stA.
  Proof.
    destruct (build_steps M stM HM) as (ports & _ & _ & RQ & Hp & _). change (register_connections M) with (register_connections o) in Hp.
    change (requirements_consistency (o_database o) n = Ok tt) in RQ.
    destruct (whole_variables ports Hp) as (st1 & E1). pose proof (variables_described A Hd Hn _ _ E1) as K1.
    assert (E2 : exists st2, create_constraints A st1 = Ok st2 /\ complete_state A ports st2).
    { unfold create_constraints. apply (foldM_ok _ (complete_state A ports)); [|exact K1]. intros x c Hc Hx.
      apply (foldM_ok _ (complete_state A ports)); [|exact Hx]. intros z k Hk Hz. apply whole_constraint; auto.
      unfold row_pairs. apply in_flat_map. exists c. split; [exact Hc|]. now apply in_map. }
    destruct E2 as (st2 & E2 & K2).
    assert (E3 : exists st3, create_objectives A st2 = Ok st3 /\ complete_state A ports st3).
    { unfold create_objectives. apply (foldM_ok _ (complete_state A ports)); [|exact K2]. intros x c Hc Hx.
      apply (foldM_ok _ (complete_state A ports)); [|exact Hx]. intros z [e|] Hk Hz; [|exists z; split; [reflexivity|exact Hz]]. apply whole_objective; auto. }
    destruct E3 as (st3 & E3 & _). exists st3. unfold build_problem. change (o_database A) with (o_database o). change (o_network A) with n. rewrite RQ. cbn [bind].
    unfold optimization_problem. change (register_connections A) with (register_connections o). rewrite Hp. cbn [bind]. rewrite E1. cbn [bind]. rewrite E2. exact E3.
  Qed.
End Assemble.
