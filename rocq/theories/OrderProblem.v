(** Problems of reordered networks (C71). *)
From Coq Require Import Lia Permutation.
From Verif Require Import Base BaseFacts Expr Visitors LinearExpr Linearize Expansion Model Study Strategy Optim Tree
  SpecExpr SpecSyntax SpecVisitors SpecExpansion SpecLinear SpecModel SpecOptim SpecReady SpecFusion
  ExprFacts CopyFacts VisitorFacts DegreeFacts ExpansionFacts LinearFacts ModelFacts OptimFacts OptimMeaning OptimProblem ReadyFacts OptimReady
  SpecDecompose DecomposeFacts SpecOrder OrderFacts.

Lemma dget_permutation {V} (d d' : dict string V) k : Permutation d d' -> NoDup (map fst d) -> dget String.eqb k d' = dget String.eqb k d.
Proof.
  intros HP ND. assert (ND' : NoDup (map fst d')) by (eapply Permutation_NoDup; [apply Permutation_map; exact HP|exact ND]).
  destruct (dget String.eqb k d) as [v|] eqn:E.
  - apply (In_dget_nodup String.eqb String.eqb_eq); [exact ND'|]. eapply Permutation_in; [exact HP|]. now apply (dget_In String.eqb String.eqb_eq).
  - apply (dget_None String.eqb String.eqb_eq). apply (dget_None String.eqb String.eqb_eq) in E. intros H. apply E.
    eapply Permutation_in; [apply Permutation_sym, Permutation_map; exact HP|exact H].
Qed.
Lemma py_max_perm l l' m : Permutation l l' -> py_max l = Ok m -> py_max l' = Ok m.
Proof.
  assert (G : forall l a, fold_left Nat.max l a = Nat.max a (fold_right Nat.max 0%nat l)).
  { induction l0 as [|b l0 IH]; intros a; cbn; [lia|]. rewrite IH. lia. }
  intros HP. assert (F : fold_right Nat.max 0%nat l = fold_right Nat.max 0%nat l') by (induction HP; cbn; lia).
  unfold py_max. destruct l as [|a l], l' as [|b l']; try discriminate.
  - intros _. apply Permutation_sym, Permutation_nil in HP. discriminate.
  - cbn in F. rewrite !G. intros [= <-]. f_equal. lia.
Qed.
Lemma degree_shuffled e : forall e' d, shuffled e e' -> compute_degree e = Ok d -> compute_degree e' = Ok d.
Proof.
  induction e using expr_ind'; intros e' r Hs Hv; inversion Hs; subst; cbn [compute_degree] in *; auto; try discriminate.
  - inv_bind Hv.
    assert (HM : matched (fun a b => forall x, compute_degree a = Ok x -> exists y, compute_degree b = Ok y /\ x = y) l l').
    { apply matched_imp with (R := shuffled); [|eexists; eauto]. intros a b Ha _ Hab y Hy. rewrite Forall_forall in H. eauto. }
    destruct (matched_mapM eq _ _ _ _ HM _ H0) as (ys & E & S). rewrite E. cbn [bind]. apply matched_eq in S. eapply py_max_perm; eauto.
  - inv_bind Hv. inv_bind Hv. both. exact Hv.
  - inv_bind Hv. both. destruct (Nat.eqb v 0); [both; reflexivity|discriminate].
  - inv_bind Hv. inv_bind Hv. both. exact Hv.
  - inv_bind Hv. inv_bind Hv. rewrite H. cbn [bind]. both. exact Hv.
Qed.
Lemma constant_shuffled e e' b : shuffled e e' -> is_constant e = Ok b -> is_constant e' = Ok b.
Proof. intros Hs H. unfold is_constant in *. inv_bind H. now rewrite (degree_shuffled _ _ _ Hs H0). Qed.
Lemma unbounded_shuffled e e' : shuffled e e' -> is_unbounded e' = is_unbounded e /\ is_non_negative e' = is_non_negative e.
Proof. intros Hs. inversion Hs; subst; auto. Qed.

(** the constraint of a component, its expressions shuffled *)
Definition shuffled_constraint (k k' : constraint) : Prop :=
  c_name k' = c_name k /\ shuffled (c_expr k) (c_expr k') /\ shuffled (c_lower k) (c_lower k') /\ shuffled (c_upper k) (c_upper k').
Lemma mk_constraint_shuffled n e lb ub ctx e' lb' ub' k : shuffled e e' -> shuffled lb lb' -> shuffled ub ub' ->
  mk_constraint n e lb ub ctx = Ok k -> exists k', mk_constraint n e' lb' ub' ctx = Ok k' /\ shuffled_constraint k k'.
Proof.
  intros He Hl Hu H. destruct (unbounded_shuffled _ _ Hl) as [L1 L2], (unbounded_shuffled _ _ Hu) as [U1 U2].
  assert (G : forall X, (kl <- is_constant lb ;; if negb kl then Err ValueError else ku <- is_constant ub ;; if negb ku then Err ValueError else
      if is_unbounded lb && is_non_negative lb then Err ValueError else if is_unbounded ub && negb (is_non_negative ub) then Err ValueError else Ok X) = Ok k ->
      k = X /\ forall X' : constraint, (kl <- is_constant lb' ;; if negb kl then Err ValueError else ku <- is_constant ub' ;; if negb ku then Err ValueError else
      if is_unbounded lb' && is_non_negative lb' then Err ValueError else if is_unbounded ub' && negb (is_non_negative ub') then Err ValueError else Ok X') = Ok X').
  { intros X HX. inv_bind HX. destruct v; [|discriminate]. cbn [negb] in HX. inv_bind HX. destruct v; [|discriminate]. cbn [negb] in HX.
    rewrite L1, L2, U1, U2, (constant_shuffled _ _ _ Hl H0), (constant_shuffled _ _ _ Hu H1). cbn [bind negb].
    destruct (is_unbounded lb && is_non_negative lb); [discriminate|]. destruct (is_unbounded ub && negb (is_non_negative ub)); [discriminate|].
    split; [congruence|reflexivity]. }
  inversion He; subst; cbn [mk_constraint] in *;
    try (apply G in H; destruct H as [-> H]; eexists; split; [apply H|]; split; [reflexivity|]; cbn; split; [constructor; assumption|split; assumption]).
  - apply G in H; destruct H as [-> H]; eexists; split; [apply H|]; split; [reflexivity|]; cbn. split; [econstructor; eassumption|split; assumption].
  - rewrite L1, U1. destruct (negb (is_unbounded lb) || negb (is_unbounded ub)); [discriminate|].
    destruct c; injection H as <-; (eexists; split; [reflexivity|]; split; [reflexivity|]; cbn [c_expr c_lower c_upper]; split; [|split; apply shuffled_refl]);
      unfold py_sub; apply shuffled_Add; (apply matched_app; [now apply shuffled_operands|]; apply matched_map;
        apply matched_imp with (R := shuffled); [|now apply shuffled_operands]; intros x y _ _ Hxy; constructor; exact Hxy).
Qed.

(** ** What each connection registers *)
Definition field_registers (k : ports_connection) (fm : string * port_ref) (c p f : string) : list expr :=
  match dget pfi_eqb (pr_port (snd fm), fst fm) (m_port_definitions (co_model (pr_component (snd fm)))) with
  | None => []
  | Some d => match add_component_context (co_id (pr_component (snd fm))) (d_definition d) with
              | Ok e => field_contribution k e (fst fm) c p f
              | Err _ => []
              end
  end.
Definition connection_registers (c p f : string) (k : ports_connection) : list expr :=
  flat_map (fun fm => field_registers k fm c p f) (pc_master k).
Lemma field_registered_eq k ports fm ports' : register_field k ports fm = Ok ports' ->
  forall c p f, registered ports' c p f = registered ports c p f ++ field_registers k fm c p f.
Proof.
  intros H c p f. destruct (register_field_spec _ _ _ _ H) as (e & (d & Hd & He) & Hr). rewrite Hr. f_equal.
  unfold field_registers. now rewrite Hd, He.
Qed.
Lemma connection_registered_eq k ports ports' : foldM (register_field k) ports (pc_master k) = Ok ports' ->
  forall c p f, registered ports' c p f = registered ports c p f ++ connection_registers c p f k.
Proof.
  unfold connection_registers. revert ports. induction (pc_master k) as [|fm ms IH]; intros ports H c p f; cbn [foldM flat_map] in *.
  - injection H as <-. now rewrite app_nil_r.
  - inv_bind H. rewrite (IH _ H), (field_registered_eq _ _ _ _ H0), app_assoc. reflexivity.
Qed.
Lemma connections_registered_eq cs : forall ports ports', foldM (fun ports k => foldM (register_field k) ports (pc_master k)) ports cs = Ok ports' ->
  forall c p f, registered ports' c p f = registered ports c p f ++ flat_map (connection_registers c p f) cs.
Proof.
  induction cs as [|k cs IH]; intros ports ports' H c p f; cbn [foldM flat_map] in *.
  - injection H as <-. now rewrite app_nil_r.
  - inv_bind H. rewrite (IH _ _ H), (connection_registered_eq _ _ _ H0), app_assoc. reflexivity.
Qed.
Lemma register_field_any k fm a b p : register_field k a fm = Ok b -> exists q, register_field k p fm = Ok q.
Proof. unfold register_field. destruct fm as [f m]. destruct (dget _ _ _); [|discriminate]. intros H. inv_bind H. rewrite H0. cbn. eauto. Qed.
Lemma masters_among m1 m2 n1 n2 r1 r2 fs : forall acc ms, (forall f m, In (f, m) acc -> m = r1 \/ m = r2) ->
  masters m1 m2 n1 n2 r1 r2 fs acc = Ok ms -> forall f m, In (f, m) ms -> m = r1 \/ m = r2.
Proof.
  induction fs as [|f fs IH]; intros acc ms Ha H; cbn [masters] in H; [injection H as <-; exact Ha|].
  destruct (negb _ && negb _); [discriminate|]. destruct (_ && _); [discriminate|]. eapply IH; [|exact H].
  intros f' m Hin. apply (dset_entries String.eqb String.eqb_eq) in Hin. destruct Hin as [[_ ->]|Hin]; [destruct (dmem _ _ _); auto|eauto].
Qed.
Lemma connection_masters k : mk_connection (pc_port1 k) (pc_port2 k) = Ok k -> forall f m, In (f, m) (pc_master k) -> m = pc_port1 k \/ m = pc_port2 k.
Proof.
  unfold mk_connection. intros H. destruct (dget _ _ _) as [p1|]; [|discriminate]. destruct (dget _ _ _) as [p2|]; [|discriminate].
  destruct (negb _); [discriminate|]. inv_bind H. injection H as H. apply (f_equal pc_master) in H. cbn [pc_master] in H. rewrite <- H. eapply masters_among; [|exact H0]. intros ? ? [].
Qed.
(** what is connected to ports is made of components' names *)
Definition port_spines (ports : dict port_field_key (list expr)) : Prop :=
  forall k l d, dget pfk_eqb k ports = Some l -> In d l -> spine component_leaf d.
Lemma registered_spines o ports : built_network (o_network o) -> sound_connections (o_network o) ->
  register_connections o = Ok ports -> port_spines ports.
Proof.
  intros Hb Hs H [c [p f]] l d Hl Hd. unfold register_connections in H.
  assert (E : registered ports c p f = flat_map (connection_registers c p f) (n_connections (o_network o)))
    by exact (connections_registered_eq _ _ _ H c p f).
  unfold registered in E. rewrite Hl in E. rewrite E in Hd. apply in_flat_map in Hd. destruct Hd as (k & Hk & Hd).
  apply in_flat_map in Hd. destruct Hd as ([g m] & Hm & Hd). unfold field_registers in Hd. cbn [fst snd] in Hd.
  destruct (dget pfi_eqb _ _) as [df|] eqn:Ed; [|contradiction]. destruct (add_component_context _ _) as [e|] eqn:Ee; [|contradiction].
  assert (d = e) by (unfold field_contribution in Hd; apply in_app_or in Hd; destruct Hd as [Hd|Hd];
    [destruct (is_port (pc_port1 k) c p && String.eqb g f)|destruct (is_port (pc_port2 k) c p && String.eqb g f)]; cbn in Hd; destruct Hd; congruence || contradiction).
  subst d. apply (context_spine _ _ _ Ee). apply check_spine.
  assert (HC : checked_definitions (co_model (pr_component m))).
  { destruct (connection_masters k (built_network_connections _ _ Hb Hk) _ _ Hm) as [-> | ->]; apply (Hs k Hk). }
  apply (dget_In pfi_eqb pfi_eqb_eq) in Ed. specialize (HC _ _ Ed). unfold mk_port_field_def in HC. inv_bind HC. now destruct v.
Qed.

(** ** Coefficients added one after the other *)
Lemma matched_Forall2s {A B C} (R : A -> B -> Prop) (R' : A -> C -> Prop) (S : B -> C -> Prop) l l' xs ys : Permutation l l' ->
  Forall2 R l xs -> Forall2 R' l' ys -> (forall a x y, In a l -> R a x -> R' a y -> S x y) -> matched S xs ys.
Proof.
  intros HP H1 H2 HS. destruct (Permutation_Forall2 HP H1) as (xs2 & P2 & F2). apply matched_perm_l with (l := xs2); [|now apply Permutation_sym].
  apply matched_Forall2. assert (HS' : forall a x y, In a l' -> R a x -> R' a y -> S x y).
  { intros a x y Ha. apply HS. eapply Permutation_in; [apply Permutation_sym; exact HP|exact Ha]. }
  clear - F2 H2 HS'. revert ys H2. induction F2 as [|a x l' xs2 H F2 IH]; intros ys H2; inversion H2; subst; constructor.
  - eapply HS'; eauto. now left.
  - apply IH; auto. intros b u v Hb. apply HS'. now right.
Qed.
Lemma matched_concat {A B} (S : A -> B -> Prop) ls ms : matched (Forall2 S) ls ms -> matched S (concat ls) (concat ms).
Proof.
  intros H. rewrite <- (map_id ls), <- (map_id ms), <- !flat_map_concat_map. apply matched_flat_map.
  eapply matched_imp; [|exact H]. intros a b _ _ Hab. now apply matched_Forall2.
Qed.
Definition reads_term (o : settings) (st : state) (kt : term) (ic : nat * num) : Prop := get_solver_var o st (fst kt) = Ok (fst ic) /\ snd ic = snd kt.
Definition add_entry (d : dict nat num) (ic : nat * num) : dict nat num := dset Nat.eqb (fst ic) (nadd (snd ic) (get_coefficient d (fst ic))) d.
Lemma add_entry_spec d ic : NoDup (map fst d) -> NoDup (map fst (add_entry d ic)) /\
  forall k, dget Nat.eqb k (add_entry d ic) =
    if Nat.eqb k (fst ic) then Some (nadd (match dget Nat.eqb k d with Some c => c | None => n0 end) (snd ic)) else dget Nat.eqb k d.
Proof.
  intros N. unfold add_entry. split; [now apply (dset_nodup Nat.eqb Nat.eqb_eq)|]. intros k. destruct (Nat.eqb_spec k (fst ic)) as [->|Hne].
  - rewrite (dget_dset_same Nat.eqb Nat.eqb_eq). f_equal. apply nadd_comm.
  - now rewrite (dget_dset_other Nat.eqb Nat.eqb_eq).
Qed.
Section Renumber.
  Context (f : nat -> nat) (Hf : forall i j, f i = f j -> i = j).
  Lemma dset_renumber i c d : dset Nat.eqb (f i) c (map (renumber f) d) = map (renumber f) (dset Nat.eqb i c d).
  Proof.
    induction d as [|[j b] d IH]; cbn; [reflexivity|].
    destruct (Nat.eqb_spec i j) as [->|Hne]; [rewrite Nat.eqb_refl|destruct (Nat.eqb_spec (f i) (f j)) as [E|_]; [apply Hf in E; contradiction|]].
    - reflexivity.
    - cbn. now rewrite IH.
  Qed.
  Lemma dget_renumber i d : dget Nat.eqb (f i) (map (renumber f) d) = dget Nat.eqb i d.
  Proof.
    induction d as [|[j b] d IH]; cbn; [reflexivity|].
    destruct (Nat.eqb_spec i j) as [->|Hne]; [now rewrite Nat.eqb_refl|destruct (Nat.eqb_spec (f i) (f j)) as [E|_]; [apply Hf in E; contradiction|exact IH]].
  Qed.
  Lemma entries_renumber T : forall d, fold_left add_entry (map (renumber f) T) (map (renumber f) d) = map (renumber f) (fold_left add_entry T d).
  Proof.
    induction T as [|[i c] T IH]; intros d; cbn [map fold_left]; [reflexivity|]. rewrite <- IH. f_equal. unfold add_entry, get_coefficient. cbn [renumber fst snd].
    now rewrite dget_renumber, dset_renumber.
  Qed.
  Lemma entries_permuted T T' : Permutation (map (renumber f) T) T' ->
    Permutation (map (renumber f) (fold_left add_entry T [])) (fold_left add_entry T' []).
  Proof.
    intros H. rewrite <- (entries_renumber T []). exact (fold_perm Nat.eqb Nat.eqb_eq add_entry add_entry_spec _ _ H).
  Qed.
End Renumber.
Lemma add_terms_entries o st ts : forall d d', foldM (add_term o st) d ts = Ok d' <-> exists T, Forall2 (reads_term o st) ts T /\ d' = fold_left add_entry T d.
Proof.
  induction ts as [|kt ts IH]; intros d d'; cbn [foldM].
  - split; [intros [= <-]; exists []; split; [constructor|reflexivity]|]. intros (T & HT & ->). inversion HT. reflexivity.
  - unfold add_term at 1. split.
    + intros H. inv_bind H. inv_bind H0. injection H0 as <-. apply IH in H. destruct H as (T & HT & ->).
      exists ((v0, snd kt) :: T). split; [|reflexivity]. constructor; [split; [exact H1|reflexivity]|exact HT].
    + intros (T & HT & ->). inversion HT as [|? ic ? T' [E1 E2] HT']; subst. rewrite E1. cbn [bind]. apply IH. exists T'. split; [exact HT'|].
      cbn [fold_left]. unfold add_entry at 2. now rewrite E2.
Qed.
Lemma add_objective_entries o ts : forall st st', foldM (add_objective_term o) st ts = Ok st' ->
  exists T, Forall2 (reads_term o st) ts T /\ s_objective (st_solver st') = fold_left add_entry T (s_objective (st_solver st)).
Proof.
  induction ts as [|kt ts IH]; intros st st' H; cbn [foldM] in H.
  - injection H as <-. exists []. split; [constructor|reflexivity].
  - inv_bind H. unfold add_objective_term in H0. inv_bind H0. inv_bind H0. inv_bind H0. injection H0 as <-.
    apply IH in H. destruct H as (T & HT & E). exists ((v0, snd kt) :: T). split; [constructor; [now split|exact HT]|].
    rewrite E. cbn [fold_left]. f_equal. unfold add_entry, add_coefficient. cbn. now rewrite nadd_comm.
Qed.
Lemma reads_term_same o st st' kt ic : same_variables st st' -> reads_term o st' kt ic -> reads_term o st kt ic.
Proof. intros (E & _) [H1 H2]. split; [|exact H2]. unfold get_solver_var in *. now rewrite (get_variable_same o st st') in H1 by exact E. Qed.
(** the objective of a problem: the terms and constants of the forms of its contributions *)
Lemma objectives_gathered o st st' : create_objectives o st = Ok st' ->
  exists Ls T, Forall2 (contribution_form o st) (contributions o) Ls /\ Forall2 (reads_term o st) (flat_map le_terms Ls) T /\
    s_objective (st_solver st') = fold_left add_entry T (s_objective (st_solver st)) /\
    s_offset (st_solver st') = nadd (s_offset (st_solver st)) (nsum (map le_constant Ls)).
Proof.
  intros H. apply create_objectives_flat in H. rewrite contributions_given.
  revert st H. induction (obj_pairs o) as [|[c [e|]] l IH]; intros st H; cbn [foldM fst snd] in H.
  - injection H as <-. exists [], []. repeat split; try constructor. cbn. unfold nsum. cbn. now rewrite nadd_0_r.
  - inv_bind H. destruct (IH _ H) as (Ls & T & F1 & F2 & E1 & E2). cbn in H0.
    destruct (create_objective_same _ _ _ _ _ H0) as [HS _]. unfold create_objective in H0. inv_bind H0. inv_bind H0. inv_bind H0. inv_bind H0. injection H0 as <-.
    destruct (add_objective_entries _ _ _ _ H4) as (T0 & F0 & E0). destruct (add_objective_terms_same _ _ _ _ H4) as (HS0 & _ & Eo).
    exists (v2 :: Ls), (T0 ++ T). cbn [given flat_map fst snd app]. split; [|split; [|split]].
    + constructor; [exists v0, v1; auto|]. eapply Forall2_weaken; [|exact F1]. intros a b. apply contribution_form_same. apply HS.
    + apply Forall2_app; [exact F0|]. eapply Forall2_weaken; [|exact F2]. intros a b. now apply reads_term_same.
    + rewrite E1, fold_left_app. cbn [add_offset st_solver s_objective]. now rewrite E0.
    + rewrite E2. cbn [add_offset st_solver s_offset map]. rewrite Eo, nsum_cons, nadd_assoc. f_equal. apply nadd_comm.
  - exact (IH _ H).
Qed.

(** ** Problems *)
Section Reordered.
  Context (o o' : settings).
  Notation n := (o_network o).
  Notation n' := (o_network o').
  Hypothesis Hr : reordered_settings o o'.
  Hypothesis (Hu : usable_block o) (Hb : built_network n) (Hd : distinct_ids n) (Hn : named_network n) (Hc : sound_connections n).

  Lemma components_permuted : Permutation (all_components n) (all_components n').
  Proof. destruct Hr as ((P1 & P2 & _) & _). unfold all_components. apply Permutation_app; now apply Permutation_map. Qed.
  Lemma components_same c : In c (all_components n') <-> In c (all_components n).
  Proof. split; apply Permutation_in; [apply Permutation_sym|]; apply components_permuted. Qed.
  Lemma distinct' : distinct_ids n'.
  Proof. unfold distinct_ids. eapply Permutation_NoDup; [apply Permutation_map, components_permuted|exact Hd]. Qed.
  Lemma named' : named_network n'.
  Proof. intros c Hc'. apply Hn. now apply components_same. Qed.
  Lemma usable' : usable_block o'.
  Proof. destruct Hr as (_ & _ & E1 & _ & E2 & _). unfold usable_block. now rewrite E1, E2. Qed.
  Lemma component' id : get_component n' id = get_component n id.
  Proof.
    destruct Hr as ((P1 & P2 & _) & _). destruct (built_network_named n Hb) as [[N1 _] [N2 _]]. unfold get_component.
    now rewrite (dget_permutation _ _ id P2 N2), (dget_permutation _ _ id P1 N1).
  Qed.
  Lemma structure' {A} (get : model -> dict string A) f c x : component_structure o' get f c x = component_structure o get f c x.
  Proof. unfold component_structure. now rewrite component'. Qed.
  Lemma length' : block_length o' = block_length o.
  Proof. destruct Hr as (_ & _ & E & _). unfold block_length. now rewrite E. Qed.
  Lemma scenarios' : o_scenarios o' = o_scenarios o.
  Proof. apply Hr. Qed.
  Lemma wrap' t : wrap_timestep o' t = wrap_timestep o t.
  Proof. unfold wrap_timestep. rewrite length'. destruct Hr as (_ & _ & _ & _ & E & _). now rewrite E. Qed.
  Lemma parameter' t s c p : parameter_value o' t s c p = parameter_value o t s c p.
  Proof.
    unfold parameter_value, block_timestep_to_absolute_timestep. destruct Hr as (_ & E1 & E2 & _ & _ & _ & _ & E3 & _). rewrite E1, E2, E3.
    destruct (get_data _ c p); cbn [bind]; [|reflexivity]. destruct t; [|reflexivity]. now rewrite wrap'.
  Qed.
  Lemma value' e e' t s v : shuffled e e' -> compute_expression_value o e t s = Ok v -> compute_expression_value o' e' t s = Ok v.
  Proof. apply evaluate_shuffled; cbn; try discriminate. intros c x w. now rewrite parameter'. Qed.
  Lemma time_bound' e e' z : shuffled e e' -> evaluate_time_bound o e = Ok z -> evaluate_time_bound o' e' = Ok z.
  Proof.
    unfold evaluate_time_bound. intros Hs H. inv_bind H. erewrite evaluate_shuffled; [exact H| | | | |exact Hs|exact H0]; cbn; try discriminate.
    intros c x w. rewrite structure'. destruct (component_structure o _ _ _ _); cbn [bind]; [|discriminate]. rewrite parameter'. auto.
  Qed.
  Lemma expand' e e' x : shuffled e e' -> context_expand o e = Ok x -> exists x', context_expand o' e' = Ok x' /\ shuffled x x'.
  Proof.
    unfold context_expand, expand_operators. rewrite length', scenarios'. apply expand_shuffled; intros; cbn; try apply structure'. eapply time_bound'; eauto.
  Qed.
  Lemma linearize' e e' t s L : shuffled e e' -> context_linearize o e t s = Ok L -> exists L', context_linearize o' e' t s = Ok L' /\ same_form L L'.
  Proof. apply linearize_shuffled. intros. apply parameter'. Qed.
  Lemma indexing' e e' x : spine component_leaf e -> shuffled e e' -> context_expand o e = Ok x ->
    exists ix, context_indexing o e = Ok ix /\ context_indexing o' e' = Ok ix.
  Proof.
    intros HS Hs Hx. exists (total (data_structure_provider o) e). split; [exact (indexed _ _ _ _ HS _ Hx)|].
    destruct (expand' _ _ _ Hs Hx) as (x' & Hx' & _). unfold context_indexing.
    rewrite (indexed _ _ _ _ (spine_shuffled _ _ Hs HS) _ Hx'). f_equal. apply total_shuffled; [| |exact Hs]; intros; apply structure'.
  Qed.
  Lemma indices' ix : get_time_indices o' ix = get_time_indices o ix /\ get_scenario_indices o' ix = get_scenario_indices o ix /\
    variable_instances o' ix = variable_instances o ix.
  Proof. unfold variable_instances, get_time_indices, get_scenario_indices. now rewrite length', scenarios'. Qed.
  Lemma name' c x t s : solver_variable_name o' c x t s = solver_variable_name o c x t s.
  Proof.
    unfold solver_variable_name, name_prefix. rewrite length', scenarios'. destruct Hr as (_ & _ & _ & _ & _ & _ & _ & E1 & E2). now rewrite E1, E2.
  Qed.

  (** ports *)
  Definition same_ports (ports ports' : dict port_field_key (list expr)) : Prop :=
    forall c p f, Permutation (registered ports c p f) (registered ports' c p f).
  Lemma register' ports : register_connections o = Ok ports -> exists ports', register_connections o' = Ok ports' /\ same_ports ports ports'.
  Proof.
    intros H. destruct Hr as ((_ & _ & P) & _).
    assert (G : exists ports', register_connections o' = Ok ports' /\ True).
    { unfold register_connections in *. apply (foldM_ok _ (fun _ => True)); [|exact I]. intros acc k Hk _.
      destruct (foldM_each _ (fun _ => True) _ (fun _ _ _ _ _ _ => I) _ _ I H k) as (a1 & a2 & _ & Ha).
      { eapply Permutation_in; [apply Permutation_sym; exact P|exact Hk]. }
      apply (foldM_ok _ (fun _ => True)); [|exact I]. intros acc2 fm Hfm _.
      destruct (foldM_each _ (fun _ => True) _ (fun _ _ _ _ _ _ => I) _ _ I Ha fm Hfm) as (b1 & b2 & _ & Hb').
      destruct (register_field_any _ _ _ _ acc2 Hb') as [q Hq]. eauto. }
    destruct G as (ports' & H' & _). exists ports'. split; [exact H'|]. intros c p f.
    unfold register_connections in *. rewrite (connections_registered_eq _ _ _ H), (connections_registered_eq _ _ _ H').
    cbn [registered dget app]. now apply Permutation_flat_map.
  Qed.
  Lemma resolver' cid ports ports' : same_ports ports ports' -> same_leaves (port_resolver cid ports) (port_resolver cid ports').
  Proof.
    intros HP. unfold same_leaves, port_resolver; cbn. 
    do 6 (split; [intros; eexists; split; [eassumption|apply shuffled_refl]|]). split.
    - intros p f e H. unfold resolve_port_field in *. specialize (HP cid p f). unfold registered in HP.
      destruct (dget pfk_eqb _ ports) as [[|d [|]]|]; try discriminate. injection H as <-.
      apply Permutation_length_1_inv in HP. destruct (dget pfk_eqb _ ports') as [l|]; [subst l|discriminate]. eauto using shuffled_refl.
    - intros a a' g e Hs H. unfold resolve_port_aggregator in *. destruct g; try discriminate. destruct a; try discriminate. inversion Hs; subst.
      injection H as <-. eexists; split; [reflexivity|]. apply shuffled_sum_expressions.
      pose proof (HP cid p f) as HPf. unfold registered in HPf.
      apply matched_perm_r with (m := match dget pfk_eqb (cid, (p, f)) ports with Some l => l | None => [] end); [|exact HPf].
      apply Forall_matched. apply Forall_forall. intros; apply shuffled_refl.
  Qed.
  Lemma instantiate' st st' e cid x : same_ports (st_ports st) (st_ports st') -> instantiate st e cid = Ok x ->
    exists x', instantiate st' e cid = Ok x' /\ shuffled x x'.
  Proof.
    intros HP H. unfold instantiate in *. inv_bind H. rewrite H0. cbn [bind]. unfold resolve_port in *.
    eapply copy_shuffled; [apply resolver'; exact HP|apply shuffled_refl|exact H].
  Qed.
  Lemma instantiate_spine st e cid x : port_spines (st_ports st) -> instantiate st e cid = Ok x -> spine component_leaf x.
  Proof. intros HP H. unfold instantiate in H. inv_bind H. eapply resolve_spine; [exact HP|apply (context_spine _ _ _ H0)|exact H]. Qed.
  Lemma instantiate_constraint' st st' cid k ic : same_ports (st_ports st) (st_ports st') -> port_spines (st_ports st) ->
    instantiate_constraint st cid k = Ok ic -> spine component_leaf (c_expr ic) /\
    exists ic', instantiate_constraint st' cid k = Ok ic' /\ shuffled_constraint ic ic'.
  Proof.
    intros HP HS H. unfold instantiate_constraint in *. inv_bind H. inv_bind H. inv_bind H. split.
    - pose proof (instantiate_spine _ _ _ _ HS H0) as S. clear - S H. unfold mk_constraint in H.
      destruct v; try (repeat inv_bind H; repeat match type of H with (if ?b then _ else _) = _ => destruct b; try discriminate end;
        try (inv_bind H; repeat match type of H with (if ?b then _ else _) = _ => destruct b; try discriminate end); injection H as <-; exact S).
      destruct (_ || _); [discriminate|]. destruct S as [S1 S2].
      assert (G : spine component_leaf (py_sub v2 v3)).
      { unfold py_sub. apply spine_Add. apply Forall_app. split; [now apply spine_operands|]. apply Forall_map.
        apply spine_operands in S2. revert S2. apply Forall_impl. auto. }
      destruct c; injection H as <-; exact G.
    - destruct (instantiate' _ _ _ _ _ HP H0) as (e' & E1 & S1), (instantiate' _ _ _ _ _ HP H1) as (l' & E2 & S2), (instantiate' _ _ _ _ _ HP H2) as (u' & E3 & S3).
      rewrite E1. cbn [bind]. rewrite E2. cbn [bind]. rewrite E3. cbn [bind]. eapply mk_constraint_shuffled; eauto.
  Qed.
  (** variables *)
  Lemma var_insts_permuted : Permutation (var_insts o) (var_insts o').
  Proof.
    unfold var_insts, var_pairs. destruct Hr as (_ & _ & _ & _ & _ & E & _).
    assert (G : forall l, flat_map (fun cv : component * variable => map (pair cv) (variable_instances o' (v_structure (snd cv)))) l =
      flat_map (fun cv : component * variable => map (pair cv) (variable_instances o (v_structure (snd cv)))) l).
    { intros l. apply flat_map_ext. intros a. now rewrite (proj2 (proj2 (indices' _))). }
    rewrite G, E. apply Permutation_flat_map, Permutation_flat_map, components_permuted.
  Qed.
  Lemma positions : exists f, (forall i j, f i = f j -> i = j) /\ forall i, nth_error (var_insts o') (f i) = nth_error (var_insts o) i.
  Proof.
    destruct (proj1 (Permutation_nth_error _ _) (Permutation_sym var_insts_permuted)) as (_ & f & Hf & H). exists f. split; [exact Hf|]. intros i. now rewrite H.
  Qed.
  Lemma create_instance' c v lbe lbe' ube ube' st st' ts r :
    (forall t s w, bound_value o NInf lbe t s = Ok w -> bound_value o' NInf lbe' t s = Ok w) ->
    (forall t s w, bound_value o PInf ube t s = Ok w -> bound_value o' PInf ube' t s = Ok w) ->
    create_variable_instance o c v lbe ube st ts = Ok r -> exists r', create_variable_instance o' c v lbe' ube' st' ts = Ok r' /\ st_ports r' = st_ports st'.
  Proof.
    intros Hl Hu' H. unfold create_variable_instance in *. destruct ts as [t s]. inv_bind H. inv_bind H. rewrite (Hl _ _ _ H0). cbn [bind].
    rewrite (Hu' _ _ _ H1). cbn [bind]. destruct (nltb v1 v0); [discriminate|]. eexists; split; reflexivity.
  Qed.
  Lemma bound' st st' b cid be : same_ports (st_ports st) (st_ports st') -> instantiate_bound st b cid = Ok be ->
    exists be', instantiate_bound st' b cid = Ok be' /\ forall d t s w, bound_value o d be t s = Ok w -> bound_value o' d be' t s = Ok w.
  Proof.
    intros HP H. destruct b as [b|]; cbn in *; [|injection H as <-; exists None; auto]. inv_bind H. injection H as <-.
    destruct (instantiate' _ _ _ _ _ HP H0) as (x' & E & S). rewrite E. cbn [bind]. eexists; split; [reflexivity|]. intros d t s w. cbn. now apply value'.
  Qed.
  Lemma create_variable' c v st st' r : same_ports (st_ports st) (st_ports st') -> create_variable o c st v = Ok r ->
    exists r', create_variable o' c st' v = Ok r' /\ st_ports r' = st_ports st'.
  Proof.
    intros HP H. unfold create_variable in *. inv_bind H. inv_bind H. destruct (bound' _ _ _ _ _ HP H0) as (l' & E1 & B1), (bound' _ _ _ _ _ HP H1) as (u' & E2 & B2).
    rewrite E1. cbn [bind]. rewrite E2. cbn [bind]. rewrite (proj2 (proj2 (indices' _))).
    apply (foldM_ok _ (fun s => st_ports s = st_ports st')); [|reflexivity]. intros acc ts Hts Hacc.
    destruct (foldM_each _ (fun _ => True) _ (fun _ _ _ _ _ _ => I) _ _ I H ts Hts) as (a1 & a2 & _ & Ha).
    destruct (create_instance' _ _ _ l' _ u' _ acc _ _ (B1 NInf) (B2 PInf) Ha) as (r' & E & P). exists r'. split; [exact E|congruence].
  Qed.
  Lemma selection' : o_selection o' = o_selection o.
  Proof. apply Hr. Qed.
  Lemma create_variables' ports ports' st : same_ports ports ports' -> create_variables o (set_ports initial_state ports) = Ok st ->
    exists st', create_variables o' (set_ports initial_state ports') = Ok st'.
  Proof.
    intros HP H. assert (G : exists st', create_variables o' (set_ports initial_state ports') = Ok st' /\ st_ports st' = ports'); [|destruct G as (st' & G & _); eauto].
    unfold create_variables in *. apply (foldM_ok _ (fun st => st_ports st = ports')); [|reflexivity]. intros acc c Hc' Hacc. apply components_same in Hc'.
    assert (IC : forall acc a acc', In a (all_components n) -> st_ports acc = ports ->
      foldM (create_variable o a) acc (get_variables (o_selection o) (co_model a)) = Ok acc' -> st_ports acc' = ports).
    { intros x a x' _ E HE. apply (foldM_invariant _ (fun st => st_ports st = ports)) in HE; auto. intros y z w _ E' HE'. apply create_variable_ports in HE'. congruence. }
    destruct (foldM_each _ (fun st => st_ports st = ports) _ IC (set_ports initial_state ports) _ eq_refl H c Hc') as (a1 & a2 & P1 & F1).
    rewrite selection'. apply (foldM_ok _ (fun st => st_ports st = ports')); [|exact Hacc]. intros acc2 v Hv Hacc2.
    assert (IV : forall acc a acc', In a (get_variables (o_selection o) (co_model c)) -> st_ports acc = ports -> create_variable o c acc a = Ok acc' -> st_ports acc' = ports).
    { intros x a x' _ E HE. apply create_variable_ports in HE. congruence. }
    destruct (foldM_each _ (fun st => st_ports st = ports) _ IV _ _ P1 F1 v Hv) as (b1 & b2 & P2 & F2).
    destruct (create_variable' c v b1 acc2 b2) as (r' & E & P); [rewrite P2, Hacc2; exact HP|exact F2|]. exists r'. split; [exact E|congruence].
  Qed.
  Lemma made' st st' i sv : same_ports (st_ports st) (st_ports st') -> made o st i sv -> made o' st' i sv.
  Proof.
    intros HP. destruct i as [[c v] [t s]]. intros (l & u & B1 & B2 & E & ->). exists l, u.
    assert (G : forall d b w, bound_of o st d b (co_id c) t s w -> bound_of o' st' d b (co_id c) t s w).
    { intros d [b|] w; cbn; [|auto]. intros (e & E1 & E2). destruct (instantiate' _ _ _ _ _ HP E1) as (e' & E3 & S). exists e'. split; [exact E3|]. eapply value'; eauto. }
    split; [now apply G|]. split; [now apply G|]. split; [exact E|]. unfold inst_name. now rewrite name'.
  Qed.
  Lemma wrapped' t : wrapped o' t = wrapped o t.
  Proof. unfold wrapped. destruct Hr as (_ & _ & E & _). now rewrite E. Qed.
  Section Numbered.
    Context (f : nat -> nat) (Hf : forall i j, f i = f j -> i = j) (Hpos : forall i, nth_error (var_insts o') (f i) = nth_error (var_insts o) i).
    Lemma lookup' st st' k i : created o st -> created o' st' -> get_solver_var o st k = Ok i -> get_solver_var o' st' k = Ok (f i).
    Proof.
      intros C C' H. unfold get_solver_var in *. apply (lookup_iff o st) in H; auto.
      apply (lookup_iff o' st'); auto using usable', distinct', named'. rewrite wrapped', nth_error_map, Hpos, <- nth_error_map. exact H.
    Qed.
    Lemma vars' st st' v v' : same_ports (st_ports st) (st_ports st') -> Forall2 (made o st) (var_insts o) v -> Forall2 (made o' st') (var_insts o') v' ->
      List.length v' = List.length v /\ forall i, nth_error v' (f i) = nth_error v i.
    Proof.
      intros HP F F'. pose proof (Forall2_len _ _ _ F) as L. pose proof (Forall2_len _ _ _ F') as L'.
      pose proof (Permutation_length var_insts_permuted) as LP. split; [congruence|]. intros i.
      destruct (nth_error (var_insts o) i) as [a|] eqn:E.
      - destruct (Forall2_nth_left _ _ _ F _ _ E) as (sv & E1 & M1). rewrite <- Hpos in E. destruct (Forall2_nth_left _ _ _ F' _ _ E) as (sv' & E2 & M2).
        apply (made' _ st' _ _ HP) in M1. rewrite E1, E2, (made_one _ _ _ _ _ M1 M2). reflexivity.
      - pose proof E as E'. rewrite <- Hpos in E'. apply nth_error_None in E, E'. rewrite (proj2 (nth_error_None v i)), (proj2 (nth_error_None v' (f i))) by lia. reflexivity.
    Qed.
    Lemma terms' st st' ts ts' T : created o st -> created o' st' -> Permutation ts ts' -> Forall2 (reads_term o st) ts T ->
      exists T', Forall2 (reads_term o' st') ts' T' /\ Permutation (map (renumber f) T) T'.
    Proof.
      intros C C' HP HF. destruct (Permutation_Forall2 HP HF) as (T2 & P2 & F2). exists (map (renumber f) T2). split; [|now apply Permutation_map].
      clear - C C' F2 Hf Hpos Hr Hu Hd Hn. induction F2 as [|kt ic l m [E1 E2] F2 IH]; constructor; [|exact IH]. split; [|exact E2]. cbn. now apply lookup' with (st := st).
    Qed.
    Lemma terms_unique st' ts' T T' : Forall2 (reads_term o' st') ts' T -> Forall2 (reads_term o' st') ts' T' -> T = T'.
    Proof.
      intros F. revert T'. induction F as [|kt ic l m [E1 E2] F IH]; intros T' F'; inversion F' as [|? [i c] ? ? [E1' E2'] F'']; subst; [reflexivity|].
      f_equal; [|now apply IH]. destruct ic as [j b]. cbn in *. congruence.
    Qed.
    Lemma make_constraint' st st' t s x lb ub L L' r : created o st -> created o' st' -> same_form L L' -> make_constraint o st t s x lb ub L = Ok r ->
      exists r', make_constraint o' st' t s x lb ub L' = Ok r' /\ same_row f r r'.
    Proof.
      intros C C' [HP HC] H. unfold make_constraint in *. inv_bind H. apply add_terms_entries in H0. destruct H0 as (T & HT & ->).
      destruct (terms' _ _ _ _ _ C C' HP HT) as (T' & HT' & PT). rewrite (proj2 (add_terms_entries o' st' (le_terms L') [] (fold_left add_entry T' []))) by eauto.
      cbn [bind]. injection H as <-. eexists; split; [reflexivity|]. rewrite HC. repeat split. cbn [sr_coefs]. now apply entries_permuted.
    Qed.
    Lemma block_rows' st st' ck rows : created o st -> created o' st' -> same_ports (st_ports st) (st_ports st') -> port_spines (st_ports st) ->
      block_rows o st ck rows -> exists rows', block_rows o' st' ck rows' /\ Forall2 (same_row f) rows rows'.
    Proof.
      intros C C' HP HS (ic & Hic & Hrows). destruct (instantiate_constraint' _ _ _ _ _ HP HS Hic) as (Sp & ic' & Hic' & (E & S1 & S2 & S3)).
      unfold create_constraint in Hrows. inv_bind Hrows. inv_bind Hrows.
      destruct (expand' _ _ _ S1 H) as (x' & Hx' & Sx). destruct (indexing' _ _ _ Sp S1 H) as (ix & I1 & I2).
      assert (ix = v0) by (unfold constraint_indexing in H0; congruence). subst ix.
      assert (G : exists rows', mapM (fun ts => create_row o' st' ic' x' (fst ts) (snd ts)) (list_prod (get_time_indices o v0) (get_scenario_indices o v0)) = Ok rows' /\
        Forall2 (same_row f) rows rows').
      { apply mapM_ok in Hrows. clear - Hrows Sx S2 S3 E C C' Hf Hpos Hr Hu Hd Hn. induction Hrows as [|[t s] r l rows Hrow Hrows IH]; [exists []; split; [reflexivity|constructor]|].
        destruct IH as (rows' & IH1 & IH2). cbn [fst snd] in Hrow. unfold create_row in Hrow. inv_bind Hrow. inv_bind Hrow. inv_bind Hrow.
        destruct (linearize' _ _ _ _ _ Sx H) as (L' & HL' & SL). rewrite <- E in Hrow. destruct (make_constraint' _ _ _ _ _ _ _ _ _ _ C C' SL Hrow) as (r' & Hr' & SR).
        exists (r' :: rows'). split; [|now constructor]. cbn [mapM fst snd]. unfold create_row at 1. rewrite HL'. cbn [bind].
        rewrite (value' _ _ _ _ _ S2 H0). cbn [bind]. rewrite (value' _ _ _ _ _ S3 H1). cbn [bind]. rewrite Hr'. cbn [bind]. rewrite IH1. reflexivity. }
      destruct G as (rows' & G1 & G2). exists rows'. split; [|exact G2]. exists ic'. split; [exact Hic'|]. unfold create_constraint. rewrite Hx'. cbn [bind].
      unfold constraint_indexing. rewrite I2. cbn [bind]. rewrite (proj1 (indices' _)), (proj1 (proj2 (indices' _))). exact G1.
    Qed.
    Lemma row_pairs_permuted : Permutation (row_pairs o) (row_pairs o').
    Proof. unfold row_pairs. rewrite selection'. apply Permutation_flat_map, components_permuted. Qed.
    Lemma contributions_permuted : Permutation (contributions o) (contributions o').
    Proof. unfold contributions. rewrite selection'. apply Permutation_flat_map, components_permuted. Qed.
    Lemma contribution' st st' ce L : same_ports (st_ports st) (st_ports st') -> contribution_form o st ce L ->
      exists L', contribution_form o' st' ce L' /\ same_form L L'.
    Proof.
      intros HP (i & ex & E1 & E2 & E3). destruct (instantiate' _ _ _ _ _ HP E1) as (i' & E1' & S1). destruct (expand' _ _ _ S1 E2) as (x' & E2' & S2).
      destruct (linearize' _ _ _ _ _ S2 E3) as (L' & E3' & SL). exists L'. split; [|exact SL]. exists i', x'. split; [|split; [exact E2'|exact E3']].
      replace (o_risk o') with (o_risk o) by (symmetry; apply Hr). exact E1'.
    Qed.

    (** the other problem is built *)
    Lemma create_constraints' ports ports' st st' r : same_ports ports ports' -> port_spines ports -> complete_state o ports st -> complete_state o' ports' st' ->
      create_constraints o st = Ok r -> exists r', create_constraints o' st' = Ok r'.
    Proof.
      intros HP HS (C1 & _ & C3 & _) K H. destruct (create_constraints_spec _ _ _ H) as (rss & HF & _).
      assert (G : exists r', create_constraints o' st' = Ok r' /\ complete_state o' ports' r'); [|destruct G as (r' & G & _); eauto].
      unfold create_constraints. apply (foldM_ok _ (complete_state o' ports')); [|exact K]. intros x c Hc' Hx.
      apply (foldM_ok _ (complete_state o' ports')); [|exact Hx]. intros z k Hk Hz.
      assert (Hin : In (c, k) (row_pairs o)).
      { unfold row_pairs. apply in_flat_map. exists c. split; [now apply components_same|]. apply in_map. now rewrite <- selection'. }
      apply In_nth_error in Hin. destruct Hin as [j Hj]. destruct (Forall2_nth_left _ _ _ HF _ _ Hj) as (rows & _ & HB).
      destruct (block_rows' st z (c, k) rows) as (rows' & (ic & Hic & Hrows) & _); auto; [apply Hz|destruct Hz as (_ & _ & -> & _); rewrite C3; exact HP|now rewrite C3|].
      cbn [fst snd] in Hic. unfold create_component_constraint. rewrite Hic. cbn [bind]. rewrite Hrows. cbn [bind]. eexists; split; [reflexivity|]. exact Hz.
    Qed.
    Lemma create_objectives' ports ports' st st' r : same_ports ports ports' -> complete_state o ports st -> complete_state o' ports' st' ->
      create_objectives o st = Ok r -> exists r', create_objectives o' st' = Ok r'.
    Proof.
      intros HP (C1 & _ & C3 & _) K H.
      assert (G : exists r', create_objectives o' st' = Ok r' /\ complete_state o' ports' r'); [|destruct G as (r' & G & _); eauto].
      unfold create_objectives. apply (foldM_ok _ (complete_state o' ports')); [|exact K]. intros x c Hc' Hx.
      apply (foldM_ok _ (complete_state o' ports')); [|exact Hx]. intros z [e|] Hk Hz; [|exists z; split; [reflexivity|exact Hz]].
      destruct (objectives_found _ _ _ H (c, e)) as (L & HL & HT).
      { unfold contributions. apply in_flat_map. exists c. split; [now apply components_same|]. apply in_flat_map. exists (Some e). rewrite <- selection'. split; [exact Hk|now left]. }
      destruct (contribution' st z (c, e) L) as (L' & (i & ex & E1 & E2 & E3) & SL).
      { destruct Hz as (_ & _ & -> & _). rewrite C3. exact HP. }
      { unfold objective_form in HL. inv_bind HL. inv_bind HL. exists v, v0. auto. }
      cbn [create_component_objective]. unfold create_objective. cbn [fst snd] in E1. rewrite E1. cbn [bind]. rewrite E2. cbn [bind]. rewrite E3. cbn [bind].
      destruct (foldM_ok (add_objective_term o') (complete_state o' ports') (le_terms L')) with (acc := z) as (st1 & F1 & HC1).
      - intros acc kt Hkt Hacc. apply objective_term_added; auto using usable', distinct', named'. rewrite Forall_forall in HT.
        destruct (HT kt) as [q Hq]; [eapply Permutation_in; [apply Permutation_sym, SL|exact Hkt]|]. exists (f q). eapply lookup'; [exact C1|apply Hacc|exact Hq].
      - exact Hz.
      - rewrite F1. cbn [bind]. eexists; split; [reflexivity|]. exact HC1.
    Qed.
  End Numbered.
  Lemma requirements' : requirements_consistency (o_database o) n = Ok tt -> requirements_consistency (o_database o') n' = Ok tt.
  Proof.
    unfold requirements_consistency. intros H. inv_bind H. destruct Hr as ((_ & P & _) & E & _).
    assert (Ec : forall c, check_component_data (o_database o') c = check_component_data (o_database o) c).
    { intros c. unfold check_component_data. f_equal. apply mapM_ext. apply Forall_forall. intros [k p] _. cbn. now rewrite E. }
    destruct (mapM_perm _ _ _ _ P H0) as (ys & E' & _).
    rewrite (mapM_ext _ (fun kc : string * component => check_component_data (o_database o) (snd kc))) by (apply Forall_forall; intros a _; apply Ec).
    now rewrite E'.
  Qed.
  Theorem reordered_built st : build_problem o = Ok st -> exists st' f, build_problem o' = Ok st' /\ same_program f (st_solver st) (st_solver st').
  Proof.
    intros H. destruct (build_steps o st H) as (ports & st1 & st2 & RQ & Hp & H1 & H2 & H3). destruct positions as (f & Hf & Hpos).
    destruct (register' ports Hp) as (ports' & Hp' & HP). pose proof (registered_spines o ports Hb Hc Hp) as HS.
    destruct (create_variables' _ _ _ HP H1) as (st1' & H1').
    pose proof (variables_described o Hd Hn _ _ H1) as K1. pose proof (variables_described o' distinct' named' _ _ H1') as K1'.
    destruct (create_constraints' f Hf Hpos _ _ _ _ _ HP HS K1 K1' H2) as (st2' & H2').
    destruct (create_constraints_spec _ _ _ H2) as (rss & HR & E2). destruct (create_constraints_spec _ _ _ H2') as (rss' & HR' & E2').
    assert (K2 : complete_state o ports st2) by (subst st2; exact K1). assert (K2' : complete_state o' ports' st2') by (subst st2'; exact K1').
    destruct (create_objectives' f Hpos _ _ _ _ _ HP K2 K2' H3) as (st3' & H3'). exists st3', f. split.
    { unfold build_problem. rewrite (requirements' RQ). cbn [bind]. unfold optimization_problem. rewrite Hp'. cbn [bind]. rewrite H1'. cbn [bind]. rewrite H2'. exact H3'. }
    destruct (create_objectives_same _ _ _ H3) as ((_ & _ & V) & R). destruct (create_objectives_same _ _ _ H3') as ((_ & _ & V') & R').
    destruct (created_state o (set_ports initial_state ports) st1 Hd Hn eq_refl eq_refl H1) as (_ & HF & Po & Ro & Ob & Of).
    destruct (created_state o' (set_ports initial_state ports') st1' distinct' named' eq_refl eq_refl H1') as (_ & HF' & Po' & Ro' & Ob' & Of').
    destruct (objectives_gathered _ _ _ H3) as (Ls & T & L1 & L2 & L3 & L4). destruct (objectives_gathered _ _ _ H3') as (Ls' & T' & L1' & L2' & L3' & L4').
    assert (SF : matched same_form Ls Ls').
    { eapply matched_Forall2s; [apply contributions_permuted|exact L1|exact L1'|]. intros ce L L' _ HL HL'.
      destruct (contribution' st2 st2' ce L) as (L2x & HL2 & SL); [destruct K2 as (_ & _ & -> & _), K2' as (_ & _ & -> & _); exact HP|exact HL|].
      destruct HL' as (i & x & A1 & A2 & A3), HL2 as (i2 & x2 & B1 & B2 & B3). replace L' with L2x by congruence. exact SL. }
    assert (PT : Permutation (flat_map le_terms Ls) (flat_map le_terms Ls')).
    { apply matched_eq. apply matched_flat_map. eapply matched_imp; [|exact SF]. intros a b _ _ [Hab _]. now apply matched_eq. }
    destruct (terms' f Hpos _ _ _ _ _ (proj1 K2) (proj1 K2') PT L2) as (T2 & F2 & P2). rewrite (terms_unique _ _ _ _ F2 L2') in P2.
    subst st2 st2'. cbn [set_rows st_solver s_vars s_rows s_objective s_offset] in *.
    split; [exact Hf|]. rewrite V, V', R, R', L3, L3', L4, L4', Ro, Ro', Ob, Ob', Of, Of'. cbn [set_ports initial_state st_solver new_solver s_rows s_objective s_offset app].
    destruct (vars' f Hpos (set_ports initial_state ports) (set_ports initial_state ports') _ _ HP HF HF') as [V1 V2].
    split; [exact V1|]. split; [exact V2|]. split; [|split; [now apply entries_permuted|]].
    - assert (G : matched (same_row f) (concat rss) (concat rss')).
      { apply matched_concat. eapply matched_Forall2s; [apply row_pairs_permuted|exact HR|exact HR'|]. intros ck rows rows' _ HB HB'.
        destruct (block_rows' f Hf Hpos st1 st1' ck rows) as (rows2 & HB2 & SR); auto; try apply K1; try apply K1'; [rewrite Po, Po'; exact HP|rewrite Po; exact HS|].
        destruct HB' as (i & A1 & A2), HB2 as (i2 & B1 & B2). replace rows' with rows2 by congruence. exact SR. }
      destruct G as (rows & G1 & G2). exists rows. split; [exact G2|exact G1].
    - f_equal. symmetry. apply nsum_perm. apply matched_eq. apply matched_map. eapply matched_imp; [|exact SF]. intros a b _ _ [_ Hab]. now symmetry.
  Qed.
End Reordered.
