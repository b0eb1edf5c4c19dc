(** How many decisions are mentioned: neither instantiation nor expansion changes the number, and linearisation
    makes at most one term of each. *)
From Coq Require Import Lia.
From Verif Require Import Base Expr Visitors Expansion LinearExpr Linearize Model Study Strategy Optim
  BaseFacts SpecExpr SpecSyntax SpecVisitors SpecExpansion SpecLinear SpecModel SpecOptim
  ExprFacts CopyFacts VisitorFacts DegreeFacts ExpansionFacts LinearFacts ModelFacts OptimFacts OptimMeaning.

Notation none := (fun _ _ : string => O).

(** ** Sums *)
Lemma mentions_operands E p a : list_sum (map (mentions E p) (add_operands a)) = mentions E p a.
Proof. destruct a; cbn [add_operands map list_sum fold_right mentions]; try lia. reflexivity. Qed.
Lemma mentions_py_add E p a b : mentions E p (py_add a b) = (mentions E p a + mentions E p b)%nat.
Proof. unfold py_add. cbn [mentions]. now rewrite map_app, list_sum_app, !mentions_operands. Qed.
Lemma mentions_fold E p l : forall a,
  mentions E p (fold_left py_add l a) = (mentions E p a + list_sum (map (mentions E p) l))%nat.
Proof.
  induction l as [|b l IH]; intros a; cbn [fold_left map list_sum fold_right]; [lia|].
  rewrite IH, mentions_py_add. unfold list_sum. cbn [fold_right]. lia.
Qed.
Lemma mentions_sum E p l : mentions E p (sum_expressions l) = list_sum (map (mentions E p) l).
Proof. destruct l as [|a [|b l]]; cbn [sum_expressions]; try reflexivity. cbn. lia. Qed.
Lemma sum_constant {A} (f : A -> nat) n l : (forall a, In a l -> f a = n) -> list_sum (map f l) = (List.length l * n)%nat.
Proof.
  induction l as [|a l IH]; intros H; [reflexivity|]. cbn [map length]. unfold list_sum in *. cbn [fold_right].
  rewrite IH by (intros; apply H; now right). rewrite (H a (or_introl eq_refl)). lia.
Qed.

(** ** Copies *)
(** the windows keep their size; aggregators are on ports *)
Definition windows_kept (c : copier) (E E' : env) : expr -> Prop :=
  all_nodes (fun x => match x with
    | TSum _ f u => (forall f', copy_with c f = Ok f' -> den E' f' 0 0 = den E f 0 0) /\
                    (forall u', copy_with c u = Ok u' -> den E' u' 0 0 = den E u 0 0)
    | _ => agg_ok x end).
Lemma copy_mentions c E p E' p' e : e_T E' = e_T E -> e_S E' = e_S E ->
  (forall x x', leaf_kind x -> agg_ok x -> copy_with c x = Ok x' -> mentions E' p' x' = mentions E p x) ->
  forall e', windows_kept c E E' e -> copy_with c e = Ok e' -> mentions E' p' e' = mentions E p e.
Proof.
  intros HT HS Hc. unfold windows_kept. induction e using expr_ind'; intros e' HA HE.
  3:{ copy_step HE. destruct v as [|v vs]; cbn [sum_operands] in HE; [discriminate|].
      injection HE as <-. apply all_nodes_Add in HA. destruct HA as [_ HA].
      rewrite mentions_fold. change (mentions E' p' v + list_sum (map (mentions E' p') vs))%nat
        with (list_sum (map (mentions E' p') (v :: vs))).
      cbn [mentions]. apply mapM_ok in H0. clear -H H0 HA.
      induction H0 as [|a b l m Hab Hl IH]; [reflexivity|]. inversion H; inversion HA; subst.
      cbn [map]. unfold list_sum in *. cbn [fold_right]. f_equal; auto. }
  all: try (refine (Hc _ _ _ _ HE); [exact I|apply all_nodes_root in HA; exact HA]).
  all: copy_step HE; cbn [all_nodes py_neg py_mul py_div mentions] in HA |- *.
  all: repeat match goal with
       | IH : forall e', _ -> copy_with ?k ?a = Ok e' -> _, H : copy_with ?k ?a = Ok ?v |- _ =>
           rewrite (IH v ltac:(tauto) H); clear IH
       end; rewrite ?HT, ?HS; try reflexivity.
  unfold window_size. destruct HA as ((W1 & W2) & _). now rewrite (W1 _ H0), (W2 _ H1).
Qed.
Lemma aggregators_windows c E E' e : aggregators_on_ports e ->
  (forall a a', aggregators_on_ports a -> copy_with c a = Ok a' -> den E' a' 0 0 = den E a 0 0) ->
  windows_kept c E E' e.
Proof.
  intros Ha H. unfold windows_kept, aggregators_on_ports in *. eapply all_nodes_sub_imp; [|exact Ha|exact Ha].
  intros y Hr Hy. destruct y; try exact I; try exact Hr. cbn [all_nodes] in Hy. split; intros ? ?; apply H; tauto.
Qed.
Lemma indexed_windows c E E' sp e : expanded sp e -> windows_kept c E E' e.
Proof. apply all_nodes_imp. intros x. destruct x; cbn; tauto. Qed.
Lemma indexed_copy c E sp e e' : expanded sp e ->
  (forall x x', leaf_kind x -> copy_with c x = Ok x' -> (forall a g, x <> PortAgg a g) ->
     mentions E none x' = mentions E none x) ->
  copy_with c e = Ok e' -> mentions E none e' = mentions E none e.
Proof.
  intros Hx Hc. revert e'. unfold expanded in Hx. induction e using expr_ind'; intros e' HE.
  all: try (apply all_nodes_root in Hx; contradiction).
  all: try (apply Hc; [exact I|exact HE|discriminate]).
  3:{ copy_step HE. destruct v as [|v vs]; cbn [sum_operands] in HE; [discriminate|].
      injection HE as <-. apply all_nodes_Add in Hx. destruct Hx as [_ Hx].
      rewrite mentions_fold. change (mentions E none v + list_sum (map (mentions E none) vs))%nat
        with (list_sum (map (mentions E none) (v :: vs))).
      cbn [mentions]. apply mapM_ok in H0. clear -H H0 Hx.
      induction H0 as [|a b l m Hab Hl IH]; [reflexivity|]. inversion H; inversion Hx; subst.
      cbn [map]. unfold list_sum in *. cbn [fold_right]. f_equal; auto. }
  all: copy_step HE; cbn [all_nodes py_neg py_mul py_div mentions] in Hx |- *.
  all: repeat match goal with
       | IH : _ -> forall e', copy_with ?k ?a = Ok e' -> _, H : copy_with ?k ?a = Ok ?v |- _ =>
           rewrite (IH ltac:(tauto) v H); clear IH
       end; reflexivity.
Qed.

(** ** Expansion *)
Lemma shift_mentions E sp k e e' : expanded sp e -> apply_timeshift e k = Ok e' -> mentions E none e' = mentions E none e.
Proof.
  intros Hx. apply (indexed_copy _ E sp); [exact Hx|]. intros x x' Hk HE Hn.
  destruct x; try contradiction; cbn in HE; try (injection HE as <-; reflexivity); try discriminate.
  now destruct (Hn x a).
Qed.
Lemma step_mentions E sp k b e e' : expanded sp e -> apply_timestep e k b = Ok e' -> mentions E none e' = mentions E none e.
Proof.
  intros Hx. apply (indexed_copy _ E sp); [exact Hx|]. intros x x' Hk HE Hn.
  destruct x; try contradiction; cbn in HE; try (injection HE as <-; reflexivity); try discriminate.
  - inv_bind HE. injection HE as <-. reflexivity.
  - inv_bind HE. injection HE as <-. reflexivity.
  - now destruct (Hn x a).
Qed.
Lemma scenario_mentions E sp k e e' : expanded sp e -> apply_scenario e k = Ok e' -> mentions E none e' = mentions E none e.
Proof.
  intros Hx. apply (indexed_copy _ E sp); [exact Hx|]. intros x x' Hk HE Hn.
  destruct x; try contradiction; cbn in HE; try (injection HE as <-; reflexivity); try discriminate.
  now destruct (Hn x a).
Qed.
Lemma copies_mentions {A} E (f : A -> result expr) l nodes n : mapM f l = Ok nodes ->
  (forall a e, In a l -> f a = Ok e -> mentions E none e = n) ->
  list_sum (map (mentions E none) nodes) = (List.length l * n)%nat.
Proof.
  intros H Hn. apply mapM_ok in H. induction H as [|a e l nodes Hae H IH]; [reflexivity|].
  cbn [map length]. unfold list_sum in *. cbn [fold_right]. rewrite IH by (intros; eapply Hn; eauto; now right).
  rewrite (Hn a e (or_introl eq_refl) Hae). lia.
Qed.
Lemma expand_mentions d ev sp e : component_names_only e ->
  forall E e', evaluator_sound E ev e -> e_T E = timesteps_count d -> e_S E = scenarios_count d ->
  expand d ev sp e = Ok e' -> mentions E none e' = mentions E none e.
Proof.
  intros HN E. unfold component_names_only, evaluator_sound, time_args in *.
  induction e using expr_ind'; intros e' HE HT HS He.
  all: try (apply all_nodes_root in HN; contradiction).
  3:{ cbn [expand] in He. inv_bind He. destruct v as [|v vs]; cbn [sum_operands] in He; [discriminate|].
      injection He as <-. apply all_nodes_Add in HN, HE. destruct HN as [_ HN], HE as [_ HE].
      rewrite mentions_fold. change (mentions E none v + list_sum (map (mentions E none) vs))%nat
        with (list_sum (map (mentions E none) (v :: vs))).
      cbn [mentions]. apply mapM_ok in H0. clear -H H0 HN HE HT HS.
      induction H0 as [|a b l m Hab Hl IH]; [reflexivity|]. inversion H; inversion HN; inversion HE; subst.
      cbn [map]. unfold list_sum in *. cbn [fold_right]. f_equal; auto. }
  all: cbn [expand] in He; cbn [all_nodes] in HN, HE.
  - injection He as <-. reflexivity.
  - inv_bind He. injection He as <-. cbn [py_neg mentions]. now apply IHe.
  - inv_bind He. inv_bind He. injection He as <-. cbn [py_mul mentions].
    rewrite (IHe1 ltac:(tauto) v), (IHe2 ltac:(tauto) v0) by tauto. reflexivity.
  - inv_bind He. inv_bind He. injection He as <-. cbn [py_div mentions].
    rewrite (IHe1 ltac:(tauto) v), (IHe2 ltac:(tauto) v0) by tauto. reflexivity.
  - inv_bind He. inv_bind He. injection He as <-. cbn [mentions].
    rewrite (IHe1 ltac:(tauto) v), (IHe2 ltac:(tauto) v0) by tauto. reflexivity.
  - inv_bind He. injection He as <-. reflexivity.
  - inv_bind He. injection He as <-. reflexivity.
  - inv_bind He. inv_bind He. cbn [mentions]. transitivity (mentions E none v0); [|apply IHe1; tauto].
      eapply shift_mentions; [|exact He]. eapply (expand_expanded d ev sp); [|exact H0]. apply HN.
  - inv_bind He. inv_bind He. cbn [mentions]. transitivity (mentions E none v0); [|apply IHe1; tauto].
      eapply step_mentions; [|exact He]. eapply (expand_expanded d ev sp); [|exact H0]. apply HN.
  - inv_bind He. inv_bind He. inv_bind He. inv_bind He. injection He as <-. rewrite mentions_sum.
    rewrite (copies_mentions E _ _ _ (mentions E none e1) H2).
    + cbn [mentions]. unfold window_size. destruct HE as ((E1 & E2) & _). rewrite (E1 v H), (E2 v0 H0), !oint_Z.
      now rewrite zrange_length.
    + intros k y _ Hy. transitivity (mentions E none v1); [|apply IHe1; tauto].
      eapply shift_mentions; [|exact Hy]. eapply (expand_expanded d ev sp); [|exact H1]. apply HN.
  - inv_bind He. inv_bind He. injection He as <-. rewrite mentions_sum.
    rewrite (copies_mentions E _ _ _ (mentions E none e) H0).
    + cbn [mentions]. rewrite zrange_length, HT. now rewrite Z.sub_0_r.
    + intros k y _ Hy. transitivity (mentions E none v); [|apply IHe; tauto].
      eapply step_mentions; [|exact Hy]. eapply (expand_expanded d ev sp); [|exact H]. apply HN.
  - destruct o; try discriminate. inv_bind He. inv_bind He. injection He as <-.
    unfold py_div_num, py_div, wrap_num. cbn [mentions]. rewrite mentions_sum.
    rewrite (copies_mentions E _ _ _ (mentions E none e) H0).
    + rewrite zrange_length, HS, Z.sub_0_r. lia.
    + intros k y _ Hy. transitivity (mentions E none v); [|apply IHe; tauto].
      eapply scenario_mentions; [|exact Hy]. eapply (expand_expanded d ev sp); [|exact H]. apply HN.
Qed.

(** ** Instantiation *)
Lemma mentions_same E E' p p' e : (forall a, den E a 0 0 = den E' a 0 0) -> e_T E = e_T E' -> e_S E = e_S E' ->
  (forall q f, p q f = p' q f) -> mentions E p e = mentions E' p' e.
Proof.
  intros HD HT HS HP. induction e using expr_ind'; cbn [mentions]; rewrite ?HT, ?HS, ?HP, ?IHe, ?IHe1, ?IHe2; try reflexivity.
  - f_equal. apply map_ext_in. intros a Ha. rewrite Forall_forall in H. now apply H.
  - unfold window_size. now rewrite !HD.
Qed.
Lemma context_mentions E p id e e' : aggregators_on_ports e -> add_component_context id e = Ok e' ->
  mentions E p e' = mentions (local_env E id) p e.
Proof.
  intros Ha. apply copy_mentions; try reflexivity.
  - intros x x' Hk Hx HE. destruct x; try contradiction; cbn in HE; try discriminate; try (injection HE as <-; reflexivity).
    destruct x; try contradiction. cbn in HE. injection HE as <-. reflexivity.
  - apply aggregators_windows; [exact Ha|]. intros a a' Hagg Hc. now apply context_den.
Qed.
Section Instantiation.
  Context (o : settings) (st : state).
  Hypothesis Hb : built_network (o_network o).
  Hypothesis Hg : good_connections (o_network o).
  Hypothesis Hr : register_connections o = Ok (st_ports st).
  Let zero : decisions := fun _ _ _ _ => 0%Qc.

  Lemma registered_mentions cid p f :
    list_sum (map (mentions (world o zero) none)
      (match dget pfk_eqb (cid, (p, f)) (st_ports st) with Some l => l | None => [] end)) =
    list_sum (map (fun d => mentions (local_env (world o zero) (fst d)) none (snd d)) (connected (o_network o) cid p f)).
  Proof.
    pose proof (connections_registered o (st_ports st) Hb) as HC.
    specialize (HC (fun k Hk => conj (proj1 (proj1 (Hg k Hk))) (proj1 (proj2 (Hg k Hk)))) Hr cid p f).
    assert (HG : Forall (fun d => aggregators_on_ports (snd d)) (connected (o_network o) cid p f)).
    { apply Forall_forall. intros d Hd. apply (connected_good _ _ _ _ _ Hg) in Hd.
      apply no_port_aggregators. apply Hd. }
    induction HC as [|a b l1 l2 Hab HC IH]; cbn [map]; [reflexivity|]. inversion HG; subst.
    unfold list_sum in *. cbn [fold_right]. f_equal; [|auto]. now apply context_mentions.
  Qed.
  Lemma instantiate_mentions cid e e' : aggregators_on_ports e -> instantiate st e cid = Ok e' ->
    mentions (world o zero) none e' = decisions_mentioned o cid e.
  Proof.
    intros Ha H. pose proof (instantiate_den o st Hb Hg Hr zero cid) as HD. unfold instantiate in H. inv_bind H.
    unfold decisions_mentioned. set (ports := fun p f : string => list_sum _).
    transitivity (mentions (port_env (world o zero) cid (st_ports st)) ports v).
    - eapply (copy_mentions (port_resolver cid (st_ports st))); [| | | |exact H]; try reflexivity.
      + clear e e' v H H0 Ha. intros x x' Hk Ha E. pose proof (registered_mentions cid) as HR.
        destruct x; try contradiction; cbn in E; try discriminate; try (injection E as <-; reflexivity).
        * cbn [mentions]. unfold ports. rewrite <- HR. unfold resolve_port_field in E.
          destruct (dget _ _ _) as [[|d [|]]|] eqn:Ed; try discriminate. injection E as <-.
          unfold list_sum. cbn [map fold_right]. lia.
        * unfold resolve_port_aggregator in E. destruct a; try discriminate. destruct x; try discriminate.
          injection E as <-. cbn [mentions]. unfold ports. rewrite <- HR. apply mentions_sum.
      + apply aggregators_windows; [eapply context_aggregators; eauto|]. intros a a' _ Hc. now apply resolve_port_den.
    - rewrite (context_mentions _ _ _ _ _ Ha H0). apply mentions_same; try reflexivity.
      intros a. apply den_same; try reflexivity. intros p f. cbn.
      pose proof (connections_registered o (st_ports st) Hb) as HC.
      specialize (HC (fun k Hk => conj (proj1 (proj1 (Hg k Hk))) (proj1 (proj2 (Hg k Hk)))) Hr cid p f).
      assert (HG : Forall (fun d => aggregators_on_ports (snd d)) (connected (o_network o) cid p f)).
      { apply Forall_forall. intros d Hd. apply (connected_good _ _ _ _ _ Hg) in Hd.
        apply no_port_aggregators. apply Hd. }
      induction HC as [|a' b l1 l2 Hab HC IH]; cbn; [constructor|]. inversion HG; subst. constructor; [|auto].
      intros t' s'. now apply context_den.
  Qed.
End Instantiation.

