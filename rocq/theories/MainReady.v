(** Proofs about the studies from which a problem is made (see PropRun.v). *)
From Coq Require Import Lia.
From Verif Require Import Base BaseFacts Expr SpecExpr SpecSyntax CopyFacts Visitors EqFacts Parse SpecParse LexFacts ParseFacts
  ModelFacts ParseMeaning LinearExpr LinearFacts Model Study Strategy Optim System Library LibraryFacts Main SpecModel SpecLibrary SpecSystem
  SystemFacts SpecVisitors SpecExpansion SpecLinear SpecOptim SpecMain TextFacts OptimFacts OptimProblem MainFacts
  VisitorFacts ExpansionFacts SpecReady ReadyFacts OptimReady SpecRun ReadyText.
Local Open Scope string_scope.
Local Open Scope list_scope.

(** ** Texts without ports: what is connected does not matter *)
Lemma decides_ports vars p1 p2 w : without_port w -> text_decides vars p1 w = text_decides vars p2 w.
Proof.
  unfold without_port. induction w; intros H; cbn [throughout text_decides] in *; try reflexivity; try contradiction (proj1 H);
    try (destruct H as [_ H]; now apply IHw);
    try (destruct H as [_ [H1 H2]]; rewrite (IHw1 H1), (IHw2 H2); reflexivity);
    try (destruct H as [_ [H1 H2]]; first [now apply IHw|now apply IHw1]).
Qed.
Lemma affine_ports vars p1 p2 w : without_port w -> text_affine vars p1 w -> text_affine vars p2 w.
Proof.
  unfold without_port. induction w; intros H; cbn [throughout text_affine] in *; try tauto; try contradiction (proj1 H);
    try (destruct H as [_ [H1 H2]]; pose proof (decides_ports vars p1 p2 w1 H1) as E1; pose proof (decides_ports vars p1 p2 w2 H2) as E2).
  - destruct o; intros (A1 & A2 & A3); rewrite ?E1, ?E2 in A3; auto.
Qed.
Lemma varies_ports vd pd ft fs m p1 p2 w : without_port w -> text_varies vd pd ft fs m p1 w = text_varies vd pd ft fs m p2 w.
Proof.
  unfold without_port. induction w; intros H; cbn [throughout text_varies] in *; try reflexivity; try contradiction (proj1 H);
    try (destruct H as [_ H]; first [now apply IHw|now rewrite (IHw H)]);
    try (destruct H as [_ [H1 H2]]; rewrite (IHw1 H1), (IHw2 H2); reflexivity).
Qed.

(** ** A prepared study *)
Section Ready.
  Context (order : list string -> list string -> list string -> list string) (libs : list in_library) (sys : input_system)
    (files : string -> result frame) (T S : Z) (rd : in_model -> string -> wexpr) (o : settings).
  Hypothesis Ord : any_order order.
  Hypothesis Steps : prepared order libs sys files T S o.
  Hypothesis Good : good_study libs sys files T S rd.
  Hypothesis Ready : ready_study libs sys files T S rd.
  Notation vars m := (map yv_id (ym_variables m)).
  Notation Link := (link libs sys o).
  Let n := o_network o.
  Let HT : (1 <= T)%Z. Proof. apply Good. Qed.
  Let HS : (1 <= S)%Z. Proof. apply Good. Qed.
  Let LM e m c : Link e m c -> good_texts rd m /\ distinct_names m /\ exists pts, resolve_model pts m = Ok (co_model c).
  Proof. apply (link_model libs sys files T S rd o Good). Qed.
  Let select : o_selection o = MergedProblem.
  Proof. rewrite (run_settings _ _ _ _ _ _ _ Steps). reflexivity. Qed.
  Let len : Z.of_nat (List.length (o_block o)) = T.
  Proof. rewrite (run_settings _ _ _ _ _ _ _ Steps). cbn [o_block main_settings]. rewrite zrange_length. lia. Qed.
  Let scen : o_scenarios o = S.
  Proof. rewrite (run_settings _ _ _ _ _ _ _ Steps). reflexivity. Qed.

  (** *** Names *)
  Lemma parameter_of (P : indexing -> Prop) e m c x : Link e m c -> In x (map yp_id (ym_parameters m)) ->
    (forall p, In p (ym_parameters m) -> yp_id p = x -> P {| ix_time := yp_time p; ix_scenario := yp_scenario p |}) ->
    has_parameter P o (co_id c) x.
  Proof.
    intros L Hx HP. destruct (LM e m c L) as (GT & DN & pts & R). apply in_map_iff in Hx. destruct Hx as (y & <- & Hy).
    destruct (Forall2_In_l _ _ _ _ (model_parameters pts m (co_model c) DN R) Hy) as ([k p] & Hkp & _ & Ep). cbn in Ep. subst p.
    exists c, (to_parameter y). split; [apply L|]. split; [reflexivity|]. split; [exact (in_map snd _ _ Hkp)|].
    split; [reflexivity|]. exact (HP y Hy eq_refl).
  Qed.
  Lemma variable_of e m c x : Link e m c -> In x (vars m) -> chosen_variable o (co_id c) x.
  Proof.
    intros L Hx. apply in_map_iff in Hx. destruct Hx as (y & <- & Hy).
    destruct (made_of_text libs sys files T S rd o Good e m c y L Hy) as (v & M). exists c, v. split; [apply L|]. split; [reflexivity|].
    split; [|exact (made_name_ m c y v M)]. rewrite select. apply filter_In. split; [apply M|reflexivity].
  Qed.
  Let in_vars m x : existsb (String.eqb x) (vars m) = true <-> In x (vars m).
  Proof.
    rewrite existsb_exists. split; [intros (y & Hy & E); apply String.eqb_eq in E; now subst|].
    intros H. exists x. split; [exact H|apply String.eqb_refl].
  Qed.

  (** *** Formulas *)
  Definition constant_node (P : indexing -> Prop) (id : string) (x : expr) : Prop :=
    match x with
    | Lit (Fin _) | Neg _ | Mul _ _ | Div _ _ => True
    | Add l => l <> []
    | Param y => has_parameter P o id y
    | _ => False
    end.
  Lemma formula_nodes (Pp : in_parameter -> Prop) (P : indexing -> Prop) e m c :
    (forall p, Pp p -> P {| ix_time := yp_time p; ix_scenario := yp_scenario p |}) -> Link e m c ->
    (forall w, throughout (formula_part Pp m) w -> sound (model_names m) w -> all_nodes (constant_node P (co_id c)) (expr_of (vars m) w)) /\
    (forall k, throughout_shift (formula_part Pp m) k -> sound_shift (model_names m) k ->
       all_nodes (constant_node P (co_id c)) (shift_of (vars m) k)).
  Proof.
    intros HP L.
    assert (G := expr_of_nodes (constant_node P (co_id c)) (fun _ => I) (fun _ => I) (fun _ _ => I) (fun _ _ => I) (fun l => conj (fun H => H) (fun H => H))
      (vars m) (fun w => formula_part Pp m w /\ sound (model_names m) w)).
    assert (Nm : forall x, formula_part Pp m (WName x) /\ sound (model_names m) (WName x) -> constant_node P (co_id c) (name_of (vars m) x)).
    { intros x [[N H] (_ & _ & D & _)]. unfold name_of. destruct (existsb (String.eqb x) (vars m)) eqn:B; [apply in_vars in B; contradiction|].
      cbn. apply (parameter_of P e m c x L); [destruct D; [contradiction|assumption]|]. intros p Hp Ep. apply HP. exact (H p Hp Ep). }
    specialize (G Nm). clear Nm.
    specialize (G (fun p f H => match proj1 H with end) (fun p f H => match proj1 H with end) (fun c l r H => match proj1 H with end)
      (fun a H => match proj1 H with end) (fun a b w H => match proj1 H with end) (fun f a H => match proj1 H with end)
      (fun x k H => match proj1 H with end) (fun x k H => match proj1 H with end)).
    destruct (throughout_and (formula_part Pp m) (sound (model_names m))) as (A1 & A2 & _).
    destruct (sound_parts (model_names m)) as (S1 & S2 & _).
    split; [intros w Hw Sw; apply G, A1; auto|intros k Hk Sk; apply G, A2; auto].
  Qed.
  Lemma text_formula e m c w : Link e m c -> formula_text m w -> sound (model_names m) w -> formula o (co_id c) (expr_of (vars m) w).
  Proof.
    intros L Hw Sw. split.
    - eapply all_nodes_imp; [|exact (proj1 (formula_nodes (fun _ => True) (fun _ => True) e m c (fun _ _ => I) L) w Hw Sw)].
      intros x. destruct x; cbn; tauto.
    - assert (G := expr_of_leaves (formula_leaf o (co_id c)) (vars m) (fun w => formula_part (fun _ => True) m w /\ sound (model_names m) w)).
      assert (Nm : forall x, formula_part (fun _ => True) m (WName x) /\ sound (model_names m) (WName x) -> formula_leaf o (co_id c) (name_of (vars m) x)).
      { intros x [[N H] (_ & _ & D & _)]. unfold name_of. destruct (existsb (String.eqb x) (vars m)) eqn:B; [apply in_vars in B; contradiction|].
        cbn. apply (parameter_of (fun _ => True) e m c x L); [destruct D; [contradiction|assumption]|auto]. }
      specialize (G Nm). clear Nm.
      specialize (G (fun p f H => match proj1 H with end) (fun p f H => match proj1 H with end)
        (fun x k H => match proj1 H with end) (fun x k H => match proj1 H with end)).
      apply G. apply (throughout_and (formula_part (fun _ => True) m) (sound (model_names m))); [exact Hw|].
      now apply (sound_parts (model_names m)).
  Qed.
  (** what stands in brackets *)
  Lemma shift_argument e m c k : Link e m c -> whole_shift libs sys files T S rd e m k -> sound_shift (model_names m) k ->
    constant_argument o (co_id c) (shift_of (vars m) k).
  Proof.
    intros L [H1 (x & t & s & z & Hs & Hz)] Sk. split.
    - exact (proj2 (formula_nodes fixed_parameter is_constant_structure e m c (fun _ H => H) L) k H1 Sk).
    - exists x, t, s, z. change (vars m) with (id_variables (model_names m)). rewrite (sound_shift_den _ _ _ _ _ Sk). rewrite <- Hz.
      apply (meaning_agree _ _ _ (world_file order libs sys files T S rd o Ord Steps Good x e m c L)). exact Hs.
  Qed.
  Lemma index_argument e m c k : Link e m c -> whole_index libs sys files T S rd e m k -> sound (model_names m) k ->
    constant_argument o (co_id c) (expr_of (vars m) k).
  Proof.
    intros L [H1 (x & t & s & z & Hs & Hz)] Sk. split.
    - exact (proj1 (formula_nodes fixed_parameter is_constant_structure e m c (fun _ H => H) L) k H1 Sk).
    - exists x, t, s, z. change (vars m) with (id_variables (model_names m)). rewrite (sound_den _ _ _ _ _ Sk). rewrite <- Hz.
      apply (value_file order libs sys files T S rd o Ord Steps Good x e m c k t s L Hs).
  Qed.

  (** *** Expressions *)
  Lemma text_nodes e m c w : Link e m c -> throughout (ready_part libs sys files T S rd e m) w -> sound (model_names m) w ->
    all_nodes (ready_node o (co_id c)) (expr_of (vars m) w).
  Proof.
    intros L Hw Sw.
    assert (G := expr_of_nodes (ready_node o (co_id c)) (fun _ => I) (fun _ => I) (fun _ _ => I) (fun _ _ => I) (fun l => conj (fun H => H) (fun H => H))
      (vars m) (fun w => ready_part libs sys files T S rd e m w /\ sound (model_names m) w)).
    assert (Nm : forall x, ready_node o (co_id c) (name_of (vars m) x)) by (intros x; unfold name_of; destruct (existsb _ _); exact I).
    specialize (G (fun x _ => Nm x) (fun _ _ _ => I) (fun _ _ _ => conj I I) (fun c l r H => match proj1 H with end) (fun _ _ => I)).
    assert (H1 : forall a b w, ready_part libs sys files T S rd e m (WSumOver a b w) /\ sound (model_names m) (WSumOver a b w) ->
      ready_node o (co_id c) (TSum (expr_of (vars m) w) (shift_of (vars m) a) (shift_of (vars m) b))).
    { intros a b u [[Ha Hb] Su]. apply sound_over in Su. destruct Su as (Sa & Sb & _). split; now apply (shift_argument e m c). }
    specialize (G H1 (fun _ _ _ => eq_refl)). clear H1.
    assert (H1 : forall x k, ready_part libs sys files T S rd e m (WAt x k) /\ sound (model_names m) (WAt x k) ->
      ready_node o (co_id c) (name_of (vars m) x) /\ ready_node o (co_id c) (TShift (name_of (vars m) x) (shift_of (vars m) k))).
    { intros x k [Hk Sk]. apply sound_at in Sk. split; [apply Nm|]. now apply (shift_argument e m c). }
    specialize (G H1). clear H1.
    assert (H1 : forall x k, ready_part libs sys files T S rd e m (WIndex x k) /\ sound (model_names m) (WIndex x k) ->
      ready_node o (co_id c) (name_of (vars m) x) /\ ready_node o (co_id c) (TEval (name_of (vars m) x) (expr_of (vars m) k))).
    { intros x k [Hk Sk]. apply sound_index in Sk. split; [apply Nm|]. split; [now apply (index_argument e m c)|].
      unfold name_of. destruct (existsb _ _); (split; [split|split; [|exact I]]; exact I). }
    specialize (G H1). clear H1. apply G.
    apply (throughout_and (ready_part libs sys files T S rd e m) (sound (model_names m))); [exact Hw|].
    now apply (sound_parts (model_names m)).
  Qed.
  Lemma text_leaves e m c w : Link e m c -> throughout (ready_part libs sys files T S rd e m) w -> sound (model_names m) w ->
    all_leaves (ready_leaf o (co_id c)) (expr_of (vars m) w).
  Proof.
    intros L Hw Sw.
    assert (Nm : forall x, In x (vars m) \/ In x (map yp_id (ym_parameters m)) -> ready_leaf o (co_id c) (name_of (vars m) x)).
    { intros x Hx. unfold name_of. destruct (existsb (String.eqb x) (vars m)) eqn:B.
      - apply in_vars in B. exact (variable_of e m c x L B).
      - assert (N : ~ In x (vars m)) by (rewrite <- in_vars; congruence).
        apply (parameter_of (fun _ => True) e m c x L); [destruct Hx; [contradiction|assumption]|auto]. }
    assert (G := expr_of_leaves (ready_leaf o (co_id c)) (vars m) (fun w => ready_part libs sys files T S rd e m w /\ sound (model_names m) w)).
    apply G.
    - intros x (_ & _ & _ & D & _). exact (Nm x D).
    - intros p f [[d Hd] _]. cbn. pose proof (connected_file order libs sys files T S rd o Ord Steps Good (ic_id e) p f) as F.
      rewrite Hd in F. pose proof L as (_ & _ & -> & _). inversion F as [|a b l l' _ F' E1 E2]. inversion F'. eauto.
    - intros p f _. exact I.
    - intros x k [_ Sk]. apply sound_at in Sk. exact (Nm x (proj1 Sk)).
    - intros x k [_ Sk]. apply sound_index in Sk. exact (Nm x (proj1 Sk)).
    - apply (throughout_and (ready_part libs sys files T S rd e m) (sound (model_names m))); [exact Hw|].
      now apply (sound_parts (model_names m)).
  Qed.
  Lemma ports_decide e m c p f : Link e m c -> port_decides n (co_id c) p f = connected_decides libs sys rd e p f.
  Proof.
    intros (_ & _ & -> & _). unfold port_decides, connected_decides.
    pose proof (connected_file order libs sys files T S rd o Ord Steps Good (ic_id e) p f) as F. fold n in F.
    induction F as [|[cid ex] [[e' m'] d] l l' H F IH]; [reflexivity|]. cbn [existsb fst snd]. rewrite IH. f_equal.
    destruct H as (c' & L' & _ & Hd & E2). cbn in E2. subst ex. destruct (LM e' m' c' L') as (GT & _).
    destruct (text_reads rd m' GT (yd_definition d) (defined_text m' d Hd)) as (_ & _ & P & _).
    now apply decides_expr_of.
  Qed.
  Lemma text_is_affine e m c w : Link e m c -> text_affine (vars m) (connected_decides libs sys rd e) w -> sound (model_names m) w ->
    affine (port_decides n (co_id c)) (expr_of (vars m) w).
  Proof.
    intros L A (_ & P & _). apply (affine_expr_of (vars m) _ (connected_decides libs sys rd e)); [|exact P|exact A].
    intros p f. exact (ports_decide e m c p f L).
  Qed.
  Lemma text_values e m c w : Link e m c -> valued libs sys files T S rd e m [w] -> sound (model_names m) w ->
    has_values o (co_id c) (expr_of (vars m) w).
  Proof.
    intros L V Sw t s Ht Hs. rewrite len in Ht. rewrite scen in Hs. destruct (V t s Ht Hs) as (x & Hx & H).
    exists x. split; [now apply (decisions_file order libs sys files T S rd o Ord Steps Good)|].
    change (vars m) with (id_variables (model_names m)). rewrite (sound_den _ _ _ _ _ Sw).
    change (text_value (component_world o x (co_id c)) m w t s <> None).
    rewrite (value_file order libs sys files T S rd o Ord Steps Good x e m c w t s L) by lia. apply H. now left.
  Qed.
  Lemma text_expression e m c w : Link e m c -> ready_text libs sys files T S rd e m w -> valued libs sys files T S rd e m [w] ->
    sound (model_names m) w -> ready_expression o (co_id c) (expr_of (vars m) w).
  Proof.
    intros L [H1 H2] V Sw. split; [now apply (text_nodes e m c)|]. split; [now apply (text_leaves e m c)|].
    split; [now apply (text_is_affine e m c)|now apply (text_values e m c)].
  Qed.
  Lemma text_sound m w : good_texts rd m -> In w (model_texts m) -> sound (model_names m) (rd m w).
  Proof. intros GT Hw. exact (reads_sound _ _ _ (text_reads rd m GT w Hw)). Qed.

  (** *** Data *)
  Lemma data_fits c p : In c (all_components n) -> In p (map snd (m_parameters (co_model c))) ->
    exists d, get_data (o_database o) (co_id c) (p_name p) = Ok d /\ fits d (p_structure p).
  Proof.
    intros Hc Hp. destruct (component_link order libs sys files T S rd o Ord Steps Good c Hc) as (e & m & L).
    destruct (LM e m c L) as (GT & DN & pts & R). apply in_map_iff in Hp. destruct Hp as (kp & <- & Hkp).
    destruct (Forall2_In_r _ _ _ _ (model_parameters pts m (co_model c) DN R) Hkp) as (y & Hy & _ & ->).
    destruct Ready as (_ & _ & _ & [_ CD] & _). pose proof L as (He & _ & Ec & Fm & _).
    destruct (CD e m y (conj He Fm) Hy) as (p & Hp & Ep & Pt & Ps).
    destruct (plain_data files sys (o_database o) e p (run_data _ _ _ _ _ _ _ Steps)) as (d & Hd & Hg); [apply Good|exact He|exact Hp|].
    exists d. cbn [to_parameter p_name p_structure ix_time ix_scenario]. rewrite Ec, <- Ep. split; [exact Hg|].
    unfold build_data in Hd. split; cbn [to_parameter p_structure ix_time ix_scenario].
    - intros Gd. destruct (yp_time y); [reflexivity|]. exfalso. rewrite (Pt eq_refl) in Hd. revert Gd Hd.
      destruct (ip_value p) as [v|name].
      + destruct (ip_scenario p); cbn; [discriminate|]. intros Gd [= <-]. discriminate.
      + intros Gd Hd. inv_bind Hd. destruct (ip_scenario p); cbn in Hd; [|discriminate]. inv_bind Hd. injection Hd as <-. discriminate.
    - intros Gd. destruct (yp_scenario y); [reflexivity|]. exfalso. rewrite (Ps eq_refl) in Hd. revert Gd Hd.
      destruct (ip_value p) as [v|name].
      + destruct (ip_time p); cbn; [discriminate|]. intros Gd [= <-]. discriminate.
      + intros Gd Hd. inv_bind Hd. destruct (ip_time p); cbn in Hd; [|discriminate]. inv_bind Hd. injection Hd as <-. discriminate.
  Qed.

  (** *** Definitions *)
  Lemma definitions_ready k f d : In k (n_connections n) -> In d (brought k f) -> ready_definition o d.
  Proof.
    intros Hk Hd. destruct (network_file order libs sys files T S rd o Ord Steps Good) as (_ & _ & _ & _ & _ & K).
    destruct (K k Hk) as [K1 K2]. unfold brought in Hd.
    assert (G : forall r, In (pr_component r) (all_components n) -> In d (definition_of r f) -> ready_definition o d).
    { intros r Hr Hin. pose proof (definition_file order libs sys files T S rd o Ord Steps Good r f Hr) as F.
      destruct (Forall2_In_l _ _ _ _ F Hin) as ([[e' m'] y] & _ & c' & L' & E1 & Hy & E2). unfold ready_definition. rewrite E1, E2.
      destruct (LM e' m' c' L') as (GT & _). pose proof (text_sound m' _ GT (defined_text m' y Hy)) as Sw.
      destruct Ready as (_ & _ & _ & _ & RE). destruct (RE e' m' (link_entry _ _ _ _ _ _ L')) as (_ & RD & _).
      destruct (RD y Hy) as [A1 A2]. split; [now apply (text_nodes e' m' c')|]. split; [now apply (text_leaves e' m' c')|].
      destruct GT as (_ & _ & GD & _). destruct (GD y Hy) as (_ & Wp & _).
      apply (affine_expr_of (vars m') _ (fun _ _ => false)); [reflexivity|apply Sw|]. exact (affine_ports _ _ _ _ Wp A2). }
    apply in_app_or in Hd. destruct Hd as [Hd|Hd]; [exact (G _ K1 Hd)|exact (G _ K2 Hd)].
  Qed.

  (** *** Variables *)
  Let LL : loadable_libraries libs rd. Proof. apply Ready. Qed.
  Lemma link_library e m c : Link e m c -> exists y, In y libs /\ In m (yl_models y) /\ loadable_model libs rd y m.
  Proof.
    intros (_ & _ & _ & Fm & _). unfold file_model in Fm. destruct (find _ _) as [[y m']|] eqn:F; [|discriminate]. cbn in Fm. injection Fm as ->.
    apply find_some in F. destruct F as [F _]. apply in_flat_map in F. destruct F as (y' & Hy & F). apply in_map_iff in F.
    destruct F as (m' & [= -> ->] & Hm). exists y. split; [exact Hy|]. split; [exact Hm|]. apply LL; assumption.
  Qed.
  Lemma variables_ready c v : In c (all_components n) -> In v (get_variables (o_selection o) (co_model c)) -> ready_variable o c v.
  Proof.
    intros Hc Hv. destruct (component_link order libs sys files T S rd o Ord Steps Good c Hc) as (e & m & L).
    destruct (LM e m c L) as (GT & DN & pts & R). apply filter_In in Hv. destruct Hv as [Hv _].
    destruct (text_of_made libs sys files T S rd o Good e m c v L Hv) as (y & M).
    destruct (bounds_written rd m c y v GT M) as [El Eu]. pose proof (variable_texts_in m y (proj1 M)) as Inc.
    destruct Ready as (_ & _ & _ & _ & RE). destruct (RE e m (link_entry _ _ _ _ _ _ L)) as (RV & _).
    destruct (RV y (proj1 M)) as [RV1 RV2]. destruct (link_library e m c L) as (lib & _ & _ & LDm).
    assert (FT : forall w, In w (variable_texts y) -> formula_text m (rd m w)).
    { destruct LDm as (_ & _ & _ & H & _). apply (H y (proj1 M)). }
    assert (B : forall text, incl (given_text text) (variable_texts y) -> ready_variable_bound o (co_id c) v
      (match given_text text with [] => None | w :: _ => Some (expr_of (vars m) (rd m w)) end)).
    { intros text It ex E. destruct (given_text text) as [|w r]; [discriminate|]. injection E as <-. right.
      assert (Hw : In w (variable_texts y)) by (apply It; now left).
      pose proof (text_sound m w GT (Inc w Hw)) as Sw. pose proof Sw as (_ & P & D & _).
      split; [apply expr_of_finite|]. split; [apply (text_formula e m c); auto|].
      rewrite (made_structure m c y v M). cbn [ix_time ix_scenario]. destruct (RV1 w Hw) as [V1 V2].
      split; intros V; [apply V1|apply V2]; rewrite <- V; symmetry;
        unfold varies_with_time, varies_with_scenario, varies_in_time, varies_in_scenario.
      - exact (varies_file order libs sys files T S rd o Ord Steps Good ix_time yv_time yp_time true false (fun _ => eq_refl) (fun _ => eq_refl) e m c _ L P D).
      - exact (varies_file order libs sys files T S rd o Ord Steps Good ix_scenario yv_scenario yp_scenario false true (fun _ => eq_refl) (fun _ => eq_refl) e m c _ L P D). }
    assert (I1 : incl (given_text (yv_lower y)) (variable_texts y)) by (intros a Ha; apply in_or_app; now left).
    assert (I2 : incl (given_text (yv_upper y)) (variable_texts y)) by (intros a Ha; apply in_or_app; now right).
    split; [rewrite El; exact (B _ I1)|]. split; [rewrite Eu; exact (B _ I2)|].
    intros t s Hi. apply (made_instance order libs sys files T S rd o Steps Good e m c y v t s L M) in Hi. destruct Hi as [It Is].
    assert (Bt : (0 <= odefault 0 t < T)%Z) by (destruct t as [t|]; cbn in *; [apply It|lia]).
    assert (Bs : (0 <= odefault 0 s < S)%Z) by (destruct s as [s|]; cbn in *; [apply Is|lia]).
    destruct (RV2 _ _ Bt Bs) as (lo & hi & Rl & Rh & Hle). exists lo, hi. rewrite El, Eu.
    assert (BR : forall inf text b, incl (given_text text) (variable_texts y) ->
      bound_reads_text libs sys files T S rd e m inf text (odefault 0%Z t) (odefault 0%Z s) b ->
      bound_reads o (co_id c) inf (match given_text text with [] => None | w :: _ => Some (expr_of (vars m) (rd m w)) end) t s b).
    { intros inf text b Ix Hb. unfold bound_reads_text in Hb. destruct (given_text text) as [|w r]; [exact Hb|].
      destruct Hb as (q & x & -> & Hq).
      assert (Hw : In w (variable_texts y)) by (apply Ix; now left).
      assert (D : den (component_world o x (co_id c)) (expr_of (vars m) (rd m w)) (odefault 0%Z t) (odefault 0%Z s) = Some q).
      { rewrite <- Hq, <- (value_file order libs sys files T S rd o Ord Steps Good x e m c _ _ _ L (proj1 Bs)).
        exact (text_den rd m GT w _ _ _ (Inc w Hw)). }
      pose proof (expr_of_finite (vars m) (rd m w)) as F. cbn [bound_reads].
      destruct (expr_of (vars m) (rd m w)) as [u| | | | | | | | | | | | | | | | | |]; try (exists q, x; split; [reflexivity|exact D]).
      destruct F as [F _]. destruct u as [u| | |]; try contradiction. cbn in D. now injection D as ->. }
    split; [exact (BR _ _ _ I1 Rl)|]. split; [exact (BR _ _ _ I2 Rh)|exact Hle].
  Qed.

  (** *** Constraints *)
  Lemma constraint_texts_in m y : In y (ym_binding_constraints m ++ ym_constraints m) -> incl (constraint_texts y) (model_texts m).
  Proof.
    intros H w Hw. unfold model_texts. rewrite !in_app_iff. apply in_app_or in H.
    destruct H as [H|H]; [right; right; left|right; right; right; left]; apply in_flat_map; eauto.
  Qed.
  Lemma difference_ready e m c l r : Link e m c -> ready_text libs sys files T S rd e m l -> ready_text libs sys files T S rd e m r ->
    valued libs sys files T S rd e m [l; r] -> sound (model_names m) l -> sound (model_names m) r ->
    ready_expression o (co_id c) (py_sub (expr_of (vars m) l) (expr_of (vars m) r)).
  Proof.
    intros L [Hl Al] [Hr Ar] V Sl Sr. change (py_sub ?a ?b) with (addop_of Minus a b).
    pose proof (text_nodes e m c l L Hl Sl) as Nl. pose proof (text_nodes e m c r L Hr Sr) as Nr.
    pose proof (text_leaves e m c l L Hl Sl) as Ll. pose proof (text_leaves e m c r L Hr Sr) as Lr.
    assert (NE : forall x, all_nodes (ready_node o (co_id c)) x -> no_empty_sum x).
    { intros x. apply all_nodes_imp. intros a Ha E. subst a. cbn in Ha. congruence. }
    split; [|split; [|split]].
    - apply addop_closed; auto.
      + intros a Ha. split; [exact I|exact Ha].
      + intros x H1 H2. apply all_nodes_Add. split; assumption.
      + apply nodes_ops. intros x. cbn. tauto.
    - apply (addop_closed (leaves_of (ready_leaf o (co_id c)))); [| |apply leaves_ops|split; auto|split; auto].
      + intros a [H1 H2]. split; [split; [discriminate|exact H1]|exact H2].
      + intros x Hx H. split; [apply all_nodes_Add; split; [congruence|eapply Forall_impl; [|exact H]; intros a [? ?]; assumption]|].
        cbn [all_leaves]; apply fold_and_Forall; eapply Forall_impl; [|exact H]; intros a [? ?]; assumption.
    - apply affine_addop; now apply (text_is_affine e m c).
    - intros t s Ht Hs. rewrite len in Ht. rewrite scen in Hs. destruct (V t s Ht Hs) as (x & Hx & H).
      exists x. split; [now apply (decisions_file order libs sys files T S rd o Ord Steps Good)|].
      cbn [addop_of]. rewrite den_py_sub.
      assert (D : forall w, In w [l; r] -> sound (model_names m) w -> den (component_world o x (co_id c)) (expr_of (vars m) w) t s <> None).
      { intros w Hw Sw. change (vars m) with (id_variables (model_names m)). rewrite (sound_den _ _ _ _ _ Sw).
        change (text_value (component_world o x (co_id c)) m w t s <> None).
        rewrite (value_file order libs sys files T S rd o Ord Steps Good x e m c w t s L) by lia. exact (H w Hw). }
      pose proof (D l (or_introl eq_refl) Sl) as Dl. pose proof (D r (or_intror (or_introl eq_refl)) Sr) as Dr.
      destruct (den _ (expr_of (vars m) l) t s); [|contradiction]. destruct (den _ (expr_of (vars m) r) t s); [|contradiction]. discriminate.
  Qed.
  Lemma some_decisions : exists x, admissible_decisions o x.
  Proof. exists (fun _ _ _ _ => 0%Qc). split; [reflexivity|]. intros c v _ _. split; reflexivity. Qed.
  Lemma zero_bound id inf : ready_bound o id inf (Lit n0).
  Proof.
    right. split; [split; [split; exact I|exact I]|]. intros t s _ _. destruct some_decisions as (x & Hx).
    exists x. split; [exact Hx|discriminate].
  Qed.
  Lemma constraints_ready c k : In c (all_components n) -> In k (get_constraints (o_selection o) (co_model c)) ->
    ready_expression o (co_id c) (c_expr k) /\ ready_bound o (co_id c) NInf (c_lower k) /\ ready_bound o (co_id c) PInf (c_upper k).
  Proof.
    intros Hc Hk. destruct (component_link order libs sys files T S rd o Ord Steps Good c Hc) as (e & m & L).
    destruct (constraint_made libs sys files T S rd o Good e m c k L Hk) as (y & Hy & _ & _ & Sh).
    destruct (LM e m c L) as (GT & DN & pts & R). pose proof (constraint_texts_in m y Hy) as Inc.
    destruct Ready as (_ & _ & _ & _ & RE). destruct (RE e m (link_entry _ _ _ _ _ _ L)) as (_ & _ & RC & _). specialize (RC y Hy).
    destruct (link_library e m c L) as (lib & _ & _ & LDm). destruct LDm as (_ & _ & _ & _ & _ & _ & _ & LC & _). specialize (LC y Hy).
    pose proof (text_sound m _ GT (Inc _ (or_introl eq_refl))) as Sx.
    assert (N : forall w, sound (model_names m) w ->
      c_expr k = expr_of (vars m) w /\ c_lower k = bound_of rd m NInf (yc_lower y) /\ c_upper k = bound_of rd m PInf (yc_upper y) ->
      (ready_text libs sys files T S rd e m w /\ valued libs sys files T S rd e m [w] /\
           forall b, In b (given_text (yc_lower y) ++ given_text (yc_upper y)) -> valued libs sys files T S rd e m [rd m b]) ->
      (without_comparison w /\ forall b, In b (given_text (yc_lower y) ++ given_text (yc_upper y)) -> formula_text m (rd m b)) ->
      ready_expression o (co_id c) (c_expr k) /\ ready_bound o (co_id c) NInf (c_lower k) /\ ready_bound o (co_id c) PInf (c_upper k)).
    { intros w Sw (-> & -> & ->) (R1 & R2 & R3) (_ & F).
      assert (B : forall inf text, incl (given_text text) (given_text (yc_lower y) ++ given_text (yc_upper y)) ->
        ready_bound o (co_id c) inf (bound_of rd m inf text)).
      { intros inf text It. unfold bound_of. destruct (given_text text) as [|b r]; [now left|]. right.
        assert (Hb : In b (given_text (yc_lower y) ++ given_text (yc_upper y))) by (apply It; now left).
        pose proof (text_sound m b GT (Inc b (or_intror Hb))) as Sb.
        split; [apply (text_formula e m c); auto|apply (text_values e m c); auto]. }
      split; [now apply (text_expression e m c)|]. split; apply B; intros b Hb; apply in_or_app; auto. }
    destruct (rd m (yc_expression y)) as [| | | | | | |op l r| | | | | | | |]; try exact (N _ Sx Sh RC LC).
    clear N. destruct Sh as [-> Eb]. apply sound_cmp in Sx. destruct Sx as [Sl Sr]. destruct RC as (R1 & R2 & R3).
    split; [now apply (difference_ready e m c)|]. destruct op; injection Eb as -> ->; split; first [apply zero_bound|now left].
  Qed.

  (** *** Objectives *)
  Lemma objectives_ready c ex : In (c, ex) (contributions o) ->
    ready_expression o (co_id c) ex /\
    varies_in_time n (co_id c) ex = false /\ varies_in_scenario n (co_id c) ex = false.
  Proof.
    intros H. unfold contributions in H. rewrite select in H. apply in_flat_map in H. destruct H as (c' & Hc & H).
    apply in_flat_map in H. destruct H as (oe & Ho & H). destruct oe as [e0|]; [|destruct H]. destruct H as [[= -> ->]|[]].
    destruct (component_link order libs sys files T S rd o Ord Steps Good c Hc) as (e & m & L).
    destruct (LM e m c L) as (GT & DN & pts & R).
    pose proof (mo_investment _ _ _ (resolve_model_parts _ _ _ R)) as Ei. pose proof (model_objective rd pts m (co_model c) GT R) as Eo.
    cbn [get_objectives] in Ho. rewrite Ei, Eo in Ho. destruct Ho as [Ho|[Ho|[]]]; [|discriminate].
    destruct (given_text (ym_objective m)) as [|w r] eqn:Eg; [discriminate|]. injection Ho as <-.
    assert (Hg : In w (given_text (ym_objective m))) by (rewrite Eg; now left).
    assert (Hw : In w (model_texts m)) by (unfold model_texts; rewrite !in_app_iff; auto).
    pose proof (text_sound m w GT Hw) as Sw. pose proof Sw as (_ & P & D & _).
    destruct Ready as (_ & _ & _ & _ & RE). destruct (RE e m (link_entry _ _ _ _ _ _ L)) as (_ & _ & _ & RO).
    destruct (RO w Hg) as [R1 R2].
    destruct (link_library e m c L) as (lib & _ & _ & LDm). destruct LDm as (_ & _ & _ & _ & _ & _ & _ & _ & LO).
    destruct (LO w Hg) as (_ & Wp & _ & Vt & Vs).
    split; [now apply (text_expression e m c)|]. split.
    - unfold varies_in_time. refine (eq_trans _ Vt).
      unfold n. rewrite (varies_file order libs sys files T S rd o Ord Steps Good ix_time yv_time yp_time true false (fun _ => eq_refl) (fun _ => eq_refl) e m c _ L P D).
      apply varies_ports. exact Wp.
    - unfold varies_in_scenario. refine (eq_trans _ Vs).
      unfold n. rewrite (varies_file order libs sys files T S rd o Ord Steps Good ix_scenario yv_scenario yp_scenario false true (fun _ => eq_refl) (fun _ => eq_refl) e m c _ L P D).
      apply varies_ports. exact Wp.
  Qed.
  Lemma study_ready : ready_problem o.
  Proof.
    split; [intros c p Hc Hp; apply data_fits; [apply in_or_app; now right|exact Hp]|].
    split; [exact definitions_ready|]. split; [exact variables_ready|]. split; [exact constraints_ready|exact objectives_ready].
  Qed.
End Ready.
