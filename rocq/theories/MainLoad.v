(** Proofs about the files that load (see PropRun.v). *)
From Coq Require Import Lia.
From Verif Require Import Base BaseFacts Expr ExprFacts SpecExpr SpecSyntax CopyFacts Visitors EqFacts Parse SpecParse LexFacts ParseFacts
  ModelFacts ParseMeaning LinearExpr LinearFacts Model Study Strategy Optim System Library LibraryFacts Main SpecModel SpecLibrary SpecSystem
  SystemFacts SpecVisitors SpecExpansion SpecLinear SpecOptim SpecMain TextFacts OptimFacts OptimMeaning OptimProblem MainFacts
  VisitorFacts DegreeFacts ExpansionFacts SpecReady ReadyFacts OptimReady SpecRun ReadyText SpecValid ValidFacts MainReady.
Local Open Scope string_scope.
Local Open Scope list_scope.

(** ** Expressions of one model *)
(** the nodes of a text without comparison and without port *)
Definition own_node (x : expr) : Prop :=
  match x with
  | Add l => l <> []
  | ScenOp _ o => o = Expectation
  | Cmp _ _ _ | CParam _ _ | CVar _ _ | PParam _ _ _ _ | PVar _ _ _ _ | PortField _ _ | PortAgg _ _ => False
  | _ => True
  end.
Lemma own_values x e : all_nodes own_node e -> value_node x e -> own_term x.
Proof.
  intros H V. induction V; try (cbn [all_nodes] in H; try apply IHV; tauto).
  - destruct x; try exact I; exact (proj1 H).
  - apply IHV. apply all_nodes_Add in H. destruct H as [_ H]. rewrite Forall_forall in H. now apply H.
Qed.
Lemma affine_degree ports e : all_nodes own_node e -> affine ports e ->
  exists d, compute_degree e = Ok d /\ (d <= 1)%nat /\ (decides ports e = false -> d = 0%nat).
Proof.
  induction e using expr_ind'; intros N A; cbn [compute_degree decides].
  all: try (exists 0%nat; split; [reflexivity|split; [lia|auto]]; fail).
  all: try (exists 1%nat; split; [reflexivity|split; [lia|discriminate]]; fail).
  all: try (exfalso; exact (proj1 N)).
  all: cbn [all_nodes affine] in N, A.
  all: try (apply IHe; tauto). all: try (apply IHe1; tauto).
  - apply all_nodes_Add in N. destruct N as [N0 N]. apply fold_and_Forall in A. cbn in N0.
    rewrite Forall_forall in H, N, A.
    destruct (mapM_some compute_degree l) as [r Hr]. { intros a Ha. destruct (H a Ha (N a Ha) (A a Ha)) as (d & D & _). eauto. }
    rewrite Hr. cbn [bind]. apply mapM_ok in Hr.
    assert (G : forall d, In d r -> exists a, In a l /\ compute_degree a = Ok d) by (intros d Hd; exact (Forall2_In_r _ _ _ _ Hr Hd)).
    assert (B : forall d, In d r -> (d <= 1)%nat).
    { intros d Hd. destruct (G d Hd) as (a & Ha & E). destruct (H a Ha (N a Ha) (A a Ha)) as (d' & D & L & _). assert (d' = d) by congruence. now subst. }
    destruct r as [|d0 r]. { inversion Hr. subst. now contradiction N0. }
    cbn [py_max]. eexists. split; [reflexivity|]. split.
    + clear -B. assert (K : forall l a, (forall d, In d l -> (d <= 1)%nat) -> (a <= 1)%nat -> (fold_left Nat.max l a <= 1)%nat).
      { clear. induction l as [|x l IH]; cbn; auto. intros a Hl Ha. apply IH; [auto|]. specialize (Hl x (or_introl eq_refl)). lia. }
      apply K; [intros d Hd; apply B; now right|apply B; now left].
    + intros D. assert (Z : py_max (d0 :: r) = Ok 0%nat).
      { apply max_zeros; [discriminate|]. intros d Hd. destruct (G d Hd) as (a & Ha & E).
        destruct (H a Ha (N a Ha) (A a Ha)) as (d' & D' & _ & L). assert (d' = d) by congruence. subst d'. apply L.
        destruct (decides ports a) eqn:B'; [|reflexivity]. rewrite <- D. symmetry. apply existsb_exists. eauto. }
      cbn [py_max] in Z. congruence.
  - destruct N as (_ & N1 & N2), A as (A1 & A2 & A3). destruct (IHe1 N1 A1) as (x & -> & X1 & X2), (IHe2 N2 A2) as (y & -> & Y1 & Y2).
    cbn [bind]. eexists. split; [reflexivity|]. split; [destruct A3 as [A3|A3]; [specialize (X2 A3)|specialize (Y2 A3)]; lia|].
    intros D. apply orb_false_iff in D. destruct D as [D1 D2]. rewrite (X2 D1), (Y2 D2). reflexivity.
  - destruct N as (_ & N1 & N2), A as (A1 & A2 & A3). destruct (IHe1 N1 A1) as (x & -> & X1 & X2), (IHe2 N2 A2) as (y & -> & Y1 & Y2).
    cbn [bind]. rewrite (Y2 A3). cbn. exists x. split; [reflexivity|]. split; [exact X1|]. intros D. apply orb_false_iff in D. apply X2, D.
  - destruct N as [-> N]. destruct (IHe N A) as (x & -> & X1 & X2). cbn. exists (x + 0)%nat. rewrite Nat.add_0_r. auto.
Qed.

Section OneText.
  Context (m : in_model).
  Notation vars := (map yv_id (ym_variables m)).
  Lemma own_nodes w : without_comparison w -> without_port w -> all_nodes own_node (expr_of vars w).
  Proof.
    intros H1 H2.
    assert (Nm : forall x, own_node (name_of vars x)) by (intros x; unfold name_of; destruct (existsb _ _); exact I).
    assert (G := expr_of_nodes own_node (fun _ => I) (fun _ => I) (fun _ _ => I) (fun _ _ => I) (fun l => conj (fun H => H) (fun H => H))
      vars (fun w => match w with WCmp _ _ _ => False | _ => True end /\ match w with WField _ _ | WSumPorts _ _ => False | _ => True end)
      (fun x _ => Nm x) (fun _ _ H => match proj2 H with end) (fun _ _ H => match proj2 H with end) (fun _ _ _ H => match proj1 H with end)
      (fun _ _ => I) (fun _ _ _ _ => I) (fun _ _ _ => eq_refl) (fun x _ _ => conj (Nm x) I) (fun x _ _ => conj (Nm x) I)).
    apply G. now apply throughout_and.
  Qed.
  Definition free_node (x : expr) : Prop :=
    match x with
    | Var _ | CVar _ _ | PVar _ _ _ _ | PortField _ _ | PortAgg _ _ | ScenOp _ _ => False
    | Add l => l <> []
    | _ => True
    end.
  Lemma formula_free w : formula_text m w -> no_variable_left (expr_of vars w).
  Proof.
    intros H. assert (K : all_nodes free_node (expr_of vars w)).
    { assert (Nm : forall x, formula_part (fun _ => True) m (WName x) -> free_node (name_of vars x)).
      { intros x [N _]. unfold name_of. destruct (existsb (String.eqb x) vars) eqn:B; [|exact I].
        apply existsb_exists in B. destruct B as (y & Hy & E). apply String.eqb_eq in E. subst y. contradiction (N Hy). }
      exact (proj1 (expr_of_nodes free_node (fun _ => I) (fun _ => I) (fun _ _ => I) (fun _ _ => I) (fun l => conj (fun H => H) (fun H => H))
        vars (formula_part (fun _ => True) m) Nm (fun _ _ H => match H with end) (fun _ _ H => match H with end) (fun _ _ _ H => match H with end)
        (fun _ H => match H with end) (fun _ _ _ H => match H with end) (fun _ _ H => match H with end)
        (fun _ _ H => match H with end) (fun _ _ H => match H with end)) w H). }
    revert K. unfold no_variable_left. apply all_nodes_imp. intros x Hx. destruct x; try exact Hx; try exact I.
    - destruct l; [now apply Hx|exact I].
    - contradiction Hx.
  Qed.
  Lemma known_names ps vs w :
    (forall x, In x vars -> is_ok (get_variable_structure (model_structure_provider ps vs) x) = true) ->
    (forall x, In x (map yp_id (ym_parameters m)) -> is_ok (get_parameter_structure (model_structure_provider ps vs) x) = true) ->
    without_comparison w -> without_port w -> sound (model_names m) w ->
    all_names_known (model_structure_provider ps vs) (expr_of vars w).
  Proof.
    intros Hv Hp H1 H2 Sw. set (sp := model_structure_provider ps vs) in *.
    pose (P := fun x => match x with
      | Add l => l <> []
      | Var n => is_ok (get_variable_structure sp n) = true
      | Param n => is_ok (get_parameter_structure sp n) = true
      | CVar _ _ | CParam _ _ | PVar _ _ _ _ | PParam _ _ _ _ | PortField _ _ | PortAgg _ _ => False
      | _ => True end).
    assert (N0 : forall x, In x vars \/ In x (map yp_id (ym_parameters m)) -> P (name_of vars x)).
    { intros x Hx. unfold name_of. destruct (existsb (String.eqb x) vars) eqn:B.
      - apply existsb_exists in B. destruct B as (y & Hy & E). apply String.eqb_eq in E. subst y. exact (Hv x Hy).
      - destruct Hx as [Hx|Hx]; [|exact (Hp x Hx)]. exfalso. rewrite (proj2 (existsb_exists _ _)) in B; [discriminate|].
        exists x. split; [exact Hx|apply String.eqb_refl]. }
    assert (K : all_nodes P (expr_of vars w)).
    { assert (G := expr_of_nodes P (fun _ => I) (fun _ => I) (fun _ _ => I) (fun _ _ => I) (fun l => conj (fun H => H) (fun H => H))
        vars (fun w => (match w with WField _ _ | WSumPorts _ _ => False | _ => True end) /\ sound (model_names m) w)
        (fun x H => N0 x (proj1 (proj2 (proj2 (proj2 H))))) (fun _ _ H => match proj1 H with end) (fun _ _ H => match proj1 H with end)
        (fun _ _ _ _ => I) (fun _ _ => I) (fun _ _ _ _ => I) (fun _ _ _ => I)
        (fun x k H => conj (N0 x (proj1 (sound_at _ x k (proj2 H)))) I) (fun x k H => conj (N0 x (proj1 (sound_index _ x k (proj2 H)))) I)).
      apply G. apply throughout_and; [exact H2|now apply sound_parts]. }
    revert K. unfold all_names_known. apply all_nodes_imp. intros x Hx. destruct x; try exact Hx; try exact I; try contradiction Hx.
  Qed.
End OneText.

(** ** A model that loads *)
Section OneModel.
  Context (libs : list in_library) (rd : in_model -> string -> wexpr) (y : in_library) (m : in_model) (pts : dict string port_type).
  Hypothesis Clash : no_clash libs [].
  Hypothesis Load : loadable_model libs rd y m.
  Hypothesis Sound : forall k t, dget String.eqb k pts = Some t -> usable libs [] (yl_id y) k t.
  Hypothesis Complete : forall k t, usable libs [] (yl_id y) k t -> exists t', dget String.eqb k pts = Some t'.
  Let ids := model_identifiers m.
  Notation vars := (map yv_id (ym_variables m)).
  Notation X w := (expr_of vars (rd m w)).
  Let reads w : In w (model_texts m) -> reads_as ids w (rd m w).
  Proof. apply Load. Qed.
  Let parses w : In w (model_texts m) -> parse_expression w ids = Ok (PVal (X w)).
  Proof. intros H. exact (parse_expr_of _ _ _ (reads w H)). Qed.
  Let present text : incl (given_text text) (model_texts m) ->
    to_expression_if_present text ids = Ok (match given_text text with [] => None | w :: _ => Some (X w) end).
  Proof.
    destruct text as [[|a w]|]; cbn [given_text to_expression_if_present]; intros I; try reflexivity.
    rewrite (parses (String a w)) by (apply I; now left). reflexivity.
  Qed.

  Lemma variable_loads v : In v (ym_variables m) -> exists v', to_variable ids v = Ok v'.
  Proof.
    intros Hv. destruct Load as (_ & _ & _ & L & _). destruct (L v Hv) as [Ty F]. unfold to_variable.
    assert (I : incl (variable_texts v) (model_texts m)).
    { intros w Hw. unfold model_texts. rewrite !in_app_iff. left. apply in_flat_map. eauto. }
    assert (E : exists ty, to_value_type (yv_type v) = Ok ty).
    { destruct Ty as [<-|[<-|[]]]; eexists; reflexivity. }
    destruct E as [ty ->]. cbn [bind].
    rewrite (present (yv_lower v)) by (intros w Hw; apply I, in_or_app; now left). cbn [bind].
    rewrite (present (yv_upper v)) by (intros w Hw; apply I, in_or_app; now right). cbn [bind].
    eexists. apply variable_accepted. intros e [H|H].
    - destruct (given_text (yv_lower v)) as [|w l] eqn:G; [discriminate|]. injection H as <-. apply formula_free. apply F.
      apply in_or_app. left. rewrite G. now left.
    - destruct (given_text (yv_upper v)) as [|w l] eqn:G; [discriminate|]. injection H as <-. apply formula_free. apply F.
      apply in_or_app. right. rewrite G. now left.
  Qed.
  Lemma port_loads p : In p (ym_ports m) -> exists p', resolve_model_port pts p = Ok p'.
  Proof.
    intros Hp. destruct Load as (_ & _ & _ & _ & _ & L & _). destruct (L p Hp) as [t Ht]. destruct (Complete _ _ Ht) as [t' G].
    unfold resolve_model_port. rewrite G. eauto.
  Qed.
  Lemma definition_loads d : In d (ym_definitions m) ->
    resolve_field_definition ids d = Ok {| d_field := (yd_port d, yd_field d); d_definition := X (yd_definition d) |}.
  Proof.
    intros Hd. destruct Load as (_ & _ & _ & _ & _ & _ & L & _). destruct (L d Hd) as (_ & H1 & H2). unfold resolve_field_definition.
    rewrite parses by (unfold model_texts; rewrite !in_app_iff; right; left; now apply in_map). cbn [bind the_expression].
    apply port_definition. split; [|reflexivity]. intros x Hx. refine (own_values x _ _ Hx). now apply own_nodes.
  Qed.
  Lemma constraint_loads c : In c (ym_binding_constraints m ++ ym_constraints m) -> exists k, to_constraint ids c = Ok k.
  Proof.
    intros Hc. destruct Load as (_ & _ & _ & _ & _ & _ & _ & L & _). specialize (L c Hc).
    assert (I : incl (constraint_texts c) (model_texts m)).
    { intros w Hw. unfold model_texts. rewrite !in_app_iff. apply in_app_or in Hc.
      destruct Hc as [H|H]; [right; right; left|right; right; right; left]; apply in_flat_map; eauto. }
    unfold constraint_texts in I. unfold to_constraint.
    rewrite (present (yc_lower c)) by (intros w Hw; apply I; right; apply in_or_app; now left). cbn [bind].
    rewrite (present (yc_upper c)) by (intros w Hw; apply I; right; apply in_or_app; now right). cbn [bind].
    rewrite parses by (apply I; now left). cbn [bind the_expression].
    assert (D : without_comparison (rd m (yc_expression c)) ->
      (forall b, In b (given_text (yc_lower c) ++ given_text (yc_upper c)) -> formula_text m (rd m b)) ->
      exists k, mk_constraint (yc_id c) (X (yc_expression c))
        (match match given_text (yc_lower c) with [] => None | w :: _ => Some (X w) end with Some e => e | None => Lit NInf end)
        (match match given_text (yc_upper c) with [] => None | w :: _ => Some (X w) end with Some e => e | None => Lit PInf end) OPERATIONAL = Ok k).
    { intros Nc F. eexists. apply (mk_constraint_bounds _ _ _ _ _ _ (not_comparison m _ Nc)). split; [reflexivity|].
      assert (B : forall inf ws, incl ws (given_text (yc_lower c) ++ given_text (yc_upper c)) ->
        is_constant (match match ws with [] => None | w :: _ => Some (X w) end with Some e => e | None => Lit inf end) = Ok true).
      { intros inf [|w ws] Hws; [reflexivity|]. apply fixed_constant, formula_free, F, Hws. now left. }
      split; [apply B; intros w Hw; apply in_or_app; now left|]. split; [apply B; intros w Hw; apply in_or_app; now right|].
      assert (Fi : forall w inf, (forall q, inf <> Fin q) -> X w <> Lit inf).
      { intros w inf Hi E. pose proof (expr_of_finite vars (rd m w)) as Q. rewrite E in Q. destruct Q as [Q _]. destruct inf; try exact Q.
        exact (Hi q eq_refl). }
      split.
      - destruct (given_text (yc_lower c)); [discriminate|apply Fi; discriminate].
      - destruct (given_text (yc_upper c)); [discriminate|apply Fi; discriminate]. }
    destruct (rd m (yc_expression c)) as [] eqn:E; try (apply D; apply L).
    destruct L as [-> ->]. cbn [expr_of mk_constraint]. cbn. destruct c0; eexists; reflexivity.
  Qed.
  Lemma objective_loads vs e : mapM (to_variable ids) (ym_variables m) = Ok vs ->
    match given_text (ym_objective m) with [] => None | w :: _ => Some (X w) end = Some e ->
    real_valued_linear (map to_parameter (ym_parameters m)) vs e.
  Proof.
    intros Hvs He. destruct (given_text (ym_objective m)) as [|w l] eqn:G; [discriminate|]. injection He as <-.
    destruct Load as (_ & Np & Nv & _ & _ & _ & _ & _ & L). destruct (L w) as (H1 & H2 & A & Vt & Vs); [rewrite G; now left|].
    assert (R : reads_as ids w (rd m w)).
    { apply reads. unfold model_texts. rewrite !in_app_iff, G. right. right. right. right. now left. }
    apply mapM_ok in Hvs.
    pose proof (listed_dict String.eqb String.eqb_eq (fun y v => to_variable ids y = Ok v) yv_id v_name (to_variable_name ids) _ _ Hvs Nv) as Dv.
    assert (Dp : Forall2 (fun y kv => fst kv = yp_id y /\ snd kv = to_parameter y) (ym_parameters m)
      (dict_of String.eqb p_name (map to_parameter (ym_parameters m)))).
    { refine (listed_dict String.eqb String.eqb_eq (fun y v => v = to_parameter y) yp_id p_name _ _ _ _ Np).
      - intros y0 a ->. reflexivity.
      - clear. induction (ym_parameters m); constructor; auto. }
    unfold real_valued_linear. cbv zeta. set (dp := dict_of String.eqb p_name _) in *. set (dv := dict_of String.eqb v_name vs) in *.
    set (sp := model_structure_provider dp dv).
    assert (Fv : forall n, In n vars -> exists v v', find (fun v => String.eqb (yv_id v) n) (ym_variables m) = Some v /\
      get_variable_structure sp n = Ok (v_structure v') /\ to_variable ids v = Ok v').
    { intros n Hn. cbn [sp get_variable_structure model_structure_provider]. unfold dict_structure.
      destruct (find_dget String.eqb String.eqb_eq (fun y v => to_variable ids y = Ok v) yv_id n
        (fun v => String.eqb (yv_id v) n) _ _ (fun y => String.eqb_eq (yv_id y) n) Dv) as [(v & v' & -> & -> & T & _)|(_ & _ & N)]; [eauto|].
      exfalso. apply in_map_iff in Hn. destruct Hn as (v & <- & Hv). exact (N v Hv eq_refl). }
    assert (Fp : forall n, In n (map yp_id (ym_parameters m)) -> exists p, find (fun p => String.eqb (yp_id p) n) (ym_parameters m) = Some p /\
      get_parameter_structure sp n = Ok (p_structure (to_parameter p))).
    { intros n Hn. cbn [sp get_parameter_structure model_structure_provider]. unfold dict_structure.
      destruct (find_dget String.eqb String.eqb_eq (fun y v => v = to_parameter y) yp_id n
        (fun v => String.eqb (yp_id v) n) _ _ (fun y => String.eqb_eq (yp_id y) n) Dp) as [(v & v' & -> & -> & -> & _)|(_ & _ & N)]; [eauto|].
      exfalso. apply in_map_iff in Hn. destruct Hn as (v & <- & Hv). exact (N v Hv eq_refl). }
    split; [|split].
    - destruct (affine_degree (fun _ _ => false) (X w)) as (d & Ed & Hd & _).
      + now apply own_nodes.
      + apply (affine_expr_of vars _ _ (fun _ _ => eq_refl)); [apply R|exact A].
      + unfold is_linear. rewrite Ed. cbn [bind]. f_equal. apply Nat.leb_le. exact Hd.
    - apply known_names; [| |exact H1|exact H2|exact (reads_sound _ _ _ R)].
      + intros x Hx. destruct (Fv x Hx) as (v & v' & _ & E & _). unfold sp in E. now rewrite E.
      + intros x Hx. destruct (Fp x Hx) as (p & _ & E). unfold sp in E. now rewrite E.
    - assert (K : all_names_known sp (X w)).
      { apply known_names; [| |exact H1|exact H2|exact (reads_sound _ _ _ R)].
        + intros x Hx. destruct (Fv x Hx) as (v & v' & _ & E & _). unfold sp in E. now rewrite E.
        + intros x Hx. destruct (Fp x Hx) as (p & _ & E). unfold sp in E. now rewrite E. }
      pose proof (indexation_varies sp (fun _ _ => false) _ _ (indexation_exact sp _ K)) as [V1 V2]. cbn in V1, V2.
      destruct R as (_ & _ & Pl & De).
      assert (Var : forall dim vd pd ft fs, (forall v, vd v = dim {| ix_time := yv_time v; ix_scenario := yv_scenario v |}) ->
        (forall p, pd p = dim {| ix_time := yp_time p; ix_scenario := yp_scenario p |}) ->
        varies dim ft fs sp (fun _ _ => false) (X w) = text_varies vd pd ft fs m (fun _ _ => false) (rd m w)).
      { intros dim vd pd ft fs Hvd Hpd. apply (varies_expr_of dim vd pd ft fs m sp _ _); [| |reflexivity|exact Pl|exact De].
        - intros n Hn. unfold name_varies. destruct (Fv n Hn) as (v & v' & -> & -> & T). cbn.
          destruct (variable_as_written _ _ _ T) as (_ & -> & _). symmetry. apply Hvd.
        - intros n Hn Hp. unfold name_varies.
          assert (Nn : find (fun v => String.eqb (yv_id v) n) (ym_variables m) = None).
          { destruct (find _ _) as [v|] eqn:E; [|reflexivity]. apply find_some in E. destruct E as [E1 E2].
            apply String.eqb_eq in E2. exfalso. apply Hn. rewrite <- E2. now apply in_map. }
          rewrite Nn. destruct (Fp n Hp) as (p & -> & ->). cbn. symmetry. apply Hpd. }
      split; [rewrite V1, (Var ix_time yv_time yp_time true false); auto|rewrite V2, (Var ix_scenario yv_scenario yp_scenario false true); auto].
  Qed.
  Lemma model_loads : exists M, resolve_model pts m = Ok M.
  Proof.
    unfold resolve_model. cbv zeta. fold ids.
    destruct (mapM_some (to_variable ids) (ym_variables m) variable_loads) as [vs Hvs]. rewrite Hvs. cbn [bind].
    destruct (mapM_some (resolve_model_port pts) (ym_ports m) port_loads) as [ps Hps]. rewrite Hps. cbn [bind].
    destruct (mapM_some (resolve_field_definition ids) (ym_definitions m)) as [ds Hds];
      [intros d Hd; eexists; now apply definition_loads|]. rewrite Hds. cbn [bind].
    destruct (mapM_some (to_constraint ids) (ym_binding_constraints m)) as [bs ->];
      [intros c Hc; apply constraint_loads, in_or_app; now left|]. cbn [bind].
    destruct (mapM_some (to_constraint ids) (ym_constraints m)) as [cs ->];
      [intros c Hc; apply constraint_loads, in_or_app; now right|]. cbn [bind].
    rewrite (present (ym_objective m)) by (intros w Hw; unfold model_texts; rewrite !in_app_iff; auto). cbn [bind].
    apply mapM_ok in Hps, Hds.
    assert (Pn : map mp_name ps = map yo_id (ym_ports m)).
    { clear - Hps. induction Hps as [|p q l l' H _ IH]; [reflexivity|]. cbn. rewrite IH. f_equal.
      unfold resolve_model_port in H. destruct (dget _ _ _); [|discriminate]. injection H as <-. reflexivity. }
    destruct (model_accepted (ym_id m) cs bs (map to_parameter (ym_parameters m)) vs
      (match given_text (ym_objective m) with [] => None | w :: _ => Some (X w) end) None false ps ds) as (M & HM & _).
    - rewrite Pn. apply Load.
    - intros d Hd. destruct (Forall2_In_r _ _ _ _ Hds Hd) as (d0 & Hd0 & E). rewrite (definition_loads d0 Hd0) in E. injection E as <-.
      destruct Load as (_ & _ & _ & _ & _ & _ & L & _). destruct (L d0 Hd0) as ((q & t & Hq & Eq & Ht & Hf) & _ & _).
      destruct (Forall2_In_l _ _ _ _ Hps Hq) as (p & Hp & Rp). unfold resolve_model_port in Rp.
      destruct (dget String.eqb (yo_type q) pts) as [t'|] eqn:G; [|discriminate]. injection Rp as <-.
      eexists. split; [exact Hp|]. cbn. split; [exact Eq|]. rewrite (Clash _ _ _ _ (Sound _ _ G) Ht). exact Hf.
    - intros e [He|He]; [|discriminate]. now apply objective_loads.
    - eauto.
  Qed.
End OneModel.

(** ** Libraries *)
Lemma input_libs_load order libs rd : any_order order -> loadable_libraries libs rd ->
  exists out, input_libs order libs = Ok out /\ resolve_library order libs [] = Ok out.
Proof.
  intros Ord (N & Ac & Co & Cl & Own & Ms).
  destruct (good_libraries_load order libs [] Ord N Ac Co) as [out Hout].
  - intros y Hy t k t' Ht ->. now apply Own.
  - intros y Hy. apply (Ms y Hy).
  - intros y m pts Hy Hm H1 H2. apply (model_loads libs rd y m pts Cl); [now apply (Ms y Hy)|exact H1|exact H2].
  - exists out. split; [|exact Hout]. unfold input_libs.
    assert (G : forall acc, NoDup (snd acc ++ map yl_id libs) ->
      exists ids, foldM (fun acc l => if existsb (String.eqb (yl_id l)) (snd acc) then Err ValueError
                else Ok (fst acc ++ [l], snd acc ++ [yl_id l])) acc libs = Ok (fst acc ++ libs, ids)).
    { clear. induction libs as [|l libs IH]; intros acc Nd; cbn [foldM].
      - exists (snd acc). rewrite app_nil_r. now destruct acc.
      - destruct (existsb (String.eqb (yl_id l)) (snd acc)) eqn:B.
        + exfalso. apply existsb_exists in B. destruct B as (x & Hx & E). apply String.eqb_eq in E. subst x.
          cbn [map] in Nd. apply NoDup_remove_2 in Nd. apply Nd. apply in_or_app. now left.
        + cbn [bind]. destruct (IH (fst acc ++ [l], snd acc ++ [yl_id l])) as [ids ->].
          * cbn [snd]. rewrite <- app_assoc. exact Nd.
          * cbn [fst]. rewrite <- app_assoc. eauto. }
    destruct (G ([], []) N) as [ids ->]. cbn [fst app bind]. exact Hout.
Qed.

(** ** Systems *)
Section System.
  Context (order : list string -> list string -> list string -> list string) (libs : list in_library) (sys : input_system)
    (rd : in_model -> string -> wexpr) (out : dict string library).
  Hypothesis Ord : any_order order.
  Hypothesis N : NoDup (map yl_id libs).
  Hypothesis Rl : resolve_library order libs [] = Ok out.
  Hypothesis Clash : no_clash libs [].

  Lemma refers_model reference y m : refers libs reference y m -> exists M, names_model out reference M /\
    (forall q t, In q (ym_ports m) -> usable libs [] (yl_id y) (yo_type q) t ->
       In (yo_id q, {| mp_type := t; mp_name := yo_id q |}) (m_ports M)) /\
    (forall p f, In (p, f) (map fst (m_port_definitions M)) <-> has_definition m p f).
  Proof.
    intros (Hy & Hm & D1 & D2 & E).
    destruct (returned_model libs [] order Ord N out Rl y m Hy Hm) as (l & M & Gl & GM & RM & _).
    destruct (returned_ports libs [] order Ord N out Rl y m Hy Hm) as (l' & M' & Gl' & GM' & _ & Hp).
    assert (l' = l) by congruence. subst l'. assert (M' = M) by congruence. subst M'.
    exists M. split; [exists (yl_id y), (ym_id m), l; auto|]. split.
    - intros q t Hq Ht. destruct (Hp q Hq) as (t' & G & U). rewrite (Clash _ _ _ _ Ht U). exact (dget_In String.eqb String.eqb_eq _ _ _ G).
    - intros p f. destruct (mo_definitions _ _ _ (resolve_model_parts _ _ _ RM)) as (ds & F & ->). split.
      + intros H. apply in_map_iff in H. destruct H as ([k d] & Ek & H). cbn in Ek. subst k.
        apply (In_dget_nodup pfi_eqb pfi_eqb_eq) in H; [|exact (proj1 (dict_of_named pfi_eqb d_field pfi_eqb_eq ds))].
        apply (dict_of_from pfi_eqb d_field pfi_eqb_eq) in H. destruct H as [Hd Ed].
        destruct (Forall2_In_r _ _ _ _ F Hd) as (d0 & Hd0 & R0). apply definition_name in R0. exists d0. split; [exact Hd0|].
        rewrite Ed in R0. injection R0 as -> ->. auto.
      + intros (d0 & Hd0 & <- & <-). destruct (Forall2_In_l _ _ _ _ F Hd0) as (d & Hd & R0). apply definition_name in R0.
        destruct (dict_of_has pfi_eqb d_field pfi_eqb_eq ds (d_field d) (in_map d_field _ _ Hd)) as [d' Hd'].
        rewrite <- R0. exact (in_map fst _ _ (dget_In pfi_eqb pfi_eqb_eq _ _ _ Hd')).
  Qed.
  Lemma out_named : named_libraries out.
  Proof.
    intros reference M (a & b & lib & E & Da & Db & G1 & G2).
    assert (Ha : In a (map yl_id libs)).
    { destruct (returned_keys libs [] order Ord N out Rl) as [_ K].
      destruct (proj1 (K a)) as [X|X]; [|exact X|destruct X]. apply (dget_In String.eqb String.eqb_eq) in G1.
      now apply (in_map fst) in G1. }
    apply in_map_iff in Ha. destruct Ha as (y & Ey & Hy).
    destruct (returned_library libs [] order Ord N out Rl y Hy) as (l & Gl & _ & _ & _ & _ & ms & Ms & El).
    assert (l = lib) by (rewrite Ey in Gl; congruence). subst lib.
    apply mapM_ok in Ms. rewrite El in G2. apply (dict_of_from String.eqb m_id String.eqb_eq) in G2. destruct G2 as [G2 _].
    destruct (Forall2_In_r _ _ _ _ Ms G2) as (m & _ & Rm). exact (proj1 (model_named _ m M Rm)).
  Qed.
  Lemma text_connects k : text_connectable libs sys k -> connectable out sys k.
  Proof.
    intros (y1 & m1 & y2 & m2 & t & (e1 & q1 & He1 & E1 & R1 & Hq1 & P1 & U1) & (e2 & q2 & He2 & E2 & R2 & Hq2 & P2 & U2) & F).
    destruct (refers_model _ _ _ R1) as (M1 & N1 & O1 & D1), (refers_model _ _ _ R2) as (M2 & N2 & O2 & D2).
    exists e1, e2, M1, M2. split; [exact He1|]. split; [exact He2|]. split; [exact E1|]. split; [exact E2|].
    split; [exact N1|]. split; [exact N2|]. rewrite <- P1, <- P2 in *.
    eexists _, _. split; [exact (O1 q1 t Hq1 U1)|]. split; [exact (O2 q2 t Hq2 U2)|]. split; [reflexivity|].
    cbn [mp_type]. intros f Hf. unfold one_definer, defines. cbn [pr_port pr_component co_model]. rewrite !D1, !D2. exact (F f Hf).
  Qed.
End System.

(** ** Studies *)
Lemma study_prepared order libs sys files T S rd : any_order order -> NoDup (input_ids sys) -> ready_study libs sys files T S rd ->
  exists o, prepared order libs sys files T S o.
Proof.
  intros Ord Ids (L & R & K & (D & _) & _). destruct (input_libs_load order libs rd Ord L) as (out & H1 & Rl).
  destruct L as (N & _ & _ & Cl & _).
  destruct (proj2 (resolve_iff sys out Ids (out_named order libs out Ord N Rl))) as (s & n & H2 & H3).
  { split.
    - intros e He. destruct (R e He) as (y & m & Ref). destruct (refers_model order libs out Ord N Rl Cl _ y m Ref) as (M & HM & _). eauto.
    - intros k Hk. apply (text_connects order libs sys out Ord N Rl Cl). now apply K. }
  destruct (proj2 (plain_accepts files sys) D) as [db H4].
  exists (main_settings n db T S), out, s, db, n. auto.
Qed.
Lemma prepared_runs order libs sys files T S o st : any_order order -> prepared order libs sys files T S o -> build_problem o = Ok st ->
  main_cli order libs sys files T S = Ok (o, st).
Proof.
  intros Ord (out & s & db & n & H1 & H2 & H3 & H4 & E) B. unfold main_cli. rewrite H1. cbn [bind]. rewrite H2. cbn [bind].
  rewrite (check_passes order libs sys out s Ord H1 H2). cbn [bind]. rewrite H3. cbn [bind]. rewrite H4. cbn [bind].
  rewrite <- E, B. reflexivity.
Qed.
Lemma study_runs order libs sys files T S rd : any_order order -> good_study libs sys files T S rd -> ready_study libs sys files T S rd ->
  exists o st, main_cli order libs sys files T S = Ok (o, st).
Proof.
  intros Ord G R. destruct (study_prepared order libs sys files T S rd Ord) as [o P]; [apply G|exact R|].
  destruct (problem_built o) as [st B].
  - exact (study_good order libs sys files T S rd o Ord P G).
  - exact (study_ready order libs sys files T S rd o Ord P G R).
  - exists o, st. now apply prepared_runs.
Qed.
