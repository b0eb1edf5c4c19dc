(** Facts about valid models (C55). *)
From Coq Require Import Lia.
From Verif Require Import Base BaseFacts Expr ExprFacts Visitors Model SpecExpr SpecSyntax SpecVisitors SpecModel SpecModelEq SpecValid DegreeFacts ModelFacts SystemFacts.
Local Open Scope list_scope.

Lemma mapM_some {A B} (f : A -> result B) l : (forall a, In a l -> exists b, f a = Ok b) -> exists r, mapM f l = Ok r.
Proof.
  induction l as [|a l IH]; intros H; [now exists []|]. destruct (H a (or_introl Logic.eq_refl)) as [b Hb].
  destruct IH as [r Hr]; [intros; apply H; now right|]. exists (b :: r). cbn. now rewrite Hb, Hr.
Qed.
Lemma port_expression_ok e : check_port_expression e = Ok tt <-> (forall x, value_node x e -> own_term x).
Proof.
  induction e using expr_ind'; cbn [check_port_expression].
  all: try (split; [intros _ x Hx; inversion Hx; subst; exact I|reflexivity]).
  all: try (split; [discriminate|intros Hx; destruct (Hx _ (vn_here _))]).
  all: try (rewrite IHe1 || rewrite IHe); try (split; [intros Hv x Hx; inversion Hx; subst; [exact I|now apply Hv]|intros Hv x Hx; apply Hv; now constructor]).
  - rewrite Forall_forall in H. split.
    + intros Hc x Hx. apply bind_ok in Hc. destruct Hc as [r [Hc _]]. inversion Hx; subst; [exact I|].
      apply mapM_ok in Hc. destruct (Forall2_In_l _ _ _ a Hc H1) as [[] [_ Ha]]. exact (proj1 (H a H1) Ha x H2).
    + intros Hv. destruct (mapM_some check_port_expression l) as [r Hr].
      * intros a Ha. exists tt. apply (H a Ha). intros x Hx. apply Hv. exact (vn_add x l a Ha Hx).
      * rewrite Hr. reflexivity.
  - split.
    + intros Hc x Hx. apply bind_ok in Hc. destruct Hc as [[] [H1 H2]]. inversion Hx; subst; [exact I| |]; [now apply IHe1|now apply IHe2].
    + intros Hv. rewrite (proj2 IHe1) by (intros x Hx; apply Hv; now constructor). cbn.
      apply IHe2. intros x Hx. apply Hv. now apply vn_mul_r.
  - split.
    + intros Hc x Hx. apply bind_ok in Hc. destruct Hc as [[] [H1 H2]]. inversion Hx; subst; [exact I| |]; [now apply IHe1|now apply IHe2].
    + intros Hv. rewrite (proj2 IHe1) by (intros x Hx; apply Hv; now constructor). cbn.
      apply IHe2. intros x Hx. apply Hv. now apply vn_div_r.
Qed.
Lemma port_expression_cases e : check_port_expression e = Ok tt \/ check_port_expression e = Err ValueError.
Proof.
  induction e using expr_ind'; cbn [check_port_expression]; auto.
  - assert (A : forall l, Forall (fun e => check_port_expression e = Ok tt \/ check_port_expression e = Err ValueError) l ->
      (exists r, mapM check_port_expression l = Ok r) \/ mapM check_port_expression l = Err ValueError).
    { clear. induction 1 as [|a l Ha Hl IH]; [left; now exists []|]. cbn.
      destruct Ha as [-> | ->]; [|now right]. cbn. destruct IH as [[r ->]| ->]; [left; cbn; eauto|now right]. }
    destruct (A l H) as [[r ->]| ->]; cbn; auto.
  - destruct IHe1 as [-> | ->]; cbn; auto.
  - destruct IHe1 as [-> | ->]; cbn; auto.
Qed.
Lemma port_definition port field e d : mk_port_field_def port field e = Ok d <->
  (forall x, value_node x e -> own_term x) /\ d = {| d_field := (port, field); d_definition := e |}.
Proof.
  unfold mk_port_field_def. rewrite <- port_expression_ok. destruct (port_expression_cases e) as [-> | ->]; cbn.
  - split; [intros [= <-]; auto|intros [_ ->]; reflexivity].
  - split; [discriminate|]. intros [H _]. discriminate H.
Qed.
Lemma port_definition_refused port field e x : value_node x e -> ~ own_term x -> mk_port_field_def port field e = Err ValueError.
Proof.
  intros Hx Ho. unfold mk_port_field_def. destruct (port_expression_cases e) as [E|E]; rewrite E; [|reflexivity].
  exfalso. apply Ho. apply (proj1 (port_expression_ok e) E x Hx).
Qed.

(** ** Variables *)
Lemma max_zeros ds : ds <> [] -> (forall d, In d ds -> d = 0%nat) -> py_max ds = Ok 0%nat.
Proof.
  destruct ds as [|d ds]; [congruence|]. intros _ H. cbn. f_equal. rewrite (H d) by now left.
  assert (A : forall l a, (forall d, In d l -> d = 0%nat) -> a = 0%nat -> fold_left Nat.max l a = 0%nat).
  { clear. induction l as [|x l IH]; cbn; auto. intros a Hl ->. apply IH; auto. }
  apply A; auto. intros x Hx. apply H. now right.
Qed.

Lemma all_nodes_in P l a : fold_right (fun x acc => all_nodes P x /\ acc) True l -> In a l -> all_nodes P a.
Proof. induction l as [|x l IH]; cbn; [tauto|]. intros [H1 H2] [<-|H]; auto. Qed.
Lemma fixed_degree e : no_variable_left e -> compute_degree e = Ok 0%nat.
Proof.
  unfold no_variable_left. induction e using expr_ind'; intros [Hh Hn]; cbn [compute_degree] in *; auto; try contradiction.
  - rewrite Forall_forall in H.
    assert (Hr : exists r, mapM compute_degree l = Ok r).
    { apply mapM_some. intros a Ha. exists 0%nat. apply H; auto. eapply all_nodes_in; eauto. }
    destruct Hr as [r Hr]. rewrite Hr. cbn. apply mapM_ok in Hr. apply max_zeros.
    + intros ->. inversion Hr; subst. exact Hh.
    + intros d Hd. assert (A : exists a, In a l /\ compute_degree a = Ok d).
      { clear - Hr Hd. induction Hr; cbn in *; [tauto|]. destruct Hd as [<-|Hd]; [eauto|]. destruct (IHHr Hd) as (a & A1 & A2). eauto. }
      destruct A as (a & Ha & Ed). rewrite (H a Ha) in Ed; [now injection Ed|]. eapply all_nodes_in; eauto.
  - destruct Hn as [H1 H2]. rewrite IHe1, IHe2; auto.
  - destruct Hn as [H1 H2]. rewrite IHe1, IHe2; auto.
  - destruct Hn as [H1 H2]. rewrite IHe1, IHe2; auto.
  - destruct Hn as [H1 H2]. rewrite IHe1; auto.
  - destruct Hn as [H1 H2]. rewrite IHe1; auto.
  - destruct Hn as [H1 H2]. rewrite IHe1; auto.
  - destruct o; try contradiction; cbn; rewrite IHe; auto.
Qed.
Lemma fixed_constant e : no_variable_left e -> is_constant e = Ok true.
Proof. intros H. unfold is_constant. now rewrite (fixed_degree e H). Qed.
Lemma variable_bounds n ty lb ub st ctx v : mk_variable n ty lb ub st ctx = Ok v ->
  v = {| v_name := n; v_type := ty; v_lower := lb; v_upper := ub; v_structure := st; v_context := ctx |} /\
  forall e, lb = Some e \/ ub = Some e -> var_free_time_args e ->
  forall E E', same_data E E' -> forall t s, den E e t s = den E' e t s.
Proof.
  unfold mk_variable. intros H. apply bind_ok in H. destruct H as [[] [Hl H]]. apply bind_ok in H. destruct H as [[] [Hu H]].
  injection H as <-. split; [reflexivity|]. intros e He Hv E E' HE t s. apply is_constant_den; auto.
  assert (A : check_variable_bound (Some e) = Ok tt) by (destruct He as [-> | ->]; assumption).
  cbn in A. destruct (is_constant e) as [[|]|]; cbn in A; congruence.
Qed.
Lemma variable_accepted n ty lb ub st ctx :
  (forall e, lb = Some e \/ ub = Some e -> no_variable_left e) ->
  mk_variable n ty lb ub st ctx =
    Ok {| v_name := n; v_type := ty; v_lower := lb; v_upper := ub; v_structure := st; v_context := ctx |}.
Proof.
  intros H. assert (A : forall b, (forall e, b = Some e -> no_variable_left e) -> check_variable_bound b = Ok tt).
  { intros [e|] Hb; [|reflexivity]. cbn. rewrite (fixed_constant e (Hb e Logic.eq_refl)). reflexivity. }
  unfold mk_variable. rewrite !A by auto. reflexivity.
Qed.

(** ** Models *)
Lemma objective_checked ps vs e : check_objective ps vs (Some e) = Ok tt ->
  is_linear e = Ok true /\ compute_indexation (model_structure_provider ps vs) e = Ok {| ix_time := false; ix_scenario := false |}.
Proof.
  cbn [check_objective]. intros H. apply bind_ok in H. destruct H as [[|] [Hl H]]; cbn in H; [|discriminate].
  split; [exact Hl|]. apply bind_ok in H. destruct H as [[[|] [|]] [Hi H]]; cbn in H; try discriminate. exact Hi.
Qed.
Lemma make_model_objectives id cs bcs ps vs op inv dyn ports defs m :
  make_model id cs bcs ps vs op inv dyn ports defs = Ok m ->
  forall e, m_operational m = Some e \/ m_investment m = Some e ->
  is_linear e = Ok true /\
  compute_indexation (model_structure_provider (m_parameters m) (m_variables m)) e = Ok {| ix_time := false; ix_scenario := false |}.
Proof.
  unfold make_model, check_model. intros H e He. apply bind_ok in H. destruct H as [pd [_ H]].
  apply bind_ok in H. destruct H as [[] [H1 H]]. apply bind_ok in H. destruct H as [[] [H2 H]].
  apply bind_ok in H. destruct H as [? [_ H]]. injection H as <-. cbn in He |- *. cbn in H1, H2.
  apply objective_checked. destruct He as [-> | ->]; assumption.
Qed.
Lemma model_world_respects m E : model_world m E -> respects (model_structure_provider (m_parameters m) (m_variables m)) E.
Proof.
  intros [Hv Hp]. unfold respects. cbn. split; [|split; [|split]]; try (intros; discriminate).
  - intros n ix H. unfold dict_structure in H. destruct (dget String.eqb n (m_variables m)) as [v|] eqn:Ed; [|discriminate].
    injection H as <-. exact (Hv n v Ed).
  - intros n ix H. unfold dict_structure in H. destruct (dget String.eqb n (m_parameters m)) as [v|] eqn:Ed; [|discriminate].
    injection H as <-. exact (Hp n v Ed).
Qed.
Lemma objectives_affine id cs bcs ps vs op inv dyn ports defs m e :
  make_model id cs bcs ps vs op inv dyn ports defs = Ok m -> m_operational m = Some e \/ m_investment m = Some e ->
  var_free_time_args e ->
  forall lam E0 E1 E, interpolates lam E0 E1 E -> forall t s a b, den E0 e t s = Some a -> den E1 e t s = Some b ->
  den E e t s = Some ((1 - lam) * a + lam * b)%Qc.
Proof.
  intros H He Hv lam E0 E1 E HI. apply is_linear_den; auto. now apply (make_model_objectives _ _ _ _ _ _ _ _ _ _ _ H).
Qed.
Lemma objectives_real id cs bcs ps vs op inv dyn ports defs m e :
  make_model id cs bcs ps vs op inv dyn ports defs = Ok m -> m_operational m = Some e \/ m_investment m = Some e ->
  forall E, model_world m E -> fixed_time_args E e -> forall t s t' s', den E e t s = den E e t' s'.
Proof.
  intros H He E HE HF t s t' s'. destruct (make_model_objectives _ _ _ _ _ _ _ _ _ _ _ H e He) as [_ Hi].
  destruct (indexation_sound _ _ _ (model_world_respects m E HE) HF _ Hi) as [A B]. cbn in A, B.
  rewrite (A eq_refl t t' s). apply (B eq_refl).
Qed.
Lemma check_objective_ok ps vs e : real_valued_linear ps vs e ->
  check_objective (dict_of String.eqb p_name ps) (dict_of String.eqb v_name vs) (Some e) = Ok tt.
Proof. intros (H1 & H2 & H3 & H4). cbn. rewrite H1. cbn. rewrite (indexation_exact _ _ H2), H3, H4. reflexivity. Qed.
Lemma model_accepted id cs bcs ps vs op inv dyn ports defs :
  NoDup (map mp_name ports) -> (forall d, In d defs -> about_port ports d) ->
  (forall e, op = Some e \/ inv = Some e -> real_valued_linear ps vs e) ->
  exists m, make_model id cs bcs ps vs op inv dyn ports defs = Ok m /\ m_id m = id /\ m_inter_block_dyn m = dyn /\
    m_operational m = op /\ m_investment m = inv /\ m_ports m = map (fun p => (mp_name p, p)) ports /\
    m_constraints m = dict_of String.eqb c_name cs /\ m_binding_constraints m = dict_of String.eqb c_name bcs /\
    m_parameters m = dict_of String.eqb p_name ps /\ m_variables m = dict_of String.eqb v_name vs /\
    m_port_definitions m = dict_of pfi_eqb d_field defs.
Proof.
  intros Np Hd Ho. unfold make_model, check_model.
  pose proof (unique_ports_spec ports []) as [U _]. rewrite (U (conj Np (fun _ _ F => F))). cbn [app bind].
  cbn [m_parameters m_variables m_operational m_investment m_ports m_port_definitions].
  assert (A : forall o, (forall e, o = Some e -> real_valued_linear ps vs e) ->
    check_objective (dict_of String.eqb p_name ps) (dict_of String.eqb v_name vs) o = Ok tt).
  { intros [e|] He; [apply check_objective_ok; auto|reflexivity]. }
  rewrite !A by auto. cbn [bind].
  destruct (mapM_some (fun kd : port_field_id * port_field_def => check_definition (map (fun p => (mp_name p, p)) ports) (snd kd))
    (dict_of pfi_eqb d_field defs)) as [r Hr].
  { intros [k d] Hk. exists tt. cbn. apply check_definition_ok.
    destruct (dict_of_named pfi_eqb d_field pfi_eqb_eq defs) as [Nd _].
    destruct (dict_of_from pfi_eqb d_field pfi_eqb_eq defs k d (In_dget_nodup pfi_eqb pfi_eqb_eq k d _ Nd Hk)) as [Hin _].
    destruct (Hd d Hin) as (p & Hp & Hn & Hf). exists p. split; [|exact Hf].
    apply (In_dget_nodup String.eqb String.eqb_eq).
    - rewrite map_map. cbn. exact Np.
    - apply in_map_iff. exists p. rewrite Hn. auto. }
  rewrite Hr. cbn. eexists. split; [reflexivity|]. cbn. intuition reflexivity.
Qed.
Lemma same_port_refused id cs bcs ps vs op inv dyn ports defs :
  ~ NoDup (map mp_name ports) -> make_model id cs bcs ps vs op inv dyn ports defs = Err ValueError.
Proof.
  intros Np. unfold make_model.
  assert (A : forall l seen, (exists r, unique_ports seen l = Ok r) \/ unique_ports seen l = Err ValueError).
  { induction l as [|p l IH]; intros seen; cbn; [left; eauto|]. destruct (dmem _ _ _); auto. }
  destruct (A ports []) as [[r Hr]| ->]; [|reflexivity].
  exfalso. apply Np. now apply (proj2 (unique_ports_spec ports []) r).
Qed.
Lemma made_proper id cs bcs ps vs op inv dyn ports defs m :
  make_model id cs bcs ps vs op inv dyn ports defs = Ok m -> proper_model m.
Proof.
  intros H. destruct (make_model_named _ _ _ _ _ _ _ _ _ _ _ H) as [(N1 & N2 & N3 & N4 & N5 & N6) _].
  unfold named_dict in *. unfold proper_model. tauto.
Qed.
Lemma definitions_about_ports id cs bcs ps vs op inv dyn ports defs m :
  make_model id cs bcs ps vs op inv dyn ports defs = Ok m -> forall d, In d defs -> about_port ports d.
Proof.
  intros H d Hd. destruct (make_model_named _ _ _ _ _ _ _ _ _ _ _ H) as [_ D].
  unfold make_model, check_model in H. apply bind_ok in H. destruct H as [pd [Hu H]].
  apply bind_ok in H. destruct H as [[] [_ H]]. apply bind_ok in H. destruct H as [[] [_ H]].
  apply bind_ok in H. destruct H as [? [_ H]]. injection H as <-. unfold definitions_on_ports in D. cbn in D.
  pose proof (unique_ports_spec ports []) as [U1 U2]. destruct (U2 _ Hu) as [N _].
  rewrite (U1 (conj N (fun _ _ F => F))) in Hu. injection Hu as <-.
  destruct (dict_of_has pfi_eqb d_field pfi_eqb_eq defs (d_field d) (in_map d_field _ _ Hd)) as [d' Hd'].
  destruct (dict_of_from pfi_eqb d_field pfi_eqb_eq defs _ _ Hd') as [_ Ek].
  apply (dget_In pfi_eqb pfi_eqb_eq) in Hd'.
  destruct (D _ _ Hd') as (p & Hp & E1 & E2). cbn in Hp. rewrite map_map in Hp. cbn in Hp. rewrite map_id in Hp.
  exists p. rewrite <- Ek. auto.
Qed.
