(** What a run of a study needs: models, readable data, a value for every parameter. *)
From Coq Require Import Lia.
From Verif Require Import Base BaseFacts Expr Visitors Parse SpecParse LexFacts LinearExpr Model Study Strategy Optim System Library
  Main SpecExpr SpecModel SpecLibrary LibraryFacts SpecSystem SystemFacts SpecLinear SpecOptim OptimFacts SpecMain MainFacts.
Local Open Scope string_scope.
Local Open Scope list_scope.

Lemma run_steps order libs sys files T S o st : main_cli order libs sys files T S = Ok (o, st) ->
  exists out s db n, input_libs order libs = Ok out /\ resolve_system sys out = Ok s /\
    build_data_base files sys = Ok db /\ build_network s = Ok n /\ o = main_settings n db T S /\ build_problem o = Ok st.
Proof.
  intros H. unfold main_cli in H. inv_bind H. inv_bind H. inv_bind H. inv_bind H. inv_bind H. inv_bind H.
  injection H as <- <-. exists v, v0, v2, v3. repeat split; first [assumption|reflexivity].
Qed.
Lemma stands_model order libs out e c : any_order order -> NoDup (map yl_id libs) -> resolve_library order libs [] = Ok out -> stands_as out e c ->
  exists m, file_model libs (ic_model e) = Some m /\ exists pts, resolve_model pts m = Ok (co_model c).
Proof.
  intros Ord N Rl [_ (a & b & lib & E & Da & Db & G1 & G2)].
  assert (Ha : In a (map yl_id libs)).
  { destruct (returned_keys libs [] order Ord N out Rl) as [_ K].
    destruct (proj1 (K a)) as [X|X]; [|exact X|destruct X]. apply (dget_In String.eqb String.eqb_eq) in G1.
    now apply (in_map fst) in G1. }
  apply in_map_iff in Ha. destruct Ha as (y & Ey & Hy).
  destruct (returned_library libs [] order Ord N out Rl y Hy) as (l & Gl & _ & _ & _ & Nm & ms & Ms & El).
  assert (l = lib) by (rewrite Ey in Gl; congruence). subst lib.
  assert (Hb : In b (map ym_id (yl_models y))).
  { apply mapM_ok in Ms. rewrite El in G2. apply (dict_of_from String.eqb m_id String.eqb_eq) in G2. destruct G2 as [G2 E2].
    destruct (Forall2_In_r _ _ _ _ Ms G2) as (m & Hm & Rm). apply resolve_model_parts in Rm. rewrite <- E2, (mo_id _ _ _ Rm).
    now apply in_map. }
  apply in_map_iff in Hb. destruct Hb as (m & Em & Hm).
  destruct (returned_model libs [] order Ord N out Rl y m Hy Hm) as (l' & M & Gl' & GM & RM & _).
  assert (l' = l) by congruence. subst l'. rewrite Em in GM. assert (M = co_model c) by congruence. subst M.
  exists m. split; [|eauto]. unfold file_model.
  assert (Ht : forall ym, In ym (flat_map (fun y => map (pair y) (yl_models y)) libs) ->
    String.eqb (ic_model e) (yl_id (fst ym) ++ "." ++ ym_id (snd ym)) = true -> ym = (y, m)).
  { intros [y' m'] Hin Hq. apply in_flat_map in Hin. destruct Hin as (y2 & Hy2 & Hin). apply in_map_iff in Hin.
    destruct Hin as (m2 & [= -> ->] & Hm2). apply String.eqb_eq in Hq. cbn [fst snd] in Hq. rewrite E in Hq. symmetry in Hq.
    destruct (one_dot _ _ _ _ Da Db Hq) as [E1 E2].
    assert (y' = y) by (apply (NoDup_map_inj_in yl_id libs); auto; congruence). subst y'. f_equal.
    apply (NoDup_map_inj_in ym_id (yl_models y)); auto. congruence. }
  destruct (find _ _) as [ym|] eqn:F.
  - apply find_some in F. destruct F as [F1 F2]. rewrite (Ht _ F1 F2). reflexivity.
  - exfalso. pose proof (find_none _ _ F (y, m)) as X. cbn [fst snd] in X. rewrite Ey, Em, <- E in X.
    rewrite String.eqb_refl in X. assert (true = false); [|discriminate]. apply X. apply in_flat_map. exists y.
    split; [exact Hy|]. now apply in_map.
Qed.

Section Needs.
  Context (order : list string -> list string -> list string -> list string) (libs : list in_library) (sys : input_system)
    (files : string -> result frame) (T S : Z) (o : settings) (st : state).
  Hypothesis Ord : any_order order.
  Hypothesis Run : main_cli order libs sys files T S = Ok (o, st).
  Lemma run_models e : In e (all_inputs sys) -> exists m, file_model libs (ic_model e) = Some m.
  Proof.
    intros He. destruct (run_steps _ _ _ _ _ _ _ _ Run) as (out & s & db & n & H1 & H2 & _).
    apply input_libs_ok in H1. destruct H1 as [N Rl]. unfold resolve_system in H2. inv_bind H2. inv_bind H2.
    apply resolve_components_ok in H, H0.
    assert (X : exists c, stands_as out e c).
    { apply in_app_or in He. destruct He as [He|He].
      - destruct (Forall2_In_l _ _ _ _ H He) as (c & _ & Hc). eauto.
      - destruct (Forall2_In_l _ _ _ _ H0 He) as (c & _ & Hc). eauto. }
    destruct X as (c & Hc). destruct (stands_model order libs out e c Ord N Rl Hc) as (m & Hm & _). eauto.
  Qed.
  Lemma run_files e p : In e (all_inputs sys) -> In p (parameters_of e) -> acceptable files p.
  Proof.
    intros He Hp. destruct (run_steps _ _ _ _ _ _ _ _ Run) as (out & s & db & n & _ & _ & H3 & _).
    exact (proj1 (plain_accepts files sys) (ex_intro _ db H3) e p He Hp).
  Qed.
  Lemma run_requirements e m q : NoDup (input_ids sys) -> In e (is_components sys) -> file_model libs (ic_model e) = Some m ->
    In q (ym_parameters m) -> NoDup (map yp_id (ym_parameters m)) -> exists d, get_data (o_database o) (ic_id e) (yp_id q) = Ok d /\
      check_requirement d (yp_time q) (yp_scenario q) = true.
  Proof.
    intros D He Hm Hq Nq. destruct (run_steps _ _ _ _ _ _ _ _ Run) as (out & s & db & n & H1 & H2 & H3 & H4 & -> & H6).
    apply input_libs_ok in H1. destruct H1 as [N Rl].
    destruct (network_of_file sys out s n D H2 H4) as (_ & _ & Fc & _).
    destruct (Forall2_In_l _ _ _ _ Fc He) as (c & Hc & Hs). destruct (stands_model order libs out e c Ord N Rl Hs) as (m' & Hm' & pts & Rm).
    assert (m' = m) by congruence. subst m'. apply in_map_iff in Hc as ([k c'] & Ec & Hc). cbn [snd] in Ec. subst c'.
    unfold build_problem in H6. inv_bind H6. unfold requirements_consistency in H. inv_bind H. apply mapM_ok in H0.
    destruct (Forall2_In_l _ _ _ _ H0 Hc) as (u & _ & Hu). cbn [snd] in Hu. unfold check_component_data in Hu. inv_bind Hu. apply mapM_ok in H1.
    assert (Hin : In (yp_id q, to_parameter q) (m_parameters (co_model c))).
    { apply resolve_model_parts in Rm. rewrite (mo_parameters _ _ _ Rm).
      assert (F : Forall2 (fun y kv => fst kv = yp_id y /\ snd kv = to_parameter y) (ym_parameters m) (dict_of String.eqb p_name (map to_parameter (ym_parameters m)))).
      { refine (listed_dict String.eqb String.eqb_eq (fun y v => v = to_parameter y) yp_id p_name _ _ _ _ Nq).
        - intros y a ->. reflexivity.
        - clear. induction (ym_parameters m); constructor; auto. }
      destruct (Forall2_In_l _ _ _ _ F Hq) as ([k' v'] & Hk & E1 & E2). cbn in E1, E2. now subst. }
    destruct (Forall2_In_l _ _ _ _ H1 Hin) as (w & _ & Hw). cbn [snd] in Hw. inv_bind Hw. exists v2.
    destruct Hs as [Hs _]. rewrite Hs in H5. split; [exact H5|]. cbn [to_parameter p_name] in Hw.
    assert (Nd : NoDup (map fst (m_parameters (co_model c)))) by (apply resolve_model_parts in Rm; rewrite (mo_parameters _ _ _ Rm); apply dict_of_keys).
    rewrite (In_dget_nodup String.eqb String.eqb_eq _ _ _ Nd Hin) in Hw. cbn [to_parameter p_structure ix_time ix_scenario] in Hw.
    destruct (check_requirement v2 (yp_time q) (yp_scenario q)); [reflexivity|discriminate].
  Qed.
  Lemma run_given e m q : NoDup (input_ids sys) -> In e (is_components sys) -> file_model libs (ic_model e) = Some m ->
    In q (ym_parameters m) -> NoDup (map yp_id (ym_parameters m)) -> exists p, In p (parameters_of e) /\ ip_id p = yp_id q /\
      (NoDup (parameter_keys (all_inputs sys)) -> (ip_time p = true -> yp_time q = true) /\ (ip_scenario p = true -> yp_scenario q = true)).
  Proof.
    intros D He Hm Hq Nq. destruct (run_requirements e m q D He Hm Hq Nq) as (d & Hd & Hr).
    destruct (run_steps _ _ _ _ _ _ _ _ Run) as (out & s & db & n & _ & _ & H3 & _ & E & _). rewrite E in Hd. cbn [o_database main_settings] in Hd.
    assert (K : In (ic_id e, yp_id q) (parameter_keys (all_inputs sys))).
    { assert (dec : forall a b : string * string, {a = b} + {a <> b}) by (decide equality; apply string_dec).
      destruct (in_dec dec (ic_id e, yp_id q) (parameter_keys (all_inputs sys))) as [H|H]; [exact H|].
      rewrite (plain_absent files sys db _ _ H3 H) in Hd. discriminate. }
    apply in_flat_map in K as (e' & He' & K). apply in_map_iff in K as (p & [= Ei Ep] & Hp).
    assert (Hall : In e (all_inputs sys)) by (apply in_or_app; now left).
    assert (Nd : NoDup (map ic_id (all_inputs sys))) by (unfold all_inputs; rewrite map_app; exact D).
    assert (e' = e) by (apply (NoDup_map_inj_in ic_id (all_inputs sys)); assumption). subst e'.
    exists p. split; [exact Hp|]. split; [exact Ep|]. intros Np.
    destruct (plain_data files sys db e p H3 Np Hall Hp) as (d' & Hb & Hg). rewrite Ep in Hg. assert (d' = d) by congruence. subst d'.
    unfold build_data in Hb. destruct (ip_value p) as [v|name].
    - destruct (ip_time p), (ip_scenario p); try discriminate. split; discriminate.
    - inv_bind Hb. destruct (ip_time p), (ip_scenario p); cbn [andb] in Hb.
      + injection Hb as <-. cbn in Hr. apply andb_true_iff in Hr. tauto.
      + inv_bind Hb. injection Hb as <-. cbn in Hr. split; [auto|discriminate].
      + inv_bind Hb. injection Hb as <-. cbn in Hr. split; [discriminate|auto].
      + discriminate.
  Qed.
End Needs.
