(** The connections of a system that runs. *)
From Coq Require Import Lia.
From Verif Require Import Base BaseFacts Expr Visitors Parse SpecParse LinearExpr Model Study Strategy Optim System Library
  Main SpecExpr SpecModel ModelFacts SpecLibrary LibraryFacts SpecSystem SystemFacts SpecLinear SpecOptim OptimFacts SpecMain SpecRun MainFacts MainNeeds.
Local Open Scope string_scope.
Local Open Scope list_scope.

Lemma stands_refers order libs out e c : any_order order -> NoDup (map yl_id libs) -> resolve_library order libs [] = Ok out -> stands_as out e c ->
  exists y m l, refers libs (ic_model e) y m /\ resolve_model (l_port_types l) m = Ok (co_model c) /\
    forall k t, dget String.eqb k (l_port_types l) = Some t -> usable libs [] (yl_id y) k t.
Proof.
  intros Ord N Rl [_ (a & b & lib & E & Da & Db & G1 & G2)].
  assert (Ha : In a (map yl_id libs)).
  { destruct (returned_keys libs [] order Ord N out Rl) as [_ K].
    destruct (proj1 (K a)) as [X|X]; [|exact X|destruct X]. apply (dget_In String.eqb String.eqb_eq) in G1.
    now apply (in_map fst) in G1. }
  apply in_map_iff in Ha. destruct Ha as (y & Ey & Hy).
  destruct (returned_library libs [] order Ord N out Rl y Hy) as (l & Gl & _ & _ & _ & Nm & ms & Ms & El).
  assert (l = lib) by (rewrite Ey in Gl; congruence). subst lib.
  assert (Hb : In b (map ym_id (yl_models y))).
  { apply mapM_ok in Ms. rewrite El in G2. apply (dict_of_from String.eqb m_id String.eqb_eq) in G2. destruct G2 as [G2 E2].
    destruct (Forall2_In_r _ _ _ _ Ms G2) as (m & Hm & Rm). apply resolve_model_parts in Rm. rewrite <- E2, (mo_id _ _ _ Rm).
    now apply in_map. }
  apply in_map_iff in Hb. destruct Hb as (m & Em & Hm).
  destruct (returned_model libs [] order Ord N out Rl y m Hy Hm) as (l' & M & Gl' & GM & RM & U & _).
  assert (l' = l) by congruence. subst l'. rewrite Em in GM. assert (M = co_model c) by congruence. subst M.
  exists y, m, l. split; [|auto]. split; [exact Hy|]. split; [exact Hm|]. rewrite Ey, Em. auto.
Qed.

Lemma model_defines pts m M p f : resolve_model pts m = Ok M -> In (p, f) (map fst (m_port_definitions M)) <-> has_definition m p f.
Proof.
  intros R. apply resolve_model_parts in R. destruct (mo_definitions _ _ _ R) as (ds & F & ->). split.
  - intros H. apply in_map_iff in H. destruct H as ([k d] & Ek & H). cbn in Ek. subst k.
    pose proof (dict_of_named pfi_eqb d_field pfi_eqb_eq ds) as [Nd _].
    apply (In_dget_nodup pfi_eqb pfi_eqb_eq) in H; [|exact Nd]. apply (dict_of_from pfi_eqb d_field pfi_eqb_eq) in H. destruct H as [H Ek].
    destruct (Forall2_In_r _ _ _ _ F H) as (y & Hy & X). exists y. split; [exact Hy|]. rewrite (definition_name _ _ _ X) in Ek.
    injection Ek as E1 E2. auto.
  - intros (y & Hy & <- & <-). destruct (Forall2_In_l _ _ _ _ F Hy) as (d & Hd & X). apply definition_name in X.
    assert (K : In (yd_port y, yd_field y) (map d_field ds)) by (rewrite <- X; now apply in_map).
    apply (dict_of_has pfi_eqb d_field pfi_eqb_eq) in K. destruct K as [d' K]. apply (dget_In pfi_eqb pfi_eqb_eq) in K.
    exact (in_map fst _ _ K).
Qed.

Lemma model_named_of pts m M : resolve_model pts m = Ok M -> named_model M /\ definitions_on_ports M.
Proof.
  intros R. unfold resolve_model in R. cbv zeta in R. do 6 (apply bind_ok in R; destruct R as [? [_ R]]).
  exact (make_model_named _ _ _ _ _ _ _ _ _ _ _ R).
Qed.

Section Connections.
  Context (order : list string -> list string -> list string -> list string) (libs : list in_library) (sys : input_system)
    (files : string -> result frame) (T S : Z) (o : settings) (st : state).
  Hypothesis Ord : any_order order.
  Hypothesis Run : main_cli order libs sys files T S = Ok (o, st).
  Lemma run_connections k : In k (is_connections sys) -> text_connectable libs sys k.
  Proof.
    intros Hk. destruct (run_steps _ _ _ _ _ _ _ _ Run) as (out & s & db & n & H1 & H2 & _).
    apply input_libs_ok in H1. destruct H1 as [N Rl]. unfold resolve_system in H2. inv_bind H2. inv_bind H2. inv_bind H2.
    apply resolve_components_ok in H, H0. apply mapM_ok in H1. destruct (Forall2_In_l _ _ _ _ H1 Hk) as (c & _ & Hc).
    apply resolve_connection_some in Hc. destruct Hc as [(E1 & E2 & E3 & E4 & I1 & I2) Mk].
    assert (X : forall c, In c (v ++ v0) -> exists e, In e (all_inputs sys) /\ stands_as out e c).
    { intros c' Hc. apply in_app_or in Hc. destruct Hc as [Hc|Hc].
      - destruct (Forall2_In_r _ _ _ _ H Hc) as (e & He & Q). exists e. split; [apply in_or_app; now left|exact Q].
      - destruct (Forall2_In_r _ _ _ _ H0 Hc) as (e & He & Q). exists e. split; [apply in_or_app; now right|exact Q]. }
    destruct (X _ I1) as (e1 & He1 & S1), (X _ I2) as (e2 & He2 & S2).
    destruct (stands_refers order libs out e1 _ Ord N Rl S1) as (y1 & m1 & l1 & F1 & R1 & U1).
    destruct (stands_refers order libs out e2 _ Ord N Rl S2) as (y2 & m2 & l2 & F2 & R2 & U2).
    pose proof (proj1 (model_named_of _ _ _ R1)) as N1. pose proof (proj1 (model_named_of _ _ _ R2)) as N2.
    assert (Cp : compatible (pc_port1 c) (pc_port2 c)) by (apply (connection_iff _ _ N1 N2); eauto).
    destruct Cp as (p1 & p2 & P1 & P2 & Et & D).
    assert (Y : forall y m l M e r p, refers libs (ic_model e) y m -> resolve_model (l_port_types l) m = Ok M -> co_model (pr_component r) = M ->
      (forall k t, dget String.eqb k (l_port_types l) = Some t -> usable libs [] (yl_id y) k t) -> In e (all_inputs sys) ->
      has_port r p -> entry_port libs sys (ic_id e) (pr_port r) y m (mp_type p)).
    { intros y m l M e r p F R EM U He P. unfold has_port in P. rewrite EM in P. apply resolve_model_parts in R.
      destruct (mo_ports _ _ _ R) as (ps & Fp & Ep & _). rewrite Ep in P. apply in_map_iff in P. destruct P as (p' & [= En ->] & Hp).
      destruct (Forall2_In_r _ _ _ _ Fp Hp) as (q & Hq & Xq). unfold resolve_model_port in Xq.
      destruct (dget String.eqb (yo_type q) (l_port_types l)) as [t|] eqn:Dt; [|discriminate]. injection Xq as <-.
      exists e, q. split; [exact He|]. split; [reflexivity|]. split; [exact F|]. split; [exact Hq|]. split; [exact En|]. now apply U. }
    exists y1, m1, y2, m2, (mp_type p1). rewrite <- E1, <- E2, <- E3, <- E4, (proj1 S1), (proj1 S2). split; [|split].
    - exact (Y y1 m1 l1 _ e1 _ p1 F1 R1 eq_refl U1 He1 P1).
    - rewrite Et. exact (Y y2 m2 l2 _ e2 _ p2 F2 R2 eq_refl U2 He2 P2).
    - intros f Hf. destruct (D f Hf) as [[A B]|[A B]]; [left|right]; split.
      + now apply (model_defines _ _ _ _ _ R1).
      + intros Z. apply B. now apply (model_defines _ _ _ _ _ R2).
      + intros Z. apply A. now apply (model_defines _ _ _ _ _ R1).
      + now apply (model_defines _ _ _ _ _ R2).
  Qed.
End Connections.
