(** Degree and indexing (C05, C06, C07). *)
From Coq Require Import Lia Permutation.
From Verif Require Import Base Expr Visitors BaseFacts SpecExpr SpecSyntax SpecVisitors ExprFacts CopyFacts VisitorFacts.

(** ** C05 *)
Lemma no_variable_den E E' e :
  same_data E E' -> no_variable_or_port e -> forall t s, den E e t s = den E' e t s.
Proof.
  intros (Hp & Hcp & HT & HS). unfold no_variable_or_port. induction e using expr_ind'; intros HN t s.
  3:{ apply all_nodes_Add in HN. destruct HN as [_ HN]. cbn [den]. f_equal.
      apply map_ext_in. intros x Hx. rewrite Forall_forall in H, HN. auto. }
  all: cbn [all_nodes] in HN; try tauto; cbn [den]; auto.
  - now rewrite IHe.
  - now rewrite IHe1, IHe2.
  - now rewrite IHe1, IHe2.
  - rewrite IHe2 by tauto. destruct (oint _); auto. now rewrite IHe1.
  - rewrite IHe2 by tauto. destruct (oint _); auto. now rewrite IHe1.
  - rewrite IHe2, IHe3 by tauto. destruct (oint _); auto. destruct (oint _); auto.
    f_equal. apply map_ext. intros i. now rewrite IHe1.
  - rewrite HT. f_equal. apply map_ext. intros i. now rewrite IHe.
  - rewrite HS.
    assert (Hm : map (fun i : Z => den E e t i) (zrange 0 (e_S E')) =
                 map (fun i : Z => den E' e t i) (zrange 0 (e_S E'))).
    { apply map_ext. intros i. now rewrite IHe. }
    destruct o; now rewrite ?Hm.
Qed.

Lemma fold_max_0 l : forall x, fold_left Nat.max l x = 0%nat <-> x = 0%nat /\ Forall (fun d => d = 0%nat) l.
Proof.
  induction l as [|a l IH]; intros x; cbn [fold_left].
  - split; [auto | tauto].
  - rewrite IH. split.
    + intros [H1 H2]. split; [lia|]. constructor; auto. lia.
    + intros [-> H]. inversion H; subst. split; auto.
Qed.
Lemma fold_max_le l n : forall x, (fold_left Nat.max l x <= n)%nat <-> (x <= n)%nat /\ Forall (fun d => d <= n)%nat l.
Proof.
  induction l as [|a l IH]; intros x; cbn [fold_left].
  - split; [auto | tauto].
  - rewrite IH. split.
    + intros [H1 H2]. split; [lia|]. constructor; auto. lia.
    + intros [Hx H]. inversion H; subst. split; auto. lia.
Qed.

Lemma py_max_le l m n : py_max l = Ok m -> ((m <= n)%nat <-> Forall (fun d => d <= n)%nat l).
Proof.
  destruct l as [|x l]; cbn; [discriminate|]. intros H. injection H as <-.
  rewrite fold_max_le. split.
  - intros [H1 H2]. now constructor.
  - intros H. inversion H; subst. auto.
Qed.

Lemma degree0_den E E' e :
  same_data E E' -> var_free_time_args e -> compute_degree e = Ok 0%nat ->
  forall t s, den E e t s = den E' e t s.
Proof.
  intros HD. pose proof HD as (Hp & Hcp & HT & HS). unfold var_free_time_args, time_args.
  induction e using expr_ind'; intros HN Hd t s.
  3:{ apply all_nodes_Add in HN. destruct HN as [_ HN]. cbn [den]. f_equal.
      cbn [compute_degree] in Hd. inv_bind Hd.
      pose proof (py_max_le _ _ 0%nat Hd) as Hle. destruct Hle as [Hle _].
      specialize (Hle (le_n _)). apply mapM_ok in H0. clear Hd.
      induction H0 as [|x y l l' Hxy Hl IHl]; [reflexivity|].
      cbn [map]. f_equal.
      - apply (Forall_inv H (Forall_inv HN)). rewrite Hxy. f_equal.
        pose proof (Forall_inv Hle). cbn in *. lia.
      - apply IHl; eapply Forall_inv_tail; eassumption. }
  all: cbn [all_nodes] in HN; cbn [compute_degree] in Hd; cbn [den]; try discriminate; auto.
  - rewrite IHe; auto. tauto.
  - inv_bind Hd. inv_bind Hd. injection Hd as Hd.
    rewrite IHe1, IHe2; try tauto; [rewrite H0|rewrite H]; f_equal; lia.
  - inv_bind Hd. destruct (Nat.eqb v 0) eqn:Ev; [|discriminate]. apply Nat.eqb_eq in Ev. subst.
    rewrite IHe1, IHe2; tauto.
  - rewrite (no_variable_den E E' e2) by tauto. destruct (oint _); auto. rewrite IHe1; tauto.
  - rewrite (no_variable_den E E' e2) by tauto. destruct (oint _); auto. rewrite IHe1; tauto.
  - rewrite (no_variable_den E E' e2), (no_variable_den E E' e3) by tauto.
    destruct (oint _); auto. destruct (oint _); auto.
    f_equal. apply map_ext. intros i. rewrite IHe1; tauto.
  - rewrite HT. f_equal. apply map_ext. intros i. rewrite IHe; tauto.
  - inv_bind Hd. inv_bind Hd. injection Hd as Hd. rewrite HS.
    assert (v0 = 0%nat) by (destruct o; cbn in H; try discriminate; injection H as <-; lia). subst v0.
    assert (Hm : map (fun i : Z => den E e t i) (zrange 0 (e_S E')) =
                 map (fun i : Z => den E' e t i) (zrange 0 (e_S E'))).
    { apply map_ext. intros i. rewrite IHe; tauto. }
    destruct o; now rewrite ?Hm.
  - destruct e; try reflexivity. discriminate.
Qed.

(** pointwise affine interpolation of possibly undefined values *)
Definition aff (lam : Qc) (x0 x1 x : option Qc) : Prop :=
  forall a b, x0 = Some a -> x1 = Some b -> x = Some ((1 - lam) * a + lam * b)%Qc.

Lemma aff_osum lam {A} (f0 f1 f : A -> option Qc) l :
  Forall (fun i => aff lam (f0 i) (f1 i) (f i)) l ->
  aff lam (osum (map f0 l)) (osum (map f1 l)) (osum (map f l)).
Proof.
  induction 1 as [|i l Hi Hl IH]; intros a b Ha Hb; cbn [map osum] in *.
  - injection Ha as <-. injection Hb as <-. f_equal. ring.
  - destruct (f0 i) as [x0|] eqn:E0; [|discriminate].
    destruct (osum (map f0 l)) as [y0|] eqn:F0; [|discriminate]. injection Ha as <-.
    destruct (f1 i) as [x1|] eqn:E1; [|discriminate].
    destruct (osum (map f1 l)) as [y1|] eqn:F1; [|discriminate]. injection Hb as <-.
    rewrite (Hi _ _ eq_refl eq_refl), (IH _ _ eq_refl eq_refl). f_equal. ring.
Qed.

Lemma aff_same lam x : aff lam x x x.
Proof. intros a b Ha Hb. rewrite Ha in Hb. injection Hb as <-. rewrite Ha. f_equal. ring. Qed.

Lemma aff_mul_r lam x0 x1 x c : aff lam x0 x1 x ->
  aff lam (olift2 Qcmult x0 c) (olift2 Qcmult x1 c) (olift2 Qcmult x c).
Proof.
  intros H a b Ha Hb. destruct x0 as [x0|]; [|discriminate]. destruct c as [c|]; [|discriminate].
  destruct x1 as [x1|]; [|discriminate]. rewrite (H _ _ eq_refl eq_refl).
  cbn in *. injection Ha as <-. injection Hb as <-. f_equal. ring.
Qed.
Lemma aff_mul_l lam x0 x1 x c : aff lam x0 x1 x ->
  aff lam (olift2 Qcmult c x0) (olift2 Qcmult c x1) (olift2 Qcmult c x).
Proof.
  intros H a b Ha Hb. destruct c as [c|]; [|discriminate]. destruct x0 as [x0|]; [|discriminate].
  destruct x1 as [x1|]; [|discriminate]. rewrite (H _ _ eq_refl eq_refl).
  cbn in *. injection Ha as <-. injection Hb as <-. f_equal. ring.
Qed.
Lemma aff_div lam x0 x1 x c : aff lam x0 x1 x ->
  aff lam (odiv x0 c) (odiv x1 c) (odiv x c).
Proof.
  intros H a b Ha Hb. destruct x0 as [x0|]; [|discriminate]. destruct c as [c|]; [|discriminate].
  destruct x1 as [x1|]; [|discriminate]. rewrite (H _ _ eq_refl eq_refl).
  cbn in *. destruct (Qceqb c 0); [discriminate|]. injection Ha as <-. injection Hb as <-.
  f_equal. unfold Qcdiv. ring.
Qed.

Lemma Forall_triv {A} (P : A -> Prop) l : (forall x, P x) -> Forall P l.
Proof. intros H. apply Forall_forall. auto. Qed.

Lemma degree1_den lam E0 E1 E e :
  interpolates lam E0 E1 E -> var_free_time_args e ->
  forall d, compute_degree e = Ok d -> (d <= 1)%nat ->
  forall t s, aff lam (den E0 e t s) (den E1 e t s) (den E e t s).
Proof.
  intros (HD1 & HD & Hv & Hcv & Hport).
  pose proof HD as (Hp & Hcp & HT & HS). pose proof HD1 as (Hp1 & Hcp1 & HT1 & HS1).
  unfold var_free_time_args, time_args.
  induction e using expr_ind'; intros HN d Hd Hle t s.
  3:{ apply all_nodes_Add in HN. destruct HN as [_ HN]. cbn [den].
      apply aff_osum. cbn [compute_degree] in Hd. inv_bind Hd.
      apply (py_max_le _ _ 1%nat Hd) in Hle.
      apply mapM_ok in H0. clear Hd.
      induction H0; constructor; inversion H; inversion HN; inversion Hle; subst; eauto. }
  all: cbn [all_nodes] in HN; cbn [compute_degree] in Hd; cbn [den].
  - apply aff_same.
  - destruct HN as [_ HN]. intros a b Ha Hb.
    destruct (den E0 e t s) eqn:F0; [|discriminate]. destruct (den E1 e t s) eqn:F1; [|discriminate].
    rewrite (IHe HN _ Hd Hle t s _ _ F0 F1). cbn in *. injection Ha as <-. injection Hb as <-.
    f_equal. ring.
  - inv_bind Hd. inv_bind Hd. injection Hd as Hd. destruct HN as (_ & HN1 & HN2).
    assert (Hc : (v <= 1 /\ v0 = 0 \/ v = 0 /\ v0 <= 1)%nat) by lia.
    destruct Hc as [[Hv1 ->]|[-> Hv1]].
    + rewrite <- (degree0_den E0 E1 e2 HD1 HN2 H0), <- (degree0_den E0 E e2 HD HN2 H0).
      apply aff_mul_r. eauto.
    + rewrite <- (degree0_den E0 E1 e1 HD1 HN1 H), <- (degree0_den E0 E e1 HD HN1 H).
      apply aff_mul_l. eauto.
  - inv_bind Hd. destruct HN as (_ & HN1 & HN2).
    destruct (Nat.eqb v 0) eqn:Ev; [|discriminate]. apply Nat.eqb_eq in Ev. subst.
    rewrite <- (degree0_den E0 E1 e2 HD1 HN2 H), <- (degree0_den E0 E e2 HD HN2 H).
    apply aff_div. eauto.
  - apply aff_same.
  - intros a b Ha Hb. injection Ha as <-. injection Hb as <-. now rewrite Hv.
  - rewrite <- Hp, <- Hp1. apply aff_same.
  - intros a b Ha Hb. injection Ha as <-. injection Hb as <-. now rewrite Hcv.
  - rewrite <- Hcp, <- Hcp1. apply aff_same.
  - intros a b Ha Hb. injection Ha as <-. injection Hb as <-. now rewrite Hcv.
  - rewrite <- Hcp, <- Hcp1. apply aff_same.
  - destruct HN as (Hk & HN1 & HN2).
    rewrite <- (no_variable_den E0 E1 e2 HD1 Hk), <- (no_variable_den E0 E e2 HD Hk).
    destruct (oint _); [eauto|]. intros a b Ha; discriminate.
  - destruct HN as (Hk & HN1 & HN2).
    rewrite <- (no_variable_den E0 E1 e2 HD1 Hk), <- (no_variable_den E0 E e2 HD Hk).
    destruct (oint _); [eauto|]. intros a b Ha; discriminate.
  - destruct HN as ([Hk Hk'] & HN1 & HN2 & HN3).
    rewrite <- (no_variable_den E0 E1 e2 HD1 Hk), <- (no_variable_den E0 E e2 HD Hk).
    rewrite <- (no_variable_den E0 E1 e3 HD1 Hk'), <- (no_variable_den E0 E e3 HD Hk').
    destruct (oint (den E0 e2 t s)); [|intros a b Ha; discriminate].
    destruct (oint (den E0 e3 t s)); [|intros a b Ha; discriminate].
    apply aff_osum. apply Forall_triv. intros i. eauto.
  - destruct HN as [_ HN]. rewrite <- HT1, <- HT. apply aff_osum. apply Forall_triv. intros i. eauto.
  - destruct HN as [_ HN]. inv_bind Hd. inv_bind Hd. injection Hd as Hd. rewrite <- HS1, <- HS.
    destruct o; cbn in H; try discriminate; injection H as <-.
    + unfold omean. destruct (e_S E0 <=? 0)%Z; [intros a b Ha; discriminate|].
      pose proof (aff_osum lam (fun i => den E0 e t i) (fun i => den E1 e t i)
                    (fun i => den E e t i) (zrange 0 (e_S E0))) as Hs.
      assert (HF : Forall (fun i : Z => aff lam (den E0 e t i) (den E1 e t i) (den E e t i))
                     (zrange 0 (e_S E0))).
      { apply Forall_triv. intros i. eapply IHe; eauto. lia. }
      specialize (Hs HF). intros a b Ha Hb.
      destruct (osum (map (fun i => den E0 e t i) _)); [|discriminate].
      destruct (osum (map (fun i => den E1 e t i) _)); [|discriminate].
      rewrite (Hs _ _ eq_refl eq_refl). cbn in *. injection Ha as <-. injection Hb as <-.
      f_equal. unfold Qcdiv. ring.
    + assert (v0 = 0%nat) by lia. subst v0.
      assert (Hm : forall E', same_data E0 E' ->
        map (fun i : Z => den E' e t i) (zrange 0 (e_S E0)) =
        map (fun i : Z => den E0 e t i) (zrange 0 (e_S E0))).
      { intros E' HD'. apply map_ext. intros i. symmetry. now apply degree0_den. }
      rewrite (Hm E1 HD1), (Hm E HD). apply aff_same.
  - destruct (Hport p f) as (L0 & L1 & HA). 
    destruct (e_port E p f) as [|v [|]] eqn:Ep, (e_port E0 p f) as [|v0 [|]] eqn:Ep0,
      (e_port E1 p f) as [|v1 [|]] eqn:Ep1; cbn in L0, L1; try lia;
      try (intros a b Ha; discriminate Ha).
    intros a b Ha Hb. eapply (HA 0%nat); cbn; eauto.
  - assert (Hcase : (exists p f, e = PortField p f /\ a = PortSum) \/
            (forall E', den E' (PortAgg e a) t s = None)).
    { destruct e; destruct a; try (right; intros; reflexivity). left; eauto. }
    destruct Hcase as [(p & f & -> & ->)|Hn].
    2:{ intros x y Hx Hy. cbn [den] in Hn. rewrite Hn in Hx. discriminate. }
    destruct (Hport p f) as (L0 & L1 & HA). clear -L0 L1 HA.
    revert L0 L1 HA. generalize (e_port E0 p f), (e_port E1 p f), (e_port E p f).
    intros l0 l1 l. revert l0 l1. induction l as [|v l IH]; intros [|v0 l0] [|v1 l1] L0 L1 HA;
      cbn in L0, L1; try discriminate.
    + cbn. apply aff_same.
    + assert (HAhd : aff lam (v0 t s) (v1 t s) (v t s)).
      { intros a b Ha Hb. eapply (HA 0%nat); cbn; eauto. }
      assert (HAtl : aff lam (osum (map (fun v => v t s) l0)) (osum (map (fun v => v t s) l1))
                       (osum (map (fun v => v t s) l))).
      { apply IH; try lia. intros i. exact (HA (S i)). }
      intros a b Ha Hb. cbn [map osum] in *.
      destruct (v0 t s) as [x0|]; [|discriminate].
      destruct (osum (map (fun v => v t s) l0)) as [y0|]; [|discriminate]. injection Ha as <-.
      destruct (v1 t s) as [x1|]; [|discriminate].
      destruct (osum (map (fun v => v t s) l1)) as [y1|]; [|discriminate]. injection Hb as <-.
      rewrite (HAhd _ _ eq_refl eq_refl), (HAtl _ _ eq_refl eq_refl). f_equal. ring.
Qed.

Lemma is_constant_den E E' e :
  is_constant e = Ok true -> same_data E E' -> var_free_time_args e ->
  forall t s, den E e t s = den E' e t s.
Proof.
  unfold is_constant. intros H HD HA. inv_bind H. injection H as H. apply Nat.eqb_eq in H. subst.
  now apply degree0_den.
Qed.

Lemma is_linear_den lam E0 E1 E e :
  is_linear e = Ok true -> interpolates lam E0 E1 E -> var_free_time_args e ->
  forall t s a b, den E0 e t s = Some a -> den E1 e t s = Some b ->
  den E e t s = Some ((1 - lam) * a + lam * b)%Qc.
Proof.
  unfold is_linear. intros H HI HA t s a b Ha Hb. inv_bind H. injection H as H.
  apply Nat.leb_le in H. eapply degree1_den; eauto.
Qed.

(** evaluation form: whatever the variables, same result or same failure *)
Lemma is_constant_evaluate vp vp' e :
  is_constant e = Ok true ->
  (forall n, get_parameter_value vp n = get_parameter_value vp' n) ->
  (forall c n, get_component_parameter_value vp c n = get_component_parameter_value vp' c n) ->
  evaluate vp e = evaluate vp' e.
Proof.
  unfold is_constant. intros H Hp Hcp. inv_bind H. injection H as H. apply Nat.eqb_eq in H. subst.
  rename H0 into Hd. induction e using expr_ind'; cbn [evaluate]; cbn [compute_degree] in Hd;
    try discriminate; auto.
  - now rewrite IHe.
  - inv_bind Hd. apply (py_max_le _ _ 0%nat) in Hd as Hle. destruct Hle as [Hle _].
    specialize (Hle (le_n _)). apply mapM_ok in H0. f_equal. apply mapM_ext. clear Hd.
    induction H0 as [|x y l l' Hxy Hl IHl]; constructor.
    + apply (Forall_inv H). rewrite Hxy. f_equal. pose proof (Forall_inv Hle). cbn in *. lia.
    + apply IHl; eapply Forall_inv_tail; eassumption.
  - inv_bind Hd. inv_bind Hd. injection Hd as Hd.
    rewrite IHe1, IHe2; auto; [rewrite H0|rewrite H]; f_equal; lia.
  - inv_bind Hd. destruct (Nat.eqb v 0) eqn:Ev; [|discriminate]. apply Nat.eqb_eq in Ev. subst.
    rewrite IHe1, IHe2; auto.
Qed.

(** ** C06 *)
Lemma ix_or_time a b : ix_time (ix_or a b) = ix_time a || ix_time b.
Proof. reflexivity. Qed.
Lemma ix_or_scen a b : ix_scenario (ix_or a b) = ix_scenario a || ix_scenario b.
Proof. reflexivity. Qed.

(** the result of [_combine] bounds every operand, unless both dimensions vary *)
Lemma combine_loop_sound {A} (visit : A -> result indexing) l : forall res ix,
  combine_loop visit res l = Ok ix ->
  (ix_time ix && ix_scenario ix = true \/
   (Forall (fun o => exists r, visit o = Ok r /\ (ix_time r = true -> ix_time ix = true) /\
                               (ix_scenario r = true -> ix_scenario ix = true)) l)) /\
  (ix_time res = true -> ix_time ix = true) /\ (ix_scenario res = true -> ix_scenario ix = true).
Proof.
  induction l as [|o l IH]; cbn [combine_loop]; intros res ix H.
  - injection H as <-. split; [right; constructor|auto].
  - inv_bind H. destruct (is_time_scenario_varying (ix_or res v)) eqn:E.
    + injection H as <-. split; [left; exact E|].
      apply andb_true_iff in E as [E1 E2]. auto.
    + apply IH in H. destruct H as (H1 & H2 & H3).
      rewrite ix_or_time in H2. rewrite ix_or_scen in H3.
      split; [|split; intros Hr; [apply H2|apply H3]; rewrite Hr; reflexivity].
      destruct H1 as [H1|H1]; [now left|]. right. constructor; auto.
      exists v. split; auto. split; intros Hr; [apply H2|apply H3]; rewrite Hr; apply orb_true_r.
Qed.

Lemma combine_ix_sound {A} (visit : A -> result indexing) l ix :
  combine_ix visit l = Ok ix ->
  ix_time ix && ix_scenario ix = true \/
  (Forall (fun o => exists r, visit o = Ok r /\ (ix_time r = true -> ix_time ix = true) /\
                              (ix_scenario r = true -> ix_scenario ix = true)) l).
Proof.
  destruct l as [|o l]; cbn [combine_ix]; intros H; [right; constructor|].
  inv_bind H. destruct (is_time_scenario_varying v) eqn:E.
  - injection H as <-. now left.
  - apply combine_loop_sound in H. destruct H as ([H|H] & H2 & H3); [now left|].
    right. constructor; eauto.
Qed.

Definition time_const (E : env) e := forall t t' s, den E e t s = den E e t' s.
Definition scen_const (E : env) e := forall t s s', den E e t s = den E e t s'.

Definition sound_ix (E : env) (e : expr) (ix : indexing) : Prop :=
  (ix_time ix = false -> time_const E e) /\ (ix_scenario ix = false -> scen_const E e).

Lemma sound_pair E e1 e2 (mk : expr) sp ix :
  (ra <- compute_indexation sp e1 ;;
   if is_time_scenario_varying ra then Ok ra
   else rb <- compute_indexation sp e2 ;; Ok (ix_or ra rb)) = Ok ix ->
  (forall ix, compute_indexation sp e1 = Ok ix -> sound_ix E e1 ix) ->
  (forall ix, compute_indexation sp e2 = Ok ix -> sound_ix E e2 ix) ->
  (time_const E e1 -> time_const E e2 -> time_const E mk) ->
  (scen_const E e1 -> scen_const E e2 -> scen_const E mk) ->
  sound_ix E mk ix.
Proof.
  intros H H1 H2 HT HS. inv_bind H. specialize (H1 _ H0).
  destruct (is_time_scenario_varying v) eqn:Ev.
  - injection H as <-. apply andb_true_iff in Ev as [E1 E2].
    split; intros Hx; congruence.
  - inv_bind H. injection H as <-. specialize (H2 _ H3). destruct H1 as [H1 H1'], H2 as [H2 H2'].
    split; cbn; intros Hx; apply orb_false_iff in Hx as [Hx1 Hx2]; auto.
Qed.

Lemma indexation_sound sp E e :
  respects sp E -> fixed_time_args E e ->
  forall ix, compute_indexation sp e = Ok ix -> sound_ix E e ix.
Proof.
  intros (Hv & Hp & Hcv & Hcp). unfold fixed_time_args, time_args.
  induction e using expr_ind'; intros HN ix Hix.
  3:{ apply all_nodes_Add in HN. destruct HN as [_ HN]. cbn [compute_indexation] in Hix.
      apply combine_ix_sound in Hix. destruct Hix as [Hix|Hix].
      - apply andb_true_iff in Hix as [E1 E2]. split; intros Hx; congruence.
      - split; intros Hx.
        + intros t t' s. cbn [den]. f_equal. apply map_ext_in. intros x Hin.
          rewrite Forall_forall in H, HN, Hix. destruct (Hix x Hin) as (r & Hr & Hr1 & Hr2).
          destruct (H x Hin (HN x Hin) _ Hr) as [H1 H2]. apply H1.
          destruct (ix_time r); auto. specialize (Hr1 eq_refl). congruence.
        + intros t s s'. cbn [den]. f_equal. apply map_ext_in. intros x Hin.
          rewrite Forall_forall in H, HN, Hix. destruct (Hix x Hin) as (r & Hr & Hr1 & Hr2).
          destruct (H x Hin (HN x Hin) _ Hr) as [H1 H2]. apply H2.
          destruct (ix_scenario r); auto. specialize (Hr2 eq_refl). congruence. }
  all: cbn [all_nodes] in HN; cbn [compute_indexation] in Hix; try discriminate.
  - split; intros _; intros t t' s; reflexivity.
  - destruct HN as [_ HN]. destruct (IHe HN _ Hix) as [H1 H2].
    split; intros Hx.
    + intros t t' s. cbn. now rewrite (H1 Hx t t' s).
    + intros t s s'. cbn. now rewrite (H2 Hx t s s').
  - destruct HN as (_ & HN1 & HN2).
    eapply (sound_pair E e1 e2); eauto.
    + intros T1 T2 t t' s. cbn. now rewrite (T1 t t' s), (T2 t t' s).
    + intros T1 T2 t s s'. cbn. now rewrite (T1 t s s'), (T2 t s s').
  - destruct HN as (_ & HN1 & HN2).
    eapply (sound_pair E e1 e2); eauto.
    + intros T1 T2 t t' s. cbn. now rewrite (T1 t t' s), (T2 t t' s).
    + intros T1 T2 t s s'. cbn. now rewrite (T1 t s s'), (T2 t s s').
  - split; intros _; intros t t' s; reflexivity.
  - destruct (Hv _ _ Hix) as [H1 H2]. split; intros Hx; intros t t' s; cbn; f_equal; auto.
  - destruct (Hp _ _ Hix) as [H1 H2]. split; intros Hx; intros t t' s; cbn; auto.
  - destruct (Hcv _ _ _ Hix) as [H1 H2]. split; intros Hx; intros t t' s; cbn; f_equal; auto.
  - destruct (Hcp _ _ _ Hix) as [H1 H2]. split; intros Hx; intros t t' s; cbn; auto.
  - destruct HN as (Hk & HN1 & HN2). destruct (IHe1 HN1 _ Hix) as [H1 H2].
    split; intros Hx.
    + intros t t' s. cbn. rewrite (Hk t s t' s). destruct (oint _); auto. apply (H1 Hx).
    + intros t s s'. cbn. rewrite (Hk t s t s'). destruct (oint _); auto. apply (H2 Hx).
  - destruct HN as (Hk & HN1 & HN2). inv_bind Hix. injection Hix as <-.
    destruct (IHe1 HN1 _ H) as [H1 H2]. split; cbn [ix_time ix_scenario]; intros Hx.
    + intros t t' s. cbn. rewrite (Hk t s t' s). reflexivity.
    + intros t s s'. cbn. rewrite (Hk t s t s'). destruct (oint _); auto. apply (H2 Hx).
  - destruct HN as ([Hk Hk'] & HN1 & HN2 & HN3). destruct (IHe1 HN1 _ Hix) as [H1 H2].
    split; intros Hx.
    + intros t t' s. cbn. rewrite (Hk t s t' s), (Hk' t s t' s).
      destruct (oint _); auto. destruct (oint _); auto. f_equal. apply map_ext. intros i. apply (H1 Hx).
    + intros t s s'. cbn. rewrite (Hk t s t s'), (Hk' t s t s').
      destruct (oint _); auto. destruct (oint _); auto. f_equal. apply map_ext. intros i. apply (H2 Hx).
  - destruct HN as [_ HN]. inv_bind Hix. injection Hix as <-. destruct (IHe HN _ H) as [H1 H2].
    split; cbn [ix_time ix_scenario]; intros Hx.
    + intros t t' s. reflexivity.
    + intros t s s'. cbn. f_equal. apply map_ext. intros i. apply (H2 Hx).
  - destruct HN as [_ HN]. inv_bind Hix. injection Hix as <-. destruct (IHe HN _ H) as [H1 H2].
    split; cbn [ix_time ix_scenario]; intros Hx.
    + intros t t' s.
      assert (Hm : map (fun i : Z => den E e t i) (zrange 0 (e_S E)) =
                   map (fun i : Z => den E e t' i) (zrange 0 (e_S E))).
      { apply map_ext. intros i. apply (H1 Hx). }
      cbn. destruct o; now rewrite ?Hm.
    + intros t s s'. reflexivity.
Qed.

(** ** C07 *)
Lemma combine_loop_exact {A} (visit : A -> result indexing) (ft fs : A -> bool) l :
  Forall (fun o => visit o = Ok {| ix_time := ft o; ix_scenario := fs o |}) l ->
  forall res, combine_loop visit res l =
    Ok {| ix_time := ix_time res || existsb ft l; ix_scenario := ix_scenario res || existsb fs l |}.
Proof.
  induction 1 as [|o l Ho Hl IH]; intros [rt rs]; cbn [combine_loop existsb].
  - cbn. now rewrite !orb_false_r.
  - rewrite Ho. cbn [bind]. unfold ix_or, is_time_scenario_varying. cbn.
    destruct (rt || ft o) eqn:E1, (rs || fs o) eqn:E2; cbn [andb];
      rewrite ?orb_assoc, ?E1, ?E2; try reflexivity; rewrite IH; reflexivity.
Qed.

Lemma combine_ix_exact {A} (visit : A -> result indexing) (ft fs : A -> bool) l :
  Forall (fun o => visit o = Ok {| ix_time := ft o; ix_scenario := fs o |}) l ->
  combine_ix visit l = Ok {| ix_time := existsb ft l; ix_scenario := existsb fs l |}.
Proof.
  intros H. destruct H as [|o l Ho Hl]; [reflexivity|]. cbn [combine_ix existsb].
  rewrite Ho. cbn [bind]. unfold is_time_scenario_varying. cbn.
  destruct (ft o) eqn:E1, (fs o) eqn:E2; cbn [andb orb]; try reflexivity;
    rewrite (combine_loop_exact visit ft fs l Hl); reflexivity.
Qed.

Lemma indexation_exact sp e :
  all_names_known sp e ->
  compute_indexation sp e =
  Ok {| ix_time := time_dependent sp e; ix_scenario := scenario_dependent sp e |}.
Proof.
  assert (Hpair : forall e1 e2,
    compute_indexation sp e1 = Ok {| ix_time := time_dependent sp e1; ix_scenario := scenario_dependent sp e1 |} ->
    compute_indexation sp e2 = Ok {| ix_time := time_dependent sp e2; ix_scenario := scenario_dependent sp e2 |} ->
    (ra <- compute_indexation sp e1 ;;
     if is_time_scenario_varying ra then Ok ra
     else rb <- compute_indexation sp e2 ;; Ok (ix_or ra rb)) =
    Ok {| ix_time := time_dependent sp e1 || time_dependent sp e2;
          ix_scenario := scenario_dependent sp e1 || scenario_dependent sp e2 |}).
  { intros e1 e2 -> ->. cbn. unfold is_time_scenario_varying, ix_or. cbn.
    destruct (time_dependent sp e1), (scenario_dependent sp e1); reflexivity. }
  unfold all_names_known. induction e using expr_ind'; intros HN.
  3:{ apply all_nodes_Add in HN. destruct HN as [_ HN]. cbn [compute_indexation time_dependent scenario_dependent].
      apply combine_ix_exact. rewrite Forall_forall in *. auto. }
  all: cbn [all_nodes] in HN; cbn [compute_indexation time_dependent scenario_dependent]; try tauto.
  - destruct HN as (_ & HN1 & HN2). now apply Hpair; auto.
  - destruct HN as (_ & HN1 & HN2). now apply Hpair; auto.
  - destruct HN as (_ & HN1 & HN2). now apply Hpair; auto.
  - destruct HN as [HN _]. destruct (get_variable_structure sp n) as [[? ?]|]; [reflexivity|discriminate].
  - destruct HN as [HN _]. destruct (get_parameter_structure sp n) as [[? ?]|]; [reflexivity|discriminate].
  - destruct HN as [HN _]. destruct (get_component_variable_structure sp c n) as [[? ?]|]; [reflexivity|discriminate].
  - destruct HN as [HN _]. destruct (get_component_parameter_structure sp c n) as [[? ?]|]; [reflexivity|discriminate].
  - rewrite IHe1 by tauto. reflexivity.
  - rewrite IHe by tauto. reflexivity.
  - rewrite IHe by tauto. reflexivity.
Qed.

Lemma indexation_order sp l l' :
  Permutation l l' -> all_names_known sp (Add l) ->
  compute_indexation sp (Add l) = compute_indexation sp (Add l').
Proof.
  intros HP HN.
  assert (HN' : all_names_known sp (Add l')).
  { unfold all_names_known in *. rewrite all_nodes_Add in *. destruct HN as [_ HN]. split; auto.
    eapply Permutation_Forall; eauto. }
  rewrite !indexation_exact by assumption. cbn. f_equal.
  assert (Hb : forall f : expr -> bool, existsb f l = existsb f l').
  { intros f. destruct (existsb f l) eqn:E1, (existsb f l') eqn:E2; auto.
    - apply existsb_exists in E1. destruct E1 as (x & Hx & Hf).
      assert (existsb f l' = true); [|congruence]. apply existsb_exists. exists x. split; auto.
      eapply Permutation_in; eauto.
    - apply existsb_exists in E2. destruct E2 as (x & Hx & Hf).
      assert (existsb f l = true); [|congruence]. apply existsb_exists. exists x. split; auto.
      eapply Permutation_in; [apply Permutation_sym|]; eauto. }
  f_equal; apply Hb.
Qed.

Lemma degree_comparison a b c :
  (is_linear (Cmp a b c) = Ok true <-> is_linear a = Ok true /\ is_linear b = Ok true) /\
  (is_constant (Cmp a b c) = Ok true <-> is_constant a = Ok true /\ is_constant b = Ok true).
Proof.
  unfold is_linear, is_constant. cbn [compute_degree].
  destruct (compute_degree a) as [x|k]; cbn [bind]; [|split; split; [discriminate|intros [? _]; discriminate|discriminate|intros [? _]; discriminate]].
  destruct (compute_degree b) as [y|k]; cbn [bind]; [|split; split; [discriminate|intros [_ ?]; discriminate|discriminate|intros [_ ?]; discriminate]].
  split.
  - split.
    + intros [= H]. apply Nat.leb_le in H. split; f_equal; apply Nat.leb_le; lia.
    + intros [[= H1] [= H2]]. apply Nat.leb_le in H1, H2. f_equal. apply Nat.leb_le. lia.
  - split.
    + intros [= H]. apply Nat.eqb_eq in H. split; f_equal; apply Nat.eqb_eq; lia.
    + intros [[= H1] [= H2]]. apply Nat.eqb_eq in H1, H2. f_equal. apply Nat.eqb_eq. lia.
Qed.
