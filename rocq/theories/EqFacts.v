(** Facts about expression equality (C04). *)
From Coq Require Import Lia.
From Verif Require Import Base Expr Visitors BaseFacts SpecExpr SpecSyntax SpecVisitors ExprFacts CopyFacts VisitorFacts.

Lemma isclose_ok rel abs a b :
  tol_ok rel -> tol_ok abs -> exists r, isclose rel abs a b = Ok r.
Proof.
  unfold tol_ok, isclose. intros -> ->. cbn [orb].
  destruct (neqb a b); eauto. destruct (nisinf a || nisinf b); eauto.
Qed.

Lemma isclose_refl rel abs a :
  tol_ok rel -> tol_ok abs -> a <> NaN -> isclose rel abs a a = Ok true.
Proof.
  unfold tol_ok, isclose. intros -> -> Ha. cbn [orb]. now rewrite neqb_refl.
Qed.

Lemma isclose_sym rel abs a b : isclose rel abs a b = isclose rel abs b a.
Proof.
  unfold isclose. destruct (nltb rel n0 || nltb abs n0); [reflexivity|].
  rewrite (neqb_sym b a). destruct (neqb a b); [reflexivity|].
  rewrite (orb_comm (nisinf b)). destruct (nisinf a || nisinf b); [reflexivity|].
  assert (Hd : nabs (nsub b a) = nabs (nsub a b)) by (rewrite nsub_anti, nabs_nneg; reflexivity).
  rewrite Hd. f_equal. f_equal. apply orb_comm.
Qed.

Lemma isclose_zero a b : isclose n0 n0 a b = Ok true <-> a = b /\ a <> NaN.
Proof.
  unfold isclose. cbn [nltb]. replace (nltb n0 n0) with false by reflexivity. cbn [orb].
  destruct (neqb a b) eqn:E.
  - apply neqb_eq in E as E'. subst. split; auto. intros _. split; auto.
    intros ->. discriminate.
  - split.
    + destruct (nisinf a || nisinf b) eqn:Ei; [discriminate|].
      destruct a, b; cbn in Ei; try discriminate; cbn; intros H; try discriminate.
      injection H as H. exfalso.
      assert (Hz : forall x, nabs (nmul n0 (Fin x)) = Fin 0%Qc).
      { intros x. cbn. f_equal. replace (0 * x)%Qc with 0%Qc by ring. reflexivity. }
      assert (Hle : (Qcabs (q0 + - q) <= 0)%Qc).
      { rewrite !orb_true_iff in H. destruct H as [[H|H]|H].
        - replace (0 * q0)%Qc with 0%Qc in H by ring. now apply Qcleb_le in H.
        - replace (0 * q)%Qc with 0%Qc in H by ring. now apply Qcleb_le in H.
        - now apply Qcleb_le in H. }
      apply Qcabs_le in Hle. destruct Hle as [H1 H2].
      cbn in E. apply Qceqb_neq in E. apply E. qclra.
    + intros [-> Hn]. rewrite neqb_refl in E by assumption. discriminate.
Qed.

Lemma andM_true a b : andM a b = Ok true <-> a = Ok true /\ b = Ok true.
Proof.
  unfold andM. destruct a as [[|]|]; cbn; split; intros H; try tauto; try discriminate;
    destruct H; discriminate.
Qed.

Lemma andM_ok a b : (exists x, a = Ok x) -> (exists y, b = Ok y) -> exists z, andM a b = Ok z.
Proof. intros [x ->] [y ->]. unfold andM; cbn. destruct x; eauto. Qed.

Lemma time_index_eqb_eq a b : time_index_eqb a b = true <-> a = b.
Proof. destruct a, b; cbn; rewrite ?Z.eqb_eq; split; congruence. Qed.
Lemma scenario_index_eqb_eq a b : scenario_index_eqb a b = true <-> a = b.
Proof. destruct a, b; cbn; rewrite ?Z.eqb_eq; split; congruence. Qed.
Lemma comparator_eqb_eq a b : comparator_eqb a b = true <-> a = b.
Proof. destruct a, b; cbn; split; congruence. Qed.
Lemma scen_op_eqb_eq a b : scen_op_eqb a b = true <-> a = b.
Proof. destruct a, b; cbn; split; congruence. Qed.
Lemma port_agg_eqb_eq a b : port_agg_eqb a b = true <-> a = b.
Proof. destruct a, b; cbn; split; congruence. Qed.

Lemma Ok_inj {A} (a b : A) : Ok a = Ok b <-> a = b.
Proof. split; congruence. Qed.

Lemma eq_visit_zero l : forall r,
  eq_visit n0 n0 l r = Ok true <-> l = r /\ no_nan l.
Proof.
  unfold no_nan.
  induction l using expr_ind'; intros r; destruct r; try (cbn; split; [discriminate | intros [E _]; discriminate E]).
  - cbn [eq_visit]. rewrite isclose_zero. cbn. split.
    + intros [-> Hn]. repeat split; auto. congruence.
    + intros [E [H _]]. injection E as ->. split; congruence.
  - cbn [eq_visit all_nodes]. rewrite IHl. split.
    + intros [-> H]. repeat split; auto. discriminate.
    + intros [E [_ H]]. injection E as ->. auto.
  - rewrite all_nodes_Add. cbn [eq_visit]. destruct (Nat.eqb (length l) (length l0)) eqn:El.
    + apply Nat.eqb_eq in El.
      assert (HZ : all_zip (eq_visit n0 n0) l l0 = Ok true <-> l = l0 /\ Forall (all_nodes (fun x => x <> Lit NaN)) l).
      { revert l0 El. induction H as [|x l Hx Hl IHl]; intros [|y l0] El; try discriminate.
        - cbn. split; auto.
        - cbn [all_zip]. rewrite andM_true, Hx, IHl by (cbn in El; lia). split.
          + intros [[-> Hn] [-> Hn']]. auto.
          + intros [E HF]. injection E as -> ->. inversion HF; subst. auto. }
      rewrite HZ. split.
      * intros [-> HF]. repeat split; auto. discriminate.
      * intros [E [_ HF]]. injection E as ->. auto.
    + split; [discriminate|]. intros [E _]. injection E as ->.
      rewrite Nat.eqb_refl in El. discriminate.
  - cbn [eq_visit all_nodes]. rewrite andM_true, IHl1, IHl2. split.
    + intros [[-> H1] [-> H2]]. repeat split; auto. discriminate.
    + intros [E [_ [H1 H2]]]. injection E as -> ->. auto.
  - cbn [eq_visit all_nodes]. rewrite andM_true, IHl1, IHl2. split.
    + intros [[-> H1] [-> H2]]. repeat split; auto. discriminate.
    + intros [E [_ [H1 H2]]]. injection E as -> ->. auto.
  - cbn [eq_visit all_nodes]. destruct (comparator_eqb c c0) eqn:Ec.
    + apply comparator_eqb_eq in Ec. subst. rewrite andM_true, IHl1, IHl2. split.
      * intros [[-> H1] [-> H2]]. repeat split; auto. discriminate.
      * intros [E [_ [H1 H2]]]. injection E as -> ->. auto.
    + split; [discriminate|]. intros [E _]. injection E as -> -> ->.
      replace (comparator_eqb c0 c0) with true in Ec by (symmetry; now apply comparator_eqb_eq). discriminate.
  - cbn. rewrite Ok_inj, String.eqb_eq. split; [intros ->; repeat split; discriminate | intros [E _]; congruence].
  - cbn. rewrite Ok_inj, String.eqb_eq. split; [intros ->; repeat split; discriminate | intros [E _]; congruence].
  - cbn. rewrite Ok_inj, andb_true_iff, !String.eqb_eq.
    split; [intros [-> ->]; repeat split; discriminate | intros [E _]; injection E as -> ->; auto].
  - cbn. rewrite Ok_inj, andb_true_iff, !String.eqb_eq.
    split; [intros [-> ->]; repeat split; discriminate | intros [E _]; injection E as -> ->; auto].
  - cbn. rewrite Ok_inj, !andb_true_iff, !String.eqb_eq, time_index_eqb_eq, scenario_index_eqb_eq.
    split; [intros [[[-> ->] ->] ->]; repeat split; discriminate
           | intros [E _]; injection E as -> -> -> ->; auto].
  - cbn. rewrite Ok_inj, !andb_true_iff, !String.eqb_eq, time_index_eqb_eq, scenario_index_eqb_eq.
    split; [intros [[[-> ->] ->] ->]; repeat split; discriminate
           | intros [E _]; injection E as -> -> -> ->; auto].
  - cbn [eq_visit all_nodes]. rewrite andM_true, IHl1, IHl2. split.
    + intros [[-> H1] [-> H2]]. repeat split; auto. discriminate.
    + intros [E [_ [H1 H2]]]. injection E as -> ->. auto.
  - cbn [eq_visit all_nodes]. rewrite andM_true, IHl1, IHl2. split.
    + intros [[-> H1] [-> H2]]. repeat split; auto. discriminate.
    + intros [E [_ [H1 H2]]]. injection E as -> ->. auto.
  - cbn [eq_visit all_nodes]. rewrite !andM_true, IHl1, IHl2, IHl3. split.
    + intros [[-> H1] [[-> H2] [-> H3]]]. repeat split; auto. discriminate.
    + intros [E [_ [H1 [H2 H3]]]]. injection E as -> -> ->. auto 6.
  - cbn [eq_visit all_nodes]. rewrite IHl. split.
    + intros [-> H]. repeat split; auto. discriminate.
    + intros [E [_ H]]. injection E as ->. auto.
  - cbn [eq_visit all_nodes]. destruct (scen_op_eqb o o0) eqn:Eo.
    + apply scen_op_eqb_eq in Eo. subst. rewrite IHl. split.
      * intros [-> H]. repeat split; auto. discriminate.
      * intros [E [_ H]]. injection E as ->. auto.
    + split; [discriminate|]. intros [E _]. injection E as -> ->.
      replace (scen_op_eqb o0 o0) with true in Eo by (symmetry; now apply scen_op_eqb_eq). discriminate.
  - cbn. rewrite Ok_inj, andb_true_iff, !String.eqb_eq.
    split; [intros [-> ->]; repeat split; discriminate | intros [E _]; injection E as -> ->; auto].
  - cbn [eq_visit all_nodes]. destruct (port_agg_eqb a a0) eqn:Eo.
    + apply port_agg_eqb_eq in Eo. subst. rewrite IHl. split.
      * intros [-> H]. repeat split; auto. discriminate.
      * intros [E [_ H]]. injection E as ->. auto.
    + split; [discriminate|]. intros [E _]. injection E as -> ->.
      replace (port_agg_eqb a0 a0) with true in Eo by (symmetry; now apply port_agg_eqb_eq). discriminate.
Qed.

Lemma expressions_equal_zero l r :
  expressions_equal l r n0 n0 = Ok true <-> l = r /\ no_nan l.
Proof.
  unfold expressions_equal. replace (nltb n0 n0) with false by reflexivity. apply eq_visit_zero.
Qed.

Lemma eq_visit_refl rel abs e :
  tol_ok rel -> tol_ok abs -> no_nan e -> eq_visit rel abs e e = Ok true.
Proof.
  intros Hr Ha. unfold no_nan. induction e using expr_ind'; intros HN.
  3:{ apply all_nodes_Add in HN. destruct HN as [_ HN]. cbn [eq_visit]. rewrite Nat.eqb_refl.
      induction H as [|x l Hx Hl IHl]; [reflexivity|]. inversion HN; subst.
      cbn [all_zip]. rewrite andM_true. auto. }
  all: cbn [eq_visit all_nodes] in *.
  all: repeat match goal with H : _ /\ _ |- _ => destruct H end.
  all: rewrite ?andM_true, ?String.eqb_refl; auto.
  - apply isclose_refl; auto. congruence.
  - replace (comparator_eqb c c) with true by (symmetry; now apply comparator_eqb_eq).
    rewrite andM_true; auto.
  - replace (time_index_eqb ti ti) with true by (symmetry; now apply time_index_eqb_eq).
    replace (scenario_index_eqb si si) with true by (symmetry; now apply scenario_index_eqb_eq).
    reflexivity.
  - replace (time_index_eqb ti ti) with true by (symmetry; now apply time_index_eqb_eq).
    replace (scenario_index_eqb si si) with true by (symmetry; now apply scenario_index_eqb_eq).
    reflexivity.
  - replace (scen_op_eqb o o) with true by (symmetry; now apply scen_op_eqb_eq). auto.
  - replace (port_agg_eqb a a) with true by (symmetry; now apply port_agg_eqb_eq). auto.
Qed.

Lemma time_index_eqb_sym a b : time_index_eqb a b = time_index_eqb b a.
Proof. destruct a, b; cbn; auto; apply Z.eqb_sym. Qed.
Lemma scenario_index_eqb_sym a b : scenario_index_eqb a b = scenario_index_eqb b a.
Proof. destruct a, b; cbn; auto; apply Z.eqb_sym. Qed.

Lemma eq_visit_sym rel abs l : forall r, eq_visit rel abs l r = eq_visit rel abs r l.
Proof.
  induction l using expr_ind'; intros r; destruct r; cbn [eq_visit]; try reflexivity; auto.
  - apply isclose_sym.
  - rewrite Nat.eqb_sym. destruct (Nat.eqb (length l0) (length l)); [|reflexivity].
    revert l0. induction H as [|x l Hx Hl IHl]; intros [|y l0]; cbn [all_zip]; try reflexivity.
    now rewrite Hx, IHl.
  - now rewrite IHl1, IHl2.
  - now rewrite IHl1, IHl2.
  - replace (comparator_eqb c0 c) with (comparator_eqb c c0) by (destruct c, c0; reflexivity).
    now rewrite IHl1, IHl2.
  - now rewrite String.eqb_sym.
  - now rewrite String.eqb_sym.
  - now rewrite String.eqb_sym, (String.eqb_sym c).
  - now rewrite String.eqb_sym, (String.eqb_sym c).
  - now rewrite String.eqb_sym, (String.eqb_sym c), time_index_eqb_sym, scenario_index_eqb_sym.
  - now rewrite String.eqb_sym, (String.eqb_sym c), time_index_eqb_sym, scenario_index_eqb_sym.
  - now rewrite IHl1, IHl2.
  - now rewrite IHl1, IHl2.
  - now rewrite IHl1, IHl2, IHl3.
  - replace (scen_op_eqb o0 o) with (scen_op_eqb o o0) by (destruct o, o0; reflexivity).
    now rewrite IHl.
  - now rewrite String.eqb_sym, (String.eqb_sym f).
  - replace (port_agg_eqb a0 a) with (port_agg_eqb a a0) by (destruct a, a0; reflexivity).
    now rewrite IHl.
Qed.

Lemma eq_visit_total rel abs l : tol_ok rel -> tol_ok abs ->
  forall r, exists b, eq_visit rel abs l r = Ok b.
Proof.
  intros Hr Ha. induction l using expr_ind'; intros r; destruct r; cbn [eq_visit]; eauto.
  - now apply isclose_ok.
  - destruct (Nat.eqb (length l) (length l0)); [|eauto].
    revert l0. induction H as [|x l Hx Hl IHl]; intros [|y l0]; cbn [all_zip]; eauto.
    apply andM_ok; auto.
  - apply andM_ok; auto.
  - apply andM_ok; auto.
  - destruct (comparator_eqb c c0); [apply andM_ok; auto|eauto].
  - apply andM_ok; auto.
  - apply andM_ok; auto.
  - apply andM_ok; auto. apply andM_ok; auto.
  - destruct (scen_op_eqb o o0); eauto.
  - destruct (port_agg_eqb a a0); eauto.
Qed.

Lemma expressions_equal_sym l r a t :
  expressions_equal l r a t = expressions_equal r l a t.
Proof. unfold expressions_equal. now rewrite (eq_visit_sym t a l r). Qed.

Lemma expressions_equal_refl e a t :
  tol_ok a -> tol_ok t -> no_nan e -> expressions_equal e e a t = Ok true.
Proof.
  unfold expressions_equal. intros Ha Ht Hn. rewrite Ha, Ht. now apply eq_visit_refl.
Qed.

Lemma expressions_equal_total l r a t :
  (nltb a n0 = true \/ nltb t n0 = true -> expressions_equal l r a t = Err ValueError) /\
  (nltb a n0 = false -> nltb t n0 = false -> exists b, expressions_equal l r a t = Ok b).
Proof.
  unfold expressions_equal. split.
  - intros [->| ->]; [reflexivity|]. destruct (nltb a n0); reflexivity.
  - intros Ha Ht. rewrite Ha, Ht. now apply eq_visit_total.
Qed.
