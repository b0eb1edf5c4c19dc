(** Facts about linear expressions and linearisation (C14-C16, C41). *)
From Coq Require Import Lia Permutation.
From Verif Require Import Base Expr Visitors LinearExpr Linearize BaseFacts SpecExpr SpecSyntax
  SpecVisitors SpecLinear ExprFacts CopyFacts VisitorFacts.

(** ** keys *)
Lemma oz_eqb_eq a b : oz_eqb a b = true <-> a = b.
Proof.
  destruct a, b; cbn; split; try congruence.
  - intros H. apply Z.eqb_eq in H. congruence.
  - intros H. injection H as ->. apply Z.eqb_refl.
Qed.
Lemma tk_eqb_eq a b : tk_eqb a b = true <-> a = b.
Proof.
  unfold tk_eqb. rewrite !andb_true_iff, !String.eqb_eq, !oz_eqb_eq.
  destruct a, b; cbn. split; [intros (((-> & ->) & ->) & ->); reflexivity|].
  intros H. injection H as -> -> -> ->. auto.
Qed.

(** ** partial sums *)
Notation oplus := (olift2 Qcplus).
Lemma oplus_assoc a b c : oplus a (oplus b c) = oplus (oplus a b) c.
Proof. destruct a, b, c; cbn; try reflexivity. f_equal. ring. Qed.
Lemma oplus_comm a b : oplus a b = oplus b a.
Proof. destruct a, b; cbn; try reflexivity. f_equal. ring. Qed.
Lemma oplus_0_l a : oplus (Some 0%Qc) a = a.
Proof. destruct a; cbn; try reflexivity. f_equal. ring. Qed.
Lemma oplus_0_r a : oplus a (Some 0%Qc) = a.
Proof. rewrite oplus_comm. apply oplus_0_l. Qed.
Lemma osum_cons a l : osum (a :: l) = oplus a (osum l).
Proof. cbn. destruct a, (osum l); reflexivity. Qed.
Lemma osum_map_oplus {A} (f g : A -> option Qc) l :
  osum (map (fun a => oplus (f a) (g a)) l) = oplus (osum (map f l)) (osum (map g l)).
Proof.
  induction l as [|a l IH]; [reflexivity|]. cbn [map]. rewrite !osum_cons, IH.
  rewrite <- !oplus_assoc. f_equal. rewrite !oplus_assoc. f_equal. apply oplus_comm.
Qed.
Lemma osum_filter {A} (p : A -> bool) (f : A -> option Qc) l :
  osum (map f l) = oplus (osum (map f (filter p l))) (osum (map f (filter (fun a => negb (p a)) l))).
Proof.
  induction l as [|a l IH]; [reflexivity|]. cbn [map filter]. rewrite osum_cons, IH.
  destruct (p a); cbn [map negb]; rewrite osum_cons.
  - now rewrite oplus_assoc.
  - rewrite !oplus_assoc. f_equal. apply oplus_comm.
Qed.

Lemma nval_nadd a b : nval (nadd a b) = oplus (nval a) (nval b).
Proof. destruct a, b; reflexivity. Qed.
Lemma nval_nneg a : nval (nneg a) = option_map Qcopp (nval a).
Proof. destruct a; reflexivity. Qed.
Lemma nval_nsub a b : nval (nsub a b) = oplus (nval a) (option_map Qcopp (nval b)).
Proof. unfold nsub. now rewrite nval_nadd, nval_nneg. Qed.

Lemma terms_value_app x l1 l2 : terms_value x (l1 ++ l2) = oplus (terms_value x l1) (terms_value x l2).
Proof. unfold terms_value. now rewrite map_app, osum_app. Qed.
Lemma terms_value_cons x a l : terms_value x (a :: l) = oplus (term_value x a) (terms_value x l).
Proof. unfold terms_value. cbn [map]. now rewrite osum_cons. Qed.

Lemma term_value_nadd x k a b :
  term_value x (k, nadd a b) = oplus (term_value x (k, a)) (term_value x (k, b)).
Proof.
  unfold term_value. cbn [fst snd]. rewrite nval_nadd. destruct (nval a), (nval b); cbn; try reflexivity.
  f_equal. ring.
Qed.
Lemma term_value_nneg x k a : term_value x (k, nneg a) = option_map Qcopp (term_value x (k, a)).
Proof.
  unfold term_value. cbn [fst snd]. rewrite nval_nneg. destruct (nval a); cbn; try reflexivity.
  f_equal. ring.
Qed.
Lemma oopp_oplus a b : option_map Qcopp (oplus a b) = oplus (option_map Qcopp a) (option_map Qcopp b).
Proof. destruct a, b; cbn; try reflexivity. f_equal. ring. Qed.
Lemma osum_opp {A} (f : A -> option Qc) l :
  osum (map (fun a => option_map Qcopp (f a)) l) = option_map Qcopp (osum (map f l)).
Proof.
  induction l as [|a l IH]; [cbn; f_equal; ring|]. cbn [map]. rewrite !osum_cons, IH. now rewrite oopp_oplus.
Qed.

(** ** dropping small terms *)
Lemma EPS_pos : (0 < EPS)%Qc.
Proof. reflexivity. Qed.

Lemma is_close_true v o : is_close_abs v (Fin o) (Fin EPS) = true <->
  exists c, v = Fin c /\ (Qcabs (c - o) < EPS)%Qc.
Proof.
  unfold is_close_abs. destruct v as [c| | |]; cbn [nsub nadd nneg nabs].
  - unfold nltb. cbn [nleb neqb]. replace (c + - o)%Qc with (c - o)%Qc by reflexivity.
    rewrite andb_true_iff, negb_true_iff, Qcleb_le, Qceqb_neq. split.
    + intros [H1 H2]. exists c. split; [reflexivity|]. apply Qcle_lt_or_eq in H1. tauto.
    + intros (c' & H & Hlt). injection H as <-. split.
      * now apply Qclt_le_weak.
      * intros He. rewrite He in Hlt. now apply Qclt_not_eq in Hlt.
  - split; [discriminate|]. intros (c & H & _). discriminate.
  - split; [discriminate|]. intros (c & H & _). discriminate.
  - split; [discriminate|]. intros (c & H & _). discriminate.
Qed.

Lemma is_zero_true v : is_zero v = true <-> exists c, v = Fin c /\ (Qcabs c < EPS)%Qc.
Proof.
  unfold is_zero. change n0 with (Fin 0%Qc). rewrite is_close_true.
  split; intros (c & H1 & H2); exists c; (split; [exact H1|]).
  - now replace c with (c - 0)%Qc by ring.
  - now replace (c - 0)%Qc with c by ring.
Qed.

Lemma remove_zeros_eq d : remove_zeros d = non_zero_terms d.
Proof. reflexivity. Qed.

Definition small_terms (d : list term) : list term := filter (fun kt => is_zero (snd kt)) d.

Lemma small_terms_negligible d : negligible (small_terms d).
Proof.
  unfold negligible, small_terms. apply Forall_forall. intros kt H. apply filter_In in H.
  destruct H as [_ H]. now apply is_zero_true in H.
Qed.
Lemma negligible_app a b : negligible a -> negligible b -> negligible (a ++ b).
Proof. apply Forall_app_2 || (intros; apply Forall_app; auto). Qed.

Lemma non_zero_value x d :
  terms_value x d = oplus (terms_value x (non_zero_terms d)) (terms_value x (small_terms d)).
Proof.
  unfold terms_value, non_zero_terms, small_terms.
  etransitivity; [apply (osum_filter (fun kt : term => is_zero (snd kt)) (term_value x) d)|].
  apply oplus_comm.
Qed.

Lemma filter_keys_nodup (p : term -> bool) d : distinct_keys d -> distinct_keys (filter p d).
Proof.
  unfold distinct_keys. induction d as [|a d IH]; cbn; auto. intros H. inversion H; subst.
  destruct (p a); cbn; auto. constructor; auto. intros Hin. apply H2.
  apply in_map_iff in Hin. destruct Hin as (y & Hy & Hin). apply filter_In in Hin.
  apply in_map_iff. exists y. tauto.
Qed.

Lemma non_zero_normal d c : distinct_keys d -> normal_form (le_of_dict d c).
Proof.
  intros H. split.
  - now apply filter_keys_nodup.
  - cbn. unfold non_zero_terms. apply Forall_forall. intros kt Hin. apply filter_In in Hin.
    destruct Hin as [_ Hz]. intros Hn. inversion Hn; subst. apply is_zero_true in H2.
    rewrite H2 in Hz. discriminate.
Qed.

(** disjointness of kept and dropped keys *)
Lemma small_not_kept d kt : distinct_keys d -> In kt (small_terms d) ->
  ~ In (fst kt) (map fst (non_zero_terms d)).
Proof.
  unfold distinct_keys, small_terms, non_zero_terms. intros Hnd Hin Hk.
  apply filter_In in Hin. destruct Hin as [Hin Hz]. apply in_map_iff in Hk.
  destruct Hk as (kt' & He & Hk). apply filter_In in Hk. destruct Hk as [Hk Hz'].
  destruct kt as [k v], kt' as [k' v']. cbn in *. subst k'.
  pose proof (In_dget_nodup tk_eqb tk_eqb_eq k v d Hnd Hin) as H1.
  pose proof (In_dget_nodup tk_eqb tk_eqb_eq k v' d Hnd Hk) as H2.
  rewrite H1 in H2. injection H2 as <-. rewrite Hz in Hz'. discriminate.
Qed.

(** ** accumulation *)
Lemma dset_value x k a b d :
  dget tk_eqb k d = Some a ->
  terms_value x (dset tk_eqb k (nadd a b) d) = oplus (terms_value x d) (term_value x (k, b)).
Proof.
  induction d as [|[k' v] d IH]; cbn [dget dset]; [discriminate|].
  destruct (tk_eqb k k') eqn:E.
  - intros H. injection H as ->. apply tk_eqb_eq in E. subst k'.
    rewrite !terms_value_cons, term_value_nadd. rewrite <- !oplus_assoc. f_equal. apply oplus_comm.
  - intros H. rewrite !terms_value_cons, IH by exact H. apply oplus_assoc.
Qed.

Lemma accumulate_value x d t :
  terms_value x (accumulate d t) = oplus (terms_value x d) (term_value x t).
Proof.
  unfold accumulate. destruct t as [k b]. cbn [fst snd]. destruct (dget tk_eqb k d) eqn:E.
  - now apply dset_value.
  - rewrite terms_value_app. f_equal. rewrite terms_value_cons. apply oplus_0_r.
Qed.
Lemma accumulate_fold_value x l : forall d,
  terms_value x (fold_left accumulate l d) = oplus (terms_value x d) (terms_value x l).
Proof.
  induction l as [|t l IH]; intros d; cbn [fold_left].
  - symmetry. apply oplus_0_r.
  - rewrite IH, accumulate_value, terms_value_cons. symmetry. apply oplus_assoc.
Qed.

Lemma accumulate_nodup d t : distinct_keys d -> distinct_keys (accumulate d t).
Proof.
  unfold distinct_keys, accumulate. intros H. destruct (dget tk_eqb (fst t) d) eqn:E.
  - apply dset_nodup; auto. apply tk_eqb_eq.
  - rewrite map_app. cbn. apply (dget_None tk_eqb tk_eqb_eq) in E.
    apply NoDup_rev in H. rewrite <- (rev_involutive (map fst d ++ [fst t])).
    apply NoDup_rev. rewrite rev_app_distr. cbn. constructor; auto. now rewrite <- in_rev.
Qed.
Lemma accumulate_fold_nodup l : forall d, distinct_keys d -> distinct_keys (fold_left accumulate l d).
Proof. induction l as [|t l IH]; intros d H; cbn [fold_left]; auto. apply IH. now apply accumulate_nodup. Qed.

(** ** linearisation *)
Definition data_value (x : assignment) (d : lin_data) : option Qc :=
  oplus (nval (ld_constant d)) (terms_value x (ld_terms d)).
Definition finite_data (d : lin_data) : Prop :=
  (exists c, ld_constant d = Fin c) /\ Forall (fun kt => exists c, snd kt = Fin c) (ld_terms d).

Lemma map_coefs_mul_value x q l :
  Forall (fun kt => exists c, snd kt = Fin c) l ->
  terms_value x (map_coefs (fun c => nmul c (Fin q)) l) =
  option_map (fun v => v * q)%Qc (terms_value x l) /\
  Forall (fun kt => exists c, snd kt = Fin c) (map_coefs (fun c => nmul c (Fin q)) l).
Proof.
  induction 1 as [|[k v] l [c Hc] Hl [IH1 IH2]].
  - split; [|constructor]. cbn. f_equal. ring.
  - cbn [snd] in Hc. subst v. unfold map_coefs in *. cbn [map fst snd]. split.
    + rewrite !terms_value_cons, IH1. cbn. destruct (terms_value x l); cbn; [|reflexivity].
      f_equal. ring.
    + constructor; [|exact IH2]. cbn. eauto.
Qed.

Lemma map_coefs_neg_value x l :
  terms_value x (map_coefs nneg l) = option_map Qcopp (terms_value x l).
Proof.
  induction l as [|[k v] l IH]; [cbn; f_equal; ring|].
  unfold map_coefs in *. cbn [map fst snd]. rewrite !terms_value_cons, IH, term_value_nneg.
  now rewrite oopp_oplus.
Qed.

Lemma mapM_div_value x q l ts : q <> 0%Qc ->
  Forall (fun kt => exists c, snd kt = Fin c) l ->
  mapM (fun kt : term => r <- ndiv (snd kt) (Fin q) ;; Ok (fst kt, r)) l = Ok ts ->
  terms_value x ts = option_map (fun v => v / q)%Qc (terms_value x l) /\
  Forall (fun kt => exists c, snd kt = Fin c) ts.
Proof.
  intros Hq HF H. apply mapM_ok in H. induction H as [|[k v] kt l ts Hkt Hl IHl].
  - split; [|constructor]. cbn. f_equal. field. exact Hq.
  - inversion HF as [|? ? [c Hc] HF']; subst. cbn [snd] in Hc. subst v.
    destruct (IHl HF') as [IH1 IH2]. cbn in Hkt.
    destruct (Qceqb q 0) eqn:Eq; [apply Qceqb_eq in Eq; contradiction|].
    cbn in Hkt. injection Hkt as <-. split.
    + rewrite !terms_value_cons, IH1. cbn. destruct (terms_value x l); cbn; [|reflexivity].
      f_equal. field. exact Hq.
    + constructor; [|exact IH2]. cbn. eauto.
Qed.

Lemma mapM_div_const v l ts :
  mapM (fun kt : term => r <- ndiv (snd kt) v ;; Ok (fst kt, r)) l = Ok ts -> map fst ts = map fst l.
Proof.
  intros H. apply mapM_ok in H. induction H as [|kt kt' l ts Hk Hl IHl]; [reflexivity|].
  cbn [map]. f_equal; auto. inv_bind Hk. injection Hk as <-. reflexivity.
Qed.

Lemma finite_terms_value x l : Forall (fun kt => exists c, snd kt = Fin c) l ->
  exists v, terms_value x l = Some v.
Proof.
  induction 1 as [|[k v] l [c Hc] Hl [w IH]]; [eexists; reflexivity|]. cbn in Hc. subst.
  rewrite terms_value_cons, IH. cbn. eauto.
Qed.

Lemma finite_data_value x d : finite_data d -> exists v, data_value x d = Some v.
Proof.
  intros [[c Hc] HF]. destruct (finite_terms_value x _ HF) as [v Hv]. unfold data_value.
  rewrite Hc, Hv. cbn. eauto.
Qed.

Lemma map_coefs_nil f l : is_nil (map_coefs f l) = is_nil l.
Proof. destruct l; reflexivity. Qed.

Lemma lin_fold_value x ds : forall acc,
  data_value x (fold_left (fun acc d => {| ld_terms := ld_terms acc ++ ld_terms d;
                       ld_constant := nadd (ld_constant acc) (ld_constant d) |}) ds acc)
  = oplus (data_value x acc) (osum (map (data_value x) ds)).
Proof.
  induction ds as [|d ds IH]; intros acc; cbn [fold_left map].
  - symmetry. apply oplus_0_r.
  - rewrite IH, osum_cons, oplus_assoc. f_equal. unfold data_value. cbn [ld_terms ld_constant].
    rewrite nval_nadd, terms_value_app. rewrite <- !oplus_assoc. f_equal.
    rewrite !oplus_assoc. f_equal. apply oplus_comm.
Qed.
Lemma lin_fold_finite ds : forall acc, finite_data acc -> Forall finite_data ds ->
  finite_data (fold_left (fun acc d => {| ld_terms := ld_terms acc ++ ld_terms d;
                       ld_constant := nadd (ld_constant acc) (ld_constant d) |}) ds acc).
Proof.
  induction ds as [|d ds IH]; intros acc Ha HF; cbn [fold_left]; auto.
  inversion HF; subst. apply IH; auto. destruct Ha as [[a Ha1] Ha2], H1 as [[b Hb1] Hb2]. split; cbn.
  - rewrite Ha1, Hb1. cbn. eauto.
  - apply Forall_app. auto.
Qed.
Lemma lin_fold_terms ds : forall acc,
  ld_terms (fold_left (fun acc d => {| ld_terms := ld_terms acc ++ ld_terms d;
                       ld_constant := nadd (ld_constant acc) (ld_constant d) |}) ds acc)
  = ld_terms acc ++ concat (map ld_terms ds).
Proof.
  induction ds as [|d ds IH]; intros acc; cbn [fold_left map concat].
  - now rewrite app_nil_r.
  - rewrite IH. cbn [ld_terms]. now rewrite app_assoc.
Qed.

Lemma get_timestep_default ot t ti r : ot = None \/ ot = Some t ->
  get_timestep ot ti = Ok r -> odefault t r = at_time ti t.
Proof.
  intros Hot H. destruct ti; cbn in H.
  - injection H as <-. reflexivity.
  - destruct ot; [|discriminate]. injection H as <-. cbn. destruct Hot as [Hot|Hot]; [discriminate|].
    injection Hot as ->. reflexivity.
  - injection H as <-. reflexivity.
Qed.
Lemma get_scenario_default os s si : os = None \/ os = Some s ->
  odefault s (get_scenario os si) = at_scenario si s.
Proof. intros [->| ->]; destruct si; reflexivity. Qed.

Lemma lin_build_den E t s ot os vp e :
  ot = None \/ ot = Some t -> os = None \/ os = Some s ->
  (forall g, vp = Some g -> getter_gives g E t s) -> finite_literals e ->
  forall d, lin_build ot os vp e = Ok d ->
  finite_data d /\ data_value (read E t s) d = den E e t s.
Proof.
  intros Hot Hos Hg. unfold finite_literals. induction e using expr_ind'; intros HF d0 H0.
  3:{ apply all_nodes_Add in HF. destruct HF as [_ HF]. cbn [lin_build] in H0. inv_bind H0. injection H0 as <-.
      apply mapM_ok in H1.
      assert (HG : Forall finite_data v /\ map (data_value (read E t s)) v = map (fun a => den E a t s) l).
      { induction H1 as [|a b l v Hab Hl IHl]; [split; [constructor|reflexivity]|].
        destruct (Forall_inv H (Forall_inv HF) _ Hab) as [Hx Hy].
        destruct (IHl (Forall_inv_tail H) (Forall_inv_tail HF)) as [Hz Hw]. split; [constructor; auto|]. cbn [map]. congruence. }
      destruct HG as [HG1 HG2]. split.
      - apply lin_fold_finite; auto. split; [eexists; reflexivity|constructor].
      - rewrite lin_fold_value, HG2. cbn [den]. apply oplus_0_l. }
  all: cbn [lin_build] in H0; try discriminate.
  - apply all_nodes_root in HF. destruct v; try contradiction. injection H0 as <-. split.
    + split; [eexists; reflexivity|constructor].
    + cbn. f_equal. ring.
  - inv_bind H0. injection H0 as <-. destruct (IHe (proj2 HF) _ H) as [[[c Hc] HT] HV]. split.
    + split; cbn; [rewrite Hc; cbn; eauto|]. unfold map_coefs. apply Forall_map.
      eapply Forall_impl; [|exact HT]. intros kt [q Hq]. cbn. rewrite Hq. cbn. eauto.
    + unfold data_value in *. cbn [ld_constant ld_terms den]. rewrite <- HV, map_coefs_neg_value, nval_nneg.
      now rewrite oopp_oplus.
  - inv_bind H0. inv_bind H0. destruct HF as (_ & HF1 & HF2).
    destruct (IHe1 HF1 _ H) as [[[c1 Hc1] HT1] HV1]. destruct (IHe2 HF2 _ H1) as [[[c2 Hc2] HT2] HV2].
    destruct v as [ts1 k1], v0 as [ts2 k2]. cbn [ld_terms ld_constant] in *. subst k1 k2.
    cbn [den]. rewrite <- HV1, <- HV2. clear HV1 HV2. unfold data_value. cbn [ld_terms ld_constant].
    destruct ts1 as [|a ts1]; cbn [is_nil] in H0.
    + injection H0 as <-. cbn [ld_terms ld_constant].
      destruct (map_coefs_mul_value (read E t s) c1 ts2 HT2) as [M1 M2]. split.
      * split; [cbn; eauto|exact M2].
      * rewrite M1. destruct (terms_value _ ts2); cbn; [|reflexivity]. f_equal. ring.
    + destruct ts2 as [|b ts2]; cbn [is_nil] in H0; [|discriminate]. injection H0 as <-.
      cbn [ld_terms ld_constant].
      destruct (map_coefs_mul_value (read E t s) c2 (a :: ts1) HT1) as [M1 M2]. split.
      * split; [cbn; eauto|exact M2].
      * cbn [map_coefs map] in M1 |- *. unfold map_coefs in M1 |- *. rewrite M1. destruct (terms_value _ (a :: ts1)); cbn; [|reflexivity]. f_equal. ring.
  - inv_bind H0. inv_bind H0. destruct HF as (_ & HF1 & HF2).
    destruct (IHe1 HF1 _ H) as [[[c1 Hc1] HT1] HV1]. destruct (IHe2 HF2 _ H1) as [[[c2 Hc2] HT2] HV2].
    destruct v as [ts1 k1], v0 as [ts2 k2]. cbn [ld_terms ld_constant] in *. subst k1 k2.
    cbn [den]. rewrite <- HV1, <- HV2. clear HV1 HV2. unfold data_value. cbn [ld_terms ld_constant].
    destruct ts2 as [|b ts2]; cbn [is_nil] in H0; [|discriminate].
    inv_bind H0. inv_bind H0. injection H0 as <-. cbn [ld_terms ld_constant].
    cbn in H2. destruct (Qceqb c2 0) eqn:Ez; [discriminate|]. injection H2 as <-.
    assert (Hc2 : c2 <> 0%Qc) by now apply Qceqb_neq.
    destruct (mapM_div_value (read E t s) c2 ts1 _ Hc2 HT1 H3) as [M1 M2]. split.
    + split; [cbn; eauto|exact M2].
    + rewrite M1. destruct (finite_terms_value (read E t s) _ HT1) as [w Hw]. rewrite Hw. cbn.
      replace (c2 + 0)%Qc with c2 by ring. rewrite Ez. f_equal. field. exact Hc2.
  - inv_bind H0. injection H0 as <-. split.
    + split; [eexists; reflexivity|]. constructor; [cbn; eexists; reflexivity|constructor].
    + unfold data_value, terms_value. cbn [ld_constant ld_terms map]. rewrite osum_cons. cbn.
      unfold read. cbn. rewrite (get_timestep_default _ _ _ _ Hot H), (get_scenario_default _ _ _ Hos).
      f_equal. ring.
  - inv_bind H0. destruct vp as [g|]; [|discriminate]. inv_bind H0. injection H0 as <-.
    destruct (Hg g eq_refl _ _ _ _ _ H1) as (q & -> & Hq). split.
    + split; [eexists; reflexivity|constructor].
    + cbn. rewrite (get_timestep_default _ _ _ _ Hot H), (get_scenario_default _ _ _ Hos) in Hq.
      rewrite Hq. f_equal. ring.
Qed.

(** ** At most one term for each decision mentioned *)
Lemma lin_build_length E ot os vp e : forall d, lin_build ot os vp e = Ok d ->
  (List.length (ld_terms d) <= mentions E (fun _ _ => O) e)%nat.
Proof.
  induction e using expr_ind'; intros d0 H0.
  3:{ cbn [lin_build] in H0. inv_bind H0. injection H0 as <-. rewrite lin_fold_terms. cbn [ld_terms app mentions].
      apply mapM_ok in H1. clear -H H1. induction H1 as [|a b l v Hab Hl IHl]; [cbn; lia|].
      pose proof (Forall_inv H b Hab) as H2. specialize (IHl (Forall_inv_tail H)).
      cbn [map concat]. rewrite app_length. unfold list_sum in *. cbn [fold_right]. lia. }
  all: cbn [lin_build] in H0; try discriminate.
  - injection H0 as <-. cbn. lia.
  - inv_bind H0. injection H0 as <-. cbn [ld_terms mentions]. unfold map_coefs. rewrite map_length. now apply IHe.
  - inv_bind H0. inv_bind H0. specialize (IHe1 _ H). specialize (IHe2 _ H1). cbn [mentions].
    destruct (is_nil (ld_terms v)); [|destruct (is_nil (ld_terms v0)); [|discriminate]]; injection H0 as <-; cbn [ld_terms];
      unfold map_coefs; rewrite map_length; (eapply Nat.le_trans; [eassumption|lia]).
  - inv_bind H0. inv_bind H0. specialize (IHe1 _ H). specialize (IHe2 _ H1). cbn [mentions].
    destruct (is_nil (ld_terms v0)); [|discriminate]. inv_bind H0. inv_bind H0. injection H0 as <-. cbn [ld_terms].
    pose proof (mapM_length _ _ _ H3) as HL. unfold term in *. rewrite HL. eapply Nat.le_trans; [exact IHe1|lia].
  - inv_bind H0. injection H0 as <-. cbn. lia.
  - inv_bind H0. destruct vp; [|discriminate]. inv_bind H0. injection H0 as <-. cbn. lia.
Qed.
Lemma dset_length (d : terms_dict) k c : (List.length (dset tk_eqb k c d) <= S (List.length d))%nat.
Proof. induction d as [|[k' c'] d IH]; cbn; [lia|]. destruct (tk_eqb _ _); cbn; lia. Qed.
Lemma accumulate_fold_length l : forall d, (List.length (fold_left accumulate l d) <= List.length d + List.length l)%nat.
Proof.
  induction l as [|t l IH]; intros d; cbn [fold_left length]; [lia|]. eapply Nat.le_trans; [apply IH|].
  unfold accumulate at 1. destruct (dget _ _ _) eqn:Eg; [|rewrite app_length; cbn; lia].
  pose proof (dset_length d (fst t) (nadd n (snd t))). lia.
Qed.
Lemma filter_length {A} (f : A -> bool) l : (List.length (filter f l) <= List.length l)%nat.
Proof. induction l as [|a l IH]; cbn; [lia|]. destruct (f a); cbn; lia. Qed.
Lemma linearize_few e ot os vp L :
  linearize_expression e ot os vp = Ok L -> finite_literals e ->
  exists dropped, (forall E, few (mentions E (fun _ _ => O) e) dropped) /\ distinct_keys dropped /\
    (forall kt, In kt dropped -> ~ In (fst kt) (map fst (le_terms L))) /\
    forall E t s, ot = None \/ ot = Some t -> os = None \/ os = Some s ->
      (forall g, vp = Some g -> getter_gives g E t s) ->
      exists v w, den E e t s = Some v /\ le_value (read E t s) L = Some w /\
        olift2 Qcplus (Some w) (terms_value (read E t s) dropped) = Some v.
Proof.
  intros H HF. unfold linearize_expression in H. inv_bind H. injection H as <-.
  set (d := fold_left accumulate (ld_terms v) []).
  assert (Hnd : distinct_keys d) by (apply accumulate_fold_nodup; constructor).
  exists (small_terms d). split.
  { intros E. split; [|apply small_terms_negligible]. unfold small_terms. eapply Nat.le_trans; [apply filter_length|].
    eapply Nat.le_trans; [apply accumulate_fold_length|]. cbn [length]. now apply (lin_build_length E) in H0. }
  split; [now apply filter_keys_nodup|]. split.
  - intros kt Hin. now apply small_not_kept.
  - intros E t s Hot Hos Hg.
    destruct (lin_build_den E t s ot os vp e Hot Hos Hg HF _ H0) as [HD HV].
    destruct (finite_data_value (read E t s) _ HD) as [w Hw].
    assert (Hk : oplus (le_value (read E t s) (ld_to_expr v)) (terms_value (read E t s) (small_terms d)) = Some w).
    { rewrite <- Hw. unfold le_value, ld_to_expr, data_value. cbn [le_of_dict le_terms le_constant].
      fold d. rewrite <- oplus_assoc, <- non_zero_value. unfold d. rewrite accumulate_fold_value.
      cbn. f_equal. apply oplus_0_l. }
    destruct (le_value (read E t s) (ld_to_expr v)) as [u|] eqn:Eu; [|discriminate Hk].
    exists w, u. split; [congruence|]. split; [reflexivity|exact Hk].
Qed.

Lemma linearize_value e ot os vp L :
  linearize_expression e ot os vp = Ok L -> finite_literals e ->
  exists dropped, negligible dropped /\ distinct_keys dropped /\
    (forall kt, In kt dropped -> ~ In (fst kt) (map fst (le_terms L))) /\
    forall E t s, ot = None \/ ot = Some t -> os = None \/ os = Some s ->
      (forall g, vp = Some g -> getter_gives g E t s) ->
      exists v w, den E e t s = Some v /\ le_value (read E t s) L = Some w /\
        olift2 Qcplus (Some w) (terms_value (read E t s) dropped) = Some v.
Proof.
  intros H HF. destruct (linearize_few e ot os vp L H HF) as (d & Hd & H1 & H2 & H3). exists d.
  split; [exact (proj2 (Hd {| e_var := fun _ _ _ => 0%Qc; e_par := fun _ _ _ => None; e_cvar := fun _ _ _ _ => 0%Qc;
    e_cpar := fun _ _ _ _ => None; e_port := fun _ _ => []; e_T := 0; e_S := 0 |}))|auto].
Qed.

Lemma linearize_normal e ot os vp L :
  linearize_expression e ot os vp = Ok L -> normal_form L.
Proof.
  intros H. unfold linearize_expression in H. inv_bind H. injection H as <-.
  unfold ld_to_expr. apply non_zero_normal. apply accumulate_fold_nodup. constructor.
Qed.

(** ** C16 *)
Definition no_pvar (x : expr) : Prop := match x with PVar _ _ _ _ => False | _ => True end.

Lemma lin_terms_nil ot os vp e : forall d, lin_build ot os vp e = Ok d ->
  (ld_terms d = [] <-> all_nodes no_pvar e).
Proof.
  induction e using expr_ind'; intros d0 H0.
  3:{ cbn [lin_build] in H0. inv_bind H0. injection H0 as <-. rewrite lin_fold_terms. cbn [ld_terms app].
      rewrite all_nodes_Add. apply mapM_ok in H1. 
      assert (HG : concat (map ld_terms v) = [] <-> Forall (all_nodes no_pvar) l).
      { induction H1 as [|a b l v Hab Hl IHl]; [split; auto|]. pose proof (Forall_inv H _ Hab) as H2.
        cbn [map concat]. specialize (IHl (Forall_inv_tail H)). split.
        - intros Hc. apply app_eq_nil in Hc. constructor; tauto.
        - intros HF. inversion HF; subst. rewrite (proj2 H2), (proj2 IHl); auto. }
      rewrite HG. cbn [no_pvar]. tauto. }
  all: cbn [lin_build] in H0; try discriminate.
  - injection H0 as <-. cbn. tauto.
  - inv_bind H0. injection H0 as <-. specialize (IHe _ H). cbn [ld_terms all_nodes no_pvar].
    rewrite <- IHe. destruct (ld_terms v); cbn; split; try tauto; try discriminate.
    intros [_ ?]; discriminate.
  - inv_bind H0. inv_bind H0. specialize (IHe1 _ H). specialize (IHe2 _ H1).
    cbn [all_nodes no_pvar]. rewrite <- IHe1, <- IHe2.
    destruct v as [[|a ts1] k1], v0 as [[|b ts2] k2]; cbn [ld_terms is_nil] in *; try discriminate;
      injection H0 as <-; cbn; split; try tauto; try discriminate; intros (_ & ? & ?); discriminate.
  - inv_bind H0. inv_bind H0. specialize (IHe1 _ H). specialize (IHe2 _ H1).
    cbn [all_nodes no_pvar]. rewrite <- IHe1, <- IHe2.
    destruct v0 as [[|b ts2] k2]; cbn [ld_terms is_nil ld_constant] in *; [|discriminate].
    inv_bind H0. inv_bind H0. injection H0 as <-. cbn [ld_terms].
    apply mapM_div_const in H3. destruct (ld_terms v), v1; try discriminate; split; try tauto; try discriminate.
    intros (_ & ? & ?); discriminate.
  - inv_bind H0. injection H0 as <-. cbn. split; [discriminate|tauto].
  - inv_bind H0. destruct vp; [|discriminate]. inv_bind H0. injection H0 as <-. cbn. tauto.
Qed.

Lemma accumulate_not_nil l : forall d, fold_left accumulate l d = [] <-> l = [] /\ d = [].
Proof.
  induction l as [|a l IH]; intros d; cbn [fold_left]; [tauto|]. rewrite IH. split; [|intros [? _]; discriminate].
  intros [-> H]. exfalso. unfold accumulate in H. destruct (dget tk_eqb (fst a) d) eqn:E.
  - destruct d as [|[k v] d]; cbn in *; [discriminate|]. destruct (tk_eqb (fst a) k); discriminate.
  - destruct d; discriminate.
Qed.

(** degree against linearisation *)
Lemma py_max_ok l m : py_max l = Ok m -> (forall x, In x l -> (x <= m)%nat) /\ In m l.
Proof.
  destruct l as [|a l]; [discriminate|]. cbn. intros H. injection H as <-.
  revert a. induction l as [|b l IH]; intros a; cbn [fold_left].
  - split; [intros x [<-|[]]; auto|now left].
  - destruct (IH (Nat.max a b)) as [H1 H2]. split.
    + intros x [<-|[<-|Hx]].
      * specialize (H1 _ (or_introl eq_refl)). lia.
      * specialize (H1 _ (or_introl eq_refl)). lia.
      * apply H1. now right.
    + destruct H2 as [H2|H2].
      * destruct (Nat.max_spec a b) as [[_ Hm]|[_ Hm]]; rewrite Hm in H2.
        -- right. left. rewrite Hm. exact H2.
        -- left. rewrite Hm. exact H2.
      * right. now right.
Qed.

Lemma degree0_no_pvar e : indexed_arithmetic e -> forall d, compute_degree e = Ok d ->
  (d = 0%nat <-> all_nodes no_pvar e).
Proof.
  unfold indexed_arithmetic. induction e using expr_ind'; intros HI d Hd.
  3:{ apply all_nodes_Add in HI. destruct HI as [_ HI]. cbn [compute_degree] in Hd. inv_bind Hd.
      apply py_max_ok in Hd. destruct Hd as [Hmax Hin]. rewrite all_nodes_Add. cbn [no_pvar].
      apply mapM_ok in H0.
      assert (HG : (forall x, In x v -> x = 0%nat) <-> Forall (all_nodes no_pvar) l).
      { clear Hmax Hin. induction H0 as [|a b l v Hab Hl IHl]; [split; [constructor|intros _ x []]|].
        specialize (IHl (Forall_inv_tail H) (Forall_inv_tail HI)). pose proof (Forall_inv H (Forall_inv HI) _ Hab) as H3. split.
        - intros Hx. constructor; [apply H3; apply Hx; now left|]. apply IHl. intros; apply Hx; now right.
        - intros HF x [<-|Hx]; inversion HF; subst; [tauto|]. apply IHl; auto. }
      rewrite <- HG. split.
      - intros ->. split; [exact I|]. intros x Hx. apply Hmax in Hx. lia.
      - intros [_ Hz]. auto. }
  all: cbn [all_nodes] in HI; try tauto; cbn [compute_degree] in Hd; cbn [all_nodes no_pvar].
  - injection Hd as <-. tauto.
  - rewrite (IHe (proj2 HI) _ Hd). tauto.
  - inv_bind Hd. inv_bind Hd. injection Hd as <-. destruct HI as (_ & H1 & H2).
    rewrite <- (IHe1 H1 _ H), <- (IHe2 H2 _ H0). lia.
  - inv_bind Hd. destruct HI as (_ & H1 & H2). destruct (Nat.eqb v 0) eqn:E; [|discriminate].
    apply Nat.eqb_eq in E. subst v. rewrite <- (IHe1 H1 _ Hd), <- (IHe2 H2 _ H). lia.
  - injection Hd as <-. split; [discriminate|tauto].
  - injection Hd as <-. tauto.
Qed.

Definition all_data_available (vp : option parameter_getter) : Prop :=
  exists g, vp = Some g /\ forall c n ot os, exists v, g c n ot os = Ok v.

Lemma mapM_case {A B} (f : A -> result B) (e0 : err) l :
  (forall a, In a l -> (exists b, f a = Ok b) \/ f a = Err e0) ->
  (exists bs, mapM f l = Ok bs) \/ mapM f l = Err e0.
Proof.
  induction l as [|a l IH]; intros H; [left; eexists; reflexivity|].
  destruct (H a (or_introl eq_refl)) as [[b Hb]|He]; cbn; [rewrite Hb; cbn|right; now rewrite He].
  destruct IH as [[bs Hbs]|He]; [intros; apply H; now right| |].
  - left. rewrite Hbs. eexists; reflexivity.
  - right. rewrite He. reflexivity.
Qed.

(** degree at most one: no non-linearity error; the only failure is a division by zero *)
Lemma degree1_linearizable t os vp e : all_data_available vp -> indexed_arithmetic e ->
  forall d, compute_degree e = Ok d -> (d <= 1)%nat ->
  (exists D, lin_build (Some t) os vp e = Ok D) \/ lin_build (Some t) os vp e = Err ZeroDivisionError.
Proof.
  intros (g & -> & Hg). unfold indexed_arithmetic. induction e using expr_ind'; intros HI d Hd Hle.
  3:{ apply all_nodes_Add in HI. destruct HI as [_ HI]. cbn [compute_degree] in Hd. inv_bind Hd.
      apply py_max_ok in Hd. destruct Hd as [Hmax Hin]. apply mapM_ok in H0. cbn [lin_build].
      destruct (mapM_case (lin_build (Some t) os (Some g)) ZeroDivisionError l) as [[bs Hbs]|He].
      - intros a Ha. rewrite Forall_forall in H, HI.
        assert (exists b, In b v /\ compute_degree a = Ok b).
        { clear - H0 Ha. induction H0 as [|a' b l v Hab Hl IHl]; [destruct Ha|].
          destruct Ha as [<-|Ha]; [exists b; split; [now left|auto]|].
          destruct (IHl Ha) as (b' & Hb & Hb'). exists b'. split; [now right|auto]. }
        destruct H1 as (b & Hb & Hab). apply (H a Ha (HI a Ha) b Hab). apply Hmax in Hb. lia.
      - left. rewrite Hbs. eexists; reflexivity.
      - right. rewrite He. reflexivity. }
  all: cbn [all_nodes] in HI; try tauto; cbn [compute_degree] in Hd; cbn [lin_build].
  - left; eexists; reflexivity.
  - destruct (IHe (proj2 HI) _ Hd Hle) as [[D HD]|HD]; rewrite HD; cbn; [left; eexists; reflexivity|now right].
  - inv_bind Hd. inv_bind Hd. injection Hd as <-. destruct HI as (_ & H1 & H2).
    destruct (IHe1 H1 _ H ltac:(lia)) as [[D1 HD1]|HD1]; rewrite HD1; cbn [bind]; [|now right].
    destruct (IHe2 H2 _ H0 ltac:(lia)) as [[D2 HD2]|HD2]; rewrite HD2; cbn [bind]; [|now right].
    left. assert (Hv : v = 0%nat \/ v0 = 0%nat) by lia. destruct Hv as [->| ->].
    + pose proof (proj1 (degree0_no_pvar e1 H1 0 H) eq_refl) as Hn.
      apply (lin_terms_nil _ _ _ _ _ HD1) in Hn. rewrite Hn. cbn. eexists; reflexivity.
    + pose proof (proj1 (degree0_no_pvar e2 H2 0 H0) eq_refl) as Hn.
      apply (lin_terms_nil _ _ _ _ _ HD2) in Hn. rewrite Hn. cbn.
      destruct (is_nil (ld_terms D1)); eexists; reflexivity.
  - inv_bind Hd. destruct HI as (_ & H1 & H2). destruct (Nat.eqb v 0) eqn:E; [|discriminate].
    apply Nat.eqb_eq in E. subst v.
    destruct (IHe1 H1 _ Hd Hle) as [[D1 HD1]|HD1]; rewrite HD1; cbn [bind]; [|now right].
    destruct (IHe2 H2 _ H ltac:(lia)) as [[D2 HD2]|HD2]; rewrite HD2; cbn [bind]; [|now right].
    pose proof (proj1 (degree0_no_pvar e2 H2 0 H) eq_refl) as Hn.
    apply (lin_terms_nil _ _ _ _ _ HD2) in Hn. rewrite Hn. cbn [is_nil].
    assert (Hdiv : forall a, (exists b, ndiv a (ld_constant D2) = Ok b) \/ ndiv a (ld_constant D2) = Err ZeroDivisionError).
    { intros a. unfold ndiv. destruct (ld_constant D2); eauto. destruct (Qceqb q 0); eauto. }
    destruct (Hdiv (ld_constant D1)) as [[c Hc]|Hc]; rewrite Hc; cbn [bind]; [|now right].
    match goal with |- context [mapM ?f ?l] =>
      destruct (mapM_case f ZeroDivisionError l) as [[bs Hbs]|Hbs] end.
    { intros a _. destruct (Hdiv (snd a)) as [[q Hq]|Hq]; rewrite Hq; cbn; eauto. }
    + rewrite Hbs. left. eexists; reflexivity.
    + rewrite Hbs. now right.
  - left. destruct ti; cbn; eexists; reflexivity.
  - left. destruct ti; cbn; edestruct Hg as [w Hw]; rewrite Hw; cbn; eexists; reflexivity.
Qed.

(** conversely, what linearises has degree at most one *)
Lemma linearizable_degree1 ot os vp e : indexed_arithmetic e ->
  forall D, lin_build ot os vp e = Ok D -> exists d, compute_degree e = Ok d /\ (d <= 1)%nat.
Proof.
  unfold indexed_arithmetic. induction e using expr_ind'; intros HI D HD.
  3:{ apply all_nodes_Add in HI. destruct HI as [HI0 HI]. cbn [lin_build] in HD. inv_bind HD. clear HD.
      apply mapM_ok in H0. cbn [compute_degree].
      assert (HG : exists ds, mapM compute_degree l = Ok ds /\ Forall (fun d => (d <= 1)%nat) ds).
      { clear HI0. induction H0 as [|a b l v Hab Hl IHl]; [exists []; split; [reflexivity|constructor]|].
        destruct (IHl (Forall_inv_tail H) (Forall_inv_tail HI)) as (ds & Hds & HF).
        destruct (Forall_inv H (Forall_inv HI) _ Hab) as (d & Hd & Hle). exists (d :: ds). cbn. rewrite Hd, Hds.
        split; [reflexivity|constructor; auto]. }
      destruct HG as (ds & Hds & HF). rewrite Hds. cbn [bind].
      destruct ds as [|d ds]; [apply mapM_length in Hds; destruct l; [congruence|discriminate]|].
      cbn [py_max]. eexists; split; [reflexivity|].
      assert (Hp : py_max (d :: ds) = Ok (fold_left Nat.max ds d)) by reflexivity.
      apply py_max_ok in Hp. rewrite Forall_forall in HF. apply HF. tauto. }
  all: cbn [all_nodes] in HI; try tauto; cbn [lin_build] in HD; cbn [compute_degree].
  - eauto.
  - inv_bind HD. eapply IHe; eauto. tauto.
  - inv_bind HD. inv_bind HD. destruct HI as (_ & H1 & H2).
    destruct (IHe1 H1 _ H) as (d1 & Hd1 & Hl1), (IHe2 H2 _ H0) as (d2 & Hd2 & Hl2).
    rewrite Hd1, Hd2. cbn [bind]. eexists; split; [reflexivity|].
    destruct v as [[|a ts1] k1] eqn:E1; cbn [ld_terms is_nil] in HD.
    + assert (Hz : d1 = 0%nat).
      { apply (degree0_no_pvar e1 H1 d1 Hd1). apply (lin_terms_nil _ _ _ _ _ H). reflexivity. }
      lia.
    + destruct v0 as [[|b ts2] k2] eqn:E2; cbn [ld_terms is_nil] in HD; [|discriminate].
      assert (Hz : d2 = 0%nat).
      { apply (degree0_no_pvar e2 H2 d2 Hd2). apply (lin_terms_nil _ _ _ _ _ H0). reflexivity. }
      lia.
  - inv_bind HD. inv_bind HD. destruct HI as (_ & H1 & H2).
    destruct (IHe1 H1 _ H) as (d1 & Hd1 & Hl1), (IHe2 H2 _ H0) as (d2 & Hd2 & Hl2).
    rewrite Hd2. cbn [bind]. destruct v0 as [[|b ts2] k2] eqn:E2; cbn [ld_terms is_nil] in HD; [|discriminate].
    assert (Hz : d2 = 0%nat).
    { apply (degree0_no_pvar e2 H2 d2 Hd2). apply (lin_terms_nil _ _ _ _ _ H0). reflexivity. }
    subst d2. cbn [Nat.eqb]. eauto.
  - eauto.
  - eauto.
Qed.

Lemma has_variable_terms ot os vp e D : lin_build ot os vp e = Ok D ->
  has_variable e -> ld_terms D <> [].
Proof. intros H Hv He. apply Hv. apply (lin_terms_nil _ _ _ _ _ H) in He. exact He. Qed.

Lemma nonlinear_product ot os vp a b :
  has_variable a -> has_variable b ->
  forall L, linearize_expression (Mul a b) ot os vp <> Ok L.
Proof.
  intros Ha Hb L H. unfold linearize_expression in H. inv_bind H. cbn [lin_build] in H0.
  inv_bind H0. inv_bind H0. pose proof (has_variable_terms _ _ _ _ _ H1 Ha).
  pose proof (has_variable_terms _ _ _ _ _ H2 Hb).
  destruct (ld_terms v0); [congruence|]. destruct (ld_terms v1); [congruence|]. discriminate.
Qed.
Lemma nonlinear_product_error ot os vp a b A B :
  has_variable a -> has_variable b ->
  linearize_expression a ot os vp = Ok A -> linearize_expression b ot os vp = Ok B ->
  linearize_expression (Mul a b) ot os vp = Err ValueError.
Proof.
  intros Ha Hb HA HB. unfold linearize_expression in *. inv_bind HA. inv_bind HB. cbn [lin_build].
  rewrite H, H0. cbn [bind]. pose proof (has_variable_terms _ _ _ _ _ H Ha).
  pose proof (has_variable_terms _ _ _ _ _ H0 Hb).
  destruct (ld_terms v); [congruence|]. destruct (ld_terms v0); [congruence|]. reflexivity.
Qed.
Lemma nonlinear_division_error ot os vp a b A B :
  has_variable b ->
  linearize_expression a ot os vp = Ok A -> linearize_expression b ot os vp = Ok B ->
  linearize_expression (Div a b) ot os vp = Err ValueError.
Proof.
  intros Hb HA HB. unfold linearize_expression in *. inv_bind HA. inv_bind HB. cbn [lin_build].
  rewrite H, H0. cbn [bind]. pose proof (has_variable_terms _ _ _ _ _ H0 Hb).
  destruct (ld_terms v0); [congruence|]. reflexivity.
Qed.
Lemma nonlinear_division ot os vp a b :
  has_variable b -> forall L, linearize_expression (Div a b) ot os vp <> Ok L.
Proof.
  intros Hb L H. unfold linearize_expression in H. inv_bind H. cbn [lin_build] in H0.
  inv_bind H0. inv_bind H0. pose proof (has_variable_terms _ _ _ _ _ H2 Hb).
  destruct (ld_terms v1); [congruence|]. discriminate.
Qed.
Lemma constant_no_terms ot os vp e L : indexed_arithmetic e -> is_constant e = Ok true ->
  linearize_expression e ot os vp = Ok L -> le_terms L = [].
Proof.
  intros HI Hc HL. unfold is_constant in Hc. inv_bind Hc. injection Hc as Hc. apply Nat.eqb_eq in Hc. subst v.
  unfold linearize_expression in HL. inv_bind HL. injection HL as <-.
  pose proof (proj1 (degree0_no_pvar _ HI _ H) eq_refl) as Hn. apply (lin_terms_nil _ _ _ _ _ H0) in Hn.
  unfold ld_to_expr. rewrite Hn. reflexivity.
Qed.
