(** Facts about the arithmetic of linear expressions (C41). *)
From Coq Require Import Lia Permutation.
From Verif Require Import Base Expr LinearExpr Linearize BaseFacts SpecExpr SpecLinear ExprFacts ExpansionFacts LinearFacts.


(** ** merging *)
Section Merge.
  Variable x : assignment.
  Variable g : option Qc -> option Qc.
  Variable f : option num -> option num -> num.
  Hypothesis f_both : forall k a b,
    term_value x (k, f (Some a) (Some b)) = oplus (term_value x (k, a)) (g (term_value x (k, b))).
  Hypothesis f_left : forall a, f (Some a) None = a.
  Hypothesis f_right : forall k b, term_value x (k, f None (Some b)) = g (term_value x (k, b)).

  Let gv (r : terms_dict) (k : term_key) : option Qc :=
    match dget tk_eqb k r with Some b => g (term_value x (k, b)) | None => Some 0%Qc end.

  Lemma filter_ext_notin k (l r : terms_dict) : ~ In k (map fst r) ->
    filter (fun kv => negb (dmem tk_eqb (fst kv) l)) r =
    filter (fun kv => negb (dmem tk_eqb (fst kv) ((k, n0) :: l))) r.
  Proof.
    intros H. induction r as [|[k' b] r IH]; [reflexivity|]. cbn [filter fst] in *.
    assert (Hd : dmem tk_eqb k' ((k, n0) :: l) = dmem tk_eqb k' l).
    { unfold dmem. cbn [dget]. destruct (tk_eqb k' k) eqn:E; [|reflexivity]. apply tk_eqb_eq in E. subst.
      exfalso. apply H. now left. }
    rewrite Hd, IH; [reflexivity|]. intros Hin. apply H. now right.
  Qed.

  Lemma dmem_cons_key k v w (l : terms_dict) k' :
    dmem tk_eqb k' ((k, v) :: l) = dmem tk_eqb k' ((k, w) :: l).
  Proof. unfold dmem. cbn [dget]. destruct (tk_eqb k' k); reflexivity. Qed.

  Lemma merge_step k (l r : terms_dict) : dmem tk_eqb k l = false -> distinct_keys r ->
    osum (map (fun kv => g (term_value x kv)) (filter (fun kv => negb (dmem tk_eqb (fst kv) l)) r)) =
    oplus (gv r k) (osum (map (fun kv => g (term_value x kv))
      (filter (fun kv => negb (dmem tk_eqb (fst kv) ((k, n0) :: l))) r))).
  Proof.
    intros Hk. induction r as [|[k' b] r IH]; intros Hnd.
    - unfold gv. cbn. now rewrite Qcplus_0_l.
    - inversion Hnd; subst. cbn [filter fst]. unfold gv. cbn [dget].
      destruct (tk_eqb k k') eqn:E.
      + apply tk_eqb_eq in E. subst k'. rewrite Hk. cbn [negb map].
        assert (Hm : dmem tk_eqb k ((k, n0) :: l) = true).
        { unfold dmem. cbn [dget]. assert (tk_eqb k k = true) as -> by now apply tk_eqb_eq. reflexivity. }
        rewrite Hm. cbn [negb]. rewrite osum_cons. f_equal. f_equal. f_equal. now apply filter_ext_notin.
      + assert (Hm : dmem tk_eqb k' ((k, n0) :: l) = dmem tk_eqb k' l).
        { unfold dmem. cbn [dget]. destruct (tk_eqb k' k) eqn:E'; [|reflexivity].
          apply tk_eqb_eq in E'. subst k'. assert (tk_eqb k k = true) by now apply tk_eqb_eq. congruence. }
        rewrite Hm. fold (gv r k). destruct (dmem tk_eqb k' l); cbn [negb map].
        * now apply IH.
        * rewrite !osum_cons, (IH H2), !oplus_assoc. f_equal. apply oplus_comm.
  Qed.

  Lemma merge_rest (l r : terms_dict) : distinct_keys l -> distinct_keys r ->
    oplus (osum (map (fun kv => gv r (fst kv)) l))
      (osum (map (fun kv => g (term_value x kv)) (filter (fun kv => negb (dmem tk_eqb (fst kv) l)) r)))
    = osum (map (fun kv => g (term_value x kv)) r).
  Proof.
    intros Hl Hr. induction l as [|[k v] l IH].
    - cbn [map]. change (osum []) with (Some 0%Qc). rewrite oplus_0_l. f_equal. f_equal.
      induction r as [|a r IHr]; [reflexivity|]. cbn [filter dmem dget negb]. f_equal.
      apply IHr. now inversion Hr.
    - inversion Hl; subst. specialize (IH H2). cbn [map fst]. rewrite osum_cons, <- IH.
      rewrite (merge_step k l r).
      + rewrite <- !oplus_assoc, !(oplus_comm (gv r k)), <- !oplus_assoc. f_equal. f_equal. f_equal. f_equal.
        apply filter_ext. intros kv. f_equal. apply dmem_cons_key.
      + destruct (dmem tk_eqb k l) eqn:E; [|reflexivity]. apply (dmem_In tk_eqb tk_eqb_eq) in E. contradiction.
      + exact Hr.
  Qed.

  Lemma merge_value (l r : terms_dict) : distinct_keys l -> distinct_keys r ->
    terms_value x (merge_dicts l r f) =
    oplus (terms_value x l) (osum (map (fun kv => g (term_value x kv)) r)).
  Proof.
    intros Hl Hr. rewrite <- (merge_rest l r Hl Hr), oplus_assoc.
    unfold merge_dicts. rewrite terms_value_app. f_equal.
    - unfold terms_value. rewrite <- osum_map_oplus, map_map. f_equal. apply map_ext. intros [k a].
      cbn [fst snd]. unfold gv. destruct (dget tk_eqb k r).
      + apply f_both.
      + rewrite f_left. symmetry. apply oplus_0_r.
    - unfold terms_value. rewrite map_map. f_equal. apply map_ext. intros [k b]. apply f_right.
  Qed.
End Merge.

Lemma NoDup_app_intro {A} (l m : list A) :
  NoDup l -> NoDup m -> (forall k, In k l -> ~ In k m) -> NoDup (l ++ m).
Proof.
  induction l as [|a l IH]; intros Hl Hm H; cbn; auto. inversion Hl; subst. constructor.
  - intros Hin. apply in_app_or in Hin. destruct Hin; [contradiction|]. apply (H a); [now left|auto].
  - apply IH; auto. intros k Hk. apply H. now right.
Qed.

Lemma merge_nodup l r f : distinct_keys l -> distinct_keys r -> distinct_keys (merge_dicts l r f).
Proof.
  unfold distinct_keys, merge_dicts. intros Hl Hr. rewrite map_app, !map_map. cbn [fst].
  apply NoDup_app_intro; [exact Hl|now apply filter_keys_nodup|].
  intros k Hk Hin. apply in_map_iff in Hin. destruct Hin as (kv & <- & Hin). apply filter_In in Hin.
  destruct Hin as [_ Hn]. apply (dmem_In tk_eqb tk_eqb_eq) in Hk. rewrite Hk in Hn. discriminate.
Qed.

Lemma remove_zeros_value x d :
  oplus (terms_value x (remove_zeros d)) (terms_value x (small_terms d)) = terms_value x d.
Proof. symmetry. apply non_zero_value. Qed.

Definition iadd_dropped (a b : lin_expr) : list term :=
  small_terms (merge_dicts (le_terms a) (le_terms b) add_terms).
Definition isub_dropped (a b : lin_expr) : list term :=
  small_terms (merge_dicts (le_terms a) (le_terms b) substract_terms).

Lemma iadd_value x a b : distinct_keys (le_terms a) -> distinct_keys (le_terms b) ->
  oplus (le_value x (le_iadd a b)) (terms_value x (iadd_dropped a b)) = oplus (le_value x a) (le_value x b).
Proof.
  intros Ha Hb. unfold le_value, le_iadd, iadd_dropped. cbn [le_constant le_terms].
  rewrite nval_nadd, <- oplus_assoc, remove_zeros_value.
  rewrite (merge_value x (fun v => v) add_terms); auto.
  - fold (terms_value x (le_terms b)). rewrite <- !oplus_assoc. f_equal.
    rewrite !oplus_assoc. f_equal. apply oplus_comm.
  - intros k u v. apply term_value_nadd.
Qed.
Lemma isub_value x a b : distinct_keys (le_terms a) -> distinct_keys (le_terms b) ->
  oplus (le_value x (le_isub a b)) (terms_value x (isub_dropped a b)) = olift2 Qcminus (le_value x a) (le_value x b).
Proof.
  intros Ha Hb. unfold le_value, le_isub, isub_dropped. cbn [le_constant le_terms].
  rewrite nval_nsub, <- oplus_assoc, remove_zeros_value.
  rewrite (merge_value x (option_map Qcopp) substract_terms); auto.
  - rewrite (osum_opp (term_value x)). fold (terms_value x (le_terms b)).
    destruct (nval (le_constant a)), (nval (le_constant b)), (terms_value x (le_terms a)),
      (terms_value x (le_terms b)); cbn; try reflexivity. f_equal. ring.
  - intros k u v. cbn [substract_terms]. unfold nsub. now rewrite term_value_nadd, term_value_nneg.
  - intros k b0. apply term_value_nneg.
Qed.

Lemma iadd_distinct a b : distinct_keys (le_terms a) -> distinct_keys (le_terms b) ->
  distinct_keys (le_terms (le_iadd a b)) /\ distinct_keys (iadd_dropped a b).
Proof.
  intros Ha Hb. split; apply filter_keys_nodup; now apply merge_nodup.
Qed.
Lemma isub_distinct a b : distinct_keys (le_terms a) -> distinct_keys (le_terms b) ->
  distinct_keys (le_terms (le_isub a b)) /\ distinct_keys (isub_dropped a b).
Proof.
  intros Ha Hb. split; apply filter_keys_nodup; now apply merge_nodup.
Qed.

Lemma filter_negb_all {A} (p : A -> bool) l : (forall a, In a l -> p a = false) -> filter p l = [].
Proof.
  induction l as [|a l IH]; intros H; [reflexivity|]. cbn. rewrite (H a (or_introl eq_refl)).
  apply IH. intros; apply H; now right.
Qed.
Lemma filter_all_true {A} (p : A -> bool) l : (forall a, In a l -> p a = true) -> filter p l = l.
Proof.
  induction l as [|a l IH]; intros H; [reflexivity|]. cbn. rewrite (H a (or_introl eq_refl)).
  f_equal. apply IH. intros; apply H; now right.
Qed.

Lemma empty_iadd_terms a :
  le_terms (le_iadd le_empty a) = non_zero_terms (le_terms a) /\
  iadd_dropped le_empty a = small_terms (le_terms a).
Proof.
  assert (Hm : merge_dicts (le_terms le_empty) (le_terms a) add_terms = le_terms a).
  { unfold merge_dicts. cbn [le_empty le_terms map app].
    rewrite filter_all_true by reflexivity. rewrite <- (map_id (le_terms a)) at 2.
    apply map_ext. intros [k v]. reflexivity. }
  unfold le_iadd, iadd_dropped. cbn [le_terms le_constant] in *. rewrite Hm. auto.
Qed.

Lemma normal_no_small a : normal_form a -> small_terms (le_terms a) = [] /\ non_zero_terms (le_terms a) = le_terms a.
Proof.
  intros [_ H]. rewrite Forall_forall in H.
  assert (Hz : forall kt, In kt (le_terms a) -> is_zero (snd kt) = false).
  { intros kt Hin. destruct (is_zero (snd kt)) eqn:E; [|reflexivity]. exfalso. apply (H kt Hin).
    constructor; [|constructor]. now apply is_zero_true in E. }
  split.
  - apply filter_negb_all. exact Hz.
  - apply filter_all_true. intros kt Hin. now rewrite (Hz kt Hin).
Qed.

Lemma le_empty_value x : le_value x le_empty = Some 0%Qc.
Proof. reflexivity. Qed.
Lemma distinct_nil : distinct_keys [].
Proof. constructor. Qed.

Lemma empty_iadd_value x a : distinct_keys (le_terms a) ->
  oplus (le_value x (le_iadd le_empty a)) (terms_value x (small_terms (le_terms a))) = le_value x a.
Proof.
  intros H. rewrite <- (proj2 (empty_iadd_terms a)), iadd_value; auto.
  - rewrite le_empty_value. apply oplus_0_l.
  - exact distinct_nil.
Qed.

Lemma filter_incl {A} (p : A -> bool) l : incl (filter p l) l.
Proof. intros x H. now apply filter_In in H. Qed.
Lemma small_merge_keys l l' r f : incl l l' -> incl (map fst (small_terms (merge_dicts l r f))) (map fst (l' ++ r)).
Proof.
  intros I k H. apply in_map_iff in H. destruct H as (kv & <- & H). apply filter_incl in H. unfold merge_dicts in H.
  rewrite map_app. apply in_or_app. apply in_app_or in H. destruct H as [H|H]; apply in_map_iff in H; destruct H as (kt & <- & H).
  - left. cbn [fst]. apply in_map. now apply I.
  - right. cbn [fst]. apply in_map. now apply filter_incl in H.
Qed.
Lemma empty_iadd_incl a : incl (le_terms (le_iadd le_empty a)) (le_terms a).
Proof. rewrite (proj1 (empty_iadd_terms a)). apply filter_incl. Qed.

Lemma add_value a b : distinct_keys (le_terms a) -> distinct_keys (le_terms b) ->
  exists d1 d2, negligible d1 /\ negligible d2 /\ distinct_keys d1 /\ distinct_keys d2 /\
    incl d1 (le_terms a) /\ incl (map fst d2) (map fst (le_terms a ++ le_terms b)) /\
    (normal_form a -> d1 = []) /\
    forall x, oplus (le_value x (le_add a b)) (terms_value x (d1 ++ d2)) = oplus (le_value x a) (le_value x b).
Proof.
  intros Ha Hb. exists (small_terms (le_terms a)), (iadd_dropped (le_iadd le_empty a) b).
  assert (Hd : distinct_keys (le_terms (le_iadd le_empty a)))
    by (apply iadd_distinct; [apply distinct_nil|exact Ha]).
  split; [apply small_terms_negligible|]. split; [apply small_terms_negligible|].
  split; [now apply filter_keys_nodup|]. split; [now apply iadd_distinct|].
  split; [apply filter_incl|]. split; [apply small_merge_keys, empty_iadd_incl|].
  split; [apply normal_no_small|]. intros x. unfold le_add.
  rewrite terms_value_app, (oplus_comm (terms_value x (small_terms _))), oplus_assoc, iadd_value by auto.
  rewrite <- (empty_iadd_value x a Ha). rewrite <- !oplus_assoc. f_equal. apply oplus_comm.
Qed.
Lemma sub_value a b : distinct_keys (le_terms a) -> distinct_keys (le_terms b) ->
  exists d1 d2, negligible d1 /\ negligible d2 /\ distinct_keys d1 /\ distinct_keys d2 /\
    incl d1 (le_terms a) /\ incl (map fst d2) (map fst (le_terms a ++ le_terms b)) /\
    (normal_form a -> d1 = []) /\
    forall x, oplus (le_value x (le_sub a b)) (terms_value x (d1 ++ d2))
              = olift2 Qcminus (le_value x a) (le_value x b).
Proof.
  intros Ha Hb. exists (small_terms (le_terms a)), (isub_dropped (le_iadd le_empty a) b).
  assert (Hd : distinct_keys (le_terms (le_iadd le_empty a)))
    by (apply iadd_distinct; [apply distinct_nil|exact Ha]).
  split; [apply small_terms_negligible|]. split; [apply small_terms_negligible|].
  split; [now apply filter_keys_nodup|]. split; [now apply isub_distinct|].
  split; [apply filter_incl|]. split; [apply small_merge_keys, empty_iadd_incl|].
  split; [apply normal_no_small|]. intros x. unfold le_sub.
  rewrite terms_value_app, (oplus_comm (terms_value x (small_terms _))), oplus_assoc, isub_value by auto.
  rewrite <- (empty_iadd_value x a Ha).
  destruct (le_value x (le_iadd le_empty a)), (le_value x b), (terms_value x (small_terms (le_terms a)));
    cbn; try reflexivity. f_equal. ring.
Qed.
Lemma neg_value a : distinct_keys (le_terms a) ->
  exists d, negligible d /\ distinct_keys d /\ incl (map fst d) (map fst (le_terms a)) /\ (normal_form a -> d = []) /\
    forall x, oplus (le_value x (le_neg a)) (terms_value x d) = option_map Qcopp (le_value x a).
Proof.
  intros Ha. exists (isub_dropped le_empty a). split; [apply small_terms_negligible|].
  split; [apply isub_distinct; [apply distinct_nil|exact Ha]|].
  split; [apply (small_merge_keys [] []); intros k []|]. split.
  - intros Hn. destruct (normal_no_small a Hn) as [_ Hz]. destruct Hn as [_ Hn].
    unfold isub_dropped, small_terms. apply filter_negb_all. intros kt Hin.
    unfold merge_dicts in Hin. cbn [le_empty le_terms map app] in Hin.
    rewrite filter_all_true in Hin by reflexivity. apply in_map_iff in Hin.
    destruct Hin as ([k v] & <- & Hin). cbn [fst snd substract_terms].
    rewrite Forall_forall in Hn. specialize (Hn _ Hin).
    destruct (is_zero (nneg v)) eqn:E; [|reflexivity]. exfalso. apply Hn. constructor; [|constructor].
    apply is_zero_true in E. destruct E as (c & E & Hc). cbn [snd]. exists (- c)%Qc. destruct v; try discriminate.
    cbn in E. injection E as <-. split; [f_equal; ring|]. unfold EPS in Hc. rewrite Qcabs_opp. exact Hc.
  - intros x. unfold le_neg. rewrite isub_value, le_empty_value by (auto; apply distinct_nil).
    destruct (le_value x a); cbn; [|reflexivity]. f_equal. ring.
Qed.

(** ** products and quotients *)
Lemma nval_inf q : nval (inf_times q) = None.
Proof. unfold inf_times. destruct (qsgn q); reflexivity. Qed.
Lemma nval_nmul_fin v q : nval (nmul v (Fin q)) = option_map (fun c => c * q)%Qc (nval v).
Proof. destruct v; cbn; rewrite ?nval_nneg, ?nval_inf; reflexivity. Qed.

Lemma terms_value_scale x q l :
  terms_value x (map (fun kt : term => (fst kt, nmul (snd kt) (Fin q))) l) =
  option_map (fun v => v * q)%Qc (terms_value x l).
Proof.
  induction l as [|[k v] l IH]; [cbn; f_equal; ring|].
  cbn [map fst snd]. rewrite !terms_value_cons, IH. unfold term_value. cbn [fst snd].
  rewrite nval_nmul_fin. destruct (nval v), (terms_value x l); cbn; try reflexivity. f_equal. ring.
Qed.

Lemma nval_ndiv_fin v q r : ndiv v (Fin q) = Ok r -> q <> 0%Qc /\ nval r = option_map (fun c => c / q)%Qc (nval v).
Proof.
  cbn. destruct (Qceqb q 0) eqn:E; [discriminate|]. apply Qceqb_neq in E. intros H. injection H as <-.
  split; [exact E|]. destruct v; cbn; rewrite ?nval_nneg, ?nval_inf; reflexivity.
Qed.

Lemma terms_value_divide x q l ts : q <> 0%Qc ->
  mapM (fun kt : term => r <- ndiv (snd kt) (Fin q) ;; Ok (fst kt, r)) l = Ok ts ->
  terms_value x ts = option_map (fun v => v / q)%Qc (terms_value x l).
Proof.
  intros Hq H. apply mapM_ok in H. induction H as [|[k v] kt l ts Hkt Hl IHl].
  - cbn. f_equal. field. exact Hq.
  - cbn [fst snd] in Hkt. inv_bind Hkt. injection Hkt as <-. apply nval_ndiv_fin in H.
    rewrite !terms_value_cons, IHl. unfold term_value. cbn [fst snd]. rewrite (proj2 H).
    destruct (nval v), (terms_value x l); cbn; try reflexivity. f_equal. field. exact Hq.
Qed.

Lemma is_close_0 v : is_close_abs v n0 (Fin EPS) = true <-> exists c, v = Fin c /\ (Qcabs (c - 0) < EPS)%Qc.
Proof. apply (is_close_true v 0%Qc). Qed.
Lemma is_close_1 v : is_close_abs v n1 (Fin EPS) = true <-> exists c, v = Fin c /\ (Qcabs (c - 1) < EPS)%Qc.
Proof. apply (is_close_true v 1%Qc). Qed.

(** [c'] is [c], possibly rounded to 0 or 1 when closer than 1e-16 *)
Lemma scaled (left : lin_expr) (c : Qc) :
  exists c', (c' = c \/ (c' = 0%Qc \/ c' = 1%Qc) /\ (Qcabs (c - c') < EPS)%Qc) /\
  forall r,
  (if is_close_abs (Fin c) n0 (Fin EPS) then Ok le_empty
    else if is_close_abs (Fin c) n1 (Fin EPS) then Ok left
    else Ok {| le_terms := map (fun kt => (fst kt, nmul (snd kt) (Fin c))) (le_terms left);
               le_constant := nmul (le_constant left) (Fin c) |}) = Ok r ->
  forall x v, le_value x left = Some v -> le_value x r = Some (v * c')%Qc.
Proof.
  destruct (is_close_abs (Fin c) n0 (Fin EPS)) eqn:E0.
  { exists 0%Qc. apply is_close_0 in E0. destruct E0 as (c0 & H & Hc). injection H as <-. split; [tauto|].
    intros r Hr x v Hv. injection Hr as <-. rewrite le_empty_value. f_equal. ring. }
  destruct (is_close_abs (Fin c) n1 (Fin EPS)) eqn:E1.
  { exists 1%Qc. apply is_close_1 in E1. destruct E1 as (c0 & H & Hc). injection H as <-. split; [tauto|].
    intros r Hr x v Hv. injection Hr as <-. rewrite Hv. f_equal. ring. }
  exists c. split; [tauto|]. intros r Hr x v Hv. injection Hr as <-. unfold le_value in *. cbn [le_terms le_constant].
  rewrite terms_value_scale, nval_nmul_fin.
  destruct (nval (le_constant left)), (terms_value x (le_terms left)); try discriminate. cbn in Hv |- *.
  injection Hv as <-. f_equal. ring.
Qed.

Lemma mul_value a b r : distinct_keys (le_terms a) -> finite_expr a -> finite_expr b ->
  le_mul a b = Ok r ->
  exists dropped, negligible dropped /\ distinct_keys dropped /\ incl dropped (le_terms a) /\ (normal_form a -> dropped = []) /\
  exists a0, (forall x, oplus (le_value x a0) (terms_value x dropped) = le_value x a) /\
  exists c c', (c' = c \/ (c' = 0%Qc \/ c' = 1%Qc) /\ (Qcabs (c - c') < EPS)%Qc) /\
    (((forall x, le_value x b = Some c) /\ (forall x v, le_value x a0 = Some v -> le_value x r = Some (v * c')%Qc))
     \/ ((forall x, le_value x a0 = Some c) /\ (forall x v, le_value x b = Some v -> le_value x r = Some (v * c')%Qc))).
Proof.
  intros Ha Hfa Hfb H. exists (small_terms (le_terms a)).
  split; [apply small_terms_negligible|]. split; [now apply filter_keys_nodup|].
  split; [apply filter_incl|]. split; [apply normal_no_small|].
  exists (le_iadd le_empty a). split; [intros x; now apply empty_iadd_value|].
  unfold le_mul, le_imul in H.
  assert (Hconst : forall z, has_terms z = false -> forall q, le_constant z = Fin q -> forall x, le_value x z = Some q).
  { intros z Hz q Hq x. unfold has_terms in Hz. unfold le_value. destruct (le_terms z); [|discriminate].
    rewrite Hq. cbn. f_equal. ring. }
  destruct (has_terms (le_iadd le_empty a)) eqn:Ta; cbn [andb] in H.
  - destruct (has_terms b) eqn:Tb; [discriminate|].
    destruct (le_constant b) as [c| | |] eqn:Ec; try (destruct Hfb; tauto).
    destruct (scaled (le_iadd le_empty a) c) as (c' & Hc' & Hs). exists c, c'. split; [exact Hc'|]. left.
    split; [now apply Hconst|]. now apply Hs.
  - assert (Hc : exists c, le_constant (le_iadd le_empty a) = Fin c).
    { cbn [le_iadd le_constant le_empty]. destruct (le_constant a) eqn:Ec; try (destruct Hfa; tauto).
      cbn. eauto. }
    destruct Hc as [c Ec]. rewrite Ec in H.
    destruct (scaled b c) as (c' & Hc' & Hs). exists c, c'. split; [exact Hc'|]. right.
    split; [now apply Hconst|]. now apply Hs.
Qed.

Lemma mul_ok a b : le_terms a = [] \/ le_terms b = [] -> exists r, le_mul a b = Ok r.
Proof.
  intros H. unfold le_mul, le_imul.
  assert (Hg : has_terms (le_iadd le_empty a) && has_terms b = false).
  { destruct H as [H|H]; unfold has_terms.
    - rewrite (proj1 (empty_iadd_terms a)), H. reflexivity.
    - rewrite H. apply andb_false_r. }
  rewrite Hg. destruct (has_terms (le_iadd le_empty a)).
  - destruct (is_close_abs (le_constant b) n0 (Fin EPS)); [eauto|].
    destruct (is_close_abs (le_constant b) n1 (Fin EPS)); eauto.
  - destruct (is_close_abs _ n0 (Fin EPS)); [eauto|].
    destruct (is_close_abs _ n1 (Fin EPS)); eauto.
Qed.

Lemma mul_error a b : (exists kt, In kt (le_terms a) /\ ~ negligible [kt]) -> le_terms b <> [] ->
  le_mul a b = Err ValueError.
Proof.
  intros (kt & Hin & Hn) Hb. unfold le_mul, le_imul.
  assert (Ha : has_terms (le_iadd le_empty a) = true).
  { unfold has_terms. rewrite (proj1 (empty_iadd_terms a)).
    assert (Hk : In kt (non_zero_terms (le_terms a))).
    { apply filter_In. split; [exact Hin|]. apply negb_true_iff. destruct (is_zero (snd kt)) eqn:E; [|reflexivity].
      exfalso. apply Hn. constructor; [|constructor]. now apply is_zero_true in E. }
    destruct (non_zero_terms (le_terms a)); [destruct Hk|reflexivity]. }
  rewrite Ha. unfold has_terms. destruct (le_terms b); [congruence|reflexivity].
Qed.

Lemma div_value a b r : distinct_keys (le_terms a) -> finite_expr b ->
  le_truediv a b = Ok r ->
  exists dropped, negligible dropped /\ distinct_keys dropped /\ incl dropped (le_terms a) /\ (normal_form a -> dropped = []) /\
  exists a0, (forall x, oplus (le_value x a0) (terms_value x dropped) = le_value x a) /\
  exists c c', (c' = c \/ c' = 1%Qc /\ (Qcabs (c - c') < EPS)%Qc) /\ c' <> 0%Qc /\
    (forall x, le_value x b = Some c) /\
    (forall x v, le_value x a0 = Some v -> le_value x r = Some (v / c')%Qc).
Proof.
  intros Ha Hfb H. exists (small_terms (le_terms a)).
  split; [apply small_terms_negligible|]. split; [now apply filter_keys_nodup|].
  split; [apply filter_incl|]. split; [apply normal_no_small|].
  exists (le_iadd le_empty a). split; [intros x; now apply empty_iadd_value|].
  unfold le_truediv, le_itruediv in H. destruct (has_terms b) eqn:Tb; [discriminate|].
  destruct (le_constant b) as [c| | |] eqn:Ec; try (destruct Hfb; tauto).
  assert (Hb : forall x, le_value x b = Some c).
  { intros x. unfold has_terms in Tb. unfold le_value. destruct (le_terms b); [|discriminate].
    rewrite Ec. cbn. f_equal. ring. }
  destruct (is_close_abs (Fin c) n0 (Fin EPS)) eqn:E0; [discriminate|].
  destruct (is_close_abs (Fin c) n1 (Fin EPS)) eqn:E1.
  { apply is_close_1 in E1. destruct E1 as (c0 & H1 & Hc). injection H1 as <-. injection H as <-.
    exists c, 1%Qc. split; [tauto|]. split; [discriminate|]. split; [exact Hb|]. intros x v Hv.
    rewrite Hv. f_equal. field. discriminate. }
  inv_bind H. inv_bind H. injection H as <-. apply nval_ndiv_fin in H0. destruct H0 as [Hq H0].
  exists c, c. split; [tauto|]. split; [exact Hq|]. split; [exact Hb|]. intros x w Hw.
  unfold le_value in *. cbn [le_terms le_constant]. rewrite H0, (terms_value_divide x c _ _ Hq H1).
  destruct (nval (le_constant (le_iadd le_empty a))), (terms_value x (le_terms (le_iadd le_empty a)));
    try discriminate. cbn in Hw |- *. injection Hw as <-. f_equal. field. exact Hq.
Qed.

Lemma div_errors a b :
  (le_terms b <> [] -> le_truediv a b = Err ValueError) /\
  (le_terms b = [] -> (exists c, le_constant b = Fin c /\ (Qcabs c < Q2Qc (1 # 10 ^ 16))%Qc) ->
     le_truediv a b = Err ZeroDivisionError).
Proof.
  split.
  - intros H. unfold le_truediv, le_itruediv, has_terms. destruct (le_terms b); [congruence|reflexivity].
  - intros H (c & Hc & Hlt). unfold le_truediv, le_itruediv, has_terms. rewrite H, Hc.
    assert (E : is_close_abs (Fin c) n0 (Fin EPS) = true).
    { apply is_close_0. exists c. split; [reflexivity|]. replace (c - 0)%Qc with c by ring. exact Hlt. }
    now rewrite E.
Qed.
Lemma div_ok a b c : le_terms b = [] -> le_constant b = Fin c -> (Q2Qc (1 # 10 ^ 16) <= Qcabs c)%Qc ->
  exists r, le_truediv a b = Ok r.
Proof.
  intros H Hc Hle. unfold le_truediv, le_itruediv, has_terms. rewrite H, Hc.
  destruct (is_close_abs (Fin c) n0 (Fin EPS)) eqn:E0.
  { apply is_close_0 in E0. destruct E0 as (c0 & H1 & Hlt). injection H1 as <-.
    replace (c - 0)%Qc with c in Hlt by ring. exfalso. apply (Qclt_not_le _ _ Hlt). exact Hle. }
  destruct (is_close_abs (Fin c) n1 (Fin EPS)) eqn:E1; [eauto|].
  assert (Hz : Qceqb c 0 = false).
  { apply Qceqb_neq. intros ->. apply Qcle_not_lt in Hle. apply Hle. reflexivity. }
  assert (Hd : forall v, exists w, ndiv v (Fin c) = Ok w) by (intros v; cbn; rewrite Hz; eauto).
  destruct (Hd (le_constant (le_iadd le_empty a))) as [w Hw]. rewrite Hw. cbn [bind].
  match goal with |- context [mapM ?f ?l] => assert (Hm : exists ts, mapM f l = Ok ts) end.
  { induction (le_terms (le_iadd le_empty a)) as [|kt l [ts IH]]; [eexists; reflexivity|].
    destruct (Hd (snd kt)) as [u Hu]. cbn [mapM]. rewrite Hu. cbn [bind]. rewrite IH. eexists; reflexivity. }
  destruct Hm as [ts Hm]. rewrite Hm. eexists; reflexivity.
Qed.

(** ** equality *)
Lemma terms_eqb_permutation a b : distinct_keys a -> distinct_keys b ->
  Forall (fun kt => exists c, snd kt = Fin c) a -> (terms_eqb a b = true <-> Permutation a b).
Proof.
  unfold distinct_keys, terms_eqb. intros Na Nb Fa. rewrite andb_true_iff, Nat.eqb_eq, forallb_forall. split.
  - intros [L H]. apply NoDup_Permutation_bis.
    + apply (NoDup_map_inv fst). exact Na.
    + apply Nat.eq_le_incl. symmetry. exact L.
    + intros [k v] Hin. specialize (H _ Hin). cbn [fst snd] in H. destruct (dget tk_eqb k b) as [w|] eqn:E; [|discriminate].
      apply neqb_eq in H. subst w. exact (dget_In tk_eqb tk_eqb_eq _ _ _ E).
  - intros P. split; [now apply Permutation_length|]. intros [k v] Hin. cbn [fst snd].
    rewrite (In_dget_nodup tk_eqb tk_eqb_eq k v b Nb (Permutation_in _ P Hin)). apply neqb_refl.
    rewrite Forall_forall in Fa. destruct (Fa _ Hin) as [c Hc]. cbn in Hc. congruence.
Qed.
Lemma equality_spec a b : distinct_keys (le_terms a) -> distinct_keys (le_terms b) -> finite_expr a -> finite_expr b ->
  (le_eqb a b = true <->
   Permutation (le_terms a) (le_terms b) /\
   exists ca cb, le_constant a = Fin ca /\ le_constant b = Fin cb /\ (Qcabs (ca - cb) < Q2Qc (1 # 10 ^ 16))%Qc).
Proof.
  intros Na Nb (_ & _ & _ & Fa) (B1 & B2 & B3 & _). unfold le_eqb. rewrite andb_true_iff, (terms_eqb_permutation _ _ Na Nb Fa).
  destruct (le_constant b) as [cb| | |]; try contradiction. rewrite is_close_true. split.
  - intros [(ca & E & H) P]. split; [exact P|]. exists ca, cb. auto.
  - intros [P (ca & cb' & E & E' & H)]. injection E' as <-. split; [|exact P]. exists ca. auto.
Qed.
Lemma equality_value a b : distinct_keys (le_terms a) -> distinct_keys (le_terms b) -> finite_expr a -> finite_expr b ->
  le_eqb a b = true -> forall x, exists va vb, le_value x a = Some va /\ le_value x b = Some vb /\
    (Qcabs (va - vb) < Q2Qc (1 # 10 ^ 16))%Qc.
Proof.
  intros Na Nb Fa Fb H x. pose proof Fa as (_ & _ & _ & Ft).
  apply (equality_spec a b Na Nb Fa Fb) in H. destruct H as (P & ca & cb & Ea & Eb & H).
  assert (T : exists v, terms_value x (le_terms a) = Some v).
  { clear -Ft. induction (le_terms a) as [|[k n] l IH]; [eexists; reflexivity|].
    inversion Ft as [|? ? [c Hc] Hl]; subst. destruct (IH Hl) as [v Hv]. rewrite terms_value_cons, Hv.
    cbn in Hc. subst n. eexists. reflexivity. }
  destruct T as [v T].
  assert (T' : terms_value x (le_terms b) = Some v).
  { rewrite <- T. unfold terms_value. apply osum_perm, Permutation_map. now symmetry. }
  unfold le_value. rewrite Ea, Eb, T, T'. cbn. do 2 eexists. do 2 (split; [reflexivity|]).
  replace (ca + v - (cb + v))%Qc with (ca - cb)%Qc by ring. exact H.
Qed.

(** ** constructors *)
Lemma dset_new k v (d : terms_dict) : ~ In k (map fst d) -> dset tk_eqb k v d = d ++ [(k, v)].
Proof.
  induction d as [|[k' v'] d IH]; intros H; [reflexivity|]. cbn in H. cbn. destruct (tk_eqb k k') eqn:E.
  - apply tk_eqb_eq in E. subst. tauto.
  - rewrite IH by tauto. reflexivity.
Qed.
Lemma dict_constructor d c : distinct_keys d -> normal_form (le_of_dict d c) /\
  exists dropped, negligible dropped /\ distinct_keys dropped /\ incl dropped d /\
    forall x, oplus (le_value x (le_of_dict d c)) (terms_value x dropped) = oplus (nval c) (terms_value x d).
Proof.
  intros N. split; [now apply non_zero_normal|]. exists (small_terms d). split; [apply small_terms_negligible|].
  split; [now apply filter_keys_nodup|]. split; [intros a Ha; unfold small_terms in Ha; now apply filter_In in Ha|].
  intros x. unfold le_value, le_of_dict. cbn [le_terms le_constant].
  rewrite (non_zero_value x d). fold (oplus (nval c) (terms_value x (non_zero_terms d))). now rewrite oplus_assoc.
Qed.
Lemma list_constructor_eq l c : distinct_keys l -> le_of_list l c = le_of_dict l c.
Proof.
  intros N. unfold le_of_list, le_of_dict, non_zero_terms. f_equal.
  enough (G : forall d, (forall k, In k (map fst l) -> ~ In k (map fst d)) ->
    fold_left (fun d kt => if is_zero (snd kt) then d else dset tk_eqb (fst kt) (snd kt) d) l d
    = d ++ filter (fun kt => negb (is_zero (snd kt))) l) by (apply G; intros k _ []).
  unfold distinct_keys in N. induction l as [|[k v] l IH]; intros d Hd; [cbn; now rewrite app_nil_r|].
  cbn [map fst] in N. inversion N as [|? ? Nk Nl]; subst. cbn [fold_left filter fst snd].
  destruct (is_zero v); cbn [negb].
  - apply IH; [exact Nl|]. intros k' Hk. apply Hd. now right.
  - rewrite IH; [|exact Nl|].
    + rewrite dset_new by (apply Hd; now left). now rewrite <- app_assoc.
    + intros k' Hk. rewrite dset_new by (apply Hd; now left).
      rewrite map_app. intros Hin. apply in_app_or in Hin. destruct Hin as [Hin|[<-|[]]]; [|contradiction].
      apply (Hd k'); [now right|exact Hin].
Qed.
Lemma constructors_value l c : distinct_keys l ->
  (normal_form (le_of_list l c) /\ normal_form (le_of_dict l c)) /\
  exists dropped, negligible dropped /\ distinct_keys dropped /\ incl dropped l /\ forall x,
    oplus (le_value x (le_of_list l c)) (terms_value x dropped) = oplus (nval c) (terms_value x l) /\
    oplus (le_value x (le_of_dict l c)) (terms_value x dropped) = oplus (nval c) (terms_value x l).
Proof.
  intros N. rewrite (list_constructor_eq _ _ N). destruct (dict_constructor l c N) as (H & d & D1 & D2 & D3 & D4).
  split; [auto|]. exists d. auto 6.
Qed.

(** the constructor from a list, with repeated keys *)
Lemma list_constructor_nodup l d : distinct_keys d -> distinct_keys (fold_left (fun d kt =>
  if is_zero (snd kt) then d else dset tk_eqb (fst kt) (snd kt) d) l d).
Proof.
  revert d. induction l as [|[k v] l IH]; intros d H; [exact H|]. cbn [fold_left fst snd].
  destruct (is_zero v); apply IH; [exact H|]. apply (dset_nodup tk_eqb tk_eqb_eq); exact H.
Qed.
Lemma is_zero_negligible k v : is_zero v = true <-> negligible [(k, v)].
Proof.
  rewrite is_zero_true. split.
  - intros H. constructor; [exact H|constructor].
  - intros H. inversion H; subst. assumption.
Qed.
Lemma list_constructor_last c l k v :
  In (k, v) (le_terms (le_of_list l c)) <->
  exists before after, l = before ++ (k, v) :: after /\ ~ negligible [(k, v)] /\
    forall w, In (k, w) after -> negligible [(k, w)].
Proof.
  induction l as [|[k1 v1] l IH] using rev_ind.
  - split; [intros []|]. intros (b & a & H & _). destruct b; discriminate.
  - assert (N : distinct_keys (le_terms (le_of_list l c))) by (apply list_constructor_nodup; constructor).
    cbn [le_of_list le_terms] in *. rewrite fold_left_app. cbn [fold_left fst snd].
    match type of N with distinct_keys ?X => set (d := X) in * end. destruct (is_zero v1) eqn:Z.
    + etransitivity; [exact IH|]. split.
      * intros (b & a & -> & H & A). exists b, (a ++ [(k1, v1)]).
        split; [now rewrite <- app_assoc|]. split; [exact H|]. intros w Hw. apply in_app_iff in Hw.
        destruct Hw as [Hw|[Hw|[]]]; [now apply A|]. injection Hw as <- <-. now apply is_zero_negligible.
      * intros (b & a & E & H & A). destruct a as [|x a _] using rev_ind.
        -- apply app_inj_tail in E as [_ E]. injection E as -> ->. destruct H. now apply is_zero_negligible.
        -- rewrite app_comm_cons, app_assoc in E. apply app_inj_tail in E as [-> E].
           exists b, a. split; [reflexivity|]. split; [exact H|].
           intros w Hw. apply A, in_app_iff. now left.
    + assert (NZ : ~ negligible [(k1, v1)]) by (rewrite <- is_zero_negligible; congruence).
      assert (N' : distinct_keys (dset tk_eqb k1 v1 d)) by (apply (dset_nodup tk_eqb tk_eqb_eq); exact N).
      destruct (tk_eqb k k1) eqn:E.
      * apply tk_eqb_eq in E. subst k1. split.
        -- intros Hin. pose proof (In_dget_nodup tk_eqb tk_eqb_eq k v _ N' Hin) as G.
           rewrite (dget_dset_same tk_eqb tk_eqb_eq) in G. injection G as ->.
           exists l, []. split; [reflexivity|]. split; [exact NZ|]. intros w [].
        -- intros (b & a & E & H & A). destruct a as [|x a _] using rev_ind.
           ++ apply app_inj_tail in E as [_ E]. injection E as ->.
              apply (dget_In tk_eqb tk_eqb_eq), (dget_dset_same tk_eqb tk_eqb_eq).
           ++ rewrite app_comm_cons, app_assoc in E. apply app_inj_tail in E as [_ <-].
              destruct NZ. apply A, in_app_iff. right. now left.
      * assert (K : k <> k1) by (intros ->; rewrite (proj2 (tk_eqb_eq k1 k1) eq_refl) in E; discriminate).
        transitivity (In (k, v) d).
        -- split; intros Hin.
           ++ pose proof (In_dget_nodup tk_eqb tk_eqb_eq k v _ N' Hin) as G.
              rewrite (dget_dset_other tk_eqb tk_eqb_eq) in G by exact K.
              now apply (dget_In tk_eqb tk_eqb_eq).
           ++ pose proof (In_dget_nodup tk_eqb tk_eqb_eq k v _ N Hin) as G.
              apply (dget_In tk_eqb tk_eqb_eq). now rewrite (dget_dset_other tk_eqb tk_eqb_eq) by exact K.
        -- etransitivity; [exact IH|]. split.
           ++ intros (b & a & -> & H & A). exists b, (a ++ [(k1, v1)]).
              split; [now rewrite <- app_assoc|]. split; [exact H|]. intros w Hw. apply in_app_iff in Hw.
              destruct Hw as [Hw|[Hw|[]]]; [now apply A|]. injection Hw as <- <-. now destruct K.
           ++ intros (b & a & E' & H & A). destruct a as [|x a _] using rev_ind.
              ** apply app_inj_tail in E' as [_ E']. injection E' as -> ->. now destruct K.
              ** rewrite app_comm_cons, app_assoc in E'. apply app_inj_tail in E' as [-> E'].
                 exists b, a. split; [reflexivity|]. split; [exact H|].
                 intros w Hw. apply A, in_app_iff. now left.
Qed.
Lemma list_constructor_exact l c :
  le_constant (le_of_list l c) = c /\ normal_form (le_of_list l c) /\
  forall k v, In (k, v) (le_terms (le_of_list l c)) <->
    exists before after, l = before ++ (k, v) :: after /\ ~ negligible [(k, v)] /\
      forall w, In (k, w) after -> negligible [(k, w)].
Proof.
  split; [reflexivity|]. split; [|intros k v; apply list_constructor_last].
  split; [apply list_constructor_nodup; constructor|]. apply Forall_forall. intros [k v] H.
  apply list_constructor_last in H as (b & a & _ & H & _). exact H.
Qed.
