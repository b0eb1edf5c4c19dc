(** Generic facts about [copy_with] (CopyVisitor and its subclasses). *)
From Coq Require Import Lia.
From Verif Require Import Base Expr Visitors BaseFacts SpecExpr SpecSyntax ExprFacts.

(** ** den of sums *)
Lemma osum_app l1 l2 : osum (l1 ++ l2) = olift2 Qcplus (osum l1) (osum l2).
Proof.
  induction l1 as [|x l IH]; cbn.
  - destruct (osum l2); cbn; [|reflexivity]. f_equal. ring.
  - rewrite IH. destruct x as [x|]; [|reflexivity].
    destruct (osum l) as [a|]; [|reflexivity].
    destruct (osum l2) as [b|]; cbn; [|reflexivity]. f_equal. ring.
Qed.

Lemma den_add_operands E e t s :
  osum (map (fun a => den E a t s) (add_operands e)) = den E e t s.
Proof.
  assert (H : forall x : option Qc, osum [x] = x).
  { intros [x|]; cbn; [|reflexivity]. f_equal. ring. }
  destruct e; try apply H. reflexivity.
Qed.

Lemma den_py_add E a b t s :
  den E (py_add a b) t s = olift2 Qcplus (den E a t s) (den E b t s).
Proof.
  unfold py_add. cbn [den]. rewrite map_app, osum_app, !den_add_operands. reflexivity.
Qed.

Lemma den_fold_py_add E l t s : forall a,
  den E (fold_left py_add l a) t s =
  osum (den E a t s :: map (fun x => den E x t s) l).
Proof.
  induction l as [|b l IH]; intros a; cbn [fold_left map].
  - cbn. destruct (den E a t s); [|reflexivity]. f_equal. ring.
  - rewrite IH, den_py_add. cbn [osum].
    destruct (den E a t s), (den E b t s); cbn; try reflexivity.
    destruct (osum _); [|reflexivity]. f_equal. ring.
Qed.

Lemma den_sum_operands E l r t s :
  sum_operands py_add l = Ok r -> den E r t s = osum (map (fun x => den E x t s) l).
Proof.
  destruct l as [|a l]; cbn [sum_operands]; [discriminate|].
  intros H. injection H as <-. apply den_fold_py_add.
Qed.

Lemma den_sum_expressions E l t s :
  den E (sum_expressions l) t s = osum (map (fun x => den E x t s) l).
Proof.
  destruct l as [|a [|b l]]; cbn [sum_expressions]; try reflexivity.
  cbn. destruct (den E a t s); [|reflexivity]. f_equal. ring.
Qed.

Lemma fold_and_Forall (P : expr -> Prop) l :
  fold_right (fun x acc => P x /\ acc) True l <-> Forall P l.
Proof.
  induction l as [|a l IH]; cbn; split; intros H; auto.
  - constructor; tauto.
  - inversion H; subst; tauto.
Qed.

Lemma all_leaves_imp (P Q : expr -> Prop) e :
  (forall x, P x -> Q x) -> all_leaves P e -> all_leaves Q e.
Proof.
  intros HPQ. induction e using expr_ind'; cbn; try tauto; auto.
  rewrite (fold_and_Forall (all_leaves P)), (fold_and_Forall (all_leaves Q)).
  intros H1. revert H. induction H1 as [|x l Hx Hl IHl]; intros H; [constructor|].
  inversion H; subst. constructor; auto.
Qed.

Lemma all_leaves_top (P : expr -> Prop) e : (forall x, P x) -> all_leaves P e.
Proof.
  intros HP. induction e using expr_ind'; cbn; auto.
  rewrite (fold_and_Forall (all_leaves P)). exact H.
Qed.

Ltac copy_step H :=
  cbn [copy_with] in H; repeat inv_bind H; try (injection H as <-).

(** ** copying preserves the mathematical meaning if it does so on leaves *)
Lemma copy_with_den (c : copier) (E E' : env) e e' :
  e_T E' = e_T E -> e_S E' = e_S E ->
  all_leaves (fun x => forall x', copy_with c x = Ok x' ->
                       forall t s, den E' x' t s = den E x t s) e ->
  copy_with c e = Ok e' ->
  forall t s, den E' e' t s = den E e t s.
Proof.
  intros HT HS. revert e'.
  induction e using expr_ind'; intros e' HL Hc t s;
    try (apply HL; assumption).
  - copy_step Hc. reflexivity.
  - copy_step Hc. cbn. erewrite IHe; eauto.
  - copy_step Hc. rewrite (den_sum_operands _ _ _ _ _ Hc). cbn [den]. f_equal.
    cbn [all_leaves] in HL. rewrite fold_and_Forall in HL.
    apply mapM_ok in H0. clear Hc. induction H0 as [|x y l l' Hxy Hl IHl]; [reflexivity|].
    inversion H; inversion HL; subst. cbn [map]. f_equal; auto.
  - copy_step Hc. destruct HL. cbn. erewrite IHe1, IHe2; eauto.
  - copy_step Hc. destruct HL. cbn. erewrite IHe1, IHe2; eauto.
  - copy_step Hc. reflexivity.
  - copy_step Hc. destruct HL. cbn [den]. rewrite (IHe2 v0) by assumption.
    destruct (oint _); auto.
  - copy_step Hc. destruct HL. cbn [den]. rewrite (IHe2 v0) by assumption.
    destruct (oint _); auto.
  - copy_step Hc. destruct HL as (? & ? & ?). cbn [den].
    rewrite (IHe2 v0), (IHe3 v1) by assumption.
    destruct (oint (den E e2 t s)); auto. destruct (oint (den E e3 t s)); auto.
    f_equal. apply map_ext. auto.
  - copy_step Hc. cbn [den]. rewrite HT. f_equal. apply map_ext. auto.
  - copy_step Hc. cbn [den all_leaves] in *. rewrite HS.
    assert (Hm : map (fun i : Z => den E' v t i) (zrange 0 (e_S E)) =
                 map (fun i : Z => den E e t i) (zrange 0 (e_S E))).
    { apply map_ext. auto. }
    destruct o; rewrite ?Hm; reflexivity.
Qed.

(** ** copying preserves evaluation, including the kind of failure *)
Lemma evaluate_py_add_eq vp a b :
  a <> Add [] -> b <> Add [] ->
  evaluate vp (py_add a b) =
  (x <- evaluate vp a ;; y <- evaluate vp b ;; Ok (nadd x y)).
Proof.
  intros Ha Hb.
  assert (H1 : forall e, e <> Add [] ->
            evaluate vp e = (vs <- mapM (evaluate vp) (add_operands e) ;; Ok (nsum vs))).
  { intros e He.
    assert (Hs : forall e0, evaluate vp e0 = (vs <- mapM (evaluate vp) [e0] ;; Ok (nsum vs))).
    { intros e0. cbn [mapM]. destruct (evaluate vp e0); cbn [bind]; [|reflexivity].
      now rewrite nsum_single. }
    destruct e; try apply Hs. cbn [add_operands evaluate].
    destruct (mapM (evaluate vp) l) eqn:El; cbn [bind]; [|reflexivity].
    apply sum_operands_nadd. intros ->. apply mapM_length in El.
    destruct l; [congruence|discriminate]. }
  rewrite (H1 (py_add a b)).
  2:{ unfold py_add. pose proof (add_operands_nonempty a Ha) as H.
      destruct (add_operands a); [congruence|discriminate]. }
  unfold py_add. cbn [add_operands]. rewrite mapM_app, (H1 a Ha), (H1 b Hb).
  destruct (mapM (evaluate vp) (add_operands a)); cbn [bind]; [|reflexivity].
  destruct (mapM (evaluate vp) (add_operands b)); cbn [bind]; [|reflexivity].
  now rewrite nsum_app.
Qed.

Lemma py_add_not_empty a b : a <> Add [] -> py_add a b <> Add [].
Proof.
  intros H. unfold py_add. pose proof (add_operands_nonempty a H).
  destruct (add_operands a); [congruence|discriminate].
Qed.

Lemma fold_py_add_not_empty l : forall a, a <> Add [] -> fold_left py_add l a <> Add [].
Proof.
  induction l as [|b l IH]; intros a Ha; cbn [fold_left]; auto.
  apply IH. now apply py_add_not_empty.
Qed.

Lemma evaluate_fold_py_add vp l : forall a,
  a <> Add [] -> Forall (fun x => x <> Add []) l ->
  evaluate vp (fold_left py_add l a) =
  (x <- evaluate vp a ;; vs <- mapM (evaluate vp) l ;; Ok (fold_left nadd vs x)).
Proof.
  induction l as [|b l IH]; intros a Ha Hl; cbn [fold_left mapM].
  - destruct (evaluate vp a); reflexivity.
  - inversion Hl; subst. rewrite IH; auto using py_add_not_empty.
    rewrite evaluate_py_add_eq by assumption.
    destruct (evaluate vp a); cbn [bind]; [|reflexivity].
    destruct (evaluate vp b); cbn [bind]; [|reflexivity].
    destruct (mapM (evaluate vp) l); reflexivity.
Qed.

Lemma copy_with_not_empty (c : copier) e e' :
  all_leaves (fun x => forall x', copy_with c x = Ok x' -> x' <> Add []) e ->
  copy_with c e = Ok e' -> e' <> Add [].
Proof.
  revert e'. induction e using expr_ind'; intros e' HL Hc; try (apply HL; assumption);
    try (copy_step Hc; discriminate).
  copy_step Hc. destruct v as [|v vs]; cbn [sum_operands] in Hc; [discriminate|].
  injection Hc as <-. apply fold_py_add_not_empty.
  cbn [all_leaves] in HL. rewrite fold_and_Forall in HL.
  apply mapM_ok in H0. inversion H0; subst. inversion H; inversion HL; subst. eauto.
Qed.

Lemma copy_with_evaluate (c : copier) (vp vp' : value_provider) e e' :
  all_leaves (fun x => forall x', copy_with c x = Ok x' ->
                       x' <> Add [] /\ evaluate vp' x' = evaluate vp x) e ->
  copy_with c e = Ok e' ->
  evaluate vp' e' = evaluate vp e.
Proof.
  revert e'.
  induction e using expr_ind'; intros e' HL Hc;
    try (apply HL; assumption); try (copy_step Hc; reflexivity).
  - copy_step Hc. cbn. erewrite IHe; eauto.
  - copy_step Hc. cbn [all_leaves] in HL. rewrite fold_and_Forall in HL.
    destruct v as [|v vs]; cbn [sum_operands] in Hc; [discriminate|].
    injection Hc as <-. apply mapM_ok in H0.
    assert (Hne : Forall (fun x => x <> Add []) (v :: vs)).
    { clear H. induction H0 as [|x y l l' Hxy Hl IHl]; [constructor|]. inversion HL; subst.
      constructor; auto. eapply copy_with_not_empty; eauto.
      eapply all_leaves_imp; [|eassumption]. cbn. intros z Hz x' Hx'. now apply Hz. }
    assert (Hev : Forall2 (fun x y => evaluate vp' y = evaluate vp x) l (v :: vs)).
    { clear Hne. induction H0 as [|x y l l' Hxy Hl IHl]; [constructor|].
      inversion HL; inversion H; subst. constructor; auto. }
    inversion Hne; subst. rewrite evaluate_fold_py_add by assumption.
    cbn [evaluate]. inversion Hev as [|x ? l0 ? Hx Hl]; subst. cbn [mapM].
    rewrite Hx. destruct (evaluate vp x); cbn [bind]; [|reflexivity].
    assert (Hm : mapM (evaluate vp') vs = mapM (evaluate vp) l0).
    { clear -Hl. induction Hl as [|x y l l' Hxy Hl IH]; cbn; [reflexivity|].
      now rewrite Hxy, IH. }
    rewrite Hm. destruct (mapM (evaluate vp) l0); reflexivity.
  - copy_step Hc. destruct HL. cbn. erewrite IHe1, IHe2; eauto.
  - copy_step Hc. destruct HL. cbn. erewrite IHe1, IHe2; eauto.
Qed.
