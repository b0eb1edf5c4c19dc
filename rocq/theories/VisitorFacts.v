(** Facts about copy, parameter resolution, component context, port resolution (C01-C03, C08, C09). *)
From Coq Require Import Lia.
From Verif Require Import Base Expr Visitors BaseFacts SpecExpr SpecSyntax SpecVisitors ExprFacts CopyFacts.

(** ** all_nodes *)
Lemma all_nodes_root P e : all_nodes P e -> P e.
Proof. destruct e; cbn; tauto. Qed.

Lemma all_nodes_Add P l : all_nodes P (Add l) <-> P (Add l) /\ Forall (all_nodes P) l.
Proof. cbn [all_nodes]. now rewrite (fold_and_Forall (all_nodes P)). Qed.

Lemma all_nodes_imp (P Q : expr -> Prop) e :
  (forall x, P x -> Q x) -> all_nodes P e -> all_nodes Q e.
Proof.
  intros HPQ. induction e using expr_ind'; intros HP;
    try (cbn in *; intuition auto; fail).
  rewrite all_nodes_Add in *. destruct HP as [HP HF]. split; auto.
  clear HP. induction H as [|x l Hx Hl IHl]; [constructor|]. inversion HF; subst. constructor; auto.
Qed.

Lemma all_nodes_and (P Q : expr -> Prop) e :
  all_nodes P e -> all_nodes Q e -> all_nodes (fun x => P x /\ Q x) e.
Proof.
  induction e using expr_ind'; intros HP HQ; try (cbn in *; intuition auto; fail).
  rewrite all_nodes_Add in *. destruct HP as [HP HF], HQ as [HQ HG]. split; auto.
  clear HP HQ. induction H as [|x l Hx Hl IHl]; [constructor|].
  inversion HF; inversion HG; subst. constructor; auto.
Qed.

Lemma add_operands_nodes P e :
  all_nodes P e -> Forall (all_nodes P) (add_operands e).
Proof.
  destruct e; intros H; cbn [add_operands]; try (constructor; [exact H|constructor]).
  now apply all_nodes_Add in H.
Qed.

(** generic invariant of [copy_with]: a node predicate that does not look at additions *)
Lemma fold_py_add_nodes (P : expr -> Prop) l :
  (forall l, P (Add l)) ->
  forall a, all_nodes P a -> Forall (all_nodes P) l -> all_nodes P (fold_left py_add l a).
Proof.
  intros HAdd. induction l as [|b l IH]; intros a Ha Hl; cbn [fold_left]; auto.
  inversion Hl; subst. apply IH; auto. unfold py_add. apply all_nodes_Add. split; auto.
  apply Forall_app; split; now apply add_operands_nodes.
Qed.

(** Predicates insensitive to children: true on operators whatever their operands. *)
Definition node_pred_ok (P : expr -> Prop) : Prop :=
  (forall v, P (Lit v)) /\ (forall a, P (Neg a)) /\ (forall l, P (Add l)) /\
  (forall a b, P (Mul a b)) /\ (forall a b, P (Div a b)) /\ (forall a b c, P (Cmp a b c)) /\
  (forall a b, P (TShift a b)) /\ (forall a b, P (TEval a b)) /\ (forall a b c, P (TSum a b c)) /\
  (forall a, P (AllSum a)) /\ (forall a o, P (ScenOp a o)).

Lemma copy_with_nodes (c : copier) (P : expr -> Prop) e e' :
  node_pred_ok P ->
  all_leaves (fun x => forall x', copy_with c x = Ok x' -> all_nodes P x') e ->
  copy_with c e = Ok e' -> all_nodes P e'.
Proof.
  intros (HLit & HNeg & HAdd & HMul & HDiv & HCmp & HTSh & HTE & HTS & HAS & HSO).
  revert e'. induction e using expr_ind'; intros e' HL Hc; try (apply HL; assumption);
    try (copy_step Hc; cbn in HL; cbn; intuition eauto; fail).
  copy_step Hc. destruct v as [|v vs]; cbn [sum_operands] in Hc; [discriminate|].
  injection Hc as <-. cbn [all_leaves] in HL. rewrite fold_and_Forall in HL.
  apply mapM_ok in H0.
  assert (HF : Forall (all_nodes P) (v :: vs)).
  { induction H0 as [|x y l l' Hxy Hl IHl]; [constructor|]. inversion H; inversion HL; subst.
    constructor; eauto. }
  inversion HF; subst. apply fold_py_add_nodes; auto.
Qed.

(** ** C01: results of the operators, including failures *)
Lemma evaluate_py_sub_eq vp a b :
  a <> Add [] -> b <> Add [] ->
  evaluate vp (py_sub a b) =
  (x <- evaluate vp a ;; y <- evaluate vp b ;; Ok (nsub x y)).
Proof.
  intros Ha Hb.
  assert (H1 : forall e, e <> Add [] ->
            evaluate vp e = (vs <- mapM (evaluate vp) (add_operands e) ;; Ok (nsum vs))).
  { intros e He.
    assert (Hs : forall e0, evaluate vp e0 = (vs <- mapM (evaluate vp) [e0] ;; Ok (nsum vs))).
    { intros e0. cbn [mapM]. destruct (evaluate vp e0); cbn [bind]; [|reflexivity].
      now rewrite nsum_single. }
    destruct e; try apply Hs. cbn [add_operands evaluate].
    destruct (mapM (evaluate vp) l) eqn:El; cbn [bind]; [|reflexivity].
    apply sum_operands_nadd. intros ->. apply mapM_length in El.
    destruct l; [congruence|discriminate]. }
  rewrite (H1 (py_sub a b)).
  2:{ unfold py_sub. pose proof (add_operands_nonempty a Ha) as H.
      destruct (add_operands a); [congruence|discriminate]. }
  unfold py_sub. cbn [add_operands]. rewrite mapM_app, mapM_evaluate_neg, (H1 a Ha), (H1 b Hb).
  destruct (mapM (evaluate vp) (add_operands a)); cbn [bind]; [|reflexivity].
  destruct (mapM (evaluate vp) (add_operands b)); cbn [bind]; [|reflexivity].
  now rewrite nsum_app, nsum_neg.
Qed.

(** ** C02 *)
Lemma plain_copy_leaf x x' :
  match x with Var _ | Param _ | CVar _ _ | CParam _ _ | PVar _ _ _ _ | PParam _ _ _ _
             | PortField _ _ => True | _ => False end ->
  copy_expression x = Ok x' -> x' = x.
Proof. destruct x; cbn; intros H E; try contradiction; injection E as <-; reflexivity. Qed.

Lemma copy_evaluate vp e e' :
  copy_expression e = Ok e' -> evaluate vp e' = evaluate vp e.
Proof.
  apply copy_with_evaluate. apply all_leaves_imp with (P := fun x =>
    match x with PortAgg _ _ | Var _ | Param _ | CVar _ _ | CParam _ _ | PVar _ _ _ _
    | PParam _ _ _ _ | PortField _ _ => True | _ => False end).
  - intros x Hx x' E. destruct x; try contradiction; cbn in E;
      try (injection E as <-; split; [discriminate|reflexivity]).
    inv_bind E. injection E as <-. split; [discriminate|reflexivity].
  - induction e using expr_ind'; cbn; auto. now apply fold_and_Forall.
Qed.

(** copying succeeds exactly when no sum is empty *)
Lemma mapM_ok_all {A B} (f : A -> result B) l :
  Forall (fun x => exists y, f x = Ok y) l <-> exists ys, mapM f l = Ok ys.
Proof.
  split.
  - induction 1 as [|x l [y Hy] Hl [ys IH]]; cbn; [eauto|]. rewrite Hy, IH. cbn. eauto.
  - intros [ys H]. apply mapM_ok in H. induction H; constructor; eauto.
Qed.

Lemma sum_operands_ok {T} (plus : T -> T -> T) l :
  l <> [] <-> exists r, sum_operands plus l = Ok r.
Proof.
  destruct l; cbn; split; eauto; try congruence.
  - intros [r H]; discriminate.
Qed.

Lemma copy_ok_iff e : no_empty_sum e <-> exists e', copy_expression e = Ok e'.
Proof.
  unfold no_empty_sum, copy_expression. induction e using expr_ind'.
  all: try (split; [intros _; cbn; eauto | intros _; cbn; repeat split; discriminate]).
  2:{ rewrite all_nodes_Add. cbn [copy_with]. split.
      - intros [Hne HF].
        assert (HF2 : Forall (fun x => exists y, copy_with plain_copier x = Ok y) l).
        { clear Hne. induction H as [|x l Hx Hl IHl]; [constructor|]. inversion HF; subst.
          constructor; [now apply Hx | auto]. }
        apply mapM_ok_all in HF2. destruct HF2 as [ys Hys]. rewrite Hys. cbn [bind].
        apply sum_operands_ok. intros ->. apply mapM_length in Hys.
        destruct l; [congruence|discriminate].
      - intros [e' He]. inv_bind He. split.
        + intros E. injection E as ->. cbn in H0. injection H0 as <-. discriminate.
        + assert (HF2 : Forall (fun x => exists y, copy_with plain_copier x = Ok y) l)
            by (apply mapM_ok_all; eauto).
          clear He H0. induction H as [|x l Hx Hl IHl]; [constructor|]. inversion HF2; subst.
          constructor; [now apply Hx | auto]. }
  all: cbn [all_nodes copy_with].
  all: repeat match goal with H : _ <-> _ |- _ => rewrite H; clear H end.
  all: split;
    [ intros; repeat match goal with
        | H : _ /\ _ |- _ => destruct H
        | H : exists _, _ |- _ => destruct H as [? ->] end; cbn; eauto
    | intros [e' He]; repeat inv_bind He; repeat split; try discriminate; eauto ].
Qed.

Lemma evaluate_ok_no_empty_sum vp e v : evaluate vp e = Ok v -> no_empty_sum e.
Proof.
  unfold no_empty_sum. revert v. induction e using expr_ind'; intros v0 Hv; cbn [evaluate] in Hv;
    try discriminate; try (cbn; split; [discriminate|]; auto; fail).
  - inv_bind Hv. cbn. split; [discriminate|eauto].
  - apply all_nodes_Add. inv_bind Hv. split.
    + intros E. injection E as ->. cbn in H0. injection H0 as <-. discriminate.
    + apply mapM_ok in H0. clear Hv. induction H0; [constructor|]. inversion H; subst.
      constructor; eauto.
  - inv_bind Hv. inv_bind Hv. cbn. split; [discriminate|]. split; eauto.
  - inv_bind Hv. inv_bind Hv. cbn. split; [discriminate|]. split; eauto.
Qed.

Lemma copy_evaluate_total vp e v :
  evaluate vp e = Ok v -> exists e', copy_expression e = Ok e' /\ evaluate vp e' = Ok v.
Proof.
  intros H. pose proof (evaluate_ok_no_empty_sum _ _ _ H) as Hn.
  apply copy_ok_iff in Hn. destruct Hn as [e' He]. exists e'. split; auto.
  rewrite (copy_evaluate vp _ _ He). exact H.
Qed.

(** leaves and the aggregators among them *)
Definition leaf_kind (x : expr) : Prop :=
  match x with PortAgg _ _ | Var _ | Param _ | CVar _ _ | CParam _ _ | PVar _ _ _ _
  | PParam _ _ _ _ | PortField _ _ => True | _ => False end.

Lemma all_leaves_nodes (P : expr -> Prop) e :
  all_nodes P e -> all_leaves (fun x => leaf_kind x /\ P x /\ all_nodes P x) e.
Proof.
  induction e using expr_ind'; intros HN; try (cbn in *; intuition auto; fail).
  apply all_nodes_Add in HN. destruct HN as [_ HN]. cbn [all_leaves]. apply fold_and_Forall.
  induction H as [|x l Hx Hl IHl]; [constructor|]. inversion HN; subst. constructor; auto.
Qed.

Lemma all_leaves_kind e : all_leaves leaf_kind e.
Proof.
  induction e using expr_ind'; cbn; auto. now apply fold_and_Forall.
Qed.

Lemma copy_den E e e' :
  aggregators_on_ports e ->
  copy_expression e = Ok e' -> forall t s, den E e' t s = den E e t s.
Proof.
  intros Hagg. apply copy_with_den; auto.
  apply all_leaves_nodes in Hagg. revert Hagg. apply all_leaves_imp.
  intros x (Hk & HP & _) x' E'. destruct x; try contradiction; cbn in E';
    try (injection E' as <-; reflexivity).
  destruct x; try contradiction. cbn in E'. injection E' as <-. reflexivity.
Qed.

(** copies are flat; flat expressions are copied to themselves *)
Definition flat_root (x : expr) : Prop :=
  match x with
  | Add l => (2 <= length l)%nat /\ Forall (fun o => ~ is_sum o) l
  | _ => True
  end.

Lemma flat_operands e :
  flat e -> Forall flat (add_operands e) /\ Forall (fun o => ~ is_sum o) (add_operands e)
            /\ add_operands e <> [].
Proof.
  intros H. destruct e; cbn [add_operands];
    try (repeat split; [constructor; [exact H|constructor]
                       | constructor; [intros []|constructor] | discriminate]).
  apply all_nodes_Add in H. destruct H as [[H1 H2] H3]. repeat split; auto.
  intros ->. cbn in H1. lia.
Qed.

Lemma flat_py_add a b : flat a -> flat b -> flat (py_add a b).
Proof.
  intros Ha Hb. apply flat_operands in Ha. apply flat_operands in Hb.
  destruct Ha as (Ha1 & Ha2 & Ha3), Hb as (Hb1 & Hb2 & Hb3).
  unfold py_add, flat. apply all_nodes_Add. split; [split|].
  - rewrite app_length. destruct (add_operands a), (add_operands b); cbn; try congruence. lia.
  - now apply Forall_app.
  - now apply Forall_app.
Qed.

Lemma flat_py_sub a b : flat a -> flat b -> flat (py_sub a b).
Proof.
  intros Ha Hb. apply flat_operands in Ha. apply flat_operands in Hb.
  destruct Ha as (Ha1 & Ha2 & Ha3), Hb as (Hb1 & Hb2 & Hb3).
  unfold py_sub, flat. apply all_nodes_Add. split; [split|].
  - rewrite app_length, map_length. destruct (add_operands a), (add_operands b); cbn; try congruence. lia.
  - apply Forall_app; split; auto. apply Forall_forall. intros x Hx. apply in_map_iff in Hx.
    destruct Hx as (y & <- & _). intros [].
  - apply Forall_app; split; auto. apply Forall_forall. intros x Hx. apply in_map_iff in Hx.
    destruct Hx as (y & <- & Hy). cbn. split; auto. rewrite Forall_forall in Hb1. now apply Hb1.
Qed.

Lemma fold_py_add_flat l : forall a, flat a -> Forall flat l -> flat (fold_left py_add l a).
Proof.
  induction l as [|b l IH]; intros a Ha Hl; cbn [fold_left]; auto.
  inversion Hl; subst. apply IH; auto. now apply flat_py_add.
Qed.

Lemma copy_flat_out e e' : copy_expression e = Ok e' -> flat e'.
Proof.
  unfold copy_expression. revert e'. induction e using expr_ind'; intros e' Hc.
  all: try (copy_step Hc; cbn; repeat split; try apply IHe; try apply IHe1; try apply IHe2;
            try apply IHe3; assumption).
  all: try (copy_step Hc; cbn; auto; fail).
  copy_step Hc. destruct v as [|v vs]; cbn [sum_operands] in Hc; [discriminate|].
  injection Hc as <-. apply mapM_ok in H0.
  assert (HF : Forall flat (v :: vs)).
  { induction H0; [constructor|]. inversion H; subst. constructor; auto. }
  inversion HF; subst. now apply fold_py_add_flat.
Qed.

Lemma fold_py_add_flat_list l : forall l0,
  Forall (fun o => ~ is_sum o) l ->
  fold_left py_add l (Add l0) = Add (l0 ++ l).
Proof.
  induction l as [|b l IH]; intros l0 Hl; cbn [fold_left]; [now rewrite app_nil_r|].
  inversion Hl as [|? ? Hb Hl']; subst. unfold py_add at 2.
  replace (add_operands b) with [b] by (destruct b; cbn in *; tauto).
  cbn [add_operands]. rewrite IH by assumption. now rewrite <- app_assoc.
Qed.

Lemma copy_flat_id e : flat e -> copy_expression e = Ok e.
Proof.
  unfold copy_expression. induction e using expr_ind'; intros Hf.
  all: try reflexivity.
  2:{ apply all_nodes_Add in Hf. destruct Hf as [[Hlen Hns] HF]. cbn [copy_with].
      assert (Hm : mapM (copy_with plain_copier) l = Ok l).
      { clear Hlen Hns. induction H as [|x l Hx Hl IHl]; [reflexivity|]. inversion HF; subst.
        cbn. rewrite Hx by assumption. cbn. now rewrite IHl. }
      rewrite Hm. cbn [bind]. destruct l as [|a [|b l]]; cbn in Hlen; try lia.
      cbn [sum_operands fold_left]. f_equal.
      inversion Hns as [|? ? Ha Hns']; subst. inversion Hns' as [|? ? Hb Hns'']; subst.
      unfold py_add at 2.
      replace (add_operands a) with [a] by (destruct a; cbn in *; tauto).
      replace (add_operands b) with [b] by (destruct b; cbn in *; tauto).
      now rewrite fold_py_add_flat_list. }
  all: cbn in Hf; cbn [copy_with].
  all: repeat match goal with
       | H : _ /\ _ |- _ => destruct H
       end.
  all: try rewrite IHe by assumption; try rewrite IHe1 by assumption;
       try rewrite IHe2 by assumption; try rewrite IHe3 by assumption; try reflexivity.
Qed.

Lemma copy_idempotent e e' : copy_expression e = Ok e' -> copy_expression e' = Ok e'.
Proof. intros H. apply copy_flat_id. eapply copy_flat_out; eauto. Qed.

Lemma built_flat e : built e -> flat e.
Proof.
  induction 1; try (cbn; auto; fail).
  - now apply flat_py_add.
  - now apply flat_py_sub.
  - apply flat_py_add; auto. cbn; auto.
  - destruct f, t; cbn in H4; try discriminate; injection H4 as <-; cbn; auto.
  - destruct a; cbn in H0; try discriminate. injection H0 as <-. cbn; auto.
Qed.

(** ** C03 *)
Lemma resolve_parameters_no_param gp gcp e e' :
  aggregators_on_ports e ->
  resolve_parameters gp gcp e = Ok e' -> no_param e'.
Proof.
  intros Hagg. apply copy_with_nodes.
  - repeat split; cbn; auto.
  - apply all_leaves_nodes in Hagg. revert Hagg. apply all_leaves_imp.
    intros x (Hk & HP & _) x' E'. destruct x; try contradiction; cbn in E';
      try (injection E' as <-; cbn; auto; fail).
    + inv_bind E'. injection E' as <-. cbn; auto.
    + inv_bind E'. injection E' as <-. cbn; auto.
    + destruct x; try contradiction. cbn in E'. injection E' as <-. cbn; auto.
Qed.

Lemma resolve_parameters_evaluate gp gcp vp e e' :
  resolve_parameters gp gcp e = Ok e' ->
  evaluate vp e' = evaluate (with_parameters vp gp gcp) e.
Proof.
  apply copy_with_evaluate. apply all_leaves_imp with (P := leaf_kind).
  2: apply all_leaves_kind.
  intros x Hk x' E'. destruct x; try contradiction; cbn in E';
    try (injection E' as <-; split; [discriminate|reflexivity]);
    inv_bind E'; injection E' as <-; (split; [discriminate|]); cbn; auto.
Qed.

Lemma resolve_parameters_total gp gcp vp e v :
  evaluate (with_parameters vp gp gcp) e = Ok v ->
  exists e', resolve_parameters gp gcp e = Ok e' /\ evaluate vp e' = Ok v.
Proof.
  intros H.
  assert (He : exists e', resolve_parameters gp gcp e = Ok e').
  { unfold resolve_parameters. revert v H. induction e using expr_ind'; intros v0 Hv;
      cbn [evaluate] in Hv; try discriminate; cbn; eauto.
    - inv_bind Hv. destruct (IHe _ H) as [e' ->]. cbn. eauto.
    - inv_bind Hv. apply mapM_ok in H0.
      assert (HF : exists ys, mapM (copy_with (parameter_resolver gp gcp)) l = Ok ys).
      { apply mapM_ok_all. clear Hv. induction H0; [constructor|]. inversion H; subst.
        constructor; eauto. }
      destruct HF as [ys Hys]. rewrite Hys. cbn [bind]. apply sum_operands_ok.
      intros ->. apply mapM_length in Hys. apply Forall2_len in H0.
      destruct v; cbn in *; [discriminate|]. rewrite <- Hys in H0. discriminate.
    - inv_bind Hv. inv_bind Hv. destruct (IHe1 _ H) as [e1' ->], (IHe2 _ H0) as [e2' ->].
      cbn. eauto.
    - inv_bind Hv. inv_bind Hv. destruct (IHe1 _ H) as [e1' ->], (IHe2 _ H0) as [e2' ->].
      cbn. eauto.
    - cbn in Hv. rewrite Hv. cbn. eauto.
    - cbn in Hv. rewrite Hv. cbn. eauto. }
  destruct He as [e' He]. exists e'. split; auto.
  rewrite (resolve_parameters_evaluate _ _ vp _ _ He). exact H.
Qed.

(** ** C08 *)
Lemma context_den E id e e' :
  aggregators_on_ports e ->
  add_component_context id e = Ok e' ->
  forall t s, den E e' t s = den (local_env E id) e t s.
Proof.
  intros Hagg. apply copy_with_den; auto.
  apply all_leaves_nodes in Hagg. revert Hagg. apply all_leaves_imp.
  intros x (Hk & HP & _) x' E'. destruct x; try contradiction; cbn in E'; try discriminate;
    try (injection E' as <-; reflexivity).
  destruct x; try contradiction. cbn in E'. injection E' as <-. reflexivity.
Qed.

Lemma context_evaluate vp id e e' :
  add_component_context id e = Ok e' ->
  evaluate vp e' = evaluate (local_provider vp id) e.
Proof.
  apply copy_with_evaluate. apply all_leaves_imp with (P := leaf_kind).
  2: apply all_leaves_kind.
  intros x Hk x' E'. destruct x; try contradiction; cbn in E'; try discriminate;
    try (injection E' as <-; split; [discriminate|reflexivity]).
  inv_bind E'. injection E' as <-. split; [discriminate|reflexivity].
Qed.

Lemma context_only_names id e e' :
  aggregators_on_ports e ->
  add_component_context id e = Ok e' -> only_names_of id e'.
Proof.
  intros Hagg. apply copy_with_nodes.
  - repeat split; cbn; auto.
  - apply all_leaves_nodes in Hagg. revert Hagg. apply all_leaves_imp.
    intros x (Hk & HP & _) x' E'. destruct x; try contradiction; cbn in E'; try discriminate;
      try (injection E' as <-; cbn; auto; fail).
    destruct x; try contradiction. cbn in E'. injection E' as <-. cbn; auto.
Qed.

(** accepted exactly when nothing is already bound to a component (and no sum is empty) *)
Lemma context_ok_iff id e :
  (no_component_name e /\ no_empty_sum e) <-> exists e', add_component_context id e = Ok e'.
Proof.
  unfold no_empty_sum, no_component_name, add_component_context. induction e using expr_ind'.
  3:{ rewrite !all_nodes_Add. cbn [copy_with]. split.
      - intros [[_ HF1] [Hne HF]].
        assert (HF2 : Forall (fun x => exists y, copy_with (context_adder id) x = Ok y) l).
        { clear Hne. induction H as [|x l Hx Hl IHl]; [constructor|].
          inversion HF; inversion HF1; subst. constructor; [now apply Hx | auto]. }
        apply mapM_ok_all in HF2. destruct HF2 as [ys Hys]. rewrite Hys. cbn [bind].
        apply sum_operands_ok. intros ->. apply mapM_length in Hys.
        destruct l; [congruence|discriminate].
      - intros [e' He]. inv_bind He.
        assert (HF2 : Forall (fun x => exists y, copy_with (context_adder id) x = Ok y) l)
          by (apply mapM_ok_all; eauto).
        repeat split.
        + clear He H0. induction H as [|x l Hx Hl IHl]; [constructor|]. inversion HF2; subst.
          constructor; [now apply Hx | auto].
        + intros E. injection E as ->. cbn in H0. injection H0 as <-. discriminate.
        + clear He H0. induction H as [|x l Hx Hl IHl]; [constructor|]. inversion HF2; subst.
          constructor; [now apply Hx | auto]. }
  all: cbn [all_nodes copy_with].
  all: split;
    [ intros; repeat match goal with
        | H : _ /\ _ |- _ => destruct H
        | H : ?A /\ ?B <-> _ |- _ =>
            let H1 := fresh in assert (H1 : A /\ B) by (split; assumption);
            apply H in H1; clear H; destruct H1 as [? ->]
        end; cbn; eauto; try contradiction
    | intros [e' He]; repeat inv_bind He; cbn in He; try discriminate;
      repeat match goal with
        | H : ?A /\ ?B <-> exists e', copy_with ?c ?x = Ok e', G : copy_with ?c ?x = Ok ?y |- _ =>
            assert (A /\ B) by (apply H; eauto); clear H
        end; intuition discriminate ].
Qed.

(** ** C09 *)
Lemma resolve_port_den E cid ports e e' :
  resolve_port e cid ports = Ok e' ->
  forall t s, den E e' t s = den (port_env E cid ports) e t s.
Proof.
  apply copy_with_den; auto. apply all_leaves_imp with (P := leaf_kind).
  2: apply all_leaves_kind.
  intros x Hk x' E'. destruct x; try contradiction; cbn in E';
    try (injection E' as <-; reflexivity); intros t s.
  - cbn. unfold resolve_port_field in E'. destruct (dget _ _ _) as [[|d [|]]|]; try discriminate.
    injection E' as <-. reflexivity.
  - unfold resolve_port_aggregator in E'. destruct a; try discriminate.
    destruct x; try discriminate. injection E' as <-.
    rewrite den_sum_expressions. cbn. now rewrite map_map.
Qed.

Lemma pfk_eqb_eq a b : pfk_eqb a b = true <-> a = b.
Proof.
  destruct a as [a1 [a2 a3]], b as [b1 [b2 b3]]. unfold pfk_eqb. cbn.
  rewrite !andb_true_iff, !String.eqb_eq. split; [intros [[-> ->] ->]; reflexivity|].
  intros E. injection E as -> -> ->. auto.
Qed.

Lemma resolve_port_no_port cid ports e e' :
  (forall k l d, dget pfk_eqb k ports = Some l -> In d l -> no_port d) ->
  resolve_port e cid ports = Ok e' -> no_port e'.
Proof.
  intros Hreg. apply copy_with_nodes.
  - repeat split; cbn; auto.
  - apply all_leaves_imp with (P := leaf_kind).
    2: apply all_leaves_kind.
    intros x Hk x' E'. destruct x; try contradiction; cbn in E';
      try (injection E' as <-; cbn; auto; fail).
    + unfold resolve_port_field in E'. destruct (dget _ _ _) as [[|d [|]]|] eqn:Ed; try discriminate.
      injection E' as <-. eapply Hreg; eauto. now left.
    + unfold resolve_port_aggregator in E'. destruct a; try discriminate.
      destruct x; try discriminate. injection E' as <-.
      destruct (dget _ _ _) as [l|] eqn:Ed; [|cbn; auto].
      assert (HF : Forall no_port l) by (apply Forall_forall; intros d Hd; eapply Hreg; eauto).
      destruct l as [|d [|d' l]]; cbn [sum_expressions].
      * cbn; auto.
      * now inversion HF.
      * apply all_nodes_Add. split; auto.
Qed.

Lemma resolve_port_ok_iff cid ports e :
  no_empty_sum e ->
  (all_leaves (ports_resolvable cid ports) e
   <-> exists e', resolve_port e cid ports = Ok e').
Proof.
  intros H2. split; intros H1; revert H1 H2; unfold resolve_port, no_empty_sum.
  - induction e using expr_ind'; intros HL HN.
    3:{ cbn [all_leaves] in HL. rewrite fold_and_Forall in HL. apply all_nodes_Add in HN.
        destruct HN as [Hne HN].
        assert (HF2 : Forall (fun x => exists y, copy_with (port_resolver cid ports) x = Ok y) l).
        { clear Hne. induction H as [|x l Hx Hl IHl]; [constructor|].
          inversion HL; inversion HN; subst. constructor; [now apply Hx | auto]. }
        apply mapM_ok_all in HF2. destruct HF2 as [ys Hys]. cbn [copy_with]. rewrite Hys. cbn [bind].
        apply sum_operands_ok. intros ->. apply mapM_length in Hys.
        destruct l; [congruence|discriminate]. }
    all: cbn [copy_with]; try (cbn; eauto; fail).
    all: try (cbn in HL, HN; repeat match goal with
         | H : _ /\ _ |- _ => destruct H
         | H : ?A -> ?B -> exists e', copy_with ?c ?x = Ok e', G : ?A, G' : ?B |- _ =>
             destruct (H G G') as [? ->]; clear H
         end; cbn; eauto; fail).
    + cbn in *. destruct HL as [d Hd]. unfold resolve_port_field. rewrite Hd. eauto.
    + cbn in *. destruct e; try contradiction. destruct a; try contradiction. cbn. eauto.
  - induction e using expr_ind'; intros [e' He] HN.
    3:{ cbn [all_leaves]. rewrite fold_and_Forall. apply all_nodes_Add in HN.
        destruct HN as [Hne HN]. cbn [copy_with] in He. inv_bind He.
        assert (HF2 : Forall (fun x => exists y, copy_with (port_resolver cid ports) x = Ok y) l)
          by (apply mapM_ok_all; eauto).
        clear Hne He H0. induction H as [|x l Hx Hl IHl]; [constructor|].
        inversion HF2; inversion HN; subst. constructor; [now apply Hx | auto]. }
    all: cbn [copy_with] in He; repeat inv_bind He; cbn in HN; cbn; intuition eauto.
    + cbn in He. unfold resolve_port_field in He.
      destruct (dget _ _ _) as [[|d [|]]|] eqn:Ed; try discriminate. eauto.
    + cbn in He. unfold resolve_port_aggregator in He. destruct a; try discriminate.
      destruct e; try discriminate. exact I.
Qed.

(** ** evaluation computes the mathematical value *)
Definition agrees (r : result num) (o : option Qc) : Prop :=
  match o with Some q => r = Ok (Fin q) | None => is_ok r = false end.

Lemma evaluate_den vp E t s e :
  provides vp E t s -> arithmetic e -> no_empty_sum e ->
  agrees (evaluate vp e) (den E e t s).
Proof.
  intros (Hv & Hp & Hcv & Hcp). unfold arithmetic, no_empty_sum.
  induction e using expr_ind'; intros HA HN.
  3:{ apply all_nodes_Add in HA, HN. destruct HA as [_ HA], HN as [Hne HN].
      cbn [evaluate den].
      assert (HF : match osum (map (fun a => den E a t s) l) with
                   | Some q => exists vs, mapM (evaluate vp) l = Ok vs /\ nsum vs = Fin q
                   | None => is_ok (mapM (evaluate vp) l) = false end).
      { clear Hne. induction H as [|x l Hx Hl IHl].
        - cbn. eexists; split; reflexivity.
        - specialize (Hx (Forall_inv HA) (Forall_inv HN)).
          specialize (IHl (Forall_inv_tail HA) (Forall_inv_tail HN)).
          cbn [map osum mapM]. unfold agrees in Hx. destruct (den E x t s) as [qx|].
          + rewrite Hx. cbn [bind].
            destruct (osum (map (fun a => den E a t s) l)) as [q|].
            * destruct IHl as (vs & -> & Hs). cbn [bind]. eexists; split; [reflexivity|].
              rewrite nsum_cons, Hs. reflexivity.
            * destruct (mapM (evaluate vp) l); [discriminate|]. reflexivity.
          + destruct (evaluate vp x); [discriminate|]. reflexivity. }
      unfold agrees. destruct (osum (map (fun a => den E a t s) l)) as [q|].
      - destruct HF as (vs & Hvs & Hs). rewrite Hvs. cbn [bind].
        rewrite sum_operands_nadd; [now rewrite Hs|].
        intros ->. apply mapM_length in Hvs. destruct l; [congruence|discriminate].
      - destruct (mapM (evaluate vp) l); [discriminate|]. reflexivity. }
  all: cbn [all_nodes] in HA, HN; try tauto; cbn [evaluate den].
  - destruct v; try tauto. reflexivity.
  - specialize (IHe (proj2 HA) (proj2 HN)). unfold agrees in *. destruct (den E e t s); cbn.
    + rewrite IHe. reflexivity.
    + destruct (evaluate vp e); [discriminate|reflexivity].
  - specialize (IHe1 (proj1 (proj2 HA)) (proj1 (proj2 HN))).
    specialize (IHe2 (proj2 (proj2 HA)) (proj2 (proj2 HN))). unfold agrees in *.
    destruct (den E e1 t s); cbn.
    + rewrite IHe1. cbn. destruct (den E e2 t s); [now rewrite IHe2|].
      destruct (evaluate vp e2); [discriminate|reflexivity].
    + destruct (evaluate vp e1); [discriminate|reflexivity].
  - specialize (IHe1 (proj1 (proj2 HA)) (proj1 (proj2 HN))).
    specialize (IHe2 (proj2 (proj2 HA)) (proj2 (proj2 HN))). unfold agrees in *.
    destruct (den E e1 t s); cbn.
    + rewrite IHe1. cbn. destruct (den E e2 t s); [rewrite IHe2|].
      * cbn. destruct (Qceqb q0 0); reflexivity.
      * destruct (evaluate vp e2); [discriminate|reflexivity].
    + destruct (evaluate vp e1); [discriminate|reflexivity].
  - cbn. apply Hv.
  - unfold agrees. specialize (Hp n). destruct (e_par E n t s); auto.
  - cbn. apply Hcv.
  - unfold agrees. specialize (Hcp c n). destruct (e_cpar E c n t s); auto.
Qed.
