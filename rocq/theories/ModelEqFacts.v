(** Facts about model equality (C54). *)
From Coq Require Import Lia.
From Verif Require Import Base BaseFacts Expr Visitors Model Study ModelEq SpecSyntax SpecModelEq EqFacts.
Local Open Scope list_scope.

Lemma also_true a b : also a b = Ok true <-> a = Ok true /\ b = Ok true.
Proof. unfold also. destruct a as [[|]|]; cbn; intuition congruence. Qed.
Lemma ok_true b : (Ok b : result bool) = Ok true <-> b = true.
Proof. split; congruence. Qed.
Lemma value_type_eqb_eq a b : value_type_eqb a b = true <-> a = b.
Proof. destruct a, b; cbn; intuition congruence. Qed.
Lemma structure_eqb_eq a b : structure_eqb a b = true <-> a = b.
Proof. destruct a as [a1 a2], b as [b1 b2]. unfold structure_eqb. cbn. rewrite andb_true_iff, !eqb_true_iff. intuition congruence. Qed.
Lemma present_true a b : expressions_equal_if_present a b = Ok true <-> same_optional a b.
Proof. destruct a, b; cbn; try intuition congruence. apply expressions_equal_zero. Qed.
Lemma constraint_eq_true a b : constraint_eq a b = Ok true <-> same_constraint a b.
Proof.
  unfold constraint_eq, same_constraint. rewrite !also_true, ok_true, String.eqb_eq, !present_true, expressions_equal_zero. reflexivity.
Qed.
Lemma variable_eq_true a b : variable_eq a b = Ok true <-> same_variable a b.
Proof.
  unfold variable_eq, same_variable. rewrite !also_true, !ok_true, String.eqb_eq, !present_true, value_type_eqb_eq, structure_eqb_eq. reflexivity.
Qed.
Lemma parameter_eq_true a b : parameter_eq a b = Ok true <-> a = b.
Proof.
  unfold parameter_eq. rewrite ok_true, !andb_true_iff, String.eqb_eq, value_type_eqb_eq, structure_eqb_eq.
  destruct a, b; cbn. intuition congruence.
Qed.
Lemma strings_eqb_eq a : forall b, strings_eqb a b = true <-> a = b.
Proof.
  induction a as [|x a IH]; intros [|y b]; cbn; try intuition congruence. rewrite andb_true_iff, String.eqb_eq, IH. intuition congruence.
Qed.
Lemma model_port_eq_true a b : model_port_eq a b = Ok true <-> a = b.
Proof.
  unfold model_port_eq, port_type_eqb. rewrite ok_true, !andb_true_iff, !String.eqb_eq, strings_eqb_eq.
  destruct a as [[i f] n], b as [[i' f'] n']; cbn. intuition congruence.
Qed.
Lemma pfi_eqb_true a b : pfi_eqb a b = true <-> a = b.
Proof. destruct a, b. unfold pfi_eqb. cbn. rewrite andb_true_iff, !String.eqb_eq. intuition congruence. Qed.
Lemma def_eq_true a b : port_field_def_eq a b = Ok true <-> d_field a = d_field b.
Proof. unfold port_field_def_eq. rewrite ok_true. apply pfi_eqb_true. Qed.
Lemma optional_true {a b : option expr} : optional_node_eq a b = Ok true <-> same_presence a b.
Proof. unfold same_presence. destruct a, b; cbn; intuition congruence. Qed.

Section Dicts.
  Context {K A : Type} (eqb : K -> K -> bool) (Heq : forall a b, eqb a b = true <-> a = b).
  Context (eq : A -> A -> result bool) (R : A -> A -> Prop) (HR : forall x y, eq x y = Ok true <-> R x y).
  Lemma entries_eq_true a b : entries_eq eqb eq a b = Ok true <-> forall k x, In (k, x) a -> exists y, dget eqb k b = Some y /\ R x y.
  Proof.
    induction a as [|[k x] a IH]; cbn [entries_eq].
    - split; [intros _ k x []|reflexivity].
    - destruct (dget eqb k b) as [y|] eqn:E.
      + rewrite also_true, HR, IH. split.
        * intros [H1 H2] k' x' [[= <- <-]|H]; [eauto|now apply H2].
        * intros H. split.
          -- destruct (H k x (or_introl Logic.eq_refl)) as [z [Z1 Z2]]. rewrite E in Z1. injection Z1 as <-. exact Z2.
          -- intros k' x' Hx. apply H. now right.
      + split; [discriminate|]. intros H. destruct (H k x (or_introl Logic.eq_refl)) as [z [Z1 _]]. congruence.
  Qed.
  Lemma dict_eq_true a b : NoDup (map fst a) -> NoDup (map fst b) -> dict_eq eqb eq a b = Ok true <-> same_entries eqb R a b.
  Proof.
    intros Na Nb. unfold dict_eq, same_entries. destruct (Nat.eqb_spec (List.length a) (List.length b)) as [L|L].
    - rewrite entries_eq_true. split.
      + intros H k. destruct (dget eqb k a) as [x|] eqn:Ea.
        * apply (dget_In eqb Heq) in Ea. destruct (H k x Ea) as [y [-> Hy]]. exact Hy.
        * destruct (dget eqb k b) as [y|] eqn:Eb; [|exact I].
          assert (I1 : incl (map fst a) (map fst b)).
          { intros k' Hk. apply in_map_iff in Hk. destruct Hk as ([k0 x0] & <- & Hx). destruct (H k0 x0 Hx) as [z [Z _]].
            apply (dget_In eqb Heq) in Z. apply in_map_iff. exists (k0, z). auto. }
          assert (I2 : incl (map fst b) (map fst a)) by (apply NoDup_length_incl; [exact Na|rewrite !map_length; lia|exact I1]).
          apply (dget_None eqb Heq) in Ea. apply Ea. apply I2. apply (dget_In eqb Heq) in Eb. apply in_map_iff. exists (k, y). auto.
      + intros H k x Hx. specialize (H k). rewrite (In_dget_nodup eqb Heq k x a Na Hx) in H. destruct (dget eqb k b) as [y|]; [eauto|contradiction].
    - split; [discriminate|]. intros H. exfalso. apply L. rewrite <- (map_length fst a), <- (map_length fst b).
      apply Nat.le_antisymm; apply NoDup_incl_length; auto; intros k Hk; apply in_map_iff in Hk; destruct Hk as ([k0 x] & <- & Hx); cbn; specialize (H k0).
      + rewrite (In_dget_nodup eqb Heq _ _ _ Na Hx) in H. destruct (dget eqb k0 b) as [y|] eqn:E; [|contradiction].
        apply (dget_In eqb Heq) in E. apply in_map_iff. exists (k0, y). auto.
      + rewrite (In_dget_nodup eqb Heq _ _ _ Nb Hx) in H. destruct (dget eqb k0 a) as [y|] eqn:E; [|contradiction].
        apply (dget_In eqb Heq) in E. apply in_map_iff. exists (k0, y). auto.
  Qed.
End Dicts.
Lemma model_eq_true a b : proper_model a -> proper_model b -> model_eq a b = Ok true <-> same_but_contents a b.
Proof.
  intros (A1 & A2 & A3 & A4 & A5 & A6) (B1 & B2 & B3 & B4 & B5 & B6). unfold model_eq, same_but_contents.
  rewrite !also_true, !ok_true, String.eqb_eq, eqb_true_iff, !optional_true.
  rewrite !(dict_eq_true String.eqb String.eqb_eq constraint_eq same_constraint constraint_eq_true) by assumption.
  rewrite (dict_eq_true String.eqb String.eqb_eq parameter_eq Logic.eq parameter_eq_true) by assumption.
  rewrite (dict_eq_true String.eqb String.eqb_eq variable_eq same_variable variable_eq_true) by assumption.
  rewrite (dict_eq_true String.eqb String.eqb_eq model_port_eq Logic.eq model_port_eq_true) by assumption.
  rewrite (dict_eq_true pfi_eqb pfi_eqb_true port_field_def_eq _ def_eq_true) by assumption.
  tauto.
Qed.
Lemma same_entries_sym {K A} (eqb : K -> K -> bool) (R : A -> A -> Prop) a b : (forall x y, R x y -> R y x) ->
  same_entries eqb R a b -> same_entries eqb R b a.
Proof. intros HR H k. specialize (H k). destruct (dget eqb k a), (dget eqb k b); auto. Qed.
Lemma same_expr_sym a b : same_expr a b -> same_expr b a.
Proof. intros [-> H]. now split. Qed.
Lemma same_optional_sym a b : same_optional a b -> same_optional b a.
Proof. destruct a, b; cbn; auto. apply same_expr_sym. Qed.
Lemma same_sym a b : same_but_contents a b -> same_but_contents b a.
Proof.
  intros (H1 & H2 & H3 & H4 & H5 & H6 & H7 & H8 & H9 & H10).
  assert (C : forall x y, same_constraint x y -> same_constraint y x).
  { intros x y (C1 & C2 & C3 & C4). unfold same_constraint. auto 10 using same_expr_sym. }
  assert (V : forall x y, same_variable x y -> same_variable y x).
  { intros x y (C1 & C2 & C3 & C4 & C5). unfold same_variable. auto 10 using same_optional_sym. }
  unfold same_but_contents. split; [now symmetry|]. split; [now symmetry|].
  split; [now apply same_entries_sym|]. split; [now apply same_entries_sym|].
  split; [apply same_entries_sym; auto|]. split; [now apply same_entries_sym|].
  split; [now apply iff_sym|]. split; [now apply iff_sym|].
  split; [apply same_entries_sym; auto|]. apply same_entries_sym; [|exact H10]. intros; now symmetry.
Qed.
Lemma model_eq_sym a b : proper_model a -> proper_model b -> model_eq a b = Ok true <-> model_eq b a = Ok true.
Proof. intros Ha Hb. rewrite !model_eq_true by assumption. split; apply same_sym. Qed.
Lemma component_eqv_true a b : component_eqv a b = Ok true <-> model_eq (co_model a) (co_model b) = Ok true /\ co_id a = co_id b.
Proof. unfold component_eqv. now rewrite also_true, ok_true, String.eqb_eq. Qed.
Lemma same_entries_refl {K A} (eqb : K -> K -> bool) (Heq : forall a b, eqb a b = true <-> a = b) (R : A -> A -> Prop) d :
  (forall x, In x (map snd d) -> R x x) -> same_entries eqb R d d.
Proof.
  intros H k. destruct (dget eqb k d) as [x|] eqn:E; [|exact I]. apply H. apply (dget_In eqb Heq) in E.
  apply in_map_iff. exists (k, x). auto.
Qed.
Lemma model_eq_refl m : proper_model m -> without_nan m -> model_eq m m = Ok true.
Proof.
  intros P (N1 & N2 & N3). apply model_eq_true; auto. unfold same_but_contents.
  split; [reflexivity|]. split; [reflexivity|].
  split; [apply same_entries_refl; [apply String.eqb_eq|]; intros c Hc; specialize (N1 c Hc); unfold same_constraint, same_expr; intuition|].
  split; [apply same_entries_refl; [apply String.eqb_eq|]; intros c Hc; specialize (N2 c Hc); unfold same_constraint, same_expr; intuition|].
  split; [apply same_entries_refl; [apply String.eqb_eq|reflexivity]|].
  split; [apply same_entries_refl; [apply String.eqb_eq|]|].
  { intros v Hv. unfold same_variable. split; [reflexivity|]. split; [reflexivity|].
    assert (A : forall o, (forall e, o = Some e -> no_nan e) -> same_optional o o).
    { intros [e|] Ho; cbn; [split; auto|exact I]. }
    split; [apply A; intros; eapply N3; eauto|]. split; [apply A; intros; eapply N3; eauto|reflexivity]. }
  split; [apply iff_refl|]. split; [apply iff_refl|].
  split; [apply same_entries_refl; [apply String.eqb_eq|reflexivity]|apply same_entries_refl; [apply pfi_eqb_true|reflexivity]].
Qed.
