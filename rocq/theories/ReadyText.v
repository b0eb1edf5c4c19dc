(** From the texts of models to the expressions they give: shapes, linearity, values of brackets. *)
From Coq Require Import Lia.
From Verif Require Import Base BaseFacts Expr SpecExpr SpecSyntax CopyFacts Visitors EqFacts Parse SpecParse LexFacts ParseFacts ModelFacts
  ParseMeaning Model Study System Library SpecModel SpecLibrary SpecVisitors SpecExpansion SpecLinear SpecOptim SpecMain TextFacts
  SpecReady ReadyFacts SpecRun.
Local Open Scope string_scope.
Local Open Scope list_scope.

(** ** Parts of a text that reads as it should *)
Lemma throughout_imp (P Q : wexpr -> Prop) : (forall e, P e -> Q e) ->
  (forall e, throughout P e -> throughout Q e) /\ (forall k, throughout_shift P k -> throughout_shift Q k) /\
  (forall m, throughout_product P m -> throughout_product Q m).
Proof. intros H. apply written_ind; cbn [throughout throughout_shift throughout_product]; intros; firstorder. Qed.
Lemma throughout_and (P Q : wexpr -> Prop) :
  (forall e, throughout P e -> throughout Q e -> throughout (fun w => P w /\ Q w) e) /\
  (forall k, throughout_shift P k -> throughout_shift Q k -> throughout_shift (fun w => P w /\ Q w) k) /\
  (forall m, throughout_product P m -> throughout_product Q m -> throughout_product (fun w => P w /\ Q w) m).
Proof. apply written_ind; cbn [throughout throughout_shift throughout_product]; intros; firstorder. Qed.

Section Sound.
  Variable ids : identifiers.
  Definition sound (e : wexpr) : Prop := unambiguous e /\ plain e /\ declared ids e /\ valid_tokens (tokens e).
  Definition sound_shift (k : wshift) : Prop :=
    unambiguous_shift k /\ plain_shift k /\ declared_shift ids k /\ valid_tokens (shift_tokens k).
  Definition sound_product (m : wproduct) : Prop :=
    unambiguous_product m /\ plain_product m /\ declared_product ids m /\ valid_tokens (product_tokens m).
  Lemma reads_sound text e : reads_as ids text e -> sound e.
  Proof. intros (H & U & P & D). pose proof (spells_valid _ _ H). exact (conj U (conj P (conj D H0))). Qed.
  Lemma sound_at x k : sound (WAt x k) -> (In x (id_variables ids) \/ In x (id_parameters ids)) /\ sound_shift k.
  Proof.
    intros (U & P & D & V). cbn [unambiguous plain declared tokens] in *. destruct D as [D D'].
    apply valid_cons, valid_cons, valid_app in V. exact (conj D (conj U (conj P (conj D' (proj1 V))))).
  Qed.
  Lemma sound_index x k : sound (WIndex x k) -> (In x (id_variables ids) \/ In x (id_parameters ids)) /\ sound k.
  Proof.
    intros (U & P & D & V). cbn [unambiguous plain declared tokens] in *. destruct D as [D D'].
    apply valid_cons, valid_cons, valid_app in V. exact (conj D (conj U (conj P (conj D' (proj1 V))))).
  Qed.
  Lemma sound_over a b e : sound (WSumOver a b e) -> sound_shift a /\ sound_shift b /\ sound e.
  Proof.
    intros (U & P & D & V). cbn [unambiguous plain declared tokens] in *. destruct U as (U1 & U2 & U3), P as (P1 & P2 & P3), D as (D1 & D2 & D3).
    apply valid_cons, valid_cons, valid_app in V. destruct V as [V1 V]. apply valid_cons, valid_app in V. destruct V as [V2 V].
    apply valid_cons, valid_app in V. destruct V as [V3 _].
    exact (conj (conj U1 (conj P1 (conj D1 V1))) (conj (conj U2 (conj P2 (conj D2 V2))) (conj U3 (conj P3 (conj D3 V3))))).
  Qed.
  Lemma sound_two tk l r : valid_tokens (tokens l ++ tk :: tokens r) -> valid_tokens (tokens l) /\ valid_tokens (tokens r).
  Proof. intros V. apply valid_app in V. destruct V as [V1 V]. apply valid_cons in V. auto. Qed.
  Lemma sound_cmp c l r : sound (WCmp c l r) -> sound l /\ sound r.
  Proof.
    intros ((_ & _ & U1 & U2) & (P1 & P2) & (D1 & D2) & V). cbn [tokens] in V. apply sound_two in V. destruct V. unfold sound. auto 8.
  Qed.
  Lemma sound_parts :
    (forall e, sound e -> throughout sound e) /\ (forall k, sound_shift k -> throughout_shift sound k) /\
    (forall m, sound_product m -> throughout_product sound m).
  Proof.
    apply written_ind; cbn [throughout throughout_shift throughout_product].
    - auto.
    - auto.
    - auto.
    - intros e IH H. split; [exact H|]. destruct H as ([_ U] & P & D & V). apply IH. apply valid_cons in V. unfold sound. auto.
    - intros e IH H. split; [exact H|]. destruct H as (U & P & D & V). apply IH. cbn [tokens] in V. apply valid_cons, valid_app in V. unfold sound. tauto.
    - intros o l IHl r IHr H. split; [exact H|]. destruct H as ((_ & _ & U1 & U2) & (P1 & P2) & (D1 & D2) & V).
      cbn [tokens] in V. apply sound_two in V. destruct V. unfold sound in *. auto 8.
    - intros o l IHl r IHr H. split; [exact H|]. destruct H as ((_ & _ & U1 & U2) & (P1 & P2) & (D1 & D2) & V).
      cbn [tokens] in V. apply sound_two in V. destruct V. unfold sound in *. auto 8.
    - intros o l IHl r IHr H. split; [exact H|]. apply sound_cmp in H. destruct H. auto.
    - intros e IH H. split; [exact H|]. destruct H as (U & P & D & V). apply IH. cbn [tokens] in V. apply valid_cons, valid_cons, valid_app in V. unfold sound. tauto.
    - auto.
    - intros a IHa b IHb e IH H. split; [exact H|]. apply sound_over in H. destruct H as (H1 & H2 & H3). auto.
    - intros f e IH H. split; [exact H|]. destruct H as (U & P & [_ D] & V). apply IH. cbn [tokens] in V. apply valid_cons, valid_cons, valid_app in V. unfold sound. tauto.
    - intros x k IH H. split; [exact H|]. apply sound_at in H. apply IH, H.
    - intros x k IH H. split; [exact H|]. apply sound_index in H. apply IH, H.
    - intros e _ k _ (_ & [] & _).
    - intros e _ k _ (_ & [] & _).
    - auto.
    - intros k IHk o m IHm ([U1 U2] & P & [D1 D2] & V). cbn [shift_tokens] in V. apply valid_app in V. destruct V as [V1 V]. apply valid_cons in V.
      destruct k as [|k' o' m'].
      + destruct P as [_ P]. split; [exact I|]. apply IHm. unfold sound_product. auto.
      + destruct P as [P1 P2]. split; [apply IHk|apply IHm]; unfold sound_shift, sound_product; auto.
    - intros f IH ([_ U] & P & D & V). apply IH. unfold sound. auto.
    - intros m IHm o f IHf ((U1 & _ & U2) & (P1 & P2) & (D1 & D2) & V). cbn [product_tokens] in V. apply valid_app in V. destruct V as [V1 V]. apply valid_cons in V.
      unfold sound, sound_product in *. auto 8.
  Qed.
  (** the values of what is written *)
  Lemma sound_den e E t s : sound e -> den E (expr_of (id_variables ids) e) t s = meaning E (id_variables ids) e t s.
  Proof.
    intros (U & P & D & V). destruct (proj1 (meaning_of_tree ids) e U P D V) as (x & H & M).
    rewrite (proj1 (visit_expr_of ids) e U P D) in H. injection H as <-. apply M.
  Qed.
  Lemma sound_shift_den k E t s : sound_shift k -> den E (shift_of (id_variables ids) k) t s = shift_meaning E (id_variables ids) k t s.
  Proof.
    intros (U & P & D & V). destruct (proj1 (proj2 (meaning_of_tree ids)) k U P D V) as (x & H & M).
    rewrite (proj1 (proj2 (visit_expr_of ids)) k U P D) in H. injection H as <-. apply M.
  Qed.
End Sound.

(** ** Conditions on the expressions given by texts *)
Section Closed.
  Context (K : expr -> Prop).
  Hypothesis Klit : forall q, K (Lit (Fin q)).
  Hypothesis Kneg : forall a, K a -> K (Neg a).
  Hypothesis Kmul : forall a b, K a -> K b -> K (Mul a b).
  Hypothesis Kdiv : forall a b, K a -> K b -> K (Div a b).
  Hypothesis Kadd : forall l, l <> [] -> Forall K l -> K (Add l).
  Hypothesis Kops : forall a, K a -> add_operands a <> [] /\ Forall K (add_operands a).
  Context (vars : list string) (Q : wexpr -> Prop).
  Hypothesis Qname : forall x, Q (WName x) -> K (name_of vars x).
  Hypothesis Qfield : forall p f, Q (WField p f) -> K (PortField p f).
  Hypothesis Qports : forall p f, Q (WSumPorts p f) -> K (PortAgg (PortField p f) PortSum).
  Hypothesis Qcmp : forall c l r, Q (WCmp c l r) -> K (expr_of vars l) -> K (expr_of vars r) -> K (Cmp (expr_of vars l) (expr_of vars r) c).
  Hypothesis Qall : forall a, Q (WSumAll a) -> K (expr_of vars a) -> K (AllSum (expr_of vars a)).
  Hypothesis Qsum : forall a b w, Q (WSumOver a b w) -> K (expr_of vars w) -> K (shift_of vars a) -> K (shift_of vars b) ->
    K (TSum (expr_of vars w) (shift_of vars a) (shift_of vars b)).
  Hypothesis Qcall : forall f a, Q (WCall f a) -> K (expr_of vars a) -> K (ScenOp (expr_of vars a) Expectation).
  Hypothesis Qat : forall x k, Q (WAt x k) -> K (shift_of vars k) -> K (name_of vars x) /\ K (TShift (name_of vars x) (shift_of vars k)).
  Hypothesis Qindex : forall x k, Q (WIndex x k) -> K (expr_of vars k) -> K (TEval (name_of vars x) (expr_of vars k)).

  Lemma mulop_closed o a b : K a -> K b -> K (mulop_of o a b).
  Proof. destruct o; cbn; auto. Qed.
  Lemma addop_closed o a b : K a -> K b -> K (addop_of o a b).
  Proof.
    intros Ha Hb. apply Kops in Ha, Hb. destruct Ha as [Na Ha], Hb as [Nb Hb]. destruct o; unfold addop_of, py_add, py_sub; apply Kadd.
    - intros E. apply app_eq_nil in E. tauto.
    - apply Forall_app. auto.
    - intros E. apply app_eq_nil in E. tauto.
    - apply Forall_app. split; [exact Ha|]. apply Forall_map. eapply Forall_impl; [|exact Hb]. intros a' H. now apply Kneg.
  Qed.
  Lemma unary_closed o a : K a -> K (unary_of o a).
  Proof. destruct o; cbn; auto. Qed.
  Definition pair_closed (ar : expr * option (mulop * expr)) : Prop :=
    K (fst ar) /\ match snd ar with Some (_, r) => K r | None => True end.
  Lemma term_closed s ar : pair_closed ar -> K (term_of s ar).
  Proof. destruct ar as [a [[o r]|]]; intros [Ha Hr]; cbn in *; [apply mulop_closed; [now apply unary_closed|exact Hr]|now apply unary_closed]. Qed.
  Lemma expr_of_closed :
    (forall e, throughout Q e -> K (expr_of vars e)) /\
    (forall k, throughout_shift Q k -> K (shift_of vars k)) /\
    (forall m, throughout_product Q m -> K (product_of vars m) /\ pair_closed (split_of vars m)).
  Proof.
    apply written_ind.
    - intros n _. apply Klit.
    - intros x [H _]. now apply Qname.
    - intros p f [H _]. now apply Qfield.
    - intros e IH [_ H]. apply Kneg. auto.
    - intros e IH [_ H]. apply IH, H.
    - intros o l IHl r IHr [_ [Hl Hr]]. apply mulop_closed; auto.
    - intros o l IHl r IHr [_ [Hl Hr]]. apply addop_closed; auto.
    - intros o l IHl r IHr [H [Hl Hr]]. apply Qcmp; auto.
    - intros e IH [H H1]. apply Qall; auto.
    - intros p f [H _]. now apply Qports.
    - intros a IHa b IHb e IH [H (Ha & Hb & He)]. apply Qsum; auto.
    - intros f e IH [H H1]. apply (Qcall f); auto.
    - intros x k IH [H H1]. destruct (Qat x k H (IH H1)) as [H2 H3].
      change (expr_of vars (WAt x k)) with (if is_zero (shift_of vars k) then name_of vars x else py_shift (name_of vars x) (shift_of vars k)).
      destruct (is_zero _); assumption.
    - intros x k IH [H H1]. apply Qindex; auto.
    - intros e _ k _ _. apply (Klit 0%Qc).
    - intros e _ k _ _. apply (Klit 0%Qc).
    - intros _. apply (Klit 0%Qc).
    - intros k IHk o m IHm [Hk Hm]. specialize (IHk Hk). destruct (IHm Hm) as [Hp Hs]. destruct k as [|k' o' m'].
      + cbn [shift_of]. now apply term_closed.
      + change (shift_of vars (WThen (WThen k' o' m') o m)) with (addop_of o (shift_of vars (WThen k' o' m')) (product_of vars m)).
        now apply addop_closed.
    - intros f IH H. split; [exact (IH H)|]. split; [exact (IH H)|exact I].
    - intros m IHm o f IHf [Hm Hf]. destruct (IHm Hm) as [Hp Hs]. split; [cbn [product_of]; apply mulop_closed; auto|].
      cbn [split_of]. destruct (split_of vars m) as [a [[o1 r]|]]; destruct Hs as [Ha Hr]; (split; [exact Ha|]); cbn in *; auto.
      apply mulop_closed; auto.
  Qed.
End Closed.

(** conditions on nodes *)
Section Nodes.
  Context (P : expr -> Prop).
  Hypothesis Plit : forall q, P (Lit (Fin q)).
  Hypothesis Pneg : forall a, P (Neg a).
  Hypothesis Pmul : forall a b, P (Mul a b).
  Hypothesis Pdiv : forall a b, P (Div a b).
  Hypothesis Padd : forall l, P (Add l) <-> l <> [].
  Lemma nodes_ops a : all_nodes P a -> add_operands a <> [] /\ Forall (all_nodes P) (add_operands a).
  Proof.
    intros H. destruct a; try (split; [discriminate|constructor; [exact H|constructor]]). apply all_nodes_Add in H. destruct H as [H1 H2].
    split; [now apply Padd|exact H2].
  Qed.
  Context (vars : list string) (Q : wexpr -> Prop).
  Hypothesis Qname : forall x, Q (WName x) -> P (name_of vars x).
  Hypothesis Qfield : forall p f, Q (WField p f) -> P (PortField p f).
  Hypothesis Qports : forall p f, Q (WSumPorts p f) -> P (PortField p f) /\ P (PortAgg (PortField p f) PortSum).
  Hypothesis Qcmp : forall c l r, Q (WCmp c l r) -> P (Cmp (expr_of vars l) (expr_of vars r) c).
  Hypothesis Qall : forall a, Q (WSumAll a) -> P (AllSum (expr_of vars a)).
  Hypothesis Qsum : forall a b w, Q (WSumOver a b w) -> P (TSum (expr_of vars w) (shift_of vars a) (shift_of vars b)).
  Hypothesis Qcall : forall f a, Q (WCall f a) -> P (ScenOp (expr_of vars a) Expectation).
  Hypothesis Qat : forall x k, Q (WAt x k) -> P (name_of vars x) /\ P (TShift (name_of vars x) (shift_of vars k)).
  Hypothesis Qindex : forall x k, Q (WIndex x k) -> P (name_of vars x) /\ P (TEval (name_of vars x) (expr_of vars k)).
  Lemma name_node x : P (name_of vars x) -> all_nodes P (name_of vars x).
  Proof. unfold name_of. destruct (existsb _ _); intros H; (split; [exact H|exact I]). Qed.
  Lemma expr_of_nodes :
    (forall e, throughout Q e -> all_nodes P (expr_of vars e)) /\
    (forall k, throughout_shift Q k -> all_nodes P (shift_of vars k)).
  Proof.
    assert (G := expr_of_closed (all_nodes P)). specialize (G ltac:(intros; split; [apply Plit|exact I])).
    specialize (G ltac:(intros; split; [apply Pneg|assumption])).
    specialize (G ltac:(intros; split; [apply Pmul|split; assumption])).
    specialize (G ltac:(intros; split; [apply Pdiv|split; assumption])).
    specialize (G ltac:(intros; apply all_nodes_Add; split; [now apply Padd|assumption])).
    specialize (G nodes_ops vars Q).
    specialize (G ltac:(intros; apply name_node; auto)).
    specialize (G ltac:(intros; split; [auto|exact I])).
    specialize (G ltac:(intros p f H; split; [apply (Qports p f H)|split; [apply (Qports p f H)|exact I]])).
    specialize (G ltac:(intros; split; [auto|split; assumption])).
    specialize (G ltac:(intros; split; [auto|assumption])).
    specialize (G ltac:(intros; split; [auto|split; [|split]; assumption])).
    specialize (G ltac:(intros; split; [eauto|assumption])).
    specialize (G ltac:(intros x k H H1; destruct (Qat x k H); split; [now apply name_node|split; [assumption|split; [now apply name_node|assumption]]])).
    specialize (G ltac:(intros x k H H1; destruct (Qindex x k H); split; [assumption|split; [now apply name_node|assumption]])).
    split; [apply G|apply G].
  Qed.
End Nodes.

(** conditions on leaves *)
Section Leaves.
  Context (L : expr -> Prop).
  Definition leaves_of (e : expr) : Prop := no_empty_sum e /\ all_leaves L e.
  Lemma leaves_ops a : leaves_of a -> add_operands a <> [] /\ Forall leaves_of (add_operands a).
  Proof.
    intros [H1 H2]. destruct a; try (split; [discriminate|constructor; [split; assumption|constructor]]).
    apply all_nodes_Add in H1. destruct H1 as [H1 H3]. cbn [all_leaves] in H2. apply fold_and_Forall in H2.
    split; [intros E; apply H1; cbn in E; now rewrite E|]. apply Forall_and; assumption.
  Qed.
  Context (vars : list string) (Q : wexpr -> Prop).
  Hypothesis Qname : forall x, Q (WName x) -> L (name_of vars x).
  Hypothesis Qfield : forall p f, Q (WField p f) -> L (PortField p f).
  Hypothesis Qports : forall p f, Q (WSumPorts p f) -> L (PortAgg (PortField p f) PortSum).
  Hypothesis Qat : forall x k, Q (WAt x k) -> L (name_of vars x).
  Hypothesis Qindex : forall x k, Q (WIndex x k) -> L (name_of vars x).
  Lemma name_leaf x : L (name_of vars x) -> leaves_of (name_of vars x).
  Proof. unfold name_of. destruct (existsb _ _); intros H; (split; [split; [discriminate|exact I]|exact H]). Qed.
  Lemma expr_of_leaves :
    (forall e, throughout Q e -> all_leaves L (expr_of vars e)) /\
    (forall k, throughout_shift Q k -> all_leaves L (shift_of vars k)).
  Proof.
    assert (G := expr_of_closed leaves_of). specialize (G ltac:(intros; split; [split; [discriminate|exact I]|exact I])).
    specialize (G ltac:(intros a [H1 H2]; split; [split; [discriminate|exact H1]|exact H2])).
    specialize (G ltac:(intros a b [H1 H2] [H3 H4]; split; [split; [discriminate|split; assumption]|split; assumption])).
    specialize (G ltac:(intros a b [H1 H2] [H3 H4]; split; [split; [discriminate|split; assumption]|split; assumption])).
    specialize (G ltac:(intros l Hl H; split; [apply all_nodes_Add; split; [congruence|eapply Forall_impl; [|exact H]; intros a [? ?]; assumption]|
                    cbn [all_leaves]; apply fold_and_Forall; eapply Forall_impl; [|exact H]; intros a [? ?]; assumption])).
    specialize (G leaves_ops vars Q).
    specialize (G ltac:(intros; apply name_leaf; auto)).
    specialize (G ltac:(intros p f H; split; [split; [discriminate|exact I]|exact (Qfield p f H)])).
    specialize (G ltac:(intros p f H; split; [split; [discriminate|split; [discriminate|exact I]]|exact (Qports p f H)])).
    specialize (G ltac:(intros c l r _ [H1 H2] [H3 H4]; split; [split; [discriminate|split; assumption]|split; assumption])).
    specialize (G ltac:(intros a _ [H1 H2]; split; [split; [discriminate|exact H1]|exact H2])).
    specialize (G ltac:(intros a b w _ [H1 H2] [H3 H4] [H5 H6]; split; [split; [discriminate|split; [|split]; assumption]|split; [|split]; assumption])).
    specialize (G ltac:(intros f a _ [H1 H2]; split; [split; [discriminate|exact H1]|exact H2])).
    specialize (G ltac:(intros x k H [H1 H2]; destruct (name_leaf x (Qat x k H)) as [N1 N2]; split; [split; assumption|
                    split; [split; [discriminate|split; assumption]|split; assumption]])).
    specialize (G ltac:(intros x k H [H1 H2]; destruct (name_leaf x (Qindex x k H)) as [N1 N2];
                    split; [split; [discriminate|split; assumption]|split; assumption])).
    split; intros; apply G; assumption.
  Qed.
End Leaves.

(** ** Linearity *)
Section Linear.
  Context (vars : list string) (ports ports' : string -> string -> bool).
  Hypothesis Hports : forall p f, ports p f = ports' p f.
  Lemma decides_name x : decides ports (name_of vars x) = existsb (String.eqb x) vars.
  Proof. unfold name_of. destruct (existsb _ _); reflexivity. Qed.
  Lemma decides_operands a : existsb (decides ports) (add_operands a) = decides ports a.
  Proof. destruct a; first [exact (orb_false_r _)|reflexivity]. Qed.
  Lemma decides_addop o a b : decides ports (addop_of o a b) = decides ports a || decides ports b.
  Proof.
    destruct o; unfold addop_of.
    - change (existsb (decides ports) (add_operands a ++ add_operands b) = decides ports a || decides ports b).
      now rewrite existsb_app, !decides_operands.
    - change (existsb (decides ports) (add_operands a ++ map py_neg (add_operands b)) = decides ports a || decides ports b).
      rewrite existsb_app, decides_operands. f_equal. rewrite <- (decides_operands b).
      induction (add_operands b) as [|x l IH]; [reflexivity|]. cbn [map existsb]. now rewrite IH.
  Qed.
  Lemma decides_expr_of e : plain e -> decides ports (expr_of vars e) = text_decides vars ports' e.
  Proof.
    induction e; intros P; cbn [text_decides].
    - reflexivity.
    - apply decides_name.
    - apply Hports.
    - exact (IHe P).
    - exact (IHe P).
    - destruct P as [P1 P2]. rewrite <- (IHe1 P1), <- (IHe2 P2). destruct o; reflexivity.
    - destruct P as [P1 P2]. rewrite <- (IHe1 P1), <- (IHe2 P2). apply decides_addop.
    - destruct P as [P1 P2]. rewrite <- (IHe1 P1), <- (IHe2 P2). reflexivity.
    - exact (IHe P).
    - apply Hports.
    - destruct P as (_ & _ & P). exact (IHe P).
    - exact (IHe P).
    - change (expr_of vars (WAt x k)) with (if is_zero (shift_of vars k) then name_of vars x else py_shift (name_of vars x) (shift_of vars k)).
      destruct (is_zero _); apply decides_name.
    - apply decides_name.
    - contradiction P.
    - contradiction P.
  Qed.
  Lemma affine_name x : affine ports (name_of vars x).
  Proof. unfold name_of. destruct (existsb _ _); exact I. Qed.
  Lemma affine_operands a : affine ports a -> Forall (affine ports) (add_operands a).
  Proof. intros H. destruct a; try (constructor; [exact H|constructor]). cbn in H. now apply fold_and_Forall in H. Qed.
  Lemma affine_addop o a b : affine ports a -> affine ports b -> affine ports (addop_of o a b).
  Proof.
    intros Ha Hb. apply affine_operands in Ha, Hb. destruct o; unfold addop_of, py_add, py_sub; cbn [affine]; apply fold_and_Forall, Forall_app;
      (split; [exact Ha|]); [exact Hb|]. apply Forall_map. eapply Forall_impl; [|exact Hb]. intros c Hc. exact Hc.
  Qed.
  Lemma affine_expr_of e : plain e -> text_affine vars ports' e -> affine ports (expr_of vars e).
  Proof.
    induction e; intros P A; cbn [text_affine] in A.
    - exact I.
    - apply affine_name.
    - exact I.
    - exact (IHe P A).
    - exact (IHe P A).
    - destruct P as [P1 P2]. destruct o; destruct A as (A1 & A2 & A3); cbn [expr_of mulop_of]; unfold py_mul, py_div; cbn [affine];
        rewrite ?(decides_expr_of e1 P1), (decides_expr_of e2 P2); auto.
    - destruct P as [P1 P2], A as [A1 A2]. apply affine_addop; auto.
    - contradiction A.
    - exact (IHe P A).
    - exact I.
    - destruct P as (_ & _ & P). exact (IHe P A).
    - exact (IHe P A).
    - change (expr_of vars (WAt x k)) with (if is_zero (shift_of vars k) then name_of vars x else py_shift (name_of vars x) (shift_of vars k)).
      destruct (is_zero _); apply affine_name.
    - apply affine_name.
    - contradiction P.
    - contradiction P.
  Qed.
End Linear.
