(** The expression a text gives, as a function of what it spells, and its shape. *)
From Coq Require Import Ascii Lia.
From Verif Require Import Base BaseFacts Expr SpecExpr SpecSyntax CopyFacts Visitors EqFacts Parse SpecParse LexFacts ParseFacts ModelFacts
  ParseMeaning Model Study System Library SpecModel SpecLibrary SpecExpansion SpecLinear SpecOptim SpecMain.
Local Open Scope string_scope.
Local Open Scope list_scope.

Definition mulop_of (o : mulop) : expr -> expr -> expr := match o with Times => py_mul | Over => py_div end.
Definition addop_of (o : sign) : expr -> expr -> expr := match o with Plus => py_add | Minus => py_sub end.
Definition unary_of (o : sign) (a : expr) : expr := match o with Plus => a | Minus => py_neg a end.
Definition is_zero (k : expr) : bool := match k with Lit (Fin z) => Qceqb z 0 | _ => false end.
Definition name_of (vars : list string) (x : string) : expr := if existsb (String.eqb x) vars then Var x else Param x.
Section ExprOf.
  Variable vars : list string.
  Definition term_of (s : sign) (ar : expr * option (mulop * expr)) : expr :=
    match ar with
    | (a, None) => unary_of s a
    | (a, Some (o, r)) => mulop_of o (unary_of s a) r
    end.
  Definition push (ar : expr * option (mulop * expr)) (o : mulop) (f : expr) : expr * option (mulop * expr) :=
    match ar with
    | (a, None) => (a, Some (o, f))
    | (a, Some (o1, r)) => (a, Some (o1, mulop_of o r f))
    end.
  Fixpoint expr_of (e : wexpr) : expr :=
    match e with
    | WNumber n => Lit (Fin (number_value n))
    | WName x => name_of vars x
    | WField p f => PortField p f
    | WNeg e => py_neg (expr_of e)
    | WParen e => expr_of e
    | WMul o l r => mulop_of o (expr_of l) (expr_of r)
    | WAdd o l r => addop_of o (expr_of l) (expr_of r)
    | WCmp c l r => Cmp (expr_of l) (expr_of r) c
    | WSumAll e => AllSum (expr_of e)
    | WSumPorts p f => PortAgg (PortField p f) PortSum
    | WSumOver a b e => TSum (expr_of e) (shift_of a) (shift_of b)
    | WCall _ e => py_expec (expr_of e)
    | WAt x k => if is_zero (shift_of k) then name_of vars x else py_shift (name_of vars x) (shift_of k)
    | WIndex x k => py_eval (name_of vars x) (expr_of k)
    | WAtParen _ _ | WIndexParen _ _ => Lit n0
    end
  with shift_of (k : wshift) : expr :=
    match k with
    | WNow => Lit n0
    | WThen WNow o m => term_of o (split_of m)
    | WThen k o m => addop_of o (shift_of k) (product_of m)
    end
  with product_of (m : wproduct) : expr :=
    match m with
    | WFactor f => expr_of f
    | WTimes m o f => mulop_of o (product_of m) (expr_of f)
    end
  with split_of (m : wproduct) : expr * option (mulop * expr) :=
    match m with
    | WFactor f => (expr_of f, None)
    | WTimes m o f => push (split_of m) o (expr_of f)
    end.
End ExprOf.

Section Visit.
  Variable ids : identifiers.
  Let vars := id_variables ids.
  Definition gives_factor (f : wexpr) : Prop :=
    simple_factor f /\ visit ids (tree f) = Ok (PVal (expr_of vars f)).

  Lemma right_gives m : Forall gives_factor (factors m) -> visit_right ids (right_tree m) = Ok (PVal (product_of vars m)).
  Proof.
    induction m as [f|m IH o f]; cbn [factors]; intros H.
    - inversion H as [|? ? [S M] _]; subst. cbn [right_tree]. rewrite (visit_right_of ids f S). exact M.
    - apply Forall_app in H. destruct H as [H1 H2]. inversion H2 as [|? ? [S M] _]; subst.
      cbn [right_tree visit_right]. rewrite (visit_right_of ids f S), (IH H1), M. cbn [bind]. destruct o; reflexivity.
  Qed.
  Lemma split_app f o r : split_of vars (product_app (WFactor f) o r) = (expr_of vars f, Some (o, product_of vars r)).
  Proof. induction r as [g|r IH o' g]; cbn [product_app split_of product_of]; [reflexivity|]. rewrite IH. reflexivity. Qed.
  Lemma first_gives m s : Forall gives_factor (factors m) ->
    visit_shift_expr ids (first_tree s m) = Ok (PVal (term_of s (split_of vars m))).
  Proof.
    intros H. destruct (first_shape m s) as [[f ->]|(f & o & r & -> & E)].
    - inversion H as [|? ? [S X] _]; subst. cbn [first_tree]. rewrite (visit_signed_of ids f s S), X. destruct s; reflexivity.
    - rewrite factors_app in H. inversion H as [|? ? [S X] Hr]; subst. rewrite E. cbn [visit_shift_expr].
      rewrite (visit_signed_of ids f s S), X, (right_gives r Hr), split_app. destruct s, o; reflexivity.
  Qed.
  Lemma name_gives x : In x (id_variables ids) \/ In x (id_parameters ids) -> convert_identifier ids x = Ok (name_of vars x).
  Proof.
    intros H. unfold convert_identifier, name_of. fold vars. destruct (existsb (String.eqb x) vars) eqn:B; [reflexivity|].
    destruct H as [H|H].
    - rewrite (proj2 (existsb_exists _ _)) in B; [discriminate|]. exists x. split; [exact H|apply String.eqb_refl].
    - rewrite (proj2 (existsb_exists _ _)); [reflexivity|]. exists x. split; [exact H|apply String.eqb_refl].
  Qed.
  Lemma visit_expr_of :
    (forall e, unambiguous e -> plain e -> declared ids e -> visit ids (tree e) = Ok (PVal (expr_of vars e))) /\
    (forall k, unambiguous_shift k -> plain_shift k -> declared_shift ids k ->
       visit_shift ids (shift_tree k) = Ok (PVal (shift_of vars k))) /\
    (forall m, unambiguous_product m -> plain_product m -> declared_product ids m -> Forall gives_factor (factors m)).
  Proof.
    apply written_ind.
    - reflexivity.
    - intros x _ _ D. cbn. now rewrite (name_gives x D).
    - reflexivity.
    - intros e IH [_ U] P D. cbn. now rewrite (IH U P D).
    - intros e IH U P D. exact (IH U P D).
    - intros o l IHl r IHr (_ & _ & U1 & U2) (P1 & P2) (D1 & D2). cbn. rewrite (IHl U1 P1 D1), (IHr U2 P2 D2). destruct o; reflexivity.
    - intros o l IHl r IHr (_ & _ & U1 & U2) (P1 & P2) (D1 & D2). cbn. rewrite (IHl U1 P1 D1), (IHr U2 P2 D2). destruct o; reflexivity.
    - intros o l IHl r IHr (_ & _ & U1 & U2) (P1 & P2) (D1 & D2). cbn. rewrite (IHl U1 P1 D1), (IHr U2 P2 D2). reflexivity.
    - intros e IH U P D. cbn. now rewrite (IH U P D).
    - reflexivity.
    - intros a IHa b IHb e IH (Ua & Ub & Ue) (Pa & Pb & Pe) (Da & Db & De). cbn.
      rewrite (IH Ue Pe De), (IHa Ua Pa Da), (IHb Ub Pb Db). reflexivity.
    - intros f e IH U P [-> D]. cbn. now rewrite (IH U P D).
    - intros x k IH U P [D1 D2]. cbn [tree visit]. rewrite (name_gives x D1), (IH U P D2). cbn [bind apply_shift].
      rewrite shift_by_zero. reflexivity.
    - intros x k IH U P [D1 D2]. cbn [tree visit]. rewrite (name_gives x D1), (IH U P D2). reflexivity.
    - intros e _ k _ _ [].
    - intros e _ k _ _ [].
    - reflexivity.
    - intros k IHk o m IHm [Uk Um] P [Dk Dm]. destruct k as [|k' o' m'].
      + destruct P as [P1 P2]. cbn [shift_tree visit_shift shift_of]. apply (first_gives m o (IHm Um P2 Dm)).
      + assert (Pk : plain_shift (WThen k' o' m') /\ plain_product m) by exact P. destruct Pk as [Pk Pm].
        pose proof (IHk Uk Pk Dk) as Mk. pose proof (right_gives m (IHm Um Pm Dm)) as Mm.
        change (shift_tree (WThen (WThen k' o' m') o m)) with
          (ShiftBy (match shift_tree (WThen k' o' m') with ShiftNone => first_tree o m | ShiftBy l => ShiftAddsub o l (right_tree m) end)).
        change (shift_of vars (WThen (WThen k' o' m') o m)) with (addop_of o (shift_of vars (WThen k' o' m')) (product_of vars m)).
        destruct (shift_tree (WThen k' o' m')) as [|l] eqn:T; [discriminate T|].
        cbn [visit_shift visit_shift_expr] in *. rewrite Mk, Mm. destruct o; reflexivity.
    - intros f IH [Sf U] P D. cbn [factors]. constructor; [|constructor]. split; [exact Sf|]. exact (IH U P D).
    - intros m IHm o f IHf (Um & Sf & Uf) [Pm Pf] [Dm Df]. cbn [factors]. apply Forall_app. split; [exact (IHm Um Pm Dm)|].
      constructor; [|constructor]. split; [exact Sf|]. exact (IHf Uf Pf Df).
  Qed.
End Visit.

Lemma parse_expr_of text e ids : reads_as ids text e -> parse_expression text ids = Ok (PVal (expr_of (id_variables ids) e)).
Proof.
  intros (Hs & U & P & D). rewrite (parse_text _ _ _ Hs U). now rewrite (proj1 (visit_expr_of ids) e U P D).
Qed.
Lemma den_expr_of text e ids E t s : reads_as ids text e -> den E (expr_of (id_variables ids) e) t s = meaning E (id_variables ids) e t s.
Proof.
  intros (Hs & U & P & D). destruct (parse_expression_meaning text e ids Hs U P D) as (x & Hx & M).
  rewrite (parse_expr_of text e ids (conj Hs (conj U (conj P D)))) in Hx. injection Hx as <-. apply M.
Qed.
Lemma den_expr_of_cmp text c l r ids E t s : reads_as ids text (WCmp c l r) ->
  den E (expr_of (id_variables ids) l) t s = meaning E (id_variables ids) l t s /\
  den E (expr_of (id_variables ids) r) t s = meaning E (id_variables ids) r t s.
Proof.
  intros R. pose proof R as (Hs & U & P & D). destruct (parse_expression_comparison text c l r ids Hs U P D) as (a & b & Hx & M).
  rewrite (parse_expr_of text _ ids R) in Hx. cbn [expr_of] in Hx. injection Hx as <- <-. apply M.
Qed.

(** ** Shapes *)
Lemma all_nodes_Add (P : expr -> Prop) l : all_nodes P (Add l) <-> P (Add l) /\ Forall (all_nodes P) l.
Proof.
  cbn. split; intros [H1 H2]; (split; [exact H1|]).
  - clear H1. induction l as [|a l IH]; [constructor|]. destruct H2. constructor; [assumption|now apply IH].
  - clear H1. induction H2; cbn; auto.
Qed.
Section Shape.
  (** a condition on nodes that arithmetic nodes and names always meet *)
  Context (P : expr -> Prop).
  Hypothesis Padd : forall l, P (Add l).
  Hypothesis Pmul : forall a b, P (Mul a b).
  Hypothesis Pdiv : forall a b, P (Div a b).
  Hypothesis Pneg : forall a, P (Neg a).
  Hypothesis Plit : forall q, P (Lit (Fin q)).
  Hypothesis Pvar : forall x, P (Var x).
  Hypothesis Ppar : forall x, P (Param x).
  Hypothesis Pagg : forall p f o, P (PortField p f) -> P (PortAgg (PortField p f) o).
  (** and its version on texts, which gives it for the others *)
  Context (vars : list string) (Q : wexpr -> Prop).
  Hypothesis Qfield : forall p f, Q (WField p f) -> P (PortField p f).
  Hypothesis Qports : forall p f, Q (WSumPorts p f) -> P (PortField p f).
  Hypothesis Qcmp : forall c l r, Q (WCmp c l r) -> P (Cmp (expr_of vars l) (expr_of vars r) c).
  Hypothesis Qall : forall a, Q (WSumAll a) -> P (AllSum (expr_of vars a)).
  Hypothesis Qsum : forall a b w, Q (WSumOver a b w) -> P (TSum (expr_of vars w) (shift_of vars a) (shift_of vars b)).
  Hypothesis Qcall : forall f a, Q (WCall f a) -> P (ScenOp (expr_of vars a) Expectation).
  Hypothesis Qat : forall x k, Q (WAt x k) -> P (TShift (name_of vars x) (shift_of vars k)).
  Hypothesis Qindex : forall x k, Q (WIndex x k) -> P (TEval (name_of vars x) (expr_of vars k)).

  Lemma operands_shape e : all_nodes P e -> Forall (all_nodes P) (add_operands e).
  Proof.
    intros H. destruct e; try (constructor; [exact H|constructor]). apply all_nodes_Add in H. apply H.
  Qed.
  Lemma mulop_shape o a b : all_nodes P a -> all_nodes P b -> all_nodes P (mulop_of o a b).
  Proof. destruct o; cbn; auto. Qed.
  Lemma addop_shape o a b : all_nodes P a -> all_nodes P b -> all_nodes P (addop_of o a b).
  Proof.
    intros Ha Hb. apply operands_shape in Ha, Hb. destruct o; cbn [addop_of]; unfold py_add, py_sub; apply all_nodes_Add; (split; [apply Padd|]);
      apply Forall_app; split; try assumption.
    apply Forall_map. eapply Forall_impl; [|exact Hb]. intros a' H. cbn. auto.
  Qed.
  Lemma unary_shape o a : all_nodes P a -> all_nodes P (unary_of o a).
  Proof. destruct o; cbn; auto. Qed.
  Lemma name_shape x : all_nodes P (name_of vars x).
  Proof. unfold name_of. destruct (existsb _ _); cbn; auto. Qed.
  Definition pair_shape (ar : expr * option (mulop * expr)) : Prop :=
    all_nodes P (fst ar) /\ match snd ar with Some (_, r) => all_nodes P r | None => True end.
  Lemma term_shape s ar : pair_shape ar -> all_nodes P (term_of s ar).
  Proof. destruct ar as [a [[o r]|]]; intros [Ha Hr]; cbn in *; [apply mulop_shape; [now apply unary_shape|exact Hr]|now apply unary_shape]. Qed.
  Lemma expr_of_shape :
    (forall e, throughout Q e -> all_nodes P (expr_of vars e)) /\
    (forall k, throughout_shift Q k -> all_nodes P (shift_of vars k)) /\
    (forall m, throughout_product Q m -> all_nodes P (product_of vars m) /\ pair_shape (split_of vars m)).
  Proof.
    apply written_ind.
    - intros n _. cbn. auto.
    - intros x _. apply name_shape.
    - intros p f [H _]. cbn. auto.
    - intros e IH [_ H]. cbn. auto.
    - intros e IH [_ H]. cbn. auto.
    - intros o l IHl r IHr [_ [Hl Hr]]. apply mulop_shape; auto.
    - intros o l IHl r IHr [_ [Hl Hr]]. apply addop_shape; auto.
    - intros o l IHl r IHr [H [Hl Hr]]. cbn. split; [now apply Qcmp|auto].
    - intros e IH [H H1]. cbn. split; [now apply Qall|auto].
    - intros p f [H _]. cbn. auto.
    - intros a IHa b IHb e IH [H (Ha & Hb & He)]. cbn. split; [now apply Qsum|auto].
    - intros f e IH [H H1]. cbn. split; [now apply (Qcall f)|auto].
    - intros x k IH [H H1].
      change (expr_of vars (WAt x k)) with (if is_zero (shift_of vars k) then name_of vars x else py_shift (name_of vars x) (shift_of vars k)).
      destruct (is_zero _); [apply name_shape|]. unfold py_shift. cbn [all_nodes]. split; [now apply Qat|]. split; [apply name_shape|auto].
    - intros x k IH [H H1]. cbn. split; [now apply Qindex|]. split; [apply name_shape|auto].
    - intros e _ k _ _. exact (conj (Plit 0%Qc) I).
    - intros e _ k _ _. exact (conj (Plit 0%Qc) I).
    - intros _. exact (conj (Plit 0%Qc) I).
    - intros k IHk o m IHm [Hk Hm]. specialize (IHk Hk). destruct (IHm Hm) as [Hp Hs]. destruct k as [|k' o' m'].
      + cbn [shift_of]. now apply term_shape.
      + change (shift_of vars (WThen (WThen k' o' m') o m)) with (addop_of o (shift_of vars (WThen k' o' m')) (product_of vars m)).
        now apply addop_shape.
    - intros f IH H. cbn. split; [auto|]. split; cbn; auto.
    - intros m IHm o f IHf [Hm Hf]. destruct (IHm Hm) as [Hp Hs]. split; [cbn; apply mulop_shape; auto|].
      cbn [split_of]. destruct (split_of vars m) as [a [[o1 r]|]]; destruct Hs as [Ha Hr]; cbn in *; (split; [exact Ha|]); cbn; auto.
      apply mulop_shape; auto.
  Qed.
End Shape.

Lemma throughout_any (Q : wexpr -> Prop) : (forall e, Q e) ->
  (forall e, throughout Q e) /\ (forall k, throughout_shift Q k) /\ (forall m, throughout_product Q m).
Proof. intros H. apply written_ind; intros; cbn; auto. Qed.

Ltac by_shape Q :=
  match goal with
  | |- all_nodes ?P (expr_of ?vars ?e) =>
      refine (proj1 (expr_of_shape P _ _ _ _ _ _ _ _ vars Q _ _ _ _ _ _ _ _) e _); cbn beta iota; auto
  end.

Section Conditions.
  Variable vars : list string.
  Lemma expr_of_finite e : finite_literals (expr_of vars e).
  Proof. unfold finite_literals. by_shape (fun _ : wexpr => True). now apply throughout_any. Qed.
  Lemma expr_of_aggregators e : aggregators_on_ports (expr_of vars e).
  Proof. unfold aggregators_on_ports. by_shape (fun _ : wexpr => True). now apply throughout_any. Qed.
  Lemma expr_of_no_comparison e : without_comparison e -> no_comparison (expr_of vars e).
  Proof. intros H. unfold no_comparison. by_shape (fun e => match e with WCmp _ _ _ => False | _ => True end). Qed.
  Lemma expr_of_no_port e : without_port e -> no_port (expr_of vars e).
  Proof. intros H. unfold no_port. by_shape (fun e => match e with WField _ _ | WSumPorts _ _ => False | _ => True end). Qed.
  Lemma expr_of_no_eval e : without_index e -> no_eval (expr_of vars e).
  Proof. intros H. unfold no_eval. by_shape (fun e => match e with WIndex _ _ => False | _ => True end). Qed.
  Lemma expr_of_no_scenario e : without_expectation e -> no_scenario_operator (expr_of vars e).
  Proof. intros H. unfold no_scenario_operator. by_shape (fun e => match e with WCall _ _ => False | _ => True end). Qed.
  Lemma expr_of_nested e : nested_well e -> well_nested True (expr_of vars e).
  Proof.
    intros H. unfold well_nested.
    by_shape (fun e => match e with WSumOver _ _ e => without_index e | WCall _ e => without_expectation e | _ => True end).
    - intros a b w Hw. split; [now apply expr_of_no_eval|auto].
    - intros f a Ha. now apply expr_of_no_scenario.
    - intros x k _. unfold name_of. split; [destruct (existsb _ _); cbn; auto|auto].
  Qed.
  Lemma expr_of_good e : regular e -> good_expression (expr_of vars e).
  Proof.
    intros [H1 H2]. split; [apply expr_of_finite|]. split; [apply expr_of_aggregators|].
    split; [now apply expr_of_no_comparison|now apply expr_of_nested].
  Qed.
  Lemma expr_of_definition e : without_comparison e -> without_port e -> without_index e -> without_expectation e ->
    good_definition (expr_of vars e).
  Proof.
    intros H1 H2 H3 H4. split; [apply expr_of_finite|]. split; [now apply expr_of_no_comparison|].
    split; [now apply expr_of_no_port|]. split; [now apply expr_of_no_eval|now apply expr_of_no_scenario].
  Qed.
  (** a sum or difference of good expressions *)
  Lemma sub_good a b : good_expression a -> good_expression b -> good_expression (py_sub a b).
  Proof.
    intros (A1 & A2 & A3 & A4) (B1 & B2 & B3 & B4). change (py_sub a b) with (addop_of Minus a b).
    split; [|split; [|split]]; apply addop_shape; try assumption; cbn; auto.
  Qed.
End Conditions.
