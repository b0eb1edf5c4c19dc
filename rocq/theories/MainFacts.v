(** Proofs about studies given by their files (see PropMain.v). *)
From Coq Require Import Lia.
From Verif Require Import Base BaseFacts Expr SpecExpr SpecSyntax CopyFacts Visitors EqFacts Parse SpecParse LexFacts ParseFacts
  ModelFacts ParseMeaning LinearExpr LinearFacts Model Study Strategy Optim System Library LibraryFacts Main SpecModel SpecLibrary SpecSystem
  SystemFacts SpecVisitors SpecExpansion SpecLinear SpecOptim SpecMain TextFacts MentionFacts OptimFacts OptimProblem OptimNames.
Local Open Scope string_scope.
Local Open Scope list_scope.

(** ** Dependence on a dimension *)
Section Varies.
  Context (dim : indexing -> bool) (vd : in_variable -> bool) (pd : in_parameter -> bool) (ft fs : bool) (m : in_model)
    (sp : structure_provider) (ports ports' : string -> string -> bool).
  Let vars := map yv_id (ym_variables m).
  Hypothesis Hvar : forall n, In n vars -> may_vary dim (get_variable_structure sp n) = name_varies vd pd m n.
  Hypothesis Hpar : forall n, ~ In n vars -> In n (map yp_id (ym_parameters m)) ->
    may_vary dim (get_parameter_structure sp n) = name_varies vd pd m n.
  Hypothesis Hport : forall p f, ports p f = ports' p f.
  Let V := varies dim ft fs sp ports.

  Lemma varies_operands a : existsb V (add_operands a) = V a.
  Proof. destruct a; first [exact (orb_false_r _) | reflexivity]. Qed.
  Lemma varies_add o a b : V (addop_of o a b) = V a || V b.
  Proof.
    destruct o; unfold addop_of.
    - change (existsb V (add_operands a ++ add_operands b) = V a || V b). now rewrite existsb_app, !varies_operands.
    - change (existsb V (add_operands a ++ map py_neg (add_operands b)) = V a || V b).
      rewrite existsb_app, varies_operands. f_equal. rewrite <- (varies_operands b).
      induction (add_operands b) as [|x l IH]; [reflexivity|]. cbn [map existsb]. now rewrite IH.
  Qed.
  Lemma varies_name n : In n vars \/ In n (map yp_id (ym_parameters m)) -> V (name_of vars n) = name_varies vd pd m n.
  Proof.
    intros H. unfold name_of. destruct (existsb (String.eqb n) vars) eqn:B.
    - apply existsb_exists in B. destruct B as (x & Hx & E). apply String.eqb_eq in E. subst x. exact (Hvar n Hx).
    - assert (N : ~ In n vars).
      { intros Hn. rewrite (proj2 (existsb_exists _ _)) in B; [discriminate|]. exists n. split; [exact Hn|apply String.eqb_refl]. }
      apply Hpar; [exact N|]. destruct H; [contradiction|assumption].
  Qed.
  Lemma varies_expr_of e : plain e -> declared (model_names m) e ->
    V (expr_of vars e) = text_varies vd pd ft fs m ports' e.
  Proof.
    induction e; intros P D.
    - reflexivity.
    - exact (varies_name _ D).
    - exact (Hport _ _).
    - exact (IHe P D).
    - exact (IHe P D).
    - destruct P as [P1 P2], D as [D1 D2]. cbn [text_varies]. rewrite <- (IHe1 P1 D1), <- (IHe2 P2 D2). destruct o; reflexivity.
    - destruct P as [P1 P2], D as [D1 D2]. cbn [text_varies]. rewrite <- (IHe1 P1 D1), <- (IHe2 P2 D2). apply varies_add.
    - destruct P as [P1 P2], D as [D1 D2]. cbn [text_varies]. rewrite <- (IHe1 P1 D1), <- (IHe2 P2 D2). reflexivity.
    - cbn [text_varies]. rewrite <- (IHe P D). reflexivity.
    - exact (Hport _ _).
    - destruct P as (_ & _ & P), D as (_ & _ & D). exact (IHe P D).
    - destruct D as [_ D]. cbn [text_varies]. rewrite <- (IHe P D). reflexivity.
    - destruct D as [D _]. cbn [text_varies]. rewrite <- (varies_name _ D).
      change (expr_of vars (WAt x k)) with
        (if is_zero (shift_of vars k) then name_of vars x else py_shift (name_of vars x) (shift_of vars k)).
      destruct (is_zero _); reflexivity.
    - destruct D as [D _]. cbn [text_varies]. rewrite <- (varies_name _ D). reflexivity.
    - contradiction P.
    - contradiction P.
  Qed.
End Varies.

(** ** Worlds that agree give texts the same meaning *)
Definition agree (E E' : env) : Prop :=
  e_T E = e_T E' /\ e_S E = e_S E' /\
  (forall n t s, (0 <= s)%Z -> e_var E n t s = e_var E' n t s) /\
  (forall n t s, (0 <= s)%Z -> e_par E n t s = e_par E' n t s) /\
  (forall p f, Forall2 (fun a b : Z -> Z -> option Qc => forall t s, (0 <= s)%Z -> a t s = b t s) (e_port E p f) (e_port E' p f)).
Section Agree.
  Context (E E' : env) (vars : list string).
  Hypothesis A : agree E E'.
  Lemma name_agree n t s : (0 <= s)%Z -> name_value E vars n t s = name_value E' vars n t s.
  Proof. destruct A as (_ & _ & Hv & Hp & _). intros Hs. unfold name_value. rewrite (Hv n t s Hs), (Hp n t s Hs). reflexivity. Qed.
  Lemma osum_agree l l' t s : (0 <= s)%Z ->
    Forall2 (fun a b : Z -> Z -> option Qc => forall t s, (0 <= s)%Z -> a t s = b t s) l l' ->
    osum (map (fun v => v t s) l) = osum (map (fun v => v t s) l').
  Proof. intros Hs H. f_equal. induction H as [|a b l l' Hab H IH]; [reflexivity|]. cbn [map]. rewrite IH, (Hab t s Hs). reflexivity. Qed.
  Lemma meaning_over F a b e t s : meaning F vars (WSumOver a b e) t s =
    match oint (shift_meaning F vars a t s), oint (shift_meaning F vars b t s) with
    | Some i, Some j => osum (map (fun k => meaning F vars e (t + k) s) (zrange i (j + 1)))
    | _, _ => None end.
  Proof. reflexivity. Qed.
  Lemma meaning_at F x k t s : meaning F vars (WAt x k) t s =
    match oint (shift_meaning F vars k t s) with Some z => name_value F vars x (t + z) s | None => None end.
  Proof. reflexivity. Qed.
  Lemma meaning_at_paren F e k t s : meaning F vars (WAtParen e k) t s =
    match oint (shift_meaning F vars k t s) with Some z => meaning F vars e (t + z) s | None => None end.
  Proof. reflexivity. Qed.
  Lemma meaning_then F k o m t s : shift_meaning F vars (WThen k o m) t s =
    addsub o (shift_meaning F vars k t s) (product_meaning F vars m t s).
  Proof. reflexivity. Qed.
  Lemma meaning_agree :
    (forall e t s, (0 <= s)%Z -> meaning E vars e t s = meaning E' vars e t s) /\
    (forall k t s, (0 <= s)%Z -> shift_meaning E vars k t s = shift_meaning E' vars k t s) /\
    (forall m t s, (0 <= s)%Z -> product_meaning E vars m t s = product_meaning E' vars m t s).
  Proof.
    destruct A as (HT & HS & _ & _ & Hport). apply written_ind.
    - reflexivity.
    - intros x t s Hs. exact (name_agree x t s Hs).
    - intros p f t s Hs. simpl. destruct (Hport p f) as [|a b l l' Hab Hl]; [reflexivity|]. destruct Hl; [now apply Hab|reflexivity].
    - intros e IH t s Hs. simpl. now rewrite (IH t s Hs).
    - intros e IH t s Hs. exact (IH t s Hs).
    - intros o l IHl r IHr t s Hs. simpl. now rewrite (IHl t s Hs), (IHr t s Hs).
    - intros o l IHl r IHr t s Hs. simpl. now rewrite (IHl t s Hs), (IHr t s Hs).
    - reflexivity.
    - intros e IH t s Hs. simpl. rewrite HT. f_equal. apply map_ext. intros i. exact (IH i s Hs).
    - intros p f t s Hs. exact (osum_agree _ _ t s Hs (Hport p f)).
    - intros a IHa b IHb e IH t s Hs. rewrite !meaning_over, (IHa t s Hs), (IHb t s Hs).
      destruct (oint _) as [i|]; [|reflexivity]. destruct (oint _) as [j|]; [|reflexivity].
      f_equal. apply map_ext. intros k. exact (IH (t + k)%Z s Hs).
    - intros f e IH t s Hs. simpl. rewrite HS. destruct (String.eqb f "expec"); [|reflexivity]. f_equal.
      apply map_ext_in. intros i Hi. apply zrange_In in Hi. apply IH. lia.
    - intros x k IH t s Hs. rewrite !meaning_at, (IH t s Hs). destruct (oint _) as [z|]; [|reflexivity].
      exact (name_agree x (t + z)%Z s Hs).
    - intros x k IH t s Hs. simpl. rewrite (IH t s Hs). destruct (oint _) as [z|]; [|reflexivity]. exact (name_agree x z s Hs).
    - intros e IH k IHk t s Hs. rewrite !meaning_at_paren, (IHk t s Hs). destruct (oint _) as [z|]; [|reflexivity].
      exact (IH (t + z)%Z s Hs).
    - intros e IH k IHk t s Hs. simpl. rewrite (IHk t s Hs). destruct (oint _) as [z|]; [|reflexivity]. exact (IH z s Hs).
    - reflexivity.
    - intros k IHk o m IHm t s Hs. rewrite !meaning_then. now rewrite (IHk t s Hs), (IHm t s Hs).
    - intros f IH t s Hs. exact (IH t s Hs).
    - intros m IHm o f IHf t s Hs. simpl. now rewrite (IHm t s Hs), (IHf t s Hs).
  Qed.
End Agree.

(** ** Decisions mentioned *)
Section Counts.
  Context (ids : identifiers) (E : env) (p : string -> string -> nat).
  Let vars := id_variables ids.
  Lemma shift_value k t s : unambiguous_shift k -> plain_shift k -> declared_shift ids k -> valid_tokens (shift_tokens k) ->
    den E (shift_of vars k) t s = shift_meaning E vars k t s.
  Proof.
    intros U P D V. destruct (proj1 (proj2 (meaning_of_tree ids)) k U P D V) as (x & Hx & M).
    rewrite (proj1 (proj2 (visit_expr_of ids)) k U P D) in Hx. injection Hx as <-. apply M.
  Qed.
  Lemma mentions_sub a b : mentions E p (py_sub a b) = (mentions E p a + mentions E p b)%nat.
  Proof.
    unfold py_sub. cbn [mentions]. rewrite map_app, list_sum_app, mentions_operands. f_equal.
    rewrite <- (mentions_operands E p b). f_equal. rewrite map_map. reflexivity.
  Qed.
  Lemma mentions_name x : mentions E p (name_of vars x) = name_mentions vars x.
  Proof. unfold name_of, name_mentions. destruct (existsb _ _); reflexivity. Qed.
  Lemma mentions_expr_of e : unambiguous e -> plain e -> declared ids e -> valid_tokens (tokens e) ->
    mentions E p (expr_of vars e) = text_mentions E vars p e.
  Proof.
    induction e; intros U P D V.
    - reflexivity.
    - exact (mentions_name _).
    - reflexivity.
    - destruct U as [_ U]. exact (IHe U P D (valid_cons _ _ V)).
    - cbn [tokens] in V. apply valid_cons, valid_app in V. exact (IHe U P D (proj1 V)).
    - destruct U as (_ & _ & U1 & U2), P as [P1 P2], D as [D1 D2]. cbn [tokens] in V. apply valid_app in V. destruct V as [V1 V2].
      apply valid_cons in V2. cbn [text_mentions]. rewrite <- (IHe1 U1 P1 D1 V1), <- (IHe2 U2 P2 D2 V2). destruct o; reflexivity.
    - destruct U as (_ & _ & U1 & U2), P as [P1 P2], D as [D1 D2]. cbn [tokens] in V. apply valid_app in V. destruct V as [V1 V2].
      apply valid_cons in V2. cbn [text_mentions]. rewrite <- (IHe1 U1 P1 D1 V1), <- (IHe2 U2 P2 D2 V2).
      destruct o; [apply mentions_py_add|apply mentions_sub].
    - destruct U as (_ & _ & U1 & U2), P as [P1 P2], D as [D1 D2]. cbn [tokens] in V. apply valid_app in V. destruct V as [V1 V2].
      apply valid_cons in V2. cbn [text_mentions]. rewrite <- (IHe1 U1 P1 D1 V1), <- (IHe2 U2 P2 D2 V2). reflexivity.
    - cbn [tokens] in V. apply valid_cons, valid_cons, valid_app in V. cbn [text_mentions]. rewrite <- (IHe U P D (proj1 V)). reflexivity.
    - reflexivity.
    - destruct U as (Ua & Ub & U), P as (Pa & Pb & P), D as (Da & Db & D). cbn [tokens] in V.
      apply valid_cons, valid_cons, valid_app in V. destruct V as [Va V]. apply valid_cons, valid_app in V. destruct V as [Vb V].
      apply valid_cons, valid_app in V. cbn [text_mentions]. rewrite <- (IHe U P D (proj1 V)).
      change (expr_of vars (WSumOver a b e)) with (TSum (expr_of vars e) (shift_of vars a) (shift_of vars b)).
      cbn [mentions]. f_equal. unfold window_size, text_window.
      rewrite (shift_value a 0 0 Ua Pa Da Va), (shift_value b 0 0 Ub Pb Db Vb). reflexivity.
    - destruct D as [_ D]. cbn [tokens] in V. apply valid_cons, valid_cons, valid_app in V.
      cbn [text_mentions]. rewrite <- (IHe U P D (proj1 V)). reflexivity.
    - cbn [text_mentions]. rewrite <- mentions_name.
      change (expr_of vars (WAt x k)) with
        (if is_zero (shift_of vars k) then name_of vars x else py_shift (name_of vars x) (shift_of vars k)).
      destruct (is_zero _); reflexivity.
    - cbn [text_mentions]. rewrite <- mentions_name. reflexivity.
    - contradiction P.
    - contradiction P.
  Qed.
  Lemma mentions_text text e : reads_as ids text e -> mentions E p (expr_of vars e) = text_mentions E vars p e.
  Proof. intros (Hs & U & P & D). apply mentions_expr_of; try assumption. exact (spells_valid _ _ Hs). Qed.
End Counts.
Lemma text_mentions_agree E E' vars p p' w : agree E E' -> (forall q f, p q f = p' q f) ->
  text_mentions E vars p w = text_mentions E' vars p' w.
Proof.
  intros A HP. pose proof A as (HT & HS & _).
  induction w; cbn [text_mentions]; rewrite ?HT, ?HS, ?HP, ?IHw, ?IHw1, ?IHw2; try reflexivity.
  f_equal. unfold text_window. now rewrite !(proj1 (proj2 (meaning_agree E E' vars A)) _ 0%Z 0%Z (Z.le_refl 0)).
Qed.

(** ** Lists of declarations and dicts made of them *)
Lemma listed_dict {K Y A} (eqb : K -> K -> bool) (Heq : forall a b, eqb a b = true <-> a = b)
  (R : Y -> A -> Prop) (kid : Y -> K) (key : A -> K) (Hkey : forall y a, R y a -> key a = kid y) ys l :
  Forall2 R ys l -> NoDup (map kid ys) ->
  Forall2 (fun y ka => fst ka = kid y /\ R y (snd ka)) ys (dict_of eqb key l).
Proof.
  intros F N. assert (E : map key l = map kid ys).
  { clear N. induction F as [|y a ys' l' H _ IH]; cbn; [reflexivity|]. rewrite (Hkey _ _ H). now f_equal. }
  rewrite <- E in N. rewrite (dict_of_distinct eqb key Heq l N). clear N E.
  induction F as [|y a ys l H F IH]; constructor; auto. cbn. split; [exact (Hkey _ _ H)|exact H].
Qed.
Lemma find_dget {K Y A} (eqb : K -> K -> bool) (Heq : forall a b, eqb a b = true <-> a = b)
  (R : Y -> A -> Prop) (kid : Y -> K) n (test : Y -> bool) ys (d : dict K A) :
  (forall y, test y = true <-> kid y = n) ->
  Forall2 (fun y ka => fst ka = kid y /\ R y (snd ka)) ys d ->
  (exists y a, find test ys = Some y /\ dget eqb n d = Some a /\ R y a /\ In y ys /\ kid y = n) \/
  (find test ys = None /\ dget eqb n d = None /\ forall y, In y ys -> kid y <> n).
Proof.
  intros Ht F. induction F as [|y [k a] ys d [H1 H2] F IH]; [right; split; [|split]; auto|].
  cbn in H1, H2. subst k. cbn [find dget]. destruct (test y) eqn:E.
  - pose proof (proj1 (Ht y) E) as Ek. left. exists y, a. rewrite Ek, (proj2 (Heq n n) eq_refl). cbn. repeat split; auto.
  - assert (Ek : kid y <> n) by (intros X; apply Ht in X; congruence).
    assert (B : eqb n (kid y) = false).
    { destruct (eqb n (kid y)) eqn:B; [|reflexivity]. apply Heq in B. congruence. }
    rewrite B. destruct IH as [(y' & a' & I1 & I2 & I3 & I4 & I5)|(I1 & I2 & I3)].
    + left. exists y', a'. cbn. repeat split; auto.
    + right. split; [exact I1|]. split; [exact I2|]. intros y' [<-|Hy']; auto.
Qed.

(** ** A model *)
Section OneModel.
  Context (rd : in_model -> string -> wexpr) (pts : dict string port_type) (m : in_model) (M : model).
  Hypothesis GT : good_texts rd m.
  Hypothesis DN : distinct_names m.
  Hypothesis R : resolve_model pts m = Ok M.
  Let ids := model_identifiers m.
  Let vars := map yv_id (ym_variables m).
  Let X w := expr_of vars (rd m w).
  Let P := resolve_model_parts pts m M R.

  Lemma text_reads w : In w (model_texts m) -> reads_as ids w (rd m w).
  Proof. destruct GT as [H _]. apply H. Qed.
  Lemma text_parses w : In w (model_texts m) -> parse_expression w ids = Ok (PVal (X w)).
  Proof. intros H. exact (parse_expr_of _ _ _ (text_reads w H)). Qed.
  Lemma text_den w E t s : In w (model_texts m) -> den E (X w) t s = text_value E m (rd m w) t s.
  Proof. intros H. exact (den_expr_of _ _ _ E t s (text_reads w H)). Qed.
  Lemma text_if_present text r : incl (given_text text) (model_texts m) -> to_expression_if_present text ids = Ok r ->
    r = match given_text text with [] => None | w :: _ => Some (X w) end.
  Proof.
    destruct text as [[|a w]|]; cbn [given_text to_expression_if_present]; intros I H; try (injection H as <-; reflexivity).
    rewrite (text_parses (String a w)) in H by (apply I; now left). cbn in H. congruence.
  Qed.

  Definition bound_of (inf : num) (text : option string) : expr :=
    match given_text text with [] => Lit inf | w :: _ => X w end.
  Definition constraint_shape (c : in_constraint) (k : constraint) : Prop :=
    c_name k = yc_id c /\ c_context k = OPERATIONAL /\
    match rd m (yc_expression c) with
    | WCmp o l r => c_expr k = py_sub (expr_of vars l) (expr_of vars r) /\
        (c_lower k, c_upper k) = match o with
          | LESS_THAN => (Lit NInf, Lit n0) | GREATER_THAN => (Lit n0, Lit PInf) | EQUAL => (Lit n0, Lit n0) end
    | w => c_expr k = expr_of vars w /\ c_lower k = bound_of NInf (yc_lower c) /\ c_upper k = bound_of PInf (yc_upper c)
    end.
  Let texts_of c : In c (ym_binding_constraints m ++ ym_constraints m) -> incl (constraint_texts c) (model_texts m).
  Proof.
    intros H w Hw. unfold model_texts. rewrite !in_app_iff. apply in_app_or in H.
    destruct H as [H|H]; [right; right; left|right; right; right; left]; apply in_flat_map; eauto.
  Qed.
  Lemma not_comparison w : without_comparison w -> forall l r c, expr_of vars w <> Cmp l r c.
  Proof.
    intros H l r c E. apply (expr_of_no_comparison vars) in H. rewrite E in H. destruct H as [H _]. exact H.
  Qed.
  Lemma constraint_of c k : In c (ym_binding_constraints m ++ ym_constraints m) -> to_constraint ids c = Ok k ->
    constraint_shape c k.
  Proof.
    intros Hc H. split; [|split]; [apply (to_constraint_name _ _ _ H)..|].
    pose proof (texts_of c Hc) as I. unfold constraint_texts in I.
    unfold to_constraint in H. inv_bind H. inv_bind H. inv_bind H. inv_bind H.
    apply text_if_present in H0; [|intros w Hw; apply I; right; apply in_or_app; now left].
    apply text_if_present in H1; [|intros w Hw; apply I; right; apply in_or_app; now right].
    rewrite text_parses in H2 by (apply I; now left). injection H2 as <-. cbn in H3. injection H3 as <-.
    destruct GT as (_ & G & _). specialize (G c Hc). unfold X in H.
    assert (B1 : match v with Some e => e | None => Lit NInf end = bound_of NInf (yc_lower c))
      by (rewrite H0; unfold bound_of; destruct (given_text (yc_lower c)); reflexivity).
    assert (B2 : match v0 with Some e => e | None => Lit PInf end = bound_of PInf (yc_upper c))
      by (rewrite H1; unfold bound_of; destruct (given_text (yc_upper c)); reflexivity).
    rewrite B1, B2 in H. clear B1 B2 H0 H1.
    assert (N : forall w, w = rd m (yc_expression c) -> regular w ->
      c_expr k = expr_of vars w /\ c_lower k = bound_of NInf (yc_lower c) /\ c_upper k = bound_of PInf (yc_upper c)).
    { intros w -> [Hn _]. apply (proj1 (mk_constraint_bounds _ _ _ _ _ _ (not_comparison _ Hn))) in H.
      destruct H as [-> _]. auto. }
    destruct (rd m (yc_expression c)) as [| | | | | | |o l r| | | | | | | |] eqn:Ew; try exact (N _ eq_refl G).
    clear N. change (expr_of vars (WCmp o l r)) with (Cmp (expr_of vars l) (expr_of vars r) o) in H.
    cbn [mk_constraint] in H. destruct (negb _ || negb _); [discriminate|].
    destruct o; injection H as <-; split; reflexivity.
  Qed.

  (** the constraint, in any world *)
  Definition form_holds (dropped : list term) (E : env) (c : in_constraint) (t s : Z) : Prop :=
    exists w, terms_value (read E t s) dropped = Some w /\
    match rd m (yc_expression c) with
    | WCmp o l r => exists vl vr, text_value E m l t s = Some vl /\ text_value E m r t s = Some vr /\
        cmp_holds o (vl - w)%Qc vr
    | a => exists v, text_value E m a t s = Some v /\
        text_bound rd (fun q => (q <= v - w)%Qc) E m (yc_lower c) t s /\
        text_bound rd (fun q => (v - w <= q)%Qc) E m (yc_upper c) t s
    end.
  Lemma not_literal w q : X w <> Lit NInf /\ X w <> Lit PInf /\ (q = NInf \/ q = PInf -> X w <> Lit q).
  Proof.
    pose proof (expr_of_finite vars (rd m w)) as F. fold (X w) in F.
    assert (A : X w <> Lit NInf) by (intros E; rewrite E in F; destruct F as [F _]; exact F).
    assert (B : X w <> Lit PInf) by (intros E; rewrite E in F; destruct F as [F _]; exact F).
    split; [exact A|]. split; [exact B|]. intros [->| ->]; assumption.
  Qed.
  Lemma lower_text c E t s v : In c (ym_binding_constraints m ++ ym_constraints m) ->
    lower_ok E (bound_of NInf (yc_lower c)) t s v <-> text_bound rd (fun q => (q <= v)%Qc) E m (yc_lower c) t s.
  Proof.
    intros Hc. unfold bound_of, text_bound. destruct (given_text (yc_lower c)) as [|w l] eqn:Eg; [cbn; tauto|].
    assert (Hw : In w (model_texts m)).
    { apply (texts_of c Hc). right. apply in_or_app. left. rewrite Eg. now left. }
    rewrite <- (text_den w E t s Hw). destruct (not_literal w NInf) as [N _].
    unfold lower_ok. destruct (X w) as [[| | |]| | | | | | | | | | | | | | | | | |]; first [tauto|contradiction N; reflexivity].
  Qed.
  Lemma upper_text c E t s v : In c (ym_binding_constraints m ++ ym_constraints m) ->
    upper_ok E (bound_of PInf (yc_upper c)) t s v <-> text_bound rd (fun q => (v <= q)%Qc) E m (yc_upper c) t s.
  Proof.
    intros Hc. unfold bound_of, text_bound. destruct (given_text (yc_upper c)) as [|w l] eqn:Eg; [cbn; tauto|].
    assert (Hw : In w (model_texts m)).
    { apply (texts_of c Hc). right. apply in_or_app. right. rewrite Eg. now left. }
    rewrite <- (text_den w E t s Hw). destruct (not_literal w PInf) as (_ & N & _).
    unfold upper_ok. destruct (X w) as [[| | |]| | | | | | | | | | | | | | | | | |]; first [tauto|contradiction N; reflexivity].
  Qed.
  Lemma constraint_holds_text c k d E t s : In c (ym_binding_constraints m ++ ym_constraints m) -> constraint_shape c k ->
    (holds_without d E (c_expr k) (c_lower k) (c_upper k) t s <-> form_holds d E c t s).
  Proof.
    intros Hc (_ & _ & H). pose proof (text_reads (yc_expression c) (texts_of c Hc _ (or_introl eq_refl))) as Hr.
    unfold holds_without, form_holds.
    assert (N : forall w, rd m (yc_expression c) = w -> 
      c_expr k = expr_of vars w /\ c_lower k = bound_of NInf (yc_lower c) /\ c_upper k = bound_of PInf (yc_upper c) ->
      (exists v w, den E (c_expr k) t s = Some v /\ terms_value (read E t s) d = Some w /\
         lower_ok E (c_lower k) t s (v - w)%Qc /\ upper_ok E (c_upper k) t s (v - w)%Qc) <->
      (exists u, terms_value (read E t s) d = Some u /\ exists v, text_value E m w t s = Some v /\
        text_bound rd (fun q => (q <= v - u)%Qc) E m (yc_lower c) t s /\
        text_bound rd (fun q => (v - u <= q)%Qc) E m (yc_upper c) t s)).
    { intros w Ew (-> & -> & ->). rewrite Ew in Hr. pose proof (den_expr_of _ _ _ E t s Hr) as Hd. change (id_variables ids) with vars in Hd. rewrite Hd. clear Hd. fold (text_value E m w t s).
      split; [intros (v & u & H1 & H2 & H3 & H4); exists u; split; [exact H2|]; exists v
             |intros (u & H2 & v & H1 & H3 & H4); exists v, u; split; [|split; [exact H2|]]].
      - split; [exact H1|]. split; [now apply lower_text|now apply upper_text].
      - exact H1.
      - split; [now apply lower_text|now apply upper_text]. }
    destruct (rd m (yc_expression c)) as [| | | | | | |o l r| | | | | | | |] eqn:Ew; try exact (N _ eq_refl H).
    clear N. destruct H as [-> Eb]. destruct (den_expr_of_cmp _ _ _ _ _ E t s Hr) as [El Er].
    rewrite den_py_sub. change vars with (id_variables ids). rewrite El, Er. unfold text_value. fold vars.
    change (id_variables ids) with vars.
    split.
    - intros (v & u & H1 & H2 & H3 & H4). exists u. split; [exact H2|].
      destruct (meaning E vars l t s) as [vl|]; [|discriminate]. destruct (meaning E vars r t s) as [vr|]; [|discriminate].
      exists vl, vr. split; [reflexivity|]. split; [reflexivity|]. cbn in H1. injection H1 as <-.
      destruct o; injection Eb as E1 E2; rewrite E1 in H3; rewrite E2 in H4; cbn in H3, H4 |- *.
      + destruct H4 as (q & [= <-] & H4). qclra.
      + destruct H3 as (q & [= <-] & H3). destruct H4 as (q' & [= <-] & H4). apply Qcle_antisym; qclra.
      + destruct H3 as (q & [= <-] & H3). qclra.
    - intros (u & H2 & vl & vr & -> & -> & H3). exists (vl - vr)%Qc, u. split; [reflexivity|]. split; [exact H2|].
      destruct o; injection Eb as -> ->; cbn in H3 |- *.
      + split; [exact I|]. exists 0%Qc. split; [reflexivity|]. qclra.
      + subst vr. split; (exists 0%Qc; split; [reflexivity|]; qclra).
      + split; [|exact I]. exists 0%Qc. split; [reflexivity|]. qclra.
  Qed.
  Lemma constraint_good c k : In c (ym_binding_constraints m ++ ym_constraints m) -> constraint_shape c k -> good_constraint k.
  Proof.
    intros Hc (_ & _ & H). destruct GT as (_ & G & _). specialize (G c Hc).
    assert (B : forall inf text, good_bound inf (bound_of inf text)).
    { intros inf text. unfold bound_of. destruct (given_text text); [now left|]. right.
      split; [apply expr_of_finite|apply expr_of_aggregators]. }
    assert (Z0 : forall inf, good_bound inf (Lit n0)).
    { intros inf. right. split; (split; [exact I|exact I]). }
    assert (N : forall w, regular w ->
      c_expr k = expr_of vars w /\ c_lower k = bound_of NInf (yc_lower c) /\ c_upper k = bound_of PInf (yc_upper c) ->
      good_constraint k).
    { intros w Gw (E1 & E2 & E3). unfold good_constraint. rewrite E1, E2, E3. split; [now apply expr_of_good|]. split; apply B. }
    destruct (rd m (yc_expression c)) as [| | | | | | |o l r| | | | | | | |]; try exact (N _ G H).
    destruct H as [E Eb], G as [G1 G2]. unfold good_constraint. rewrite E.
    split; [apply sub_good; now apply expr_of_good|].
    destruct o; injection Eb as -> ->; split; first [apply Z0|now left].
  Qed.

  (** the parts of the model *)
  Lemma model_variables : Forall2 (fun y kv => fst kv = yv_id y /\ to_variable ids y = Ok (snd kv)) (ym_variables m) (m_variables M).
  Proof.
    destruct (mo_variables _ _ _ P) as (vs & F & ->). destruct DN as (_ & N & _).
    exact (listed_dict String.eqb String.eqb_eq (fun y v => to_variable ids y = Ok v) yv_id v_name (to_variable_name ids) _ _ F N).
  Qed.
  Lemma model_parameters : Forall2 (fun y kv => fst kv = yp_id y /\ snd kv = to_parameter y) (ym_parameters m) (m_parameters M).
  Proof.
    rewrite (mo_parameters _ _ _ P). destruct DN as (N & _).
    refine (listed_dict String.eqb String.eqb_eq (fun y v => v = to_parameter y) yp_id p_name _ _ _ _ N).
    - intros y a ->. reflexivity.
    - clear. induction (ym_parameters m); constructor; auto.
  Qed.
  Lemma model_constraints :
    Forall2 (fun y kv => fst kv = yc_id y /\ to_constraint ids y = Ok (snd kv)) (ym_binding_constraints m ++ ym_constraints m)
      (m_binding_constraints M ++ m_constraints M).
  Proof.
    destruct (mo_constraints _ _ _ P) as (cs & F & ->), (mo_binding _ _ _ P) as (bs & F' & ->). destruct DN as (_ & _ & N & N' & _).
    apply Forall2_app; eapply (listed_dict String.eqb String.eqb_eq (fun y v => to_constraint ids y = Ok v) yc_id c_name); eauto;
      intros y a H; apply (to_constraint_name _ _ _ H).
  Qed.
  Lemma model_definitions :
    Forall2 (fun y kv => fst kv = (yd_port y, yd_field y) /\ d_definition (snd kv) = X (yd_definition y))
      (ym_definitions m) (m_port_definitions M).
  Proof.
    destruct (mo_definitions _ _ _ P) as (ds & F & ->). destruct DN as (_ & _ & _ & _ & N).
    pose proof (listed_dict pfi_eqb pfi_eqb_eq (fun y v => resolve_field_definition ids y = Ok v)
      (fun d => (yd_port d, yd_field d)) d_field (definition_name ids) _ _ F N) as L.
    assert (G : forall y, In y (ym_definitions m) -> parse_expression (yd_definition y) ids = Ok (PVal (X (yd_definition y)))).
    { intros y Hy. apply text_parses. unfold model_texts. rewrite !in_app_iff. right; left. now apply in_map. }
    clear F N P. revert G L. generalize (dict_of pfi_eqb d_field ds) as d, (ym_definitions m) as ys. clear.
    intros d ys G L. induction L as [|y kv ys d [H1 H2] L IH]; constructor; [|apply IH; intros; apply G; now right].
    split; [exact H1|]. unfold resolve_field_definition in H2. rewrite (G y (or_introl eq_refl)) in H2. cbn in H2.
    destruct kv as [k a]. cbn [snd] in *. unfold mk_port_field_def in H2. inv_bind H2. injection H2 as <-. reflexivity.
  Qed.
  Lemma model_objective : m_operational M = match given_text (ym_objective m) with [] => None | w :: _ => Some (X w) end.
  Proof.
    apply text_if_present; [|exact (mo_objective _ _ _ P)]. intros w Hw. unfold model_texts. rewrite !in_app_iff. auto.
  Qed.
  Lemma model_named : named_model M /\ definitions_on_ports M.
  Proof.
    pose proof R as R0. unfold resolve_model in R0. cbv zeta in R0. do 6 (apply bind_ok in R0; destruct R0 as [? [_ R0]]).
    exact (make_model_named _ _ _ _ _ _ _ _ _ _ _ R0).
  Qed.
  Lemma model_good : good_model M.
  Proof.
    split; [apply model_named|]. split; [|split].
    - intros k Hk. unfold get_all_constraints in Hk. rewrite <- map_app in Hk. apply in_map_iff in Hk. destruct Hk as (kv & <- & Hkv).
      destruct (Forall2_In_r _ _ _ _ model_constraints Hkv) as (c & Hc & _ & H).
      apply (constraint_good c); auto. now apply constraint_of.
    - intros e [H|H].
      + rewrite model_objective in H. destruct (given_text (ym_objective m)) as [|w l] eqn:Eg; [discriminate|].
        injection H as <-. apply expr_of_good. destruct GT as (_ & _ & _ & G). apply G. rewrite Eg. now left.
      + rewrite (mo_investment _ _ _ P) in H. discriminate.
    - intros f d Hd. destruct (Forall2_In_r _ _ _ _ model_definitions Hd) as (y & Hy & _ & H). cbn in H. rewrite H.
      destruct GT as (_ & _ & G & _). destruct (G y Hy) as (G1 & G2 & G3 & G4). now apply expr_of_definition.
  Qed.

  (** ** Dependence on a dimension *)
  Context (dim : indexing -> bool) (vd : in_variable -> bool) (pd : in_parameter -> bool) (ft fs : bool)
    (ports ports' : string -> string -> bool).
  Hypothesis Hvd : forall v, vd v = dim {| ix_time := yv_time v; ix_scenario := yv_scenario v |}.
  Hypothesis Hpd : forall p, pd p = dim {| ix_time := yp_time p; ix_scenario := yp_scenario p |}.
  Hypothesis Hport : forall p f, ports p f = ports' p f.
  Let sp := model_structure_provider (m_parameters M) (m_variables M).
  Lemma model_varies w : plain w -> declared (model_names m) w ->
    varies dim ft fs sp ports (expr_of vars w) = text_varies vd pd ft fs m ports' w.
  Proof.
    apply (varies_expr_of dim vd pd ft fs m sp ports ports'); [| |exact Hport].
    - intros n Hn. unfold name_varies. cbn [sp get_variable_structure model_structure_provider]. unfold dict_structure.
      destruct (find_dget String.eqb String.eqb_eq (fun y v => to_variable ids y = Ok v) yv_id n
        (fun v => String.eqb (yv_id v) n) _ _ (fun y => String.eqb_eq (yv_id y) n) model_variables) as [(y & v & -> & -> & T & _)|(_ & _ & N)].
      + cbn. destruct (variable_as_written _ _ _ T) as (_ & -> & _). symmetry. apply Hvd.
      + exfalso. apply in_map_iff in Hn. destruct Hn as (y & <- & Hy). exact (N y Hy eq_refl).
    - intros n Hn Hp. unfold name_varies. cbn [sp get_parameter_structure model_structure_provider]. unfold dict_structure.
      assert (Nv : find (fun v => String.eqb (yv_id v) n) (ym_variables m) = None).
      { destruct (find _ _) as [v|] eqn:E; [|reflexivity]. apply find_some in E. destruct E as [E1 E2].
        apply String.eqb_eq in E2. exfalso. apply Hn. rewrite <- E2. now apply in_map. }
      rewrite Nv.
      destruct (find_dget String.eqb String.eqb_eq (fun y v => v = to_parameter y) yp_id n
        (fun v => String.eqb (yp_id v) n) _ _ (fun y => String.eqb_eq (yp_id y) n) model_parameters) as [(y & v & -> & -> & -> & _)|(_ & _ & N)].
      + cbn. symmetry. apply Hpd.
      + exfalso. apply in_map_iff in Hp. destruct Hp as (y & <- & Hy). exact (N y Hy eq_refl).
  Qed.
  Lemma text_model_varies w : In w (model_texts m) ->
    varies dim ft fs sp ports (X w) = text_varies vd pd ft fs m ports' (rd m w).
  Proof. intros H. destruct (text_reads w H) as (_ & _ & H1 & H2). now apply model_varies. Qed.
End OneModel.

(** ** Data *)
Lemma plain_data files i db c p : build_data_base files i = Ok db -> NoDup (parameter_keys (all_inputs i)) ->
  In c (all_inputs i) -> In p (parameters_of c) ->
  exists d, build_data files (ip_time p) (ip_scenario p) (ip_value p) None = Ok d /\ get_data db (ic_id c) (ip_id p) = Ok d.
Proof.
  intros B D Ic Ip. apply plain_data_base in B.
  set (q := {| ip_id := ip_id p; ip_time := ip_time p; ip_scenario := ip_scenario p; ip_value := ip_value p; ip_group := None |}).
  apply in_split in Ip. destruct Ip as (before & after & Ep).
  set (f := fun p => {| ip_id := ip_id p; ip_time := ip_time p; ip_scenario := ip_scenario p; ip_value := ip_value p; ip_group := None |}).
  destruct (scenarized_data_of files {| is_nodes := []; is_components := map no_groups (all_inputs i); is_connections := [] |} [] db B)
    with (c := no_groups c) (before := map f before) (after := map f after) (p := q) as (scs & scp & d & _ & H & Hd & Hg).
  - cbn. now rewrite keys_no_groups.
  - cbn. now apply in_map.
  - cbn. fold f. rewrite Ep, map_app. reflexivity.
  - right. apply Forall_forall. intros x Hx. apply in_map_iff in Hx. destruct Hx as (y & <- & _). reflexivity.
  - exists d. cbn in H. subst scp. split; [exact Hd|exact Hg].
Qed.
Lemma iloc_in {A} (l : list A) i a : iloc l i = Ok a -> In a l.
Proof.
  unfold iloc. destruct (_ && _); [|discriminate].
  match goal with |- context [nth_error l ?n] => destruct (nth_error l n) as [b|] eqn:E end; [|discriminate].
  intros [= <-]. eapply nth_error_In; eauto.
Qed.
Lemma dget_value {A} (l : list Z) (vs : list A) k v : dget Z.eqb k (combine l vs) = Some v -> In v vs.
Proof. intros H. apply (dget_In Z.eqb Z.eqb_eq) in H. exact (in_combine_r _ _ _ _ H). Qed.
Lemma series_in rows m v k : dataframe_to_time_series rows = Ok m -> dget Z.eqb k m = Some v -> exists r, In r rows /\ In v r.
Proof.
  unfold dataframe_to_time_series. intros H Hv. inv_bind H. injection H as <-. apply dget_value in Hv. apply mapM_ok in H0.
  destruct (Forall2_In_r _ _ _ _ H0 Hv) as (r & Hr & E). exists r. split; [exact Hr|].
  destruct r as [|a [|? ?]]; try discriminate. injection E as <-. now left.
Qed.
Lemma scenarios_in rows m v k : dataframe_to_scenario_series rows = Ok m -> dget Z.eqb k m = Some v -> exists r, In r rows /\ In v r.
Proof.
  unfold dataframe_to_scenario_series. intros H Hv. destruct rows as [|r [|? ?]]; try discriminate. injection H as <-.
  apply dget_value in Hv. exists r. split; [now left|exact Hv].
Qed.
Lemma built_finite files p d t s node v : build_data files (ip_time p) (ip_scenario p) (ip_value p) None = Ok d ->
  match ip_value p with
  | inl v => finite_number v
  | inr name => forall ts r v, files name = Ok ts -> In r ts -> In v r -> finite_number v
  end -> get_value d t s node = Ok v -> exists q, v = Fin q.
Proof.
  unfold build_data. intros Hd Hf Hv. destruct (ip_value p) as [x|name].
  - destruct (_ || _); [discriminate|]. injection Hd as <-. cbn in Hv. injection Hv as <-. exact Hf.
  - inv_bind Hd. rename v0 into ts. destruct (ip_time p), (ip_scenario p); cbn [andb] in Hd.
    + injection Hd as <-. cbn in Hv. destruct t, s; try discriminate. inv_bind Hv. apply iloc_in in H0, Hv.
      exact (Hf ts _ _ H H0 Hv).
    + inv_bind Hd. injection Hd as <-. cbn in Hv. destruct t as [t|]; [|discriminate].
      destruct (dget Z.eqb t v0) eqn:E; [|discriminate]. injection Hv as <-.
      destruct (series_in _ _ _ _ H0 E) as (r & Hr & Hvr). exact (Hf ts _ _ H Hr Hvr).
    + inv_bind Hd. injection Hd as <-. cbn in Hv. destruct s as [s|]; [|discriminate].
      destruct (dget Z.eqb s v0) eqn:E; [|discriminate]. injection Hv as <-.
      destruct (scenarios_in _ _ _ _ H0 E) as (r & Hr & Hvr). exact (Hf ts _ _ H Hr Hvr).
    + discriminate.
Qed.
Lemma built_constant files p d : build_data files (ip_time p) (ip_scenario p) (ip_value p) None = Ok d ->
  (ip_time p = false -> ignores_time d) /\ (ip_scenario p = false -> ignores_scenario d).
Proof.
  unfold build_data. intros Hd. destruct (ip_value p) as [x|name].
  - destruct (_ || _); [discriminate|]. injection Hd as <-. split; intros _ ? ? ? ?; reflexivity.
  - inv_bind Hd. rename v into ts. destruct (ip_time p), (ip_scenario p); cbn [andb] in Hd.
    + split; discriminate.
    + inv_bind Hd. injection Hd as <-. split; [discriminate|]. intros _ ? ? ? ?. reflexivity.
    + inv_bind Hd. injection Hd as <-. split; [|discriminate]. intros _ ? ? ? ?. reflexivity.
    + discriminate.
Qed.
Lemma find_by {A} (key : A -> string) n l : 
  (exists a, find (fun a => String.eqb (key a) n) l = Some a /\ In a l /\ key a = n) \/
  (find (fun a => String.eqb (key a) n) l = None /\ ~ In n (map key l)).
Proof.
  destruct (find _ l) as [a|] eqn:E.
  - left. exists a. apply find_some in E. destruct E as [H1 H2]. apply String.eqb_eq in H2. auto.
  - right. split; [reflexivity|]. intros H. apply in_map_iff in H. destruct H as (a & <- & H).
    pose proof (find_none _ _ E a H) as X. cbn in X. rewrite String.eqb_refl in X. discriminate.
Qed.
Lemma find_distinct {A} (key : A -> string) l a : NoDup (map key l) -> In a l ->
  find (fun b => String.eqb (key b) (key a)) l = Some a.
Proof.
  intros N H. destruct (find_by key (key a) l) as [(b & E & Hb & Eb)|[_ X]].
  - rewrite E. f_equal. exact (NoDup_map_inj_in _ _ _ _ N Hb H Eb).
  - exfalso. apply X. now apply in_map.
Qed.
Lemma one_dot a b a' b' : no_dot a -> no_dot b -> (a' ++ "." ++ b' = a ++ "." ++ b)%string -> a' = a /\ b' = b.
Proof.
  intros Ha Hb. revert a'. induction a as [|x a IH]; intros [|y a'] H.
  - cbn in H. split; [reflexivity|congruence].
  - exfalso. cbn in H. injection H as Hy H. revert H Hb. clear. revert b. induction a' as [|z a' IH]; intros b H Hb.
    + cbn in H. subst b. destruct Hb as [Hb _]. contradiction.
    + destruct b as [|c b]; [discriminate|]. cbn in H. injection H as -> H. destruct Hb as [_ Hb]. exact (IH b H Hb).
  - exfalso. cbn in H. injection H as Hy H. destruct Ha as [Ha _]. congruence.
  - cbn in H. injection H as -> H. destruct Ha as [_ Ha]. destruct (IH Ha a' H) as [-> ->]. auto.
Qed.

(** ** A study *)
Lemma input_libs_ok order libs out : input_libs order libs = Ok out ->
  NoDup (map yl_id libs) /\ resolve_library order libs [] = Ok out.
Proof.
  unfold input_libs. intros H. inv_bind H.
  assert (G : forall acc r, foldM (fun acc l => if existsb (String.eqb (yl_id l)) (snd acc) then Err ValueError
                else Ok (fst acc ++ [l], snd acc ++ [yl_id l])) acc libs = Ok r -> NoDup (snd acc) ->
              fst r = fst acc ++ libs /\ NoDup (snd r) /\ snd r = snd acc ++ map yl_id libs).
  { clear. induction libs as [|l libs IH]; intros acc r H N; cbn [foldM] in H.
    - injection H as <-. rewrite !app_nil_r. auto.
    - inv_bind H. destruct (existsb (String.eqb (yl_id l)) (snd acc)) eqn:B; [discriminate|]. injection H0 as <-.
      destruct (IH _ _ H) as (E1 & E2 & E3).
      + cbn. apply NoDup_append; [exact N|repeat constructor; tauto|]. intros a Ha [<-|[]].
        rewrite (proj2 (existsb_exists _ _)) in B; [discriminate|]. exists (yl_id l). split; [exact Ha|apply String.eqb_refl].
      + cbn in E1, E3. rewrite E1, E3, <- !app_assoc. cbn. rewrite E3, <- app_assoc in E2. auto. }
  destruct (G _ _ H0 (NoDup_nil _)) as (E1 & E2 & E3). cbn in E1, E3. rewrite E1 in H. rewrite E3 in E2. auto.
Qed.

Lemma input_libs_twice order libs : ~ NoDup (map yl_id libs) -> input_libs order libs = Err ValueError.
Proof.
  intros H. unfold input_libs.
  assert (G : forall acc, NoDup (snd acc) -> ~ NoDup (snd acc ++ map yl_id libs) ->
    foldM (fun acc l => if existsb (String.eqb (yl_id l)) (snd acc) then Err ValueError
                else Ok (fst acc ++ [l], snd acc ++ [yl_id l])) acc libs = Err ValueError).
  { clear. induction libs as [|l libs IH]; intros acc N H; cbn [foldM].
    - exfalso. cbn in H. rewrite app_nil_r in H. auto.
    - destruct (existsb (String.eqb (yl_id l)) (snd acc)) eqn:B; [reflexivity|]. cbn [bind]. apply IH; cbn [snd].
      + apply NoDup_append; [exact N|repeat constructor; tauto|]. intros a Ha [<-|[]].
        rewrite (proj2 (existsb_exists _ _)) in B; [discriminate|]. exists (yl_id l). split; [exact Ha|apply String.eqb_refl].
      + now rewrite <- app_assoc. }
  rewrite (G ([], [])); [reflexivity|constructor|exact H].
Qed.
Lemma run_twice order libs sys files T S : ~ NoDup (map yl_id libs) -> main_cli order libs sys files T S = Err ValueError.
Proof. intros H. unfold main_cli. now rewrite (input_libs_twice order libs H). Qed.

Lemma dict_of_keys {A} (key : A -> string) l : NoDup (map fst (dict_of String.eqb key l)).
Proof.
  unfold dict_of. assert (G : forall d : dict string A, NoDup (map fst d) -> NoDup (map fst (fold_left (fun d a => dset String.eqb (key a) a d) l d))).
  { induction l as [|a l IH]; intros d H; [exact H|]. cbn. apply IH. now apply (dset_nodup String.eqb String.eqb_eq). }
  apply G. constructor.
Qed.
(** the check of the models refuses nothing *)
Lemma all_models_has libs k l x : In (k, l) libs -> In x (map fst (l_models l)) -> In x (map fst (all_models libs)).
Proof.
  intros Hl Hx. unfold all_models.
  assert (G : forall acc, In x (map fst acc) \/ In (k, l) libs ->
    In x (map fst (fold_left (fun models kl => update String.eqb models (l_models (snd kl))) libs acc))).
  { clear Hl. induction libs as [|kl libs IH]; intros acc [H|H]; cbn [fold_left]; [exact H|destruct H| |].
    - apply IH. left. apply (update_has String.eqb String.eqb_eq). now right.
    - apply IH. destruct H as [->|H]; [left|now right]. apply (update_has String.eqb String.eqb_eq). now left. }
  apply G. now right.
Qed.
Lemma check_passes order libs sys out study : any_order order -> input_libs order libs = Ok out ->
  resolve_system sys out = Ok study -> consistency_check (sy_components study) (all_models out) = Ok true.
Proof.
  intros Ord Hl Hs. apply input_libs_ok in Hl. destruct Hl as [N Rl]. apply (proj1 (consistency_iff _ _)).
  intros c Hc. unfold resolve_system in Hs. inv_bind Hs. inv_bind Hs. inv_bind Hs. injection Hs as <-. cbn [sy_components mk_system] in Hc.
  apply in_map_iff in Hc. destruct Hc as ([k c'] & <- & Hc). cbn [snd].
  apply resolve_components_ok in H.
  assert (Hin : In c' v).
  { pose proof (dict_of_keys co_id v) as Dk. apply (In_dget_nodup String.eqb String.eqb_eq) in Hc; [|exact Dk].
    exact (proj1 (dict_of_from String.eqb co_id String.eqb_eq _ _ _ Hc)). }
  destruct (Forall2_In_r _ _ _ _ H Hin) as (i & _ & _ & a & b & lib & _ & _ & _ & Ga & Gb).
  apply (all_models_has out a lib); [exact (dget_In String.eqb String.eqb_eq _ _ _ Ga)|].
  assert (Ha : In a (map yl_id libs)).
  { destruct (returned_keys libs [] order Ord N out Rl) as [_ K].
    destruct (proj1 (K a)) as [X|X]; [|exact X|destruct X]. apply (dget_In String.eqb String.eqb_eq) in Ga.
    now apply (in_map fst) in Ga. }
  apply in_map_iff in Ha. destruct Ha as (y & Ey & Hy).
  destruct (returned_library libs [] order Ord N out Rl y Hy) as (l & Gl & _ & _ & _ & _ & ms & _ & El).
  assert (l = lib) by (rewrite Ey in Gl; congruence). subst lib. rewrite El in Gb.
  pose proof (dict_of_from String.eqb m_id String.eqb_eq _ _ _ Gb) as [_ Em]. rewrite Em, El.
  exact (in_map fst _ _ (dget_In String.eqb String.eqb_eq _ _ _ Gb)).
Qed.

Lemma nth_error_zrange a b i : (0 <= i < b - a)%Z -> nth_error (zrange a b) (Z.to_nat i) = Some (a + i)%Z.
Proof.
  intros H. unfold zrange. rewrite nth_error_map, (nth_error_nth' _ 0%nat) by (rewrite seq_length; lia).
  rewrite seq_nth by lia. cbn. f_equal. lia.
Qed.

(** what is built before the problem *)
Definition prepared (order : list string -> list string -> list string -> list string) (libs : list in_library) (sys : input_system)
  (files : string -> result frame) (T S : Z) (o : settings) : Prop :=
  exists out s db n, input_libs order libs = Ok out /\ resolve_system sys out = Ok s /\
    build_data_base files sys = Ok db /\ build_network s = Ok n /\ o = main_settings n db T S.
Section Study.
  Context (order : list string -> list string -> list string -> list string) (libs : list in_library) (sys : input_system)
    (files : string -> result frame) (T S : Z) (rd : in_model -> string -> wexpr) (o : settings).
  Hypothesis Ord : any_order order.
  Hypothesis Steps : prepared order libs sys files T S o.
  Hypothesis Good : good_study libs sys files T S rd.

  Let HT : (1 <= T)%Z. Proof. apply Good. Qed.
  Let HS : (1 <= S)%Z. Proof. apply Good. Qed.
  Let Dids : NoDup (input_ids sys). Proof. apply Good. Qed.
  Let Dkeys : NoDup (parameter_keys (all_inputs sys)). Proof. apply Good. Qed.
  Let Gentry e m : entry libs sys e m -> good_texts rd m /\ distinct_names m.
  Proof. apply Good. Qed.
  Let n := o_network o.
  Let Ids : NoDup (map ic_id (all_inputs sys)).
  Proof. unfold all_inputs. rewrite map_app. exact Dids. Qed.

  Lemma run_data : build_data_base files sys = Ok (o_database o).
  Proof. destruct Steps as (out & s & db & n0 & _ & _ & H & _ & ->). exact H. Qed.
  Lemma run_settings : o = main_settings n (o_database o) T S.
  Proof. unfold n. destruct Steps as (out & s & db & n0 & _ & _ & _ & _ & ->). reflexivity. Qed.

  (** [e] is an entry with model [m], [c] the component made of it *)
  Definition link (e : input_component) (m : in_model) (c : component) : Prop :=
    In e (all_inputs sys) /\ In c (all_components n) /\ co_id c = ic_id e /\ file_model libs (ic_model e) = Some m /\
    exists pts, resolve_model pts m = Ok (co_model c).
  Let stands_link out e c : NoDup (map yl_id libs) -> resolve_library order libs [] = Ok out -> stands_as out e c ->
    exists m, file_model libs (ic_model e) = Some m /\ exists pts, resolve_model pts m = Ok (co_model c).
  Proof.
    intros N Rl [_ (a & b & lib & E & Da & Db & G1 & G2)].
    assert (Ha : In a (map yl_id libs)).
    { destruct (returned_keys libs [] order Ord N out Rl) as [_ K].
      destruct (proj1 (K a)) as [X|X]; [|exact X|destruct X]. apply (dget_In String.eqb String.eqb_eq) in G1.
      now apply (in_map fst) in G1. }
    apply in_map_iff in Ha. destruct Ha as (y & Ey & Hy).
    destruct (returned_library libs [] order Ord N out Rl y Hy) as (l & Gl & _ & _ & _ & Nm & ms & Ms & El).
    assert (l = lib) by (rewrite Ey in Gl; congruence). subst lib.
    assert (Hb : In b (map ym_id (yl_models y))).
    { apply mapM_ok in Ms. rewrite El in G2. apply (dict_of_from String.eqb m_id String.eqb_eq) in G2. destruct G2 as [G2 E2].
      destruct (Forall2_In_r _ _ _ _ Ms G2) as (m & Hm & Rm). apply resolve_model_parts in Rm. rewrite <- E2, (mo_id _ _ _ Rm).
      now apply in_map. }
    apply in_map_iff in Hb. destruct Hb as (m & Em & Hm).
    destruct (returned_model libs [] order Ord N out Rl y m Hy Hm) as (l' & M & Gl' & GM & RM & _).
    assert (l' = l) by congruence. subst l'. rewrite Em in GM. assert (M = co_model c) by congruence. subst M.
    exists m. split; [|eauto]. unfold file_model.
    assert (Ht : forall ym, In ym (flat_map (fun y => map (pair y) (yl_models y)) libs) ->
      String.eqb (ic_model e) (yl_id (fst ym) ++ "." ++ ym_id (snd ym)) = true -> ym = (y, m)).
    { intros [y' m'] Hin Hq. apply in_flat_map in Hin. destruct Hin as (y2 & Hy2 & Hin). apply in_map_iff in Hin.
      destruct Hin as (m2 & [= -> ->] & Hm2). apply String.eqb_eq in Hq. cbn [fst snd] in Hq. rewrite E in Hq. symmetry in Hq.
      destruct (one_dot _ _ _ _ Da Db Hq) as [E1 E2].
      assert (y' = y) by (apply (NoDup_map_inj_in yl_id libs); auto; congruence). subst y'. f_equal.
      apply (NoDup_map_inj_in ym_id (yl_models y)); auto. congruence. }
    destruct (find _ _) as [ym|] eqn:F.
    - apply find_some in F. destruct F as [F1 F2]. rewrite (Ht _ F1 F2). reflexivity.
    - exfalso. pose proof (find_none _ _ F (y, m)) as X. cbn [fst snd] in X. rewrite Ey, Em, <- E in X.
      rewrite String.eqb_refl in X. assert (true = false); [|discriminate]. apply X. apply in_flat_map. exists y.
      split; [exact Hy|]. now apply in_map.
  Qed.
  Lemma network_file :
    Forall2 (fun e c => exists m, link e m c) (is_nodes sys ++ is_components sys) (all_components n) /\
    Forall2 (fun e c => exists m, link e m c) (is_nodes sys) (map snd (n_nodes n)) /\
    Forall2 (connects (all_components n)) (is_connections sys) (n_connections n) /\
    (forall e m c, link e m c -> get_component n (ic_id e) = Ok c) /\ built_network n /\
    (forall k, In k (n_connections n) -> In (pr_component (pc_port1 k)) (all_components n) /\
       In (pr_component (pc_port2 k)) (all_components n)).
  Proof.
    unfold link. unfold n. destruct Steps as (out & s & db & n0 & H1 & H2 & H3 & H4 & ->). cbn [o_network main_settings].
    apply input_libs_ok in H1. destruct H1 as [N Rl].
    destruct (network_of_file sys out s n0 Dids H2 H4) as (_ & Fn & Fc & Fk & Hget & _).
    assert (L : forall e c, In e (all_inputs sys) -> In c (all_components n0) -> stands_as out e c ->
      exists m, In e (all_inputs sys) /\ In c (all_components n0) /\ co_id c = ic_id e /\
        file_model libs (ic_model e) = Some m /\ exists pts, resolve_model pts m = Ok (co_model c)).
    { intros e c He Hc Hs. destruct (stands_link out e c N Rl Hs) as (m & Fm & Rm). exists m. repeat split; auto. apply Hs. }
    assert (LF : forall l cs, incl l (all_inputs sys) -> incl cs (all_components n0) -> Forall2 (stands_as out) l cs ->
      Forall2 (fun e c => exists m, In e (all_inputs sys) /\ In c (all_components n0) /\ co_id c = ic_id e /\
        file_model libs (ic_model e) = Some m /\ exists pts, resolve_model pts m = Ok (co_model c)) l cs).
    { intros l cs I1 I2 F. induction F as [|e c l cs Hec F IH]; constructor.
      - apply L; [apply I1; now left|apply I2; now left|exact Hec].
      - apply IH; intros x Hx; [apply I1|apply I2]; now right. }
    assert (In1 : incl (is_nodes sys) (all_inputs sys)) by (intros x Hx; apply in_or_app; now right).
    assert (In2 : incl (is_components sys) (all_inputs sys)) by (intros x Hx; apply in_or_app; now left).
    assert (Ic1 : incl (map snd (n_nodes n0)) (all_components n0)) by (intros x Hx; apply in_or_app; now left).
    assert (Ic2 : incl (map snd (n_components n0)) (all_components n0)) by (intros x Hx; apply in_or_app; now right).
    split; [apply Forall2_app; [exact (LF _ _ In1 Ic1 Fn)|exact (LF _ _ In2 Ic2 Fc)]|].
    split; [exact (LF _ _ In1 Ic1 Fn)|]. split; [exact Fk|]. split; [|split].
    - intros e m c (He & Hc & Ec & Fm & _). apply Hget; [exact He|].
      assert (X : exists e', In e' (all_inputs sys) /\ stands_as out e' c).
      { apply in_app_or in Hc. destruct Hc as [Hc|Hc].
        - destruct (Forall2_In_r _ _ _ _ Fn Hc) as (e' & He' & Hs). exists e'. split; [now apply In1|exact Hs].
        - destruct (Forall2_In_r _ _ _ _ Fc Hc) as (e' & He' & Hs). exists e'. split; [now apply In2|exact Hs]. }
      destruct X as (e' & He' & Hs). assert (e' = e); [|now subst].
      apply (NoDup_map_inj_in ic_id (all_inputs sys)); auto. destruct Hs as [Hs _]. congruence.
    - exact (build_network_built _ _ H4).
    - intros k Hk. destruct (Forall2_In_r _ _ _ _ Fk Hk) as (i & _ & (_ & _ & _ & _ & K1 & K2)). auto.
  Qed.
  Lemma entry_link e m : entry libs sys e m -> exists c, link e m c.
  Proof.
    intros [He Hm]. destruct network_file as [F _].
    assert (He' : In e (is_nodes sys ++ is_components sys)).
    { apply in_or_app. apply in_app_or in He. tauto. }
    destruct (Forall2_In_l _ _ _ _ F He') as (c & _ & m' & L). exists c. pose proof L as (_ & _ & _ & E & _).
    assert (m' = m) by congruence. now subst.
  Qed.
  Lemma component_link c : In c (all_components n) -> exists e m, link e m c.
  Proof. intros Hc. destruct network_file as [F _]. destruct (Forall2_In_r _ _ _ _ F Hc) as (e & _ & m & L). eauto. Qed.
  Lemma link_entry e m c : link e m c -> entry libs sys e m.
  Proof. intros (H1 & _ & _ & H2 & _). split; assumption. Qed.
  Lemma link_model e m c : link e m c -> good_texts rd m /\ distinct_names m /\ exists pts, resolve_model pts m = Ok (co_model c).
  Proof. intros L. destruct (Gentry e m (link_entry _ _ _ L)) as [H1 H2]. pose proof L as (_ & _ & _ & _ & H3). auto. Qed.
  Lemma link_get e m c : link e m c -> get_component n (co_id c) = Ok c.
  Proof. intros L. destruct network_file as (_ & _ & _ & H & _). pose proof L as (_ & _ & -> & _). exact (H e m c L). Qed.
  Lemma link_file e m c : link e m c -> file_entry sys (co_id c) = Some e.
  Proof. intros (He & _ & -> & _). unfold file_entry. exact (find_distinct ic_id (all_inputs sys) e Ids He). Qed.

  (** *** Data *)
  Let len : Z.of_nat (List.length (o_block o)) = T.
  Proof. rewrite run_settings. cbn [o_block main_settings]. rewrite zrange_length. lia. Qed.
  Let scen : o_scenarios o = S.
  Proof. rewrite run_settings. reflexivity. Qed.
  Lemma data_file e m c name t s : link e m c -> (0 <= s)%Z -> data_at o (co_id c) name t s = file_value files T e name t s.
  Proof.
    intros (He & _ & -> & _) Hs. unfold data_at, file_value. rewrite len.
    assert (Hmod : (0 <= t mod T < T)%Z) by (apply Z.mod_pos_bound; lia).
    assert (Hn : nth_error (o_block o) (Z.to_nat (t mod T)) = Some (t mod T)%Z).
    { rewrite run_settings. cbn [o_block main_settings]. apply (nth_error_zrange 0 T). lia. }
    rewrite Hn. assert (Ho : o_tree_node o = EmptyString) by (rewrite run_settings; reflexivity). rewrite Ho.
    destruct (find_by ip_id name (parameters_of e)) as [(p & -> & Hp & <-)|[-> Hno]].
    - destruct (plain_data files sys (o_database o) e p run_data Dkeys He Hp) as (d & Hd & ->).
      pose proof (fun v => build_data_value files p None d (t mod T) s s v Hd (proj1 Hmod) (fun _ => conj eq_refl Hs)) as V.
      destruct (get_value d (Some (t mod T)%Z) (Some s) EmptyString) as [v|er].
      + rewrite (proj1 (V v) eq_refl). reflexivity.
      + destruct (parameter_cell files p (t mod T) s) as [v|]; [|reflexivity]. exfalso.
        pose proof (proj2 (V v) eq_refl). discriminate.
    - rewrite (plain_absent files sys (o_database o) (ic_id e) name run_data); [reflexivity|].
      intros Hin. apply Hno. unfold parameter_keys in Hin. apply in_flat_map in Hin. destruct Hin as (e' & He' & Hin).
      apply in_map_iff in Hin. destruct Hin as (p & [= E1 <-] & Hp).
      assert (e' = e) by (apply (NoDup_map_inj_in ic_id (all_inputs sys)); auto). subst e'. now apply in_map.
  Qed.
  Lemma values_finite : finite_values o.
  Proof.
    intros c name d t s v Hd Hv.
    destruct (in_dec (ltac:(decide equality; apply string_dec) : forall a b : string * string, {a = b} + {a <> b}) (c, name) (parameter_keys (all_inputs sys))) as [Hin|Hno].
    - unfold parameter_keys in Hin. apply in_flat_map in Hin. destruct Hin as (e & He & Hin).
      apply in_map_iff in Hin. destruct Hin as (p & [= <- <-] & Hp).
      destruct (plain_data files sys (o_database o) e p run_data Dkeys He Hp) as (d' & Hd' & Hg).
      assert (d' = d) by congruence. subst d'. destruct Good as (_ & _ & _ & _ & F & _).
      exact (built_finite files p d t s _ v Hd' (F e p He Hp) Hv).
    - rewrite (plain_absent files sys (o_database o) c name run_data Hno) in Hd. discriminate.
  Qed.
  Lemma nodes_data c p : In c (map snd (n_nodes n)) -> In p (map snd (m_parameters (co_model c))) ->
    has_suitable_data (o_database o) (co_id c) p.
  Proof.
    intros Hc Hp. destruct network_file as (_ & Fn & _). destruct (Forall2_In_r _ _ _ _ Fn Hc) as (e & He & m & L).
    destruct (link_model e m c L) as (GT & DN & pts & R).
    apply in_map_iff in Hp. destruct Hp as (kp & <- & Hkp).
    destruct (Forall2_In_r _ _ _ _ (model_parameters pts m (co_model c) DN R) Hkp) as (y & Hy & _ & ->).
    destruct Good as (_ & _ & _ & _ & _ & ND & _). pose proof L as (_ & _ & Ec & Fm & _).
    destruct (ND e m y He Fm Hy) as (p & Hp & Ep & Pt & Ps).
    destruct (plain_data files sys (o_database o) e p run_data Dkeys) as (d & Hd & Hg); [apply L|exact Hp|].
    destruct (built_constant files p d Hd) as [Bt Bs].
    exists d. cbn [to_parameter p_name p_structure ix_time ix_scenario]. rewrite Ec, <- Ep. split; [exact Hg|].
    split; intros X; [apply Bt, Pt, X|apply Bs, Ps, X].
  Qed.

  (** *** The situation of C45 *)
  Lemma study_good : good_problem o.
  Proof.
    destruct network_file as (F & _ & _ & _ & B & K).
    assert (GM : forall c, In c (all_components n) -> good_model (co_model c)).
    { intros c Hc. destruct (component_link c Hc) as (e & m & L). destruct (link_model e m c L) as (GT & DN & pts & R).
      exact (model_good rd pts m (co_model c) GT DN R). }
    split; [split|].
    { intros E. pose proof len as X. rewrite E in X. cbn in X. lia. }
    { rewrite run_settings. reflexivity. }
    split; [rewrite scen; exact HS|]. split; [rewrite run_settings; discriminate|]. split; [exact B|].
    split. { unfold distinct_ids. fold n.
      assert (E : map co_id (all_components n) = map ic_id (is_nodes sys ++ is_components sys)).
      { clear -F. induction F as [|e c l cs (m & _ & _ & E & _) F IH]; [reflexivity|]. cbn. now rewrite E, IH. }
      rewrite E. rewrite map_app. pose proof Ids as D. unfold all_inputs in D. rewrite map_app in D.
      apply (Permutation.Permutation_NoDup (Permutation.Permutation_app_comm _ _) D). }
    split; [exact GM|]. split; [|split; [exact values_finite|exact nodes_data]].
    intros k Hk. destruct (K k Hk) as [K1 K2]. split; now apply GM.
  Qed.

  (** *** Connections *)
  Definition same_definition (ce : string * expr) (emd : input_component * in_model * in_definition) : Prop :=
    let '(e', m', d) := emd in exists c', link e' m' c' /\ fst ce = co_id c' /\ In d (ym_definitions m') /\
      snd ce = expr_of (map yv_id (ym_variables m')) (rd m' (yd_definition d)).
  Lemma definition_file r f : In (pr_component r) (all_components n) ->
    Forall2 same_definition (definition_of r f) (text_definition libs sys (co_id (pr_component r)) (pr_port r) f).
  Proof.
    intros Hc. destruct (component_link _ Hc) as (e & m & L). destruct (link_model e m _ L) as (GT & DN & pts & R).
    unfold definition_of, text_definition. rewrite (link_file e m _ L). pose proof L as (_ & _ & _ & -> & _).
    assert (Ht : forall y, String.eqb (yd_port y) (pr_port r) && String.eqb (yd_field y) f = true <->
      (yd_port y, yd_field y) = (pr_port r, f)).
    { intros y. rewrite andb_true_iff, !String.eqb_eq. split; [intros [-> ->]; reflexivity|intros [= -> ->]; auto]. }
    destruct (find_dget pfi_eqb pfi_eqb_eq (fun y v => d_definition v = expr_of (map yv_id (ym_variables m)) (rd m (yd_definition y)))
      (fun y => (yd_port y, yd_field y)) (pr_port r, f) _ _ _ Ht (model_definitions rd pts m (co_model (pr_component r)) GT DN R))
      as [(y & d & -> & Ed & Hd & Hy & Ey)|(-> & Ed & _)].
    - destruct (model_named pts m _ R) as [Nm Dp]. rewrite Ed.
      pose proof (dget_In pfi_eqb pfi_eqb_eq _ _ _ Ed) as Hin. destruct (Dp _ _ Hin) as (p & Hp & E1 & E2).
      destruct Nm as (_ & _ & _ & _ & [Np1 Np2] & _ & Nd2). rewrite (Nd2 _ _ Hin) in E1, E2. cbn in E1, E2.
      apply in_map_iff in Hp. destruct Hp as ([k p'] & Ep & Hp). cbn in Ep. subst p'. pose proof (Np2 _ _ Hp) as Ek.
      assert (Hk : k = pr_port r) by congruence. subst k. rewrite Hk in Hp.
      rewrite (In_dget_nodup String.eqb String.eqb_eq _ _ _ Np1 Hp).
      rewrite (proj2 (existsb_exists _ _)) by (exists f; split; [exact E2|apply String.eqb_refl]).
      constructor; [|constructor]. exists (pr_component r). auto.
    - rewrite Ed. destruct (dget String.eqb (pr_port r) _); constructor.
  Qed.
  Lemma connected_file id p f : Forall2 same_definition (connected n id p f) (text_connected libs sys id p f).
  Proof.
    destruct network_file as (_ & _ & F & _). unfold connected, text_connected.
    induction F as [|i k l ks (E1 & E2 & E3 & E4 & K1 & K2) F IH]; [constructor|]. cbn [flat_map]. apply Forall2_app; [|exact IH].
    assert (B : Forall2 same_definition (brought k f) (text_brought libs sys i f)).
    { unfold brought, text_brought. rewrite <- E1, <- E2, <- E3, <- E4. apply Forall2_app; now apply definition_file. }
    unfold is_port. rewrite E1, E2, E3, E4.
    apply Forall2_app; [destruct (String.eqb (icn_component1 i) id && String.eqb (icn_port1 i) p)
                       |destruct (String.eqb (icn_component2 i) id && String.eqb (icn_port2 i) p)]; first [exact B|constructor].
  Qed.
  Lemma defined_text m' d : In d (ym_definitions m') -> In (yd_definition d) (model_texts m').
  Proof. intros H. unfold model_texts. rewrite !in_app_iff. right; left. now apply in_map. Qed.

  (** *** Worlds *)
  Lemma world_file x e m c : link e m c -> agree (component_world o x (co_id c)) (file_world libs sys files T S rd x e).
  Proof.
    intros L. pose proof L as (_ & _ & Ec & _).
    split; [exact len|]. split; [exact scen|]. split; [|split].
    - intros name t s _. cbn [e_var component_world file_world entry_world]. now rewrite Ec.
    - intros name t s Hs. cbn [e_par component_world file_world entry_world]. exact (data_file e m c name t s L Hs).
    - intros p f. cbn [e_port component_world file_world entry_world]. rewrite Ec.
      pose proof (connected_file (ic_id e) p f) as F. unfold n in F.
      induction F as [|[cid ex] [[e' m'] d] l l' H F IH]; [constructor|]. cbn [map]. constructor; [|exact IH].
      destruct H as (c' & L' & E1 & Hd & E2). cbn in E1, E2. subst cid ex. intros t s Hs.
      destruct (link_model e' m' c' L') as (GT & DN & pts & R). cbn [fst snd].
      rewrite (text_den rd m' GT (yd_definition d) _ t s (defined_text m' d Hd)).
      unfold text_value. apply (meaning_agree _ _ _); [|exact Hs].
      split; [exact len|]. split; [exact scen|]. split; [|split].
      + intros name t1 s1 _. cbn. pose proof L' as (_ & _ & -> & _). reflexivity.
      + intros name t1 s1 Hs1. exact (data_file e' m' c' name t1 s1 L' Hs1).
      + intros p1 f1. constructor.
  Qed.
  Lemma value_file x e m c w t s : link e m c -> (0 <= s)%Z ->
    text_value (component_world o x (co_id c)) m w t s = text_value (file_world libs sys files T S rd x e) m w t s.
  Proof. intros L Hs. unfold text_value. apply (meaning_agree _ _ _ (world_file x e m c L)). exact Hs. Qed.
  Lemma bound_file x e m c Rel text t s : link e m c -> (0 <= s)%Z ->
    (text_bound rd Rel (component_world o x (co_id c)) m text t s <->
     text_bound rd Rel (file_world libs sys files T S rd x e) m text t s).
  Proof.
    intros L Hs. unfold text_bound. destruct (given_text text) as [|w l]; [tauto|]. rewrite (value_file x e m c _ t s L Hs). tauto.
  Qed.
  Lemma holds_file d x e m c k t s : link e m c -> (0 <= s)%Z ->
    (form_holds rd m d (component_world o x (co_id c)) k t s <-> text_holds libs sys files T S rd d x e m k t s).
  Proof.
    intros L Hs. unfold form_holds, text_holds. cbv zeta.
    change (read (component_world o x (co_id c)) t s) with (read (file_world libs sys files T S rd x e) t s).
    assert (G : forall u a,
      (exists v, text_value (component_world o x (co_id c)) m a t s = Some v /\
        text_bound rd (fun q => (q <= v - u)%Qc) (component_world o x (co_id c)) m (yc_lower k) t s /\
        text_bound rd (fun q => (v - u <= q)%Qc) (component_world o x (co_id c)) m (yc_upper k) t s) <->
      (exists v, text_value (file_world libs sys files T S rd x e) m a t s = Some v /\
        text_bound rd (fun q => (q <= v - u)%Qc) (file_world libs sys files T S rd x e) m (yc_lower k) t s /\
        text_bound rd (fun q => (v - u <= q)%Qc) (file_world libs sys files T S rd x e) m (yc_upper k) t s)).
    { intros u a. rewrite (value_file x e m c a t s L Hs).
      split; intros (v & H1 & H2 & H3); exists v; (split; [exact H1|]); split; now apply (bound_file x e m c _ _ t s L Hs). }
    assert (G' : forall u op l r,
      (exists vl vr, text_value (component_world o x (co_id c)) m l t s = Some vl /\
         text_value (component_world o x (co_id c)) m r t s = Some vr /\ cmp_holds op (vl - u)%Qc vr) <->
      (exists vl vr, text_value (file_world libs sys files T S rd x e) m l t s = Some vl /\
         text_value (file_world libs sys files T S rd x e) m r t s = Some vr /\ cmp_holds op (vl - u)%Qc vr)).
    { intros u op l r. rewrite (value_file x e m c l t s L Hs), (value_file x e m c r t s L Hs). tauto. }
    split; intros (u & H1 & H2); exists u; (split; [exact H1|]);
      destruct (rd m (yc_expression k)); solve [apply (G u _); exact H2|apply (G' u _ _ _); exact H2].
  Qed.

  (** *** Decisions mentioned *)
  Lemma definition_world x e m c : link e m c ->
    agree (local_env (world o x) (co_id c)) (entry_world sys files T S x e (fun _ _ => [])).
  Proof.
    intros L. split; [exact len|]. split; [exact scen|]. split; [|split].
    - intros name t1 s1 _. cbn. pose proof L as (_ & _ & -> & _). reflexivity.
    - intros name t1 s1 Hs1. exact (data_file e m c name t1 s1 L Hs1).
    - intros p1 f1. constructor.
  Qed.
  Lemma mentioned_file e m c ex w : link e m c ->
    (forall E p, mentions E p ex = text_mentions E (map yv_id (ym_variables m)) p w) ->
    decisions_mentioned o (co_id c) ex = file_mentions libs sys files T S rd e m w.
  Proof.
    intros L Hw. unfold decisions_mentioned, file_mentions. cbv zeta. rewrite Hw. apply text_mentions_agree; [exact (world_file _ e m c L)|].
    intros p f. pose proof L as (_ & _ & -> & _). fold n.
    pose proof (connected_file (ic_id e) p f) as F. induction F as [|[cid exd] [[e' m'] d] l l' H F IH]; [reflexivity|].
    unfold list_sum in *. cbn [map fold_right fst snd]. rewrite IH. f_equal. destruct H as (c' & L' & E1 & Hd & E2). cbn in E1, E2. subst cid exd.
    destruct (link_model e' m' c' L') as (GT & DN & pts & R).
    rewrite (mentions_text (model_identifiers m') _ _ _ _ (text_reads rd m' GT _ (defined_text m' d Hd))).
    apply text_mentions_agree; [exact (definition_world _ e' m' c' L')|reflexivity].
  Qed.
  Lemma constraint_mentions e m c y k : link e m c -> In y (ym_binding_constraints m ++ ym_constraints m) ->
    constraint_shape rd m y k ->
    decisions_mentioned o (co_id c) (c_expr k) = file_mentions libs sys files T S rd e m (rd m (yc_expression y)).
  Proof.
    intros L Hy (_ & _ & Hs). apply (mentioned_file e m c _ _ L). intros E p. destruct (link_model e m c L) as (GT & _).
    assert (Hr : reads_as (model_identifiers m) (yc_expression y) (rd m (yc_expression y))).
    { apply (text_reads rd m GT). unfold model_texts. rewrite !in_app_iff. apply in_app_or in Hy.
      destruct Hy as [Hy|Hy]; [right; right; left|right; right; right; left]; apply in_flat_map; exists y; (split; [exact Hy|now left]). }
    pose proof (mentions_text _ E p _ _ Hr) as M.
    destruct (rd m (yc_expression y)) as [| | | | | | |op l r| | | | | | | |]; try (destruct Hs as [-> _]; exact M).
    destruct Hs as [-> _]. rewrite mentions_sub. exact M.
  Qed.

  (** *** Dependence on the timestep and the scenario *)
  Section Dependence.
    Context (dim : indexing -> bool) (vd : in_variable -> bool) (pd : in_parameter -> bool) (ft fs : bool).
    Hypothesis Hvd : forall v, vd v = dim {| ix_time := yv_time v; ix_scenario := yv_scenario v |}.
    Hypothesis Hpd : forall p, pd p = dim {| ix_time := yp_time p; ix_scenario := yp_scenario p |}.
    Lemma local_file e m c : link e m c -> local_structure n (co_id c) =
      model_structure_provider (m_parameters (co_model c)) (m_variables (co_model c)).
    Proof. intros L. unfold local_structure. now rewrite (link_get e m c L). Qed.
    Lemma ports_file id p f :
      existsb (fun d => varies dim ft fs (local_structure n (fst d)) (fun _ _ => false) (snd d)) (connected n id p f) =
      existsb (fun emd => let '(_, m', d) := emd in text_varies vd pd ft fs m' (fun _ _ => false) (rd m' (yd_definition d)))
        (text_connected libs sys id p f).
    Proof.
      pose proof (connected_file id p f) as F. induction F as [|[cid ex] [[e' m'] d] l l' H F IH]; [reflexivity|].
      cbn [existsb fst snd]. rewrite IH. f_equal. destruct H as (c' & L' & E1 & Hd & E2). cbn in E1, E2. subst cid ex.
      destruct (link_model e' m' c' L') as (GT & DN & pts & R). rewrite (local_file e' m' c' L').
      exact (text_model_varies rd pts m' (co_model c') GT DN R dim vd pd ft fs _ _ Hvd Hpd (fun _ _ => eq_refl) _ (defined_text m' d Hd)).
    Qed.
    Lemma varies_file e m c w : link e m c -> plain w -> declared (model_names m) w ->
      varies_in dim ft fs n (co_id c) (expr_of (map yv_id (ym_variables m)) w) = entry_varies libs sys rd vd pd ft fs e m w.
    Proof.
      intros L Pw Dw. unfold varies_in, entry_varies. rewrite (local_file e m c L).
      destruct (link_model e m c L) as (GT & DN & pts & R). pose proof L as (_ & _ & -> & _).
      exact (model_varies pts m (co_model c) DN R dim vd pd ft fs _ _ Hvd Hpd (fun p f => ports_file (ic_id e) p f) w Pw Dw).
    Qed.
    Lemma expression_varies e m c y k :
      link e m c -> In y (ym_binding_constraints m ++ ym_constraints m) -> constraint_shape rd m y k ->
      varies_in dim ft fs n (co_id c) (c_expr k) = entry_varies libs sys rd vd pd ft fs e m (rd m (yc_expression y)).
    Proof.
      intros L Hy (_ & _ & Hs). destruct (link_model e m c L) as (GT & _).
      assert (I : In (yc_expression y) (model_texts m)).
      { unfold model_texts. rewrite !in_app_iff. apply in_app_or in Hy.
        destruct Hy as [Hy|Hy]; [right; right; left|right; right; right; left]; apply in_flat_map;
          (exists y; split; [exact Hy|now left]). }
      destruct (text_reads rd m GT _ I) as (_ & _ & P & D).
      destruct (rd m (yc_expression y)) as [| | | | | | |op l r| | | | | | | |]; destruct Hs as [-> _];
        first [exact (varies_file e m c _ L P D)|exact (varies_file e m c (WAdd Minus l r) L P D)].
    Qed.
    Lemma follow_file e m c y k :
      link e m c -> In y (ym_binding_constraints m ++ ym_constraints m) -> constraint_shape rd m y k ->
      (forall w, In w (given_text (yc_lower y) ++ given_text (yc_upper y)) ->
         entry_varies libs sys rd vd pd ft fs e m (rd m w) = true ->
         entry_varies libs sys rd vd pd ft fs e m (rd m (yc_expression y)) = true) ->
      varies_in dim ft fs n (co_id c) (c_lower k) || varies_in dim ft fs n (co_id c) (c_upper k) = true ->
      varies_in dim ft fs n (co_id c) (c_expr k) = true.
    Proof.
      intros L Hy (_ & _ & Hs) HB. destruct (link_model e m c L) as (GT & DN & pts & R).
      assert (I : incl (constraint_texts y) (model_texts m)).
      { intros w Hw. unfold model_texts. rewrite !in_app_iff. apply in_app_or in Hy.
        destruct Hy as [Hy|Hy]; [right; right; left|right; right; right; left]; apply in_flat_map; eauto. }
      assert (V : forall w, In w (model_texts m) ->
        varies_in dim ft fs n (co_id c) (expr_of (map yv_id (ym_variables m)) (rd m w)) = entry_varies libs sys rd vd pd ft fs e m (rd m w)).
      { intros w Hw. destruct (text_reads rd m GT w Hw) as (_ & _ & H1 & H2). now apply varies_file. }
      assert (B : forall inf text, incl (given_text text) (given_text (yc_lower y) ++ given_text (yc_upper y)) ->
        varies_in dim ft fs n (co_id c) (bound_of rd m inf text) = true ->
        varies_in dim ft fs n (co_id c) (expr_of (map yv_id (ym_variables m)) (rd m (yc_expression y))) = true).
      { intros inf text It. unfold bound_of. destruct (given_text text) as [|w l]; [discriminate|]. intros H.
        rewrite V in H by (apply I; right; apply It; now left).
        rewrite V by (apply I; now left). apply (HB w); [apply It; now left|exact H]. }
      assert (N : c_expr k = expr_of (map yv_id (ym_variables m)) (rd m (yc_expression y)) /\
                  c_lower k = bound_of rd m NInf (yc_lower y) /\ c_upper k = bound_of rd m PInf (yc_upper y) ->
        varies_in dim ft fs n (co_id c) (c_lower k) || varies_in dim ft fs n (co_id c) (c_upper k) = true ->
        varies_in dim ft fs n (co_id c) (c_expr k) = true).
      { intros (-> & -> & ->) H. apply orb_true_iff in H. destruct H as [H|H].
        - exact (B _ (yc_lower y) (fun w Hw => in_or_app _ _ _ (or_introl Hw)) H).
        - exact (B _ (yc_upper y) (fun w Hw => in_or_app _ _ _ (or_intror Hw)) H). }
      destruct (rd m (yc_expression y)) as [| | | | | | |op l r| | | | | | | |]; try exact (N Hs).
      destruct Hs as [_ Eb]. clear N. destruct op; injection Eb as -> ->; discriminate.
    Qed.
  End Dependence.
  Lemma bounds_file e m c y k : link e m c -> In y (ym_binding_constraints m ++ ym_constraints m) -> constraint_shape rd m y k ->
    text_bounds_follow libs sys rd e m y -> bounds_follow n (co_id c) k.
  Proof.
    intros L Hy Hs HB. split.
    - apply (follow_file ix_time yv_time yp_time true false (fun _ => eq_refl) (fun _ => eq_refl) e m c y k L Hy Hs).
      intros w Hw. exact (proj1 (HB w Hw)).
    - apply (follow_file ix_scenario yv_scenario yp_scenario false true (fun _ => eq_refl) (fun _ => eq_refl) e m c y k L Hy Hs).
      intros w Hw. exact (proj2 (HB w Hw)).
  Qed.

  (** *** Variables *)
  Let Hdist : distinct_ids (o_network o). Proof. apply study_good. Qed.
  Let Hnamed : named_network (o_network o).
  Proof. intros c Hc. destruct study_good as (_ & _ & _ & _ & _ & H & _). exact (proj1 (H c Hc)). Qed.
  Let Hblock : usable_block o. Proof. apply study_good. Qed.
  Let select : o_selection o = MergedProblem.
  Proof. rewrite run_settings. reflexivity. Qed.
  Let keep_all {A} (l : list A) (f : A -> problem_context) a : In a l -> In a (filter (fun a => keep_from_context MergedProblem (f a)) l).
  Proof. intros H. now apply filter_In. Qed.
  Definition made (m : in_model) (c : component) (y : in_variable) (v : variable) : Prop :=
    In y (ym_variables m) /\ In v (map snd (m_variables (co_model c))) /\ to_variable (model_identifiers m) y = Ok v.
  Lemma made_of_text e m c y : link e m c -> In y (ym_variables m) -> exists v, made m c y v.
  Proof.
    intros L Hy. destruct (link_model e m c L) as (GT & DN & pts & R).
    destruct (Forall2_In_l _ _ _ _ (model_variables pts m (co_model c) DN R) Hy) as (kv & Hkv & _ & H).
    exists (snd kv). split; [exact Hy|]. split; [now apply in_map|exact H].
  Qed.
  Lemma text_of_made e m c v : link e m c -> In v (map snd (m_variables (co_model c))) -> exists y, made m c y v.
  Proof.
    intros L Hv. destruct (link_model e m c L) as (GT & DN & pts & R). pose proof Hv as Hv'.
    apply in_map_iff in Hv. destruct Hv as (kv & <- & Hkv).
    destruct (Forall2_In_r _ _ _ _ (model_variables pts m (co_model c) DN R) Hkv) as (y & Hy & _ & H).
    exists y. split; [exact Hy|]. split; [exact Hv'|exact H].
  Qed.
  Lemma made_name_ m c y v : made m c y v -> v_name v = yv_id y.
  Proof. intros (_ & _ & H). exact (to_variable_name _ _ _ H). Qed.
  Lemma made_structure m c y v : made m c y v -> v_structure v = {| ix_time := yv_time y; ix_scenario := yv_scenario y |}.
  Proof. intros (_ & _ & H). apply (variable_as_written _ _ _ H). Qed.
  Lemma made_instance e m c y v t s : link e m c -> made m c y v ->
    (instance_of o c v t s <-> index_of (yv_time y) T t /\ index_of (yv_scenario y) S s).
  Proof.
    intros L M. unfold instance_of. rewrite (made_structure _ _ _ _ M), len, scen, select. cbn [ix_time ix_scenario].
    split; [tauto|]. intros [H1 H2]. split; [apply L|]. split; [|tauto]. apply keep_all. apply M.
  Qed.

  Lemma decisions_file x : file_decisions libs sys T x <-> admissible_decisions o x.
  Proof.
    unfold file_decisions, admissible_decisions. rewrite len. split; intros [H1 H2]; (split; [exact H1|]).
    - intros c v Hc Hv. destruct (component_link c Hc) as (e & m & L). destruct (text_of_made e m c v L Hv) as (y & M).
      rewrite (made_name_ _ _ _ _ M), (made_structure _ _ _ _ M). pose proof L as (_ & _ & -> & _). cbn [ix_time ix_scenario].
      exact (H2 e m y (link_entry _ _ _ L) (proj1 M)).
    - intros e m y He Hy. destruct (entry_link e m He) as (c & L). destruct (made_of_text e m c y L Hy) as (v & M).
      pose proof (H2 c v (proj1 (proj2 L)) (proj1 (proj2 M))) as X.
      rewrite (made_name_ _ _ _ _ M), (made_structure _ _ _ _ M) in X. pose proof L as (_ & _ & E & _). rewrite E in X. exact X.
  Qed.
  Let index_given b k i : index_of b k i <-> exists z, i = given_index b z /\ (b = true -> (0 <= z < k)%Z).
  Proof.
    unfold index_of, given_index. destruct i as [z|]; split.
    - intros [-> H]. exists z. auto.
    - intros (z' & E & H). destruct b; [|discriminate]. injection E as ->. auto.
    - intros ->. exists 0%Z. split; [reflexivity|discriminate].
    - intros (z' & E & _). destruct b; [discriminate|reflexivity].
  Qed.
  Let restrict b k z : (1 <= k)%Z -> (b = true -> (0 <= z < k)%Z) ->
    exists z', (0 <= z' < k)%Z /\ given_index b z' = given_index b z.
  Proof. intros Hk H. destruct b; [exists z; auto|]. exists 0%Z. split; [lia|reflexivity]. Qed.
  Context (st : state).
  Hypothesis run_problem : build_problem o = Ok st.
  Lemma takes_represents x y : file_decisions libs sys T x ->
    takes_values libs sys T S (placed o st) y x -> represents o st y x.
  Proof.
    intros Hx H c v t s i Hi Hl t' s'. pose proof Hi as (Hc & Hv & _). destruct (component_link c Hc) as (e & m & L).
    apply filter_In in Hv. destruct Hv as [Hv _]. destruct (text_of_made e m c v L Hv) as (w & M).
    apply (made_instance e m c w v t s L M) in Hi. destruct Hi as [It Is].
    apply index_given in It. destruct It as (zt & -> & Ht). apply index_given in Is. destruct Is as (zs & -> & Hs).
    destruct (restrict _ _ _ HT Ht) as (t0 & Bt & Et). destruct (restrict _ _ _ HS Hs) as (s0 & Bs & Es).
    rewrite (made_name_ _ _ _ _ M) in *. pose proof L as (_ & _ & Ec & _). rewrite Ec in *. rewrite <- Et, <- Es in *.
    rewrite (H e m w t0 s0 i (link_entry _ _ _ L) (proj1 M) Bt Bs Hl).
    destruct Hx as [_ Hx]. destruct (Hx e m w (link_entry _ _ _ L) (proj1 M)) as [Xt Xs].
    transitivity (x (ic_id e) (yv_id w) (odefault t' (given_index (yv_time w) t0)) s0).
    - unfold given_index. destruct (yv_time w); [reflexivity|]. cbn. now apply Xt.
    - unfold given_index at 2. destruct (yv_scenario w); [reflexivity|]. cbn. now apply Xs.
  Qed.
  Lemma represents_takes x y : file_decisions libs sys T x -> represents o st y x ->
    takes_values libs sys T S (placed o st) y x.
  Proof.
    intros Hx H e m w t s i He Hw Bt Bs Hp. destruct (entry_link e m He) as (c & L).
    destruct (made_of_text e m c w L Hw) as (v & M). unfold placed in Hp. pose proof L as (_ & _ & Ec & _).
    assert (Hi : instance_of o c v (given_index (yv_time w) t) (given_index (yv_scenario w) s)).
    { apply (made_instance e m c w v _ _ L M). split; apply index_given; eauto. }
    specialize (H c v _ _ i Hi). rewrite Ec, (made_name_ _ _ _ _ M) in H. rewrite (H Hp t s).
    unfold given_index. destruct (yv_time w), (yv_scenario w); reflexivity.
  Qed.

  (** *** Decisions *)
  Lemma positions_of e m w t s : entry libs sys e m -> In w (ym_variables m) -> (0 <= t < T)%Z -> (0 <= s < S)%Z ->
    exists i sv, placed o st e w t s i /\ nth_error (s_vars (st_solver st)) i = Some sv /\
      sv_name sv = solver_variable_name o (ic_id e) (yv_id w) (given_index (yv_time w) t) (given_index (yv_scenario w) s).
  Proof.
    intros He Hw Bt Bs. destruct (entry_link e m He) as (c & L). destruct (made_of_text e m c w L Hw) as (v & M).
    assert (Hi : instance_of o c v (given_index (yv_time w) t) (given_index (yv_scenario w) s)).
    { apply (made_instance e m c w v _ _ L M). split; apply index_given; eauto. }
    destruct (reads_variable o st Hblock Hdist Hnamed run_problem) as (H1 & _).
    destruct (H1 _ _ _ _ Hi) as (i & sv & Hn & En & Hg). exists i, sv. pose proof L as (_ & _ & Ec & _).
    rewrite Ec, (made_name_ _ _ _ _ M) in *. split; [|split; [exact Hn|exact En]]. apply Hg.
    unfold wrapped, given_index. destruct (yv_time w); cbn; [|reflexivity]. rewrite len, Z.mod_small by lia. reflexivity.
  Qed.
  Lemma decisions_correspond_of :
    (forall x, file_decisions libs sys T x -> exists y, takes_values libs sys T S (placed o st) y x) /\
    (forall y, exists x, file_decisions libs sys T x /\ takes_values libs sys T S (placed o st) y x).
  Proof.
    split.
    - intros x Hx. destruct (represented_exists o st Hblock Hdist Hnamed run_problem x (proj1 (decisions_file x) Hx)) as (y & Hy).
      exists y. now apply represents_takes.
    - intros y. destruct (decisions_exist o st Hblock Hdist Hnamed run_problem y) as (x & Hx & Hy). apply decisions_file in Hx.
      exists x. split; [exact Hx|]. now apply represents_takes.
  Qed.
  Lemma position_used i sv : nth_error (s_vars (st_solver st)) i = Some sv ->
    exists e m c y v t s, link e m c /\ made m c y v /\ (0 <= t < T)%Z /\ (0 <= s < S)%Z /\ placed o st e y t s i.
  Proof.
    intros H. destruct (reads_variable o st Hblock Hdist Hnamed run_problem) as (_ & _ & _ & H4).
    destruct (H4 i sv H) as (c & v & t & s & Hi & Hl). pose proof Hi as (Hc & Hv & _).
    destruct (component_link c Hc) as (e & m & L). apply filter_In in Hv. destruct Hv as [Hv _].
    destruct (text_of_made e m c v L Hv) as (w & M). apply (made_instance e m c w v t s L M) in Hi. destruct Hi as [It Is].
    apply index_given in It. destruct It as (zt & -> & Ht). apply index_given in Is. destruct Is as (zs & -> & Hs).
    destruct (restrict _ _ _ HT Ht) as (t0 & Bt & Et). destruct (restrict _ _ _ HS Hs) as (s0 & Bs & Es).
    exists e, m, c, w, v, t0, s0. split; [exact L|]. split; [exact M|]. split; [exact Bt|]. split; [exact Bs|].
    unfold placed. pose proof L as (_ & _ & <- & _). now rewrite Et, Es, <- (made_name_ _ _ _ _ M).
  Qed.
  Lemma placed_once_of e m w t s e' m' w' t' s' i : entry libs sys e m -> In w (ym_variables m) ->
    entry libs sys e' m' -> In w' (ym_variables m') -> (0 <= t < T)%Z -> (0 <= t' < T)%Z ->
    placed o st e w t s i -> placed o st e' w' t' s' i ->
    e = e' /\ w = w' /\ (yv_time w = true -> t = t') /\ (yv_scenario w = true -> s = s').
  Proof.
    intros He Hw He' Hw' Bt Bt' P1 P2. destruct (reads_variable o st Hblock Hdist Hnamed run_problem) as (_ & _ & H3 & _).
    destruct (H3 _ _ _ _ _ _ _ _ _ P1 P2) as (E1 & E2 & E3 & E4).
    assert (e = e') by (apply (NoDup_map_inj_in ic_id (all_inputs sys)); auto; [apply He|apply He']). subst e'.
    assert (m = m') by (destruct He, He'; congruence). subst m'.
    assert (w = w').
    { destruct (Gentry e m He) as [_ (_ & N & _)]. apply (NoDup_map_inj_in yv_id (ym_variables m)); auto. } subst w'.
    split; [reflexivity|]. split; [reflexivity|]. unfold given_index in *. split; intros X; rewrite X in *.
    - cbn in E3. rewrite len, !Z.mod_small in E3 by lia. congruence.
    - congruence.
  Qed.

  (** *** Bounds of variables *)
  Lemma variable_texts_in m w : In w (ym_variables m) -> incl (variable_texts w) (model_texts m).
  Proof. intros H a Ha. unfold model_texts. apply in_or_app. left. apply in_flat_map. eauto. Qed.
  Lemma bounds_written m c y v : good_texts rd m -> made m c y v ->
    v_lower v = match given_text (yv_lower y) with [] => None | w :: _ => Some (expr_of (map yv_id (ym_variables m)) (rd m w)) end /\
    v_upper v = match given_text (yv_upper y) with [] => None | w :: _ => Some (expr_of (map yv_id (ym_variables m)) (rd m w)) end.
  Proof.
    intros GT (Hy & _ & H). unfold to_variable, mk_variable in H. apply bind_ok in H. destruct H as [ty [_ H]].
    apply bind_ok in H. destruct H as [lb [L H]]. apply bind_ok in H. destruct H as [ub [U H]].
    apply bind_ok in H. destruct H as [? [_ H]]. apply bind_ok in H. destruct H as [? [_ H]]. injection H as <-. cbn [v_lower v_upper].
    pose proof (variable_texts_in m y Hy) as I. unfold variable_texts in I.
    split; apply (text_if_present rd m GT); [|exact L| |exact U]; intros a Ha; apply I; apply in_or_app; auto.
  Qed.
  Lemma bound_good m (text : option string) :
    good_variable_bound (match given_text text with [] => None | w :: _ => Some (expr_of (map yv_id (ym_variables m)) (rd m w)) end).
  Proof.
    intros e H. destruct (given_text text) as [|w l]; [discriminate|]. injection H as <-. right.
    split; [apply expr_of_finite|apply expr_of_aggregators].
  Qed.
  Let bound_text e m c y inf text t s b : link e m c -> In y (ym_variables m) -> incl (given_text text) (model_texts m) ->
    bound_is o (co_id c) inf (match given_text text with [] => None | w :: _ => Some (expr_of (map yv_id (ym_variables m)) (rd m w)) end)
      (given_index (yv_time y) t) (given_index (yv_scenario y) s) b ->
    text_bound_is libs sys files T S rd e m y inf text t s b.
  Proof.
    intros L Hy I. destruct (link_model e m c L) as (GT & _). unfold text_bound_is, bound_is.
    destruct (given_text text) as [|w l]; [tauto|].
    assert (Hw : In w (model_texts m)) by (apply I; now left).
    set (X := expr_of (map yv_id (ym_variables m)) (rd m w)).
    assert (D : forall x t1 s1, (0 <= s1)%Z -> text_value (file_world libs sys files T S rd x e) m (rd m w) t1 s1 =
      den (component_world o x (co_id c)) X t1 s1).
    { intros x t1 s1 Hs. rewrite <- (value_file x e m c (rd m w) t1 s1 L Hs). symmetry. apply (text_den rd m GT w _ t1 s1 Hw). }
    assert (G : (exists q, b = Fin q /\ forall x t' s', den (component_world o x (co_id c)) X
        (odefault t' (given_index (yv_time y) t)) (odefault s' (given_index (yv_scenario y) s)) = Some q) ->
      exists q, b = Fin q /\ forall x t' s', (yv_time y = true -> t' = t) -> (yv_scenario y = true -> s' = s) ->
        (0 <= s')%Z -> text_value (file_world libs sys files T S rd x e) m (rd m w) t' s' = Some q).
    { intros (q & -> & Hq). exists q. split; [reflexivity|]. intros x t' s' E1 E2 Hs. rewrite (D x t' s' Hs).
      rewrite <- (Hq x t' s'). f_equal.
      - unfold given_index. destruct (yv_time y); [now apply E1|reflexivity].
      - unfold given_index. destruct (yv_scenario y); [now apply E2|reflexivity]. }
    intros H. destruct X as [v| | | | | | | | | | | | | | | | | |] eqn:EX; try (apply G; exact H).
    subst b. pose proof (expr_of_finite (map yv_id (ym_variables m)) (rd m w)) as F. fold X in F. rewrite EX in F.
    destruct F as [F _]. destruct v as [q| | |]; try contradiction. exists q. split; [reflexivity|].
    intros x t' s' _ _ Hs. rewrite (D x t' s' Hs). reflexivity.
  Qed.
  Lemma variables_file_of i sv : nth_error (s_vars (st_solver st)) i = Some sv ->
    exists e m y t s, entry libs sys e m /\ In y (ym_variables m) /\ (0 <= t < T)%Z /\ (0 <= s < S)%Z /\
      placed o st e y t s i /\
      (yv_type y = "continuous"%string /\ sv_integer sv = false \/ yv_type y = "integer"%string /\ sv_integer sv = true) /\
      text_bound_is libs sys files T S rd e m y NInf (yv_lower y) t s (sv_lb sv) /\
      text_bound_is libs sys files T S rd e m y PInf (yv_upper y) t s (sv_ub sv) /\ num_le (sv_lb sv) (sv_ub sv).
  Proof.
    intros H. pose proof study_good as (_ & _ & _ & Hbn & _ & _ & Hk & Hf & _).
    destruct (variable_bounds o st Hblock Hdist Hnamed Hbn Hk Hf run_problem i sv H) as (c & v & t & s & Hi & Hl & HB).
    pose proof Hi as (Hc & Hv & _).
    destruct (component_link c Hc) as (e & m & L). apply filter_In in Hv. destruct Hv as [Hv _].
    destruct (text_of_made e m c v L Hv) as (w & M). apply (made_instance e m c w v t s L M) in Hi. destruct Hi as [It Is].
    apply index_given in It. destruct It as (zt & -> & Ht). apply index_given in Is. destruct Is as (zs & -> & Hs).
    destruct (restrict _ _ _ HT Ht) as (t0 & Bt & Et). destruct (restrict _ _ _ HS Hs) as (s0 & Bs & Es).
    rewrite <- Et, <- Es in *. destruct (link_model e m c L) as (GT & _). destruct (bounds_written m c w v GT M) as [El Eu].
    rewrite El, Eu in HB. specialize (HB (bound_good m (yv_lower w)) (bound_good m (yv_upper w))).
    exists e, m, w, t0, s0. split; [exact (link_entry _ _ _ L)|]. split; [apply M|]. split; [exact Bt|]. split; [exact Bs|].
    split; [unfold placed; pose proof L as (_ & _ & <- & _); now rewrite <- (made_name_ _ _ _ _ M)|].
    pose proof (variable_texts_in m w (proj1 M)) as I. unfold variable_texts in I.
    assert (I1 : incl (given_text (yv_lower w)) (model_texts m)) by (intros a Ha; apply I; apply in_or_app; auto).
    assert (I2 : incl (given_text (yv_upper w)) (model_texts m)) by (intros a Ha; apply I; apply in_or_app; auto).
    destruct (variable_as_written _ _ _ (proj2 (proj2 M))) as ([[Ey Ev]|[Ey Ev]] & _); rewrite Ev in HB;
      destruct HB as (B1 & B2 & B3 & B4).
    - split; [left; auto|]. split; [exact (bound_text e m c w NInf _ t0 s0 _ L (proj1 M) I1 B1)|].
      split; [exact (bound_text e m c w PInf _ t0 s0 _ L (proj1 M) I2 B2)|exact B3].
    - split; [right; auto|]. split; [exact (bound_text e m c w NInf _ t0 s0 _ L (proj1 M) I1 B1)|].
      split; [exact (bound_text e m c w PInf _ t0 s0 _ L (proj1 M) I2 B2)|exact B3].
  Qed.

  (** *** Constraints *)
  Lemma constraint_made e m c k : link e m c -> In k (get_constraints (o_selection o) (co_model c)) ->
    exists y, In y (ym_binding_constraints m ++ ym_constraints m) /\ constraint_shape rd m y k.
  Proof.
    intros L Hk. destruct (link_model e m c L) as (GT & DN & pts & R). apply filter_In in Hk. destruct Hk as [Hk _].
    unfold get_all_constraints in Hk. rewrite <- map_app in Hk. apply in_map_iff in Hk. destruct Hk as (kv & <- & Hkv).
    destruct (Forall2_In_r _ _ _ _ (model_constraints pts m (co_model c) DN R) Hkv) as (y & Hy & _ & H).
    exists y. split; [exact Hy|]. exact (constraint_of rd m GT y _ Hy H).
  Qed.
  Lemma constraint_kept e m c y : link e m c -> In y (ym_binding_constraints m ++ ym_constraints m) ->
    exists k, In k (get_constraints (o_selection o) (co_model c)) /\ constraint_shape rd m y k.
  Proof.
    intros L Hy. destruct (link_model e m c L) as (GT & DN & pts & R).
    destruct (Forall2_In_l _ _ _ _ (model_constraints pts m (co_model c) DN R) Hy) as (kv & Hkv & _ & H).
    exists (snd kv). split; [|exact (constraint_of rd m GT y _ Hy H)]. rewrite select. apply keep_all.
    unfold get_all_constraints. rewrite <- map_app. now apply in_map.
  Qed.
  Let combine_nth {A B} (l : list A) (r : list B) j a b : nth_error l j = Some a -> nth_error r j = Some b ->
    nth_error (combine l r) j = Some (a, b).
  Proof.
    revert r j. induction l as [|a' l IH]; intros [|b' r] [|j] H1 H2; cbn in *; try discriminate; [congruence|]. now apply IH.
  Qed.
  Let nth_combine {A B} (l : list A) (r : list B) j p : nth_error (combine l r) j = Some p ->
    nth_error l j = Some (fst p) /\ nth_error r j = Some (snd p).
  Proof.
    revert r j. induction l as [|a' l IH]; intros [|b' r] [|j] H; cbn in *; try discriminate; [injection H as <-; auto|]. now apply IH.
  Qed.
  Let Forall2_nth_l {A B} (P : A -> B -> Prop) l r j a : Forall2 P l r -> nth_error l j = Some a ->
    exists b, nth_error r j = Some b /\ P a b.
  Proof. intros F. revert j. induction F; intros [|j] H1; cbn in *; try discriminate; [injection H1 as <-; eauto|]. now apply IHF. Qed.
  Let Forall2_nth_r {A B} (P : A -> B -> Prop) l r j b : Forall2 P l r -> nth_error r j = Some b ->
    exists a, nth_error l j = Some a /\ P a b.
  Proof. intros F. revert j. induction F; intros [|j] H1; cbn in *; try discriminate; [injection H1 as <-; eauto|]. now apply IHF. Qed.
  Let time_varies e m c y k (L : link e m c) Hy (Sh : constraint_shape rd m y k) :
    varies_in_time n (co_id c) (c_expr k) = varies_with_time libs sys rd e m (rd m (yc_expression y)) :=
    expression_varies ix_time yv_time yp_time true false (fun _ => eq_refl) (fun _ => eq_refl) e m c y k L Hy Sh.
  Let scenario_varies e m c y k (L : link e m c) Hy (Sh : constraint_shape rd m y k) :
    varies_in_scenario n (co_id c) (c_expr k) = varies_with_scenario libs sys rd e m (rd m (yc_expression y)) :=
    expression_varies ix_scenario yv_scenario yp_scenario false true (fun _ => eq_refl) (fun _ => eq_refl) e m c y k L Hy Sh.
  Let instance_in c k t s : In (c, k, t, s) (row_instances o) ->
    In c (all_components n) /\ In k (get_constraints (o_selection o) (co_model c)) /\ (0 <= t < T)%Z /\ (0 <= s < S)%Z /\
    (varies_in_time n (co_id c) (c_expr k) = false -> t = 0%Z) /\
    (varies_in_scenario n (co_id c) (c_expr k) = false -> s = 0%Z).
  Proof.
    intros H. unfold row_instances in H. apply in_flat_map in H. destruct H as (c' & Hc & H).
    apply in_flat_map in H. destruct H as (k' & Hk & H). apply in_map_iff in H. destruct H as ([t' s'] & [= -> -> -> ->] & H).
    apply in_prod_iff in H. destruct H as [H1 H2]. cbn [fst snd]. rewrite len in H1. rewrite scen in H2.
    split; [exact Hc|]. split; [exact Hk|].
    assert (G : forall b k z, (1 <= k)%Z -> In z (steps b k) -> (0 <= z < k)%Z /\ (b = false -> z = 0%Z)).
    { intros b K z HK Hz. unfold steps in Hz. destruct b; [split; [now apply zrange_In in Hz|discriminate]|].
      destruct Hz as [<-|[]]. split; [lia|reflexivity]. }
    destruct (G _ _ _ HT H1) as [G1 G2]. destruct (G _ _ _ HS H2) as [G3 G4]. auto.
  Qed.
  Lemma rows_file_of : exists drops, List.length drops = List.length (s_rows (st_solver st)) /\
    (forall j row d, nth_error (s_rows (st_solver st)) j = Some row -> nth_error drops j = Some d ->
       exists e m k t s, entry_constraint libs sys e m k /\ (0 <= t < T)%Z /\ (0 <= s < S)%Z /\
         (varies_with_time libs sys rd e m (rd m (yc_expression k)) = false -> t = 0%Z) /\
         (varies_with_scenario libs sys rd e m (rd m (yc_expression k)) = false -> s = 0%Z) /\
         few (file_mentions libs sys files T S rd e m (rd m (yc_expression k))) d /\
         sr_name row = (ic_id e ++ "_" ++ yc_id k ++ "_t" ++ string_of_Z t ++ "_s" ++ string_of_Z s)%string /\
         forall x y, file_decisions libs sys T x -> takes_values libs sys T S (placed o st) y x ->
         (row_sat y row <-> text_holds libs sys files T S rd d x e m k t s)) /\
    (forall e m k t s, entry_constraint libs sys e m k -> (0 <= t < T)%Z -> (0 <= s < S)%Z ->
       let t0 := if varies_with_time libs sys rd e m (rd m (yc_expression k)) then t else 0%Z in
       let s0 := if varies_with_scenario libs sys rd e m (rd m (yc_expression k)) then s else 0%Z in
       exists j row d, nth_error (s_rows (st_solver st)) j = Some row /\ nth_error drops j = Some d /\
         few (file_mentions libs sys files T S rd e m (rd m (yc_expression k))) d /\
         sr_name row = (ic_id e ++ "_" ++ yc_id k ++ "_t" ++ string_of_Z t0 ++ "_s" ++ string_of_Z s0)%string /\
         forall x y, file_decisions libs sys T x -> takes_values libs sys T S (placed o st) y x ->
         (row_sat y row <-> text_holds libs sys files T S rd d x e m k t0 s0) /\
         (text_bounds_follow libs sys rd e m k ->
            (row_sat y row <-> text_holds libs sys files T S rd d x e m k t s))).
  Proof.
    destruct (problem_rows o st study_good run_problem) as (drops & El & F).
    exists drops. split; [exact El|]. split.
    - intros j row d Hr Hd. pose proof (combine_nth _ _ _ _ _ Hd Hr) as Hc.
      destruct (Forall2_nth_r _ _ _ _ _ F Hc) as ([[[c k] t] s] & Hi & Few & N & Sat). cbn [fst snd instance_mentions] in Few, N, Sat.
      apply nth_error_In in Hi. apply instance_in in Hi. destruct Hi as (Ic & Ik & Bt & Bs & Vt & Vs).
      destruct (component_link c Ic) as (e & m & L). destruct (constraint_made e m c k L Ik) as (y & Hy & Sh).
      exists e, m, y, t, s. split; [split; [exact (link_entry _ _ _ L)|exact Hy]|]. split; [exact Bt|]. split; [exact Bs|].
      rewrite (time_varies e m c y k L Hy Sh) in Vt. rewrite (scenario_varies e m c y k L Hy Sh) in Vs.
      split; [exact Vt|]. split; [exact Vs|].
      rewrite (constraint_mentions e m c y k L Hy Sh) in Few. split; [exact Few|].
      pose proof L as (_ & _ & Ec & _). pose proof Sh as (Nk & _). rewrite Ec, Nk in N. split; [exact N|].
      intros x z Hx Hz. pose proof (takes_represents x z Hx Hz) as Hrep. apply decisions_file in Hx.
      rewrite (Sat x z Hx Hrep t s) by (split; reflexivity). destruct (link_model e m c L) as (GT & _).
      rewrite (constraint_holds_text rd m GT y k d _ t s Hy Sh). apply (holds_file d x e m c y t s L). lia.
    - intros e m y t s [He Hy] Bt Bs. destruct (entry_link e m He) as (c & L).
      destruct (constraint_kept e m c y L Hy) as (k & Hk & Sh).
      intros t0 s0.
      assert (Hin : In (c, k, t0, s0) (row_instances o)).
      { unfold t0, s0. rewrite <- (time_varies e m c y k L Hy Sh), <- (scenario_varies e m c y k L Hy Sh).
        apply row_cover; [apply L|exact Hk|rewrite len; exact Bt|rewrite scen; exact Bs]. }
      assert (Hst : text_bounds_follow libs sys rd e m y -> stands_for o (c, k, t0, s0) t s).
      { intros HB. unfold t0, s0. rewrite <- (time_varies e m c y k L Hy Sh), <- (scenario_varies e m c y k L Hy Sh).
        apply row_stands. exact (bounds_file e m c y k L Hy Sh HB). }
      assert (B0 : (0 <= s0)%Z) by (unfold s0; destruct (varies_with_scenario _ _ _ _ _ _); lia).
      apply In_nth_error in Hin. destruct Hin as (j & Hj). destruct (Forall2_nth_l _ _ _ _ _ F Hj) as ([d row] & Hd & Few & N & Sat).
      cbn [fst snd instance_mentions] in Few, N, Sat. rewrite (constraint_mentions e m c y k L Hy Sh) in Few. apply nth_combine in Hd. destruct Hd as [Hd Hr]. cbn in Hd, Hr.
      exists j, row, d. split; [exact Hr|]. split; [exact Hd|]. split; [exact Few|].
      pose proof L as (_ & _ & Ec & _). pose proof Sh as (Nk & _). rewrite Ec, Nk in N. split; [exact N|].
      intros x z Hx Hz. pose proof (takes_represents x z Hx Hz) as Hrep. apply decisions_file in Hx.
      destruct (link_model e m c L) as (GT & _). split; [|intros HB].
      + rewrite (Sat x z Hx Hrep t0 s0) by (split; reflexivity).
        rewrite (constraint_holds_text rd m GT y k d _ t0 s0 Hy Sh). apply (holds_file d x e m c y t0 s0 L). exact B0.
      + rewrite (Sat x z Hx Hrep t s (Hst HB)).
        rewrite (constraint_holds_text rd m GT y k d _ t s Hy Sh). apply (holds_file d x e m c y t s L). lia.
  Qed.

  (** *** Objective *)
  Let objectives_map {A} (f : component * expr -> A) (g : input_component * in_model * string -> A) :
    (forall e m c w, link e m c -> In w (model_texts m) ->
       f (c, expr_of (map yv_id (ym_variables m)) (rd m w)) = g (e, m, w)) ->
    map f (contributions o) = map g (text_objectives libs sys).
  Proof.
    intros Hfg. unfold contributions, text_objectives. rewrite select. fold n.
    assert (One : forall e m c, link e m c ->
      map f (flat_map (fun a => match a with Some a => [(c, a)] | None => [] end) (get_objectives MergedProblem (co_model c))) =
      map g (match file_model libs (ic_model e) with Some m => map (fun w => (e, m, w)) (given_text (ym_objective m)) | None => [] end)).
    { intros e m c L. destruct (link_model e m c L) as (GT & DN & pts & R).
      pose proof (mo_investment _ _ _ (resolve_model_parts _ _ _ R)) as Ei. pose proof (model_objective rd pts m (co_model c) GT R) as Eo.
      cbn [get_objectives flat_map]. rewrite Ei, Eo. pose proof L as (_ & _ & _ & Fm & _). rewrite Fm.
      destruct (given_text (ym_objective m)) as [|w r] eqn:Eg; [reflexivity|].
      assert (Er : r = []).
      { unfold given_text in Eg. destruct (ym_objective m) as [[|a b]|]; try discriminate. now injection Eg as _ <-. }
      rewrite Er. cbn [map app]. f_equal. apply (Hfg e m c w L).
      unfold model_texts. rewrite !in_app_iff. repeat right. rewrite Eg. now left. }
    destruct network_file as [F _].
    assert (G : forall l cs, Forall2 (fun e c => exists m, link e m c) l cs ->
      map f (flat_map (fun c => flat_map (fun a => match a with Some a => [(c, a)] | None => [] end)
        (get_objectives MergedProblem (co_model c))) cs) =
      map g
        (flat_map (fun e => match file_model libs (ic_model e) with Some m => map (fun w => (e, m, w)) (given_text (ym_objective m)) | None => [] end) l));
      [|exact (G _ _ F)].
    clear F. intros es cs F.
    induction F as [|e c l cs (m & L) F IH]; [reflexivity|]. cbn [flat_map]. rewrite !map_app, IH. f_equal. exact (One e m c L).
  Qed.
  Let objectives_file x t s : (0 <= s)%Z ->
    map (contribution_value o x t s) (contributions o) =
    map (text_objective_value libs sys files T S rd x t s) (text_objectives libs sys).
  Proof.
    intros Hs. apply objectives_map. intros e m c w L Hw. destruct (link_model e m c L) as (GT & _).
    assert (Hr : o_risk o = UniformRisk) by (rewrite run_settings; reflexivity).
    unfold contribution_value. cbn [fst snd text_objective_value]. rewrite Hr. cbn [risk_factor].
    rewrite (text_den rd m GT w _ t s Hw), (value_file x e m c (rd m w) t s L Hs).
    destruct (text_value _ _ _ _ _) as [v|]; [|reflexivity]. cbn. f_equal. ring.
  Qed.
  Let objectives_mention :
    map (contribution_mentions o) (contributions o) = map (text_objective_mentions libs sys files T S rd) (text_objectives libs sys).
  Proof.
    apply objectives_map. intros e m c w L Hw. destruct (link_model e m c L) as (GT & _).
    apply (mentioned_file e m c _ _ L). intros E p. exact (mentions_text _ E p _ _ (text_reads rd m GT w Hw)).
  Qed.
  Lemma objective_file_of : exists dropped,
    few (list_sum (map (text_objective_mentions libs sys files T S rd) (text_objectives libs sys))) dropped /\
    forall x y t s, file_decisions libs sys T x -> takes_values libs sys T S (placed o st) y x -> (0 <= s)%Z ->
    exists v, osum (map (text_objective_value libs sys files T S rd x t s) (text_objectives libs sys)) = Some v /\
      olift2 Qcplus (objective_value y (st_solver st)) (terms_value (decisions_at x t s) dropped) = Some v.
  Proof.
    destruct (objective_meaning o st study_good run_problem) as (dropped & Hneg & H). exists dropped. rewrite objectives_mention in Hneg. split; [exact Hneg|].
    intros x y t s Hx Hy Hs. destruct (H x y t s) as (v & H1 & H2); [now apply decisions_file|now apply takes_represents|].
    exists v. rewrite <- (objectives_file x t s Hs). split; [exact H1|exact H2].
  Qed.
End Study.

(** a run *)
Section Run.
  Context (order : list string -> list string -> list string -> list string) (libs : list in_library) (sys : input_system)
    (files : string -> result frame) (T S : Z) (rd : in_model -> string -> wexpr) (o : settings) (st : state).
  Hypothesis Ord : any_order order.
  Hypothesis Run : main_cli order libs sys files T S = Ok (o, st).
  Hypothesis Good : good_study libs sys files T S rd.
  Let run_steps : prepared order libs sys files T S o /\ build_problem o = Ok st.
  Proof.
    pose proof Run as H. unfold main_cli in H. inv_bind H. inv_bind H. inv_bind H. inv_bind H. inv_bind H. inv_bind H.
    injection H as <- <-. split; [exists v, v0, v2, v3; repeat split; assumption|assumption].
  Qed.
  Lemma positions e m w t s : entry libs sys e m -> In w (ym_variables m) -> (0 <= t < T)%Z -> (0 <= s < S)%Z ->
    exists i sv, placed o st e w t s i /\ nth_error (s_vars (st_solver st)) i = Some sv /\
      sv_name sv = solver_variable_name o (ic_id e) (yv_id w) (given_index (yv_time w) t) (given_index (yv_scenario w) s).
  Proof. eapply positions_of; first [exact Ord|apply run_steps|exact Good]. Qed.
  Lemma decisions_correspond :
    (forall x, file_decisions libs sys T x -> exists y, takes_values libs sys T S (placed o st) y x) /\
    (forall y, exists x, file_decisions libs sys T x /\ takes_values libs sys T S (placed o st) y x).
  Proof. eapply decisions_correspond_of; first [exact Ord|apply run_steps|exact Good]. Qed.
  Lemma placed_once e m w t s e' m' w' t' s' i : entry libs sys e m -> In w (ym_variables m) ->
    entry libs sys e' m' -> In w' (ym_variables m') -> (0 <= t < T)%Z -> (0 <= t' < T)%Z ->
    placed o st e w t s i -> placed o st e' w' t' s' i ->
    e = e' /\ w = w' /\ (yv_time w = true -> t = t') /\ (yv_scenario w = true -> s = s').
  Proof. eapply placed_once_of; first [exact Ord|apply run_steps|exact Good]. Qed.
  Lemma variables_file i sv : nth_error (s_vars (st_solver st)) i = Some sv ->
    exists e m y t s, entry libs sys e m /\ In y (ym_variables m) /\ (0 <= t < T)%Z /\ (0 <= s < S)%Z /\
      placed o st e y t s i /\
      (yv_type y = "continuous"%string /\ sv_integer sv = false \/ yv_type y = "integer"%string /\ sv_integer sv = true) /\
      text_bound_is libs sys files T S rd e m y NInf (yv_lower y) t s (sv_lb sv) /\
      text_bound_is libs sys files T S rd e m y PInf (yv_upper y) t s (sv_ub sv) /\ num_le (sv_lb sv) (sv_ub sv).
  Proof. eapply variables_file_of; first [exact Ord|apply run_steps|exact Good]. Qed.
  Lemma rows_file : exists drops, List.length drops = List.length (s_rows (st_solver st)) /\
    (forall j row d, nth_error (s_rows (st_solver st)) j = Some row -> nth_error drops j = Some d ->
       exists e m k t s, entry_constraint libs sys e m k /\ (0 <= t < T)%Z /\ (0 <= s < S)%Z /\
         (varies_with_time libs sys rd e m (rd m (yc_expression k)) = false -> t = 0%Z) /\
         (varies_with_scenario libs sys rd e m (rd m (yc_expression k)) = false -> s = 0%Z) /\
         few (file_mentions libs sys files T S rd e m (rd m (yc_expression k))) d /\
         sr_name row = (ic_id e ++ "_" ++ yc_id k ++ "_t" ++ string_of_Z t ++ "_s" ++ string_of_Z s)%string /\
         forall x y, file_decisions libs sys T x -> takes_values libs sys T S (placed o st) y x ->
         (row_sat y row <-> text_holds libs sys files T S rd d x e m k t s)) /\
    (forall e m k t s, entry_constraint libs sys e m k -> (0 <= t < T)%Z -> (0 <= s < S)%Z ->
       let t0 := if varies_with_time libs sys rd e m (rd m (yc_expression k)) then t else 0%Z in
       let s0 := if varies_with_scenario libs sys rd e m (rd m (yc_expression k)) then s else 0%Z in
       exists j row d, nth_error (s_rows (st_solver st)) j = Some row /\ nth_error drops j = Some d /\
         few (file_mentions libs sys files T S rd e m (rd m (yc_expression k))) d /\
         sr_name row = (ic_id e ++ "_" ++ yc_id k ++ "_t" ++ string_of_Z t0 ++ "_s" ++ string_of_Z s0)%string /\
         forall x y, file_decisions libs sys T x -> takes_values libs sys T S (placed o st) y x ->
         (row_sat y row <-> text_holds libs sys files T S rd d x e m k t0 s0) /\
         (text_bounds_follow libs sys rd e m k ->
            (row_sat y row <-> text_holds libs sys files T S rd d x e m k t s))).
  Proof. eapply rows_file_of; first [exact Ord|apply run_steps|exact Good]. Qed.
  Lemma objective_file : exists dropped,
    few (list_sum (map (text_objective_mentions libs sys files T S rd) (text_objectives libs sys))) dropped /\
    forall x y t s, file_decisions libs sys T x -> takes_values libs sys T S (placed o st) y x -> (0 <= s)%Z ->
    exists v, osum (map (text_objective_value libs sys files T S rd x t s) (text_objectives libs sys)) = Some v /\
      olift2 Qcplus (objective_value y (st_solver st)) (terms_value (decisions_at x t s) dropped) = Some v.
  Proof. eapply objective_file_of; first [exact Ord|apply run_steps|exact Good]. Qed.
End Run.
