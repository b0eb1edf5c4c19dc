(** The visitor gives an expression that means what is written. *)
From Coq Require Import Ascii Lia.
From Verif Require Import Base BaseFacts Expr SpecExpr CopyFacts Visitors EqFacts Parse SpecParse LexFacts ParseFacts ModelFacts.
Local Open Scope string_scope.
Local Open Scope list_scope.

(** ** Numbers *)
Lemma digits_value_app acc s : digits_value acc s = (acc * 10 ^ Z.of_nat (String.length s) + digits_value 0 s)%Z.
Proof.
  revert acc. induction s as [|c s IH]; intros acc; cbn [digits_value String.length]; [cbn; lia|].
  rewrite IH, (IH (10 * 0 + digit_value c)%Z), Nat2Z.inj_succ, Z.pow_succ_r by lia. lia.
Qed.
Lemma digit_value_spec c : digit c -> digit_value c = Z.of_nat (nat_of_ascii c - nat_of_ascii "0").
Proof.
  intros (k & Hk & E). unfold digit_value.
  replace (Z.of_N (N_of_ascii c)) with (Z.of_nat (nat_of_ascii c)) by (unfold nat_of_ascii; lia).
  subst c. rewrite nat_ascii_embedding by lia. change (nat_of_ascii "0") with 48%nat. lia.
Qed.
Lemma natural_value s : all_chars digit s -> digits_value 0 s = natural s.
Proof.
  induction s as [|c s IH]; [reflexivity|]. intros [Hc Hs]. cbn [digits_value natural].
  rewrite digits_value_app, (IH Hs), (digit_value_spec c Hc). lia.
Qed.
Lemma Z2Qc_pow10 k : Z2Qc (10 ^ Z.of_nat k) <> 0%Qc.
Proof.
  rewrite <- Z2Qc_0. intros H. apply Z2Qc_inj in H.
  pose proof (Z.pow_pos_nonneg 10 (Z.of_nat k) ltac:(lia) ltac:(lia)). lia.
Qed.

Lemma split_point_digits a : all_chars digit a -> split_point a = (a, None).
Proof.
  induction a as [|c a IH]; [reflexivity|]. intros [Hc Ha]. cbn. rewrite (IH Ha).
  destruct (Ascii.eqb_spec c "."); [subst; apply digit_iff in Hc; discriminate|reflexivity].
Qed.
Lemma split_point_frac a b : all_chars digit a -> split_point (a ++ String "." b) = (a, Some b).
Proof.
  induction a as [|c a IH]; [reflexivity|]. intros [Hc Ha]. cbn. rewrite (IH Ha).
  destruct (Ascii.eqb_spec c "."); [subst; apply digit_iff in Hc; discriminate|reflexivity].
Qed.

Lemma number_value_decimal n : is_number n -> number_value n = decimal_value n.
Proof.
  unfold number_value, decimal_value. intros [[_ H]|(a & b & [_ Ha] & [_ Hb] & ->)].
  - rewrite (split_point_digits _ H). rewrite <- (str_app_nil n) at 1.
    rewrite (span_app is_digit n "") by (try (now apply digits_of_iff); cbn; tauto).
    now rewrite (natural_value _ H).
  - cbn [append]. rewrite (split_point_frac _ _ Ha).
    rewrite (span_app is_digit a (String "." b)) by (try (now apply digits_of_iff); cbn; discriminate).
    rewrite digits_value_app, (natural_value _ Ha), (natural_value _ Hb), Z2Qc_add, Z2Qc_mul.
    field. apply Z2Qc_pow10.
Qed.

(** ** Products and signs *)
Definition valid_tokens (ts : list token) : Prop :=
  Forall (fun tk => match tk with TkNumber n => is_number n | _ => True end) ts.

Section Meaning.
  Variable ids : identifiers.
  Let vars := id_variables ids.

  Definition means (v : result pvalue) (m : env -> Z -> Z -> option Qc) : Prop :=
    exists x, v = Ok (PVal x) /\ forall E t s, den E x t s = m E t s.

  Lemma means_two o v1 v2 m1 m2 :
    means v1 m1 -> means v2 m2 ->
    means (a <- v1 ;; b <- v2 ;; apply_mulop o a b) (fun E t s => muldiv o (m1 E t s) (m2 E t s)).
  Proof.
    intros (x & -> & Hx) (y & -> & Hy). destruct o; cbn; eexists; (split; [reflexivity|]); intros E t s; cbn;
      now rewrite Hx, Hy.
  Qed.
  Lemma means_sum o v1 v2 m1 m2 :
    means v1 m1 -> means v2 m2 ->
    means (a <- v1 ;; b <- v2 ;; apply_sign o a b) (fun E t s => addsub o (m1 E t s) (m2 E t s)).
  Proof.
    intros (x & -> & Hx) (y & -> & Hy). destruct o; cbn; eexists; (split; [reflexivity|]); intros E t s;
      rewrite ?den_py_add, ?den_py_sub; now rewrite Hx, Hy.
  Qed.
  Lemma means_ext v m m' : means v m -> (forall E t s, m E t s = m' E t s) -> means v m'.
  Proof. intros (x & -> & Hx) H. exists x. split; [reflexivity|]. intros. now rewrite Hx. Qed.

  Lemma addsub_zero o x : addsub o (Some 0%Qc) x = match o with Plus => x | Minus => option_map Qcopp x end.
  Proof.
    destruct o, x as [q|]; try reflexivity; cbn; f_equal; ring.
  Qed.
  Lemma means_unary o v m : means v m -> means (a <- v ;; apply_unary o a) (fun E t s => addsub o (Some 0%Qc) (m E t s)).
  Proof.
    intros (x & -> & Hx). cbn [bind]. destruct o; cbn [apply_unary on_one]; eexists; (split; [reflexivity|]); intros E t s; rewrite addsub_zero; cbn; now rewrite Hx.
  Qed.

  (** the sign of the first factor goes to the product *)
  Lemma sign_through s o a b : muldiv o (addsub s (Some 0%Qc) a) b = addsub s (Some 0%Qc) (muldiv o a b).
  Proof.
    rewrite !addsub_zero. destruct s; [reflexivity|]. destruct o, a as [a|], b as [b|]; try reflexivity; cbn.
    - f_equal. ring.
    - destruct (Qceqb b 0) eqn:B; [reflexivity|]. cbn. f_equal. field.
      intros Z. rewrite Z in B. rewrite (proj2 (Qceqb_eq _ _) eq_refl) in B. discriminate.
  Qed.
  Lemma times_through o a b c : muldiv o (muldiv Times a b) c = muldiv Times a (muldiv o b c).
  Proof.
    destruct o, a as [a|], b as [b|], c as [c|]; try reflexivity; cbn.
    - f_equal. ring.
    - destruct (Qceqb c 0) eqn:B; [reflexivity|]. cbn. f_equal. field.
      intros Z. rewrite Z in B. rewrite (proj2 (Qceqb_eq _ _) eq_refl) in B. discriminate.
  Qed.

  Fixpoint factors (m : wproduct) : list wexpr :=
    match m with WFactor f => [f] | WTimes m _ f => factors m ++ [f] end.
  Definition good_factor (f : wexpr) : Prop :=
    simple_factor f /\ means (visit ids (tree f)) (fun E => meaning E vars f).

  Lemma visit_right_of f : simple_factor f -> visit_right ids (right_of (tree f)) = visit ids (tree f).
  Proof. destruct f; intros []; reflexivity. Qed.
  Lemma visit_signed_of f s : simple_factor f ->
    visit_shift_expr ids (signed_of s (tree f)) = (v <- visit ids (tree f) ;; apply_unary s v).
  Proof. destruct f; intros []; reflexivity. Qed.

  Lemma right_means m : Forall good_factor (factors m) ->
    means (visit_right ids (right_tree m)) (fun E => product_meaning E vars m).
  Proof.
    induction m as [f|m IH o f]; cbn [factors]; intros H.
    - inversion H as [|? ? [S M] _]; subst. cbn [right_tree]. rewrite (visit_right_of f S). exact M.
    - apply Forall_app in H. destruct H as [H1 H2]. inversion H2 as [|? ? [S M] _]; subst.
      cbn [right_tree visit_right]. rewrite (visit_right_of f S).
      apply (means_two o _ _ _ _ (IH H1) M).
  Qed.

  Lemma first_shape m s :
    (exists f, m = WFactor f) \/
    (exists f o r, m = product_app (WFactor f) o r /\
       first_tree s m = ShiftMuldiv o (signed_of s (tree f)) (right_tree r)).
  Proof.
    induction m as [f|m IH o f]; [left; eauto|right].
    destruct IH as [[g ->]|(g & o1 & r & -> & E)].
    - exists g, o, (WFactor f). split; [reflexivity|]. cbn [first_tree].
      pose proof (signed_of_not_mul s (tree g)). destruct (signed_of s (tree g)); try contradiction; reflexivity.
    - exists g, o1, (WTimes r o f). split; [reflexivity|]. cbn [first_tree product_app] in *. rewrite E. reflexivity.
  Qed.

  Lemma factors_app f o r : factors (product_app (WFactor f) o r) = f :: factors r.
  Proof. induction r; cbn; [reflexivity|]. rewrite IHr. reflexivity. Qed.

  Lemma first_division_app f o r : first_division (product_app (WFactor f) o r) = match o with Over => true | Times => false end.
  Proof.
    induction r as [g|r IH o' g]; cbn [product_app]; [destruct o; reflexivity|].
    transitivity (first_division (product_app (WFactor f) o r)); [|exact IH].
    destruct r; reflexivity.
  Qed.
  Lemma not_misread f o r : misread_term (product_app (WFactor f) o r) = false ->
    o = Times \/ exists g, r = WFactor g.
  Proof.
    destruct r as [g|r o' g]; [eauto|]. intros H. left.
    assert (X : first_division (product_app (WFactor f) o (WTimes r o' g)) = false).
    { rewrite <- H. cbn [product_app]. destruct r; reflexivity. }
    rewrite first_division_app in X. destruct o; [reflexivity|discriminate].
  Qed.
  Lemma product_app_meaning E f r t s :
    product_meaning E vars (product_app (WFactor f) Times r) t s =
    muldiv Times (meaning E vars f t s) (product_meaning E vars r t s).
  Proof.
    induction r as [g|r IH o g]; cbn [product_app product_meaning]; [reflexivity|].
    rewrite IH. apply times_through.
  Qed.

  Lemma first_means m s : Forall good_factor (factors m) -> misread_term m = false ->
    means (visit_shift_expr ids (first_tree s m)) (fun E t sc => addsub s (Some 0%Qc) (product_meaning E vars m t sc)).
  Proof.
    intros H M. destruct (first_shape m s) as [[f ->]|(f & o & r & -> & E)].
    - inversion H as [|? ? [S X] _]; subst. cbn [first_tree product_meaning]. rewrite (visit_signed_of f s S).
      apply (means_unary s _ _ X).
    - rewrite factors_app in H. inversion H as [|? ? [S X] Hr]; subst. rewrite E. cbn [visit_shift_expr].
      rewrite (visit_signed_of f s S).
      eapply means_ext; [apply means_two; [apply (means_unary s _ _ X)|apply (right_means r Hr)]|].
      intros E0 t sc. cbv beta. rewrite sign_through. f_equal.
      destruct (not_misread _ _ _ M) as [->|[g ->]]; [|reflexivity]. symmetry. apply product_app_meaning.
  Qed.

  Lemma known_name x : In x (id_variables ids) \/ In x (id_parameters ids) ->
    exists e, convert_identifier ids x = Ok e /\ forall E t s, den E e t s = name_value E vars x t s.
  Proof.
    intros H. unfold convert_identifier, name_value. fold vars.
    destruct (existsb (String.eqb x) vars) eqn:B; [eexists; split; [reflexivity|]; reflexivity|].
    destruct H as [H|H].
    - rewrite (proj2 (existsb_exists _ _)) in B; [discriminate|]. exists x. split; [exact H|apply String.eqb_refl].
    - rewrite (proj2 (existsb_exists _ _)); [eexists; split; [reflexivity|]; reflexivity|].
      exists x. split; [exact H|apply String.eqb_refl].
  Qed.

  Lemma shift_by_zero k : expressions_equal k (Lit n0) n0 n0 = Ok (match k with Lit q => match q with Fin z => Qceqb z 0 | _ => false end | _ => false end).
  Proof.
    destruct (expressions_equal k (Lit n0) n0 n0) as [b|err] eqn:E.
    - f_equal. destruct b.
      + apply expressions_equal_zero in E. destruct E as [-> _]. reflexivity.
      + destruct k as [q| | | | | | | | | | | | | | | | | |]; try reflexivity. destruct q as [z| | |]; try reflexivity.
        destruct (Qceqb z 0) eqn:B; [|reflexivity]. apply Qceqb_eq in B. subst z.
        assert (X : expressions_equal (Lit n0) (Lit n0) n0 n0 = Ok true).
        { apply expressions_equal_zero. split; [reflexivity|]. cbn. split; [discriminate|exact I]. }
        unfold n0 in *. congruence.
    - exfalso. destruct (proj2 (expressions_equal_total k (Lit n0) n0 n0) eq_refl eq_refl) as [b X]. congruence.
  Qed.

  Lemma at_means x e v m :
    (forall E t s, den E e t s = name_value E vars x t s) -> means v m ->
    means (k <- v ;; apply_shift e k)
      (fun E t s => match oint (m E t s) with Some z => name_value E vars x (t + z) s | None => None end).
  Proof.
    intros He (k & -> & Hk). cbn [bind apply_shift]. rewrite shift_by_zero. cbn [bind].
    set (b := match k with Lit q => _ | _ => _ end). destruct b eqn:B; eexists; (split; [reflexivity|]); intros E t s; rewrite <- Hk.
    - subst b. destruct k as [q| | | | | | | | | | | | | | | | | |]; try discriminate. destruct q as [z| | |]; try discriminate.
      apply Qceqb_eq in B. subst z. cbn. rewrite Z.add_0_r. apply He.
    - cbn. destruct (oint (den E k t s)); [apply He|reflexivity].
  Qed.

  Lemma valid_app a b : valid_tokens (a ++ b) <-> valid_tokens a /\ valid_tokens b.
  Proof. apply Forall_app. Qed.
  Lemma valid_cons tk b : valid_tokens (tk :: b) -> valid_tokens b.
  Proof. now inversion 1. Qed.

  Lemma meaning_of_tree :
    (forall e, unambiguous e -> plain e -> declared ids e -> valid_tokens (tokens e) ->
       means (visit ids (tree e)) (fun E => meaning E vars e)) /\
    (forall k, unambiguous_shift k -> plain_shift k -> declared_shift ids k -> valid_tokens (shift_tokens k) ->
       means (visit_shift ids (shift_tree k)) (fun E => shift_meaning E vars k)) /\
    (forall m, unambiguous_product m -> plain_product m -> declared_product ids m -> valid_tokens (product_tokens m) ->
       Forall good_factor (factors m)).
  Proof.
    apply written_ind.
    - intros n _ _ _ V. inversion V; subst. eexists. split; [reflexivity|]. intros E t s. cbn. now rewrite number_value_decimal.
    - intros x _ _ D _. destruct (known_name x D) as (e & He & M). cbn. rewrite He. cbn [bind]. exists e. auto.
    - intros p f _ _ _ _. eexists. split; [reflexivity|]. reflexivity.
    - intros e IH [_ U] P D V. destruct (IH U P D (valid_cons _ _ V)) as (x & H & M). cbn. rewrite H. cbn.
      eexists. split; [reflexivity|]. intros E t s. cbn. now rewrite M.
    - intros e IH U P D V. cbn [tokens] in V. apply valid_cons, valid_app in V. exact (IH U P D (proj1 V)).
    - intros o l IHl r IHr (_ & _ & U1 & U2) (P1 & P2) (D1 & D2) V. cbn [tokens] in V. apply valid_app in V. destruct V as [V1 V2].
      apply valid_cons in V2. apply (means_two o _ _ _ _ (IHl U1 P1 D1 V1) (IHr U2 P2 D2 V2)).
    - intros o l IHl r IHr (_ & _ & U1 & U2) (P1 & P2) (D1 & D2) V. cbn [tokens] in V. apply valid_app in V. destruct V as [V1 V2].
      apply valid_cons in V2. apply (means_sum o _ _ _ _ (IHl U1 P1 D1 V1) (IHr U2 P2 D2 V2)).
    - intros o l IHl r IHr (_ & _ & U1 & U2) (P1 & P2) (D1 & D2) V. cbn [tokens] in V. apply valid_app in V. destruct V as [V1 V2].
      apply valid_cons in V2. destruct (IHl U1 P1 D1 V1) as (x & Hx & _). destruct (IHr U2 P2 D2 V2) as (y & Hy & _).
      cbn. rewrite Hx, Hy. cbn. eexists. split; [reflexivity|]. reflexivity.
    - intros e IH U P D V. cbn [tokens] in V. apply valid_cons, valid_cons, valid_app in V.
      destruct (IH U P D (proj1 V)) as (x & H & M). cbn. rewrite H. cbn. eexists. split; [reflexivity|].
      intros E t s. cbn. f_equal. apply map_ext. intros i. apply M.
    - intros p f _ _ _ _. eexists. split; [reflexivity|]. reflexivity.
    - intros a IHa b IHb e IH (Ua & Ub & Ue) (Pa & Pb & Pe) (Da & Db & De) V. cbn [tokens] in V.
      apply valid_cons, valid_cons, valid_app in V. destruct V as [Va V]. apply valid_cons, valid_app in V. destruct V as [Vb V].
      apply valid_cons, valid_app in V. destruct (IHa Ua Pa Da Va) as (xa & Ha & Ma). destruct (IHb Ub Pb Db Vb) as (xb & Hb & Mb).
      destruct (IH Ue Pe De (proj1 V)) as (x & H & M). cbn. rewrite H, Ha, Hb. cbn. eexists. split; [reflexivity|].
      intros E t s. cbn. rewrite Ma, Mb. destruct (oint _); [|reflexivity]. destruct (oint _); [|reflexivity].
      f_equal. apply map_ext. intros i. apply M.
    - intros f e IH U P [-> D] V. cbn [tokens] in V. apply valid_cons, valid_cons, valid_app in V.
      destruct (IH U P D (proj1 V)) as (x & H & M). cbn. rewrite H. cbn. eexists. split; [reflexivity|].
      intros E t s. cbn. f_equal. apply map_ext. intros i. apply M.
    - intros x k IH U P [D1 D2] V. cbn [tokens] in V. apply valid_cons, valid_cons, valid_app in V.
      destruct (known_name x D1) as (e & He & M). cbn [tree visit]. rewrite He. cbn [bind].
      apply (at_means x e _ _ M (IH U P D2 (proj1 V))).
    - intros x k IH U P [D1 D2] V. cbn [tokens] in V. apply valid_cons, valid_cons, valid_app in V.
      destruct (known_name x D1) as (e & He & M). destruct (IH U P D2 (proj1 V)) as (y & Hy & My).
      cbn. rewrite He. cbn. rewrite Hy. cbn. eexists. split; [reflexivity|]. intros E t s. cbn. rewrite My.
      destruct (oint _); [apply M|reflexivity].
    - intros e _ k _ _ [].
    - intros e _ k _ _ [].
    - intros _ _ _ _. eexists. split; [reflexivity|]. reflexivity.
    - intros k IHk o m IHm [Uk Um] P [Dk Dm] V. cbn [shift_tokens] in V. apply valid_app in V. destruct V as [Vk Vm].
      apply valid_cons in Vm. destruct k as [|k' o' m'].
      + destruct P as [P1 P2]. cbn [shift_tree visit_shift]. apply (first_means m o (IHm Um P2 Dm Vm) P1).
      + assert (Pk : plain_shift (WThen k' o' m') /\ plain_product m) by exact P. destruct Pk as [Pk Pm].
        pose proof (IHk Uk Pk Dk Vk) as Mk. pose proof (right_means m (IHm Um Pm Dm Vm)) as Mm.
        change (shift_tree (WThen (WThen k' o' m') o m)) with
          (ShiftBy (match shift_tree (WThen k' o' m') with ShiftNone => first_tree o m | ShiftBy l => ShiftAddsub o l (right_tree m) end)).
        change (fun E => shift_meaning E vars (WThen (WThen k' o' m') o m)) with
          (fun E t s => addsub o (shift_meaning E vars (WThen k' o' m') t s) (product_meaning E vars m t s)).
        destruct (shift_tree (WThen k' o' m')) as [|l] eqn:T; [discriminate T|].
        cbn [visit_shift visit_shift_expr] in *. apply (means_sum o _ _ _ _ Mk Mm).
    - intros f IH [Sf U] P D V. cbn [factors]. constructor; [|constructor]. split; [exact Sf|]. exact (IH U P D V).
    - intros m IHm o f IHf (Um & Sf & Uf) [Pm Pf] [Dm Df] V. cbn [product_tokens] in V. apply valid_app in V. destruct V as [Vm Vf].
      apply valid_cons in Vf. cbn [factors]. apply Forall_app. split; [exact (IHm Um Pm Dm Vm)|].
      constructor; [|constructor]. split; [exact Sf|]. exact (IHf Uf Pf Df Vf).
  Qed.

  (** ** What is not declared is refused *)
  Lemma unknown_name x e : convert_identifier ids x = Ok e -> In x (id_variables ids) \/ In x (id_parameters ids).
  Proof.
    unfold convert_identifier. destruct (existsb (String.eqb x) (id_variables ids)) eqn:A.
    - intros _. left. apply existsb_exists in A. destruct A as (y & Hy & E). apply String.eqb_eq in E. now subst.
    - destruct (existsb (String.eqb x) (id_parameters ids)) eqn:B; [|discriminate].
      intros _. right. apply existsb_exists in B. destruct B as (y & Hy & E). apply String.eqb_eq in E. now subst.
  Qed.

  Lemma right_visited m v : Forall (fun f => simple_factor f /\ forall v, visit ids (tree f) = Ok v -> declared ids f) (factors m) ->
    visit_right ids (right_tree m) = Ok v -> declared_product ids m.
  Proof.
    revert v. induction m as [f|m IH o f]; intros v H X.
    - inversion H as [|? ? [S D] _]; subst. cbn [right_tree] in X. rewrite (visit_right_of f S) in X. exact (D _ X).
    - cbn [factors] in H. apply Forall_app in H. destruct H as [H1 H2]. inversion H2 as [|? ? [S D] _]; subst.
      cbn [right_tree visit_right] in X. rewrite (visit_right_of f S) in X. inv_bind X. inv_bind X.
      split; [exact (IH _ H1 H)|exact (D _ H0)].
  Qed.
  Lemma declared_app f o r : declared ids f -> declared_product ids r -> declared_product ids (product_app (WFactor f) o r).
  Proof. intros Hf. induction r; cbn; tauto. Qed.
  Lemma first_visited m s v : Forall (fun f => simple_factor f /\ forall v, visit ids (tree f) = Ok v -> declared ids f) (factors m) ->
    visit_shift_expr ids (first_tree s m) = Ok v -> declared_product ids m.
  Proof.
    intros H X. destruct (first_shape m s) as [[f ->]|(f & o & r & -> & E)].
    - inversion H as [|? ? [S D] _]; subst. cbn [first_tree] in X. rewrite (visit_signed_of f s S) in X. inv_bind X. exact (D _ H0).
    - rewrite factors_app in H. inversion H as [|? ? [S D] Hr]; subst. rewrite E in X. cbn [visit_shift_expr] in X.
      rewrite (visit_signed_of f s S) in X. inv_bind X. inv_bind H0. inv_bind X.
      apply declared_app; [exact (D _ H1)|]. exact (right_visited r _ Hr H2).
  Qed.

  Lemma visited_declared :
    (forall e, unambiguous e -> forall v, visit ids (tree e) = Ok v -> declared ids e) /\
    (forall k, unambiguous_shift k -> forall v, visit_shift ids (shift_tree k) = Ok v -> declared_shift ids k) /\
    (forall m, unambiguous_product m -> Forall (fun f => simple_factor f /\ forall v, visit ids (tree f) = Ok v -> declared ids f) (factors m)).
  Proof.
    apply written_ind.
    - intros; exact I.
    - intros x _ v H. cbn in H. inv_bind H. cbn. eapply unknown_name; eauto.
    - intros; exact I.
    - intros e IH [_ U] v H. cbn in H. inv_bind H. exact (IH U _ H0).
    - intros e IH U v H. exact (IH U _ H).
    - intros o l IHl r IHr (_ & _ & U1 & U2) v H. cbn in H. inv_bind H. inv_bind H. split; [exact (IHl U1 _ H0)|exact (IHr U2 _ H1)].
    - intros o l IHl r IHr (_ & _ & U1 & U2) v H. cbn in H. inv_bind H. inv_bind H. split; [exact (IHl U1 _ H0)|exact (IHr U2 _ H1)].
    - intros o l IHl r IHr (_ & _ & U1 & U2) v H. cbn in H. inv_bind H. inv_bind H. split; [exact (IHl U1 _ H0)|exact (IHr U2 _ H1)].
    - intros e IH U v H. cbn in H. inv_bind H. exact (IH U _ H0).
    - intros; exact I.
    - intros a IHa b IHb e IH (Ua & Ub & Ue) v H. cbn in H. inv_bind H. inv_bind H. inv_bind H.
      split; [exact (IHa Ua _ H1)|]. split; [exact (IHb Ub _ H2)|exact (IH Ue _ H0)].
    - intros f e IH U v H. cbn in H. inv_bind H. destruct (String.eqb_spec f "expec") as [->|N]; [|discriminate].
      split; [reflexivity|exact (IH U _ H0)].
    - intros x k IH U v H. cbn in H. inv_bind H. inv_bind H. split; [eapply unknown_name; eauto|exact (IH U _ H1)].
    - intros x k IH U v H. cbn in H. inv_bind H. inv_bind H. split; [eapply unknown_name; eauto|exact (IH U _ H1)].
    - intros e IH k IHk [U1 U2] v H. cbn in H. inv_bind H. inv_bind H. split; [exact (IH U1 _ H0)|exact (IHk U2 _ H1)].
    - intros e IH k IHk [U1 U2] v H. cbn in H. inv_bind H. inv_bind H. split; [exact (IH U1 _ H0)|exact (IHk U2 _ H1)].
    - intros; exact I.
    - intros k IHk o m IHm [Uk Um] v H. cbn [shift_tree visit_shift] in H. destruct (shift_tree k) as [|l] eqn:T.
      + split; [apply (IHk Uk (PVal (Lit n0)) eq_refl)|]. exact (first_visited _ _ _ (IHm Um) H).
      + cbn [visit_shift_expr] in H. inv_bind H. inv_bind H. split; [exact (IHk Uk _ H0)|exact (right_visited _ _ (IHm Um) H1)].
    - intros f IH [S U]. cbn [factors]. constructor; [|constructor]. split; [exact S|exact (IH U)].
    - intros m IHm o f IHf (Um & S & Uf). cbn [factors]. apply Forall_app. split; [exact (IHm Um)|].
      constructor; [|constructor]. split; [exact S|exact (IHf Uf)].
  Qed.
End Meaning.

(** ** From text *)
Lemma spells_valid text ts : spells text ts -> valid_tokens ts.
Proof.
  induction 1 as [|w s rest tk ts Hw Ht Hf Hs IH]; constructor; [|exact IH]. destruct Ht; auto.
Qed.

Lemma parse_text text e ids : spells text (tokens e) -> unambiguous e ->
  parse_expression text ids = match visit ids (tree e) with Ok v => Ok v | Err _ => Err GenericException end.
Proof.
  intros Hs U. unfold parse_expression. apply lex_spells in Hs. rewrite Hs. cbn [bind]. rewrite (parse_tokens e U). reflexivity.
Qed.

Lemma parse_expression_meaning text e ids :
  spells text (tokens e) -> unambiguous e -> plain e -> declared ids e ->
  exists x, parse_expression text ids = Ok (PVal x) /\
    forall E t s, den E x t s = meaning E (id_variables ids) e t s.
Proof.
  intros Hs U P D. destruct (proj1 (meaning_of_tree ids) e U P D (spells_valid _ _ Hs)) as (x & H & M).
  exists x. rewrite (parse_text _ _ _ Hs U), H. auto.
Qed.

Lemma parse_expression_comparison text c l r ids :
  spells text (tokens (WCmp c l r)) -> unambiguous (WCmp c l r) -> plain (WCmp c l r) -> declared ids (WCmp c l r) ->
  exists a b, parse_expression text ids = Ok (PVal (Cmp a b c)) /\
    forall E t s, den E a t s = meaning E (id_variables ids) l t s /\ den E b t s = meaning E (id_variables ids) r t s.
Proof.
  intros Hs U [P1 P2] [D1 D2]. pose proof (spells_valid _ _ Hs) as V. rewrite (parse_text _ _ _ Hs U).
  destruct U as (_ & _ & U1 & U2). cbn [tokens] in V. apply valid_app in V. destruct V as [V1 V2]. apply valid_cons in V2.
  destruct (proj1 (meaning_of_tree ids) l U1 P1 D1 V1) as (x & H & M).
  destruct (proj1 (meaning_of_tree ids) r U2 P2 D2 V2) as (y & H' & M').
  exists x, y. cbn. rewrite H, H'. cbn. split; [reflexivity|]. intros E t s. split; [apply M|apply M'].
Qed.

Lemma parse_expression_accepts text ids v : parse_expression text ids = Ok v ->
  exists e, spells text (tokens e) /\ unambiguous e /\ declared ids e.
Proof.
  unfold parse_expression. intros H.
  destruct (lex text) as [ts|] eqn:L; [|discriminate]. cbn [bind] in H.
  destruct (parse ts) as [x|] eqn:Pt; [|discriminate]. cbn [bind] in H.
  apply parse_sound in Pt. destruct Pt as (e & -> & U & ->). exists e. split; [now apply lex_spells|]. split; [exact U|].
  destruct (visit ids (tree e)) as [w|] eqn:Vi; [|discriminate]. exact (proj1 (visited_declared ids) e U _ Vi).
Qed.

Lemma parse_expression_fails text ids k : parse_expression text ids = Err k -> k = GenericException.
Proof. unfold parse_expression. destruct (_ <- lex text ;; _); congruence. Qed.

Lemma parse_undeclared text e ids :
  spells text (tokens e) -> unambiguous e -> ~ declared ids e -> parse_expression text ids = Err GenericException.
Proof.
  intros Hs U N. rewrite (parse_text _ _ _ Hs U). destruct (visit ids (tree e)) as [v|] eqn:V; [|reflexivity].
  exfalso. apply N. exact (proj1 (visited_declared ids) e U _ V).
Qed.
Lemma parse_name text x ids :
  spells text (tokens (WName x)) ->
  parse_expression text ids =
    (if existsb (String.eqb x) (id_variables ids) then Ok (PVal (Var x))
     else if existsb (String.eqb x) (id_parameters ids) then Ok (PVal (Param x)) else Err GenericException).
Proof.
  intros Hs. rewrite (parse_text _ _ _ Hs I). cbn. unfold convert_identifier.
  destruct (existsb _ (id_variables ids)); [reflexivity|]. destruct (existsb _ (id_parameters ids)); reflexivity.
Qed.
Lemma parse_now text x ids :
  spells text (tokens (WAt x WNow)) -> In x (id_variables ids) -> parse_expression text ids = Ok (PVal (Var x)).
Proof.
  intros Hs H. rewrite (parse_text _ _ _ Hs I). cbn. unfold convert_identifier.
  rewrite (proj2 (existsb_exists _ _)); [reflexivity|]. exists x. split; [exact H|apply String.eqb_refl].
Qed.

(** ** A text has at most one reading *)
Fixpoint untree (e : pexpr) : wexpr :=
  match e with
  | PAtom (ANumber n) => WNumber n
  | PAtom (AIdentifier x) => WName x
  | PPortField p f => WField p f
  | PNeg e => WNeg (untree e)
  | PParen e => WParen (untree e)
  | PMuldiv o l r => WMul o (untree l) (untree r)
  | PAddsub o l r => WAdd o (untree l) (untree r)
  | PComparison c l r => WCmp c (untree l) (untree r)
  | PAllTimeSum e => WSumAll (untree e)
  | PPortFieldSum p f => WSumPorts p f
  | PTimeSum a b e => WSumOver (unshift a) (unshift b) (untree e)
  | PFunction f e => WCall f (untree e)
  | PTimeShift x k => WAt x (unshift k)
  | PTimeIndex x k => WIndex x (untree k)
  | PTimeShiftExpr e k => WAtParen (untree e) (unshift k)
  | PTimeIndexExpr e k => WIndexParen (untree e) (untree k)
  end
with unshift (k : pshift) : wshift :=
  match k with ShiftNone => WNow | ShiftBy s => unshift_expr s end
with unshift_expr (s : pshift_expr) : wshift :=
  match s with
  | SignedAtom o (ANumber n) => WThen WNow o (WFactor (WNumber n))
  | SignedAtom o (AIdentifier x) => WThen WNow o (WFactor (WName x))
  | SignedExpression o e => WThen WNow o (WFactor (WParen (untree e)))
  | ShiftAddsub o l r => WThen (unshift_expr l) o (unright r)
  | ShiftMuldiv o l r =>
      match unshift_expr l with
      | WThen k s m => WThen k s (product_app m o (unright r))
      | WNow => WNow
      end
  end
with unright (r : pright) : wproduct :=
  match r with
  | RightAtom (ANumber n) => WFactor (WNumber n)
  | RightAtom (AIdentifier x) => WFactor (WName x)
  | RightExpression e => WFactor (WParen (untree e))
  | RightMuldiv o l r => product_app (unright l) o (unright r)
  end.

Lemma unright_of f : simple_factor f -> untree (tree f) = f -> unright (right_of (tree f)) = WFactor f.
Proof. destruct f; intros []; cbn; congruence. Qed.
Lemma unsigned_of s f : simple_factor f -> untree (tree f) = f -> unshift_expr (signed_of s (tree f)) = WThen WNow s (WFactor f).
Proof. destruct f; intros []; cbn; congruence. Qed.
Lemma unright_tree m : Forall (fun f => simple_factor f /\ untree (tree f) = f) (factors m) -> unright (right_tree m) = m.
Proof.
  induction m as [f|m IH o f]; cbn [factors]; intros H.
  - inversion H as [|? ? [S E] _]; subst. now apply unright_of.
  - apply Forall_app in H. destruct H as [H1 H2]. inversion H2 as [|? ? [S E] _]; subst.
    cbn [right_tree unright]. rewrite (IH H1), (unright_of f S E). reflexivity.
Qed.
Lemma unfirst_tree m s : Forall (fun f => simple_factor f /\ untree (tree f) = f) (factors m) ->
  unshift_expr (first_tree s m) = WThen WNow s m.
Proof.
  intros H. destruct (first_shape m s) as [[f ->]|(f & o & r & -> & E)].
  - inversion H as [|? ? [S E] _]; subst. now apply unsigned_of.
  - rewrite factors_app in H. inversion H as [|? ? [S X] Hr]; subst. rewrite E. cbn [unshift_expr].
    rewrite (unsigned_of s f S X), (unright_tree r Hr). reflexivity.
Qed.

Lemma untree_tree :
  (forall e, unambiguous e -> untree (tree e) = e) /\
  (forall k, unambiguous_shift k -> unshift (shift_tree k) = k) /\
  (forall m, unambiguous_product m -> Forall (fun f => simple_factor f /\ untree (tree f) = f) (factors m)).
Proof.
  apply written_ind; cbn [unambiguous unambiguous_shift unambiguous_product]; intros; cbn [tree untree];
    try (f_equal; tauto).
  - destruct H1 as [U1 U2]. specialize (H U1). specialize (H0 U2). cbn [shift_tree]. destruct (shift_tree k) as [|l] eqn:T.
    + cbn in H. subst k. cbn [unshift]. now apply unfirst_tree.
    + cbn [unshift unshift_expr] in *. rewrite H, (unright_tree m H0). reflexivity.
  - cbn [factors]. constructor; [|constructor]. split; [tauto|]. apply H. tauto.
  - cbn [factors]. apply Forall_app. split; [tauto|]. constructor; [|constructor]. split; [tauto|]. apply H0. tauto.
Qed.

Lemma reading_unique text e e' :
  spells text (tokens e) -> spells text (tokens e') -> unambiguous e -> unambiguous e' -> e = e'.
Proof.
  intros S S' U U'. apply lex_spells in S, S'. rewrite S in S'. injection S' as T.
  rewrite <- (proj1 untree_tree e U), <- (proj1 untree_tree e' U'). f_equal. now apply tokens_determine.
Qed.
