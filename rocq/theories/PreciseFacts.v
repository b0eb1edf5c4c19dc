(** Numbers with a common denominator: what linearisation drops of them is nothing (C81). *)
From Coq Require Import Lia.
From Verif Require Import Base Expr Visitors Expansion LinearExpr Linearize Model Study Strategy Optim
  BaseFacts SpecExpr SpecSyntax SpecVisitors SpecExpansion SpecLinear SpecModel SpecOptim
  ExprFacts CopyFacts VisitorFacts DegreeFacts ExpansionFacts LinearFacts ModelFacts OptimFacts OptimMeaning MentionFacts SpecPrecise.

(** ** Whole numbers of [1 / D] *)
Lemma multiple_0 D : multiple D 0%Qc.
Proof. exists 0%Z. rewrite Z2Qc_0. ring. Qed.
Lemma multiple_1 D : multiple D 1%Qc.
Proof. exists D. ring. Qed.
Lemma multiple_add D a b : multiple D a -> multiple D b -> multiple D (a + b)%Qc.
Proof. intros [x Hx] [y Hy]. exists (x + y)%Z. rewrite Z2Qc_add, <- Hx, <- Hy. ring. Qed.
Lemma multiple_opp D a : multiple D a -> multiple D (- a)%Qc.
Proof. intros [x Hx]. exists (- x)%Z. rewrite Z2Qc_opp, <- Hx. ring. Qed.
Lemma multiple_divides D D' a : (D | D')%Z -> multiple D a -> multiple D' a.
Proof. intros [k ->] [x Hx]. exists (k * x)%Z. rewrite !Z2Qc_mul, <- Hx. ring. Qed.
Lemma multiple_mul D1 D2 D a b : (D1 * D2 | D)%Z -> multiple D1 a -> multiple D2 b -> multiple D (a * b)%Qc.
Proof. intros HD [x Hx] [y Hy]. apply (multiple_divides _ _ _ HD). exists (x * y)%Z. rewrite !Z2Qc_mul, <- Hx, <- Hy. ring. Qed.
Lemma eps_Z : (Q2Qc (1 # 10 ^ 16) * Z2Qc (10 ^ 16) = 1)%Qc.
Proof. apply Qc_is_canon. vm_compute. reflexivity. Qed.
Lemma multiple_small D q : in_range D -> multiple D q -> (Qcabs q < Q2Qc (1 # 10 ^ 16))%Qc -> q = 0%Qc.
Proof.
  intros [H1 H2] [z Hz] Hq.
  assert (HD : (0 < Z2Qc D)%Qc) by (rewrite <- Z2Qc_0; apply Z2Qc_lt; lia).
  assert (Hz0 : z = 0%Z).
  { apply Qcabs_lt in Hq as [A B].
    assert (B' : (Q2Qc (1 # 10 ^ 16) * Z2Qc D <= 1)%Qc).
    { rewrite <- eps_Z. rewrite !(Qcmult_comm (Q2Qc _)). apply Qcmult_le_compat_r; [now apply Z2Qc_le|discriminate]. }
    apply (fun H => Qcmult_lt_compat_r _ _ _ HD H) in A. apply (fun H => Qcmult_lt_compat_r _ _ _ HD H) in B. rewrite Hz in A, B.
    assert (B2 : (Z2Qc z < Z2Qc 1)%Qc) by (rewrite Z2Qc_1; eapply Qclt_le_trans; [exact B|exact B']).
    assert (A2 : (Z2Qc (-1) < Z2Qc z)%Qc).
    { eapply Qcle_lt_trans; [|exact A]. change (-1)%Z with (- (1))%Z. rewrite Z2Qc_opp, Z2Qc_1.
      replace (- Q2Qc (1 # 10 ^ 16) * Z2Qc D)%Qc with (- (Q2Qc (1 # 10 ^ 16) * Z2Qc D))%Qc by ring. now apply Qcopp_le_compat. }
    apply (proj1 (Z2Qc_lt _ _)) in A2. apply (proj1 (Z2Qc_lt _ _)) in B2. clear -A2 B2. lia. }
  subst z. rewrite Z2Qc_0 in Hz. destruct (Qcmult_integral _ _ Hz) as [E|E]; [exact E|]. rewrite E in HD. discriminate.
Qed.

(** ** Linearisation *)
Definition coef_in (D : Z) (v : num) : Prop := exists q, v = Fin q /\ multiple D q.
Definition data_in (D : Z) (d : lin_data) : Prop := coef_in D (ld_constant d) /\ Forall (fun kt : term => coef_in D (snd kt)) (ld_terms d).
Lemma coef_add D a b : coef_in D a -> coef_in D b -> coef_in D (nadd a b).
Proof. intros (x & -> & Hx) (y & -> & Hy). exists (x + y)%Qc. split; [reflexivity|now apply multiple_add]. Qed.
Lemma coef_neg D a : coef_in D a -> coef_in D (nneg a).
Proof. intros (x & -> & Hx). exists (- x)%Qc. split; [reflexivity|now apply multiple_opp]. Qed.
Lemma coef_mul D1 D2 D a b : (D1 * D2 | D)%Z -> coef_in D1 a -> coef_in D2 b -> coef_in D (nmul a b).
Proof. intros HD (x & -> & Hx) (y & -> & Hy). exists (x * y)%Qc. split; [reflexivity|now apply (multiple_mul D1 D2)]. Qed.
Lemma coef_div D1 D2 D a c v : (D1 * D2 | D)%Z -> coef_in D1 a -> multiple D2 (/ c)%Qc -> ndiv a (Fin c) = Ok v -> coef_in D v.
Proof.
  intros HD (x & -> & Hx) Hy H. cbn in H. destruct (Qceqb c 0); [discriminate|]. injection H as <-. exists (x / c)%Qc.
  split; [reflexivity|]. now apply (multiple_mul D1 D2).
Qed.
Lemma coefs_map D D' f (l : list term) : (forall v, coef_in D v -> coef_in D' (f v)) -> Forall (fun kt => coef_in D (snd kt)) l -> Forall (fun kt => coef_in D' (snd kt)) (map_coefs f l).
Proof. intros Hf H. unfold map_coefs. apply Forall_map. eapply Forall_impl; [|exact H]. intros kt. apply Hf. Qed.
Lemma precise_Add S data own ports D l : precise S data own ports D (Add l) <-> Forall (precise S data own ports D) l.
Proof. cbn [precise]. induction l as [|a l IH]; cbn [fold_right]; [split; constructor|]. rewrite IH. split; [intros []; now constructor|]. intros H. inversion H; auto. Qed.

Lemma lin_build_precise S (data : string -> string -> (Qc -> Prop) -> Prop) own ports ot os g e : 
  (forall c n ot os v (P : Qc -> Prop), g c n ot os = Ok v -> data c n P -> exists q, v = Fin q /\ P q) ->
  forall D d, precise S data own ports D e -> lin_build ot os (Some g) e = Ok d -> data_in D d.
Proof.
  intros Hg. induction e using expr_ind'; intros D d0 HP H0.
  3:{ apply precise_Add in HP. cbn [lin_build] in H0. inv_bind H0. injection H0 as <-. apply mapM_ok in H1.
      assert (HG : Forall (data_in D) v).
      { induction H1 as [|a b l v Hab Hl IH]; constructor; inversion H; inversion HP; subst; eauto. }
      assert (G : forall acc, data_in D acc -> data_in D (fold_left (fun acc d => {| ld_terms := ld_terms acc ++ ld_terms d; ld_constant := nadd (ld_constant acc) (ld_constant d) |}) v acc)).
      { clear -HG. induction HG as [|b v [B1 B2] _ IH]; intros acc HA; cbn [fold_left]; [exact HA|]. apply IH. destruct HA as [A1 A2]. split; cbn; [now apply coef_add|now apply Forall_app]. }
      apply G. split; [exists 0%Qc; split; [reflexivity|apply multiple_0]|constructor]. }
  all: cbn [lin_build] in H0; try discriminate; cbn [precise] in HP.
  - injection H0 as <-. split; [exact HP|constructor].
  - inv_bind H0. injection H0 as <-. destruct (IHe D _ HP H) as [H1 H2]. split; cbn; [now apply coef_neg|]. eapply coefs_map; [|exact H2]. apply coef_neg.
  - inv_bind H0. inv_bind H0. destruct HP as (D1 & D2 & _ & _ & HD & P1 & P2). destruct (IHe1 _ _ P1 H) as [A1 A2]. destruct (IHe2 _ _ P2 H1) as [B1 B2].
    assert (HD' : (D2 * D1 | D)%Z) by now rewrite Z.mul_comm.
    destruct (is_nil (ld_terms v)); [|destruct (is_nil (ld_terms v0)); [|discriminate]]; injection H0 as <-; split; cbn.
    + now apply (coef_mul D2 D1).
    + eapply coefs_map; [|exact B2]. intros w Hw. now apply (coef_mul D2 D1).
    + now apply (coef_mul D1 D2).
    + eapply coefs_map; [|exact A2]. intros w Hw. now apply (coef_mul D1 D2).
  - inv_bind H0. inv_bind H0. destruct HP as (D1 & D2 & _ & _ & HD & P1 & P2).
    assert (HC : exists c, v0 = {| ld_terms := []; ld_constant := Fin c |} /\ multiple D2 (/ c)%Qc).
    { destruct e2; cbn [divisor] in P2; try contradiction; cbn [lin_build] in H1; try discriminate.
      - destruct P2 as (q & -> & P2). injection H1 as <-. eauto.
      - inv_bind H1. inv_bind H1. injection H1 as <-. destruct (Hg _ _ _ _ _ _ H3 P2) as (q & -> & P2'). eauto. }
    clear P2. destruct HC as (c & -> & P2). cbn [ld_terms ld_constant is_nil] in H0.
    destruct (IHe1 _ _ P1 H) as [A1 A2]. inv_bind H0. inv_bind H0. injection H0 as <-. split; cbn; [eapply coef_div; eauto|].
    match goal with H : mapM _ _ = Ok _ |- _ => apply mapM_ok in H; rename H into HM end. clear -HM A2 HD P2. induction HM as [|a b l l' Hab Hl IH]; constructor; inversion A2; subst.
    + inv_bind Hab. injection Hab as <-. cbn. eapply coef_div; eauto.
    + auto.
  - inv_bind H0. injection H0 as <-. split; cbn; [exists 0%Qc; split; [reflexivity|apply multiple_0]|]. constructor; [|constructor]. exists 1%Qc. split; [reflexivity|apply multiple_1].
  - inv_bind H0. inv_bind H0. injection H0 as <-. split; cbn; [|constructor]. eapply Hg; eauto.
Qed.
Lemma dset_coefs D k v (d : terms_dict) : coef_in D v -> Forall (fun kt : term => coef_in D (snd kt)) d -> Forall (fun kt : term => coef_in D (snd kt)) (dset tk_eqb k v d).
Proof. intros Hv. induction 1 as [|[k' v'] d Hd Hds IH]; cbn [dset]; [constructor; [exact Hv|constructor]|]. destruct (tk_eqb k k'); constructor; assumption. Qed.
Lemma accumulate_coefs D (l : list term) : forall d, Forall (fun kt : term => coef_in D (snd kt)) d -> Forall (fun kt : term => coef_in D (snd kt)) l ->
  Forall (fun kt : term => coef_in D (snd kt)) (fold_left accumulate l d).
Proof.
  induction l as [|[k v] l IH]; intros d Hd Hl; cbn [fold_left]; [exact Hd|]. inversion Hl as [|? ? Hv Hl']; subst. cbn in Hv. apply IH; [|exact Hl'].
  unfold accumulate. cbn [fst snd]. destruct (dget tk_eqb k d) as [c|] eqn:E; [|apply Forall_app; split; [exact Hd|constructor; [exact Hv|constructor]]].
  apply dset_coefs; [|exact Hd]. apply coef_add; [|exact Hv]. clear -E Hd. induction Hd as [|[k' v'] d H _ IH]; cbn in E; [discriminate|]. destruct (tk_eqb k k'); [injection E as <-; exact H|auto].
Qed.
Lemma small_vanish D (d : list term) : in_range D -> Forall (fun kt : term => coef_in D (snd kt)) d -> vanishing (small_terms d).
Proof.
  intros HR H. pose proof (small_terms_negligible d) as HN. unfold vanishing, negligible in *. rewrite Forall_forall in *. intros kt Hk.
  destruct (HN kt Hk) as (c & E & Hc). unfold small_terms in Hk. apply filter_In in Hk. destruct (H kt (proj1 Hk)) as (q & E' & Hq). rewrite E in E' |- *. injection E' as ->.
  unfold n0. f_equal. eapply multiple_small; eauto.
Qed.
Lemma vanishing_value x l : vanishing l -> terms_value x l = Some 0%Qc.
Proof.
  unfold terms_value. induction 1 as [|[k v] l Hv _ IH]; [reflexivity|]. cbn [map]. rewrite osum_cons, IH. cbn in Hv. subst v. reflexivity.
Qed.

(** ** Copies and expansion *)
Section Copies.
  Context (S : Z) (data : string -> string -> (Qc -> Prop) -> Prop).
  Lemma precise_fold own ports D l a : precise S data own ports D a -> Forall (precise S data own ports D) l -> precise S data own ports D (fold_left py_add l a).
  Proof.
    intros Ha H. revert a Ha. induction H as [|b l Hb _ IH]; intros a Ha; cbn [fold_left]; [exact Ha|]. apply IH. unfold py_add.
    assert (G : forall y, precise S data own ports D y -> Forall (precise S data own ports D) (add_operands y)).
    { intros y Hy. destruct y; cbn [add_operands]; try (constructor; [exact Hy|constructor]). now apply precise_Add. }
    apply precise_Add. apply Forall_app. auto.
  Qed.
  Lemma precise_sum own ports D l : Forall (precise S data own ports D) l -> precise S data own ports D (sum_expressions l).
  Proof. destruct l as [|a [|b l]]; cbn [sum_expressions]; intros H; [exists 0%Qc; split; [reflexivity|apply multiple_0]|now inversion H|now apply precise_Add]. Qed.
  Lemma copy_precise c own ports own' ports' e :
    (forall x x' D, leaf_kind x -> copy_with c x = Ok x' -> precise S data own ports D x -> precise S data own' ports' D x') ->
    (forall x x' D, leaf_kind x -> copy_with c x = Ok x' -> divisor data own D x -> divisor data own' D x') ->
    forall e' D, copy_with c e = Ok e' -> precise S data own ports D e -> precise S data own' ports' D e'.
  Proof.
    intros Hc Hv. induction e using expr_ind'; intros e' D HE HP.
    3:{ copy_step HE. destruct v as [|v vs]; cbn [sum_operands] in HE; [discriminate|]. injection HE as <-. apply precise_Add in HP.
        assert (HG : Forall (precise S data own' ports' D) (v :: vs)).
        { eapply mapM_Forall; eauto. intros x y Hx Hy. rewrite Forall_forall in H, HP. eauto. }
        apply precise_fold; [exact (Forall_inv HG)|exact (Forall_inv_tail HG)]. }
    all: try (refine (Hc _ _ _ _ HE HP); exact I).
    all: copy_step HE; cbn [py_neg py_mul py_div precise] in HP |- *; eauto; try contradiction.
    - destruct HP as (D1 & D2 & H1 & H2 & HD & P1 & P2). exists D1, D2. repeat split; eauto.
    - destruct HP as (D1 & D2 & H1 & H2 & HD & P1 & P2). exists D1, D2. repeat split; eauto. destruct e2; cbn [divisor] in P2; try contradiction;
        [match goal with H : copy_with c (Lit _) = Ok _ |- _ => cbn in H; injection H as <- end; exact P2|eapply Hv; eauto; exact I..].
    - destruct HP as (D1 & H1 & HD & P1). exists D1. repeat split; eauto.
  Qed.
  Let none : string -> string -> Z -> Prop := fun _ _ _ => False.
  Ltac leaf HE HP := match type of HE with copy_with _ ?x = _ => destruct x; try contradiction; cbn in HE; try discriminate; try (injection HE as <-; exact HP) end.
  Lemma shift_precise own k e e' D : apply_timeshift e k = Ok e' -> precise S data own none D e -> precise S data own none D e'.
  Proof.
    unfold apply_timeshift. apply copy_precise; intros x x' D' Hk HE HP; leaf HE HP.
    destruct x; cbn in HP; contradiction.
  Qed.
  Lemma step_precise own k b e e' D : apply_timestep e k b = Ok e' -> precise S data own none D e -> precise S data own none D e'.
  Proof.
    unfold apply_timestep. apply copy_precise; intros x x' D' Hk HE HP; leaf HE HP.
    - inv_bind HE. injection HE as <-. exact HP.
    - inv_bind HE. injection HE as <-. exact HP.
    - destruct x; cbn in HP; contradiction.
    - inv_bind HE. injection HE as <-. exact HP.
  Qed.
  Lemma scenario_precise own k e e' D : apply_scenario e k = Ok e' -> precise S data own none D e -> precise S data own none D e'.
  Proof.
    unfold apply_scenario. apply copy_precise; intros x x' D' Hk HE HP; leaf HE HP.
    destruct x; cbn in HP; contradiction.
  Qed.
  Lemma context_precise own' ports id e e' D : add_component_context id e = Ok e' ->
    precise S data (data id) ports D e -> precise S data own' ports D e'.
  Proof.
    unfold add_component_context. apply copy_precise; intros x x' D' Hk HE HP; leaf HE HP.
    inv_bind HE. injection HE as <-. destruct x; try (cbn in HP; contradiction). cbn in H. injection H as <-. exact HP.
  Qed.
  Lemma expand_precise d ev sp own e : (0 < S)%Z -> scenarios_count d = S -> forall D e', expand d ev sp e = Ok e' ->
    precise S data own none D e -> precise S data own none D e'.
  Proof.
    intros HS0 HS. induction e using expr_ind'; intros D e' He HP.
    3:{ cbn [expand] in He. inv_bind He. destruct v as [|v vs]; cbn [sum_operands] in He; [discriminate|]. injection He as <-. apply precise_Add in HP.
        assert (HG : Forall (precise S data own none D) (v :: vs)).
        { eapply mapM_Forall; eauto. intros x y Hx Hy. rewrite Forall_forall in H, HP. eauto. }
        apply precise_fold; [exact (Forall_inv HG)|exact (Forall_inv_tail HG)]. }
    all: cbn [expand] in He; cbn [precise] in HP; try contradiction; try (injection He as <-; exact HP); try discriminate.
    - inv_bind He. injection He as <-. cbn. eauto.
    - inv_bind He. inv_bind He. injection He as <-. destruct HP as (D1 & D2 & H1 & H2 & HD & P1 & P2). exists D1, D2. repeat split; eauto.
    - inv_bind He. inv_bind He. injection He as <-. destruct HP as (D1 & D2 & H1 & H2 & HD & P1 & P2). exists D1, D2. repeat split; eauto.
      destruct e2; cbn [divisor] in P2; try contradiction; cbn [expand] in H0; try discriminate;
        first [injection H0 as <-; exact P2 | inv_bind H0; injection H0 as <-; exact P2].
    - inv_bind He. injection He as <-. exact I.
    - inv_bind He. injection He as <-. exact HP.
    - inv_bind He. inv_bind He. eapply shift_precise; eauto.
    - inv_bind He. inv_bind He. eapply step_precise; eauto.
    - inv_bind He. inv_bind He. inv_bind He. inv_bind He. injection He as <-. apply precise_sum. apply mapM_ok in H2.
      assert (HG : precise S data own none D v1) by eauto. clear -H2 HG.
      induction H2; constructor; auto. eapply shift_precise; eauto.
    - inv_bind He. inv_bind He. injection He as <-. apply precise_sum. apply mapM_ok in H0.
      assert (HG : precise S data own none D v) by eauto. clear -H0 HG.
      induction H0; constructor; auto. eapply step_precise; eauto.
    - destruct o; try discriminate. inv_bind He. inv_bind He. injection He as <-. destruct HP as (D1 & H1 & HD & P1).
      unfold py_div_num, py_div, wrap_num. exists D1, S. repeat split; auto; try lia.
      + apply precise_sum. apply mapM_ok in H0. assert (HG : precise S data own none D1 v) by eauto. clear -H0 HG.
        induction H0; constructor; auto. eapply scenario_precise; eauto.
      + exists (Z2Qc S). split; [now rewrite HS|]. exists 1%Z. rewrite Z2Qc_1. field. apply Z2Qc_nonzero. lia.
    - destruct e; contradiction.
  Qed.
End Copies.
(** ** Instantiation *)
Section Instantiation.
  Context (o : settings) (st : state).
  Hypothesis Hb : built_network (o_network o).
  Hypothesis Hg : good_connections (o_network o).
  Hypothesis Hr : register_connections o = Ok (st_ports st).
  Definition own_none : string -> (Qc -> Prop) -> Prop := fun _ _ => False.
  Definition port_none : string -> string -> Z -> Prop := fun _ _ _ => False.
  Definition precise_instance := precise (o_scenarios o) (data_values o) own_none port_none.

  Lemma registered_precise cid p f D : (forall d, In d (connected (o_network o) cid p f) ->
       precise (o_scenarios o) (data_values o) (data_values o (fst d)) (fun _ _ _ => False) D (snd d)) ->
    Forall (precise_instance D) (match dget pfk_eqb (cid, (p, f)) (st_ports st) with Some l => l | None => [] end).
  Proof.
    intros HP. pose proof (connections_registered o (st_ports st) Hb) as HC.
    specialize (HC (fun k Hk => conj (proj1 (proj1 (Hg k Hk))) (proj1 (proj2 (Hg k Hk)))) Hr cid p f).
    apply Forall_forall in HP.
    induction HC as [|a b l1 l2 Hab HC IH]; constructor; inversion HP; subst; [|auto].
    eapply context_precise; eauto.
  Qed.
  Lemma instantiate_precise cid e e' D : instantiate st e cid = Ok e' -> precise_in o cid D e -> precise_instance D e'.
  Proof.
    intros H HP. unfold instantiate in H. inv_bind H. unfold precise_in in HP.
    eapply (context_precise _ _ own_none) in HP; [|exact H0]. revert H HP. unfold resolve_port. apply copy_precise;
      [|clear; intros x x' D' Hk E HP; destruct x; try contradiction; cbn in E; try discriminate; injection E as <-; exact HP].
    clear v H0 e e' D. intros x x' D' Hk E HP. destruct x; try contradiction; cbn in E; try discriminate; try (injection E as <-; exact HP).
    - cbn [precise] in HP. apply registered_precise in HP. unfold resolve_port_field in E.
      destruct (dget _ _ _) as [[|d [|]]|] eqn:Ed; try discriminate. injection E as <-. exact (Forall_inv HP).
    - unfold resolve_port_aggregator in E. destruct a; try discriminate. destruct x; try discriminate. injection E as <-.
      cbn [precise] in HP. apply registered_precise in HP. now apply precise_sum.
  Qed.
End Instantiation.
Lemma expand_instance o e e' D : (1 <= o_scenarios o)%Z -> context_expand o e = Ok e' -> precise_instance o D e -> precise_instance o D e'.
Proof. intros HS He. unfold precise_instance. eapply expand_precise; [lia| |exact He]. reflexivity. Qed.

(** ** The terms left out *)
Lemma linearize_exact o e ot os L : usable_block o -> finite_values o ->
  context_linearize o e ot os = Ok L -> finite_literals e ->
  exists dropped, (forall E, few (mentions E (fun _ _ => O) e) dropped) /\ (forall D, in_range D -> precise_instance o D e -> vanishing dropped) /\ forall x t s, ot = None \/ ot = Some t -> os = None \/ os = Some s ->
      exists v w, den (world o x) e t s = Some v /\ le_value (read (world o x) t s) L = Some w /\ olift2 Qcplus (Some w) (terms_value (read (world o x) t s) dropped) = Some v.
Proof.
  intros Hu Hf H HF. unfold context_linearize, linearize_expression in H. inv_bind H. injection H as <-.
  set (d := fold_left accumulate (ld_terms v) []).
  assert (Hnd : distinct_keys d) by (apply accumulate_fold_nodup; constructor).
  exists (small_terms d). split.
  { intros E. split; [|apply small_terms_negligible]. unfold small_terms. eapply Nat.le_trans; [apply filter_length|].
    eapply Nat.le_trans; [apply accumulate_fold_length|]. cbn [length]. now apply (lin_build_length E) in H0. }
  split.
  - intros D HR HP. apply (small_vanish D); [exact HR|]. apply accumulate_coefs; [constructor|].
    refine (proj2 (lin_build_precise _ _ _ _ _ _ _ _ _ D v HP H0)). intros c n ot' os' w P Hv HD.
    destruct (getter_world o (fun _ _ _ _ => 0%Qc) 0 0 Hu Hf _ _ _ _ _ Hv) as (q & -> & Hq). exists q. split; [reflexivity|]. exact (HD _ _ _ Hq).
  - intros x t s Hot Hos.
    assert (Hg : forall g, Some (fun c n t s => parameter_value o t s c n) = Some g -> getter_gives g (world o x) t s).
    { intros g [= <-]. now apply getter_world. }
    destruct (lin_build_den (world o x) t s ot os _ e Hot Hos Hg HF _ H0) as [HD HV].
    destruct (finite_data_value (read (world o x) t s) _ HD) as [w Hw].
    assert (Hk : oplus (le_value (read (world o x) t s) (ld_to_expr v)) (terms_value (read (world o x) t s) (small_terms d)) = Some w).
    { rewrite <- Hw. unfold le_value, ld_to_expr, data_value. cbn [le_of_dict le_terms le_constant].
      fold d. rewrite <- oplus_assoc, <- non_zero_value. unfold d. rewrite accumulate_fold_value.
      cbn. f_equal. apply oplus_0_l. }
    destruct (le_value (read (world o x) t s) (ld_to_expr v)) as [u|] eqn:Eu; [|discriminate Hk].
    exists w, u. split; [congruence|]. split; [reflexivity|exact Hk].
Qed.
Lemma without_vanishing l E e lb ub t s : vanishing l -> holds_without l E e lb ub t s <-> constraint_holds E e lb ub t s.
Proof.
  intros HV. unfold holds_without, constraint_holds. split.
  - intros (v & d & H1 & H2 & H3 & H4). rewrite (vanishing_value _ _ HV) in H2. injection H2 as <-. replace (v - 0)%Qc with v in * by ring. eauto.
  - intros (v & H1 & H2 & H3). exists v, 0%Qc. rewrite (vanishing_value _ _ HV). replace (v - 0)%Qc with v by ring. auto.
Qed.
Lemma precise_divides S (data : string -> string -> (Qc -> Prop) -> Prop) (own : string -> (Qc -> Prop) -> Prop) (ports : string -> string -> Z -> Prop) e :
  (forall c n (P P' : Qc -> Prop), (forall q, P q -> P' q) -> data c n P -> data c n P') ->
  (forall n (P P' : Qc -> Prop), (forall q, P q -> P' q) -> own n P -> own n P') ->
  (forall p f D D', (D | D')%Z -> ports p f D -> ports p f D') ->
  forall D D', (D | D')%Z -> precise S data own ports D e -> precise S data own ports D' e.
Proof.
  intros Hd Ho Hp. induction e using expr_ind'; intros D D' HD HP.
  3:{ rewrite precise_Add in HP |- *. rewrite Forall_forall in *. eauto. }
  all: cbn [precise] in *; eauto; try contradiction.
  - destruct HP as (q & -> & Hq). exists q. split; [reflexivity|]. eapply multiple_divides; eauto.
  - destruct HP as (D1 & D2 & H1 & H2 & HD' & P1 & P2). exists D1, D2. repeat split; auto. eapply Z.divide_trans; eauto.
  - destruct HP as (D1 & D2 & H1 & H2 & HD' & P1 & P2). exists D1, D2. repeat split; auto. eapply Z.divide_trans; eauto.
  - revert HP. apply Ho. intros q. now apply multiple_divides.
  - revert HP. apply Hd. intros q. now apply multiple_divides.
  - revert HP. apply Hd. intros q. now apply multiple_divides.
  - destruct HP as (D1 & H1 & HD' & P1). exists D1. repeat split; auto. eapply Z.divide_trans; eauto.
  - destruct e; eauto.
Qed.
