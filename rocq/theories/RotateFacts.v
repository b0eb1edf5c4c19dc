(** Where the cycle of a block starts (see PropRotate.v). *)
From Coq Require Import Lia.
From Verif Require Import Base BaseFacts Expr Visitors LinearExpr Model Study Strategy Optim SpecExpr ExprFacts SpecSyntax SpecVisitors SpecExpansion ExpansionFacts SpecLinear SpecModel
  SpecOptim SpecReady SpecScenarios SpecPrecise SpecBlock SpecSame SpecReorder SpecRotate OptimFacts OptimMeaning OptimProblem OptimReady OptimNames PreciseFacts PreciseProblem ScenarioExact
  ScenarioReorder ScenarioReady ScenarioFacts DropFacts VisitorFacts CopyFacts.

(** ** The block *)
Lemma rotate_length r b : List.length (rotate_block r b) = List.length b.
Proof. unfold rotate_block. rewrite app_length, skipn_length, firstn_length. lia. Qed.
Lemma nth_skipn {A} r (b : list A) i : nth_error (skipn r b) i = nth_error b (r + i).
Proof. revert b. induction r as [|r IH]; intros b; [reflexivity|]. destruct b; [now destruct i|]. cbn [skipn Nat.add nth_error]. apply IH. Qed.
Lemma nth_firstn {A} r (b : list A) i : (i < r)%nat -> nth_error (firstn r b) i = nth_error b i.
Proof. revert r b. induction i as [|i IH]; intros [|r] [|a b] H; try lia; try reflexivity. cbn [firstn nth_error]. apply IH. lia. Qed.
Lemma rotate_nth r b t : b <> [] -> (r <= List.length b)%nat ->
  nth_error (rotate_block r b) (Z.to_nat (t mod Z.of_nat (List.length b))) = nth_error b (Z.to_nat ((t + Z.of_nat r) mod Z.of_nat (List.length b))).
Proof.
  intros Hb Hr. assert (L : (0 < List.length b)%nat) by (destruct b; [congruence|cbn; lia]).
  set (n := Z.of_nat (List.length b)). assert (Hn : (0 < n)%Z) by (unfold n; lia).
  pose proof (Z.mod_pos_bound t n Hn) as B. unfold rotate_block.
  destruct (Z_lt_ge_dec (t mod n + Z.of_nat r) n) as [H|H].
  - assert (E : ((t + Z.of_nat r) mod n = t mod n + Z.of_nat r)%Z).
    { rewrite <- (Zplus_mod_idemp_l t (Z.of_nat r) n). apply Z.mod_small. lia. }
    rewrite E. rewrite nth_error_app1 by (rewrite skipn_length; unfold n in *; lia). rewrite nth_skipn. f_equal. lia.
  - assert (E : ((t + Z.of_nat r) mod n = t mod n + Z.of_nat r - n)%Z).
    { rewrite <- (Zplus_mod_idemp_l t (Z.of_nat r) n). symmetry. apply (Z.mod_unique _ _ 1); unfold n in *; lia. }
    rewrite E. rewrite nth_error_app2 by (rewrite skipn_length; unfold n in *; lia). rewrite skipn_length, nth_firstn by (unfold n in *; lia).
    f_equal. unfold n in *. lia.
Qed.

(** ** Expressions *)
Section Moved.
  Context (E E' : env) (r : Z).
  Hypothesis H1 : forall n t s, e_var E' n t s = e_var E n (t + r)%Z s.
  Hypothesis H2 : forall n t s, e_par E' n t s = e_par E n (t + r)%Z s.
  Hypothesis H3 : forall c n t s, e_cvar E' c n t s = e_cvar E c n (t + r)%Z s.
  Hypothesis H4 : forall c n t s, e_cpar E' c n t s = e_cpar E c n (t + r)%Z s.
  Hypothesis H5 : e_S E' = e_S E.
  Hypothesis H6 : forall p f, Forall2 (fun v' v => forall t s, v' t s = v (t + r)%Z s) (e_port E' p f) (e_port E p f).
  Hypothesis H7 : forall a s, no_position a -> (forall t s, den E' a t s = den E a (t + r)%Z s) ->
    osum (map (fun i => den E' a i s) (zrange 0 (e_T E'))) = osum (map (fun i => den E a i s) (zrange 0 (e_T E))).
  Lemma den_moved e : no_position e -> forall t s, den E' e t s = den E e (t + r)%Z s.
  Proof.
    unfold no_position. induction e using expr_ind'; intros HN t s; cbn [den]; rewrite ?H1, ?H2, ?H3, ?H4, ?H5; auto.
    - rewrite IHe; [reflexivity|apply HN].
    - f_equal. cbn in HN. destruct HN as [_ HN]. induction H as [|a l Ha Hl IH]; [reflexivity|]. cbn [map fold_right] in *. rewrite Ha by tauto. f_equal. tauto.
    - cbn in HN. rewrite IHe1, IHe2 by tauto. reflexivity.
    - cbn in HN. rewrite IHe1, IHe2 by tauto. reflexivity.
    - cbn in HN. tauto.
    - cbn in HN. tauto.
    - cbn in HN. rewrite IHe2 by tauto. destruct (oint _) as [z|]; [|reflexivity]. rewrite IHe1 by tauto. f_equal. lia.
    - cbn in HN. tauto.
    - cbn in HN. rewrite IHe2, IHe3 by tauto. destruct (oint _) as [a|]; [|reflexivity]. destruct (oint _) as [b|]; [|reflexivity].
      f_equal. apply map_ext. intros i. rewrite IHe1 by tauto. f_equal. lia.
    - apply H7; [apply HN|]. apply IHe. apply HN.
    - destruct o; auto; rewrite (map_ext (fun i => den E' e t i) (fun i => den E e (t + r)%Z i)); auto; intros i; apply IHe; apply HN.
    - destruct (H6 p f) as [|v' v l' l Hv Hl]; [reflexivity|]. destruct Hl; [apply Hv|reflexivity].
    - destruct e; auto. destruct a; auto. f_equal. induction (H6 p f) as [|v' v l' l Hv Hl IH]; [reflexivity|]. cbn [map]. now rewrite Hv, IH.
  Qed.
End Moved.
Lemma lower_moved E E' e t t' s q : den E' e t' s = den E e t s -> lower_ok E' e t' s q <-> lower_ok E e t s q.
Proof. intros H. unfold lower_ok. now rewrite H. Qed.
Lemma upper_moved E E' e t t' s q : den E' e t' s = den E e t s -> upper_ok E' e t' s q <-> upper_ok E e t s q.
Proof. intros H. unfold upper_ok. now rewrite H. Qed.
Lemma holds_moved E E' e lb ub t t' s : den E' e t' s = den E e t s -> den E' lb t' s = den E lb t s -> den E' ub t' s = den E ub t s ->
  constraint_holds E' e lb ub t' s <-> constraint_holds E e lb ub t s.
Proof.
  intros A B C. unfold constraint_holds. rewrite A. split; intros (v & V & L & U); exists v; (split; [exact V|]); (split; [now apply (lower_moved _ _ _ _ _ _ v B)|now apply (upper_moved _ _ _ _ _ _ v C)]).
Qed.

(** all expressions of the problem, the bounds too *)
Definition positions_absent (o : settings) : Prop :=
  (forall c k, In c (all_components (o_network o)) -> In k (get_constraints (o_selection o) (co_model c)) ->
     no_position (c_expr k) /\ no_position (c_lower k) /\ no_position (c_upper k)) /\
  (forall c v e, In c (all_components (o_network o)) -> In v (get_variables (o_selection o) (co_model c)) ->
     v_lower v = Some e \/ v_upper v = Some e -> no_position e) /\
  (forall ce, In ce (contributions o) -> no_position (snd ce)) /\
  (forall c p f d, In d (connected (o_network o) c p f) -> no_position (snd d)).
(** the bounds of a variable that has one value for the whole block are the same at all timesteps *)
Definition bounds_last (o : settings) : Prop :=
  forall c v e, In c (all_components (o_network o)) -> In v (get_variables (o_selection o) (co_model c)) -> ix_time (v_structure v) = false ->
  v_lower v = Some e \/ v_upper v = Some e ->
  forall x t t' s, admissible_decisions o x -> den (component_world o x (co_id c)) e t s = den (component_world o x (co_id c)) e t' s.

(** ** Bounds *)
Lemma formula_no_position e : all_nodes formula_node e -> no_position e.
Proof.
  unfold no_position. induction e using expr_ind'; intros HN; try (apply all_nodes_root in HN; contradiction); cbn in *; try tauto.
  split; [exact I|]. destruct HN as [_ HN]. induction H as [|a l Ha _ IH]; [exact I|]. cbn [fold_right] in *. tauto.
Qed.
Lemma formula_lasts (E : env) sp ports e t t' z :
  (forall n, may_vary ix_time (get_parameter_structure sp n) = false -> e_par E n t z = e_par E n t' z) ->
  all_leaves (fun x => match x with PortField p f | PortAgg (PortField p f) _ => ports p f = false -> Forall (fun v => v t z = v t' z) (e_port E p f) | _ => True end) e ->
  all_nodes formula_node e -> varies ix_time true false sp ports e = false -> den E e t z = den E e t' z.
Proof.
  intros HP. assert (HA : forall p f, Forall (fun v => v t z = v t' z) (e_port E p f) -> osum (map (fun v => v t z) (e_port E p f)) = osum (map (fun v => v t' z) (e_port E p f))).
  { intros p f HF. induction HF as [|v l Hv _ IH]; [reflexivity|]. cbn [map osum]. now rewrite Hv, IH. }
  induction e using expr_ind'; intros HL HN HV; try (apply all_nodes_root in HN; contradiction); cbn [varies negb andb] in HV; cbn [den].
  - reflexivity.
  - cbn in HN, HL. now rewrite IHe by tauto.
  - apply all_nodes_Add in HN. destruct HN as [_ HN]. cbn [all_leaves] in HL. f_equal. clear HA HP. induction H as [|a l Ha _ IH]; [reflexivity|]. inversion HN; subst. cbn [map existsb fold_right] in *. apply orb_false_elim in HV. destruct HV, HL. now rewrite Ha, IH.
  - cbn in HN, HL. apply orb_false_elim in HV. now rewrite IHe1, IHe2 by tauto.
  - cbn in HN, HL. apply orb_false_elim in HV. now rewrite IHe1, IHe2 by tauto.
  - now apply HP.
  - cbn in HL. specialize (HL HV). inversion HL as [|v l Hv Hl]; [reflexivity|]. inversion Hl; [exact Hv|reflexivity].
  - destruct e; try reflexivity. destruct a; try reflexivity. apply HA. cbn in HL. now apply HL.
Qed.
Section Bounds.
  Context (o : settings).
  Hypothesis Hgood : good_problem o.
  Hypothesis Hready : ready_problem o.
  Lemma parameter_lasts id n t t' z : may_vary ix_time (get_parameter_structure (local_structure (o_network o) id) n) = false -> data_at o id n t z = data_at o id n t' z.
  Proof.
    intros HV. unfold local_structure in HV. destruct (get_component (o_network o) id) as [k|] eqn:E; [|discriminate]. cbn [model_structure_provider get_variable_structure get_parameter_structure] in HV. unfold may_vary, dict_structure in HV.
    destruct (dget String.eqb n (m_parameters (co_model k))) as [p|] eqn:Ep; [|discriminate]. cbn in HV.
    destruct (get_component_known _ _ _ (ob_built o Hgood) E) as [Hin <-]. apply (dget_In String.eqb String.eqb_eq) in Ep.
    destruct (ob_named o Hgood k Hin) as (_ & _ & [_ Hnp] & _). pose proof (Hnp _ _ Ep) as En. subst n.
    apply (data_at_suitable o (co_id k) p); [|exact HV|apply Hgood]. apply known_suitable; [exact Hgood|exact Hready|exact Hin|]. apply in_map_iff. eexists; split; [|exact Ep]; reflexivity.
  Qed.
  Lemma plain_lasts x id e t t' z : plain_formula o id e -> varies ix_time true false (local_structure (o_network o) id) (fun _ _ => false) e = false ->
    den (local_env (world o x) id) e t z = den (local_env (world o x) id) e t' z.
  Proof.
    intros [HN HL] HV. eapply formula_lasts; [| |exact HN|exact HV].
    - intros n Hn. now apply parameter_lasts.
    - revert HL. apply all_leaves_imp. intros y. destruct y; try contradiction; auto.
  Qed.
  Lemma bound_lasts x id e t t' z : formula o id e -> varies_in_time (o_network o) id e = false ->
    den (component_world o x id) e t z = den (component_world o x id) e t' z.
  Proof.
    intros [HN HL] HV. unfold varies_in_time, varies_in in HV. eapply formula_lasts; [| |exact HN|exact HV].
    - intros n Hn. now apply parameter_lasts.
    - assert (G : forall p f, Forall (fun d => plain_formula o (fst d) (snd d)) (connected (o_network o) id p f) ->
        existsb (fun d => varies ix_time true false (local_structure (o_network o) (fst d)) (fun _ _ => false) (snd d)) (connected (o_network o) id p f) = false ->
        Forall (fun v => v t z = v t' z) (e_port (component_world o x id) p f)).
      { intros p f HF HE. cbn [component_world e_port]. induction HF as [|d l Hd _ IH]; [constructor|]. cbn [existsb map] in *. apply orb_false_elim in HE. destruct HE. constructor; [now apply plain_lasts|auto]. }
      revert HL. apply all_leaves_imp. intros y. destruct y as [| | | | | | | | | | | | | | | | |p f|a g]; cbn [formula_leaf]; auto.
      + intros (d & Ed & Hd). apply G. rewrite Ed. now constructor.
      + destruct a; auto. destruct g; [|contradiction]. apply G.
  Qed.
  Lemma variable_bound c v e : In c (all_components (o_network o)) -> In v (get_variables (o_selection o) (co_model c)) -> v_lower v = Some e \/ v_upper v = Some e ->
    (exists w, e = Lit w) \/ (formula o (co_id c) e /\ (varies_in_time (o_network o) (co_id c) e = true -> ix_time (v_structure v) = true)).
  Proof.
    intros Hc Hv He. destruct Hready as (_ & _ & RV & _). destruct (RV c v Hc Hv) as (B1 & B2 & _).
    destruct He as [He|He]; [destruct (B1 e He) as [(w & -> & _)|(_ & F & V & _)]|destruct (B2 e He) as [(w & -> & _)|(_ & F & V & _)]]; eauto.
  Qed.
  Lemma ready_bounds_last : bounds_last o.
  Proof.
    intros c v e Hc Hv Ht He x t t' s _. destruct (variable_bound c v e Hc Hv He) as [[w ->]|[F V]]; [reflexivity|]. apply bound_lasts; [exact F|].
    destruct (varies_in_time (o_network o) (co_id c) e); [|reflexivity]. rewrite V in Ht; congruence.
  Qed.
  Lemma ready_positions : no_positions o -> positions_absent o.
  Proof.
    intros (N1 & N2 & N3). split; [|split; [|split]]; auto.
    - intros c k Hc Hk. destruct Hready as (_ & _ & _ & RC & _). destruct (RC c k Hc Hk) as (_ & [E|[[F _] _]] & [E'|[[F' _] _]]);
        (split; [now apply (N1 c)|]); split; try (now apply formula_no_position); rewrite ?E, ?E'; cbn; auto.
    - intros c v e Hc Hv He. destruct (variable_bound c v e Hc Hv He) as [[w ->]|[[F _] _]]; [cbn; auto|now apply formula_no_position].
  Qed.
End Bounds.

Section Rotate.
  Context (o : settings) (r : nat).
  Hypothesis Hb : o_block o <> [].
  Hypothesis Hr : (r <= List.length (o_block o))%nat.
  Hypothesis HN : positions_absent o.
  Notation T := (Z.of_nat (List.length (o_block o))).
  Notation o' := (rotating r o).
  Lemma rotate_pos : (0 < T)%Z.
  Proof. destruct (o_block o); [congruence|cbn [List.length]; lia]. Qed.
  Lemma data_period c n t s : data_at o c n (t + T)%Z s = data_at o c n t s.
  Proof. unfold data_at. replace (t + T)%Z with (t + 1 * T)%Z by lia. rewrite Z.mod_add by (pose proof rotate_pos; lia). reflexivity. Qed.
  Lemma data_rotated c n t s : data_at o' c n t s = data_at o c n (t + Z.of_nat r)%Z s.
  Proof. unfold data_at. cbn [rotating with_block o_database o_block o_tree_node]. rewrite rotate_length, rotate_nth by assumption. reflexivity. Qed.
  Section Decisions.
    Context (x : decisions).
    Hypothesis Hx : admissible_decisions o x.
    Notation x' := (counted_from r x).
    Lemma local_period id e t s : no_position e -> den (local_env (world o x) id) e (t + T)%Z s = den (local_env (world o x) id) e t s.
    Proof.
      intros He. symmetry. apply den_moved; auto; cbn [local_env world e_var e_par e_cvar e_cpar e_port]; intros.
      - symmetry. apply (proj1 Hx).
      - symmetry. apply data_period.
      - symmetry. apply (proj1 Hx).
      - symmetry. apply data_period.
      - constructor.
    Qed.
    Lemma world_period id e t s : no_position e -> den (component_world o x id) e (t + T)%Z s = den (component_world o x id) e t s.
    Proof.
      intros He. symmetry. apply den_moved; auto; cbn [component_world e_var e_par e_cvar e_cpar e_port]; intros.
      - symmetry. apply (proj1 Hx).
      - symmetry. apply data_period.
      - symmetry. apply (proj1 Hx).
      - symmetry. apply data_period.
      - destruct HN as (_ & _ & _ & HD). specialize (HD id p f). induction (connected (o_network o) id p f) as [|d l IH]; [constructor|]. cbn [map]. constructor.
        + intros t0 s0. symmetry. apply local_period. apply HD. now left.
        + apply IH. intros d' Hd'. apply HD. now right.
    Qed.
    Lemma local_rotated id e t s : no_position e -> den (local_env (world o' x') id) e t s = den (local_env (world o x) id) e (t + Z.of_nat r)%Z s.
    Proof.
      intros He. apply den_moved; auto; cbn [local_env world e_var e_par e_cvar e_cpar e_port]; intros; try reflexivity; try apply data_rotated.
      - constructor.
      - cbn [e_T local_env world]. cbn [rotating with_block o_block]. rewrite rotate_length.
        rewrite (map_ext _ (fun i => den (local_env (world o x) id) a (i + Z.of_nat r)%Z s0)) by (intros i; apply H0).
        apply (periodic_sum T (Z.of_nat r) (fun i => den (local_env (world o x) id) a i s0)). intros i. now apply local_period.
    Qed.
    Lemma world_rotated id e t s : no_position e -> den (component_world o' x' id) e t s = den (component_world o x id) e (t + Z.of_nat r)%Z s.
    Proof.
      intros He. apply den_moved; auto; cbn [component_world e_var e_par e_cvar e_cpar e_port]; intros; try reflexivity; try apply data_rotated.
      - destruct HN as (_ & _ & _ & HD). specialize (HD id p f). cbn [rotating with_block o_network]. induction (connected (o_network o) id p f) as [|d l IH]; [constructor|]. cbn [map]. constructor.
        + intros t0 s0. apply local_rotated. apply HD. now left.
        + apply IH. intros d' Hd'. apply HD. now right.
      - cbn [e_T component_world]. cbn [rotating with_block o_block]. rewrite rotate_length.
        rewrite (map_ext _ (fun i => den (component_world o x id) a (i + Z.of_nat r)%Z s0)) by (intros i; apply H0).
        apply (periodic_sum T (Z.of_nat r) (fun i => den (component_world o x id) a i s0)). intros i. now apply world_period.
    Qed.
    Lemma world_mod id e t s : no_position e -> den (component_world o x id) e (t mod T)%Z s = den (component_world o x id) e t s.
    Proof.
      intros He. assert (K : forall n t, den (component_world o x id) e (t + Z.of_nat n * T)%Z s = den (component_world o x id) e t s).
      { induction n as [|n IH]; intros u; [f_equal; lia|]. rewrite <- (IH u), <- (world_period id e (u + Z.of_nat n * T)%Z s He). f_equal. lia. }
      pose proof rotate_pos as P. pose proof (Z.div_mod t T ltac:(lia)) as D. destruct (Z_le_gt_dec 0 (t / T)) as [Q|Q].
      - rewrite <- (K (Z.to_nat (t / T)) (t mod T)%Z). f_equal. rewrite Z2Nat.id by exact Q. lia.
      - rewrite <- (K (Z.to_nat (- (t / T))) t). f_equal. rewrite Z2Nat.id by lia. lia.
    Qed.
    Lemma decisions_mod c n t s : x c n (t mod T)%Z s = x c n t s.
    Proof.
      assert (K : forall k t, x c n (t + Z.of_nat k * T)%Z s = x c n t s).
      { induction k as [|k IH]; intros u; [f_equal; lia|]. rewrite <- (IH u), <- (proj1 Hx c n (u + Z.of_nat k * T)%Z s). f_equal. lia. }
      pose proof rotate_pos as P. pose proof (Z.div_mod t T ltac:(lia)) as D. destruct (Z_le_gt_dec 0 (t / T)) as [Q|Q].
      - rewrite <- (K (Z.to_nat (t / T)) (t mod T)%Z). f_equal. rewrite Z2Nat.id by exact Q. lia.
      - rewrite <- (K (Z.to_nat (- (t / T))) t). f_equal. rewrite Z2Nat.id by lia. lia.
    Qed.
    (** the timestep of the first block that is number [t] of the other *)
    Lemma world_at id e t s : no_position e ->
      den (component_world o' x' id) e t s = den (component_world o x id) e ((t + Z.of_nat r) mod T)%Z s.
    Proof. intros He. now rewrite world_rotated, world_mod. Qed.
    Lemma rotated_admissible : admissible_decisions o' x'.
    Proof.
      destruct Hx as [A1 A2]. split.
      - intros c n t s. cbn [rotating with_block o_block]. rewrite rotate_length. unfold counted_from. rewrite <- (A1 c n (t + Z.of_nat r)%Z s). f_equal. lia.
      - intros c v Hc Hv. destruct (A2 c v Hc Hv) as [B1 B2]. unfold counted_from. split; [intros Ht t t' s; now apply B1|intros Hs t s s'; now apply B2].
    Qed.
    Hypothesis HL : bounds_last o.
    Lemma rotated_holds c k t s : In c (all_components (o_network o)) -> In k (get_constraints (o_selection o) (co_model c)) ->
      constraint_holds (component_world o' x' (co_id c)) (c_expr k) (c_lower k) (c_upper k) t s <->
      constraint_holds (component_world o x (co_id c)) (c_expr k) (c_lower k) (c_upper k) ((t + Z.of_nat r) mod T)%Z s.
    Proof. intros Hc Hk. destruct (proj1 HN c k Hc Hk) as (N1 & N2 & N3). apply holds_moved; now apply world_at. Qed.
    Lemma allowed_moved c v t t' s : (forall e, v_lower v = Some e \/ v_upper v = Some e ->
        den (component_world o' x' (co_id c)) e t s = den (component_world o x (co_id c)) e t' s) ->
      forall q, SpecPrecise.allowed o' x' c v t s q <-> SpecPrecise.allowed o x c v t' s q.
    Proof.
      intros H q. unfold SpecPrecise.allowed.
      assert (L : (forall e, v_lower v = Some e -> lower_ok (component_world o' x' (co_id c)) e t s q) <-> (forall e, v_lower v = Some e -> lower_ok (component_world o x (co_id c)) e t' s q)).
      { split; intros K e He; specialize (K e He); revert K; apply (lower_moved (component_world o x (co_id c)) (component_world o' x' (co_id c)) e t' t s q); auto. }
      assert (U : (forall e, v_upper v = Some e -> upper_ok (component_world o' x' (co_id c)) e t s q) <-> (forall e, v_upper v = Some e -> upper_ok (component_world o x (co_id c)) e t' s q)).
      { split; intros K e He; specialize (K e He); revert K; apply (upper_moved (component_world o x (co_id c)) (component_world o' x' (co_id c)) e t' t s q); auto. }
      destruct (v_type v); rewrite ?L, ?U; reflexivity.
    Qed.
    Lemma rotated_plan : feasible_plan o' x' <-> feasible_plan o x.
    Proof.
      pose proof rotate_pos as P. unfold feasible_plan. cbn [rotating with_block o_network o_selection o_block o_scenarios]. rewrite rotate_length.
      assert (A : forall c v t s, instance_of o c v t s -> match t with Some z => (0 <= z < T)%Z | None => ix_time (v_structure v) = false end) by
        (intros c v [z|] s (_ & _ & H & _); cbn [index_of] in H; tauto).
      assert (V : forall c v (t : option Z) s, instance_of o c v t s -> let t' := option_map (fun z => ((z + Z.of_nat r) mod T)%Z) t in
        SpecPrecise.allowed o' x' c v (odefault 0%Z t) (odefault 0%Z s) (x' (co_id c) (v_name v) (odefault 0%Z t) (odefault 0%Z s)) <->
        SpecPrecise.allowed o x c v (odefault 0%Z t') (odefault 0%Z s) (x (co_id c) (v_name v) (odefault 0%Z t') (odefault 0%Z s))).
      { intros c v t s I t'. pose proof I as (I1 & I2 & I3 & _). pose proof (proj1 (proj2 HN) c v) as NV. unfold t'. destruct t as [z|]; cbn [option_map odefault index_of] in *.
        - unfold counted_from at 2. rewrite <- decisions_mod. apply allowed_moved. intros e He. apply world_at. now apply (NV e).
        - assert (E : x' (co_id c) (v_name v) 0%Z (odefault 0%Z s) = x (co_id c) (v_name v) 0%Z (odefault 0%Z s)).
          { unfold counted_from. apply (proj2 Hx c v I1); [|exact I3]. unfold get_variables in I2. apply filter_In in I2. apply I2. }
          rewrite E. apply allowed_moved. intros e He. rewrite world_at by now apply (NV e). now apply (HL c v e). }
      split; intros [F1 F2]; split.
      - intros c v t s I. pose proof I as (I1 & I2 & I3 & I4). pose (u := option_map (fun z => ((z - Z.of_nat r) mod T)%Z) t).
        assert (U : instance_of o c v u s).
        { split; [exact I1|]. split; [exact I2|]. split; [|exact I4]. unfold u. destruct t as [z|]; cbn [option_map index_of] in *; [|exact I3]. split; [tauto|apply Z.mod_pos_bound; exact P]. }
        assert (W : option_map (fun z => ((z + Z.of_nat r) mod T)%Z) u = t).
        { unfold u. destruct t as [z|]; [|reflexivity]. cbn [option_map index_of] in *. f_equal. rewrite Zplus_mod_idemp_l. replace (z - Z.of_nat r + Z.of_nat r)%Z with z by lia. apply Z.mod_small. tauto. }
        pose proof (V c v u s U) as Q. cbv zeta in Q. rewrite W in Q. apply Q. apply F1. destruct U as (U1 & U2 & U3 & U4). repeat split; auto.
        cbn [rotating with_block o_block]. now rewrite rotate_length.
      - intros c k t s Hc Hk Ht Hs. specialize (F2 c k ((t - Z.of_nat r) mod T)%Z s Hc Hk (Z.mod_pos_bound _ _ P) Hs). apply rotated_holds in F2; auto.
        rewrite Zplus_mod_idemp_l in F2. replace (t - Z.of_nat r + Z.of_nat r)%Z with t in F2 by lia. now rewrite Z.mod_small in F2.
      - intros c v t s (I1 & I2 & I3 & I4). cbn [rotating with_block o_block] in I3. rewrite rotate_length in I3.
        assert (I : instance_of o c v t s) by (repeat split; auto). apply (V c v t s I). apply F1. split; [exact I1|]. split; [exact I2|]. split; [|exact I4].
        destruct t as [z|]; cbn [option_map index_of] in *; [|exact I3]. split; [tauto|apply Z.mod_pos_bound; exact P].
      - intros c k t s Hc Hk Ht Hs. apply rotated_holds; auto. apply F2; auto. apply Z.mod_pos_bound. exact P.
    Qed.
    Lemma rotated_cost t s : osum (map (contribution_value o' x' t s) (contributions o')) = osum (map (contribution_value o x (t + Z.of_nat r)%Z s) (contributions o)).
    Proof.
      f_equal. change (contributions o') with (contributions o). apply map_ext_in. intros ce Hce. unfold contribution_value.
      rewrite world_rotated by now apply (proj1 (proj2 (proj2 HN))). reflexivity.
    Qed.
  End Decisions.
  Hypothesis HL : bounds_last o.
  Context (st st' : state).
  Hypothesis Hg : good_problem o.
  Hypothesis Hg' : good_problem o'.
  Hypothesis Hst : build_problem o = Ok st.
  Hypothesis Hst' : build_problem o' = Ok st'.
  Hypothesis HP : precise_problem o.
  Hypothesis HP' : precise_problem o'.
  Lemma rotated_solution x y y' : admissible_decisions o x -> represents o st y x -> represents o' st' y' (counted_from r x) ->
    (solves y (st_solver st) <-> solves y' (st_solver st')) /\ objective_value y (st_solver st) = objective_value y' (st_solver st').
  Proof.
    intros Hx Hy Hy'. pose proof (rotated_admissible x Hx) as Hx'. split.
    - rewrite (exact_plans o st Hg Hst HP x y Hx Hy), (exact_plans _ st' Hg' Hst' HP' _ y' Hx' Hy'). symmetry. now apply rotated_plan.
    - destruct (exact_objective o st Hg Hst (proj1 (proj2 HP)) x y (0 + Z.of_nat r)%Z 0%Z Hx Hy) as (v & E & S).
      destruct (exact_objective _ st' Hg' Hst' (proj1 (proj2 HP')) _ y' 0%Z 0%Z Hx' Hy') as (v' & E' & S'). rewrite rotated_cost in S' by exact Hx. congruence.
  Qed.
  (** every assignment of one problem has its counterpart in the other *)
  Lemma rotated_there y : exists x y', admissible_decisions o x /\ represents o st y x /\ represents o' st' y' (counted_from r x).
  Proof.
    destruct (decisions_of_values o st y Hg Hst) as (x & Hx & Hy). destruct (values_of _ st' _ Hg' Hst' (rotated_admissible x Hx)) as [y' Hy']. eauto.
  Qed.
End Rotate.
Lemma rotated_back o r st st' y' : (r <= List.length (o_block o))%nat -> good_problem o -> good_problem (rotating r o) -> build_problem o = Ok st -> build_problem (rotating r o) = Ok st' ->
  exists x y, admissible_decisions o x /\ represents o st y x /\ represents (rotating r o) st' y' (counted_from r x).
Proof.
  intros Hr Hg Hg' Hst Hst'. destruct (decisions_of_values _ st' y' Hg' Hst') as (x' & [A1 A2] & Hy').
  pose (x := (fun c n t s => x' c n (t - Z.of_nat r)%Z s) : decisions).
  assert (Hx : admissible_decisions o x).
  { split.
    - intros c n t s. unfold x. cbn [rotating with_block o_block] in A1. rewrite rotate_length in A1. rewrite <- (A1 c n (t - Z.of_nat r)%Z s). f_equal. lia.
    - intros c v Hc Hv. destruct (A2 c v Hc Hv) as [B1 B2]. unfold x. split; [intros Ht t t' s; now apply B1|intros Hs t s s'; now apply B2]. }
  destruct (values_of o st x Hg Hst Hx) as [y Hy]. exists x, y. split; [exact Hx|]. split; [exact Hy|].
  intros c v t s i I G t1 s1. rewrite (Hy' c v t s i I G t1 s1). unfold counted_from, x. f_equal. lia.
Qed.
Lemma rotated_together o r : complete_problem o -> complete_problem (rotating r o) -> (r <= List.length (o_block o))%nat -> no_positions o ->
  exists st st', build_problem o = Ok st /\ build_problem (rotating r o) = Ok st' /\
  (forall x y y', admissible_decisions o x -> represents o st y x -> represents (rotating r o) st' y' (counted_from r x) ->
    (solves y (st_solver st) <-> solves y' (st_solver st')) /\ objective_value y (st_solver st) = objective_value y' (st_solver st')) /\
  (forall v, least_cost (st_solver st) v <-> least_cost (st_solver st') v).
Proof.
  intros (G & R & P) (G' & R' & P') Hr HN0. pose proof (ready_positions o R HN0) as HN. pose proof (ready_bounds_last o G R) as HL. destruct (problem_built o G R) as [st Hst]. destruct (problem_built _ G' R') as [st' Hst']. exists st, st'.
  split; [exact Hst|]. split; [exact Hst'|].
  assert (Hb : o_block o <> []) by apply (proj1 G).
  pose proof (rotated_solution o r Hb Hr HN HL st st' G G' Hst Hst' P P') as S. split; [exact S|].
  assert (F : forall y, solves y (st_solver st) -> exists y', solves y' (st_solver st') /\ objective_value y' (st_solver st') = objective_value y (st_solver st)).
  { intros y Hy. destruct (rotated_there o r Hr st st' G G' Hst Hst' y) as (x & y' & Hx & Hr1 & Hr2). destruct (S x y y' Hx Hr1 Hr2) as [S1 S2]. exists y'. split; [now apply S1|now symmetry]. }
  assert (B : forall y, solves y (st_solver st') -> exists y', solves y' (st_solver st) /\ objective_value y' (st_solver st) = objective_value y (st_solver st')).
  { intros y' Hy. destruct (rotated_back o r st st' y' Hr G G' Hst Hst') as (x & y & Hx & Hr1 & Hr2). destruct (S x y y' Hx Hr1 Hr2) as [S1 S2]. exists y. split; [now apply S1|exact S2]. }
  intros v. split; apply best_same; assumption.
Qed.
