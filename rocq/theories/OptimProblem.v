(** The rows and the objective of the built problem mean the mathematical problem (C20, C21, C45). *)
From Coq Require Import Lia.
From Verif Require Import Base Expr Visitors Expansion LinearExpr Linearize Model Study Strategy Optim
  BaseFacts SpecExpr SpecSyntax SpecVisitors SpecExpansion SpecLinear SpecModel SpecOptim
  ExprFacts CopyFacts VisitorFacts DegreeFacts ExpansionFacts LinearFacts ModelFacts OptimFacts OptimMeaning MentionFacts SpecPrecise PreciseFacts.

(** ** Terms read at fixed indices *)
Definition pin_key (t s : Z) (k : term_key) : term_key :=
  {| tk_component := tk_component k; tk_variable := tk_variable k;
     tk_time := Some (odefault t (tk_time k)); tk_scenario := Some (odefault s (tk_scenario k)) |}.
Definition pin (t s : Z) (l : list term) : list term := map (fun kt => (pin_key t s (fst kt), snd kt)) l.
Lemma pin_value E t s t' s' l : terms_value (read E t' s') (pin t s l) = terms_value (read E t s) l.
Proof.
  unfold terms_value, pin. f_equal. rewrite map_map. apply map_ext. intros [k c]. reflexivity.
Qed.
Lemma pin_vanishing t s l : vanishing l -> vanishing (pin t s l).
Proof. intros H. unfold vanishing, pin in *. rewrite Forall_map. eapply Forall_impl; [|exact H]. intros kt. exact (fun H => H). Qed.
Lemma pin_negligible t s l : negligible l -> negligible (pin t s l).
Proof. unfold negligible, pin. intros H. apply Forall_map. exact H. Qed.
Lemma pin_few t s n l : few n l -> few n (pin t s l).
Proof. intros [H1 H2]. split; [unfold pin; now rewrite map_length|now apply pin_negligible]. Qed.

Lemma string_append_assoc (a b c : string) : ((a ++ b) ++ c)%string = (a ++ (b ++ c))%string.
Proof. induction a as [|x a IH]; cbn; [reflexivity|]. now rewrite IH. Qed.

(** ** Bounds *)
Lemma lower_finite E lb t s v : finite_literals lb ->
  (lower_ok E lb t s v <-> exists q, den E lb t s = Some q /\ (q <= v)%Qc).
Proof.
  intros H. unfold lower_ok. destruct lb; try tauto. destruct v0; try tauto. apply all_nodes_root in H. contradiction.
Qed.
Lemma upper_finite E ub t s v : finite_literals ub ->
  (upper_ok E ub t s v <-> exists q, den E ub t s = Some q /\ (v <= q)%Qc).
Proof.
  intros H. unfold upper_ok. destruct ub; try tauto. destruct v0; try tauto. apply all_nodes_root in H. contradiction.
Qed.
Lemma le_value_finite x L w : le_value x L = Some w -> exists q, le_constant L = Fin q.
Proof. unfold le_value. destruct (le_constant L); cbn; try discriminate. eauto. Qed.

(** ** Reading *)
Lemma decisions_period o x c n z s : admissible_decisions o x -> o_block o <> [] ->
  x c n (z mod Z.of_nat (List.length (o_block o)))%Z s = x c n z s.
Proof.
  intros [Hx _] Hb. set (N := Z.of_nat (List.length (o_block o))) in *.
  assert (HN : (0 < N)%Z) by (destruct (o_block o); [congruence|subst N; cbn [List.length]; lia]).
  assert (Hp : forall k a, x c n (a + Z.of_nat k * N)%Z s = x c n a s).
  { induction k as [|k IH]; intros a; [f_equal; lia|].
    replace (a + Z.of_nat (S k) * N)%Z with ((a + Z.of_nat k * N) + N)%Z by lia. now rewrite Hx, IH. }
  rewrite (Z.div_mod z N) at 2 by lia. destruct (Z_le_gt_dec 0 (z / N)) as [H|H].
  - rewrite <- (Hp (Z.to_nat (z / N)) (z mod N)%Z). f_equal. rewrite Z2Nat.id by exact H. lia.
  - rewrite <- (Hp (Z.to_nat (- (z / N))) (N * (z / N) + z mod N)%Z). f_equal.
    rewrite Z2Nat.id by lia. lia.
Qed.
Lemma represents_reads o st y x t s :
  usable_block o -> distinct_ids (o_network o) -> named_network (o_network o) -> build_problem o = Ok st ->
  admissible_decisions o x -> represents o st y x -> reads o st y (read (world o x) t s).
Proof.
  intros Hu Hd Hn Hb Hx Hr k i Hi. destruct (reads_variable o st Hu Hd Hn Hb) as (H1 & H2 & _ & _).
  unfold get_solver_var in Hi. destruct (H2 _ _ _ _ _ Hi) as (c & v & Hin & Hc & Hv).
  destruct (H1 c v _ _ Hin) as (j & sv & _ & _ & Hj).
  pose proof (Hj (tk_time k) eq_refl) as Hj1. rewrite Hc, Hv in Hj1. assert (j = i) by congruence. subst j.
  assert (Hw : wrapped o (wrapped o (tk_time k)) = wrapped o (tk_time k)).
  { destruct (tk_time k); [|reflexivity]. cbn. f_equal. apply Z.mod_mod. destruct Hu as [Hu _]. destruct (o_block o); [congruence|]. cbn [List.length]; lia. }
  pose proof (Hr c v _ _ i Hin (Hj _ Hw) t s) as Hy. rewrite Hy. unfold read. cbn [world e_cvar]. rewrite Hc, Hv.
  destruct (tk_time k) as [z|]; cbn; [|reflexivity]. symmetry. apply decisions_period; [exact Hx|apply Hu].
Qed.

(** ** Rows *)
Section Rows.
  Context (o : settings) (st : state).
  Hypothesis Hgood : good_problem o.
  Hypothesis Hreq : requirements_consistency (o_database o) (o_network o) = Ok tt.
  Hypothesis Hr : register_connections o = Ok (st_ports st).

  Let Hu : usable_block o := proj1 Hgood.
  Let HS : (1 <= o_scenarios o)%Z := proj1 (proj2 Hgood).
  Let Hb : built_network (o_network o) := proj1 (proj2 (proj2 (proj2 Hgood))).
  Let Hm := proj1 (proj2 (proj2 (proj2 (proj2 (proj2 Hgood))))).
  Let Hg : good_connections (o_network o) := proj1 (proj2 (proj2 (proj2 (proj2 (proj2 (proj2 Hgood)))))).
  Let Hf : finite_values o := proj1 (proj2 (proj2 (proj2 (proj2 (proj2 (proj2 (proj2 Hgood))))))).

  (** an expression of a component, instantiated and expanded *)
  Lemma expanded_meaning cid e e' ex : good_expression e -> instantiate st e cid = Ok e' ->
    context_expand o e' = Ok ex ->
    finite_literals ex /\
    mentions (world o (fun _ _ _ _ => 0%Qc)) none ex = decisions_mentioned o cid e /\
    (forall D, precise_in o cid D e -> precise_instance o D ex) /\
    forall x, admissible_decisions o x ->
      fixed_time_args (world o x) e' /\
      forall t s, den (world o x) ex t s = den (component_world o x cid) e t s.
  Proof.
    intros (Hfin & Hagg & Hcmp & Hnest) Hi Hex. unfold context_expand, expand_operators in Hex.
    pose proof (instantiate_names o st Hb Hg Hr cid e e' Hagg Hi) as HN.
    pose proof (instantiate_finite o st Hb Hg Hr cid e e' Hagg Hfin Hi) as HF.
    pose proof (instantiate_well_nested o st Hb Hg Hr cid e e' Hagg Hnest Hi) as HW.
    split; [eapply expand_finite; [exact HN|exact HF|exact Hex]|]. split.
    { rewrite <- (instantiate_mentions o st Hb Hg Hr cid e e' Hagg Hi).
      refine (expand_mentions _ _ _ e' HN _ ex _ _ _ Hex); [now apply time_bounds_sound|reflexivity|reflexivity]. }
    split; [intros D HD; eapply expand_instance; [exact HS|exact Hex|]; exact (instantiate_precise o st Hb Hg Hr cid e e' D Hi HD)|].
    intros x Hx. split; [eapply expand_fixed; eauto|]. intros t s.
    etransitivity; [refine (expand_den True _ _ _ e' HN HW (world o x) ex _ _ _ _ _ _ Hex t s)|].
    7:{ apply (instantiate_den o st Hb Hg Hr); auto. }
    - intros _. now apply world_cyclic.
    - now apply world_respects.
    - now apply time_bounds_sound.
    - reflexivity.
    - reflexivity.
    - cbn. lia.
  Qed.
  (** a bound at a timestep and scenario *)
  Lemma lower_meaning cid e e' t s lb x : good_bound NInf e -> instantiate st e cid = Ok e' ->
    compute_expression_value o e' (Some t) (Some s) = Ok lb ->
    forall v, at_least lb v <-> lower_ok (component_world o x cid) e t s v.
  Proof.
    intros [->|[Hfin Hagg]] Hi He v.
    - cbn in Hi. injection Hi as <-. cbn in He. injection He as <-. reflexivity.
    - destruct (evaluate_value _ (world o x) t s e' (provider_world o x (Some t) (Some s) 0 0 Hu Hf)
        (instantiate_finite o st Hb Hg Hr cid e e' Hagg Hfin Hi) _ He) as (q & -> & Hq).
      rewrite (instantiate_den o st Hb Hg Hr x cid e e' Hagg Hi) in Hq. rewrite lower_finite by exact Hfin.
      cbn. split; [eauto|]. intros (q' & Hq' & Hle). congruence.
  Qed.
  Lemma upper_meaning cid e e' t s ub x : good_bound PInf e -> instantiate st e cid = Ok e' ->
    compute_expression_value o e' (Some t) (Some s) = Ok ub ->
    forall v, at_most ub v <-> upper_ok (component_world o x cid) e t s v.
  Proof.
    intros [->|[Hfin Hagg]] Hi He v.
    - cbn in Hi. injection Hi as <-. cbn in He. injection He as <-. reflexivity.
    - destruct (evaluate_value _ (world o x) t s e' (provider_world o x (Some t) (Some s) 0 0 Hu Hf)
        (instantiate_finite o st Hb Hg Hr cid e e' Hagg Hfin Hi) _ He) as (q & -> & Hq).
      rewrite (instantiate_den o st Hb Hg Hr x cid e e' Hagg Hi) in Hq. rewrite upper_finite by exact Hfin.
      cbn. split; [eauto|]. intros (q' & Hq' & Hle). congruence.
  Qed.
  Lemma instantiated_constraint cid k ic : good_constraint k -> instantiate_constraint st cid k = Ok ic ->
    c_name ic = (cid ++ "_" ++ c_name k)%string /\
    instantiate st (c_expr k) cid = Ok (c_expr ic) /\ instantiate st (c_lower k) cid = Ok (c_lower ic) /\
    instantiate st (c_upper k) cid = Ok (c_upper ic).
  Proof.
    intros ((Hfin & Hagg & Hcmp & Hnest) & _) H. unfold instantiate_constraint in H. repeat inv_bind H.
    apply mk_constraint_bounds in H.
    - destruct H as (-> & _). cbn. auto.
    - intros l r c ->. pose proof (instantiate_no_cmp o st Hb Hg Hr cid _ _ Hagg Hcmp H0) as Hn.
      apply all_nodes_root in Hn. contradiction.
  Qed.
  Lemma row_meaning cid k ic ex t s row : good_constraint k -> instantiate_constraint st cid k = Ok ic ->
    context_expand o (c_expr ic) = Ok ex -> create_row o st ic ex t s = Ok row ->
    sr_name row = (cid ++ "_" ++ c_name k ++ "_t" ++ string_of_Z t ++ "_s" ++ string_of_Z s)%string /\
    exists dropped, few (decisions_mentioned o cid (c_expr k)) dropped /\
    ((exists D, in_range D /\ precise_in o cid D (c_expr k)) -> vanishing dropped) /\
    forall x y, admissible_decisions o x -> reads o st y (read (world o x) t s) ->
    (row_sat y row <-> holds_without (pin t s dropped) (component_world o x cid) (c_expr k) (c_lower k) (c_upper k) t s).
  Proof.
    intros Hk Hi Hex Hrow. pose proof Hk as (Hke & Hkl & Hku).
    destruct (instantiated_constraint cid k ic Hk Hi) as (Hname & He & Hl & Hup).
    destruct (expanded_meaning cid (c_expr k) (c_expr ic) ex Hke He Hex) as (Hexf & Hexm & Hexp & Hexd).
    unfold create_row in Hrow. inv_bind Hrow. inv_bind Hrow. inv_bind Hrow.
    rename v into lin, v0 into lb, v1 into ub. split.
    - unfold make_constraint in Hrow. inv_bind Hrow. injection Hrow as <-. cbn [sr_name]. rewrite Hname.
      now rewrite !string_append_assoc.
    - destruct (linearize_exact o ex _ _ lin Hu Hf H Hexf) as (dropped & Hneg & Hvan & Hval).
      exists dropped. split; [rewrite <- Hexm; apply Hneg|]. split; [intros (D & HR & HD); exact (Hvan D HR (Hexp D HD))|]. intros x y Hx Hy.
      destruct (Hval x t s (or_intror eq_refl) (or_intror eq_refl)) as (v & w & Hv & Hw & Hsum).
      destruct (le_value_finite _ _ _ Hw) as [q Hq].
      rewrite (make_constraint_sat o st t s (c_name ic) lb ub lin row q Hrow Hq y _ Hy), Hw.
      destruct (Hexd x Hx) as [_ Hden]. rewrite Hden in Hv. unfold holds_without. rewrite Hv, pin_value.
      change (read (component_world o x cid) t s) with (read (world o x) t s).
      destruct (terms_value (read (world o x) t s) dropped) as [d|]; [|discriminate].
      cbn in Hsum. injection Hsum as <-.
      split.
      + intros (u & [= <-] & H2 & H3). exists (w + d)%Qc, d. split; [reflexivity|]. split; [reflexivity|].
        replace (w + d - d)%Qc with w by ring. split.
        * eapply lower_meaning; eauto.
        * eapply upper_meaning; eauto.
      + intros (u & d' & [= <-] & [= <-] & H2 & H3). replace (w + d - d)%Qc with w in H2, H3 by ring.
        exists w. split; [reflexivity|]. split.
        * eapply lower_meaning; eauto.
        * eapply upper_meaning; eauto.
  Qed.
  (** what does not vary can be read anywhere *)
  Lemma expression_constant c k ic ex ix x t t' s s' : good_constraint k ->
    instantiate_constraint st (co_id c) k = Ok ic -> context_expand o (c_expr ic) = Ok ex ->
    constraint_indexing o ic = Ok ix -> admissible_decisions o x ->
    (ix_time ix = true -> t = t') -> (ix_scenario ix = true -> s = s') ->
    den (component_world o x (co_id c)) (c_expr k) t s = den (component_world o x (co_id c)) (c_expr k) t' s'.
  Proof.
    intros Hk Hi Hex Hix Hx Ht Hs. pose proof Hk as (Hke & _ & _).
    destruct (instantiated_constraint _ k ic Hk Hi) as (_ & He & _ & _).
    destruct (expanded_meaning _ (c_expr k) (c_expr ic) ex Hke He Hex) as (_ & _ & _ & Hexd).
    destruct (Hexd x Hx) as [Hfix _].
    destruct (indexation_sound _ (world o x) (c_expr ic) (world_respects o x Hgood Hreq Hx) Hfix ix Hix) as [HT HSc].
    rewrite <- !(instantiate_den o st Hb Hg Hr x _ _ _ (proj1 (proj2 Hke)) He).
    transitivity (den (world o x) (c_expr ic) t' s).
    - destruct (ix_time ix); [now rewrite Ht|]. now apply HT.
    - destruct (ix_scenario ix); [now rewrite Hs|]. now apply HSc.
  Qed.
  Lemma bound_constant c e e' a b v x t t' s s' : finite_literals e -> aggregators_on_ports e ->
    instantiate st e (co_id c) = Ok e' -> compute_expression_value o e' a b = Ok v -> admissible_decisions o x ->
    (varies_in_time (o_network o) (co_id c) e = true -> t = t') ->
    (varies_in_scenario (o_network o) (co_id c) e = true -> s = s') ->
    den (component_world o x (co_id c)) e t s = den (component_world o x (co_id c)) e t' s'.
  Proof.
    intros Hfin Hagg Hi He Hx Ht Hs.
    rewrite <- !(instantiate_den o st Hb Hg Hr x _ _ _ Hagg Hi).
    pose proof (instantiate_names o st Hb Hg Hr _ _ _ Hagg Hi) as HN.
    pose proof (evaluate_evaluable _ _ _ He) as HE. pose proof (world_respects o x Hgood Hreq Hx) as HR.
    transitivity (den (world o x) e' t' s).
    - destruct (varies_in_time (o_network o) (co_id c) e) eqn:E; [now rewrite Ht|].
      unfold varies_in_time in E. rewrite <- (instantiate_varies o st ix_time true false Hb Hg Hr (co_id c) e e' Hagg Hi) in E.
      eapply evaluable_time_constant; eauto.
    - destruct (varies_in_scenario (o_network o) (co_id c) e) eqn:E; [now rewrite Hs|].
      unfold varies_in_scenario in E. rewrite <- (instantiate_varies o st ix_scenario false true Hb Hg Hr (co_id c) e e' Hagg Hi) in E.
      eapply evaluable_scenario_constant; eauto.
  Qed.
  Lemma lower_constant c e e' a b v x t t' s s' u : good_bound NInf e ->
    instantiate st e (co_id c) = Ok e' -> compute_expression_value o e' a b = Ok v -> admissible_decisions o x ->
    (varies_in_time (o_network o) (co_id c) e = true -> t = t') ->
    (varies_in_scenario (o_network o) (co_id c) e = true -> s = s') ->
    lower_ok (component_world o x (co_id c)) e t s u <-> lower_ok (component_world o x (co_id c)) e t' s' u.
  Proof.
    intros [->|[Hfin Hagg]] Hi He Hx Ht Hs; [reflexivity|]. rewrite !lower_finite by exact Hfin.
    now rewrite (bound_constant c e e' a b v x t t' s s' Hfin Hagg Hi He Hx Ht Hs).
  Qed.
  Lemma upper_constant c e e' a b v x t t' s s' u : good_bound PInf e ->
    instantiate st e (co_id c) = Ok e' -> compute_expression_value o e' a b = Ok v -> admissible_decisions o x ->
    (varies_in_time (o_network o) (co_id c) e = true -> t = t') ->
    (varies_in_scenario (o_network o) (co_id c) e = true -> s = s') ->
    upper_ok (component_world o x (co_id c)) e t s u <-> upper_ok (component_world o x (co_id c)) e t' s' u.
  Proof.
    intros [->|[Hfin Hagg]] Hi He Hx Ht Hs; [reflexivity|]. rewrite !upper_finite by exact Hfin.
    now rewrite (bound_constant c e e' a b v x t t' s s' Hfin Hagg Hi He Hx Ht Hs).
  Qed.

  (** one row, for all the timesteps and scenarios for which it stands *)
  Definition instance_means (i : component * constraint * Z * Z) (p : list term * solver_row) : Prop :=
    let '(c, k, t0, s0) := i in
    sr_name (snd p) = (co_id c ++ "_" ++ c_name k ++ "_t" ++ string_of_Z t0 ++ "_s" ++ string_of_Z s0)%string /\
    few (instance_mentions o i) (fst p) /\
    (precise_constraint o c k -> vanishing (fst p)) /\
    forall x y, admissible_decisions o x -> (forall t s, reads o st y (read (world o x) t s)) ->
    forall t s, stands_for o i t s ->
    (row_sat y (snd p) <-> holds_without (fst p) (component_world o x (co_id c)) (c_expr k) (c_lower k) (c_upper k) t s).
  Definition pair_rows (ck : component * constraint) : list (component * constraint * Z * Z) :=
    map (fun ts => (fst ck, snd ck, fst ts, snd ts))
      (list_prod (steps (varies_in_time (o_network o) (co_id (fst ck)) (c_expr (snd ck))) (Z.of_nat (List.length (o_block o))))
                 (steps (varies_in_scenario (o_network o) (co_id (fst ck)) (c_expr (snd ck))) (o_scenarios o))).
  Lemma block_meaning ck rows : good_constraint (snd ck) -> block_rows o st ck rows ->
    exists ps, map snd ps = rows /\ Forall2 instance_means (pair_rows ck) ps.
  Proof.
    destruct ck as [c k]. cbn [fst snd]. intros Hk (ic & Hi & Hc). cbn [fst snd] in Hi.
    unfold create_constraint in Hc. inv_bind Hc. inv_bind Hc. rename v into ex, v0 into ix.
    destruct (instantiated_constraint _ k ic Hk Hi) as (_ & He & Hl & Hup).
    destruct (indexation_varies _ (fun _ _ => false) _ _ H0) as [Hvt Hvs].
    rewrite (instantiate_varies o st ix_time true false Hb Hg Hr (co_id c) _ _ (proj1 (proj2 (proj1 Hk))) He) in Hvt.
    rewrite (instantiate_varies o st ix_scenario false true Hb Hg Hr (co_id c) _ _ (proj1 (proj2 (proj1 Hk))) He) in Hvs.
    fold (varies_in_time (o_network o) (co_id c) (c_expr k)) in Hvt.
    fold (varies_in_scenario (o_network o) (co_id c) (c_expr k)) in Hvs.
    unfold pair_rows. cbn [fst snd].
    replace (list_prod (steps _ _) (steps _ _)) with (list_prod (get_time_indices o ix) (get_scenario_indices o ix)).
    2:{ unfold get_time_indices, get_scenario_indices, steps. rewrite <- Hvt, <- Hvs.
        change (block_length o) with (Z.of_nat (List.length (o_block o))). destruct (ix_time ix), (ix_scenario ix); reflexivity. }
    revert rows Hc. induction (list_prod (get_time_indices o ix) (get_scenario_indices o ix)) as [|[t0 s0] l IH]; intros rows Hc.
    - cbn in Hc. injection Hc as <-. exists []. split; [reflexivity|constructor].
    - cbn [mapM] in Hc. inv_bind Hc. inv_bind Hc. injection Hc as <-. destruct (IH _ H2) as (ps & Hps & HF).
      cbn [fst snd] in H1. destruct (row_meaning (co_id c) k ic ex t0 s0 v Hk Hi H H1) as (Hn & dropped & Hneg & Hvan & Hmean).
      exists ((pin t0 s0 dropped, v) :: ps). cbn [map snd]. split; [now rewrite Hps|]. constructor; [|exact HF].
      cbn [fst snd instance_means]. split; [exact Hn|]. split; [now apply pin_few|]. split; [intros HP; apply pin_vanishing; auto|].
      intros x y Hx Hy t s [Hst Hss]. rewrite (Hmean x y Hx (Hy t0 s0)). unfold depends_on in Hst, Hss.
      unfold holds_without. rewrite !pin_value.
      change (read (component_world o x (co_id c)) t0 s0) with (read (world o x) t0 s0).
      rewrite (expression_constant c k ic ex ix x t t0 s s0 Hk Hi H H0 Hx)
        by (rewrite ?Hvt, ?Hvs; intros V; first [apply Hst|apply Hss]; rewrite V; reflexivity).
      unfold create_row in H1. inv_bind H1. inv_bind H1. inv_bind H1. destruct Hk as (_ & Hkl & Hku).
      pose proof (fun u => lower_constant c _ _ _ _ _ x t t0 s s0 u Hkl Hl H4 Hx) as HL.
      pose proof (fun u => upper_constant c _ _ _ _ _ x t t0 s s0 u Hku Hup H5 Hx) as HU.
      assert (HL' : forall u, lower_ok (component_world o x (co_id c)) (c_lower k) t s u <->
                              lower_ok (component_world o x (co_id c)) (c_lower k) t0 s0 u).
      { intros u. apply HL; intros Hv; [apply Hst|apply Hss]; rewrite Hv, orb_true_r; reflexivity. }
      assert (HU' : forall u, upper_ok (component_world o x (co_id c)) (c_upper k) t s u <->
                              upper_ok (component_world o x (co_id c)) (c_upper k) t0 s0 u).
      { intros u. apply HU; intros Hv; [apply Hst|apply Hss]; rewrite Hv; apply orb_true_r. }
      split; intros (a & d & H6 & H7 & H8 & H9); exists a, d; (split; [exact H6|]); (split; [exact H7|]);
        (split; [now apply HL'|now apply HU']).
  Qed.
  Lemma rows_meaning rss : Forall2 (block_rows o st) (row_pairs o) rss ->
    exists ps, map snd ps = concat rss /\ Forall2 instance_means (row_instances o) ps.
  Proof.
    intros HF.
    assert (HI : row_instances o = flat_map pair_rows (row_pairs o)).
    { unfold row_instances, row_pairs. generalize (all_components (o_network o)). clear HF.
      induction l as [|c l IH]; [reflexivity|].
      cbn [flat_map]. rewrite flat_map_app, IH. f_equal.
      induction (get_constraints (o_selection o) (co_model c)) as [|k ks IHk]; [reflexivity|]. cbn [map flat_map]. now rewrite IHk. }
    rewrite HI. clear HI.
    assert (HK : forall ck, In ck (row_pairs o) -> good_constraint (snd ck)).
    { intros [c k] Hin. unfold row_pairs in Hin. apply in_flat_map in Hin. destruct Hin as (c' & Hc' & Hin).
      apply in_map_iff in Hin. destruct Hin as (k' & [= -> ->] & Hk'). apply filter_In in Hk'.
      destruct (Hm c Hc') as (_ & HC & _). apply HC. apply Hk'. }
    induction HF as [|ck rows l rss Hck HF IH]; cbn [concat flat_map].
    - exists []. split; [reflexivity|constructor].
    - destruct IH as (ps & Hps & HF2); [intros; apply HK; now right|].
      destruct (block_meaning ck rows (HK ck (or_introl eq_refl)) Hck) as (ps1 & Hps1 & HF1).
      exists (ps1 ++ ps). split; [now rewrite map_app, Hps1, Hps|]. now apply Forall2_app.
  Qed.
End Rows.

(** ** The objective *)
Definition contribution_form (o : settings) (st : state) (ce : component * expr) (L : lin_expr) : Prop :=
  exists i ex, instantiate st (modify_expression (o_risk o) (snd ce)) (co_id (fst ce)) = Ok i /\
    context_expand o i = Ok ex /\ context_linearize o ex None None = Ok L.
Lemma objective_terms_value o y x ts : forall st st', reads o st y x ->
  NoDup (map fst (s_objective (st_solver st))) ->
  foldM (add_objective_term o) st ts = Ok st' ->
  NoDup (map fst (s_objective (st_solver st'))) /\
  coefs_value y (s_objective (st_solver st')) = oplus (coefs_value y (s_objective (st_solver st))) (terms_value x ts).
Proof.
  induction ts as [|[k c] ts IH]; intros st st' Hr Hnd H; cbn [foldM] in H.
  - injection H as <-. split; [exact Hnd|]. now rewrite oplus_0_r.
  - inv_bind H. unfold add_objective_term in H0. inv_bind H0. inv_bind H0. inv_bind H0.
    assert (Hs : v = {| st_variables := st_variables st; st_infos := v2; st_ports := st_ports st;
        st_solver := {| s_vars := s_vars (st_solver st); s_rows := s_rows (st_solver st);
                        s_objective := add_coefficient (s_objective (st_solver st)) v0 c;
                        s_offset := s_offset (st_solver st) |} |}) by (cbn [snd] in H0; congruence).
    apply IH in H.
    + destruct H as [HA HB]. split; [exact HA|]. rewrite HB, Hs. cbn [st_solver s_objective].
      unfold add_coefficient. rewrite nadd_comm, coefs_dset by exact Hnd. rewrite terms_value_cons.
      cbn [fst] in H1. rewrite <- (Hr _ _ H1). unfold term_value. cbn [fst snd].
      rewrite oplus_assoc. f_equal. apply oplus_comm.
    + rewrite Hs. exact Hr.
    + rewrite Hs. cbn [st_solver s_objective]. now apply (dset_nodup Nat.eqb Nat.eqb_eq).
Qed.
Lemma create_objective_value o c st e st' : NoDup (map fst (s_objective (st_solver st))) ->
  create_component_objective o c st (Some e) = Ok st' ->
  exists L, contribution_form o st (c, e) L /\ NoDup (map fst (s_objective (st_solver st'))) /\
    forall y x, reads o st y x ->
    objective_value y (st_solver st') = oplus (objective_value y (st_solver st)) (le_value x L).
Proof.
  intros Hnd H. cbn in H. unfold create_objective in H. inv_bind H. inv_bind H. inv_bind H. inv_bind H.
  exists v1. split; [exists v, v0; auto|]. assert (Hs : st' = add_offset (le_constant v1) v2) by congruence.
  pose proof (add_objective_terms_same _ _ _ _ H3) as (_ & _ & Hoff).
  split.
  - subst st'. cbn. 
    destruct (objective_terms_value o (fun _ => 0%Qc) (fun _ => 0%Qc) (le_terms v1) st v2) as [HA _]; auto.
    intros k i _. reflexivity.
  - intros y x Hr. destruct (objective_terms_value o y x (le_terms v1) st v2 Hr Hnd H3) as [_ HB].
    subst st'. unfold objective_value, add_offset, le_value. cbn [st_solver s_offset s_objective].
    rewrite nval_nadd, HB, Hoff.
    destruct (nval (le_constant v1)), (nval (s_offset (st_solver st))), (coefs_value y (s_objective (st_solver st))),
      (terms_value x (le_terms v1)); cbn; try reflexivity. f_equal. ring.
Qed.
Definition given (l : list (component * option expr)) : list (component * expr) :=
  flat_map (fun ce => match snd ce with Some e => [(fst ce, e)] | None => [] end) l.
Lemma contributions_given o : contributions o = given (obj_pairs o).
Proof.
  unfold contributions, given, obj_pairs. induction (all_components (o_network o)) as [|c l IH]; [reflexivity|].
  cbn [flat_map]. rewrite flat_map_app, IH. f_equal.
  induction (get_objectives (o_selection o) (co_model c)) as [|e es IHe]; [reflexivity|]. cbn. now rewrite IHe.
Qed.
Lemma contribution_form_same o st st' ce L : st_ports st' = st_ports st ->
  contribution_form o st' ce L -> contribution_form o st ce L.
Proof. intros H. unfold contribution_form, instantiate. now rewrite H. Qed.
Lemma create_objectives_value o st st' : NoDup (map fst (s_objective (st_solver st))) ->
  create_objectives o st = Ok st' ->
  exists Ls, Forall2 (contribution_form o st) (contributions o) Ls /\
    forall y x, reads o st y x ->
    objective_value y (st_solver st') = oplus (objective_value y (st_solver st)) (osum (map (le_value x) Ls)).
Proof.
  intros Hnd H. apply create_objectives_flat in H. rewrite contributions_given.
  revert st Hnd H. induction (obj_pairs o) as [|[c [e|]] l IH]; intros st Hnd H; cbn [foldM fst snd] in H.
  - exists []. split; [constructor|]. intros y x _. injection H as <-. cbn. now rewrite oplus_0_r.
  - inv_bind H. pose proof H0 as Hobj. apply create_objective_value in H0; [|exact Hnd].
    destruct H0 as (L & HL & Hnd1 & Hv).
    cbn in Hobj. apply create_objective_same in Hobj. destruct Hobj as [(E1 & E2 & _) _].
    destruct (IH v Hnd1 H) as (Ls & HLs & Hvs). exists (L :: Ls). cbn [given flat_map fst snd app]. split.
    + constructor; [exact HL|]. eapply Forall2_weaken; [|exact HLs]. intros a b. now apply contribution_form_same.
    + intros y x Hr. rewrite (Hvs y x), (Hv y x Hr).
      * cbn [map]. rewrite osum_cons. symmetry. apply oplus_assoc.
      * intros k i Hi. apply Hr. unfold get_solver_var in *. now rewrite (get_variable_same o st v) in Hi.
  - cbn in H. exact (IH st Hnd H).
Qed.
Lemma modified_good r e : risk_factor r <> None -> good_expression e -> good_expression (modify_expression r e).
Proof.
  intros Hr (H1 & H2 & H3 & H4). destruct r as [|[q| | |]]; cbn in Hr; try congruence; [repeat split; assumption|].
  unfold good_expression, finite_literals, aggregators_on_ports, no_comparison, well_nested in *. cbn. tauto.
Qed.
Lemma contribution_modified o x t s ce : 
  den (component_world o x (co_id (fst ce))) (modify_expression (o_risk o) (snd ce)) t s = contribution_value o x t s ce.
Proof.
  unfold contribution_value. destruct (o_risk o) as [|p]; cbn.
  - destruct (den _ _ _ _); cbn; [f_equal; ring|reflexivity].
  - destruct p; reflexivity.
Qed.
Lemma modified_mentions o c r e : decisions_mentioned o c (modify_expression r e) = decisions_mentioned o c e.
Proof. destruct r; reflexivity. Qed.
Lemma modified_precise o ce : precise_contribution o ce ->
  exists D, in_range D /\ precise_in o (co_id (fst ce)) D (modify_expression (o_risk o) (snd ce)).
Proof.
  intros (D1 & D2 & p & H1 & H2 & HR & HP & Hp & HM). exists (D1 * D2)%Z. split; [split; [nia|exact HR]|].
  unfold precise_in in *. destruct (o_risk o) as [|w]; cbn [risk_factor modify_expression] in *.
  - assert (HI : forall c n (P P' : Qc -> Prop), (forall q, P q -> P' q) -> data_values o c n P -> data_values o c n P').
    { intros c n P P' HD Hd t s q Hq. apply HD. eapply Hd; eauto. }
    revert HP. apply precise_divides; [exact HI|apply HI| |exists D2; ring].
    intros q f D D' HD Hd d Hin. generalize (Hd d Hin). apply precise_divides; [exact HI|apply HI|auto|exact HD].
  - destruct w as [w| | |]; try discriminate. injection Hp as ->. exists D2, D1. repeat split; auto; [exists 1%Z; ring|]. exists p. auto.
Qed.
Lemma contributions_meaning o st ces Ls : good_problem o ->
  requirements_consistency (o_database o) (o_network o) = Ok tt -> register_connections o = Ok (st_ports st) ->
  (forall ce, In ce ces -> good_expression (snd ce)) ->
  Forall2 (contribution_form o st) ces Ls ->
  exists dropped, few (list_sum (map (contribution_mentions o) ces)) dropped /\
  ((forall ce, In ce ces -> precise_contribution o ce) -> vanishing dropped) /\
  forall x t s, admissible_decisions o x ->
    exists v w, osum (map (contribution_value o x t s) ces) = Some v /\
      osum (map (le_value (read (world o x) t s)) Ls) = Some w /\
      oplus (Some w) (terms_value (read (world o x) t s) dropped) = Some v.
Proof.
  intros Hgood Hreq Hr Hces HF. induction HF as [|ce L ces Ls (i & ex & Hi & Hex & HL) HF IH].
  - exists []. split; [split; [apply Nat.le_refl|constructor]|]. split; [constructor|]. intros x t s _. exists 0%Qc, 0%Qc. auto.
  - destruct IH as (d & Hd & Hvd & Hv); [intros; apply Hces; now right|].
    assert (Hce : good_expression (modify_expression (o_risk o) (snd ce))).
    { apply modified_good; [apply Hgood|]. apply Hces. now left. }
    destruct (expanded_meaning o st Hgood Hreq Hr _ _ _ _ Hce Hi Hex) as (Hfin & Hmen & Hpre & Hden).
    destruct (linearize_exact o ex _ _ L (proj1 Hgood) (proj1 (proj2 (proj2 (proj2 (proj2 (proj2 (proj2 (proj2 Hgood)))))))) HL Hfin) as (d1 & Hd1 & Hvd1 & Hval).
    exists (d1 ++ d). split.
    { specialize (Hd1 (world o (fun _ _ _ _ => 0%Qc))). rewrite Hmen, modified_mentions in Hd1. destruct Hd as [Hd2 Hd3], Hd1 as [Hd4 Hd5].
      split; [|now apply Forall_app]. rewrite app_length. cbn [map]. unfold list_sum in *. cbn [fold_right].
      unfold contribution_mentions at 1. lia. }
    split.
    { intros HP. apply Forall_app. split; [|apply Hvd; intros; apply HP; now right].
      destruct (modified_precise o ce (HP ce (or_introl eq_refl))) as (D & HR & HD). exact (Hvd1 D HR (Hpre D HD)). }
    intros x t s Hx.
    destruct (Hv x t s Hx) as (v & w & E1 & E2 & E3).
    destruct (Hval x t s (or_introl eq_refl) (or_introl eq_refl)) as (v1 & w1 & E4 & E5 & E6).
    destruct (Hden x Hx) as [_ Hden1]. rewrite Hden1, contribution_modified in E4.
    exists (v1 + v)%Qc, (w1 + w)%Qc. cbn [map]. rewrite !osum_cons, E1, E2, E4, E5, terms_value_app.
    split; [reflexivity|]. split; [reflexivity|].
    destruct (terms_value _ d1) as [a|]; [|discriminate]. destruct (terms_value _ d) as [b|]; [|discriminate].
    cbn in *. injection E3 as <-. injection E6 as <-. f_equal. ring.
Qed.

(** ** The whole problem *)
Lemma problem_meaning o st : good_problem o -> build_problem o = Ok st ->
  exists drops, Forall2 (fun i d => few (instance_mentions o i) d) (row_instances o) drops /\
  forall x y, admissible_decisions o x -> represents o st y x ->
  (Forall (row_sat y) (s_rows (st_solver st)) <->
   Forall2 (fun i d => let '(c, k, _, _) := i in forall t s, stands_for o i t s ->
              holds_without d (component_world o x (co_id c)) (c_expr k) (c_lower k) (c_upper k) t s)
     (row_instances o) drops).
Proof.
  intros Hgood Hb. pose proof Hgood as (Hu & HS & Hrisk & Hbn & Hd & Hm & Hk & Hf & Hn).
  assert (Hnn : named_network (o_network o)) by (intros c Hc; apply (Hm c Hc)).
  pose proof (fun y x t s => represents_reads o st y x t s Hu Hd Hnn Hb) as Hreads.
  apply build_steps in Hb. destruct Hb as (ports & st1 & st2 & Hreq & Hp & H1 & H2 & H3).
  apply created_state in H1; auto. destruct H1 as (Hv & _ & Hpo & Hrows & _).
  apply create_constraints_spec in H2. destruct H2 as (rss & HF & ->).
  apply create_objectives_same in H3. destruct H3 as [(E1 & E2 & E3) E4]. cbn in E1, E4, Hpo, Hrows.
  rewrite Hrows in E4. cbn in E4.
  assert (Hreg : register_connections o = Ok (st_ports st1)) by now rewrite Hpo.
  destruct (rows_meaning o st1 Hgood Hreq Hreg rss) as (ps & Hps & HF2); [exact HF|].
  exists (map fst ps). split.
  - clear -HF2. induction HF2 as [|i p l ps Hip HF2 IH]; [constructor|]. cbn [map]. constructor; [|exact IH].
    destruct i as [[[c k] t0] s0]. apply Hip.
  - intros x y Hx Hy. rewrite E4, <- Hps.
    assert (HR : forall t s, reads o st1 y (read (world o x) t s)).
    { intros t s k i Hi. apply (Hreads y x t s Hx Hy). unfold get_solver_var in *. now rewrite (get_variable_same o st1 st). }
    clear -HF2 Hx HR. induction HF2 as [|i p l ps Hip HF2 IH]; cbn [map].
    + split; constructor.
    + destruct i as [[[c k] t0] s0]. destruct Hip as (_ & _ & _ & Hip). specialize (Hip x y Hx HR). split; intros H.
      * inversion H; subst. constructor; [|now apply IH]. intros t s Hts. now apply (Hip t s Hts).
      * inversion H; subst. constructor; [|now apply IH]. apply (Hip t0 s0); [split; auto|]. apply H3. split; auto.
Qed.
(** row by row: the terms left out of each, and what it says *)
Lemma problem_rows_exact o st : good_problem o -> build_problem o = Ok st ->
  exists drops, List.length drops = List.length (s_rows (st_solver st)) /\
  Forall2 (fun i dr => let '(c, k, t0, s0) := i in
      few (instance_mentions o i) (fst dr) /\ (precise_constraint o c k -> vanishing (fst dr)) /\
      sr_name (snd dr) = (co_id c ++ "_" ++ c_name k ++ "_t" ++ string_of_Z t0 ++ "_s" ++ string_of_Z s0)%string /\
      forall x y, admissible_decisions o x -> represents o st y x -> forall t s, stands_for o i t s ->
      (row_sat y (snd dr) <-> holds_without (fst dr) (component_world o x (co_id c)) (c_expr k) (c_lower k) (c_upper k) t s))
    (row_instances o) (combine drops (s_rows (st_solver st))).
Proof.
  intros Hgood Hb. pose proof Hgood as (Hu & HS & Hrisk & Hbn & Hd & Hm & Hk & Hf & Hn).
  assert (Hnn : named_network (o_network o)) by (intros c Hc; apply (Hm c Hc)).
  pose proof (fun y x t s => represents_reads o st y x t s Hu Hd Hnn Hb) as Hreads.
  apply build_steps in Hb. destruct Hb as (ports & st1 & st2 & Hreq & Hp & H1 & H2 & H3).
  apply created_state in H1; auto. destruct H1 as (Hv & _ & Hpo & Hrows & _).
  apply create_constraints_spec in H2. destruct H2 as (rss & HF & ->).
  apply create_objectives_same in H3. destruct H3 as [(E1 & E2 & E3) E4]. cbn in E1, E4, Hpo, Hrows.
  rewrite Hrows in E4. cbn in E4.
  assert (Hreg : register_connections o = Ok (st_ports st1)) by now rewrite Hpo.
  destruct (rows_meaning o st1 Hgood Hreq Hreg rss) as (ps & Hps & HF2); [exact HF|].
  exists (map fst ps). split; [now rewrite E4, <- Hps, !map_length|].
  assert (Ec : combine (map fst ps) (s_rows (st_solver st)) = ps).
  { rewrite E4, <- Hps. clear. induction ps as [|[a b] ps IH]; [reflexivity|]. cbn. now rewrite IH. }
  rewrite Ec. clear Ec.
  - eapply Forall2_weaken; [|exact HF2]. intros [[[c k] t0] s0] p (N & F & V & M). split; [exact F|]. split; [exact V|]. split; [exact N|].
    intros x y Hx Hy. apply (M x y Hx). intros t s v i Hi. apply (Hreads y x t s Hx Hy).
    unfold get_solver_var in *. now rewrite (get_variable_same o st1 st).
Qed.
Lemma problem_rows o st : good_problem o -> build_problem o = Ok st ->
  exists drops, List.length drops = List.length (s_rows (st_solver st)) /\
  Forall2 (fun i dr => let '(c, k, t0, s0) := i in
      few (instance_mentions o i) (fst dr) /\
      sr_name (snd dr) = (co_id c ++ "_" ++ c_name k ++ "_t" ++ string_of_Z t0 ++ "_s" ++ string_of_Z s0)%string /\
      forall x y, admissible_decisions o x -> represents o st y x -> forall t s, stands_for o i t s ->
      (row_sat y (snd dr) <-> holds_without (fst dr) (component_world o x (co_id c)) (c_expr k) (c_lower k) (c_upper k) t s))
    (row_instances o) (combine drops (s_rows (st_solver st))).
Proof.
  intros Hgood Hb. destruct (problem_rows_exact o st Hgood Hb) as (drops & HL & HF). exists drops. split; [exact HL|].
  eapply Forall2_weaken; [|exact HF]. intros [[[c k] t0] s0] p (F & _ & M). auto.
Qed.
Lemma rows_named o st : good_problem o -> build_problem o = Ok st ->
  Forall2 (fun i row => let '(c, k, t, s) := i in
     sr_name row = (co_id c ++ "_" ++ c_name k ++ "_t" ++ string_of_Z t ++ "_s" ++ string_of_Z s)%string)
    (row_instances o) (s_rows (st_solver st)).
Proof.
  intros Hgood Hb. pose proof Hgood as (Hu & HS & Hrisk & Hbn & Hd & Hm & Hk & Hf & Hn).
  assert (Hnn : named_network (o_network o)) by (intros c Hc; apply (Hm c Hc)).
  apply build_steps in Hb. destruct Hb as (ports & st1 & st2 & Hreq & Hp & H1 & H2 & H3).
  apply created_state in H1; auto. destruct H1 as (Hv & _ & Hpo & Hrows & _).
  apply create_constraints_spec in H2. destruct H2 as (rss & HF & ->).
  apply create_objectives_same in H3. destruct H3 as [(E1 & E2 & E3) E4]. cbn in E1, E4, Hpo, Hrows.
  rewrite Hrows in E4. cbn in E4.
  assert (Hreg : register_connections o = Ok (st_ports st1)) by now rewrite Hpo.
  destruct (rows_meaning o st1 Hgood Hreq Hreg rss) as (ps & Hps & HF2); [exact HF|].
  rewrite E4, <- Hps. clear -HF2. induction HF2 as [|i p l ps Hip HF2 IH]; [constructor|].
  cbn [map]. constructor; [|exact IH]. destruct i as [[[c k] t0] s0]. apply Hip.
Qed.
(** when bounds depend on nothing on which expressions do not, every instance has a row *)
Lemma rows_of_instances o :
  (forall c k, In c (all_components (o_network o)) -> In k (get_constraints (o_selection o) (co_model c)) ->
     bounds_follow (o_network o) (co_id c) k) ->
  row_instances o = constraint_instances o.
Proof.
  intros HB. unfold row_instances, constraint_instances. rewrite !flat_map_concat_map.
  f_equal. apply map_ext_in. intros c Hc. rewrite !flat_map_concat_map. f_equal. apply map_ext_in. intros k Hk.
  destruct (HB c k Hc Hk) as [HFt HFs].
  assert (F : forall vt : string -> expr -> bool,
    (vt (co_id c) (c_lower k) || vt (co_id c) (c_upper k) = true -> vt (co_id c) (c_expr k) = true) ->
    vt (co_id c) (c_expr k) = depends_on vt c k).
  { intros vt. unfold depends_on. destruct (vt _ (c_expr k)), (vt _ (c_lower k)), (vt _ (c_upper k)); cbn; intuition congruence. }
  now rewrite (F (varies_in_time (o_network o)) HFt), (F (varies_in_scenario (o_network o)) HFs).
Qed.
Lemma objective_exact o st : good_problem o -> build_problem o = Ok st ->
  exists dropped, few (list_sum (map (contribution_mentions o) (contributions o))) dropped /\
  ((forall ce, In ce (contributions o) -> precise_contribution o ce) -> vanishing dropped) /\
  forall x y t s, admissible_decisions o x -> represents o st y x ->
    exists v, osum (map (contribution_value o x t s) (contributions o)) = Some v /\
      olift2 Qcplus (objective_value y (st_solver st)) (terms_value (read (world o x) t s) dropped) = Some v.
Proof.
  intros Hgood Hb. pose proof Hgood as (Hu & HS & Hrisk & Hbn & Hd & Hm & Hk & Hf & Hn).
  assert (Hnn : named_network (o_network o)) by (intros c Hc; apply (Hm c Hc)).
  pose proof (fun y x t s => represents_reads o st y x t s Hu Hd Hnn Hb) as Hreads.
  apply build_steps in Hb. destruct Hb as (ports & st1 & st2 & Hreq & Hp & H1 & H2 & H3).
  apply created_state in H1; auto. destruct H1 as (Hv & _ & Hpo & _ & Hobj & Hoff).
  apply create_constraints_spec in H2. destruct H2 as (rss & HF & ->). cbn in Hpo, Hobj, Hoff.
  pose proof (create_objectives_same _ _ _ H3) as [(E1 & E2 & _) _]. cbn in E1, E2.
  apply create_objectives_value in H3; [|cbn; rewrite Hobj; constructor].
  destruct H3 as (Ls & HLs & Hval).
  destruct (contributions_meaning o st1 (contributions o) Ls) as (dropped & Hneg & Hvan & Hmean); auto.
  - now rewrite Hpo.
  - intros [c e] Hin. unfold contributions in Hin. apply in_flat_map in Hin. destruct Hin as (c' & Hc' & Hin).
    apply in_flat_map in Hin. destruct Hin as ([e'|] & He' & Hin); [|contradiction]. destruct Hin as [[= -> ->]|[]].
    destruct (Hm c Hc') as (_ & _ & HE & _). apply HE. unfold get_objectives in He'.
    destruct (o_selection o); cbn in He'; intuition congruence.
  - exists dropped. split; [exact Hneg|]. split; [exact Hvan|]. intros x y t s Hx Hy.
    destruct (Hmean x t s Hx) as (v & w & Ev & Ew & Hsum). exists v. split; [exact Ev|].
    rewrite (Hval y (read (world o x) t s)), Ew.
    + unfold objective_value. cbn [set_rows st_solver s_offset s_objective]. rewrite Hobj, Hoff. cbn.
      rewrite <- Hsum. destruct (terms_value _ dropped); cbn; [f_equal; ring|reflexivity].
    + intros k i Hi. apply (Hreads y x t s Hx Hy). unfold get_solver_var in *.
      now rewrite (get_variable_same o (set_rows st1 (s_rows (st_solver st1) ++ concat rss)) st).
Qed.
Lemma objective_meaning o st : good_problem o -> build_problem o = Ok st ->
  exists dropped, few (list_sum (map (contribution_mentions o) (contributions o))) dropped /\
  forall x y t s, admissible_decisions o x -> represents o st y x ->
    exists v, osum (map (contribution_value o x t s) (contributions o)) = Some v /\
      olift2 Qcplus (objective_value y (st_solver st)) (terms_value (read (world o x) t s) dropped) = Some v.
Proof.
  intros Hgood Hb. destruct (objective_exact o st Hgood Hb) as (d & F & _ & M). eauto.
Qed.

(** ** Solver assignments and decisions correspond *)
Section Correspondence.
  Context (o : settings) (st : state).
  Hypothesis Hu : usable_block o.
  Hypothesis Hd : distinct_ids (o_network o).
  Hypothesis Hn : named_network (o_network o).
  Hypothesis Hb : build_problem o = Ok st.
  Let HR := reads_variable o st Hu Hd Hn Hb.

  Lemma instance_unique c v t s c' v' t' s' : instance_of o c v t s -> instance_of o c' v' t' s' ->
    co_id c = co_id c' -> v_name v = v_name v' -> c = c' /\ v = v'.
  Proof.
    intros (Hc & Hv & _) (Hc' & Hv' & _) Eid Ev.
    assert (c = c') by (eapply NoDup_map_inj_in; eauto). subst c'. split; [reflexivity|].
    eapply NoDup_map_inj_in; [|exact Hv|exact Hv'|exact Ev]. apply variables_nodup. now apply Hn.
  Qed.
  Lemma represented_exists x : admissible_decisions o x -> exists y, represents o st y x.
  Proof.
    intros Hx.
    exists (fun i => match nth_error (var_insts o) i with
                     | Some (c, v, (t, s)) => x (co_id c) (v_name v) (odefault 0 t) (odefault 0 s)
                     | None => 0%Qc end).
    intros c v t s i Hin Hi t' s'. destruct (built_variables o st Hd Hn Hb) as (ports & _ & _ & Hv & _).
    pose proof (proj1 (lookup_iff o st t s (co_id c) (v_name v) i Hu Hd Hn Hv) Hi) as Hnth.
    apply nth_inst in Hnth. destruct Hnth as (c' & v' & Hnth & Eid & Ev). rewrite Hnth.
    assert (Hin' : instance_of o c' v' (wrapped o t) s) by (apply var_insts_In; eapply nth_error_In; eauto).
    destruct (instance_unique _ _ _ _ _ _ _ _ Hin' Hin Eid Ev) as [-> ->].
    destruct Hx as [Hper Hx]. destruct Hin as (Hc & Hvin & Ht & Hs).
    assert (Hvin' : In v (map snd (m_variables (co_model c)))) by (apply filter_In in Hvin; apply Hvin).
    destruct (Hx c v Hc Hvin') as [Hxt Hxs].
    transitivity (x (co_id c) (v_name v) (odefault t' t) (odefault 0 s)).
    - destruct t as [t|]; cbn.
      + apply decisions_period; [now split|apply Hu].
      + apply Hxt. exact Ht.
    - destruct s as [s|]; cbn; [reflexivity|]. apply Hxs. exact Hs.
  Qed.
  Definition decisions_of (y : nat -> Qc) : decisions := fun c n t s =>
    match get_component_variable o st (Some t) (Some s) c n with Ok i => y i | Err _ =>
    match get_component_variable o st (Some t) None c n with Ok i => y i | Err _ =>
    match get_component_variable o st None (Some s) c n with Ok i => y i | Err _ =>
    match get_component_variable o st None None c n with Ok i => y i | Err _ => 0%Qc end end end end.
  Lemma lookup_index c v t s i : In c (all_components (o_network o)) -> In v (map snd (m_variables (co_model c))) ->
    get_component_variable o st t s (co_id c) (v_name v) = Ok i ->
    instance_of o c v (wrapped o t) s.
  Proof.
    intros Hc Hv H. destruct HR as (_ & H2 & _). destruct (H2 _ _ _ _ _ H) as (c' & v' & Hin & Eid & Ev).
    assert (c' = c). { eapply NoDup_map_inj_in; eauto. apply Hin. } subst c'.
    assert (v' = v); [|now subst].
    destruct Hin as (_ & Hv' & _). apply filter_In in Hv'. destruct Hv' as [Hv' _].
    destruct (Hn c Hc) as (_ & _ & _ & [Hnd Hk] & _).
    eapply (NoDup_map_inj_in v_name (map snd (m_variables (co_model c)))); eauto.
    assert (E : map v_name (map snd (m_variables (co_model c))) = map fst (m_variables (co_model c))).
    { rewrite map_map. apply map_ext_in. intros [k a] Hka. cbn. now apply Hk. }
    now rewrite E.
  Qed.
  Lemma decisions_exist y : exists x, admissible_decisions o x /\ represents o st y x.
  Proof.
    exists (decisions_of y). split; [split|].
    - intros c n t s. unfold decisions_of, get_component_variable.
      assert (Hw : wrap_timestep o (t + Z.of_nat (List.length (o_block o))) = wrap_timestep o t).
      { rewrite !wrap_ok by exact Hu. f_equal. rewrite <- (Z.mul_1_l (Z.of_nat (List.length (o_block o)))) at 1.
        apply Z.mod_add. pose proof (block_length_pos o Hu). unfold block_length in *. lia. }
      now rewrite Hw.
    - intros c v Hc Hv. split.
      + intros Hf t t' s. unfold decisions_of.
        assert (Hnone : forall z s', exists e, get_component_variable o st (Some z) s' (co_id c) (v_name v) = Err e).
        { intros z s'. destruct (get_component_variable o st (Some z) s' _ _) as [i|e] eqn:E; [|eauto].
          apply lookup_index in E; auto. destruct E as (_ & _ & [Ht _] & _). congruence. }
        destruct (Hnone t (Some s)) as [e1 ->], (Hnone t None) as [e2 ->], (Hnone t' (Some s)) as [e3 ->], (Hnone t' None) as [e4 ->].
        reflexivity.
      + intros Hf t s s'. unfold decisions_of.
        assert (Hnone : forall t' z, exists e, get_component_variable o st t' (Some z) (co_id c) (v_name v) = Err e).
        { intros t' z. destruct (get_component_variable o st t' (Some z) _ _) as [i|e] eqn:E; [|eauto].
          apply lookup_index in E; auto. destruct E as (_ & _ & _ & [Ht _]). congruence. }
        destruct (Hnone (Some t) s) as [e1 ->], (Hnone None s) as [e2 ->], (Hnone (Some t) s') as [e3 ->], (Hnone None s') as [e4 ->].
        reflexivity.
    - intros c v t s i Hin Hi t' s'. pose proof Hin as (Hc & Hv & Ht & Hs).
      apply filter_In in Hv. destruct Hv as [Hv _]. unfold decisions_of.
      assert (Ht' : forall z s', ix_time (v_structure v) = false -> exists e, get_component_variable o st (Some z) s' (co_id c) (v_name v) = Err e).
      { intros z s1 Hf. destruct (get_component_variable o st (Some z) s1 _ _) as [j|e] eqn:E; [|eauto].
        apply lookup_index in E; auto. destruct E as (_ & _ & [Hx _] & _). congruence. }
      assert (Hs' : forall t' z, ix_scenario (v_structure v) = false -> exists e, get_component_variable o st t' (Some z) (co_id c) (v_name v) = Err e).
      { intros t1 z Hf. destruct (get_component_variable o st t1 (Some z) _ _) as [j|e] eqn:E; [|eauto].
        apply lookup_index in E; auto. destruct E as (_ & _ & _ & [Hx _]). congruence. }
      destruct t as [t|], s as [s|]; cbn [odefault index_of] in *.
      + now rewrite Hi.
      + destruct (Hs' (Some t) s' Hs) as [e ->]. now rewrite Hi.
      + destruct (Ht' t' (Some s) Ht) as [e ->], (Ht' t' None Ht) as [e' ->]. now rewrite Hi.
      + destruct (Ht' t' (Some s') Ht) as [e ->], (Ht' t' None Ht) as [e' ->], (Hs' None s' Hs) as [e2 ->]. now rewrite Hi.
  Qed.
End Correspondence.

(** every timestep and scenario of the block is stood for *)
Lemma instances_cover o c k t s : In c (all_components (o_network o)) ->
  In k (get_constraints (o_selection o) (co_model c)) ->
  (0 <= t < Z.of_nat (List.length (o_block o)))%Z -> (0 <= s < o_scenarios o)%Z ->
  exists t0 s0, In (c, k, t0, s0) (constraint_instances o) /\ stands_for o (c, k, t0, s0) t s.
Proof.
  intros Hc Hk Ht Hs.
  exists (if depends_on (varies_in_time (o_network o)) c k then t else 0%Z),
         (if depends_on (varies_in_scenario (o_network o)) c k then s else 0%Z). split.
  - unfold constraint_instances. apply in_flat_map. exists c. split; [exact Hc|]. apply in_flat_map. exists k.
    split; [exact Hk|]. apply in_map_iff. eexists (_, _). split; [reflexivity|]. apply in_prod.
    + unfold steps. destruct (depends_on _ _ _); [now apply zrange_In|now left].
    + unfold steps. destruct (depends_on (varies_in_scenario _) _ _); [now apply zrange_In|now left].
  - split; intros ->; reflexivity.
Qed.
(** and every constraint has a row at the timesteps and scenarios on which its expression depends *)
Lemma row_cover o c k t s : In c (all_components (o_network o)) -> In k (get_constraints (o_selection o) (co_model c)) ->
  (0 <= t < Z.of_nat (List.length (o_block o)))%Z -> (0 <= s < o_scenarios o)%Z ->
  In (c, k, (if varies_in_time (o_network o) (co_id c) (c_expr k) then t else 0%Z),
            (if varies_in_scenario (o_network o) (co_id c) (c_expr k) then s else 0%Z)) (row_instances o).
Proof.
  intros Hc Hk Ht Hs. unfold row_instances. apply in_flat_map. exists c. split; [exact Hc|]. apply in_flat_map. exists k.
  split; [exact Hk|]. apply in_map_iff. eexists (_, _). split; [reflexivity|]. apply in_prod.
  - unfold steps. destruct (varies_in_time _ _ _); [now apply zrange_In|now left].
  - unfold steps. destruct (varies_in_scenario _ _ _); [now apply zrange_In|now left].
Qed.
Lemma row_stands o c k t s : bounds_follow (o_network o) (co_id c) k ->
  stands_for o (c, k, (if varies_in_time (o_network o) (co_id c) (c_expr k) then t else 0%Z),
                      (if varies_in_scenario (o_network o) (co_id c) (c_expr k) then s else 0%Z)) t s.
Proof.
  intros [Ft Fs]. split; unfold depends_on; intros H.
  - destruct (varies_in_time _ _ (c_expr k)); [reflexivity|]. discriminate (Ft H).
  - destruct (varies_in_scenario _ _ (c_expr k)); [reflexivity|]. discriminate (Fs H).
Qed.
