(** Proofs about the problem that holds the coupling constraints. *)
From Coq Require Import Lia Permutation.
From Verif Require Import Base BaseFacts Expr Visitors LinearExpr Linearize Expansion Model ModelFacts Study Strategy Optim ModelEq Tree Fusion Benders.
From Verif Require Import SpecExpr SpecSyntax SpecVisitors SpecExpansion SpecLinear SpecModel SpecOptim SpecFusion SpecBenders.
From Verif Require Import LinearFacts OptimFacts OptimNames FusionFacts BuiltFacts BendersFacts.
Local Open Scope string_scope.
Local Open Scope list_scope.

(** ** Whole coefficients are never negligible, unless zero *)
Definition whole (d : list term) : Prop := Forall (fun kt => exists z, snd kt = Fin (Z2Qc z)) d.
Lemma small_whole x d : whole d -> SpecLinear.terms_value x (small_terms d) = Some 0%Qc.
Proof.
  intros W. pose proof (small_terms_negligible d) as N.
  assert (W' : whole (small_terms d)).
  { unfold whole, small_terms. apply Forall_forall. intros kt H. apply filter_In in H as [H _]. exact (proj1 (Forall_forall _ _) W kt H). }
  revert N W'. generalize (small_terms d). clear. intros l N W. induction l as [|[k v] l IH]; [reflexivity|].
  inversion_clear N as [|? ? (a & Ea & Ha) N']. inversion_clear W as [|? ? (z & Ez) W']. rewrite LinearFacts.terms_value_cons, (IH N' W'). cbn in Ea, Ez.
  assert (E : Z2Qc z = 0%Qc).
  { rewrite Ea in Ez. assert (a = Z2Qc z) by congruence. subst a. apply Qcabs_lt in Ha as [A B].
    assert (A' : (Z2Qc (-1) < Z2Qc z)%Qc) by (refine (Qclt_trans _ _ _ _ A); reflexivity).
    assert (B' : (Z2Qc z < Z2Qc 1)%Qc) by (refine (Qclt_trans _ _ _ B _); reflexivity).
    apply (proj1 (Z2Qc_lt _ _)) in A'. apply (proj1 (Z2Qc_lt _ _)) in B'. assert (Hz : z = 0%Z) by lia. rewrite Hz. apply Z2Qc_0. }
  rewrite oplus_0_r. unfold SpecLinear.term_value. cbn. rewrite Ez, E. cbn. f_equal. ring.
Qed.
Lemma accumulate_whole d t : whole d -> (exists z, snd t = Fin (Z2Qc z)) -> whole (accumulate d t).
Proof.
  intros W (z & Ez). unfold accumulate. destruct t as [k v]. cbn in *. subst v. destruct (dget tk_eqb k d) as [w|] eqn:G.
  - apply Forall_forall. intros [k' v'] H. cbn.
    revert H G. induction d as [|[j u] d IH]; [discriminate|]. inversion_clear W as [|? ? (zu & Eu) W']. cbn in Eu. subst u. cbn.
    destruct (tk_eqb k j) eqn:Ek.
    + cbn. intros [[= <- <-]|H] [= <-]; [exists (zu + z)%Z; cbn; now rewrite Z2Qc_add|exact (proj1 (Forall_forall _ _) W' _ H)].
    + cbn. intros [[= <- <-]|H] G; [now exists zu|exact (IH W' H G)].
  - apply Forall_app. split; [exact W|]. constructor; [now exists z|constructor].
Qed.
Lemma accumulate_all_whole l : forall d, whole d -> whole l -> whole (fold_left accumulate l d).
Proof.
  induction l as [|t l IH]; intros d W L; [exact W|]. inversion_clear L as [|? ? H L']. cbn. apply IH; [now apply accumulate_whole|exact L'].
Qed.
Lemma accumulate_keys l : forall d k, In k (map fst (fold_left accumulate l d)) -> In k (map fst d) \/ In k (map fst l).
Proof.
  induction l as [|t l IH]; intros d k H; [now left|]. cbn in *. apply IH in H as [H|H]; [|auto].
  unfold accumulate in H. destruct (dget tk_eqb (fst t) d) as [v|] eqn:G.
  - left. rewrite (dset_keys tk_eqb) in H. unfold dmem in H. now rewrite G in H.
  - rewrite map_app, in_app_iff in H. cbn in H. tauto.
Qed.
Lemma linear_keys d k : In k (map fst (le_terms (ld_to_expr d))) -> In k (map fst (ld_terms d)).
Proof.
  intros H. apply in_map_iff in H as (kt & <- & H). apply filter_In in H as [H _].
  destruct (accumulate_keys (ld_terms d) [] (fst kt)) as [[]|H']; [now apply in_map|exact H'].
Qed.
Lemma whole_value x d q : whole (ld_terms d) -> ld_constant d = Fin q ->
  le_value x (ld_to_expr d) = oplus (Some q) (SpecLinear.terms_value x (ld_terms d)).
Proof.
  intros W C. unfold le_value, ld_to_expr, le_of_dict. cbn [le_constant le_terms]. rewrite C. cbn [nval]. f_equal.
  set (a := fold_left accumulate (ld_terms d) []). pose proof (non_zero_value x a) as H.
  rewrite (small_whole x a), oplus_0_r in H by (apply accumulate_all_whole; [constructor|exact W]).
  rewrite <- H. unfold a. rewrite accumulate_fold_value. apply oplus_0_l.
Qed.

(** ** The coupler *)
Lemma coupling_expr_inj q q' : coupling_expr q = coupling_expr q' -> q = q'.
Proof. destruct q as [a b [p|]], q' as [a' b' [p'|]]; cbn; intros [=]; subst; reflexivity. Qed.
Section Coupler.
  Context (net : network) (db : database) (order : list string) (i : coupling_info) (E : equation -> Prop) (c : component).
  Context (Hnet : coupling_network net) (Hc : n_components net = [("coupling", c)]) (Hid : co_id c = "coupling")
    (Hm : coupling_model order i E (co_model c)) (Hi : info_ok i E) (Ho : Permutation order (ci_variables i)).
  Let o := coupler_settings net db.
  Lemma order_nodup : NoDup order.
  Proof. apply (Permutation_NoDup (Permutation_sym Ho)). apply Hi. Qed.
  Lemma order_names n : In n order <-> exists q, E q /\ In n (equation_names q).
  Proof.
    rewrite <- (io_names i E Hi). split; intros H; [exact (Permutation_in _ Ho H)|exact (Permutation_in _ (Permutation_sym Ho) H)].
  Qed.
  Lemma coupler_components : all_components net = [c].
  Proof. unfold all_components. now rewrite (proj1 Hnet), Hc. Qed.
  Lemma coupler_distinct : distinct_ids (o_network o).
  Proof. unfold distinct_ids. change (o_network o) with net. rewrite coupler_components. cbn. repeat constructor; auto. Qed.
  Lemma coupler_named : named_network (o_network o).
  Proof.
    intros c' H. change (o_network o) with net in H. rewrite coupler_components in H. destruct H as [<-|[]].
    destruct Hm as [V (cs & F & C) (B & P & Po & D & _ & _)].
    unfold named_model, named_dict. rewrite V, C, B, P, Po, D.
    repeat match goal with |- _ /\ _ => split end; cbn; try (now constructor); try (intros ? ? []).
    - rewrite map_map. change (NoDup (map c_name cs)). rewrite (rows_names _ _ _ F). apply Hi.
    - intros k a H. apply in_map_iff in H as (x & [= <- <-] & _). reflexivity.
    - rewrite map_map. cbn. rewrite map_id. exact order_nodup.
    - intros k a H. apply in_map_iff in H as (x & [= <- <-] & _). reflexivity.
  Qed.

  Lemma coupler_insts : var_insts o = map (fun n => ((c, cvar n), (None, None))) order.
  Proof.
    unfold var_insts, var_pairs. change (o_network o) with net. change (o_selection o) with InvestmentProblem. rewrite coupler_components.
    cbn [flat_map]. rewrite app_nil_r. unfold get_variables. rewrite (cm_variables _ _ _ _ Hm), map_map. cbn [snd].
    clear. generalize order. intros l. induction l as [|n l IH]; [reflexivity|]. cbn. f_equal. exact IH.
  Qed.
  Lemma coupler_inst_name n : inst_name o ((c, cvar n), (None, None)) = n.
  Proof. unfold inst_name, solver_variable_name, name_prefix. cbn. now rewrite append_nil_r. Qed.
  Lemma coupler_inst_names : map (inst_name o) (var_insts o) = order.
  Proof. rewrite coupler_insts, map_map. etransitivity; [|apply map_id]. apply map_ext. intros n. apply coupler_inst_name. Qed.
  Lemma coupler_names_nodup : NoDup (map (inst_name o) (var_insts o)).
  Proof. rewrite coupler_inst_names. exact order_nodup. Qed.
  Lemma coupler_structure n : In n order -> component_structure o m_variables v_structure "coupling" n = Ok no_index.
  Proof.
    intros H. unfold component_structure, get_component. change (o_network o) with net. rewrite Hc. cbn [dget].
    rewrite String.eqb_refl. cbn [bind]. rewrite (cm_variables _ _ _ _ Hm).
    rewrite (In_dget_nodup String.eqb String.eqb_eq) with (v := cvar n); [reflexivity| |].
    - rewrite map_map. cbn. rewrite map_id. exact order_nodup.
    - apply in_map_iff. eauto.
  Qed.
  (** ** Its rows *)
  Definition icrow (k : string) (q : equation) : constraint :=
    {| c_name := "coupling_" ++ k;
       c_expr := Add [CVar "coupling" (eq_child q); Neg (CVar "coupling" (eq_increment q));
                      Neg (match eq_parent q with Some p => CVar "coupling" p | None => Lit n0 end)];
       c_lower := Lit n0; c_upper := Lit n0; c_context := OPERATIONAL |}.
  Lemma coupler_instantiated st k q : instantiate_constraint st "coupling" (crow k q) = Ok (icrow k q).
  Proof. unfold instantiate_constraint, instantiate, crow, icrow, parent_expr. destruct q as [a b [p|]]; reflexivity. Qed.
  Definition iexpanded (q : equation) : expr :=
    let v n := PVar "coupling" n NoTimeIndex NoScenarioIndex in
    Add [v (eq_child q); Neg (v (eq_increment q)); Neg (match eq_parent q with Some p => v p | None => Lit n0 end)].
  Lemma coupler_expanded k q : E q -> context_expand o (c_expr (icrow k q)) = Ok (iexpanded q).
  Proof.
    intros Hq. assert (S : forall n, In n (equation_names q) -> component_structure o m_variables v_structure "coupling" n = Ok no_index).
    { intros n Hn. apply coupler_structure. apply order_names. eauto. }
    unfold context_expand, expand_operators. unfold icrow, iexpanded. destruct q as [a b [p|]]; cbn in *;
      rewrite ?(S a), ?(S b), ?(S p) by auto; reflexivity.
  Qed.
  Lemma coupler_indexing k q : E q -> constraint_indexing o (icrow k q) = Ok no_index.
  Proof.
    intros Hq. assert (S : forall n, In n (equation_names q) -> component_structure o m_variables v_structure "coupling" n = Ok no_index).
    { intros n Hn. apply coupler_structure. apply order_names. eauto. }
    unfold constraint_indexing, context_indexing. unfold icrow. destruct q as [a b [p|]]; cbn in *;
      rewrite ?(S a), ?(S b), ?(S p) by auto; reflexivity.
  Qed.
  Definition ckey (n : string) : term_key := {| tk_component := "coupling"; tk_variable := n; tk_time := None; tk_scenario := None |}.
  Definition idata (q : equation) : lin_data :=
    {| ld_terms := [(ckey (eq_child q), n1); (ckey (eq_increment q), nneg n1)] ++
         match eq_parent q with Some p => [(ckey p, nneg n1)] | None => [] end;
       ld_constant := Fin (Z2Qc 0) |}.
  Lemma coupler_linear q t s : exists e, context_linearize o (iexpanded q) t s = Ok e /\ le_constant e = Fin (Z2Qc 0) /\
    (forall k, In k (map fst (le_terms e)) -> exists n, In n (equation_names q) /\ k = ckey n) /\
    forall x, le_value x e = Some (x (ckey (eq_child q)) - x (ckey (eq_increment q)) -
                               match eq_parent q with Some p => x (ckey p) | None => 0 end)%Qc.
  Proof.
    unfold context_linearize, linearize_expression.
    assert (B : forall vp, exists d, lin_build t s vp (iexpanded q) = Ok d /\ ld_terms d = ld_terms (idata q) /\ ld_constant d = Fin (Z2Qc 0)).
    { intros vp. unfold iexpanded, idata. destruct q as [a b [p|]]; eexists; (split; [reflexivity|]); (split; [reflexivity|]);
        cbn; f_equal; apply Qc_is_canon; reflexivity. }
    match goal with |- context [lin_build t s ?vp] => destruct (B vp) as (d & -> & Dt & Dc) end. cbn [bind].
    exists (ld_to_expr d). split; [reflexivity|]. split; [exact Dc|]. split.
    - intros k Hk. apply linear_keys in Hk. rewrite Dt in Hk. unfold idata in Hk. destruct q as [a b [p|]]; cbn in *;
        repeat match goal with H : _ \/ _ |- _ => destruct H as [<-|H] end; try (now destruct Hk); eexists; (split; [|reflexivity]); auto.
    - intros x. rewrite (whole_value x d (Z2Qc 0)); [|rewrite Dt|exact Dc].
      + rewrite Dt. unfold idata. destruct q as [a b [p|]]; cbn; f_equal; rewrite Z2Qc_0; ring.
      + unfold idata. assert (H1 : exists z, n1 = Fin (Z2Qc z)) by (exists 1%Z; cbn; now rewrite Z2Qc_1).
        assert (H2 : exists z, nneg n1 = Fin (Z2Qc z)) by (exists (-1)%Z; cbn; f_equal; apply Qc_is_canon; reflexivity).
        destruct q as [a b [p|]]; repeat constructor; auto.
  Qed.
  Lemma coupler_row_pairs : exists cs, rows_of i E cs /\ row_pairs o = map (pair c) cs.
  Proof.
    destruct (cm_constraints _ _ _ _ Hm) as (cs & F & C). exists cs. split; [exact F|]. unfold row_pairs.
    change (o_network o) with net. change (o_selection o) with InvestmentProblem. rewrite coupler_components. cbn [flat_map].
    rewrite app_nil_r. f_equal. unfold get_constraints, get_all_constraints. rewrite C.
    rewrite (proj1 (cm_rest _ _ _ _ Hm)). cbn [map app]. rewrite map_map. cbn [snd]. rewrite map_id. clear - F.
    unfold rows_of in F. induction F as [|ke d l m (q & _ & _ & ->) F IH]; [reflexivity|]. cbn. f_equal. exact IH.
  Qed.
  (** what a built coupler is *)
  Lemma coupler_vars st : build_problem o = Ok st ->
    s_vars (st_solver st) = map (fun n => {| sv_name := n; sv_lb := n0; sv_ub := PInf; sv_integer := false |}) order.
  Proof.
    intros H. destruct (built_variables o st coupler_distinct coupler_named H) as (ports & _ & _ & _ & F).
    rewrite coupler_insts in F. revert F. generalize (s_vars (st_solver st)). clear. intros vs F. revert vs F.
    induction order as [|n l IH]; intros vs F; inversion F as [|? v ? vs' M F']; subst; [reflexivity|]. destruct M as (lower & upper & L & U & _ & Ev). subst v.
    cbn [map]. f_equal; [|now apply IH]. cbn in L, U. destruct L as (e' & Le & Lv). subst upper.
    cbn in Le. injection Le as <-. cbn in Lv. injection Lv as <-. cbn [v_type cvar new_solver_var]. now rewrite coupler_inst_name.
  Qed.
  Lemma coupler_sound st : build_problem o = Ok st -> sound_solver (st_solver st) /\ sound_columns st.
  Proof.
    intros H. split.
    - exact (built_sound o st coupler_distinct coupler_named coupler_names_nodup H).
    - exact (built_columns o st coupler_distinct coupler_named coupler_names_nodup H).
  Qed.
  Lemma coupler_objective st : build_problem o = Ok st -> s_objective (st_solver st) = [] /\ s_offset (st_solver st) = n0.
  Proof.
    intros H. apply build_steps in H as (ports & st1 & st2 & _ & Hp & H1 & H2 & H3).
    destruct (created_state o (set_ports initial_state ports) st1 coupler_distinct coupler_named eq_refl eq_refl H1) as (_ & _ & _ & _ & Oe & Of).
    destruct (create_constraints_spec _ _ _ H2) as (rss & _ & ->).
    unfold create_objectives in H3. change (o_network o) with net in H3. rewrite coupler_components in H3. cbn [foldM] in H3.
    unfold get_objectives in H3. change (o_selection o) with InvestmentProblem in H3.
    destruct (cm_rest _ _ _ _ Hm) as (_ & _ & _ & _ & _ & Mi). rewrite Mi in H3. cbn in H3. injection H3 as <-. cbn. auto.
  Qed.
  Lemma coupler_rows st y : build_problem o = Ok st -> (rows_hold y (st_solver st) <-> forall q, E q -> equation_holds y q).
  Proof.
    intros H. pose proof (coupler_vars st H) as V.
    destruct (built_rows o st coupler_distinct coupler_named H) as (st1 & rss & _ & _ & Ev & Es & Evars & F & R).
    destruct coupler_row_pairs as (cs & Rc & Ec). rewrite Ec in F.
    set (x := fun k : term_key => y (tk_variable k)).
    assert (Hreads : reads o st1 (by_name (st_solver st) y) x).
    { intros k j Hj. unfold get_solver_var in Hj. apply lookup_iff in Hj; [|split; [discriminate|reflexivity]|exact coupler_distinct|exact coupler_named|exact Es].
      rewrite coupler_insts, map_map in Hj. cbn in Hj. unfold by_name. rewrite V. rewrite nth_error_map in *.
      destruct (nth_error order j) as [n|]; [|discriminate Hj]. cbn in *. unfold x. f_equal. congruence. }
    assert (Hrow : forall cc rows, block_rows o st1 (c, cc) rows -> forall k q, E q -> cc = crow k q ->
              exists r, rows = [r] /\ (row_sat (by_name (st_solver st) y) r <-> equation_holds y q)).
    { intros cc rows (ic & Hic & Hcc) k q Hq ->. cbn [fst snd] in Hic. rewrite Hid, coupler_instantiated in Hic. injection Hic as <-.
      unfold create_constraint in Hcc. rewrite (coupler_expanded k q Hq), (coupler_indexing k q Hq) in Hcc. cbn [bind] in Hcc.
      change (list_prod (get_time_indices o no_index) (get_scenario_indices o no_index)) with [(0%Z, 0%Z)] in Hcc. cbn [mapM fst snd] in Hcc.
      inv_bind Hcc. injection Hcc as <-. eexists. split; [reflexivity|].
      match goal with B : bind (create_row _ _ _ _ _ _) _ = _ |- _ => idtac | B : create_row _ _ _ _ _ _ = Ok _ |- _ => rename B into Hr end.
      unfold create_row in Hr. destruct (coupler_linear q (Some 0%Z) (Some 0%Z)) as (e & El & Eq & _ & Ex). rewrite El in Hr. cbn [bind] in Hr.
      inv_bind Hr. inv_bind Hr.
      match goal with A : compute_expression_value o (c_lower _) _ _ = Ok ?a, B : compute_expression_value o (c_upper _) _ _ = Ok ?b |- _ =>
        cbn in A, B; injection A as <-; injection B as <- end.
      rewrite (make_constraint_sat _ _ _ _ _ _ _ _ _ _ Hr Eq _ x Hreads), Ex. unfold equation_holds, x. cbn [ckey tk_variable]. split.
      - intros (w & [= <-] & A & B). cbn in A, B. destruct (eq_parent q); qclra.
      - intros A. eexists. split; [reflexivity|]. cbn. destruct (eq_parent q); split; qclra. }
    unfold rows_hold. rewrite R. clear R.
    assert (G : (forall r, In r (concat rss) -> row_sat (by_name (st_solver st) y) r) <->
      (forall k e q, In (k, e) (ci_constraints i) -> E q -> e = coupling_expr q -> equation_holds y q)).
    { clear - Rc F Hrow. unfold rows_of in Rc. revert rss F. induction Rc as [|[k e] d l m (q & Hq & He & ->) Rc IH]; intros rss F;
        inversion F as [|? rows ? rss' B F']; subst.
      - split; [intros _ ? ? ? []|intros _ ? []].
      - cbn [fst snd] in *. destruct (Hrow _ _ B k q Hq eq_refl) as (r & -> & Hr). specialize (IH _ F'). split.
        + intros A k' e' q' [[= <- <-]|Hin] Hq' He'.
          * assert (Eq : q' = q) by (apply coupling_expr_inj; congruence). subst q'. apply Hr. apply A. now left.
          * apply (proj1 IH) with (k := k') (e := e'); auto. intros r' Hr'. apply A. now right.
        + intros A r' [<-|Hin]; [apply Hr; apply (A k e q); auto; now left|]. apply (proj2 IH); [|exact Hin].
          intros k' e' q' Hin'. apply A with (k := k'). now right. }
    rewrite G. split.
    - intros A q Hq. destruct (io_complete i E Hi q Hq) as (k & Hk). exact (A k _ q Hk Hq eq_refl).
    - intros A k e q _ Hq _. exact (A q Hq).
  Qed.
End Coupler.
(** ** The coupler is always built *)
Lemma foldM_total {A B} (g : B -> A -> result B) l : (forall b a, In a l -> exists b', g b a = Ok b') -> forall b, exists b', foldM g b l = Ok b'.
Proof.
  induction l as [|a l IH]; intros H b; cbn; [eauto|]. destruct (H b a (or_introl eq_refl)) as (b' & ->). cbn. apply IH.
  intros b0 a0 H0. apply H. now right.
Qed.
Lemma coupler_built net db order i E c : coupling_network net -> n_components net = [("coupling", c)] -> co_id c = "coupling" ->
  coupling_model order i E (co_model c) -> info_ok i E -> Permutation order (ci_variables i) ->
  exists st, build_problem (coupler_settings net db) = Ok st.
Proof.
  intros Hnet Hc Hid Hm Hi Ho. set (o := coupler_settings net db).
  pose proof (coupler_components _ _ Hnet Hc) as Hcs.
  destruct (cm_rest _ _ _ _ Hm) as (Mb & Mp & _ & _ & _ & Mi).
  unfold build_problem.
  assert (R : requirements_consistency (o_database o) (o_network o) = Ok tt).
  { unfold requirements_consistency. change (o_network o) with net. rewrite Hc. cbn [mapM snd]. unfold check_component_data. rewrite Mp. reflexivity. }
  rewrite R. cbn [bind]. unfold optimization_problem.
  assert (P : register_connections o = Ok []).
  { unfold register_connections. change (o_network o) with net. now rewrite (proj1 (proj2 Hnet)). }
  rewrite P. cbn [bind].
  assert (V : exists st1, create_variables o (set_ports initial_state []) = Ok st1).
  { unfold create_variables. change (o_network o) with net. rewrite Hcs. apply foldM_total. intros st0 c0 [<-|[]].
    change (o_selection o) with InvestmentProblem. apply foldM_total. intros st1 v Hv. unfold get_variables in Hv. apply filter_In in Hv as [Hv _].
    rewrite (cm_variables _ _ _ _ Hm), map_map in Hv. apply in_map_iff in Hv as (n & <- & _). unfold create_variable. cbn. eauto. }
  destruct V as (st1 & V). rewrite V. cbn [bind].
  destruct (created_state o (set_ports initial_state []) st1 (coupler_distinct _ db _ Hnet Hc) (coupler_named _ db _ _ _ _ Hnet Hc Hm Hi Ho) eq_refl eq_refl V) as (Sv & _ & Sp & _).
  assert (C : exists st2, create_constraints o st1 = Ok st2).
  { unfold create_constraints. change (o_network o) with net. rewrite Hcs.
    cbn [foldM]. change (o_selection o) with InvestmentProblem.
    assert (G : forall l, incl l (get_constraints InvestmentProblem (co_model c)) -> forall st0, st_variables st0 = st_variables st1 ->
      exists st2, foldM (create_component_constraint o (co_id c)) st0 l = Ok st2).
    { induction l as [|k l IH]; intros Hl st0 H0; cbn [foldM]; [eauto|].
      assert (Hk : exists k0 q, E q /\ k = crow k0 q).
      { assert (Hk : In k (get_constraints InvestmentProblem (co_model c))) by (apply Hl; now left).
        unfold get_constraints, get_all_constraints in Hk. apply filter_In in Hk as [Hk _]. rewrite Mb in Hk. cbn in Hk.
        destruct (cm_constraints _ _ _ _ Hm) as (cs & F & Ec). rewrite Ec, map_map in Hk. cbn in Hk. rewrite map_id in Hk. clear - F Hk.
        unfold rows_of in F. induction F as [|ke d l m (q & Hq & _ & ->) F IH]; [destruct Hk|]. destruct Hk as [<-|Hk]; eauto. }
      destruct Hk as (k0 & q & Hq & ->). unfold create_component_constraint at 1. rewrite Hid, coupler_instantiated. cbn [bind].
      unfold create_constraint. pose proof (coupler_expanded _ db _ _ _ _ Hc Hm Hi Ho k0 q Hq) as X1. pose proof (coupler_indexing _ db _ _ _ _ Hc Hm Hi Ho k0 q Hq) as X2. fold o in X1, X2. rewrite X1, X2.
      cbn [bind]. change (list_prod (get_time_indices o no_index) (get_scenario_indices o no_index)) with [(0%Z, 0%Z)]. cbn [mapM fst snd].
      unfold create_row. destruct (coupler_linear net db q (Some 0%Z) (Some 0%Z)) as (e & El & _ & Ek & _). fold o in El. rewrite El. cbn [bind].
      change (compute_expression_value o (c_lower (icrow k0 q)) (Some 0%Z) (Some 0%Z)) with (Ok n0).
      change (compute_expression_value o (c_upper (icrow k0 q)) (Some 0%Z) (Some 0%Z)) with (Ok n0). cbn [bind].
      assert (M : exists row, make_constraint o st0 0 0 (c_name (icrow k0 q)) n0 n0 e = Ok row).
      { apply make_constraint_ok. apply Forall_forall. intros kt Hkt. destruct (Ek (fst kt)) as (n & Hn & ->); [now apply in_map|].
        assert (Hin : In n order) by (apply (order_names _ _ _ Hi Ho); eauto). apply In_nth_error in Hin as (j & Hj). exists j.
        unfold get_solver_var. apply lookup_iff; [split; [discriminate|reflexivity]|exact (coupler_distinct _ db _ Hnet Hc)|exact (coupler_named _ db _ _ _ _ Hnet Hc Hm Hi Ho)|rewrite H0; exact Sv|].
        unfold o. rewrite (coupler_insts _ db _ _ _ _ Hnet Hc Hm), map_map, nth_error_map, Hj. cbn. now rewrite Hid. }
      destruct M as (row & ->). cbn [bind]. rewrite Hid in IH. apply IH; [intros x Hx; apply Hl; now right|exact H0]. }
    destruct (G _ (incl_refl _) st1 eq_refl) as (st2 & ->). cbn [bind]. eauto. }
  destruct C as (st2 & ->). cbn [bind]. unfold create_objectives. change (o_network o) with net. rewrite Hcs. cbn [foldM].
  change (o_selection o) with InvestmentProblem. unfold get_objectives. rewrite Mi. cbn. eauto.
Qed.
