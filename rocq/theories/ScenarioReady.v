(** The problems of the scenarios can be built when the whole problem is ready (C80, C87). *)
From Coq Require Import Lia.
From Verif Require Import Base BaseFacts Expr Visitors LinearExpr Linearize Expansion Model Study Strategy Optim Tree
  SpecExpr SpecSyntax SpecVisitors SpecExpansion SpecLinear SpecModel SpecOptim SpecReady SpecFusion
  ExprFacts CopyFacts VisitorFacts DegreeFacts ExpansionFacts LinearFacts ModelFacts OptimFacts OptimMeaning OptimProblem ReadyFacts OptimReady
  SpecDecompose DecomposeFacts SpecOrder OrderFacts OrderProblem OrderFiles SpecParts PartsFacts SpecScenarios ScenarioFacts ScenarioCost SpecPrecise SpecSeparate PreciseFacts ScenarioExact.

(** ** Data of one scenario *)
Definition read_back (s : Z) (sc : option Z) : option Z := match sc with Some 0%Z => Some s | _ => None end.
Lemma other_scenario s sc z : z <> 0%Z -> data_scenario (scenarization_of s sc) z = Err KeyError.
Proof.
  intros Hz. unfold scenarization_of. cbn [data_scenario]. unfold get_scenario_for_year. destruct (data_scenario sc s); cbn [dget]; [|reflexivity].
  destruct (Z.eqb_spec z 0); [contradiction|reflexivity].
Qed.
Lemma data_of_any s d t sc node : get_value (data_of s d) t sc node = get_value d t (read_back s sc) node.
Proof.
  destruct sc as [z|]; [|apply data_of_value]. destruct (Z.eq_dec z 0) as [->|Hz]; [apply data_of_value|].
  replace (read_back s (Some z)) with (@None Z) by (destruct z; [contradiction|reflexivity..]).
  revert node. induction d using data_ind'; intros node; cbn [data_of get_value]; auto.
  - now rewrite other_scenario.
  - destruct t; [|reflexivity]. now rewrite other_scenario.
  - induction H as [|[k d] l Hd _ IH]; cbn [map fst snd]; [auto|]. destruct (String.eqb node k); [apply Hd|exact IH].
Qed.
Lemma data_of_suits s db c p : has_suitable_data db c p -> has_suitable_data (map (fun kd => (fst kd, data_of s (snd kd))) db) c p.
Proof.
  assert (E : forall c n db, dget pfi_eqb (c, n) (map (fun kd => (fst kd, data_of s (snd kd))) db) = option_map (data_of s) (dget pfi_eqb (c, n) db)).
  { intros c0 n0 db0. induction db0 as [|[k d] db0 IH]; [reflexivity|]. cbn [map fst snd dget]. destruct (pfi_eqb (c0, n0) k); [reflexivity|exact IH]. }
  intros (d & H1 & H2 & H3). exists (data_of s d). unfold get_data in *. rewrite E. destruct (dget pfi_eqb (c, p_name p) db) as [d0|]; [|discriminate]. cbn in H1 |- *. injection H1 as ->. split; [reflexivity|].
  split.
  - intros Hi t t' sc node. rewrite !data_of_any. now apply H2.
  - intros Hi t sc sc' node. rewrite !data_of_any. now apply H3.
Qed.
Lemma data_of_get s db c n d1 : get_data (map (fun kd => (fst kd, data_of s (snd kd))) db) c n = Ok d1 -> exists d, get_data db c n = Ok d /\ d1 = data_of s d.
Proof.
  assert (E : forall c n db, dget pfi_eqb (c, n) (map (fun kd => (fst kd, data_of s (snd kd))) db) = option_map (data_of s) (dget pfi_eqb (c, n) db)).
  { intros c0 n0 db0. induction db0 as [|[k d] db0 IH]; [reflexivity|]. cbn [map fst snd dget]. destruct (pfi_eqb (c0, n0) k); [reflexivity|exact IH]. }
  unfold get_data. rewrite E. destruct (dget pfi_eqb (c, n) db) as [d|]; cbn; [|discriminate]. intros [= <-]. eauto.
Qed.
Lemma data_of_found s db c n d : get_data db c n = Ok d -> get_data (map (fun kd => (fst kd, data_of s (snd kd))) db) c n = Ok (data_of s d).
Proof.
  assert (E : forall c n db, dget pfi_eqb (c, n) (map (fun kd => (fst kd, data_of s (snd kd))) db) = option_map (data_of s) (dget pfi_eqb (c, n) db)).
  { intros c0 n0 db0. induction db0 as [|[k d0] db0 IH]; [reflexivity|]. cbn [map fst snd dget]. destruct (pfi_eqb (c0, n0) k); [reflexivity|exact IH]. }
  unfold get_data. rewrite E. destruct (dget pfi_eqb (c, n) db); [|discriminate]. intros [= <-]. reflexivity.
Qed.
Lemma data_of_fits s d ix : fits d ix -> fits (data_of s d) ix.
Proof.
  assert (E1 : given_per_time (data_of s d) = given_per_time d).
  { induction d using data_ind'; cbn [data_of given_per_time]; auto. induction H as [|[k d] l Hd _ IH]; [reflexivity|]. cbn [map existsb fst snd] in *. rewrite Hd. exact (f_equal (orb _) IH). }
  assert (E2 : given_per_scenario (data_of s d) = given_per_scenario d).
  { clear E1. induction d using data_ind'; cbn [data_of given_per_scenario]; auto. induction H as [|[k d] l Hd _ IH]; [reflexivity|]. cbn [map existsb fst snd] in *. rewrite Hd. exact (f_equal (orb _) IH). }
  unfold fits. now rewrite E1, E2.
Qed.
Lemma settings_of_good s o : good_problem o -> good_problem (settings_of s o).
Proof.
  intros (H1 & H2 & H3 & H4 & H5 & H6 & H7 & H8 & H9). split; [exact H1|]. split; [cbn; lia|]. split; [exact H3|]. split; [exact H4|]. split; [exact H5|]. split; [exact H6|]. split; [exact H7|]. split.
  - intros c n d1 t sc v Hd Hv. cbn [settings_of o_database o_tree_node] in *. apply data_of_get in Hd. destruct Hd as (d & Hd & ->). rewrite data_of_any in Hv. exact (H8 _ _ _ _ _ _ Hd Hv).
  - intros c p Hc Hp. cbn [settings_of o_database o_network] in *. apply data_of_suits. now apply H9.
Qed.

(** ** Values that do not depend on the scenario *)
Lemma formula_steady (E : env) sp ports e t z z' :
  (forall n, may_vary ix_scenario (get_parameter_structure sp n) = false -> e_par E n t z = e_par E n t z') ->
  all_leaves (fun x => match x with PortField p f | PortAgg (PortField p f) _ => ports p f = false -> Forall (fun v => v t z = v t z') (e_port E p f) | _ => True end) e ->
  all_nodes formula_node e -> varies ix_scenario false true sp ports e = false -> den E e t z = den E e t z'.
Proof.
  intros HP. assert (HA : forall p f, Forall (fun v => v t z = v t z') (e_port E p f) -> osum (map (fun v => v t z) (e_port E p f)) = osum (map (fun v => v t z') (e_port E p f))).
  { intros p f HF. induction HF as [|v l Hv _ IH]; [reflexivity|]. cbn [map osum]. now rewrite Hv, IH. }
  induction e using expr_ind'; intros HL HN HV; try (apply all_nodes_root in HN; contradiction); cbn [varies negb andb] in HV; cbn [den].
  - reflexivity.
  - cbn in HN, HL. now rewrite IHe by tauto.
  - apply all_nodes_Add in HN. destruct HN as [_ HN]. cbn [all_leaves] in HL. f_equal. clear HA HP. induction H as [|a l Ha _ IH]; [reflexivity|]. inversion HN; subst. cbn [map existsb fold_right] in *. apply orb_false_elim in HV. destruct HV, HL. now rewrite Ha, IH.
  - cbn in HN, HL. apply orb_false_elim in HV. now rewrite IHe1, IHe2 by tauto.
  - cbn in HN, HL. apply orb_false_elim in HV. now rewrite IHe1, IHe2 by tauto.
  - now apply HP.
  - cbn in HL. specialize (HL HV). inversion HL as [|v l Hv Hl]; [reflexivity|]. inversion Hl; [exact Hv|reflexivity].
  - destruct e; try reflexivity. destruct a; try reflexivity. apply HA. cbn in HL. now apply HL.
Qed.
Section Ready.
  Context (o : settings) (s : Z) (ports : dict port_field_key (list expr)).
  Hypothesis (Hgood : good_problem o) (Hready : ready_problem o) (Hs : (0 <= s < o_scenarios o)%Z) (HP : register_connections o = Ok ports).
  Let o1 := settings_of s o.
  Let HO : one_scenario s o o1 := settings_of_one s o.
  Let Hreq : requirements_consistency (o_database o) (o_network o) = Ok tt := ready_requirements o Hgood Hready.
  Lemma known_suitable k p : In k (all_components (o_network o)) -> In p (map snd (m_parameters (co_model k))) -> has_suitable_data (o_database o) (co_id k) p.
  Proof.
    intros Hin Hp. pose proof Hgood as (_ & _ & _ & _ & _ & Hm & _ & _ & Hnd).
    unfold all_components in Hin. apply in_app_or in Hin. destruct Hin as [Hin|Hin]; [now apply Hnd|]. eapply requirements_ok; eauto. intros c' Hc'. apply (Hm c'). apply in_or_app. now right.
  Qed.
  Lemma parameter_steady id n t z z' : may_vary ix_scenario (get_parameter_structure (local_structure (o_network o) id) n) = false -> data_at o id n t z = data_at o id n t z'.
  Proof.
    intros HV. unfold local_structure in HV. destruct (get_component (o_network o) id) as [k|] eqn:E; [|discriminate]. cbn [model_structure_provider get_variable_structure get_parameter_structure] in HV. unfold may_vary, dict_structure in HV.
    destruct (dget String.eqb n (m_parameters (co_model k))) as [p|] eqn:Ep; [|discriminate]. cbn in HV.
    destruct (get_component_known _ _ _ (ob_built o Hgood) E) as [Hin <-]. apply (dget_In String.eqb String.eqb_eq) in Ep.
    destruct (ob_named o Hgood k Hin) as (_ & _ & [_ Hnp] & _). pose proof (Hnp _ _ Ep) as En. subst n.
    apply (data_at_suitable o (co_id k) p); [|exact HV]. apply known_suitable; [exact Hin|]. apply in_map_iff. eexists; split; [|exact Ep]; reflexivity.
  Qed.
  Lemma plain_steady x id e t z z' : plain_formula o id e -> varies ix_scenario false true (local_structure (o_network o) id) (fun _ _ => false) e = false ->
    den (local_env (world o x) id) e t z = den (local_env (world o x) id) e t z'.
  Proof.
    intros [HN HL] HV. eapply formula_steady; [| |exact HN|exact HV].
    - intros n Hn. now apply parameter_steady.
    - revert HL. apply all_leaves_imp. intros y. destruct y; try contradiction; auto.
  Qed.
  Lemma bound_steady x id e t z z' : formula o id e -> varies_in_scenario (o_network o) id e = false ->
    den (component_world o x id) e t z = den (component_world o x id) e t z'.
  Proof.
    intros [HN HL] HV. unfold varies_in_scenario, varies_in in HV. eapply formula_steady; [| |exact HN|exact HV].
    - intros n Hn. now apply parameter_steady.
    - assert (G : forall p f, Forall (fun d => plain_formula o (fst d) (snd d)) (connected (o_network o) id p f) ->
        existsb (fun d => varies ix_scenario false true (local_structure (o_network o) (fst d)) (fun _ _ => false) (snd d)) (connected (o_network o) id p f) = false ->
        Forall (fun v => v t z = v t z') (e_port (component_world o x id) p f)).
      { intros p f HF HE. cbn [component_world e_port]. induction HF as [|d l Hd _ IH]; [constructor|]. cbn [existsb map] in *. apply orb_false_elim in HE. destruct HE. constructor; [now apply plain_steady|auto]. }
      revert HL. apply all_leaves_imp. intros y. destruct y as [| | | | | | | | | | | | | | | | |p f|a g]; cbn [formula_leaf]; auto.
      + intros (d & Ed & Hd). apply G. rewrite Ed. now constructor.
      + destruct a; auto. destruct g; [|contradiction]. apply G.
  Qed.
  Lemma argument_steady x id k t z z' : all_nodes (fun x => match x with
    | Lit (Fin _) | Neg _ | Mul _ _ | Div _ _ => True
    | Add l => l <> []
    | Param n => has_parameter is_constant_structure o id n
    | _ => False end) k -> den (component_world o x id) k t z = den (component_world o x id) k t z'.
  Proof.
    induction k using expr_ind'; intros HN; try (apply all_nodes_root in HN; contradiction); cbn [den].
    - reflexivity.
    - cbn in HN. now rewrite IHk by tauto.
    - apply all_nodes_Add in HN. destruct HN as [_ HN]. f_equal. induction H as [|a l Ha _ IH]; [reflexivity|]. inversion HN; subst. cbn [map] in *. now rewrite Ha, IH.
    - cbn in HN. now rewrite IHk1, IHk2 by tauto.
    - cbn in HN. now rewrite IHk1, IHk2 by tauto.
    - apply all_nodes_root in HN. destruct HN as (c & p & Hc & <- & Hp & <- & _ & Hsc). cbn [component_world e_par]. apply (data_at_suitable o (co_id c) p); [now apply known_suitable|exact Hsc].
  Qed.
  Lemma argument_one id k : constant_argument o id k -> constant_argument o1 id k.
  Proof.
    intros [HN (x & t & z & q & Hq)]. split; [exact HN|]. exists (seen_in s x), t, 0%Z, q.
    rewrite (value_in s o o1 HO x ports Hgood HP).
    - rewrite <- Hq. now apply argument_steady.
    - revert HN. unfold by_scenario. apply all_nodes_imp. intros y. destruct y; tauto.
  Qed.
  Lemma node_one id y : ready_node o id y -> ready_node o1 id y.
  Proof.
    destruct y; cbn [ready_node]; auto.
    - apply argument_one.
    - intros (H1 & H2 & H3). auto using argument_one.
    - intros (H1 & H2). auto using argument_one.
  Qed.
  Lemma definition_one d : ready_definition o d -> ready_definition o1 d.
  Proof. intros (H1 & H2 & H3). split; [|split; [exact H2|exact H3]]. revert H1. apply all_nodes_imp. intros y. apply node_one. Qed.
  Lemma formula_by_scenario id e : formula o id e -> by_scenario e.
  Proof. intros [HN _]. revert HN. unfold by_scenario. apply all_nodes_imp. intros y. destruct y; tauto. Qed.
  Lemma reads_one id default b t sc v w : ready_variable_bound o id v b -> index_of (ix_scenario (v_structure v)) 1 sc ->
    bound_reads o id default b t (read_in s sc) w -> bound_reads o1 id default b t sc w.
  Proof.
    intros HB HI. destruct b as [e|]; [|auto]. cbn [bound_reads].
    assert (G : (forall u, e <> Lit u) -> forall q x, den (component_world o x id) e (odefault 0%Z t) (odefault 0%Z (read_in s sc)) = Some q ->
      den (component_world o1 (seen_in s x) id) e (odefault 0%Z t) (odefault 0%Z sc) = Some q).
    { intros HL q x Hq. destruct (HB e eq_refl) as [(u & Eu & _)|(_ & HF & _ & HV)]; [now apply HL in Eu|].
      assert (E0 : odefault 0%Z sc = 0%Z) by (destruct sc as [z|]; [cbn in HI |- *; lia|reflexivity]). rewrite E0.
      rewrite (value_in s o o1 HO x ports Hgood HP) by (eapply formula_by_scenario; eauto). rewrite <- Hq. destruct sc as [z|]; [reflexivity|].
      cbn. apply bound_steady; [exact HF|]. destruct (varies_in_scenario (o_network o) id e); [|reflexivity]. cbn in HI. rewrite (HV eq_refl) in HI. discriminate. }
    destruct e; try auto; intros (q & x & -> & Hq); exists q, (seen_in s x); (split; [reflexivity|]); (apply G; [discriminate|exact Hq]).
  Qed.
  Lemma variable_one c v : ready_variable o c v -> ready_variable o1 c v.
  Proof.
    intros (H1 & H2 & H3). split; [exact H1|]. split; [exact H2|]. intros t sc (Hc & Hv & Ht & Hsc).
    destruct (H3 t (read_in s sc)) as (lo & hi & G1 & G2 & G3).
    - split; [exact Hc|]. split; [exact Hv|]. split; [exact Ht|]. destruct sc as [z|]; cbn in *; [split; [tauto|lia]|exact Hsc].
    - exists lo, hi. split; [eapply reads_one; eauto|]. split; [eapply reads_one; eauto|exact G3].
  Qed.
  Lemma values_one id e : by_scenario e -> has_values o id e -> has_values o1 id e.
  Proof.
    intros He HV t z Ht Hz. cbn in Ht, Hz. destruct (HV t s Ht Hs) as (x & Hx & Hn). exists (seen_in s x). split; [eapply admissible_in; eauto|].
    replace z with 0%Z by lia. now rewrite (value_in s o o1 HO x ports Hgood HP).
  Qed.
  Lemma bound_one id inf e : ready_bound o id inf e -> ready_bound o1 id inf e.
  Proof. intros [->|[H1 H2]]; [now left|]. right. split; [exact H1|]. apply values_one; [eapply formula_by_scenario; eauto|exact H2]. Qed.
  Lemma cost_values id e : averaged (o_network o) id e -> has_values o id e -> has_values o1 id e.
  Proof.
    intros HA HV t z Ht Hz. cbn in Ht, Hz. destruct (HV t s Ht Hs) as (x & Hx & Hn). exists (seen_in s x). split; [eapply admissible_in; eauto|].
    destruct (den (component_world o x id) e t s) as [r|] eqn:E; [|contradiction].
    destruct (averaged_value o (fun z => settings_of z o) x ports Hgood Hreq HP Hx (fun z _ => settings_of_one z o) id e t s HA r E) as (vs & G & _).
    replace z with 0%Z by lia. cbn beta in G. unfold o1. rewrite (G s Hs). discriminate.
  Qed.
  Lemma settings_of_ready_with : constraints_by_scenario o -> averaged_costs o -> ready_problem o1.
  Proof.
    intros HC HA. pose proof Hready as (R1 & R2 & R3 & R4 & R5). split; [|split; [|split; [|split]]].
    - intros c p Hc Hp. destruct (R1 c p Hc Hp) as (d & E & F). exists (data_of s d). split; [now apply data_of_found|now apply data_of_fits].
    - intros k f d Hk Hd. apply definition_one. eapply R2; eauto.
    - intros c v Hc Hv. apply variable_one. now apply R3.
    - intros c k Hc Hk. destruct (R4 c k Hc Hk) as ((E1 & E2 & E3 & E4) & B1 & B2). split; [|split; now apply bound_one].
      split; [revert E1; apply all_nodes_imp; intros y; apply node_one|]. split; [exact E2|]. split; [exact E3|]. apply values_one; [|exact E4].
      specialize (HC c k Hc Hk). unfold by_scenario, no_scenario_operator in *. eapply all_nodes_imp; [|exact (all_nodes_and _ _ _ E1 HC)]. intros y. destruct y; cbn; tauto.
    - intros c e Hce. destruct (R5 c e Hce) as ((E1 & E2 & E3 & E4) & B1 & B2). split; [|split; [exact B1|exact B2]].
      split; [revert E1; apply all_nodes_imp; intros y; apply node_one|]. split; [exact E2|]. split; [exact E3|]. apply cost_values; [now apply HA|exact E4].
  Qed.
End Ready.
Lemma settings_of_ready s o : good_problem o -> ready_problem o -> constraints_by_scenario o -> averaged_costs o -> (0 <= s < o_scenarios o)%Z ->
  good_problem (settings_of s o) /\ ready_problem (settings_of s o).
Proof.
  intros Hgood Hready HC HA Hs. destruct (ready_ports o Hgood Hready) as [ports HP]. split; [now apply settings_of_good|]. eapply settings_of_ready_with; eauto.
Qed.

(** ** Precision *)
Lemma precise_weaker S S' (data data' : string -> string -> (Qc -> Prop) -> Prop) (own own' : string -> (Qc -> Prop) -> Prop) (ports ports' : string -> string -> Z -> Prop) :
  (S' | S)%Z -> (forall c n P, data c n P -> data' c n P) -> (forall n P, own n P -> own' n P) -> (forall p f D, ports p f D -> ports' p f D) ->
  forall e D, precise S data own ports D e -> precise S' data' own' ports' D e.
Proof.
  intros HS Hd Ho Hp. induction e using expr_ind'; intros D; cbn [precise]; auto.
  - induction H as [|a l Ha _ IH]; cbn [fold_right]; [auto|]. intros [H1 H2]. auto.
  - intros (D1 & D2 & H1 & H2 & H3 & H4 & H5). exists D1, D2. auto 10.
  - intros (D1 & D2 & H1 & H2 & H3 & H4 & H5). exists D1, D2. split; [exact H1|]. split; [exact H2|]. split; [exact H3|]. split; [auto|].
    destruct e2; cbn [divisor] in *; auto.
  - intros (D1 & H1 & H2 & H3). exists D1. split; [exact H1|]. split; [|auto]. eapply Z.divide_trans; [|exact H2]. now apply Z.mul_divide_mono_l.
  - destruct e; auto.
Qed.
Lemma unscenarised d t node v : get_value d t None node = Ok v -> forall s, get_value d t (Some s) node = Ok v.
Proof.
  intros H s. revert node H. induction d using data_ind'; intros node; cbn [get_value]; auto; try discriminate.
  - destruct t; discriminate.
  - induction H as [|[k d] l Hd _ IH]; [discriminate|]. destruct (String.eqb node k); [apply Hd|exact IH].
Qed.
Lemma settings_of_values s o c n P : data_values o c n P -> data_values (settings_of s o) c n P.
Proof.
  intros H t z q. unfold data_at. cbn [settings_of o_database o_block o_tree_node]. destruct (get_data (map _ (o_database o)) c n) as [d1|] eqn:E; [|discriminate]. apply data_of_get in E. destruct E as (d & E & ->).
  destruct (nth_error _ _) as [a|] eqn:Ea; [|discriminate]. rewrite data_of_any. intros Hv.
  apply (H t s q). unfold data_at. rewrite E, Ea. destruct (Z.eq_dec z 0) as [->|Hz]; [exact Hv|].
  replace (read_back s (Some z)) with (@None Z) in Hv by (destruct z; [contradiction|reflexivity..]).
  destruct (get_value d (Some a) None (o_tree_node o)) as [w|] eqn:Ew; [|discriminate]. now rewrite (unscenarised _ _ _ _ Ew).
Qed.
Lemma settings_of_precise_in s o c D e : precise_in o c D e -> precise_in (settings_of s o) c D e.
Proof.
  assert (HS : (o_scenarios (settings_of s o) | o_scenarios o)%Z) by (exists (o_scenarios o); cbn; lia).
  apply precise_weaker; [exact HS|intros; now apply settings_of_values|intros; now apply settings_of_values|].
  intros p f D' H d Hd. specialize (H d Hd). revert H. apply precise_weaker; [exact HS|intros; now apply settings_of_values|intros; now apply settings_of_values|auto].
Qed.
Lemma settings_of_costs s o : precise_costs o -> precise_costs (settings_of s o).
Proof.
  intros H ce Hce. destruct (H ce Hce) as (D1 & D2 & p & H1 & H2 & H3 & H4 & H5). exists D1, D2, p. split; [exact H1|]. split; [exact H2|]. split; [exact H3|]. split; [|exact H5]. now apply settings_of_precise_in.
Qed.
Lemma settings_of_precise s o : precise_problem o -> precise_problem (settings_of s o).
Proof.
  intros (H1 & H2 & H3). split; [|split].
  - intros c k Hc Hk. destruct (H1 c k Hc Hk) as [(D & HD & HP) HB]. split; [|exact HB]. exists D. split; [exact HD|]. now apply settings_of_precise_in.
  - now apply settings_of_costs.
  - exact H3.
Qed.

(** ** All together *)
Lemma ready_scenarios o : good_problem o -> ready_problem o -> constraints_by_scenario o -> averaged_costs o ->
  exists st sts, build_problem o = Ok st /\ forall s, (0 <= s < o_scenarios o)%Z -> one_scenario s o (settings_of s o) /\ good_problem (settings_of s o) /\ build_problem (settings_of s o) = Ok (sts s).
Proof.
  intros Hgood Hready HC HA. destruct (problem_built o Hgood Hready) as [st Hst]. exists st.
  destruct (chosen_functions (fun s st1 => build_problem (settings_of s o) = Ok st1) st (o_scenarios o)) as [sts Hsts].
  - pose proof Hgood as (_ & H & _). lia.
  - intros s Hs. destruct (settings_of_ready s o Hgood Hready HC HA Hs) as [H1 H2]. now apply problem_built.
  - exists sts. split; [exact Hst|]. intros s Hs. split; [apply settings_of_one|]. split; [now apply settings_of_good|now apply Hsts].
Qed.
Lemma ready_together o : good_problem o -> ready_problem o -> constraints_by_scenario o -> averaged_costs o -> scenario_bounds_follow o ->
  exists st sts f, build_problem o = Ok st /\ (forall s, (0 <= s < o_scenarios o)%Z -> build_problem (settings_of s o) = Ok (sts s)) /\
  put_together o st (fun s => settings_of s o) sts f.
Proof.
  intros Hgood Hready HC HA HB. destruct (ready_scenarios o Hgood Hready HC HA) as (st & sts & Hst & Hsts).
  destruct (scenarios_together o st (fun s => settings_of s o) sts Hgood HC HB Hst) as [f Hf]; [intros s Hs; split; apply (Hsts s Hs)|].
  exists st, sts, f. split; [exact Hst|]. split; [intros s Hs; apply (Hsts s Hs)|exact Hf].
Qed.
Lemma precise_bounds o : precise_problem o -> scenario_bounds_follow o.
Proof. intros (H & _) c k Hc Hk. exact (proj2 (proj2 (H c k Hc Hk))). Qed.
Lemma ready_separate o : good_problem o -> ready_problem o -> precise_problem o -> constraints_by_scenario o -> averaged_costs o -> scenario_variables o ->
  exists st sts f, build_problem o = Ok st /\ (forall s, (0 <= s < o_scenarios o)%Z -> build_problem (settings_of s o) = Ok (sts s)) /\
  put_together o st (fun s => settings_of s o) sts f /\
  forall y, optimal y (st_solver st) <-> forall s, (0 <= s < o_scenarios o)%Z -> optimal (fun i => y (f s i)) (st_solver (sts s)).
Proof.
  intros Hgood Hready HP HC HA HV. destruct (ready_scenarios o Hgood Hready HC HA) as (st & sts & Hst & Hsts).
  destruct (scenarios_together o st (fun s => settings_of s o) sts Hgood HC (precise_bounds o HP) Hst) as [f Hf]; [intros s Hs; split; apply (Hsts s Hs)|].
  exists st, sts, f. split; [exact Hst|]. split; [intros s Hs; apply (Hsts s Hs)|]. split; [exact Hf|].
  apply (scenarios_separate o st (fun s => settings_of s o) sts f Hgood HA Hst Hsts Hf); [exact (proj1 (proj2 HP))|intros s _; now apply settings_of_precise|exact HV].
Qed.
