(** Two problems whose networks differ only in what the models say beside parameters, ports and the structure of variables:
    what is ready or precise in one is so in the other (see DropReady.v, RelaxReady.v). *)
From Coq Require Import Lia.
From Verif Require Import Base BaseFacts Expr Visitors LinearExpr Model Study Strategy Optim SpecExpr ExprFacts SpecSyntax SpecVisitors SpecExpansion ExpansionFacts SpecLinear SpecModel
  SpecOptim SpecReady SpecScenarios SpecPrecise SpecBlock SpecSame SpecReorder OptimFacts OptimMeaning OptimProblem OptimReady OptimNames PreciseFacts PreciseProblem ScenarioExact
  ScenarioReorder ScenarioReady ScenarioFacts VisitorFacts CopyFacts.

Lemma varies_alike dim ft fs sp sp' ports ports' e :
  (forall n, get_parameter_structure sp' n = get_parameter_structure sp n) -> (forall n, get_variable_structure sp' n = get_variable_structure sp n) ->
  (forall c n, get_component_variable_structure sp' c n = get_component_variable_structure sp c n) ->
  (forall c n, get_component_parameter_structure sp' c n = get_component_parameter_structure sp c n) ->
  (forall p f, ports' p f = ports p f) -> varies dim ft fs sp' ports' e = varies dim ft fs sp ports e.
Proof.
  intros H1 H2 H3 H4 H5. induction e using expr_ind'; cbn [varies]; rewrite ?H1, ?H2, ?H3, ?H4, ?H5; auto; try congruence.
  induction H as [|a l Ha _ IH]; [reflexivity|]. cbn [existsb]. now rewrite Ha, IH.
Qed.
Lemma decides_alike ports ports' e : (forall p f, ports' p f = ports p f) -> decides ports' e = decides ports e.
Proof.
  intros H1. induction e using expr_ind'; cbn [decides]; rewrite ?H1; auto; try congruence.
  induction H as [|a l Ha _ IH]; [reflexivity|]. cbn [existsb]. now rewrite Ha, IH.
Qed.
Lemma affine_alike ports ports' e : (forall p f, ports' p f = ports p f) -> affine ports e -> affine ports' e.
Proof.
  intros H1. induction e using expr_ind'; cbn [affine]; auto; rewrite ?(decides_alike ports ports') by exact H1; try tauto.
  induction H as [|a l Ha _ IH]; [auto|]. cbn [fold_right]. tauto.
Qed.
Section Alike.
  Context (o o' : settings).
  Hypothesis Hconn : forall c p f, connected (o_network o') c p f = connected (o_network o) c p f.
  Hypothesis Hps : forall id n, get_parameter_structure (local_structure (o_network o') id) n = get_parameter_structure (local_structure (o_network o) id) n.
  Hypothesis Hvs : forall id n, get_variable_structure (local_structure (o_network o') id) n = get_variable_structure (local_structure (o_network o) id) n.
  Hypothesis Hpar : forall P c n, has_parameter P o c n -> has_parameter P o' c n.
  Hypothesis Hvar : forall c n, chosen_variable o c n -> chosen_variable o' c n.
  Hypothesis Hadm : forall x, admissible_decisions o x -> admissible_decisions o' x.
  Hypothesis Hden : forall x c e t s, den (component_world o' x c) e t s = den (component_world o x c) e t s.
  Hypothesis Hblk : o_block o' = o_block o.
  Hypothesis Hsc : o_scenarios o' = o_scenarios o.
  Hypothesis Hdat : forall c n t s, data_at o' c n t s = data_at o c n t s.
  Lemma component_structures id : (forall c n, get_component_variable_structure (local_structure (o_network o') id) c n = get_component_variable_structure (local_structure (o_network o) id) c n) /\
    (forall c n, get_component_parameter_structure (local_structure (o_network o') id) c n = get_component_parameter_structure (local_structure (o_network o) id) c n).
  Proof. unfold local_structure. destruct (get_component (o_network o') id), (get_component (o_network o) id); split; reflexivity. Qed.
  Lemma varies_in_alike dim ft fs id e : varies_in dim ft fs (o_network o') id e = varies_in dim ft fs (o_network o) id e.
  Proof.
    unfold varies_in. apply varies_alike; auto; try apply component_structures. intros p f. rewrite Hconn. induction (connected (o_network o) id p f) as [|d l IH]; [reflexivity|].
    cbn [existsb]. rewrite IH. f_equal. apply varies_alike; auto; apply component_structures.
  Qed.
  Lemma argument_alike id k : constant_argument o id k -> constant_argument o' id k.
  Proof.
    intros (H & x & t & s & z & E). split; [|exists x, t, s, z; now rewrite Hden]. revert H. apply all_nodes_imp. intros y. destruct y; auto.
  Qed.
  Lemma node_alike id x : ready_node o id x -> ready_node o' id x.
  Proof. destruct x; cbn; auto; intros; repeat split; try tauto; apply argument_alike; tauto. Qed.
  Lemma leaf_alike id x : ready_leaf o id x -> ready_leaf o' id x.
  Proof. destruct x; cbn; auto. now rewrite Hconn. Qed.
  Lemma values_alike id e : has_values o id e -> has_values o' id e.
  Proof.
    intros H t s Ht Hs. rewrite Hblk in Ht. rewrite Hsc in Hs. destruct (H t s Ht Hs) as (x & Hx & Hv). exists x. split; [now apply Hadm|now rewrite Hden].
  Qed.
  Lemma plain_alike id e : plain_formula o id e -> plain_formula o' id e.
  Proof. intros [F L]. split; [exact F|]. revert L. apply all_leaves_imp. intros y. destruct y; auto. Qed.
  Lemma formula_alike id e : formula o id e -> formula o' id e.
  Proof.
    intros [F L]. split; [exact F|]. revert L. apply all_leaves_imp. intros y. destruct y as [| | | | | | | | | | | | | | | | |p f|a g]; cbn [formula_leaf]; auto.
    - rewrite Hconn. intros (d & E & H). exists d. split; [exact E|now apply plain_alike].
    - destruct a; auto. destruct g; auto. rewrite Hconn. apply Forall_impl. intros d. apply plain_alike.
  Qed.
  Lemma bound_alike id inf e : ready_bound o id inf e -> ready_bound o' id inf e.
  Proof. intros [E|[F V]]; [now left|right]. split; [now apply formula_alike|now apply values_alike]. Qed.
  Lemma expression_alike id e : ready_expression o id e -> ready_expression o' id e.
  Proof.
    intros (H1 & H2 & H3 & H4). split; [revert H1; apply all_nodes_imp; apply node_alike|]. split; [revert H2; apply all_leaves_imp; apply leaf_alike|].
    split; [|now apply values_alike]. revert H3. apply affine_alike. intros p f. unfold port_decides. now rewrite Hconn.
  Qed.
  Lemma definition_alike d : ready_definition o d -> ready_definition o' d.
  Proof. intros (H1 & H2 & H3). split; [revert H1; apply all_nodes_imp; apply node_alike|]. split; [revert H2; apply all_leaves_imp; apply leaf_alike|exact H3]. Qed.
  Lemma variable_bound_alike id v v' b : v_structure v' = v_structure v -> ready_variable_bound o id v b -> ready_variable_bound o' id v' b.
  Proof.
    intros Ev H e He. destruct (H e He) as [L|(F1 & F2 & F3 & F4)]; [now left|right]. split; [exact F1|]. split; [now apply formula_alike|]. rewrite Ev.
    unfold varies_in_time, varies_in_scenario. rewrite !varies_in_alike. split; [exact F3|exact F4].
  Qed.
  Lemma reads_alike c default b t s w : bound_reads o c default b t s w -> bound_reads o' c default b t s w.
  Proof. destruct b as [e|]; cbn; auto. destruct e; auto; intros (q & x & E1 & E2); exists q, x; rewrite Hden; auto. Qed.
  Lemma data_values_alike c n P : data_values o c n P -> data_values o' c n P.
  Proof. intros H t s q E. rewrite Hdat in E. exact (H _ _ _ E). Qed.
  Lemma precise_in_alike c D e : precise_in o c D e -> precise_in o' c D e.
  Proof.
    assert (HS : (o_scenarios o' | o_scenarios o)%Z) by (rewrite Hsc; apply Z.divide_refl).
    apply precise_weaker; [exact HS|intros; now apply data_values_alike|intros; now apply data_values_alike|].
    intros p f D' H d Hd. rewrite Hconn in Hd. specialize (H d Hd). revert H. apply precise_weaker; [exact HS|intros; now apply data_values_alike|intros; now apply data_values_alike|auto].
  Qed.
  Lemma follow_alike id k : bounds_follow (o_network o) id k -> bounds_follow (o_network o') id k.
  Proof. unfold bounds_follow, varies_in_time, varies_in_scenario. now rewrite !varies_in_alike. Qed.
End Alike.
(** ** Networks with changed models are built like the networks *)
Section Build.
  Context (g : model -> model).
  Hypothesis Hports : forall m, m_ports (g m) = m_ports m.
  Hypothesis Hdefs : forall m, m_port_definitions (g m) = m_port_definitions m.
  Definition change_component (c : component) : component := {| co_model := g (co_model c); co_id := co_id c |}.
  Definition change_ref (r : port_ref) : port_ref := {| pr_component := change_component (pr_component r); pr_port := pr_port r |}.
  Definition change_connection (k : ports_connection) : ports_connection := {|
    pc_port1 := change_ref (pc_port1 k); pc_port2 := change_ref (pc_port2 k); pc_master := map (fun fr => (fst fr, change_ref (snd fr))) (pc_master k) |}.
  Definition change_network (n : network) : network := {|
    n_id := n_id n; n_nodes := map (fun ic => (fst ic, change_component (snd ic))) (n_nodes n);
    n_components := map (fun ic => (fst ic, change_component (snd ic))) (n_components n); n_connections := map change_connection (n_connections n) |}.
  Lemma dset_changed {A B} (h : A -> B) k v (d : dict string A) :
    map (fun ic => (fst ic, h (snd ic))) (dset String.eqb k v d) = dset String.eqb k (h v) (map (fun ic => (fst ic, h (snd ic))) d).
  Proof. induction d as [|[k' v'] d IH]; [reflexivity|]. cbn [dset map fst snd]. destruct (String.eqb k k'); [reflexivity|]. cbn [map fst snd]. now rewrite IH. Qed.
  Lemma masters_changed m1 m2 p1 p2 r1 r2 l : forall acc ms, masters m1 m2 p1 p2 r1 r2 l acc = Ok ms ->
    masters (g m1) (g m2) p1 p2 (change_ref r1) (change_ref r2) l (map (fun fr => (fst fr, change_ref (snd fr))) acc) = Ok (map (fun fr => (fst fr, change_ref (snd fr))) ms).
  Proof.
    induction l as [|f l IH]; intros acc ms; cbn [masters]; [now intros [= <-]|]. rewrite !Hdefs.
    destruct (dmem pfi_eqb (p1, f) (m_port_definitions m1)), (dmem pfi_eqb (p2, f) (m_port_definitions m2)); cbn [negb andb]; try discriminate; intros E; apply IH in E; now rewrite dset_changed in E.
  Qed.
  Lemma connection_changed r1 r2 k : mk_connection r1 r2 = Ok k -> mk_connection (change_ref r1) (change_ref r2) = Ok (change_connection k).
  Proof.
    unfold mk_connection. cbn [change_ref change_component pr_component co_model pr_port]. rewrite !Hports.
    destruct (dget String.eqb (pr_port r1) (m_ports (co_model (pr_component r1)))) as [p1|]; [|discriminate].
    destruct (dget String.eqb (pr_port r2) (m_ports (co_model (pr_component r2)))) as [p2|]; [|discriminate].
    destruct (negb (port_type_eqb (mp_type p1) (mp_type p2))); [discriminate|].
    destruct (masters _ _ (mp_name p1) (mp_name p2) r1 r2 (pt_fields (mp_type p1)) []) as [ms|] eqn:E; cbn [bind]; [|discriminate].
    intros [= <-]. apply masters_changed in E. cbn [map] in E. rewrite E. reflexivity.
  Qed.
  Lemma built_changed n : built_network n -> built_network (change_network n).
  Proof.
    induction 1 as [id|c n H IH|c n H IH|r1 r2 n n' H IH E].
    - apply bn_new.
    - replace (change_network (add_component c n)) with (add_component (change_component c) (change_network n)); [now apply bn_component|].
      unfold add_component, change_network. cbn [n_id n_nodes n_components n_connections]. now rewrite dset_changed.
    - replace (change_network (add_node c n)) with (add_node (change_component c) (change_network n)); [now apply bn_node|].
      unfold add_node, change_network. cbn [n_id n_nodes n_components n_connections]. now rewrite dset_changed.
    - unfold connect in E. destruct (mk_connection r1 r2) as [k|] eqn:K; cbn [bind] in E; [|discriminate]. injection E as <-. apply connection_changed in K.
      apply (bn_connect (change_ref r1) (change_ref r2) (change_network n)); [exact IH|]. unfold connect. rewrite K. cbn [bind]. unfold change_network. cbn [n_id n_nodes n_components n_connections].
      now rewrite map_app.
  Qed.
  Lemma changed_components n : all_components (change_network n) = map change_component (all_components n).
  Proof. unfold all_components. cbn [change_network n_nodes n_components]. rewrite map_app, !map_map. reflexivity. Qed.
  Lemma changed_ids n : distinct_ids n -> distinct_ids (change_network n).
  Proof. unfold distinct_ids. rewrite changed_components, map_map. auto. Qed.
  Lemma changed_component n id : get_component (change_network n) id = match get_component n id with Ok c => Ok (change_component c) | Err e => Err e end.
  Proof.
    unfold get_component. cbn [change_network n_nodes n_components].
    assert (G : forall d : dict string component, dget String.eqb id (map (fun ic => (fst ic, change_component (snd ic))) d) = option_map change_component (dget String.eqb id d)).
    { induction d as [|[k v] d IH]; [reflexivity|]. cbn. destruct (String.eqb id k); [reflexivity|exact IH]. }
    rewrite !G. destruct (dget String.eqb id (n_components n)); [reflexivity|]. now destruct (dget String.eqb id (n_nodes n)).
  Qed.
End Build.
