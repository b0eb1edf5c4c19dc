(** A problem that is complete stays so when its block is rotated (see PropRotate.v). *)
From Coq Require Import Lia.
From Verif Require Import Base BaseFacts Expr Visitors LinearExpr Model Study Strategy Optim SpecExpr ExprFacts SpecSyntax SpecVisitors SpecExpansion ExpansionFacts SpecLinear SpecModel
  SpecOptim SpecReady SpecScenarios SpecPrecise SpecBlock SpecSame SpecReorder SpecRotate OptimFacts OptimMeaning OptimProblem OptimReady OptimNames PreciseFacts PreciseProblem ScenarioExact
  ScenarioReorder ScenarioReady ScenarioFacts DropFacts VisitorFacts CopyFacts RotateFacts.

(** formulas in two worlds that give their parameters and ports the same values *)
Lemma formula_same (E E' : env) e t t' z :
  (forall n, e_par E' n t' z = e_par E n t z) -> (forall p f, all_leaves (fun x => match x with
     PortField p' f' | PortAgg (PortField p' f') _ => p' = p -> f' = f -> Forall2 (fun v' v => v' t' z = v t z) (e_port E' p f) (e_port E p f) | _ => True end) e) ->
  all_nodes formula_node e -> den E' e t' z = den E e t z.
Proof.
  intros HP. induction e using expr_ind'; intros HL HN; try (apply all_nodes_root in HN; contradiction); cbn [den].
  - reflexivity.
  - cbn in HN. rewrite IHe; [reflexivity|exact HL|tauto].
  - apply all_nodes_Add in HN. destruct HN as [_ HN]. f_equal. induction H as [|a l Ha _ IH]; [reflexivity|]. inversion HN; subst. cbn [map]. rewrite Ha, IH; auto; intros p f; specialize (HL p f); cbn in HL |- *; tauto.
  - cbn in HN. rewrite IHe1, IHe2; try tauto; intros p f; specialize (HL p f); cbn in HL; tauto.
  - cbn in HN. rewrite IHe1, IHe2; try tauto; intros p f; specialize (HL p f); cbn in HL; tauto.
  - apply HP.
  - specialize (HL p f). cbn in HL. specialize (HL eq_refl eq_refl). inversion HL as [|v' v l' l Hv Hl]; [reflexivity|]. inversion Hl; [exact Hv|reflexivity].
  - destruct e as [| | | | | | | | | | | | | | | | |p f|]; try reflexivity. destruct a; try reflexivity. specialize (HL p f). cbn in HL. specialize (HL eq_refl eq_refl).
    f_equal. induction HL as [|v' v l' l Hv _ IH]; [reflexivity|]. cbn [map]. now rewrite Hv, IH.
Qed.
Section Rotate.
  Context (o : settings) (r : nat).
  Hypothesis Hg : good_problem o.
  Hypothesis HR : ready_problem o.
  Hypothesis Hr : (r <= List.length (o_block o))%nat.
  Hypothesis HN0 : no_positions o.
  Let Hb : o_block o <> [] := proj1 (proj1 Hg).
  Let HN : positions_absent o := ready_positions o HR HN0.
  Notation T := (Z.of_nat (List.length (o_block o))).
  Notation o' := (rotating r o).
  Lemma data_rotated_at c n t s : data_at o' c n t s = data_at o c n ((t + Z.of_nat r) mod T)%Z s.
  Proof. rewrite data_rotated by assumption. unfold data_at. rewrite Z.mod_mod by (pose proof (rotate_pos o r Hb Hr); lia). reflexivity. Qed.
  Lemma plain_rotated x x' id e t s : plain_formula o id e ->
    den (local_env (world o' x') id) e t s = den (local_env (world o x) id) e ((t + Z.of_nat r) mod T)%Z s.
  Proof.
    intros [F L]. apply formula_same; [intros n; apply data_rotated_at| |exact F]. intros p f. revert L. apply all_leaves_imp. intros y. destruct y; try contradiction; auto.
  Qed.
  Lemma formula_rotated x x' id e t s : formula o id e ->
    den (component_world o' x' id) e t s = den (component_world o x id) e ((t + Z.of_nat r) mod T)%Z s.
  Proof.
    intros [F L]. apply formula_same; [intros n; apply data_rotated_at| |exact F]. intros p f.
    assert (G : Forall (fun d => plain_formula o (fst d) (snd d)) (connected (o_network o) id p f) ->
      Forall2 (fun v' v => v' t s = v ((t + Z.of_nat r) mod T)%Z s) (e_port (component_world o' x' id) p f) (e_port (component_world o x id) p f)).
    { intros HF. cbn [component_world e_port rotating with_block o_network]. induction HF as [|d l Hd _ IH]; [constructor|]. cbn [map]. constructor; [now apply plain_rotated|exact IH]. }
    revert L. apply all_leaves_imp. intros y. destruct y as [| | | | | | | | | | | | | | | | |p0 f0|a g]; cbn [formula_leaf]; auto.
    - intros (d & Ed & Hd) -> ->. apply G. rewrite Ed. now constructor.
    - destruct a; auto. destruct g; [|contradiction]. intros HF -> ->. now apply G.
  Qed.
  Lemma argument_rotated x id k t s : all_nodes (fun x => match x with
    | Lit (Fin _) | Neg _ | Mul _ _ | Div _ _ => True
    | Add l => l <> []
    | Param n => has_parameter is_constant_structure o id n
    | _ => False end) k -> den (component_world o' x id) k t s = den (component_world o x id) k (t + Z.of_nat r)%Z s.
  Proof.
    intros H. apply formula_same.
    - intros n. cbn [component_world e_par]. now apply data_rotated.
    - intros p f. revert H. induction k using expr_ind'; cbn; try tauto; intros [_ HK].
      induction H as [|a l Ha _ IH]; [exact I|]. cbn [fold_right] in *. tauto.
    - revert H. apply all_nodes_imp. intros y. destruct y as [[]| | | | | | | | | | | | | | | | | |]; cbn; tauto.
  Qed.
  Lemma argument_kept id k : constant_argument o id k -> constant_argument o' id k.
  Proof.
    intros (H & x & t & s & z & E). split; [exact H|]. exists x, (t - Z.of_nat r)%Z, s, z. rewrite argument_rotated by exact H. rewrite <- E. f_equal. lia.
  Qed.
  Lemma node_kept id x : ready_node o id x -> ready_node o' id x.
  Proof. destruct x; cbn; auto; intros; repeat split; try tauto; apply argument_kept; tauto. Qed.
  Lemma values_kept id e : no_position e -> has_values o id e -> has_values o' id e.
  Proof.
    intros Ne H t s Ht Hs. cbn [rotating with_block o_block o_scenarios] in Ht, Hs. 
    destruct (H ((t + Z.of_nat r) mod T)%Z s (Z.mod_pos_bound _ _ (rotate_pos o r Hb Hr)) Hs) as (x & Hx & Hv).
    exists (counted_from r x). split; [now apply rotated_admissible|]. rewrite (world_at o r Hb Hr HN x Hx) by exact Ne. exact Hv.
  Qed.
  Lemma bound_kept id inf e : ready_bound o id inf e -> ready_bound o' id inf e.
  Proof. intros [E|[F V]]; [now left|right]. split; [exact F|]. apply values_kept; [apply formula_no_position; apply F|exact V]. Qed.
  Lemma expression_kept id e : no_position e -> ready_expression o id e -> ready_expression o' id e.
  Proof.
    intros Ne (H1 & H2 & H3 & H4). split; [revert H1; apply all_nodes_imp; apply node_kept|]. split; [exact H2|]. split; [exact H3|]. now apply values_kept.
  Qed.
  Lemma reads_kept c v b t s w default : In c (all_components (o_network o)) -> In v (get_variables (o_selection o) (co_model c)) ->
    b = v_lower v \/ b = v_upper v -> index_of (ix_time (v_structure v)) T t ->
    bound_reads o (co_id c) default b (option_map (fun z => ((z + Z.of_nat r) mod T)%Z) t) s w -> bound_reads o' (co_id c) default b t s w.
  Proof.
    intros Hc Hv Hbv It. destruct b as [e|]; [|auto]. assert (He : v_lower v = Some e \/ v_upper v = Some e) by (destruct Hbv as [<-|<-]; auto).
    destruct (variable_bound o HR c v e Hc Hv He) as [[u ->]|[F V]]; [auto|].
    assert (G : forall x, den (component_world o' x (co_id c)) e (odefault 0%Z t) (odefault 0%Z s) =
      den (component_world o x (co_id c)) e (odefault 0%Z (option_map (fun z => ((z + Z.of_nat r) mod T)%Z) t)) (odefault 0%Z s)).
    { intros x. rewrite (formula_rotated x x) by exact F. destruct t as [z|]; [reflexivity|]. cbn [option_map odefault index_of] in *.
      apply bound_lasts; auto. destruct (varies_in_time (o_network o) (co_id c) e); [|reflexivity]. rewrite V in It; congruence. }
    unfold bound_reads. destruct e; auto; intros (q & x & E1 & E2); exists q, x; (split; [exact E1|]); rewrite G; exact E2.
  Qed.
  Lemma ready_kept : ready_problem o'.
  Proof.
    pose proof (rotate_pos o r Hb Hr) as P. pose proof HR as (R1 & R2 & R3 & R4 & R5). split; [exact R1|]. split; [|split; [|split]].
    - intros k f d Hk Hd. destruct (R2 k f d Hk Hd) as (H1 & H2 & H3). split; [revert H1; apply all_nodes_imp; apply node_kept|]. split; [exact H2|exact H3].
    - intros c v Hc Hv. destruct (R3 c v Hc Hv) as (B1 & B2 & B3). split; [exact B1|]. split; [exact B2|].
      intros t s (I1 & I2 & I3 & I4). cbn [rotating with_block o_block] in I3. rewrite rotate_length in I3.
      destruct (B3 (option_map (fun z => ((z + Z.of_nat r) mod T)%Z) t) s) as (lo & hi & L & H & O).
      + split; [exact Hc|]. split; [exact Hv|]. split; [|exact I4]. destruct t as [z|]; cbn [option_map index_of] in *; [|exact I3]. split; [tauto|now apply Z.mod_pos_bound].
      + exists lo, hi. split; [eapply reads_kept; eauto|]. split; [eapply reads_kept; eauto|exact O].
    - intros c k Hc Hk. destruct (R4 c k Hc Hk) as (H1 & H2 & H3). split; [apply expression_kept; [now apply (proj1 HN0 c)|exact H1]|]. split; now apply bound_kept.
    - intros c e Hin. destruct (R5 c e Hin) as (H1 & H2 & H3). split; [|split; [exact H2|exact H3]]. apply expression_kept; [|exact H1]. apply (proj1 (proj2 HN0) (c, e) Hin).
  Qed.
  Lemma data_values_kept c n P : data_values o c n P -> data_values o' c n P.
  Proof. intros H t s q E. rewrite data_rotated in E by assumption. exact (H _ _ _ E). Qed.
  Lemma precise_in_kept c D e : precise_in o c D e -> precise_in o' c D e.
  Proof.
    apply precise_weaker; [apply Z.divide_refl|intros; now apply data_values_kept|intros; now apply data_values_kept|].
    intros p f D' H d Hd. specialize (H d Hd). revert H. apply precise_weaker; [apply Z.divide_refl|intros; now apply data_values_kept|intros; now apply data_values_kept|auto].
  Qed.
  Lemma precise_kept : precise_problem o -> precise_problem o'.
  Proof.
    intros (H1 & H2 & H3). split; [|split; [|exact H3]].
    - intros c k Hc Hk. destruct (H1 c k Hc Hk) as [(D & HD & HP) HB]. split; [|exact HB]. exists D. split; [exact HD|]. now apply precise_in_kept.
    - intros ce Hce. destruct (H2 ce Hce) as (D1 & D2 & p & K1 & K2 & K3 & K4 & K5). exists D1, D2, p. split; [exact K1|]. split; [exact K2|]. split; [exact K3|]. split; [|exact K5]. now apply precise_in_kept.
  Qed.
  Lemma good_kept : good_problem o'.
  Proof.
    pose proof Hg as ((_ & Hc) & H). split; [|exact H]. split; [|exact Hc]. cbn [rotating with_block o_block]. intros E. apply (f_equal (@List.length Z)) in E. rewrite rotate_length in E.
    pose proof (rotate_pos o r Hb Hr) as P. cbn in E. lia.
  Qed.
End Rotate.
Lemma rotated_complete o r : complete_problem o -> (r <= List.length (o_block o))%nat -> no_positions o -> complete_problem (rotating r o).
Proof. intros (G & R & P) Hr HN. split; [now apply good_kept|]. split; [now apply ready_kept|now apply precise_kept]. Qed.
