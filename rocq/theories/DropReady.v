(** Leaving out constraints keeps a problem complete. *)
From Coq Require Import Lia.
From Verif Require Import Base BaseFacts Expr Visitors LinearExpr Model Study Strategy Optim SpecExpr ExprFacts SpecSyntax SpecVisitors SpecLinear SpecModel
  SpecOptim SpecReady SpecScenarios SpecPrecise SpecParts SpecBlock SpecSame SpecReorder SpecDrop ScenarioReorder StructureFacts DropFacts ModelChange.

Section Drop.
  Context (keep : string -> constraint -> bool) (o : settings).
  Notation o' := (dropping keep o).
  Notation n' := (drop_network keep (o_network o)).
  Lemma drop_structure id : local_structure n' id = local_structure (o_network o) id.
  Proof.
    unfold local_structure. change n' with (change_network (drop_model keep) (o_network o)). rewrite changed_component. now destruct (get_component (o_network o) id).
  Qed.
  Lemma drop_in c' : In c' (all_components n') -> exists c, c' = drop_component keep c /\ In c (all_components (o_network o)).
  Proof. rewrite drop_components. intros H. apply in_map_iff in H. destruct H as (c & <- & H). now exists c. Qed.
  Lemma drop_parameter P c n : has_parameter P o c n -> has_parameter P o' c n.
  Proof.
    intros (k & p & H1 & H2 & H3). exists (drop_component keep k), p. split; [|split; [exact H2|exact H3]]. cbn [dropping with_network o_network]. rewrite drop_components. now apply in_map.
  Qed.
  Lemma drop_variable c n : chosen_variable o c n -> chosen_variable o' c n.
  Proof.
    intros (k & p & H1 & H2 & H3). exists (drop_component keep k), p. split; [|split; [exact H2|exact H3]]. cbn [dropping with_network o_network]. rewrite drop_components. now apply in_map.
  Qed.
  Let A1 : forall c p f, connected (o_network o') c p f = connected (o_network o) c p f := drop_connected keep (o_network o).
  Let A2 id n : get_parameter_structure (local_structure (o_network o') id) n = get_parameter_structure (local_structure (o_network o) id) n := f_equal (fun s => get_parameter_structure s n) (drop_structure id).
  Let A3 id n : get_variable_structure (local_structure (o_network o') id) n = get_variable_structure (local_structure (o_network o) id) n := f_equal (fun s => get_variable_structure s n) (drop_structure id).
  Let A4 x : admissible_decisions o x -> admissible_decisions o' x := proj1 (drop_admissible keep o x).
  Let A5 := drop_world keep o.
  Lemma drop_contribution ce : In ce (contributions o') -> exists c, fst ce = drop_component keep c /\ In (c, snd ce) (contributions o).
  Proof.
    unfold contributions. cbn [dropping with_network o_network o_selection]. rewrite drop_components. intros H. apply in_flat_map in H. destruct H as (c' & H1 & H2).
    apply in_map_iff in H1. destruct H1 as (c & <- & Hc). apply in_flat_map in H2. destruct H2 as (e & He & H3). destruct e as [e|]; [|contradiction]. destruct H3 as [<-|[]].
    exists c. split; [reflexivity|]. apply in_flat_map. exists c. split; [exact Hc|]. apply in_flat_map. exists (Some e). split; [exact He|now left].
  Qed.
  Lemma drop_good_model m : good_model m -> good_model (drop_model keep m).
  Proof.
    intros ((N1 & N2 & N) & K & H). split; [|split; [|exact H]].
    - assert (G : forall d : dict string constraint, named_dict c_name d -> named_dict c_name (filter (fun kc => keep (m_id m) (snd kc)) d)).
      { intros d [D1 D2]. split; [now apply nodup_filter_map|]. intros k a Hk. apply filter_In in Hk. now apply D2. }
      split; [now apply G|]. split; [now apply G|exact N].
    - intros k Hk. apply K. revert Hk. unfold get_all_constraints. cbn [drop_model m_binding_constraints m_constraints]. rewrite !(filter_snd keep), !in_app_iff, !filter_In. tauto.
  Qed.
  Lemma drop_good : good_problem o -> good_problem o'.
  Proof.
    intros (H1 & H2 & H3 & H4 & H5 & H6 & H7 & H8 & H9). split; [exact H1|]. split; [exact H2|]. split; [exact H3|].
    split; [exact (built_changed (drop_model keep) (fun _ => eq_refl) (fun _ => eq_refl) _ H4)|]. split; [exact (changed_ids (drop_model keep) _ H5)|]. split; [|split; [|split; [exact H8|]]].
    - intros c' Hc'. apply drop_in in Hc'. destruct Hc' as (c & -> & Hc). apply drop_good_model. now apply H6.
    - intros k' Hk'. cbn in Hk'. apply in_map_iff in Hk'. destruct Hk' as (k & <- & Hk). destruct (H7 k Hk). split; now apply drop_good_model.
    - intros c' p Hc' Hp. cbn [dropping with_network o_network drop_network n_nodes] in Hc'. rewrite map_map in Hc'. apply in_map_iff in Hc'. destruct Hc' as (ic & <- & Hc). apply (H9 (snd ic) p); [now apply in_map|exact Hp].
  Qed.
  Lemma drop_ready : ready_problem o -> ready_problem o'.
  Proof.
    intros (R1 & R2 & R3 & R4 & R5). split; [|split; [|split; [|split]]].
    - intros c' p Hc' Hp. cbn [dropping with_network o_network drop_network n_components] in Hc'. rewrite map_map in Hc'. apply in_map_iff in Hc'. destruct Hc' as (ic & <- & Hc). apply (R1 (snd ic) p); [now apply in_map|exact Hp].
    - intros k' f d Hk' Hd. cbn in Hk'. apply in_map_iff in Hk'. destruct Hk' as (k & <- & Hk). apply (definition_alike o); auto using drop_parameter, drop_variable. exact (R2 k f d Hk Hd).
    - intros c' v Hc' Hv. apply drop_in in Hc'. destruct Hc' as (c & -> & Hc). destruct (R3 c v Hc Hv) as (B1 & B2 & B3).
      split; [apply (variable_bound_alike o o') with (v := v); auto using drop_parameter|]. split; [apply (variable_bound_alike o o') with (v := v); auto using drop_parameter|].
      intros t s (_ & _ & I3 & I4). destruct (B3 t s) as (lo & hi & L & H & O); [split; [exact Hc|split; [exact Hv|split; [exact I3|exact I4]]]|]. exists lo, hi.
      split; [now apply (reads_alike o)|]. split; [now apply (reads_alike o)|exact O].
    - intros c' k Hc' Hk. apply drop_in in Hc'. destruct Hc' as (c & -> & Hc). apply drop_constraints in Hk. destruct Hk as [Hk _]. destruct (R4 c k Hc Hk) as (H1 & H2 & H3).
      split; [apply (expression_alike o); auto using drop_parameter, drop_variable|]. split; apply (bound_alike o); auto using drop_parameter, drop_variable.
    - intros c' e Hin. destruct (drop_contribution _ Hin) as (c & E & Hc). cbn [fst snd] in *. subst c'. destruct (R5 c e Hc) as (H1 & H2 & H3).
      split; [apply (expression_alike o); auto using drop_parameter, drop_variable|]. unfold varies_in_time, varies_in_scenario in *. rewrite !(varies_in_alike o o' A1 A2 A3). split; [exact H2|exact H3].
  Qed.
  Lemma drop_precise : precise_problem o -> precise_problem o'.
  Proof.
    intros (H1 & H2 & H3). split; [|split].
    - intros c' k Hc' Hk. apply drop_in in Hc'. destruct Hc' as (c & -> & Hc). apply drop_constraints in Hk. destruct Hk as [Hk _]. destruct (H1 c k Hc Hk) as [(D & HD & HP) HB].
      split; [|now apply (follow_alike o)]. exists D. split; [exact HD|]. now apply (precise_in_alike o).
    - intros ce Hce. destruct (drop_contribution _ Hce) as (c & E & Hc). destruct (H2 _ Hc) as (D1 & D2 & p & K1 & K2 & K3 & K4 & K5). exists D1, D2, p.
      split; [exact K1|]. split; [exact K2|]. split; [exact K3|]. split; [|exact K5]. rewrite E. now apply (precise_in_alike o).
    - intros c' v Hc' Hv. apply drop_in in Hc'. destruct Hc' as (c & -> & Hc). exact (H3 c v Hc Hv).
  Qed.
End Drop.
Lemma dropped_complete keep o : complete_problem o -> complete_problem (dropping keep o).
Proof. intros (G & R & P). split; [now apply drop_good|]. split; [now apply drop_ready|now apply drop_precise]. Qed.
