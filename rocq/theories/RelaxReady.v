(** Relaxing whole-number variables keeps a problem complete. *)
From Coq Require Import Lia.
From Verif Require Import Base BaseFacts Expr Visitors LinearExpr Model Study Strategy Optim SpecExpr ExprFacts SpecSyntax SpecVisitors SpecLinear SpecModel
  SpecOptim SpecReady SpecScenarios SpecPrecise SpecParts SpecBlock SpecSame SpecReorder SpecRelax ScenarioReorder StructureFacts RelaxFacts ModelChange.

Section Relax.
  Context (free : string -> string -> bool) (o : settings).
  Notation o' := (relaxing free o).
  Notation n' := (relax_network free (o_network o)).
  Lemma relax_parameter_structure id n : get_parameter_structure (local_structure (o_network o') id) n = get_parameter_structure (local_structure (o_network o) id) n.
  Proof.
    unfold local_structure. change (o_network o') with (change_network (relax_model free) (o_network o)). rewrite changed_component. now destruct (get_component (o_network o) id).
  Qed.
  Lemma relax_variable_structure id n : get_variable_structure (local_structure (o_network o') id) n = get_variable_structure (local_structure (o_network o) id) n.
  Proof.
    unfold local_structure. change (o_network o') with (change_network (relax_model free) (o_network o)). rewrite changed_component. destruct (get_component (o_network o) id) as [c|]; [|reflexivity].
    cbn [change_component co_model relax_model m_variables m_parameters model_structure_provider get_variable_structure]. unfold dict_structure.
    induction (m_variables (co_model c)) as [|[k v] d IH]; [reflexivity|]. cbn. destruct (String.eqb n k); [reflexivity|exact IH].
  Qed.
  Lemma relax_in c' : In c' (all_components n') -> exists c, c' = relax_component free c /\ In c (all_components (o_network o)).
  Proof. rewrite relax_components. intros H. apply in_map_iff in H. destruct H as (c & <- & H). now exists c. Qed.
  Lemma relax_parameter P c n : has_parameter P o c n -> has_parameter P o' c n.
  Proof.
    intros (k & p & H1 & H2 & H3). exists (relax_component free k), p. split; [|split; [exact H2|exact H3]]. cbn [relaxing with_network o_network]. rewrite relax_components. now apply in_map.
  Qed.
  Lemma relax_chosen c n : chosen_variable o c n -> chosen_variable o' c n.
  Proof.
    intros (k & v & H1 & H2 & H3 & H4). exists (relax_component free k), (relax_variable free (m_id (co_model k)) v).
    split; [cbn [relaxing with_network o_network]; rewrite relax_components; now apply in_map|]. split; [exact H2|]. split; [|exact H4]. apply relax_variables. now exists v.
  Qed.
  Let A1 : forall c p f, connected (o_network o') c p f = connected (o_network o) c p f := relax_connected free (o_network o).
  Let A2 := relax_parameter_structure.
  Let A3 := relax_variable_structure.
  Let A4 x : admissible_decisions o x -> admissible_decisions o' x := proj1 (relax_admissible free o x).
  Let A5 := relax_world free o.
  Lemma relax_contribution ce : In ce (contributions o') -> exists c, fst ce = relax_component free c /\ In (c, snd ce) (contributions o).
  Proof.
    unfold contributions. cbn [relaxing with_network o_network o_selection]. rewrite relax_components. intros H. apply in_flat_map in H. destruct H as (c' & H1 & H2).
    apply in_map_iff in H1. destruct H1 as (c & <- & Hc). apply in_flat_map in H2. destruct H2 as (e & He & H3). destruct e as [e|]; [|contradiction]. destruct H3 as [<-|[]].
    exists c. split; [reflexivity|]. apply in_flat_map. exists c. split; [exact Hc|]. apply in_flat_map. exists (Some e). split; [exact He|now left].
  Qed.
  Lemma relax_good_model m : good_model m -> good_model (relax_model free m).
  Proof.
    intros ((N1 & N2 & N3 & [N4 N5] & N) & K & H). split; [|split; [exact K|exact H]]. split; [exact N1|]. split; [exact N2|]. split; [exact N3|]. split; [|exact N].
    split; [cbn [relax_model m_variables]; now rewrite map_map|]. intros k a Hk. cbn [relax_model m_variables] in Hk. apply in_map_iff in Hk. destruct Hk as ([k0 v] & [= <- <-] & Hk). exact (N5 _ _ Hk).
  Qed.
  Lemma relax_good : good_problem o -> good_problem o'.
  Proof.
    intros (H1 & H2 & H3 & H4 & H5 & H6 & H7 & H8 & H9). split; [exact H1|]. split; [exact H2|]. split; [exact H3|].
    split; [exact (built_changed (relax_model free) (fun _ => eq_refl) (fun _ => eq_refl) _ H4)|]. split; [exact (changed_ids (relax_model free) _ H5)|]. split; [|split; [|split; [exact H8|]]].
    - intros c' Hc'. apply relax_in in Hc'. destruct Hc' as (c & -> & Hc). apply relax_good_model. now apply H6.
    - intros k' Hk'. cbn in Hk'. apply in_map_iff in Hk'. destruct Hk' as (k & <- & Hk). destruct (H7 k Hk). split; now apply relax_good_model.
    - intros c' p Hc' Hp. cbn [relaxing with_network o_network relax_network n_nodes] in Hc'. rewrite map_map in Hc'. apply in_map_iff in Hc'. destruct Hc' as (ic & <- & Hc). apply (H9 (snd ic) p); [now apply in_map|exact Hp].
  Qed.
  Lemma relax_ready : ready_problem o -> ready_problem o'.
  Proof.
    intros (R1 & R2 & R3 & R4 & R5). split; [|split; [|split; [|split]]].
    - intros c' p Hc' Hp. cbn [relaxing with_network o_network relax_network n_components] in Hc'. rewrite map_map in Hc'. apply in_map_iff in Hc'. destruct Hc' as (ic & <- & Hc). apply (R1 (snd ic) p); [now apply in_map|exact Hp].
    - intros k' f d Hk' Hd. cbn in Hk'. apply in_map_iff in Hk'. destruct Hk' as (k & <- & Hk). apply (definition_alike o); auto using relax_parameter, relax_chosen. exact (R2 k f d Hk Hd).
    - intros c' v' Hc' Hv'. apply relax_in in Hc'. destruct Hc' as (c & -> & Hc). apply relax_variables in Hv'. destruct Hv' as (v & -> & Hv). destruct (R3 c v Hc Hv) as (B1 & B2 & B3).
      split; [apply (variable_bound_alike o o') with (v := v); auto using relax_parameter|]. split; [apply (variable_bound_alike o o') with (v := v); auto using relax_parameter|].
      intros t s (_ & _ & I3 & I4). destruct (B3 t s) as (lo & hi & L & H & O); [split; [exact Hc|split; [exact Hv|split; [exact I3|exact I4]]]|]. exists lo, hi.
      split; [now apply (reads_alike o)|]. split; [now apply (reads_alike o)|exact O].
    - intros c' k Hc' Hk. apply relax_in in Hc'. destruct Hc' as (c & -> & Hc). destruct (R4 c k Hc Hk) as (H1 & H2 & H3).
      split; [apply (expression_alike o); auto using relax_parameter, relax_chosen|]. split; apply (bound_alike o); auto using relax_parameter, relax_chosen.
    - intros c' e Hin. destruct (relax_contribution _ Hin) as (c & E & Hc). cbn [fst snd] in *. subst c'. destruct (R5 c e Hc) as (H1 & H2 & H3).
      split; [apply (expression_alike o); auto using relax_parameter, relax_chosen|]. unfold varies_in_time, varies_in_scenario in *. rewrite !(varies_in_alike o o' A1 A2 A3). split; [exact H2|exact H3].
  Qed.
  Lemma relax_precise : precise_problem o -> precise_problem o'.
  Proof.
    intros (H1 & H2 & H3). split; [|split].
    - intros c' k Hc' Hk. apply relax_in in Hc'. destruct Hc' as (c & -> & Hc). destruct (H1 c k Hc Hk) as [(D & HD & HP) HB].
      split; [|now apply (follow_alike o)]. exists D. split; [exact HD|]. now apply (precise_in_alike o).
    - intros ce Hce. destruct (relax_contribution _ Hce) as (c & E & Hc). destruct (H2 _ Hc) as (D1 & D2 & p & K1 & K2 & K3 & K4 & K5). exists D1, D2, p.
      split; [exact K1|]. split; [exact K2|]. split; [exact K3|]. split; [|exact K5]. rewrite E. now apply (precise_in_alike o).
    - intros c' v' Hc' Hv'. apply relax_in in Hc'. destruct Hc' as (c & -> & Hc). apply relax_variables in Hv'. destruct Hv' as (v & -> & Hv). exact (H3 c v Hc Hv).
  Qed.
End Relax.
Lemma relaxed_complete free o : complete_problem o -> complete_problem (relaxing free o).
Proof. intros (G & R & P). split; [now apply relax_good|]. split; [now apply relax_ready|now apply relax_precise]. Qed.
