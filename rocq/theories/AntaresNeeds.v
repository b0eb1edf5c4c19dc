(** Converted Antares studies that run are consistent (see PropConvertRun.v). *)
From Coq Require Import Lia Permutation.
From Verif Require Import Base BaseFacts Expr Visitors Parse SpecParse LexFacts LinearExpr Model Study Strategy Optim System Library
  Main SpecExpr SpecModel SpecLibrary SpecSystem SystemFacts SpecLinear SpecOptim OptimFacts SpecMain SpecRun MainFacts RunNeeds PypsaReading PypsaReady
  Thermal Antares SpecThermal SpecAntares ThermalFacts AntaresFacts AntaresReading AntaresStudy AntaresProblem SpecAntaresRun AntaresReady.
Local Open Scope string_scope.
Local Open Scope list_scope.

Section Needs.
  Context (before : dict string num) (per : option Z) (s : an_study) (sys : input_system) (files : list (string * table))
    (directory : string -> result frame) (period : nat) (T S : Z) (order : list string -> list string -> list string -> list string) (o : settings) (st : state).
  Hypothesis Conversion : convert_antares before per s = Ok (sys, files).
  Hypothesis Per : hours_of per (Z.of_nat period).
  Hypothesis Good : good_antares s directory period T S.
  Hypothesis Ord : any_order order.
  Hypothesis Run : main_cli order [antares_library; andromede_v1_library] sys (directory_after directory files) T S = Ok (o, st).
  Let Elements : forall e, In e (everything s) -> good_element s directory T S e := proj1 (proj2 (proj2 (proj2 (proj2 (proj2 Good))))).

  Lemma limits_in_order e q b t sc : In e (everything s) -> In (q, b) (quantities_of e) -> (0 <= t < T)%Z -> (0 <= sc < S)%Z ->
    num_le (fst (quantity_limits s directory T e q t sc)) (snd (quantity_limits s directory T e q t sc)).
  Proof.
    intros He Hq Ht Hs. destruct (antares_places before per s sys files directory T S order o st Conversion Ord period Per Good Run) as (P & U & _).
    destruct (P e q b t sc He Hq Ht Hs) as (i & sv & Hk & Hi & _).
    destruct (antares_variables before per s sys files directory T S order o st Conversion Ord period Per Good Run i sv Hi)
      as (e' & q' & t' & sc' & He' & Hq' & Ht' & Hs' & Hk' & L & Le).
    destruct (U _ _ _ _ _ _ _ _ _ _ _ He Hq He' Hq' Ht Ht' Hk Hk') as (-> & -> & -> & ->). rewrite <- L. exact Le.
  Qed.
  Lemma refers_element e y m : In e (everything s) -> refers libs (ic_model (component_of s e)) y m -> m = emod e.
  Proof.
    intros He (Hy & Hm & _ & _ & E). pose proof (Elements e He) as G. destruct e; try contradiction; cbn in Hy; each Hy; cbn in Hm; each Hm; first [reflexivity|discriminate E].
  Qed.
  Lemma balance_elements e : In e (everything s) -> In "balance_port" (map yo_id (ym_ports (emod e))) ->
    (exists a, e = Area a) \/ has_definition (emod e) "balance_port" "flow".
  Proof.
    intros He Hp. pose proof (Elements e He) as G. destruct e; try contradiction; cbn in Hp; try (exfalso; intuition discriminate);
      first [solve [left; eauto]|right; eexists; solve [split; [cbn; left; reflexivity|split; reflexivity]]].
  Qed.
  Lemma areas_are_nodes e id : In e (elements s) -> In id (areas_joined e) -> exists a, In (Area a) (nodes s) /\ ar_id a = id.
  Proof.
    intros He Hid. destruct (conversion_parts before per s sys files directory T S Conversion period Per Good) as (P1 & P2 & P3 & P4).
    pose proof (in_elements s e He) as Hin. pose proof (Elements e Hin) as G.
    assert (K : exists k, In k (connections_of e) /\ icn_component2 k = id /\ has_definition (emod e) (icn_port1 k) "flow").
    { destruct e; try contradiction; cbn in Hid; each Hid; eexists;
        first [solve [split; [cbn; left; reflexivity|split; [reflexivity|eexists; first [solve [split; [cbn; left; reflexivity|split; reflexivity]]|solve [split; [cbn; right; left; reflexivity|split; reflexivity]]]]]]
              |solve [split; [cbn; right; left; reflexivity|split; [reflexivity|eexists; first [solve [split; [cbn; left; reflexivity|split; reflexivity]]|solve [split; [cbn; right; left; reflexivity|split; reflexivity]]]]]]]. }
    destruct K as (k & Hk & Eid & Def). destruct (connection_from s directory period T S Good e k He Hk) as [E1 E2].
    destruct (run_connections order libs sys _ T S o st Ord Run k) as (y1 & m1 & y2 & m2 & t & Q1 & Q2 & D).
    { rewrite P3. apply in_flat_map. eauto. }
    rewrite E1 in Q1. rewrite E2, Eid in Q2. rewrite E2 in D.
    destruct Q1 as (c1 & q1 & H1 & I1 & R1 & Hq1 & Ep1 & U1). destruct Q2 as (c2 & q2 & H2 & I2 & R2 & Hq2 & Ep2 & U2).
    apply (input_in s sys P1 P2) in H1, H2. destruct H1 as (e1 & He1 & ->), H2 as (e2 & He2 & ->).
    assert (e1 = e) by exact (component_unique s directory period T S Good e1 e He1 Hin I1). subst e1.
    pose proof (refers_element e y1 m1 Hin R1) as M1. pose proof (refers_element e2 y2 m2 He2 R2) as M2. subst m1 m2.
    assert (Flow : In "flow" (pt_fields t)).
    { destruct R1 as (Hy1 & _). apply lone_usable in U1.
      - destruct U1 as (y & p & Hy & _ & Hp & Ek & ->).
        assert (Et : yo_type q1 = "flow") by (destruct e; try contradiction; cbn in Hq1; each Hq1; reflexivity).
        rewrite Et in Ek. cbn in Hy. each Hy; cbn in Hp; each Hp; first [discriminate Ek|cbn; auto].
      - intros y Hy. cbn in Hy. each Hy; reflexivity. }
    destruct (balance_elements e2 He2) as [[a ->]|X]; [rewrite <- Ep2; now apply in_map| |].
    - exists a. split; [exact (in_nodes s directory period T S Good a He2)|exact I2].
    - exfalso. destruct (D _ Flow) as [[_ A]|[A _]]; [exact (A X)|exact (A Def)].
  Qed.
  Lemma running_study_consistent : consistent_study s directory T S.
  Proof.
    split; [exact areas_are_nodes|]. split; [exact limits_in_order|].
    exact (antares_scenarios before per s sys files directory T S order o st Conversion Ord period Per Good Run).
  Qed.
End Needs.
