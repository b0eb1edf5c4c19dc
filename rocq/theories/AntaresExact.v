(** Converted Antares studies whose numbers have a common denominator (see PropAntaresExact.v). *)
From Coq Require Import Lia Permutation.
From Verif Require Import Base BaseFacts Expr Visitors Parse SpecParse LexFacts LinearExpr Model Study Strategy Optim System Library
  Main SpecExpr SpecModel SpecLibrary SpecSystem SystemFacts SpecLinear SpecOptim OptimFacts ExpansionFacts SpecMain MainFacts MainNeeds Pypsa SpecPypsa
  PypsaFacts PypsaReading PypsaStudy PypsaProblem Thermal Antares SpecThermal SpecAntares ThermalFacts AntaresFacts AntaresReading AntaresStudy
  AntaresProblem SpecScenarios SpecPrecise SpecPreciseFiles PreciseFacts MainPrecise SpecAntaresExact.
Local Open Scope string_scope.
Local Open Scope list_scope.

Lemma whole_Z D z : whole D (Fin (Z2Qc z)).
Proof. intros q [= <-]. exists (z * D)%Z. now rewrite Z2Qc_mul. Qed.
Lemma values_whole D tb n m f : has_values tb n m f -> (forall i j, exists z, f i j = Z2Qc z) -> whole_matrix D (tb_rows tb).
Proof.
  intros [(L & _ & W) V] F r v Hr Hv. apply In_nth_error in Hr as (i & Hi). pose proof (W r (nth_error_In _ _ Hi)) as Lr.
  apply In_nth_error in Hv as (j & Hj). assert (A : (i < n)%nat) by (rewrite <- L; apply nth_error_Some; congruence).
  assert (B : (j < m)%nat) by (rewrite <- Lr; apply nth_error_Some; congruence).
  specialize (V i j A B). unfold at_cell in V. rewrite Hi, Hj in V. injection V as ->. destruct (F i j) as [z ->]. apply whole_Z.
Qed.
Lemma cell_In ts row col v : cell ts row col = Some v -> exists r, In r ts /\ In v r.
Proof.
  unfold cell. destruct (0 <=? row)%Z, (0 <=? col)%Z; try discriminate. destruct (nth_error ts (Z.to_nat row)) as [r|] eqn:E; [|discriminate].
  intros H. exists r. split; eapply nth_error_In; eauto.
Qed.

Section Problem.
  Context (s : an_study) (directory : string -> result frame) (period : nat) (T S : Z) (sys : input_system) (files : list (string * table)).
  Hypothesis Good : good_antares s directory period T S.
  Hypothesis Nodes : is_nodes sys = map (component_of s) (nodes s).
  Hypothesis Comps : is_components sys = map (component_of s) (elements s).
  Hypothesis Conns : is_connections sys = flat_map connections_of (elements s).
  Hypothesis Conv : conversion_files s (Z.of_nat period) files.
  Let found := directory_after directory files.
  Let HS : (1 <= S)%Z := proj1 (proj2 Good).
  Let vars e := map yv_id (ym_variables (emod e)).
  Let Named : well_named s := proj1 (proj2 (proj2 (proj2 Good))).
  Let Apart : forall f, In f (source_files s) -> ~ In f (written_files s).
  Proof. apply Good. Qed.
  Let Elements : forall e, In e (everything s) -> good_element s directory T S e.
  Proof. apply Good. Qed.
  Let areas := cluster_areas s directory period T S Good.

  Definition whole_given (D : Z) (g : given_parameter) : Prop :=
    match snd g with inl v => whole D v | inr path => forall rows, found path = Ok rows -> whole_matrix D rows end.
  Lemma given_multiples D e g : In g (snd (described s e)) -> whole_given D g -> file_values found T (component_of s e) (given_id g) (multiple D).
  Proof.
    intros Hg W t sc q Hs H. unfold file_value in H. rewrite parameters_are in H.
    assert (E : find (fun p => String.eqb (ip_id p) (given_id g)) (map given (snd (described s e))) = Some (given g)).
    { pose proof (described_distinct s e) as N. rewrite <- given_ids in N. assert (Ei : ip_id (given g) = given_id g) by (destruct g as [[[? ?] ?] ?]; reflexivity).
      rewrite <- Ei. apply (find_distinct ip_id); [exact N|]. now apply in_map. }
    rewrite E in H. destruct g as [[[id tm] scn] [v|path]]; unfold whole_given in W; cbn [snd] in W; unfold parameter_cell in H; cbn [given ip_value ip_time ip_scenario] in H.
    - destruct (tm || scn)%bool; [discriminate|]. destruct v; try discriminate. injection H as <-. now apply W.
    - destruct (found path) as [rows|]; [|discriminate]. specialize (W rows eq_refl).
      destruct tm, scn; cbn [orb] in H; try discriminate;
        (destruct (cell _ _ _) as [[v| | |]|] eqn:Ec; try discriminate; injection H as <-; apply cell_In in Ec as (r & Hr & Hv); exact (W r _ Hr Hv _ eq_refl)).
  Qed.
  Section Elements.
    Context (D : Z).
    Hypothesis Precise : forall e, In e (everything s) -> precise_element s directory D e.
    Ltac given k := refine (given_multiples D _ (nth k (snd (described s _)) (number_of "" n0)) _ _); [cbn; tauto|unfold whole_given; cbn [nth snd described known map app number_of file_of file_of_time]].
    Lemma area_data a : In (Area a) (everything s) -> forall id, In id ["ens_cost"; "spillage_cost"] -> file_values found T (component_of s (Area a)) id (multiple D).
    Proof.
      intros He id [<-|[<-|[]]].
      - refine (given_multiples D (Area a) (number_of "ens_cost" _) _ _); [now left|]. apply (Precise _ He).
      - refine (given_multiples D (Area a) (number_of "spillage_cost" _) _ _); [right; now left|]. apply (Precise _ He).
    Qed.
    Lemma load_data a : In (Load a) (everything s) -> file_values found T (component_of s (Load a)) "load" (multiple D).
    Proof.
      intros He. assert (Hel : In (Load a) (elements s)) by (apply element_of; [exact He|discriminate]).
      refine (given_multiples D (Load a) (file_of "load" _) _ _); [now left|]. intros rows Hr.
      destruct (Elements _ He) as (m & Em & Dir & _).
      unfold found in Hr. rewrite (source_found s directory _ files Named Conv areas Apart) in Hr.
      - rewrite Dir in Hr. injection Hr as <-. exact (Precise _ He m Em).
      - apply (source_in s (Load a)); [exact Hel|]. now left.
    Qed.
    Lemma storage_data a o : In (Storage a o) (everything s) ->
      forall id, In id ["efficiency_injection"; "efficiency_withdrawal"; "initial_level"; "reservoir_capacity"; "inflows"] ->
      file_values found T (component_of s (Storage a o)) id (multiple D).
    Proof.
      intros He. assert (Hel : In (Storage a o) (elements s)) by (apply element_of; [exact He|discriminate]).
      destruct (Precise _ He) as [P1 P2]. destruct (Elements _ He) as (Ea & _). intros id Hid.
      destruct Hid as [<-|[<-|[<-|[<-|[<-|[]]]]]].
      - refine (given_multiples D (Storage a o) (number_of "efficiency_injection" _) _ _); [cbn; tauto|]. apply P1. cbn; tauto.
      - refine (given_multiples D (Storage a o) (number_of "efficiency_withdrawal" _) _ _); [cbn; tauto|]. apply (whole_Z D 1).
      - refine (given_multiples D (Storage a o) (number_of "initial_level" _) _ _); [cbn; tauto|]. apply P1. cbn; tauto.
      - refine (given_multiples D (Storage a o) (number_of "reservoir_capacity" _) _ _); [cbn; tauto|]. apply P1. cbn; tauto.
      - refine (given_multiples D (Storage a o) (file_of "inflows" _) _ _); [cbn; tauto|]. intros rows Hr. apply P2.
        unfold found in Hr. rewrite (source_found s directory _ files Named Conv areas Apart) in Hr; [now rewrite <- Ea|].
        rewrite storage_txt, Ea. apply (source_in s (Storage a o)); [exact Hel|]. now left.
    Qed.
    Lemma battery_data a b : In (Battery a b) (everything s) ->
      forall id, In id ["efficiency_injection"; "efficiency_withdrawal"; "marginal_cost"] -> file_values found T (component_of s (Battery a b)) id (multiple D).
    Proof.
      intros He. assert (Hel : In (Battery a b) (elements s)) by (apply element_of; [exact He|discriminate]).
      destruct (Precise _ He) as (P1 & P2 & P3). intros id [<-|[<-|[<-|[]]]].
      - refine (given_multiples D (Battery a b) (number_of "efficiency_injection" _) _ _); [cbn; tauto|exact P1].
      - refine (given_multiples D (Battery a b) (number_of "efficiency_withdrawal" _) _ _); [cbn; tauto|exact P2].
      - refine (given_multiples D (Battery a b) (file_of_time "marginal_cost" (link_place s (ar_id a) ("marginal_cost_" ++ ar_id a))) _ _); [cbn [described snd]; do 9 right; now left|]. intros rows Hr.
        unfold found in Hr. erewrite (battery_found s directory _ files Named Conv areas) in Hr;
          [injection Hr as <-| apply Good | exact (battery_pair s directory period T S Good a b Hel) | rewrite link_txt, app_assoc_string; right; right; right; left; reflexivity].
        intros r v Hr' Hv. cbn [tb_rows] in Hr'. apply in_map_iff in Hr' as (w & <- & Hw). destruct Hv as [<-|[]]. now apply P3.
    Qed.
    Lemma cluster_data a g : In (Cluster a g) (everything s) ->
      forall id, In id ["p_min_unit"; "p_max_unit"; "generation_cost"; "fixed_cost"; "startup_cost"; "nb_units_max"; "nb_units_max_variation_forward";
        "nb_units_max_variation_backward"] -> file_values found T (component_of s (Cluster a g)) id (multiple D).
    Proof.
      intros He. assert (Hel : In (Cluster a g) (elements s)) by (apply element_of; [exact He|discriminate]).
      destruct (Elements _ He) as (Ea & (n & m & md & pw & sz & Reg & Hsz & Hm & Hn) & _). pose proof (Precise _ He) as P. cbn [precise_element] in P.
      assert (Hp : (0 < period)%nat) by apply Good. assert (Wr : NoDup (written_files s)) by apply Good.
      pose proof (units_values _ _ _ _ _ _ Hsz Reg) as V3.
      destruct (variation_values FORWARD _ _ _ _ _ _ period Hsz Hp Hm Reg) as (t4 & E4 & V4).
      destruct (variation_values BACKWARD _ _ _ _ _ _ period Hsz Hp Hm Reg) as (t5 & E5 & V5).
      assert (Tables : forall id tb, In id known -> prepro_parameter id (Z.of_nat period) (at_cluster g) = Some (Ok tb) -> whole_matrix D (tb_rows tb) ->
        file_values found T (component_of s (Cluster a g)) id (multiple D)).
      { intros id tb Hid Pr W. refine (given_multiples D (Cluster a g) (file_of id (cluster_place s (th_area (at_cluster g)) (th_id (at_cluster g)) id)) _ _).
        - cbn [described snd]. apply in_or_app. left. exact (in_map (fun id => file_of id (cluster_place s (th_area (at_cluster g)) (th_id (at_cluster g)) id)) _ _ Hid).
        - intros rows Hr. destruct (cluster_found s directory _ files Named Conv areas Wr a g id
            (cluster_pair s directory period T S Good a g Hel) Hid) as (tb' & P' & Ef). rewrite Pr in P'. injection P' as <-.
          unfold found in Hr. rewrite Ea, Ef in Hr. injection Hr as <-. exact W. }
      intros id [<-|[<-|[<-|[<-|[<-|[<-|[<-|[<-|[]]]]]]]]].
      - refine (given_multiples D (Cluster a g) (number_of "p_min_unit" _) _ _); [cbn; tauto|]. apply P. cbn; tauto.
      - refine (given_multiples D (Cluster a g) (number_of "p_max_unit" _) _ _); [cbn; tauto|]. apply P. cbn; tauto.
      - refine (given_multiples D (Cluster a g) (number_of "generation_cost" _) _ _); [cbn; tauto|]. apply P. cbn; tauto.
      - refine (given_multiples D (Cluster a g) (number_of "fixed_cost" _) _ _); [cbn; tauto|]. apply P. cbn; tauto.
      - refine (given_multiples D (Cluster a g) (number_of "startup_cost" _) _ _); [cbn; tauto|]. apply P. cbn; tauto.
      - apply (Tables _ (nb_units_max (at_cluster g))); [cbn; tauto|reflexivity|]. apply (values_whole D _ n m _ V3). intros. eexists. reflexivity.
      - apply (Tables _ t4); [cbn; tauto|cbn; now rewrite E4|]. apply (values_whole D _ n m _ V4). intros. eexists. reflexivity.
      - apply (Tables _ t5); [cbn; tauto|cbn; now rewrite E5|]. apply (values_whole D _ n m _ V5). intros. eexists. reflexivity.
    Qed.
  End Elements.

  (** ** Texts *)
  Let precise_ D e w := file_precise libs sys found T S antares_reading (component_of s e) (emod e) D (antares_reading (emod e) w).
  Hypothesis Precise : precise_antares s directory S.
  Lemma times_precise own ports vs D1 D2 D a b : (1 <= D1)%Z -> (1 <= D2)%Z -> (D1 * D2 | D)%Z -> name_precise vs own D1 a -> name_precise vs own D2 b ->
    text_precise S vs own ports D (wtimes a b).
  Proof. intros H1 H2 H3 P1 P2. exists D1, D2. repeat split; assumption. Qed.
  Lemma delivered_precise D a e e' m' d : (1 <= D)%Z -> (forall e, In e (everything s) -> precise_element s directory D e) -> In e (elements s) ->
    In (e', m', d) (flat_map (fun k => if String.eqb (icn_component2 k) a then text_definition libs sys (element_id e) (icn_port1 k) "flow" else []) (connections_of e)) ->
    text_precise S (map yv_id (ym_variables m')) (file_values found T e') (fun _ _ _ => False) D (antares_reading m' (yd_definition d)).
  Proof.
    intros HD Pr He Hd. pose proof (in_elements s e He) as Hin. pose proof (Elements _ Hin) as G.
    assert (Pick : forall (b : bool) (l l' : list (input_component * in_model * in_definition)) z, In z ((if b then l else []) ++ l') -> In z l \/ In z l').
    { intros b l l' z Hz. apply in_app_or in Hz as [Hz|Hz]; [|auto]. destruct b; [auto|destruct Hz]. }
    destruct e as [a'|r|a' g|a' o|a'|a'|a'|k|a' b]; cbn [good_element] in G; try contradiction; cbn [connections_of flat_map joins icn_component2 icn_port1] in Hd;
      rewrite ?(definition_of s directory period T S sys Good Nodes Comps _ _ _ Hin) in Hd;
      cbn [find emod ym_definitions lib_thermal lib_short_term_storage lib_battery lib_an_load lib_an_link ydef yd_port yd_field String.eqb Ascii.eqb Bool.eqb andb] in Hd;
      repeat (apply Pick in Hd as [[[= <- <- <-]|[]]|Hd]); try (now destruct Hd).
    - left. reflexivity.
    - split; left; reflexivity.
    - right. now apply load_data.
    - left. reflexivity.
    - left. reflexivity.
    - split; left; reflexivity.
  Qed.
  Ltac names data := first [left; reflexivity | right; apply data; cbn; tauto].
  Lemma study_is_precise : precise_study libs sys found T S antares_reading.
  Proof.
    destruct Precise as (D & HD & H2 & H3 & Pr).
    assert (R1 : in_range D) by (split; [lia|]; clear -HD H2; nia).
    assert (R2 : in_range (D * D)) by (split; [clear -HD; nia|exact H2]).
    assert (R3 : in_range (D * S)) by (split; [clear -HD HS; nia|exact H3]).
    assert (D1 : (1 * D | D)%Z) by (exists 1%Z; lia). assert (D2 : (D * 1 | D)%Z) by (exists 1%Z; lia).
    split.
    - intros c m k Hk. split; [|exact (bounds_follow s directory period T S sys Good Nodes Comps c m k Hk)].
      destruct (row_source s directory period T S sys Good Nodes Comps c m k Hk) as (r & He & -> & -> & ->).
      destruct r as [a|k'|a g|a g|a g|a g|a g|a g|a g|a o|a o|a b]; cbn [row_place fst] in *.
      + exists D. split; [exact R1|]. split; [|split; left; reflexivity]. intros e' m' d Hd.
        change (ic_id (component_of s (Area a))) with (ar_id a) in Hd.
        rewrite (area_connected s directory period T S sys Good Nodes Comps Conns a He) in Hd. apply in_flat_map in Hd as (e & Hel & Hd).
        exact (delivered_precise D (ar_id a) e e' m' d HD Pr Hel Hd).
      + exists D. split; [exact R1|]. split; [|split]; left; reflexivity.
      + exists D. split; [exact R1|]. split; [left; reflexivity|].
        apply (times_precise _ _ _ 1 D); [lia|exact HD|exact D1|left; reflexivity|right; apply (cluster_data D Pr a g He); cbn; tauto].
      + exists D. split; [exact R1|]. split; [left; reflexivity|].
        apply (times_precise _ _ _ 1 D); [lia|exact HD|exact D1|left; reflexivity|right; apply (cluster_data D Pr a g He); cbn; tauto].
      + exists D. split; [exact R1|]. split; [|split; [split|]]; left; reflexivity.
      + exists D. split; [exact R1|]. split; left; reflexivity.
      + exists D. split; [exact R1|]. split; [left; reflexivity|right; apply (cluster_data D Pr a g He); cbn; tauto].
      + exists D. split; [exact R1|]. split; [split|]; left; reflexivity.
      + exists D. split; [exact R1|]. split; [left; reflexivity|]. split; [split|].
        * right; apply (cluster_data D Pr a g He); cbn; tauto.
        * left; reflexivity.
        * right; apply (cluster_data D Pr a g He); cbn; tauto.
      + exists (D * D)%Z. split; [exact R2|]. split; [left; reflexivity|].
        apply (times_precise _ _ _ D D); [exact HD|exact HD|apply Z.divide_refl|right; apply (storage_data D Pr a o He); cbn; tauto..].
      + exists D. split; [exact R1|]. split; [left; reflexivity|]. split; [split; [split|]|].
        * left; reflexivity.
        * apply (times_precise _ _ _ D 1); [exact HD|lia|exact D2|right; apply (storage_data D Pr a o He); cbn; tauto|left; reflexivity].
        * apply (times_precise _ _ _ D 1); [exact HD|lia|exact D2|right; apply (storage_data D Pr a o He); cbn; tauto|left; reflexivity].
        * right; apply (storage_data D Pr a o He); cbn; tauto.
      + exists D. split; [exact R1|]. split; [left; reflexivity|]. split; [split|].
        * left; reflexivity.
        * apply (times_precise _ _ _ D 1); [exact HD|lia|exact D2|right; apply (battery_data D Pr a b He); cbn; tauto|left; reflexivity].
        * apply (times_precise _ _ _ D 1); [exact HD|lia|exact D2|right; apply (battery_data D Pr a b He); cbn; tauto|left; reflexivity].
    - intros c m w Hc Hw. apply (entries s directory period T S sys Good Nodes Comps) in Hc as (e & He & -> & ->).
      exists (D * S)%Z. split; [exact R3|].
      destruct e as [a|r|a g|a o|a|a|a|k|a b]; cbn in Hw; try contradiction; destruct Hw as [<-|[]]; (exists D; split; [exact HD|]; split; [apply Z.divide_refl|]).
      + split; (apply (times_precise _ _ _ D 1); [exact HD|lia|exact D2|right; apply (area_data D Pr a He); cbn; tauto|left; reflexivity]).
      + split; [split|]; (apply (times_precise _ _ _ D 1); [exact HD|lia|exact D2|right; apply (cluster_data D Pr a g He); cbn; tauto|left; reflexivity]).
      + apply (times_precise _ _ _ D 1); [exact HD|lia|exact D2|right; apply (battery_data D Pr a b He); cbn; tauto|left; reflexivity].
  Qed.
End Problem.

(** ** Studies converted and run *)
Section Converted.
  Context (before : dict string num) (per : option Z) (s : an_study) (sys : input_system) (files : list (string * table))
    (directory : string -> result frame) (T S : Z)
    (order : list string -> list string -> list string -> list string) (o : settings) (st : state).
  Hypothesis Conversion : convert_antares before per s = Ok (sys, files).
  Hypothesis Ord : any_order order.
  Context (period : nat).
  Hypothesis Per : hours_of per (Z.of_nat period).
  Hypothesis Good : good_antares s directory period T S.
  Hypothesis Run : main_cli order [antares_library; andromede_v1_library] sys (directory_after directory files) T S = Ok (o, st).
  Hypothesis Precise : precise_antares s directory S.
  Let parts := conversion_parts before per s sys files directory T S Conversion period Per Good.
  Let P1 := proj1 parts.
  Let P2 := proj1 (proj2 parts).
  Let P3 := proj1 (proj2 (proj2 parts)).
  Let P4 := proj2 (proj2 (proj2 parts)).
  Let found := directory_after directory files.
  Let G : good_study libs sys found T S antares_reading := AntaresStudy.study_good s directory period T S sys files Good P1 P2 P4.
  Let PS : precise_study libs sys found T S antares_reading := study_is_precise s directory period T S sys files Good P1 P2 P3 P4 Precise.
  Let Single := single_scenario s directory period T S sys files order o st Good P1 P2 P4 Ord Run.

  Lemma antares_columns x y : study_values s T S o st y x ->
    (forall i sv, nth_error (s_vars (st_solver st)) i = Some sv -> in_column sv (y i)) <->
    (forall e q integer t sc, In e (everything s) -> In (q, integer) (quantities_of e) -> (0 <= t < T)%Z -> (0 <= sc < S)%Z ->
       within (quantity_limits s directory T e q t sc) (x (element_id e) q t sc) /\
       (integer = true -> exists z, x (element_id e) q t sc = Z2Qc z)).
  Proof.
    intros V. destruct (antares_places before per s sys files directory T S order o st Conversion Ord period Per Good Run) as (Pl & Once & _).
    pose proof (antares_variables before per s sys files directory T S order o st Conversion Ord period Per Good Run) as Va.
    split; intros H.
    - intros e q b t sc He Hq Ht Hs. destruct (Pl e q b t sc He Hq Ht Hs) as (i & sv & Hk & Hi & _).
      destruct (Va i sv Hi) as (e' & q' & t' & sc' & He' & Hq' & Ht' & Hs' & Hk' & L & _).
      destruct (Once e q b t sc e' q' _ t' sc' i He Hq He' Hq' Ht Ht' Hk Hk') as (<- & <- & <- & <-).
      rewrite <- (V e q b t sc i He Hq Ht Hs Hk), <- L. destruct (H i sv Hi) as (A & B & C). split; [split; assumption|].
      intros ->. apply C. pose proof (quantity_named e q true) as Q1. pose proof (quantity_named e q (sv_integer sv)) as Q2.
      clear -Hq Hq'. destruct (sv_integer sv); [reflexivity|exfalso]. destruct e; cbn in Hq, Hq'; intuition congruence.
    - intros i sv Hi. destruct (Va i sv Hi) as (e & q & t & sc & He & Hq & Ht & Hs & Hk & L & _).
      destruct (H e q _ t sc He Hq Ht Hs) as ((A & B) & C). rewrite <- L in A, B. rewrite (V e q _ t sc i He Hq Ht Hs Hk). repeat split; assumption.
  Qed.
  Lemma antares_texts x :
    (forall c m k t sc, entry_constraint libs sys c m k -> (0 <= t < T)%Z -> (0 <= sc < S)%Z ->
       text_holds libs sys found T S antares_reading [] x c m k t sc) <->
    (forall r t sc, In (fst (row_place r)) (everything s) -> (0 <= t < T)%Z -> (0 <= sc < S)%Z -> row_holds s directory period T x r 0 t sc).
  Proof.
    split; intros H.
    - intros r t sc Hr Ht Hs. destruct (row_entry s directory period T S sys Good P1 P2 r Hr) as (Hc & _).
      apply (row_meaning s directory period T S sys files Good P1 P2 P3 P4 Single r [] x t sc Hr Hs) in H; [|exact Hc|exact Ht|exact Hs].
      destruct H as (w & [= <-] & H). exact H.
    - intros c m k t sc Hc Ht Hs. destruct (row_source s directory period T S sys Good P1 P2 c m k Hc) as (r & Hr & -> & -> & ->).
      apply (row_meaning s directory period T S sys files Good P1 P2 P3 P4 Single r [] x t sc Hr Hs). exists 0%Qc. split; [reflexivity|]. now apply H.
  Qed.
  Let same_decisions := decisions_same s directory period T S sys Good P1 P2.
  Let same_values := values_same s directory period T S sys Good P1 P2 o st.
  Lemma antares_feasible x y : study_decisions T x -> study_values s T S o st y x ->
    solves y (st_solver st) <-> study_feasible s directory period T S x.
  Proof.
    intros Dx Vx. pose proof Dx as Dx'. pose proof Vx as Vx'. apply same_decisions in Dx'. apply same_values in Vx'.
    unfold study_feasible. rewrite <- (antares_columns x y Vx), <- antares_texts.
    rewrite (plans_file order libs sys found T S antares_reading o st Ord Run G PS x y Dx' Vx'). unfold file_feasible.
    rewrite (columns_file order libs sys found T S antares_reading o st Ord Run G x y Dx' Vx'). tauto.
  Qed.
  Lemma antares_cost x y : study_decisions T x -> study_values s T S o st y x -> objective_value y (st_solver st) = Some (study_cost s T S x).
  Proof.
    intros Dx Vx. apply same_decisions in Dx. apply same_values in Vx.
    rewrite (proj1 (cost_file order libs sys found T S antares_reading o st Ord Run G PS x y Dx Vx)).
    exact (cost_value s directory period T S sys files Good P1 P2 P4 Single x 0 0).
  Qed.
  Lemma antares_optimum x y : study_decisions T x -> study_values s T S o st y x ->
    optimal y (st_solver st) <-> study_cheapest s directory period T S x.
  Proof.
    intros Dx Vx. unfold optimal, study_cheapest. rewrite (antares_feasible x y Dx Vx), (antares_cost x y Dx Vx). apply and_iff_compat_l.
    destruct (antares_places before per s sys files directory T S order o st Conversion Ord period Per Good Run) as (_ & _ & C1 & C2). split.
    - intros (v & [= <-] & H) x' Dx' F. destruct (C1 x' Dx') as [y' Vy]. apply (H y'); [now apply (antares_feasible x' y')|]. now apply antares_cost.
    - intros H. eexists. split; [reflexivity|]. intros y' v' Hs Hc. destruct (C2 y') as (x' & Dx' & Vy).
      rewrite (antares_cost x' y' Dx' Vy) in Hc. injection Hc as <-. apply H; [exact Dx'|]. now apply (antares_feasible x' y').
  Qed.
End Converted.
