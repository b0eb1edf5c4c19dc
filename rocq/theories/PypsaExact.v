(** Converted PyPSA networks whose numbers have a common denominator (see PropPypsaExact.v). *)
From Coq Require Import Lia.
From Verif Require Import Base BaseFacts Expr Visitors Parse SpecParse LexFacts LinearExpr Model Study Strategy Optim System Library
  Main SpecExpr SpecModel SpecLibrary SpecSystem SystemFacts SpecLinear SpecOptim OptimFacts ExpansionFacts SpecMain MainFacts Pypsa SpecPypsa
  PypsaFacts PypsaReading PypsaStudy PypsaProblem SpecScenarios SpecPrecise SpecPreciseFiles PreciseFacts MainPrecise SpecPypsaExact.
Local Open Scope string_scope.
Local Open Scope list_scope.

Section Problem.
  Context (order : list string -> list string) (n n' : pypsa_network) (T S : Z) (gcs : list constraint_data)
    (parts : list (list input_component * list input_connection)).
  Hypothesis Ord : set_order order.
  Hypothesis Pre : preprocess n = Ok n'.
  Hypothesis Good : good_network n T.
  Hypothesis HT : (1 <= T)%Z.
  Hypothesis HS : (1 <= S)%Z.
  Hypothesis Gcs : registered_constraints n' = Ok gcs.
  Hypothesis Parts : mapM (convert_components order (pn_name n')) (map (kdata n') kinds) = Ok parts.
  Hypothesis Precise : precise_network n T S.
  Let sys := conv_sys gcs parts.
  Let files := series_directory (conv_files order n').
  Let made := made order n'.

  Lemma parameter_values k c e a p (P : Qc -> Prop) : In c (names n k) -> made k c e -> In (a, p) (kparams k) ->
    (forall t, P (value n T k c a t)) -> file_values files T e p P.
  Proof.
    intros Hc M Hp H t s q _ Hq. pose proof (parameter_value order n n' T Ord Pre Good HT k c e (a, p) t s Hc M Hp) as V. cbn [fst snd] in V.
    unfold files in Hq. rewrite V in Hq. injection Hq as <-. apply H.
  Qed.
  Lemma times_precise own ports vs D1 D2 D a b : (1 <= D1)%Z -> (1 <= D2)%Z -> (D1 * D2 | D)%Z -> name_precise vs own D1 a -> name_precise vs own D2 b ->
    text_precise S vs own ports D (wtimes a b).
  Proof. intros H1 H2 H3 P1 P2. exists D1, D2. repeat split; assumption. Qed.
  Section Limited.
    Context (D : Z).
    Hypothesis HD : (1 <= D)%Z.
    Hypothesis Data : forall k c, In c (names n k) ->
       (forall a t, In a (multipliers k) -> multiple D (attribute n T k c a t)) /\
       (forall a t, In a (divisors k) -> multiple D (/ attribute n T k c a t)%Qc) /\
       (with_capacity k = true -> multiple D (investment_cost n k c) /\ multiple D (emissions n k c)).
    Let own e := file_values files T e.
    Lemma own_multiple k c e a : In c (names n k) -> made k c e -> In a (multipliers k) -> own e a (multiple D).
    Proof.
      intros Hc M Ha. apply (parameter_values k c e a a); [exact Hc|exact M| |].
      - destruct k; cbn in Ha; intuition; subst; cbn; tauto.
      - intros t. replace (value n T k c a t) with (attribute n T k c a t); [now apply Data|]. destruct k; cbn in Ha; intuition; subst; reflexivity.
    Qed.
    Lemma own_divisor k c e a : In c (names n k) -> made k c e -> In a (divisors k) -> own e a (fun q => multiple D (/ q)%Qc).
    Proof.
      intros Hc M Ha. apply (parameter_values k c e a a); [exact Hc|exact M| |].
      - destruct k; cbn in Ha; intuition; subst; cbn; tauto.
      - intros t. replace (value n T k c a t) with (attribute n T k c a t); [now apply Data|]. destruct k; cbn in Ha; intuition; subst; reflexivity.
    Qed.
    Lemma own_invested k c e : In c (names n k) -> made k c e -> with_capacity k = true -> own e "capital_cost" (multiple D).
    Proof.
      intros Hc M Hk. apply (parameter_values k c e "capital_cost" "capital_cost"); [exact Hc|exact M| |].
      - destruct k; try discriminate; cbn; tauto.
      - intros t. replace (value n T k c "capital_cost" t) with (investment_cost n k c); [now apply Data|]. destruct k; try discriminate; reflexivity.
    Qed.
    Lemma own_emissions k c e : In c (names n k) -> made k c e -> with_capacity k = true -> k <> Links -> own e "emission_factor" (multiple D).
    Proof.
      intros Hc M Hk Hl. apply (parameter_values k c e "co2_emissions" "emission_factor"); [exact Hc|exact M| |].
      - destruct k; try discriminate; try (now destruct Hl); cbn; tauto.
      - intros t. replace (value n T k c "co2_emissions" t) with (emissions n k c); [now apply Data|]. destruct k; try discriminate; reflexivity.
    Qed.
    (** ** What comes through the ports *)
    Let D1 : (1 * D | D)%Z. Proof. exists 1%Z; lia. Qed.
    Let D2 : (D * 1 | D)%Z. Proof. exists 1%Z; lia. Qed.
    Let DD : (D * D | D * D)%Z. Proof. apply Z.divide_refl. Qed.
    Let LD : (1 <= D * D)%Z. Proof. nia. Qed.
    Let none : string -> string -> Z -> Prop := fun _ _ _ => False.
    Definition arrives (D : Z) (emd : input_component * in_model * in_definition) : Prop :=
      let '(e', m', d) := emd in text_precise S (map yv_id (ym_variables m')) (file_values files T e') none D (pypsa_reading m' (yd_definition d)).
    Ltac num k c e Hc M := apply (own_multiple k c e _ Hc M); cbn; tauto.
    Lemma flow_precise k port bus c emd : In c (names n k) -> In (bus, (port, "p_balance_port")) (kconns k) ->
      In emd (brought_by gcs parts k port c) -> arrives (D * D) emd.
    Proof.
      intros Hc Hk Hd. destruct (made_exists order n n' parts Pre Parts k c Hc) as (e & M & _).
      unfold brought_by in Hd. rewrite (definition_of order n n' T gcs parts Pre Good Gcs Parts k c e port "flow" Hc M) in Hd.
      destruct k; cbn in Hk; repeat (destruct Hk as [[= <- <-]|Hk]; [cbn [find kmod ym_definitions lib_generator lib_load lib_link lib_storage_unit lib_store
        ydef yd_port yd_field String.eqb Ascii.eqb Bool.eqb andb] in Hd; destruct Hd as [<-|[]]|]); try destruct Hk.
      - apply (times_precise _ _ _ 1 D); [lia|exact HD|exists D; ring|left; reflexivity|right; num Generators c e Hc M].
      - apply (times_precise _ _ _ D D); [exact HD|exact HD|exact DD|right; num Loads c e Hc M..].
      - left. reflexivity.
      - apply (times_precise _ _ _ D 1); [exact HD|lia|exists D; ring|right; num Links c e Hc M|left; reflexivity].
      - split; left; reflexivity.
      - left. reflexivity.
    Qed.
    Lemma emission_precise k c emd : In c (emitters n k) -> with_capacity k = true -> k <> Links ->
      In emd (text_definition libs sys (study_id k c) "emission_port" "emission") -> arrives (D * D) emd.
    Proof.
      intros Hg Hk Hl Hd. unfold emitters in Hg. apply filter_In in Hg. destruct Hg as [Hc _].
      destruct (made_exists order n n' parts Pre Parts k c Hc) as (e & M & _).
      unfold sys in Hd. rewrite (definition_of order n n' T gcs parts Pre Good Gcs Parts k c e _ _ Hc M) in Hd.
      destruct k; try discriminate; try (now destruct Hl);
        (cbn [find kmod ym_definitions lib_generator lib_store lib_storage_unit ydef yd_port yd_field String.eqb Ascii.eqb Bool.eqb andb] in Hd; destruct Hd as [<-|[]]).
      - exists D, D. split; [exact HD|]. split; [exact HD|]. split; [exact DD|]. split.
        + apply (times_precise _ _ _ 1 D); [lia|exact HD|exact D1|left; reflexivity|right; now apply (own_emissions Generators c)].
        + split; [reflexivity|]. apply (own_divisor Generators c e _ Hc M). now left.
      - exists D, D. split; [exact HD|]. split; [exact HD|]. split; [exact DD|]. split; [right; now apply (own_emissions StorageUnits c)|].
        cbn [text_precise]. rewrite zero_value. apply multiple_0.
      - exists D, D. split; [exact HD|]. split; [exact HD|]. split; [exact DD|]. split; [right; now apply (own_emissions Stores c)|].
        cbn [text_precise]. rewrite zero_value. apply multiple_0.
    Qed.
  End Limited.

  Lemma network_is_precise : precise_study libs sys files T S pypsa_reading.
  Proof.
    destruct Precise as (D & HD & H2 & H3 & Data & Const).
    assert (R1 : in_range D) by (split; [lia|]; clear -HD H2; nia).
    assert (R2 : in_range (D * D)) by (split; [clear -HD; nia|exact H2]).
    assert (R3 : in_range (D * S)) by (split; [clear -HD HS; nia|exact H3]).
    assert (D1 : (1 * D | D)%Z) by (exists 1%Z; lia). assert (D2 : (D * 1 | D)%Z) by (exists 1%Z; lia).
    assert (M0 : forall D', multiple D' (decimal_value "0")) by (intros D'; rewrite zero_value; apply multiple_0).
    assert (M1 : forall D', multiple D' (decimal_value "1")) by (intros D'; rewrite one_value; apply multiple_1).
    pose proof (own_multiple D Data) as Num.
    assert (Emission : forall g, In g gcs -> forall e' m' d, In (e', m', d) (text_connected libs sys (ic_id (gentry g)) "emission_port" "emission") -> arrives (D * D) (e', m', d)).
    { intros g Hg e' m' d Hd. change (ic_id (gentry g)) with (gc_name g) in Hd. unfold sys in Hd.
      rewrite (constraint_connected order n n' T gcs parts Pre Good Gcs Parts g Hg) in Hd. unfold contributing in Hd. rewrite !flat_map_app, !flat_map_map in Hd.
      apply in_app_or in Hd as [Hd|Hd]; [|apply in_app_or in Hd as [Hd|Hd]]; apply in_flat_map in Hd as (c & Hc & Hd).
      - apply (emission_precise D HD Data Generators c); [exact Hc|reflexivity|discriminate|exact Hd].
      - apply (emission_precise D HD Data Stores c); [exact Hc|reflexivity|discriminate|exact Hd].
      - apply (emission_precise D HD Data StorageUnits c); [exact Hc|reflexivity|discriminate|exact Hd]. }
    assert (Quota : forall g, In g gcs -> file_values files T (gentry g) "quota" (multiple (D * D))).
    { intros g Hg t s q _ Hq. destruct (Forall2_In_r _ _ _ _ (constraints_made n n' T gcs Pre Good Gcs) Hg) as (i & Hi & En & Ec & _).
      unfold file_value in Hq. cbn [gentry convert_constraint fst parameters_of ic_parameters find ip_id] in Hq. rewrite String.eqb_refl in Hq. cbn in Hq. rewrite Ec in Hq.
      injection Hq as <-. apply (multiple_divides D); [exists D; ring|]. now apply Const. }
    split.
    - intros e m c Hk. split; [|exact (bounds_follow order n n' T gcs parts Pre Good Gcs Parts e m c Hk)].
      destruct (row_source order n n' T gcs parts Pre Good Gcs Parts e m c Hk) as (k & Hn & R).
      unfold row_is in R. destruct k; cbn [source] in R;
        try (destruct R as (-> & Hc & M & ->)); try (destruct R as (-> & gd & Hg & <- & -> & -> & Em)); unfold constraint_nth; cbn [of_network] in Hn.
      + exists (D * D)%Z. split; [exact R2|]. split; [|apply M0]. intros e' m' d Hd.
        destruct (made_id _ _ _ _ _ M) as (Ei & _). rewrite Ei in Hd. change (study_id Buses b) with (b ++ "")%string in Hd. rewrite append_nil in Hd.
        unfold sys in Hd. rewrite (bus_connected order n n' T gcs parts Pre Good Gcs Parts b Hc) in Hd.
        apply in_flat_map in Hd as (k & _ & Hd). apply in_flat_map in Hd as ([col [port bp]] & Hbp & Hd). cbn [fst snd] in Hd.
        assert (bp = "p_balance_port") by (destruct k; cbn in Hbp; intuition congruence). subst bp.
        apply in_flat_map in Hd as (c & Hc' & Hd). unfold attached in Hc'. apply filter_In in Hc' as [Hc' _].
        exact (flow_precise D HD Data k port col c _ Hc' Hbp Hd).
      + exists D. split; [exact R1|]. split; [|apply M0]. intros e' m' d Hd. destruct (made_id _ _ _ _ _ M) as (Ei & _). rewrite Ei in Hd.
        unfold sys in Hd. now rewrite (bus_reactive order n n' T gcs parts Pre Good Gcs Parts) in Hd.
      + exists D. split; [exact R1|]. split; [left; reflexivity|]. apply (times_precise _ _ _ 1 D); [lia|exact HD|exact D1|left; reflexivity|right; apply (Num Generators g); auto; cbn; tauto].
      + exists D. split; [exact R1|]. split; [left; reflexivity|]. apply (times_precise _ _ _ 1 D); [lia|exact HD|exact D1|left; reflexivity|right; apply (Num Generators g); auto; cbn; tauto].
      + exists D. split; [exact R1|]. split; [left; reflexivity|right; apply (Num Generators g); auto; cbn; tauto].
      + exists D. split; [exact R1|]. split; [left; reflexivity|right; apply (Num Generators g); auto; cbn; tauto].
      + exists D. split; [exact R1|]. split; [left; reflexivity|]. apply (times_precise _ _ _ D 1); [exact HD|lia|exact D2|right; apply (Num Links l); auto; cbn; tauto|left; reflexivity].
      + exists D. split; [exact R1|]. split; [left; reflexivity|]. apply (times_precise _ _ _ D 1); [exact HD|lia|exact D2|right; apply (Num Links l); auto; cbn; tauto|left; reflexivity].
      + exists D. split; [exact R1|]. split; [left; reflexivity|]. apply (times_precise _ _ _ D 1); [exact HD|lia|exact D2|right; apply (Num StorageUnits u); auto; cbn; tauto|left; reflexivity].
      + exists D. split; [exact R1|]. split; [left; reflexivity|]. apply (times_precise _ _ _ D 1); [exact HD|lia|exact D2|right; apply (Num StorageUnits u); auto; cbn; tauto|left; reflexivity].
      + exists D. split; [exact R1|]. split; [left; reflexivity|]. apply (times_precise _ _ _ D 1); [exact HD|lia|exact D2|right; apply (Num StorageUnits u); auto; cbn; tauto|left; reflexivity].
      + exists D. split; [exact R1|]. split; [left; reflexivity|]. split; [split; [split; [split|]|]|].
        * exists D, 1%Z. split; [exact HD|]. split; [lia|]. split; [exact D2|]. split; [|left; reflexivity].
          split; [apply M1|right; apply (Num StorageUnits u); auto; cbn; tauto].
        * apply (times_precise _ _ _ D 1); [exact HD|lia|exact D2|right; apply (Num StorageUnits u); auto; cbn; tauto|left; reflexivity].
        * exists 1%Z, D. split; [lia|]. split; [exact HD|]. split; [exact D1|]. split; [left; reflexivity|].
          split; [reflexivity|]. apply (own_divisor D Data StorageUnits u e _ Hc M). now left.
        * right; apply (Num StorageUnits u); auto; cbn; tauto.
        * left; reflexivity.
      + exists D. split; [exact R1|]. split; [left; reflexivity|]. apply (times_precise _ _ _ D 1); [exact HD|lia|exact D2|right; apply (Num Stores e0); auto; cbn; tauto|left; reflexivity].
      + exists D. split; [exact R1|]. split; [left; reflexivity|]. apply (times_precise _ _ _ D 1); [exact HD|lia|exact D2|right; apply (Num Stores e0); auto; cbn; tauto|left; reflexivity].
      + exists D. split; [exact R1|]. split; [left; reflexivity|]. split.
        * exists D, 1%Z. split; [exact HD|]. split; [lia|]. split; [exact D2|]. split; [|left; reflexivity].
          split; [apply M1|right; apply (Num Stores e0); auto; cbn; tauto].
        * left; reflexivity.
      + exists (D * D)%Z. split; [exact R2|]. unfold gmod. rewrite Em. split; [exact (Emission gd Hg)|right; exact (Quota gd Hg)].
      + exists (D * D)%Z. split; [exact R2|]. unfold gmod. rewrite Em. split; [exact (Emission gd Hg)|right; exact (Quota gd Hg)].
    - intros e m w He Hw. apply (entries order n n' T gcs parts Pre Good Gcs Parts) in He.
      destruct He as [(k & c & Hc & M & ->)|(g & Hg & -> & ->)]; [|unfold gmod in Hw; destruct (String.eqb _ _) in Hw; destruct Hw].
      exists (D * S)%Z. split; [exact R3|].
      assert (cost_precise : forall body a b, file_precise libs sys files T S pypsa_reading e (kmod k) D body ->
        file_precise libs sys files T S pypsa_reading e (kmod k) D (wtimes a b) -> file_precise libs sys files T S pypsa_reading e (kmod k) (D * S) (wcost body (wtimes a b))).
      { intros body a b H (E1 & E2 & L1 & L2 & L3 & L4). split; [exists D; split; [exact HD|]; split; [apply Z.divide_refl|exact H]|].
        exists E1, E2. split; [exact L1|]. split; [exact L2|]. split; [|exact L4]. apply (Z.divide_trans _ D); [exact L3|]. exists S. ring. }
      destruct k; cbn in Hw; try contradiction; destruct Hw as [<-|[]].
      + apply cost_precise; [|apply (times_precise _ _ _ 1 D); [lia|exact HD|exact D1|left; reflexivity|right; now apply (own_invested D Data Generators c)]].
        apply (times_precise _ _ _ D 1); [exact HD|lia|exact D2|right; apply (Num Generators c); auto; cbn; tauto|left; reflexivity].
      + apply cost_precise; [|apply (times_precise _ _ _ D 1); [exact HD|lia|exact D2|right; now apply (own_invested D Data Links c)|left; reflexivity]].
        apply (times_precise _ _ _ D 1); [exact HD|lia|exact D2|right; apply (Num Links c); auto; cbn; tauto|left; reflexivity].
      + apply cost_precise; [|apply (times_precise _ _ _ D 1); [exact HD|lia|exact D2|right; now apply (own_invested D Data StorageUnits c)|left; reflexivity]].
        split; [split|]; (apply (times_precise _ _ _ D 1); [exact HD|lia|exact D2|right; apply (Num StorageUnits c); auto; cbn; tauto|left; reflexivity]).
      + apply cost_precise; [|apply (times_precise _ _ _ D 1); [exact HD|lia|exact D2|right; now apply (own_invested D Data Stores c)|left; reflexivity]].
        split; (apply (times_precise _ _ _ D 1); [exact HD|lia|exact D2|right; apply (Num Stores c); auto; cbn; tauto|left; reflexivity]).
  Qed.
End Problem.

(** ** Networks converted and run *)
Section Converted.
  Context (order : list string -> list string) (n : pypsa_network) (sys : input_system) (files : dict string frame) (T S : Z)
    (order' : list string -> list string -> list string -> list string) (o : settings) (st : state).
  Hypothesis Ord : set_order order.
  Hypothesis Conv : convert_pypsa order n = Ok (sys, files).
  Hypothesis Good : good_network n T.
  Hypothesis HT : (1 <= T)%Z.
  Hypothesis HS : (1 <= S)%Z.
  Hypothesis Ord' : any_order order'.
  Hypothesis Run : main_cli order' [pypsa_library] sys (series_directory files) T S = Ok (o, st).
  Hypothesis Precise : precise_network n T S.
  Let Places := network_places order n sys files T S order' o st Ord Conv Good HT HS Ord' Run.
  Let Variables := network_variables order n sys files T S order' o st Ord Conv Good HT HS Ord' Run.

  Lemma limits_still k c q t t' : In (q, false) (quantities k) -> limits n T k c q t = limits n T k c q t'.
  Proof. destruct k; cbn; intros H; repeat (destruct H as [H|H]; [first [discriminate H|injection H as <-; reflexivity]|]); destruct H. Qed.
  Lemma network_columns x y : network_values n T S o st y x ->
    (forall i sv, nth_error (s_vars (st_solver st)) i = Some sv -> in_column sv (y i)) <->
    (forall k c q varies t s, In c (names n k) -> In (q, varies) (quantities k) -> (0 <= t < T)%Z -> (0 <= s < S)%Z ->
       at_least (fst (limits n T k c q t)) (x (study_id k c) q t s) /\ at_most (snd (limits n T k c q t)) (x (study_id k c) q t s)).
  Proof.
    intros V. destruct Places as (Pl & Once & _). split; intros H.
    - intros k c q varies t s Hc Hq Ht Hs. destruct (Pl k c q varies t s Hc Hq Ht Hs) as (i & sv & Hk & Hi & _).
      destruct (Variables i sv Hi) as (k' & c' & q' & varies' & t' & s' & Hc' & Hq' & Ht' & Hs' & Hk' & _ & L & _).
      destruct (Once k c q varies t s k' c' q' varies' t' s' i Hc Hq Hc' Hq' Ht Ht' Hk Hk') as (<- & <- & <- & Same).
      assert (E : limits n T k c q t = limits n T k c q t').
      { destruct varies; [destruct (Same eq_refl) as [-> _]; reflexivity|]. now apply limits_still. }
      rewrite <- (V k c q varies t s i Hc Hq Ht Hs Hk), E, <- L. destruct (H i sv Hi) as (A & B & _). split; assumption.
    - intros i sv Hi. destruct (Variables i sv Hi) as (k & c & q & varies & t & s & Hc & Hq & Ht & Hs & Hk & Hint & L & _).
      destruct (H k c q varies t s Hc Hq Ht Hs) as (A & B). rewrite <- L in A, B. rewrite (V k c q varies t s i Hc Hq Ht Hs Hk).
      repeat split; [exact A|exact B|]. rewrite Hint. discriminate.
  Qed.
  Let steps := conversion_steps _ _ _ _ Conv.
  Lemma network_plans x y : network_decisions n T x -> network_values n T S o st y x ->
    (solves y (st_solver st) <-> network_feasible n T S x) /\ objective_value y (st_solver st) = Some (network_cost n T S x).
  Proof.
    intros Dx Vx. pose proof (network_columns x y Vx) as Co. destruct steps as (n' & gcs & parts & Pre & Gcs & Parts & Es & Ef).
    pose proof Run as R. rewrite Es, Ef in R.
    pose proof (study_good order n n' T S gcs parts Ord Pre Good HT HS Gcs Parts) as G.
    pose proof (network_is_precise order n n' T S gcs parts Ord Pre Good HT HS Gcs Parts Precise) as PS.
    pose proof Dx as Dx'. pose proof Vx as Vx'.
    apply (decisions_same order n n' T gcs parts Pre Good Gcs Parts) in Dx'. apply (values_same order n n' T S gcs parts Pre Good Gcs Parts) in Vx'.
    split.
    - rewrite (plans_file order' libs _ _ T S pypsa_reading o st Ord' R G PS x y Dx' Vx').
      unfold network_feasible. rewrite <- Co. unfold file_feasible.
      rewrite <- (columns_file order' libs _ _ T S pypsa_reading o st Ord' R G x y Dx' Vx'). apply and_iff_compat_l. split; intros H.
      + intros k t s Hk Ht Hs. destruct (row_exists order n n' T gcs parts Pre Good Gcs Parts k Hk) as (e & m & c & Hr).
        destruct (row_entry order n n' T gcs parts Pre Good Gcs Parts k e m c Hr) as (Hc & _).
        apply (row_meaning order n n' T S gcs parts Ord Pre Good HT Gcs Parts k e m c [] x t s Hr) in H; [|exact Hc|exact Ht|exact Hs].
        destruct H as (w & [= <-] & H). exact H.
      + intros e m c t s Hc Ht Hs. destruct (row_source order n n' T gcs parts Pre Good Gcs Parts e m c Hc) as (k & Hk & Hr).
        apply (row_meaning order n n' T S gcs parts Ord Pre Good HT Gcs Parts k e m c [] x t s Hr). exists 0%Qc. split; [reflexivity|]. now apply H.
    - rewrite (proj1 (cost_file order' libs _ _ T S pypsa_reading o st Ord' R G PS x y Dx' Vx')).
      exact (cost_value order n n' T S gcs parts Ord Pre Good HT HS Gcs Parts x 0 0 Dx).
  Qed.
  Lemma pypsa_feasible x y : network_decisions n T x -> network_values n T S o st y x -> solves y (st_solver st) <-> network_feasible n T S x.
  Proof. intros Dx Vx. exact (proj1 (network_plans x y Dx Vx)). Qed.
  Lemma pypsa_cost x y : network_decisions n T x -> network_values n T S o st y x -> objective_value y (st_solver st) = Some (network_cost n T S x).
  Proof. intros Dx Vx. exact (proj2 (network_plans x y Dx Vx)). Qed.
  Lemma pypsa_optimum x y : network_decisions n T x -> network_values n T S o st y x ->
    optimal y (st_solver st) <-> network_cheapest n T S x.
  Proof.
    intros Dx Vx. unfold optimal, network_cheapest. rewrite (pypsa_feasible x y Dx Vx), (pypsa_cost x y Dx Vx). apply and_iff_compat_l.
    destruct Places as (_ & _ & C1 & C2). split.
    - intros (v & [= <-] & H) x' Dx' F. destruct (C1 x' Dx') as [y' Vy]. apply (H y'); [now apply (pypsa_feasible x' y')|]. now apply pypsa_cost.
    - intros H. eexists. split; [reflexivity|]. intros y' v' Hs Hc. destruct (C2 y') as (x' & Dx' & Vy).
      rewrite (pypsa_cost x' y' Dx' Vy) in Hc. injection Hc as <-. apply H; [exact Dx'|]. now apply (pypsa_feasible x' y').
  Qed.
  Lemma pypsa_unsolvable : (forall x, network_decisions n T x -> ~ network_feasible n T S x) -> forall y, ~ solves y (st_solver st).
  Proof.
    intros H y Hy. destruct Places as (_ & _ & _ & C2). destruct (C2 y) as (x & Dx & Vx). apply (H x Dx). now apply (pypsa_feasible x y).
  Qed.
End Converted.
