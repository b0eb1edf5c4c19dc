(** Converted PyPSA networks that run are consistent (see PropConvertRun.v). *)
From Coq Require Import Lia Permutation.
From Verif Require Import Base BaseFacts Expr Visitors Parse SpecParse LexFacts LinearExpr Model Study Strategy Optim System Library
  Main SpecExpr SpecModel SpecLibrary SpecSystem SystemFacts SpecLinear SpecOptim OptimFacts SpecMain SpecRun MainFacts MainNeeds RunNeeds Pypsa SpecPypsa
  PypsaFacts PypsaReading PypsaStudy PypsaProblem SpecConvert PypsaReady.
Local Open Scope string_scope.
Local Open Scope list_scope.

(** the attributes that do not depend on the time *)
Lemma constant_parameter k a : In a (attributes k) -> ~ In a (time_attributes k) ->
  exists p, In p (ym_parameters (kmod k)) /\ In (a, yp_id p) (kparams k) /\ yp_time p = false.
Proof.
  intros H N. destruct k; cbn in H, N; each H;
    first [exfalso; tauto
      |match goal with |- exists p, In p (ym_parameters (kmod ?k)) /\ In (?a, _) _ /\ _ =>
         let l := eval cbv in (ym_parameters (kmod k)) in
         let rec go l := lazymatch l with ?p :: ?l => first [exists p; solve [split; [cbn; tauto|split; [cbn; tauto|reflexivity]]]|go l] end in go l end].
Qed.
(** the ports where buses are *)
Lemma balance_models m : In m (yl_models pypsa_library) -> In "p_balance_port" (map yo_id (ym_ports m)) ->
  m = lib_bus \/ has_definition m "p_balance_port" "flow".
Proof.
  intros Hm Hp. cbn in Hm. each Hm; cbn in Hp; try (exfalso; intuition discriminate);
    first [now left|right; eexists; solve [split; [cbn; left; reflexivity|split; reflexivity]]].
Qed.
Lemma refers_kind k y m : refers libs ("pypsa_models." ++ kmodel k)%string y m -> y = pypsa_library /\ m = kmod k.
Proof.
  intros ([<-|[]] & Hm & _ & _ & E). split; [reflexivity|]. cbn in Hm. destruct k; each Hm; first [reflexivity|discriminate E].
Qed.

Section Needs.
  Context (order : list string -> list string) (n : pypsa_network) (sys : input_system) (files : dict string frame) (T S : Z)
    (order' : list string -> list string -> list string -> list string) (o : settings) (st : state).
  Hypothesis Ord : set_order order.
  Hypothesis Conv : convert_pypsa order n = Ok (sys, files).
  Hypothesis Good : good_network n T.
  Hypothesis HT : (1 <= T)%Z.
  Hypothesis HS : (1 <= S)%Z.
  Hypothesis Ord' : any_order order'.
  Hypothesis Run : main_cli order' [pypsa_library] sys (series_directory files) T S = Ok (o, st).
  Lemma limits_constant k c q t t' : In (q, false) (quantities k) -> limits n T k c q t = limits n T k c q t'.
  Proof.
    intros H. destruct k; cbn in H; repeat (destruct H as [H|H]; [first [discriminate H|injection H as <-; reflexivity]|]); destruct H.
  Qed.
  Lemma limits_in_order k c q varies t : In c (names n k) -> In (q, varies) (quantities k) -> (0 <= t < T)%Z ->
    num_le (fst (limits n T k c q t)) (snd (limits n T k c q t)).
  Proof.
    intros Hc Hq Ht. destruct (network_places order n sys files T S order' o st Ord Conv Good HT HS Ord' Run) as (P & U & _).
    destruct (P k c q varies t 0%Z Hc Hq Ht ltac:(lia)) as (i & sv & Hh & Hi & _).
    destruct (network_variables order n sys files T S order' o st Ord Conv Good HT HS Ord' Run i sv Hi) as (k' & c' & q' & v' & t' & s' & Hc' & Hq' & Ht' & Hs' & Hh' & _ & L & Le).
    destruct (U _ _ _ _ _ _ _ _ _ _ _ _ _ Hc Hq Hc' Hq' Ht Ht' Hh Hh') as (-> & -> & -> & X).
    assert (E : limits n T k' c' q' t = limits n T k' c' q' t').
    { destruct varies; [now destruct (X eq_refl) as [-> _]|]. now apply limits_constant. }
    rewrite E, <- L. exact Le.
  Qed.
  Lemma buses_exist k c column b : In c (names n k) -> In column (bus_columns k) -> entry_of (table n k) c column = Some (CText b) -> In b (names n Buses).
  Proof.
    intros Hc Hcol Eb. destruct (conversion_steps _ _ _ _ Conv) as (n' & gcs & parts & Pre & Gcs & Parts & Es & Ef).
    assert (B : exists bp, In bp (kconns k) /\ fst bp = column /\ snd (snd bp) = "p_balance_port" /\ has_definition (kmod k) (fst (snd bp)) "flow").
    { destruct k; cbn in Hcol; each Hcol; eexists;
        first [solve [split; [cbn; left; reflexivity|split; [reflexivity|split; [reflexivity|eexists; split; [cbn; left; reflexivity|split; reflexivity]]]]]
              |solve [split; [cbn; right; left; reflexivity|split; [reflexivity|split; [reflexivity|eexists; split; [cbn; right; left; reflexivity|split; reflexivity]]]]]
              |solve [split; [cbn; left; reflexivity|split; [reflexivity|split; [reflexivity|eexists; split; [cbn; right; left; reflexivity|split; reflexivity]]]]]
              |solve [split; [cbn; right; left; reflexivity|split; [reflexivity|split; [reflexivity|eexists; split; [cbn; left; reflexivity|split; reflexivity]]]]]]. }
    destruct B as (bp & Hbp & E1 & E2 & Def).
    assert (K : In (kconn n k bp c) (is_connections sys)).
    { rewrite Es, (sys_connections order n n' T gcs parts Pre Good Gcs Parts). apply in_or_app. left. apply in_flat_map. exists k. split; [apply kinds_all|].
      apply in_flat_map. exists bp. split; [exact Hbp|]. now apply in_map. }
    destruct (run_connections order' libs sys _ T S o st Ord' Run _ K) as (y1 & m1 & y2 & m2 & t & P1 & P2 & D).
    cbn [kconn icn_component1 icn_port1 icn_component2 icn_port2] in P1, P2, D. rewrite E2 in P1, D.
    assert (Eb' : bus_of n k (fst bp) c = b) by (unfold bus_of; now rewrite E1, Eb). rewrite Eb' in P1.
    destruct P1 as (e1 & q1 & He1 & I1 & R1 & Hq1 & Ep1 & U1). destruct P2 as (e2 & q2 & He2 & I2 & R2 & Hq2 & Ep2 & U2).
    assert (M2 : m2 = kmod k).
    { destruct (made_exists order n n' parts Pre Parts k c Hc) as (e & M & He). pose proof (made_id _ _ _ _ _ M) as (Ei & Em & _).
      assert (e2 = e).
      { pose proof (sys_nodup order n n' T gcs parts Pre Good Gcs Parts) as N. rewrite <- Es in N.
        apply (NoDup_map_inj_in ic_id (all_inputs sys) e2 e N He2); [|congruence]. rewrite Es, (sys_inputs gcs parts). apply in_or_app. now left. }
      subst e2. rewrite Em in R2. now apply refers_kind in R2. }
    subst m2.
    assert (Flow : In "flow" (pt_fields t)).
    { apply lone_usable in U1.
      - destruct U1 as (y & p & [<-|[]] & _ & Hp & Ek & ->). destruct R1 as ([<-|[]] & Hm1 & _). cbn in Hm1.
        assert (Et : yo_type q1 = "flow") by (each Hm1; cbn in Hq1; each Hq1; first [reflexivity|discriminate Ep1]).
        rewrite Et in Ek. cbn in Hp. each Hp; first [discriminate Ek|cbn; auto].
      - intros y [<-|[]]. reflexivity. }
    assert (M1 : m1 = lib_bus).
    { destruct R1 as (Hy1 & Hm1 & _). destruct Hy1 as [<-|[]].
      destruct (balance_models m1 Hm1) as [X|X]; [rewrite <- Ep1; now apply in_map|exact X|exfalso].
      destruct (D _ Flow) as [[_ A]|[A _]]; [exact (A Def)|exact (A X)]. }
    subst m1. rewrite Es, (sys_inputs gcs parts) in He1. apply in_app_or in He1. destruct He1 as [He1|He1].
    - apply (comps_in order n n' parts Pre Parts) in He1. destruct He1 as (k1 & c1 & Hc1 & M). pose proof (made_id _ _ _ _ _ M) as (Ei & Em & _).
      rewrite Em in R1. apply refers_kind in R1. destruct R1 as [_ R1]. destruct k1; try discriminate R1.
      rewrite Ei in I1. unfold study_id in I1. rewrite append_nil in I1. now subst c1.
    - exfalso. apply in_map_iff in He1. destruct He1 as (g & <- & Hg). destruct R1 as ([<-|[]] & _ & _ & _ & E).
      destruct (Forall2_In_r _ _ _ _ (constraints_made n n' T gcs Pre Good Gcs) Hg) as (c0 & _ & _ & _ & _ & X).
      unfold gentry, convert_constraint in E. cbn [fst ic_model] in E. destruct X as [[_ X]|[_ X]]; rewrite X in E; discriminate E.
  Qed.
  Lemma series_allowed k c a l : series_of_attribute n k c a = Some l -> In a (attributes k) -> In a (time_attributes k).
  Proof.
    intros Hs Ha. destruct (in_dec string_dec a (time_attributes k)) as [H|N]; [exact H|exfalso].
    destruct (conversion_steps _ _ _ _ Conv) as (n' & gcs & parts & Pre & Gcs & Parts & Es & Ef).
    destruct (series_known n T Good k c a l Hs) as (Hc & _). destruct (constant_parameter k a Ha N) as (q & Hq & Hp & Et).
    destruct (made_exists order n n' parts Pre Parts k c Hc) as (e & M & He). pose proof (made_id _ _ _ _ _ M) as (_ & Em & F).
    pose proof (study_good order n n' T S gcs parts Ord Pre Good HT HS Gcs Parts) as (_ & _ & Nid & Nk & _). rewrite <- Es in Nid, Nk.
    assert (Hin : In e (is_components sys)) by (rewrite Es; cbn; apply in_or_app; now left).
    assert (En : entry libs sys e (kmod k)).
    { rewrite Es. apply (entries order n n' T gcs parts Pre Good Gcs Parts). left. eauto. }
    assert (Np : NoDup (map yp_id (ym_parameters (kmod k)))).
    { destruct (library_good (kmod k) ltac:(destruct k; cbn; tauto)) as [_ (X & _)]. exact X. }
    destruct (run_given order' libs sys _ T S o st Ord' Run e (kmod k) q Nid Hin (proj2 En) Hq Np) as (p & Hpp & Ei & V). destruct (V Nk) as [V1 _].
    destruct (Forall2_In_l _ _ _ _ F Hp) as (p' & Hp' & G). destruct (parameter_id _ _ _ _ _ _ G) as [Ei' _]. cbn [snd] in Ei'.
    assert (p' = p).
    { assert (Nps : NoDup (map ip_id (parameters_of e))).
      { apply (NoDup_map_inv (fun x => (ic_id e, x))). rewrite map_map. unfold parameter_keys in Nk.
        refine (nodup_piece (fun e0 => map (fun p0 => (ic_id e0, ip_id p0)) (parameters_of e0)) _ e Nk _). apply in_or_app. now left. }
      apply (NoDup_map_inj_in ip_id (parameters_of e) p' p Nps Hp' Hpp). congruence. }
    subst p'. pose proof (parameter_made order n n' T Ord Pre Good k c (a, yp_id q) p Hc Hp G) as X. cbn [fst] in X. rewrite Hs in X.
    destruct X as [X _]. rewrite (V1 X) in Et. discriminate Et.
  Qed.
  Lemma running_consistent : consistent_network n T.
  Proof. split; [exact buses_exist|]. split; [exact series_allowed|exact limits_in_order]. Qed.
End Needs.
