(** The problem that the study of a converted PyPSA network gives. *)
From Coq Require Import Lia Permutation.
From Verif Require Import Base BaseFacts Expr Visitors Parse SpecParse LexFacts LinearExpr Model Study Strategy Optim System Library
  Main SpecExpr SpecModel SpecLibrary SpecSystem SystemFacts SpecLinear LinearFacts SpecOptim OptimFacts SpecMain MentionFacts MainFacts Pypsa SpecPypsa
  PypsaFacts PypsaReading PypsaStudy.
Local Open Scope string_scope.
Local Open Scope list_scope.

Lemma few_more a b l : (a <= b)%nat -> few a l -> few b l.
Proof. intros H [H1 H2]. split; [exact (Nat.le_trans _ _ _ H1 H)|exact H2]. Qed.
Lemma zero_value : decimal_value "0" = 0%Qc.
Proof. apply Qc_is_canon. reflexivity. Qed.
Lemma one_value : decimal_value "1" = 1%Qc.
Proof. apply Qc_is_canon. reflexivity. Qed.

(** ** Values of texts *)
Section Texts.
  Context (E : env) (vs : list string).
  Lemma m_times a b t s va vb : name_value E vs a t s = Some va -> name_value E vs b t s = Some vb ->
    meaning E vs (wtimes a b) t s = Some (va * vb)%Qc.
  Proof. intros H1 H2. change (olift2 Qcmult (name_value E vs a t s) (name_value E vs b t s) = Some (va * vb)%Qc). now rewrite H1, H2. Qed.
  Lemma m_mul a b t s va vb : meaning E vs a t s = Some va -> meaning E vs b t s = Some vb ->
    meaning E vs (WMul Times a b) t s = Some (va * vb)%Qc.
  Proof. intros H1 H2. change (olift2 Qcmult (meaning E vs a t s) (meaning E vs b t s) = Some (va * vb)%Qc). now rewrite H1, H2. Qed.
  Lemma m_over a b t s va vb : meaning E vs a t s = Some va -> meaning E vs b t s = Some vb -> vb <> 0%Qc ->
    meaning E vs (WMul Over a b) t s = Some (va / vb)%Qc.
  Proof.
    intros H1 H2 N. change (odiv (meaning E vs a t s) (meaning E vs b t s) = Some (va / vb)%Qc). rewrite H1, H2. cbn [odiv].
    destruct (Qceqb vb 0) eqn:Z0; [|reflexivity]. exfalso. apply N. now apply Qceqb_eq.
  Qed.
  Lemma m_plus a b t s va vb : meaning E vs a t s = Some va -> meaning E vs b t s = Some vb ->
    meaning E vs (WAdd Plus a b) t s = Some (va + vb)%Qc.
  Proof. intros H1 H2. change (olift2 Qcplus (meaning E vs a t s) (meaning E vs b t s) = Some (va + vb)%Qc). now rewrite H1, H2. Qed.
  Lemma m_minus a b t s va vb : meaning E vs a t s = Some va -> meaning E vs b t s = Some vb ->
    meaning E vs (WAdd Minus a b) t s = Some (va - vb)%Qc.
  Proof. intros H1 H2. change (olift2 Qcminus (meaning E vs a t s) (meaning E vs b t s) = Some (va - vb)%Qc). now rewrite H1, H2. Qed.
  Lemma m_neg a t s va : meaning E vs a t s = Some va -> meaning E vs (WNeg a) t s = Some (- va)%Qc.
  Proof. intros H. change (option_map Qcopp (meaning E vs a t s) = Some (- va)%Qc). now rewrite H. Qed.
  Lemma m_paren a t s : meaning E vs (WParen a) t s = meaning E vs a t s.
  Proof. reflexivity. Qed.
  Lemma m_name a t s : meaning E vs (WName a) t s = name_value E vs a t s.
  Proof. reflexivity. Qed.
  Lemma m_zero t s : meaning E vs (WNumber "0") t s = Some 0%Qc.
  Proof. rewrite <- zero_value. reflexivity. Qed.
  Lemma m_one t s : meaning E vs (WNumber "1") t s = Some 1%Qc.
  Proof. rewrite <- one_value. reflexivity. Qed.
  Lemma m_before x t s : meaning E vs (wbefore x) t s = name_value E vs x (t - 1) s.
  Proof.
    change (match oint (olift2 Qcminus (Some 0%Qc) (meaning E vs (WNumber "1") t s)) with Some z => name_value E vs x (t + z) s | None => None end =
            name_value E vs x (t - 1) s).
    rewrite m_one. change (oint (olift2 Qcminus (Some 0%Qc) (Some 1%Qc))) with (Some (-1)%Z). reflexivity.
  Qed.
  Lemma m_kept t s v : name_value E vs "standing_loss" t s = Some v -> meaning E vs wkept t s = Some (1 - v)%Qc.
  Proof. intros H. unfold wkept. rewrite m_paren. apply m_minus; [apply m_one|exact H]. Qed.
  Lemma m_sum a f s : (forall t, meaning E vs a t s = Some (f t)) -> forall t, meaning E vs (WSumAll a) t s = Some (qsum f (zrange 0 (e_T E))).
  Proof. intros H t. change (osum (map (fun i => meaning E vs a i s) (zrange 0 (e_T E))) = Some (qsum f (zrange 0 (e_T E)))). now apply osum_values. Qed.
  Lemma m_cost body invest f c t s : (1 <= e_S E)%Z -> (forall t s, meaning E vs body t s = Some (f t s)) -> meaning E vs invest t s = Some c ->
    meaning E vs (wcost body invest) t s = Some (expected (e_S E) (over_time (e_T E) f) + c)%Qc.
  Proof.
    intros HS H Hc. unfold wcost. apply m_plus; [|exact Hc].
    change (omean (e_S E) (map (fun i => meaning E vs (WSumAll body) t i) (zrange 0 (e_S E))) = Some (expected (e_S E) (over_time (e_T E) f))).
    unfold omean. replace (e_S E <=? 0)%Z with false by (symmetry; apply Z.leb_gt; lia).
    rewrite (osum_values _ (over_time (e_T E) f)); [reflexivity|]. intros i _. now apply (m_sum body (fun t => f t i)).
  Qed.
  Lemma m_ports p f t s : meaning E vs (WSumPorts p f) t s = osum (map (fun v => v t s) (e_port E p f)).
  Proof. reflexivity. Qed.
End Texts.

(** the names of a model: its quantities and its parameters *)
Lemma quantities_variables k : quantities k = map (fun y => (yv_id y, yv_time y)) (ym_variables (kmod k)).
Proof. destruct k; reflexivity. Qed.
Lemma variable_scenario k y : In y (ym_variables (kmod k)) -> yv_scenario y = yv_time y /\ yv_type y = "continuous".
Proof.
  assert (X : forallb (fun y => Bool.eqb (yv_scenario y) (yv_time y) && String.eqb (yv_type y) "continuous") (ym_variables (kmod k)) = true)
    by (destruct k; reflexivity).
  rewrite forallb_forall in X. intros H. apply X, andb_true_iff in H. destruct H as [H1 H2]. apply eqb_prop in H1. apply String.eqb_eq in H2. auto.
Qed.
Lemma quantities_named k q v : In (q, v) (quantities k) <-> exists y, In y (ym_variables (kmod k)) /\ yv_id y = q /\ yv_time y = v /\ yv_scenario y = v.
Proof.
  rewrite quantities_variables, in_map_iff. split.
  - intros (y & [= <- <-] & H). exists y. repeat split; auto. now apply variable_scenario in H.
  - intros (y & H & <- & <- & _). eauto.
Qed.
Lemma quantity_variable k q v : In (q, v) (quantities k) -> existsb (String.eqb q) (map yv_id (ym_variables (kmod k))) = true.
Proof. destruct k; cbn; intros H; repeat (destruct H as [[= <- <-]|H]; [reflexivity|]); destruct H. Qed.
Lemma parameter_variable k pg : In pg (kparams k) -> existsb (String.eqb (snd pg)) (map yv_id (ym_variables (kmod k))) = false.
Proof. destruct k; cbn; intros H; repeat (destruct H as [<-|H]; [reflexivity|]); destruct H. Qed.

Section Problem.
  Context (order : list string -> list string) (n n' : pypsa_network) (T S : Z) (gcs : list constraint_data)
    (parts : list (list input_component * list input_connection)).
  Hypothesis Ord : set_order order.
  Hypothesis Pre : preprocess n = Ok n'.
  Hypothesis Good : good_network n T.
  Hypothesis HT : (1 <= T)%Z.
  Hypothesis HS : (1 <= S)%Z.
  Hypothesis Gcs : registered_constraints n' = Ok gcs.
  Hypothesis Parts : mapM (convert_components order (pn_name n')) (map (kdata n') kinds) = Ok parts.
  Let sys := conv_sys gcs parts.
  Let files := series_directory (conv_files order n').
  Let made := made order n'.
  Let world := file_world libs sys files T S pypsa_reading.
  Let vars k := map yv_id (ym_variables (kmod k)).

  Section Decided.
    Context (x : decisions).
    Lemma var_value k c e ports q v t s : made k c e -> In (q, v) (quantities k) ->
      name_value (entry_world sys files T S x e ports) (vars k) q t s = Some (x (study_id k c) q t s).
    Proof.
      intros M Hq. unfold name_value, vars. rewrite (quantity_variable k q v Hq). cbn [entry_world e_var].
      destruct (made_id _ _ _ _ _ M) as (-> & _). reflexivity.
    Qed.
    Lemma par_value k c e ports a p t s : In c (names n k) -> made k c e -> In (a, p) (kparams k) ->
      name_value (entry_world sys files T S x e ports) (vars k) p t s = Some (value n T k c a t).
    Proof.
      intros Hc M Hp. unfold name_value, vars. pose proof (parameter_variable k (a, p) Hp) as Y. cbn [snd] in Y. rewrite Y. cbn [entry_world e_par].
      exact (parameter_value order n n' T Ord Pre Good HT k c e (a, p) t s Hc M Hp).
    Qed.
    (** ** What comes through the ports *)
    Definition flow (k : kind) (port c : string) (t s : Z) : Qc :=
      match k with
      | Generators => (of_generator x c "p" t s * attribute n T Generators c "sign" t)%Qc
      | Loads => (attribute n T Loads c "sign" t * attribute n T Loads c "p_set" t)%Qc
      | Buses => 0%Qc
      | Links => if String.eqb port "p0_port" then (- of_link x c "p0" t s)%Qc else (attribute n T Links c "efficiency" t * of_link x c "p0" t s)%Qc
      | StorageUnits => (of_unit x c "p_dispatch" t s - of_unit x c "p_store" t s)%Qc
      | Stores => of_store x c "p" t s
      end.
    Ltac named K c e M Hc :=
      rewrite ?m_name;
      lazymatch goal with |- name_value _ _ ?q ?t ?s = _ =>
        first [exact (var_value K c e _ q true t s M ltac:(cbn; tauto))
              |exact (var_value K c e _ q false t s M ltac:(cbn; tauto))
              |exact (par_value K c e _ q q t s Hc M ltac:(cbn; tauto))
              |exact (par_value K c e _ "co2_emissions" q t s Hc M ltac:(cbn; tauto))]
      end.
    Definition brought_value (emd : input_component * in_model * in_definition) (t s : Z) : option Qc :=
      let '(e', m', d) := emd in
      text_value (entry_world sys files T S x e' (fun _ _ => [])) m' (pypsa_reading m' (yd_definition d)) t s.
    Lemma flow_brought k port bus c t s : In c (names n k) -> In (bus, (port, "p_balance_port")) (kconns k) ->
      osum (map (fun emd => brought_value emd t s) (brought_by gcs parts k port c)) = Some (flow k port c t s).
    Proof.
      intros Hc Hk. destruct (made_exists order n n' parts Pre Parts k c Hc) as (e & M & _).
      unfold brought_by. rewrite (definition_of order n n' T gcs parts Pre Good Gcs Parts k c e port "flow" Hc M).
      assert (One : forall (v : option Qc) q, v = Some q -> osum [v] = Some q).
      { intros v q ->. cbn. f_equal. ring. }
      destruct k; cbn in Hk; repeat (destruct Hk as [[= <- <-]|Hk]; [cbn [find kmod ym_definitions lib_generator lib_load lib_link lib_storage_unit lib_store
        ydef yd_port yd_field String.eqb Ascii.eqb Bool.eqb andb map]; apply One; unfold brought_value; unfold text_value|]); try destruct Hk.
      - apply m_times; named Generators c e M Hc.
      - apply m_times; named Loads c e M Hc.
      - apply m_neg; named Links c e M Hc.
      - apply m_times; named Links c e M Hc.
      - apply m_minus; named StorageUnits c e M Hc.
      - match goal with |- meaning ?E ?vs _ _ _ = _ => change (meaning E vs (WName "p") t s = Some (flow Stores "p_balance_port" c t s)) end.
        named Stores c e M Hc.
    Qed.
    Lemma world_ports e p f t s : osum (map (fun v => v t s) (e_port (world x e) p f)) =
      osum (map (fun emd => brought_value emd t s) (text_connected libs sys (ic_id e) p f)).
    Proof. unfold world, file_world. cbn [entry_world e_port]. rewrite map_map. f_equal. apply map_ext. intros [[e' m'] d]. reflexivity. Qed.
    Lemma balance_value b e t s : In b (names n Buses) -> made Buses b e ->
      text_value (world x e) lib_bus (WSumPorts "p_balance_port" "flow") t s = Some (injection n T x b t s).
    Proof.
      intros Hb M. unfold text_value. rewrite m_ports, world_ports. destruct (made_id _ _ _ _ _ M) as (-> & _).
      change (study_id Buses b) with (b ++ "")%string. rewrite append_nil.
      unfold sys. rewrite (bus_connected order n n' T gcs parts Pre Good Gcs Parts b Hb).
      rewrite (osum_pieces _ _ (fun k => qsum (fun bp => qsum (fun c => flow k (fst (snd bp)) c t s) (attached n k (fst bp) b)) (kconns k))).
      - f_equal. unfold injection. cbn [qsum fold_right kinds kconns fst snd].
        unfold flow. replace (String.eqb "p0_port" "p0_port") with true by reflexivity. replace (String.eqb "p1_port" "p0_port") with false by reflexivity. ring.
      - intros k _. apply osum_pieces. intros [col [port bp]] Hbp. cbn [fst snd].
        assert (bp = "p_balance_port") by (destruct k; cbn in Hbp; intuition congruence). subst bp.
        apply osum_pieces. intros c Hc. apply (flow_brought k port col); [|exact Hbp]. unfold attached in Hc. now apply filter_In in Hc.
    Qed.
    (** emissions *)
    Lemma emission_generator g t s : In g (emitters n Generators) ->
      osum (map (fun emd => brought_value emd t s) (text_definition libs sys (study_id Generators g) "emission_port" "emission")) =
      Some (of_generator x g "p" t s * emissions n Generators g / attribute n T Generators g "efficiency" t)%Qc.
    Proof.
      intros Hg. unfold emitters in Hg. apply filter_In in Hg. destruct Hg as [Hg _].
      destruct (made_exists order n n' parts Pre Parts Generators g Hg) as (e & M & _).
      unfold sys. rewrite (definition_of order n n' T gcs parts Pre Good Gcs Parts Generators g e _ _ Hg M).
      cbn [find kmod ym_definitions lib_generator ydef yd_port yd_field String.eqb Ascii.eqb Bool.eqb andb map].
      assert (One : forall (v : option Qc) q, v = Some q -> osum [v] = Some q).
      { intros v q ->. cbn. f_equal. ring. }
      apply One. unfold brought_value, text_value. apply m_over; [apply m_times| |].
      - named Generators g e M Hg.
      - named Generators g e M Hg.
      - match goal with |- meaning ?E ?vs _ _ _ = _ => change (meaning E vs (WName "efficiency") t s = Some (attribute n T Generators g "efficiency" t)) end.
        named Generators g e M Hg.
      - destruct Good as (_ & _ & _ & _ & _ & G & _). now apply G.
    Qed.
    Lemma emission_store k c t s : k = Stores \/ k = StorageUnits -> In c (emitters n k) ->
      osum (map (fun emd => brought_value emd t s) (text_definition libs sys (study_id k c) "emission_port" "emission")) = Some 0%Qc.
    Proof.
      intros Hk Hg. unfold emitters in Hg. apply filter_In in Hg. destruct Hg as [Hc _].
      destruct (made_exists order n n' parts Pre Parts k c Hc) as (e & M & _).
      unfold sys. rewrite (definition_of order n n' T gcs parts Pre Good Gcs Parts k c e _ _ Hc M).
      assert (One : forall (v : option Qc) q, v = Some (q * 0)%Qc -> osum [v] = Some 0%Qc).
      { intros v q ->. cbn. f_equal. ring. }
      destruct Hk as [-> | ->]; (cbn [find kmod ym_definitions lib_store lib_storage_unit ydef yd_port yd_field String.eqb Ascii.eqb Bool.eqb andb map]);
        [apply (One _ (emissions n Stores c))|apply (One _ (emissions n StorageUnits c))]; unfold brought_value, text_value; (apply m_mul; [|apply m_zero]).
      - match goal with |- meaning ?E ?vs _ _ _ = _ => change (meaning E vs (WName "emission_factor") t s = Some (emissions n Stores c)) end.
        named Stores c e M Hc.
      - match goal with |- meaning ?E ?vs _ _ _ = _ => change (meaning E vs (WName "emission_factor") t s = Some (emissions n StorageUnits c)) end.
        named StorageUnits c e M Hc.
    Qed.
    Lemma emitted_value g m t s : In g gcs ->
      text_value (world x (gentry g)) m (WSumAll (WSumPorts "emission_port" "emission")) t s = Some (emitted n T x s).
    Proof.
      intros Hg. unfold text_value, emitted. apply m_sum. intros i. rewrite m_ports, world_ports. cbn [gentry convert_constraint fst ic_id].
      unfold sys. rewrite (constraint_connected order n n' T gcs parts Pre Good Gcs Parts g Hg). unfold contributing. rewrite !flat_map_app, !map_app, !flat_map_map.
      erewrite (osum_joined _ _ _ (0 + 0)%Qc); [| |apply osum_joined].
      - f_equal. instantiate (1 := qsum (fun g => (of_generator x g "p" i s * emissions n Generators g / attribute n T Generators g "efficiency" i)%Qc) (emitters n Generators)).
        unfold emitters. rewrite <- qsum_filter. transitivity (qsum (fun a => if emitting n Generators a
           then (of_generator x a "p" i s * emissions n Generators a / attribute n T Generators a "efficiency" i)%Qc else 0%Qc) (names n Generators)); [ring|].
        apply qsum_ext. intros c Hc. destruct (emitting n Generators c) eqn:Ec; [reflexivity|].
        unfold emitting in Ec. unfold emissions. destruct (entry_of (table n Generators) c "carrier") as [[?|s'|?]|]; try discriminate.
        destruct s'; [|discriminate]. unfold Qcdiv. ring.
      - apply osum_pieces. intros c Hc. now apply emission_generator.
      - rewrite <- (qsum_zero (emitters n Stores)). apply osum_pieces. intros c Hc. apply emission_store; auto.
      - rewrite <- (qsum_zero (emitters n StorageUnits)). apply osum_pieces. intros c Hc. apply emission_store; auto.
    Qed.
  End Decided.

  (** ** Rows *)
  Definition constraint_nth (l : list in_constraint) (i : nat) : in_constraint := nth i l (yrow "" "").
  Definition source (k : py_constraint) : kind * string * in_constraint :=
    let gen := constraint_nth (ym_constraints lib_generator) in let link := constraint_nth (ym_constraints lib_link) in
    let unit := constraint_nth (ym_constraints lib_storage_unit) in let store := constraint_nth (ym_constraints lib_store) in
    let bus := constraint_nth (ym_binding_constraints lib_bus) in
    match k with
    | PowerBalance b => (Buses, b, bus 0%nat) | ReactiveBalance b => (Buses, b, bus 1%nat)
    | LeastDispatch g => (Generators, g, gen 0%nat) | GreatestDispatch g => (Generators, g, gen 1%nat)
    | LeastProduction g => (Generators, g, gen 2%nat) | GreatestProduction g => (Generators, g, gen 3%nat)
    | GreatestFlow l => (Links, l, link 0%nat) | LeastFlow l => (Links, l, link 1%nat)
    | GreatestStoring u => (StorageUnits, u, unit 0%nat) | GreatestStoringAgain u => (StorageUnits, u, unit 1%nat)
    | GreatestCharge u => (StorageUnits, u, unit 2%nat) | ChargeBalance u => (StorageUnits, u, unit 3%nat)
    | GreatestEnergy e => (Stores, e, store 0%nat) | LeastEnergy e => (Stores, e, store 1%nat) | EnergyBalance e => (Stores, e, store 2%nat)
    | EmissionLimit c => (Buses, c, constraint_nth (ym_binding_constraints lib_co2_max) 0)
    | EmissionTarget c => (Buses, c, constraint_nth (ym_binding_constraints lib_co2_eq) 0)
    end.
  Definition row_is (k : py_constraint) (e : input_component) (m : in_model) (c : in_constraint) : Prop :=
    let '(kd, comp, c') := source k in c = c' /\
    match k with
    | EmissionLimit i => exists g, In g gcs /\ gc_name g = i /\ e = gentry g /\ m = gmod g /\ gc_model g = "global_constraint_co2_max"
    | EmissionTarget i => exists g, In g gcs /\ gc_name g = i /\ e = gentry g /\ m = gmod g /\ gc_model g = "global_constraint_co2_eq"
    | _ => In comp (names n kd) /\ made kd comp e /\ m = kmod kd
    end.
  Let Gm := constraints_made n n' T gcs Pre Good Gcs.
  Lemma row_exists k : of_network n k -> exists e m c, row_is k e m c.
  Proof.
    assert (X : forall kd comp, In comp (names n kd) -> exists e, made kd comp e).
    { intros kd comp H. destruct (made_exists order n n' parts Pre Parts kd comp H) as (e & M & _). eauto. }
    assert (Y : forall c sense, In c (constraint_names n) -> has_sense n c sense -> exists g, In g gcs /\ gc_name g = c /\
      (sense = "<=" -> gc_model g = "global_constraint_co2_max") /\ (sense = "==" -> gc_model g = "global_constraint_co2_eq")).
    { intros c sense Hc Hs. destruct (Forall2_In_l _ _ _ _ Gm Hc) as (g & Hg & En & _ & _ & Sn). exists g. unfold has_sense in *.
      split; [exact Hg|]. split; [exact En|]. split; intros ->; destruct Sn as [[H1 H2]|[H1 H2]]; auto; congruence. }
    unfold row_is, of_network. destruct k; cbn [source]; intros H;
      try (destruct (X _ _ H) as [e' M]; exists e'; eexists; eexists; split; [reflexivity|]; split; [exact H|]; split; [exact M|reflexivity]).
    - destruct H as [Hc Hs]. destruct (Y _ _ Hc Hs) as (g & Hg & En & E1 & _). exists (gentry g), (gmod g). eexists. split; [reflexivity|].
      exists g. auto 10.
    - destruct H as [Hc Hs]. destruct (Y _ _ Hc Hs) as (g & Hg & En & _ & E1). exists (gentry g), (gmod g). eexists. split; [reflexivity|].
      exists g. auto 10.
  Qed.
  Lemma row_entry k e m c : row_is k e m c -> entry_constraint libs sys e m c /\ constraint_place k = (ic_id e, yc_id c).
  Proof.
    intros H. unfold row_is in H. split.
    - assert (X : entry libs sys e m).
      { apply (entries order n n' T gcs parts Pre Good Gcs Parts). destruct k; cbn [source] in H;
          try (destruct H as (_ & H1 & H2 & H3); left; eexists; eexists; split; [exact H1|]; split; [exact H2|exact H3]);
          destruct H as (_ & g & H1 & H2 & H3 & H4 & _); right; eauto. }
      split; [exact X|]. destruct k; cbn [source] in H; try (destruct H as (-> & _ & _ & ->); cbn; tauto);
        destruct H as (-> & g & _ & _ & _ & -> & Em); unfold gmod; rewrite Em; cbn; tauto.
    - destruct k; cbn [source] in H;
        try (destruct H as (-> & _ & M & _); destruct (made_id _ _ _ _ _ M) as (-> & _); reflexivity);
        destruct H as (-> & g & _ & <- & -> & _); reflexivity.
  Qed.
  Lemma row_source e m c : entry_constraint libs sys e m c -> exists k, of_network n k /\ row_is k e m c.
  Proof.
    intros [H Hc]. apply (entries order n n' T gcs parts Pre Good Gcs Parts) in H. destruct H as [(kd & comp & Hin & M & ->)|(g & Hg & -> & ->)].
    - unfold row_is, of_network. destruct kd; cbn in Hc.
      + destruct Hc as [<-|[<-|[<-|[<-|[]]]]];
          [exists (LeastDispatch comp)|exists (GreatestDispatch comp)|exists (LeastProduction comp)|exists (GreatestProduction comp)]; repeat split; auto.
      + destruct Hc.
      + destruct Hc as [<-|[<-|[]]]; [exists (PowerBalance comp)|exists (ReactiveBalance comp)]; repeat split; auto.
      + destruct Hc as [<-|[<-|[]]]; [exists (GreatestFlow comp)|exists (LeastFlow comp)]; repeat split; auto.
      + destruct Hc as [<-|[<-|[<-|[<-|[]]]]];
          [exists (GreatestStoring comp)|exists (GreatestStoringAgain comp)|exists (GreatestCharge comp)|exists (ChargeBalance comp)]; repeat split; auto.
      + destruct Hc as [<-|[<-|[<-|[]]]]; [exists (GreatestEnergy comp)|exists (LeastEnergy comp)|exists (EnergyBalance comp)]; repeat split; auto.
    - destruct (Forall2_In_r _ _ _ _ Gm Hg) as (i & Hi & En & _ & _ & [[Sn Em]|[Sn Em]]); unfold gmod in Hc; rewrite Em in Hc; cbn in Hc; destruct Hc as [<-|[]].
      + exists (EmissionLimit i). split; [split; assumption|]. split; [reflexivity|]. exists g. auto 10.
      + exists (EmissionTarget i). split; [split; assumption|]. split; [reflexivity|]. exists g. auto 10.
  Qed.
  Lemma cmp_text x e m c o l r vl vr d t s : pypsa_reading m (yc_expression c) = WCmp o l r ->
    text_value (world x e) m l t s = Some vl -> text_value (world x e) m r t s = Some vr ->
    (text_holds libs sys files T S pypsa_reading d x e m c t s <->
     exists w, terms_value (decisions_at x t s) d = Some w /\ cmp_holds o (vl - w)%Qc vr).
  Proof.
    intros Er Hl Hr. unfold text_holds. rewrite Er. fold world. split.
    - intros (w & Hw & a & b & Ha & Hb & H). rewrite Hl in Ha. rewrite Hr in Hb. injection Ha as <-. injection Hb as <-. exists w. split; [exact Hw|exact H].
    - intros (w & Hw & H). exists w. split; [exact Hw|]. exists vl, vr. auto.
  Qed.
  Ltac named x K c e M Hc :=
    try match goal with |- text_value ?E ?m (WName ?a) ?t ?s = ?v => change (name_value E (map yv_id (ym_variables m)) a t s = v) end;
    rewrite ?m_name;
    lazymatch goal with |- name_value _ _ ?q ?t ?s = _ =>
      first [exact (var_value x K c e _ q true t s M ltac:(cbn; tauto))
            |exact (var_value x K c e _ q false t s M ltac:(cbn; tauto))
            |exact (par_value x K c e _ q q t s Hc M ltac:(cbn; tauto))
            |exact (par_value x K c e _ "co2_emissions" q t s Hc M ltac:(cbn; tauto))]
    end.
  Ltac cmp := eapply iff_trans; [eapply cmp_text; [reflexivity| |]|].
  Lemma quota_value x g m t s : In g gcs -> (m = lib_co2_max \/ m = lib_co2_eq) ->
    text_value (world x (gentry g)) m (WName "quota") t s = Some (constant_of n (gc_name g)).
  Proof.
    intros Hg Hm. destruct (Forall2_In_r _ _ _ _ Gm Hg) as (i & _ & En & Ec & _).
    assert (X : file_value files T (gentry g) "quota" t s = Some (constant_of n (gc_name g))).
    { unfold file_value. cbn [gentry convert_constraint fst parameters_of ic_parameters find ip_id]. rewrite String.eqb_refl. cbn. rewrite Ec, En. reflexivity. }
    rewrite <- X. destruct Hm as [-> | ->]; reflexivity.
  Qed.
  Lemma row_meaning k e m c d x t s : row_is k e m c ->
    (text_holds libs sys files T S pypsa_reading d x e m c t s <->
     exists w, terms_value (decisions_at x t s) d = Some w /\ holds n T x k w t s).
  Proof.
    intros H. unfold row_is in H. destruct k; cbn [source] in H;
      try (destruct H as (-> & Hc & M & ->)); try (destruct H as (-> & gd & Hg & <- & -> & -> & Em)); unfold constraint_nth.
    - cmp; [exact (balance_value x b e t s Hc M)|apply m_zero|reflexivity].
    - cmp; [|apply m_zero|]; [instantiate (1 := 0%Qc)|reflexivity].
      unfold text_value. rewrite m_ports, world_ports. unfold sys. destruct (made_id _ _ _ _ _ M) as (-> & _).
      now rewrite (bus_reactive order n n' T gcs parts Pre Good Gcs Parts).
    - cmp; [named x Generators g e M Hc|apply m_times; named x Generators g e M Hc|reflexivity].
    - cmp; [named x Generators g e M Hc|apply m_times; named x Generators g e M Hc|reflexivity].
    - cmp; [unfold text_value; apply (m_sum _ _ _ (fun i => of_generator x g "p" i s)); intros i; named x Generators g e M Hc|named x Generators g e M Hc|reflexivity].
    - cmp; [unfold text_value; apply (m_sum _ _ _ (fun i => of_generator x g "p" i s)); intros i; named x Generators g e M Hc|named x Generators g e M Hc|reflexivity].
    - cmp; [named x Links l e M Hc|apply m_times; named x Links l e M Hc|reflexivity].
    - cmp; [named x Links l e M Hc|apply m_times; named x Links l e M Hc|reflexivity].
    - cmp; [named x StorageUnits u e M Hc|apply m_times; named x StorageUnits u e M Hc|reflexivity].
    - cmp; [named x StorageUnits u e M Hc|apply m_times; named x StorageUnits u e M Hc|reflexivity].
    - cmp; [named x StorageUnits u e M Hc|apply m_times; named x StorageUnits u e M Hc|reflexivity].
    - cmp; [named x StorageUnits u e M Hc|unfold text_value; apply m_minus;
        [apply m_plus; [apply m_minus; [apply m_plus; [apply m_mul; [apply m_kept; named x StorageUnits u e M Hc|rewrite m_before; named x StorageUnits u e M Hc]
           |apply m_times; named x StorageUnits u e M Hc]
           |apply m_over; [named x StorageUnits u e M Hc|named x StorageUnits u e M Hc|]]
          |named x StorageUnits u e M Hc]|named x StorageUnits u e M Hc]|reflexivity].
      pose proof Good as G0. destruct G0 as (_ & _ & _ & _ & _ & _ & G & _). exact (G u t Hc).
    - cmp; [named x Stores e0 e M Hc|apply m_times; named x Stores e0 e M Hc|reflexivity].
    - cmp; [named x Stores e0 e M Hc|apply m_times; named x Stores e0 e M Hc|reflexivity].
    - cmp; [named x Stores e0 e M Hc|unfold text_value; apply m_minus;
        [apply m_mul; [apply m_kept; named x Stores e0 e M Hc|rewrite m_before; named x Stores e0 e M Hc]|named x Stores e0 e M Hc]|reflexivity].
    - unfold gmod. rewrite Em. cmp; [exact (emitted_value x gd _ t s Hg)|apply quota_value; auto|reflexivity].
    - unfold gmod. rewrite Em. cmp; [exact (emitted_value x gd _ t s Hg)|apply quota_value; auto|reflexivity].
  Qed.

  (** ** Cost *)
  Definition cost (x : decisions) (k : kind) (c : string) : Qc :=
    match k with
    | Generators => generator_cost n T S x c | Links => link_cost n T S x c
    | StorageUnits => unit_cost n T S x c | Stores => store_cost n T S x c
    | _ => 0%Qc
    end.
  Let objectives_of (e : input_component) : list (input_component * in_model * string) :=
    match file_model libs (ic_model e) with
    | Some m => map (fun w => (e, m, w)) (given_text (ym_objective m))
    | None => []
    end.
  Let value_of x t s := text_objective_value libs sys files T S pypsa_reading x t s.
  Lemma capacity_fixed x k c t s : network_decisions n T x -> In c (names n k) -> In (capacity k, false) (quantities k) ->
    x (study_id k c) (capacity k) t s = x (study_id k c) (capacity k) 0%Z 0%Z.
  Proof. intros [_ N] Hc Hq. now apply (N k). Qed.
  Lemma entry_cost x k c e t s : network_decisions n T x -> In c (names n k) -> made k c e ->
    osum (map (value_of x t s) (objectives_of e)) = Some (cost x k c).
  Proof.
    intros N Hc M. unfold objectives_of. rewrite (made_model order n' k c e M).
    assert (One : forall (v : option Qc) q, v = Some q -> osum [v] = Some q).
    { intros v q ->. cbn. f_equal. ring. }
    unfold value_of, text_objective_value. fold world.
    destruct k; cbn [kmod lib_generator lib_load lib_bus lib_link lib_storage_unit lib_store ym_objective given_text map cost]; try reflexivity; apply One;
      unfold text_value.
    - unfold generator_cost. change (of_generator x c "p_nom" 0%Z 0%Z) with (x (study_id Generators c) (capacity Generators) 0%Z 0%Z).
      rewrite <- (capacity_fixed x Generators c t s N Hc ltac:(cbn; tauto)).
      apply (m_cost (world x e) _ (wtimes "marginal_cost" "p") (wtimes "p_nom" "capital_cost")); [exact HS|intros t' s'|]; apply m_times; named x Generators c e M Hc.
    - unfold link_cost. change (of_link x c "p_nom" 0%Z 0%Z) with (x (study_id Links c) (capacity Links) 0%Z 0%Z).
      rewrite <- (capacity_fixed x Links c t s N Hc ltac:(cbn; tauto)).
      apply (m_cost (world x e) _ (wtimes "marginal_cost" "p0") (wtimes "capital_cost" "p_nom")); [exact HS|intros t' s'|]; apply m_times; named x Links c e M Hc.
    - unfold unit_cost. change (of_unit x c "p_nom" 0%Z 0%Z) with (x (study_id StorageUnits c) (capacity StorageUnits) 0%Z 0%Z).
      rewrite <- (capacity_fixed x StorageUnits c t s N Hc ltac:(cbn; tauto)).
      apply (m_cost (world x e) _ (WAdd Plus (WAdd Plus (wtimes "marginal_cost" "p_dispatch") (wtimes "spill_cost" "spill"))
            (wtimes "marginal_cost_storage" "state_of_charge")) (wtimes "capital_cost" "p_nom")); [exact HS|intros t' s'|].
      + apply m_plus; [apply m_plus|]; apply m_times; named x StorageUnits c e M Hc.
      + apply m_times; named x StorageUnits c e M Hc.
    - unfold store_cost. change (of_store x c "e_nom" 0%Z 0%Z) with (x (study_id Stores c) (capacity Stores) 0%Z 0%Z).
      rewrite <- (capacity_fixed x Stores c t s N Hc ltac:(cbn; tauto)).
      apply (m_cost (world x e) _ (WAdd Plus (wtimes "marginal_cost" "p") (wtimes "marginal_cost_storage" "e")) (wtimes "capital_cost" "e_nom")); [exact HS|intros t' s'|].
      + apply m_plus; apply m_times; named x Stores c e M Hc.
      + apply m_times; named x Stores c e M Hc.
  Qed.
  Lemma cost_value x t s : network_decisions n T x ->
    osum (map (value_of x t s) (text_objectives libs sys)) = Some (network_cost n T S x).
  Proof.
    intros N. assert (X : osum (map (value_of x t s) (flat_map objectives_of (flat_map fst parts))) = Some (qsum (fun k => qsum (cost x k) (names n k)) kinds)).
    { pose proof (parts_made order n n' parts Pre Parts) as F. revert F. unfold qsum at 1. generalize kinds, parts. intros ks ps F.
      induction F as [|k p ks ps [Fp _] F IH]; [reflexivity|]. cbn [flat_map fold_right]. rewrite flat_map_app, map_app. apply osum_joined; [|exact IH].
      assert (Y : forall c e, In c (names n k) -> made k c e -> osum (map (value_of x t s) (objectives_of e)) = Some (cost x k c)).
      { intros c e Hc M. now apply entry_cost. }
      revert Y. clear -Fp. unfold qsum. induction Fp as [|c e l l' M F IH]; intros Y; [reflexivity|]. cbn [flat_map fold_right]. rewrite map_app.
      apply osum_joined; [apply Y; [now left|exact M]|]. apply IH. intros c' e' Hc' M'. apply Y; [now right|exact M']. }
    assert (Z0 : flat_map objectives_of (map gentry gcs) = []).
    { rewrite flat_map_map. apply flat_map_nothing. intros g Hg. unfold objectives_of.
      rewrite (constraint_model n n' T gcs Pre Good Gcs g Hg). unfold gmod. now destruct (String.eqb _ _). }
    replace (text_objectives libs sys) with (flat_map objectives_of (flat_map fst parts)).
    - rewrite X. f_equal. unfold network_cost.
      change (qsum (fun k => qsum (cost x k) (names n k)) kinds) with
        (qsum (generator_cost n T S x) (names n Generators) + (qsum (fun _ : string => 0%Qc) (names n Loads) +
          (qsum (fun _ : string => 0%Qc) (names n Buses) + (qsum (link_cost n T S x) (names n Links) +
          (qsum (unit_cost n T S x) (names n StorageUnits) + (qsum (store_cost n T S x) (names n Stores) + 0))))))%Qc.
      rewrite !qsum_zero. ring.
    - unfold text_objectives, sys, conv_sys. cbn [is_nodes is_components app]. rewrite flat_map_app, map_map.
      change (map (fun a => fst (convert_constraint a)) gcs) with (map gentry gcs). fold objectives_of. rewrite Z0, app_nil_r. reflexivity.
  Qed.

  (** ** Quantities mentioned *)
  Let none : decisions := fun _ _ _ _ => 0%Qc.
  Let brought_mentions (emd : input_component * in_model * in_definition) : nat :=
    let '(e', m', d) := emd in
    text_mentions (entry_world sys files T S none e' (fun _ _ => [])) (map yv_id (ym_variables m')) (fun _ _ => O)
      (pypsa_reading m' (yd_definition d)).
  Let sum_pieces {A B} (f : B -> nat) (g : A -> list B) (h : A -> nat) l :
    (forall a, In a l -> list_sum (map f (g a)) = h a) -> list_sum (map f (flat_map g l)) = list_sum (map h l).
  Proof.
    intros H. induction l as [|a l IH]; [reflexivity|]. cbn [flat_map]. rewrite map_app, list_sum_app, H by now left.
    rewrite IH by (intros; apply H; now right). reflexivity.
  Qed.
  Definition flow_mentions (k : kind) : nat := match k with Generators | Links | Stores => 1 | StorageUnits => 2 | _ => 0 end.
  Lemma flow_mentioned k port bus c : In c (names n k) -> In (bus, (port, "p_balance_port")) (kconns k) ->
    list_sum (map brought_mentions (brought_by gcs parts k port c)) = flow_mentions k.
  Proof.
    intros Hc Hk. destruct (made_exists order n n' parts Pre Parts k c Hc) as (e & M & _).
    unfold brought_by. rewrite (definition_of order n n' T gcs parts Pre Good Gcs Parts k c e port "flow" Hc M).
    destruct k; cbn in Hk; repeat (destruct Hk as [[= <- <-]|Hk]; [reflexivity|]); destruct Hk.
  Qed.
  Lemma balance_mentions b : In b (names n Buses) ->
    list_sum (map brought_mentions (text_connected libs sys b "p_balance_port" "flow")) = constraint_size n T (PowerBalance b).
  Proof.
    intros Hb. unfold sys. rewrite (bus_connected order n n' T gcs parts Pre Good Gcs Parts b Hb).
    rewrite (sum_pieces _ _ (fun k => list_sum (map (fun bp => List.length (attached n k (fst bp) b) * flow_mentions k)%nat (kconns k)))).
    - unfold list_sum. cbn [map fold_right kinds kconns fst snd flow_mentions constraint_size]. lia.
    - intros k _. apply sum_pieces. intros [col [port bp]] Hbp. cbn [fst snd].
      assert (bp = "p_balance_port") by (destruct k; cbn in Hbp; intuition congruence). subst bp.
      rewrite (sum_pieces _ _ (fun _ => flow_mentions k)); [apply sum_constant; reflexivity|].
      intros c Hc. apply (flow_mentioned k port col); [|exact Hbp]. unfold attached in Hc. now apply filter_In in Hc.
  Qed.
  Lemma emission_mentions g : In g gcs ->
    (list_sum (map brought_mentions (text_connected libs sys (gc_name g) "emission_port" "emission")) <= List.length (names n Generators))%nat.
  Proof.
    intros Hg. unfold sys. rewrite (constraint_connected order n n' T gcs parts Pre Good Gcs Parts g Hg). unfold contributing.
    assert (X : forall k c, In c (emitters n k) -> k = Generators \/ k = Stores \/ k = StorageUnits ->
      list_sum (map brought_mentions (text_definition libs sys (study_id k c) "emission_port" "emission")) =
      match k with Generators => 1%nat | _ => 0%nat end).
    { intros k c Hc Hk. unfold emitters in Hc. apply filter_In in Hc. destruct Hc as [Hc _].
      destruct (made_exists order n n' parts Pre Parts k c Hc) as (e & M & _).
      unfold sys. rewrite (definition_of order n n' T gcs parts Pre Good Gcs Parts k c e _ _ Hc M).
      destruct Hk as [->|[->| ->]]; reflexivity. }
    rewrite !flat_map_app, !map_app, !list_sum_app, !flat_map_map.
    rewrite (sum_pieces _ _ (fun _ => 1%nat) (emitters n Generators)) by (intros c Hc; apply (X Generators c Hc); auto).
    rewrite (sum_pieces _ _ (fun _ => 0%nat) (emitters n Stores)) by (intros c Hc; apply (X Stores c Hc); auto).
    rewrite (sum_pieces _ _ (fun _ => 0%nat) (emitters n StorageUnits)) by (intros c Hc; apply (X StorageUnits c Hc); auto).
    rewrite !(sum_constant _ 1%nat), !(sum_constant _ 0%nat) by reflexivity.
    assert (L : (List.length (emitters n Generators) <= List.length (names n Generators))%nat) by (unfold emitters; apply filter_length). lia.
  Qed.
  Lemma row_size k e m c : row_is k e m c ->
    (file_mentions libs sys files T S pypsa_reading e m (pypsa_reading m (yc_expression c)) <= constraint_size n T k)%nat.
  Proof.
    intros H. unfold row_is in H. destruct k; cbn [source] in H;
      try (destruct H as (-> & Hc & M & ->)); try (destruct H as (-> & gd & Hg & <- & -> & -> & Em)); unfold constraint_nth;
      try (apply Nat.eq_le_incl; reflexivity).
    - destruct (made_id _ _ _ _ _ M) as (Ei & _).
      change (list_sum (map brought_mentions (text_connected libs sys (ic_id e) "p_balance_port" "flow")) + 0 <= constraint_size n T (PowerBalance b))%nat.
      rewrite Ei. change (study_id Buses b) with (b ++ "")%string. rewrite append_nil, (balance_mentions b Hc). lia.
    - change (list_sum (map brought_mentions (text_connected libs sys (ic_id e) "q_balance_port" "flow")) + 0 <= 0)%nat.
      unfold sys. rewrite (bus_reactive order n n' T gcs parts Pre Good Gcs Parts). reflexivity.
    - change (Z.to_nat T * 1 + 0 <= Z.to_nat T)%nat. lia.
    - change (Z.to_nat T * 1 + 0 <= Z.to_nat T)%nat. lia.
    - unfold gmod. rewrite Em. pose proof (emission_mentions gd Hg) as L.
      change (Z.to_nat T * list_sum (map brought_mentions (text_connected libs sys (gc_name gd) "emission_port" "emission")) + 0 <=
        Z.to_nat T * List.length (names n Generators))%nat. nia.
    - unfold gmod. rewrite Em. pose proof (emission_mentions gd Hg) as L.
      change (Z.to_nat T * list_sum (map brought_mentions (text_connected libs sys (gc_name gd) "emission_port" "emission")) + 0 <=
        Z.to_nat T * List.length (names n Generators))%nat. nia.
  Qed.
  Let mentions_of := text_objective_mentions libs sys files T S pypsa_reading.
  Definition cost_mentions (k : kind) : nat :=
    let steps := (Z.to_nat S * Z.to_nat T)%nat in
    match k with Generators | Links => steps + 1 | StorageUnits => steps * 3 + 1 | Stores => steps * 2 + 1 | _ => 0 end.
  Lemma cost_mentioned : list_sum (map mentions_of (text_objectives libs sys)) = cost_size n T S.
  Proof.
    assert (X : list_sum (map mentions_of (flat_map objectives_of (flat_map fst parts))) =
      list_sum (map (fun k => List.length (names n k) * cost_mentions k)%nat kinds)).
    { pose proof (parts_made order n n' parts Pre Parts) as F. revert F. generalize kinds, parts. intros ks ps F.
      induction F as [|k p ks ps [Fp _] F IH]; [reflexivity|]. cbn [flat_map map]. rewrite flat_map_app, map_app, list_sum_app, IH.
      change (list_sum (?a :: ?l)) with (a + list_sum l)%nat. f_equal.
      assert (Y : forall c e, made k c e -> list_sum (map mentions_of (objectives_of e)) = cost_mentions k).
      { intros c e M. unfold objectives_of. rewrite (made_model order n' k c e M). unfold mentions_of.
        destruct k; try reflexivity.
        - change (Z.to_nat S * (Z.to_nat T * 1) + 1 + 0 = Z.to_nat S * Z.to_nat T + 1)%nat. lia.
        - change (Z.to_nat S * (Z.to_nat T * 1) + 1 + 0 = Z.to_nat S * Z.to_nat T + 1)%nat. lia.
        - change (Z.to_nat S * (Z.to_nat T * 3) + 1 + 0 = Z.to_nat S * Z.to_nat T * 3 + 1)%nat. lia.
        - change (Z.to_nat S * (Z.to_nat T * 2) + 1 + 0 = Z.to_nat S * Z.to_nat T * 2 + 1)%nat. lia. }
      revert Y. clear -Fp. induction Fp as [|c e l l' M F IH]; intros Y; [reflexivity|]. cbn [flat_map List.length]. rewrite map_app, list_sum_app, IH by exact Y.
      rewrite (Y c e M). lia. }
    assert (Z0 : flat_map objectives_of (map gentry gcs) = []).
    { rewrite flat_map_map. apply flat_map_nothing. intros g Hg. unfold objectives_of.
      rewrite (constraint_model n n' T gcs Pre Good Gcs g Hg). unfold gmod. now destruct (String.eqb _ _). }
    replace (text_objectives libs sys) with (flat_map objectives_of (flat_map fst parts)).
    - rewrite X. unfold cost_size, list_sum. cbn [map fold_right kinds cost_mentions]. lia.
    - unfold text_objectives, sys, conv_sys. cbn [is_nodes is_components app]. rewrite flat_map_app, map_map.
      change (map (fun a => fst (convert_constraint a)) gcs) with (map gentry gcs). fold objectives_of. rewrite Z0, app_nil_r. reflexivity.
  Qed.

  (** ** Decisions *)
  Lemma decisions_same x : network_decisions n T x <-> file_decisions libs sys T x.
  Proof.
    unfold network_decisions, file_decisions. split; intros [P N]; (split; [exact P|]).
    - intros e m v He Hv. apply (entries order n n' T gcs parts Pre Good Gcs Parts) in He. destruct He as [(k & c & Hc & M & ->)|(g & _ & _ & ->)].
      + destruct (made_id _ _ _ _ _ M) as (-> & _). destruct (variable_scenario k v Hv) as [Es _]. split; intros Ev.
        * intros t t' s. apply (N k); [exact Hc|]. apply quantities_named. exists v. repeat split; congruence.
        * intros t s s'. apply (N k); [exact Hc|]. apply quantities_named. exists v. repeat split; congruence.
      + unfold gmod in Hv. destruct (String.eqb _ _); destruct Hv.
    - intros k c q t s t' s' Hc Hq. apply quantities_named in Hq. destruct Hq as (v & Hv & <- & Et & Es).
      destruct (made_exists order n n' parts Pre Parts k c Hc) as (e & M & _).
      assert (He : entry libs sys e (kmod k)) by (apply (entries order n n' T gcs parts Pre Good Gcs Parts); left; eauto).
      destruct (N e _ v He Hv) as [N1 N2]. destruct (made_id _ _ _ _ _ M) as (<- & _). rewrite (N1 Et t t' s). now apply N2.
  Qed.
  Lemma entry_variable e m v : entry libs sys e m -> In v (ym_variables m) ->
    exists k c, In c (names n k) /\ made k c e /\ m = kmod k /\ ic_id e = study_id k c /\ In (yv_id v, yv_time v) (quantities k) /\ yv_scenario v = yv_time v.
  Proof.
    intros He Hv. apply (entries order n n' T gcs parts Pre Good Gcs Parts) in He. destruct He as [(k & c & Hc & M & ->)|(g & _ & _ & ->)].
    - exists k, c. destruct (variable_scenario k v Hv) as [Es _]. split; [exact Hc|]. split; [exact M|]. split; [reflexivity|].
      split; [now apply made_id in M|]. split; [|exact Es]. apply quantities_named. exists v. auto.
    - unfold gmod in Hv. destruct (String.eqb _ _); destruct Hv.
  Qed.
  Lemma variable_entry k c q varies : In c (names n k) -> In (q, varies) (quantities k) ->
    exists e v, entry libs sys e (kmod k) /\ In v (ym_variables (kmod k)) /\ ic_id e = study_id k c /\ yv_id v = q /\ yv_time v = varies /\
      yv_scenario v = varies /\ forall o st t s i, held o st k c q varies t s i <-> placed o st e v t s i.
  Proof.
    intros Hc Hq. apply quantities_named in Hq. destruct Hq as (v & Hv & Eq & Et & Es).
    destruct (made_exists order n n' parts Pre Parts k c Hc) as (e & M & _). exists e, v.
    split; [apply (entries order n n' T gcs parts Pre Good Gcs Parts); left; eauto|]. split; [exact Hv|].
    destruct (made_id _ _ _ _ _ M) as (Ei & _). split; [exact Ei|]. split; [exact Eq|]. split; [exact Et|]. split; [exact Es|].
    intros o st t s i. unfold held, placed. rewrite Ei, Eq, Et, Es. reflexivity.
  Qed.
  Lemma values_same o st y x : network_values n T S o st y x <-> takes_values libs sys T S (placed o st) y x.
  Proof.
    unfold network_values, takes_values. split; intros N.
    - intros e m v t s i He Hv Ht Hs Hp. destruct (entry_variable e m v He Hv) as (k & c & Hc & _ & _ & Ei & Hq & Es).
      rewrite Ei. apply (N k c (yv_id v) (yv_time v) t s i Hc Hq Ht Hs). unfold held. unfold placed in Hp. now rewrite Es, Ei in Hp.
    - intros k c q varies t s i Hc Hq Ht Hs Hh. destruct (variable_entry k c q varies Hc Hq) as (e & v & He & Hv & Ei & <- & _ & _ & Hh').
      rewrite <- Ei. apply (N e _ v t s i He Hv Ht Hs). now apply Hh'.
  Qed.

  (** ** Bounds *)
  Lemma bound_fin e m v inf w t s b q : text_bound_is libs sys files T S pypsa_reading e m v inf (Some w) t s b -> (0 <= s)%Z ->
    String.eqb w "" = false -> text_value (world (fun _ _ _ _ => 0%Qc) e) m (pypsa_reading m w) t s = Some q -> b = Fin q.
  Proof.
    intros Hb Hs Hw Hq. unfold text_bound_is in Hb. destruct w as [|a w]; [discriminate|]. cbn [given_text] in Hb.
    destruct Hb as (q' & -> & Hb). specialize (Hb (fun _ _ _ _ => 0%Qc) t s (fun _ => eq_refl) (fun _ => eq_refl) Hs).
    fold world in Hb. congruence.
  Qed.
  Ltac reads := match goal with |- text_value ?E ?m (pypsa_reading _ ?w) ?t ?s = ?v => let r := look w in change (text_value E m r t s = v) end.
  Lemma bounds_value k c e v t s lb ub : In c (names n k) -> made k c e -> In v (ym_variables (kmod k)) -> (0 <= s)%Z ->
    text_bound_is libs sys files T S pypsa_reading e (kmod k) v NInf (yv_lower v) t s lb ->
    text_bound_is libs sys files T S pypsa_reading e (kmod k) v PInf (yv_upper v) t s ub ->
    (lb, ub) = limits n T k c (yv_id v) t.
  Proof.
    intros Hc M Hv Hs L U. set (x := fun (_ _ : string) (_ _ : Z) => 0%Qc).
    destruct k; cbn in Hv;
    repeat (destruct Hv as [<-|Hv]; [cbn [yv_lower yvar] in L; cbn [yv_upper yvar] in U; cbn [yv_id yvar limits String.eqb Ascii.eqb Bool.eqb];
      first [change (lb = NInf) in L|eapply bound_fin in L; [|exact Hs|reflexivity|reads; unfold text_value; first [apply m_zero
        |apply m_times; match goal with K := _ |- _ => idtac end; first [named x Generators c e M Hc|named x Links c e M Hc|named x StorageUnits c e M Hc|named x Stores c e M Hc]
        |first [named x Generators c e M Hc|named x Links c e M Hc|named x StorageUnits c e M Hc|named x Stores c e M Hc]]]];
      first [change (ub = PInf) in U|eapply bound_fin in U; [|exact Hs|reflexivity|reads; unfold text_value; first [apply m_zero
        |apply m_times; first [named x Generators c e M Hc|named x Links c e M Hc|named x StorageUnits c e M Hc|named x Stores c e M Hc]
        |first [named x Generators c e M Hc|named x Links c e M Hc|named x StorageUnits c e M Hc|named x Stores c e M Hc]]]];
      rewrite L, U; reflexivity|]); destruct Hv.
  Qed.
End Problem.

Lemma conversion_steps order n sys files : convert_pypsa order n = Ok (sys, files) ->
  exists n' gcs parts, preprocess n = Ok n' /\ registered_constraints n' = Ok gcs /\
    mapM (convert_components order (pn_name n')) (map (kdata n') kinds) = Ok parts /\ sys = conv_sys gcs parts /\ files = conv_files order n'.
Proof.
  intros H. unfold convert_pypsa in H. take H u E0. take H n' E1. take H gcs E2. take H parts E3. injection H as <- <-.
  exists n', gcs, parts. rewrite registered_kinds in E3. repeat (split; [assumption|]). split; reflexivity.
Qed.

Section Converted.
  Context (order : list string -> list string) (n : pypsa_network) (sys : input_system) (files : dict string frame) (T S : Z)
    (order' : list string -> list string -> list string -> list string) (o : settings) (st : state).
  Hypothesis Ord : set_order order.
  Hypothesis Conv : convert_pypsa order n = Ok (sys, files).
  Hypothesis Good : good_network n T.
  Hypothesis HT : (1 <= T)%Z.
  Hypothesis HS : (1 <= S)%Z.
  Hypothesis Ord' : any_order order'.
  Hypothesis Run : main_cli order' [pypsa_library] sys (series_directory files) T S = Ok (o, st).

  Lemma network_rows : exists drops, List.length drops = List.length (s_rows (st_solver st)) /\
    (forall j row d, nth_error (s_rows (st_solver st)) j = Some row -> nth_error drops j = Some d ->
       exists k t s, of_network n k /\ (0 <= t < T)%Z /\ (0 <= s < S)%Z /\ few (constraint_size n T k) d /\
         sr_name row = (fst (constraint_place k) ++ "_" ++ snd (constraint_place k) ++ "_t" ++ string_of_Z t ++ "_s" ++ string_of_Z s)%string /\
         forall x y, network_decisions n T x -> network_values n T S o st y x ->
         (row_sat y row <-> exists w, terms_value (decisions_at x t s) d = Some w /\ holds n T x k w t s)) /\
    (forall k t s, of_network n k -> (0 <= t < T)%Z -> (0 <= s < S)%Z ->
       exists j row d, nth_error (s_rows (st_solver st)) j = Some row /\ nth_error drops j = Some d /\
         few (constraint_size n T k) d /\
         forall x y, network_decisions n T x -> network_values n T S o st y x ->
         (row_sat y row <-> exists w, terms_value (decisions_at x t s) d = Some w /\ holds n T x k w t s)).
  Proof.
    destruct (conversion_steps _ _ _ _ Conv) as (n' & gcs & parts & Pre & Gcs & Parts & -> & ->).
    pose proof (study_good order n n' T S gcs parts Ord Pre Good HT HS Gcs Parts) as G.
    destruct (rows_file order' libs _ _ T S pypsa_reading o st Ord' Run G)
      as (drops & L & F1 & F2).
    pose proof (row_size order n n' T S gcs parts Pre Good HT Gcs Parts) as Z.
    exists drops. split; [exact L|]. split.
    - intros j row d Hj Hd. destruct (F1 j row d Hj Hd) as (e & m & c & t & s & Hc & Ht & Hs & _ & _ & Few & Hn & Hx).
      destruct (row_source order n n' T gcs parts Pre Good Gcs Parts e m c Hc) as (k & Hk & R).
      destruct (row_entry order n n' T gcs parts Pre Good Gcs Parts k e m c R) as (_ & P). exists k, t, s. rewrite P. cbn [fst snd].
      apply (few_more _ _ _ (Z k e m c R)) in Few.
      repeat (split; [assumption|]). intros x y Dx Vx.
      rewrite (Hx x y) by (first [apply (decisions_same order n n' T gcs parts Pre Good Gcs Parts)|apply (values_same order n n' T S gcs parts Pre Good Gcs Parts)]; assumption).
      exact (row_meaning order n n' T S gcs parts Ord Pre Good HT Gcs Parts k e m c d x t s R).
    - intros k t s Hk Ht Hs. destruct (row_exists order n n' T gcs parts Pre Good Gcs Parts k Hk) as (e & m & c & R).
      destruct (row_entry order n n' T gcs parts Pre Good Gcs Parts k e m c R) as (Hc & _).
      destruct (F2 e m c t s Hc Ht Hs) as (j & row & d & Hj & Hd & Few & _ & Hx'). exists j, row, d.
      pose proof (fun x y Dx Vx => proj2 (Hx' x y Dx Vx) (bounds_follow order n n' T gcs parts Pre Good Gcs Parts e m c Hc)) as Hx.
      apply (few_more _ _ _ (Z k e m c R)) in Few. repeat (split; [assumption|]). intros x y Dx Vx.
      rewrite (Hx x y) by (first [apply (decisions_same order n n' T gcs parts Pre Good Gcs Parts)|apply (values_same order n n' T S gcs parts Pre Good Gcs Parts)]; assumption).
      exact (row_meaning order n n' T S gcs parts Ord Pre Good HT Gcs Parts k e m c d x t s R).
  Qed.
  Lemma network_objective : exists dropped, few (cost_size n T S) dropped /\
    forall x y t s, network_decisions n T x -> network_values n T S o st y x -> (0 <= s)%Z ->
    olift2 Qcplus (objective_value y (st_solver st)) (terms_value (decisions_at x t s) dropped) = Some (network_cost n T S x).
  Proof.
    destruct (conversion_steps _ _ _ _ Conv) as (n' & gcs & parts & Pre & Gcs & Parts & -> & ->).
    pose proof (study_good order n n' T S gcs parts Ord Pre Good HT HS Gcs Parts) as G.
    destruct (objective_file order' libs _ _ T S pypsa_reading o st Ord' Run G) as (dropped & N & F). exists dropped.
    rewrite (cost_mentioned order n n' T S gcs parts Pre Good Gcs Parts) in N. split; [exact N|].
    intros x y t s Dx Vx Hs. destruct (F x y t s) as (v & E & V).
    - now apply (decisions_same order n n' T gcs parts Pre Good Gcs Parts).
    - now apply (values_same order n n' T S gcs parts Pre Good Gcs Parts).
    - exact Hs.
    - pose proof (cost_value order n n' T S gcs parts Ord Pre Good HT HS Gcs Parts x t s Dx) as C. congruence.
  Qed.
  Lemma network_places :
    (forall k c q varies t s, In c (names n k) -> In (q, varies) (quantities k) -> (0 <= t < T)%Z -> (0 <= s < S)%Z ->
       exists i sv, held o st k c q varies t s i /\ nth_error (s_vars (st_solver st)) i = Some sv /\
         sv_name sv = solver_variable_name o (study_id k c) q (given_index varies t) (given_index varies s)) /\
    (forall k c q varies t s k' c' q' varies' t' s' i, In c (names n k) -> In (q, varies) (quantities k) ->
       In c' (names n k') -> In (q', varies') (quantities k') -> (0 <= t < T)%Z -> (0 <= t' < T)%Z ->
       held o st k c q varies t s i -> held o st k' c' q' varies' t' s' i ->
       k = k' /\ c = c' /\ q = q' /\ (varies = true -> t = t' /\ s = s')) /\
    (forall x, network_decisions n T x -> exists y, network_values n T S o st y x) /\
    (forall y, exists x, network_decisions n T x /\ network_values n T S o st y x).
  Proof.
    destruct (conversion_steps _ _ _ _ Conv) as (n' & gcs & parts & Pre & Gcs & Parts & -> & ->).
    pose proof (study_good order n n' T S gcs parts Ord Pre Good HT HS Gcs Parts) as G.
    pose proof (positions order' libs _ _ T S pypsa_reading o st Ord' Run G) as P1.
    pose proof (placed_once order' libs _ _ T S pypsa_reading o st Ord' Run G) as P2.
    destruct (decisions_correspond order' libs _ _ T S pypsa_reading o st Ord' Run G) as [P3 P4].
    pose proof (variable_entry order n n' T gcs parts Pre Good Gcs Parts) as VE.
    split; [|split; [|split]].
    - intros k c q varies t s Hc Hq Ht Hs. destruct (VE k c q varies Hc Hq) as (e & v & He & Hv & Ei & Eq & Et & Es & Hh).
      destruct (P1 e _ v t s He Hv Ht Hs) as (i & sv & Hp & Hn & Hnm). exists i, sv. split; [now apply Hh|]. split; [exact Hn|].
      now rewrite Hnm, Ei, Eq, Et, Es.
    - intros k c q varies t s k' c' q' varies' t' s' i Hc Hq Hc' Hq' Ht Ht' Hh Hh'.
      destruct (VE k c q varies Hc Hq) as (e & v & He & Hv & Ei & Eq & Et & Es & H1).
      destruct (VE k' c' q' varies' Hc' Hq') as (e' & v' & He' & Hv' & Ei' & Eq' & Et' & Es' & H2).
      apply H1 in Hh. apply H2 in Hh'. destruct (P2 e _ v t s e' _ v' t' s' i He Hv He' Hv' Ht Ht' Hh Hh') as (<- & <- & E1 & E2).
      rewrite Ei in Ei'. apply (ids_unique n T Good) in Ei'; [|assumption|assumption]. destruct Ei' as [<- <-].
      split; [reflexivity|]. split; [reflexivity|]. split; [congruence|]. intros ->. auto.
    - intros x Dx. apply (decisions_same order n n' T gcs parts Pre Good Gcs Parts) in Dx. destruct (P3 x Dx) as [y Hy]. exists y.
      now apply (values_same order n n' T S gcs parts Pre Good Gcs Parts).
    - intros y. destruct (P4 y) as (x & Dx & Hy). exists x. split.
      + now apply (decisions_same order n n' T gcs parts Pre Good Gcs Parts).
      + now apply (values_same order n n' T S gcs parts Pre Good Gcs Parts).
  Qed.
  Lemma network_variables i sv : nth_error (s_vars (st_solver st)) i = Some sv ->
    exists k c q varies t s, In c (names n k) /\ In (q, varies) (quantities k) /\ (0 <= t < T)%Z /\ (0 <= s < S)%Z /\
      held o st k c q varies t s i /\ sv_integer sv = false /\ (sv_lb sv, sv_ub sv) = limits n T k c q t /\ num_le (sv_lb sv) (sv_ub sv).
  Proof.
    destruct (conversion_steps _ _ _ _ Conv) as (n' & gcs & parts & Pre & Gcs & Parts & -> & ->).
    pose proof (study_good order n n' T S gcs parts Ord Pre Good HT HS Gcs Parts) as G. intros Hi.
    destruct (variables_file order' libs _ _ T S pypsa_reading o st Ord' Run G i sv Hi) as (e & m & v & t & s & He & Hv & Ht & Hs & Hp & Ty & L & U & Le).
    destruct (entry_variable order n n' T gcs parts Pre Good Gcs Parts e m v He Hv) as (k & c & Hc & M & -> & Ei & Hq & Es).
    exists k, c, (yv_id v), (yv_time v), t, s. split; [exact Hc|]. split; [exact Hq|]. split; [exact Ht|]. split; [exact Hs|].
    split; [unfold held; unfold placed in Hp; now rewrite Es, Ei in Hp|]. split.
    - destruct (variable_scenario k v Hv) as [_ Ec]. destruct Ty as [[_ X]|[X _]]; [exact X|congruence].
    - split; [|exact Le]. exact (bounds_value order n n' T S gcs parts Ord Pre Good HT k c e v t s _ _ Hc M Hv ltac:(lia) L U).
  Qed.
End Converted.
