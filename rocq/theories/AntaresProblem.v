(** The problem that the study of a converted Antares study gives. *)
From Coq Require Import Lia Permutation.
From Verif Require Import Base BaseFacts Expr Visitors Parse SpecParse LexFacts LinearExpr Model Study Strategy Optim System Library
  Main SpecExpr SpecModel SpecLibrary SpecSystem SystemFacts SpecLinear SpecOptim OptimFacts ExpansionFacts SpecMain MainFacts MainNeeds Pypsa SpecPypsa
  PypsaFacts PypsaReading PypsaStudy PypsaProblem Thermal Antares SpecThermal SpecAntares ThermalFacts AntaresFacts AntaresReading AntaresStudy.
Local Open Scope string_scope.
Local Open Scope list_scope.

(** ** Values of texts *)
Section Texts.
  Context (E : env) (vs : list string).
  Lemma m_total body f t s : (1 <= e_S E)%Z -> (forall t s, (0 <= s < e_S E)%Z -> meaning E vs body t s = Some (f t s)) ->
    meaning E vs (wtotal body) t s = Some (expected (e_S E) (over_time (e_T E) f)).
  Proof.
    intros HS H. change (omean (e_S E) (map (fun i => meaning E vs (WSumAll body) t i) (zrange 0 (e_S E))) = Some (expected (e_S E) (over_time (e_T E) f))).
    unfold omean. replace (e_S E <=? 0)%Z with false by (symmetry; apply Z.leb_gt; lia).
    rewrite (osum_values _ (over_time (e_T E) f)); [reflexivity|]. intros i Hi. apply (m_sum E vs body (fun t => f t i)).
    intros t'. apply H. now apply zrange_In in Hi.
  Qed.
  Lemma m_next x t s : meaning E vs (wnext x) t s = name_value E vs x (t + 1) s.
  Proof.
    change (match oint (olift2 Qcplus (Some 0%Qc) (meaning E vs (WNumber "1") t s)) with Some z => name_value E vs x (t + z) s | None => None end =
            name_value E vs x (t + 1) s).
    rewrite m_one. change (oint (olift2 Qcplus (Some 0%Qc) (Some 1%Qc))) with (Some 1%Z). reflexivity.
  Qed.
  Lemma m_first x t s : meaning E vs (WIndex x (WNumber "0")) t s = name_value E vs x 0 s.
  Proof.
    change (match oint (meaning E vs (WNumber "0") t s) with Some z => name_value E vs x z s | None => None end = name_value E vs x 0 s).
    rewrite m_zero. change (oint (Some 0%Qc)) with (Some 0%Z). reflexivity.
  Qed.
  Lemma m_ago x d z t s : name_value E vs d t s = Some (Z2Qc z) ->
    meaning E vs (WAt x (WThen WNow Minus (WFactor (WName d)))) t s = name_value E vs x (t - z) s.
  Proof.
    intros H. change (match oint (olift2 Qcminus (Some 0%Qc) (name_value E vs d t s)) with Some z => name_value E vs x (t + z) s | None => None end =
      name_value E vs x (t - z) s). rewrite H. cbn [olift2]. replace (0 - Z2Qc z)%Qc with (Z2Qc (- z)) by (rewrite Z2Qc_opp; ring). now rewrite oint_Z.
  Qed.
  Lemma m_window d e f z t s : name_value E vs d t s = Some (Z2Qc z) -> (forall t, meaning E vs e t s = Some (f t)) ->
    meaning E vs (wwindow d e) t s = Some (lately z f t).
  Proof.
    intros H F. change (match oint (olift2 Qcplus (olift2 Qcminus (Some 0%Qc) (name_value E vs d t s)) (meaning E vs (WNumber "1") t s)), oint (Some 0%Qc) with
      | Some i, Some j => osum (map (fun k => meaning E vs e (t + k) s) (zrange i (j + 1))) | _, _ => None end = Some (lately z f t)).
    rewrite H, m_one. cbn [olift2]. replace (0 - Z2Qc z + 1)%Qc with (Z2Qc (1 - z)) by (rewrite Z2Qc_sub, Z2Qc_1; ring). rewrite oint_Z.
    change (oint (Some 0%Qc)) with (Some 0%Z). cbv iota. apply osum_values. intros k _. apply F.
  Qed.
End Texts.
Lemma expected_zero T S : expected S (over_time T (fun _ _ => 0%Qc)) = 0%Qc.
Proof.
  unfold expected, over_time. assert (X : forall l : list Z, qsum (fun _ => qsum (fun _ => 0%Qc) (zrange 0 T)) l = 0%Qc).
  { intros l. rewrite (qsum_ext _ (fun _ => 0%Qc)); [apply qsum_zero|]. intros a _. apply qsum_zero. }
  rewrite X. unfold Qcdiv. ring.
Qed.

Lemma given_if {A B} (f : A -> B) (b : bool) a : map f (if b then [a] else []) = if b then [f a] else [].
Proof. now destruct b. Qed.

(** ** Names *)
Lemma quantities_variables e : quantities_of e = map (fun y => (yv_id y, String.eqb (yv_type y) "integer")) (ym_variables (emod e)).
Proof. destruct e; reflexivity. Qed.
Lemma variable_dims e y : In y (ym_variables (emod e)) -> yv_time y = true /\ yv_scenario y = true.
Proof. destruct e; cbn; intros H; repeat (destruct H as [<-|H]; [split; reflexivity|]); destruct H. Qed.
Lemma quantity_named e q b : In (q, b) (quantities_of e) <-> exists y, In y (ym_variables (emod e)) /\ yv_id y = q /\ String.eqb (yv_type y) "integer" = b.
Proof.
  rewrite quantities_variables, in_map_iff. split.
  - intros (y & [= <- <-] & H). eauto.
  - intros (y & H & <- & <-). eauto.
Qed.
Lemma quantity_variable e q b : In (q, b) (quantities_of e) -> existsb (String.eqb q) (map yv_id (ym_variables (emod e))) = true.
Proof. destruct e; cbn; intros H; repeat (destruct H as [[= <- <-]|H]; [reflexivity|]); destruct H. Qed.
Lemma parameter_variable s e id : In id (map given_id (snd (described s e))) -> existsb (String.eqb id) (map yv_id (ym_variables (emod e))) = false.
Proof. destruct e; cbn; intros H; repeat (destruct H as [<-|H]; [reflexivity|]); destruct H. Qed.

Section Problem.
  Context (s : an_study) (directory : string -> result frame) (period : nat) (T S : Z) (sys : input_system) (files : list (string * table)).
  Hypothesis Good : good_antares s directory period T S.
  Hypothesis Nodes : is_nodes sys = map (component_of s) (nodes s).
  Hypothesis Comps : is_components sys = map (component_of s) (elements s).
  Hypothesis Conns : is_connections sys = flat_map connections_of (elements s).
  Hypothesis Conv : conversion_files s (Z.of_nat period) files.
  Hypothesis Single : forall a g, In (Cluster a g) (everything s) -> S = 1%Z.
  Let found := directory_after directory files.
  Let HS : (1 <= S)%Z := proj1 (proj2 Good).
  Let world := file_world libs sys found T S antares_reading.
  Let vars e := map yv_id (ym_variables (emod e)).
  Let inputs := entries s directory period T S sys Good Nodes Comps.
  Lemma all_scenarios e sc : In e (everything s) -> (0 <= sc < S)%Z -> (0 <= sc < scenarios_of S e)%Z.
  Proof. intros He Hs. destruct e; try exact Hs. cbn. now rewrite (Single _ _ He) in Hs. Qed.

  Section Decided.
    Context (x : decisions).
    Lemma var_value e ports q b t sc : In (q, b) (quantities_of e) ->
      name_value (entry_world sys found T S x (component_of s e) ports) (vars e) q t sc = Some (x (element_id e) q t sc).
    Proof. intros Hq. unfold name_value, vars. now rewrite (quantity_variable e q b Hq). Qed.
    Lemma par_value e ports id t sc : In e (everything s) -> In id (map given_id (snd (described s e))) -> (0 <= sc < S)%Z ->
      name_value (entry_world sys found T S x (component_of s e) ports) (vars e) id t sc = Some (datum s directory period T e id t sc).
    Proof.
      intros He Hid Hs. unfold name_value, vars. rewrite (parameter_variable s e id Hid). cbn [entry_world e_par].
      exact (element_value s directory period T S files Good Conv e id t sc He Hid (all_scenarios e sc He Hs)).
    Qed.
    Definition brought_value (emd : input_component * in_model * in_definition) (t sc : Z) : option Qc :=
      let '(e', m', d) := emd in
      text_value (entry_world sys found T S x e' (fun _ _ => [])) m' (antares_reading m' (yd_definition d)) t sc.
    Lemma world_ports e p f t sc : osum (map (fun v => v t sc) (e_port (world x e) p f)) =
      osum (map (fun emd => brought_value emd t sc) (text_connected libs sys (ic_id e) p f)).
    Proof. unfold world, file_world. cbn [entry_world e_port]. rewrite map_map. f_equal. apply map_ext. intros [[e' m'] d]. reflexivity. Qed.
    Ltac named e He Hs :=
      try match goal with |- text_value ?E ?m (WName ?a) ?t ?sc = ?v => change (name_value E (map yv_id (ym_variables m)) a t sc = v) end;
      rewrite ?m_name;
      lazymatch goal with |- name_value _ _ ?q ?t ?sc = _ =>
        first [exact (var_value e _ q true t sc ltac:(cbn; tauto))
              |exact (var_value e _ q false t sc ltac:(cbn; tauto))
              |exact (par_value e _ q t sc He ltac:(cbn; tauto) Hs)]
      end.
    Ltac reads := match goal with |- text_value ?E ?m (antares_reading ?m' ?w) ?t ?sc = ?v =>
      let r := eval vm_compute in (antares_reading lib_area w) in change (text_value E m r t sc = v) end.
    Lemma delivered_value a e t sc : In e (elements s) -> (0 <= sc < S)%Z ->
      osum (map (fun emd => brought_value emd t sc)
        (flat_map (fun k => if String.eqb (icn_component2 k) a then text_definition libs sys (element_id e) (icn_port1 k) "flow" else []) (connections_of e))) =
      Some (delivers T x a t sc e).
    Proof.
      intros He Hs. pose proof (in_elements s e He) as Hin.
      pose proof (proj1 (proj2 (proj2 (proj2 (proj2 (proj2 Good))))) e Hin) as G.
      assert (One : forall (v : option Qc) q (b : bool), v = Some q -> osum (if b then [v] else []) = Some (if b then q else 0%Qc)).
      { intros v q [] ->; cbn; [|reflexivity]. f_equal. ring. }
      destruct e as [a'|r|a' g|a' o|a'|a'|a'|k|a' b]; cbn [good_element] in G; try contradiction; cbn [connections_of flat_map joins icn_component2 icn_port1];
        rewrite ?(definition_of s directory period T S sys Good Nodes Comps _ _ _ Hin);
        cbn [find emod ym_definitions lib_thermal lib_short_term_storage lib_battery lib_an_load lib_an_link ydef yd_port yd_field String.eqb Ascii.eqb Bool.eqb andb app];
        rewrite ?app_nil_r.
      - reflexivity.
      - cbn [delivers]. rewrite given_if.
        apply One. unfold brought_value. reads. named (Cluster a' g) Hin Hs.
      - cbn [delivers]. rewrite given_if.
        apply One. unfold brought_value. reads. unfold text_value. apply m_minus; named (Storage a' o) Hin Hs.
      - cbn [delivers]. rewrite given_if.
        apply One. unfold brought_value. reads. unfold text_value. apply m_neg; named (Load a') Hin Hs.
      - rewrite map_app. cbn [delivers].
        replace (_ - _)%Qc with ((if String.eqb (ln_from k) a then - x (ln_id k) "flow" t sc else 0) + (if String.eqb (ln_to k) a then x (ln_id k) "flow" t sc else 0))%Qc
          by (cbn [element_id]; destruct (String.eqb (ln_from k) a), (String.eqb (ln_to k) a); ring).
        apply osum_joined.
        + rewrite given_if.
          apply One. unfold brought_value. reads. unfold text_value. apply m_neg; named (Link k) Hin Hs.
        + rewrite given_if.
          apply One. unfold brought_value. reads. named (Link k) Hin Hs.
      - cbn [delivers]. rewrite given_if.
        apply One. unfold brought_value. reads. unfold text_value. apply m_minus; named (Battery a' b) Hin Hs.
    Qed.
    Lemma balance_value a t sc : In (Area a) (everything s) -> (0 <= sc < S)%Z ->
      text_value (world x (component_of s (Area a))) lib_area (WSumPorts "balance_port" "flow") t sc = Some (qsum (delivers T x (ar_id a) t sc) (elements s)).
    Proof.
      intros Ha Hs. unfold text_value. rewrite m_ports, world_ports. cbn [component_of ic_id element_id].
      rewrite (area_connected s directory period T S sys Good Nodes Comps Conns a Ha). apply osum_pieces. intros e He. now apply delivered_value.
    Qed.
  End Decided.

  (** ** Rows *)
  Definition row_text (r : an_row) : in_constraint :=
    let th i := nth i (ym_constraints lib_thermal) (yrow "" "") in
    match r with
    | AreaBalance _ => nth 0 (ym_binding_constraints lib_area) (yrow "" "")
    | FlowParts _ => nth 0 (ym_constraints lib_an_link) (yrow "" "")
    | MostGeneration _ _ => th 0%nat | LeastGeneration _ _ => th 1%nat | UnitsOn _ _ => th 2%nat | FailingStop _ _ => th 3%nat
    | FailingLost _ _ => th 4%nat | UpTime _ _ => th 5%nat | DownTime _ _ => th 6%nat
    | FirstLevel _ _ => nth 0 (ym_constraints lib_short_term_storage) (yrow "" "")
    | LevelChange _ _ => nth 1 (ym_constraints lib_short_term_storage) (yrow "" "")
    | BatteryChange _ _ => nth 0 (ym_constraints lib_battery) (yrow "" "")
    end.
  Let place_of (r : an_row) : element := fst (row_place r).
  Lemma row_entry r : In (place_of r) (everything s) ->
    entry_constraint libs sys (component_of s (place_of r)) (emod (place_of r)) (row_text r) /\ yc_id (row_text r) = snd (row_place r).
  Proof.
    intros H. split; [|destruct r; reflexivity]. split; [|destruct r; cbn; tauto]. apply inputs. eauto.
  Qed.
  Lemma row_source c m k : entry_constraint libs sys c m k ->
    exists r, In (place_of r) (everything s) /\ c = component_of s (place_of r) /\ m = emod (place_of r) /\ k = row_text r.
  Proof.
    intros [H Hk]. apply inputs in H as (e & He & -> & ->). destruct e as [a|r|a g|a o|a|a|a|l|a b]; cbn in Hk;
      repeat (destruct Hk as [<-|Hk]; [first
        [ exists (AreaBalance a); now repeat split | exists (FlowParts l); now repeat split | exists (MostGeneration a g); now repeat split
        | exists (LeastGeneration a g); now repeat split | exists (UnitsOn a g); now repeat split | exists (FailingStop a g); now repeat split
        | exists (FailingLost a g); now repeat split | exists (UpTime a g); now repeat split | exists (DownTime a g); now repeat split
        | exists (FirstLevel a o); now repeat split | exists (LevelChange a o); now repeat split | exists (BatteryChange a b); now repeat split ]|]); destruct Hk.
  Qed.
  Lemma cmp_text x c m k o l r vl vr d t sc : antares_reading m (yc_expression k) = WCmp o l r ->
    text_value (world x c) m l t sc = Some vl -> text_value (world x c) m r t sc = Some vr ->
    (text_holds libs sys found T S antares_reading d x c m k t sc <->
     exists w, terms_value (decisions_at x t sc) d = Some w /\ cmp_holds o (vl - w)%Qc vr).
  Proof.
    intros Er Hl Hr. unfold text_holds. rewrite Er. fold world. split.
    - intros (w & Hw & a & b & Ha & Hb & H). rewrite Hl in Ha. rewrite Hr in Hb. injection Ha as <-. injection Hb as <-. exists w. split; [exact Hw|exact H].
    - intros (w & Hw & H). exists w. split; [exact Hw|]. exists vl, vr. auto.
  Qed.
  Ltac named x e He Hs :=
    try match goal with |- text_value ?E ?m (WName ?a) ?t ?sc = ?v => change (name_value E (map yv_id (ym_variables m)) a t sc = v) end;
    rewrite ?m_name;
    lazymatch goal with |- name_value _ _ ?q ?t ?sc = _ =>
      first [exact (var_value x e _ q true t sc ltac:(cbn; tauto))
            |exact (var_value x e _ q false t sc ltac:(cbn; tauto))
            |exact (par_value x e _ q t sc He ltac:(cbn; tauto) Hs)]
    end.
  Ltac cmp := eapply iff_trans; [eapply cmp_text; [reflexivity| |]|].
  Lemma row_meaning r d x t sc : In (place_of r) (everything s) -> (0 <= sc < S)%Z ->
    (text_holds libs sys found T S antares_reading d x (component_of s (place_of r)) (emod (place_of r)) (row_text r) t sc <->
     exists w, terms_value (decisions_at x t sc) d = Some w /\ row_holds s directory period T x r w t sc).
  Proof.
    intros He Hs. destruct r as [a|k|a g|a g|a g|a g|a g|a g|a g|a o|a o|a b]; unfold place_of in *; cbn [row_place fst] in *.
    - cmp; [exact (balance_value x a t sc He Hs)|unfold text_value; apply m_minus; named x (Area a) He Hs|reflexivity].
    - cmp; [named x (Link k) He Hs|unfold text_value; apply m_minus; named x (Link k) He Hs|reflexivity].
    - cmp; [named x (Cluster a g) He Hs|unfold text_value; apply m_times; named x (Cluster a g) He Hs|reflexivity].
    - cmp; [named x (Cluster a g) He Hs|unfold text_value; apply m_times; named x (Cluster a g) He Hs|reflexivity].
    - cmp; [named x (Cluster a g) He Hs|unfold text_value; apply m_minus; [apply m_plus; [rewrite m_before; named x (Cluster a g) He Hs|named x (Cluster a g) He Hs]|named x (Cluster a g) He Hs]|reflexivity].
    - cmp; [named x (Cluster a g) He Hs|named x (Cluster a g) He Hs|reflexivity].
    - cmp; [named x (Cluster a g) He Hs|named x (Cluster a g) He Hs|reflexivity].
    - cmp; [unfold text_value; apply m_window; [named x (Cluster a g) He Hs|intros t'; apply m_minus; named x (Cluster a g) He Hs]|named x (Cluster a g) He Hs|reflexivity].
    - cmp; [unfold text_value; apply m_window; [named x (Cluster a g) He Hs|intros t'; named x (Cluster a g) He Hs]
        |unfold text_value; apply m_plus; [apply m_minus; [erewrite m_ago; [|named x (Cluster a g) He Hs]; named x (Cluster a g) He Hs|named x (Cluster a g) He Hs]
          |apply m_window; [named x (Cluster a g) He Hs|intros t'; named x (Cluster a g) He Hs]]|reflexivity].
    - cmp; [unfold text_value; rewrite m_first; named x (Storage a o) He Hs|unfold text_value; apply m_times; named x (Storage a o) He Hs|reflexivity].
    - cmp; [unfold text_value; rewrite m_next; named x (Storage a o) He Hs
        |unfold text_value; apply m_plus; [apply m_minus; [apply m_plus; [named x (Storage a o) He Hs|apply m_times; named x (Storage a o) He Hs]|apply m_times; named x (Storage a o) He Hs]|named x (Storage a o) He Hs]|].
      apply Morphisms_Prop.ex_iff_morphism. intros w. apply Morphisms_Prop.and_iff_morphism; [reflexivity|]. cbn [cmp_holds row_holds row_place fst element_id].
      match goal with |- ?a = ?b <-> ?a' = ?b' => replace b with b'; [reflexivity|] end. cbn [datum String.eqb Ascii.eqb Bool.eqb element_id]. ring.
    - cmp; [unfold text_value; rewrite m_next; named x (Battery a b) He Hs
        |unfold text_value; apply m_minus; [apply m_plus; [named x (Battery a b) He Hs|apply m_times; named x (Battery a b) He Hs]|apply m_times; named x (Battery a b) He Hs]|reflexivity].
  Qed.

  (** ** Cost *)
  Definition objectives_of (c : input_component) : list (input_component * in_model * string) :=
    match file_model libs (ic_model c) with Some m => map (fun w => (c, m, w)) (given_text (ym_objective m)) | None => [] end.
  Let value_of x t sc emw := text_objective_value libs sys found T S antares_reading x t sc emw.
  Ltac reads := match goal with |- text_value ?E ?m (antares_reading ?m' ?w) ?t ?sc = ?v =>
    let r := eval vm_compute in (antares_reading lib_area w) in change (text_value E m r t sc = v) end.
  Ltac total f := match goal with |- meaning ?E ?vs (WCall _ (WSumAll ?b)) ?t ?sc = _ => refine (m_total E vs b f t sc HS _) end.
  Lemma element_cost x e t sc : In e (everything s) ->
    osum (map (value_of x t sc) (objectives_of (component_of s e))) = Some (expected S (over_time T (running_cost T x e))).
  Proof.
    intros He. unfold objectives_of. rewrite (model_of s directory period T S Good e He).
    assert (None_ : osum (map (value_of x t sc) []) = Some (expected S (over_time T (fun _ _ => 0%Qc)))) by (rewrite expected_zero; reflexivity).
    assert (One : forall m w f, value_of x t sc (component_of s e, m, w) = Some f -> osum (map (value_of x t sc) [(component_of s e, m, w)]) = Some f).
    { intros m w f E. cbn [map]. rewrite E. cbn. f_equal. ring. }
    destruct e as [a|r|a g|a o|a|a|a|k|a b]; cbn [emod ym_objective lib_area lib_an_load lib_an_link lib_thermal lib_short_term_storage lib_battery lib_renewable given_text];
      try exact None_.
    - apply One. unfold value_of, text_objective_value. reads. unfold text_value. total (running_cost T x (Area a)).
      intros t' sc' Hs. apply m_plus; apply m_times; named x (Area a) He Hs.
    - apply One. unfold value_of, text_objective_value. reads. unfold text_value. total (running_cost T x (Cluster a g)).
      intros t' sc' Hs. apply m_plus; [apply m_plus; apply m_times; named x (Cluster a g) He Hs|apply m_times; named x (Cluster a g) He Hs].
    - apply One. unfold value_of, text_objective_value. reads. unfold text_value. total (running_cost T x (Battery a b)).
      intros t' sc' Hs. apply m_times; named x (Battery a b) He Hs.
  Qed.
  Lemma cost_value x t sc : osum (map (value_of x t sc) (text_objectives libs sys)) = Some (study_cost s T S x).
  Proof.
    unfold text_objectives. fold objectives_of. rewrite Nodes, Comps, <- map_app, flat_map_map. fold (everything s). unfold study_cost.
    apply osum_pieces. intros e He. now apply element_cost.
  Qed.

  (** ** Quantities mentioned *)
  Let none : decisions := fun _ _ _ _ => 0%Qc.
  Let brought_mentions (emd : input_component * in_model * in_definition) : nat :=
    let '(e', m', d) := emd in
    text_mentions (entry_world sys found T S none e' (fun _ _ => [])) (map yv_id (ym_variables m')) (fun _ _ => O)
      (antares_reading m' (yd_definition d)).
  Lemma sum_pieces {A B} (f : B -> nat) (g : A -> list B) (h : A -> nat) l :
    (forall a, In a l -> list_sum (map f (g a)) = h a) -> list_sum (map f (flat_map g l)) = list_sum (map h l).
  Proof.
    intros H. induction l as [|a l IH]; [reflexivity|]. cbn [flat_map]. rewrite map_app, list_sum_app, H by now left.
    rewrite IH by (intros; apply H; now right). reflexivity.
  Qed.
  Lemma delivered_mentions a e : In e (elements s) ->
    list_sum (map brought_mentions
      (flat_map (fun k => if String.eqb (icn_component2 k) a then text_definition libs sys (element_id e) (icn_port1 k) "flow" else []) (connections_of e))) =
    delivered_count a e.
  Proof.
    intros He. pose proof (in_elements s e He) as Hin.
    pose proof (proj1 (proj2 (proj2 (proj2 (proj2 (proj2 Good))))) e Hin) as G.
    destruct e as [a'|r|a' g|a' o|a'|a'|a'|k|a' b]; cbn [good_element] in G; try contradiction; cbn [connections_of flat_map joins icn_component2 icn_port1];
      rewrite ?(definition_of s directory period T S sys Good Nodes Comps _ _ _ Hin);
      cbn [find emod ym_definitions lib_thermal lib_short_term_storage lib_battery lib_an_load lib_an_link ydef yd_port yd_field String.eqb Ascii.eqb Bool.eqb andb app];
      rewrite ?app_nil_r; cbn [delivered_count];
      repeat match goal with |- context [if String.eqb ?u ?v then _ else _] => destruct (String.eqb u v) end; reflexivity.
  Qed.
  Lemma window_steps e d z : name_value (world none (component_of s e)) (vars e) d 0 0 = Some (Z2Qc z) ->
    text_window (world none (component_of s e)) (vars e) (WThen (WThen WNow Minus (WFactor (WName d))) Plus (WFactor (WNumber "1"))) WNow = Z.to_nat z.
  Proof.
    intros H.
    change (match oint (olift2 Qcplus (olift2 Qcminus (Some 0%Qc) (name_value (world none (component_of s e)) (vars e) d 0 0))
        (meaning (world none (component_of s e)) (vars e) (WNumber "1") 0 0)), oint (Some 0%Qc) with
      | Some i, Some j => Z.to_nat (j + 1 - i) | _, _ => O end = Z.to_nat z).
    rewrite H, m_one. cbn [olift2]. replace (0 - Z2Qc z + 1)%Qc with (Z2Qc (1 - z)) by (rewrite Z2Qc_sub, Z2Qc_1; ring). rewrite oint_Z.
    change (oint (Some 0%Qc)) with (Some 0%Z). cbv iota. f_equal. lia.
  Qed.
  Lemma row_size_is r : In (place_of r) (everything s) ->
    file_mentions libs sys found T S antares_reading (component_of s (place_of r)) (emod (place_of r))
      (antares_reading (emod (place_of r)) (yc_expression (row_text r))) = row_size s r.
  Proof.
    intros He. assert (H0 : (0 <= 0 < S)%Z) by lia.
    destruct r as [a|k|a g|a g|a g|a g|a g|a g|a g|a o|a o|a b]; unfold place_of in *; cbn [row_place fst] in *; try reflexivity.
    - change (list_sum (map brought_mentions (text_connected libs sys (ar_id a) "balance_port" "flow")) + 2 = row_size s (AreaBalance a))%nat.
      rewrite (area_connected s directory period T S sys Good Nodes Comps Conns a He). cbn [row_size]. f_equal.
      apply sum_pieces. intros e Hel. now apply delivered_mentions.
    - unfold file_mentions.
      match goal with |- text_mentions _ _ _ (antares_reading _ ?w) = _ => let r := eval vm_compute in (antares_reading lib_area w) in
        change (antares_reading (emod (Cluster a g)) w) with r end.
      cbn [text_mentions].
      pose proof (window_steps (Cluster a g) "d_min_up" (at_min_up_time g)
        (par_value none (Cluster a g) _ "d_min_up" 0 0 He ltac:(cbn; tauto) H0)) as W.
      unfold world, vars in W. unfold none in W. cbn [row_size]. rewrite W. cbn. lia.
    - unfold file_mentions.
      match goal with |- text_mentions _ _ _ (antares_reading _ ?w) = _ => let r := eval vm_compute in (antares_reading lib_area w) in
        change (antares_reading (emod (Cluster a g)) w) with r end.
      cbn [text_mentions].
      pose proof (window_steps (Cluster a g) "d_min_down" (at_min_down_time g)
        (par_value none (Cluster a g) _ "d_min_down" 0 0 He ltac:(cbn; tauto) H0)) as W.
      unfold world, vars in W. unfold none in W. cbn [row_size]. rewrite W. cbn. lia.
  Qed.
  Let mentions_of := text_objective_mentions libs sys found T S antares_reading.
  Lemma cost_mentioned : list_sum (map mentions_of (text_objectives libs sys)) = study_cost_size s T S.
  Proof.
    unfold text_objectives. fold objectives_of. rewrite Nodes, Comps, <- map_app, flat_map_map. fold (everything s).
    rewrite (sum_pieces _ _ (fun e => Z.to_nat S * Z.to_nat T * cost_count e)%nat).
    - unfold study_cost_size. generalize (everything s). intros l. induction l as [|e l IH]; [now rewrite Nat.mul_0_r|].
      cbn [map]. change (list_sum (?a :: ?l)) with (a + list_sum l)%nat. rewrite IH. lia.
    - intros e He. unfold objectives_of. rewrite (model_of s directory period T S Good e He). unfold mentions_of.
      destruct e; try (cbn [cost_count]; rewrite Nat.mul_0_r; reflexivity).
      + change (Z.to_nat S * (Z.to_nat T * 2) + 0 = Z.to_nat S * Z.to_nat T * 2)%nat. lia.
      + change (Z.to_nat S * (Z.to_nat T * 3) + 0 = Z.to_nat S * Z.to_nat T * 3)%nat. lia.
      + change (Z.to_nat S * (Z.to_nat T * 1) + 0 = Z.to_nat S * Z.to_nat T * 1)%nat. lia.
  Qed.

  (** ** Decisions *)
  Lemma decisions_same x : study_decisions T x <-> file_decisions libs sys T x.
  Proof.
    unfold study_decisions, file_decisions. split; [|now intros [P _]]. intros P. split; [exact P|].
    intros c m v He Hv. apply inputs in He as (e & He & -> & ->). destruct (variable_dims e v Hv) as [E1 E2]. split; congruence.
  Qed.
  Lemma entry_variable c m v : entry libs sys c m -> In v (ym_variables m) ->
    exists e, In e (everything s) /\ c = component_of s e /\ m = emod e /\ In (yv_id v, String.eqb (yv_type v) "integer") (quantities_of e) /\
      forall o st t sc i, kept_in o st e (yv_id v) t sc i <-> placed o st c v t sc i.
  Proof.
    intros He Hv. apply inputs in He as (e & He & -> & ->). exists e. split; [exact He|]. split; [reflexivity|]. split; [reflexivity|].
    split; [apply quantity_named; eauto|]. destruct (variable_dims e v Hv) as [E1 E2]. intros o st t sc i. unfold kept_in, placed. now rewrite E1, E2.
  Qed.
  Lemma variable_entry e q b : In e (everything s) -> In (q, b) (quantities_of e) ->
    exists v, entry libs sys (component_of s e) (emod e) /\ In v (ym_variables (emod e)) /\ yv_id v = q /\ String.eqb (yv_type v) "integer" = b /\
      yv_time v = true /\ yv_scenario v = true /\ forall o st t sc i, kept_in o st e q t sc i <-> placed o st (component_of s e) v t sc i.
  Proof.
    intros He Hq. apply quantity_named in Hq as (v & Hv & <- & <-). exists v. split; [apply inputs; eauto|]. split; [exact Hv|]. split; [reflexivity|].
    split; [reflexivity|]. destruct (variable_dims e v Hv) as [E1 E2]. split; [exact E1|]. split; [exact E2|].
    intros o st t sc i. unfold kept_in, placed. now rewrite E1, E2.
  Qed.
  Lemma values_same o st y x : study_values s T S o st y x <-> takes_values libs sys T S (placed o st) y x.
  Proof.
    unfold study_values, takes_values. split; intros N.
    - intros c m v t sc i Hc Hv Ht Hs Hp. destruct (entry_variable c m v Hc Hv) as (e & He & -> & -> & Hq & Hk).
      apply (N e (yv_id v) _ t sc i He Hq Ht Hs). now apply Hk.
    - intros e q b t sc i He Hq Ht Hs Hk. destruct (variable_entry e q b He Hq) as (v & Hc & Hv & <- & _ & _ & _ & Hk').
      apply (N (component_of s e) (emod e) v t sc i Hc Hv Ht Hs). now apply Hk'.
  Qed.

  (** ** Bounds *)
  Lemma bound_fin c m v inf w t sc b q : text_bound_is libs sys found T S antares_reading c m v inf (Some w) t sc b -> (0 <= sc)%Z ->
    String.eqb w "" = false -> text_value (world (fun _ _ _ _ => 0%Qc) c) m (antares_reading m w) t sc = Some q -> b = Fin q.
  Proof.
    intros Hb Hs Hw Hq. unfold text_bound_is in Hb. destruct w as [|a w]; [discriminate|]. cbn [given_text] in Hb.
    destruct Hb as (q' & -> & Hb). specialize (Hb (fun _ _ _ _ => 0%Qc) t sc (fun _ => eq_refl) (fun _ => eq_refl) Hs).
    fold world in Hb. congruence.
  Qed.
  Ltac bound x e He Hs H :=
    first [match type of H with text_bound_is _ _ _ _ _ _ _ _ _ ?inf None _ _ ?b => change (b = inf) in H end
      |eapply bound_fin in H; [|exact (proj1 Hs)|reflexivity|reads; unfold text_value; first [apply m_zero|apply m_times; named x e He Hs|named x e He Hs]]].
  Ltac limit x e He Hs Hv L U := cbn in Hv; repeat (destruct Hv as [<-|Hv]; [cbn [yv_lower yvar yint] in L; cbn [yv_upper yvar yint] in U; cbn [yv_id yvar yint];
      bound x e He Hs L; bound x e He Hs U; rewrite L, U|]); [..|destruct Hv].
  Lemma bounds_value e v t sc lb ub : In e (everything s) -> In v (ym_variables (emod e)) -> (0 <= sc < S)%Z ->
    text_bound_is libs sys found T S antares_reading (component_of s e) (emod e) v NInf (yv_lower v) t sc lb ->
    text_bound_is libs sys found T S antares_reading (component_of s e) (emod e) v PInf (yv_upper v) t sc ub ->
    (lb, ub) = quantity_limits s directory T e (yv_id v) t sc.
  Proof.
    intros He Hv Hs L U. set (x := fun (_ _ : string) (_ _ : Z) => 0%Qc).
    pose proof (proj1 (proj2 (proj2 (proj2 (proj2 (proj2 Good))))) e He) as G.
    destruct e as [a|r|a g|a o|a|a|a|k|a b]; cbn [good_element] in G; try contradiction.
    - limit x (Area a) He Hs Hv L U; reflexivity.
    - limit x (Cluster a g) He Hs Hv L U; reflexivity.
    - limit x (Storage a o) He Hs Hv L U; reflexivity.
    - limit x (Link k) He Hs Hv L U; reflexivity.
    - destruct G as (Nz & _). assert (Nz' : forall v, In v [bt_reservoir b; bt_injection b; bt_withdrawal b] -> fin v <> 0%Qc).
      { intros w Hw. destruct (Nz w Hw) as (q & -> & Hq). exact Hq. }
      pose proof (Nz' (bt_reservoir b) ltac:(cbn; tauto)) as Z1. pose proof (Nz' (bt_injection b) ltac:(cbn; tauto)) as Z2.
      pose proof (Nz' (bt_withdrawal b) ltac:(cbn; tauto)) as Z3.
      limit x (Battery a b) He Hs Hv L U; cbn [quantity_limits datum String.eqb Ascii.eqb Bool.eqb]; unfold between; repeat f_equal; try reflexivity; field; assumption.
  Qed.
End Problem.

(** ** Clusters have one scenario *)
Lemma narrow_cell tb n f t sc : has_values tb n 1 f -> (1 <= sc)%Z -> cell (tb_rows tb) t sc = None.
Proof.
  intros ((_ & _ & W) & _) Hs. unfold cell. destruct (0 <=? t)%Z; [|reflexivity]. destruct (0 <=? sc)%Z; [|reflexivity].
  destruct (nth_error (tb_rows tb) (Z.to_nat t)) as [row|] eqn:E; [|reflexivity]. apply nth_error_In in E. apply nth_error_None. rewrite (W row E). lia.
Qed.
Section Run.
  Context (s : an_study) (directory : string -> result frame) (period : nat) (T S : Z) (sys : input_system) (files : list (string * table))
    (order : list string -> list string -> list string -> list string) (o : settings) (st : state).
  Hypothesis Good : good_antares s directory period T S.
  Hypothesis Nodes : is_nodes sys = map (component_of s) (nodes s).
  Hypothesis Comps : is_components sys = map (component_of s) (elements s).
  Hypothesis Conns : is_connections sys = flat_map connections_of (elements s).
  Hypothesis Conv : conversion_files s (Z.of_nat period) files.
  Hypothesis Ord : any_order order.
  Let found := directory_after directory files.
  Hypothesis Run : main_cli order libs sys found T S = Ok (o, st).
  Let G : good_study libs sys found T S antares_reading := AntaresStudy.study_good s directory period T S sys files Good Nodes Comps Conv.
  Lemma cluster_value a g t sc : In (Cluster a g) (everything s) -> (1 <= sc)%Z ->
    file_value found T (component_of s (Cluster a g)) "p_min_cluster" t sc = None.
  Proof.
    intros He Hs. assert (Hel : In (Cluster a g) (elements s)) by (apply element_of; [exact He|discriminate]).
    pose proof Good as (HT & HS & Hp & Named & Dist & El & Wr & _). pose proof (El _ He) as (Ea & (n & m & md & pw & sz & Reg & _) & _).
    destruct (cluster_found s directory _ files Named Conv (cluster_areas s directory period T S Good) Wr a g "p_min_cluster"
      (cluster_pair s directory period T S Good a g Hel) ltac:(cbn; tauto)) as (tb & P & Ef).
    destruct (p_min_values _ _ _ _ _ _ Reg) as (t1 & p1 & E1 & V1 & _).
    assert (t1 = tb) by (cbn in P; rewrite E1 in P; now injection P as <-). subst t1.
    unfold file_value. rewrite parameters_are. cbn [described snd known map app find given ip_id String.eqb Ascii.eqb Bool.eqb parameter_cell ip_value ip_time ip_scenario orb file_of].
    unfold found. rewrite Ea, Ef. now rewrite (narrow_cell tb n _ _ sc V1 Hs).
  Qed.
  Lemma single_scenario a g : In (Cluster a g) (everything s) -> S = 1%Z.
  Proof.
    intros He. pose proof (proj1 Good) as HT. pose proof (proj1 (proj2 Good)) as HS. destruct (Z.eq_dec S 1) as [|N]; [assumption|exfalso].
    assert (Hen : entry libs sys (component_of s (Cluster a g)) lib_thermal) by (apply (entries s directory period T S sys Good Nodes Comps); exists (Cluster a g); auto).
    set (v := yvar "generation" true true (Some "p_min_cluster") (Some "p_max_cluster")).
    assert (Hv : In v (ym_variables lib_thermal)) by (now left).
    destruct (positions order libs sys found T S antares_reading o st Ord Run G _ _ v 0 (S - 1) Hen Hv ltac:(lia) ltac:(lia)) as (i & sv & Hp & Hi & _).
    destruct (variables_file order libs sys found T S antares_reading o st Ord Run G i sv Hi) as (c & m & v' & t & sc & Hc & Hv' & Ht & Hs & Hp' & _ & L & _).
    destruct (placed_once order libs sys found T S antares_reading o st Ord Run G _ _ _ 0%Z (S - 1)%Z _ _ _ t sc i Hen Hv Hc Hv' ltac:(lia) Ht Hp Hp') as (<- & <- & _ & E).
    specialize (E eq_refl). subst sc. assert (m = lib_thermal) by (destruct Hen, Hc; congruence). subst m.
    unfold text_bound_is in L. cbn [yv_lower v yvar given_text] in L. destruct L as (q & _ & L).
    specialize (L (fun _ _ _ _ => 0%Qc) t (S - 1)%Z (fun _ => eq_refl) (fun _ => eq_refl) ltac:(lia)).
    change (file_value found T (component_of s (Cluster a g)) "p_min_cluster" t (S - 1) = Some q) in L.
    rewrite (cluster_value a g t (S - 1) He) in L by lia. discriminate.
  Qed.
  Let Single := single_scenario.
  Let same_decisions := decisions_same s directory period T S sys Good Nodes Comps.
  Let same_values := values_same s directory period T S sys Good Nodes Comps o st.
  Let element_variable := variable_entry s directory period T S sys Good Nodes Comps.

  Lemma run_rows : exists drops, List.length drops = List.length (s_rows (st_solver st)) /\
    (forall j row d, nth_error (s_rows (st_solver st)) j = Some row -> nth_error drops j = Some d ->
       exists r t sc, In (fst (row_place r)) (everything s) /\ (0 <= t < T)%Z /\ (0 <= sc < S)%Z /\ few (row_size s r) d /\
         sr_name row = (element_id (fst (row_place r)) ++ "_" ++ snd (row_place r) ++ "_t" ++ string_of_Z t ++ "_s" ++ string_of_Z sc)%string /\
         forall x y, study_decisions T x -> study_values s T S o st y x ->
         (row_sat y row <-> exists w, terms_value (decisions_at x t sc) d = Some w /\ row_holds s directory period T x r w t sc)) /\
    (forall r t sc, In (fst (row_place r)) (everything s) -> (0 <= t < T)%Z -> (0 <= sc < S)%Z ->
       exists j row d, nth_error (s_rows (st_solver st)) j = Some row /\ nth_error drops j = Some d /\ few (row_size s r) d /\
         forall x y, study_decisions T x -> study_values s T S o st y x ->
         (row_sat y row <-> exists w, terms_value (decisions_at x t sc) d = Some w /\ row_holds s directory period T x r w t sc)).
  Proof.
    destruct (rows_file order libs sys found T S antares_reading o st Ord Run G)
      as (drops & L & F1 & F2).
    exists drops. split; [exact L|]. split.
    - intros j row d Hj Hd. destruct (F1 j row d Hj Hd) as (c & m & k & t & sc & Hc & Ht & Hs & _ & _ & Few & Hn & Hx).
      destruct (row_source s directory period T S sys Good Nodes Comps c m k Hc) as (r & Hr & -> & -> & ->).
      destruct (row_entry s directory period T S sys Good Nodes Comps r Hr) as (_ & P).
      unfold found in Few. rewrite (row_size_is s directory period T S sys files Good Nodes Comps Conns Conv Single r Hr) in Few. exists r, t, sc.
      split; [exact Hr|]. split; [exact Ht|]. split; [exact Hs|]. split; [exact Few|]. split; [now rewrite Hn, P|]. intros x y Dx Vx.
      rewrite (Hx x y) by (first [now apply same_decisions|now apply same_values]).
      exact (row_meaning s directory period T S sys files Good Nodes Comps Conns Conv Single r d x t sc Hr Hs).
    - intros r t sc Hr Ht Hs. destruct (row_entry s directory period T S sys Good Nodes Comps r Hr) as (Hc & _).
      destruct (F2 _ _ _ t sc Hc Ht Hs) as (j & row & d & Hj & Hd & Few & _ & Hx').
      pose proof (fun x y Dx Vx => proj2 (Hx' x y Dx Vx) (bounds_follow s directory period T S sys Good Nodes Comps _ _ _ Hc)) as Hx.
      unfold found in Few. rewrite (row_size_is s directory period T S sys files Good Nodes Comps Conns Conv Single r Hr) in Few. exists j, row, d. split; [exact Hj|]. split; [exact Hd|]. split; [exact Few|]. intros x y Dx Vx.
      rewrite (Hx x y) by (first [now apply same_decisions|now apply same_values]).
      exact (row_meaning s directory period T S sys files Good Nodes Comps Conns Conv Single r d x t sc Hr Hs).
  Qed.
  Lemma run_objective : exists dropped, few (study_cost_size s T S) dropped /\
    forall x y t sc, study_decisions T x -> study_values s T S o st y x -> (0 <= sc)%Z ->
    olift2 Qcplus (objective_value y (st_solver st)) (terms_value (decisions_at x t sc) dropped) = Some (study_cost s T S x).
  Proof.
    destruct (objective_file order libs sys found T S antares_reading o st Ord Run G) as (dropped & N & F).
    unfold found in N. rewrite (cost_mentioned s directory period T S sys files Good Nodes Comps) in N. exists dropped. split; [exact N|].
    intros x y t sc Dx Vx Hs. destruct (F x y t sc) as (v & E & V); [now apply same_decisions|now apply same_values|exact Hs|].
    pose proof (cost_value s directory period T S sys files Good Nodes Comps Conv Single x t sc) as C. cbv beta in C. change (osum (map (text_objective_value libs sys found T S antares_reading x t sc) (text_objectives libs sys)) = Some (study_cost s T S x)) in C. congruence.
  Qed.
  Lemma run_places :
    (forall e q b t sc, In e (everything s) -> In (q, b) (quantities_of e) -> (0 <= t < T)%Z -> (0 <= sc < S)%Z ->
       exists i sv, kept_in o st e q t sc i /\ nth_error (s_vars (st_solver st)) i = Some sv /\
         sv_name sv = solver_variable_name o (element_id e) q (Some t) (Some sc)) /\
    (forall e q b t sc e' q' b' t' sc' i, In e (everything s) -> In (q, b) (quantities_of e) ->
       In e' (everything s) -> In (q', b') (quantities_of e') -> (0 <= t < T)%Z -> (0 <= t' < T)%Z ->
       kept_in o st e q t sc i -> kept_in o st e' q' t' sc' i -> e = e' /\ q = q' /\ t = t' /\ sc = sc') /\
    (forall x, study_decisions T x -> exists y, study_values s T S o st y x) /\
    (forall y, exists x, study_decisions T x /\ study_values s T S o st y x).
  Proof.
    pose proof (positions order libs sys found T S antares_reading o st Ord Run G) as P1.
    pose proof (placed_once order libs sys found T S antares_reading o st Ord Run G) as P2.
    destruct (decisions_correspond order libs sys found T S antares_reading o st Ord Run G) as [P3 P4].
    split; [|split; [|split]].
    - intros e q b t sc He Hq Ht Hs. destruct (element_variable e q b He Hq) as (v & Hc & Hv & Eq & _ & Et & Es & Hk).
      destruct (P1 _ _ v t sc Hc Hv Ht Hs) as (i & sv & Hp & Hn & Hnm). exists i, sv. split; [now apply Hk|]. split; [exact Hn|].
      rewrite Hnm, Eq, Et, Es. reflexivity.
    - intros e q b t sc e' q' b' t' sc' i He Hq He' Hq' Ht Ht' Hk Hk'.
      destruct (element_variable e q b He Hq) as (v & Hc & Hv & Eq & _ & Et & Es & H1).
      destruct (element_variable e' q' b' He' Hq') as (v' & Hc' & Hv' & Eq' & _ & _ & _ & H2).
      apply H1 in Hk. apply H2 in Hk'. destruct (P2 _ _ v t sc _ _ v' t' sc' i Hc Hv Hc' Hv' Ht Ht' Hk Hk') as (E & <- & E1 & E2).
      split; [apply (component_unique s directory period T S Good); [assumption|assumption|exact (f_equal ic_id E)]|]. split; [congruence|]. auto.
    - intros x Dx. apply same_decisions in Dx. destruct (P3 x Dx) as [y Hy]. exists y. now apply same_values.
    - intros y. destruct (P4 y) as (x & Dx & Hy). exists x. split; [now apply same_decisions|now apply same_values].
  Qed.
  Lemma run_variables i sv : nth_error (s_vars (st_solver st)) i = Some sv ->
    exists e q t sc, In e (everything s) /\ In (q, sv_integer sv) (quantities_of e) /\ (0 <= t < T)%Z /\ (0 <= sc < S)%Z /\
      kept_in o st e q t sc i /\ (sv_lb sv, sv_ub sv) = quantity_limits s directory T e q t sc /\ num_le (sv_lb sv) (sv_ub sv).
  Proof.
    intros Hi. destruct (variables_file order libs sys found T S antares_reading o st Ord Run G i sv Hi) as (c & m & v & t & sc & Hc & Hv & Ht & Hs & Hp & Ty & L & U & LU).
    destruct (entry_variable s directory period T S sys Good Nodes Comps c m v Hc Hv) as (e & He & -> & -> & Hq & Hk).
    exists e, (yv_id v), t, sc. split; [exact He|]. split.
    - replace (sv_integer sv) with (String.eqb (yv_type v) "integer"); [exact Hq|]. now destruct Ty as [[-> ->]|[-> ->]].
    - split; [exact Ht|]. split; [exact Hs|]. split; [now apply Hk|]. split; [|exact LU].
      exact (bounds_value s directory period T S sys files Good Conv Single e v t sc _ _ He Hv Hs L U).
  Qed.
End Run.

(** ** Studies converted and run *)
Section Converted.
  Context (before : dict string num) (per : option Z) (s : an_study) (sys : input_system) (files : list (string * table))
    (directory : string -> result frame) (T S : Z)
    (order : list string -> list string -> list string -> list string) (o : settings) (st : state).
  Hypothesis Conversion : convert_antares before per s = Ok (sys, files).
  Hypothesis Ord : any_order order.
  Section Models.
    Hypothesis Named : well_named s.
    Hypothesis Run : main_cli order [antares_library; andromede_v1_library] sys directory T S = Ok (o, st).
    Let parts := conversion_ok before per s sys files Named Conversion.
    Lemma element_input e : In e (elements s) -> In (component_of s e) (is_components sys).
    Proof. intros He. rewrite (proj1 (proj2 parts)). now apply in_map. Qed.
    Lemma run_known e : In e (elements s) -> exists m, file_model libs (fst (described s e)) = Some m.
    Proof.
      intros He. apply (run_models order libs sys directory T S o st Ord Run (component_of s e)). apply in_or_app. left. now apply element_input.
    Qed.
    Lemma run_productions a : In a (areas_of s) -> useful (ar_wind a) = false /\ useful (ar_solar a) = false.
    Proof.
      intros Ha. split.
      - destruct (useful (ar_wind a)) eqn:U; [exfalso|reflexivity]. destruct (run_known (Wind a)) as (m & E); [|vm_compute in E; discriminate].
        unfold elements. do 4 (apply in_or_app; right). apply in_or_app. left. apply in_map, filter_In. auto.
      - destruct (useful (ar_solar a)) eqn:U; [exfalso|reflexivity]. destruct (run_known (Solar a)) as (m & E); [|vm_compute in E; discriminate].
        unfold elements. do 5 (apply in_or_app; right). apply in_or_app. left. apply in_map, filter_In. auto.
    Qed.
    Lemma run_renewables a : NoDup (map element_id (everything s)) -> In a (areas_of s) -> ar_renewables a = [].
    Proof.
      intros N Ha. destruct (ar_renewables a) as [|[k r] l] eqn:E; [reflexivity|exfalso].
      assert (He : In (Renewable r) (elements s)).
      { unfold elements. apply in_or_app. left. apply in_map, in_flat_map. exists a. split; [exact Ha|]. rewrite E. now left. }
      assert (D : NoDup (input_ids sys)).
      { destruct parts as (P1 & P2 & _). unfold input_ids. rewrite P1, P2, !map_map. cbn [component_of ic_id]. unfold everything in N. rewrite map_app in N.
        refine (Permutation_NoDup _ N). apply Permutation_app_comm. }
      destruct (run_given order libs sys directory T S o st Ord Run (component_of s (Renewable r)) lib_renewable (yparam "nominal_capacity" false false) D (element_input _ He))
        as (p & Hp & Ei & _).
      - reflexivity.
      - now left.
      - cbn. repeat constructor; cbn; intuition discriminate.
      - cbn in Hp. destruct Hp as [<-|[<-|[<-|[]]]]; discriminate Ei.
    Qed.
  End Models.

  Context (period : nat).
  Hypothesis Per : hours_of per (Z.of_nat period).
  Hypothesis Good : good_antares s directory period T S.
  Hypothesis Run : main_cli order [antares_library; andromede_v1_library] sys (directory_after directory files) T S = Ok (o, st).
  Lemma conversion_parts : is_nodes sys = map (component_of s) (nodes s) /\ is_components sys = map (component_of s) (elements s) /\
    is_connections sys = flat_map connections_of (elements s) /\ conversion_files s (Z.of_nat period) files.
  Proof. rewrite <- (hours_period _ _ Per). apply (conversion_ok before per); [apply Good|exact Conversion]. Qed.
  Ltac parts := destruct conversion_parts as (P1 & P2 & P3 & P4).
  Lemma antares_scenarios a g : In (Cluster a g) (elements s) -> S = 1%Z.
  Proof. parts. intros H. exact (single_scenario s directory period T S sys files order o st Good P1 P2 P4 Ord Run a g (in_elements s _ H)). Qed.
  Lemma antares_rows : exists drops, List.length drops = List.length (s_rows (st_solver st)) /\
    (forall j row d, nth_error (s_rows (st_solver st)) j = Some row -> nth_error drops j = Some d ->
       exists r t sc, In (fst (row_place r)) (everything s) /\ (0 <= t < T)%Z /\ (0 <= sc < S)%Z /\ few (row_size s r) d /\
         sr_name row = (element_id (fst (row_place r)) ++ "_" ++ snd (row_place r) ++ "_t" ++ string_of_Z t ++ "_s" ++ string_of_Z sc)%string /\
         forall x y, study_decisions T x -> study_values s T S o st y x ->
         (row_sat y row <-> exists w, terms_value (decisions_at x t sc) d = Some w /\ row_holds s directory period T x r w t sc)) /\
    (forall r t sc, In (fst (row_place r)) (everything s) -> (0 <= t < T)%Z -> (0 <= sc < S)%Z ->
       exists j row d, nth_error (s_rows (st_solver st)) j = Some row /\ nth_error drops j = Some d /\ few (row_size s r) d /\
         forall x y, study_decisions T x -> study_values s T S o st y x ->
         (row_sat y row <-> exists w, terms_value (decisions_at x t sc) d = Some w /\ row_holds s directory period T x r w t sc)).
  Proof. parts. exact (run_rows s directory period T S sys files order o st Good P1 P2 P3 P4 Ord Run). Qed.
  Lemma antares_objective : exists dropped, few (study_cost_size s T S) dropped /\
    forall x y t sc, study_decisions T x -> study_values s T S o st y x -> (0 <= sc)%Z ->
    olift2 Qcplus (objective_value y (st_solver st)) (terms_value (decisions_at x t sc) dropped) = Some (study_cost s T S x).
  Proof. parts. exact (run_objective s directory period T S sys files order o st Good P1 P2 P4 Ord Run). Qed.
  Lemma antares_places :
    (forall e q b t sc, In e (everything s) -> In (q, b) (quantities_of e) -> (0 <= t < T)%Z -> (0 <= sc < S)%Z ->
       exists i sv, kept_in o st e q t sc i /\ nth_error (s_vars (st_solver st)) i = Some sv /\
         sv_name sv = solver_variable_name o (element_id e) q (Some t) (Some sc)) /\
    (forall e q b t sc e' q' b' t' sc' i, In e (everything s) -> In (q, b) (quantities_of e) ->
       In e' (everything s) -> In (q', b') (quantities_of e') -> (0 <= t < T)%Z -> (0 <= t' < T)%Z ->
       kept_in o st e q t sc i -> kept_in o st e' q' t' sc' i -> e = e' /\ q = q' /\ t = t' /\ sc = sc') /\
    (forall x, study_decisions T x -> exists y, study_values s T S o st y x) /\
    (forall y, exists x, study_decisions T x /\ study_values s T S o st y x).
  Proof. parts. exact (run_places s directory period T S sys files order o st Good P1 P2 P4 Ord Run). Qed.
  Lemma antares_variables i sv : nth_error (s_vars (st_solver st)) i = Some sv ->
    exists e q t sc, In e (everything s) /\ In (q, sv_integer sv) (quantities_of e) /\ (0 <= t < T)%Z /\ (0 <= sc < S)%Z /\
      kept_in o st e q t sc i /\ (sv_lb sv, sv_ub sv) = quantity_limits s directory T e q t sc /\ num_le (sv_lb sv) (sv_ub sv).
  Proof. parts. exact (run_variables s directory period T S sys files order o st Good P1 P2 P4 Ord Run i sv). Qed.
End Converted.
