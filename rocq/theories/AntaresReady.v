(** Converted Antares studies run (see PropConvertRun.v). *)
From Coq Require Import Lia Permutation.
From Verif Require Import Base BaseFacts Expr Visitors Parse SpecParse LexFacts LinearExpr Model Study Strategy Optim System Library
  Main SpecExpr SpecModel SpecLibrary SpecSystem SystemFacts SpecLinear SpecOptim OptimFacts ExpansionFacts SpecMain SpecRun MainFacts MainLoad ReadyValue Pypsa SpecPypsa
  PypsaFacts PypsaReading PypsaStudy PypsaProblem PypsaReady Thermal Antares SpecThermal SpecAntares ThermalFacts AntaresFacts AntaresReading AntaresStudy AntaresProblem SpecAntaresRun.
Local Open Scope string_scope.
Local Open Scope list_scope.

(** ** The libraries *)
Definition flow_type : port_type := {| pt_id := "flow"; pt_fields := ["flow"] |}.
Lemma flow_antares : usable libs [] (yl_id antares_library) "flow" flow_type.
Proof. exact (u_own libs [] (yl_id antares_library) antares_library {| yt_id := "flow"; yt_fields := ["flow"] |} (or_introl eq_refl) eq_refl (or_introl eq_refl)). Qed.
Lemma flow_andromede : usable libs [] (yl_id andromede_v1_library) "flow" flow_type.
Proof. exact (u_own libs [] (yl_id andromede_v1_library) andromede_v1_library {| yt_id := "flow"; yt_fields := ["flow"] |} (or_intror (or_introl eq_refl)) eq_refl (or_introl eq_refl)). Qed.
Ltac flow_usable := first [exact flow_antares|exact flow_andromede].
Ltac an_port := eexists _, _; split; [cbn; first [left; reflexivity|right; left; reflexivity]|]; split; [reflexivity|]; split; [flow_usable|cbn; auto].
Ltac an_port_next := eexists _, _; split; [cbn; right; left; reflexivity|]; split; [reflexivity|]; split; [flow_usable|cbn; auto].
Ltac an_loads :=
  let R := fresh "R" in let N1 := fresh "N1" in let N2 := fresh "N2" in
  match goal with |- loadable_model _ _ _ ?m => destruct (antares_good m ltac:(cbn; tauto)) as [[R _] (N1 & N2 & _)] end;
  split; [exact R|]; split; [exact N1|]; split; [exact N2|]; clear R N1 N2;
  split; [pieces; (split; [cbn; auto|]); pieces; texts|];
  split; [solve [cbn; repeat constructor; cbn; intuition discriminate]|];
  split; [pieces; eexists; flow_usable|];
  split; [pieces; (split; [first [solve [an_port]|solve [an_port_next]]|solve [texts]])|];
  split; [pieces; texts|pieces; texts].
Lemma load_area : loadable_model libs antares_reading antares_library lib_area.
Proof. an_loads. Qed.
Lemma load_an_load : loadable_model libs antares_reading antares_library lib_an_load.
Proof. an_loads. Qed.
Lemma load_an_link : loadable_model libs antares_reading antares_library lib_an_link.
Proof. an_loads. Qed.
Lemma load_renewable : loadable_model libs antares_reading antares_library lib_renewable.
Proof. an_loads. Qed.
Lemma load_thermal : loadable_model libs antares_reading antares_library lib_thermal.
Proof. an_loads. Qed.
Lemma load_storage : loadable_model libs antares_reading antares_library lib_short_term_storage.
Proof. an_loads. Qed.
Lemma load_dsr : loadable_model libs antares_reading andromede_v1_library lib_dsr.
Proof. an_loads. Qed.
Lemma load_electrolyser : loadable_model libs antares_reading andromede_v1_library lib_electrolyser.
Proof. an_loads. Qed.
Lemma load_battery : loadable_model libs antares_reading andromede_v1_library lib_battery.
Proof. an_loads. Qed.
Lemma libraries_load : loadable_libraries libs antares_reading.
Proof.
  apply lone_loads.
  - cbn. repeat constructor; cbn; intuition discriminate.
  - intros y [<-|[<-|[]]]; reflexivity.
  - intros y [<-|[<-|[]]]; cbn; repeat constructor; cbn; intuition discriminate.
  - intros y [<-|[<-|[]]]; cbn; repeat constructor; cbn; intuition discriminate.
  - intros y m [<-|[<-|[]]].
    + intros [<-|[<-|[<-|[<-|[<-|[<-|[]]]]]]];
        [exact load_area|exact load_an_load|exact load_an_link|exact load_renewable|exact load_thermal|exact load_storage].
    + intros [<-|[<-|[<-|[]]]]; [exact load_dsr|exact load_electrolyser|exact load_battery].
Qed.

Definition elib (e : element) : in_library := match e with Battery _ _ => andromede_v1_library | _ => antares_library end.
Definition unit_parameters (s : an_study) (e : element) : Prop :=
  forall p, In p (ym_parameters (emod e)) -> exists g, In g (snd (described s e)) /\ given_id g = yp_id p /\
    (yp_time p = false -> ip_time (given g) = false) /\ (yp_scenario p = false -> ip_scenario (given g) = false).
Lemma all_described s directory T S e : good_element s directory T S e -> unit_parameters s e.
Proof.
  intros G p H. destruct e; try contradiction; cbn in H; each H; cbn [described snd known map app];
    match goal with |- exists g, In g ?l /\ given_id g = yp_id ?p /\ _ =>
      let i := eval vm_compute in (yp_id p) in
      let rec go l := lazymatch l with ?g :: ?l => first [exists g; solve [split; [cbn; tauto|split; [reflexivity|split; auto]]]|go l] end in go l
    end.
Qed.
Lemma var_in e v : In v (ym_variables (emod e)) -> exists b, In (yv_id v, b) (quantities_of e).
Proof. intros H. exists (String.eqb (yv_type v) "integer"). rewrite quantities_variables. exact (in_map (fun y => (yv_id y, String.eqb (yv_type y) "integer")) _ _ H). Qed.

Section Ready.
  Context (s : an_study) (directory : string -> result frame) (period : nat) (T S : Z) (sys : input_system) (files : list (string * table)).
  Hypothesis Good : good_antares s directory period T S.
  Hypothesis Nodes : is_nodes sys = map (component_of s) (nodes s).
  Hypothesis Comps : is_components sys = map (component_of s) (elements s).
  Hypothesis Conns : is_connections sys = flat_map connections_of (elements s).
  Hypothesis Conv : conversion_files s (Z.of_nat period) files.
  Hypothesis Cons : consistent_study s directory T S.
  Let found := directory_after directory files.
  Let HT : (1 <= T)%Z := proj1 Good.
  Let HS : (1 <= S)%Z := proj1 (proj2 Good).
  Let Elements : forall e, In e (everything s) -> good_element s directory T S e := proj1 (proj2 (proj2 (proj2 (proj2 (proj2 Good))))).
  Let W := file_world libs sys found T S antares_reading.
  Let Entries := entries s directory period T S sys Good Nodes Comps.
  Let Inputs := input_in s sys Nodes Comps.
  Lemma one_scenario a g : In (Cluster a g) (everything s) -> S = 1%Z.
  Proof.
    intros H. apply in_app_or in H as [H|H]; [|exact (proj2 (proj2 Cons) a g H)]. apply node_area in H as (b & H). discriminate H.
  Qed.

  (** ** Data *)
  Lemma study_complete : complete_data libs sys found.
  Proof.
    split.
    - intros c p Hc Hp. apply Inputs in Hc. destruct Hc as (e & He & ->). rewrite parameters_are in Hp. apply in_map_iff in Hp. destruct Hp as (g & <- & Hg).
      pose proof (data_fine s directory period T S files Good Conv e g He Hg) as F. destruct g as [[[id tm] sc] [v|path]]; unfold acceptable; cbn in *.
      + destruct F as (-> & -> & _). auto.
      + destruct F as (-> & rows & Ef & _ & F & _). exists rows. split; [exact Ef|]. destruct sc; [left; auto|]. right. left. auto.
    - intros c m p He Hp. apply Entries in He. destruct He as (e & He & -> & ->).
      destruct (all_described s directory T S e (Elements e He) p Hp) as (g & Hg & Ei & Et & Es). exists (given g).
      split; [rewrite parameters_are; now apply in_map|]. split; [|auto]. rewrite <- Ei. now destruct g as [[[? ?] ?] ?].
  Qed.

  (** ** Names and connections *)
  Lemma element_refers e : In e (everything s) -> refers libs (ic_model (component_of s e)) (elib e) (emod e).
  Proof.
    intros He. pose proof (Elements e He) as G. destruct e; try contradiction; (split; [cbn; tauto|]); (split; [cbn; tauto|]);
      (split; [cbn; repeat split; discriminate|]); (split; [cbn; repeat split; discriminate|reflexivity]).
  Qed.
  Lemma elements_refer c : In c (all_inputs sys) -> exists y m, refers libs (ic_model c) y m.
  Proof. intros Hc. apply Inputs in Hc. destruct Hc as (e & He & ->). exists (elib e), (emod e). now apply element_refers. Qed.
  Lemma element_port e p : In e (everything s) -> In (yport p "flow") (ym_ports (emod e)) ->
    entry_port libs sys (element_id e) p (elib e) (emod e) flow_type.
  Proof.
    intros He Hp. exists (component_of s e), (yport p "flow"). split; [apply Inputs; eauto|]. split; [reflexivity|].
    split; [now apply element_refers|]. split; [exact Hp|]. split; [reflexivity|]. destruct e; flow_usable.
  Qed.
  Lemma elements_connect k : In k (is_connections sys) -> text_connectable libs sys k.
  Proof.
    intros Hk. rewrite Conns in Hk. apply in_flat_map in Hk. destruct Hk as (e & He & Hk).
    pose proof (in_elements s e He) as Hin. pose proof (Elements e Hin) as G.
    assert (A : exists a, In (Area a) (nodes s) /\ ar_id a = icn_component2 k).
    { apply (proj1 Cons e); [exact He|]. destruct e; try contradiction; cbn in Hk; each Hk; cbn; auto. }
    destruct A as (a & Ha & Ea). assert (Ha' : In (Area a) (everything s)) by (apply in_or_app; now left).
    destruct (connection_from s directory period T S Good e k He Hk) as [E1 E2].
    exists (elib e), (emod e), antares_library, lib_area, flow_type. rewrite E1, E2, <- Ea. split; [|split].
    - apply (element_port e); [exact Hin|]. destruct e; try contradiction; cbn in Hk; each Hk; cbn; auto.
    - exact (element_port (Area a) "balance_port" Ha' ltac:(cbn; auto)).
    - intros f [<-|[]]. left. split; [|intros (d & [] & _)].
      destruct e; try contradiction; cbn in Hk; each Hk; eexists; first [solve [split; [cbn; left; reflexivity|split; reflexivity]]|solve [split; [cbn; right; left; reflexivity|split; reflexivity]]].
  Qed.

  (** ** Texts *)
  Lemma name_valued e x ports q : In e (everything s) -> In q (map fst (quantities_of e)) \/ In q (map given_id (snd (described s e))) ->
    always (entry_world sys found T S x (component_of s e) ports) (name_value (entry_world sys found T S x (component_of s e) ports) (map yv_id (ym_variables (emod e))) q).
  Proof.
    intros He [H|H] t sc Hs.
    - apply in_map_iff in H. destruct H as ([a b] & <- & H).
      exact (some_not_none (var_value s directory T S sys files x e ports a b t sc H)).
    - exact (some_not_none (par_value s directory period T S sys files Good Conv one_scenario x e ports q t sc He H Hs)).
  Qed.
  Let ago (d : string) : wshift := WThen WNow Minus (WFactor (WName d)).
  Let after_ago (d : string) : wshift := WThen (ago d) Plus (WFactor (WNumber "1")).
  Let times_of (d : string) (g : an_thermal) : Z := if String.eqb d "d_min_up" then at_min_up_time g else at_min_down_time g.
  Lemma time_value a g x ports d t sc : In (Cluster a g) (everything s) -> In d ["d_min_up"; "d_min_down"] -> (0 <= sc < S)%Z ->
    name_value (entry_world sys found T S x (component_of s (Cluster a g)) ports) (map yv_id (ym_variables (emod (Cluster a g)))) d t sc = Some (Z2Qc (times_of d g)).
  Proof.
    intros He Hd Hs. refine (eq_trans (par_value s directory period T S sys files Good Conv one_scenario x (Cluster a g) ports d t sc He _ Hs) _).
    - cbn in Hd |- *. tauto.
    - destruct Hd as [<-|[<-|[]]]; reflexivity.
  Qed.
  Lemma ago_value a g x ports d t sc : In (Cluster a g) (everything s) -> In d ["d_min_up"; "d_min_down"] -> (0 <= sc < S)%Z ->
    shift_meaning (entry_world sys found T S x (component_of s (Cluster a g)) ports) (map yv_id (ym_variables (emod (Cluster a g)))) (ago d) t sc = Some (Z2Qc (- times_of d g)).
  Proof.
    intros He Hd Hs. change (olift2 Qcminus (Some 0%Qc) (name_value (entry_world sys found T S x (component_of s (Cluster a g)) ports) (map yv_id (ym_variables (emod (Cluster a g)))) d t sc) = Some (Z2Qc (- times_of d g))).
    rewrite (time_value a g x ports d t sc He Hd Hs). cbn [olift2]. f_equal. rewrite Z2Qc_opp. ring.
  Qed.
  Lemma after_value a g x ports d t sc : In (Cluster a g) (everything s) -> In d ["d_min_up"; "d_min_down"] -> (0 <= sc < S)%Z ->
    shift_meaning (entry_world sys found T S x (component_of s (Cluster a g)) ports) (map yv_id (ym_variables (emod (Cluster a g)))) (after_ago d) t sc = Some (Z2Qc (1 - times_of d g)).
  Proof.
    intros He Hd Hs. change (olift2 Qcplus (shift_meaning (entry_world sys found T S x (component_of s (Cluster a g)) ports) (map yv_id (ym_variables (emod (Cluster a g)))) (ago d) t sc) (meaning (entry_world sys found T S x (component_of s (Cluster a g)) ports) (map yv_id (ym_variables (emod (Cluster a g)))) (WNumber "1") t sc) = Some (Z2Qc (1 - times_of d g))).
    rewrite (ago_value a g x ports d t sc He Hd Hs), m_one. cbn [olift2]. f_equal. rewrite Z2Qc_sub, Z2Qc_opp, Z2Qc_1. ring.
  Qed.
  Ltac read_in := match goal with |- throughout _ (antares_reading ?m ?w) => let r := eval vm_compute in (antares_reading lib_area w) in change (antares_reading m w) with r end.
  Ltac value_parts e He :=
    cbn [throughout throughout_shift throughout_product valued_part wtimes wtotal wbefore wnext wwindow wlevel];
    repeat first [exact I|match goal with |- _ /\ _ => split end
      |match goal with |- always _ _ => refine (name_valued e _ _ _ He _); cbn; tauto end
      |match goal with |- "expec" = _ => reflexivity end
      |match goal with |- whole _ _ => let t := fresh "t" in let sc := fresh "sc" in let Hs := fresh "Hs" in intros t sc Hs;
         match goal with He : In (Cluster ?a ?g) (everything s) |- exists z, shift_meaning _ _ (WThen WNow Minus (WFactor (WName ?d))) _ _ = _ =>
             exists (- times_of d g)%Z; exact (ago_value a g _ _ d t sc He ltac:(cbn; tauto) Hs)
           | He : In (Cluster ?a ?g) (everything s) |- exists z, shift_meaning _ _ (WThen (WThen WNow Minus (WFactor (WName ?d))) Plus _) _ _ = _ =>
             exists (1 - times_of d g)%Z; exact (after_value a g _ _ d t sc He ltac:(cbn; tauto) Hs)
           | _ => first [exists 0%Z; vm_compute; reflexivity|exists 1%Z; vm_compute; reflexivity|exists (-1)%Z; vm_compute; reflexivity] end end].
  Lemma definition_has_value c m d x ports : entry libs sys c m -> In d (ym_definitions m) ->
    always (entry_world sys found T S x c ports) (text_value (entry_world sys found T S x c ports) m (antares_reading m (yd_definition d))).
  Proof.
    intros He Hd. apply text_has_value. apply Entries in He. destruct He as (e & He & -> & ->). pose proof (Elements e He) as G.
    destruct e; try contradiction; cbn in Hd; each Hd; cbn [ydef yd_definition]; read_in;
      match goal with He : In ?e (everything s) |- _ => value_parts e He end.
  Qed.
  Lemma ports_have_values c x p f v : In v (e_port (W x c) p f) -> always (W x c) v.
  Proof.
    unfold W, file_world. cbn [entry_world e_port]. intros H. apply in_map_iff in H. destruct H as ([[e' m'] d] & <- & H).
    apply connected_entry in H. destruct H as [He Hd]. intros t sc Hs. apply (definition_has_value e' m' d x (fun _ _ => []) He Hd t sc Hs).
  Qed.
  Let nothing : decisions := fun _ _ _ _ => 0%Qc.
  Lemma texts_valued c m ws : Forall (fun w => always (W nothing c) (text_value (W nothing c) m w)) ws -> valued libs sys found T S antares_reading c m ws.
  Proof.
    intros H t sc Ht Hs. exists nothing. split; [split; [reflexivity|]; intros; split; reflexivity|].
    rewrite Forall_forall in H. intros w Hw. exact (H w Hw t sc Hs).
  Qed.
  Lemma constant_shift c m k z : throughout_shift (formula_part fixed_parameter m) k ->
    shift_meaning (W nothing c) (map yv_id (ym_variables m)) k 0 0 = Some (Z2Qc z) -> whole_shift libs sys found T S antares_reading c m k.
  Proof. intros F H. split; [exact F|]. exists nothing, 0%Z, 0%Z, z. split; [lia|exact H]. Qed.
  Lemma formula_name e n : In e (everything s) -> In n (map given_id (snd (described s e))) ->
    (forall p, In p (ym_parameters (emod e)) -> yp_id p = n -> fixed_parameter p) -> formula_part fixed_parameter (emod e) (WName n).
  Proof.
    intros He Hn F. split; [|exact F]. intros H. pose proof (parameter_variable s e n Hn) as X.
    assert (Y : existsb (String.eqb n) (map yv_id (ym_variables (emod e))) = true) by (apply existsb_exists; exists n; split; [exact H|apply String.eqb_refl]).
    congruence.
  Qed.
  Lemma fixed_times p d : In p (ym_parameters lib_thermal) -> In d ["d_min_up"; "d_min_down"] -> yp_id p = d -> fixed_parameter p.
  Proof.
    intros Hp [<-|[<-|[]]] E; cbn in Hp; repeat (destruct Hp as [<-|Hp]; [first [discriminate E|split; reflexivity]|]); destruct Hp.
  Qed.
  Lemma ago_whole a g d : In (Cluster a g) (everything s) -> In d ["d_min_up"; "d_min_down"] ->
    whole_shift libs sys found T S antares_reading (component_of s (Cluster a g)) lib_thermal (ago d).
  Proof.
    intros He Hd. apply (constant_shift _ _ _ (- times_of d g)).
    - cbn. split; [exact I|]. split; [|exact I]. apply (formula_name (Cluster a g) d He); [cbn in Hd |- *; tauto|]. intros p Hp E. exact (fixed_times p d Hp Hd E).
    - exact (ago_value a g nothing _ d 0 0 He Hd ltac:(lia)).
  Qed.
  Lemma after_whole a g d : In (Cluster a g) (everything s) -> In d ["d_min_up"; "d_min_down"] ->
    whole_shift libs sys found T S antares_reading (component_of s (Cluster a g)) lib_thermal (after_ago d).
  Proof.
    intros He Hd. apply (constant_shift _ _ _ (1 - times_of d g)).
    - cbn. split; [split; [exact I|]|split; exact I]. split; [|exact I]. apply (formula_name (Cluster a g) d He); [cbn in Hd |- *; tauto|]. intros p Hp E. exact (fixed_times p d Hp Hd E).
    - exact (after_value a g nothing _ d 0 0 He Hd ltac:(lia)).
  Qed.
  Ltac shifts := first
    [match goal with He : In (Cluster ?a ?g) (everything s) |- whole_shift _ _ _ _ _ _ _ _ (WThen WNow Minus (WFactor (WName ?d))) => exact (ago_whole a g d He ltac:(cbn; tauto)) end
    |match goal with He : In (Cluster ?a ?g) (everything s) |- whole_shift _ _ _ _ _ _ _ _ (WThen (WThen WNow Minus (WFactor (WName ?d))) Plus _) => exact (after_whole a g d He ltac:(cbn; tauto)) end
    |match goal with |- whole_shift _ _ _ _ _ _ _ _ _ =>
       first [apply (constant_shift _ _ _ 0); [solve [cbn; auto]|vm_compute; reflexivity]|apply (constant_shift _ _ _ 1); [solve [cbn; auto]|vm_compute; reflexivity]
             |apply (constant_shift _ _ _ (-1)); [solve [cbn; auto]|vm_compute; reflexivity]] end
    |match goal with |- whole_index _ _ _ _ _ _ _ _ _ => split; [solve [cbn; auto]|exists nothing, 0%Z, 0%Z, 0%Z; split; [lia|vm_compute; reflexivity]] end].
  Ltac ready_parts := split; [cbn [throughout throughout_shift throughout_product ready_part wtimes wtotal wbefore wnext wwindow wlevel];
    repeat first [exact I|match goal with |- _ /\ _ => split end|shifts]|cbn; repeat split; auto].
  Ltac named e He Hs :=
    rewrite ?m_name;
    lazymatch goal with |- name_value _ _ ?q ?t ?sc = _ => exact (par_value s directory period T S sys files Good Conv one_scenario nothing e _ q t sc He ltac:(cbn; tauto) Hs) end.
  Ltac read_value := match goal with |- text_value ?E ?m (antares_reading _ ?w) ?t ?sc = ?v => let r := eval vm_compute in (antares_reading lib_area w) in change (text_value E m r t sc = v) end.
  Ltac value_of e He Hs := eexists _, nothing; split; [reflexivity|]; read_value; unfold text_value;
    first [apply m_zero|apply m_times; named e He Hs|named e He Hs
          |etransitivity; [apply m_times; named e He Hs|cbn [datum yv_id yvar String.eqb Ascii.eqb Bool.eqb]; f_equal; field; assumption]].
  Ltac read_ready := match goal with |- ready_text _ _ _ _ _ _ _ _ (antares_reading ?m ?w) => let r := eval vm_compute in (antares_reading lib_area w) in change (antares_reading m w) with r end.
  Ltac read_row := match goal with |- context [antares_reading ?m ?w] => let r := eval vm_compute in (antares_reading lib_area w) in change (antares_reading m w) with r end; cbv iota.
  Lemma element_ready e : In e (everything s) -> ready_entry libs sys found T S antares_reading (component_of s e) (emod e).
  Proof.
    intros He. pose proof (Elements e He) as G. split; [|split; [|split]].
    - intros v Hv. destruct (variable_dims e v Hv) as [Dt Ds]. split; [intros w Hw; split; intros _; assumption|].
      intros t sc Ht Hs. destruct (var_in e v Hv) as [b Hb].
      exists (fst (quantity_limits s directory T e (yv_id v) t sc)), (snd (quantity_limits s directory T e (yv_id v) t sc)).
      split; [|split; [|exact (proj1 (proj2 Cons) e (yv_id v) b t sc He Hb Ht Hs)]]; clear b Hb Dt Ds.
      + destruct e; try contradiction; cbn in Hv; each Hv; match goal with He : In ?e (everything s) |- _ => first [reflexivity|value_of e He Hs] end.
      + destruct e; try contradiction.
        5:{ destruct G as (Nz & _). assert (Nz' : forall v, In v [bt_reservoir b; bt_injection b; bt_withdrawal b] -> fin v <> 0%Qc)
              by (intros w Hw; destruct (Nz w Hw) as (q & -> & Hq); exact Hq).
            pose proof (Nz' (bt_reservoir b) ltac:(cbn; tauto)) as Z1. pose proof (Nz' (bt_injection b) ltac:(cbn; tauto)) as Z2.
            pose proof (Nz' (bt_withdrawal b) ltac:(cbn; tauto)) as Z3.
            cbn in Hv; each Hv; match goal with He : In ?e (everything s) |- _ => first [reflexivity|value_of e He Hs] end. }
        all: cbn in Hv; each Hv; match goal with He : In ?e (everything s) |- _ => first [reflexivity|value_of e He Hs] end.
    - intros d Hd. destruct e; try contradiction; cbn in Hd; each Hd; cbn [ydef yd_definition]; read_ready; ready_parts.
    - intros r Hr. destruct e; try contradiction; cbn in Hr; each Hr; cbn [yrow yc_expression yc_lower yc_upper]; read_row;
        (split; [ready_parts|split; [ready_parts|]]);
        apply texts_valued; repeat constructor; apply text_has_value; match goal with He : In ?e (everything s) |- _ => value_parts e He end.
      intros v Hv. exact (ports_have_values _ nothing _ _ v Hv).
    - intros w Hw. destruct e; try contradiction; cbn in Hw; each Hw; (split; [read_ready; ready_parts|]);
        apply texts_valued; repeat constructor; apply text_has_value; read_in; match goal with He : In ?e (everything s) |- _ => value_parts e He end.
  Qed.
  Lemma study_ready : ready_study libs sys found T S antares_reading.
  Proof.
    split; [exact libraries_load|]. split; [exact elements_refer|]. split; [exact elements_connect|]. split; [exact study_complete|].
    intros c m H. apply Entries in H. destruct H as (e & He & -> & ->). exact (element_ready e He).
  Qed.
End Ready.

Lemma converted_study_runs before per s sys files directory period T S order : convert_antares before per s = Ok (sys, files) ->
  hours_of per (Z.of_nat period) -> good_antares s directory period T S -> consistent_study s directory T S -> any_order order ->
  exists o st, main_cli order [antares_library; andromede_v1_library] sys (directory_after directory files) T S = Ok (o, st).
Proof.
  intros Conversion Per Good Cons Ord.
  destruct (conversion_parts before per s sys files directory T S Conversion period Per Good) as (P1 & P2 & P3 & P4).
  apply (study_runs order libs sys _ T S antares_reading Ord).
  - exact (study_good s directory period T S sys files Good P1 P2 P4).
  - exact (study_ready s directory period T S sys files Good P1 P2 P3 P4 Cons).
Qed.
