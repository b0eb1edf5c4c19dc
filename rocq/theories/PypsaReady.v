(** Converted PyPSA networks run (see PropConvertRun.v). *)
From Coq Require Import Lia Permutation.
From Verif Require Import Base BaseFacts Expr Visitors Parse SpecParse LexFacts LinearExpr Model Study Strategy Optim System Library
  Main SpecExpr SpecModel SpecLibrary SpecSystem SystemFacts SpecLinear SpecOptim OptimFacts SpecMain SpecRun MainFacts MainLoad ReadyValue Pypsa SpecPypsa
  PypsaFacts PypsaReading PypsaStudy PypsaProblem SpecConvert.
Local Open Scope string_scope.
Local Open Scope list_scope.

(** ** Libraries without dependencies *)
Section Lone.
  Context (ls : list in_library).
  Hypothesis Ids : NoDup (map yl_id ls).
  Hypothesis Lone : forall y, In y ls -> yl_dependencies y = [].
  Hypothesis Types : forall y, In y ls -> NoDup (map yt_id (yl_port_types y)).
  Lemma lone_depends a b : ~ depends ls a b.
  Proof. intros (l & Hl & _ & H). rewrite (Lone l Hl) in H. exact H. Qed.
  Lemma lone_usable a k t : usable ls [] a k t ->
    exists y p, In y ls /\ yl_id y = a /\ In p (yl_port_types y) /\ k = yt_id p /\ t = {| pt_id := yt_id p; pt_fields := yt_fields p |}.
  Proof.
    induction 1 as [a p k t [] _|a l t Hl E Ht|a b k t D _ _]; [exists l, t; auto|]. contradiction (lone_depends _ _ D).
  Qed.
  Lemma lone_loads rd : (forall y, In y ls -> NoDup (map ym_id (yl_models y))) -> (forall y m, In y ls -> In m (yl_models y) -> loadable_model ls rd y m) ->
    loadable_libraries ls rd.
  Proof.
    intros N H. split; [exact Ids|]. split; [|split; [|split; [|split]]].
    - assert (R : forall a b, reaches ls a b -> False) by (induction 1; [now apply lone_depends in H0|assumption]).
      intros a C. exact (R _ _ C).
    - intros a b D. contradiction (lone_depends _ _ D).
    - intros a k t t' U U'. apply lone_usable in U, U'. destruct U as (y & p & Hy & Ey & Hp & -> & ->), U' as (y' & p' & Hy' & Ey' & Hp' & E & ->).
      assert (y' = y) by (apply (NoDup_map_inj_in yl_id ls y' y Ids Hy' Hy); congruence). subst y'.
      rewrite (NoDup_map_inj_in yt_id (yl_port_types y) p p' (Types y Hy) Hp Hp' E). reflexivity.
    - intros z t t' Hz _ [[p [[] _]]|(d & Hd & _)]. rewrite (Lone z Hz) in Hd. exact Hd.
    - intros z Hz. split; [now apply N|]. intros m Hm. now apply H.
  Qed.
End Lone.

(** ** The library of PyPSA models *)
Ltac texts := cbn; repeat split; auto; try discriminate; try (intros [?|?]; [discriminate|tauto]); try tauto; try (intuition discriminate).
Ltac type_of i := exact (u_own libs [] (yl_id pypsa_library) pypsa_library (nth i (yl_port_types pypsa_library) {| yt_id := ""; yt_fields := [] |}) (or_introl eq_refl) eq_refl ltac:(cbn; tauto)).
Ltac port_of i := eexists _, _; split; [cbn; first [left; reflexivity|right; left; reflexivity]|]; split; [reflexivity|]; split; [type_of i|cbn; auto].
Ltac port_next i := eexists _, _; split; [cbn; right; left; reflexivity|]; split; [reflexivity|]; split; [type_of i|cbn; auto].
Ltac pieces :=
  let x := fresh "x" in let Hx := fresh "Hx" in intros x Hx; cbn in Hx; each Hx.
Ltac loads :=
  let R := fresh "R" in let N1 := fresh "N1" in let N2 := fresh "N2" in
  match goal with |- loadable_model _ _ _ ?m => destruct (library_good m ltac:(cbn; tauto)) as [[R _] (N1 & N2 & _)] end;
  split; [exact R|]; split; [exact N1|]; split; [exact N2|]; clear R N1 N2;
  split; [pieces; (split; [cbn; auto|]); pieces; texts|];
  split; [solve [cbn; repeat constructor; cbn; intuition discriminate]|];
  split; [pieces; eexists; first [type_of 0%nat|type_of 1%nat]|];
  split; [pieces; (split; [first [solve [port_of 0%nat]|solve [port_next 0%nat]|solve [port_next 1%nat]]|solve [texts]])|];
  split; [pieces; texts|pieces; texts].
Lemma load_bus : loadable_model libs pypsa_reading pypsa_library lib_bus.
Proof. loads. Qed.
Lemma load_load : loadable_model libs pypsa_reading pypsa_library lib_load.
Proof. loads. Qed.
Lemma load_generator : loadable_model libs pypsa_reading pypsa_library lib_generator.
Proof. loads. Qed.
Lemma load_link : loadable_model libs pypsa_reading pypsa_library lib_link.
Proof. loads. Qed.
Lemma load_unit : loadable_model libs pypsa_reading pypsa_library lib_storage_unit.
Proof. loads. Qed.
Lemma load_store : loadable_model libs pypsa_reading pypsa_library lib_store.
Proof. loads. Qed.
Lemma load_max : loadable_model libs pypsa_reading pypsa_library lib_co2_max.
Proof. loads. Qed.
Lemma load_eq : loadable_model libs pypsa_reading pypsa_library lib_co2_eq.
Proof. loads. Qed.
Lemma library_loads : loadable_libraries libs pypsa_reading.
Proof.
  apply lone_loads.
  - repeat constructor; intros [].
  - intros y [<-|[]]. reflexivity.
  - intros y [<-|[]]. cbn. repeat constructor; cbn; intuition discriminate.
  - intros y [<-|[]]. cbn. repeat constructor; cbn; intuition discriminate.
  - intros y m [<-|[]]. intros [<-|[<-|[<-|[<-|[<-|[<-|[<-|[<-|[]]]]]]]]];
    [exact load_bus|exact load_load|exact load_generator|exact load_link|exact load_unit|exact load_store|exact load_max|exact load_eq].
Qed.

Lemma parameter_source k p : In p (ym_parameters (kmod k)) -> exists a, In (a, yp_id p) (kparams k) /\
  (yp_time p = false -> In a (attributes k) /\ ~ In a (time_attributes k) \/ In a ("co2_emissions" :: capacity_attributes k)).
Proof.
  destruct k; cbn; intros H; each H;
    (eexists; split; [cbn; repeat first [left; reflexivity|right]|]; cbn; intros E; try discriminate E;
     first [solve [left; split; [tauto|intuition discriminate]]|right; tauto]).
Qed.

(** what is connected comes from entries *)
Lemma definition_entry libs sys id p f e m d : In (e, m, d) (text_definition libs sys id p f) -> entry libs sys e m /\ In d (ym_definitions m).
Proof.
  unfold text_definition. destruct (file_entry sys id) as [e'|] eqn:E; [|intros []]. destruct (file_model libs (ic_model e')) as [m'|] eqn:M; [|intros []].
  destruct (find _ (ym_definitions m')) as [d'|] eqn:D; [|intros []]. intros [[= <- <- <-]|[]].
  split; [split; [|exact M]|now apply find_some in D]. unfold file_entry in E. now apply find_some in E.
Qed.
Lemma connected_entry libs sys id p f e m d : In (e, m, d) (text_connected libs sys id p f) -> entry libs sys e m /\ In d (ym_definitions m).
Proof.
  intros H. apply in_flat_map in H. destruct H as (k & _ & H).
  assert (B : In (e, m, d) (text_brought libs sys k f)).
  { apply in_app_or in H. destruct H as [H|H]; match type of H with In _ (if ?b then _ else _) => destruct b end; solve [exact H|destruct H]. }
  unfold text_brought in B. apply in_app_or in B. destruct B as [B|B]; now apply definition_entry in B.
Qed.

Lemma some_not_none {A} {o : option A} {a} : o = Some a -> o <> None.
Proof. congruence. Qed.
Lemma some_not_other {A} {o : option A} {a b} : a <> b -> o = Some a -> o <> Some b.
Proof. congruence. Qed.

Section Ready.
  Context (order : list string -> list string) (n n' : pypsa_network) (T S : Z) (gcs : list constraint_data)
    (parts : list (list input_component * list input_connection)).
  Hypothesis Ord : set_order order.
  Hypothesis Pre : preprocess n = Ok n'.
  Hypothesis Good : good_network n T.
  Hypothesis Cons : consistent_network n T.
  Hypothesis HT : (1 <= T)%Z.
  Hypothesis HS : (1 <= S)%Z.
  Hypothesis Gcs : registered_constraints n' = Ok gcs.
  Hypothesis Parts : mapM (convert_components order (pn_name n')) (map (kdata n') kinds) = Ok parts.
  Let sys := conv_sys gcs parts.
  Let files := series_directory (conv_files order n').
  Let made := made order n'.
  Let W := file_world libs sys files T S pypsa_reading.
  Let Entries := entries order n n' T gcs parts Pre Good Gcs Parts.

  (** ** Data *)
  Lemma data_complete : complete_data libs sys files.
  Proof.
    split.
    - intros e p He Hp. unfold sys in He. rewrite (sys_inputs gcs parts) in He. apply in_app_or in He. destruct He as [He|He].
      + apply (comps_in order n n' parts Pre Parts) in He. destruct He as (k & c & Hc & M). pose proof (made_id _ _ _ _ _ M) as (_ & _ & F).
        destruct (Forall2_In_r _ _ _ _ F Hp) as (pg & Hpg & G).
        pose proof (parameter_made order n n' T Ord Pre Good k c pg p Hc Hpg G) as X.
        destruct (parameter_id _ _ _ _ _ _ G) as [_ Es]. unfold acceptable.
        destruct (series_of_attribute n k c (fst pg)) as [l|] eqn:Hs.
        * destruct X as [Et ->]. eexists. split; [exact (files_get order n n' T Ord Pre Good k c (fst pg) l (in_map fst _ _ Hpg) Hs)|].
          right. left. split; [exact Et|]. split; [exact Es|]. intros r Hr. apply in_map_iff in Hr. destruct Hr as (v & <- & _). eauto.
        * destruct X as [Et X]. rewrite (X 0%Z). auto.
      + apply in_map_iff in He. destruct He as (g & <- & Hg). cbn in Hp. destruct Hp as [<-|[]]. cbn. auto.
    - intros e m p He Hp. apply Entries in He. destruct He as [(k & c & Hc & M & ->)|(g & Hg & -> & ->)].
      + destruct (parameter_source k p Hp) as (a & Ha & V). pose proof (made_id _ _ _ _ _ M) as (_ & _ & F).
        destruct (Forall2_In_l _ _ _ _ F Ha) as (v & Hv & G). exists v. split; [exact Hv|].
        destruct (parameter_id _ _ _ _ _ _ G) as [Ei Es]. split; [exact Ei|]. split; [|intros _; exact Es].
        intros Et. pose proof (parameter_made order n n' T Ord Pre Good k c (a, yp_id p) v Hc Ha G) as X. cbn [fst] in X.
        destruct (series_of_attribute n k c a) as [l|] eqn:Hs; [|apply X]. exfalso. destruct (V Et) as [[V1 V2]|V1].
        * destruct Cons as (_ & C & _). apply V2. exact (C k c a l Hs V1).
        * now apply (series_known n T Good k c a l Hs).
      + exists (hd (Build_input_parameter "" false false (inl n0) None) (parameters_of (gentry g))).
        split; [left; reflexivity|]. unfold gmod in Hp.
        assert (yp_id p = "quota" /\ yp_time p = false) by (destruct (String.eqb _ _); cbn in Hp; destruct Hp as [<-|[]]; split; reflexivity).
        cbn. destruct H as [-> _]. auto.
  Qed.

  (** ** Names and connections *)
  Lemma kind_refers k c e : made k c e -> refers libs (ic_model e) pypsa_library (kmod k).
  Proof.
    intros M. destruct (made_id _ _ _ _ _ M) as (_ & -> & _). split; [left; reflexivity|]. split; [destruct k; cbn; tauto|].
    split; [cbn; repeat split; discriminate|]. split; [destruct k; cbn; repeat split; discriminate|destruct k; reflexivity].
  Qed.
  Lemma constraint_refers g : In g gcs -> refers libs (ic_model (gentry g)) pypsa_library (gmod g).
  Proof.
    intros Hg. destruct (Forall2_In_r _ _ _ _ (constraints_made n n' T gcs Pre Good Gcs) Hg) as (c & _ & _ & _ & _ & E).
    unfold gmod. cbn [gentry convert_constraint fst ic_model]. split; [left; reflexivity|].
    destruct E as [[_ ->]|[_ ->]]; cbn [String.eqb Ascii.eqb Bool.eqb]; (split; [cbn; tauto|]); (split; [cbn; repeat split; discriminate|]);
      (split; [cbn; repeat split; discriminate|reflexivity]).
  Qed.
  Lemma all_refer e : In e (all_inputs sys) -> exists y m, refers libs (ic_model e) y m.
  Proof.
    intros He. unfold sys in He. rewrite (sys_inputs gcs parts) in He. apply in_app_or in He. destruct He as [He|He].
    - apply (comps_in order n n' parts Pre Parts) in He. destruct He as (k & c & _ & M). exists pypsa_library, (kmod k). exact (kind_refers k c e M).
    - apply in_map_iff in He. destruct He as (g & <- & Hg). exists pypsa_library, (gmod g). exact (constraint_refers g Hg).
  Qed.
  Definition the_type (name : string) : port_type := {| pt_id := name; pt_fields := [name] |}.
  Lemma kind_port k c q : In c (names n k) -> In q (ym_ports (kmod k)) ->
    entry_port libs sys (study_id k c) (yo_id q) pypsa_library (kmod k) (the_type (yo_type q)).
  Proof.
    intros Hc Hq. destruct (made_exists order n n' parts Pre Parts k c Hc) as (e & M & He). exists e, q.
    split; [unfold sys; rewrite (sys_inputs gcs parts); apply in_or_app; now left|]. split; [now apply made_id in M|].
    split; [exact (kind_refers k c e M)|]. split; [exact Hq|]. split; [reflexivity|].
    destruct k; cbn in Hq; each Hq; first [type_of 0%nat|type_of 1%nat].
  Qed.
  Lemma constraint_port g : In g gcs -> entry_port libs sys (gc_name g) "emission_port" pypsa_library (gmod g) (the_type "emission").
  Proof.
    intros Hg. exists (gentry g), (yport "emission_port" "emission").
    split; [unfold sys; rewrite (sys_inputs gcs parts); apply in_or_app; right; now apply in_map|]. split; [reflexivity|].
    split; [exact (constraint_refers g Hg)|]. split; [unfold gmod; destruct (String.eqb _ _); cbn; tauto|]. split; [reflexivity|type_of 1%nat].
  Qed.
  Lemma all_connect k : In k (is_connections sys) -> text_connectable libs sys k.
  Proof.
    intros Hk. unfold sys in Hk. rewrite (sys_connections order n n' T gcs parts Pre Good Gcs Parts) in Hk. apply in_app_or in Hk. destruct Hk as [Hk|Hk].
    - apply in_flat_map in Hk. destruct Hk as (kd & _ & Hk). apply in_flat_map in Hk. destruct Hk as (bp & Hbp & Hk). apply in_map_iff in Hk.
      destruct Hk as (c & <- & Hc). unfold text_connectable. cbn [kconn icn_component1 icn_port1 icn_component2 icn_port2].
      assert (Bus : In (bus_of n kd (fst bp) c) (names n Buses)).
      { assert (B : In (fst bp) (bus_columns kd)) by (destruct kd; cbn in Hbp; each Hbp; cbn; auto).
        pose proof Good as (_ & _ & _ & _ & G & _). destruct (G kd) as (_ & _ & _ & Gc). destruct (Gc c Hc) as (_ & X & _).
        destruct (X _ B) as [b Eb]. unfold bus_of. rewrite Eb. destruct Cons as (C & _). exact (C kd c (fst bp) b Hc B Eb). }
      assert (P := kind_port Buses _ (yport "p_balance_port" "flow") Bus (or_introl eq_refl)).
      change (study_id Buses (bus_of n kd (fst bp) c)) with (bus_of n kd (fst bp) c ++ "")%string in P. rewrite append_nil in P.
      assert (Q : exists q, In q (ym_ports (kmod kd)) /\ yo_id q = fst (snd bp) /\ yo_type q = "flow")
        by (destruct kd; cbn in Hbp; each Hbp; eexists; first [solve [split; [cbn; left; reflexivity|split; reflexivity]]|solve [split; [cbn; right; left; reflexivity|split; reflexivity]]]).
      destruct Q as (q & Hq & Eq & Et). assert (P' := kind_port kd c q Hc Hq). rewrite Eq, Et in P'.
      exists pypsa_library, lib_bus, pypsa_library, (kmod kd), (the_type "flow").
      split; [|split; [exact P'|]].
      + replace (snd (snd bp)) with "p_balance_port" by (destruct kd; cbn in Hbp; each Hbp; reflexivity). exact P.
      + intros f [<-|[]]. right. split; [intros (d & [] & _)|]. 
        destruct kd; cbn in Hbp; each Hbp; eexists; first [solve [split; [cbn; left; reflexivity|split; reflexivity]]|solve [split; [cbn; right; left; reflexivity|split; reflexivity]]].
    - apply in_flat_map in Hk. destruct Hk as (g & Hg & Hk). apply in_map_iff in Hk. destruct Hk as (c & <- & Hc).
      unfold text_connectable. cbn [icn_component1 icn_port1 icn_component2 icn_port2].
      assert (Q : exists kd c', In c' (names n kd) /\ c = study_id kd c' /\ (kd = Generators \/ kd = Stores \/ kd = StorageUnits)).
      { unfold contributing in Hc. rewrite !in_app_iff, !in_map_iff in Hc.
        destruct Hc as [(d & <- & Hd)|[(d & <- & Hd)|(d & <- & Hd)]]; apply filter_In in Hd; destruct Hd as [Hd _]; eexists _, d; eauto 10. }
      destruct Q as (kd & c' & Hc' & -> & Hkd).
      exists pypsa_library, (gmod g), pypsa_library, (kmod kd), (the_type "emission"). split; [exact (constraint_port g Hg)|]. split.
      + assert (Hq : In (yport "emission_port" "emission") (ym_ports (kmod kd))) by (destruct Hkd as [-> |[-> | ->]]; cbn; tauto).
        exact (kind_port kd c' _ Hc' Hq).
      + intros f [<-|[]]. right. split; [intros (d & Hd & _); unfold gmod in Hd; destruct (String.eqb _ _) in Hd; destruct Hd|].
        destruct Hkd as [-> |[-> | ->]]; eexists; (split; [cbn; right; left; reflexivity|split; reflexivity]).
  Qed.

  (** ** Texts *)
  Lemma named_value k c e x ports q : In c (names n k) -> made k c e ->
    In q (map fst (quantities k)) \/ In q (map snd (kparams k)) ->
    always (entry_world sys files T S x e ports) (name_value (entry_world sys files T S x e ports) (map yv_id (ym_variables (kmod k))) q).
  Proof.
    intros Hc M [H|H] t s _; apply in_map_iff in H; destruct H as ([a b] & <- & H); cbn [fst snd].
    - exact (some_not_none (var_value order n' T S gcs parts x k c e ports a b t s M H)).
    - exact (some_not_none (par_value order n n' T S gcs parts Ord Pre Good HT x k c e ports a b t s Hc M H)).
  Qed.
  Lemma not_zero k c e x ports a t s : In c (names n k) -> made k c e -> In (a, a) (kparams k) -> value n T k c a t <> 0%Qc ->
    meaning (entry_world sys files T S x e ports) (map yv_id (ym_variables (kmod k))) (WName a) t s <> Some 0%Qc.
  Proof.
    intros Hc M H N. exact (some_not_other N (par_value order n n' T S gcs parts Ord Pre Good HT x k c e ports a a t s Hc M H)).
  Qed.
  Ltac read_in := match goal with |- throughout _ (pypsa_reading ?m ?w) => let r := look w in change (pypsa_reading m w) with r end.
  Ltac value_parts k c e Hc M :=
    cbn [throughout throughout_shift throughout_product valued_part wtimes wcost wkept wbefore];
    repeat first [exact I|match goal with |- _ /\ _ => split end
      |match goal with |- always _ _ => refine (named_value k c e _ _ _ Hc M _); cbn; tauto end
      |match goal with |- "expec" = _ => reflexivity end
      |match goal with |- whole _ _ => let t := fresh "t" in let s := fresh "s" in intros t s _; exists (-1)%Z; vm_compute; reflexivity end
      |match goal with |- forall t s, _ -> meaning _ _ _ _ _ <> _ =>
         let t := fresh "t" in let s := fresh "s" in intros t s _; refine (not_zero k c e _ _ _ t s Hc M _ _); [cbn; tauto|] end].
  Lemma definition_valued e m d x ports : entry libs sys e m -> In d (ym_definitions m) ->
    always (entry_world sys files T S x e ports) (text_value (entry_world sys files T S x e ports) m (pypsa_reading m (yd_definition d))).
  Proof.
    intros He Hd. apply text_has_value. apply Entries in He. destruct He as [(k & c & Hc & M & ->)|(g & Hg & -> & ->)].
    - destruct k; cbn in Hd; each Hd; cbn [ydef yd_definition]; read_in;
        match goal with _ : In c (names n ?k) |- _ => value_parts k c e Hc M end.
      match goal with |- value _ _ _ _ _ ?t <> _ => change (attribute n T Generators c "efficiency" t <> 0%Qc) end. now apply Good.
    - unfold gmod in Hd. destruct (String.eqb _ _) in Hd; destruct Hd.
  Qed.

  Lemma ports_valued e x p f v : In v (e_port (W x e) p f) -> always (W x e) v.
  Proof.
    unfold W, file_world. cbn [entry_world e_port]. intros H. apply in_map_iff in H. destruct H as ([[e' m'] d] & <- & H).
    apply connected_entry in H. destruct H as [He Hd]. intros t s Hs. apply (definition_valued e' m' d x (fun _ _ => []) He Hd t s Hs).
  Qed.
  Let nothing : decisions := fun _ _ _ _ => 0%Qc.
  Lemma entry_valued e m ws : Forall (fun w => always (W nothing e) (text_value (W nothing e) m w)) ws -> valued libs sys files T S pypsa_reading e m ws.
  Proof.
    intros H t s Ht Hs. exists nothing. split; [split; [reflexivity|]; intros; split; reflexivity|].
    rewrite Forall_forall in H. intros w Hw. exact (H w Hw t s Hs).
  Qed.
  Lemma before_whole e m : whole_shift libs sys files T S pypsa_reading e m (WThen WNow Minus (WFactor (WNumber "1"))).
  Proof.
    split; [cbn; auto|]. exists nothing, 0%Z, 0%Z, (-1)%Z. split; [lia|]. vm_compute. reflexivity.
  Qed.
  Ltac ready_parts := split; [cbn [throughout throughout_shift throughout_product ready_part wtimes wcost wkept wbefore];
    repeat first [exact I|match goal with |- _ /\ _ => split end|apply before_whole]|cbn; repeat split; auto].
  Ltac named K c e M Hc :=
    rewrite ?m_name;
    lazymatch goal with |- name_value _ _ ?q ?t ?s = _ =>
      first [exact (par_value order n n' T S gcs parts Ord Pre Good HT nothing K c e _ q q t s Hc M ltac:(cbn; tauto))
            |exact (par_value order n n' T S gcs parts Ord Pre Good HT nothing K c e _ "co2_emissions" q t s Hc M ltac:(cbn; tauto))]
    end.
  Ltac read_value := match goal with |- text_value ?E ?m (pypsa_reading _ ?w) ?t ?s = ?v => let r := look w in change (text_value E m r t s = v) end.
  Ltac value_of K c e M Hc := eexists _, nothing; split; [reflexivity|]; read_value; unfold text_value;
    first [apply m_zero|apply m_times; named K c e M Hc|named K c e M Hc].
  Ltac read_ready := match goal with |- ready_text _ _ _ _ _ _ _ _ (pypsa_reading ?m ?w) => let r := look w in change (pypsa_reading m w) with r end.
  Ltac read_row := match goal with |- context [pypsa_reading ?m ?w] => let r := look w in change (pypsa_reading m w) with r end; cbv iota.
  Lemma kind_ready k c e : In c (names n k) -> made k c e -> ready_entry libs sys files T S pypsa_reading e (kmod k).
  Proof.
    intros Hc M. split; [|split; [|split]].
    - intros v Hv. split.
      + intros w Hw. destruct k; cbn in Hv; each Hv; cbn in Hw; each Hw; (split; vm_compute; auto).
      + intros t s Ht Hs. exists (fst (limits n T k c (yv_id v) t)), (snd (limits n T k c (yv_id v) t)).
        split; [|split; [|destruct Cons as (_ & _ & C); apply (C k c (yv_id v) (yv_time v) t Hc); [|exact Ht]; rewrite quantities_variables; exact (in_map _ _ _ Hv)]].
        * destruct k; cbn in Hv; each Hv; match goal with _ : In c (names n ?k) |- _ => first [reflexivity|value_of k c e M Hc] end.
        * destruct k; cbn in Hv; each Hv; match goal with _ : In c (names n ?k) |- _ => first [reflexivity|value_of k c e M Hc] end.
    - intros d Hd. destruct k; cbn in Hd; each Hd; cbn [ydef yd_definition]; read_ready; ready_parts.
    - intros r Hr. destruct k; cbn in Hr; each Hr; cbn [yrow yc_expression yc_lower yc_upper]; read_row;
        match goal with _ : In c (names n ?k) |- _ => (split; [ready_parts|split; [ready_parts|]]);
          apply entry_valued; repeat constructor; apply text_has_value; value_parts k c e Hc M end.
      all: try (intros v Hv; exact (ports_valued e nothing _ _ v Hv)).
      match goal with |- value _ _ _ _ _ ?t <> _ => change (attribute n T StorageUnits c "efficiency_dispatch" t <> 0%Qc) end. now apply Good.
    - intros w Hw. destruct k; cbn in Hw; each Hw; (split; [read_ready; ready_parts|]);
        match goal with _ : In c (names n ?k) |- _ => apply entry_valued; repeat constructor; apply text_has_value; read_in; value_parts k c e Hc M end.
  Qed.
  Lemma constraint_ready g : In g gcs -> ready_entry libs sys files T S pypsa_reading (gentry g) (gmod g).
  Proof.
    intros Hg. assert (X : ready_entry libs sys files T S pypsa_reading (gentry g) lib_co2_max /\ ready_entry libs sys files T S pypsa_reading (gentry g) lib_co2_eq).
    2:{ unfold gmod. destruct (String.eqb _ _); apply X. }
    assert (Q : forall E, E = W nothing (gentry g) -> always E (name_value E [] "quota")).
    { intros E -> t s _. exact (some_not_none (quota_value order n n' T S gcs parts Pre Good Gcs nothing g lib_co2_max t s Hg (or_introl eq_refl))). }
    split; (split; [intros v []|]; split; [intros d []|]; split; [|intros w []]; intros r Hr; cbn in Hr; each Hr;
      cbn [yrow yc_expression yc_lower yc_upper]; read_row; (split; [ready_parts|split; [ready_parts|]]);
      apply entry_valued; repeat constructor; apply text_has_value;
      [cbn [throughout valued_part]; split; [exact I|]; split; [|exact I]; intros v Hv; exact (ports_valued (gentry g) nothing _ _ v Hv)
      |split; [|exact I]; now apply Q]).
  Qed.
  Lemma conversion_ready : ready_study libs sys files T S pypsa_reading.
  Proof.
    split; [exact library_loads|]. split; [exact all_refer|]. split; [exact all_connect|]. split; [exact data_complete|].
    intros e m He. apply Entries in He. destruct He as [(k & c & Hc & M & ->)|(g & Hg & -> & ->)].
    - exact (kind_ready k c e Hc M).
    - exact (constraint_ready g Hg).
  Qed.
End Ready.

Lemma converted_runs order n sys files T S order' : set_order order -> convert_pypsa order n = Ok (sys, files) ->
  good_network n T -> consistent_network n T -> (1 <= T)%Z -> (1 <= S)%Z -> any_order order' ->
  exists o st, main_cli order' [pypsa_library] sys (series_directory files) T S = Ok (o, st).
Proof.
  intros Ord Conv Good Cons HT HS Ord'. destruct (conversion_steps _ _ _ _ Conv) as (n' & gcs & parts & Pre & Gcs & Parts & -> & ->).
  apply (study_runs order' [pypsa_library] _ _ T S pypsa_reading Ord').
  - exact (study_good order n n' T S gcs parts Ord Pre Good HT HS Gcs Parts).
  - exact (conversion_ready order n n' T S gcs parts Ord Pre Good Cons HT Gcs Parts).
Qed.
