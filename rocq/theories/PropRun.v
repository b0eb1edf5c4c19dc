(** C67: the studies that run. *)
From Coq Require Import Lia.
From Verif Require Import Base BaseFacts Expr Visitors Parse SpecParse LexFacts LinearExpr Model Study Strategy Optim System Library
  Main SpecExpr SpecModel SpecLibrary SpecSystem SpecLinear SpecOptim SpecMain SpecRun MainFacts MainLoad RunNeeds PropMain.
Local Open Scope string_scope.
Local Open Scope list_scope.

(** A study whose files are well written runs without an exception, in whatever order python goes through its
    sets, up to the call of the solver.  The conditions ([ready_study]) are on the files alone: libraries that
    depend on each other without a cycle, models whose texts are affine and whose bounds are formulas on
    parameters, definitions of the fields of ports, entries that name models, connections between ports of the
    same type with one definition per field, parameters given along the dimensions they have, texts that have
    a value, whole numbers in brackets. *)
Theorem C67_runs :
  forall order libs sys files T S rd, any_order order ->
  good_study libs sys files T S rd -> ready_study libs sys files T S rd ->
  exists o st, main_cli order libs sys files T S = Ok (o, st).
Proof. exact study_runs. Qed.
Print Assumptions C67_runs.

(** ** The study of C58 *)
Definition exm_flow : port_type := {| pt_id := "flow"; pt_fields := ["flow"] |}.
Lemma exm_depends a b : depends exm_libs a b -> a = "models" /\ b = "types".
Proof. intros (l & Hl & Ea & Hb). cbn in Hl. destruct Hl as [<-|[<-|[]]]; cbn in Ea, Hb; [|contradiction]. destruct Hb as [<-|[]]. auto. Qed.
Lemma exm_usable_types : usable exm_libs [] "types" "flow" exm_flow.
Proof.
  exact (u_own exm_libs [] "types" (nth 1 exm_libs (hd (Build_in_library "" [] [] []) [])) {| yt_id := "flow"; yt_fields := ["flow"] |}
    (or_intror (or_introl eq_refl)) eq_refl (or_introl eq_refl)).
Qed.
Lemma exm_usable_models : usable exm_libs [] "models" "flow" exm_flow.
Proof.
  apply u_dependency with "types"; [|exact exm_usable_types]. exists (nth 0 exm_libs (Build_in_library "" [] [] [])).
  split; [now left|]. split; [reflexivity|now left].
Qed.
Lemma exm_usable a k t : usable exm_libs [] a k t -> k = "flow" /\ t = exm_flow.
Proof.
  induction 1 as [a p k t [] _|a l t Hl E Ht|a b k t D _ IH]; [|exact IH].
  cbn in Hl. destruct Hl as [<-|[<-|[]]]; cbn in Ht; [contradiction|]. destruct Ht as [<-|[]]. auto.
Qed.
Ltac texts := cbn; repeat split; auto; try discriminate; try (intros [?|?]; [discriminate|tauto]); try tauto; try (intuition discriminate).
Lemma exm_loads : loadable_libraries exm_libs exm_reading.
Proof.
  split; [repeat constructor; cbn; intuition discriminate|]. split; [|split; [|split; [|split]]].
  - assert (R : forall a b, reaches exm_libs a b -> a = "models" /\ b = "types").
    { induction 1 as [a b D|a b c _ [_ E] _ [E' _]]; [now apply exm_depends|]. subst. discriminate. }
    intros a C. apply R in C. destruct C as [-> ?]. discriminate.
  - intros a b D. apply exm_depends in D. destruct D as [_ ->]. cbn. auto.
  - intros a k t t' H H'. apply exm_usable in H, H'. destruct H as [_ ->], H' as [_ ->]. reflexivity.
  - intros y t t' Hy Ht. cbn in Hy. destruct Hy as [<-|[<-|[]]]; cbn in Ht; [contradiction|].
    intros [[p [[] _]]|[d [[] _]]].
  - assert (GT : forall e m, entry exm_libs exm_system e m -> good_texts exm_reading m /\ distinct_names m) by apply exm_good.
    assert (G1 := GT (nth 0 (all_inputs exm_system) (hd (Build_input_component "" "" None None) [])) exm_generator (conj (or_introl eq_refl) eq_refl)).
    assert (G2 := GT (nth 1 (all_inputs exm_system) (hd (Build_input_component "" "" None None) [])) exm_load (conj (or_intror (or_introl eq_refl)) eq_refl)).
    assert (G3 := GT (nth 2 (all_inputs exm_system) (hd (Build_input_component "" "" None None) [])) exm_bus (conj (or_intror (or_intror (or_introl eq_refl))) eq_refl)).
    clear GT. intros y Hy. cbn in Hy. destruct Hy as [<-|[<-|[]]]; cbn [yl_models yl_id nth exm_libs].
    + split; [repeat constructor; cbn; intuition discriminate|]. intros m [<-|[<-|[]]].
      * destruct G1 as [[R _] (N1 & N2 & _)]. split; [exact R|]. split; [exact N1|]. split; [exact N2|].
        split; [|split; [|split; [|split; [|split]]]].
        -- intros v [<-|[<-|[]]]; (split; [cbn; auto|]); intros w Hw; cbn in Hw; [destruct Hw as [<-|[<-|[]]]|contradiction]; texts.
        -- repeat constructor. tauto.
        -- intros p [<-|[]]. exists exm_flow. exact exm_usable_models.
        -- intros d [<-|[]]. split; [|texts]. eexists _, exm_flow. split; [now left|]. split; [reflexivity|]. split; [exact exm_usable_models|now left].
        -- intros c [<-|[]]. cbn [yc_expression exm_reading String.eqb Ascii.eqb Bool.eqb]. split; [texts|]. intros b [<-|[]]. texts.
        -- intros w [<-|[]]. texts.
      * destruct G2 as [[R _] (N1 & N2 & _)]. split; [exact R|]. split; [exact N1|]. split; [exact N2|].
        split; [intros v []|]. split; [repeat constructor; tauto|]. split; [|split; [|split]].
        -- intros p [<-|[]]. exists exm_flow. exact exm_usable_models.
        -- intros d [<-|[]]. split; [|texts]. eexists _, exm_flow. split; [now left|]. split; [reflexivity|]. split; [exact exm_usable_models|now left].
        -- intros c [].
        -- intros w [].
    + split; [repeat constructor; cbn; intuition discriminate|]. intros m [<-|[]].
      destruct G3 as [[R _] (N1 & N2 & _)]. split; [exact R|]. split; [exact N1|]. split; [exact N2|].
      split; [intros v []|]. split; [repeat constructor; tauto|]. split; [|split; [|split]].
      * intros p [<-|[]]. exists exm_flow. exact exm_usable_types.
      * intros d [].
      * intros c [<-|[]]. cbn. auto.
      * intros w [].
Qed.
Lemma exm_two (P : Z -> Z -> Prop) : P 0%Z 0%Z -> P 0%Z 1%Z -> P 1%Z 0%Z -> P 1%Z 1%Z -> forall t s, (0 <= t < 2)%Z -> (0 <= s < 2)%Z -> P t s.
Proof.
  intros H1 H2 H3 H4 t s Ht Hs. assert (Et : t = 0%Z \/ t = 1%Z) by lia. assert (Es : s = 0%Z \/ s = 1%Z) by lia.
  destruct Et as [-> | ->], Es as [-> | ->]; assumption.
Qed.
Lemma exm_valued e m ws :
  Forall (fun w => forall t s, (0 <= t < 2)%Z -> (0 <= s < 2)%Z ->
    text_value (file_world exm_libs exm_system exm_files 2 2 exm_reading (fun _ _ _ _ => 0%Qc) e) m w t s <> None) ws ->
  valued exm_libs exm_system exm_files 2 2 exm_reading e m ws.
Proof.
  intros H t s Ht Hs. exists (fun _ _ _ _ => 0%Qc). split; [split; [reflexivity|]; intros; split; reflexivity|].
  rewrite Forall_forall in H. intros w Hw. now apply H.
Qed.
Ltac has_values := apply exm_valued; repeat constructor; (apply exm_two; vm_compute; discriminate).
Ltac names := split; [cbn; auto|]; split; [cbn; auto|]; split; [cbn; repeat split; discriminate|]; split; [cbn; repeat split; discriminate|reflexivity].
Lemma exm_ready : ready_study exm_libs exm_system exm_files 2 2 exm_reading.
Proof.
  split; [exact exm_loads|]. split; [|split; [|split]].
  - intros e He. cbn in He. destruct He as [<-|[<-|[<-|[]]]].
    + exists (nth 0 exm_libs (Build_in_library "" [] [] [])), exm_generator. names.
    + exists (nth 0 exm_libs (Build_in_library "" [] [] [])), exm_load. names.
    + exists (nth 1 exm_libs (Build_in_library "" [] [] [])), exm_bus. names.
  - assert (P1 : entry_port exm_libs exm_system "G" "port" (nth 0 exm_libs (Build_in_library "" [] [] [])) exm_generator exm_flow).
    { eexists _, _. split; [left; reflexivity|]. split; [reflexivity|]. split; [names|]. split; [left; reflexivity|]. split; [reflexivity|exact exm_usable_models]. }
    assert (P2 : entry_port exm_libs exm_system "D" "port" (nth 0 exm_libs (Build_in_library "" [] [] [])) exm_load exm_flow).
    { eexists _, _. split; [right; left; reflexivity|]. split; [reflexivity|]. split; [names|]. split; [left; reflexivity|]. split; [reflexivity|exact exm_usable_models]. }
    assert (P3 : entry_port exm_libs exm_system "N" "port" (nth 1 exm_libs (Build_in_library "" [] [] [])) exm_bus exm_flow).
    { eexists _, _. split; [right; right; left; reflexivity|]. split; [reflexivity|]. split; [names|]. split; [left; reflexivity|]. split; [reflexivity|exact exm_usable_types]. }
    intros k [<-|[<-|[]]]; eexists _, _, _, _, _; (split; [eassumption|]); (split; [eassumption|]); intros f [<-|[]]; [right|left];
      split; try (intros (d & [] & _)); eexists; (split; [left; reflexivity|]); auto.
  - split.
    + intros e p He Hp. cbn in He. destruct He as [<-|[<-|[<-|[]]]]; cbn in Hp.
      * destruct Hp as [<-|[<-|[]]]; [cbn; auto|]. eexists. split; [reflexivity|]. right. left. split; [reflexivity|]. split; [reflexivity|].
        intros r [<-|[<-|[]]]; eauto.
      * destruct Hp as [<-|[]]. eexists. split; [reflexivity|]. left. auto.
      * destruct Hp.
    + intros e m p [He Hm] Hp. cbn in He. destruct He as [<-|[<-|[<-|[]]]]; injection Hm as <-; cbn in Hp.
      * destruct Hp as [<-|[<-|[]]]; eexists; [split; [left; reflexivity|]|split; [right; left; reflexivity|]]; cbn; auto.
      * destruct Hp as [<-|[]]; eexists; split; [left; reflexivity|]; cbn; auto.
      * destruct Hp.
  - intros e m [He Hm]. cbn in He. destruct He as [<-|[<-|[<-|[]]]]; injection Hm as <-.
    + split; [|split; [|split]].
      * intros v [<-|[<-|[]]]; (split; [intros w Hw; cbn in Hw; try contradiction; destruct Hw as [<-|[<-|[]]]; vm_compute; split; intros; reflexivity|]).
        -- apply exm_two;
             (eexists _, _; split; [eexists _, (fun _ _ _ _ => 0%Qc); split; [reflexivity|vm_compute; reflexivity]|]; split;
              [eexists _, (fun _ _ _ _ => 0%Qc); split; [reflexivity|vm_compute; reflexivity]|vm_compute; discriminate]).
        -- intros t s _ _. exists NInf, PInf. texts.
      * intros d [<-|[]]. texts.
      * intros c [<-|[]]. cbn [yc_expression exm_reading String.eqb Ascii.eqb Bool.eqb]. split; [|split].
        -- split; [|texts]. cbn. split; [exact I|]. split; [split; exact I|]. split; [|repeat split]. split; [repeat split|].
           exists (fun _ _ _ _ => 0%Qc), 0%Z, 0%Z, (-1)%Z. split; [lia|]. vm_compute. reflexivity.
        -- has_values.
        -- intros b [<-|[]]. has_values.
      * intros w [<-|[]]. split; [texts|has_values].
    + split; [intros v []|]. split; [|split; [intros c []|intros w []]]. intros d [<-|[]]. texts.
    + split; [intros v []|]. split; [intros d []|]. split; [|intros w []]. intros c [<-|[]].
      cbn [yc_expression exm_reading String.eqb Ascii.eqb Bool.eqb]. split; [texts|]. split; [texts|]. has_values.
Qed.
Example C67_runs_example :
  any_order exm_order /\ good_study exm_libs exm_system exm_files 2 2 exm_reading /\ ready_study exm_libs exm_system exm_files 2 2 exm_reading /\
  exists o st, main_cli exm_order exm_libs exm_system exm_files 2 2 = Ok (o, st) /\ List.length (s_rows (st_solver st)) = 8%nat.
Proof.
  split; [exact exm_any_order|]. split; [exact exm_good|]. split; [exact exm_ready|].
  destruct exm_runs as (o & st & H & R & _). eauto.
Qed.

(** Whatever the files, a system that runs has only connections that say what they mean: both ends are ports of entries of the
    system, of the same type, and each field of this type is defined by one of the two models and not by the other. *)
Theorem C67_connections_needed : forall order libs sys files T S o st, any_order order ->
  main_cli order libs sys files T S = Ok (o, st) ->
  forall k, In k (is_connections sys) -> text_connectable libs sys k.
Proof. exact run_connections. Qed.
Print Assumptions C67_connections_needed.
(** the system of PropMain.v, with a connection more *)
Definition exm_joined (a b p : string) : input_system := {|
  is_nodes := is_nodes exm_system; is_components := is_components exm_system;
  is_connections := {| icn_component1 := a; icn_port1 := "port"; icn_component2 := b; icn_port2 := p |} :: is_connections exm_system |}.
Example C67_connections_example :
  (exists o st, main_cli exm_order exm_libs exm_system exm_files 2 2 = Ok (o, st)) /\ is_connections exm_system <> [] /\
  (exists e, main_cli exm_order exm_libs (exm_joined "N" "H" "port") exm_files 2 2 = Err e) /\
  (exists e, main_cli exm_order exm_libs (exm_joined "N" "G" "side") exm_files 2 2 = Err e) /\
  (exists e, main_cli exm_order exm_libs (exm_joined "G" "D" "port") exm_files 2 2 = Err e).
Proof.
  split; [destruct exm_runs as (o & st & H & _); eauto|]. split; [discriminate|].
  split; [|split]; eexists; vm_compute; reflexivity.
Qed.
