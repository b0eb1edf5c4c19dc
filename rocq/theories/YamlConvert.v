(** Lemmas for C73: the systems that the converters make have no groups of scenarios. *)
From Coq Require Import Lia.
From Verif Require Import Base BaseFacts Expr Model Study Strategy Optim System Library Yaml SpecYaml YamlFacts Pypsa Thermal Antares.
Local Open Scope string_scope.
Local Open Scope list_scope.

Definition plain_component (c : input_component) : Prop :=
  ic_group c = None /\ forall l p, ic_parameters c = Some l -> In p l -> ip_group p = None.
Lemma plain_intro id model ps : Forall (fun p => ip_group p = None) ps -> plain_component (an_component id model ps).
Proof. intros F. split; [reflexivity|]. cbn. intros l p H. injection H as <-. rewrite Forall_forall in F. apply F. Qed.
Lemma plain_map {A} (f : A -> input_component) l : (forall a, plain_component (f a)) -> Forall plain_component (map f l).
Proof. intros F. apply Forall_forall. intros c H. apply in_map_iff in H. destruct H as (a & <- & _). apply F. Qed.
Ltac plain_list := repeat first [apply Forall_nil | apply Forall_cons; [reflexivity|]].

Lemma areas_plain l s : Forall plain_component (convert_areas l s).
Proof. apply plain_map. intros a. apply plain_intro. plain_list. Qed.
Lemma renewables_plain s : Forall plain_component (fst (convert_renewables s)).
Proof. apply plain_map. intros a. apply plain_intro. plain_list. Qed.
Lemma storages_plain s : Forall plain_component (fst (convert_storages s)).
Proof. apply plain_map. intros a. apply plain_intro. plain_list. Qed.
Lemma loads_plain s : Forall plain_component (fst (convert_loads s)).
Proof. apply plain_map. intros a. apply plain_intro. plain_list. Qed.
Lemma matrix_plain kind m s : Forall plain_component (fst (convert_matrix kind m s)).
Proof. apply plain_map. intros a. apply plain_intro. plain_list. Qed.
Lemma links_plain p l s : Forall plain_component (fst (convert_links p l s)).
Proof. apply plain_map. intros a. apply plain_intro. plain_list. Qed.
Lemma thermal_plain s period t c files : convert_thermal s period t = Ok (c, files) -> plain_component c.
Proof.
  unfold convert_thermal. intros H. inv_bind H. injection H as <- <-. apply plain_intro. apply Forall_app. split; [|plain_list].
  apply Forall_forall. intros p Hp. apply in_map_iff in Hp. destruct Hp as (m & <- & _). reflexivity.
Qed.
Lemma thermals_plain p l s period r : convert_thermals p l s period = Ok r -> Forall plain_component (fst (fst r)).
Proof.
  unfold convert_thermals. intros H. inv_bind H. injection H as <-. cbn. apply mapM_ok in H0.
  induction H0 as [|a [c f] ts made E _ IH]; constructor; [|exact IH]. exact (thermal_plain _ _ _ _ _ E).
Qed.
Lemma then_do_ok {A B} (m : stateful A) (f : A -> stateful B) st st' b : then_do m f st = (st', Ok b) ->
  exists st1 a, m st = (st1, Ok a) /\ f a st1 = (st', Ok b).
Proof. unfold then_do. destruct (m st) as [st1 [a|e]]; [eauto|discriminate]. Qed.
Lemma lift_ok {A} (r : result A) st st' a : lift r st = (st', Ok a) -> st' = st /\ r = Ok a.
Proof. unfold lift. intros H. injection H as <- ->. auto. Qed.
Lemma parameter_plain s p st st' x : convert_parameter s p st = (st', Ok x) -> ip_group x = None.
Proof.
  unfold convert_parameter. intros H. do 5 (apply then_do_ok in H; destruct H as (? & ? & _ & H)).
  apply lift_ok in H. destruct H as [_ H]. injection H as <-. reflexivity.
Qed.
Lemma each_plain s ps : forall st st' l, each_do (convert_parameter s) ps st = (st', Ok l) -> Forall (fun p => ip_group p = None) l.
Proof.
  induction ps as [|p ps IH]; intros st st' l H; cbn in H.
  - apply lift_ok in H. destruct H as [_ H]. injection H as <-. constructor.
  - apply then_do_ok in H. destruct H as (st1 & x & Hx & H). apply then_do_ok in H. destruct H as (st2 & l' & Hl & H).
    apply lift_ok in H. destruct H as [_ H]. injection H as <-. constructor; [exact (parameter_plain _ _ _ _ _ Hx)|exact (IH _ _ _ Hl)].
Qed.
Lemma battery_plain pattern template s a st st' c k : convert_battery pattern template s a st = (st', Ok (c, k)) -> plain_component c.
Proof.
  unfold convert_battery. intros H. apply then_do_ok in H. destruct H as (st1 & [[id model] ps] & _ & H).
  apply then_do_ok in H. destruct H as (st2 & l & Hl & H). apply lift_ok in H. destruct H as [_ H]. injection H as <- <-.
  apply plain_intro. exact (each_plain _ _ _ _ _ Hl).
Qed.
Lemma batteries_plain pattern template s areas : forall done st st' r, Forall plain_component (fst done) ->
  convert_batteries pattern template s areas done st = (st', Ok r) -> Forall plain_component (fst r).
Proof.
  induction areas as [|a areas IH]; intros done st st' r F H; cbn [convert_batteries] in H; [injection H as <- <-; exact F|].
  destruct (convert_battery pattern template s a st) as [st1 [[c k]|e]] eqn:E.
  - eapply IH; [|exact H]. cbn. apply Forall_app. split; [exact F|]. constructor; [exact (battery_plain _ _ _ _ _ _ _ _ E)|constructor].
  - destruct e; try discriminate; injection H as <- <-; exact F.
Qed.
Lemma antares_no_groups template before period s i files : convert_with template before period s = Ok (i, files) -> no_groups i.
Proof.
  unfold convert_with. intros H. do 6 inv_bind H.
  destruct (convert_batteries _ _ _ _ _ _) as [st [b|e]] eqn:E; [|discriminate]. cbn in H. injection H as <- _.
  intros c Hc. change (plain_component c). revert c Hc. apply Forall_forall. cbn. rewrite !Forall_app.
  split; [apply areas_plain|]. split; [apply renewables_plain|]. split; [eapply thermals_plain; eassumption|]. split; [apply storages_plain|].
  split; [apply loads_plain|]. split; [apply matrix_plain|]. split; [apply matrix_plain|]. split; [apply links_plain|]. split; [|constructor].
  eapply batteries_plain; [|exact E]. constructor.
Qed.
Lemma pypsa_no_groups order n i files : convert_pypsa order n = Ok (i, files) -> no_groups i.
Proof.
  unfold convert_pypsa. intros H. do 4 inv_bind H. injection H as <- _.
  intros c Hc. change (plain_component c). revert c Hc. apply Forall_forall. cbn. apply Forall_app. split.
  - apply mapM_ok in H3. induction H3 as [|d [cs ks] ds parts E _ IH]; cbn; [constructor|]. apply Forall_app. split; [|exact IH].
    unfold convert_components in E. inv_bind E. inv_bind E. apply bind_ok in E. destruct E as (cs' & Hc & E). injection E as -> _. apply mapM_ok in Hc.
    induction Hc as [|x c xs cs E _ IH']; constructor; [|exact IH']. unfold gems_component in E. apply bind_ok in E. destruct E as (ps & Hp & E). injection E as <-.
    split; [reflexivity|]. cbn. intros l p G Hi. injection G as <-. apply mapM_ok in Hp.
    apply In_nth_error in Hi. destruct Hi as [j Hj]. revert j Hj. induction Hp as [|pg q pgs qs E _ IHq]; intros [|j] Hj; try discriminate.
    + cbn in Hj. injection Hj as <-. unfold gems_parameter in E. destruct (series_of _ _ _ _); [injection E as <-; reflexivity|].
      inv_bind E. inv_bind E. injection E as <-. reflexivity.
    + exact (IHq j Hj).
  - rewrite map_map. apply plain_map. intros g. split; [reflexivity|]. cbn. intros l p G Hp. injection G as <-. destruct Hp as [<-|[]]. reflexivity.
Qed.
