(** Facts about the commands. *)
From Coq Require Import Ascii Permutation Lia.
From Verif Require Import Base BaseFacts Expr Model Study Strategy Optim System Library Main Thermal Antares Yaml SpecYaml YamlFacts YamlConvert Cli SpecCli.
Local Open Scope string_scope.
Local Open Scope list_scope.

(** ** The simulator *)
Lemma app_assoc_text (a b c : string) : ((a ++ b) ++ c)%string = (a ++ b ++ c)%string.
Proof. induction a; cbn; [reflexivity|now rewrite IHa]. Qed.
Lemma joined2 d a b : join (join d a) b = String.concat "/" [d; a; b].
Proof. unfold join. cbn. now rewrite !app_assoc_text. Qed.
Lemma joined3 d a b c : join (join (join d a) b) c = String.concat "/" [d; a; b; c].
Proof. unfold join. cbn. now rewrite !app_assoc_text. Qed.
Lemma parse_told dk a p : parse_cli dk a = Ok p <->
  told dk a (pg_models p) (pg_components p) (pg_timeseries p) /\ chosen (ar_duration a) (pg_duration p) /\ chosen (ar_scenario a) (pg_scenarios p).
Proof.
  assert (C : forall o, chosen o (or_one o)) by (intros [z|]; [left|right]; auto).
  assert (U : forall o z, chosen o z -> z = or_one o) by (intros [y|] z [H|[H E]]; cbn; congruence).
  unfold parse_cli, told, under_directory. destruct a as [study models component series duration scenario].
  cbn [ar_study ar_models ar_component ar_timeseries ar_duration ar_scenario]. split.
  - destruct study as [d|].
    + destruct (some_models models) eqn:M, component, series; cbn [orb is_given]; try discriminate. intros H. rewrite joined2 in H.
      apply bind_ok in H as (files & L & H). injection H as <-. cbn [pg_models pg_components pg_timeseries pg_duration pg_scenarios].
      split; [left; exists d, files; split; [reflexivity|]|auto].
      split; [destruct models as [[|]|]; try discriminate; auto|]. split; [reflexivity|]. split; [reflexivity|]. split; [exact L|].
      split; [|split; [apply joined3|eexists; split; [reflexivity|apply joined3]]].
      clear. induction files as [|f files IH]; cbn [map]; constructor; [|exact IH]. unfold join. cbn. now rewrite !app_assoc_text.
    + destruct models as [[|m l]|], component as [c|]; try discriminate. intros [= <-]. cbn. split; [|auto]. right. repeat split. discriminate.
  - intros ([(d & files & E1 & E2 & E3 & E4 & E5 & F & E6 & s & E7 & E8)|(E1 & E2 & E3 & E4 & E5)] & D & S); subst.
    + assert (M : some_models models = false) by (destruct E2; subst; reflexivity). rewrite M. cbn [orb is_given].
      rewrite joined2, E5, !joined3. cbn [bind]. destruct p as [ms cs ts du sc]. cbn [pg_models pg_components pg_timeseries pg_duration pg_scenarios] in *. subst.
      apply U in D, S. subst. do 2 f_equal. clear - F. induction F as [|f path files paths -> F IH]; [reflexivity|]. cbn [map]. rewrite IH. f_equal.
      rewrite <- joined2. apply joined3.
    + destruct p as [ms cs ts du sc]. cbn in *. apply U in D, S. subst. destruct ms; [contradiction|]. reflexivity.
Qed.

(** misused options are refused, and nothing else is on their account *)
Lemma misused_refused dk a : misused a -> parse_cli dk a = Err SystemExit.
Proof.
  unfold parse_cli. intros [(S & B)|(-> & B)].
  - destruct (ar_study a) as [d|]; [|contradiction].
    replace (some_models (ar_models a) || is_given (ar_component a) || is_given (ar_timeseries a))%bool with true; [reflexivity|].
    destruct B as [(m & l & ->)|[B|B]]; [reflexivity| |].
    + destruct (ar_component a); [|contradiction]. cbn. now rewrite orb_true_r.
    + destruct (ar_timeseries a); [|contradiction]. cbn. now rewrite orb_true_r.
  - destruct B as [->|[->| ->]]; [reflexivity|reflexivity|]. now destruct (ar_models a) as [[|]|].
Qed.
Lemma used_well dk a e : ~ misused a -> parse_cli dk a = Err e ->
  exists d, ar_study a = Some d /\ dk_list dk (String.concat "/" [d; "input"; "models"]) = Err e.
Proof.
  intros M. unfold parse_cli. destruct (ar_study a) as [d|] eqn:S.
  - destruct (some_models (ar_models a) || is_given (ar_component a) || is_given (ar_timeseries a))%bool eqn:B.
    + destruct M. left. split; [congruence|]. apply orb_true_iff in B as [B|B]; [apply orb_true_iff in B as [B|B]|].
      * left. destruct (ar_models a) as [[|]|]; try discriminate. eauto.
      * right. left. now destruct (ar_component a).
      * right. right. now destruct (ar_timeseries a).
    + rewrite joined2. destruct (dk_list _ _) as [l|e'] eqn:L; [discriminate|]. intros [= <-]. exists d. auto.
  - destruct (ar_models a) as [[|m l]|] eqn:Em, (ar_component a) as [c|] eqn:Ec; try discriminate; destruct M; right; split; auto.
Qed.

(** reading files one by one and reading them first *)
Lemma libs_files show order dk paths r : input_libs_files show order dk paths = Ok r <->
  exists libs, libraries_read show dk paths libs /\ input_libs order libs = Ok r.
Proof.
  unfold input_libs_files, input_libs.
  set (f := fun (acc : list in_library * list string) path =>
              t <- dk_yaml dk path ;; l <- parse_yaml_library show t ;;
              if existsb (String.eqb (yl_id l)) (snd acc) then Err ValueError else Ok (fst acc ++ [l], snd acc ++ [yl_id l])).
  set (g := fun (acc : list in_library * list string) l => if existsb (String.eqb (yl_id l)) (snd acc) then Err ValueError else Ok (fst acc ++ [l], snd acc ++ [yl_id l])).
  assert (G : forall paths acc out, foldM f acc paths = Ok out <-> exists libs, libraries_read show dk paths libs /\ foldM g acc libs = Ok out).
  { clear. induction paths as [|p paths IH]; intros acc out.
    - cbn. split; [intros H; exists []; split; [constructor|exact H]|]. intros (libs & L & H). inversion L; subst. exact H.
    - cbn [foldM]. split.
      + intros H. apply bind_ok in H as (acc' & F & H). unfold f in F at 1. apply bind_ok in F as (t & T & F). apply bind_ok in F as (l & L & F).
        apply IH in H as (libs & R & H). exists (l :: libs). split; [constructor; [|exact R]; exists t; split; [exact T|now apply library_file_exact]|].
        cbn [foldM]. change (g acc l) with (if existsb (String.eqb (yl_id l)) (snd acc) then @Err (list in_library * list string) ValueError else Ok (fst acc ++ [l], snd acc ++ [yl_id l])).
        rewrite F. exact H.
      + intros (libs & R & H). inversion R as [|x l ? libs' (t & T & L) R' E1 E2]; subst. cbn [foldM] in H. apply bind_ok in H as (acc' & F & H).
        unfold f at 1. rewrite T. cbn [bind]. apply library_file_exact in L. rewrite L. cbn [bind]. unfold g in F at 1. rewrite F. cbn [bind]. apply IH. eauto. }
  split.
  - intros H. apply bind_ok in H as (out & F & H). apply G in F as (libs & R & F). exists libs. split; [exact R|]. rewrite F. exact H.
  - intros (libs & R & H). apply bind_ok in H as (out & F & H). assert (X : foldM f ([], []) paths = Ok out) by (apply G; eauto). rewrite X. exact H.
Qed.

(** the directory of time series *)
Definition series_directory (dk : disk) (series : option string) (name : string) : result frame := load_ts_from_txt dk name series.

Lemma simulator_run show order dk a r : simulator show order dk a = Ok r <->
  exists models components series libs sys T S,
    told dk a models components series /\ chosen (ar_duration a) T /\ chosen (ar_scenario a) S /\
    libraries_read show dk models libs /\ system_read dk components sys /\
    main_cli order libs sys (fun name => load_ts_from_txt dk name series) T S = Ok r.
Proof.
  unfold simulator, main_cli, input_study, input_database. split.
  - intros H. apply bind_ok in H as (p & P & H). apply parse_told in P as (P & D & N). apply bind_ok in H as (ld & L & H).
    apply libs_files in L as (libs & R & L). apply bind_ok in H as (study & St & H). apply bind_ok in St as (t & T & St). apply bind_ok in St as (sys & Sy & St).
    apply bind_ok in H as (u & U & H). rewrite T in H. cbn [bind] in H. rewrite Sy in H. cbn [bind] in H.
    exists (pg_models p), (pg_components p), (pg_timeseries p), libs, sys, (pg_duration p), (pg_scenarios p).
    split; [exact P|]. split; [exact D|]. split; [exact N|]. split; [exact R|].
    split; [exists t; split; [exact T|now apply system_file_exact]|]. rewrite L. cbn [bind]. rewrite St. cbn [bind]. rewrite U. cbn [bind].
    destruct (build_data_base _ sys) as [db|e]; [exact H|destruct e; discriminate].
  - intros (models & components & series & libs & sys & T & S & P & D & N & R & (t & Y & F) & H).
    assert (E : parse_cli dk a = Ok {| pg_models := models; pg_components := components; pg_timeseries := series; pg_duration := T; pg_scenarios := S |})
      by (apply parse_told; cbn; auto).
    rewrite E. cbn [bind pg_models pg_components pg_timeseries pg_duration pg_scenarios]. apply bind_ok in H as (ld & L & H).
    assert (L' : input_libs_files show order dk models = Ok ld) by (apply libs_files; eauto). rewrite L'. cbn [bind]. rewrite Y. cbn [bind].
    apply system_file_exact in F. rewrite F. cbn [bind]. apply bind_ok in H as (study & St & H). rewrite St. cbn [bind].
    apply bind_ok in H as (u & U & H). rewrite U. cbn [bind]. destruct (build_data_base _ sys) as [db|e]; [exact H|discriminate].
Qed.

(** ** Without a directory of time series *)
Lemma data_constant f p : constant_number p -> exists d, build_data f (ip_time p) (ip_scenario p) (ip_value p) None = Ok d.
Proof. intros (v & E & T & S). rewrite E, T, S. cbn. eauto. Qed.
Lemma kind_of_value p : names_series p \/ exists v, ip_value p = inl v.
Proof. unfold names_series. destruct (ip_value p); eauto. Qed.
Definition data_step (f : string -> result frame) (c : input_component) (db : database) (p : input_parameter) : result database :=
  d <- build_data f (ip_time p) (ip_scenario p) (ip_value p) None ;; Ok (add_data (ic_id c) (ip_id p) d db).
Lemma data_base_step f i : build_data_base f i = foldM (fun db c => foldM (data_step f c) db (parameters_of c)) [] (is_components i ++ is_nodes i).
Proof. reflexivity. Qed.

Lemma step_independent f g c ps : (forall p, In p ps -> ~ names_series p) -> forall db, foldM (data_step f c) db ps = foldM (data_step g c) db ps.
Proof.
  induction ps as [|p ps IH]; intros H db; [reflexivity|]. cbn [foldM].
  assert (E : data_step f c db p = data_step g c db p).
  { unfold data_step. destruct (kind_of_value p) as [N|(v & E)]; [destruct (H p); [now left|exact N]|]. now rewrite E. }
  rewrite E. destruct (data_step g c db p); [|reflexivity]. cbn [bind]. apply IH. intros q Q. apply H. now right.
Qed.
Lemma data_independent f g i : (forall p, In p (parameters_given i) -> ~ names_series p) -> build_data_base f i = build_data_base g i.
Proof.
  rewrite !data_base_step. unfold parameters_given.
  generalize (is_components i ++ is_nodes i) as l. intros l H.
  assert (G : forall db, foldM (fun db c => foldM (data_step f c) db (parameters_of c)) db l = foldM (fun db c => foldM (data_step g c) db (parameters_of c)) db l).
  { induction l as [|c l IH]; intros db; [reflexivity|]. cbn [foldM]. rewrite (step_independent f g c (parameters_of c)).
    - destruct (foldM (data_step g c) db (parameters_of c)); [|reflexivity]. cbn [bind]. apply IH. intros p P. apply H. cbn [flat_map]. apply in_or_app. now right.
    - intros p P. apply H. cbn [flat_map]. apply in_or_app. left. exact P. }
  apply G.
Qed.

Lemma step_unbound c ps : forall db, (forall p, In p ps -> names_series p \/ constant_number p) ->
  (exists db', foldM (data_step (fun _ => Err UnboundLocalErr) c) db ps = Ok db' /\ forall p, In p ps -> ~ names_series p) \/
  (foldM (data_step (fun _ => Err UnboundLocalErr) c) db ps = Err UnboundLocalErr /\ exists p, In p ps /\ names_series p).
Proof.
  induction ps as [|p ps IH]; intros db H; [left; exists db; split; [reflexivity|intros p []]|]. cbn [foldM].
  destruct (kind_of_value p) as [(name & N)|(v & E)].
  - right. unfold data_step at 1. rewrite N. split; [reflexivity|]. exists p. split; [now left|]. exists name. exact N.
  - destruct (H p (or_introl eq_refl)) as [(name & N)|C]; [congruence|]. destruct (data_constant (fun _ => Err UnboundLocalErr) p C) as (d & D).
    unfold data_step at 1 3. rewrite D. cbn [bind]. destruct (IH (add_data (ic_id c) (ip_id p) d db) (fun q Q => H q (or_intror Q))) as [(db' & F & A)|(F & q & Q & A)].
    + left. exists db'. split; [exact F|]. intros q [<-|Q]; [intros (name & N); congruence|auto].
    + right. split; [exact F|]. exists q. split; [now right|exact A].
Qed.
Lemma data_unbound i : (forall p, In p (parameters_given i) -> names_series p \/ constant_number p) -> (exists p, In p (parameters_given i) /\ names_series p) ->
  build_data_base (fun _ => Err UnboundLocalErr) i = Err UnboundLocalErr.
Proof.
  rewrite data_base_step. unfold parameters_given. generalize (is_components i ++ is_nodes i) as l. intros l H X.
  assert (G : forall db, foldM (fun db c => foldM (data_step (fun _ => Err UnboundLocalErr) c) db (parameters_of c)) db l = Err UnboundLocalErr).
  { induction l as [|c l IH]; intros db; [destruct X as (p & [] & _)|]. cbn [foldM].
    destruct (step_unbound c (parameters_of c) db) as [(db' & F & A)|(F & _)].
    - intros p P. apply H. cbn [flat_map]. apply in_or_app. now left.
    - rewrite F. cbn [bind]. apply IH; [intros p P; apply H; cbn [flat_map]; apply in_or_app; now right|].
      destruct X as (p & P & N). cbn [flat_map] in P. apply in_app_or in P as [P|P]; [destruct (A p P N)|eauto].
    - rewrite F. reflexivity. }
  apply G.
Qed.
Lemma step_bound f c ps : forall db db', foldM (data_step f c) db ps = Ok db' -> (forall name, exists e, f name = Err e) -> forall p, In p ps -> ~ names_series p.
Proof.
  induction ps as [|q ps IH]; intros db db' H F p P (name & N); [destruct P|]. cbn [foldM] in H. apply bind_ok in H as (db1 & D & H). destruct P as [<-|P].
  - unfold data_step in D. rewrite N in D. cbn in D. destruct (F name) as (e & E). rewrite E in D. discriminate.
  - apply (IH db1 db' H F p P). exists name. exact N.
Qed.
Lemma data_bound f i db : build_data_base f i = Ok db -> (forall name, exists e, f name = Err e) -> forall p, In p (parameters_given i) -> ~ names_series p.
Proof.
  rewrite data_base_step. unfold parameters_given. generalize (is_components i ++ is_nodes i) as l. intros l H F.
  revert H.
  assert (G : forall l db0 db, foldM (fun db c => foldM (data_step f c) db (parameters_of c)) db0 l = Ok db ->
            forall p, In p (flat_map (fun c => match ic_parameters c with Some l => l | None => [] end) l) -> ~ names_series p).
  { clear l. induction l as [|c l IH]; intros db0 db1 H p P; [destruct P|]. cbn [foldM] in H. apply bind_ok in H as (db2 & D & H).
    cbn [flat_map] in P. apply in_app_or in P as [P|P]; [exact (step_bound f c _ _ _ D F p P)|exact (IH _ _ H p P)]. }
  intros H. exact (G l _ _ H).
Qed.

(** ** Configuration *)
Lemma plain_cons c s : plain (String c s) <-> c <> "%"%char /\ plain s.
Proof. unfold plain. cbn. intuition. Qed.
Lemma plain_escapes s : plain s -> without_escapes s = s.
Proof.
  induction s as [|c s IH]; [reflexivity|]. intros P. apply plain_cons in P as [C P]. specialize (IH P). cbn. destruct s as [|d s]; [reflexivity|].
  apply Ascii.eqb_neq in C. rewrite C. cbn [andb]. now rewrite IH.
Qed.
Lemma plain_at s : plain s -> reference_at s = None.
Proof.
  destruct s as [|c [|d s]]; try reflexivity. intros P. apply plain_cons in P as [C P]. cbn. apply Ascii.eqb_neq in C. now rewrite C.
Qed.
Lemma plain_references n s : plain s -> without_references n s = s.
Proof.
  revert s. induction n as [|n IH]; intros s P; [reflexivity|]. cbn. rewrite (plain_at s P). destruct s as [|c s]; [reflexivity|].
  apply plain_cons in P as [_ P]. now rewrite IH.
Qed.
Lemma plain_percent s : plain s -> has_percent s = false.
Proof.
  induction s as [|c s IH]; [reflexivity|]. intros P. apply plain_cons in P as [C P]. cbn. apply Ascii.eqb_neq in C. rewrite C. now apply IH.
Qed.
Lemma plain_interpolate depth lookup s : plain s -> interpolate depth lookup (String.length s) s = Ok s.
Proof.
  destruct depth; (induction s as [|c s IH]; [reflexivity|]; intros P; apply plain_cons in P as [C P]; apply Ascii.eqb_neq in C;
    cbn [String.length]; cbn; rewrite C; cbn in IH; rewrite (IH P); reflexivity).
Qed.
(** a stray percent sign, and an escaped one *)
Lemma length_app_text a b : String.length (a ++ b)%string = (String.length a + String.length b)%nat.
Proof. induction a; cbn; [reflexivity|now rewrite IHa]. Qed.
Lemma percent_kept a b : has_percent (a ++ String "%" b)%string = true.
Proof. induction a as [|c a IH]; [reflexivity|]. cbn. rewrite IH. apply orb_true_r. Qed.
Lemma stray_escapes a b : plain a -> plain b -> without_escapes (a ++ String "%" b)%string = (a ++ String "%" b)%string.
Proof.
  intros A B. induction a as [|c a IH].
  - cbn. destruct b as [|d b]; [reflexivity|]. pose proof (plain_escapes _ B) as E. apply plain_cons in B as [D B].
    replace (Ascii.eqb d "%") with false by (symmetry; now apply Ascii.eqb_neq). rewrite E. reflexivity.
  - apply plain_cons in A as [C A]. specialize (IH A). cbn in IH |- *. destruct (a ++ String "%" b)%string as [|d s] eqn:E; [destruct a; discriminate|].
    apply Ascii.eqb_neq in C. rewrite C. cbn [andb]. now rewrite IH.
Qed.
Lemma stray_references a b : plain a -> plain b -> (forall r, b <> String "(" r) -> forall n, without_references n (a ++ String "%" b)%string = (a ++ String "%" b)%string.
Proof.
  intros A B N n. revert a A. induction n as [|n IH]; intros a A; [reflexivity|]. destruct a as [|c a].
  - cbn [append without_references]. replace (reference_at (String "%" b)) with (@None (string * string)).
    + now rewrite (plain_references n b B).
    + destruct b as [|d b]; [reflexivity|]. cbn. destruct (Ascii.eqb_spec d "("); [subst; destruct (N b eq_refl)|reflexivity].
  - apply plain_cons in A as [C A]. cbn [append without_references]. replace (reference_at (String c (a ++ String "%" b))) with (@None (string * string)).
    + now rewrite IH.
    + apply Ascii.eqb_neq in C. destruct (a ++ String "%" b)%string; cbn; [reflexivity|]. now rewrite C.
Qed.
Lemma stray_refused section key a b c : plain a -> plain b -> (forall r, b <> String "(" r) ->
  config_set section key (a ++ String "%" b)%string c = Err ValueError.
Proof. intros A B N. unfold config_set. now rewrite stray_escapes, stray_references, percent_kept. Qed.

Lemma escaped_escapes a b : plain a -> plain b -> without_escapes (a ++ String "%" (String "%" b))%string = (a ++ b)%string.
Proof.
  intros A B. induction a as [|c a IH].
  - cbn. now apply plain_escapes.
  - apply plain_cons in A as [C A]. specialize (IH A). cbn [append without_escapes] in *. destruct (a ++ String "%" (String "%" b))%string as [|d s] eqn:E; [destruct a; discriminate|].
    apply Ascii.eqb_neq in C. rewrite C. cbn [andb]. now rewrite IH.
Qed.
Lemma interpolate_other depth lookup n c s : c <> "%"%char -> interpolate depth lookup (S n) (String c s) = (r <- interpolate depth lookup n s ;; Ok (String c r)).
Proof. intros C. apply Ascii.eqb_neq in C. destruct depth; cbn; rewrite C; reflexivity. Qed.
Lemma interpolate_escape depth lookup n s : interpolate depth lookup (S n) (String "%" (String "%" s)) = (r <- interpolate depth lookup n s ;; Ok (String "%" r)).
Proof. destruct depth; reflexivity. Qed.
Lemma interpolate_plain depth lookup n s : (String.length s <= n)%nat -> plain s -> interpolate depth lookup n s = Ok s.
Proof.
  revert s. induction n as [|n IH]; intros [|c s] L P; cbn in L; try (destruct depth; reflexivity); [lia|]. apply plain_cons in P as [C P].
  rewrite (interpolate_other _ _ _ _ _ C), IH; [reflexivity|lia|exact P].
Qed.
Lemma interpolate_escaped depth lookup a b n : plain a -> plain b -> (String.length (a ++ String "%" (String "%" b)) <= n)%nat ->
  interpolate depth lookup n (a ++ String "%" (String "%" b))%string = Ok (a ++ String "%" b)%string.
Proof.
  intros A B. revert a A. induction n as [|n IH]; intros [|c a] A L; cbn [append String.length] in *; try lia.
  - rewrite interpolate_escape, interpolate_plain; [reflexivity|lia|exact B].
  - apply plain_cons in A as [C A]. rewrite (interpolate_other _ _ _ _ _ C), IH; [reflexivity|exact A|lia].
Qed.

Lemma config_set_plain section key v c s : plain v -> dget String.eqb section (cf_sections c) = Some s ->
  config_set section key v c = Ok {| cf_defaults := cf_defaults c; cf_sections := dset String.eqb section (dset String.eqb key v s) (cf_sections c) |}.
Proof. intros P H. unfold config_set. now rewrite (plain_escapes v P), (plain_references _ v P), (plain_percent v P), H. Qed.
Lemma config_set_ok section key v c c' : config_set section key v c = Ok c' ->
  exists s, dget String.eqb section (cf_sections c) = Some s /\
    c' = {| cf_defaults := cf_defaults c; cf_sections := dset String.eqb section (dset String.eqb key v s) (cf_sections c) |}.
Proof.
  unfold config_set. destruct (has_percent _); [discriminate|]. destruct (dget String.eqb section (cf_sections c)) as [s|]; [|discriminate]. intros [= <-]. eauto.
Qed.

(** ** The converter *)
Definition accepted (s : string) : Prop := has_percent (without_references (String.length s) (without_escapes s)) = false.
Lemma plain_accepted s : plain s -> accepted s.
Proof. intros P. unfold accepted. now rewrite (plain_escapes s P), (plain_references _ s P), (plain_percent s P). Qed.
Lemma plain_app a b : plain a -> plain b -> plain (a ++ b)%string.
Proof. intros A B. induction a as [|c a IH]; [exact B|]. apply plain_cons in A as [C A]. cbn. apply plain_cons. auto. Qed.
Lemma escaped_accepted a b : plain a -> plain b -> accepted (a ++ String "%" (String "%" b))%string.
Proof.
  intros A B. unfold accepted. rewrite (escaped_escapes a b A B), plain_references by now apply plain_app. apply plain_percent. now apply plain_app.
Qed.
Lemma config_set_accepted section key v c s : accepted v -> dget String.eqb section (cf_sections c) = Some s ->
  config_set section key v c = Ok {| cf_defaults := cf_defaults c; cf_sections := dset String.eqb section (dset String.eqb key v s) (cf_sections c) |}.
Proof. intros P H. unfold config_set. rewrite P. now rewrite H. Qed.

Definition with_study (c : config) : config :=
  match dget String.eqb "study" (cf_sections c) with
  | Some _ => c
  | None => {| cf_defaults := cf_defaults c; cf_sections := dset String.eqb "study" [] (cf_sections c) |}
  end.
Lemma with_study_section c : exists s, dget String.eqb "study" (cf_sections (with_study c)) = Some s.
Proof.
  unfold with_study. destruct (dget String.eqb "study" (cf_sections c)) as [s|] eqn:E; [eauto|]. cbn. rewrite (dget_dset_same String.eqb String.eqb_eq). eauto.
Qed.
Lemma with_study_raw c key : config_raw (with_study c) "study" key =
  match dget String.eqb "study" (cf_sections c) with
  | Some s => match dget String.eqb key s with Some v => Some v | None => dget String.eqb key (cf_defaults c) end
  | None => dget String.eqb key (cf_defaults c)
  end.
Proof.
  unfold with_study. destruct (dget String.eqb "study" (cf_sections c)) as [s|] eqn:E; unfold config_raw; [now rewrite E|].
  cbn [cf_sections cf_defaults]. now rewrite (dget_dset_same String.eqb String.eqb_eq).
Qed.
Lemma raw_set c s key v other : dget String.eqb "study" (cf_sections c) = Some s ->
  config_raw {| cf_defaults := cf_defaults c; cf_sections := dset String.eqb "study" (dset String.eqb key v s) (cf_sections c) |} "study" other =
  if String.eqb other key then Some v else config_raw c "study" other.
Proof.
  intros E. unfold config_raw. cbn [cf_sections cf_defaults]. rewrite (dget_dset_same String.eqb String.eqb_eq), E.
  destruct (String.eqb_spec other key) as [->|N]; [now rewrite (dget_dset_same String.eqb String.eqb_eq)|].
  now rewrite (dget_dset_other String.eqb String.eqb_eq).
Qed.

(** what remains once the options are read *)
Definition finish (m : machine) (input : string) (log : string) (made : list string) : result effects :=
  r <- convert_path m (as_path input) None None ;;
  Ok {| ef_made := made; ef_log := log_file log; ef_path := fst (fst r); ef_content := snd (fst r); ef_series := snd r |}.
(** the options that remain: the configuration, the log and the files made *)
Definition options_read (m : machine) (package : string) (a : converter_options) : result (string * string * list string) :=
  p <- parse_commandline m package a ;; let '(conf, log, _, _, made) := p in Ok (conf, log, made).

Lemma parsed_options m package a conf log study output made : parse_commandline m package a = Ok (conf, log, study, output, made) ->
  study = cv_study a /\ output = cv_output a.
Proof.
  unfold parse_commandline. intros H. apply bind_ok in H as (c & C & H). apply bind_ok in H as ([l md] & L & H). apply bind_ok in H as (s & S & H).
  apply bind_ok in H as (o & O & H). injection H as <- <- <- <- <-.
  assert (G : forall x y, match x with Some s => s <- path_type true false true m s ;; Ok (Some s) | None => Ok None end = Ok y -> y = x).
  { intros [x|] y; [|congruence]. unfold path_type. cbn. destruct (md_kind m x) as [[|]|]; cbn; congruence. }
  split; [exact (G _ _ S)|exact (G _ _ O)].
Qed.

Lemma converter_text m package a s s' : cv_study a = Some s -> accepted s -> (forall lookup, interpolate 9 lookup (String.length s) s = Ok s') ->
  (forall o, cv_output a = Some o -> accepted o) ->
  converter m package a = (p <- options_read m package a ;; _ <- md_config m (fst (fst p)) ;; finish m s' (snd (fst p)) (snd p)).
Proof.
  intros I A T O. unfold converter, options_read.
  destruct (parse_commandline m package a) as [[[[[conf log] study] output] made]|e] eqn:P; [|reflexivity]. cbn [bind fst snd].
  destruct (parsed_options _ _ _ _ _ _ _ _ P) as [-> ->]. rewrite I. destruct (md_config m conf) as [c|e]; [|reflexivity]. cbn [bind].
  fold (with_study c). destruct (with_study_section c) as (sec & Sec). rewrite (config_set_accepted "study" "study_path" s _ _ A Sec). cbn [bind].
  assert (G : forall c', config_raw c' "study" "study_path" = Some s ->
     (path <- config_get c' "study" "study_path" ;;
      match path with
      | Some path => r <- convert_path m (as_path path) None None ;; let '(where_to, content, series) := r in
          Ok {| ef_made := made; ef_log := log_file log; ef_path := where_to; ef_content := content; ef_series := series |}
      | None => Err TypeError
      end) = finish m s' log made).
  { intros c' R. unfold config_get. rewrite R, T. cbn [bind]. unfold finish. destruct (convert_path m (as_path s') None None) as [[[w ct] sr]|e]; reflexivity. }
  set (c1 := {| cf_defaults := _; cf_sections := _ |}) in *.
  assert (R1 : config_raw c1 "study" "study_path" = Some s) by (unfold c1; rewrite (raw_set _ _ _ _ _ Sec); reflexivity).
  destruct (cv_output a) as [o|] eqn:Out; [|cbn [bind]; now apply G].
  assert (S1 : dget String.eqb "study" (cf_sections c1) = Some (dset String.eqb "study_path" s sec)).
  { unfold c1. cbn [cf_sections]. apply (dget_dset_same String.eqb String.eqb_eq). }
  rewrite (config_set_accepted "study" "output_path" o c1 _ (O o eq_refl) S1). cbn [bind]. apply G. rewrite (raw_set _ _ _ _ _ S1). exact R1.
Qed.

Lemma converter_configured m package a s conf log made c : cv_study a = None -> (forall o, cv_output a = Some o -> accepted o) ->
  options_read m package a = Ok (conf, log, made) -> md_config m conf = Ok c ->
  config_raw (with_study c) "study" "study_path" = Some s -> plain s -> converter m package a = finish m s log made.
Proof.
  intros I O P C R S. unfold converter, options_read in *.
  destruct (parse_commandline m package a) as [[[[[conf' log'] study] output] made']|e] eqn:E; [|discriminate]. cbn [bind] in P |- *. injection P as -> -> ->.
  destruct (parsed_options _ _ _ _ _ _ _ _ E) as [-> ->]. rewrite I, C. cbn [bind]. fold (with_study c).
  assert (G : forall c', config_raw c' "study" "study_path" = Some s ->
     (path <- config_get c' "study" "study_path" ;;
      match path with
      | Some path => r <- convert_path m (as_path path) None None ;; let '(where_to, content, series) := r in
          Ok {| ef_made := made; ef_log := log_file log; ef_path := where_to; ef_content := content; ef_series := series |}
      | None => Err TypeError
      end) = finish m s log made).
  { intros c' Q. unfold config_get. rewrite Q, interpolate_plain by auto. cbn [bind]. unfold finish. destruct (convert_path m (as_path s) None None) as [[[w ct] sr]|e]; reflexivity. }
  destruct (cv_output a) as [o|] eqn:Out; [|cbn [bind]; now apply G]. destruct (with_study_section c) as (sec & Sec).
  rewrite (config_set_accepted "study" "output_path" o _ _ (O o eq_refl) Sec). cbn [bind]. apply G. rewrite (raw_set _ _ _ _ _ Sec). exact R.
Qed.
Lemma converter_unset m package a conf log made c : cv_study a = None -> cv_output a = None ->
  options_read m package a = Ok (conf, log, made) -> md_config m conf = Ok c ->
  config_raw (with_study c) "study" "study_path" = None -> converter m package a = Err TypeError.
Proof.
  intros I O P C R. unfold converter, options_read in *.
  destruct (parse_commandline m package a) as [[[[[conf' log'] study] output] made']|e] eqn:E; [|discriminate]. cbn [bind] in P |- *. injection P as -> -> ->.
  destruct (parsed_options _ _ _ _ _ _ _ _ E) as [-> ->]. rewrite I, O, C. cbn [bind]. fold (with_study c). unfold config_get. now rewrite R.
Qed.
Lemma finish_ok m s log made e : finish m s log made = Ok e <->
  exists sys study, (exists k, md_kind m (as_path s) = Some k) /\ md_study m (md_resolve m (as_path s)) = Ok study /\
    convert_antares [] None study = Ok (sys, ef_series e) /\ ef_content e = transform_to_yaml (converter_args sys) /\
    ef_path e = (md_resolve m (as_path s) ++ "/output.yaml")%string /\ ef_made e = made /\ ef_log e = log_file log.
Proof.
  unfold finish, convert_path. split.
  - intros H. apply bind_ok in H as ([[w ct] sr] & C & H). injection H as <-. cbn [ef_made ef_log ef_path ef_content ef_series fst snd].
    destruct (md_kind m (as_path s)) as [k|]; [|discriminate]. apply bind_ok in C as (st & St & C). apply bind_ok in C as ([sys files] & Cv & C).
    injection C as <- <- <-. exists sys, st. cbn [snd fst]. repeat split; eauto.
  - intros (sys & st & (k & K) & St & C & E1 & E2 & E3 & E4). rewrite K, St. cbn [bind]. rewrite C. cbn. destruct e. cbn in *. subst. reflexivity.
Qed.

(** a number for data that depends on time or on the scenario is refused *)
Lemma step_numbers f c ps : forall db db', foldM (data_step f c) db ps = Ok db' -> forall p v, In p ps -> ip_value p = inl v -> ip_time p = false /\ ip_scenario p = false.
Proof.
  induction ps as [|q ps IH]; intros db db' H p v P E; [destruct P|]. cbn [foldM] in H. apply bind_ok in H as (db1 & D & H). destruct P as [<-|P].
  - unfold data_step in D. rewrite E in D. cbn in D. destruct (ip_time q), (ip_scenario q); try discriminate. auto.
  - exact (IH _ _ H p v P E).
Qed.
Lemma data_numbers f i db : build_data_base f i = Ok db -> forall p v, In p (parameters_given i) -> ip_value p = inl v -> ip_time p = false /\ ip_scenario p = false.
Proof.
  rewrite data_base_step. unfold parameters_given. generalize (is_components i ++ is_nodes i) as l. intros l.
  assert (G : forall l db0 db, foldM (fun db c => foldM (data_step f c) db (parameters_of c)) db0 l = Ok db ->
            forall p v, In p (flat_map (fun c => match ic_parameters c with Some l => l | None => [] end) l) -> ip_value p = inl v -> ip_time p = false /\ ip_scenario p = false).
  { clear l. induction l as [|c l IH]; intros db0 db1 H p v P E; [destruct P|]. cbn [foldM] in H. apply bind_ok in H as (db2 & D & H).
    cbn [flat_map] in P. apply in_app_or in P as [P|P]; [exact (step_numbers f c _ _ _ D p v P E)|exact (IH _ _ H p v P E)]. }
  intros H. exact (G l _ _ H).
Qed.

(** the log *)
Lemma ends_with_spec e s : ends_with e s = true <-> exists r, s = (r ++ e)%string.
Proof.
  induction s as [|c s IH]; cbn [ends_with].
  - rewrite orb_false_r, String.eqb_eq. split; [intros <-; exists ""; reflexivity|]. intros (r & E). destruct r; [now cbn in E|discriminate].
  - rewrite orb_true_iff, String.eqb_eq, IH. split.
    + intros [<-|(r & ->)]; [exists ""; reflexivity|exists (String c r); reflexivity].
    + intros (r & E). destruct r as [|d r]; [left; exact E|]. injection E as -> ->. right. eauto.
Qed.
Lemma log_file_other s : (forall r, s <> (r ++ ".log")%string) -> log_file s = (s ++ ".log")%string.
Proof.
  intros N. unfold log_file. destruct (ends_with ".log" s) eqn:E; [|reflexivity]. apply ends_with_spec in E as (r & E). destruct (N r E).
Qed.
Lemma converter_log m package a e : converter m package a = Ok e ->
  exists log, (exists made, create_file_if_missing m (match cv_logging a with Some l => l | None => join package "data/logging.log" end) = Ok (log, made)) /\ ef_log e = log_file log.
Proof.
  unfold converter. intros H. apply bind_ok in H as ([[[[conf log] study] output] made] & P & H). unfold parse_commandline in P.
  apply bind_ok in P as (c & _ & P). apply bind_ok in P as ([l md] & L & P). apply bind_ok in P as (s & _ & P). apply bind_ok in P as (o & _ & P).
  injection P as <- <- <- <- <-. exists l. split; [eauto|]. apply bind_ok in H as (cf & _ & H). apply bind_ok in H as (c1 & _ & H). apply bind_ok in H as (c2 & _ & H).
  apply bind_ok in H as ([p|] & _ & H); [|discriminate]. apply bind_ok in H as ([[w ct] sr] & _ & H). injection H as <-. reflexivity.
Qed.
