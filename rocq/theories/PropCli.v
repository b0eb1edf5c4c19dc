(** Theorems about the commands: the simulator (C74) and the converter of Antares studies (C75). *)
From Coq Require Import Ascii Lia Permutation.
From Verif Require Import Base BaseFacts Expr Model Study Strategy Optim System Library Main SpecExpr SpecModel SpecLibrary SpecSystem SpecOptim SpecMain
  SpecOrder PropMain PropOrder Thermal Antares PropAntares Yaml SpecYaml YamlFacts YamlConvert Cli SpecCli CliFacts CliSays CliOrder.
Local Open Scope string_scope.
Local Open Scope list_scope.

(** ** The directory of a study: that of C58, with its two libraries, its system and its series *)
Definition exl_show (v : num) : string := "0".
Definition exl_libraries (p : string) : result tree :=
  match exm_libs with
  | [a; b] => if String.eqb p "study/input/models/a.yml" then Ok (library_tree a) else if String.eqb p "study/input/models/b.yml" then Ok (library_tree b) else Err FileNotFoundErr
  | _ => Err FileNotFoundErr
  end.
Definition exl_disk (files : list string) : disk := {|
  dk_yaml := fun p => if String.eqb p "study/input/components/components.yml" then Ok (transform_to_yaml (converter_args exm_system)) else exl_libraries p;
  dk_list := fun p => if String.eqb p "study/input/models" then Ok files else Err FileNotFoundErr;
  dk_table := fun p => if String.eqb p "study/input/components/series/p_max.txt" then exm_files "p_max"
                       else if String.eqb p "study/input/components/series/demand.txt" then exm_files "demand" else Err FileNotFoundErr |}.
Definition exl_arguments : arguments := {|
  ar_study := Some "study"; ar_models := None; ar_component := None; ar_timeseries := None; ar_duration := Some 2%Z; ar_scenario := Some 2%Z |}.
(** without the directory of series *)
Definition exl_bare : arguments := {|
  ar_study := None; ar_models := Some ["study/input/models/a.yml"; "study/input/models/b.yml"]; ar_component := Some "study/input/components/components.yml";
  ar_timeseries := None; ar_duration := None; ar_scenario := None |}.
Definition exl_size (r : result (settings * state)) : option (nat * nat) :=
  match r with Ok (o, st) => Some (List.length (s_rows (st_solver st)), List.length (s_vars (st_solver st))) | Err _ => None end.

(** ** C74 *)
(** the command builds a problem exactly when the options make sense, the files they speak of are libraries and a system, and the
    study of these files, for the duration and scenarios of the options (1 by default), gives that problem *)
Theorem C74_run : forall show order dk a r, simulator show order dk a = Ok r <->
  exists models components series libs sys T S tables,
    told dk a models components series /\ chosen (ar_duration a) T /\ chosen (ar_scenario a) S /\
    libraries_read show dk models libs /\ system_read dk components sys /\ series_found dk series tables /\
    main_cli order libs sys tables T S = Ok r.
Proof. exact simulator_tables. Qed.
Print Assumptions C74_run.
Example C74_run_example : exl_size (simulator exl_show exm_order (exl_disk ["a.yml"; "b.yml"]) exl_arguments) = Some (8, 5)%nat.
Proof. vm_compute. reflexivity. Qed.

(** in particular every series that the system names was read: it has its file, with numbers in it, in the directory of the series *)
Theorem C74_series : forall show order dk a r models components series sys p name, simulator show order dk a = Ok r ->
  told dk a models components series -> system_read dk components sys -> In p (parameters_given sys) -> ip_value p = inr name ->
  exists d f, series = Some d /\ dk_table dk (d ++ "/" ++ name ++ ".txt")%string = Ok f.
Proof. exact simulator_series. Qed.
Print Assumptions C74_series.
Definition exl_missing : disk := {| dk_yaml := dk_yaml (exl_disk ["a.yml"; "b.yml"]); dk_list := dk_list (exl_disk ["a.yml"; "b.yml"]); dk_table := fun _ => Err FileNotFoundErr |}.
Example C74_series_example :
  flat_map (fun p => match ip_value p with inr name => [name] | inl _ => [] end) (parameters_given exm_system) = ["p_max"; "demand"] /\
  exl_size (simulator exl_show exm_order exl_missing exl_arguments) = None /\
  told exl_missing exl_arguments ["study/input/models/a.yml"; "study/input/models/b.yml"] "study/input/components/components.yml" (Some "study/input/components/series").
Proof.
  split; [reflexivity|]. split; [vm_compute; reflexivity|]. left. exists "study", ["a.yml"; "b.yml"]. cbn. repeat split; auto; [repeat constructor|]. eexists. split; reflexivity.
Qed.

(** the directory of a study stands for its files *)
Theorem C74_study : forall show order dk d files T S,
  dk_list dk (String.concat "/" [d; "input"; "models"]) = Ok files -> files <> [] ->
  simulator show order dk {| ar_study := Some d; ar_models := None; ar_component := None; ar_timeseries := None; ar_duration := T; ar_scenario := S |} =
  simulator show order dk {| ar_study := None; ar_models := Some (map (fun f => String.concat "/" [d; "input"; "models"; f]) files);
    ar_component := Some (String.concat "/" [d; "input"; "components"; "components.yml"]);
    ar_timeseries := Some (String.concat "/" [d; "input"; "components"; "series"]); ar_duration := T; ar_scenario := S |}.
Proof.
  intros show order dk d files T S L N. unfold simulator. f_equal.
  assert (X : forall f, join (join (join d "input") "models") f = String.concat "/" [d; "input"; "models"; f]) by (intros f; apply joined3).
  unfold parse_cli. cbn [ar_study ar_models ar_component ar_timeseries ar_duration ar_scenario some_models is_given orb]. rewrite joined2, L. cbn [bind].
  destruct files as [|f files]; [contradiction|]. cbn [map]. rewrite !joined3. f_equal. f_equal.
  rewrite <- joined2. f_equal; [apply X|]. apply map_ext. exact X.
Qed.
Print Assumptions C74_study.
Example C74_study_example : dk_list (exl_disk ["a.yml"; "b.yml"]) (String.concat "/" ["study"; "input"; "models"]) = Ok ["a.yml"; "b.yml"].
Proof. reflexivity. Qed.

(** and the order in which the disk lists its libraries does not matter *)
Theorem C74_listing : forall show order order' dk l a d files files' o st,
  any_order order -> any_order order' -> ar_study a = Some d ->
  dk_list dk (String.concat "/" [d; "input"; "models"]) = Ok files -> l (String.concat "/" [d; "input"; "models"]) = Ok files' -> Permutation files files' ->
  (forall z, ar_duration a = Some z -> (1 <= z)%Z) ->
  (forall paths libs, libraries_read show dk paths libs -> Forall2 (fun f path => under_directory d ["input"; "models"; f] path) files paths -> no_clash libs []) ->
  (forall path sys, system_read dk path sys -> under_directory d ["input"; "components"; "components.yml"] path -> NoDup (input_ids sys)) ->
  simulator show order dk a = Ok (o, st) ->
  exists o' st' f, simulator show order' (listed dk l) a = Ok (o', st') /\ reordered_settings o o' /\ same_program f (st_solver st) (st_solver st').
Proof. exact simulator_listed. Qed.
Print Assumptions C74_listing.
Example C74_listing_example : exists o st,
  simulator exl_show exm_order (exl_disk ["a.yml"; "b.yml"]) exl_arguments = Ok (o, st) /\ Permutation ["a.yml"; "b.yml"] ["b.yml"; "a.yml"] /\
  (forall paths libs, libraries_read exl_show (exl_disk ["a.yml"; "b.yml"]) paths libs ->
     Forall2 (fun f path => under_directory "study" ["input"; "models"; f] path) ["a.yml"; "b.yml"] paths -> no_clash libs []) /\
  (forall path sys, system_read (exl_disk ["a.yml"; "b.yml"]) path sys -> under_directory "study" ["input"; "components"; "components.yml"] path -> NoDup (input_ids sys)).
Proof.
  destruct (simulator exl_show exm_order (exl_disk ["a.yml"; "b.yml"]) exl_arguments) as [[o st]|e] eqn:E; [|vm_compute in E; discriminate].
  exists o, st. split; [reflexivity|]. split; [apply perm_swap|]. split.
  - intros paths libs R F. inversion F as [|? p1 ? ps E1 F1]; subst. inversion F1 as [|? p2 ? ps' E2 F2]; subst. inversion F2; subst.
    inversion R as [|? l1 ? ls (t1 & T1 & L1) R1]; subst. inversion R1 as [|? l2 ? ls' (t2 & T2 & L2) R2]; subst. inversion R2; subst.
    red in E1, E2. subst p1 p2. cbn in T1, T2. injection T1 as <-. injection T2 as <-.
    apply library_file_exact in L1, L2. change ([l1; l2]) with (l1 :: [l2]).
    assert (X1 : parse_yaml_library exl_show (library_tree (hd l1 exm_libs)) = Ok (hd l1 exm_libs)) by apply library_written.
    assert (X2 : parse_yaml_library exl_show (library_tree (hd l1 (tl exm_libs))) = Ok (hd l1 (tl exm_libs))) by apply library_written.
    cbn [hd tl exm_libs] in X1, X2. rewrite L1 in X1. rewrite L2 in X2. injection X1 as ->. injection X2 as ->. exact exo_no_clash.
  - intros path sys (t & T & F) P. red in P. subst path. cbn in T. injection T as <-. apply system_file_exact in F.
    assert (X : parse_yaml_components (transform_to_yaml (converter_args exm_system)) = Ok exm_system) by (vm_compute; reflexivity).
    unfold converter_args in X. cbn in X. cbn in F. rewrite F in X. injection X as ->. repeat constructor; cbn; intuition discriminate.
Qed.

(** options that do not go together end the program, and no others do *)
Theorem C74_misuse : (forall show order dk a, misused a -> simulator show order dk a = Err SystemExit) /\
  (forall dk a e, ~ misused a -> parse_cli dk a = Err e -> exists d, ar_study a = Some d /\ dk_list dk (String.concat "/" [d; "input"; "models"]) = Err e).
Proof. split; [intros show order dk a M; unfold simulator; now rewrite misused_refused|exact used_well]. Qed.
Print Assumptions C74_misuse.
Example C74_misuse_example :
  misused {| ar_study := Some "study"; ar_models := None; ar_component := None; ar_timeseries := Some "series"; ar_duration := None; ar_scenario := None |} /\
  misused {| ar_study := None; ar_models := Some ["a.yml"]; ar_component := None; ar_timeseries := None; ar_duration := None; ar_scenario := None |} /\
  ~ misused exl_arguments /\ ~ misused exl_bare.
Proof.
  split; [left; cbn; split; [discriminate|]; do 2 right; discriminate|]. split; [right; cbn; auto|].
  split; intros [(A & B)|(A & B)]; cbn in *; try discriminate; try contradiction.
  - destruct B as [(m & l & B)|[B|B]]; [discriminate|contradiction|contradiction].
  - destruct B as [B|[B|B]]; discriminate.
Qed.

(** without a directory of time series: a study that names none runs as with any directory; a study that names one does not run, and
    unless something else is wrong with it the error says that time series could not be imported *)
Theorem C74_no_series : forall show order dk models components T S,
  let a series := {| ar_study := None; ar_models := Some models; ar_component := Some components; ar_timeseries := series; ar_duration := T; ar_scenario := S |} in
  (forall sys, system_read dk components sys -> (forall p, In p (parameters_given sys) -> ~ names_series p) ->
     forall directory r, simulator show order dk (a None) = Ok r <-> simulator show order dk (a (Some directory)) = Ok r) /\
  (forall r sys, simulator show order dk (a None) = Ok r -> system_read dk components sys -> forall p, In p (parameters_given sys) -> ~ names_series p) /\
  (forall sys directory r, simulator show order dk (a (Some directory)) = Ok r -> system_read dk components sys ->
     (exists p, In p (parameters_given sys) /\ names_series p) -> simulator show order dk (a None) = Err SeriesImportErr).
Proof.
  intros show order dk models components T S a.
  assert (U : forall sys sys', system_read dk components sys -> system_read dk components sys' -> sys = sys').
  { intros sys sys' (t & A & B) (t' & A' & B'). assert (t = t') by congruence. subst t'. apply system_file_exact in B, B'. congruence. }
  split; [|split].
  - intros sys Sy N directory r.
    assert (G : forall s s', simulator show order dk (a s) = Ok r -> simulator show order dk (a s') = Ok r).
    { intros s s' H. apply simulator_run in H as (ms & cs & se & libs & sys' & T' & S' & To & D & C & R & Sy' & M).
      destruct To as [(d & fs & E & _)|(E1 & E2 & E3 & E4 & E5)]; [discriminate|]. cbn in E1, E2, E4, E5. injection E2 as <-. injection E4 as <-. subst se.
      rewrite (U _ _ Sy' Sy) in *. apply simulator_run. exists models, components, s', libs, sys, T', S'. split; [right; repeat split; assumption|].
      split; [exact D|]. split; [exact C|]. split; [exact R|]. split; [exact Sy|]. unfold main_cli in *.
      rewrite (data_independent (fun name => load_ts_from_txt dk name s') (fun name => load_ts_from_txt dk name s) sys N). exact M. }
    split; apply G.
  - intros r sys H Sy. apply simulator_run in H as (ms & cs & se & libs & sys' & T' & S' & To & D & C & R & Sy' & M).
    destruct To as [(d & fs & E & _)|(E1 & E2 & E3 & E4 & E5)]; [discriminate|]. cbn in E1, E2, E4, E5. injection E4 as <-. subst se. rewrite (U _ _ Sy' Sy) in *.
    unfold main_cli in M. apply bind_ok in M as (ld & _ & M). apply bind_ok in M as (st & _ & M). apply bind_ok in M as (u & _ & M). apply bind_ok in M as (db & B & _).
    apply (data_bound _ _ _ B). intros name. exists UnboundLocalErr. reflexivity.
  - intros sys directory r H Sy X. pose proof H as H0. apply simulator_run in H as (ms & cs & se & libs & sys' & T' & S' & To & D & C & R & Sy' & M).
    destruct To as [(d & fs & E & _)|(E1 & E2 & E3 & E4 & E5)]; [discriminate|]. cbn in E1, E2, E4, E5. injection E2 as <-. injection E4 as <-. subst se. rewrite (U _ _ Sy' Sy) in *.
    unfold main_cli in M. apply bind_ok in M as (ld & L & M). apply bind_ok in M as (st & St & M). apply bind_ok in M as (u & Cc & M). apply bind_ok in M as (db & B & _).
    unfold simulator. assert (P : exists p, parse_cli dk (a None) = Ok p /\ pg_models p = models /\ pg_components p = components /\ pg_timeseries p = None).
    { exists {| pg_models := models; pg_components := components; pg_timeseries := None; pg_duration := T'; pg_scenarios := S' |}. split; [|auto].
      apply parse_told. cbn. split; [right; cbn; auto|auto]. }
    destruct P as (p & P & Pm & Pc & Pt). rewrite P. cbn [bind]. rewrite Pm, Pc, Pt.
    assert (L' : input_libs_files show order dk models = Ok ld) by (apply libs_files; eauto). rewrite L'. cbn [bind].
    destruct Sy as (t & Y & F). apply system_file_exact in F. unfold input_study, input_database. rewrite Y. cbn [bind]. rewrite F. cbn [bind]. rewrite St. cbn [bind]. rewrite Cc. cbn [bind].
    replace (build_data_base (fun name => load_ts_from_txt dk name None) sys) with (@Err database UnboundLocalErr); [reflexivity|]. symmetry.
    apply data_unbound; [|exact X]. intros q Q. destruct (kind_of_value q) as [N|(v & E)]; [now left|]. right. exists v. split; [exact E|].
    exact (data_numbers _ _ _ B q v Q E).
Qed.
Print Assumptions C74_no_series.
Example C74_no_series_example :
  simulator exl_show exm_order (exl_disk []) exl_bare = Err SeriesImportErr /\
  is_ok (simulator exl_show exm_order (exl_disk []) {| ar_study := None; ar_models := ar_models exl_bare; ar_component := ar_component exl_bare;
    ar_timeseries := Some "study/input/components/series"; ar_duration := None; ar_scenario := None |}) = true.
Proof. split; vm_compute; reflexivity. Qed.

(** a duration below 1 is taken for 0 and accepted: whatever the constraints, none is in the problem; so is a negative number of scenarios *)
Definition with_duration (T : Z) (a : arguments) : arguments :=
  {| ar_study := ar_study a; ar_models := ar_models a; ar_component := ar_component a; ar_timeseries := ar_timeseries a; ar_duration := Some T; ar_scenario := ar_scenario a |}.
Definition with_scenarios (S : Z) (a : arguments) : arguments :=
  {| ar_study := ar_study a; ar_models := ar_models a; ar_component := ar_component a; ar_timeseries := ar_timeseries a; ar_duration := ar_duration a; ar_scenario := Some S |}.
Theorem C74_duration_refuted :
  (forall show order dk a T, (T <= 0)%Z -> simulator show order dk (with_duration T a) = simulator show order dk (with_duration 0 a)) /\
  (exists show order dk a, (exists rows vars, exl_size (simulator show order dk a) = Some (S rows, vars)) /\
     (exists vars, exl_size (simulator show order dk (with_duration (-3) a)) = Some (0%nat, vars)) /\
     (exists vars, exl_size (simulator show order dk (with_scenarios (-1) a)) = Some (0%nat, vars))).
Proof.
  split.
  - intros show order dk a T H.
    assert (Z0 : forall n db S, main_settings n db T S = main_settings n db 0 S).
    { intros n db S. unfold main_settings. f_equal. unfold zrange. replace (Z.to_nat (T - 0)) with 0%nat by lia. reflexivity. }
    assert (P : exists f, (forall dk, parse_cli dk (with_duration T a) = (p <- parse_cli dk (with_duration 0 a) ;; Ok (f p))) /\
              forall p, pg_models (f p) = pg_models p /\ pg_components (f p) = pg_components p /\ pg_timeseries (f p) = pg_timeseries p /\ pg_duration (f p) = T /\ pg_scenarios (f p) = pg_scenarios p).
    { exists (fun p => {| pg_models := pg_models p; pg_components := pg_components p; pg_timeseries := pg_timeseries p; pg_duration := T; pg_scenarios := pg_scenarios p |}).
      split; [|auto]. intros d. unfold parse_cli, with_duration. destruct a as [[s|] m c t du sc]; cbn [ar_study ar_models ar_component ar_timeseries ar_duration ar_scenario].
      - destruct (_ || _ || _)%bool; [reflexivity|]. destruct (dk_list _ _); reflexivity.
      - destruct m as [[|]|]; [reflexivity| |reflexivity]. destruct c; reflexivity. }
    destruct P as (f & P & F). unfold simulator. rewrite P.
    destruct (parse_cli dk (with_duration 0 a)) as [p|e] eqn:E; [|reflexivity]. cbn [bind]. destruct (F p) as (-> & -> & -> & -> & ->).
    assert (D0 : pg_duration p = 0%Z).
    { unfold parse_cli, with_duration in E. destruct a as [[s|] m c t du sc]; cbn [ar_study ar_models ar_component ar_timeseries ar_duration ar_scenario] in E.
      - destruct (_ || _ || _)%bool; [discriminate|]. apply bind_ok in E as (l & _ & E). injection E as <-. reflexivity.
      - destruct m as [[|]|]; try discriminate. destruct c; [|discriminate]. injection E as <-. reflexivity. }
    rewrite D0. destruct (input_libs_files show order dk (pg_models p)); [|reflexivity]. cbn [bind].
    destruct (input_study dk (pg_components p) _); [|reflexivity]. cbn [bind]. destruct (consistency_check _ _); [|reflexivity]. cbn [bind].
    destruct (match input_database dk (pg_components p) (pg_timeseries p) with Err UnboundLocalErr => Err SeriesImportErr | r => r end); [|reflexivity]. cbn [bind].
    destruct (build_network _); [|reflexivity]. cbn [bind]. now rewrite Z0.
  - exists exl_show, exm_order, (exl_disk ["a.yml"; "b.yml"]), exl_arguments. split; [exists 7%nat, 5%nat; vm_compute; reflexivity|].
    split; exists 1%nat; vm_compute; reflexivity.
Qed.
Print Assumptions C74_duration_refuted.

(** the hint about --duration and --scenario is only given for some series: a duration beyond one that does not depend on the scenario
    ends in a KeyError, and no scenarios at all in a ZeroDivisionError *)
Theorem C74_hint_refuted : exists show order dk a, is_ok (simulator show order dk a) = true /\
  simulator show order dk (with_duration 3 a) = Err KeyError /\ simulator show order dk (with_scenarios 0 a) = Err ZeroDivisionError /\
  simulator show order dk (with_scenarios 3 a) = Err IndexError.
Proof. exists exl_show, exm_order, (exl_disk ["a.yml"; "b.yml"]), exl_arguments. repeat split; vm_compute; reflexivity. Qed.
Print Assumptions C74_hint_refuted.

(** ** C75 *)
(** a machine with the study of C62 in the directory study, a directory out, and the configuration of the package *)
Definition exl_config : config := {| cf_defaults := []; cf_sections := [("study", [("study_path", ""); ("output_path", ""); ("logger_path", "")])] |}.
Definition exl_machine : machine := {|
  md_kind := fun p => if existsb (String.eqb p) ["study"; "out"; "/home"; "/home/study"; "st%udy"; "."] then Some ADirectory else if String.eqb p "data/config.ini" then Some AFile else None;
  md_resolve := fun p => if String.eqb p "." then "/home" else ("/home/" ++ p)%string; md_parent := fun _ => "/home";
  md_config := fun p => Ok exl_config;
  md_study := fun p => if existsb (String.eqb p) ["/home/study"; "/home"; "/home/st%udy"] then Ok exa_study else Err FileNotFoundErr;
  md_touch := fun _ => true |}.
Definition exl_options (study output : option string) : converter_options := {| cv_conf := None; cv_logging := Some "conversion.txt"; cv_study := study; cv_output := output |}.
Definition exl_written (r : result effects) : result string := e <- r ;; Ok (ef_path e).

(** the directory given with -i is converted, whatever the configuration says, and its output.yaml then says the system of its study *)
Theorem C75_input : forall m package a s e, cv_study a = Some s -> plain s -> (forall o, cv_output a = Some o -> exists o', o = doubled o') ->
  converter m package a = Ok e ->
  md_kind m s = Some ADirectory /\ ef_path e = (md_resolve m (as_path s) ++ "/output.yaml")%string /\
  exists study sys, md_study m (md_resolve m (as_path s)) = Ok study /\ convert_antares [] None study = Ok (sys, ef_series e) /\
    parse_yaml_components (ef_content e) = Ok sys.
Proof.
  intros m package a s e I P O H.
  rewrite (converter_text m package a s s I (plain_accepted s P) (fun lookup => interpolate_plain 9 lookup _ s (le_n _) P) (fun o H => match O o H with ex_intro _ o' E => eq_ind_r accepted (doubled_accepted o') E end)) in H.
  apply bind_ok in H as (p & Po & H). apply bind_ok in H as (c & C & H). apply finish_ok in H as (sys & st & K & St & Cv & E1 & E2 & E3 & E4). split.
  - unfold options_read in Po. apply bind_ok in Po as (q & Q & _). unfold parse_commandline in Q. apply bind_ok in Q as (c1 & C1 & Q). apply bind_ok in Q as (l & L & Q).
    rewrite I in Q. apply bind_ok in Q as (s1 & S1 & Q). unfold path_type in S1. cbn in S1. destruct (md_kind m s) as [[|]|]; try discriminate. reflexivity.
  - split; [exact E2|]. exists st, sys. split; [exact St|]. split; [exact Cv|]. rewrite E1, system_back. f_equal. apply converter_no_groups. exact (antares_no_groups _ _ _ _ _ _ Cv).
Qed.
Print Assumptions C75_input.
Example C75_input_example : exl_written (converter exl_machine "package" (exl_options (Some "study") None)) = Ok "/home/study/output.yaml" /\ plain "study".
Proof. split; [vm_compute; reflexivity|]. unfold plain. cbn. intros H. repeat (destruct H as [H|H]; [discriminate|]). exact H. Qed.

(** conversely, when the options are accepted and the study can be read and converted, it is *)
Theorem C75_accepted : forall m package a s conf log made c k study sys series, cv_study a = Some s -> plain s -> (forall o, cv_output a = Some o -> exists o', o = doubled o') ->
  options_read m package a = Ok (conf, log, made) -> md_config m conf = Ok c -> md_kind m (as_path s) = Some k ->
  md_study m (md_resolve m (as_path s)) = Ok study -> convert_antares [] None study = Ok (sys, series) ->
  exists e, converter m package a = Ok e /\ ef_series e = series /\ ef_made e = made.
Proof.
  intros m package a s conf log made c k study sys series I P O Po C K St Cv.
  rewrite (converter_text m package a s s I (plain_accepted s P) (fun lookup => interpolate_plain 9 lookup _ s (le_n _) P) (fun o H => match O o H with ex_intro _ o' E => eq_ind_r accepted (doubled_accepted o') E end)).
  rewrite Po. cbn [bind fst snd]. rewrite C. cbn [bind].
  exists {| ef_made := made; ef_log := log_file log; ef_path := (md_resolve m (as_path s) ++ "/output.yaml")%string; ef_content := transform_to_yaml (converter_args sys); ef_series := series |}.
  split; [|auto]. apply finish_ok. cbn. exists sys, study. repeat split; eauto.
Qed.
Print Assumptions C75_accepted.
Example C75_accepted_example : options_read exl_machine "package" (exl_options (Some "study") None) = Ok ("data/config.ini", "/home/conversion.txt", ["/home/conversion.txt"]) /\
  md_study exl_machine (md_resolve exl_machine (as_path "study")) = Ok exa_study /\ is_ok (convert_antares [] None exa_study) = true.
Proof. split; [reflexivity|]. split; [reflexivity|vm_compute; reflexivity]. Qed.

(** without -i, the directory that the configuration says, and only when it says one: two percent signs stand for one, and the name of another
    option for what it says *)
Theorem C75_configured : forall m package a conf log made c e, cv_study a = None -> (forall o, cv_output a = Some o -> exists o', o = doubled o') ->
  options_read m package a = Ok (conf, log, made) -> md_config m conf = Ok c ->
  (converter m package a = Ok e <->
   exists s v study sys k, option_value c (cv_output a) "study_path" = Some s /\ says (option_value c (cv_output a)) 9 s v /\
     md_kind m (as_path v) = Some k /\ md_study m (md_resolve m (as_path v)) = Ok study /\ convert_antares [] None study = Ok (sys, ef_series e) /\
     ef_path e = (md_resolve m (as_path v) ++ "/output.yaml")%string /\ ef_content e = transform_to_yaml (converter_args sys) /\
     ef_made e = made /\ ef_log e = log_file log).
Proof.
  intros m package a conf log made c e I O P C.
  assert (A : forall o, cv_output a = Some o -> accepted o) by (intros o Q; destruct (O o Q) as (o' & ->); apply doubled_accepted). split.
  - intros H. destruct (converter_said m package a conf log made c e I A P C H) as (s & v & R & S & F).
    apply finish_ok in F as (sys & st & (k & K) & St & Cv & E1 & E2 & E3 & E4). exists s, v, st, sys, k. auto 10.
  - intros (s & v & st & sys & k & R & S & K & St & Cv & E1 & E2 & E3 & E4).
    rewrite (converter_says m package a conf log made c s v I A P C R S). apply finish_ok. exists sys, st. split; [eauto|]. auto 10.
Qed.
Print Assumptions C75_configured.
Definition exl_configured : machine := {|
  md_kind := md_kind exl_machine; md_resolve := md_resolve exl_machine; md_parent := md_parent exl_machine; md_study := md_study exl_machine; md_touch := md_touch exl_machine;
  md_config := fun p => Ok {| cf_defaults := []; cf_sections := [("study", [("study_path", "study")])] |} |}.
Example C75_configured_example : exl_written (converter exl_configured "package" (exl_options None None)) = Ok "/home/study/output.yaml" /\
  exl_written (converter exl_configured "package" (exl_options None (Some "out"))) = Ok "/home/study/output.yaml".
Proof. split; vm_compute; reflexivity. Qed.

(** a value that goes through another option, and a percent sign written twice *)
Definition exl_through : machine := {|
  md_kind := md_kind exl_machine; md_resolve := md_resolve exl_machine; md_parent := md_parent exl_machine; md_study := md_study exl_machine; md_touch := md_touch exl_machine;
  md_config := fun p => Ok {| cf_defaults := [("sign", "t%%u")]; cf_sections := [("study", [("study_path", "s%(SIGN)sdy")])] |} |}.
Example C75_configured_through : exl_written (converter exl_through "package" (exl_options None None)) = Ok "/home/st%udy/output.yaml".
Proof. vm_compute. reflexivity. Qed.

(** the output directory of -o is checked and then not used *)
Theorem C75_output_refuted :
  (forall m package conf log s o, plain s -> plain o -> md_kind m o = Some ADirectory ->
     converter m package {| cv_conf := conf; cv_logging := log; cv_study := Some s; cv_output := Some o |} =
     converter m package {| cv_conf := conf; cv_logging := log; cv_study := Some s; cv_output := None |}) /\
  exl_written (converter exl_machine "package" (exl_options (Some "study") (Some "out"))) = Ok "/home/study/output.yaml".
Proof.
  split; [|vm_compute; reflexivity]. intros m package conf log s o P Po K.
  rewrite (converter_text m package {| cv_conf := conf; cv_logging := log; cv_study := Some s; cv_output := Some o |} s s eq_refl (plain_accepted s P)
    (fun lookup => interpolate_plain 9 lookup _ s (le_n _) P)).
  rewrite (converter_text m package {| cv_conf := conf; cv_logging := log; cv_study := Some s; cv_output := None |} s s eq_refl (plain_accepted s P)
    (fun lookup => interpolate_plain 9 lookup _ s (le_n _) P)).
  - replace (options_read m package {| cv_conf := conf; cv_logging := log; cv_study := Some s; cv_output := Some o |}) with
      (options_read m package {| cv_conf := conf; cv_logging := log; cv_study := Some s; cv_output := None |}); [reflexivity|].
    unfold options_read, parse_commandline. cbn [cv_conf cv_logging cv_study cv_output]. destruct (path_type _ _ _ m _) as [c|]; [|reflexivity]. cbn [bind].
    destruct (create_file_if_missing m _) as [l|]; [|reflexivity]. cbn [bind]. destruct (path_type true false true m s) as [s'|]; [|reflexivity]. cbn [bind].
    unfold path_type. cbn. rewrite K. reflexivity.
  - intros o' H. discriminate.
  - cbn. intros o' [= <-]. now apply plain_accepted.
Qed.
Print Assumptions C75_output_refuted.

(** a path with a percent sign is refused, and one with each of them twice taken for another *)
Definition exl_twice : machine := {|
  md_kind := fun p => if String.eqb p "st%%udy" then Some ADirectory else md_kind exl_machine p; md_resolve := md_resolve exl_machine; md_parent := md_parent exl_machine;
  md_study := md_study exl_machine; md_touch := md_touch exl_machine; md_config := md_config exl_machine |}.
Theorem C75_percent_refuted :
  (forall m package a s1 s2, plain s1 -> plain s2 -> (forall r, s2 <> String "(" r) -> cv_study a = Some (s1 ++ String "%" s2)%string ->
     forall e, converter m package a <> Ok e) /\
  (exl_written (converter exl_machine "package" (exl_options (Some "st%udy") None)) = Err ValueError /\ md_kind exl_machine "st%udy" = Some ADirectory) /\
  (forall m package a s e, cv_study a = Some (doubled s) -> (forall o, cv_output a = Some o -> exists o', o = doubled o') -> s <> "" ->
     converter m package a = Ok e -> ef_path e = (md_resolve m s ++ "/output.yaml")%string) /\
  (exl_written (converter exl_twice "package" (exl_options (Some "st%%udy") None)) = Ok "/home/st%udy/output.yaml").
Proof.
  split; [|split].
  - intros m package a s1 s2 P1 P2 N I e H. unfold converter in H. apply bind_ok in H as ([[[[conf log] study] output] made] & Pa & H).
    destruct (parsed_options _ _ _ _ _ _ _ _ Pa) as [-> ->]. apply bind_ok in H as (c & C & H). rewrite I in H. cbn beta zeta iota in H.
    rewrite (stray_refused "study" "study_path" s1 s2 _ P1 P2 N) in H. discriminate.
  - split; vm_compute; reflexivity.
  - split; [|vm_compute; reflexivity]. intros m package a s e I O N H.
    rewrite (converter_text m package a _ s I (doubled_accepted s) (fun lookup => doubled_interpolate lookup s)) in H.
    + apply bind_ok in H as (p & _ & H). apply bind_ok in H as (c & _ & H). apply finish_ok in H as (sys & st & K & St & Cv & E1 & E2 & E3 & E4).
      rewrite E2. destruct s; [congruence|reflexivity].
    + intros o Q. destruct (O o Q) as (o' & ->). apply doubled_accepted.
Qed.
Print Assumptions C75_percent_refuted.

(** without -c the file data/config.ini must be there, although -i says everything; an empty study_path stands for the current directory *)
Theorem C75_configuration_refuted :
  (forall m package a, cv_conf a = None -> md_kind m "data/config.ini" <> Some AFile -> converter m package a = Err SystemExit) /\
  (exl_written (converter exl_machine "package" (exl_options None None)) = Ok "/home/output.yaml").
Proof.
  split; [|vm_compute; reflexivity]. intros m package a C K. unfold converter, parse_commandline. rewrite C. unfold path_type. cbn.
  destruct (md_kind m "data/config.ini") as [[|]|]; [contradiction|reflexivity|reflexivity].
Qed.
Print Assumptions C75_configuration_refuted.

(** the file given for the log is made, but the log goes to another one unless its name ends with .log *)
Theorem C75_log_refuted :
  (forall m package a l e, cv_logging a = Some l -> (forall r, md_resolve m l <> (r ++ ".log")%string) -> converter m package a = Ok e ->
     ef_log e = (md_resolve m l ++ ".log")%string) /\
  exists e, converter exl_machine "package" (exl_options (Some "study") None) = Ok e /\
  ef_made e = ["/home/conversion.txt"] /\ ef_log e = "/home/conversion.txt.log".
Proof.
  split.
  { intros m package a l e L N H. destruct (converter_log m package a e H) as (log & Lg & ->). rewrite L in Lg.
    assert (log = md_resolve m l) as ->.
    { unfold create_file_if_missing in Lg. destruct Lg as (made & Lg). destruct (md_kind m (md_resolve m l)) as [[|]|]; try discriminate;
        destruct (md_kind m (md_parent m (md_resolve m l))); try discriminate; [|destruct (md_touch m _); [|discriminate]]; congruence. }
    apply log_file_other. exact N. }
  destruct (converter exl_machine "package" (exl_options (Some "study") None)) as [e|] eqn:E; [|vm_compute in E; discriminate]. exists e. split; [reflexivity|].
  assert (X : match converter exl_machine "package" (exl_options (Some "study") None) with
    | Ok e => (if list_eq_dec string_dec (ef_made e) ["/home/conversion.txt"] then true else false) && String.eqb (ef_log e) "/home/conversion.txt.log"
    | Err _ => false end = true) by (vm_compute; reflexivity).
  rewrite E in X. apply andb_true_iff in X as [X Y]. apply String.eqb_eq in Y. destruct (list_eq_dec _ _ _); [auto|discriminate].
Qed.
Print Assumptions C75_log_refuted.
