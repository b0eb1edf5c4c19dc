(** Facts about what configurations say and about the time series found on the disk. *)
From Coq Require Import Ascii Lia.
From Verif Require Import Base BaseFacts Library Study System Main Yaml SpecYaml YamlFacts Cli SpecCli CliFacts.
Local Open Scope string_scope.
Local Open Scope list_scope.

(** ** References *)
Lemma reference_exact s : forall name rest, reference s = Some (name, rest) <-> ~ In ")"%char (list_ascii_of_string name) /\ s = (name ++ ")s" ++ rest)%string.
Proof.
  induction s as [|c s IH]; intros name rest; cbn [reference].
  - split; [discriminate|]. intros [_ H]. destruct name; discriminate.
  - destruct (Ascii.eqb_spec c ")").
    + subst c. split.
      * destruct s as [|d s]; [discriminate|]. destruct (Ascii.eqb_spec d "s"); [|discriminate]. subst d. intros [= <- <-]. split; [intros []|reflexivity].
      * intros [N H]. destruct name as [|x name].
        -- injection H as ->. cbn. reflexivity.
        -- injection H as <- _. destruct N. now left.
    + split.
      * destruct (reference s) as [[n1 r1]|] eqn:R; [|discriminate]. intros [= <- <-]. destruct (proj1 (IH n1 r1) eq_refl) as [N ->]. split; [|reflexivity].
        cbn. intros [H|H]; [congruence|auto].
      * intros [N H]. destruct name as [|x name]; [injection H as H _; congruence|]. injection H as <- H.
        assert (R : reference s = Some (name, rest)) by (apply IH; split; [intros X; apply N; now right|exact H]). now rewrite R.
Qed.
Lemma reference_at_exact s name rest : reference_at s = Some (name, rest) <->
  name <> "" /\ ~ In ")"%char (list_ascii_of_string name) /\ s = ("%(" ++ name ++ ")s" ++ rest)%string.
Proof.
  destruct s as [|c1 [|c2 s]]; cbn [reference_at].
  - split; [discriminate|]. intros (_ & _ & H). discriminate.
  - split; [discriminate|]. intros (_ & _ & H). discriminate.
  - destruct (Ascii.eqb_spec c1 "%"), (Ascii.eqb_spec c2 "("); cbn [andb]; try (split; [discriminate|intros (_ & _ & H); injection H as -> -> _; congruence]).
    subst c1 c2. split.
    + destruct (reference s) as [[[|x n1] r1]|] eqn:R; try discriminate. intros [= <- <-]. apply reference_exact in R as [N ->]. split; [discriminate|]. split; [exact N|reflexivity].
    + intros (E & N & H). injection H as H. assert (R : reference s = Some (name, rest)) by (apply reference_exact; auto). rewrite R. destruct name; [congruence|reflexivity].
Qed.
Lemma percent_plain s : has_percent s = false <-> plain s.
Proof.
  split; [|apply plain_percent]. induction s as [|c s IH]; [intros _ []|]. cbn. destruct (Ascii.eqb_spec c "%"); [discriminate|]. cbn [orb]. intros H. apply plain_cons. auto.
Qed.

Definition nested (depth : nat) (lookup : string -> option string) (raw : string) : result string :=
  if has_percent raw then match depth with S depth => interpolate depth lookup (String.length raw) raw | O => Err GenericException end else Ok raw.
Lemma interpolate_step depth lookup n c s : interpolate depth lookup (S n) (String c s) =
  if Ascii.eqb c "%" then
    match reference_at (String c s) with
    | Some (name, rest) =>
        match lookup (lower name) with
        | Some raw => v <- nested depth lookup raw ;; r <- interpolate depth lookup n rest ;; Ok (v ++ r)%string
        | None => Err GenericException
        end
    | None => match s with
              | String d s'' => if Ascii.eqb d "%" then r <- interpolate depth lookup n s'' ;; Ok (String "%" r) else Err GenericException
              | EmptyString => Err GenericException
              end
    end
  else r <- interpolate depth lookup n s ;; Ok (String c r).
Proof.
  destruct depth; cbn [interpolate]; (destruct (Ascii.eqb c "%"); [|reflexivity]);
    destruct (reference_at (String c s)) as [[name rest]|]; destruct s as [|d s]; reflexivity.
Qed.

Lemma interpolate_says lookup depth : forall n s v, (String.length s <= n)%nat -> (interpolate depth lookup n s = Ok v <-> says lookup depth s v).
Proof.
  induction depth as [depth IHd] using lt_wf_ind. induction n as [n IH] using lt_wf_ind. intros s v L.
  destruct s as [|c s].
  - destruct n, depth; cbn; (split; [intros [= <-]; constructor|intros H; inversion H; reflexivity]).
  - destruct n as [|n]; [cbn in L; lia|]. rewrite interpolate_step. cbn [String.length] in L. destruct (Ascii.eqb_spec c "%").
    + subst c. destruct (reference_at (String "%" s)) as [[name rest]|] eqn:R.
      * pose proof R as R0. apply reference_at_exact in R as (N1 & N2 & E).
        assert (Lr : (String.length rest <= n)%nat) by (injection E as E; subst s; cbn [String.length append] in L; rewrite length_app_text in L; cbn in L; lia).
        rewrite E. split.
        -- destruct (lookup (lower name)) as [raw|] eqn:Lk; [|discriminate]. intros H. apply bind_ok in H as (w & W & H). apply bind_ok in H as (r & Rr & H). injection H as <-.
           apply IH in Rr; [|lia|exact Lr]. unfold nested in W. destruct (has_percent raw) eqn:P.
           ++ destruct depth as [|d]; [discriminate|]. apply IHd in W; [|lia|lia]. now apply says_option with raw.
           ++ injection W as <-. apply percent_plain in P. now apply says_plain_option.
        -- intros H. rewrite <- E in H. clear E. inversion H as [|? c ? ? C ? E2|? s1 v1 Hs E2|? name' w s1 v1 M1 M2 Lk P Hs E2|d name' raw w s1 v1 M1 M2 Lk Hw Hs E2]; subst.
           ++ congruence.
           ++ cbn in R0. discriminate.
           ++ assert (R1 : reference_at (String "%" (String "(" (name' ++ String ")" (String "s" s1)))) = Some (name', s1)) by (apply reference_at_exact; auto).
              cbn [append] in R0. rewrite R0 in R1. injection R1 as -> ->. rewrite Lk. unfold nested. rewrite (proj2 (percent_plain w) P). cbn [bind].
              apply (IH n) in Hs; [|lia|exact Lr]. now rewrite Hs.
           ++ assert (R1 : reference_at (String "%" (String "(" (name' ++ String ")" (String "s" s1)))) = Some (name', s1)) by (apply reference_at_exact; auto).
              cbn [append] in R0. rewrite R0 in R1. injection R1 as -> ->. rewrite Lk. apply (IH n) in Hs; [|lia|exact Lr]. rewrite Hs.
              assert (W : nested (S d) lookup raw = Ok w).
              { unfold nested. apply (IHd d ltac:(lia) (String.length raw)) in Hw; [|lia]. destruct (has_percent raw) eqn:P; [exact Hw|].
                apply percent_plain in P. rewrite (interpolate_plain d lookup _ raw (le_n _) P) in Hw. exact Hw. }
              rewrite W. reflexivity.
      * split.
        -- destruct s as [|d s]; [discriminate|]. destruct (Ascii.eqb_spec d "%"); [|discriminate]. subst d. cbn [String.length] in L.
           intros H. apply bind_ok in H as (r & Rr & H). injection H as <-. apply IH in Rr; [|lia|lia]. now constructor.
        -- intros H. inversion H as [|? c ? ? C ? E2|? s1 v1 Hs E2|? name' w s1 v1 M1 M2 Lk P Hs E2|d name' raw w s1 v1 M1 M2 Lk Hw Hs E2]; subst.
           ++ congruence.
           ++ cbn [String.length] in L. rewrite (Ascii.eqb_refl "%"). apply (IH n) in Hs; [|lia|lia]. now rewrite Hs.
           ++ assert (R1 : reference_at (String "%" (String "(" (name' ++ String ")" (String "s" s1)))) = Some (name', s1)) by (apply reference_at_exact; auto).
              cbn [append] in R. congruence.
           ++ assert (R1 : reference_at (String "%" (String "(" (name' ++ String ")" (String "s" s1)))) = Some (name', s1)) by (apply reference_at_exact; auto).
              cbn [append] in R. congruence.
    + split.
      * intros H. apply bind_ok in H as (r & Rr & H). injection H as <-. apply IH in Rr; [|lia|lia]. now constructor.
      * intros H. inversion H as [|? c' ? ? C Hs E2|? s1 v1 Hs E2|? name' w s1 v1 M1 M2 Lk P Hs E2|d name' raw w s1 v1 M1 M2 Lk Hw Hs E2]; subst; try congruence.
        apply (IH n) in Hs; [|lia|lia]. now rewrite Hs.
Qed.

(** ** Percent signs written twice *)
Lemma plain_doubled s : plain s -> doubled s = s.
Proof.
  induction s as [|c s IH]; [reflexivity|]. intros P. apply plain_cons in P as [C P]. cbn. apply Ascii.eqb_neq in C. rewrite C. now rewrite IH.
Qed.
Lemma doubled_says lookup depth s : says lookup depth (doubled s) s.
Proof.
  induction s as [|c s IH]; [constructor|]. cbn [doubled]. destruct (Ascii.eqb_spec c "%"); [subst c|]; now constructor.
Qed.
Lemma doubled_escapes s : plain (without_escapes (doubled s)).
Proof.
  induction s as [|c s IH]; [intros []|]. cbn [doubled]. destruct (Ascii.eqb_spec c "%"); [exact IH|].
  cbn [without_escapes]. destruct (doubled s) as [|d r] eqn:E.
  - apply plain_cons. split; [exact n|intros []].
  - apply Ascii.eqb_neq in n as n'. rewrite n'. cbn [andb]. apply plain_cons. auto.
Qed.
Lemma doubled_accepted s : accepted (doubled s).
Proof. unfold accepted. pose proof (doubled_escapes s) as P. rewrite (plain_references _ _ P). now apply plain_percent. Qed.
Lemma doubled_interpolate lookup s : interpolate 9 lookup (String.length (doubled s)) (doubled s) = Ok s.
Proof. apply interpolate_says; [lia|apply doubled_says]. Qed.

(** ** Time series *)
Lemma series_of_disk dk directory : series_found dk directory (fun name => load_ts_from_txt dk name directory).
Proof.
  intros name f. unfold load_ts_from_txt, join. destruct directory as [d|].
  - assert (E : (d ++ "/" ++ name ++ ".txt")%string = ((d ++ "/") ++ name ++ ".txt")%string) by now rewrite app_assoc_text.
    split.
    + intros H. exists d. split; [reflexivity|]. cbn in *. destruct (dk_table dk _) as [g|[]] eqn:T; try discriminate; exact H.
    + intros (d' & [= <-] & H). cbn in *. now rewrite H.
  - split; [discriminate|]. intros (d & H & _). discriminate.
Qed.
Lemma build_data_mono f g t s v sc d : (forall name x, f name = Ok x -> g name = Ok x) -> build_data f t s v sc = Ok d -> build_data g t s v sc = Ok d.
Proof.
  intros M. destruct v as [v|name]; cbn; [auto|]. destruct (f name) as [x|] eqn:F; [|discriminate]. now rewrite (M _ _ F).
Qed.
Lemma foldM_mono {A B} (h k : A -> B -> result A) l : (forall a b a', h a b = Ok a' -> k a b = Ok a') -> forall a a', foldM h a l = Ok a' -> foldM k a l = Ok a'.
Proof.
  intros M. induction l as [|b l IH]; intros a a'; cbn; [auto|]. destruct (h a b) as [a1|] eqn:H; [|discriminate]. rewrite (M _ _ _ H). cbn. apply IH.
Qed.
Lemma data_base_mono f g i db : (forall name x, f name = Ok x -> g name = Ok x) -> build_data_base f i = Ok db -> build_data_base g i = Ok db.
Proof.
  intros M. unfold build_data_base. apply foldM_mono. intros d c d'. apply foldM_mono. intros x p x' H. apply bind_ok in H as (v & V & H).
  rewrite (build_data_mono _ _ _ _ _ _ _ M V). exact H.
Qed.
Lemma main_cli_mono order libs sys f g T S r : (forall name x, f name = Ok x -> g name = Ok x) ->
  main_cli order libs sys f T S = Ok r -> main_cli order libs sys g T S = Ok r.
Proof.
  intros M. unfold main_cli. destruct (input_libs order libs) as [ld|]; [|discriminate]. cbn [bind]. destruct (resolve_system sys ld) as [st|]; [|discriminate]. cbn [bind].
  destruct (consistency_check _ _); [|discriminate]. cbn [bind]. destruct (build_data_base f sys) as [db|] eqn:B; [|discriminate]. now rewrite (data_base_mono _ _ _ _ M B).
Qed.
Lemma simulator_tables show order dk a r : simulator show order dk a = Ok r <->
  exists models components series libs sys T S tables,
    told dk a models components series /\ chosen (ar_duration a) T /\ chosen (ar_scenario a) S /\
    libraries_read show dk models libs /\ system_read dk components sys /\ series_found dk series tables /\
    main_cli order libs sys tables T S = Ok r.
Proof.
  rewrite simulator_run. split.
  - intros (models & components & series & libs & sys & T & S & To & D & C & L & Sy & M). exists models, components, series, libs, sys, T, S, (fun name => load_ts_from_txt dk name series).
    pose proof (series_of_disk dk series). auto 10.
  - intros (models & components & series & libs & sys & T & S & tables & To & D & C & L & Sy & F & M). exists models, components, series, libs, sys, T, S.
    repeat (split; [assumption|]). revert M. apply main_cli_mono. intros name x X. apply F in X. now apply series_of_disk.
Qed.
(** every series named by the system is found *)
Lemma data_base_series f i db : build_data_base f i = Ok db -> forall p name, In p (parameters_given i) -> ip_value p = inr name -> exists x, f name = Ok x.
Proof.
  unfold build_data_base, parameters_given. generalize (is_components i ++ is_nodes i) as l. intros l.
  assert (S : forall c ps db db1, foldM (data_step f c) db ps = Ok db1 -> forall p name, In p ps -> ip_value p = inr name -> exists x, f name = Ok x).
  { intros c ps. induction ps as [|q ps IH]; intros db0 db1 H p name P E; [destruct P|]. cbn [foldM] in H. apply bind_ok in H as (db2 & D & H). destruct P as [->|P].
    - unfold data_step in D. rewrite E in D. cbn in D. destruct (f name) as [x|]; [eauto|discriminate].
    - exact (IH _ _ H p name P E). }
  assert (G : forall l db0 db1, foldM (fun db c => foldM (data_step f c) db (parameters_of c)) db0 l = Ok db1 ->
            forall p name, In p (flat_map (fun c => match ic_parameters c with Some l => l | None => [] end) l) -> ip_value p = inr name -> exists x, f name = Ok x).
  { clear l. induction l as [|c l IH]; intros db0 db1 H p name P E; [destruct P|]. cbn [foldM] in H. apply bind_ok in H as (db2 & D & H).
    cbn [flat_map] in P. apply in_app_or in P as [P|P]; [exact (S c _ _ _ D p name P E)|exact (IH _ _ H p name P E)]. }
  intros H. exact (G l _ _ H).
Qed.

(** ** The directory of the configuration *)
Lemma says_ext f g : (forall x, f x = g x) -> forall depth s v, says f depth s v -> says g depth s v.
Proof.
  intros E. induction 1; [constructor|now constructor|now constructor|apply says_plain_option; auto; now rewrite <- E|apply says_option with raw; auto; now rewrite <- E].
Qed.
Lemma converter_says m package a conf log made c s v : cv_study a = None -> (forall o, cv_output a = Some o -> accepted o) ->
  options_read m package a = Ok (conf, log, made) -> md_config m conf = Ok c ->
  option_value c (cv_output a) "study_path" = Some s -> says (option_value c (cv_output a)) 9 s v -> converter m package a = finish m v log made.
Proof.
  intros I O P C R S. unfold converter, options_read in *.
  destruct (parse_commandline m package a) as [[[[[conf' log'] study] output] made']|e] eqn:E; [|discriminate]. cbn [bind] in P |- *. injection P as -> -> ->.
  destruct (parsed_options _ _ _ _ _ _ _ _ E) as [-> ->]. rewrite I, C. cbn [bind]. fold (with_study c).
  assert (G : forall c', (forall key, config_raw c' "study" key = option_value c (cv_output a) key) ->
     (path <- config_get c' "study" "study_path" ;;
      match path with
      | Some path => r <- convert_path m (as_path path) None None ;; let '(where_to, content, series) := r in
          Ok {| ef_made := made; ef_log := log_file log; ef_path := where_to; ef_content := content; ef_series := series |}
      | None => Err TypeError
      end) = finish m v log made).
  { intros c' Q. unfold config_get. rewrite Q, R.
    assert (V : interpolate 9 (config_raw c' "study") (String.length s) s = Ok v).
    { apply interpolate_says; [lia|]. revert S. apply says_ext. intros x. now rewrite Q. }
    rewrite V. cbn [bind]. unfold finish. destruct (convert_path m (as_path v) None None) as [[[w ct] sr]|e]; reflexivity. }
  destruct (cv_output a) as [o|] eqn:Out.
  - destruct (with_study_section c) as (sec & Sec). rewrite (config_set_accepted "study" "output_path" o _ _ (O o eq_refl) Sec). cbn [bind]. apply G.
    intros key. rewrite (raw_set _ _ _ _ _ Sec), with_study_raw. unfold option_value. destruct (String.eqb key "output_path"); reflexivity.
  - cbn [bind]. apply G. intros key. rewrite with_study_raw. reflexivity.
Qed.
Lemma converter_said m package a conf log made c e : cv_study a = None -> (forall o, cv_output a = Some o -> accepted o) ->
  options_read m package a = Ok (conf, log, made) -> md_config m conf = Ok c -> converter m package a = Ok e ->
  exists s v, option_value c (cv_output a) "study_path" = Some s /\ says (option_value c (cv_output a)) 9 s v /\ finish m v log made = Ok e.
Proof.
  intros I O P C H.
  assert (K : exists s v, option_value c (cv_output a) "study_path" = Some s /\ says (option_value c (cv_output a)) 9 s v).
  { unfold converter, options_read in *.
    destruct (parse_commandline m package a) as [[[[[conf' log'] study] output] made']|e'] eqn:E; [|discriminate]. cbn [bind] in P, H. injection P as -> -> ->.
    destruct (parsed_options _ _ _ _ _ _ _ _ E) as [-> ->]. rewrite I, C in H. cbn [bind] in H. fold (with_study c) in H.
    assert (G : forall c', (forall key, config_raw c' "study" key = option_value c (cv_output a) key) -> (exists p, config_get c' "study" "study_path" = Ok (Some p)) ->
       exists s v, option_value c (cv_output a) "study_path" = Some s /\ says (option_value c (cv_output a)) 9 s v).
    { intros c' Q (p & G). unfold config_get in G. destruct (config_raw c' "study" "study_path") as [s|] eqn:Rw; [|discriminate].
      apply bind_ok in G as (v & V & G). apply interpolate_says in V; [|lia]. exists s, v. split; [now rewrite <- Q|]. revert V. apply says_ext. exact Q. }
    destruct (cv_output a) as [o|] eqn:Out.
    - destruct (with_study_section c) as (sec & Sec). rewrite (config_set_accepted "study" "output_path" o _ _ (O o eq_refl) Sec) in H. cbn [bind] in H.
      apply bind_ok in H as ([p|] & Pp & H); [|discriminate]. eapply G; [|eauto].
      intros key. rewrite (raw_set _ _ _ _ _ Sec), with_study_raw. unfold option_value. destruct (String.eqb key "output_path"); reflexivity.
    - cbn [bind] in H. apply bind_ok in H as ([p|] & Pp & H); [|discriminate]. eapply G; [|eauto]. intros key. rewrite with_study_raw. reflexivity. }
  destruct K as (s & v & R & S). exists s, v. split; [exact R|]. split; [exact S|]. now rewrite <- (converter_says m package a conf log made c s v I O P C R S).
Qed.

Lemma simulator_series show order dk a r models components series sys p name : simulator show order dk a = Ok r ->
  told dk a models components series -> system_read dk components sys -> In p (parameters_given sys) -> ip_value p = inr name ->
  exists d f, series = Some d /\ dk_table dk (d ++ "/" ++ name ++ ".txt")%string = Ok f.
Proof.
  intros H To Sy P E. apply simulator_tables in H as (ms & cs & se & libs & sys' & T & S & tables & To' & D & C & R & Sy' & F & M).
  assert (X : cs = components /\ se = series).
  { destruct To as [(d & fs & A1 & A2 & A3 & A4 & A5 & A6 & A7 & s & A8 & A9)|(A1 & A2 & A3 & A4 & A5)],
      To' as [(d' & fs' & B1 & B2 & B3 & B4 & B5 & B6 & B7 & s' & B8 & B9)|(B1 & B2 & B3 & B4 & B5)]; try congruence; [|split; congruence].
    rewrite A1 in B1. injection B1 as <-. unfold under_directory in *. split; congruence. }
  destruct X as [-> ->]. assert (sys' = sys) as ->.
  { destruct Sy as (t & A & B), Sy' as (t' & A' & B'). assert (t = t') by congruence. subst t'. apply system_file_exact in B, B'. congruence. }
  unfold main_cli in M. apply bind_ok in M as (ld & _ & M). apply bind_ok in M as (st & _ & M). apply bind_ok in M as (u & _ & M). apply bind_ok in M as (db & B & _).
  destruct (data_base_series _ _ _ B p name P E) as (x & X). apply F in X as (d & -> & X). eauto.
Qed.
