(** Theorems about the contents of files: what is read (C72), and that what the converters write is read back (C73). *)
From Coq Require Import Ascii Permutation Lia.
From Verif Require Import Base BaseFacts Expr SpecExpr Parse SpecParse Print SpecPrint PrintFacts Model Study Strategy Optim System Library Main
  PropMain Pypsa Thermal Antares PropPypsa PropAntares Yaml SpecYaml YamlFacts YamlConvert.
Local Open Scope string_scope.
Local Open Scope list_scope.

(** ** Files of the examples *)
Definition exy_show (v : num) : string := "0.5".
(** a library in both spellings, with words for booleans, a number as a bound, and fields left out *)
Definition exy_library : tree := TDict [("library", TDict [
  ("description", TText "for the examples"); ("id", TText "types");
  ("port_types", TList [TDict [("id", TText "flow"); ("fields", TList [TDict [("id", TText "flow")]])]]);
  ("models", TList [TDict [
     ("id", TText "store"); ("parameters", TList [TDict [("id", TText "cost"); ("time-dependent", TText "Yes"); ("scenario_dependent", TInt 0)]]);
     ("variables", TList [TDict [("id", TText "p"); ("lower-bound", TInt (-5)); ("upper_bound", TFloat (Fin (Q2Qc (1 # 2))))]]);
     ("constraints", TList [TDict [("id", TText "c"); ("expression", TText "p"); ("upper-bound", TText "7")]])]])])].
Definition exy_read : in_library := {|
  yl_id := "types"; yl_dependencies := []; yl_port_types := [{| yt_id := "flow"; yt_fields := ["flow"] |}];
  yl_models := [{| ym_id := "store"; ym_parameters := [{| yp_id := "cost"; yp_time := true; yp_scenario := false |}];
    ym_variables := [{| yv_id := "p"; yv_time := true; yv_scenario := true; yv_lower := Some "-5"; yv_upper := Some "0.5"; yv_type := "continuous" |}];
    ym_ports := []; ym_definitions := []; ym_binding_constraints := [];
    ym_constraints := [{| yc_id := "c"; yc_expression := "p"; yc_lower := None; yc_upper := Some "7" |}]; ym_objective := None |}] |}.
Definition exy_system : tree := TDict [("system", TDict [
  ("nodes", TList [TDict [("id", TText "N"); ("model", TText "types.bus"); ("parameters", TNull)]]);
  ("components", TList [TDict [("id", TText "G"); ("model", TText "models.generator"); ("scenario_group", TText "wind");
     ("parameters", TList [TDict [("id", TText "cost"); ("value", TInt 30)];
                           TDict [("id", TText "p_max"); ("time-dependent", TBool true); ("value", TText "p_max")]])]]);
  ("connections", TList [TDict [("component1", TText "N"); ("port1", TText "port"); ("component2", TText "G"); ("port2", TText "port")]])])].
Definition exy_system_read : input_system := {|
  is_nodes := [{| ic_id := "N"; ic_model := "types.bus"; ic_group := None; ic_parameters := None |}];
  is_components := [{| ic_id := "G"; ic_model := "models.generator"; ic_group := Some "wind";
     ic_parameters := Some [exm_parameter "cost" false false (inl (nz 30)); exm_parameter "p_max" true false (inr "p_max")] |}];
  is_connections := [{| icn_component1 := "N"; icn_port1 := "port"; icn_component2 := "G"; icn_port2 := "port" |}] |}.

(** ** C72 *)
(** a library file is read as [l] exactly when it says [l]: no other keys, each in one spelling, values of the right kind,
    defaults for the fields left out *)
Theorem C72_library : forall show t l, parse_yaml_library show t = Ok l <-> library_file show t l.
Proof. exact library_file_exact. Qed.
Print Assumptions C72_library.
Example C72_library_example : parse_yaml_library exy_show exy_library = Ok exy_read.
Proof. vm_compute. reflexivity. Qed.

Theorem C72_system : forall t i, parse_yaml_components t = Ok i <-> system_file t i.
Proof. exact system_file_exact. Qed.
Print Assumptions C72_system.
Example C72_system_example : parse_yaml_components exy_system = Ok exy_system_read.
Proof. vm_compute. reflexivity. Qed.

(** every library is what some file says, and so is every system *)
Theorem C72_everything_can_be_written : (forall show l, exists t, parse_yaml_library show t = Ok l) /\ (forall i, exists t, parse_yaml_components t = Ok i).
Proof.
  split; [intros show l; exists (library_tree l); apply library_written|]. intros i.
  exists (transform_to_yaml {| sa_libraries := None;
    sa_nodes := Some (map (fun c => {| ca_id := ic_id c; ca_model := ic_model c; ca_group := Some (ic_group c); ca_parameters := Some (option_map (map (fun p =>
      {| pa_id := ip_id p; pa_time := Some (ip_time p); pa_scenario := Some (ip_scenario p); pa_value := ip_value p; pa_group := Some (ip_group p) |})) (ic_parameters c)) |}) (is_nodes i));
    sa_components := Some (map (fun c => {| ca_id := ic_id c; ca_model := ic_model c; ca_group := Some (ic_group c); ca_parameters := Some (option_map (map (fun p =>
      {| pa_id := ip_id p; pa_time := Some (ip_time p); pa_scenario := Some (ip_scenario p); pa_value := ip_value p; pa_group := Some (ip_group p) |})) (ic_parameters c)) |}) (is_components i));
    sa_connections := Some (is_connections i) |}).
  rewrite system_back. f_equal. destruct i as [n c k]. unfold new_system. cbn.
  assert (X : forall c : input_component, new_component {| ca_id := ic_id c; ca_model := ic_model c; ca_group := Some (ic_group c); ca_parameters := Some (option_map (map (fun p =>
      {| pa_id := ip_id p; pa_time := Some (ip_time p); pa_scenario := Some (ip_scenario p); pa_value := ip_value p; pa_group := Some (ip_group p) |})) (ic_parameters c)) |} = c).
  { intros [id m g [l|]]; unfold new_component; cbn; [|reflexivity]. do 2 f_equal. rewrite map_map. rewrite <- (map_id l) at 2. apply map_ext. intros []. reflexivity. }
  f_equal; rewrite map_map; [rewrite <- (map_id n) at 2|rewrite <- (map_id c) at 2]; apply map_ext; intros a; apply X.
Qed.
Print Assumptions C72_everything_can_be_written.

(** the order of the keys does not matter, at any depth *)
Theorem C72_key_order : forall show t t', same_tree t t' ->
  parse_yaml_library show t = parse_yaml_library show t' /\ parse_yaml_components t = parse_yaml_components t'.
Proof.
  intros show t t' S. split; [exact (top_respects "library" _ (library_respects show) t t' S)|exact (top_respects "system" _ system_respects t t' S)].
Qed.
Print Assumptions C72_key_order.
Example C72_key_order_example : same_tree
  (TDict [("system", TDict [("components", TList [TDict [("id", TText "a"); ("model", TText "m")]]); ("connections", TList [])])])
  (TDict [("system", TDict [("connections", TList []); ("components", TList [TDict [("model", TText "m"); ("id", TText "a")]])])]).
Proof.
  eapply st_dict; [repeat constructor; cbn; intuition discriminate|apply Permutation_refl|]. repeat constructor.
  cbn. eapply st_dict; [repeat constructor; cbn; intuition discriminate|apply perm_swap|].
  repeat constructor. cbn.
  eapply st_dict; [repeat constructor; cbn; intuition discriminate|apply perm_swap|]. repeat constructor.
Qed.

(** how files are refused: what is not a mapping, one without the entry, one whose entry does not suit *)
Theorem C72_refusals : forall show t e,
  (parse_yaml_library show t = Err e ->
   (e = TypeError /\ forall d, t <> TDict d) \/ (e = KeyError /\ exists d, t = TDict d /\ ~ In "library" (keys d)) \/
   (e = ValueError /\ exists d, t = TDict d /\ In "library" (keys d))) /\
  (parse_yaml_components t = Err e ->
   (e = TypeError /\ forall d, t <> TDict d) \/ (e = KeyError /\ exists d, t = TDict d /\ ~ In "system" (keys d)) \/
   (e = ValueError /\ exists d, t = TDict d /\ In "system" (keys d))).
Proof. intros show t e. split; apply file_errors; [apply library_errors|exact system_errors]. Qed.
Print Assumptions C72_refusals.
Example C72_refusals_example : parse_yaml_library exy_show TNull = Err TypeError /\ parse_yaml_library exy_show (TDict []) = Err KeyError /\
  parse_yaml_library exy_show (TDict [("library", TDict [("id", TText "a"); ("modles", TList [])])]) = Err ValueError /\
  parse_yaml_components (TDict [("system", TDict [("nodes", TList [TDict [("id", TText "N"); ("model", TText "m"); ("scenario-group", TText "a"); ("scenario_group", TText "a")]])])]) = Err ValueError.
Proof. repeat split. Qed.

(** an integer given as a bound of a variable is that number *)
Theorem C72_number_bound : forall show v d name z ids, read_variable show (TDict d) = Ok v -> under d name (TInt z) ->
  (name = "lower_bound" \/ name = "upper_bound") ->
  exists bound x, (if String.eqb name "lower_bound" then yv_lower v else yv_upper v) = Some bound /\
    parse_expression bound ids = Ok (PVal x) /\ forall E time scenario, den E x time scenario = Some (Z2Qc z).
Proof.
  intros show v d name z ids V U N. apply read_variable_says in V.
  assert (B : (if String.eqb name "lower_bound" then yv_lower v else yv_upper v) = Some (string_of_Z z)).
  { destruct V as (d' & (Q & K & O) & _ & _ & _ & L & H & _). injection Q as <-.
    assert (G : forall o, optional d name (fun t => nothing_or (text_or_number show) t o) (o = None) -> In name ["lower_bound"; "upper_bound"] -> o = Some (string_of_Z z)).
    { intros o [(t & T & P)|(A & B & _)] Hn.
      - assert (t = TInt z).
        { assert (In name ["id"; "time_dependent"; "scenario_dependent"; "lower_bound"; "upper_bound"; "variable_type"]) by (cbn in *; intuition).
          assert (M : mapping ["id"; "time_dependent"; "scenario_dependent"; "lower_bound"; "upper_bound"; "variable_type"] (TDict d) d) by (split; [reflexivity|split; assumption]).
          apply (entry_under _ _ _ _ M) in T; [|assumption]. apply (entry_under _ _ _ _ M) in U; [|assumption].
          destruct T as [k T], U as [k' U]. congruence. }
        subst t. destruct P as [[P _]|(_ & s & -> & P)]; [discriminate|]. destruct P as [P|[(z' & P & ->)|(w & P & _)]]; try discriminate.
        injection P as ->. reflexivity.
      - exfalso. destruct U as [U|U]; [apply B|apply A]; apply dget_in; eauto. }
    destruct N as [->| ->]; cbn; apply G; cbn; auto. }
  destruct (print_parse (fun _ => string_of_Z z) ids (Lit (nz z))) as (x & P & M).
  - exists (Z2Qc z). split; [reflexivity|]. apply integer_numeral.
  - exists (string_of_Z z), x. split; [exact B|]. split; [exact P|]. intros E time scenario. rewrite M. reflexivity.
Qed.
Print Assumptions C72_number_bound.
Example C72_number_bound_example : exists v, read_variable exy_show (TDict [("id", TText "p"); ("lower-bound", TInt (-5))]) = Ok v /\
  under [("id", TText "p"); ("lower-bound", TInt (-5))] "lower_bound" (TInt (-5)) /\ yv_lower v = Some "-5".
Proof. eexists. split; [reflexivity|]. split; [left; reflexivity|reflexivity]. Qed.

(** a number as the bound of a constraint is refused, and so is a list whose entry is there but empty *)
Theorem C72_constraint_number_refuted :
  (forall d name z, (name = "lower_bound" \/ name = "upper_bound") -> under d name (TInt z) -> forall c, read_constraint (TDict d) <> Ok c) /\
  (forall show d name, In name ["parameters"; "variables"; "ports"; "port_field_definitions"; "binding_constraints"; "constraints"] ->
     under d name TNull -> forall m, read_model show (TDict d) <> Ok m).
Proof.
  split.
  - intros d name z N U c R. apply read_constraint_says in R. destruct R as (d' & (Q & K & O) & _ & _ & L & H). injection Q as <-.
    assert (M : mapping ["id"; "expression"; "lower_bound"; "upper_bound"] (TDict d) d) by (split; [reflexivity|split; assumption]).
    assert (G : forall o, In name ["id"; "expression"; "lower_bound"; "upper_bound"] -> ~ optional d name (fun t => nothing_or text t o) (o = None)).
    { intros o Hn [(t & T & P)|(A & B & _)].
      - assert (t = TInt z) by (apply (entry_under _ _ _ _ M Hn) in T, U; destruct T as [k T], U as [k' U]; congruence).
        subst t. destruct P as [[P _]|(_ & s & _ & P)]; discriminate.
      - destruct U as [U|U]; [apply B|apply A]; apply dget_in; eauto. }
    destruct N as [->| ->]; [apply (G (yc_lower c))|apply (G (yc_upper c))]; cbn; auto.
  - intros show d name N U m R. apply read_model_says in R. destruct R as (d' & (Q & K & O) & _ & H). injection Q as <-.
    set (names := ["id"; "parameters"; "variables"; "ports"; "port_field_definitions"; "binding_constraints"; "constraints"; "objective"; "description"]) in *.
    assert (M : mapping names (TDict d) d) by (split; [reflexivity|split; assumption]).
    assert (G : forall A (P : tree -> A -> Prop) l, ~ optional d name (fun t => sequence P t l) (l = [])).
    { intros A P l [(t & T & (ts & E & _))|(Ha & Hb & _)].
      - assert (Hn : In name names) by (cbn in *; intuition).
        assert (t = TNull) by (apply (entry_under _ _ _ _ M Hn) in T, U; destruct T as [k T], U as [k' U]; congruence). subst t. discriminate.
      - destruct U as [U|U]; [apply Hb|apply Ha]; apply dget_in; eauto. }
    destruct H as (H1 & H2 & H3 & H4 & H5 & H6 & _). cbn in N.
    destruct N as [<-|[<-|[<-|[<-|[<-|[<-|[]]]]]]]; [exact (G _ _ _ H1)|exact (G _ _ _ H2)|exact (G _ _ _ H3)|exact (G _ _ _ H4)|exact (G _ _ _ H5)|exact (G _ _ _ H6)].
Qed.
Print Assumptions C72_constraint_number_refuted.
Example C72_constraint_number_example :
  read_constraint (TDict [("id", TText "c"); ("expression", TText "p"); ("upper-bound", TInt 7)]) = Err ValueError /\
  is_ok (read_constraint (TDict [("id", TText "c"); ("expression", TText "p"); ("upper-bound", TText "7")])) = true /\
  read_model exy_show (TDict [("id", TText "m"); ("parameters", TNull)]) = Err ValueError /\
  is_ok (read_model exy_show (TDict [("id", TText "m")])) = true /\
  is_ok (read_component (TDict [("id", TText "c"); ("model", TText "m"); ("parameters", TNull)])) = true.
Proof. repeat split. Qed.

(** beside the entry of the library, or of the system, anything is accepted and ignored *)
Theorem C72_ignored_refuted : forall show d d', dget String.eqb "library" d = dget String.eqb "library" d' ->
  dget String.eqb "system" d = dget String.eqb "system" d' ->
  parse_yaml_library show (TDict d) = parse_yaml_library show (TDict d') /\ parse_yaml_components (TDict d) = parse_yaml_components (TDict d').
Proof. intros show d d' L S. unfold parse_yaml_library, parse_yaml_components, top. now rewrite L, S. Qed.
Print Assumptions C72_ignored_refuted.
Example C72_ignored_example : exists d d', d <> d' /\ dget String.eqb "library" d = dget String.eqb "library" d' /\
  dget String.eqb "system" d = dget String.eqb "system" d' /\ is_ok (parse_yaml_library exy_show (TDict d)) = true.
Proof.
  exists [("library", TDict [("id", TText "a")]); ("port-types", TList [TNull])], [("library", TDict [("id", TText "a")])].
  split; [discriminate|]. repeat split.
Qed.

(** ** C73 *)
(** a system made by its constructors, with any of the optional arguments left out, written and read back *)
Theorem C73_read_back : forall a, parse_yaml_components (transform_to_yaml a) = Ok (new_system a).
Proof. exact system_back. Qed.
Print Assumptions C73_read_back.
Example C73_read_back_example : parse_yaml_components (transform_to_yaml {| sa_libraries := None; sa_nodes := None;
  sa_components := Some [{| ca_id := "G"; ca_model := "m"; ca_group := Some (Some "g"); ca_parameters := Some (Some
    [{| pa_id := "12"; pa_time := None; pa_scenario := Some true; pa_value := inr "12"; pa_group := Some None |}]) |}]; sa_connections := Some [] |}) =
  Ok {| is_nodes := []; is_components := [{| ic_id := "G"; ic_model := "m"; ic_group := Some "g"; ic_parameters := Some
    [{| ip_id := "12"; ip_time := false; ip_scenario := true; ip_value := inr "12"; ip_group := None |}] |}]; is_connections := [] |}.
Proof. vm_compute. reflexivity. Qed.

(** the system that the converter of Antares studies makes is the one that its file says *)
Theorem C73_antares : forall before period s sys files, convert_antares before period s = Ok (sys, files) ->
  parse_yaml_components (transform_to_yaml (converter_args sys)) = Ok sys.
Proof.
  intros before period s sys files H. rewrite system_back. f_equal. apply converter_no_groups. exact (antares_no_groups _ _ _ _ _ _ H).
Qed.
Print Assumptions C73_antares.
Example C73_antares_example : exists sys files, convert_antares [] None exa_study = Ok (sys, files) /\ (1 < List.length (is_components sys))%nat.
Proof.
  destruct (convert_antares [] None exa_study) as [[sys files]|] eqn:E; [|vm_compute in E; discriminate]. exists sys, files. split; [reflexivity|].
  assert (X : match convert_antares [] None exa_study with Ok (sys, _) => Nat.ltb 1 (List.length (is_components sys)) | Err _ => false end = true)
    by (vm_compute; reflexivity). rewrite E in X. now apply Nat.ltb_lt.
Qed.

(** and so for networks of PyPSA *)
Theorem C73_pypsa : forall order n sys files, convert_pypsa order n = Ok (sys, files) ->
  parse_yaml_components (transform_to_yaml (converter_args sys)) = Ok sys.
Proof.
  intros order n sys files H. rewrite system_back. f_equal. apply converter_no_groups. exact (pypsa_no_groups _ _ _ _ H).
Qed.
Print Assumptions C73_pypsa.
Example C73_pypsa_example : convert_pypsa exp_order (exp_network true) = Ok (exp_study true) /\ (1 < List.length (is_components (fst (exp_study true))))%nat.
Proof. split; [exact exp_converts|]. apply Nat.ltb_lt. vm_compute. reflexivity. Qed.
