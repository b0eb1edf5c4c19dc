(** Property theorems C30, C34, C46: system files, scenario builders and data files. *)
From Coq Require Import Ascii.
From Verif Require Import Base Expr Visitors BaseFacts Model Study Optim SpecModel SpecOptim ModelFacts System SpecSystem
  SystemFacts ExampleProblem.

Local Open Scope string_scope.
Local Open Scope list_scope.

(** ** C34 *)

(** With distinct ids, the network built from a file has exactly the nodes, components and connections
    of the file, in the order of the file, each with the model its reference names; they are found
    under their ids and nothing else is. *)
Theorem C34_network_is_the_file :
  forall i libs s n, NoDup (input_ids i) -> resolve_system i libs = Ok s -> build_network s = Ok n ->
  n_id n = "study" /\
  Forall2 (stands_as libs) (is_nodes i) (map snd (n_nodes n)) /\
  Forall2 (stands_as libs) (is_components i) (map snd (n_components n)) /\
  Forall2 (connects (all_components n)) (is_connections i) (n_connections n) /\
  (forall x c, In x (all_inputs i) -> stands_as libs x c -> get_component n (ic_id x) = Ok c) /\
  (forall x, ~ In x (input_ids i) -> get_component n x = Err KeyError).
Proof. exact network_of_file. Qed.
Print Assumptions C34_network_is_the_file.

(** A file is accepted exactly when every model reference is known and every connection is between
    known entries with compatible ports. *)
Theorem C34_accepted_iff :
  forall i libs, NoDup (input_ids i) -> named_libraries libs ->
  (exists s n, resolve_system i libs = Ok s /\ build_network s = Ok n) <->
  (forall c, In c (all_inputs i) -> exists m, names_model libs (ic_model c) m) /\
  (forall k, In k (is_connections i) -> connectable libs i k).
Proof. exact resolve_iff. Qed.
Print Assumptions C34_accepted_iff.

(** Unknown models and unknown ids in connections are errors, in any file. *)
Theorem C34_unknown_refused :
  forall i libs,
  (exists c, In c (all_inputs i) /\ forall m, ~ names_model libs (ic_model c) m) \/
  (exists k, In k (is_connections i) /\ (~ In (icn_component1 k) (input_ids i) \/ ~ In (icn_component2 k) (input_ids i))) ->
  exists e, resolve_system i libs = Err e.
Proof. exact unknown_refused. Qed.
Print Assumptions C34_unknown_refused.

(** What is built is a network of the kind the theorems on networks and problems speak of. *)
Theorem C34_network_is_built :
  forall s n, build_network s = Ok n -> built_network n.
Proof. exact build_network_built. Qed.
Print Assumptions C34_network_is_built.

(** The consistency check passes exactly when every component has a model of the library. *)
Theorem C34_consistency_check :
  forall study models,
  (consistency_check study models = Ok true <->
   forall c, In c (map snd study) -> In (m_id (co_model c)) (map fst models)) /\
  (consistency_check study models = Ok true \/ consistency_check study models = Err ValueError).
Proof. exact consistency_iff. Qed.
Print Assumptions C34_consistency_check.

Definition exs_libraries : dict string library :=
  [("basic", {| l_id := "basic"; l_port_types := [("power", mp_type exp_port)];
                l_models := [("generator", exp_generator); ("load", exp_load); ("node", exp_node_model)] |})].
Definition exs_entry (id m : string) (ps : list input_parameter) : input_component :=
  {| ic_id := id; ic_model := m; ic_group := None; ic_parameters := Some ps |}.
Definition exs_link (a b : string) : input_connection :=
  {| icn_component1 := a; icn_port1 := "balance"; icn_component2 := b; icn_port2 := "balance" |}.
Definition exs_system : input_system := {|
  is_nodes := [exs_entry "N" "basic.node" []];
  is_components := [exs_entry "G" "basic.generator" []; exs_entry "D" "basic.load" []];
  is_connections := [exs_link "G" "N"; exs_link "N" "D"] |}.
Lemma exs_named : named_libraries exs_libraries.
Proof.
  intros r m (a & b & l & _ & _ & _ & Hl & Hm). apply (dget_In String.eqb String.eqb_eq) in Hl, Hm.
  destruct Hl as [[= <- <-]|[]]. cbn in Hm.
  destruct Hm as [[= <- <-]|[[= <- <-]|[[= <- <-]|[]]]];
    first [apply exp_generator_good|apply exp_load_good|apply exp_node_good].
Qed.
Example C34_example : NoDup (input_ids exs_system) /\ named_libraries exs_libraries /\
  exists s n, resolve_system exs_system exs_libraries = Ok s /\ build_network s = Ok n /\
    n_nodes n = [("N", exp_n)] /\ n_components n = [("G", exp_g); ("D", exp_d)] /\
    n_connections n = n_connections the_network.
Proof.
  split; [cbn; solve_nodup|]. split; [exact exs_named|]. do 2 eexists. split; [reflexivity|].
  split; [reflexivity|]. split; [reflexivity|]. split; reflexivity.
Qed.
Example C34_example_refused :
  (forall m, ~ names_model exs_libraries "basic.storage" m) /\
  (exists e, resolve_system {| is_nodes := []; is_components := [exs_entry "S" "basic.storage" []];
                               is_connections := [] |} exs_libraries = Err e) /\
  (exists e, resolve_system {| is_nodes := is_nodes exs_system; is_components := is_components exs_system;
                               is_connections := [exs_link "G" "M"] |} exs_libraries = Err e) /\
  (exists e, resolve_system {| is_nodes := is_nodes exs_system; is_components := is_components exs_system;
                               is_connections := [exs_link "G" "D"] |} exs_libraries = Err e).
Proof.
  split; [|split; [|split]]; [|eexists; reflexivity ..].
  intros m H.
  assert (R : resolve_component exs_libraries (exs_entry "S" "basic.storage" []) = Ok {| co_model := m; co_id := "S" |}).
  { apply resolve_component_ok. split; [reflexivity|exact H]. }
  discriminate.
Qed.
Example C34_consistency_example :
  consistency_check [("G", exp_g); ("D", exp_d)] [("generator", exp_generator)] = Err ValueError /\
  consistency_check [("G", exp_g)] [("generator", exp_generator)] = Ok true.
Proof. split; reflexivity. Qed.

(** Ids given twice are not refused: the earlier component is lost. *)
Theorem C34_duplicate_id_refuted :
  exists i libs s n, resolve_system i libs = Ok s /\ build_network s = Ok n /\
    (List.length (is_components i) = 2 /\ List.length (n_components n) = 1)%nat.
Proof.
  exists {| is_nodes := []; is_components := [exs_entry "G" "basic.generator" []; exs_entry "G" "basic.load" []];
            is_connections := [] |}, exs_libraries.
  do 2 eexists. split; [reflexivity|]. split; [reflexivity|]. split; reflexivity.
Qed.
Print Assumptions C34_duplicate_id_refuted.

(** When a node and a component share an id, a connection goes to the node although the network
    answers that id with the component. *)
Theorem C34_shared_id_refuted :
  exists i libs s n k c, resolve_system i libs = Ok s /\ build_network s = Ok n /\
    In k (n_connections n) /\ get_component n (co_id (pr_component (pc_port2 k))) = Ok c /\
    m_id (co_model (pr_component (pc_port2 k))) <> m_id (co_model c).
Proof.
  exists {| is_nodes := [exs_entry "X" "basic.node" []];
            is_components := [exs_entry "G" "basic.generator" []; exs_entry "X" "basic.load" []];
            is_connections := [exs_link "G" "X"] |}, exs_libraries.
  do 4 eexists. split; [reflexivity|]. split; [reflexivity|]. split; [left; reflexivity|].
  split; [reflexivity|]. discriminate.
Qed.
Print Assumptions C34_shared_id_refuted.

(** ** C30 *)

(** The scenario builder: a group sends a year to a column exactly when a row says so, *)
Theorem C30_builder_map :
  forall rows out, resolve_scenarization rows = Ok out ->
  forall g y c, (exists sc, dget String.eqb g out = Some sc /\ get_scenario_for_year sc y = Ok c) <-> In (g, (y, c)) rows.
Proof. exact builder_map. Qed.
Print Assumptions C30_builder_map.

(** and it is accepted exactly when no year comes twice in a group. *)
Theorem C30_builder_accepted_iff :
  forall rows : list builder_row,
  (exists out, resolve_scenarization rows = Ok out) <-> NoDup (map (fun r => (fst r, fst (snd r))) rows).
Proof. exact builder_accepts. Qed.
Print Assumptions C30_builder_accepted_iff.

(** Reading scenario [y] of a parameter of a component gives the column which the builder maps to
    [y] for the group of that parameter.
    Missing from the full claim: parameters without a group of their own that follow, in the same
    component, a parameter with one; parameters of nodes (refuted below). *)
Theorem C30_reads_mapped_column_partial :
  forall files i rows db, build_scenarized_data_base files i rows = Ok db ->
  NoDup (parameter_keys (is_components i)) ->
  forall c before after p, In c (is_components i) -> parameters_of c = before ++ p :: after ->
  given (ip_group p) <> None \/ Forall (fun q => given (ip_group q) = None) before ->
  forall t y col v, (0 <= t)%Z ->
  (ip_scenario p = true -> column_for rows (wanted_group c p) y col /\ (0 <= col)%Z) ->
  db_get_value db (ic_id c) (ip_id p) t y = Ok v <-> parameter_cell files p t col = Some v.
Proof. exact scenarized_read. Qed.
Print Assumptions C30_reads_mapped_column_partial.

(** A scenario that the builder does not map is an error, never another column. *)
Theorem C30_unmapped_is_error_partial :
  forall files i rows db, build_scenarized_data_base files i rows = Ok db ->
  NoDup (parameter_keys (is_components i)) ->
  forall c before after p, In c (is_components i) -> parameters_of c = before ++ p :: after ->
  given (ip_group p) <> None \/ Forall (fun q => given (ip_group q) = None) before ->
  forall t y, ip_scenario p = true -> (forall col, ~ column_for rows (wanted_group c p) y col) ->
  exists e, db_get_value db (ic_id c) (ip_id p) t y = Err e.
Proof. exact scenarized_missing. Qed.
Print Assumptions C30_unmapped_is_error_partial.

(** two lines (hours), three columns (scenarios) *)
Definition exs_files (name : string) : result frame :=
  if String.eqb name "load" then Ok [[nz 10; nz 20; nz 30]; [nz 11; nz 21; nz 31]]
  else if String.eqb name "limit" then Ok [[nz 5]; [nz 6]]
  else Err ValueError.
Definition exs_series (id : string) (t s : bool) (f : string) (g : option string) : input_parameter :=
  {| ip_id := id; ip_time := t; ip_scenario := s; ip_value := inr f; ip_group := g |}.
Definition exs_number (id : string) (z : Z) : input_parameter :=
  {| ip_id := id; ip_time := false; ip_scenario := false; ip_value := inl (nz z); ip_group := None |}.
Definition exs_rows : list builder_row := [("wet", (0, 2)%Z); ("wet", (1, 0)%Z); ("dry", (0, 1)%Z); ("dry", (1, 1)%Z)].
Definition exs_data : input_system := {|
  is_nodes := []; is_connections := [];
  is_components := [
    {| ic_id := "G"; ic_model := "basic.generator"; ic_group := Some "wet";
       ic_parameters := Some [exs_series "demand" true true "load" None; exs_number "cost" 7;
                              exs_series "inflow" true true "load" (Some "dry")] |};
    {| ic_id := "H"; ic_model := "basic.generator"; ic_group := None;
       ic_parameters := Some [exs_series "demand" true true "load" None] |}] |}.
Example C30_example : exists db, build_scenarized_data_base exs_files exs_data exs_rows = Ok db /\
  NoDup (parameter_keys (is_components exs_data)) /\
  db_get_value db "G" "demand" 0 0 = Ok (nz 30) /\ db_get_value db "G" "demand" 1 1 = Ok (nz 11) /\
  db_get_value db "G" "cost" 1 1 = Ok (nz 7) /\
  db_get_value db "G" "inflow" 0 0 = Ok (nz 20) /\ db_get_value db "H" "demand" 0 0 = Ok (nz 10) /\
  db_get_value db "G" "demand" 0 2 = Err KeyError /\
  (forall col, ~ column_for exs_rows (Some "wet") 2 col).
Proof.
  eexists. split; [reflexivity|]. split; [cbn; solve_nodup|]. repeat (split; [reflexivity|]).
  intros col H. cbn in H. intuition discriminate.
Qed.
Example C30_example_refused :
  exists e, resolve_scenarization [("wet", (0, 2)%Z); ("dry", (0, 1)%Z); ("wet", (0, 2)%Z)] = Err e.
Proof. eexists. reflexivity. Qed.

(** The group of a parameter leaks to the parameters after it: the component belongs to "wet", the
    parameter gives no group, and it is read with the columns of "dry". *)
Theorem C30_group_leak_refuted :
  exists files i rows db c p, build_scenarized_data_base files i rows = Ok db /\
    NoDup (parameter_keys (is_components i)) /\ In c (is_components i) /\ In p (parameters_of c) /\
    wanted_group c p = Some "wet" /\ ip_group p = None /\ column_for rows (Some "wet") 0 2 /\
    parameter_cell files p 0 2 = Some (nz 30) /\ db_get_value db (ic_id c) (ip_id p) 0 0 = Ok (nz 20).
Proof.
  exists exs_files, {| is_nodes := []; is_connections := []; is_components := [
    {| ic_id := "G"; ic_model := "basic.generator"; ic_group := Some "wet";
       ic_parameters := Some [exs_series "inflow" true true "load" (Some "dry");
                              exs_series "demand" true true "load" None] |}] |}, exs_rows.
  eexists. do 2 eexists. split; [reflexivity|]. split; [cbn; solve_nodup|]. split; [left; reflexivity|].
  split; [right; left; reflexivity|]. split; [reflexivity|]. split; [reflexivity|].
  split; [left; reflexivity|]. split; reflexivity.
Qed.
Print Assumptions C30_group_leak_refuted.

(** The parameters of nodes get no data at all. *)
Theorem C30_nodes_ignored_refuted :
  exists files i rows db c p, build_scenarized_data_base files i rows = Ok db /\
    In c (is_nodes i) /\ In p (parameters_of c) /\
    parameter_cell files p 0 0 = Some (nz 7) /\ db_get_value db (ic_id c) (ip_id p) 0 0 = Err KeyError.
Proof.
  exists exs_files, {| is_nodes := [exs_entry "N" "basic.node" [exs_number "spillage_cost" 7]]; is_connections := [];
                       is_components := [] |}, exs_rows.
  do 3 eexists. split; [reflexivity|]. split; [left; reflexivity|]. split; [left; reflexivity|]. split; reflexivity.
Qed.
Print Assumptions C30_nodes_ignored_refuted.

(** ** C46 *)

(** Without a scenario builder, every parameter of every component and node reads as the file says. *)
Theorem C46_reads_the_file :
  forall files i db c p t s v,
  build_data_base files i = Ok db -> NoDup (parameter_keys (all_inputs i)) ->
  In c (all_inputs i) -> In p (parameters_of c) -> (0 <= t)%Z -> (0 <= s)%Z ->
  db_get_value db (ic_id c) (ip_id p) t s = Ok v <-> parameter_cell files p t s = Some v.
Proof. exact plain_read. Qed.
Print Assumptions C46_reads_the_file.

(** The data base is built exactly when each value fits the indexing declared for it. *)
Theorem C46_accepted_iff :
  forall files i, (exists db, build_data_base files i = Ok db) <->
  forall c p, In c (all_inputs i) -> In p (parameters_of c) -> acceptable files p.
Proof. exact plain_accepts. Qed.
Print Assumptions C46_accepted_iff.

(** Nothing is in the data base that is not in the file. *)
Theorem C46_absent_is_error :
  forall files i db c n, build_data_base files i = Ok db -> ~ In (c, n) (parameter_keys (all_inputs i)) ->
  get_data db c n = Err KeyError.
Proof. exact plain_absent. Qed.
Print Assumptions C46_absent_is_error.

Definition exs_plain : input_system := {|
  is_nodes := [exs_entry "N" "basic.node" [exs_number "spillage_cost" 7]]; is_connections := [];
  is_components := [exs_entry "D" "basic.load" [exs_series "demand" true true "load" None;
                                                exs_series "limit" true false "limit" None]] |}.
Example C46_example : exists db, build_data_base exs_files exs_plain = Ok db /\
  NoDup (parameter_keys (all_inputs exs_plain)) /\
  db_get_value db "D" "demand" 1 2 = Ok (nz 31) /\ db_get_value db "D" "limit" 1 2 = Ok (nz 6) /\
  db_get_value db "N" "spillage_cost" 1 2 = Ok (nz 7) /\ get_data db "N" "demand" = Err KeyError.
Proof. eexists. split; [reflexivity|]. split; [cbn; solve_nodup|]. repeat (split; [reflexivity|]). reflexivity. Qed.
Example C46_example_refused :
  ~ acceptable exs_files (exs_series "limit" true false "load" None) /\
  ~ acceptable exs_files (exs_series "limit" false false "limit" None) /\
  ~ acceptable exs_files {| ip_id := "cost"; ip_time := true; ip_scenario := false; ip_value := inl n1; ip_group := None |}.
Proof.
  split; [|split]; cbn.
  - intros (ts & [= <-] & [[_ H]|[(_ & _ & H)|[H _]]]); try discriminate.
    destruct (H _ (or_introl eq_refl)) as [v Hv]. discriminate.
  - intros (ts & _ & [[H _]|[[H _]|(_ & H & _)]]); discriminate.
  - intros [H _]. discriminate.
Qed.
