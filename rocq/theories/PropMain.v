(** C58: a study run from its files. *)
From Coq Require Import Lia.
From Verif Require Import Base BaseFacts Expr Visitors Parse SpecParse LexFacts LinearExpr Model Study Strategy Optim System Library
  Main SpecExpr SpecModel SpecLibrary SpecSystem SpecLinear SpecOptim SpecMain MainFacts MainNeeds.
Local Open Scope string_scope.
Local Open Scope list_scope.

(** ** The study of the examples: a bus with a generator and a load, two timesteps, two scenarios *)
Definition exm_bus : in_model := {|
  ym_id := "bus"; ym_parameters := []; ym_variables := []; ym_ports := [{| yo_id := "port"; yo_type := "flow" |}];
  ym_definitions := [];
  ym_binding_constraints := [{| yc_id := "balance"; yc_expression := "sum_connections(port.flow) = 0"; yc_lower := None; yc_upper := None |}];
  ym_constraints := []; ym_objective := None |}.
Definition exm_generator : in_model := {|
  ym_id := "generator";
  ym_parameters := [{| yp_id := "cost"; yp_time := false; yp_scenario := false |};
                    {| yp_id := "p_max"; yp_time := true; yp_scenario := false |}];
  ym_variables := [{| yv_id := "p"; yv_time := true; yv_scenario := true; yv_lower := Some "0"; yv_upper := Some "p_max";
                      yv_type := "continuous" |};
                   {| yv_id := "on"; yv_time := false; yv_scenario := false; yv_lower := Some ""; yv_upper := None;
                      yv_type := "integer" |}];
  ym_ports := [{| yo_id := "port"; yo_type := "flow" |}];
  ym_definitions := [{| yd_port := "port"; yd_field := "flow"; yd_definition := "p" |}];
  ym_binding_constraints := [];
  ym_constraints := [{| yc_id := "ramp"; yc_expression := "p - p[t-1]"; yc_lower := None; yc_upper := Some "p_max / 2" |}];
  ym_objective := Some "expec(sum(cost * p))" |}.
Definition exm_load : in_model := {|
  ym_id := "load"; ym_parameters := [{| yp_id := "demand"; yp_time := true; yp_scenario := true |}]; ym_variables := [];
  ym_ports := [{| yo_id := "port"; yo_type := "flow" |}];
  ym_definitions := [{| yd_port := "port"; yd_field := "flow"; yd_definition := "-demand" |}];
  ym_binding_constraints := []; ym_constraints := []; ym_objective := None |}.
Definition exm_libs : list in_library :=
  [{| yl_id := "models"; yl_dependencies := ["types"]; yl_port_types := []; yl_models := [exm_generator; exm_load] |};
   {| yl_id := "types"; yl_dependencies := []; yl_port_types := [{| yt_id := "flow"; yt_fields := ["flow"] |}]; yl_models := [exm_bus] |}].
Definition exm_parameter id time scenario value : input_parameter :=
  {| ip_id := id; ip_time := time; ip_scenario := scenario; ip_value := value; ip_group := None |}.
Definition exm_system : input_system := {|
  is_nodes := [{| ic_id := "N"; ic_model := "types.bus"; ic_group := None; ic_parameters := None |}];
  is_components :=
    [{| ic_id := "G"; ic_model := "models.generator"; ic_group := None;
        ic_parameters := Some [exm_parameter "cost" false false (inl (nz 30)); exm_parameter "p_max" true false (inr "p_max")] |};
     {| ic_id := "D"; ic_model := "models.load"; ic_group := None;
        ic_parameters := Some [exm_parameter "demand" true true (inr "demand")] |}];
  is_connections :=
    [{| icn_component1 := "N"; icn_port1 := "port"; icn_component2 := "G"; icn_port2 := "port" |};
     {| icn_component1 := "D"; icn_port1 := "port"; icn_component2 := "N"; icn_port2 := "port" |}] |}.
Definition exm_files (name : string) : result frame :=
  if String.eqb name "p_max" then Ok [[nz 100]; [nz 80]]
  else if String.eqb name "demand" then Ok [[nz 50; nz 60]; [nz 70; nz 40]]
  else Err GenericException.
Definition exm_reading (m : in_model) (text : string) : wexpr :=
  if String.eqb text "sum_connections(port.flow) = 0" then WCmp EQUAL (WSumPorts "port" "flow") (WNumber "0")
  else if String.eqb text "0" then WNumber "0"
  else if String.eqb text "p_max" then WName "p_max"
  else if String.eqb text "p" then WName "p"
  else if String.eqb text "p - p[t-1]" then WAdd Minus (WName "p") (WAt "p" (WThen WNow Minus (WFactor (WNumber "1"))))
  else if String.eqb text "p_max / 2" then WMul Over (WName "p_max") (WNumber "2")
  else if String.eqb text "expec(sum(cost * p))" then WCall "expec" (WSumAll (WMul Times (WName "cost") (WName "p")))
  else WNeg (WName "demand").
Definition exm_order (treated stack s : list string) : list string := s.
Lemma exm_any_order : any_order exm_order. Proof. intros a b c. reflexivity. Qed.
Lemma exm_runs : exists o st, main_cli exm_order exm_libs exm_system exm_files 2 2 = Ok (o, st) /\
  List.length (s_rows (st_solver st)) = 8%nat /\ List.length (s_vars (st_solver st)) = 5%nat.
Proof.
  destruct (main_cli exm_order exm_libs exm_system exm_files 2 2) as [[o st]|e] eqn:E; [|vm_compute in E; discriminate].
  exists o, st. split; [reflexivity|].
  assert (X : match main_cli exm_order exm_libs exm_system exm_files 2 2 with
    | Ok (_, st) => Nat.eqb (List.length (s_rows (st_solver st))) 8 && Nat.eqb (List.length (s_vars (st_solver st))) 5 | Err _ => false end = true)
    by (vm_compute; reflexivity).
  rewrite E in X. apply andb_true_iff in X. destruct X as [X1 X2]. split; now apply Nat.eqb_eq.
Qed.
Ltac reading := split; [apply lex_spells; vm_compute; reflexivity|]; split; [cbn; repeat split; first [lia|discriminate]|];
  split; [cbn; auto|]; cbn; auto 20.
Lemma exm_good : good_study exm_libs exm_system exm_files 2 2 exm_reading.
Proof.
  split; [lia|]. split; [lia|].
  split; [repeat constructor; cbn; intuition discriminate|].
  split; [repeat constructor; cbn; intuition discriminate|].
  split; [|split].
  - intros e p He Hp. cbn in He. destruct He as [<-|[<-|[<-|[]]]]; cbn in Hp.
    + destruct Hp as [<-|[<-|[]]]; cbn; [eexists; reflexivity|]. intros ts r v [= <-] Hr Hv. cbn in Hr.
      destruct Hr as [<-|[<-|[]]]; destruct Hv as [<-|[]]; eexists; reflexivity.
    + destruct Hp as [<-|[]]; cbn. intros ts r v [= <-] Hr Hv. cbn in Hr.
      destruct Hr as [<-|[<-|[]]]; destruct Hv as [<-|[<-|[]]]; eexists; reflexivity.
    + destruct Hp.
  - intros e m p [<-|[]] [= <-] [].
  - intros e m [He Hm]. cbn in He. destruct He as [<-|[<-|[<-|[]]]]; injection Hm as <-.
    + split; [|repeat split; repeat constructor; cbn; intuition discriminate]. split; [|split; [|split]].
      * intros w Hw. cbn in Hw. destruct Hw as [<-|[<-|[<-|[<-|[<-|[<-|[]]]]]]]; cbn [exm_reading String.eqb Ascii.eqb Bool.eqb]; reading.
      * intros c [<-|[]]. cbn. repeat split; auto.
      * intros d [<-|[]]. cbn. repeat split; auto.
      * intros w [<-|[]]. cbn. repeat split; auto.
    + split; [|repeat split; repeat constructor; cbn; intuition discriminate]. split; [|split; [|split]].
      * intros w [<-|[]]. reading.
      * intros c [].
      * intros d [<-|[]]. cbn. repeat split; auto.
      * intros w [].
    + split; [|repeat split; repeat constructor; cbn; intuition discriminate]. split; [|split; [|split]].
      * intros w [<-|[]]. reading.
      * intros c [<-|[]]. cbn. repeat split; auto.
      * intros d [].
      * intros w [].
Qed.
Lemma exm_follow e m k : entry_constraint exm_libs exm_system e m k -> text_bounds_follow exm_libs exm_system exm_reading e m k.
Proof.
  intros [[He Hm] Hk]. cbn in He. destruct He as [<-|[<-|[<-|[]]]]; injection Hm as <-; cbn in Hk; [..|].
  - destruct Hk as [<-|[]]. intros w [<-|[]]. vm_compute. split; auto.
  - destruct Hk.
  - destruct Hk as [<-|[]]. intros w [].
Qed.

(** ** C58 *)

(** When the texts are plain, ids and names are not repeated and data is finite: every row of the problem is a
    constraint written in the model of an entry of the system, at one timestep and in one scenario, the first
    ones when its expression does not depend on them; every such constraint has a row at every timestep and in
    every scenario on which its expression depends; and the row is satisfied exactly when what is written holds
    there, up to terms whose coefficients are below 1e-16, no more of them than there are decisions mentioned in
    the text.  When the bounds of the constraint depend on nothing on which its expression does not, the row is
    satisfied exactly when what is written holds at any timestep and in any scenario it covers.
    Missing: other texts and other bounds (see [C44_division_refuted], [C20_refuted]), repeated ids (see [C34_duplicate_id_refuted]) and the dropped terms (see [C45_refuted]). *)
Theorem C58_rows_partial :
  forall order libs sys files T S rd o st, any_order order ->
  main_cli order libs sys files T S = Ok (o, st) -> good_study libs sys files T S rd ->
  exists drops, List.length drops = List.length (s_rows (st_solver st)) /\
  (forall j row d, nth_error (s_rows (st_solver st)) j = Some row -> nth_error drops j = Some d ->
     exists e m k t s, entry_constraint libs sys e m k /\ (0 <= t < T)%Z /\ (0 <= s < S)%Z /\
       (varies_with_time libs sys rd e m (rd m (yc_expression k)) = false -> t = 0%Z) /\
       (varies_with_scenario libs sys rd e m (rd m (yc_expression k)) = false -> s = 0%Z) /\
       few (file_mentions libs sys files T S rd e m (rd m (yc_expression k))) d /\
       sr_name row = (ic_id e ++ "_" ++ yc_id k ++ "_t" ++ string_of_Z t ++ "_s" ++ string_of_Z s)%string /\
       forall x y, file_decisions libs sys T x -> takes_values libs sys T S (placed o st) y x ->
       (row_sat y row <-> text_holds libs sys files T S rd d x e m k t s)) /\
  (forall e m k t s, entry_constraint libs sys e m k -> (0 <= t < T)%Z -> (0 <= s < S)%Z ->
     let t0 := if varies_with_time libs sys rd e m (rd m (yc_expression k)) then t else 0%Z in
     let s0 := if varies_with_scenario libs sys rd e m (rd m (yc_expression k)) then s else 0%Z in
     exists j row d, nth_error (s_rows (st_solver st)) j = Some row /\ nth_error drops j = Some d /\
       few (file_mentions libs sys files T S rd e m (rd m (yc_expression k))) d /\
       sr_name row = (ic_id e ++ "_" ++ yc_id k ++ "_t" ++ string_of_Z t0 ++ "_s" ++ string_of_Z s0)%string /\
       forall x y, file_decisions libs sys T x -> takes_values libs sys T S (placed o st) y x ->
       (row_sat y row <-> text_holds libs sys files T S rd d x e m k t0 s0) /\
       (text_bounds_follow libs sys rd e m k ->
          (row_sat y row <-> text_holds libs sys files T S rd d x e m k t s))).
Proof. exact rows_file. Qed.
Print Assumptions C58_rows_partial.
Example C58_rows_example :
  any_order exm_order /\ good_study exm_libs exm_system exm_files 2 2 exm_reading /\
  (forall e m k, entry_constraint exm_libs exm_system e m k -> text_bounds_follow exm_libs exm_system exm_reading e m k) /\
  exists o st, main_cli exm_order exm_libs exm_system exm_files 2 2 = Ok (o, st) /\
    List.length (s_rows (st_solver st)) = 8%nat /\ List.length (s_vars (st_solver st)) = 5%nat.
Proof. split; [exact exm_any_order|]. split; [exact exm_good|]. split; [exact exm_follow|exact exm_runs]. Qed.
(** the balance of the bus mentions one decision, that of the generator; nothing else can be dropped from it *)
Example C58_rows_count_example :
  file_mentions exm_libs exm_system exm_files 2 2 exm_reading (hd {| ic_id := ""; ic_model := ""; ic_group := None; ic_parameters := None |} (is_nodes exm_system)) exm_bus
    (exm_reading exm_bus "sum_connections(port.flow) = 0") = 1%nat.
Proof. vm_compute. reflexivity. Qed.
(** what is written, for the balance of the bus: 50 in is needed at timestep 0 of scenario 0 *)
Example C58_rows_meaning_example : forall x,
  text_holds exm_libs exm_system exm_files 2 2 exm_reading [] x (hd {| ic_id := ""; ic_model := ""; ic_group := None; ic_parameters := None |} (is_nodes exm_system)) exm_bus
    {| yc_id := "balance"; yc_expression := "sum_connections(port.flow) = 0"; yc_lower := None; yc_upper := None |} 0 0 <->
  x "G" "p" 0%Z 0%Z = Z2Qc 50.
Proof.
  intros x. unfold text_holds. cbv zeta.
  set (E := file_world _ _ _ _ _ _ _ _).
  assert (V : text_value E exm_bus (WSumPorts "port" "flow") 0 0 = Some (x "G" "p" 0%Z 0%Z + (- Z2Qc 50 + 0))%Qc) by reflexivity.
  assert (Z0 : text_value E exm_bus (WNumber "0") 0 0 = Some 0%Qc).
  { change (Some (number_value "0") = Some 0%Qc). reflexivity. }
  cbn [yc_expression exm_reading String.eqb Ascii.eqb Bool.eqb]. split.
  - intros (w & Hw & vl & vr & H1 & H2 & H3). injection Hw as <-. rewrite V in H1. injection H1 as <-. rewrite Z0 in H2. injection H2 as <-.
    cbn in H3. clear -H3. transitivity ((x "G" "p" 0%Z 0%Z + (- Z2Qc 50 + 0) - 0) + Z2Qc 50)%Qc; [ring|]. rewrite H3. ring.
  - intros H. exists 0%Qc. split; [reflexivity|]. eexists; eexists. split; [exact V|]. split; [exact Z0|]. cbn. rewrite H. ring.
Qed.

(** The value of the solver's objective is the sum of the objectives written in the models of the entries of
    the system, nodes included, up to terms below 1e-16, no more of them than there are decisions mentioned. *)
Theorem C58_objective_partial :
  forall order libs sys files T S rd o st, any_order order ->
  main_cli order libs sys files T S = Ok (o, st) -> good_study libs sys files T S rd ->
  exists dropped, few (list_sum (map (text_objective_mentions libs sys files T S rd) (text_objectives libs sys))) dropped /\
  forall x y t s, file_decisions libs sys T x -> takes_values libs sys T S (placed o st) y x -> (0 <= s)%Z ->
  exists v, osum (map (text_objective_value libs sys files T S rd x t s) (text_objectives libs sys)) = Some v /\
    olift2 Qcplus (objective_value y (st_solver st)) (terms_value (decisions_at x t s) dropped) = Some v.
Proof. exact objective_file. Qed.
Print Assumptions C58_objective_partial.
(** the objective mentions four decisions: two timesteps in two scenarios *)
Example C58_objective_count_example :
  list_sum (map (text_objective_mentions exm_libs exm_system exm_files 2 2 exm_reading) (text_objectives exm_libs exm_system)) = 4%nat.
Proof. vm_compute. reflexivity. Qed.
(** 30 times the mean over the two scenarios of the sum over the two timesteps *)
Example C58_objective_example :
  List.length (text_objectives exm_libs exm_system) = 1%nat /\
  osum (map (text_objective_value exm_libs exm_system exm_files 2 2 exm_reading (fun _ _ t s => Z2Qc (t + 10 * s)) 0 0)
    (text_objectives exm_libs exm_system)) = Some (Z2Qc 330).
Proof. split; [reflexivity|]. vm_compute. reflexivity. Qed.

(** The decisions of the study and the values of the solver's variables correspond: every decision that the
    files leave has a position in the solver's problem, under its name; two decisions share a position only
    if the files say that they are the same. *)
Theorem C58_decisions_partial :
  forall order libs sys files T S rd o st, any_order order ->
  main_cli order libs sys files T S = Ok (o, st) -> good_study libs sys files T S rd ->
  (forall e m v t s, entry libs sys e m -> In v (ym_variables m) -> (0 <= t < T)%Z -> (0 <= s < S)%Z ->
     exists i sv, placed o st e v t s i /\ nth_error (s_vars (st_solver st)) i = Some sv /\
       sv_name sv = solver_variable_name o (ic_id e) (yv_id v) (given_index (yv_time v) t) (given_index (yv_scenario v) s)) /\
  (forall e m v t s e' m' v' t' s' i, entry libs sys e m -> In v (ym_variables m) ->
     entry libs sys e' m' -> In v' (ym_variables m') -> (0 <= t < T)%Z -> (0 <= t' < T)%Z ->
     placed o st e v t s i -> placed o st e' v' t' s' i ->
     e = e' /\ v = v' /\ (yv_time v = true -> t = t') /\ (yv_scenario v = true -> s = s')) /\
  (forall x, file_decisions libs sys T x -> exists y, takes_values libs sys T S (placed o st) y x) /\
  (forall y, exists x, file_decisions libs sys T x /\ takes_values libs sys T S (placed o st) y x).
Proof.
  exact (fun order libs sys files T S rd o st Ord Run Good =>
    conj (positions order libs sys files T S rd o st Ord Run Good)
      (conj (placed_once order libs sys files T S rd o st Ord Run Good)
        (decisions_correspond order libs sys files T S rd o st Ord Run Good))).
Qed.
Print Assumptions C58_decisions_partial.

(** Every variable of the solver is that of a variable of an entry, is integer when the file says so, and has
    the bounds written: none when no text is given, else the value of the text at the variable's timestep and
    in its scenario. *)
Theorem C58_variables_partial :
  forall order libs sys files T S rd o st, any_order order ->
  main_cli order libs sys files T S = Ok (o, st) -> good_study libs sys files T S rd ->
  forall i sv, nth_error (s_vars (st_solver st)) i = Some sv ->
  exists e m v t s, entry libs sys e m /\ In v (ym_variables m) /\ (0 <= t < T)%Z /\ (0 <= s < S)%Z /\
    placed o st e v t s i /\
    (yv_type v = "continuous" /\ sv_integer sv = false \/ yv_type v = "integer" /\ sv_integer sv = true) /\
    text_bound_is libs sys files T S rd e m v NInf (yv_lower v) t s (sv_lb sv) /\
    text_bound_is libs sys files T S rd e m v PInf (yv_upper v) t s (sv_ub sv) /\ num_le (sv_lb sv) (sv_ub sv).
Proof. exact variables_file. Qed.
Print Assumptions C58_variables_partial.
Example C58_variables_example :
  exists o st, main_cli exm_order exm_libs exm_system exm_files 2 2 = Ok (o, st) /\
  map sv_name (s_vars (st_solver st)) = ["G_p_t0_s0"; "G_p_t0_s1"; "G_p_t1_s0"; "G_p_t1_s1"; "G_on"] /\
  map sv_integer (s_vars (st_solver st)) = [false; false; false; false; true] /\
  map (fun v => neqb (sv_ub v) (nz 80)) (s_vars (st_solver st)) = [false; false; true; true; false] /\
  map (fun v => neqb (sv_ub v) PInf) (s_vars (st_solver st)) = [false; false; false; false; true].
Proof.
  destruct (main_cli exm_order exm_libs exm_system exm_files 2 2) as [[o st]|e] eqn:E; [|vm_compute in E; discriminate].
  exists o, st. split; [reflexivity|].
  assert (X : match main_cli exm_order exm_libs exm_system exm_files 2 2 with
    | Ok (_, st) => (map sv_name (s_vars (st_solver st)), map sv_integer (s_vars (st_solver st)),
        map (fun v => neqb (sv_ub v) (nz 80)) (s_vars (st_solver st)), map (fun v => neqb (sv_ub v) PInf) (s_vars (st_solver st)))
    | Err _ => ([], [], [], []) end =
    (["G_p_t0_s0"; "G_p_t0_s1"; "G_p_t1_s0"; "G_p_t1_s1"; "G_on"], [false; false; false; false; true],
     [false; false; true; true; false], [false; false; false; false; true])) by (vm_compute; reflexivity).
  rewrite E in X. injection X as X1 X2 X3 X4. auto.
Qed.

(** Two libraries with one id stop the run, unlike in [C32_duplicate_id_refuted]. *)
Theorem C58_library_ids :
  forall order libs sys files T S, ~ NoDup (map yl_id libs) -> main_cli order libs sys files T S = Err ValueError.
Proof. exact run_twice. Qed.
Print Assumptions C58_library_ids.
Example C58_library_ids_example : ~ NoDup (map yl_id (exm_libs ++ exm_libs)).
Proof. intros H. inversion_clear H as [|a b N _]. apply N. cbn. auto. Qed.

(** The check of the models made by the run refuses nothing: it never changes what the run does. *)
Theorem C58_check_is_idle :
  forall order libs sys out study, any_order order -> input_libs order libs = Ok out -> resolve_system sys out = Ok study ->
  consistency_check (sy_components study) (all_models out) = Ok true.
Proof. exact check_passes. Qed.
Print Assumptions C58_check_is_idle.
Example C58_check_example : exists out study, input_libs exm_order exm_libs = Ok out /\ resolve_system exm_system out = Ok study /\
  map fst (all_models out) = ["bus"; "generator"; "load"] /\ map fst (sy_components study) = ["G"; "D"].
Proof. eexists; eexists. split; [vm_compute; reflexivity|]. split; [vm_compute; reflexivity|]. split; reflexivity. Qed.

(** A run needs all of this: every entry of the system refers to a model of the libraries, every parameter it lists has a number or
    an existing file of the shape asked for, and every parameter of the model of a component is listed with it, depending on no
    more than the model allows. *)
Theorem C58_needs_models : forall order libs sys files T S o st, any_order order -> main_cli order libs sys files T S = Ok (o, st) ->
  forall e, In e (all_inputs sys) -> exists m, file_model libs (ic_model e) = Some m.
Proof. exact run_models. Qed.
Print Assumptions C58_needs_models.
Theorem C58_needs_files : forall order libs sys files T S o st, main_cli order libs sys files T S = Ok (o, st) ->
  forall e p, In e (all_inputs sys) -> In p (parameters_of e) -> acceptable files p.
Proof. exact run_files. Qed.
Print Assumptions C58_needs_files.
(** Missing: repeated ids of entries or of parameters of a model; nodes, whose parameters are not checked. *)
Theorem C58_needs_parameters_partial : forall order libs sys files T S o st, any_order order -> main_cli order libs sys files T S = Ok (o, st) ->
  forall e m q, NoDup (input_ids sys) -> In e (is_components sys) -> file_model libs (ic_model e) = Some m ->
  In q (ym_parameters m) -> NoDup (map yp_id (ym_parameters m)) ->
  exists p, In p (parameters_of e) /\ ip_id p = yp_id q /\
    (NoDup (parameter_keys (all_inputs sys)) -> (ip_time p = true -> yp_time q = true) /\ (ip_scenario p = true -> yp_scenario q = true)).
Proof. exact run_given. Qed.
Print Assumptions C58_needs_parameters_partial.
(** the study of the examples runs; not when the generator has no cost, when its cost is said to depend on time, when the file of the
    demand is missing or when a model is unknown *)
Definition exm_changed (change : input_component -> input_component) : input_system :=
  {| is_nodes := is_nodes exm_system; is_components := map change (is_components exm_system); is_connections := is_connections exm_system |}.
Definition exm_without (e : input_component) : input_component :=
  {| ic_id := ic_id e; ic_model := ic_model e; ic_group := None;
     ic_parameters := option_map (filter (fun p => negb (String.eqb (ip_id p) "cost"))) (ic_parameters e) |}.
Definition exm_varying (e : input_component) : input_component :=
  {| ic_id := ic_id e; ic_model := ic_model e; ic_group := None;
     ic_parameters := option_map (map (fun p => if String.eqb (ip_id p) "cost" then exm_parameter "cost" true false (inr "p_max") else p)) (ic_parameters e) |}.
Definition exm_unknown (e : input_component) : input_component :=
  {| ic_id := ic_id e; ic_model := "models.none"; ic_group := None; ic_parameters := ic_parameters e |}.
Example C58_needs_example : NoDup (input_ids exm_system) /\ NoDup (parameter_keys (all_inputs exm_system)) /\
  NoDup (map yp_id (ym_parameters exm_generator)) /\
  (exists o st, main_cli exm_order exm_libs exm_system exm_files 2 2 = Ok (o, st)) /\
  (exists e, main_cli exm_order exm_libs (exm_changed exm_without) exm_files 2 2 = Err e) /\
  (exists e, main_cli exm_order exm_libs (exm_changed exm_varying) exm_files 2 2 = Err e) /\
  (exists e, main_cli exm_order exm_libs (exm_changed exm_unknown) exm_files 2 2 = Err e) /\
  (exists e, main_cli exm_order exm_libs exm_system (fun name => if String.eqb name "demand" then Err FileNotFoundErr else exm_files name) 2 2 = Err e).
Proof.
  split; [repeat constructor; cbn; intuition discriminate|]. split; [repeat constructor; cbn; intuition discriminate|].
  split; [repeat constructor; cbn; intuition discriminate|].
  split; [destruct exm_runs as (o & st & E & _); exists o, st; exact E|]. repeat split; eexists; vm_compute; reflexivity.
Qed.
