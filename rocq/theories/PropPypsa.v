(** C59, C60: studies converted from PyPSA networks. *)
From Coq Require Import Lia.
From Verif Require Import Base BaseFacts Expr LinearExpr Study Optim System Library Main SpecExpr SpecLibrary SpecLinear SpecOptim SpecMain MainFacts
  Pypsa SpecPypsa PypsaFacts PypsaAccept PypsaProblem.
Local Open Scope string_scope.
Local Open Scope list_scope.

(** ** The network of the examples: two buses joined by a link, a generator whose capacity is to be chosen and one whose
    power depends on the time, a load, a storage unit, a store, and a limit of emissions *)
Definition exp_numbers (z : list Z) : list pcell := map (fun v => CNum (nz v)) z.
Definition exp_buses : dataframe := {|
  df_index := ["north"; "south"];
  df_columns := [("v_nom", exp_numbers [1; 1]); ("x", exp_numbers [0; 0]); ("y", exp_numbers [0; 0]);
    ("v_mag_pu_set", exp_numbers [1; 1]); ("v_mag_pu_min", exp_numbers [0; 0]); ("v_mag_pu_max", [CNum PInf; CNum PInf])]%Z |}.
Definition exp_generators : dataframe := {|
  df_index := ["gas"; "wind"];
  df_columns := [("bus", [CText "north"; CText "south"]); ("carrier", [CText "methane"; CText ""]);
    ("p_nom", exp_numbers [0; 40]); ("p_nom_extendable", [CBool true; CBool false]); ("p_nom_min", exp_numbers [10; 0]);
    ("p_nom_max", [CNum PInf; CNum PInf]); ("p_min_pu", exp_numbers [0; 0]); ("p_max_pu", exp_numbers [1; 1]);
    ("marginal_cost", exp_numbers [50; 0]); ("capital_cost", exp_numbers [7; 3]); ("e_sum_min", [CNum NInf; CNum NInf]);
    ("e_sum_max", [CNum PInf; CNum PInf]); ("sign", exp_numbers [1; 1]); ("efficiency", exp_numbers [2; 1]);
    ("marginal_cost_quadratic", exp_numbers [0; 0]); ("active", [CBool true; CBool true]);
    ("committable", [CBool false; CBool false])]%Z |}.
Definition exp_loads : dataframe := {|
  df_index := ["town"];
  df_columns := [("bus", [CText "south"]); ("p_set", exp_numbers [0]); ("q_set", exp_numbers [0]); ("sign", exp_numbers [-1]);
    ("active", [CBool true])]%Z |}.
Definition exp_links : dataframe := {|
  df_index := ["line"];
  df_columns := [("bus0", [CText "north"]); ("bus1", [CText "south"]); ("carrier", [CText ""]); ("p_nom", exp_numbers [60]);
    ("p_nom_extendable", [CBool false]); ("p_nom_min", exp_numbers [0]); ("p_nom_max", [CNum PInf]); ("p_min_pu", exp_numbers [-1]);
    ("p_max_pu", exp_numbers [1]); ("marginal_cost", exp_numbers [1]); ("capital_cost", exp_numbers [5]);
    ("efficiency", exp_numbers [1]); ("active", [CBool true])]%Z |}.
Definition exp_units (active : bool) : dataframe := {|
  df_index := ["pumped"];
  df_columns := [("bus", [CText "south"]); ("carrier", [CText ""]); ("p_nom", exp_numbers [0]);
    ("p_nom_extendable", [CBool true]); ("p_nom_min", exp_numbers [0]); ("p_nom_max", exp_numbers [20]); ("p_min_pu", exp_numbers [-1]);
    ("p_max_pu", exp_numbers [1]); ("sign", exp_numbers [1]); ("efficiency_store", exp_numbers [1]);
    ("efficiency_dispatch", exp_numbers [1]); ("standing_loss", exp_numbers [0]); ("max_hours", exp_numbers [6]);
    ("marginal_cost", exp_numbers [2]); ("marginal_cost_storage", exp_numbers [0]); ("spill_cost", exp_numbers [0]);
    ("inflow", exp_numbers [30]); ("capital_cost", exp_numbers [9]); ("cyclic_state_of_charge", [CBool true]);
    ("marginal_cost_quadratic", exp_numbers [0]); ("active", [CBool active])]%Z |}.
Definition exp_stores : dataframe := {|
  df_index := ["tank"];
  df_columns := [("bus", [CText "north"]); ("carrier", [CText "methane"]); ("e_nom", exp_numbers [100]);
    ("e_nom_extendable", [CBool false]); ("e_nom_min", exp_numbers [0]); ("e_nom_max", [CNum PInf]); ("e_min_pu", exp_numbers [0]);
    ("e_max_pu", exp_numbers [1]); ("sign", exp_numbers [1]); ("standing_loss", exp_numbers [0]); ("marginal_cost", exp_numbers [0]);
    ("marginal_cost_storage", exp_numbers [1]); ("capital_cost", exp_numbers [4]); ("e_cyclic", [CBool true]);
    ("marginal_cost_quadratic", exp_numbers [0])]%Z |}.
Definition exp_network (active : bool) : pypsa_network := {|
  pn_name := "demo"; pn_investment_periods := 0; pn_weightings := [n1; n1];
  pn_generators := exp_generators; pn_generators_t := [("p_max_pu", [("wind", [Fin (Q2Qc (1 # 2)); n1])]); ("p_set", [])];
  pn_loads := exp_loads; pn_loads_t := [("p_set", [("town", [nz 45; nz 70])])];
  pn_buses := exp_buses; pn_buses_t := [];
  pn_links := exp_links; pn_links_t := [];
  pn_storage_units := exp_units active; pn_storage_units_t := [];
  pn_stores := exp_stores; pn_stores_t := [];
  pn_carriers := {| df_index := ["methane"]; df_columns := [("co2_emissions", exp_numbers [3]); ("color", [CText "red"])] |};
  pn_global_constraints := {| df_index := ["budget"];
    df_columns := [("type", [CText "primary_energy"]); ("carrier_attribute", [CText "co2_emissions"]);
      ("sense", [CText "<="]); ("constant", exp_numbers [500])] |} |}%Z.
Definition exp_order (l : list string) : list string := l.
Lemma exp_set_order : set_order exp_order. Proof. intros l. reflexivity. Qed.
Definition exp_main_order (treated stack s : list string) : list string := s.
Lemma exp_any_order : any_order exp_main_order. Proof. intros a b c. reflexivity. Qed.

(** the hypotheses on networks, by going through the tables *)
Ltac nodup := cbn; repeat constructor; cbn; intuition discriminate.
Ltac full := split; [nodup|split; [nodup|]]; let a := fresh in let c := fresh in let H := fresh in
  intros a c H; cbn in H; repeat (destruct H as [H|H]; [injection H as <- <-; reflexivity|]); destruct H.
Ltac numbers := let a := fresh in let H := fresh in
  intros a H; cbn in H; repeat (destruct H as [<-|H]; [eexists _, _; split; reflexivity|]); destruct H.
Ltac finite := let c := fresh in let l := fresh in let H := fresh in let v := fresh in let Hv := fresh in
  intros c l H; cbn in H; repeat (destruct H as [H|H];
    [injection H as <- <-; split; [cbn; auto|]; split; [cbn; lia|]; intros v Hv; cbn in Hv;
     repeat (destruct Hv as [<-|Hv]; [eexists; reflexivity|]); destruct Hv|]); destruct H.
Ltac tables := let a := fresh in let c := fresh in let H := fresh in
  split; [nodup|]; intros a c H; cbn in H; repeat (destruct H as [H|H];
    [injection H as <- <-; split; [cbn; intuition discriminate|]; split; [nodup|]; finite|]); destruct H.
Ltac row := split; [numbers|]; split;
  [let a := fresh in let H := fresh in intros a H; cbn in H; repeat (destruct H as [<-|H]; [eexists; reflexivity|]); destruct H|];
  let X := fresh in intros X; first [discriminate X|clear X; split; [|eexists; reflexivity];
    eexists; split; [reflexivity|]; first [now left|right; split; [discriminate|eexists _, _; split; reflexivity]]].
Ltac class := split; [full|]; split; [tables|]; split; [let X := fresh in intros X; first [reflexivity|discriminate X]|];
  let c := fresh in let H := fresh in intros c H; cbn in H; repeat (destruct H as [<-|H]; [row|]); destruct H.
Ltac nonzero := let c := fresh in let t := fresh in let H := fresh in
  intros c t H; cbn in H; repeat (destruct H as [<-|H]; [discriminate|]); destruct H.
Ltac good := split; [nodup|]; split; [full|]; split; [cbn; intuition discriminate|]; split; [reflexivity|];
  split; [intros []; class|]; split; [nonzero|]; split; [nonzero|]; split; [full|];
  let c := fresh in let H := fresh in intros c H; cbn in H; repeat (destruct H as [<-|H]; [eexists; reflexivity|]); destruct H.
Lemma exp_good active : good_network (exp_network active) 2.
Proof. good. Qed.
Definition exp_study (active : bool) : input_system * dict string frame :=
  match convert_pypsa exp_order (exp_network active) with Ok r => r | Err _ => ({| is_nodes := []; is_components := []; is_connections := [] |}, []) end.
Notation exp_run active :=
  (main_cli exp_main_order [pypsa_library] (fst (exp_study active)) (series_directory (snd (exp_study active))) 2 1).
Lemma exp_converts : convert_pypsa exp_order (exp_network true) = Ok (exp_study true).
Proof. vm_compute. reflexivity. Qed.
Lemma exp_runs : exists o st, exp_run true = Ok (o, st) /\
  List.length (s_rows (st_solver st)) = 37%nat /\ List.length (s_vars (st_solver st)) = 23%nat.
Proof.
  destruct (exp_run true) as [[o st]|e] eqn:E; [|vm_compute in E; discriminate]. exists o, st. split; [reflexivity|].
  assert (X : match exp_run true with
    | Ok (_, st) => Nat.eqb (List.length (s_rows (st_solver st))) 37 && Nat.eqb (List.length (s_vars (st_solver st))) 23 | Err _ => false end = true)
    by (vm_compute; reflexivity).
  rewrite E in X. apply andb_true_iff in X. destruct X as [X1 X2]. split; now apply Nat.eqb_eq.
Qed.

(** ** C59 *)

(** The study of a network whose tables are full, whose ids are distinct in the study and whose data is finite, run from
    the files that the converter writes: every row of the problem is a constraint of the network, at one snapshot and in
    one scenario; every constraint of the network has a row, at every snapshot and in every scenario; and the row is
    satisfied exactly when the constraint holds between the attributes of the network, up to terms whose coefficients are
    below 1e-16, no more of them than the constraint has quantities.  Missing: the dispatch of storage units is not limited by
    their capacity and storing is limited by `p_max_pu` instead of `p_min_pu`, which [holds] and [limits] say (see [C59_dispatch_refuted]), ids that collide
    (see [C59_collision_refuted]) and the dropped terms. *)
Theorem C59_rows_partial :
  forall order n sys files T S order' o st, set_order order -> convert_pypsa order n = Ok (sys, files) -> good_network n T ->
  (1 <= T)%Z -> (1 <= S)%Z -> any_order order' ->
  main_cli order' [pypsa_library] sys (series_directory files) T S = Ok (o, st) ->
  exists drops, List.length drops = List.length (s_rows (st_solver st)) /\
  (forall j row d, nth_error (s_rows (st_solver st)) j = Some row -> nth_error drops j = Some d ->
     exists k t s, of_network n k /\ (0 <= t < T)%Z /\ (0 <= s < S)%Z /\ few (constraint_size n T k) d /\
       sr_name row = (fst (constraint_place k) ++ "_" ++ snd (constraint_place k) ++ "_t" ++ string_of_Z t ++ "_s" ++ string_of_Z s)%string /\
       forall x y, network_decisions n T x -> network_values n T S o st y x ->
       (row_sat y row <-> exists w, terms_value (decisions_at x t s) d = Some w /\ holds n T x k w t s)) /\
  (forall k t s, of_network n k -> (0 <= t < T)%Z -> (0 <= s < S)%Z ->
     exists j row d, nth_error (s_rows (st_solver st)) j = Some row /\ nth_error drops j = Some d /\
       few (constraint_size n T k) d /\
       forall x y, network_decisions n T x -> network_values n T S o st y x ->
       (row_sat y row <-> exists w, terms_value (decisions_at x t s) d = Some w /\ holds n T x k w t s)).
Proof. exact network_rows. Qed.
Print Assumptions C59_rows_partial.
Example C59_rows_example :
  set_order exp_order /\ convert_pypsa exp_order (exp_network true) = Ok (exp_study true) /\ good_network (exp_network true) 2 /\
  any_order exp_main_order /\
  exists o st, main_cli exp_main_order [pypsa_library] (fst (exp_study true)) (series_directory (snd (exp_study true))) 2 1 = Ok (o, st) /\
    List.length (s_rows (st_solver st)) = 37%nat /\ List.length (s_vars (st_solver st)) = 23%nat.
Proof.
  split; [exact exp_set_order|]. split; [exact exp_converts|].
  split; [exact (exp_good true)|]. split; [exact exp_any_order|]. exact exp_runs.
Qed.
Example C59_sizes_example : map (constraint_size (exp_network true) 2) [PowerBalance "north"; PowerBalance "south"] = [3; 4]%nat /\
  cost_size (exp_network true) 2 1 = 21%nat.
Proof. split; vm_compute; reflexivity. Qed.

(** The objective is the cost of the network: investment in extendable capacities, and marginal costs over the snapshots,
    in expectation over the scenarios, up to terms whose coefficients are below 1e-16, no more of them than the cost has
    quantities. *)
Theorem C59_cost_partial :
  forall order n sys files T S order' o st, set_order order -> convert_pypsa order n = Ok (sys, files) -> good_network n T ->
  (1 <= T)%Z -> (1 <= S)%Z -> any_order order' ->
  main_cli order' [pypsa_library] sys (series_directory files) T S = Ok (o, st) ->
  exists dropped, few (cost_size n T S) dropped /\
  forall x y t s, network_decisions n T x -> network_values n T S o st y x -> (0 <= s)%Z ->
  olift2 Qcplus (objective_value y (st_solver st)) (terms_value (decisions_at x t s) dropped) = Some (network_cost n T S x).
Proof. exact network_objective. Qed.
Print Assumptions C59_cost_partial.
(** 7 for each unit of the capacity of the gas plant, 50 for each unit it produces, 1 for what goes through the line or is
    stored in the tank, 9 for the capacity of the storage and 2 for what it gives *)
Example C59_cost_example : exists o st, exp_run true = Ok (o, st) /\
  network_cost (exp_network true) 2 1 (fun _ _ _ _ => 1%Qc) = Z2Qc (50 * 2 + 7 + 1 * 2 + 2 * 2 + 9 + 1 * 2) /\
  objective_value (fun _ => 1%Qc) (st_solver st) = Some (Z2Qc (50 * 2 + 7 + 1 * 2 + 2 * 2 + 9 + 1 * 2)).
Proof.
  destruct exp_runs as (o & st & E & _). exists o, st. split; [exact E|]. split; [apply Qc_is_canon; vm_compute; reflexivity|].
  assert (X : match exp_run true with Ok (_, st) => match objective_value (fun _ => 1%Qc) (st_solver st) with
                | Some q => Qceqb q (Z2Qc (50 * 2 + 7 + 1 * 2 + 2 * 2 + 9 + 1 * 2)) | None => false end | Err _ => false end = true)
    by (vm_compute; reflexivity).
  rewrite E in X. destruct (objective_value (fun _ => 1%Qc) (st_solver st)) as [q|]; [|discriminate]. now apply Qceqb_eq in X as ->.
Qed.

(** Every quantity of a component has one variable, with the name of the component in the study; two quantities share a
    variable only when they are the same quantity, of the same component, at the same snapshot and in the same scenario
    unless it is a capacity; and decisions about the network correspond to values of the variables. *)
Theorem C59_decisions_partial :
  forall order n sys files T S order' o st, set_order order -> convert_pypsa order n = Ok (sys, files) -> good_network n T ->
  (1 <= T)%Z -> (1 <= S)%Z -> any_order order' ->
  main_cli order' [pypsa_library] sys (series_directory files) T S = Ok (o, st) ->
  (forall k c q varies t s, In c (names n k) -> In (q, varies) (quantities k) -> (0 <= t < T)%Z -> (0 <= s < S)%Z ->
     exists i sv, held o st k c q varies t s i /\ nth_error (s_vars (st_solver st)) i = Some sv /\
       sv_name sv = solver_variable_name o (study_id k c) q (given_index varies t) (given_index varies s)) /\
  (forall k c q varies t s k' c' q' varies' t' s' i, In c (names n k) -> In (q, varies) (quantities k) ->
     In c' (names n k') -> In (q', varies') (quantities k') -> (0 <= t < T)%Z -> (0 <= t' < T)%Z ->
     held o st k c q varies t s i -> held o st k' c' q' varies' t' s' i ->
     k = k' /\ c = c' /\ q = q' /\ (varies = true -> t = t' /\ s = s')) /\
  (forall x, network_decisions n T x -> exists y, network_values n T S o st y x) /\
  (forall y, exists x, network_decisions n T x /\ network_values n T S o st y x).
Proof. exact network_places. Qed.
Print Assumptions C59_decisions_partial.
Definition exp_placed (o : settings) (st : state) : bool :=
  match get_component_variable o st None None "gas_generator" "p_nom", get_component_variable o st (Some 1%Z) (Some 0%Z) "pumped_storage" "p_store",
    nth_error (map sv_name (s_vars (st_solver st))) 11 with
  | Ok i, Ok j, Some v => Nat.eqb i 0 && Nat.eqb j 11 && String.eqb v "pumped_storage_p_store_t1" | _, _, _ => false end.
Lemma exp_placed_ok o st : exp_placed o st = true ->
  held o st Generators "gas" "p_nom" false 1 0 0 /\ held o st StorageUnits "pumped" "p_store" true 1 0 11 /\
  nth_error (map sv_name (s_vars (st_solver st))) 11 = Some "pumped_storage_p_store_t1".
Proof.
  unfold exp_placed. destruct (get_component_variable o st None None _ _) as [i|] eqn:E1; [|discriminate].
  destruct (get_component_variable o st (Some 1%Z) _ _ _) as [j|] eqn:E2; [|discriminate].
  destruct (nth_error _ 11) as [v|]; [|discriminate]. intros H. apply andb_true_iff in H. destruct H as [H H3].
  apply andb_true_iff in H. destruct H as [H1 H2]. apply Nat.eqb_eq in H1, H2. apply String.eqb_eq in H3. subst.
  split; [exact E1|]. split; [exact E2|reflexivity].
Qed.
Example C59_decisions_example : exists o st, exp_run true = Ok (o, st) /\
  held o st Generators "gas" "p_nom" false 1 0 0 /\ held o st StorageUnits "pumped" "p_store" true 1 0 11 /\
  nth_error (map sv_name (s_vars (st_solver st))) 11 = Some "pumped_storage_p_store_t1".
Proof.
  destruct exp_runs as (o & st & E & _). exists o, st. split; [exact E|]. apply exp_placed_ok.
  assert (X : match exp_run true with Ok (o, st) => exp_placed o st | Err _ => false end = true) by (vm_compute; reflexivity).
  rewrite E in X. exact X.
Qed.

(** ** The network of the counter-example: a storage unit of chosen capacity that serves a load *)
Definition exd_empty (df : dataframe) : dataframe := {| df_index := []; df_columns := map (fun kc => (fst kc, [])) (df_columns df) |}.
Definition exd_network : pypsa_network := {|
  pn_name := "demo"; pn_investment_periods := 0; pn_weightings := [n1];
  pn_generators := exd_empty exp_generators; pn_generators_t := [];
  pn_loads := exp_loads; pn_loads_t := [("p_set", [("town", [nz 20])])];
  pn_buses := exp_buses; pn_buses_t := [];
  pn_links := exd_empty exp_links; pn_links_t := [];
  pn_storage_units := exp_units true; pn_storage_units_t := [];
  pn_stores := exd_empty exp_stores; pn_stores_t := [];
  pn_carriers := {| df_index := []; df_columns := [("co2_emissions", [])] |};
  pn_global_constraints := {| df_index := []; df_columns := [] |} |}%Z.
Lemma exd_good : good_network exd_network 1.
Proof. good. Qed.
Definition exd_study : input_system * dict string frame :=
  match convert_pypsa exp_order exd_network with Ok r => r | Err _ => ({| is_nodes := []; is_components := []; is_connections := [] |}, []) end.
Notation exd_run :=
  (main_cli exp_main_order [pypsa_library] (fst exd_study) (series_directory (snd exd_study)) 1 1).
(** checking of values *)
Definition exd_between (lb ub : num) (v : Qc) : bool :=
  match lb with NInf => true | Fin q => Qcleb q v | _ => false end && match ub with PInf => true | Fin q => Qcleb v q | _ => false end.
Lemma exd_between_ok lb ub v : exd_between lb ub v = true -> at_least lb v /\ at_most ub v.
Proof.
  unfold exd_between. intros H. apply andb_true_iff in H. destruct H as [H1 H2].
  destruct lb, ub; try discriminate; split; cbn; try exact I; now apply Qcleb_le.
Qed.
Definition exd_feasible (y : nat -> Qc) (s : solver) : bool :=
  forallb (fun r => match coefs_value y (sr_coefs r) with Some v => exd_between (sr_lb r) (sr_ub r) v | None => false end) (s_rows s) &&
  forallb (fun iv => exd_between (sv_lb (snd iv)) (sv_ub (snd iv)) (y (fst iv))) (combine (seq 0 (List.length (s_vars s))) (s_vars s)).
Lemma exd_feasible_ok y s : exd_feasible y s = true ->
  (forall row, In row (s_rows s) -> row_sat y row) /\
  (forall i sv, nth_error (s_vars s) i = Some sv -> at_least (sv_lb sv) (y i) /\ at_most (sv_ub sv) (y i)).
Proof.
  unfold exd_feasible. intros H. apply andb_true_iff in H. destruct H as [H1 H2]. rewrite forallb_forall in H1, H2. split.
  - intros row Hr. specialize (H1 row Hr). destruct (coefs_value y (sr_coefs row)) as [v|] eqn:E; [|discriminate].
    exists v. split; [exact E|]. now apply exd_between_ok.
  - intros i sv Hi. apply (exd_between_ok _ _ _). refine (H2 (i, sv) _). clear - Hi.
    assert (X : forall i l a, nth_error l i = Some sv -> In ((a + i)%nat, sv) (combine (seq a (List.length l)) l)).
    { induction i0 as [|j IH]; intros [|v l] a H; try discriminate; cbn in *.
      - injection H as ->. left. f_equal. lia.
      - right. rewrite Nat.add_succ_r. exact (IH l (Datatypes.S a) H). }
    exact (X i _ 0%nat Hi).
Qed.
Definition exd_values (i : nat) : Qc := nth i (map Z2Qc [5; 0; 20; 0; 10]%Z) 0%Qc.
Definition exd_placed (o : settings) (st : state) : bool :=
  match get_component_variable o st (Some 0%Z) (Some 0%Z) "pumped_storage" "p_dispatch",
        get_component_variable o st None None "pumped_storage" "p_nom" with
  | Ok i, Ok j => Nat.eqb i 2 && Nat.eqb j 0 | _, _ => false end.
Lemma exd_placed_ok o st : exd_placed o st = true ->
  held o st StorageUnits "pumped" "p_dispatch" true 0 0 2 /\ held o st StorageUnits "pumped" "p_nom" false 0 0 0.
Proof.
  unfold exd_placed. destruct (get_component_variable o st (Some 0%Z) _ _ _) as [i|] eqn:E1; [|discriminate].
  destruct (get_component_variable o st None None _ _) as [j|] eqn:E2; [|discriminate]. intros H.
  apply andb_true_iff in H. destruct H as [H1 H2]. apply Nat.eqb_eq in H1, H2. subst. split; [exact E1|exact E2].
Qed.
Lemma exd_runs : exists o st, exd_run = Ok (o, st) /\ exd_feasible exd_values (st_solver st) = true /\ exd_placed o st = true.
Proof.
  destruct exd_run as [[o st]|e] eqn:E; [|vm_compute in E; discriminate]. exists o, st. split; [reflexivity|].
  assert (X : match exd_run with Ok (o, st) => exd_feasible exd_values (st_solver st) && exd_placed o st | Err _ => false end = true)
    by (vm_compute; reflexivity).
  rewrite E in X. apply andb_true_iff in X. exact X.
Qed.
(** A storage unit of capacity 5 may give 20: the row named after dispatch limits storing *)
Theorem C59_dispatch_refuted : exists order n sys files order' o st y u i j,
  set_order order /\ good_network n 1 /\ convert_pypsa order n = Ok (sys, files) /\ any_order order' /\
  main_cli order' [pypsa_library] sys (series_directory files) 1 1 = Ok (o, st) /\
  (forall row, In row (s_rows (st_solver st)) -> row_sat y row) /\
  (forall i sv, nth_error (s_vars (st_solver st)) i = Some sv -> at_least (sv_lb sv) (y i) /\ at_most (sv_ub sv) (y i)) /\
  In u (names n StorageUnits) /\ held o st StorageUnits u "p_dispatch" true 0 0 i /\ held o st StorageUnits u "p_nom" false 0 0 j /\
  (attribute n 1 StorageUnits u "p_max_pu" 0 * y j < y i)%Qc.
Proof.
  destruct exd_runs as (o & st & E & F & P). destruct (exd_feasible_ok _ _ F) as [F1 F2]. destruct (exd_placed_ok _ _ P) as [H1 H2].
  exists exp_order, exd_network, (fst exd_study), (snd exd_study), exp_main_order, o, st, exd_values, "pumped", 2%nat, 0%nat.
  split; [exact exp_set_order|]. split; [exact exd_good|]. split; [vm_compute; reflexivity|]. split; [exact exp_any_order|].
  split; [exact E|]. split; [exact F1|]. split; [exact F2|]. split; [now left|]. split; [exact H1|]. split; [exact H2|].
  reflexivity.
Qed.
Print Assumptions C59_dispatch_refuted.

(** A link that bears the name of a bus, which PyPSA accepts, is converted to a study that cannot be run *)
Definition exc_network : pypsa_network := {|
  pn_name := "demo"; pn_investment_periods := 0; pn_weightings := [n1; n1];
  pn_generators := exp_generators; pn_generators_t := [];
  pn_loads := exp_loads; pn_loads_t := [];
  pn_buses := exp_buses; pn_buses_t := [];
  pn_links := {| df_index := ["north"]; df_columns := df_columns exp_links |}; pn_links_t := [];
  pn_storage_units := exp_units true; pn_storage_units_t := [];
  pn_stores := exp_stores; pn_stores_t := [];
  pn_carriers := {| df_index := ["methane"]; df_columns := [("co2_emissions", exp_numbers [3]); ("color", [CText "red"])] |};
  pn_global_constraints := {| df_index := []; df_columns := [] |} |}%Z.
Definition exc_study : input_system * dict string frame :=
  match convert_pypsa exp_order exc_network with Ok r => r | Err _ => ({| is_nodes := []; is_components := []; is_connections := [] |}, []) end.
Theorem C59_collision_refuted : exists order n sys files order' e,
  set_order order /\ (forall k, full_table (table n k)) /\ convert_pypsa order n = Ok (sys, files) /\ any_order order' /\
  main_cli order' [pypsa_library] sys (series_directory files) 2 1 = Err e.
Proof.
  exists exp_order, exc_network, (fst exc_study), (snd exc_study), exp_main_order, ValueError.
  split; [exact exp_set_order|]. split; [intros []; full|]. split; [vm_compute; reflexivity|]. split; [exact exp_any_order|]. vm_compute. reflexivity.
Qed.
Print Assumptions C59_collision_refuted.

(** Each variable of the problem is a quantity of a component of the network; none is an integer; the limits are those of
    the network's tables, and in order. *)
Theorem C59_variables_partial :
  forall order n sys files T S order' o st, set_order order -> convert_pypsa order n = Ok (sys, files) -> good_network n T ->
  (1 <= T)%Z -> (1 <= S)%Z -> any_order order' ->
  main_cli order' [pypsa_library] sys (series_directory files) T S = Ok (o, st) ->
  forall i sv, nth_error (s_vars (st_solver st)) i = Some sv ->
  exists k c q varies t s, In c (names n k) /\ In (q, varies) (quantities k) /\ (0 <= t < T)%Z /\ (0 <= s < S)%Z /\
    held o st k c q varies t s i /\ sv_integer sv = false /\ (sv_lb sv, sv_ub sv) = limits n T k c q t /\ num_le (sv_lb sv) (sv_ub sv).
Proof. exact network_variables. Qed.
Print Assumptions C59_variables_partial.
(** the capacities of the two generators, and what the storage may hold *)
Example C59_variables_example : exists o st, exp_run true = Ok (o, st) /\
  nth_error (map (fun v => (sv_name v, sv_lb v, sv_ub v)) (s_vars (st_solver st))) 0 = Some ("gas_generator_p_nom", nz 10, nz (10 ^ 20)) /\
  nth_error (map (fun v => (sv_name v, sv_lb v, sv_ub v)) (s_vars (st_solver st))) 3 = Some ("wind_generator_p_nom", nz 40, nz 40) /\
  nth_error (map (fun v => (sv_name v, sv_lb v, sv_ub v)) (s_vars (st_solver st))) 14 = Some ("pumped_storage_state_of_charge_t0", n0, nz 120).
Proof.
  destruct exp_runs as (o & st & E & _). exists o, st. split; [exact E|].
  pose (view := fun l : list solver_var => map (fun v => (sv_name v, sv_lb v, sv_ub v)) l).
  assert (X : forall i, match exp_run true with Ok (_, st) => nth_error (view (s_vars (st_solver st))) i | Err _ => None end
    = nth_error (view (s_vars (st_solver st))) i) by (intros i; rewrite E; reflexivity).
  unfold view in X. rewrite <- !X. split; [|split]; vm_compute; reflexivity.
Qed.

(** ** C60 *)

(** Whatever the network, conversion succeeds only if its features are those that a study can express: one period, snapshots
    of weight one, linear costs, no unit commitment, active generators, loads and links, storages of positive sign that are
    cyclic, and limits or targets of CO2 emissions as only global constraints. *)
Theorem C60_unsupported_refused : forall order n r, convert_pypsa order n = Ok r -> supported n.
Proof. exact accepted_supported. Qed.
Print Assumptions C60_unsupported_refused.
(** Every network of this kind whose tables are full, whose ids are distinct in the study and whose data is finite is converted. *)
Theorem C60_supported_accepted : forall order n T, set_order order -> good_network n T -> all_columns n -> supported n ->
  exists r, convert_pypsa order n = Ok r.
Proof. exact supported_accepted. Qed.
Print Assumptions C60_supported_accepted.
Example C60_example : good_network (exp_network true) 2 /\ all_columns (exp_network true) /\ supported (exp_network true) /\
  (exists r, convert_pypsa exp_order (exp_network true) = Ok r) /\
  convert_pypsa exp_order {| pn_name := "demo"; pn_investment_periods := 0; pn_weightings := [n1; nz 2];
    pn_generators := exp_generators; pn_generators_t := []; pn_loads := exp_loads; pn_loads_t := []; pn_buses := exp_buses; pn_buses_t := [];
    pn_links := exp_links; pn_links_t := []; pn_storage_units := exp_units true; pn_storage_units_t := []; pn_stores := exp_stores;
    pn_stores_t := []; pn_carriers := pn_carriers (exp_network true); pn_global_constraints := {| df_index := []; df_columns := [] |} |}
  = Err AssertionErr.
Proof.
  split; [exact (exp_good true)|]. split.
  { intros [] a H; cbn in H; repeat (destruct H as [<-|H]; [reflexivity|]); destruct H. }
  split; [exact (accepted_supported _ _ _ exp_converts)|]. split; [exists (exp_study true); exact exp_converts|]. vm_compute. reflexivity.
Qed.
(** The checks named after storage units and stores look at the links: a storage unit that is not active is converted
    like the others. *)
Theorem C60_inactive_refuted : exists order n sys files u, set_order order /\ good_network n 2 /\
  convert_pypsa order n = Ok (sys, files) /\ entry_of (pn_storage_units n) u "active" = Some (CBool false) /\
  In (study_id StorageUnits u) (map ic_id (is_components sys)).
Proof.
  exists exp_order, (exp_network false), (fst (exp_study false)), (snd (exp_study false)), "pumped".
  split; [exact exp_set_order|]. split; [exact (exp_good false)|]. split; [vm_compute; reflexivity|]. split; [reflexivity|].
  vm_compute. tauto.
Qed.
Print Assumptions C60_inactive_refuted.

(** ** C61 *)

(** The network that the caller holds, after the conversion: each attribute and each time series is still there under the
    new name of the component, except the carrier, the limits of capacities and their cost; buses and links keep their
    names.  Missing: the same names and values (see [C61_refuted]). *)
Theorem C61_kept_partial : forall n n', preprocess n = Ok n' ->
  (forall k, names n' k = map (study_id k) (names n k)) /\ names n' Buses = names n Buses /\ names n' Links = names n Links /\
  (forall k c a v, entry_of (table n k) c a = Some v -> ends_with "_carrier" a = false ->
     ~ In a ["carrier"; capacity k ++ "_min"; capacity k ++ "_max"; "capital_cost"]%string -> entry_of (table n' k) (study_id k c) a = Some v) /\
  (forall k c a l, series_of_attribute n k c a = Some l -> series_of_attribute n' k (study_id k c) a = Some l).
Proof.
  intros n n' Pre. assert (N : forall k, names n' k = map (study_id k) (names n k)) by exact (table_index n n' Pre).
  assert (Id : forall l, map (fun c => (c ++ "")%string) l = l) by (induction l as [|c l IH]; cbn; [reflexivity|now rewrite append_nil, IH]).
  split; [exact N|]. split; [rewrite N; apply Id|]. split; [rewrite N; apply Id|]. split.
  - intros k c a v. exact (kept_entry n n' k c a v Pre).
  - intros k c a l. exact (kept_series n n' k c a l Pre).
Qed.
Print Assumptions C61_kept_partial.
(** The conversion writes into the caller's network: generators have other names, and the cost of those that are not
    extendable is lost. *)
Theorem C61_refuted : exists n n', good_network n 2 /\ supported n /\ preprocess n = Ok n' /\
  names n Generators = ["gas"; "wind"] /\ names n' Generators = ["gas_generator"; "wind_generator"] /\
  entry_of (pn_generators n) "wind" "capital_cost" = Some (CNum (nz 3)) /\
  entry_of (pn_generators n') "wind_generator" "capital_cost" = Some (CNum n0).
Proof.
  destruct (preprocess (exp_network true)) as [n'|] eqn:E; [|vm_compute in E; discriminate]. exists (exp_network true), n'.
  split; [exact (exp_good true)|]. split; [exact (accepted_supported _ _ _ exp_converts)|]. split; [exact E|]. split; [reflexivity|].
  assert (X : match preprocess (exp_network true) with Ok n' => (names n' Generators, entry_of (pn_generators n') "wind_generator" "capital_cost") | Err _ => ([], None) end
    = (["gas_generator"; "wind_generator"], Some (CNum n0))) by (vm_compute; reflexivity).
  rewrite E in X. injection X as X1 X2. split; [exact X1|]. split; [reflexivity|exact X2].
Qed.
Print Assumptions C61_refuted.
