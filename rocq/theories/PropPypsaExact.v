(** PyPSA networks of limited precision, converted and run: C85 and C86. *)
From Coq Require Import Lia Lqa.
From Verif Require Import Base BaseFacts Expr LinearExpr Study Optim System Library Main SpecExpr SpecLibrary SpecSystem SpecLinear SpecOptim SpecMain
  Pypsa SpecPypsa PypsaFacts PypsaProblem SpecScenarios SpecPrecise SpecPypsaExact PypsaExact PypsaLaws PropPypsa.
Local Open Scope string_scope.
Local Open Scope list_scope.

(** ** C85: the problem solved is the one the network describes *)

(** When the numbers of the network are whole numbers of [1 / D], and the inverses of those by which it divides, with [D * D] and
    [D * S] at most 1e16, values of the solver's variables are allowed exactly when the quantities they stand for are within the
    limits of the network and satisfy its constraints at every snapshot, in every scenario. *)
Theorem C85_feasible : forall order n sys files T S order' o st,
  set_order order -> convert_pypsa order n = Ok (sys, files) -> good_network n T -> (1 <= T)%Z -> (1 <= S)%Z -> any_order order' ->
  main_cli order' [pypsa_library] sys (series_directory files) T S = Ok (o, st) -> precise_network n T S ->
  forall x y, network_decisions n T x -> network_values n T S o st y x ->
  solves y (st_solver st) <-> network_feasible n T S x.
Proof. exact pypsa_feasible. Qed.
Print Assumptions C85_feasible.

(** What the solver minimises is the cost of the network. *)
Theorem C85_cost : forall order n sys files T S order' o st,
  set_order order -> convert_pypsa order n = Ok (sys, files) -> good_network n T -> (1 <= T)%Z -> (1 <= S)%Z -> any_order order' ->
  main_cli order' [pypsa_library] sys (series_directory files) T S = Ok (o, st) -> precise_network n T S ->
  forall x y, network_decisions n T x -> network_values n T S o st y x ->
  objective_value y (st_solver st) = Some (network_cost n T S x).
Proof. exact pypsa_cost. Qed.
Print Assumptions C85_cost.

(** So an optimal solution is a cheapest plan of the network, and conversely. *)
Theorem C85_optimum : forall order n sys files T S order' o st,
  set_order order -> convert_pypsa order n = Ok (sys, files) -> good_network n T -> (1 <= T)%Z -> (1 <= S)%Z -> any_order order' ->
  main_cli order' [pypsa_library] sys (series_directory files) T S = Ok (o, st) -> precise_network n T S ->
  forall x y, network_decisions n T x -> network_values n T S o st y x ->
  optimal y (st_solver st) <-> network_cheapest n T S x.
Proof. exact pypsa_optimum. Qed.
Print Assumptions C85_optimum.

(** *** The network of the examples of C59: its numbers are halves *)
Lemma multiple_check D q : Qden (this (q * Z2Qc D)%Qc) = 1%positive -> multiple D q.
Proof.
  intros H. exists (Qnum (this (q * Z2Qc D)%Qc)). revert H. generalize (q * Z2Qc D)%Qc. intros w H. apply Qc_is_canon. unfold Z2Qc. cbn [this Q2Qc].
  rewrite Qred_correct. destruct (this w) as [a b]. cbn in H |- *. subst b. reflexivity.
Qed.
Ltac each H := cbn in H; repeat (destruct H as [<-|H]; [|]); [..|destruct H].
Ltac halves := apply multiple_check; vm_compute; reflexivity.
Ltac both_hours t := let B := fresh in let E := fresh in
  rewrite <- attribute_periodic by lia; pose proof (Z.mod_pos_bound t 2 ltac:(lia)) as B; assert (E : (t mod 2 = 0 \/ t mod 2 = 1)%Z) by lia;
  destruct E as [-> | ->].
Ltac precision := exists 2%Z; split; [lia|]; split; [vm_compute; discriminate|]; split; [vm_compute; discriminate|]; split;
  [let k := fresh "k" in let c := fresh "c" in let Hc := fresh "Hc" in intros k c Hc; split; [|split];
   [let a := fresh "a" in let t := fresh "t" in let Ha := fresh "Ha" in
    intros a t Ha; both_hours t; destruct k; each Hc; each Ha; halves
   |let a := fresh "a" in let t := fresh "t" in let Ha := fresh "Ha" in
    intros a t Ha; both_hours t; destruct k; each Hc; each Ha; halves
   |let H := fresh "H" in intros H; destruct k; try discriminate H; each Hc; split; halves]
  |let c := fresh "c" in let Hc := fresh "Hc" in intros c Hc; each Hc; halves].
Lemma exp_precise : precise_network (exp_network true) 2 1.
Proof. precision. Qed.
(** the wind and the inflows of "pumped" are used as far as possible, "gas" produces the rest, of which 10 is its least capacity; nothing is
    kept from one snapshot to the next, and no capacity of "pumped" is chosen: its dispatch is not limited by it (see C59_dispatch_refuted) *)
Definition exp_plan (c q : string) (t sc : Z) : Qc :=
  let at_ k id n := (String.eqb c (study_id k id) && String.eqb q n)%bool in
  let hours a b := Z2Qc (if Z.even t then a else b) in
  if at_ Generators "gas" "p" then hours 5%Z 10%Z else if at_ Generators "gas" "p_nom" then hours 10%Z 10%Z
  else if at_ Generators "wind" "p" then hours 20%Z 40%Z else if at_ Generators "wind" "p_nom" then hours 40%Z 40%Z
  else if at_ Links "line" "p0" then hours 5%Z 10%Z else if at_ Links "line" "p_nom" then hours 60%Z 60%Z
  else if at_ StorageUnits "pumped" "p_dispatch" then hours 20%Z 20%Z else if at_ StorageUnits "pumped" "spill" then hours 10%Z 10%Z
  else if at_ Stores "tank" "e_nom" then hours 100%Z 100%Z else 0%Qc.
Lemma exp_plan_decisions n : names n Generators = ["gas"; "wind"] -> names n Links = ["line"] -> names n StorageUnits = ["pumped"] ->
  names n Stores = ["tank"] -> network_decisions n 2 exp_plan.
Proof.
  intros E1 E2 E3 E4. split.
  - intros c q t sc. unfold exp_plan. replace (Z.even (t + 2)) with (Z.even t); [reflexivity|]. rewrite Z.even_add. now destruct (Z.even t).
  - intros k c q t s t' s' Hc Hq. destruct k; try (destruct Hq; fail); rewrite ?E1, ?E2, ?E3, ?E4 in Hc; each Hc; cbn in Hq;
      repeat (destruct Hq as [Hq|Hq]; [try discriminate Hq; injection Hq as <-|]); try (destruct Hq; fail);
      unfold exp_plan; cbn -[Z.even Z2Qc]; destruct (Z.even t), (Z.even t'); reflexivity.
Qed.
Lemma exp_plan_feasible : network_feasible (exp_network true) 2 1 exp_plan.
Proof.
  split.
  - intros k c q b t sc Hc Hq Ht Hs. assert (sc = 0%Z) by lia. subst sc. assert (Tt : t = 0%Z \/ t = 1%Z) by lia.
    destruct k; try (destruct Hq; fail); each Hc; cbn in Hq;
      repeat (destruct Hq as [[= <- <-]|Hq]; [destruct Tt as [-> | ->]; split; vm_compute; first [exact I|discriminate]|]); destruct Hq.
  - intros r t sc Hr Ht Hs. assert (sc = 0%Z) by lia. subst sc. assert (Tt : t = 0%Z \/ t = 1%Z) by lia.
    destruct r; cbn [of_network] in Hr; try (destruct Hr as [Hr Sense]; try (vm_compute in Sense; discriminate Sense)); each Hr;
      destruct Tt as [-> | ->]; first [apply Qc_is_canon; vm_compute; reflexivity|vm_compute; discriminate].
Qed.

(** no plan is cheaper *)
Lemma this_plus a b : (this (a + b)%Qc == this a + this b)%Q. Proof. apply Qred_correct. Qed.
Lemma this_mult a b : (this (a * b)%Qc == this a * this b)%Q. Proof. apply Qred_correct. Qed.
Lemma this_opp a : (this (- a)%Qc == - this a)%Q. Proof. apply Qred_correct. Qed.
Lemma this_Q q : (this (Q2Qc q) == q)%Q. Proof. apply Qred_correct. Qed.
Lemma this_eq a b : a = b -> (this a == this b)%Q. Proof. now intros ->. Qed.
Lemma this_le a b : (a <= b)%Qc -> (this a <= this b)%Q. Proof. exact (fun H => H). Qed.
Lemma over_one a : (a / Z2Qc 1 = a)%Qc. Proof. change (Z2Qc 1) with 1%Qc. field. discriminate. Qed.
Ltac known e := let v := eval vm_compute in (this e) in replace e with (Q2Qc v) by (apply Qc_is_canon; vm_compute; reflexivity).
Ltac known_in e H := let v := eval vm_compute in (this e) in replace e with (Q2Qc v) in H by (apply Qc_is_canon; vm_compute; reflexivity).
Ltac listed e := let v := eval vm_compute in e in change e with v.
Ltac listed_in e H := let v := eval vm_compute in e in change e with v in H.
Ltac figures_in H :=
  repeat match type of H with
  | context [attached ?n ?k ?c ?b] => listed_in (attached n k c b) H
  | context [attribute ?n ?T ?k ?c ?a ?t] => known_in (attribute n T k c a t) H
  | context [greatest_capacity ?n ?k ?c] => known_in (greatest_capacity n k c) H
  | context [least_capacity ?n ?k ?c] => known_in (least_capacity n k c) H
  end.
Ltac figures :=
  repeat match goal with
  | |- context [attribute ?n ?T ?k ?c ?a ?t] => known (attribute n T k c a t)
  | |- context [investment_cost ?n ?k ?c] => known (investment_cost n k c)
  end.
Ltac rational_in H := first [apply this_eq in H|apply this_le in H];
  unfold Qcminus in H; do 3 rewrite ?this_plus, ?this_mult, ?this_opp, ?this_Q in H.
Ltac row_of R k t := let H := fresh "H" in
  pose proof (R k t 0%Z ltac:(cbn; tauto) ltac:(lia) ltac:(lia)) as H; cbn [holds] in H; unfold injection, of_generator, of_link, of_unit, of_store in H;
  figures_in H; unfold qsum in H; cbn [fold_right] in H; figures_in H; change (0 - 1)%Z with (-1)%Z in H; change (1 - 1)%Z with 0%Z in H; rational_in H.
Ltac limit_of L k c q b t := let H := fresh "H" in let H' := fresh "H" in
  pose proof (L k c q b t 0%Z ltac:(cbn; tauto) ltac:(cbn; tauto) ltac:(lia) ltac:(lia)) as [H H'];
  cbn [limits fst snd at_least at_most String.eqb Ascii.eqb Bool.eqb] in H, H'; figures_in H; figures_in H'; rational_in H; rational_in H'.
Lemma exp_plan_cheapest : network_cheapest (exp_network true) 2 1 exp_plan.
Proof.
  split; [exact exp_plan_feasible|]. intros x Dx [L R].
  assert (C : network_cost (exp_network true) 2 1 exp_plan = Z2Qc 915) by (apply Qc_is_canon; vm_compute; reflexivity). rewrite C. clear C.
  pose proof (proj1 Dx (study_id Stores "tank") "e" (-1)%Z 0%Z) as Cycle. change (-1 + 2)%Z with 1%Z in Cycle. rational_in Cycle.
  row_of R (PowerBalance "north") 0%Z. row_of R (PowerBalance "north") 1%Z. row_of R (PowerBalance "south") 0%Z. row_of R (PowerBalance "south") 1%Z.
  row_of R (GreatestDispatch "wind") 0%Z. row_of R (GreatestDispatch "wind") 1%Z.
  row_of R (EnergyBalance "tank") 0%Z. row_of R (EnergyBalance "tank") 1%Z. row_of R (LeastEnergy "tank") 0%Z. row_of R (LeastEnergy "tank") 1%Z.
  limit_of L Generators "gas" "p_nom" false 0%Z. limit_of L Generators "wind" "p_nom" false 0%Z. limit_of L Generators "wind" "p_nom" false 1%Z.
  limit_of L StorageUnits "pumped" "p_nom" false 0%Z.
  limit_of L StorageUnits "pumped" "p_dispatch" true 0%Z. limit_of L StorageUnits "pumped" "p_dispatch" true 1%Z.
  limit_of L StorageUnits "pumped" "p_store" true 0%Z. limit_of L StorageUnits "pumped" "p_store" true 1%Z.
  unfold network_cost. listed (names (exp_network true) Generators). listed (names (exp_network true) Links).
  listed (names (exp_network true) StorageUnits). listed (names (exp_network true) Stores).
  unfold qsum. cbn [fold_right]. unfold generator_cost, link_cost, unit_cost, store_cost, expected, over_time, of_generator, of_link, of_unit, of_store.
  listed (zrange 0 2). listed (zrange 0 1). unfold qsum. cbn [fold_right]. rewrite !over_one. figures.
  unfold Qcle. known (Z2Qc 915). do 3 rewrite ?this_plus, ?this_mult, ?this_opp, ?this_Q.
  lra.
Qed.
Example C85_example : set_order exp_order /\ convert_pypsa exp_order (exp_network true) = Ok (exp_study true) /\ good_network (exp_network true) 2 /\
  any_order exp_main_order /\ precise_network (exp_network true) 2 1 /\
  network_decisions (exp_network true) 2 exp_plan /\ network_cost (exp_network true) 2 1 exp_plan = Z2Qc 915 /\
  exists o st y, exp_run true = Ok (o, st) /\ network_values (exp_network true) 2 1 o st y exp_plan /\
    solves y (st_solver st) /\ objective_value y (st_solver st) = Some (Z2Qc 915) /\ optimal y (st_solver st).
Proof.
  assert (C : network_cost (exp_network true) 2 1 exp_plan = Z2Qc 915) by (apply Qc_is_canon; vm_compute; reflexivity).
  pose proof (exp_plan_decisions (exp_network true) eq_refl eq_refl eq_refl eq_refl) as Dx.
  split; [exact exp_set_order|]. split; [exact exp_converts|]. split; [exact (exp_good true)|]. split; [exact exp_any_order|]. split; [exact exp_precise|].
  split; [exact Dx|]. split; [exact C|]. destruct exp_runs as (o & st & E & _). exists o, st.
  assert (Conv : convert_pypsa exp_order (exp_network true) = Ok (fst (exp_study true), snd (exp_study true))).
  { rewrite exp_converts. now destruct (exp_study true). }
  destruct (network_places exp_order (exp_network true) _ _ 2 1 exp_main_order o st exp_set_order Conv (exp_good true) ltac:(lia) ltac:(lia) exp_any_order E)
    as (_ & _ & P & _).
  destruct (P exp_plan Dx) as (y & Hy). exists y. split; [exact E|]. split; [exact Hy|]. split; [|split].
  - apply (C85_feasible exp_order (exp_network true) _ _ 2 1 exp_main_order o st exp_set_order Conv (exp_good true) ltac:(lia) ltac:(lia) exp_any_order E exp_precise exp_plan y Dx Hy).
    exact exp_plan_feasible.
  - rewrite <- C. exact (C85_cost exp_order (exp_network true) _ _ 2 1 exp_main_order o st exp_set_order Conv (exp_good true) ltac:(lia) ltac:(lia) exp_any_order E exp_precise exp_plan y Dx Hy).
  - apply (C85_optimum exp_order (exp_network true) _ _ 2 1 exp_main_order o st exp_set_order Conv (exp_good true) ltac:(lia) ltac:(lia) exp_any_order E exp_precise exp_plan y Dx Hy).
    exact exp_plan_cheapest.
Qed.

(** ** C86: what holds for the whole network and over the whole horizon *)

(** At every snapshot, what generators, loads, storage units and stores give to the network, less what links lose, is zero. *)
Theorem C86_balance : forall order n sys files T S order' o st,
  set_order order -> convert_pypsa order n = Ok (sys, files) -> good_network n T -> (1 <= T)%Z -> (1 <= S)%Z -> any_order order' ->
  main_cli order' [pypsa_library] sys (series_directory files) T S = Ok (o, st) -> precise_network n T S ->
  forall x y, network_decisions n T x -> network_values n T S o st y x -> solves y (st_solver st) -> buses_present n ->
  forall t s, (0 <= t < T)%Z -> (0 <= s < S)%Z -> network_sum n (given_power n T x t s) = 0%Qc.
Proof. exact solved_balance. Qed.
Print Assumptions C86_balance.

(** Over the horizon, stores give nothing but what they lose, and storage units give, spill and lose what they store and receive. *)
Theorem C86_stored : forall order n sys files T S order' o st,
  set_order order -> convert_pypsa order n = Ok (sys, files) -> good_network n T -> (1 <= T)%Z -> (1 <= S)%Z -> any_order order' ->
  main_cli order' [pypsa_library] sys (series_directory files) T S = Ok (o, st) -> precise_network n T S ->
  forall x y, network_decisions n T x -> network_values n T S o st y x -> solves y (st_solver st) ->
  (forall e s, In e (names n Stores) -> (0 <= s < S)%Z ->
     over_time T (fun t s => of_store x e "p" t s) s =
     (- over_time T (fun t s => attribute n T Stores e "standing_loss" t * of_store x e "e" (t - 1) s) s)%Qc) /\
  (forall u s, In u (names n StorageUnits) -> (0 <= s < S)%Z ->
     over_time T (fun t s => attribute n T StorageUnits u "efficiency_store" t * of_unit x u "p_store" t s + attribute n T StorageUnits u "inflow" t)%Qc s =
     over_time T (fun t s => of_unit x u "p_dispatch" t s / attribute n T StorageUnits u "efficiency_dispatch" t + of_unit x u "spill" t s +
       attribute n T StorageUnits u "standing_loss" t * of_unit x u "state_of_charge" (t - 1) s)%Qc s).
Proof. exact solved_stored. Qed.
Print Assumptions C86_stored.

(** In every scenario, all emissions together are at most the limit, or exactly the target, of each global constraint. *)
Theorem C86_emissions : forall order n sys files T S order' o st,
  set_order order -> convert_pypsa order n = Ok (sys, files) -> good_network n T -> (1 <= T)%Z -> (1 <= S)%Z -> any_order order' ->
  main_cli order' [pypsa_library] sys (series_directory files) T S = Ok (o, st) -> precise_network n T S ->
  forall x y, network_decisions n T x -> network_values n T S o st y x -> solves y (st_solver st) ->
  forall c s, In c (constraint_names n) -> (0 <= s < S)%Z ->
  (has_sense n c "<=" -> (emitted n T x s <= constant_of n c)%Qc) /\ (has_sense n c "==" -> emitted n T x s = constant_of n c).
Proof. exact solved_emissions. Qed.
Print Assumptions C86_emissions.

(** There is no solution when, at some snapshot, the loads are more than the greatest capacities can give and stores can hold: loads are not shed. *)
Theorem C86_shortage : forall order n sys files T S order' o st,
  set_order order -> convert_pypsa order n = Ok (sys, files) -> good_network n T -> (1 <= T)%Z -> (1 <= S)%Z -> any_order order' ->
  main_cli order' [pypsa_library] sys (series_directory files) T S = Ok (o, st) -> precise_network n T S ->
  forall t, buses_present n -> (0 <= t < T)%Z -> (forall k c, In c (names n k) -> usual n T k c t) ->
  (network_sum n (most_given n T t) < 0)%Qc ->
  forall y, ~ solves y (st_solver st).
Proof. exact solved_shortage. Qed.
Print Assumptions C86_shortage.

(** *** The same network: its plan is a solution (C85_example), emits 45/2 where 500 is allowed, and its buses are all there; and a network whose
    load of 200 at the second snapshot is more than the 180 that can be given *)
Definition exp_few_generators : dataframe := {|
  df_index := ["gas"; "wind"];
  df_columns := [("bus", [CText "north"; CText "south"]); ("carrier", [CText "methane"; CText ""]);
    ("p_nom", exp_numbers [0; 40]); ("p_nom_extendable", [CBool true; CBool false]); ("p_nom_min", exp_numbers [10; 0]);
    ("p_nom_max", [CNum (nz 20); CNum PInf]); ("p_min_pu", exp_numbers [0; 0]); ("p_max_pu", exp_numbers [1; 1]);
    ("marginal_cost", exp_numbers [50; 0]); ("capital_cost", exp_numbers [7; 3]); ("e_sum_min", [CNum NInf; CNum NInf]);
    ("e_sum_max", [CNum PInf; CNum PInf]); ("sign", exp_numbers [1; 1]); ("efficiency", exp_numbers [2; 1]);
    ("marginal_cost_quadratic", exp_numbers [0; 0]); ("active", [CBool true; CBool true]);
    ("committable", [CBool false; CBool false])]%Z |}.
Definition exp_short : pypsa_network := {|
  pn_name := "short"; pn_investment_periods := 0; pn_weightings := [n1; n1];
  pn_generators := exp_few_generators; pn_generators_t := [("p_max_pu", [("wind", [Fin (Q2Qc (1 # 2)); n1])])];
  pn_loads := exp_loads; pn_loads_t := [("p_set", [("town", [nz 45; nz 200])])];
  pn_buses := exp_buses; pn_buses_t := [];
  pn_links := exp_links; pn_links_t := [];
  pn_storage_units := exp_units true; pn_storage_units_t := [];
  pn_stores := exp_stores; pn_stores_t := [];
  pn_carriers := {| df_index := ["methane"]; df_columns := [("co2_emissions", exp_numbers [3])] |};
  pn_global_constraints := {| df_index := ["budget"];
    df_columns := [("type", [CText "primary_energy"]); ("carrier_attribute", [CText "co2_emissions"]);
      ("sense", [CText "<="]); ("constant", exp_numbers [500])] |} |}%Z.
Lemma exp_short_good : good_network exp_short 2.
Proof. good. Qed.
Lemma exp_short_precise : precise_network exp_short 2 1.
Proof. precision. Qed.
Ltac present := let k := fresh in let c := fresh in let column := fresh in let b := fresh in let Hc := fresh in let Hk := fresh in let E := fresh in
  intros k c column b Hc Hk E; destruct k; each Hc; each Hk; vm_compute in E; injection E as <-; cbn; tauto.
Lemma exp_present : buses_present (exp_network true).
Proof. present. Qed.
Lemma exp_short_present : buses_present exp_short.
Proof. present. Qed.
Lemma exp_short_usual k c : In c (names exp_short k) -> usual exp_short 2 k c 1.
Proof.
  intros Hc. destruct k; each Hc; try exact I; cbn [usual].
  - split; [apply Qc_is_canon; vm_compute; reflexivity|vm_compute; discriminate].
  - split; [apply Qc_is_canon; vm_compute; reflexivity|vm_compute; discriminate].
  - right. apply Qc_is_canon; vm_compute; reflexivity.
  - repeat apply conj; vm_compute; discriminate.
Qed.
Definition exp_short_study : input_system * dict string frame :=
  match convert_pypsa exp_order exp_short with Ok r => r | Err _ => ({| is_nodes := []; is_components := []; is_connections := [] |}, []) end.
Example C86_example : buses_present (exp_network true) /\ In "tank" (names (exp_network true) Stores) /\ In "pumped" (names (exp_network true) StorageUnits) /\
  In "budget" (constraint_names (exp_network true)) /\ has_sense (exp_network true) "budget" "<=" /\
  emitted (exp_network true) 2 exp_plan 0 = Q2Qc (45 # 2) /\ constant_of (exp_network true) "budget" = Z2Qc 500 /\
  convert_pypsa exp_order exp_short = Ok exp_short_study /\ good_network exp_short 2 /\ precise_network exp_short 2 1 /\ buses_present exp_short /\
  (forall k c, In c (names exp_short k) -> usual exp_short 2 k c 1) /\ network_sum exp_short (most_given exp_short 2 1) = Z2Qc (-20) /\
  exists o st, main_cli exp_main_order [pypsa_library] (fst exp_short_study) (series_directory (snd exp_short_study)) 2 1 = Ok (o, st) /\
    forall y, ~ solves y (st_solver st).
Proof.
  assert (Conv : convert_pypsa exp_order exp_short = Ok (fst exp_short_study, snd exp_short_study)) by (vm_compute; reflexivity).
  assert (Short : network_sum exp_short (most_given exp_short 2 1) = Z2Qc (-20)) by (apply Qc_is_canon; vm_compute; reflexivity).
  split; [exact exp_present|]. split; [now left|]. split; [now left|]. split; [now left|]. split; [reflexivity|].
  split; [apply Qc_is_canon; vm_compute; reflexivity|]. split; [apply Qc_is_canon; vm_compute; reflexivity|].
  split; [rewrite Conv; now destruct exp_short_study|]. split; [exact exp_short_good|]. split; [exact exp_short_precise|]. split; [exact exp_short_present|].
  split; [exact exp_short_usual|]. split; [exact Short|].
  destruct (main_cli exp_main_order [pypsa_library] (fst exp_short_study) (series_directory (snd exp_short_study)) 2 1) as [[o st]|e] eqn:E;
    [|vm_compute in E; discriminate].
  exists o, st. split; [reflexivity|].
  apply (C86_shortage exp_order exp_short _ _ 2 1 exp_main_order o st exp_set_order Conv exp_short_good ltac:(lia) ltac:(lia) exp_any_order E exp_short_precise 1%Z
    exp_short_present ltac:(lia) exp_short_usual). rewrite Short. reflexivity.
Qed.
