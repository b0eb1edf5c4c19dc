(** The texts of the libraries that converted Antares studies use, read. *)
From Coq Require Import Lia.
From Verif Require Import Base BaseFacts Expr Visitors Parse SpecParse LexFacts LinearExpr Model Study Optim System Library
  Main SpecExpr SpecModel SpecLibrary SpecSystem SpecLinear SpecOptim SpecMain Pypsa PypsaReading Thermal Antares.
Local Open Scope string_scope.
Local Open Scope list_scope.

Definition wtotal (body : wexpr) : wexpr := WCall "expec" (WSumAll body).
Definition wnext (x : string) : wexpr := WAt x (WThen WNow Plus (WFactor (WNumber "1"))).
(** sum(t-d + 1 .. t, e) *)
Definition wwindow (d : string) (e : wexpr) : wexpr :=
  WSumOver (WThen (WThen WNow Minus (WFactor (WName d))) Plus (WFactor (WNumber "1"))) WNow e.
Definition wlevel : wexpr :=
  WAdd Minus (WAdd Plus (WName "level") (wtimes "efficiency_injection" "p_injection")) (wtimes "efficiency_withdrawal" "p_withdrawal").
Definition an_readings : dict string wexpr := [
  ("0", WNumber "0");
  ("sum_connections(balance_port.flow) = spillage - unsupplied_energy",
   WCmp EQUAL (WSumPorts "balance_port" "flow") (WAdd Minus (WName "spillage") (WName "unsupplied_energy")));
  ("expec(sum(spillage_cost * spillage + ens_cost * unsupplied_energy))",
   wtotal (WAdd Plus (wtimes "spillage_cost" "spillage") (wtimes "ens_cost" "unsupplied_energy")));
  ("-load", WNeg (WName "load")); ("capacity_direct", WName "capacity_direct"); ("capacity_indirect", WName "capacity_indirect");
  ("flow", WName "flow"); ("-flow", WNeg (WName "flow"));
  ("flow = flow_direct - flow_indirect", WCmp EQUAL (WName "flow") (WAdd Minus (WName "flow_direct") (WName "flow_indirect")));
  ("generation", WName "generation"); ("p_min_cluster", WName "p_min_cluster"); ("p_max_cluster", WName "p_max_cluster");
  ("nb_units_min", WName "nb_units_min"); ("nb_units_max", WName "nb_units_max");
  ("generation <= nb_units_on * p_max_unit", WCmp LESS_THAN (WName "generation") (wtimes "nb_units_on" "p_max_unit"));
  ("generation >= nb_units_on * p_min_unit", WCmp GREATER_THAN (WName "generation") (wtimes "nb_units_on" "p_min_unit"));
  ("nb_units_on = nb_units_on[t-1] + nb_starting - nb_stopping",
   WCmp EQUAL (WName "nb_units_on") (WAdd Minus (WAdd Plus (wbefore "nb_units_on") (WName "nb_starting")) (WName "nb_stopping")));
  ("nb_failing <= nb_stopping", WCmp LESS_THAN (WName "nb_failing") (WName "nb_stopping"));
  ("nb_failing <= nb_units_max_variation_forward", WCmp LESS_THAN (WName "nb_failing") (WName "nb_units_max_variation_forward"));
  ("sum(t-d_min_up + 1 .. t, nb_starting - nb_failing) <= nb_units_on",
   WCmp LESS_THAN (wwindow "d_min_up" (WAdd Minus (WName "nb_starting") (WName "nb_failing"))) (WName "nb_units_on"));
  ("sum(t-d_min_down + 1 .. t, nb_stopping) <= nb_units_max[t-d_min_down] - nb_units_on + sum(t-d_min_down + 1 .. t, nb_units_max_variation_backward)",
   WCmp LESS_THAN (wwindow "d_min_down" (WName "nb_stopping"))
     (WAdd Plus (WAdd Minus (WAt "nb_units_max" (WThen WNow Minus (WFactor (WName "d_min_down")))) (WName "nb_units_on"))
        (wwindow "d_min_down" (WName "nb_units_max_variation_backward"))));
  ("expec(sum(generation_cost * generation + startup_cost * nb_starting + fixed_cost * nb_units_on))",
   wtotal (WAdd Plus (WAdd Plus (wtimes "generation_cost" "generation") (wtimes "startup_cost" "nb_starting")) (wtimes "fixed_cost" "nb_units_on")));
  ("p_max_injection_modulation * injection_nominal_capacity", wtimes "p_max_injection_modulation" "injection_nominal_capacity");
  ("p_max_withdrawal_modulation * withdrawal_nominal_capacity", wtimes "p_max_withdrawal_modulation" "withdrawal_nominal_capacity");
  ("lower_rule_curve * reservoir_capacity", wtimes "lower_rule_curve" "reservoir_capacity");
  ("upper_rule_curve * reservoir_capacity", wtimes "upper_rule_curve" "reservoir_capacity");
  ("p_withdrawal - p_injection", WAdd Minus (WName "p_withdrawal") (WName "p_injection"));
  ("level[0] = initial_level * reservoir_capacity", WCmp EQUAL (WIndex "level" (WNumber "0")) (wtimes "initial_level" "reservoir_capacity"));
  ("level[t+1] = level + efficiency_injection * p_injection - efficiency_withdrawal * p_withdrawal + inflows",
   WCmp EQUAL (wnext "level") (WAdd Plus wlevel (WName "inflows")));
  ("max_load", WName "max_load"); ("-max_load + curtailment", WAdd Plus (WNeg (WName "max_load")) (WName "curtailment"));
  ("expec(sum(curtailment * curtailment_price))", wtotal (wtimes "curtailment" "curtailment_price"));
  ("p_max", WName "p_max"); ("-power", WNeg (WName "power")); ("efficiency * power", wtimes "efficiency" "power");
  ("level[t+1] = level + efficiency_injection * p_injection - efficiency_withdrawal * p_withdrawal", WCmp EQUAL (wnext "level") wlevel);
  ("expec(sum(marginal_cost * p_injection))", wtotal (wtimes "marginal_cost" "p_injection"))].
Definition antares_reading (m : in_model) (text : string) : wexpr :=
  match dget String.eqb text an_readings with Some w => w | None => WNumber "0" end.

Ltac an_reading_ w :=
  match goal with |- reads_as ?ids w (antares_reading ?m w) =>
    let r := eval vm_compute in (antares_reading lib_area w) in change (antares_reading m w) with r end;
  split; [apply lex_spells; vm_compute; reflexivity|]; split; [cbn; repeat split; first [lia|discriminate|exact I]|];
  split; [cbn; tauto|]; cbn; repeat split; auto 20.
Ltac an_texts := let w := fresh "w" in let H := fresh "H" in intros w H; cbn in H; each H;
  match goal with |- reads_as _ ?w _ => an_reading_ w end.
Ltac an_model_good := split; [split; [an_texts|split; [|split]]; let k := fresh "k" in let H := fresh "H" in intros k H; cbn in H; each H; cbn; repeat split; auto|names].
Definition good_model (m : in_model) : Prop := good_texts antares_reading m /\ distinct_names m.
Lemma good_area : good_model lib_area. Proof. an_model_good. Qed.
Lemma good_an_load : good_model lib_an_load. Proof. an_model_good. Qed.
Lemma good_an_link : good_model lib_an_link. Proof. an_model_good. Qed.
Lemma good_renewable : good_model lib_renewable. Proof. an_model_good. Qed.
Lemma good_thermal : good_model lib_thermal. Proof. an_model_good. Qed.
Lemma good_storage : good_model lib_short_term_storage. Proof. an_model_good. Qed.
Lemma good_dsr : good_model lib_dsr. Proof. an_model_good. Qed.
Lemma good_electrolyser : good_model lib_electrolyser. Proof. an_model_good. Qed.
Lemma good_battery : good_model lib_battery. Proof. an_model_good. Qed.
Lemma antares_good m : In m (yl_models antares_library ++ yl_models andromede_v1_library) -> good_texts antares_reading m /\ distinct_names m.
Proof.
  intros [<-|[<-|[<-|[<-|[<-|[<-|[<-|[<-|[<-|[]]]]]]]]]];
    [exact good_area|exact good_an_load|exact good_an_link|exact good_renewable|exact good_thermal|exact good_storage|exact good_dsr|exact good_electrolyser|exact good_battery].
Qed.
