(** The texts of the library of PyPSA models, read. *)
From Coq Require Import Lia.
From Verif Require Import Base BaseFacts Expr Visitors Parse SpecParse LexFacts LinearExpr Model Study Optim System Library
  Main SpecExpr SpecModel SpecLibrary SpecSystem SpecLinear SpecOptim SpecMain Pypsa.
Local Open Scope string_scope.
Local Open Scope list_scope.

Definition wtimes (a b : string) : wexpr := WMul Times (WName a) (WName b).
Definition wcost (body invest : wexpr) : wexpr := WAdd Plus (WCall "expec" (WSumAll body)) invest.
Definition wbefore (x : string) : wexpr := WAt x (WThen WNow Minus (WFactor (WNumber "1"))).
Definition wkept : wexpr := WParen (WAdd Minus (WNumber "1") (WName "standing_loss")).
Definition readings : dict string wexpr := [
  ("sum_connections(p_balance_port.flow) = 0", WCmp EQUAL (WSumPorts "p_balance_port" "flow") (WNumber "0"));
  ("sum_connections(q_balance_port.flow) = 0", WCmp EQUAL (WSumPorts "q_balance_port" "flow") (WNumber "0"));
  ("sign * p_set", wtimes "sign" "p_set");
  ("sign * q_set", wtimes "sign" "q_set");
  ("p_nom_min", WName "p_nom_min"); ("p_nom_max", WName "p_nom_max");
  ("e_nom_min", WName "e_nom_min"); ("e_nom_max", WName "e_nom_max"); ("0", WNumber "0");
  ("p*sign", wtimes "p" "sign");
  ("p*emission_factor/efficiency", WMul Over (wtimes "p" "emission_factor") (WName "efficiency"));
  ("p >=p_nom * p_min_pu", WCmp GREATER_THAN (WName "p") (wtimes "p_nom" "p_min_pu"));
  ("p <=p_nom * p_max_pu", WCmp LESS_THAN (WName "p") (wtimes "p_nom" "p_max_pu"));
  ("sum(p) >= e_sum_min", WCmp GREATER_THAN (WSumAll (WName "p")) (WName "e_sum_min"));
  ("sum(p) <= e_sum_max", WCmp LESS_THAN (WSumAll (WName "p")) (WName "e_sum_max"));
  ("expec(sum(marginal_cost * p)) + p_nom * capital_cost", wcost (wtimes "marginal_cost" "p") (wtimes "p_nom" "capital_cost"));
  ("-p0", WNeg (WName "p0")); ("efficiency * p0", wtimes "efficiency" "p0");
  ("p0 <= p_max_pu * p_nom", WCmp LESS_THAN (WName "p0") (wtimes "p_max_pu" "p_nom"));
  ("p0 >= p_min_pu * p_nom", WCmp GREATER_THAN (WName "p0") (wtimes "p_min_pu" "p_nom"));
  ("expec(sum(marginal_cost * p0)) + capital_cost * p_nom", wcost (wtimes "marginal_cost" "p0") (wtimes "capital_cost" "p_nom"));
  ("p_max_pu * p_nom_max", wtimes "p_max_pu" "p_nom_max"); ("max_hours * p_nom_max", wtimes "max_hours" "p_nom_max");
  ("p_dispatch - p_store", WAdd Minus (WName "p_dispatch") (WName "p_store"));
  ("emission_factor * 0", WMul Times (WName "emission_factor") (WNumber "0"));
  ("p_store <= p_max_pu * p_nom", WCmp LESS_THAN (WName "p_store") (wtimes "p_max_pu" "p_nom"));
  ("state_of_charge <= max_hours * p_nom", WCmp LESS_THAN (WName "state_of_charge") (wtimes "max_hours" "p_nom"));
  ("state_of_charge = (1- standing_loss) * state_of_charge[t-1] + efficiency_store * p_store - p_dispatch / efficiency_dispatch  + inflow - spill",
   WCmp EQUAL (WName "state_of_charge")
     (WAdd Minus (WAdd Plus (WAdd Minus (WAdd Plus (WMul Times wkept (wbefore "state_of_charge"))
        (wtimes "efficiency_store" "p_store")) (WMul Over (WName "p_dispatch") (WName "efficiency_dispatch")))
        (WName "inflow")) (WName "spill")));
  ("expec(sum(marginal_cost * p_dispatch + spill_cost*spill + marginal_cost_storage * state_of_charge)) + capital_cost * p_nom",
   wcost (WAdd Plus (WAdd Plus (wtimes "marginal_cost" "p_dispatch") (wtimes "spill_cost" "spill"))
            (wtimes "marginal_cost_storage" "state_of_charge")) (wtimes "capital_cost" "p_nom"));
  ("p", WName "p");
  ("e <= e_max_pu * e_nom", WCmp LESS_THAN (WName "e") (wtimes "e_max_pu" "e_nom"));
  ("e >= e_min_pu * e_nom", WCmp GREATER_THAN (WName "e") (wtimes "e_min_pu" "e_nom"));
  ("e = (1 - standing_loss) * e[t-1] - p", WCmp EQUAL (WName "e") (WAdd Minus (WMul Times wkept (wbefore "e")) (WName "p")));
  ("expec(sum(marginal_cost * p + marginal_cost_storage * e)) + capital_cost * e_nom",
   wcost (WAdd Plus (wtimes "marginal_cost" "p") (wtimes "marginal_cost_storage" "e")) (wtimes "capital_cost" "e_nom"));
  ("sum(sum_connections(emission_port.emission)) <= quota", WCmp LESS_THAN (WSumAll (WSumPorts "emission_port" "emission")) (WName "quota"));
  ("sum(sum_connections(emission_port.emission)) = quota", WCmp EQUAL (WSumAll (WSumPorts "emission_port" "emission")) (WName "quota"))].
Definition pypsa_reading (m : in_model) (text : string) : wexpr :=
  match dget String.eqb text readings with Some w => w | None => WNumber "0" end.

Ltac look w := let r := eval vm_compute in (pypsa_reading lib_bus w) in r.
Ltac reading w :=
  match goal with |- reads_as ?ids w (pypsa_reading ?m w) =>
    let r := look w in change (pypsa_reading m w) with r end;
  split; [apply lex_spells; vm_compute; reflexivity|]; split; [cbn; repeat split; first [lia|discriminate|exact I]|];
  split; [cbn; tauto|]; cbn; repeat split; auto 20.
Ltac each H := first [destruct H as [<-|H]; [|each H]|destruct H].
Ltac texts := let w := fresh "w" in let H := fresh "H" in intros w H; cbn in H; each H;
  match goal with |- reads_as _ ?w _ => reading w end.
Ltac names := repeat split; cbn; repeat constructor; cbn; intuition discriminate.
Ltac model_good := split; [split; [texts|split; [|split]]; let k := fresh "k" in let H := fresh "H" in intros k H; cbn in H; each H; cbn; repeat split; auto|names].
Lemma good_bus : good_texts pypsa_reading lib_bus /\ distinct_names lib_bus.
Proof. model_good. Qed.
Lemma good_load : good_texts pypsa_reading lib_load /\ distinct_names lib_load.
Proof. model_good. Qed.
Lemma good_generator : good_texts pypsa_reading lib_generator /\ distinct_names lib_generator.
Proof. model_good. Qed.
Lemma good_link : good_texts pypsa_reading lib_link /\ distinct_names lib_link.
Proof. model_good. Qed.
Lemma good_unit : good_texts pypsa_reading lib_storage_unit /\ distinct_names lib_storage_unit.
Proof. model_good. Qed.
Lemma good_store : good_texts pypsa_reading lib_store /\ distinct_names lib_store.
Proof. model_good. Qed.
Lemma good_max : good_texts pypsa_reading lib_co2_max /\ distinct_names lib_co2_max.
Proof. model_good. Qed.
Lemma good_eq : good_texts pypsa_reading lib_co2_eq /\ distinct_names lib_co2_eq.
Proof. model_good. Qed.
Lemma library_good m : In m (yl_models pypsa_library) -> good_texts pypsa_reading m /\ distinct_names m.
Proof.
  intros [<-|[<-|[<-|[<-|[<-|[<-|[<-|[<-|[]]]]]]]]];
    [exact good_bus|exact good_load|exact good_generator|exact good_link|exact good_unit|exact good_store|exact good_max|exact good_eq].
Qed.
