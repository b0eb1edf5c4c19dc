(** What follows for the solutions of converted Antares studies (see PropAntaresExact.v). *)
From Verif Require Import Base BaseFacts Expr LinearExpr Study Strategy Optim System Library Main SpecExpr SpecLibrary SpecSystem SpecLinear SpecOptim SpecMain
  SpecPypsa Pypsa Thermal Antares SpecThermal SpecAntares AntaresFacts AntaresStudy AntaresProblem SpecScenarios SpecPrecise SpecAntaresExact
  AntaresExact AntaresLaws.
Local Open Scope string_scope.
Local Open Scope list_scope.

Section Solutions.
  Context (before : dict string num) (per : option Z) (s : an_study) (sys : input_system) (files : list (string * table))
    (directory : string -> result frame) (T S : Z)
    (order : list string -> list string -> list string -> list string) (o : settings) (st : state).
  Hypothesis Conversion : convert_antares before per s = Ok (sys, files).
  Hypothesis Ord : any_order order.
  Context (period : nat).
  Hypothesis Per : hours_of per (Z.of_nat period).
  Hypothesis Good : good_antares s directory period T S.
  Hypothesis Run : main_cli order [antares_library; andromede_v1_library] sys (directory_after directory files) T S = Ok (o, st).
  Hypothesis Precise : precise_antares s directory S.
  Let feasible := antares_feasible before per s sys files directory T S order o st Conversion Ord period Per Good Run Precise.
  Let one_scenario a g : In (Cluster a g) (elements s) -> S = 1%Z.
  Proof. exact (antares_scenarios before per s sys files directory T S order o st Conversion Ord period Per Good Run a g). Qed.

  Section Solution.
    Context (x : decisions) (y : nat -> Qc).
    Hypothesis Dx : study_decisions T x.
    Hypothesis Vx : study_values s T S o st y x.
    Hypothesis Sol : solves y (st_solver st).
    Let F := proj1 (feasible x y Dx Vx) Sol.
    Lemma solution_balance t sc : areas_present s -> (0 <= t < T)%Z -> (0 <= sc < S)%Z ->
      qsum (fun n => (x (element_id n) "spillage" t sc - x (element_id n) "unsupplied_energy" t sc)%Qc) (nodes s) = qsum (net_power T x t sc) (elements s).
    Proof. intros A Ht Hs. exact (system_balance s directory period T S x Good F sc Hs t A Ht). Qed.
    Lemma solution_shortage t sc : areas_present s -> (0 <= t < T)%Z -> (0 <= sc < S)%Z ->
      (- qsum (most_power s directory T t sc) (elements s) <= qsum (fun n => x (element_id n) "unsupplied_energy" t sc) (nodes s))%Qc.
    Proof. intros A Ht Hs. exact (system_shortage s directory period T S x Good F sc Hs t A Ht). Qed.
    Lemma solution_stored :
      (forall a k sc, In (Storage a k) (elements s) -> (0 <= sc < S)%Z ->
         over_time T (fun t sc => (fin (so_efficiency k) * x (so_id k) "p_injection" t sc + storage_series s directory T k "inflows" t sc)%Qc) sc =
         over_time T (fun t sc => x (so_id k) "p_withdrawal" t sc) sc) /\
      (forall a b sc, In (Battery a b) (elements s) -> (0 <= sc < S)%Z ->
         (fin (bt_charging b) * over_time T (fun t sc => x (element_id (Battery a b)) "p_injection" t sc) sc =
          fin (bt_discharging b) * over_time T (fun t sc => x (element_id (Battery a b)) "p_withdrawal" t sc) sc)%Qc).
    Proof.
      split; intros a k sc He Hs; apply in_elements in He.
      - exact (storage_cycle s directory period T S x Good Dx F sc Hs a k He).
      - exact (battery_cycle s directory period T S x Good Dx F sc Hs a k He).
    Qed.
    Lemma solution_units a g : In (Cluster a g) (elements s) -> let v q t := x (th_id (at_cluster g)) q t 0%Z in let c := at_cluster g in
      qsum (v "nb_starting") (zrange 0 T) = qsum (v "nb_stopping") (zrange 0 T) /\
      ((forall t, units_lost c period (hour T t) 0 = 0%Z) -> forall t, (0 <= t < T)%Z -> (lately (at_min_up_time g) (v "nb_starting") t <= v "nb_units_on" t)%Qc) /\
      ((forall t, units_regained c period (hour T t) 0 = 0%Z) -> forall t, (0 <= t < T)%Z ->
         (lately (at_min_down_time g) (v "nb_stopping") t + v "nb_units_on" t <= Z2Qc (most_units c (hour T (t - at_min_down_time g)) 0))%Qc).
    Proof.
      intros He. pose proof (one_scenario a g He) as E. assert (Hs : (0 <= 0 < S)%Z) by (rewrite E; split; [apply Z.le_refl|reflexivity]).
      apply in_elements in He. split; [|split].
      - exact (units_cycle s directory period T S x Good Dx F 0 Hs a g He).
      - intros L t Ht. exact (kept_on s directory period T S x Good Dx F 0 Hs a g He t L Ht).
      - intros L t Ht. exact (kept_off s directory period T S x F 0 Hs a g He t L Ht).
    Qed.
  End Solution.
  Lemma overflow a k sc : In (Storage a k) (elements s) -> (0 <= sc < S)%Z -> (0 <= fin (so_efficiency k))%Qc ->
    (over_time T (fun t sc => storage_series s directory T k "PMAX-withdrawal" t sc * fin (so_withdrawal_nominal_capacity k)) sc <
     over_time T (storage_series s directory T k "inflows") sc)%Qc ->
    forall y, ~ solves y (st_solver st).
  Proof.
    intros He Hs Ef Lt y Sol. destruct (antares_places before per s sys files directory T S order o st Conversion Ord period Per Good Run) as (_ & _ & _ & P).
    destruct (P y) as (x & Dx & Vx). apply in_elements in He.
    apply (Qclt_not_le _ _ Lt). exact (storage_overflow s directory period T S x Good Dx (proj1 (feasible x y Dx Vx) Sol) sc Hs a k He Ef).
  Qed.
End Solutions.
