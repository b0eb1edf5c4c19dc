(** Theorems about the preprocessing of thermal clusters (C43). *)
From Coq Require Import Lia.
From Verif Require Import Base BaseFacts Expr Model Study Thermal SpecThermal ThermalFacts.
Local Open Scope string_scope.
Local Open Scope list_scope.

(** ** An example: five hours, two scenarios, two units of size 10 *)
Definition ex_modulation (i : nat) : Qc := nth i [0; Q2Qc (1 # 2); 1; 0; Q2Qc (1 # 10)]%Qc 0%Qc.
Definition ex_power (i j : nat) : Qc :=
  Z2Qc (nth j (nth i [[20; 0]; [15; 5]; [11; 20]; [0; 1]; [20; 10]]%Z []) 0%Z).
Definition ex_table (rows columns : nat) (v : nat -> nat -> Qc) : table :=
  {| tb_width := columns; tb_rows := map (fun i => map (fun j => Fin (v i j)) (seq 0 columns)) (seq 0 rows) |}.
Definition ex_cluster : cluster :=
  {| th_area := "fr"; th_id := "gas"; th_modulation := ex_table 5 4 (fun i j => if Nat.eqb j 3 then ex_modulation i else 1%Qc);
     th_series := ex_table 5 2 ex_power; th_unit_count := 2; th_nominal_capacity := Fin (Z2Qc 10) |}.
Example ex_regular : regular ex_cluster 5 2 ex_modulation ex_power (Z2Qc 10).
Proof.
  constructor; try reflexivity; [split; [split; [reflexivity|split; [reflexivity|]]|]|cbn; lia|].
  - cbn. intros row H. repeat destruct H as [<-|H]; try reflexivity. contradiction.
  - intros i j Hi Hj. destruct j as [|[|j]]; [| |lia]; (do 5 (destruct i as [|i]; [reflexivity|])); lia.
  - intros i Hi. do 5 (destruct i as [|i]; [reflexivity|]). lia.
Qed.
Example ex_size : (0 < Z2Qc 10)%Qc.
Proof. reflexivity. Qed.
(** the values of a table that are integers, to compare tables by computation *)
Definition as_integers (r : result ((string * table) * component_parameter)) : list (list Z) :=
  match r with Ok ((_, t), _) => map (map (fun v => match v with Fin q => Qnum (this q) | _ => (-1)%Z end)) (tb_rows t) | Err _ => [] end.

(** ** C43 *)
(** the least power of an hour is the smallest of the minimum generation and of the available power of every scenario *)
Theorem C43_least_power : forall study c n m modulation power size period,
  regular c n m modulation power size ->
  exists t p, written study c "p_min_cluster" period t /\ has_values t n 1 (fun i _ => p i) /\
    forall i, (i < n)%nat -> smallest (p i) (modulation i * size * Z2Qc (th_unit_count c))%Qc m (power i).
Proof. exact pmin_written. Qed.
Print Assumptions C43_least_power.
Example C43_least_power_example : regular ex_cluster 5 2 ex_modulation ex_power (Z2Qc 10) /\
  as_integers (generate_component_parameter "study" ex_cluster "p_min_cluster" 0) = [[0]; [5]; [11]; [0]; [2]]%Z.
Proof. split; [exact ex_regular|]. vm_compute. reflexivity. Qed.

(** the maximum number of units of an hour and a scenario is the least integer whose units cover the available power *)
Theorem C43_units_max : forall study c n m modulation power size period,
  (0 < size)%Qc -> regular c n m modulation power size ->
  exists t k, written study c "nb_units_max" period t /\ has_values t n m (fun i j => Z2Qc (k i j)) /\
    forall i j, (i < n)%nat -> (j < m)%nat -> covers size (power i j) (k i j).
Proof. exact max_written. Qed.
Print Assumptions C43_units_max.
Example C43_units_max_example : regular ex_cluster 5 2 ex_modulation ex_power (Z2Qc 10) /\
  as_integers (generate_component_parameter "study" ex_cluster "nb_units_max" 0) = [[2; 0]; [2; 1]; [2; 2]; [0; 1]; [2; 1]]%Z.
Proof. split; [exact ex_regular|]. vm_compute. reflexivity. Qed.

(** the minimum number of units is the least integer whose units cover the least power *)
Theorem C43_units_min : forall study c n m modulation power size period,
  (0 < size)%Qc -> regular c n m modulation power size ->
  exists t k, written study c "nb_units_min" period t /\ has_values t n 1 (fun i _ => Z2Qc (k i)) /\
    forall i, (i < n)%nat -> exists p, smallest p (modulation i * size * Z2Qc (th_unit_count c))%Qc m (power i) /\ covers size p (k i).
Proof. exact min_written. Qed.
Print Assumptions C43_units_min.
Example C43_units_min_example : regular ex_cluster 5 2 ex_modulation ex_power (Z2Qc 10) /\
  as_integers (generate_component_parameter "study" ex_cluster "nb_units_min" 0) = [[0]; [1]; [2]; [0]; [1]]%Z.
Proof. split; [exact ex_regular|]. vm_compute. reflexivity. Qed.

(** a number of units that covers a power is the only least one: what the two theorems above describe is one number *)
Theorem C43_units_unique : forall size p k l, (0 < size)%Qc -> covers size p k ->
  (covers size p l -> k = l) /\ ((p <= Z2Qc l * size)%Qc -> (k <= l)%Z).
Proof.
  intros size p k l H C. split; [now apply covers_unique|]. intros L. destruct C as [A _]. destruct (Z.le_gt_cases k l) as [K|K]; [exact K|exfalso].
  assert (K' : (Z2Qc l <= Z2Qc k - 1)%Qc) by (rewrite <- Z2Qc_1, <- Z2Qc_sub; apply Z2Qc_le; lia).
  apply (mul_le _ _ _ H) in K'. qclra.
Qed.
Print Assumptions C43_units_unique.
Example C43_units_unique_example : covers (Z2Qc 10) (Z2Qc 11) 2.
Proof. split; [reflexivity|discriminate]. Qed.

(** the minimum number of units never exceeds the maximum, in any hour and scenario *)
Theorem C43_min_below_max : forall study c n m modulation power size period period' tmin tmax,
  (0 < size)%Qc -> regular c n m modulation power size ->
  written study c "nb_units_min" period tmin -> written study c "nb_units_max" period' tmax ->
  forall i j, (i < n)%nat -> (j < m)%nat ->
    exists low high, at_cell tmin i 0 = Some (Fin (Z2Qc low)) /\ at_cell tmax i j = Some (Fin (Z2Qc high)) /\ (low <= high)%Z.
Proof. exact min_below_max. Qed.
Print Assumptions C43_min_below_max.
Example C43_min_below_max_example : exists tmin tmax,
  written "study" ex_cluster "nb_units_min" 0 tmin /\ written "study" ex_cluster "nb_units_max" 0 tmax.
Proof. eexists _, _. split; (eexists _, _; reflexivity). Qed.

(** variations are not negative and never both positive; after the first hour their difference is the change of the number
    of units since the previous hour of the period, the period being closed on itself.  In the first hour they are zero. *)
Theorem C43_variations_partial : forall study c n m modulation power size period,
  (0 < size)%Qc -> (0 < period)%nat -> (0 < m)%nat -> regular c n m modulation power size ->
  exists tmax tf tb (k f b : nat -> nat -> Z),
    written study c "nb_units_max" (Z.of_nat period) tmax /\ has_values tmax n m (fun i j => Z2Qc (k i j)) /\
    written study c "nb_units_max_variation_forward" (Z.of_nat period) tf /\ has_values tf n m (fun i j => Z2Qc (f i j)) /\
    written study c "nb_units_max_variation_backward" (Z.of_nat period) tb /\ has_values tb n m (fun i j => Z2Qc (b i j)) /\
    forall i j, (i < n)%nat -> (j < m)%nat ->
      (0 <= f i j /\ 0 <= b i j /\ (f i j = 0 \/ b i j = 0))%Z /\
      (i <> 0%nat -> f i j - b i j = k (hour_before n period i) j - k i j)%Z /\
      (i = 0%nat -> f i j = 0 /\ b i j = 0)%Z.
Proof. exact variations_written. Qed.
Print Assumptions C43_variations_partial.
Example C43_variations_example : regular ex_cluster 5 2 ex_modulation ex_power (Z2Qc 10) /\
  as_integers (generate_component_parameter "study" ex_cluster "nb_units_max_variation_forward" 3) = [[0; 0]; [0; 0]; [0; 0]; [2; 0]; [0; 0]]%Z /\
  as_integers (generate_component_parameter "study" ex_cluster "nb_units_max_variation_backward" 3) = [[0; 0]; [0; 1]; [0; 1]; [0; 0]; [2; 0]]%Z.
Proof. split; [exact ex_regular|]. split; vm_compute; reflexivity. Qed.

(** the previous hour is an hour of the data, in the same period; it is one hour earlier, except that the first hour of a
    period is compared with the last hour of that period that is in the data *)
Theorem C43_previous_hour : forall n period i, (0 < period)%nat -> (i < n)%nat ->
  (hour_before n period i < n)%nat /\ (hour_before n period i / period = i / period)%nat /\
  (i mod period <> 0 -> hour_before n period i = i - 1)%nat /\
  (i mod period = 0 -> forall k, k < n -> k / period = i / period -> k <= hour_before n period i)%nat.
Proof.
  intros n period i Hp Hi. destruct (hour_before_range n period i Hp Hi) as [A B], (hour_before_cyclic n period i Hp Hi) as [C _].
  split; [exact A|]. split; [exact B|]. split; [exact C|]. intros E k Hk Ek. unfold hour_before. rewrite E. cbn [Nat.eqb].
  pose proof (Nat.div_mod i period ltac:(lia)). pose proof (Nat.div_mod k period ltac:(lia)). pose proof (Nat.mod_upper_bound k period ltac:(lia)).
  rewrite Ek in *. lia.
Qed.
Print Assumptions C43_previous_hour.
Example C43_previous_hour_example : map (hour_before 5 3) (seq 0 5) = [2; 0; 1; 4; 3]%nat.
Proof. reflexivity. Qed.

(** the first hour is not compared with the last hour of its period, as the first hours of the other periods are *)
Theorem C43_first_hour_refuted : exists c n m modulation power period tf k j,
  regular c n m modulation power (Z2Qc 10) /\ (0 < period)%nat /\ (0 < n)%nat /\ (j < m)%nat /\
  written "study" c "nb_units_max_variation_backward" (Z.of_nat period) tf /\
  written "study" c "nb_units_max" (Z.of_nat period) k /\
  at_cell k 0 j = Some (Fin (Z2Qc 2)) /\ at_cell k (hour_before n period 0) j = Some (Fin (Z2Qc 0)) /\
  at_cell tf 0 j = Some (Fin (Z2Qc 0)).
Proof.
  exists ex_cluster, 5%nat, 2%nat, ex_modulation, ex_power, 4%nat.
  eexists _, _, 0%nat. split; [exact ex_regular|]. split; [lia|]. split; [lia|]. split; [lia|].
  split; [eexists _, _; reflexivity|]. split; [eexists _, _; reflexivity|].
  split; [|split]; vm_compute; do 2 f_equal; apply Qc_is_canon; reflexivity.
Qed.
Print Assumptions C43_first_hour_refuted.

(** without a period, which the request allows, every hour is compared with the first *)
Theorem C43_default_period : forall n i, (i < n)%nat -> previous_index n default_period i = 0%Z.
Proof.
  intros n i H. unfold previous_index, default_period, np_mod, np_floordiv. destruct (Z.of_nat i =? 0)%Z; [reflexivity|]. cbn. lia.
Qed.
Print Assumptions C43_default_period.
Theorem C43_default_period_refuted : exists c n m modulation power tf k i j,
  regular c n m modulation power (Z2Qc 10) /\ (0 < i < n)%nat /\ (j < m)%nat /\
  written "study" c "nb_units_max_variation_backward" default_period tf /\
  written "study" c "nb_units_max" default_period k /\
  at_cell k (i - 1) j = Some (Fin (Z2Qc 0)) /\ at_cell k i j = Some (Fin (Z2Qc 2)) /\
  at_cell tf i j = Some (Fin (Z2Qc 0)).
Proof.
  exists ex_cluster, 5%nat, 2%nat, ex_modulation, ex_power.
  eexists _, _, 4%nat, 0%nat. split; [exact ex_regular|]. split; [lia|]. split; [lia|].
  split; [eexists _, _; reflexivity|]. split; [eexists _, _; reflexivity|].
  split; [|split]; vm_compute; do 2 f_equal; apply Qc_is_canon; reflexivity.
Qed.
Print Assumptions C43_default_period_refuted.

(** a cluster of nominal capacity 0 with no available power has no number of units *)
Theorem C43_no_capacity_refuted : exists c n m modulation power t,
  regular c n m modulation power 0%Qc /\ written "study" c "nb_units_max" 168 t /\ at_cell t 0 0 = Some NaN.
Proof.
  exists {| th_area := "fr"; th_id := "gas"; th_modulation := ex_table 1 4 (fun _ _ => 0%Qc); th_series := ex_table 1 1 (fun _ _ => 0%Qc);
            th_unit_count := 1; th_nominal_capacity := Fin 0%Qc |}, 1%nat, 1%nat, (fun _ => 0%Qc), (fun _ _ => 0%Qc).
  eexists. split; [|split; [eexists _, _; reflexivity|reflexivity]].
  constructor; try reflexivity; [split; [split; [reflexivity|split; [reflexivity|]]|]|cbn; lia|].
  - cbn. intros row [<-|[]]. reflexivity.
  - intros [|i] [|j] Hi Hj; try lia. reflexivity.
  - intros [|i] Hi; [reflexivity|lia].
Qed.
Print Assumptions C43_no_capacity_refuted.

(** the file of the least power has one column although the parameter is declared to depend on the scenario: with several
    scenarios reading the second one fails *)
Theorem C43_one_column_refuted : exists c n m modulation power path t par,
  regular c n m modulation power (Z2Qc 10) /\ (1 < m)%nat /\
  generate_component_parameter "study" c "p_min_cluster" 168 = Ok ((path, t), par) /\ cp_scenario_dependent par = true /\
  (exists v, get_value (TimeScenarioSeriesData (tb_rows t) None) (Some 0%Z) (Some 0%Z) "" = Ok v) /\
  get_value (TimeScenarioSeriesData (tb_rows t) None) (Some 0%Z) (Some 1%Z) "" = Err IndexError.
Proof.
  exists ex_cluster, 5%nat, 2%nat, ex_modulation, ex_power. eexists _, _, _. split; [exact ex_regular|]. split; [lia|].
  split; [reflexivity|]. split; [reflexivity|]. split; [eexists; reflexivity|reflexivity].
Qed.
Print Assumptions C43_one_column_refuted.

(** a parameter refers to the file that was written for it, and is declared to depend on time and scenario *)
Theorem C43_parameter : forall study c id period path t par,
  generate_component_parameter study c id period = Ok ((path, t), par) ->
  (cp_value par ++ ".txt")%string = path /\ cp_id par = id /\ cp_time_dependent par = true /\ cp_scenario_dependent par = true.
Proof. intros study c id period path t par H. now apply generated in H as (_ & H). Qed.
Print Assumptions C43_parameter.
Example C43_parameter_example : exists t par, generate_component_parameter "study" ex_cluster "nb_units_min" 0 =
    Ok (("study/input/thermal/series/fr/gas/nb_units_min.txt", t), par) /\ cp_value par = "study/input/thermal/series/fr/gas/nb_units_min".
Proof. eexists _, _. split; reflexivity. Qed.

(** the files of different clusters or parameters are different *)
Theorem C43_files : forall study c c' id id' period period' path path' t t' par par',
  no_slash (th_area c) -> no_slash (th_area c') -> no_slash (th_id c) -> no_slash (th_id c') ->
  generate_component_parameter study c id period = Ok ((path, t), par) ->
  generate_component_parameter study c' id' period' = Ok ((path', t'), par') ->
  path = path' -> th_area c = th_area c' /\ th_id c = th_id c' /\ id = id'.
Proof.
  intros study c c' id id' period period' path path' t t' par par' A A' B B' H H' E.
  apply generated in H as (-> & _), H' as (-> & _). eapply path_inj; eauto.
Qed.
Print Assumptions C43_files.
Example C43_files_example : no_slash (th_area ex_cluster) /\ no_slash (th_id ex_cluster).
Proof. cbn. repeat split; discriminate. Qed.

(** requests for other parameters are refused *)
Theorem C43_unknown : forall study c id period, ~ In id known -> generate_component_parameter study c id period = Err ValueError.
Proof. exact unknown_id. Qed.
Print Assumptions C43_unknown.
Example C43_unknown_example : ~ In "p_max_cluster" known.
Proof. cbn. intuition discriminate. Qed.
