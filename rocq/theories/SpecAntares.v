(** Specification of the conversion of Antares studies (C62 to C65): what a study contains, which of its objects stand for
    batteries, and the problem that the study describes.  Written from the meaning of the data of Antares; nothing here
    goes through the template of batteries, the texts of the libraries or the system built. *)
From Coq Require Import Ascii Qround.
From Verif Require Import Base Study System Library Optim SpecSystem SpecOptim SpecMain SpecPypsa Thermal Antares SpecThermal.
Local Open Scope list_scope.
Local Open Scope string_scope.

(** ** Names *)
(** the character does not occur *)
Fixpoint free_of (k : ascii) (s : string) : Prop :=
  match s with EmptyString => True | String c s => c <> k /\ free_of k s end.
(** an id of Antares has neither the separators of composed names nor that of paths *)
Definition plain (s : string) : Prop := free_of "."%char s /\ free_of "%"%char s /\ free_of "/"%char s.
(** areas are kept under their ids, which have no separator of composed names *)
Definition well_named (s : an_study) : Prop :=
  (forall k a, In (k, a) (an_areas s) -> k = ar_id a) /\
  (forall a, In a (areas_of s) -> free_of "."%char (ar_id a) /\ free_of "%"%char (ar_id a)).
(** the area in which the energy stored by batteries is kept, and the one beside it *)
Definition reserve : string := "z_batteries".
Definition reserve_pcomp : string := "z_batteries_pcomp".
(** the clusters that stand for the battery of [area]: its withdrawal in the area, its stock in the reserve *)
Definition withdrawal_cluster (area : string) : string := area ++ "_batteries_inj".
Definition stock_cluster (area n : string) : string := "z_batteries_batteries_" ++ area ++ "_" ++ n.
Definition area_ids (s : an_study) : list string := map ar_id (areas_of s).
Definition is_withdrawal (s : an_study) (area id : string) : Prop :=
  In area (area_ids s) /\ id = withdrawal_cluster area.
Definition is_stock (s : an_study) (area id : string) : Prop :=
  area = reserve /\ exists b, In b (area_ids s) /\ (id = stock_cluster b "1" \/ id = stock_cluster b "2").
Definition serves_battery (s : an_study) (area id : string) : Prop := is_withdrawal s area id \/ is_stock s area id.
(** as a decision *)
Definition serves_batteryb (s : an_study) (area id : string) : bool :=
  existsb (fun b => (String.eqb area b && String.eqb id (withdrawal_cluster b)) ||
                    (String.eqb area reserve && (String.eqb id (stock_cluster b "1") || String.eqb id (stock_cluster b "2"))))
    (area_ids s).
Definition to_reserve (s : an_study) (from to : string) : bool := existsb (String.eqb from) (area_ids s) && String.eqb to reserve.

(** ** Batteries *)
(** the battery of an area: capacities, weights of the energy stored and withdrawn, and for every hour the greatest level,
    injection and withdrawal, and the cost of injecting *)
Record battery := {
  bt_reservoir : num; bt_injection : num; bt_withdrawal : num; bt_charging : num; bt_discharging : num;
  bt_levels : list num; bt_injections : list num; bt_withdrawals : list num; bt_costs : list num
}.
Definition first_column (r : result table) : option (list num) :=
  match r with Ok t => if Nat.ltb 0 (tb_width t) then Some (map (fun row => nth 0 row NaN) (tb_rows t)) else None | Err _ => None end.
(** a matrix that can be read has a value, another one is missing *)
Definition reads_fine (s : an_study) : Prop := forall ty a o,
  match an_read s ty a o with Ok t => (0 < tb_width t)%nat /\ tb_rows t <> [] | Err e => e = FileNotFoundErr end.
(** the greatest of [v] and of the values of [l], the first one among equals *)
Fixpoint greatest (v : num) (l : list num) : num :=
  match l with [] => v | x :: l => greatest (if nltb v x then x else v) l end.
(** what the study says about the battery of area [id], when it says all of it *)
Definition battery_of (s : an_study) (id : string) : option battery :=
  match dget String.eqb reserve (an_areas s), dget String.eqb id (an_areas s), dget String.eqb ("batteries_" ++ id) (an_constraints s) with
  | Some z, Some a, Some weights =>
      match dget String.eqb (stock_cluster id "1") (ar_thermals z), dget String.eqb (withdrawal_cluster id) (ar_thermals a),
            dget String.eqb (id ++ "%" ++ reserve) weights, dget String.eqb (id ++ "." ++ withdrawal_cluster id) weights with
      | Some stock, Some out, Some charging, Some discharging =>
          match first_column (an_read s THERMAL_SERIES reserve (stock_cluster id "1")),
                first_column (an_read s LINKS_CAPACITIES_DIRECT id reserve),
                first_column (an_read s THERMAL_SERIES id (withdrawal_cluster id)),
                first_column (an_read s LINKS_PARAMETERS id reserve) with
          | Some levels, Some (v :: l), Some withdrawals, Some costs => Some {|
              bt_reservoir := th_nominal_capacity (at_cluster stock); bt_injection := greatest v l;
              bt_withdrawal := th_nominal_capacity (at_cluster out);
              bt_charging := nmul charging (nz (-1)); bt_discharging := discharging;
              bt_levels := levels; bt_injections := v :: l; bt_withdrawals := withdrawals; bt_costs := costs |}
          | _, _, _, _ => None
          end
      | _, _, _, _ => None
      end
  | _, _, _ => None
  end.
(** the elements of the list up to the first one without image *)
Fixpoint leading {A B} (f : A -> option B) (l : list A) : list (A * B) :=
  match l with
  | [] => []
  | a :: l => match f a with Some b => (a, b) :: leading f l | None => [] end
  end.
(** the areas that may have a battery *)
Definition battery_areas (s : an_study) : list an_area :=
  map snd (filter (fun ka => negb (String.eqb (fst ka) reserve || String.eqb (fst ka) reserve_pcomp)) (an_areas s)).

(** ** What a study contains *)
Inductive element :=
| Area (a : an_area)
| Renewable (r : an_renewable)
| Cluster (a : an_area) (t : an_thermal)
| Storage (a : an_area) (o : an_storage)
| Load (a : an_area)
| Wind (a : an_area)
| Solar (a : an_area)
| Link (k : an_link)
| Battery (a : an_area) (b : battery).
(** a matrix with a value other than zero *)
Definition useful (m : option table) : bool :=
  match m with
  | Some t => Nat.ltb 0 (tb_width t) && existsb (existsb (fun v => negb (neqb v n0))) (tb_rows t)
  | None => false
  end.
Definition nodes (s : an_study) : list element :=
  map Area (filter (fun a => negb (String.eqb (ar_id a) reserve)) (areas_of s)).
Definition elements (s : an_study) : list element :=
  (map Renewable (flat_map (fun a => map snd (ar_renewables a)) (areas_of s)) ++
  flat_map (fun a => map (Cluster a) (filter (fun t => negb (serves_batteryb s (ar_id a) (th_id (at_cluster t)))) (map snd (ar_thermals a))))
    (areas_of s) ++
  flat_map (fun a => map (Storage a) (map snd (ar_storages a))) (areas_of s) ++
  map Load (filter (fun a => useful (ar_load a)) (areas_of s)) ++
  map Wind (filter (fun a => useful (ar_wind a)) (areas_of s)) ++
  map Solar (filter (fun a => useful (ar_solar a)) (areas_of s)) ++
  map Link (filter (fun k => negb (to_reserve s (ln_from k) (ln_to k))) (map snd (an_links s))) ++
  map (fun ab => Battery (fst ab) (snd ab)) (leading (fun a => battery_of s (ar_id a)) (battery_areas s)))%list.
Definition element_id (e : element) : string :=
  match e with
  | Area a => ar_id a
  | Renewable r => rn_id r
  | Cluster _ t => th_id (at_cluster t)
  | Storage _ o => so_id o
  | Load _ => "load"
  | Wind a | Solar a => ar_id a
  | Link k => ln_id k
  | Battery a _ => "battery_" ++ ar_id a
  end.

(** ** The study written by the converter *)
(** a parameter: its name, whether it varies with time and with the scenario, a number or a file *)
Definition given_parameter : Type := (string * bool * bool * (num + string))%type.
Definition number_of (id : string) (v : num) : given_parameter := (id, false, false, inl v).
Definition file_of (id path : string) : given_parameter := (id, true, true, inr path).
Definition file_of_time (id path : string) : given_parameter := (id, true, false, inr path).
Section Written.
  Context (s : an_study).
  Definition place (p : string) : string := an_path s ++ "/input/" ++ p.
  Definition cluster_place (area id p : string) : string := place ("thermal/series/" ++ area ++ "/" ++ id ++ "/" ++ p).
  Definition storage_place (area id p : string) : string := place ("st-storage/series/" ++ area ++ "/" ++ id ++ "/" ++ p).
  Definition matrix_place (kind area : string) : string := place (kind ++ "/series/" ++ kind ++ "_" ++ area).
  Definition link_place (from p : string) : string := place ("links/" ++ from ++ "/" ++ p).
  (** the model of the libraries and the parameters it gets *)
  Definition described (e : element) : string * list given_parameter :=
    match e with
    | Area a => ("antares-historic.area",
        [number_of "ens_cost" (ar_energy_cost_unsupplied a); number_of "spillage_cost" (ar_energy_cost_spilled a)])
    | Renewable r => ("antares-historic.renewable",
        [number_of "unit_count" (nz (rn_unit_count r)); number_of "p_max_unit" (rn_nominal_capacity r);
         file_of "generation" (place ("renewables/series/" ++ rn_area r ++ "/" ++ rn_id r ++ "/series"))])
    | Cluster _ t =>
        let c := at_cluster t in
        let p := cluster_place (th_area c) (th_id c) in
        ("antares-historic.thermal",
         (map (fun id => file_of id (p id)) known ++
         [number_of "unit_count" (nz (th_unit_count c)); number_of "p_min_unit" (at_min_stable_power t);
          number_of "efficiency" (at_efficiency t); number_of "p_max_unit" (th_nominal_capacity c);
          number_of "generation_cost" (at_marginal_cost t); number_of "fixed_cost" (at_fixed_cost t);
          number_of "startup_cost" (at_startup_cost t); number_of "d_min_up" (nz (at_min_up_time t));
          number_of "d_min_down" (nz (at_min_down_time t)); file_of "p_max_cluster" (p "series")])%list)
    | Storage _ o =>
        let p := storage_place (so_area o) (so_id o) in
        ("antares-historic.short-term-storage",
         [number_of "efficiency_injection" (so_efficiency o); number_of "efficiency_withdrawal" n1;
          number_of "initial_level" (so_initial_level o); number_of "reservoir_capacity" (so_reservoir_capacity o);
          number_of "injection_nominal_capacity" (so_injection_nominal_capacity o);
          number_of "withdrawal_nominal_capacity" (so_withdrawal_nominal_capacity o);
          file_of "inflows" (p "inflows"); file_of "lower_rule_curve" (p "lower-rule-curve");
          file_of "upper_rule_curve" (p "upper-rule-curve"); file_of "p_max_injection_modulation" (p "PMAX-injection");
          file_of "p_max_withdrawal_modulation" (p "PMAX-withdrawal")])
    | Load a => ("antares-historic.load", [file_of "load" (matrix_place "load" (ar_id a))])
    | Wind a => ("antares-historic.wind", [file_of "wind" (matrix_place "wind" (ar_id a))])
    | Solar a => ("antares-historic.solar", [file_of "solar" (matrix_place "solar" (ar_id a))])
    | Link k => ("antares-historic.link",
        [file_of "capacity_direct" (link_place (ln_from k) ("capacities/" ++ ln_to k ++ "_direct"));
         file_of "capacity_indirect" (link_place (ln_from k) ("capacities/" ++ ln_to k ++ "_indirect"))])
    | Battery a b =>
        let id := ar_id a in
        ("andromede-v1-models.battery",
         [number_of "reservoir_capacity" (bt_reservoir b); number_of "injection_nominal_capacity" (bt_injection b);
          number_of "withdrawal_nominal_capacity" (bt_withdrawal b); number_of "efficiency_injection" (bt_charging b);
          number_of "efficiency_withdrawal" (bt_discharging b); number_of "lower_rule_curve" n0;
          file_of_time "upper_rule_curve" (cluster_place reserve (stock_cluster id "1") ("upper_rule_curve_" ++ reserve));
          file_of_time "p_max_injection_modulation" (link_place id ("capacities/p_max_injection_modulation_" ++ id));
          file_of_time "p_max_withdrawal_modulation" (cluster_place id (withdrawal_cluster id) ("p_max_withdrawal_modulation_" ++ id));
          file_of_time "marginal_cost" (link_place id ("marginal_cost_" ++ id))])
    end.
  Definition component_of (e : element) : input_component := {|
    ic_id := element_id e; ic_model := fst (described e); ic_group := None;
    ic_parameters := Some (map (fun p => let '(id, time, scenario, v) := p in
      {| ip_id := id; ip_time := time; ip_scenario := scenario; ip_value := v; ip_group := None |}) (snd (described e))) |}.
  Definition joins (c1 p1 c2 : string) : input_connection :=
    {| icn_component1 := c1; icn_port1 := p1; icn_component2 := c2; icn_port2 := "balance_port" |}.
  Definition connections_of (e : element) : list input_connection :=
    match e with
    | Area _ => []
    | Renewable r => [joins (rn_id r) "balance_port" (rn_area r)]
    | Cluster a t => [joins (element_id e) "balance_port" (ar_id a)]
    | Storage a _ | Battery a _ => [joins (element_id e) "injection_port" (ar_id a)]
    | Load a => [joins (element_id e) "balance_port" (ar_id a)]
    | Wind a => [joins "wind" "balance_port" (ar_id a)]
    | Solar a => [joins "solar" "balance_port" (ar_id a)]
    | Link k => [joins (ln_id k) "in_port" (ln_from k); joins (ln_id k) "out_port" (ln_to k)]
    end.
  Definition scaled (l : list num) (by_ : num) : table := {| tb_width := 1; tb_rows := map (fun v => [np_div v by_]) l |}.
  (** the files written for an element, with their content *)
  Definition battery_files (id : string) (b : battery) : list (string * table) :=
    [(cluster_place reserve (stock_cluster id "1") ("upper_rule_curve_" ++ reserve ++ ".txt"), scaled (bt_levels b) (bt_reservoir b));
     (link_place id ("capacities/p_max_injection_modulation_" ++ id ++ ".txt"), scaled (bt_injections b) (bt_injection b));
     (cluster_place id (withdrawal_cluster id) ("p_max_withdrawal_modulation_" ++ id ++ ".txt"), scaled (bt_withdrawals b) (bt_withdrawal b));
     (link_place id ("marginal_cost_" ++ id ++ ".txt"), {| tb_width := 1; tb_rows := map (fun v => [v]) (bt_costs b) |})].
End Written.

(** ** The problem that a study describes *)
Definition fin (v : num) : Qc := match v with Fin q => q | _ => 0%Qc end.
Definition value_at (rows : frame) (i j : nat) : Qc := match nth_error rows i with Some row => fin (nth j row NaN) | None => 0%Qc end.
(** ceiling of [p / size] *)
Definition units_for (size p : Qc) : Z := Qceiling (this (p / size)%Qc).
Definition qmin (a b : Qc) : Qc := if Qcleb a b then a else b.

(** the numbers of a cluster, hour [i] and scenario [j]: the power offered, its size, the power that has to be produced, and
    the numbers of units that these stand for *)
Section ClusterData.
  Context (c : cluster) (period : nat).
  Definition offered (i j : nat) : Qc := value_at (tb_rows (th_series c)) i j.
  Definition unit_size : Qc := fin (th_nominal_capacity c).
  Definition required (i : nat) : Qc := (value_at (tb_rows (th_modulation c)) i 3 * unit_size * Z2Qc (th_unit_count c))%Qc.
  Definition least_power (i : nat) : Qc := fold_right qmin (required i) (map (offered i) (seq 0 (tb_width (th_series c)))).
  Definition least_units (i : nat) : Z := units_for unit_size (least_power i).
  Definition most_units (i j : nat) : Z := units_for unit_size (offered i j).
  (** units that were there in the hour before and are not any more, and the reverse; the first hour has none *)
  Definition hours : nat := List.length (tb_rows (th_series c)).
  Definition units_lost (i j : nat) : Z :=
    match i with O => 0 | _ => Z.max 0 (most_units (hour_before hours period i) j - most_units i j) end.
  Definition units_regained (i j : nat) : Z :=
    match i with O => 0 | _ => Z.max 0 (most_units i j - most_units (hour_before hours period i) j) end.
End ClusterData.

(** the period of a conversion, in hours: the one asked for, and a week when none or zero is *)
Inductive hours_of : option Z -> Z -> Prop :=
| hours_given h : h <> 0%Z -> hours_of (Some h) h
| hours_none : hours_of None (7 * 24)
| hours_zero : hours_of (Some 0%Z) (7 * 24).

Section Problem.
  Context (s : an_study) (directory : string -> result frame) (period : nat) (T S : Z).
  (** the row of timestep [t], and the number stored for it in a matrix of the directory *)
  Definition hour (t : Z) : nat := Z.to_nat (t mod T).
  Definition stored (path : string) (t sc : Z) : Qc :=
    match directory path with Ok rows => value_at rows (hour t) (Z.to_nat sc) | Err _ => 0%Qc end.
  Definition demand (a : an_area) (t sc : Z) : Qc :=
    match ar_load a with Some m => value_at (tb_rows m) (hour t) (Z.to_nat sc) | None => 0%Qc end.
  Definition capacity_direct (k : an_link) : Z -> Z -> Qc := stored (link_place s (ln_from k) ("capacities/" ++ ln_to k ++ "_direct")).
  Definition capacity_indirect (k : an_link) : Z -> Z -> Qc := stored (link_place s (ln_from k) ("capacities/" ++ ln_to k ++ "_indirect")).
  Definition storage_series (o : an_storage) (name : string) : Z -> Z -> Qc := stored (storage_place s (so_area o) (so_id o) name).
  Definition battery_value (l : list num) (t : Z) : Qc := fin (nth (hour t) l NaN).

  (** *** Quantities to be decided, [x id quantity timestep scenario]; whether they are integers *)
  Definition quantities_of (e : element) : list (string * bool) :=
    match e with
    | Area _ => [("spillage", false); ("unsupplied_energy", false)]
    | Cluster _ _ => [("generation", false); ("nb_units_on", true); ("nb_starting", true); ("nb_stopping", true); ("nb_failing", false)]
    | Storage _ _ | Battery _ _ => [("p_injection", false); ("p_withdrawal", false); ("level", false)]
    | Link _ => [("flow_direct", false); ("flow_indirect", false); ("flow", false)]
    | _ => []
    end.
  Definition everything : list element := (nodes s ++ elements s)%list.
  (** the timesteps repeat *)
  Definition study_decisions (x : decisions) : Prop := forall c q t sc, x c q (t + T)%Z sc = x c q t sc.
  (** the solver's variable that holds a quantity *)
  Definition kept_in (o : settings) (st : state) (e : element) (q : string) (t sc : Z) (i : nat) : Prop :=
    get_component_variable o st (Some t) (Some sc) (element_id e) q = Ok i.
  Definition study_values (o : settings) (st : state) (y : nat -> Qc) (x : decisions) : Prop :=
    forall e q integer t sc i, In e everything -> In (q, integer) (quantities_of e) -> (0 <= t < T)%Z -> (0 <= sc < S)%Z ->
    kept_in o st e q t sc i -> y i = x (element_id e) q t sc.

  Section Decisions.
    Context (x : decisions).
    (** *** Power delivered to area [a] by an element *)
    Definition delivers (a : string) (t sc : Z) (e : element) : Qc :=
      let v q := x (element_id e) q t sc in
      let here (b : an_area) p := if String.eqb (ar_id b) a then p else 0%Qc in
      match e with
      | Cluster b _ => here b (v "generation")
      | Storage b _ | Battery b _ => here b (v "p_withdrawal" - v "p_injection")%Qc
      | Load b => here b (- demand b t sc)%Qc
      | Link k => ((if String.eqb (ln_to k) a then v "flow" else 0) - (if String.eqb (ln_from k) a then v "flow" else 0))%Qc
      | _ => 0%Qc
      end.
    (** *** Cost: expectation of the sum over time *)
    Definition running_cost (e : element) (t sc : Z) : Qc :=
      let v q := x (element_id e) q t sc in
      match e with
      | Area a => (fin (ar_energy_cost_spilled a) * v "spillage" + fin (ar_energy_cost_unsupplied a) * v "unsupplied_energy")%Qc
      | Cluster _ g => (fin (at_marginal_cost g) * v "generation" + fin (at_startup_cost g) * v "nb_starting" +
                        fin (at_fixed_cost g) * v "nb_units_on")%Qc
      | Battery _ b => (battery_value (bt_costs b) t * v "p_injection")%Qc
      | _ => 0%Qc
      end.
    Definition study_cost : Qc := qsum (fun e => expected S (over_time T (running_cost e))) everything.
  End Decisions.

  (** *** Constraints *)
  Inductive an_row :=
  | AreaBalance (a : an_area)
  | FlowParts (k : an_link)
  | MostGeneration (a : an_area) (g : an_thermal) | LeastGeneration (a : an_area) (g : an_thermal)
  | UnitsOn (a : an_area) (g : an_thermal) | FailingStop (a : an_area) (g : an_thermal) | FailingLost (a : an_area) (g : an_thermal)
  | UpTime (a : an_area) (g : an_thermal) | DownTime (a : an_area) (g : an_thermal)
  | FirstLevel (a : an_area) (o : an_storage) | LevelChange (a : an_area) (o : an_storage)
  | BatteryChange (a : an_area) (b : battery).
  (** the element of a constraint, and the name it has there *)
  Definition row_place (r : an_row) : element * string :=
    match r with
    | AreaBalance a => (Area a, "balance")
    | FlowParts k => (Link k, "flow_direct_indirect")
    | MostGeneration a g => (Cluster a g, "max_generation") | LeastGeneration a g => (Cluster a g, "min_generation")
    | UnitsOn a g => (Cluster a g, "on_units_dynamics")
    | FailingStop a g => (Cluster a g, "nb_failing_lower_than_stopping")
    | FailingLost a g => (Cluster a g, "nb_failing_lower_than_max_variation")
    | UpTime a g => (Cluster a g, "min_up_duration") | DownTime a g => (Cluster a g, "min_down_duration")
    | FirstLevel a o => (Storage a o, "initial_level") | LevelChange a o => (Storage a o, "Level equation")
    | BatteryChange a b => (Battery a b, "level_equation")
    end.
  (** the sum of [f] over the [d] timesteps that end with [t] *)
  Definition lately (d : Z) (f : Z -> Qc) (t : Z) : Qc := qsum (fun k => f (t + k)%Z) (zrange (1 - d) 1).
  (** the constraint at timestep [t] in scenario [sc], [w] having been taken out of its left-hand side *)
  Definition row_holds (x : decisions) (r : an_row) (w : Qc) (t sc : Z) : Prop :=
    let v q := x (element_id (fst (row_place r))) q t sc in
    let at_ q t' := x (element_id (fst (row_place r))) q t' sc in
    let j := Z.to_nat sc in
    match r with
    | AreaBalance a => (qsum (delivers x (ar_id a) t sc) (elements s) - w = v "spillage" - v "unsupplied_energy")%Qc
    | FlowParts k => (v "flow" - w = v "flow_direct" - v "flow_indirect")%Qc
    | MostGeneration _ g => (v "generation" - w <= v "nb_units_on" * unit_size (at_cluster g))%Qc
    | LeastGeneration _ g => (v "nb_units_on" * fin (at_min_stable_power g) <= v "generation" - w)%Qc
    | UnitsOn _ _ => (v "nb_units_on" - w = at_ "nb_units_on" (t - 1)%Z + v "nb_starting" - v "nb_stopping")%Qc
    | FailingStop _ _ => (v "nb_failing" - w <= v "nb_stopping")%Qc
    | FailingLost _ g => (v "nb_failing" - w <= Z2Qc (units_lost (at_cluster g) period (hour t) j))%Qc
    | UpTime _ g => (lately (at_min_up_time g) (fun t' => at_ "nb_starting" t' - at_ "nb_failing" t') t - w <= v "nb_units_on")%Qc
    | DownTime _ g =>
        (lately (at_min_down_time g) (at_ "nb_stopping") t - w <=
         Z2Qc (most_units (at_cluster g) (hour (t - at_min_down_time g)) j) - v "nb_units_on" +
         lately (at_min_down_time g) (fun t' => Z2Qc (units_regained (at_cluster g) period (hour t') j)) t)%Qc
    | FirstLevel _ o => (at_ "level" 0%Z - w = fin (so_initial_level o) * fin (so_reservoir_capacity o))%Qc
    | LevelChange _ o =>
        (at_ "level" (t + 1)%Z - w =
         v "level" + fin (so_efficiency o) * v "p_injection" - v "p_withdrawal" + storage_series o "inflows" t sc)%Qc
    | BatteryChange _ b =>
        (at_ "level" (t + 1)%Z - w = v "level" + fin (bt_charging b) * v "p_injection" - fin (bt_discharging b) * v "p_withdrawal")%Qc
    end.

  (** *** Quantities that a constraint and the cost mention, every step of a sum counted *)
  Definition delivered_count (a : string) (e : element) : nat :=
    let here (b : an_area) n : nat := if String.eqb (ar_id b) a then n else 0%nat in
    match e with
    | Cluster b _ => here b 1%nat
    | Storage b _ | Battery b _ => here b 2%nat
    | Link k => ((if String.eqb (ln_from k) a then 1 else 0) + (if String.eqb (ln_to k) a then 1 else 0))%nat
    | _ => 0%nat
    end.
  Definition row_size (r : an_row) : nat :=
    match r with
    | AreaBalance a => (list_sum (map (delivered_count (ar_id a)) (elements s)) + 2)%nat
    | FlowParts _ => 3%nat
    | MostGeneration _ _ | LeastGeneration _ _ | FailingStop _ _ => 2%nat
    | UnitsOn _ _ => 4%nat
    | FailingLost _ _ => 1%nat
    | UpTime _ g => (2 * Z.to_nat (at_min_up_time g) + 1)%nat
    | DownTime _ g => (Z.to_nat (at_min_down_time g) + 1)%nat
    | FirstLevel _ _ => 1%nat
    | LevelChange _ _ | BatteryChange _ _ => 4%nat
    end.
  Definition cost_count (e : element) : nat :=
    match e with Area _ => 2%nat | Cluster _ _ => 3%nat | Battery _ _ => 1%nat | _ => 0%nat end.
  Definition study_cost_size : nat := (Z.to_nat S * Z.to_nat T * list_sum (map cost_count everything))%nat.

  (** *** Limits of the quantities *)
  Definition between (a b : Qc) : num * num := (Fin a, Fin b).
  Definition quantity_limits (e : element) (q : string) (t sc : Z) : num * num :=
    let is n := String.eqb q n in
    match e with
    | Cluster _ g =>
        let c := at_cluster g in
        let most := Z2Qc (most_units c (hour t) (Z.to_nat sc)) in
        if is "generation" then between (least_power c (hour t)) (offered c (hour t) (Z.to_nat sc))
        else if is "nb_units_on" then between (Z2Qc (least_units c (hour t))) most
        else if is "nb_starting" then between 0 most else (Fin 0%Qc, PInf)
    | Link k =>
        if is "flow_direct" then between 0 (capacity_direct k t sc)
        else if is "flow_indirect" then between 0 (capacity_indirect k t sc) else (NInf, PInf)
    | Storage _ o =>
        if is "p_injection" then between 0 (storage_series o "PMAX-injection" t sc * fin (so_injection_nominal_capacity o))
        else if is "p_withdrawal" then between 0 (storage_series o "PMAX-withdrawal" t sc * fin (so_withdrawal_nominal_capacity o))
        else between (storage_series o "lower-rule-curve" t sc * fin (so_reservoir_capacity o))
                     (storage_series o "upper-rule-curve" t sc * fin (so_reservoir_capacity o))
    | Battery _ b =>
        between 0 (battery_value (if is "p_injection" then bt_injections b else if is "p_withdrawal" then bt_withdrawals b else bt_levels b) t)
    | _ => (Fin 0%Qc, PInf)
    end.

  (** *** Studies for which the problem built is this one *)
  Definition a_number (v : num) : Prop := exists q, v = Fin q.
  Definition full_matrix (rows : frame) : Prop :=
    (T <= Z.of_nat (List.length rows))%Z /\
    forall row, In row rows -> (S <= Z.of_nat (List.length row))%Z /\ forall v, In v row -> a_number v.
  Definition full_series (l : list num) : Prop := (T <= Z.of_nat (List.length l))%Z /\ forall v, In v l -> a_number v.
  Definition full_file (path : string) : Prop := exists rows, directory path = Ok rows /\ full_matrix rows.
  Definition good_element (e : element) : Prop :=
    match e with
    | Area a => a_number (ar_energy_cost_unsupplied a) /\ a_number (ar_energy_cost_spilled a)
    | Cluster a g =>
        let c := at_cluster g in
        th_area c = ar_id a /\
        (exists n m modulation power size, regular c n m modulation power size /\ (0 < size)%Qc /\ (0 < m)%nat /\ (T <= Z.of_nat n)%Z) /\
        (forall v, In v [at_min_stable_power g; at_efficiency g; at_marginal_cost g; at_fixed_cost g; at_startup_cost g] -> a_number v) /\
        directory (cluster_place s (ar_id a) (th_id c) "series") = Ok (tb_rows (th_series c))
    | Storage a o =>
        so_area o = ar_id a /\
        (forall v, In v [so_efficiency o; so_initial_level o; so_reservoir_capacity o; so_injection_nominal_capacity o;
                         so_withdrawal_nominal_capacity o] -> a_number v) /\
        (forall f, In f ["inflows"; "lower-rule-curve"; "upper-rule-curve"; "PMAX-injection"; "PMAX-withdrawal"] ->
           full_file (storage_place s (ar_id a) (so_id o) f))
    | Load a => exists m, ar_load a = Some m /\ directory (matrix_place s "load" (ar_id a)) = Ok (tb_rows m) /\ full_matrix (tb_rows m)
    | Link k => forall way, In way ["_direct"; "_indirect"] -> full_file (link_place s (ln_from k) ("capacities/" ++ ln_to k ++ way))
    | Battery _ b =>
        (forall v, In v [bt_reservoir b; bt_injection b; bt_withdrawal b] -> exists q, v = Fin q /\ q <> 0%Qc) /\
        a_number (bt_charging b) /\ a_number (bt_discharging b) /\
        full_series (bt_levels b) /\ full_series (bt_injections b) /\ full_series (bt_withdrawals b) /\ full_series (bt_costs b)
    | Renewable _ | Wind _ | Solar _ => False
    end.
  (** files that the conversion writes, and those that it leaves as they are *)
  Definition written_files : list string :=
    (flat_map (fun e => match e with
       | Cluster a g => map (fun id => cluster_place s (ar_id a) (th_id (at_cluster g)) (id ++ ".txt")) known
       | _ => [] end) (elements s) ++
     flat_map (fun a => [
       cluster_place s reserve (stock_cluster (ar_id a) "1") ("upper_rule_curve_" ++ reserve ++ ".txt");
       link_place s (ar_id a) ("capacities/p_max_injection_modulation_" ++ ar_id a ++ ".txt");
       cluster_place s (ar_id a) (withdrawal_cluster (ar_id a)) ("p_max_withdrawal_modulation_" ++ ar_id a ++ ".txt");
       link_place s (ar_id a) ("marginal_cost_" ++ ar_id a ++ ".txt")]) (battery_areas s))%list.
  Definition source_files : list string :=
    flat_map (fun e => match e with
      | Cluster a g => [cluster_place s (ar_id a) (th_id (at_cluster g)) "series.txt"]
      | Storage a o => map (fun f => storage_place s (ar_id a) (so_id o) (f ++ ".txt"))
          ["inflows"; "lower-rule-curve"; "upper-rule-curve"; "PMAX-injection"; "PMAX-withdrawal"]
      | Load a => [matrix_place s "load" (ar_id a) ++ ".txt"]
      | Link k => map (fun way => link_place s (ln_from k) ("capacities/" ++ ln_to k ++ way ++ ".txt")) ["_direct"; "_indirect"]
      | _ => [] end) (elements s).
  Definition good_antares : Prop :=
    (1 <= T)%Z /\ (1 <= S)%Z /\ (0 < period)%nat /\ well_named s /\ NoDup (map element_id everything) /\
    (forall e, In e everything -> good_element e) /\
    NoDup written_files /\ (forall f, In f source_files -> ~ In f written_files).
End Problem.
