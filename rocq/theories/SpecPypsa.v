(** Specification vocabulary for PyPSA networks: the problem that a network describes, in terms of its tables and
    time series, without going through the converter, the library or the files. *)
From Coq Require Import Permutation.
From Verif Require Import Base LinearExpr Study Optim Pypsa SpecLinear SpecOptim SpecMain.
Local Open Scope string_scope.
Local Open Scope list_scope.

(** an order in which python may go through a set *)
Definition set_order (order : list string -> list string) : Prop := forall l, Permutation (order l) l.

(** ** Components and their attributes *)
Inductive kind := Generators | Loads | Buses | Links | StorageUnits | Stores.
Definition kinds : list kind := [Generators; Loads; Buses; Links; StorageUnits; Stores].
Definition table (n : pypsa_network) (k : kind) : dataframe :=
  match k with
  | Generators => pn_generators n | Loads => pn_loads n | Buses => pn_buses n | Links => pn_links n
  | StorageUnits => pn_storage_units n | Stores => pn_stores n
  end.
Definition series (n : pypsa_network) (k : kind) : series_tables :=
  match k with
  | Generators => pn_generators_t n | Loads => pn_loads_t n | Buses => pn_buses_t n | Links => pn_links_t n
  | StorageUnits => pn_storage_units_t n | Stores => pn_stores_t n
  end.
Definition names (n : pypsa_network) (k : kind) : list string := df_index (table n k).
(** the id of the component in the study *)
Definition suffix (k : kind) : string :=
  match k with Generators => "_generator" | Loads => "_load" | StorageUnits => "_storage" | Stores => "_store" | _ => "" end.
Definition study_id (k : kind) (c : string) : string := (c ++ suffix k)%string.
Definition constraint_names (n : pypsa_network) : list string := df_index (pn_global_constraints n).
Definition study_ids (n : pypsa_network) : list string :=
  flat_map (fun k => map (study_id k) (names n k)) kinds ++ constraint_names n.

Definition entry_of (df : dataframe) (row a : string) : option pcell :=
  match dget String.eqb a (df_columns df) with Some c => dget String.eqb row (combine (df_index df) c) | None => None end.
(** numbers above 1e20 stand for infinity, and the reverse *)
Definition cell_number (c : pcell) : option Qc :=
  let big := Z2Qc (10 ^ 20) in
  match c with
  | CNum (Fin q) => Some (if Qcltb big q then big else if Qcltb q (- big) then - big else q)%Qc
  | CNum PInf => Some big
  | CNum NInf => Some (- big)%Qc
  | CBool b => Some (if b then 1 else 0)%Qc
  | _ => None
  end.
Definition or_zero (o : option Qc) : Qc := match o with Some q => q | None => 0%Qc end.
Definition static_number (df : dataframe) (row a : string) : Qc :=
  or_zero (match entry_of df row a with Some c => cell_number c | None => None end).
Definition series_of_attribute (n : pypsa_network) (k : kind) (c a : string) : option (list num) :=
  match dget String.eqb a (series n k) with Some columns => dget String.eqb c columns | None => None end.

Section Network.
  Context (n : pypsa_network) (T S : Z).

  (** the value of attribute [a] of [c]: that of its time series if it has one, the snapshots repeating, else that of the table *)
  Definition attribute (k : kind) (c a : string) (t : Z) : Qc :=
    match series_of_attribute n k c a with
    | Some l => match nth_error l (Z.to_nat (t mod T)) with Some (Fin q) => q | _ => 0%Qc end
    | None => static_number (table n k) c a
    end.
  (** ** Capacities: chosen between two limits when extendable, else given *)
  Definition capacity (k : kind) : string := match k with Stores => "e_nom" | _ => "p_nom" end.
  Definition extendable (k : kind) (c : string) : bool :=
    match entry_of (table n k) c (capacity k ++ "_extendable") with
    | Some (CBool b) => b
    | Some (CNum (Fin q)) => negb (Qceqb q 0)
    | _ => true
    end.
  Definition least_capacity (k : kind) (c : string) : Qc :=
    static_number (table n k) c (if extendable k c then capacity k ++ "_min" else capacity k).
  Definition greatest_capacity (k : kind) (c : string) : Qc :=
    static_number (table n k) c (if extendable k c then capacity k ++ "_max" else capacity k).
  Definition investment_cost (k : kind) (c : string) : Qc :=
    if extendable k c then static_number (table n k) c "capital_cost" else 0%Qc.
  (** CO2 per unit of primary energy *)
  Definition emissions (k : kind) (c : string) : Qc :=
    match entry_of (table n k) c "carrier" with
    | Some (CText EmptyString) => 0%Qc
    | Some (CText carrier) => static_number (pn_carriers n) carrier "co2_emissions"
    | _ => 0%Qc
    end.
  (** those that name the bus [b] in column [column] *)
  Definition attached (k : kind) (column b : string) : list string :=
    filter (fun c => match entry_of (table n k) c column with Some (CText b') => String.eqb b' b | _ => false end) (names n k).

  (** ** Decisions [x id quantity timestep scenario]; quantities of each kind, and whether they are the same at all times *)
  Definition quantities (k : kind) : list (string * bool) :=
    match k with
    | Generators => [("p_nom", false); ("p", true)]
    | Links => [("p_nom", false); ("p0", true)]
    | StorageUnits => [("p_nom", false); ("p_store", true); ("p_dispatch", true); ("state_of_charge", true); ("spill", true)]
    | Stores => [("e_nom", false); ("e", true); ("p", true)]
    | _ => []
    end.
  Definition network_decisions (x : decisions) : Prop :=
    (forall c q t s, x c q (t + T)%Z s = x c q t s) /\
    (forall k c q t s t' s', In c (names n k) -> In (q, false) (quantities k) -> x (study_id k c) q t s = x (study_id k c) q t' s').
  (** the solver's variable that holds a quantity *)
  Definition held (o : settings) (st : state) (k : kind) (c q : string) (varies : bool) (t s : Z) (i : nat) : Prop :=
    get_component_variable o st (given_index varies t) (given_index varies s) (study_id k c) q = Ok i.
  Definition network_values (o : settings) (st : state) (y : nat -> Qc) (x : decisions) : Prop :=
    forall k c q varies t s i, In c (names n k) -> In (q, varies) (quantities k) -> (0 <= t < T)%Z -> (0 <= s < S)%Z ->
    held o st k c q varies t s i -> y i = x (study_id k c) q t s.

  Definition qsum {A} (f : A -> Qc) (l : list A) : Qc := fold_right (fun a v => (f a + v)%Qc) 0%Qc l.

  Section Decisions.
    Context (x : decisions).
    Definition of_generator (g q : string) := x (study_id Generators g) q.
    Definition of_link (l q : string) := x (study_id Links l) q.
    Definition of_unit (u q : string) := x (study_id StorageUnits u) q.
    Definition of_store (e q : string) := x (study_id Stores e) q.

    (** ** Constraints *)
    (** power into bus [b] *)
    Definition injection (b : string) (t s : Z) : Qc :=
      (qsum (fun g => of_generator g "p" t s * attribute Generators g "sign" t) (attached Generators "bus" b) +
       qsum (fun l => attribute Loads l "sign" t * attribute Loads l "p_set" t) (attached Loads "bus" b) +
       qsum (fun l => - of_link l "p0" t s) (attached Links "bus0" b) +
       qsum (fun l => attribute Links l "efficiency" t * of_link l "p0" t s) (attached Links "bus1" b) +
       qsum (fun u => of_unit u "p_dispatch" t s - of_unit u "p_store" t s) (attached StorageUnits "bus" b) +
       qsum (fun e => of_store e "p" t s) (attached Stores "bus" b))%Qc.
    (** CO2 emitted over all snapshots *)
    Definition emitted (s : Z) : Qc :=
      qsum (fun t => qsum (fun g => (of_generator g "p" t s * emissions Generators g / attribute Generators g "efficiency" t)%Qc)
                       (names n Generators)) (zrange 0 T).
    Definition produced (g : string) (s : Z) : Qc := qsum (fun t => of_generator g "p" t s) (zrange 0 T).

    (** ** Cost: expectation over equally probable scenarios *)
    Definition expected (f : Z -> Qc) : Qc := (qsum f (zrange 0 S) / Z2Qc S)%Qc.
    Definition over_time (f : Z -> Z -> Qc) (s : Z) : Qc := qsum (fun t => f t s) (zrange 0 T).
    Definition generator_cost (g : string) : Qc :=
      (expected (over_time (fun t s => attribute Generators g "marginal_cost" t * of_generator g "p" t s)) +
       of_generator g "p_nom" 0 0 * investment_cost Generators g)%Qc.
    Definition link_cost (l : string) : Qc :=
      (expected (over_time (fun t s => attribute Links l "marginal_cost" t * of_link l "p0" t s)) +
       investment_cost Links l * of_link l "p_nom" 0 0)%Qc.
    Definition unit_cost (u : string) : Qc :=
      (expected (over_time (fun t s => attribute StorageUnits u "marginal_cost" t * of_unit u "p_dispatch" t s +
                                       attribute StorageUnits u "spill_cost" t * of_unit u "spill" t s +
                                       attribute StorageUnits u "marginal_cost_storage" t * of_unit u "state_of_charge" t s)) +
       investment_cost StorageUnits u * of_unit u "p_nom" 0 0)%Qc.
    Definition store_cost (e : string) : Qc :=
      (expected (over_time (fun t s => attribute Stores e "marginal_cost" t * of_store e "p" t s +
                                       attribute Stores e "marginal_cost_storage" t * of_store e "e" t s)) +
       investment_cost Stores e * of_store e "e_nom" 0 0)%Qc.
    Definition network_cost : Qc :=
      (qsum generator_cost (names n Generators) + qsum link_cost (names n Links) +
       qsum unit_cost (names n StorageUnits) + qsum store_cost (names n Stores))%Qc.
  End Decisions.

  Inductive py_constraint :=
  | PowerBalance (b : string) | ReactiveBalance (b : string)
  | LeastDispatch (g : string) | GreatestDispatch (g : string) | LeastProduction (g : string) | GreatestProduction (g : string)
  | GreatestFlow (l : string) | LeastFlow (l : string)
  | GreatestStoring (u : string) | GreatestStoringAgain (u : string) | GreatestCharge (u : string) | ChargeBalance (u : string)
  | GreatestEnergy (e : string) | LeastEnergy (e : string) | EnergyBalance (e : string)
  | EmissionLimit (c : string) | EmissionTarget (c : string).
  (** the component of the constraint and the name it has there *)
  Definition constraint_place (k : py_constraint) : string * string :=
    match k with
    | PowerBalance b => (study_id Buses b, "p_balance") | ReactiveBalance b => (study_id Buses b, "q_balance")
    | LeastDispatch g => (study_id Generators g, "min_dispatch") | GreatestDispatch g => (study_id Generators g, "max_dispatch")
    | LeastProduction g => (study_id Generators g, "min_production")
    | GreatestProduction g => (study_id Generators g, "max_production")
    | GreatestFlow l => (study_id Links l, "p0_upper") | LeastFlow l => (study_id Links l, "p0_lower")
    | GreatestStoring u => (study_id StorageUnits u, "p_store_upper")
    | GreatestStoringAgain u => (study_id StorageUnits u, "p_dispatch_upper")
    | GreatestCharge u => (study_id StorageUnits u, "state_of_charge_upper")
    | ChargeBalance u => (study_id StorageUnits u, "state_of_charge_balance")
    | GreatestEnergy e => (study_id Stores e, "e_upper") | LeastEnergy e => (study_id Stores e, "e_lower")
    | EnergyBalance e => (study_id Stores e, "energy_balance")
    | EmissionLimit c => (c, "constraint_expression") | EmissionTarget c => (c, "constraint_expression")
    end.
  Definition has_sense (c sense : string) : Prop := entry_of (pn_global_constraints n) c "sense" = Some (CText sense).
  (** the constraints of the network *)
  Definition of_network (k : py_constraint) : Prop :=
    match k with
    | PowerBalance b | ReactiveBalance b => In b (names n Buses)
    | LeastDispatch g | GreatestDispatch g | LeastProduction g | GreatestProduction g => In g (names n Generators)
    | GreatestFlow l | LeastFlow l => In l (names n Links)
    | GreatestStoring u | GreatestStoringAgain u | GreatestCharge u | ChargeBalance u => In u (names n StorageUnits)
    | GreatestEnergy e | LeastEnergy e | EnergyBalance e => In e (names n Stores)
    | EmissionLimit c => In c (constraint_names n) /\ has_sense c "<="
    | EmissionTarget c => In c (constraint_names n) /\ has_sense c "=="
    end.
  Definition constant_of (c : string) : Qc :=
    match entry_of (pn_global_constraints n) c "constant" with Some (CNum (Fin q)) => q | _ => 0%Qc end.
  (** the constraint at snapshot [t] in scenario [s], [w] having been taken out of its left-hand side *)
  Definition holds (x : decisions) (k : py_constraint) (w : Qc) (t s : Z) : Prop :=
    let gen g q := of_generator x g q t s in let gena g a := attribute Generators g a t in
    let link l q := of_link x l q t s in let linka l a := attribute Links l a t in
    let unit u q := of_unit x u q t s in let unita u a := attribute StorageUnits u a t in
    let sto e q := of_store x e q t s in let stoa e a := attribute Stores e a t in
    match k with
    | PowerBalance b => (injection x b t s - w = 0)%Qc
    | ReactiveBalance b => (0 - w = 0)%Qc
    | LeastDispatch g => (gen g "p_nom" * gena g "p_min_pu" <= gen g "p" - w)%Qc
    | GreatestDispatch g => (gen g "p" - w <= gen g "p_nom" * gena g "p_max_pu")%Qc
    | LeastProduction g => (gena g "e_sum_min" <= produced x g s - w)%Qc
    | GreatestProduction g => (produced x g s - w <= gena g "e_sum_max")%Qc
    | GreatestFlow l => (link l "p0" - w <= linka l "p_max_pu" * link l "p_nom")%Qc
    | LeastFlow l => (linka l "p_min_pu" * link l "p_nom" <= link l "p0" - w)%Qc
    | GreatestStoring u | GreatestStoringAgain u => (unit u "p_store" - w <= unita u "p_max_pu" * unit u "p_nom")%Qc
    | GreatestCharge u => (unit u "state_of_charge" - w <= unita u "max_hours" * unit u "p_nom")%Qc
    | ChargeBalance u =>
        (unit u "state_of_charge" - w =
         (1 - unita u "standing_loss") * of_unit x u "state_of_charge" (t - 1) s + unita u "efficiency_store" * unit u "p_store" -
         unit u "p_dispatch" / unita u "efficiency_dispatch" + unita u "inflow" - unit u "spill")%Qc
    | GreatestEnergy e => (sto e "e" - w <= stoa e "e_max_pu" * sto e "e_nom")%Qc
    | LeastEnergy e => (stoa e "e_min_pu" * sto e "e_nom" <= sto e "e" - w)%Qc
    | EnergyBalance e => (sto e "e" - w = (1 - stoa e "standing_loss") * of_store x e "e" (t - 1) s - sto e "p")%Qc
    | EmissionLimit c => (emitted x s - w <= constant_of c)%Qc
    | EmissionTarget c => (emitted x s - w = constant_of c)%Qc
    end.

  (** how many quantities a constraint mentions, and how many the cost mentions *)
  Definition constraint_size (k : py_constraint) : nat :=
    match k with
    | PowerBalance b =>
        List.length (attached Generators "bus" b) + List.length (attached Links "bus0" b) + List.length (attached Links "bus1" b) +
        2 * List.length (attached StorageUnits "bus" b) + List.length (attached Stores "bus" b)
    | ReactiveBalance _ => 0
    | LeastProduction _ | GreatestProduction _ => Z.to_nat T
    | ChargeBalance _ => 5
    | EnergyBalance _ => 3
    | EmissionLimit _ | EmissionTarget _ => Z.to_nat T * List.length (names n Generators)
    | _ => 2
    end.
  Definition cost_size : nat :=
    let steps := (Z.to_nat S * Z.to_nat T)%nat in
    (steps + 1) * List.length (names n Generators) + (steps + 1) * List.length (names n Links) +
    (steps * 3 + 1) * List.length (names n StorageUnits) + (steps * 2 + 1) * List.length (names n Stores).

  (** ** Limits of the quantities *)
  Definition limits (k : kind) (c q : string) (t : Z) : num * num :=
    let given := (Fin (least_capacity k c), Fin (greatest_capacity k c)) in
    let power := (Fin 0%Qc, Fin (attribute k c "p_max_pu" t * greatest_capacity k c)%Qc) in
    match k with
    | Generators | Links => if String.eqb q "p_nom" then given else (NInf, PInf)
    | Stores => if String.eqb q "e_nom" then given else (NInf, PInf)
    | StorageUnits =>
        if String.eqb q "p_nom" then given
        else if String.eqb q "state_of_charge" then (Fin 0%Qc, Fin (attribute k c "max_hours" t * greatest_capacity k c)%Qc)
        else if String.eqb q "spill" then (Fin 0%Qc, PInf) else power
    | _ => (NInf, PInf)
    end.

  (** ** Networks for which the problem is that of the tables *)
  (** attributes read from the table or from a time series *)
  Definition attributes (k : kind) : list string :=
    match k with
    | Generators => ["p_min_pu"; "p_max_pu"; "marginal_cost"; "e_sum_min"; "e_sum_max"; "sign"; "efficiency"]
    | Loads => ["p_set"; "q_set"; "sign"]
    | Buses => ["v_nom"; "x"; "y"; "v_mag_pu_set"; "v_mag_pu_min"; "v_mag_pu_max"]
    | Links => ["efficiency"; "p_min_pu"; "p_max_pu"; "marginal_cost"]
    | StorageUnits => ["p_min_pu"; "p_max_pu"; "sign"; "efficiency_store"; "efficiency_dispatch"; "standing_loss"; "max_hours";
                       "marginal_cost"; "marginal_cost_storage"; "spill_cost"; "inflow"]
    | Stores => ["sign"; "e_min_pu"; "e_max_pu"; "standing_loss"; "marginal_cost"; "marginal_cost_storage"]
    end.
  Definition with_capacity (k : kind) : bool := match k with Loads | Buses => false | _ => true end.
  Definition capacity_attributes (k : kind) : list string :=
    if with_capacity k then [capacity k; capacity k ++ "_min"; capacity k ++ "_max"; "capital_cost"]%string else [].
  Definition bus_columns (k : kind) : list string :=
    match k with Buses => [] | Links => ["bus0"; "bus1"] | _ => ["bus"] end.
  Definition numeric (df : dataframe) (row a : string) : Prop :=
    exists c q, entry_of df row a = Some c /\ cell_number c = Some q.
  Definition full_table (df : dataframe) : Prop :=
    NoDup (df_index df) /\ NoDup (map fst (df_columns df)) /\
    forall a c, In (a, c) (df_columns df) -> List.length c = List.length (df_index df).
  Definition known_carrier (k : kind) (c : string) : Prop :=
    exists carrier, entry_of (table n k) c "carrier" = Some (CText carrier) /\
      (carrier = "" \/ carrier <> "null" /\ numeric (pn_carriers n) carrier "co2_emissions").
  Definition good_series (k : kind) : Prop :=
    NoDup (map fst (series n k)) /\
    forall a columns, In (a, columns) (series n k) ->
    (In a ("co2_emissions" :: capacity_attributes k) -> columns = []) /\ NoDup (map fst columns) /\
    forall c l, In (c, l) columns ->
      In c (names n k) /\ (T <= Z.of_nat (List.length l))%Z /\ forall v, In v l -> exists q, v = Fin q.
  Definition good_network : Prop :=
    NoDup (study_ids n) /\
    full_table (pn_carriers n) /\ ~ In "null" (df_index (pn_carriers n)) /\
    dmem String.eqb "co2_emissions" (df_columns (pn_carriers n)) = true /\
    (forall k, full_table (table n k) /\ good_series k /\
       (with_capacity k = true -> dmem String.eqb "co2_emissions" (df_columns (table n k)) = false) /\
       forall c, In c (names n k) ->
         (forall a, In a (attributes k ++ capacity_attributes k) -> numeric (table n k) c a) /\
         (forall column, In column (bus_columns k) -> exists b, entry_of (table n k) c column = Some (CText b)) /\
         (with_capacity k = true -> known_carrier k c /\
            exists v, entry_of (table n k) c (capacity k ++ "_extendable") = Some v)) /\
    (forall g t, In g (names n Generators) -> attribute Generators g "efficiency" t <> 0%Qc) /\
    (forall u t, In u (names n StorageUnits) -> attribute StorageUnits u "efficiency_dispatch" t <> 0%Qc) /\
    full_table (pn_global_constraints n) /\
    (forall c, In c (constraint_names n) -> exists q, entry_of (pn_global_constraints n) c "constant" = Some (CNum (Fin q))).
End Network.

(** ** Networks whose features a study can express *)
Definition has_column (df : dataframe) (a : string) : Prop := dmem String.eqb a (df_columns df) = true.
(** every entry of a column is [q], False and True being 0 and 1 *)
Definition all_are (df : dataframe) (a : string) (q : Qc) : Prop :=
  has_column df a /\
  forall c v, entry_of df c a = Some v ->
  match v with CNum (Fin r) => r = q | CBool b => (if b then 1 else 0)%Qc = q | _ => False end.
Definition supported (n : pypsa_network) : Prop :=
  pn_investment_periods n = 0%nat /\ (forall w, In w (pn_weightings n) -> w = Fin 1%Qc) /\
  all_are (pn_generators n) "marginal_cost_quadratic" 0 /\ all_are (pn_generators n) "active" 1 /\
  all_are (pn_generators n) "committable" 0 /\ all_are (pn_loads n) "active" 1 /\ all_are (pn_links n) "active" 1 /\
  all_are (pn_storage_units n) "sign" 1 /\ all_are (pn_storage_units n) "cyclic_state_of_charge" 1 /\
  all_are (pn_storage_units n) "marginal_cost_quadratic" 0 /\
  all_are (pn_stores n) "sign" 1 /\ all_are (pn_stores n) "e_cyclic" 1 /\ all_are (pn_stores n) "marginal_cost_quadratic" 0 /\
  forall c, In c (constraint_names n) ->
    entry_of (pn_global_constraints n) c "type" = Some (CText "primary_energy") /\
    entry_of (pn_global_constraints n) c "carrier_attribute" = Some (CText "co2_emissions") /\
    (has_sense n c "<=" \/ has_sense n c "==").
(** the columns read, which PyPSA's tables have even when they are empty *)
Definition all_columns (n : pypsa_network) : Prop :=
  forall k a, In a (attributes k ++ capacity_attributes k ++ bus_columns k ++
    (if with_capacity k then ["carrier"; capacity k ++ "_extendable"]%string else [])) -> has_column (table n k) a.
