(** Specification vocabulary for C83 and C84: plans of Antares studies. *)
From Verif Require Import Base Expr LinearExpr Study Optim System Library Main SpecExpr SpecLibrary SpecSystem SpecLinear SpecOptim
  SpecMain SpecPypsa Thermal Antares SpecThermal SpecAntares SpecScenarios SpecPrecise.
Local Open Scope string_scope.
Local Open Scope list_scope.

Section Exact.
  Context (s : an_study) (directory : string -> result frame) (period : nat) (T S : Z).
  (** ** Data of limited precision *)
  Definition whole (D : Z) (v : num) : Prop := forall q, v = Fin q -> multiple D q.
  Definition whole_matrix (D : Z) (rows : frame) : Prop := forall row v, In row rows -> In v row -> whole D v.
  (** the data of an element by which quantities are multiplied, or that stand alone in a constraint; limits of the
      quantities do not matter *)
  Definition precise_element (D : Z) (e : element) : Prop :=
    match e with
    | Area a => whole D (ar_energy_cost_unsupplied a) /\ whole D (ar_energy_cost_spilled a)
    | Cluster _ g => forall v, In v [th_nominal_capacity (at_cluster g); at_min_stable_power g; at_marginal_cost g; at_fixed_cost g; at_startup_cost g] -> whole D v
    | Storage a o =>
        (forall v, In v [so_efficiency o; so_initial_level o; so_reservoir_capacity o] -> whole D v) /\
        (forall rows, directory (storage_place s (ar_id a) (so_id o) "inflows") = Ok rows -> whole_matrix D rows)
    | Load a => forall m, ar_load a = Some m -> whole_matrix D (tb_rows m)
    | Battery _ b => whole D (bt_charging b) /\ whole D (bt_discharging b) /\ forall v, In v (bt_costs b) -> whole D v
    | _ => True
    end.
  Definition precise_antares : Prop :=
    exists D, (1 <= D)%Z /\ (D * D <= 10 ^ 16)%Z /\ (D * S <= 10 ^ 16)%Z /\ forall e, In e (everything s) -> precise_element D e.

  (** ** Plans of a study *)
  Definition within (limits : num * num) (q : Qc) : Prop := at_least (fst limits) q /\ at_most (snd limits) q.
  Definition study_feasible (x : decisions) : Prop :=
    (forall e q integer t sc, In e (everything s) -> In (q, integer) (quantities_of e) -> (0 <= t < T)%Z -> (0 <= sc < S)%Z ->
       within (quantity_limits s directory T e q t sc) (x (element_id e) q t sc) /\
       (integer = true -> exists z, x (element_id e) q t sc = Z2Qc z)) /\
    (forall r t sc, In (fst (row_place r)) (everything s) -> (0 <= t < T)%Z -> (0 <= sc < S)%Z ->
       row_holds s directory period T x r 0 t sc).
  Definition study_cheapest (x : decisions) : Prop :=
    study_feasible x /\ forall x', study_decisions T x' -> study_feasible x' -> (study_cost s T S x <= study_cost s T S x')%Qc.

  (** ** What follows for the system as a whole *)
  (** every element belongs to areas that are in the system that is run *)
  Definition in_area (id : string) : Prop := In id (map element_id (nodes s)).
  Definition areas_present : Prop :=
    forall e, In e (elements s) ->
    match e with
    | Area _ => True
    | Renewable r => in_area (rn_area r)
    | Cluster a _ | Storage a _ | Load a | Wind a | Solar a | Battery a _ => in_area (ar_id a)
    | Link k => in_area (ln_from k) /\ in_area (ln_to k)
    end.
  (** power produced by an element, less what it stores or consumes; the most it can be *)
  Definition net_power (x : decisions) (t sc : Z) (e : element) : Qc :=
    let v q := x (element_id e) q t sc in
    match e with
    | Cluster _ _ => v "generation"
    | Storage _ _ | Battery _ _ => (v "p_withdrawal" - v "p_injection")%Qc
    | Load a => (- demand T a t sc)%Qc
    | _ => 0%Qc
    end.
  Definition most_power (t sc : Z) (e : element) : Qc :=
    match e with
    | Cluster _ g => offered (at_cluster g) (hour T t) (Z.to_nat sc)
    | Storage _ o => (storage_series s directory T o "PMAX-withdrawal" t sc * fin (so_withdrawal_nominal_capacity o))%Qc
    | Battery _ b => battery_value T (bt_withdrawals b) t
    | Load a => (- demand T a t sc)%Qc
    | _ => 0%Qc
    end.
End Exact.
