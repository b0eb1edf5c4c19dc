(** Specification vocabulary for C85 and C86: plans of PyPSA networks. *)
From Verif Require Import Base Expr LinearExpr Study Optim System Library Main SpecExpr SpecLibrary SpecSystem SpecLinear SpecOptim
  SpecMain Pypsa SpecPypsa SpecScenarios SpecPrecise.
Local Open Scope string_scope.
Local Open Scope list_scope.

Section Exact.
  Context (n : pypsa_network) (T S : Z).
  (** ** Data of limited precision *)
  (** the attributes by which quantities are multiplied or that stand alone in a constraint *)
  Definition multipliers (k : kind) : list string :=
    match k with
    | Generators => ["p_min_pu"; "p_max_pu"; "marginal_cost"; "e_sum_min"; "e_sum_max"; "sign"]
    | Loads => ["p_set"; "sign"]
    | Buses => []
    | Links => ["efficiency"; "p_min_pu"; "p_max_pu"; "marginal_cost"]
    | StorageUnits => ["p_max_pu"; "efficiency_store"; "standing_loss"; "max_hours"; "marginal_cost"; "marginal_cost_storage";
                       "spill_cost"; "inflow"]
    | Stores => ["e_min_pu"; "e_max_pu"; "standing_loss"; "marginal_cost"; "marginal_cost_storage"]
    end.
  (** those by which quantities are divided *)
  Definition divisors (k : kind) : list string :=
    match k with Generators => ["efficiency"] | StorageUnits => ["efficiency_dispatch"] | _ => [] end.
  Definition precise_network : Prop :=
    exists D, (1 <= D)%Z /\ (D * D <= 10 ^ 16)%Z /\ (D * S <= 10 ^ 16)%Z /\
    (forall k c, In c (names n k) ->
       (forall a t, In a (multipliers k) -> multiple D (attribute n T k c a t)) /\
       (forall a t, In a (divisors k) -> multiple D (/ attribute n T k c a t)%Qc) /\
       (with_capacity k = true -> multiple D (investment_cost n k c) /\ multiple D (emissions n k c))) /\
    (forall c, In c (constraint_names n) -> multiple D (constant_of n c)).

  (** ** Plans of a network *)
  Definition network_feasible (x : decisions) : Prop :=
    (forall k c q varies t s, In c (names n k) -> In (q, varies) (quantities k) -> (0 <= t < T)%Z -> (0 <= s < S)%Z ->
       at_least (fst (limits n T k c q t)) (x (study_id k c) q t s) /\ at_most (snd (limits n T k c q t)) (x (study_id k c) q t s)) /\
    (forall k t s, of_network n k -> (0 <= t < T)%Z -> (0 <= s < S)%Z -> holds n T x k 0 t s).
  Definition network_cheapest (x : decisions) : Prop :=
    network_feasible x /\
    forall x', network_decisions n T x' -> network_feasible x' -> (network_cost n T S x <= network_cost n T S x')%Qc.

  (** ** What follows for the network as a whole *)
  (** every component names buses of the network *)
  Definition buses_present : Prop :=
    forall k c column b, In c (names n k) -> In column (bus_columns k) -> entry_of (table n k) c column = Some (CText b) ->
    In b (names n Buses).
  (** power that a component gives to the network *)
  Definition given_power (x : decisions) (t s : Z) (k : kind) (c : string) : Qc :=
    match k with
    | Generators => (attribute n T Generators c "sign" t * of_generator x c "p" t s)%Qc
    | Loads => (attribute n T Loads c "sign" t * attribute n T Loads c "p_set" t)%Qc
    | Buses => 0%Qc
    | Links => ((attribute n T Links c "efficiency" t - 1) * of_link x c "p0" t s)%Qc
    | StorageUnits => (of_unit x c "p_dispatch" t s - of_unit x c "p_store" t s)%Qc
    | Stores => of_store x c "p" t s
    end.
  (** the most it can be: generators give power, links lose it or keep it, stores are not filled below 0 and lose some of
      what they hold *)
  Definition usual (k : kind) (c : string) (t : Z) : Prop :=
    match k with
    | Generators => attribute n T Generators c "sign" t = 1%Qc /\ (0 <= attribute n T Generators c "p_max_pu" t)%Qc
    | Links =>
        (0 <= attribute n T Links c "p_min_pu" t)%Qc /\ (0 <= least_capacity n Links c)%Qc /\ (attribute n T Links c "efficiency" t <= 1)%Qc \/
        attribute n T Links c "efficiency" t = 1%Qc
    | Stores =>
        (0 <= attribute n T Stores c "e_min_pu" t)%Qc /\ (0 <= attribute n T Stores c "e_max_pu" (t - 1))%Qc /\
        (0 <= attribute n T Stores c "standing_loss" t <= 1)%Qc /\ (0 <= least_capacity n Stores c)%Qc
    | _ => True
    end.
  Definition most_given (t : Z) (k : kind) (c : string) : Qc :=
    match k with
    | Generators => (attribute n T Generators c "p_max_pu" t * greatest_capacity n Generators c)%Qc
    | Loads => (attribute n T Loads c "sign" t * attribute n T Loads c "p_set" t)%Qc
    | StorageUnits => (attribute n T StorageUnits c "p_max_pu" t * greatest_capacity n StorageUnits c)%Qc
    | Stores =>
        ((1 - attribute n T Stores c "standing_loss" t) * (attribute n T Stores c "e_max_pu" (t - 1) * greatest_capacity n Stores c))%Qc
    | _ => 0%Qc
    end.
  (** the sum over all components of the network *)
  Definition network_sum (f : kind -> string -> Qc) : Qc :=
    (qsum (f Generators) (names n Generators) + qsum (f Loads) (names n Loads) + qsum (f Links) (names n Links) +
     qsum (f StorageUnits) (names n StorageUnits) + qsum (f Stores) (names n Stores))%Qc.
End Exact.
