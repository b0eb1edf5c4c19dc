(** Specification vocabulary: the PyPSA networks whose studies run once converted, in terms of their tables and time series. *)
From Verif Require Import Base LinearExpr Study Optim Pypsa SpecLinear SpecOptim SpecMain SpecPypsa.
Local Open Scope string_scope.
Local Open Scope list_scope.

(** the attributes that may depend on the time *)
Definition time_attributes (k : kind) : list string :=
  match k with
  | Generators => ["p_min_pu"; "p_max_pu"; "marginal_cost"; "efficiency"]
  | Loads => ["p_set"; "q_set"]
  | Buses => ["v_mag_pu_set"]
  | Links => ["efficiency"; "p_min_pu"; "p_max_pu"; "marginal_cost"]
  | StorageUnits => ["p_min_pu"; "p_max_pu"; "efficiency_store"; "efficiency_dispatch"; "standing_loss"; "marginal_cost";
                     "marginal_cost_storage"; "spill_cost"; "inflow"]
  | Stores => ["e_min_pu"; "e_max_pu"; "standing_loss"; "marginal_cost"; "marginal_cost_storage"]
  end.
(** buses that exist, time series for the attributes that may have one, limits in order *)
Definition consistent_network (n : pypsa_network) (T : Z) : Prop :=
  (forall k c column b, In c (names n k) -> In column (bus_columns k) -> entry_of (table n k) c column = Some (CText b) ->
     In b (names n Buses)) /\
  (forall k c a l, series_of_attribute n k c a = Some l -> In a (attributes k) -> In a (time_attributes k)) /\
  (forall k c q varies t, In c (names n k) -> In (q, varies) (quantities k) -> (0 <= t < T)%Z ->
     num_le (fst (limits n T k c q t)) (snd (limits n T k c q t))).
