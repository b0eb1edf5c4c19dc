(** Specification vocabulary: the Antares studies that run once converted. *)
From Verif Require Import Base LinearExpr Study Optim System SpecLinear SpecOptim Thermal Antares SpecThermal SpecAntares.
Local Open Scope string_scope.
Local Open Scope list_scope.

(** the areas that an element joins *)
Definition areas_joined (e : element) : list string :=
  match e with
  | Cluster a _ | Storage a _ | Battery a _ | Load a => [ar_id a]
  | Link k => [ln_from k; ln_to k]
  | _ => []
  end.
(** elements in areas that are nodes, limits in order, one scenario when there are clusters *)
Definition consistent_study (s : an_study) (directory : string -> result frame) (T S : Z) : Prop :=
  (forall e id, In e (elements s) -> In id (areas_joined e) -> exists a, In (Area a) (nodes s) /\ ar_id a = id) /\
  (forall e q integer t sc, In e (everything s) -> In (q, integer) (quantities_of e) -> (0 <= t < T)%Z -> (0 <= sc < S)%Z ->
     num_le (fst (quantity_limits s directory T e q t sc)) (snd (quantity_limits s directory T e q t sc))) /\
  (forall a g, In (Cluster a g) (elements s) -> S = 1%Z).
