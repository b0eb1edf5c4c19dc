(** Specification vocabulary for C82: studies given by their files whose numbers have a common denominator. *)
From Verif Require Import Base Expr Visitors Parse LinearExpr Model Study Optim System Library SpecExpr SpecParse
  SpecModel SpecLibrary SpecSystem SpecLinear SpecOptim SpecMain SpecScenarios SpecPrecise.
Local Open Scope string_scope.
Local Open Scope list_scope.

(** all coefficients of a text are whole numbers of [1 / D]; [own] says what holds of all values of the data, [ports]
    what is connected to the ports; shifts and windows of time do not matter *)
Section TextPrecise.
  Context (S : Z) (vars : list string) (own : string -> (Qc -> Prop) -> Prop) (ports : string -> string -> Z -> Prop).
  Definition name_precise (D : Z) (n : string) : Prop := existsb (String.eqb n) vars = true \/ own n (multiple D).
  (** what is divided by is a number or a parameter *)
  Definition text_divisor (D : Z) (w : wexpr) : Prop :=
    match w with
    | WNumber n => multiple D (/ decimal_value n)%Qc
    | WName n => existsb (String.eqb n) vars = false /\ own n (fun q => multiple D (/ q)%Qc)
    | _ => False
    end.
  Fixpoint text_precise (D : Z) (w : wexpr) : Prop :=
    match w with
    | WNumber n => multiple D (decimal_value n)
    | WName n | WAt n _ | WIndex n _ => name_precise D n
    | WField p f | WSumPorts p f => ports p f D
    | WNeg a | WParen a | WSumAll a | WSumOver _ _ a | WAtParen a _ | WIndexParen a _ => text_precise D a
    | WAdd _ l r | WCmp _ l r => text_precise D l /\ text_precise D r
    | WMul Times l r => exists D1 D2, (1 <= D1)%Z /\ (1 <= D2)%Z /\ (D1 * D2 | D)%Z /\ text_precise D1 l /\ text_precise D2 r
    | WMul Over l r => exists D1 D2, (1 <= D1)%Z /\ (1 <= D2)%Z /\ (D1 * D2 | D)%Z /\ text_precise D1 l /\ text_divisor D2 r
    | WCall _ a => exists D1, (1 <= D1)%Z /\ (D1 * S | D)%Z /\ text_precise D1 a
    end.
End TextPrecise.

Section Files.
  Context (libs : list in_library) (sys : input_system) (files : string -> result frame) (T S : Z)
    (rd : in_model -> string -> wexpr).
  (** all data of parameter [n] of [e] are such that [P] *)
  Definition file_values (e : input_component) (n : string) (P : Qc -> Prop) : Prop :=
    forall t s q, (0 <= s)%Z -> file_value files T e n t s = Some q -> P q.
  (** a text of entry [e], with what is connected to its ports *)
  Definition file_precise (e : input_component) (m : in_model) (D : Z) (w : wexpr) : Prop :=
    text_precise S (map yv_id (ym_variables m)) (file_values e)
      (fun p f D => forall e' m' d, In (e', m', d) (text_connected libs sys (ic_id e) p f) ->
         text_precise S (map yv_id (ym_variables m')) (file_values e') (fun _ _ _ => False) D (rd m' (yd_definition d))) D w.
  Definition written_precisely (e : input_component) (m : in_model) (w : string) : Prop :=
    exists D, in_range D /\ file_precise e m D (rd m w).
  (** all constraints and objectives of the study *)
  Definition precise_study : Prop :=
    (forall e m k, entry_constraint libs sys e m k -> written_precisely e m (yc_expression k) /\ text_bounds_follow libs sys rd e m k) /\
    (forall e m w, entry libs sys e m -> In w (given_text (ym_objective m)) -> written_precisely e m w).

  (** ** Plans *)
  (** decisions within the bounds written for the variables, that satisfy every constraint written for every entry, at
      every timestep and in every scenario *)
  Definition file_feasible (x : decisions) : Prop :=
    (forall e m v t s, entry libs sys e m -> In v (ym_variables m) -> (0 <= t < T)%Z -> (0 <= s < S)%Z ->
       let q := x (ic_id e) (yv_id v) t s in
       text_bound rd (fun b => (b <= q)%Qc) (file_world libs sys files T S rd x e) m (yv_lower v) t s /\
       text_bound rd (fun b => (q <= b)%Qc) (file_world libs sys files T S rd x e) m (yv_upper v) t s /\
       (yv_type v = "integer" -> exists z, q = Z2Qc z)) /\
    (forall e m k t s, entry_constraint libs sys e m k -> (0 <= t < T)%Z -> (0 <= s < S)%Z ->
       text_holds libs sys files T S rd [] x e m k t s).
  (** the sum of the objectives written *)
  Definition file_cost (x : decisions) : option Qc :=
    osum (map (text_objective_value libs sys files T S rd x 0 0) (text_objectives libs sys)).
  Definition file_cheapest (x : decisions) : Prop :=
    file_feasible x /\ exists v, file_cost x = Some v /\
    forall x' v', file_decisions libs sys T x' -> file_feasible x' -> file_cost x' = Some v' -> (v <= v')%Qc.
End Files.
