(** Specification vocabulary: the studies from whose files a problem can be made, read from the texts
    alone.  Nothing here uses the objects built from the files. *)
From Verif Require Import Base Expr Visitors Parse LinearExpr Model Study Optim System Library SpecExpr SpecParse
  SpecModel SpecLibrary SpecSystem SpecLinear SpecOptim SpecMain.
Local Open Scope string_scope.
Local Open Scope list_scope.

(** ** Formulas: numbers, parameters satisfying [P], and arithmetic *)
Definition formula_part (P : in_parameter -> Prop) (m : in_model) (w : wexpr) : Prop :=
  match w with
  | WNumber _ | WNeg _ | WParen _ | WMul _ _ _ | WAdd _ _ _ => True
  | WName n => ~ In n (map yv_id (ym_variables m)) /\ forall p, In p (ym_parameters m) -> yp_id p = n -> P p
  | _ => False
  end.
Definition formula_text (m : in_model) : wexpr -> Prop := throughout (formula_part (fun _ => True) m).
Definition fixed_parameter (p : in_parameter) : Prop := yp_time p = false /\ yp_scenario p = false.

(** ** Affine texts: [ports p f] tells whether what is connected to a field contains decision variables *)
Section Affine.
  Context (vars : list string) (ports : string -> string -> bool).
  (** a decision variable occurs *)
  Fixpoint text_decides (w : wexpr) : bool :=
    match w with
    | WNumber _ => false
    | WName n | WAt n _ | WIndex n _ => existsb (String.eqb n) vars
    | WField p f | WSumPorts p f => ports p f
    | WNeg a | WParen a | WSumAll a | WSumOver _ _ a | WCall _ a | WAtParen a _ | WIndexParen a _ => text_decides a
    | WMul _ l r | WAdd _ l r | WCmp _ l r => text_decides l || text_decides r
    end.
  (** no product of two parts with decision variables, no division by such a part *)
  Fixpoint text_affine (w : wexpr) : Prop :=
    match w with
    | WNeg a | WParen a | WSumAll a | WSumOver _ _ a | WCall _ a => text_affine a
    | WAdd _ l r => text_affine l /\ text_affine r
    | WMul Times l r => text_affine l /\ text_affine r /\ (text_decides l = false \/ text_decides r = false)
    | WMul Over l r => text_affine l /\ text_affine r /\ text_decides r = false
    | WCmp _ _ _ | WAtParen _ _ | WIndexParen _ _ => False
    | _ => True
    end.
End Affine.

(** ** Libraries *)
Section Libraries.
  Context (libs : list in_library) (rd : in_model -> string -> wexpr).
  (** the port [p] of a model of library [y] has a field [f] *)
  Definition port_field_of (y : in_library) (m : in_model) (p f : string) : Prop :=
    exists q t, In q (ym_ports m) /\ yo_id q = p /\ usable libs [] (yl_id y) (yo_type q) t /\ In f (pt_fields t).
  Definition loadable_model (y : in_library) (m : in_model) : Prop :=
    (forall w, In w (model_texts m) -> reads_as (model_names m) w (rd m w)) /\
    NoDup (map yp_id (ym_parameters m)) /\ NoDup (map yv_id (ym_variables m)) /\
    (** variables, whose bounds are formulas *)
    (forall v, In v (ym_variables m) -> In (yv_type v) ["continuous"; "integer"] /\
       forall w, In w (variable_texts v) -> formula_text m (rd m w)) /\
    (** ports and their definitions *)
    NoDup (map yo_id (ym_ports m)) /\
    (forall p, In p (ym_ports m) -> exists t, usable libs [] (yl_id y) (yo_type p) t) /\
    (forall d, In d (ym_definitions m) ->
       port_field_of y m (yd_port d) (yd_field d) /\
       without_comparison (rd m (yd_definition d)) /\ without_port (rd m (yd_definition d))) /\
    (** constraints: comparisons without bounds, or expressions whose bounds are formulas *)
    (forall c, In c (ym_binding_constraints m ++ ym_constraints m) ->
       match rd m (yc_expression c) with
       | WCmp _ _ _ => given_text (yc_lower c) = [] /\ given_text (yc_upper c) = []
       | w => without_comparison w /\
           forall b, In b (given_text (yc_lower c) ++ given_text (yc_upper c)) -> formula_text m (rd m b)
       end) /\
    (** the objective: affine, without ports, the same for all timesteps and scenarios *)
    (forall w, In w (given_text (ym_objective m)) ->
       without_comparison (rd m w) /\ without_port (rd m w) /\
       text_affine (map yv_id (ym_variables m)) (fun _ _ => false) (rd m w) /\
       text_varies yv_time yp_time true false m (fun _ _ => false) (rd m w) = false /\
       text_varies yv_scenario yp_scenario false true m (fun _ _ => false) (rd m w) = false).
  Definition loadable_libraries : Prop :=
    NoDup (map yl_id libs) /\ acyclic libs /\ complete libs /\ no_clash libs [] /\
    (forall y t t', In y libs -> In t (yl_port_types y) -> ~ collected libs [] y (yt_id t) t') /\
    (forall y, In y libs -> NoDup (map ym_id (yl_models y)) /\ forall m, In m (yl_models y) -> loadable_model y m).
End Libraries.

(** ** Studies *)
Section Files.
  Context (libs : list in_library) (sys : input_system) (files : string -> result frame) (T S : Z)
    (rd : in_model -> string -> wexpr).
  Let W := file_world libs sys files T S rd.

  (** *** The system *)
  (** [reference] is `library.model` and names model [m] of library [y] *)
  Definition refers (reference : string) (y : in_library) (m : in_model) : Prop :=
    In y libs /\ In m (yl_models y) /\ no_dot (yl_id y) /\ no_dot (ym_id m) /\
    reference = (yl_id y ++ "." ++ ym_id m)%string.
  (** the port [p] of an entry, of type [t] *)
  Definition entry_port (id p : string) (y : in_library) (m : in_model) (t : port_type) : Prop :=
    exists e q, In e (all_inputs sys) /\ ic_id e = id /\ refers (ic_model e) y m /\
      In q (ym_ports m) /\ yo_id q = p /\ usable libs [] (yl_id y) (yo_type q) t.
  Definition has_definition (m : in_model) (p f : string) : Prop :=
    exists d, In d (ym_definitions m) /\ yd_port d = p /\ yd_field d = f.
  (** two ports of the same type, each field of which one of the two models defines *)
  Definition text_connectable (k : input_connection) : Prop :=
    exists y1 m1 y2 m2 t,
      entry_port (icn_component1 k) (icn_port1 k) y1 m1 t /\ entry_port (icn_component2 k) (icn_port2 k) y2 m2 t /\
      forall f, In f (pt_fields t) ->
        (has_definition m1 (icn_port1 k) f /\ ~ has_definition m2 (icn_port2 k) f) \/
        (~ has_definition m1 (icn_port1 k) f /\ has_definition m2 (icn_port2 k) f).
  (** every parameter is given, along dimensions that it has *)
  Definition complete_data : Prop :=
    (forall e p, In e (all_inputs sys) -> In p (parameters_of e) -> acceptable files p) /\
    (forall e m p, entry libs sys e m -> In p (ym_parameters m) ->
       exists v, In v (parameters_of e) /\ ip_id v = yp_id p /\
         (yp_time p = false -> ip_time v = false) /\ (yp_scenario p = false -> ip_scenario v = false)).

  (** *** The texts of an entry *)
  (** what stands in brackets: a formula on constant parameters whose value is an integer *)
  Definition whole_shift (e : input_component) (m : in_model) (k : wshift) : Prop :=
    throughout_shift (formula_part fixed_parameter m) k /\
    exists x t s z, (0 <= s)%Z /\ shift_meaning (W x e) (map yv_id (ym_variables m)) k t s = Some (Z2Qc z).
  Definition whole_index (e : input_component) (m : in_model) (k : wexpr) : Prop :=
    throughout (formula_part fixed_parameter m) k /\
    exists x t s z, (0 <= s)%Z /\ text_value (W x e) m k t s = Some (Z2Qc z).
  Definition ready_part (e : input_component) (m : in_model) (w : wexpr) : Prop :=
    match w with
    | WField p f => exists d, text_connected libs sys (ic_id e) p f = [d]
    | WAt _ k => whole_shift e m k
    | WSumOver a b _ => whole_shift e m a /\ whole_shift e m b
    | WIndex _ k => whole_index e m k
    | WCmp _ _ _ => False
    | _ => True
    end.
  (** what is connected to the field of a port contains decision variables *)
  Definition connected_decides (e : input_component) (p f : string) : bool :=
    existsb (fun emd => let '(_, m', d) := emd in
        text_decides (map yv_id (ym_variables m')) (fun _ _ => false) (rd m' (yd_definition d)))
      (text_connected libs sys (ic_id e) p f).
  Definition ready_text (e : input_component) (m : in_model) (w : wexpr) : Prop :=
    throughout (ready_part e m) w /\
    text_affine (map yv_id (ym_variables m)) (connected_decides e) w.
  (** whatever the timestep and the scenario, the texts have values *)
  Definition valued (e : input_component) (m : in_model) (ws : list wexpr) : Prop :=
    forall t s, (0 <= t < T)%Z -> (0 <= s < S)%Z ->
    exists x, file_decisions libs sys T x /\ forall w, In w ws -> text_value (W x e) m w t s <> None.
  Definition bound_reads_text (e : input_component) (m : in_model) (inf : num) (text : option string) (t s : Z) (b : num) : Prop :=
    match given_text text with
    | [] => b = inf
    | w :: _ => exists q x, b = Fin q /\ text_value (W x e) m (rd m w) t s = Some q
    end.
  Definition ready_entry (e : input_component) (m : in_model) : Prop :=
    (** variables, whose bounds vary only with what the variables do, and are in order *)
    (forall v, In v (ym_variables m) ->
       (forall w, In w (variable_texts v) ->
          (varies_with_time libs sys rd e m (rd m w) = true -> yv_time v = true) /\
          (varies_with_scenario libs sys rd e m (rd m w) = true -> yv_scenario v = true)) /\
       forall t s, (0 <= t < T)%Z -> (0 <= s < S)%Z ->
       exists lo hi, bound_reads_text e m NInf (yv_lower v) t s lo /\
                     bound_reads_text e m PInf (yv_upper v) t s hi /\ num_le lo hi) /\
    (** definitions *)
    (forall d, In d (ym_definitions m) -> ready_text e m (rd m (yd_definition d))) /\
    (** constraints *)
    (forall c, In c (ym_binding_constraints m ++ ym_constraints m) ->
       match rd m (yc_expression c) with
       | WCmp _ l r => ready_text e m l /\ ready_text e m r /\ valued e m [l; r]
       | w => ready_text e m w /\ valued e m [w] /\
           forall b, In b (given_text (yc_lower c) ++ given_text (yc_upper c)) -> valued e m [rd m b]
       end) /\
    (** objective *)
    (forall w, In w (given_text (ym_objective m)) -> ready_text e m (rd m w) /\ valued e m [rd m w]).
  Definition ready_study : Prop :=
    loadable_libraries libs rd /\
    (forall e, In e (all_inputs sys) -> exists y m, refers (ic_model e) y m) /\
    (forall k, In k (is_connections sys) -> text_connectable k) /\
    complete_data /\
    (forall e m, entry libs sys e m -> ready_entry e m).
End Files.
