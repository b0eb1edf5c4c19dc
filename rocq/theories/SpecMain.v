(** Specification vocabulary for a study given by its files: what the texts of the libraries say about
    the entries of the system, without going through the objects built from them. *)
From Verif Require Import Base Expr Visitors Parse LinearExpr Model Study Optim System Library SpecExpr SpecParse
  SpecModel SpecLibrary SpecSystem SpecLinear SpecOptim.
Local Open Scope string_scope.
Local Open Scope list_scope.

(** ** Shapes of texts *)
(** every part of the text, those inside brackets included, satisfies [P] *)
Fixpoint throughout (P : wexpr -> Prop) (e : wexpr) : Prop :=
  P e /\
  match e with
  | WNeg a | WParen a | WSumAll a | WCall _ a | WIndex _ a => throughout P a
  | WMul _ l r | WAdd _ l r | WCmp _ l r | WIndexParen l r => throughout P l /\ throughout P r
  | WSumOver a b e => throughout_shift P a /\ throughout_shift P b /\ throughout P e
  | WAt _ k => throughout_shift P k
  | WAtParen e k => throughout P e /\ throughout_shift P k
  | _ => True
  end
with throughout_shift (P : wexpr -> Prop) (k : wshift) : Prop :=
  match k with WNow => True | WThen k _ m => throughout_shift P k /\ throughout_product P m end
with throughout_product (P : wexpr -> Prop) (m : wproduct) : Prop :=
  match m with WFactor f => throughout P f | WTimes m _ f => throughout_product P m /\ throughout P f end.

Definition without_comparison : wexpr -> Prop :=
  throughout (fun e => match e with WCmp _ _ _ => False | _ => True end).
Definition without_port : wexpr -> Prop :=
  throughout (fun e => match e with WField _ _ | WSumPorts _ _ => False | _ => True end).
Definition without_index : wexpr -> Prop :=
  throughout (fun e => match e with WIndex _ _ => False | _ => True end).
Definition without_expectation : wexpr -> Prop :=
  throughout (fun e => match e with WCall _ _ => False | _ => True end).
(** no value at a fixed timestep inside a sum over a window, no expectation inside another *)
Definition nested_well : wexpr -> Prop :=
  throughout (fun e => match e with
    | WSumOver _ _ e => without_index e
    | WCall _ e => without_expectation e
    | _ => True end).
Definition regular (e : wexpr) : Prop := without_comparison e /\ nested_well e.

(** ** A study: its libraries, its system file, its data, the number of timesteps and of scenarios.
    [rd m text] is what the text [text] of the model [m] spells. *)
Section Files.
  Context (libs : list in_library) (sys : input_system) (files : string -> result frame) (T S : Z)
    (rd : in_model -> string -> wexpr).

  (** the model that `library.model` names *)
  Definition file_model (reference : string) : option in_model :=
    option_map snd (find (fun ym => String.eqb reference (yl_id (fst ym) ++ "." ++ ym_id (snd ym))%string)
                      (flat_map (fun y => map (pair y) (yl_models y)) libs)).
  (** [e] is an entry of the system and [m] the model it refers to *)
  Definition entry (e : input_component) (m : in_model) : Prop :=
    In e (all_inputs sys) /\ file_model (ic_model e) = Some m.
  (** the entry with a given id *)
  Definition file_entry (id : string) : option input_component :=
    find (fun e => String.eqb (ic_id e) id) (all_inputs sys).
  (** the value of parameter [n] of [e]; the timesteps repeat *)
  Definition file_value (e : input_component) (n : string) (t s : Z) : option Qc :=
    match find (fun p => String.eqb (ip_id p) n) (parameters_of e) with
    | Some p => match parameter_cell files p (t mod T) s with Some (Fin q) => Some q | _ => None end
    | None => None
    end.

  (** ** Connections: the definitions a port gets, in the order of the connections of the file *)
  Definition text_definition (id port field : string) : list (input_component * in_model * in_definition) :=
    match file_entry id with
    | None => []
    | Some e =>
        match file_model (ic_model e) with
        | None => []
        | Some m =>
            match find (fun d => String.eqb (yd_port d) port && String.eqb (yd_field d) field) (ym_definitions m) with
            | Some d => [(e, m, d)]
            | None => []
            end
        end
    end.
  Definition text_brought (k : input_connection) (f : string) : list (input_component * in_model * in_definition) :=
    text_definition (icn_component1 k) (icn_port1 k) f ++ text_definition (icn_component2 k) (icn_port2 k) f.
  Definition text_connected (id p f : string) : list (input_component * in_model * in_definition) :=
    flat_map (fun k =>
        (if String.eqb (icn_component1 k) id && String.eqb (icn_port1 k) p then text_brought k f else []) ++
        (if String.eqb (icn_component2 k) id && String.eqb (icn_port2 k) p then text_brought k f else []))
      (is_connections sys).

  (** ** Meaning of the texts of an entry, decision variables having the values [x id name timestep scenario] *)
  Definition entry_world (x : decisions) (e : input_component)
    (ports : string -> string -> list (Z -> Z -> option Qc)) : env := {|
    e_var := x (ic_id e); e_par := file_value e;
    e_cvar := x;
    e_cpar := fun c n t s => match file_entry c with Some e => file_value e n t s | None => None end;
    e_port := ports; e_T := T; e_S := S |}.
  Definition text_value (E : env) (m : in_model) (w : wexpr) : Z -> Z -> option Qc :=
    meaning E (map yv_id (ym_variables m)) w.
  Definition file_world (x : decisions) (e : input_component) : env :=
    entry_world x e (fun p f =>
      map (fun emd => let '(e', m', d) := emd in
             text_value (entry_world x e' (fun _ _ => [])) m' (rd m' (yd_definition d)))
        (text_connected (ic_id e) p f)).

  (** a bound that may be absent *)
  Definition text_bound (R : Qc -> Prop) (E : env) (m : in_model) (text : option string) (t s : Z) : Prop :=
    match given_text text with
    | [] => True
    | w :: _ => exists q, text_value E m (rd m w) t s = Some q /\ R q
    end.
  (** the constraint [c] of model [m] holds for entry [e] once the terms [dropped] are taken out *)
  Definition text_holds (dropped : list term) (x : decisions) (e : input_component) (m : in_model)
    (c : in_constraint) (t s : Z) : Prop :=
    let E := file_world x e in
    exists w, terms_value (read E t s) dropped = Some w /\
    match rd m (yc_expression c) with
    | WCmp o l r => exists vl vr, text_value E m l t s = Some vl /\ text_value E m r t s = Some vr /\
        cmp_holds o (vl - w)%Qc vr
    | a => exists v, text_value E m a t s = Some v /\
        text_bound (fun q => (q <= v - w)%Qc) E m (yc_lower c) t s /\
        text_bound (fun q => (v - w <= q)%Qc) E m (yc_upper c) t s
    end.
  Definition entry_constraint (e : input_component) (m : in_model) (c : in_constraint) : Prop :=
    entry e m /\ In c (ym_binding_constraints m ++ ym_constraints m).

  (** ** How many decisions a text mentions, every step of a sum counted *)
  Section TextMentions.
    Context (E : env) (vars : list string) (ports : string -> string -> nat).
    Definition name_mentions (n : string) : nat := if existsb (String.eqb n) vars then 1 else 0.
    (** steps of a window, whose ends are the same at all timesteps *)
    Definition text_window (a b : wshift) : nat :=
      match oint (shift_meaning E vars a 0 0), oint (shift_meaning E vars b 0 0) with
      | Some i, Some j => Z.to_nat (j + 1 - i)
      | _, _ => O
      end.
    Fixpoint text_mentions (w : wexpr) : nat :=
      match w with
      | WNumber _ => 0
      | WName n | WAt n _ | WIndex n _ => name_mentions n
      | WField p f | WSumPorts p f => ports p f
      | WNeg a | WParen a | WAtParen a _ | WIndexParen a _ => text_mentions a
      | WMul _ l r | WAdd _ l r | WCmp _ l r => text_mentions l + text_mentions r
      | WSumAll a => Z.to_nat (e_T E) * text_mentions a
      | WCall _ a => Z.to_nat (e_S E) * text_mentions a
      | WSumOver a b e => text_window a b * text_mentions e
      end.
  End TextMentions.
  (** in a text of entry [e], those of the definitions connected to its ports included *)
  Definition file_mentions (e : input_component) (m : in_model) (w : wexpr) : nat :=
    let none : decisions := fun _ _ _ _ => 0%Qc in
    text_mentions (file_world none e) (map yv_id (ym_variables m)) (fun p f =>
      list_sum (map (fun emd => let '(e', m', d) := emd in
                  text_mentions (entry_world none e' (fun _ _ => [])) (map yv_id (ym_variables m')) (fun _ _ => O)
                    (rd m' (yd_definition d)))
        (text_connected (ic_id e) p f))) w.

  (** the objectives written, entry after entry, nodes first *)
  Definition text_objectives : list (input_component * in_model * string) :=
    flat_map (fun e => match file_model (ic_model e) with
                       | Some m => map (fun w => (e, m, w)) (given_text (ym_objective m))
                       | None => []
                       end)
      (is_nodes sys ++ is_components sys).
  Definition text_objective_value (x : decisions) (t s : Z) (emw : input_component * in_model * string) : option Qc :=
    let '(e, m, w) := emw in text_value (file_world x e) m (rd m w) t s.
  Definition text_objective_mentions (emw : input_component * in_model * string) : nat :=
    let '(e, m, w) := emw in file_mentions e m (rd m w).

  (** ** Decisions *)
  Definition file_decisions (x : decisions) : Prop :=
    (forall c n t s, x c n (t + T)%Z s = x c n t s) /\
    (forall e m v, entry e m -> In v (ym_variables m) ->
       (yv_time v = false -> forall t t' s, x (ic_id e) (yv_id v) t s = x (ic_id e) (yv_id v) t' s) /\
       (yv_scenario v = false -> forall t s s', x (ic_id e) (yv_id v) t s = x (ic_id e) (yv_id v) t s')).
  (** the index under which a variable is kept *)
  Definition given_index (depends : bool) (i : Z) : option Z := if depends then Some i else None.
  (** [at_position e v t s i]: the value of variable [v] of [e] at timestep [t] in scenario [s] is the
      solver's variable [i] *)
  Definition takes_values (at_position : input_component -> in_variable -> Z -> Z -> nat -> Prop)
    (y : nat -> Qc) (x : decisions) : Prop :=
    forall e m v t s i, entry e m -> In v (ym_variables m) -> (0 <= t < T)%Z -> (0 <= s < S)%Z ->
    at_position e v t s i -> y i = x (ic_id e) (yv_id v) t s.

  (** ** Dependence of a text on the timestep or the scenario *)
  Section Varies.
    Context (var_dim : in_variable -> bool) (par_dim : in_parameter -> bool) (fixed_by_index fixed_by_expec : bool)
      (m : in_model) (ports : string -> string -> bool).
    Definition name_varies (n : string) : bool :=
      match find (fun v => String.eqb (yv_id v) n) (ym_variables m) with
      | Some v => var_dim v
      | None => match find (fun p => String.eqb (yp_id p) n) (ym_parameters m) with Some p => par_dim p | None => true end
      end.
    Fixpoint text_varies (w : wexpr) : bool :=
      match w with
      | WNumber _ => false
      | WName n | WAt n _ => name_varies n
      | WIndex n _ => negb fixed_by_index && name_varies n
      | WField p f | WSumPorts p f => ports p f
      | WNeg a | WParen a | WSumOver _ _ a => text_varies a
      | WSumAll a => negb fixed_by_index && text_varies a
      | WCall _ a => negb fixed_by_expec && text_varies a
      | WMul _ l r | WAdd _ l r | WCmp _ l r => text_varies l || text_varies r
      | WAtParen _ _ | WIndexParen _ _ => true
      end.
  End Varies.
  Definition entry_varies var_dim par_dim ft fs (e : input_component) (m : in_model) : wexpr -> bool :=
    text_varies var_dim par_dim ft fs m (fun p f =>
      existsb (fun emd => let '(_, m', d) := emd in
                 text_varies var_dim par_dim ft fs m' (fun _ _ => false) (rd m' (yd_definition d)))
        (text_connected (ic_id e) p f)).
  Definition varies_with_time : input_component -> in_model -> wexpr -> bool := entry_varies yv_time yp_time true false.
  Definition varies_with_scenario : input_component -> in_model -> wexpr -> bool :=
    entry_varies yv_scenario yp_scenario false true.
  (** the bounds of a constraint depend on nothing on which its expression does not *)
  Definition text_bounds_follow (e : input_component) (m : in_model) (c : in_constraint) : Prop :=
    forall w, In w (given_text (yc_lower c) ++ given_text (yc_upper c)) ->
    (varies_with_time e m (rd m w) = true -> varies_with_time e m (rd m (yc_expression c)) = true) /\
    (varies_with_scenario e m (rd m w) = true -> varies_with_scenario e m (rd m (yc_expression c)) = true).

  (** ** The situation of C58 *)
  Definition good_texts (m : in_model) : Prop :=
    (forall w, In w (model_texts m) -> reads_as (model_names m) w (rd m w)) /\
    (forall c, In c (ym_binding_constraints m ++ ym_constraints m) ->
       match rd m (yc_expression c) with WCmp _ l r => regular l /\ regular r | w => regular w end) /\
    (forall d, In d (ym_definitions m) -> let w := rd m (yd_definition d) in
       without_comparison w /\ without_port w /\ without_index w /\ without_expectation w) /\
    (forall w, In w (given_text (ym_objective m)) -> regular (rd m w)).
  Definition distinct_names (m : in_model) : Prop :=
    NoDup (map yp_id (ym_parameters m)) /\ NoDup (map yv_id (ym_variables m)) /\
    NoDup (map yc_id (ym_constraints m)) /\ NoDup (map yc_id (ym_binding_constraints m)) /\
    NoDup (map (fun d => (yd_port d, yd_field d)) (ym_definitions m)).
  Definition finite_number (v : num) : Prop := exists q, v = Fin q.
  Definition finite_data : Prop :=
    forall e p, In e (all_inputs sys) -> In p (parameters_of e) ->
    match ip_value p with
    | inl v => finite_number v
    | inr name => forall ts r v, files name = Ok ts -> In r ts -> In v r -> finite_number v
    end.
  (** the parameters of nodes, which nothing checks, are given *)
  Definition nodes_have_data : Prop :=
    forall e m p, In e (is_nodes sys) -> file_model (ic_model e) = Some m -> In p (ym_parameters m) ->
    exists v, In v (parameters_of e) /\ ip_id v = yp_id p /\
      (yp_time p = false -> ip_time v = false) /\ (yp_scenario p = false -> ip_scenario v = false).
  Definition good_study : Prop :=
    (1 <= T)%Z /\ (1 <= S)%Z /\ NoDup (input_ids sys) /\ NoDup (parameter_keys (all_inputs sys)) /\
    finite_data /\ nodes_have_data /\
    (forall e m, entry e m -> good_texts m /\ distinct_names m).
End Files.

(** the decisions as an assignment of linear forms, read at timestep [t] and scenario [s] *)
Definition decisions_at (x : decisions) (t s : Z) : assignment := fun k =>
  x (tk_component k) (tk_variable k) (odefault t (tk_time k)) (odefault s (tk_scenario k)).
(** the value of variable [v] of entry [e] at timestep [t] in scenario [s] is kept in the solver's variable [i] *)
Definition placed (o : settings) (st : state) (e : input_component) (v : in_variable) (t s : Z) (i : nat) : Prop :=
  get_component_variable o st (given_index (yv_time v) t) (given_index (yv_scenario v) s) (ic_id e) (yv_id v) = Ok i.
(** a bound of a variable: infinite when no text is given, else the value of the text wherever the variable
    has that value *)
Definition text_bound_is libs sys files T S rd (e : input_component) (m : in_model) (v : in_variable) (inf : num)
  (text : option string) (t s : Z) (b : num) : Prop :=
  match given_text text with
  | [] => b = inf
  | w :: _ => exists q, b = Fin q /\ forall x t' s', (yv_time v = true -> t' = t) -> (yv_scenario v = true -> s' = s) ->
      (0 <= s')%Z -> text_value (file_world libs sys files T S rd x e) m (rd m w) t' s' = Some q
  end.
