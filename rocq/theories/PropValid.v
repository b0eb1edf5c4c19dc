(** Theorems about valid models and model equality (C54, C55). *)
From Verif Require Import Base BaseFacts Expr Visitors Model Study ModelEq SpecExpr SpecSyntax SpecVisitors SpecModel SpecModelEq SpecValid
  ModelFacts ModelEqFacts ValidFacts.
Local Open Scope string_scope.
Local Open Scope list_scope.

(** ** Examples *)
Definition ex_both : indexing := {| ix_time := true; ix_scenario := true |}.
Definition ex_power : variable :=
  {| v_name := "p"; v_type := CONTINUOUS; v_lower := Some (Lit n0); v_upper := Some (Param "cap"); v_structure := ex_both; v_context := OPERATIONAL |}.
Definition ex_cap : parameter := {| p_name := "cap"; p_type := CONTINUOUS; p_structure := {| ix_time := true; ix_scenario := false |} |}.
Definition ex_cost : expr := ScenOp (AllSum (Mul (Lit (nz 3)) (Var "p"))) Expectation.
Definition ex_limit (ctx : problem_context) : constraint :=
  {| c_name := "limit"; c_expr := Var "p"; c_lower := Lit n0; c_upper := Param "cap"; c_context := ctx |}.
Definition ex_port : model_port := {| mp_type := {| pt_id := "flow"; pt_fields := ["f"] |}; mp_name := "out" |}.
Definition ex_def (e : expr) : port_field_def := {| d_field := ("out", "f"); d_definition := e |}.
Definition ex_model (ctx : problem_context) (cost def : expr) : model := {|
  m_id := "unit"; m_constraints := [("limit", ex_limit ctx)]; m_binding_constraints := []; m_inter_block_dyn := false;
  m_parameters := [("cap", ex_cap)]; m_variables := [("p", ex_power)]; m_operational := Some cost; m_investment := None;
  m_ports := [("out", ex_port)]; m_port_definitions := [(("out", "f"), ex_def def)] |}.
Lemma ex_proper ctx cost def : proper_model (ex_model ctx cost def).
Proof. unfold proper_model. cbn. repeat (split; [repeat constructor; cbn; tauto|]). repeat constructor. cbn. tauto. Qed.
Example ex_made : make_model "unit" [ex_limit OPERATIONAL] [] [ex_cap] [ex_power] (Some ex_cost) None false [ex_port] [ex_def (Var "p")]
  = Ok (ex_model OPERATIONAL ex_cost (Var "p")).
Proof. vm_compute. reflexivity. Qed.

(** ** C54.  Models compare equal exactly when everything agrees but the contexts of variables and constraints and the
    contents of objectives and of port definitions. *)
Theorem C54_equal_partial : forall a b, proper_model a -> proper_model b -> model_eq a b = Ok true <-> same_but_contents a b.
Proof. exact model_eq_true. Qed.
Print Assumptions C54_equal_partial.
Example C54_equal_example : model_eq (ex_model OPERATIONAL ex_cost (Var "p")) (ex_model OPERATIONAL ex_cost (Var "p")) = Ok true.
Proof. vm_compute. reflexivity. Qed.
(** models made by [model()] are proper *)
Theorem C54_made_is_proper : forall id cs bcs ps vs op inv dyn ports defs m,
  make_model id cs bcs ps vs op inv dyn ports defs = Ok m -> proper_model m.
Proof. exact made_proper. Qed.
Print Assumptions C54_made_is_proper.

Theorem C54_symmetric : forall a b, proper_model a -> proper_model b -> model_eq a b = Ok true <-> model_eq b a = Ok true.
Proof. exact model_eq_sym. Qed.
Print Assumptions C54_symmetric.

(** a model equals itself when it holds no literal NaN *)
Theorem C54_reflexive : forall m, proper_model m -> without_nan m -> model_eq m m = Ok true.
Proof. exact model_eq_refl. Qed.
Print Assumptions C54_reflexive.
Example C54_reflexive_example : without_nan (ex_model OPERATIONAL ex_cost (Var "p")).
Proof.
  unfold without_nan. cbn. split; [|split].
  - intros c [<-|[]]. unfold no_nan; cbn. repeat split; discriminate.
  - intros c [].
  - intros v e [<-|[]] [H|H]; injection H as <-; unfold no_nan; cbn; repeat split; discriminate.
Qed.

(** models with different costs, or whose ports mean something else, compare equal *)
Theorem C54_contents_refuted : exists a b E, named_model a /\ named_model b /\ model_eq a b = Ok true /\
  (exists e f, m_operational a = Some e /\ m_operational b = Some f /\ den E e 0 0 <> den E f 0 0) /\
  (exists d d', In (("out", "f"), d) (m_port_definitions a) /\ In (("out", "f"), d') (m_port_definitions b) /\
     den E (d_definition d) 0 0 <> den E (d_definition d') 0 0).
Proof.
  exists (ex_model OPERATIONAL ex_cost (Var "p")), (ex_model OPERATIONAL (Lit n0) (Neg (Var "p"))).
  exists {| e_var := fun _ _ _ => 1%Qc; e_par := fun _ _ _ => None; e_cvar := fun _ _ _ _ => 0%Qc; e_cpar := fun _ _ _ _ => None;
            e_port := fun _ _ => []; e_T := 1; e_S := 1 |}.
  assert (N : forall cost def, named_model (ex_model OPERATIONAL cost def)).
  { intros cost def. unfold named_model, named_dict. cbn.
    repeat match goal with |- _ /\ _ => split end; try (repeat constructor; cbn; tauto);
    try (intros k a [H|[]]; injection H as <- <-; reflexivity); intros k a []. }
  split; [apply N|]. split; [apply N|]. split; [vm_compute; reflexivity|]. split.
  - do 2 eexists. split; [reflexivity|]. split; [reflexivity|]. vm_compute. discriminate.
  - do 2 eexists. split; [left; reflexivity|]. split; [left; reflexivity|]. vm_compute. discriminate.
Qed.
Print Assumptions C54_contents_refuted.
(** and so do a model of the operational problem and one of the investment problem *)
Theorem C54_context_refuted : exists a b, model_eq a b = Ok true /\
  map (fun c => c_context (snd c)) (m_constraints a) <> map (fun c => c_context (snd c)) (m_constraints b).
Proof. exists (ex_model OPERATIONAL ex_cost (Var "p")), (ex_model INVESTMENT ex_cost (Var "p")). split; [vm_compute; reflexivity|]. cbn. discriminate. Qed.
Print Assumptions C54_context_refuted.
(** comparing a model with an objective to the same model without raises instead of answering *)
Theorem C54_raises_refuted : exists a b, proper_model a /\ proper_model b /\ model_eq a b = Err TypeError.
Proof.
  exists (ex_model OPERATIONAL ex_cost (Var "p")).
  exists {| m_id := "unit"; m_constraints := [("limit", ex_limit OPERATIONAL)]; m_binding_constraints := []; m_inter_block_dyn := false;
    m_parameters := [("cap", ex_cap)]; m_variables := [("p", ex_power)]; m_operational := None; m_investment := None;
    m_ports := [("out", ex_port)]; m_port_definitions := [(("out", "f"), ex_def (Var "p"))] |}.
  split; [apply ex_proper|]. split; [|vm_compute; reflexivity].
  unfold proper_model. cbn. repeat (split; [repeat constructor; cbn; tauto|]). repeat constructor. cbn. tauto.
Qed.
Print Assumptions C54_raises_refuted.

(** ** C55.  Objectives of accepted models are affine in the decision variables... *)
Theorem C55_objectives_affine : forall id cs bcs ps vs op inv dyn ports defs m e,
  make_model id cs bcs ps vs op inv dyn ports defs = Ok m -> m_operational m = Some e \/ m_investment m = Some e ->
  var_free_time_args e ->
  forall lam E0 E1 E, interpolates lam E0 E1 E -> forall t s a b, den E0 e t s = Some a -> den E1 e t s = Some b ->
  den E e t s = Some ((1 - lam) * a + lam * b)%Qc.
Proof. exact objectives_affine. Qed.
Print Assumptions C55_objectives_affine.
(** ... and have one value, whatever the timestep and the scenario.  (Time operators whose arguments vary escape the
    check, see C05 and C06.) *)
Theorem C55_objectives_real_partial : forall id cs bcs ps vs op inv dyn ports defs m e,
  make_model id cs bcs ps vs op inv dyn ports defs = Ok m -> m_operational m = Some e \/ m_investment m = Some e ->
  forall E, model_world m E -> fixed_time_args E e -> forall t s t' s', den E e t s = den E e t' s'.
Proof. exact objectives_real. Qed.
Print Assumptions C55_objectives_real_partial.
Example C55_objectives_example : var_free_time_args ex_cost /\ (forall E, fixed_time_args E ex_cost) /\
  exists E, model_world (ex_model OPERATIONAL ex_cost (Var "p")) E /\ den E ex_cost 0 0 <> None /\ e_var E "p" 0 0 <> e_var E "p" 1 0.
Proof.
  split; [cbn; tauto|]. split; [intros E; cbn; tauto|].
  exists {| e_var := fun _ t _ => Z2Qc t; e_par := fun _ t _ => Some (Z2Qc t); e_cvar := fun _ _ _ _ => 0%Qc; e_cpar := fun _ _ _ _ => None;
            e_port := fun _ _ => []; e_T := 2; e_S := 2 |}.
  split; [|split; vm_compute; discriminate].
  split; intros n x H; cbn [ex_model m_variables m_parameters dget] in H; destruct (String.eqb n _); try discriminate; injection H as <-;
    (split; [discriminate|reflexivity]).
Qed.

(** a model with distinct ports, definitions about their fields and real-valued linear objectives is accepted as given *)
Theorem C55_accepted : forall id cs bcs ps vs op inv dyn ports defs,
  NoDup (map mp_name ports) -> (forall d, In d defs -> about_port ports d) ->
  (forall e, op = Some e \/ inv = Some e -> real_valued_linear ps vs e) ->
  exists m, make_model id cs bcs ps vs op inv dyn ports defs = Ok m /\ m_id m = id /\ m_inter_block_dyn m = dyn /\
    m_operational m = op /\ m_investment m = inv /\ m_ports m = map (fun p => (mp_name p, p)) ports /\
    m_constraints m = dict_of String.eqb c_name cs /\ m_binding_constraints m = dict_of String.eqb c_name bcs /\
    m_parameters m = dict_of String.eqb p_name ps /\ m_variables m = dict_of String.eqb v_name vs /\
    m_port_definitions m = dict_of pfi_eqb d_field defs.
Proof. exact model_accepted. Qed.
Print Assumptions C55_accepted.
Example C55_accepted_example : NoDup (map mp_name [ex_port]) /\ about_port [ex_port] (ex_def (Var "p")) /\
  real_valued_linear [ex_cap] [ex_power] ex_cost.
Proof.
  split; [repeat constructor; cbn; tauto|]. split; [exists ex_port; cbn; auto|].
  unfold real_valued_linear. cbn. intuition reflexivity.
Qed.

(** what is refused: two ports of the same name, a definition about no field of a port, an objective that is not affine or
    varies (the contraposition of the two theorems above) *)
Theorem C55_same_port_refused : forall id cs bcs ps vs op inv dyn ports defs,
  ~ NoDup (map mp_name ports) -> make_model id cs bcs ps vs op inv dyn ports defs = Err ValueError.
Proof. exact same_port_refused. Qed.
Print Assumptions C55_same_port_refused.
Example C55_same_port_example : ~ NoDup (map mp_name [ex_port; ex_port]).
Proof. intros H. inversion H as [|? ? N _]. apply N. now left. Qed.
Theorem C55_definitions : forall id cs bcs ps vs op inv dyn ports defs m,
  make_model id cs bcs ps vs op inv dyn ports defs = Ok m -> forall d, In d defs -> about_port ports d.
Proof. exact definitions_about_ports. Qed.
Print Assumptions C55_definitions.

(** bounds of variables do not depend on decision variables *)
Theorem C55_variable_bounds : forall n ty lb ub st ctx v, mk_variable n ty lb ub st ctx = Ok v ->
  v = {| v_name := n; v_type := ty; v_lower := lb; v_upper := ub; v_structure := st; v_context := ctx |} /\
  forall e, lb = Some e \/ ub = Some e -> var_free_time_args e ->
  forall E E', same_data E E' -> forall t s, den E e t s = den E' e t s.
Proof. exact variable_bounds. Qed.
Print Assumptions C55_variable_bounds.
(** bounds without decision variables and ports are accepted *)
Theorem C55_variable_accepted : forall n ty lb ub st ctx,
  (forall e, lb = Some e \/ ub = Some e -> no_variable_left e) ->
  mk_variable n ty lb ub st ctx =
    Ok {| v_name := n; v_type := ty; v_lower := lb; v_upper := ub; v_structure := st; v_context := ctx |}.
Proof. exact variable_accepted. Qed.
Print Assumptions C55_variable_accepted.
Example C55_variable_example : no_variable_left (Mul (Lit (nz 2)) (TShift (Param "cap") (Lit (nz 1)))) /\
  mk_variable "x" CONTINUOUS (Some (Var "y")) None ex_both OPERATIONAL = Err ValueError.
Proof. split; [cbn; tauto|reflexivity]. Qed.

(** a port definition is accepted exactly when no node that gives its value is a comparison, a port or a name of a component *)
Theorem C55_port_definition_partial : forall port field e d, mk_port_field_def port field e = Ok d <->
  (forall x, value_node x e -> own_term x) /\ d = {| d_field := (port, field); d_definition := e |}.
Proof. exact port_definition. Qed.
Print Assumptions C55_port_definition_partial.
Theorem C55_port_definition_refused : forall port field e x, value_node x e -> ~ own_term x ->
  mk_port_field_def port field e = Err ValueError.
Proof. exact port_definition_refused. Qed.
Print Assumptions C55_port_definition_refused.
Example C55_port_definition_example : value_node (PortField "in" "f") (Mul (Lit n1) (TShift (PortField "in" "f") (Lit n1))).
Proof. apply vn_mul_r, vn_shift, vn_here. Qed.
(** the arguments of time operators are not checked: a definition may refer to another port field there *)
Theorem C55_port_in_shift_refuted : exists e d, mk_port_field_def "out" "f" e = Ok d /\ ~ no_port (d_definition d).
Proof. exists (TShift (Var "p") (PortField "in" "f")). eexists. split; [reflexivity|]. cbn. tauto. Qed.
Print Assumptions C55_port_in_shift_refuted.
