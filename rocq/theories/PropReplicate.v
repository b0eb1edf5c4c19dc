(** Property theorems C76 and C77: copies with changes; objects kept by name. *)
From Verif Require Import Base BaseFacts Expr Visitors SpecExpr Model Study SpecModel ModelFacts SpecValid ValidFacts Replicate SpecReplicate
  ReplicateFacts.

Local Open Scope string_scope.
Local Open Scope list_scope.

(** ** C76 *)

(** a copy without changes is the object itself *)
Theorem C76_unchanged :
  (forall n ty lb ub st ctx v, mk_variable n ty lb ub st ctx = Ok v -> replicate_variable v same_variable = Ok v) /\
  (forall n e lb ub ctx k, mk_constraint n e lb ub ctx = Ok k -> replicate_constraint k same_constraint = Ok k) /\
  (forall port field e d, mk_port_field_def port field e = Ok d -> replicate_definition d None None = Ok d) /\
  (forall h o, check_model (contents h o) = Ok (contents h o) -> replicate_model h o same_model = Ok o) /\
  (forall p, replicate_parameter p same_parameter = p) /\ (forall p, replicate_port p None None = p) /\
  (forall i, replicate_field_id i None None = i).
Proof.
  split; [exact replicate_variable_same|]. split; [exact replicate_constraint_same|]. split.
  - intros port field e d H. unfold mk_port_field_def in H. apply bind_ok in H as (u & C & H). injection H as <-.
    unfold replicate_definition, mk_port_field_def. cbn [changed d_field d_definition fst snd]. now rewrite C.
  - split; [intros h o C; apply replicate_model_iff; split; [now repeat split|exact C]|].
    split; [now intros []|]. split; [now intros []|]. now intros [].
Qed.
Print Assumptions C76_unchanged.

(** the copy of a variable has the fields given and the others of the variable; it is made exactly when its bounds are constant *)
Theorem C76_variable : forall v c v', replicate_variable v c = Ok v' <->
  copied_variable v c v' /\ forall e, v_lower v' = Some e \/ v_upper v' = Some e -> is_constant e = Ok true.
Proof. exact replicate_variable_iff. Qed.
Print Assumptions C76_variable.

(** the same for a constraint, unless a comparison is given: bounds are constant and not infinite of the wrong sign *)
Theorem C76_constraint : forall k c k', (forall l r x, cc_expr c <> Some (Cmp l r x)) -> (forall l r x, c_expr k <> Cmp l r x) ->
  (replicate_constraint k c = Ok k' <->
   copied_constraint k c k' /\ is_constant (c_lower k') = Ok true /\ is_constant (c_upper k') = Ok true /\
   c_lower k' <> Lit PInf /\ c_upper k' <> Lit NInf).
Proof.
  intros k c k' G K. apply replicate_constraint_iff. intros l r x. destruct (cc_expr c) as [e|] eqn:E; cbn; [|apply K].
  intros ->. exact (G l r x eq_refl).
Qed.
Print Assumptions C76_constraint.
(** no constraint that was made has a comparison as its expression; a new name or context is always accepted *)
Theorem C76_constraint_renamed : forall n e lb ub ctx k, mk_constraint n e lb ub ctx = Ok k ->
  (forall l r x, c_expr k <> Cmp l r x) /\
  forall n' ctx', exists k',
    replicate_constraint k {| cc_name := n'; cc_expr := None; cc_lower := None; cc_upper := None; cc_context := ctx' |} = Ok k' /\
    takes n' (c_name k) (c_name k') /\ takes ctx' (c_context k) (c_context k') /\
    forall E t s, constraint_holds E (c_expr k') (c_lower k') (c_upper k') t s <->
                  constraint_holds E (c_expr k) (c_lower k) (c_upper k) t s.
Proof.
  intros n e lb ub ctx k H. split; [exact (made_not_comparison _ _ _ _ _ _ H)|]. intros n' ctx'.
  eexists. split; [exact (replicate_constraint_named _ _ _ _ _ _ n' ctx' H)|].
  cbn [c_name c_context c_expr c_lower c_upper]. repeat split; try apply takes_changed; auto.
Qed.
Print Assumptions C76_constraint_renamed.
(** a constraint made from a comparison cannot be given another comparison, unless both bounds are given as infinite *)
Theorem C76_comparison_refuted :
  (forall n l r x lb ub ctx k, mk_constraint n (Cmp l r x) lb ub ctx = Ok k -> forall n' ctx' l' r' x',
     replicate_constraint k {| cc_name := n'; cc_expr := Some (Cmp l' r' x'); cc_lower := None; cc_upper := None; cc_context := ctx' |}
       = Err ValueError) /\
  (forall k n' ctx' l' r' x', exists k',
     replicate_constraint k {| cc_name := n'; cc_expr := Some (Cmp l' r' x'); cc_lower := Some (Lit NInf); cc_upper := Some (Lit PInf);
                               cc_context := ctx' |} = Ok k' /\
     forall E t s vl vr, den E l' t s = Some vl -> den E r' t s = Some vr ->
     (constraint_holds E (c_expr k') (c_lower k') (c_upper k') t s <-> cmp_holds x' vl vr)).
Proof.
  split; [exact replicate_comparison|]. intros k n' ctx' l' r' x'.
  destruct (mk_constraint (changed n' (c_name k)) (Cmp l' r' x') minus_infinity plus_infinity (changed ctx' (c_context k))) as [k'|] eqn:E.
  - exists k'. split; [exact E|]. exact (mk_constraint_cmp _ _ _ _ _ _ _ _ E).
  - destruct x'; discriminate.
Qed.
Print Assumptions C76_comparison_refuted.

(** definitions of port fields are checked again; other fields are taken as given *)
Theorem C76_definition : forall d field e d', replicate_definition d field e = Ok d' <->
  (forall x, value_node x (d_definition d') -> own_term x) /\
  takes field (d_field d) (d_field d') /\ takes e (d_definition d) (d_definition d').
Proof.
  intros d field e d'. unfold replicate_definition. cbv zeta. rewrite port_definition. split.
  - intros (H & ->). cbn [d_definition d_field]. split; [exact H|]. rewrite <- surjective_pairing. split; apply takes_changed.
  - intros (H & F & D). apply takes_eq in F, D. destruct d' as [f x]. cbn [d_definition d_field] in *. subst.
    rewrite <- surjective_pairing. auto.
Qed.
Print Assumptions C76_definition.
Theorem C76_parameter : forall p c p', p' = replicate_parameter p c <->
  takes (pc_name c) (p_name p) (p_name p') /\ takes (pc_type c) (p_type p) (p_type p') /\
  takes (pc_structure c) (p_structure p) (p_structure p').
Proof.
  intros p c p'. split.
  - intros ->. repeat split; apply takes_changed.
  - intros (N & T & S). apply takes_eq in N, T, S. destruct p'. cbn in *. now subst.
Qed.
Print Assumptions C76_parameter.
Theorem C76_port : forall p type name p', p' = replicate_port p type name <->
  takes type (mp_type p) (mp_type p') /\ takes name (mp_name p) (mp_name p').
Proof.
  intros p type name p'. split.
  - intros ->. repeat split; apply takes_changed.
  - intros (T & N). apply takes_eq in N, T. destruct p'. cbn in *. now subst.
Qed.
Print Assumptions C76_port.

(** the copy of a model has the fields given and the others of the model; it is made exactly when it passes the checks of a
    new model, whose meaning is C55 *)
Theorem C76_model : forall h o c o', replicate_model h o c = Ok o' <->
  copied_model o c o' /\ check_model (contents h o') = Ok (contents h o').
Proof. exact replicate_model_iff. Qed.
Print Assumptions C76_model.
(** ... but it shares the dictionaries that were not given: a constraint put into the copy is in the model.  One put into a
    dictionary that was given is not. *)
Theorem C76_shared_refuted : forall h o c o', replicate_model h o c = Ok o' -> forall key k,
  let h' := assign_constraint h (o_constraints o') key k in
  (mc_constraints c = None -> In (key, k) (m_constraints (contents h' o))) /\
  (o_constraints o' <> o_constraints o -> o_constraints o' <> o_binding_constraints o -> contents h' o = contents h o).
Proof.
  intros h o c o' H key k h'. apply replicate_model_iff in H as ((_ & C & _) & _). split.
  - intros G. rewrite G in C. cbn [takes] in C. cbn [contents m_constraints]. subst h'. cbn [assign_constraint h_constraints].
    rewrite C, Nat.eqb_refl. apply (dget_In String.eqb String.eqb_eq), (dget_dset_same String.eqb String.eqb_eq).
  - intros N1 N2. subst h'. unfold contents, assign_constraint. cbn [h_constraints h_parameters h_variables h_ports h_definitions].
    rewrite (proj2 (Nat.eqb_neq _ _) (not_eq_sym N1)), (proj2 (Nat.eqb_neq _ _) (not_eq_sym N2)). reflexivity.
Qed.
Print Assumptions C76_shared_refuted.
(** ... and its dictionaries need not be by name *)
Definition exr_var (n : string) : variable :=
  {| v_name := n; v_type := CONTINUOUS; v_lower := Some (Lit n0); v_upper := None; v_structure := {| ix_time := true; ix_scenario := true |};
     v_context := OPERATIONAL |}.
Definition exr_constraint : constraint :=
  {| c_name := "c"; c_expr := py_sub (Var "x") (Param "p"); c_lower := Lit n0; c_upper := plus_infinity; c_context := OPERATIONAL |}.
Definition exr_heap : dictionaries := {|
  h_constraints := fun i => match i with 0%nat => [("c", exr_constraint)] | _ => [] end;
  h_parameters := fun _ => [("p", float_parameter "p" {| ix_time := true; ix_scenario := false |})];
  h_variables := fun i => match i with 0%nat => [("x", exr_var "x")] | _ => [("x", exr_var "y")] end;
  h_ports := fun _ => []; h_definitions := fun _ => [] |}.
Definition exr_object : model_object := {|
  o_id := "m"; o_constraints := 0; o_binding_constraints := 1; o_inter_block_dyn := false; o_parameters := 0; o_variables := 0;
  o_operational := Some (ScenOp (AllSum (Var "x")) Expectation); o_investment := None; o_ports := 0; o_port_definitions := 0 |}.
Theorem C76_names_refuted : exists h o c o' key v, check_model (contents h o) = Ok (contents h o) /\
  (forall n w, In (n, w) (m_variables (contents h o)) -> v_name w = n) /\
  replicate_model h o c = Ok o' /\ In (key, v) (m_variables (contents h o')) /\ v_name v <> key.
Proof.
  exists exr_heap, exr_object, {| mc_id := None; mc_constraints := None; mc_binding_constraints := None; mc_inter_block_dyn := None;
    mc_parameters := None; mc_variables := Some 1%nat; mc_operational := None; mc_investment := None; mc_ports := None; mc_port_definitions := None |}.
  eexists _, "x", (exr_var "y"). split; [reflexivity|]. split; [intros n w [H|[]]; now injection H as <- <-|].
  split; [reflexivity|]. split; [now left|discriminate].
Qed.
Print Assumptions C76_names_refuted.
Example C76_example :
  mk_constraint "c" (Cmp (Var "x") (Param "p") GREATER_THAN) minus_infinity plus_infinity OPERATIONAL = Ok exr_constraint /\
  (exists v, mk_variable "x" CONTINUOUS (Some (Lit n0)) None {| ix_time := true; ix_scenario := true |} OPERATIONAL = Ok v /\
     replicate_variable v {| vc_name := Some "z"; vc_type := Some INTEGER; vc_lower := Some None; vc_upper := Some (Some (Param "p"));
                             vc_structure := None; vc_context := None |} =
     Ok {| v_name := "z"; v_type := INTEGER; v_lower := None; v_upper := Some (Param "p");
           v_structure := {| ix_time := true; ix_scenario := true |}; v_context := OPERATIONAL |} /\
     replicate_variable v {| vc_name := None; vc_type := None; vc_lower := None; vc_upper := Some (Some (Var "y"));
                             vc_structure := None; vc_context := None |} = Err ValueError) /\
  replicate_constraint exr_constraint {| cc_name := None; cc_expr := Some (Var "x"); cc_lower := None; cc_upper := Some (Param "p");
                                         cc_context := None |} =
    Ok {| c_name := "c"; c_expr := Var "x"; c_lower := Lit n0; c_upper := Param "p"; c_context := OPERATIONAL |} /\
  check_model (contents exr_heap exr_object) = Ok (contents exr_heap exr_object) /\
  (exists o', replicate_model exr_heap exr_object {| mc_id := Some "n"; mc_constraints := Some 2%nat; mc_binding_constraints := None;
     mc_inter_block_dyn := None; mc_parameters := None; mc_variables := None; mc_operational := Some None; mc_investment := None;
     mc_ports := None; mc_port_definitions := None |} = Ok o' /\ o_constraints o' <> o_constraints exr_object /\
     o_constraints o' <> o_binding_constraints exr_object) /\
  replicate_model exr_heap exr_object {| mc_id := None; mc_constraints := None; mc_binding_constraints := None;
     mc_inter_block_dyn := None; mc_parameters := None; mc_variables := None; mc_operational := Some (Some (Var "x")); mc_investment := None;
     mc_ports := None; mc_port_definitions := None |} = Err ValueError /\
  (exists d, mk_port_field_def "in" "flow" (Var "x") = Ok d /\
     replicate_definition d None (Some (PortField "in" "flow")) = Err ValueError).
Proof.
  split; [reflexivity|]. split; [eexists; repeat split|]. split; [reflexivity|]. split; [reflexivity|]. split.
  - eexists. split; [reflexivity|]. split; discriminate.
  - split; [reflexivity|]. eexists. split; reflexivity.
Qed.

(** ** C77 *)

(** model() keeps under each name the last object given with it; ports are all kept *)
Theorem C77_model : forall id cs bcs ps vs op inv dyn ports defs m, make_model id cs bcs ps vs op inv dyn ports defs = Ok m ->
  m_id m = id /\ m_operational m = op /\ m_investment m = inv /\ m_inter_block_dyn m = dyn /\
  kept_by_name c_name cs (m_constraints m) /\ kept_by_name c_name bcs (m_binding_constraints m) /\
  kept_by_name p_name ps (m_parameters m) /\ kept_by_name v_name vs (m_variables m) /\
  kept_by_name d_field defs (m_port_definitions m) /\ m_ports m = map (fun p => (mp_name p, p)) ports.
Proof. exact made_model_kept. Qed.
Print Assumptions C77_model.
(** library() keeps under each id the last port type and the last model given with it *)
Theorem C77_library : forall id types models, let l := library_of id types models in
  ol_id l = id /\ kept_by_name pt_id types (ol_port_types l) /\ kept_by_name m_id models (ol_models l).
Proof.
  intros id types models l. split; [reflexivity|]. split; apply dict_of_kept; apply String.eqb_eq.
Qed.
Print Assumptions C77_library.
(** objects with distinct names are all kept *)
Theorem C77_distinct : forall (A : Type) (name : A -> string) l d, kept_by_name name l d -> NoDup (map name l) ->
  forall n a, In (n, a) d <-> In a l /\ name a = n.
Proof.
  intros A name l d (_ & K) N n a. rewrite K. split.
  - intros (b & c & -> & H & _). split; [apply in_app_iff; right; now left|exact H].
  - intros (I & H). apply in_split in I as (b & c & ->). exists b, c. split; [reflexivity|]. split; [exact H|].
    intros x I E. rewrite map_app in N. cbn in N. apply NoDup_remove_2 in N. apply N, in_app_iff. right. rewrite H, <- E. now apply in_map.
Qed.
Print Assumptions C77_distinct.
Definition exr_parameters : list parameter :=
  [int_parameter "p" {| ix_time := false; ix_scenario := false |}; float_parameter "q" {| ix_time := true; ix_scenario := false |};
   float_parameter "p" {| ix_time := true; ix_scenario := true |}].
Example C77_example : exists m, make_model "m" [exr_constraint] [] exr_parameters [exr_var "x"] None None false [] [] = Ok m /\
  m_parameters m = [("p", float_parameter "p" {| ix_time := true; ix_scenario := true |});
                    ("q", float_parameter "q" {| ix_time := true; ix_scenario := false |})] /\
  last_named p_name exr_parameters "p" (float_parameter "p" {| ix_time := true; ix_scenario := true |}) /\
  ~ last_named p_name exr_parameters "p" (int_parameter "p" {| ix_time := false; ix_scenario := false |}).
Proof.
  eexists. split; [reflexivity|]. split; [reflexivity|]. split.
  - exists (firstn 2 exr_parameters), []. split; [reflexivity|]. split; [reflexivity|]. intros b [].
  - intros (b & a & E & _ & H). destruct b as [|? [|? [|? b]]]; try discriminate E.
    + injection E as <-. apply (H (float_parameter "p" {| ix_time := true; ix_scenario := true |})); [right; now left|reflexivity].
    + injection E as _ _ _ E. destruct b; discriminate.
Qed.
