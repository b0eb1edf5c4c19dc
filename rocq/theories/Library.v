(** Libraries of models from their files (src/andromede/model/resolve_library.py, model/parsing.py,
    model/library.py).  Definitions only.  Reading YAML is not modelled: the records are what pydantic
    gives, defaults filled in. *)
From Verif Require Import Base Expr Visitors Parse Model System.

(** model/parsing.py:29-32 `InputParameter` *)
Record in_parameter := { yp_id : string; yp_time : bool; yp_scenario : bool }.
(** model/parsing.py:35-44 `InputVariable` *)
Record in_variable := {
  yv_id : string; yv_time : bool; yv_scenario : bool;
  yv_lower : option string; yv_upper : option string; yv_type : string
}.
(** model/parsing.py:47-51 `InputConstraint` *)
Record in_constraint := {
  yc_id : string; yc_expression : string; yc_lower : option string; yc_upper : option string
}.
(** model/parsing.py:54-61 `InputField`, `InputPortType` *)
Record in_port_type := { yt_id : string; yt_fields : list string }.
(** model/parsing.py:64-66 `InputModelPort` *)
Record in_model_port := { yo_id : string; yo_type : string }.
(** model/parsing.py:69-72 `InputPortFieldDefinition` *)
Record in_definition := { yd_port : string; yd_field : string; yd_definition : string }.
(** model/parsing.py:75-84 `InputModel` *)
Record in_model := {
  ym_id : string;
  ym_parameters : list in_parameter;
  ym_variables : list in_variable;
  ym_ports : list in_model_port;
  ym_definitions : list in_definition;
  ym_binding_constraints : list in_constraint;
  ym_constraints : list in_constraint;
  ym_objective : option string
}.
(** model/parsing.py:87-92 `InputLibrary` *)
Record in_library := {
  yl_id : string; yl_dependencies : list string; yl_port_types : list in_port_type; yl_models : list in_model
}.

(** What parse_expression returned, where an expression is needed.  A text read as None or as a
    comparison of None gives, in the code, a model holding None: such texts are outside the model
    (model/resolve_library.py:217-222). *)
Definition the_expression (v : pvalue) : result expr :=
  match v with PVal e => Ok e | _ => Err NotImplementedErr end.
(** resolve_library.py:217-222 `_to_expression_if_present`: None and the empty text give None *)
Definition to_expression_if_present (text : option string) (ids : identifiers) : result (option expr) :=
  match text with
  | None | Some EmptyString => Ok None
  | Some text =>
      v <- parse_expression text ids ;;
      match v with PVal e => Ok (Some e) | PNone => Ok None | PBroken => Err NotImplementedErr end
  end.

(** resolve_library.py:209-214 `_to_parameter` *)
Definition to_parameter (p : in_parameter) : parameter :=
  {| p_name := yp_id p; p_type := CONTINUOUS; p_structure := {| ix_time := yp_time p; ix_scenario := yp_scenario p |} |}.
(** resolve_library.py:228-230: the dict of variable types *)
Definition to_value_type (s : string) : result value_type :=
  if String.eqb s "continuous" then Ok CONTINUOUS
  else if String.eqb s "integer" then Ok INTEGER else Err KeyError.
(** resolve_library.py:225-235 `_to_variable` *)
Definition to_variable (ids : identifiers) (v : in_variable) : result variable :=
  ty <- to_value_type (yv_type v) ;;
  lb <- to_expression_if_present (yv_lower v) ids ;;
  ub <- to_expression_if_present (yv_upper v) ids ;;
  mk_variable (yv_id v) ty lb ub {| ix_time := yv_time v; ix_scenario := yv_scenario v |} OPERATIONAL.
(** resolve_library.py:238-248 `_to_constraint` *)
Definition to_constraint (ids : identifiers) (c : in_constraint) : result constraint :=
  lb <- to_expression_if_present (yc_lower c) ids ;;
  ub <- to_expression_if_present (yc_upper c) ids ;;
  v <- parse_expression (yc_expression c) ids ;;
  e <- the_expression v ;;
  mk_constraint (yc_id c) e (match lb with Some e => e | None => Lit NInf end)
    (match ub with Some e => e | None => Lit PInf end) OPERATIONAL.
(** resolve_library.py:192-196 `_resolve_model_port` *)
Definition resolve_model_port (port_types : dict string port_type) (p : in_model_port) : result model_port :=
  match dget String.eqb (yo_type p) port_types with
  | None => Err KeyError
  | Some t => Ok {| mp_type := t; mp_name := yo_id p |}
  end.
(** resolve_library.py:199-206 `_resolve_field_definition` *)
Definition resolve_field_definition (ids : identifiers) (d : in_definition) : result port_field_def :=
  v <- parse_expression (yd_definition d) ids ;;
  e <- the_expression v ;;
  mk_port_field_def (yd_port d) (yd_field d) e.
(** resolve_library.py:159-166 `_convert_field`, `_convert_port_type` *)
Definition convert_port_type (t : in_port_type) : port_type := {| pt_id := yt_id t; pt_fields := yt_fields t |}.
(** resolve_library.py:170-173: the names of a model *)
Definition model_identifiers (m : in_model) : identifiers :=
  {| id_variables := map yv_id (ym_variables m); id_parameters := map yp_id (ym_parameters m) |}.
(** resolve_library.py:169-190 `_resolve_model` *)
Definition resolve_model (port_types : dict string port_type) (m : in_model) : result model :=
  let ids := model_identifiers m in
  vs <- mapM (to_variable ids) (ym_variables m) ;;
  ps <- mapM (resolve_model_port port_types) (ym_ports m) ;;
  ds <- mapM (resolve_field_definition ids) (ym_definitions m) ;;
  bs <- mapM (to_constraint ids) (ym_binding_constraints m) ;;
  cs <- mapM (to_constraint ids) (ym_constraints m) ;;
  o <- to_expression_if_present (ym_objective m) ids ;;
  make_model (ym_id m) cs bs (map to_parameter (ym_parameters m)) vs o None false ps ds.

(** `dict.update` (resolve_library.py:61, 104, 115, 135) *)
Definition update {K A} (eqb : K -> K -> bool) (d d' : dict K A) : dict K A :=
  fold_left (fun d kv => dset eqb (fst kv) (snd kv) d) d' d.

(** resolve_library.py:124-146 `_resolve_lib`; [port_types]: those already in current_lib *)
Definition resolve_lib (port_types : dict string port_type) (l : in_library) : result library :=
  let own := dict_of String.eqb pt_id (map convert_port_type (yl_port_types l)) in
  if existsb (fun kv => dmem String.eqb (fst kv) port_types) own then Err GenericException
  else
    let all := update String.eqb port_types own in
    let model_ids := map ym_id (yl_models l) in
    if existsb (fun i => Nat.ltb 1 (count_occ string_dec model_ids i)) model_ids then Err GenericException
    else
      ms <- mapM (resolve_model all) (yl_models l) ;;
      Ok {| l_id := yl_id l; l_port_types := all; l_models := dict_of String.eqb m_id ms |}.

(** python's `in` on a list or set of strings, resolve_library.py:73, 89, 113, 154 *)
Definition mem (x : string) (l : list string) : bool := existsb (String.eqb x) l.

(** resolve_library.py:47-156 `resolve_library`.  [order treated stack s] is the order in which python
    goes through the set [s]: any permutation, and not the same one each time. *)
Section Resolve.
  Variable order : list string -> list string -> list string -> list string.
  Variable yaml : dict string in_library.
  Variable preloaded_port_types : dict string port_type.

  (** resolve_library.py:107-115 `_add_resolved_dependent_port_types_to_current_lib` *)
  Definition add_resolved (output : dict string library) (done : list string) (pts : dict string port_type)
    : result (dict string port_type) :=
    foldM (fun pts d => match dget String.eqb d output with
                        | None => Err KeyError
                        | Some l => Ok (update String.eqb pts (l_port_types l))
                        end) pts done.

  (** resolve_library.py:67-98, 118-121, 149-156: the two loops; the last element of the import stack comes first here *)
  Fixpoint loop (fuel : nat) (remaining treated stack : list string) (output : dict string library)
    : result (dict string library) :=
    match fuel with
    | O => Err OutOfFuel
    | S fuel =>
        match stack with
        | [] =>
            match rev remaining with
            | [] => Ok output
            | next :: r =>
                if mem next treated then loop fuel (rev r) treated [] output
                else loop fuel (rev r) treated [next] output
            end
        | top :: below =>
            match dget String.eqb top yaml with
            | None => Err KeyError
            | Some lib =>
                let deps := nodup string_dec (yl_dependencies lib) in
                pts <- add_resolved output (order treated stack (filter (fun d => mem d treated) deps)) preloaded_port_types ;;
                match order treated stack (filter (fun d => negb (mem d treated)) deps) with
                | first :: _ =>
                    if mem first stack then Err GenericException
                    else loop fuel remaining treated (first :: stack) output
                | [] =>
                    l <- resolve_lib pts lib ;;
                    loop fuel remaining (top :: treated) below (dset String.eqb (l_id l) l output)
                end
            end
        end
    end.
End Resolve.

(** resolve_library.py:47-98.  The fuel always suffices. *)
Definition resolve_library (order : list string -> list string -> list string -> list string)
  (inputs : list in_library) (preloaded : list library) : result (dict string library) :=
  let yaml := dict_of String.eqb yl_id inputs in
  let preloaded_port_types := fold_left (fun d l => update String.eqb d (l_port_types l)) preloaded [] in
  let n := List.length yaml in
  loop order yaml preloaded_port_types (3 * n + 2) (map fst yaml) [] [] (dict_of String.eqb l_id preloaded).
