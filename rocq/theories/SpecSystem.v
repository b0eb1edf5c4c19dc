(** Specification vocabulary for system files. *)
From Coq Require Import Ascii.
From Verif Require Import Base Expr Visitors Model Study System SpecModel.

Fixpoint no_dot (s : string) : Prop :=
  match s with EmptyString => True | String a s => a <> "."%char /\ no_dot s end.
(** [reference] is `library.model` and names [m] *)
Definition names_model (libraries : dict string library) (reference : string) (m : model) : Prop :=
  exists lib_id model_id lib, reference = (lib_id ++ "." ++ model_id)%string /\
    no_dot lib_id /\ no_dot model_id /\
    dget String.eqb lib_id libraries = Some lib /\ dget String.eqb model_id (l_models lib) = Some m.
Definition stands_as (libraries : dict string library) (i : input_component) (c : component) : Prop :=
  co_id c = ic_id i /\ names_model libraries (ic_model i) (co_model c).
Definition input_ids (i : input_system) : list string := map ic_id (is_components i) ++ map ic_id (is_nodes i).
(** connection [k] is between the components of [known] that [i] names *)
Definition connects (known : list component) (i : input_connection) (k : ports_connection) : Prop :=
  co_id (pr_component (pc_port1 k)) = icn_component1 i /\ pr_port (pc_port1 k) = icn_port1 i /\
  co_id (pr_component (pc_port2 k)) = icn_component2 i /\ pr_port (pc_port2 k) = icn_port2 i /\
  In (pr_component (pc_port1 k)) known /\ In (pr_component (pc_port2 k)) known.

Definition all_inputs (i : input_system) : list input_component := is_components i ++ is_nodes i.
(** the connection is between ports that two entries of the file have and that can be connected *)
Definition connectable (libraries : dict string library) (i : input_system) (k : input_connection) : Prop :=
  exists c1 c2 m1 m2, In c1 (all_inputs i) /\ In c2 (all_inputs i) /\
    ic_id c1 = icn_component1 k /\ ic_id c2 = icn_component2 k /\
    names_model libraries (ic_model c1) m1 /\ names_model libraries (ic_model c2) m2 /\
    compatible {| pr_component := {| co_model := m1; co_id := ic_id c1 |}; pr_port := icn_port1 k |}
               {| pr_component := {| co_model := m2; co_id := ic_id c2 |}; pr_port := icn_port2 k |}.
Definition named_libraries (libraries : dict string library) : Prop :=
  forall reference m, names_model libraries reference m -> named_model m.

(** ** Data *)
(** the parameters given, with their components *)
Definition parameter_keys (l : list input_component) : list (string * string) :=
  flat_map (fun c => map (fun p => (ic_id c, ip_id p)) (parameters_of c)) l.
(** a number for a parameter without indexing; for the others a file with one column, one line, or any *)
Definition acceptable (files : string -> result frame) (p : input_parameter) : Prop :=
  match ip_value p with
  | inl _ => ip_time p = false /\ ip_scenario p = false
  | inr name => exists ts, files name = Ok ts /\
      ((ip_time p = true /\ ip_scenario p = true) \/
       (ip_time p = true /\ ip_scenario p = false /\ forall r, In r ts -> exists v, r = [v]) \/
       (ip_time p = false /\ ip_scenario p = true /\ exists r, ts = [r]))
  end.
(** the group of a parameter: its own, or that of its component; an empty name is no group *)
Definition given (g : option string) : option string :=
  match g with Some EmptyString => None | g => g end.
Definition wanted_group (c : input_component) (p : input_parameter) : option string :=
  match given (ip_group p) with Some g => Some g | None => given (ic_group c) end.
(** data column [col] is meant by scenario [y] for that group *)
Definition column_for (rows : list builder_row) (g : option string) (y col : Z) : Prop :=
  match g with
  | Some g => In (g, (y, col)) rows
  | None => col = y
  end.
(** the value in the data of parameter [p] for timestep [t] and data column [col] *)
Definition cell (ts : frame) (row col : Z) : option num :=
  match (0 <=? row)%Z, (0 <=? col)%Z, nth_error ts (Z.to_nat row) with
  | true, true, Some r => nth_error r (Z.to_nat col)
  | _, _, _ => None
  end.
Definition parameter_cell (files : string -> result frame) (p : input_parameter) (t col : Z) : option num :=
  match ip_value p with
  | inl v => if ip_time p || ip_scenario p then None else Some v
  | inr name =>
      match files name with
      | Err _ => None
      | Ok ts => if ip_time p || ip_scenario p
                 then cell ts (if ip_time p then t else 0%Z) (if ip_scenario p then col else 0%Z) else None
      end
  end.
