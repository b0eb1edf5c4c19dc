(** Specification vocabulary for models, networks and data. *)
From Verif Require Import Base Expr Visitors SpecExpr Model Study.

(** ** Constraints *)
(** the lower bound is at most [v]; minus infinity always is *)
Definition lower_ok (E : env) (lb : expr) (t s : Z) (v : Qc) : Prop :=
  match lb with
  | Lit NInf => True
  | _ => exists q, den E lb t s = Some q /\ (q <= v)%Qc
  end.
Definition upper_ok (E : env) (ub : expr) (t s : Z) (v : Qc) : Prop :=
  match ub with
  | Lit PInf => True
  | _ => exists q, den E ub t s = Some q /\ (v <= q)%Qc
  end.
(** lower <= expression <= upper *)
Definition constraint_holds (E : env) (e lb ub : expr) (t s : Z) : Prop :=
  exists v, den E e t s = Some v /\ lower_ok E lb t s v /\ upper_ok E ub t s v.

(** the bound is infinite: no explicit bound was given *)
Definition infinite_literal (e : expr) : Prop := e = Lit PInf \/ e = Lit NInf.

(** ** Models *)
(** entries of a dict are filed under their own name, once *)
Definition named_dict {K A} (key : A -> K) (d : dict K A) : Prop :=
  NoDup (map fst d) /\ forall k a, In (k, a) d -> key a = k.
Definition named_model (m : model) : Prop :=
  named_dict c_name (m_constraints m) /\ named_dict c_name (m_binding_constraints m) /\
  named_dict p_name (m_parameters m) /\ named_dict v_name (m_variables m) /\
  named_dict mp_name (m_ports m) /\ named_dict d_field (m_port_definitions m).

(** every port definition is about a field of a port of the model *)
Definition definitions_on_ports (m : model) : Prop :=
  forall k d, In (k, d) (m_port_definitions m) ->
  exists p, In p (map snd (m_ports m)) /\ mp_name p = fst (d_field d) /\
            In (snd (d_field d)) (pt_fields (mp_type p)).

(** ** Connections *)
(** the model of the component defines the field at that port *)
Definition defines (r : port_ref) (f : string) : Prop :=
  In (pr_port r, f) (map fst (m_port_definitions (co_model (pr_component r)))).
(** the port of the model with that name *)
Definition has_port (r : port_ref) (p : model_port) : Prop :=
  In (pr_port r, p) (m_ports (co_model (pr_component r))).
Definition one_definer (r1 r2 : port_ref) (f : string) : Prop :=
  (defines r1 f /\ ~ defines r2 f) \/ (~ defines r1 f /\ defines r2 f).
Definition compatible (r1 r2 : port_ref) : Prop :=
  exists p1 p2, has_port r1 p1 /\ has_port r2 p2 /\ mp_type p1 = mp_type p2 /\
                forall f, In f (pt_fields (mp_type p1)) -> one_definer r1 r2 f.

(** ** Networks *)
(** the networks a user can make *)
Inductive built_network : network -> Prop :=
| bn_new id : built_network (new_network id)
| bn_component c n : built_network n -> built_network (add_component c n)
| bn_node c n : built_network n -> built_network (add_node c n)
| bn_connect r1 r2 n n' : built_network n -> connect r1 r2 n = Ok n' -> built_network n'.

(** ** Data *)
(** values do not change along a dimension, whether or not an index is given *)
Definition ignores_time (d : data) : Prop :=
  forall t t' s node, get_value d t s node = get_value d t' s node.
Definition ignores_scenario (d : data) : Prop :=
  forall t s s' node, get_value d t s node = get_value d t s' node.

(** an item of a sequence, counted from the start or, with a negative index, from the end *)
Inductive counted {A} (l : list A) : Z -> A -> Prop :=
| from_start before x after : l = before ++ x :: after -> counted l (Z.of_nat (List.length before)) x
| from_end before x after : l = before ++ x :: after -> counted l (- Z.of_nat (S (List.length after))) x.

(** the component has data for the parameter, which varies along no dimension on which the
    parameter is declared constant *)
Definition has_suitable_data (db : database) (cid : string) (p : parameter) : Prop :=
  exists d, get_data db cid (p_name p) = Ok d /\
    (ix_time (p_structure p) = false -> ignores_time d) /\
    (ix_scenario (p_structure p) = false -> ignores_scenario d).

(** the kinds of data that a parameter of a given structure may have *)
Inductive suits (ix : indexing) : data -> Prop :=
| suits_constant v : suits ix (ConstantData v)
| suits_time m : ix_time ix = true -> suits ix (TimeSeriesData m)
| suits_scenario m sc : ix_scenario ix = true -> suits ix (ScenarioSeriesData m sc)
| suits_both rows sc : ix_time ix = true -> ix_scenario ix = true -> suits ix (TimeScenarioSeriesData rows sc)
| suits_tree children : (forall node d, In (node, d) children -> suits ix d) -> suits ix (TreeData children).

(** the last data added for a pair, in a history of additions *)
Fixpoint last_added (c n : string) (history : list (string * string * data)) : option data :=
  match history with
  | [] => None
  | (c', n', d) :: h =>
      match last_added c n h with
      | Some d' => Some d'
      | None => if String.eqb c c' && String.eqb n n' then Some d else None
      end
  end.
