(** Specification vocabulary for libraries of models, independent of the way they are resolved. *)
From Coq Require Import Relations Permutation.
From Verif Require Import Base Expr SpecExpr SpecParse SpecModel Parse Model System Library.

(** ** Dependencies between library files *)
Definition depends (libs : list in_library) (a b : string) : Prop :=
  exists l, In l libs /\ yl_id l = a /\ In b (yl_dependencies l).
Definition reaches (libs : list in_library) : string -> string -> Prop := clos_trans string (depends libs).
Definition acyclic (libs : list in_library) : Prop := forall a, ~ reaches libs a a.
Definition complete (libs : list in_library) : Prop :=
  forall a b, depends libs a b -> In b (map yl_id libs).

(** an order in which python may go through its sets *)
Definition any_order (order : list string -> list string -> list string -> list string) : Prop :=
  forall treated stack s, Permutation (order treated stack s) s.

(** ** Port types *)
(** [usable libs preloaded a k t]: in library [a] the name [k] can stand for the port type [t]: it was
    preloaded, [a] declares it, or [a] depends on a library where it is usable *)
Inductive usable (libs : list in_library) (preloaded : list library) (a : string) : string -> port_type -> Prop :=
| u_preloaded p k t : In p preloaded -> In (k, t) (l_port_types p) -> usable libs preloaded a k t
| u_own l t : In l libs -> yl_id l = a -> In t (yl_port_types l) ->
    usable libs preloaded a (yt_id t) {| pt_id := yt_id t; pt_fields := yt_fields t |}
| u_dependency b k t : depends libs a b -> usable libs preloaded b k t -> usable libs preloaded a k t.

(** what a library finds before its own declarations *)
Definition collected (inputs : list in_library) (preloaded : list library) (y : in_library) (k : string) (t : port_type) : Prop :=
  (exists p, In p preloaded /\ In (k, t) (l_port_types p)) \/
  (exists d, In d (yl_dependencies y) /\ usable inputs preloaded d k t).

(** no name of a port type has two meanings *)
Definition no_clash (libs : list in_library) (preloaded : list library) : Prop :=
  forall a k t t', usable libs preloaded a k t -> usable libs preloaded a k t' -> t = t'.

(** ** Texts in a model *)
Definition given_text (t : option string) : list string :=
  match t with Some (String c s) => [String c s] | _ => [] end.
Definition variable_texts (v : in_variable) : list string := given_text (yv_lower v) ++ given_text (yv_upper v).
Definition constraint_texts (c : in_constraint) : list string :=
  yc_expression c :: given_text (yc_lower c) ++ given_text (yc_upper c).
Definition model_texts (m : in_model) : list string :=
  flat_map variable_texts (ym_variables m) ++ map yd_definition (ym_definitions m) ++
  flat_map constraint_texts (ym_binding_constraints m) ++ flat_map constraint_texts (ym_constraints m) ++
  given_text (ym_objective m).
(** the names the texts of a model may use *)
Definition model_names (m : in_model) : identifiers :=
  {| id_variables := map yv_id (ym_variables m); id_parameters := map yp_id (ym_parameters m) |}.
(** the text follows the grammar and only uses declared names *)
Definition well_written (ids : identifiers) (text : string) : Prop :=
  exists e, spells text (tokens e) /\ unambiguous e /\ declared ids e.

(** ** What is written in a model *)
(** [text] reads as [e], whose meaning is known (see C44) *)
Definition reads_as (ids : identifiers) (text : string) (e : wexpr) : Prop :=
  spells text (tokens e) /\ unambiguous e /\ plain e /\ declared ids e.
(** the value of a bound that may be absent or empty *)
Inductive written_value (E : env) (ids : identifiers) (t s : Z) : option string -> option Qc -> Prop :=
| wv_none : written_value E ids t s None None
| wv_empty : written_value E ids t s (Some EmptyString) None
| wv_text c text e q : reads_as ids (String c text) e -> meaning E (id_variables ids) e t s = Some q ->
    written_value E ids t s (Some (String c text)) (Some q).
Definition at_least (lo : option Qc) (v : Qc) : Prop := match lo with Some q => (q <= v)%Qc | None => True end.
Definition at_most (hi : option Qc) (v : Qc) : Prop := match hi with Some q => (v <= q)%Qc | None => True end.
(** an optional expression means what an optional text says *)
Definition means_text (ids : identifiers) (text : option string) (x : option expr) : Prop :=
  match text with
  | None | Some EmptyString => x = None
  | Some text => forall e, reads_as ids text e ->
      exists x', x = Some x' /\ forall E t s, den E x' t s = meaning E (id_variables ids) e t s
  end.

Definition same_types (d d' : dict string port_type) : Prop := forall k, dget String.eqb k d = dget String.eqb k d'.
