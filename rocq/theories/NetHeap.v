(** Networks as mutable objects (src/andromede/study/network.py).  The model of [Study] is
    functional; here a network object refers to its two dicts and its list, which are separate
    mutable objects, so that sharing between networks would be visible.  Definitions only. *)
From Verif Require Import Base Expr Visitors Model Study.

(** study/network.py:122-131: the attributes of a `Network` instance refer to a dict of nodes, a
    dict of components and a list of connections *)
Record net_object := { h_id : string; h_nodes : nat; h_components : nat; h_connections : nat }.
(** the memory: every network, dict and list ever made (study/network.py:122-131) *)
Record heap := {
  h_objects : list net_object;
  h_dicts : list (dict string component);
  h_lists : list (list ports_connection)
}.
(** no object yet (study/network.py:122-131) *)
Definition empty_heap : heap := {| h_objects := []; h_dicts := []; h_lists := [] |}.

(** replace an element of a list: assignment into an object, study/network.py:139, 153, 171 *)
Fixpoint update {A} (i : nat) (f : A -> A) (l : list A) : list A :=
  match l, i with
  | [], _ => []
  | a :: l, O => f a :: l
  | a :: l, S i => a :: update i f l
  end.

(** study/network.py:122-131 `Network(id)`: fresh containers by `default_factory` *)
Definition alloc_network (id : string) (h : heap) : heap * nat :=
  let n := List.length (h_dicts h) in
  ({| h_objects := h_objects h ++
        [{| h_id := id; h_nodes := n; h_components := S n; h_connections := List.length (h_lists h) |}];
      h_dicts := h_dicts h ++ [[]; []];
      h_lists := h_lists h ++ [[]] |},
   List.length (h_objects h)).

(** study/network.py:137-139 `add_component` *)
Definition h_add_component (i : nat) (c : component) (h : heap) : heap :=
  match nth_error (h_objects h) i with
  | None => h
  | Some o => {| h_objects := h_objects h;
                 h_dicts := update (h_components o) (dset String.eqb (co_id c) c) (h_dicts h);
                 h_lists := h_lists h |}
  end.
(** study/network.py:152-153 `add_node` *)
Definition h_add_node (i : nat) (c : component) (h : heap) : heap :=
  match nth_error (h_objects h) i with
  | None => h
  | Some o => {| h_objects := h_objects h;
                 h_dicts := update (h_nodes o) (dset String.eqb (co_id c) c) (h_dicts h);
                 h_lists := h_lists h |}
  end.
(** `self._connections.append`, study/network.py:171, 194 *)
Definition h_append (i : nat) (c : ports_connection) (h : heap) : heap :=
  match nth_error (h_objects h) i with
  | None => h
  | Some o => {| h_objects := h_objects h; h_dicts := h_dicts h;
                 h_lists := update (h_connections o) (fun l => l ++ [c]) (h_lists h) |}
  end.
(** study/network.py:169-171 `connect`: the list is touched after the validation *)
Definition h_connect (i : nat) (r1 r2 : port_ref) (h : heap) : result heap :=
  c <- mk_connection r1 r2 ;; Ok (h_append i c h).

(** study/network.py:183-195 `replicate`: a new object by `replace` (the container attributes have
    init=False, hence are made afresh), filled from the containers of the original *)
Definition h_replicate (i : nat) (id : string) (h : heap) : result (heap * nat) :=
  match nth_error (h_objects h) i with
  | None => Err AttributeErr
  | Some o =>
      let (h1, j) := alloc_network id h in
      let nodes := nth (h_nodes o) (h_dicts h1) [] in
      let h2 := fold_left (fun h kc => h_add_node j (snd kc) h) nodes h1 in
      let components := nth (h_components o) (h_dicts h2) [] in
      let h3 := fold_left (fun h kc => h_add_component j (snd kc) h) components h2 in
      let connections := nth (h_connections o) (h_lists h3) [] in
      cs <- mapM replicate_connection connections ;;
      Ok (fold_left (fun h c => h_append j c h) cs h3, j)
  end.

(** what the accessors show of a network, study/network.py:148-176 *)
Definition observe (h : heap) (i : nat) : option network :=
  match nth_error (h_objects h) i with
  | None => None
  | Some o => Some {| n_id := h_id o; n_nodes := nth (h_nodes o) (h_dicts h) [];
                      n_components := nth (h_components o) (h_dicts h) [];
                      n_connections := nth (h_connections o) (h_lists h) [] |}
  end.

(** one call by a user of study/network.py:122-195; a call that raises leaves the memory as it was,
    apart from the unreachable half-made replica *)
Inductive net_call :=
| CNew (id : string)
| CAddComponent (i : nat) (c : component)
| CAddNode (i : nat) (c : component)
| CConnect (i : nat) (r1 r2 : port_ref)
| CReplicate (i : nat) (id : string).
(** study/network.py:122-195 *)
Definition run_call (h : heap) (c : net_call) : heap :=
  match c with
  | CNew id => fst (alloc_network id h)
  | CAddComponent i c => h_add_component i c h
  | CAddNode i c => h_add_node i c h
  | CConnect i r1 r2 => match h_connect i r1 r2 h with Ok h' => h' | Err _ => h end
  | CReplicate i id => match h_replicate i id h with Ok (h', _) => h' | Err _ => h end
  end.
(** calls one after the other, study/network.py:122-195 *)
Definition run_calls (h : heap) (l : list net_call) : heap := fold_left run_call l h.
(** the network on which the call acts (study/network.py:137-195); making a network or a replica
    acts on none *)
Definition acts_on (c : net_call) : option nat :=
  match c with
  | CAddComponent i _ | CAddNode i _ | CConnect i _ _ => Some i
  | CNew _ | CReplicate _ _ => None
  end.
