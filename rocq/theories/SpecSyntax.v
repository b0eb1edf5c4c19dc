(** Specification vocabulary about the shape of expressions.  Independent of the visitors. *)
From Verif Require Import Base Expr.

(** Every node of the tree, the root included, satisfies [P]. *)
Fixpoint all_nodes (P : expr -> Prop) (e : expr) : Prop :=
  P e /\
  match e with
  | Neg a | AllSum a | ScenOp a _ | PortAgg a _ => all_nodes P a
  | Add l => fold_right (fun x acc => all_nodes P x /\ acc) True l
  | Mul a b | Div a b | Cmp a b _ | TShift a b | TEval a b => all_nodes P a /\ all_nodes P b
  | TSum a b c => all_nodes P a /\ all_nodes P b /\ all_nodes P c
  | _ => True
  end.

(** no sum over zero operands *)
Definition no_empty_sum : expr -> Prop := all_nodes (fun x => x <> Add []).

Definition is_sum (e : expr) : Prop := match e with Add _ => True | _ => False end.

(** every addition has at least two operands, none of which is itself an addition *)
Definition flat : expr -> Prop :=
  all_nodes (fun x => match x with
                      | Add l => (2 <= length l)%nat /\ Forall (fun o => ~ is_sum o) l
                      | _ => True
                      end).

(** no NaN literal *)
Definition no_nan : expr -> Prop := all_nodes (fun x => x <> Lit NaN).

(** no parameter, local or of a component *)
Definition no_param : expr -> Prop :=
  all_nodes (fun x => match x with Param _ | CParam _ _ => False | _ => True end).

(** every decision variable kind *)
Definition is_variable (e : expr) : Prop :=
  match e with Var _ | CVar _ _ | PVar _ _ _ _ => True | _ => False end.

(** no decision variable and no port *)
Definition no_variable_or_port : expr -> Prop :=
  all_nodes (fun x => match x with
                      | Var _ | CVar _ _ | PVar _ _ _ _ | PortField _ _ | PortAgg _ _ => False
                      | _ => True end).

(** no port node *)
Definition no_port : expr -> Prop :=
  all_nodes (fun x => match x with PortField _ _ | PortAgg _ _ => False | _ => True end).

(** arguments of time operators (shift, timestep, window bounds) satisfy [P] *)
Definition time_args (P : expr -> Prop) : expr -> Prop :=
  all_nodes (fun x => match x with
                      | TShift _ k | TEval _ k => P k
                      | TSum _ a b => P a /\ P b
                      | _ => True
                      end).

(** no name already bound to a component *)
Definition no_component_name : expr -> Prop :=
  all_nodes (fun x => match x with
                      | CVar _ _ | CParam _ _ | PVar _ _ _ _ | PParam _ _ _ _ => False
                      | _ => True end).

(** all names are bound to component [id] *)
Definition only_names_of (id : string) : expr -> Prop :=
  all_nodes (fun x => match x with
                      | Var _ | Param _ | PVar _ _ _ _ | PParam _ _ _ _ => False
                      | CVar c _ | CParam c _ => c = id
                      | _ => True end).

(** aggregators are applied to port fields, as `sum_connections` (expression.py:107) enforces *)
Definition aggregators_on_ports : expr -> Prop :=
  all_nodes (fun x => match x with
                      | PortAgg (PortField _ _) _ => True
                      | PortAgg _ _ => False
                      | _ => True end).

(** ** all leaves of an expression satisfy [P] (leaves: names, ports and port aggregators) *)
Fixpoint all_leaves (P : expr -> Prop) (e : expr) : Prop :=
  match e with
  | Lit _ => True
  | Neg a | AllSum a | ScenOp a _ => all_leaves P a
  | Add l => fold_right (fun x acc => all_leaves P x /\ acc) True l
  | Mul a b | Div a b | Cmp a b _ | TShift a b | TEval a b => all_leaves P a /\ all_leaves P b
  | TSum a b c => all_leaves P a /\ all_leaves P b /\ all_leaves P c
  | Var _ | Param _ | CVar _ _ | CParam _ _ | PVar _ _ _ _ | PParam _ _ _ _
  | PortField _ _ | PortAgg _ _ => P e
  end.


(** arithmetic expressions: no comparison, indexed name, time, scenario or port operator, and
    only finite literals *)
Definition arithmetic : expr -> Prop :=
  all_nodes (fun x => match x with
                      | Lit (Fin _) => True
                      | Lit _ => False
                      | Neg _ | Add _ | Mul _ _ | Div _ _ | Var _ | Param _ | CVar _ _ | CParam _ _ => True
                      | _ => False end).
