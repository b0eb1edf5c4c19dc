(** Specification: the value of linear forms. *)
From Verif Require Import Base Expr LinearExpr Linearize SpecExpr SpecSyntax.

(** values of the decision variables *)
Definition assignment : Type := term_key -> Qc.

(** finite value of a number *)
Definition nval (v : num) : option Qc := match v with Fin q => Some q | _ => None end.

(** coefficient times variable *)
Definition term_value (x : assignment) (kt : term) : option Qc :=
  option_map (fun c => c * x (fst kt))%Qc (nval (snd kt)).
Definition terms_value (x : assignment) (l : list term) : option Qc := osum (map (term_value x) l).

(** constant plus sum of coefficients times variables *)
Definition le_value (x : assignment) (e : lin_expr) : option Qc :=
  olift2 Qcplus (nval (le_constant e)) (terms_value x (le_terms e)).

(** terms that may be left out: finite coefficients below 1e-16 *)
Definition negligible (l : list term) : Prop :=
  Forall (fun kt => exists c, snd kt = Fin c /\ (Qcabs c < Q2Qc (1 # 10 ^ 16))%Qc) l.

(** at most [n] terms, all of which may be left out *)
Definition few (n : nat) (l : list term) : Prop := (List.length l <= n)%nat /\ negligible l.

(** one term per key *)
Definition distinct_keys (l : list term) : Prop := NoDup (map fst l).

(** normal form: one term per key and no negligible term *)
Definition normal_form (e : lin_expr) : Prop :=
  distinct_keys (le_terms e) /\
  Forall (fun kt => ~ negligible [kt]) (le_terms e).

(** finite coefficients *)
Definition finite_expr (e : lin_expr) : Prop :=
  le_constant e <> NaN /\ le_constant e <> PInf /\ le_constant e <> NInf /\
  Forall (fun kt => exists c, snd kt = Fin c) (le_terms e).

(** timestep or scenario meant by an optional index when the current one is [t] *)
Definition odefault (t : Z) (o : option Z) : Z := match o with Some z => z | None => t end.

(** the assignment given by a world, read at timestep [t] and scenario [s] *)
Definition read (E : env) (t s : Z) : assignment := fun k =>
  e_cvar E (tk_component k) (tk_variable k) (odefault t (tk_time k)) (odefault s (tk_scenario k)).

(** the parameter getter returns finite data, that of the world *)
Definition getter_gives (g : parameter_getter) (E : env) (t s : Z) : Prop :=
  forall c n ot os v, g c n ot os = Ok v ->
  exists q, v = Fin q /\ e_cpar E c n (odefault t ot) (odefault s os) = Some q.

(** literals are finite numbers *)
Definition finite_literals : expr -> Prop :=
  all_nodes (fun x => match x with Lit (Fin _) => True | Lit _ => False | _ => True end).

(** contains a decision variable *)
Definition has_variable (e : expr) : Prop :=
  ~ all_nodes (fun x => match x with PVar _ _ _ _ => False | _ => True end) e.

(** arithmetic over indexed variables and parameters *)
Definition indexed_arithmetic : expr -> Prop :=
  all_nodes (fun x => match x with
    | Lit _ | Neg _ | Mul _ _ | Div _ _ | PVar _ _ _ _ | PParam _ _ _ _ => True
    | Add l => l <> []
    | _ => False end).

(** ** How many decisions an expression mentions, every step of a sum being counted; what a port
    mentions is given by [ports] *)
Section Mentions.
  Context (E : env) (ports : string -> string -> nat).
  (** steps of a window, whose ends are the same at all timesteps *)
  Definition window_size (f u : expr) : nat :=
    match oint (den E f 0 0), oint (den E u 0 0) with
    | Some a, Some b => Z.to_nat (b + 1 - a)
    | _, _ => O
    end.
  Fixpoint mentions (e : expr) : nat :=
    match e with
    | Lit _ | Param _ | CParam _ _ | PParam _ _ _ _ => O
    | Var _ | CVar _ _ | PVar _ _ _ _ => 1
    | Neg a | TShift a _ | TEval a _ | PortAgg a _ => mentions a
    | Add l => list_sum (map mentions l)
    | Mul a b | Div a b | Cmp a b _ => mentions a + mentions b
    | TSum a f u => window_size f u * mentions a
    | AllSum a => Z.to_nat (e_T E) * mentions a
    | ScenOp a _ => Z.to_nat (e_S E) * mentions a
    | PortField p f => ports p f
    end.
End Mentions.

(** ** Objects (C42) *)
From Verif Require Import LinearHeap.

(** every object refers to a dict on the heap, and no two objects refer to the same one *)
Definition separated (h : heap) : Prop :=
  (forall i o, nth_error (h_objs h) i = Some o -> (o_dict o < List.length (h_dicts h))%nat) /\
  (forall i j oi oj, nth_error (h_objs h) i = Some oi -> nth_error (h_objs h) j = Some oj ->
     o_dict oi = o_dict oj -> i = j).

(** the object changed by an in-place statement *)
Definition target (s : stmt) : option nat :=
  match s with
  | SIAdd a _ | SISub a _ | SIMul a _ | SIDiv a _ => Some a
  | _ => None
  end.

(** the left operand of a multiplication is not a constant (or is the constant zero) *)
Definition left_not_constant (h : heap) (s : stmt) : Prop :=
  match s with
  | SMul a _ | SIMul a _ =>
      forall va, h_value h a = Ok va ->
      (exists kt, In kt (le_terms va) /\ ~ negligible [kt]) \/ 
      (le_terms va = [] /\ exists c, le_constant va = Fin c /\ (Qcabs c < Q2Qc (1 # 10 ^ 16))%Qc)
  | _ => True
  end.

(** along a program, every multiplication is of that kind *)
Fixpoint no_constant_left_factor (h : heap) (p : list stmt) : Prop :=
  match p with
  | [] => True
  | s :: p => left_not_constant h s /\
              match exec h s with
              | Ok (h', _) => no_constant_left_factor h' p
              | Err _ => no_constant_left_factor h p
              end
  end.
