(** Specification vocabulary for the expression visitors: worlds, providers, dependence.
    Nothing here uses the visitors' code; [value_provider] and [structure_provider] are the
    interfaces the user implements. *)
From Verif Require Import Base Expr Visitors SpecExpr SpecSyntax.

(** an accepted tolerance *)
Definition tol_ok (x : num) : Prop := nltb x n0 = false.

(** expressions built by the user with operators and methods of expression nodes *)
Inductive built : expr -> Prop :=
| built_lit v : built (Lit v)
| built_var n : built (Var n)
| built_param n : built (Param n)
| built_port p f : built (PortField p f)
| built_neg a : built a -> built (py_neg a)
| built_add a b : built a -> built b -> built (py_add a b)
| built_sub a b : built a -> built b -> built (py_sub a b)
| built_mul a b : built a -> built b -> built (py_mul a b)
| built_div a b : built a -> built b -> built (py_div a b)
| built_rsub v a : built a -> built (py_rsub v a)
| built_cmp a b c : built a -> built b -> built (py_cmp a b c)
| built_shift a k : built a -> built k -> built (py_shift a k)
| built_eval a k : built a -> built k -> built (py_eval a k)
| built_sum a f t r :
    built a -> (forall x, f = Some x -> built x) -> (forall x, t = Some x -> built x) ->
    time_sum a f t = Ok r -> built r
| built_expec a : built a -> built (py_expec a)
| built_variance a : built a -> built (py_variance a)
| built_conn a r : built a -> sum_connections a = Ok r -> built r.

(** a provider that knows the variables of [vp] and the parameters given by [gp], [gcp] *)
Definition with_parameters (vp : value_provider) gp gcp : value_provider := {|
  get_variable_value := get_variable_value vp;
  get_parameter_value := gp;
  get_component_variable_value := get_component_variable_value vp;
  get_component_parameter_value := gcp
|}.

(** the world as seen by component [id]: its local names are its own *)
Definition local_env (E : env) (id : string) : env := {|
  e_var := e_cvar E id;
  e_par := e_cpar E id;
  e_cvar := e_cvar E;
  e_cpar := e_cpar E;
  e_port := e_port E;
  e_T := e_T E;
  e_S := e_S E
|}.

(** the same for evaluation *)
Definition local_provider (vp : value_provider) (id : string) : value_provider := {|
  get_variable_value := get_component_variable_value vp id;
  get_parameter_value := get_component_parameter_value vp id;
  get_component_variable_value := get_component_variable_value vp;
  get_component_parameter_value := get_component_parameter_value vp
|}.

(** the world in which a port field of component [cid] has the registered definitions *)
Definition port_env (E : env) (cid : string) (ports : dict port_field_key (list expr)) : env := {|
  e_var := e_var E;
  e_par := e_par E;
  e_cvar := e_cvar E;
  e_cpar := e_cpar E;
  e_port := fun p f =>
    map (den E) (match dget pfk_eqb (cid, (p, f)) ports with Some l => l | None => [] end);
  e_T := e_T E;
  e_S := e_S E
|}.

(** leaves that port resolution must accept: plain port fields with exactly one definition, sums over connections *)
Definition ports_resolvable (cid : string) (ports : dict port_field_key (list expr)) (x : expr)
  : Prop :=
  match x with
  | PortField p f => exists d, dget pfk_eqb (cid, (p, f)) ports = Some [d]
  | PortAgg (PortField _ _) PortSum => True
  | PortAgg _ _ => False
  | Add [] => False
  | _ => True
  end.

(** the two worlds differ only by the values of decision variables (and of what is connected
    to ports) *)
Definition same_data (E E' : env) : Prop :=
  (forall n t s, e_par E n t s = e_par E' n t s) /\
  (forall c n t s, e_cpar E c n t s = e_cpar E' c n t s) /\
  e_T E = e_T E' /\ e_S E = e_S E'.

(** [E] lies at [lam] on the segment from [E0] to [E1]; all share their data *)
Definition interpolates (lam : Qc) (E0 E1 E : env) : Prop :=
  same_data E0 E1 /\ same_data E0 E /\
  (forall n t s, e_var E n t s = ((1 - lam) * e_var E0 n t s + lam * e_var E1 n t s)%Qc) /\
  (forall c n t s, e_cvar E c n t s = ((1 - lam) * e_cvar E0 c n t s + lam * e_cvar E1 c n t s)%Qc) /\
  (forall p f, length (e_port E0 p f) = length (e_port E p f) /\
               length (e_port E1 p f) = length (e_port E p f) /\
     forall i v0 v1 v t s,
       nth_error (e_port E0 p f) i = Some v0 -> nth_error (e_port E1 p f) i = Some v1 ->
       nth_error (e_port E p f) i = Some v ->
       forall a b, v0 t s = Some a -> v1 t s = Some b ->
       v t s = Some ((1 - lam) * a + lam * b)%Qc).

(** shifts and bounds contain no decision variable *)
Definition var_free_time_args : expr -> Prop := time_args no_variable_or_port.

(** each name declared independent of a dimension has a constant value along it *)
Definition respects (sp : structure_provider) (E : env) : Prop :=
  (forall n ix, get_variable_structure sp n = Ok ix ->
     (ix_time ix = false -> forall t t' s, e_var E n t s = e_var E n t' s) /\
     (ix_scenario ix = false -> forall t s s', e_var E n t s = e_var E n t s')) /\
  (forall n ix, get_parameter_structure sp n = Ok ix ->
     (ix_time ix = false -> forall t t' s, e_par E n t s = e_par E n t' s) /\
     (ix_scenario ix = false -> forall t s s', e_par E n t s = e_par E n t s')) /\
  (forall c n ix, get_component_variable_structure sp c n = Ok ix ->
     (ix_time ix = false -> forall t t' s, e_cvar E c n t s = e_cvar E c n t' s) /\
     (ix_scenario ix = false -> forall t s s', e_cvar E c n t s = e_cvar E c n t s')) /\
  (forall c n ix, get_component_parameter_structure sp c n = Ok ix ->
     (ix_time ix = false -> forall t t' s, e_cpar E c n t s = e_cpar E c n t' s) /\
     (ix_scenario ix = false -> forall t s s', e_cpar E c n t s = e_cpar E c n t s')).

(** shifts, timesteps and bounds do not depend on the timestep or scenario *)
Definition fixed_time_args (E : env) : expr -> Prop :=
  time_args (fun k => forall t s t' s', den E k t s = den E k t' s').

(** does the value structurally depend on the dimension: independent definition *)
Fixpoint time_dependent (sp : structure_provider) (e : expr) : bool :=
  match e with
  | Neg a | ScenOp a _ | TShift a _ | TSum a _ _ => time_dependent sp a
  | Add l => existsb (time_dependent sp) l
  | Mul a b | Div a b | Cmp a b _ => time_dependent sp a || time_dependent sp b
  | Var n => match get_variable_structure sp n with Ok ix => ix_time ix | Err _ => false end
  | Param n => match get_parameter_structure sp n with Ok ix => ix_time ix | Err _ => false end
  | CVar c n => match get_component_variable_structure sp c n with Ok ix => ix_time ix | Err _ => false end
  | CParam c n => match get_component_parameter_structure sp c n with Ok ix => ix_time ix | Err _ => false end
  | _ => false
  end.
Fixpoint scenario_dependent (sp : structure_provider) (e : expr) : bool :=
  match e with
  | Neg a | TShift a _ | TSum a _ _ | TEval a _ | AllSum a => scenario_dependent sp a
  | Add l => existsb (scenario_dependent sp) l
  | Mul a b | Div a b | Cmp a b _ => scenario_dependent sp a || scenario_dependent sp b
  | Var n => match get_variable_structure sp n with Ok ix => ix_scenario ix | Err _ => false end
  | Param n => match get_parameter_structure sp n with Ok ix => ix_scenario ix | Err _ => false end
  | CVar c n => match get_component_variable_structure sp c n with Ok ix => ix_scenario ix | Err _ => false end
  | CParam c n => match get_component_parameter_structure sp c n with Ok ix => ix_scenario ix | Err _ => false end
  | _ => false
  end.

(** every name of the expression is known, and no port or already indexed name occurs *)
Definition all_names_known (sp : structure_provider) : expr -> Prop :=
  all_nodes (fun x => match x with
    | Var n => is_ok (get_variable_structure sp n) = true
    | Param n => is_ok (get_parameter_structure sp n) = true
    | CVar c n => is_ok (get_component_variable_structure sp c n) = true
    | CParam c n => is_ok (get_component_parameter_structure sp c n) = true
    | PVar _ _ _ _ | PParam _ _ _ _ | PortField _ _ | PortAgg _ _ => False
    | _ => True end).


(** the provider gives the finite values of world [E] at [(t, s)], and an error where the world
    has no value *)
Definition provides (vp : value_provider) (E : env) (t s : Z) : Prop :=
  (forall n, get_variable_value vp n = Ok (Fin (e_var E n t s))) /\
  (forall n, match e_par E n t s with
             | Some q => get_parameter_value vp n = Ok (Fin q)
             | None => is_ok (get_parameter_value vp n) = false end) /\
  (forall c n, get_component_variable_value vp c n = Ok (Fin (e_cvar E c n t s))) /\
  (forall c n, match e_cpar E c n t s with
             | Some q => get_component_parameter_value vp c n = Ok (Fin q)
             | None => is_ok (get_component_parameter_value vp c n) = false end).
