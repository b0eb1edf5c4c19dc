(** Specification: the mathematical meaning of expressions.

    This file is independent of the visitors: it only uses the expression trees, exact
    rationals and finite sums.  [den E e t s] is the value of [e] at timestep [t] in scenario
    [s]; [None] means "no mathematical value" (non-finite literal, division by zero,
    comparison, missing data, non-integer shift, ill-used port). *)
From Verif Require Import Base Expr.

(** Sum of a list of possibly undefined values: defined iff all are. *)
Fixpoint osum (l : list (option Qc)) : option Qc :=
  match l with
  | [] => Some 0%Qc
  | x :: l' =>
      match x, osum l' with
      | Some a, Some b => Some (a + b)%Qc
      | _, _ => None
      end
  end.

Definition olift2 (f : Qc -> Qc -> Qc) (x y : option Qc) : option Qc :=
  match x, y with Some a, Some b => Some (f a b) | _, _ => None end.

(** division, undefined at zero *)
Definition odiv (x y : option Qc) : option Qc :=
  match x, y with
  | Some a, Some b => if Qceqb b 0 then None else Some (a / b)%Qc
  | _, _ => None
  end.

(** the integer denoted by a rational, if it is one *)
Definition Qc_int (q : Qc) : option Z :=
  if Pos.eqb (Qden q) 1 then Some (Qnum q) else None.

Definition oint (x : option Qc) : option Z :=
  match x with Some q => Qc_int q | None => None end.

(** A world: values of local names, of names of components, of the definitions connected to
    a port field, number of timesteps of the block and number of scenarios. *)
Record env := {
  e_var : string -> Z -> Z -> Qc;
  e_par : string -> Z -> Z -> option Qc;
  e_cvar : string -> string -> Z -> Z -> Qc;
  e_cpar : string -> string -> Z -> Z -> option Qc;
  e_port : string -> string -> list (Z -> Z -> option Qc);
  e_T : Z;
  e_S : Z
}.

(** timestep / scenario meant by an index, at the current timestep / scenario *)
Definition at_time (ti : time_index) (t : Z) : Z :=
  match ti with NoTimeIndex => t | TimeShift k => (t + k)%Z | TimeStep k => k end.
Definition at_scenario (si : scenario_index) (s : Z) : Z :=
  match si with NoScenarioIndex => s | CurrentScenarioIndex => s | OneScenarioIndex k => k end.

(** mean over [n] values, undefined for n <= 0 *)
Definition omean (n : Z) (l : list (option Qc)) : option Qc :=
  if (n <=? 0)%Z then None else olift2 Qcdiv (osum l) (Some (Z2Qc n)).

Fixpoint den (E : env) (e : expr) (t s : Z) {struct e} : option Qc :=
  match e with
  | Lit (Fin q) => Some q
  | Lit _ => None
  | Neg a => option_map Qcopp (den E a t s)
  | Add l => osum (map (fun a => den E a t s) l)
  | Mul a b => olift2 Qcmult (den E a t s) (den E b t s)
  | Div a b => odiv (den E a t s) (den E b t s)
  | Cmp _ _ _ => None
  | Var n => Some (e_var E n t s)
  | Param n => e_par E n t s
  | CVar c n => Some (e_cvar E c n t s)
  | CParam c n => e_cpar E c n t s
  | PVar c n ti si => Some (e_cvar E c n (at_time ti t) (at_scenario si s))
  | PParam c n ti si => e_cpar E c n (at_time ti t) (at_scenario si s)
  | TShift a k =>
      match oint (den E k t s) with Some z => den E a (t + z) s | None => None end
  | TEval a k =>
      match oint (den E k t s) with Some z => den E a z s | None => None end
  | TSum a f u =>
      match oint (den E f t s), oint (den E u t s) with
      | Some zf, Some zu => osum (map (fun i => den E a (t + i) s) (zrange zf (zu + 1)))
      | _, _ => None
      end
  | AllSum a => osum (map (fun i => den E a i s) (zrange 0 (e_T E)))
  | ScenOp a Expectation => omean (e_S E) (map (fun i => den E a t i) (zrange 0 (e_S E)))
  | ScenOp a Variance =>
      let vals := map (fun i => den E a t i) (zrange 0 (e_S E)) in
      let m := omean (e_S E) vals in
      olift2 Qcminus (omean (e_S E) (map (fun x => olift2 Qcmult x x) vals)) (olift2 Qcmult m m)
  | ScenOp _ ScenarioOperatorBase => None
  | PortField p f =>
      match e_port E p f with [v] => v t s | _ => None end
  | PortAgg (PortField p f) PortSum => osum (map (fun v => v t s) (e_port E p f))
  | PortAgg _ _ => None
  end.

(** the truth of a comparison node [a <= b], [a >= b], [a = b] *)
Definition cmp_holds (c : comparator) (x y : Qc) : Prop :=
  match c with
  | LESS_THAN => (x <= y)%Qc
  | GREATER_THAN => (y <= x)%Qc
  | EQUAL => x = y
  end.
