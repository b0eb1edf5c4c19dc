(** Linearisation (src/andromede/simulation/linearize.py).  Definitions only. *)
From Verif Require Import Base Expr LinearExpr.

(** linearize.py:54-63 `ParameterGetter` *)
Definition parameter_getter : Type := string -> string -> option Z -> option Z -> result num.

(** linearize.py:92-95 `LinearExpressionData`; its terms are MutableTerm (66-71), modelled as
    (key, coefficient).  Each visit creates new terms, so mutation is functional update. *)
Record lin_data := { ld_terms : list term; ld_constant : num }.

(** linearize.py:176-186 `_get_timestep` *)
Definition get_timestep (timestep : option Z) (ti : time_index) : result (option Z) :=
  match ti with
  | TimeShift k => match timestep with None => Err ValueError | Some t => Ok (Some (t + k)%Z) end
  | TimeStep k => Ok (Some k)
  | NoTimeIndex => Ok None
  end.
(** linearize.py:188-198 `_get_scenario` *)
Definition get_scenario (scenario : option Z) (si : scenario_index) : option Z :=
  match si with
  | OneScenarioIndex s => Some s
  | CurrentScenarioIndex => scenario
  | NoScenarioIndex => None
  end.

(** `not lhs.terms`, linearize.py:147, 150, 165 *)
Definition is_nil {A} (l : list A) : bool := match l with [] => true | _ => false end.

(** `t.coefficient = f(t.coefficient)` for all terms; linearize.py:131-132, 158-159, 172-173 *)
Definition map_coefs (f : num -> num) (l : list term) : list term :=
  map (fun kt => (fst kt, f (snd kt))) l.

(** linearize.py:111-282 `LinearExpressionBuilder` *)
Fixpoint lin_build (timestep scenario : option Z) (vp : option parameter_getter) (e : expr)
  : result lin_data :=
  let rec := lin_build timestep scenario vp in
  match e with
  | Neg a =>
      d <- rec a ;;
      Ok {| ld_terms := map_coefs nneg (ld_terms d); ld_constant := nneg (ld_constant d) |}
  | Add l =>
      ds <- mapM (lin_build timestep scenario vp) l ;;
      Ok (fold_left (fun acc d => {| ld_terms := ld_terms acc ++ ld_terms d;
                                     ld_constant := nadd (ld_constant acc) (ld_constant d) |})
            ds {| ld_terms := []; ld_constant := n0 |})
  | Mul a b =>
      lhs <- rec a ;;
      rhs <- rec b ;;
      if is_nil (ld_terms lhs) then
        Ok {| ld_terms := map_coefs (fun c => nmul c (ld_constant lhs)) (ld_terms rhs);
              ld_constant := nmul (ld_constant rhs) (ld_constant lhs) |}
      else if is_nil (ld_terms rhs) then
        Ok {| ld_terms := map_coefs (fun c => nmul c (ld_constant rhs)) (ld_terms lhs);
              ld_constant := nmul (ld_constant lhs) (ld_constant rhs) |}
      else Err ValueError
  | Div a b =>
      lhs <- rec a ;;
      rhs <- rec b ;;
      if is_nil (ld_terms rhs) then
        c <- ndiv (ld_constant lhs) (ld_constant rhs) ;;
        ts <- mapM (fun kt => q <- ndiv (snd kt) (ld_constant rhs) ;; Ok (fst kt, q)) (ld_terms lhs) ;;
        Ok {| ld_terms := ts; ld_constant := c |}
      else Err ValueError
  | Lit v => Ok {| ld_terms := []; ld_constant := v |}
  | PVar c n ti si =>
      t <- get_timestep timestep ti ;;
      Ok {| ld_terms := [({| tk_component := c; tk_variable := n; tk_time := t;
                             tk_scenario := get_scenario scenario si |}, n1)];
            ld_constant := n0 |}
  | PParam c n ti si =>
      t <- get_timestep timestep ti ;;
      match vp with
      | None => Err ValueError
      | Some g =>
          v <- g c n t (get_scenario scenario si) ;;
          Ok {| ld_terms := []; ld_constant := v |}
      end
  | Cmp _ _ _ | Var _ | Param _ | CVar _ _ | CParam _ _ | TShift _ _ | TEval _ _ | TSum _ _ _
  | AllSum _ | ScenOp _ _ | PortField _ _ | PortAgg _ _ => Err ValueError
  end.

(** linearize.py:97-108 `LinearExpressionData.build` *)
Definition accumulate (d : terms_dict) (t : term) : terms_dict :=
  match dget tk_eqb (fst t) d with
  | Some c => dset tk_eqb (fst t) (nadd c (snd t)) d
  | None => d ++ [t]
  end.
(** linearize.py:97-108 `LinearExpressionData.build` *)
Definition ld_to_expr (d : lin_data) : lin_expr :=
  le_of_dict (fold_left accumulate (ld_terms d) []) (ld_constant d).

(** linearize.py:285-296 *)
Definition linearize_expression (e : expr) (timestep scenario : option Z)
  (vp : option parameter_getter) : result lin_expr :=
  d <- lin_build timestep scenario vp e ;; Ok (ld_to_expr d).
