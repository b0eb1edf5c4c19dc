(** Merging problems (`fusion_problems`, src/andromede/simulation/optimization.py).  Definitions only. *)
From Verif Require Import Base Expr Visitors LinearExpr Model Study Strategy Optim.
Local Open Scope string_scope.
Local Open Scope list_scope.

(** optimization.py:567-580 `OptimizationProblem`: its name, and the state of its context and solver *)
Record problem := { pb_name : string; pb_state : state }.
(** the list with element [i] changed: objects of the solver are modified in place; optimization.py:824-832 *)
Fixpoint change {A} (i : nat) (f : A -> A) (l : list A) : list A :=
  match l, i with
  | [], _ => []
  | a :: l, O => f a :: l
  | a :: l, S i => a :: change i f l
  end.
(** the variables of a solver with their positions, optimization.py:807, 814 *)
Definition numbered {A} (l : list A) : list (nat * A) := combine (seq 0 (List.length l)) l.
(** optimization.py:807-808 `root_vars` *)
Definition root_variables (s : solver) : dict string nat :=
  fold_left (fun d iv => dset String.eqb (sv_name (snd iv)) (fst iv) d) (numbered (s_vars s)) [].

(** the root problem being filled, with `root_constraints` (optimization.py:802): positions of the rows by their key *)
Record fusion := { fu_state : state; fu_rows : dict string nat }.
(** assignments to the solver and the infos of the root problem, optimization.py:818-845 *)
Definition with_solver (st : state) (infos : dict string var_info) (s : solver) : state :=
  {| st_variables := st_variables st; st_infos := infos; st_ports := st_ports st; st_solver := s |}.
(** `SetLb`, `SetUb`, optimization.py:826-827 *)
Definition set_bounds (lb ub : num) (v : solver_var) : solver_var :=
  {| sv_name := sv_name v; sv_lb := lb; sv_ub := ub; sv_integer := sv_integer v |}.
(** optimization.py:817-832: the variable of the root problem that stands for [v], created or updated *)
Definition fuse_variable (roots : dict string nat) (infos : dict string var_info) (v : solver_var) (st : state)
  : result (nat * state) :=
  let s := st_solver st in
  match dget String.eqb (sv_name v) roots with
  | None =>
      match dget String.eqb (sv_name v) infos with
      | None => Err KeyError
      | Some info =>
          Ok (List.length (s_vars s),
              with_solver st
                (dset String.eqb (sv_name v)
                   {| vi_name := sv_name v; vi_column := List.length (st_infos st); vi_in_objective := vi_in_objective info |}
                   (st_infos st))
                {| s_vars := s_vars s ++ [{| sv_name := sv_name v; sv_lb := sv_lb v; sv_ub := sv_ub v; sv_integer := false |}];
                   s_rows := s_rows s; s_objective := s_objective s; s_offset := s_offset s |})
      end
  | Some j =>
      match dget String.eqb (sv_name v) infos, dget String.eqb (sv_name v) (st_infos st) with
      | Some info, Some old =>
          Ok (j,
              with_solver st
                (dset String.eqb (sv_name v)
                   {| vi_name := vi_name old; vi_column := vi_column old; vi_in_objective := vi_in_objective info |} (st_infos st))
                {| s_vars := change j (set_bounds (sv_lb v) (sv_ub v)) (s_vars s);
                   s_rows := s_rows s; s_objective := s_objective s; s_offset := s_offset s |})
      | _, _ => Err KeyError
      end
  end.
(** `SetCoefficient` on a row, optimization.py:844 *)
Definition set_row_coefficient (j : nat) (c : num) (r : solver_row) : solver_row :=
  {| sr_name := sr_name r; sr_lb := sr_lb r; sr_ub := sr_ub r; sr_coefs := dset Nat.eqb j c (sr_coefs r) |}.
(** optimization.py:834-844: body of the loop over the rows of the master; [i] is the variable there, [j] that of the root *)
Definition fuse_row (name : string) (i j : nat) (f : fusion) (r : solver_row) : fusion :=
  let c := get_coefficient (sr_coefs r) i in
  if neqb c n0 then f
  else
    let key := (name ++ "_" ++ sr_name r)%string in
    let st := fu_state f in
    let s := st_solver st in
    let '(rows, keys, p) :=
      match dget String.eqb key (fu_rows f) with
      | Some p => (s_rows s, fu_rows f, p)
      | None => (s_rows s ++ [{| sr_name := key; sr_lb := sr_lb r; sr_ub := sr_ub r; sr_coefs := [] |}],
                 dset String.eqb key (List.length (s_rows s)) (fu_rows f), List.length (s_rows s))
      end in
    {| fu_state := with_solver st (st_infos st)
         {| s_vars := s_vars s; s_rows := change p (set_row_coefficient j c) rows;
            s_objective := s_objective s; s_offset := s_offset s |};
       fu_rows := keys |}.
(** optimization.py:846-848: the coefficient of the objective *)
Definition fuse_objective (objective : dict nat num) (i j : nat) (f : fusion) : fusion :=
  let c := get_coefficient objective i in
  if neqb c n0 then f
  else
    let st := fu_state f in
    let s := st_solver st in
    {| fu_state := with_solver st (st_infos st)
         {| s_vars := s_vars s; s_rows := s_rows s; s_objective := dset Nat.eqb j c (s_objective s); s_offset := s_offset s |};
       fu_rows := fu_rows f |}.
(** optimization.py:814-848: body of the loop over the variables of a master *)
Definition fuse_step (roots : dict string nat) (m : problem) (f : fusion) (iv : nat * solver_var) : result fusion :=
  let ms := st_solver (pb_state m) in
  jst <- fuse_variable roots (st_infos (pb_state m)) (snd iv) (fu_state f) ;;
  let f1 := fold_left (fuse_row (pb_name m) (fst iv) (fst jst)) (s_rows ms) {| fu_state := snd jst; fu_rows := fu_rows f |} in
  Ok (fuse_objective (s_objective ms) (fst iv) (fst jst) f1).
(** optimization.py:810-848: body of the loop over the masters *)
Definition fuse_master (roots : dict string nat) (f : fusion) (m : problem) : result fusion :=
  foldM (fuse_step roots m) f (numbered (s_vars (st_solver (pb_state m)))).
(** optimization.py:791-850 `fusion_problems` *)
Definition fusion_problems (masters : list problem) (coupler : problem) : result problem :=
  match masters with
  | [m] => Ok m
  | _ =>
      f <- foldM (fuse_master (root_variables (st_solver (pb_state coupler))))
             {| fu_state := pb_state coupler; fu_rows := [] |} masters ;;
      Ok {| pb_name := "master"; pb_state := fu_state f |}
  end.
