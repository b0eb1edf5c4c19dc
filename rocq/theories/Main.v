(** The command line (src/andromede/main/main.py).  Definitions only.  The model starts from the parsed
    records, the duration and the number of scenarios; `Cli.v` has the options and the files.  The solver
    is called on the problem returned here. *)
From Verif Require Import Base Expr Model Study Strategy Optim System Library.

(** main/main.py:36-50 `input_libs`: the files one after the other; an id already seen is refused *)
Definition input_libs (order : list string -> list string -> list string -> list string)
  (libs : list in_library) : result (dict string library) :=
  r <- foldM (fun acc l =>
                if existsb (String.eqb (yl_id l)) (snd acc) then Err ValueError
                else Ok (fst acc ++ [l], snd acc ++ [yl_id l])) ([], []) libs ;;
  resolve_library order (fst r) [].

(** main/main.py:67-69: the models of all libraries *)
Definition all_models (libs : dict string library) : dict string model :=
  fold_left (fun models kl => update String.eqb models (l_models (snd kl))) libs [].

(** main/main.py:86 and the default arguments of `build_problem`, optimization.py:755-768 *)
Definition main_settings (n : network) (db : database) (duration scenarios : Z) : settings := {|
  o_network := n; o_database := db; o_block := zrange 0 duration; o_scenarios := scenarios;
  o_cycle := true; o_selection := MergedProblem; o_risk := UniformRisk; o_tree_node := "";
  o_full_names := true |}.

(** main/main.py:63-97 `main_cli`, up to the call of the solver.  The two handlers (lines 73-82 and 92-97)
    replace an exception by another one: an IndexError stays an IndexError, and an UnboundLocalError only
    comes from a missing directory of series, for which see `Cli.v`. *)
Definition main_cli (order : list string -> list string -> list string -> list string)
  (libs : list in_library) (sys : input_system) (files : string -> result frame) (duration scenarios : Z)
  : result (settings * state) :=
  lib_dict <- input_libs order libs ;;
  study <- resolve_system sys lib_dict ;;
  _ <- consistency_check (sy_components study) (all_models lib_dict) ;;
  db <- build_data_base files sys ;;
  n <- build_network study ;;
  let o := main_settings n db duration scenarios in
  st <- build_problem o ;;
  Ok (o, st).
