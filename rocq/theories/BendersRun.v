(** Running a decomposed problem: the files written, the command called, the solution read
    (src/andromede/simulation/benders_decomposed.py, simulation/runner.py, simulation/output_values.py, utils.py).  Definitions only. *)
From Coq Require Import Ascii.
From Verif Require Import Base Expr Visitors LinearExpr Model Study Strategy Optim ModelEq Tree Fusion Benders Output.
Local Open Scope list_scope.
Local Open Scope string_scope.

(** ** Files *)
(** the values that json reads and writes, utils.py:63-72 *)
Inductive json := JNum (v : num) | JText (s : string) | JBool (b : bool) | JNull | JList (l : list json) | JDict (d : dict string json).
(** what surrounds the process: the working directory (runner.py:27) and the contents of the files (utils.py:57-60), by absolute path.
    Directories are not modelled: utils.py:56 creates those that are missing; writing never fails *)
Record world := { w_cwd : string; w_files : dict string string }.
(** the programs called: the exports of OR-tools (optimization.py:748-752), json (utils.py:66, 71), and the commands of
    runner.py:48-53, which are given the working directory and may change the files; an exception is one that subprocess.run raises *)
Record external := {
  x_mps : solver -> string; x_lp : solver -> string;
  x_dumps : json -> string; x_loads : string -> option json;
  x_command : string -> list string -> world -> dict string string * result Z }.
(** `path / name` of pathlib, utils.py:57, 70; runner.py:49; paths are not normalised *)
Definition path_join (path name : string) : string :=
  match name with String "/"%char _ => name | _ => path ++ "/" ++ name end.
(** opening a path: relative ones are below the working directory, utils.py:57, 70; runner.py:33 *)
Definition absolute (w : world) (path : string) : string := path_join (w_cwd w) path.
(** utils.py:50-60 `serialize` *)
Definition serialize (filename message path : string) (w : world) : world :=
  {| w_cwd := w_cwd w; w_files := dset String.eqb (absolute w (path_join path filename)) message (w_files w) |}.
(** utils.py:63-66 `serialize_json`; the indentation is left to [x_dumps] *)
Definition serialize_json (x : external) (filename : string) (message : json) (path : string) (w : world) : world :=
  serialize filename (x_dumps x message) path w.
(** utils.py:69-72 `read_json`: json.JSONDecodeError is a ValueError *)
Definition read_json (x : external) (filename path : string) (w : world) : result json :=
  match dget String.eqb (absolute w (path_join path filename)) (w_files w) with
  | None => Err FileNotFoundErr
  | Some text => match x_loads x text with Some data => Ok data | None => Err ValueError end
  end.

(** ** Runners *)
(** runner.py:20-30 `CommandRunner`: the directory at the time of its construction *)
Record runner := { rn_current_dir : string; rn_command : string; rn_emplacement : string; rn_arguments : list string }.
(** runner.py:21-30, 60-61 `BendersRunner` *)
Definition benders_runner (emplacement : string) (w : world) : runner :=
  {| rn_current_dir := w_cwd w; rn_command := "bin/benders"; rn_emplacement := emplacement; rn_arguments := ["options.json"] |}.
(** runner.py:21-30, 65-66 `MergeMPSRunner` *)
Definition merge_mps_runner (emplacement : string) (w : world) : runner :=
  {| rn_current_dir := w_cwd w; rn_command := "bin/merge_mps"; rn_emplacement := emplacement; rn_arguments := ["options.json"] |}.
(** runner.py:32-36 `check_command` *)
Definition check_command (r : runner) (w : world) : bool := dmem String.eqb (absolute w (rn_command r)) (w_files w).
(** runner.py:38-56 `run`: the directory is given back (54) only if subprocess.run returns; os.chdir (47) never fails, the
    directory having been written in *)
Definition run_command (x : external) (r : runner) (w : world) : world * result Z :=
  if negb (check_command r w) then (w, Ok 0%Z)
  else
    let inside := {| w_cwd := absolute w (rn_emplacement r); w_files := w_files w |} in
    match x_command x (path_join (rn_current_dir r) (rn_command r)) (rn_arguments r) inside with
    | (files, Ok code) => ({| w_cwd := rn_current_dir r; w_files := files |}, Ok code)
    | (files, Err e) => ({| w_cwd := w_cwd inside; w_files := files |}, Err e)
    end.

(** ** The decomposed problem *)
(** the classes of output_values.py:335-354 *)
Inductive solution_class := Merged | Decomposed.
(** benders_decomposed.py:44-75; the attributes other than the problems *)
Record decomposed := {
  dc_benders : benders; dc_emplacement : string; dc_output_path : string; dc_structure : string;
  dc_solution : option (solution_class * json); dc_is_merged : bool }.
(** benders_decomposed.py:59-75 `__init__` *)
Definition new_decomposed (b : benders) (emplacement output_path structure : string) : decomposed :=
  {| dc_benders := b; dc_emplacement := emplacement; dc_output_path := output_path; dc_structure := structure;
     dc_solution := None; dc_is_merged := false |}.
(** benders_decomposed.py:114-144 `export_options` *)
Definition export_options (d : decomposed) (solver_name : string) (log_level : Z) : json := JDict [
  ("MAX_ITERATIONS", JNum (nz (-1))); ("ABSOLUTE_GAP", JNum (nz 1)); ("RELATIVE_GAP", JNum (Fin (Q2Qc (1 # 1000000))));
  ("RELAXED_GAP", JNum (Fin (Q2Qc (1 # 100000)))); ("AGGREGATION", JBool false); ("OUTPUTROOT", JText "."); ("TRACE", JBool true);
  ("SLAVE_WEIGHT", JText "CONSTANT"); ("SLAVE_WEIGHT_VALUE", JNum (nz 1)); ("MASTER_NAME", JText (pb_name (bd_master (dc_benders d))));
  ("STRUCTURE_FILE", JText (dc_structure d)); ("INPUTROOT", JText "."); ("CSV_NAME", JText "benders_output_trace");
  ("BOUND_ALPHA", JBool true); ("SEPARATION_PARAM", JNum (Fin (Q2Qc (1 # 2)))); ("BATCH_SIZE", JNum (nz 0));
  ("JSON_FILE", JText (dc_output_path d ++ "/out.json")); ("LAST_ITERATION_JSON_FILE", JText (dc_output_path d ++ "/last_iteration.json"));
  ("MASTER_FORMULATION", JText "integer"); ("SOLVER_NAME", JText solver_name); ("TIME_LIMIT", JNum (nz 1000000000000));
  ("LOG_LEVEL", JNum (nz log_level)); ("LAST_MASTER_MPS", JText "master_last_iteration"); ("LAST_MASTER_BASIS", JText "master_last_basis.bss")].
(** benders_decomposed.py:153-160, 170-176: the problems, one file each *)
Definition serialize_problems (export : solver -> string) (extension : string) (d : decomposed) (w : world) : world :=
  fold_left (fun w p => serialize (pb_name p ++ extension) (export (st_solver (pb_state p))) (dc_emplacement d) w)
    (bd_master (dc_benders d) :: bd_subproblems (dc_benders d)) w.
(** benders_decomposed.py:146-176 `initialise` *)
Definition initialise (x : external) (d : decomposed) (solver_name : string) (log_level : Z) (is_debug : bool) (w : world) : world * result unit :=
  let w := serialize_problems (x_mps x) ".mps" d w in
  match export_structure (dc_benders d) with
  | Err e => (w, Err e)
  | Ok text =>
      let w := serialize (dc_structure d) text (dc_emplacement d) w in
      let w := serialize_json x "options.json" (export_options d solver_name log_level) (dc_emplacement d) w in
      (if is_debug then serialize_problems (x_lp x) ".lp" d w else w, Ok tt)
  end.
(** benders_decomposed.py:178-191 `read_solution` *)
Definition read_solution (x : external) (d : decomposed) (w : world) : result decomposed :=
  match read_json x "out.json" (path_join (dc_emplacement d) (dc_output_path d)) w with
  | Err FileNotFoundErr => Ok d
  | Err e => Err e
  | Ok data =>
      Ok {| dc_benders := dc_benders d; dc_emplacement := dc_emplacement d; dc_output_path := dc_output_path d; dc_structure := dc_structure d;
            dc_solution := Some (if dc_is_merged d then Merged else Decomposed, data); dc_is_merged := dc_is_merged d |}
  end.
(** benders_decomposed.py:208 `self.is_merged = True` *)
Definition merged (d : decomposed) : decomposed :=
  {| dc_benders := dc_benders d; dc_emplacement := dc_emplacement d; dc_output_path := dc_output_path d; dc_structure := dc_structure d;
     dc_solution := dc_solution d; dc_is_merged := true |}.
(** benders_decomposed.py:193-215 `run`: the object and the surroundings afterwards, and what is returned or raised *)
Definition run (x : external) (d : decomposed) (solver_name : string) (log_level : Z) (should_merge show_debug : bool) (w : world) :
    decomposed * world * result bool :=
  match initialise x d solver_name log_level show_debug w with
  | (w, Err e) => (d, w, Err e)
  | (w, Ok tt) =>
      let d := if should_merge then merged d else d in
      match run_command x (if should_merge then merge_mps_runner (dc_emplacement d) w else benders_runner (dc_emplacement d) w) w with
      | (w, Err e) => (d, w, Err e)
      | (w, Ok code) =>
          if Z.eqb code 0 then
            match read_solution x d w with
            | Err e => (d, w, Err e)
            | Ok d => (d, w, Ok true)
            end
          else (d, w, Ok false)
      end
  end.

(** ** What a solution says *)
(** `data["solution"][key]`, output_values.py:303-332, 339, 343, 350 *)
Definition solution_entry (key : string) (data : json) : result json :=
  match data with
  | JDict d =>
      match dget String.eqb "solution" d with
      | Some (JDict s) => match dget String.eqb key s with Some v => Ok v | None => Err KeyError end
      | Some _ => Err TypeError
      | None => Err KeyError
      end
  | _ => Err TypeError
  end.
(** output_values.py:349-350 `nb_iterations`, which BendersMergedSolution does not have *)
Definition nb_iterations (s : solution_class * json) : result json :=
  match fst s with Decomposed => solution_entry "iteration" (snd s) | Merged => Err AttributeErr end.
(** output_values.py:338-339 `lower_bound`, which BendersDecomposedSolution does not have *)
Definition lower_bound (s : solution_class * json) : result json :=
  match fst s with Merged => solution_entry "lb" (snd s) | Decomposed => Err AttributeErr end.
(** output_values.py:311-312 `overall_cost` *)
Definition overall_cost (s : solution_class * json) : result json := solution_entry "overall_cost" (snd s).
