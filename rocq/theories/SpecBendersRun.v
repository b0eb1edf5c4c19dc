(** Specification vocabulary: what a run of a decomposed problem leaves for its command. *)
From Verif Require Import Base LinearExpr Study Optim Fusion Benders BendersRun.
Local Open Scope string_scope.
Local Open Scope list_scope.

(** the problems of a decomposition *)
Definition problems_of (d : decomposed) : list problem := bd_master (dc_benders d) :: bd_subproblems (dc_benders d).
(** the names of the files that a run writes *)
Definition file_names (d : decomposed) (debug : bool) : list string :=
  map (fun p => pb_name p ++ ".mps")%string (problems_of d) ++ [dc_structure d; "options.json"] ++
  (if debug then map (fun p => pb_name p ++ ".lp")%string (problems_of d) else []).
(** the place of a file of the decomposition, below the working directory unless the directory given is absolute *)
Definition place_of (d : decomposed) (w : world) (name : string) : string := absolute w (path_join (dc_emplacement d) name).
(** the text of a file *)
Definition text_at (w : world) (path : string) : option string := dget String.eqb path (w_files w).
(** the options name the files of the decomposition, the solver and the level asked *)
Definition options_name (d : decomposed) (solver_name : string) (log_level : Z) (options : dict string json) : Prop :=
  dget String.eqb "MASTER_NAME" options = Some (JText (pb_name (bd_master (dc_benders d)))) /\
  dget String.eqb "STRUCTURE_FILE" options = Some (JText (dc_structure d)) /\
  dget String.eqb "INPUTROOT" options = Some (JText ".") /\ dget String.eqb "OUTPUTROOT" options = Some (JText ".") /\
  dget String.eqb "JSON_FILE" options = Some (JText (dc_output_path d ++ "/out.json")) /\
  dget String.eqb "SOLVER_NAME" options = Some (JText solver_name) /\ dget String.eqb "LOG_LEVEL" options = Some (JNum (nz log_level)).
(** every problem, the structure and the options are in files of their own, and nothing else has changed *)
Definition files_written (x : external) (d : decomposed) (solver_name : string) (log_level : Z) (debug : bool) (before after : world) : Prop :=
  (forall p, In p (problems_of d) -> text_at after (place_of d before (pb_name p ++ ".mps")) = Some (x_mps x (st_solver (pb_state p)))) /\
  (exists text, export_structure (dc_benders d) = Ok text /\ text_at after (place_of d before (dc_structure d)) = Some text) /\
  (exists options, text_at after (place_of d before "options.json") = Some (x_dumps x (JDict options)) /\ options_name d solver_name log_level options) /\
  (debug = true -> forall p, In p (problems_of d) -> text_at after (place_of d before (pb_name p ++ ".lp")) = Some (x_lp x (st_solver (pb_state p)))) /\
  (forall path, ~ In path (map (place_of d before) (file_names d debug)) -> text_at after path = text_at before path).
(** the command of a run *)
Definition command_of (merge : bool) : string := if merge then "bin/merge_mps" else "bin/benders".
Definition installed (w : world) (merge : bool) : Prop := text_at w (absolute w (command_of merge)) <> None.
