(** C69: running a decomposed problem. *)
From Coq Require Import Lia.
From Verif Require Import Base BaseFacts LinearExpr Study Optim Tree Fusion Benders BendersRun SpecBendersRun BendersRunFacts PropBenders.
Local Open Scope string_scope.
Local Open Scope list_scope.

(** A run that returns has given its command, called in the directory of the decomposition, each problem in a file of its own, the
    structure and the options, and has changed no other file before; it returns True exactly if the command returned 0, or if there
    is no command; the working directory is what it was. Missing: without the command, True is returned all the same
    ([C69_not_run_refuted]). *)
Theorem C69_run_partial : forall x d n l merge debug w d' w' b, run x d n l merge debug w = (d', w', Ok b) ->
  NoDup (map (place_of d w) (file_names d debug)) ->
  exists given, files_written x d n l debug w given /\ w_cwd given = w_cwd w /\ w_cwd w' = w_cwd w /\
  ((~ installed given merge /\ b = true /\ w_files w' = w_files given) \/
   (installed given merge /\ exists code,
      x_command x (absolute given (command_of merge)) ["options.json"] {| w_cwd := absolute given (dc_emplacement d); w_files := w_files given |} =
      (w_files w', Ok code) /\ (b = true <-> code = 0%Z))).
Proof. exact run_given_files. Qed.
Print Assumptions C69_run_partial.
(** If it returns True the solution is what is then in the file that the options name (JSON_FILE, read from the directory of the
    decomposition), and otherwise the solution is left as it was. Missing: the file may be there from before
    ([C69_not_run_refuted]), and its class follows the merges of earlier runs ([C69_merged_refuted]). *)
Theorem C69_solution_partial : forall x d n l merge debug w d' w' b, run x d n l merge debug w = (d', w', Ok b) ->
  NoDup (map (place_of d w) (file_names d debug)) -> dc_emplacement d <> "" -> dc_output_path d <> "" ->
  let out := path_join (absolute w (dc_emplacement d)) (dc_output_path d ++ "/out.json") in
  dc_solution d' =
    (if b then match text_at w' out with
               | Some text => match x_loads x text with Some data => Some (if (dc_is_merged d || merge)%bool then Merged else Decomposed, data) | None => None end
               | None => dc_solution d end
     else dc_solution d) /\
  (b = true -> forall text, text_at w' out = Some text -> x_loads x text <> None).
Proof. exact run_solution. Qed.
Print Assumptions C69_solution_partial.

(** ** Examples: the decomposition of PropBenders.v, and a command that writes its solution *)
Definition exg_solution (cost : Z) : json :=
  JDict [("solution", JDict [("overall_cost", JNum (nz cost)); ("iteration", JNum (nz 3))]); ("run_duration", JNum (nz 1))].
Definition exg_external (outcome : result Z) : external := {|
  x_mps := fun s => (string_of_Z (Z.of_nat (List.length (s_rows s))) ++ " rows")%string; x_lp := fun s => "";
  x_dumps := fun j => "options";
  x_loads := fun text => if String.eqb text "new" then Some (exg_solution 40) else if String.eqb text "old" then Some (exg_solution 70) else None;
  x_command := fun command arguments w => (dset String.eqb (path_join (w_cwd w) "expansion/out.json") "new" (w_files w), outcome) |}.
Definition exg_problem : decomposed := new_decomposed exb_built "outputs/lp" "expansion" "structure.txt".
Definition exg_world (files : list string) : world :=
  {| w_cwd := "/home"; w_files := map (fun f => (f, if String.eqb f "/home/outputs/lp/expansion/out.json" then "old" else "program")) files |}.
Definition exg_installed : world := exg_world ["/home/bin/benders"; "/home/bin/merge_mps"].
Notation exg_run outcome d merge w := (run (exg_external outcome) d "XPRESS" 0 merge false w).
Lemma exg_distinct w : w_cwd w = "/home" -> NoDup (map (place_of exg_problem w) (file_names exg_problem false)).
Proof.
  intros E. unfold place_of, absolute. rewrite E.
  replace (map (fun name => path_join "/home" (path_join (dc_emplacement exg_problem) name)) (file_names exg_problem false)) with
    ["/home/outputs/lp/master.mps"; "/home/outputs/lp/subproblem_now_b1.mps"; "/home/outputs/lp/subproblem_now_b2.mps";
     "/home/outputs/lp/subproblem_low.mps"; "/home/outputs/lp/subproblem_high.mps"; "/home/outputs/lp/structure.txt"; "/home/outputs/lp/options.json"]
    by (vm_compute; reflexivity).
  repeat constructor; cbn; intuition discriminate.
Qed.

Example C69_run_example :
  NoDup (map (place_of exg_problem exg_installed) (file_names exg_problem false)) /\
  (exists d' w', exg_run (Ok 0%Z) exg_problem false exg_installed = (d', w', Ok true) /\
     text_at w' "/home/outputs/lp/subproblem_now_b2.mps" = Some "4 rows" /\ text_at w' "/home/outputs/lp/options.json" = Some "options" /\
     dc_solution d' = Some (Decomposed, exg_solution 40)) /\
  (exists d' w', exg_run (Ok 1%Z) exg_problem false exg_installed = (d', w', Ok false) /\ w_cwd w' = "/home" /\ dc_solution d' = None).
Proof.
  split; [now apply exg_distinct|]. split.
  - exists (fst (fst (exg_run (Ok 0%Z) exg_problem false exg_installed))), (snd (fst (exg_run (Ok 0%Z) exg_problem false exg_installed))).
    split; [vm_compute; reflexivity|]. split; [vm_compute; reflexivity|]. split; vm_compute; reflexivity.
  - exists (fst (fst (exg_run (Ok 1%Z) exg_problem false exg_installed))), (snd (fst (exg_run (Ok 1%Z) exg_problem false exg_installed))).
    split; [vm_compute; reflexivity|]. split; vm_compute; reflexivity.
Qed.

(** Without the command a run returns True, and reads as its solution the one that an earlier run left. *)
Definition exg_left : world := exg_world ["/home/outputs/lp/expansion/out.json"].
Theorem C69_not_run_refuted : exists x d w d' w' s v, dc_solution d = None /\ ~ installed w false /\
  NoDup (map (place_of d w) (file_names d false)) /\ run x d "XPRESS" 0 false false w = (d', w', Ok true) /\
  dc_solution d' = Some s /\ overall_cost s = Ok v /\
  text_at w (absolute w "outputs/lp/expansion/out.json") = text_at w' (absolute w' "outputs/lp/expansion/out.json").
Proof.
  exists (exg_external (Ok 0%Z)), exg_problem, exg_left, (fst (fst (exg_run (Ok 0%Z) exg_problem false exg_left))),
    (snd (fst (exg_run (Ok 0%Z) exg_problem false exg_left))), (Decomposed, exg_solution 70), (JNum (nz 70)).
  split; [reflexivity|]. split; [intros H; apply H; reflexivity|]. split; [now apply exg_distinct|].
  split; [vm_compute; reflexivity|]. split; [vm_compute; reflexivity|]. split; vm_compute; reflexivity.
Qed.
Print Assumptions C69_not_run_refuted.

(** After a run that merges, the solution of a run that decomposes is read as that of a merge: it has no number of iterations. *)
Notation exg_merged := (exg_run (Ok 0%Z) exg_problem true exg_installed).
Notation exg_again := (exg_run (Ok 0%Z) (fst (fst exg_merged)) false (snd (fst exg_merged))).
Theorem C69_merged_refuted : exists x d w d1 w1 d2 w2 s, 
  run x d "XPRESS" 0 true false w = (d1, w1, Ok true) /\ installed w1 false /\
  run x d1 "XPRESS" 0 false false w1 = (d2, w2, Ok true) /\
  dc_solution d2 = Some s /\ solution_entry "iteration" (snd s) = Ok (JNum (nz 3)) /\ nb_iterations s = Err AttributeErr /\
  lower_bound s = Err KeyError.
Proof.
  exists (exg_external (Ok 0%Z)), exg_problem, exg_installed, (fst (fst exg_merged)), (snd (fst exg_merged)),
    (fst (fst exg_again)), (snd (fst exg_again)), (Merged, exg_solution 40).
  split; [vm_compute; reflexivity|]. split; [vm_compute; discriminate|]. split; [vm_compute; reflexivity|].
  split; [vm_compute; reflexivity|]. split; [vm_compute; reflexivity|]. split; vm_compute; reflexivity.
Qed.
Print Assumptions C69_merged_refuted.

(** If the command cannot be started, the working directory stays that of the decomposition: the next run looks for the command
    there and writes its files below. *)
Notation exg_failed := (exg_run (Err GenericException) exg_problem false exg_installed).
Notation exg_next := (exg_run (Ok 0%Z) (fst (fst exg_failed)) false (snd (fst exg_failed))).
Theorem C69_directory_refuted : exists x x' d w e d1 w1 d2 w2, installed w false /\
  run x d "XPRESS" 0 false false w = (d1, w1, Err e) /\ w_cwd w1 <> w_cwd w /\
  run x' d1 "XPRESS" 0 false false w1 = (d2, w2, Ok true) /\ ~ installed w1 false /\ dc_solution d2 = None /\
  text_at w2 (path_join (w_cwd w) "outputs/lp/outputs/lp/master.mps") <> None.
Proof.
  exists (exg_external (Err GenericException)), (exg_external (Ok 0%Z)), exg_problem, exg_installed, GenericException, (fst (fst exg_failed)), (snd (fst exg_failed)),
    (fst (fst exg_next)), (snd (fst exg_next)).
  split; [vm_compute; discriminate|]. split; [vm_compute; reflexivity|]. split; [vm_compute; discriminate|].
  split; [vm_compute; reflexivity|]. split; [intros H; apply H; vm_compute; reflexivity|]. split; [vm_compute; reflexivity|vm_compute; discriminate].
Qed.
Print Assumptions C69_directory_refuted.
