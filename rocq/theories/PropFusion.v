(** Theorems about merged problems (C40). *)
From Coq Require Import Lia.
From Verif Require Import Base BaseFacts Expr Optim Fusion SpecExpr SpecLinear SpecOptim SpecFusion FusionFacts.
Local Open Scope string_scope.
Local Open Scope list_scope.

(** ** An example: two masters that invest at different times, and a coupler that relates them *)
Definition ex_variable (n : string) (ub : num) (integer : bool) : solver_var :=
  {| sv_name := n; sv_lb := n0; sv_ub := ub; sv_integer := integer |}.
Definition ex_problem (name : string) (vars : list solver_var) (rows : list solver_row) (objective : dict nat num) (offset : num) : problem :=
  {| pb_name := name;
     pb_state := {| st_variables := []; st_ports := [];
                    st_infos := map (fun iv => (sv_name (snd iv), {| vi_name := sv_name (snd iv); vi_column := fst iv; vi_in_objective := true |})) (numbered vars);
                    st_solver := {| s_vars := vars; s_rows := rows; s_objective := objective; s_offset := offset |} |} |}.
Definition ex_row (lb ub : num) (coefs : dict nat num) : solver_row := {| sr_name := "limit"; sr_lb := lb; sr_ub := ub; sr_coefs := coefs |}.
(** y = x2 - x1 >= 0, where x1 and x2 are also in the masters *)
Definition ex_coupler : problem :=
  ex_problem "coupler" [ex_variable "x1" PInf false; ex_variable "x2" PInf false; ex_variable "y" (nz 9) true]
    [ex_row n0 n0 [(1%nat, n1); (0%nat, nz (-1)); (2%nat, nz (-1))]] [] n0.
Definition ex_master1 : problem :=
  ex_problem "m1" [ex_variable "x1" (nz 5) false; ex_variable "z1" (nz 7) true] [ex_row (nz 2) PInf [(0%nat, n1); (1%nat, nz 3)]]
    [(0%nat, nz 10); (1%nat, n1)] (nz 4).
Definition ex_master2 : problem :=
  ex_problem "m2" [ex_variable "x2" (nz 6) false] [ex_row NInf (nz 12) [(0%nat, nz 2)]] [(0%nat, nz 20)] n0.
Definition ex_masters : list problem := [ex_master1; ex_master2].
Ltac each_var := repeat match goal with
  | H : nth_error [] ?i = Some _ |- _ => destruct i; discriminate H
  | H : nth_error (_ :: _) ?i = Some _ |- _ => destruct i; cbn [nth_error] in H; [injection H as <-|]
  end.
Ltac nodup := cbn; repeat (apply NoDup_cons; [cbn; intuition discriminate|]); apply NoDup_nil.
Ltac positions_below := cbn; intros i c Hi; intuition (try congruence; match goal with E : (_, _) = (_, _) |- _ => injection E as <- <-; lia end).
Ltac sound_problem := split;
  [split; [nodup|split; [intros r Hr; cbn in Hr; intuition subst; (split; [nodup|positions_below])|split; [nodup|positions_below]]]
  |split; [nodup|split; [reflexivity|cbn; intros i v Hv; each_var; (eexists; split; [reflexivity|cbn; auto])]]].
Example ex_mergeable : mergeable ex_masters ex_coupler.
Proof.
  constructor.
  - discriminate.
  - sound_problem.
  - intros m [<-|[<-|[]]]; sound_problem.
  - nodup.
  - nodup.
  - cbn. intros k v [].
Qed.

(** ** C40 *)
(** masters with distinct names are merged, and the merged problem can be used as the problems it was made of *)
Theorem C40_accepts : forall masters coupler, mergeable masters coupler ->
  exists p, fusion_problems masters coupler = Ok p /\ pb_name p = "master".
Proof. exact merged_accepts. Qed.
Print Assumptions C40_accepts.
Theorem C40_sound : forall masters coupler p, mergeable masters coupler -> fusion_problems masters coupler = Ok p ->
  sound_columns (pb_state p) /\ sound_solver (solver_of p).
Proof. exact merged_sound. Qed.
Print Assumptions C40_sound.
(** its variables are those of the coupler, then those of the masters *)
Theorem C40_variables : forall masters coupler p, mergeable masters coupler -> fusion_problems masters coupler = Ok p ->
  variable_names p = variable_names coupler ++
    filter (fun n => negb (existsb (String.eqb n) (variable_names coupler))) (flat_map variable_names masters).
Proof. exact merged_names. Qed.
Print Assumptions C40_variables.
(** values satisfy the merged problem exactly when they satisfy the rows of the coupler, the bounds of its own variables, and
    the bounds and rows of every master; rows without any term are left out *)
Theorem C40_feasible_partial : forall masters coupler p, mergeable masters coupler -> fusion_problems masters coupler = Ok p ->
  forall y, feasible y (solver_of p) <->
    rows_hold y (solver_of coupler) /\ (forall v, coupler_only masters coupler v -> within v (y (sv_name v))) /\
    forall m, In m masters -> bounds_hold y (solver_of m) /\ term_rows_hold y (solver_of m).
Proof. exact merged_feasible. Qed.
Print Assumptions C40_feasible_partial.
(** with rows that all have terms, and a coupler about variables of the masters only: coupling constraints and all masters *)
Theorem C40_feasible : forall masters coupler p, mergeable masters coupler -> fusion_problems masters coupler = Ok p ->
  (forall m r, In m masters -> In r (s_rows (solver_of m)) -> has_term r) ->
  (forall v, In v (s_vars (solver_of coupler)) -> In (sv_name v) (flat_map variable_names masters)) -> forall y,
  feasible y (solver_of p) <-> rows_hold y (solver_of coupler) /\ forall m, In m masters -> feasible y (solver_of m).
Proof. exact merged_feasible_all. Qed.
Print Assumptions C40_feasible.
(** costs add up, offsets left out *)
Theorem C40_cost_partial : forall masters coupler p, mergeable masters coupler -> fusion_problems masters coupler = Ok p ->
  forall y, cost y (solver_of p) = osum (cost y (solver_of coupler) :: map (fun m => cost y (solver_of m)) masters).
Proof. exact merged_cost. Qed.
Print Assumptions C40_cost_partial.
(** the offset is that of the coupler *)
Theorem C40_offset : forall masters coupler p, mergeable masters coupler -> fusion_problems masters coupler = Ok p ->
  s_offset (solver_of p) = s_offset (solver_of coupler).
Proof. exact merged_offset. Qed.
Print Assumptions C40_offset.
(** one master is handed over as it is *)
Theorem C40_single : forall m coupler, fusion_problems [m] coupler = Ok m.
Proof. exact single_master. Qed.
Print Assumptions C40_single.

(** the merged problem of the example, and values that satisfy it *)
Definition ex_y (n : string) : Qc :=
  if String.eqb n "x1" then 1%Qc else if String.eqb n "x2" then Z2Qc 4 else if String.eqb n "y" then Z2Qc 3 else 1%Qc.
(** the result of merging *)
Definition merged_result (masters : list problem) (coupler : problem) : problem :=
  match fusion_problems masters coupler with Ok p => p | Err _ => coupler end.
Lemma merged_ok masters coupler : mergeable masters coupler ->
  fusion_problems masters coupler = Ok (merged_result masters coupler).
Proof. intros M. destruct (merged_accepts _ _ M) as (p & E & _). unfold merged_result. now rewrite E. Qed.
Ltac holds := repeat match goal with
  | |- within _ _ => split
  | |- at_least _ _ => vm_compute; first [exact I|discriminate]
  | |- at_most _ _ => vm_compute; first [exact I|discriminate]
  | |- row_sat _ _ => eexists; split; [reflexivity|split]
  end.
Example C40_example : fusion_problems ex_masters ex_coupler = Ok (merged_result ex_masters ex_coupler) /\
  variable_names (merged_result ex_masters ex_coupler) = ["x1"; "x2"; "y"; "z1"] /\
  List.length (s_rows (solver_of (merged_result ex_masters ex_coupler))) = 3%nat /\
  option_map (Qceqb (Z2Qc 91)) (cost ex_y (solver_of (merged_result ex_masters ex_coupler))) = Some true /\
  feasible ex_y (solver_of (merged_result ex_masters ex_coupler)).
Proof.
  split; [exact (merged_ok _ _ ex_mergeable)|]. split; [vm_compute; reflexivity|]. split; [vm_compute; reflexivity|].
  split; [vm_compute; reflexivity|].
  refine (proj2 (merged_feasible _ _ _ ex_mergeable (merged_ok _ _ ex_mergeable) ex_y) _). split; [|split].
  - intros r [<-|[]]. holds.
  - intros v [Hv _]. destruct Hv as [<-|[<-|[<-|[]]]]; holds.
  - intros m [<-|[<-|[]]]; split.
    + intros v [<-|[<-|[]]]; holds.
    + intros r [<-|[]] _. holds.
    + intros v [<-|[]]; holds.
    + intros r [<-|[]] _. holds.
Qed.

(** ** What merging loses *)
(** integer variables of a master become continuous *)
Theorem C40_integer_refuted : exists masters coupler p m v w, mergeable masters coupler /\ fusion_problems masters coupler = Ok p /\
  In m masters /\ In v (s_vars (solver_of m)) /\ sv_integer v = true /\
  In w (s_vars (solver_of p)) /\ sv_name w = sv_name v /\ sv_integer w = false.
Proof.
  exists ex_masters, ex_coupler, (merged_result ex_masters ex_coupler), ex_master1, (ex_variable "z1" (nz 7) true),
    (nth 3 (s_vars (solver_of (merged_result ex_masters ex_coupler))) (ex_variable "" n0 true)).
  split; [exact ex_mergeable|]. split; [exact (merged_ok _ _ ex_mergeable)|].
  split; [now left|]. split; [right; left; reflexivity|]. split; [reflexivity|].
  split; [apply nth_In; vm_compute; repeat constructor|]. split; vm_compute; reflexivity.
Qed.
Print Assumptions C40_integer_refuted.
(** constants of the objectives of the masters are lost: the value of the merged objective is not the sum *)
Theorem C40_offset_refuted : exists masters coupler p y, mergeable masters coupler /\ fusion_problems masters coupler = Ok p /\
  objective_value (by_name (solver_of p) y) (solver_of p) <>
  osum (map (fun m => objective_value (by_name (solver_of m) y) (solver_of m)) (coupler :: masters)).
Proof.
  exists ex_masters, ex_coupler, (merged_result ex_masters ex_coupler), ex_y.
  split; [exact ex_mergeable|]. split; [exact (merged_ok _ _ ex_mergeable)|]. vm_compute. discriminate.
Qed.
Print Assumptions C40_offset_refuted.
(** a row without terms that cannot be satisfied is lost: the master has no solution, the merged problem has *)
Definition ex_impossible : problem := ex_problem "m1" [ex_variable "x1" (nz 5) false] [ex_row n1 PInf []] [] n0.
Example ex_impossible_mergeable : mergeable [ex_impossible; ex_master2] ex_coupler.
Proof.
  constructor.
  - discriminate.
  - sound_problem.
  - intros m [<-|[<-|[]]]; sound_problem.
  - nodup.
  - nodup.
  - cbn. intros k v [].
Qed.
Theorem C40_empty_row_refuted : exists masters coupler p y, mergeable masters coupler /\ fusion_problems masters coupler = Ok p /\
  feasible y (solver_of p) /\ exists m, In m masters /\ forall y', ~ feasible y' (solver_of m).
Proof.
  exists [ex_impossible; ex_master2], ex_coupler, (merged_result [ex_impossible; ex_master2] ex_coupler), ex_y.
  split; [exact ex_impossible_mergeable|]. split; [exact (merged_ok _ _ ex_impossible_mergeable)|]. split.
  - refine (proj2 (merged_feasible _ _ _ ex_impossible_mergeable (merged_ok _ _ ex_impossible_mergeable) ex_y) _). split; [|split].
    + intros r [<-|[]]. holds.
    + intros v [Hv _]. destruct Hv as [<-|[<-|[<-|[]]]]; holds.
    + intros m [<-|[<-|[]]]; split.
      * intros v [<-|[]]; holds.
      * intros r [<-|[]] (i & c & [] & _).
      * intros v [<-|[]]; holds.
      * intros r [<-|[]] _. holds.
  - exists ex_impossible. split; [now left|]. intros y' [_ H]. destruct (H _ (or_introl eq_refl)) as (q & E & L & _).
    injection E as <-. vm_compute in L. now apply L.
Qed.
Print Assumptions C40_empty_row_refuted.
(** masters that share a name: the bounds of the last one are used, those of the others are lost *)
Definition ex_same1 : problem := ex_problem "m1" [ex_variable "x1" n1 false] [] [] n0.
Definition ex_same2 : problem := ex_problem "m2" [ex_variable "x1" (nz 5) false] [] [] n0.
Theorem C40_shared_name_refuted : exists masters coupler p y, fusion_problems masters coupler = Ok p /\
  (forall m, In m (coupler :: masters) -> sound_solver (solver_of m) /\ sound_columns (pb_state m)) /\
  feasible y (solver_of p) /\ exists m, In m masters /\ ~ feasible y (solver_of m).
Proof.
  exists [ex_same1; ex_same2], (ex_problem "coupler" [ex_variable "x1" PInf false] [] [] n0). eexists. exists (fun _ => Z2Qc 3).
  split; [reflexivity|]. split; [intros m [<-|[<-|[<-|[]]]]; sound_problem|]. split.
  - split; [|intros r []]. intros v [<-|[]]. split; vm_compute; discriminate.
  - exists ex_same1. split; [now left|]. intros [H _]. destruct (H _ (or_introl eq_refl)) as [_ H']. vm_compute in H'. now apply H'.
Qed.
Print Assumptions C40_shared_name_refuted.
(** masters that share a name the coupler does not have: two variables of the same name *)
Theorem C40_two_variables_refuted : exists masters coupler p, fusion_problems masters coupler = Ok p /\
  (forall m, In m (coupler :: masters) -> sound_solver (solver_of m) /\ sound_columns (pb_state m)) /\
  ~ NoDup (variable_names p).
Proof.
  exists [ex_same1; ex_same2], (ex_problem "coupler" [] [] [] n0). eexists. split; [reflexivity|].
  split; [intros m [<-|[<-|[<-|[]]]]; sound_problem|]. vm_compute. intros H. inversion H as [|? ? N _]. apply N. now left.
Qed.
Print Assumptions C40_two_variables_refuted.
(** with one master the rows of the coupler are not enforced *)
Theorem C40_single_master_refuted : exists m coupler p y, fusion_problems [m] coupler = Ok p /\
  (forall q, In q [coupler; m] -> sound_solver (solver_of q) /\ sound_columns (pb_state q)) /\
  incl (variable_names coupler) (variable_names m) /\ feasible y (solver_of p) /\ ~ rows_hold y (solver_of coupler).
Proof.
  exists ex_same2, (ex_problem "coupler" [ex_variable "x1" PInf false] [ex_row n0 n0 [(0%nat, n1)]] [] n0). eexists. exists (fun _ => Z2Qc 3).
  split; [reflexivity|]. split; [intros q [<-|[<-|[]]]; sound_problem|]. split; [intros n [<-|[]]; now left|]. split.
  - split; [|intros r []]. intros v [<-|[]]. split; vm_compute; discriminate.
  - intros H. destruct (H _ (or_introl eq_refl)) as (q & E & _ & U). injection E as <-. vm_compute in U. now apply U.
Qed.
Print Assumptions C40_single_master_refuted.
