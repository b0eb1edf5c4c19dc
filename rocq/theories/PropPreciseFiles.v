(** Property theorems C82: a study whose files hold numbers of limited precision is solved exactly. *)
From Coq Require Import Lia.
From Verif Require Import Base BaseFacts Expr Visitors Parse SpecParse LexFacts LinearExpr Model Study Strategy Optim System Library
  Main SpecExpr SpecModel SpecLibrary SpecSystem SpecLinear SpecOptim SpecMain SpecScenarios SpecPrecise SpecPreciseFiles
  PreciseFacts MainFacts MainPrecise PropMain.
Local Open Scope string_scope.
Local Open Scope list_scope.

(** ** C82 *)

(** When the coefficients that the texts and the data give are whole numbers of [1 / D], [D] at most 1e16 and possibly
    different for each text, and no bound of a constraint varies more than its expression, values of the solver's
    variables are allowed exactly when the decisions they stand for are within the bounds written in the libraries and
    satisfy every constraint written, for every entry of the system, at every timestep and in every scenario. *)
Theorem C82_feasible :
  forall order libs sys files T S rd o st, any_order order ->
  main_cli order libs sys files T S = Ok (o, st) -> good_study libs sys files T S rd -> precise_study libs sys files T S rd ->
  forall x y, file_decisions libs sys T x -> takes_values libs sys T S (placed o st) y x ->
  solves y (st_solver st) <-> file_feasible libs sys files T S rd x.
Proof. exact plans_file. Qed.
Print Assumptions C82_feasible.

(** And the solver minimises the sum of the objectives written. *)
Theorem C82_cost :
  forall order libs sys files T S rd o st, any_order order ->
  main_cli order libs sys files T S = Ok (o, st) -> good_study libs sys files T S rd -> precise_study libs sys files T S rd ->
  forall x y, file_decisions libs sys T x -> takes_values libs sys T S (placed o st) y x ->
  objective_value y (st_solver st) = file_cost libs sys files T S rd x /\ file_cost libs sys files T S rd x <> None.
Proof. exact cost_file. Qed.
Print Assumptions C82_cost.

(** So an optimal solution is a cheapest plan of the study as its files are written, and conversely. *)
Theorem C82_optimum :
  forall order libs sys files T S rd o st, any_order order ->
  main_cli order libs sys files T S = Ok (o, st) -> good_study libs sys files T S rd -> precise_study libs sys files T S rd ->
  forall x y, file_decisions libs sys T x -> takes_values libs sys T S (placed o st) y x ->
  optimal y (st_solver st) <-> file_cheapest libs sys files T S rd x.
Proof. exact optimum_file. Qed.
Print Assumptions C82_optimum.

(** ** A bus with a generator and a load: whole numbers, averages of two scenarios. *)
Lemma cell_in ts row col v : cell ts row col = Some v -> exists r, In r ts /\ In v r.
Proof.
  unfold cell. destruct (0 <=? row)%Z, (0 <=? col)%Z; try discriminate. destruct (nth_error ts (Z.to_nat row)) as [r|] eqn:E; [|discriminate].
  intros H. exists r. split; eapply nth_error_In; eauto.
Qed.
Lemma exm_whole e n t s q : In e (all_inputs exm_system) -> file_value exm_files 2 e n t s = Some q -> exists z, q = Z2Qc z.
Proof.
  intros He H. unfold file_value in H. destruct (find _ _) as [p|] eqn:F; [|discriminate]. apply find_some in F. destruct F as [F _].
  assert (G : forall v, parameter_cell exm_files p (t mod 2) s = Some (Fin v) -> exists z, v = Z2Qc z).
  { intros v Hv. cbn in He. destruct He as [<-|[<-|[<-|[]]]]; cbn in F.
    - destruct F as [<-|[<-|[]]].
      + injection Hv as <-. eexists; reflexivity.
      + change (cell [[nz 100]; [nz 80]] (t mod 2) 0 = Some (Fin v)) in Hv. apply cell_in in Hv. destruct Hv as (r & Hr & Hv).
        destruct Hr as [<-|[<-|[]]]; destruct Hv as [Hv|[]]; injection Hv as <-; eexists; reflexivity.
    - destruct F as [<-|[]]. change (cell [[nz 50; nz 60]; [nz 70; nz 40]] (t mod 2) s = Some (Fin v)) in Hv.
      apply cell_in in Hv. destruct Hv as (r & Hr & Hv).
      destruct Hr as [<-|[<-|[]]]; destruct Hv as [Hv|[Hv|[]]]; injection Hv as <-; eexists; reflexivity.
    - destruct F. }
  destruct (parameter_cell _ _ _ _) as [[v| | |]|] eqn:E; try discriminate. injection H as <-. now apply G.
Qed.
Lemma exm_multiples e n D : In e (all_inputs exm_system) -> file_values exm_files 2 e n (multiple D).
Proof. intros He t s q _ H. destruct (exm_whole e n t s q He H) as [z ->]. exists (z * D)%Z. now rewrite Z2Qc_mul. Qed.
Lemma exm_precise : precise_study exm_libs exm_system exm_files 2 2 exm_reading.
Proof.
  assert (Z0 : forall D, multiple D (decimal_value "0")) by (intros D; replace (decimal_value "0") with 0%Qc by (vm_compute; reflexivity); apply multiple_0).
  split.
  - intros e m k Hk. split; [|now apply exm_follow]. destruct Hk as [[He Hm] Hk]. cbn in He. destruct He as [<-|[<-|[<-|[]]]]; injection Hm as <-; cbn in Hk.
    + destruct Hk as [<-|[]]. exists 1%Z. split; [split; [lia|discriminate]|]. cbn. unfold name_precise. cbn. auto.
    + destruct Hk.
    + destruct Hk as [<-|[]]. exists 1%Z. split; [split; [lia|discriminate]|]. split; [|apply Z0].
      intros e' m' d Hd. vm_compute in Hd. destruct Hd as [[= <- <- <-]|[[= <- <- <-]|[]]].
      * left. reflexivity.
      * right. apply exm_multiples. right. now left.
  - intros e m w [He Hm] Hw. cbn in He. destruct He as [<-|[<-|[<-|[]]]]; injection Hm as <-; cbn in Hw; try contradiction.
    destruct Hw as [<-|[]]. exists 2%Z. split; [split; [lia|discriminate]|]. exists 1%Z. split; [lia|]. split; [now exists 1%Z|].
    exists 1%Z, 1%Z. split; [lia|]. split; [lia|]. split; [now exists 1%Z|]. split; [|left; reflexivity].
    right. apply exm_multiples. now left.
Qed.
Example C82_example :
  exists o st, main_cli exm_order exm_libs exm_system exm_files 2 2 = Ok (o, st) /\
  good_study exm_libs exm_system exm_files 2 2 exm_reading /\ precise_study exm_libs exm_system exm_files 2 2 exm_reading /\
  List.length (s_rows (st_solver st)) = 8%nat.
Proof. destruct exm_runs as (o & st & H & N & _). exists o, st. split; [exact H|]. split; [exact exm_good|]. split; [exact exm_precise|exact N]. Qed.
