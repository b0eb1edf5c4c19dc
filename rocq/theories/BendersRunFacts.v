(** Facts about the runs of decomposed problems (see PropBendersRun.v). *)
From Coq Require Import Ascii Lia.
From Verif Require Import Base BaseFacts LinearExpr Study Optim Fusion Benders BendersRun SpecBendersRun.
Local Open Scope string_scope.
Local Open Scope list_scope.

Section Writing.
  Context (path : string).
  Let put (w : world) (nt : string * string) : world := serialize (fst nt) (snd nt) path w.
  Lemma put_cwd l w : w_cwd (fold_left put l w) = w_cwd w.
  Proof. revert w. induction l as [|nt l IH]; intros w; [reflexivity|]. cbn [fold_left]. now rewrite IH. Qed.
  Lemma put_other l : forall w q, ~ In q (map (fun nt => absolute w (path_join path (fst nt))) l) -> text_at (fold_left put l w) q = text_at w q.
  Proof.
    induction l as [|nt l IH]; intros w q H; [reflexivity|]. cbn [fold_left]. rewrite IH; [|intros X; apply H; right; exact X].
    unfold text_at, put, serialize. cbn [w_files]. apply (dget_dset_other String.eqb String.eqb_eq). intros E. apply H. left. symmetry. exact E.
  Qed.
  Lemma put_there l : forall w n t, NoDup (map (fun nt => absolute w (path_join path (fst nt))) l) -> In (n, t) l ->
    text_at (fold_left put l w) (absolute w (path_join path n)) = Some t.
  Proof.
    induction l as [|nt l IH]; intros w n t N H; [destruct H|destruct H as [->|H]]; cbn [fold_left].
    - rewrite put_other.
      + unfold text_at, put, serialize. cbn [w_files fst snd]. apply (dget_dset_same String.eqb String.eqb_eq).
      + cbn in N. inversion N as [|? ? X _]. exact X.
    - cbn in N. inversion N as [|? ? _ X]. exact (IH (put w nt) n t X H).
  Qed.
End Writing.

Definition written (x : external) (d : decomposed) (text solver_name : string) (log_level : Z) (debug : bool) : list (string * string) :=
  map (fun p => (pb_name p ++ ".mps", x_mps x (st_solver (pb_state p)))%string) (problems_of d) ++
  [(dc_structure d, text); ("options.json", x_dumps x (export_options d solver_name log_level))] ++
  (if debug then map (fun p => (pb_name p ++ ".lp", x_lp x (st_solver (pb_state p)))%string) (problems_of d) else []).
Lemma written_names x d text n l debug : map fst (written x d text n l debug) = file_names d debug.
Proof. unfold written, file_names. rewrite !map_app, map_map. cbn [map fst app]. destruct debug; [rewrite map_map|]; reflexivity. Qed.
Lemma fold_map {A B C} (f : A -> B -> A) (g : C -> B) l : forall a, fold_left (fun a c => f a (g c)) l a = fold_left f (map g l) a.
Proof. induction l as [|c l IH]; intros a; [reflexivity|]. cbn. apply IH. Qed.
Lemma initialise_writes x d n l debug w : initialise x d n l debug w =
  match export_structure (dc_benders d) with
  | Ok text => (fold_left (fun w nt => serialize (fst nt) (snd nt) (dc_emplacement d) w) (written x d text n l debug) w, Ok tt)
  | Err e => (serialize_problems (x_mps x) ".mps" d w, Err e)
  end.
Proof.
  unfold initialise. destruct (export_structure (dc_benders d)) as [text|e]; [|reflexivity]. f_equal.
  unfold written. rewrite !fold_left_app. cbn [fold_left fst snd].
  assert (E : forall f s w, serialize_problems f s d w = fold_left (fun w nt => serialize (fst nt) (snd nt) (dc_emplacement d) w)
    (map (fun p => (pb_name p ++ s, f (st_solver (pb_state p)))%string) (problems_of d)) w).
  { intros f s w0. unfold serialize_problems, problems_of. now rewrite <- (fold_map (fun w nt => serialize (fst nt) (snd nt) (dc_emplacement d) w)). }
  rewrite <- E. unfold serialize_json. destruct debug; [now rewrite <- E|reflexivity].
Qed.
Lemma initialised x d n l debug w w' : initialise x d n l debug w = (w', Ok tt) -> NoDup (map (place_of d w) (file_names d debug)) ->
  files_written x d n l debug w w' /\ w_cwd w' = w_cwd w.
Proof.
  rewrite initialise_writes. destruct (export_structure (dc_benders d)) as [text|e] eqn:Ex; [|discriminate]. intros H N. apply (f_equal fst) in H. cbn [fst] in H. subst w'.
  assert (N' : NoDup (map (fun nt => absolute w (path_join (dc_emplacement d) (fst nt))) (written x d text n l debug))).
  { rewrite <- (written_names x d text n l debug), map_map in N. exact N. }
  pose proof (fun k t => put_there (dc_emplacement d) _ w k t N') as P. split; [|exact (put_cwd (dc_emplacement d) _ w)].
  unfold files_written. split; [|split; [|split; [|split]]].
  - intros p Hp. apply P. apply in_or_app. left. exact (in_map (fun p => (pb_name p ++ ".mps", x_mps x (st_solver (pb_state p)))%string) _ _ Hp).
  - exists text. split; [exact Ex|]. apply P. apply in_or_app. right. now left.
  - eexists. split; [apply P; apply in_or_app; right; right; left; reflexivity|repeat split].
  - intros -> p Hp. apply P. apply in_or_app. right. right. right. exact (in_map (fun p => (pb_name p ++ ".lp", x_lp x (st_solver (pb_state p)))%string) _ _ Hp).
  - intros q Hq. apply (put_other (dc_emplacement d)). rewrite <- (written_names x d text n l debug), map_map in Hq. exact Hq.
Qed.

Definition after_merge (merge : bool) (d : decomposed) : decomposed := if merge then merged d else d.
Lemma installed_check w merge e : check_command (if merge : bool then merge_mps_runner e w else benders_runner e w) w = true <-> installed w merge.
Proof.
  unfold installed, text_at, check_command, command_of, dmem. destruct merge; cbn [merge_mps_runner benders_runner rn_command];
    destruct (dget String.eqb _ (w_files w)); split; intros H; congruence.
Qed.
(** the parts of a run *)
Lemma run_parts x d n l merge debug w d' w' r : run x d n l merge debug w = (d', w', r) ->
  (exists e, r = Err e) \/
  exists w1 code files, initialise x d n l debug w = (w1, Ok tt) /\
    ((~ installed w1 merge /\ code = 0%Z /\ files = w_files w1) \/
     (installed w1 merge /\ x_command x (path_join (w_cwd w1) (command_of merge)) ["options.json"]
        {| w_cwd := absolute w1 (dc_emplacement d); w_files := w_files w1 |} = (files, Ok code))) /\
    w' = {| w_cwd := w_cwd w1; w_files := files |} /\ r = Ok (Z.eqb code 0) /\
    (if Z.eqb code 0 then read_solution x (after_merge merge d) w' = Ok d' else d' = after_merge merge d).
Proof.
  unfold run. intros H. destruct (initialise x d n l debug w) as [w1 [[]|e]] eqn:I; [|left; inversion H; eauto].
  assert (Em : forall m : bool, dc_emplacement (if m then merged d else d) = dc_emplacement d) by (now intros []).
  rewrite !Em in H. set (rn := if merge then merge_mps_runner (dc_emplacement d) w1 else benders_runner (dc_emplacement d) w1) in *.
  assert (R : forall w2 code, run_command x rn w1 = (w2, Ok code) -> exists files, w2 = {| w_cwd := w_cwd w1; w_files := files |} /\
    ((~ installed w1 merge /\ code = 0%Z /\ files = w_files w1) \/
     (installed w1 merge /\ x_command x (path_join (w_cwd w1) (command_of merge)) ["options.json"]
        {| w_cwd := absolute w1 (dc_emplacement d); w_files := w_files w1 |} = (files, Ok code)))).
  { intros w2 code. unfold run_command. destruct (check_command rn w1) eqn:C; cbn [negb].
    - intros X. assert (Y : x_command x (path_join (w_cwd w1) (command_of merge)) ["options.json"]
        {| w_cwd := absolute w1 (dc_emplacement d); w_files := w_files w1 |} =
        x_command x (path_join (rn_current_dir rn) (rn_command rn)) (rn_arguments rn) {| w_cwd := absolute w1 (rn_emplacement rn); w_files := w_files w1 |})
        by (unfold rn; now destruct merge).
      rewrite Y. destruct (x_command _ _ _ _) as [files [c|e]]; [|discriminate]. inversion X; subst. exists files.
      split; [unfold rn; now destruct merge|]. right. split; [now apply (installed_check w1 merge (dc_emplacement d))|reflexivity].
    - intros [= <- <-]. exists (w_files w1). split; [now destruct w1|]. left. split; [|auto]. intros X.
      apply (installed_check w1 merge (dc_emplacement d)) in X. fold rn in X. congruence. }
  destruct (run_command x rn w1) as [w2 [code|e]] eqn:C; [|left; inversion H; eauto].
  destruct (R w2 code eq_refl) as (files & -> & X).
  destruct (Z.eqb code 0) eqn:Ec.
  - destruct (read_solution x (if merge then merged d else d) {| w_cwd := w_cwd w1; w_files := files |}) as [d2|e] eqn:Rs; [|left; inversion H; eauto].
    inversion H; subst. right. exists w1, code, files. split; [reflexivity|]. split; [exact X|]. split; [reflexivity|]. rewrite Ec. split; [reflexivity|exact Rs].
  - inversion H; subst. right. exists w1, code, files. split; [reflexivity|]. split; [exact X|]. split; [reflexivity|]. rewrite Ec. split; reflexivity.
Qed.

Lemma append_assoc (a b c : string) : ((a ++ b) ++ c = a ++ b ++ c)%string.
Proof. induction a as [|x a IH]; [reflexivity|]. cbn. now rewrite IH. Qed.
Lemma join_relative p n : (forall r, n <> String "/"%char r) -> path_join p n = (p ++ "/" ++ n)%string.
Proof. intros H. destruct n as [|c n]; [reflexivity|]. unfold path_join. destruct (ascii_dec c "/"%char) as [->|Hc]; [now destruct (H n)|]. destruct c as [[] [] [] [] [] [] [] []]; try reflexivity. now contradiction Hc. Qed.
Lemma join_absolute p r : path_join p (String "/"%char r) = String "/"%char r.
Proof. reflexivity. Qed.
Lemma slash_or n : (exists r, n = String "/"%char r) \/ forall r, n <> String "/"%char r.
Proof. destruct n as [|c n]; [right; discriminate|]. destruct (ascii_dec c "/"%char) as [->|Hc]; [left; eauto|right; congruence]. Qed.
(** the place where the solution is read is the one that the options name *)
Lemma output_place cwd e o : e <> "" -> o <> "" ->
  path_join cwd (path_join (path_join e o) "out.json") = path_join (path_join cwd e) (o ++ "/out.json").
Proof.
  intros He Ho. change (path_join (path_join e o) "out.json") with (path_join e o ++ "/out.json")%string.
  destruct (slash_or o) as [[r ->]|Ro].
  - reflexivity.
  - rewrite (join_relative e o Ro), (join_relative _ (o ++ "/out.json")).
    2:{ destruct o as [|c o]; [now contradiction Ho|]. intros r E. cbn in E. injection E as -> _. now apply (Ro o). }
    destruct (slash_or e) as [[r ->]|Re]; [cbn; now rewrite append_assoc|].
    rewrite (join_relative cwd e Re), join_relative.
    + now rewrite !append_assoc.
    + destruct e as [|c e]; [now contradiction He|]. intros r E. cbn in E. injection E as -> _. now apply (Re e).
Qed.

Lemma run_given_files x d n l merge debug w d' w' b : run x d n l merge debug w = (d', w', Ok b) ->
  NoDup (map (place_of d w) (file_names d debug)) ->
  exists given, files_written x d n l debug w given /\ w_cwd given = w_cwd w /\ w_cwd w' = w_cwd w /\
  ((~ installed given merge /\ b = true /\ w_files w' = w_files given) \/
   (installed given merge /\ exists code,
      x_command x (absolute given (command_of merge)) ["options.json"] {| w_cwd := absolute given (dc_emplacement d); w_files := w_files given |} =
      (w_files w', Ok code) /\ (b = true <-> code = 0%Z))).
Proof.
  intros H N. apply run_parts in H. destruct H as [[e H]|(w1 & code & files & I & C & -> & [= ->] & _)]; [discriminate|].
  destruct (initialised x d n l debug w w1 I N) as [F E]. exists w1. split; [exact F|]. split; [exact E|]. split; [exact E|].
  destruct C as [(C1 & -> & ->)|(C1 & C2)]; [left; auto|right]. split; [exact C1|]. exists code. split; [exact C2|]. apply Z.eqb_eq.
Qed.
Lemma run_solution x d n l merge debug w d' w' b : run x d n l merge debug w = (d', w', Ok b) ->
  NoDup (map (place_of d w) (file_names d debug)) -> dc_emplacement d <> "" -> dc_output_path d <> "" ->
  let out := path_join (absolute w (dc_emplacement d)) (dc_output_path d ++ "/out.json") in
  dc_solution d' =
    (if b then match text_at w' out with
               | Some text => match x_loads x text with Some data => Some (if (dc_is_merged d || merge)%bool then Merged else Decomposed, data) | None => None end
               | None => dc_solution d end
     else dc_solution d) /\
  (b = true -> forall text, text_at w' out = Some text -> x_loads x text <> None).
Proof.
  intros H N He Ho out. apply run_parts in H. destruct H as [[e H]|(w1 & code & files & I & C & -> & [= ->] & R)]; [discriminate|].
  destruct (initialised x d n l debug w w1 I N) as [_ E].
  assert (Em : forall m, dc_emplacement (after_merge m d) = dc_emplacement d /\ dc_output_path (after_merge m d) = dc_output_path d /\
    dc_solution (after_merge m d) = dc_solution d /\ dc_is_merged (after_merge m d) = (dc_is_merged d || m)%bool).
  { intros [|]; cbn; repeat split; now destruct (dc_is_merged d). }
  destruct (Em merge) as (E1 & E2 & E3 & E4). destruct (Z.eqb code 0); [|subst d'; split; [exact E3|discriminate]].
  unfold read_solution, read_json, absolute in R. rewrite E1, E2 in R. cbn [w_cwd w_files] in R. rewrite E, (output_place (w_cwd w) _ _ He Ho) in R.
  fold (absolute w (dc_emplacement d)) in R. fold out in R. unfold text_at. cbn [w_files].
  destruct (dget String.eqb out files) as [text|].
  - destruct (x_loads x text) as [data|] eqn:L; [|discriminate R]. injection R as <-. cbn [dc_solution]. rewrite E4. split; [reflexivity|]. intros _ t [= <-]. congruence.
  - injection R as <-. split; [exact E3|]. discriminate.
Qed.
