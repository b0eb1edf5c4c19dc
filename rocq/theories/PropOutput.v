(** C36, C37, C51, C52: output values and solutions. *)
From Coq Require Import Lia.
From Verif Require Import Base BaseFacts Expr Visitors LinearExpr Model Study Strategy SpecModel Optim SpecOptim
  SpecLinear SpecVisitors Output SpecOutput OutputFacts ExampleProblem.
Local Open Scope string_scope.
Local Open Scope list_scope.

(** ** C36 *)
(** A value assigned to an output variable is read back, whatever the variable held before, if it is a
    number, a list of numbers of a length other than one, or lists of equal lengths other than one.
    Missing: the other shapes, see [C36_list_of_one_refuted] and [C36_ragged_refuted]. *)
Theorem C36_read_back_partial : forall x id name o, keeps_shape x ->
  read_output id name (change_var id name (set_value x) o) = Ok x.
Proof. exact assigned_read. Qed.
Print Assumptions C36_read_back_partial.
Definition ex_table : out_value := VList [IList [nz 1; nz 2; nz 3]; IList [nz 4; nz 5; nz 6]].
Definition ex_before : outputs :=
  change_var "G" "q" (set_value (VList [INum (nz 8); INum (nz 9)]))
    (change_var "G" "p" (set_value (VList [IList [nz 7; nz 7]; IList [nz 7; nz 7]; IList [nz 7; nz 7]])) []).
Example C36_read_back_case :
  keeps_shape ex_table /\ keeps_shape (VList [INum (nz 1); INum (nz 2)]) /\ keeps_shape (VNum (nz 5)) /\
  read_output "G" "p" ex_before <> Ok ex_table /\
  read_output "G" "p" (change_var "G" "p" (set_value ex_table) ex_before) = Ok ex_table.
Proof.
  assert (K : keeps_shape ex_table).
  { apply (ks_table 3 [[nz 1; nz 2; nz 3]; [nz 4; nz 5; nz 6]]); [discriminate|discriminate|repeat constructor]. }
  split; [exact K|]. split; [apply (ks_scenarios [nz 1; nz 2]); discriminate|]. split; [constructor|].
  split; [vm_compute; discriminate|]. now apply C36_read_back_partial.
Qed.

(** Lists with one timestep for each of several scenarios are read as the list over scenarios. *)
Theorem C36_single_step : forall l id name o, l <> [] -> List.length l <> 1%nat ->
  read_output id name (change_var id name (set_value (VList (map (fun x => IList [x]) l))) o) = Ok (VList (map INum l)).
Proof. exact single_step_read. Qed.
Print Assumptions C36_single_step.
Example C36_single_step_case :
  read_output "G" "p" (change_var "G" "p" (set_value (VList [IList [nz 1]; IList [nz 2]])) ex_before) = Ok (VList [INum (nz 1); INum (nz 2)]).
Proof. apply (C36_single_step [nz 1; nz 2]); discriminate. Qed.

(** Assigning or setting one variable does not change what is read of any other. *)
Theorem C36_frame : forall id name f o id' name', (id', name') <> (id, name) ->
  read_output id' name' (change_var id name f o) = read_output id' name' o.
Proof. exact read_other. Qed.
Print Assumptions C36_frame.
Example C36_frame_case :
  read_output "G" "q" (change_var "G" "p" (set_value ex_table) ex_before) = Ok (VList [INum (nz 8); INum (nz 9)]).
Proof. rewrite C36_frame by discriminate. reflexivity. Qed.

(** Setting the value at one timestep and scenario of a table leaves the other entries unchanged. *)
Theorem C36_one_value : forall rows T id name o t s x, rows <> [] -> Forall (fun r => List.length r = T) rows ->
  (0 <= t < Z.of_nat T)%Z -> (0 <= s < Z.of_nat (List.length rows))%Z ->
  read_output id name (change_var id name (set_one (Some t) (Some s) x)
    (change_var id name (set_value (VList (map IList rows))) o)) =
  Ok (shown (Z.of_nat (List.length rows)) (Z.of_nat T)
    (fun t' s' => if (t' =? t)%Z && (s' =? s)%Z then x else nth (Z.to_nat t') (nth (Z.to_nat s') rows []) NaN)).
Proof. exact set_one_read. Qed.
Print Assumptions C36_one_value.
Example C36_one_value_case :
  read_output "G" "p" (change_var "G" "p" (set_one (Some 1%Z) (Some 0%Z) (nz 50))
     (change_var "G" "p" (set_value ex_table) ex_before)) = Ok (VList [IList [nz 1; nz 50; nz 3]; IList [nz 4; nz 5; nz 6]]).
Proof.
  change ex_table with (VList (map IList [[nz 1; nz 2; nz 3]; [nz 4; nz 5; nz 6]])).
  rewrite (C36_one_value [[nz 1; nz 2; nz 3]; [nz 4; nz 5; nz 6]] 3); [reflexivity|discriminate|repeat constructor|cbn; lia|cbn; lia].
Qed.

(** A list of one number is not read back: the number is. *)
Theorem C36_list_of_one_refuted : exists x o, read_output "G" "p" (change_var "G" "p" (set_value x) o) = Ok (VNum (nz 5)) /\ x <> VNum (nz 5).
Proof. exists (VList [INum (nz 5)]), []. split; [reflexivity|discriminate]. Qed.
Print Assumptions C36_list_of_one_refuted.
(** Lists of different lengths are cut to the length of the last one, silently; if the last is the
    longest they cannot be read at all. *)
Theorem C36_ragged_refuted : exists x y,
  read_output "G" "p" (change_var "G" "p" (set_value x) []) = Ok (VList [INum (nz 1); INum (nz 3)]) /\ x = VList [IList [nz 1; nz 2]; IList [nz 3]] /\
  read_output "G" "p" (change_var "G" "p" (set_value y) []) = Err KeyError /\ y = VList [IList [nz 3]; IList [nz 1; nz 2]].
Proof. do 2 eexists. repeat split; reflexivity. Qed.
Print Assumptions C36_ragged_refuted.
(** What a variable held before the assignment remains visible: two outputs that read the same are
    not equal. *)
Theorem C36_history_refuted : exists a b,
  a = change_var "G" "p" (set_value (VNum (nz 5))) [] /\
  b = change_var "G" "p" (set_value (VNum (nz 5))) (change_var "G" "p" (set_value (VList [IList [nz 1; nz 2]])) []) /\
  read_output "G" "p" a = read_output "G" "p" b /\ outputs_eq a b = Ok false.
Proof. do 2 eexists. repeat split; reflexivity. Qed.
Print Assumptions C36_history_refuted.
(** Reading a variable that is not there adds it, after which the outputs differ from what they were. *)
Theorem C36_reading_refuted : exists o, outputs_eq o o = Ok true /\
  outputs_eq o (change_var "G" "r" (fun v => v) o) = Ok false.
Proof. exists ex_before. split; vm_compute; reflexivity. Qed.
Print Assumptions C36_reading_refuted.

(** ** C37 *)
(** What equality of outputs means: every component that is not ignored is in both, with the same
    variables, sizes and numbers, ignored variables apart. *)
Theorem C37_equal_means : forall a b, outputs_eq a b = Ok true <-> agree_outputs same_number a b.
Proof. exact outputs_eq_true. Qed.
Print Assumptions C37_equal_means.
(** What closeness of outputs means. *)
Theorem C37_close_means : forall r a x y, (0 <= r)%Qc -> (0 <= a)%Qc ->
  outputs_is_close (Fin r) (Fin a) x y = Ok true <-> agree_outputs (near_number r a) x y.
Proof. exact outputs_close_means. Qed.
Print Assumptions C37_close_means.
(** Comparison is symmetric, whatever is ignored. *)
Theorem C37_symmetric : forall rel abs a b, tol_ok rel -> tol_ok abs ->
  outputs_is_close rel abs a b = outputs_is_close rel abs b a /\ outputs_eq a b = outputs_eq b a.
Proof. exact comparison_symmetric. Qed.
Print Assumptions C37_symmetric.
(** Comparison is reflexive if no value is NaN. *)
Theorem C37_reflexive : forall rel abs a, tol_ok rel -> tol_ok abs -> no_nan_outputs a ->
  outputs_is_close rel abs a a = Ok true /\ outputs_eq a a = Ok true.
Proof. exact comparison_reflexive. Qed.
Print Assumptions C37_reflexive.
(** An ignored component plays no part in the comparison. *)
Theorem C37_ignored_component : forall rel abs a b k, tol_ok rel -> tol_ok abs -> ignored_in k a \/ ignored_in k b ->
  outputs_is_close rel abs a b = outputs_is_close rel abs (without k a) (without k b).
Proof. exact ignored_component. Qed.
Print Assumptions C37_ignored_component.
(** Neither does an ignored variable. *)
Theorem C37_ignored_variable : forall rel abs a b k n, tol_ok rel -> tol_ok abs -> var_ignored_in k n a \/ var_ignored_in k n b ->
  outputs_is_close rel abs a b = outputs_is_close rel abs (without_var k n a) (without_var k n b).
Proof. exact ignored_variable. Qed.
Print Assumptions C37_ignored_variable.

Definition ex_other : outputs := change_var "G" "q" (set_value (VList [INum (nz 8); INum (nz 10)])) ex_before.
Definition ex_ignore_q : outputs := change_var "G" "q" (set_var_ignore true) ex_other.
Definition ex_ignore_g : outputs := change_ignore "G" true ex_other.
Example C37_case :
  no_nan_outputs ex_before /\ outputs_eq ex_before ex_other = Ok false /\
  outputs_is_close (Fin (Q2Qc (1#8))) n0 ex_before ex_other = Ok true /\
  outputs_is_close (Fin (Q2Qc (1#16))) n0 ex_before ex_other = Ok false /\
  var_ignored_in "G" "q" ex_ignore_q /\ outputs_eq ex_before ex_ignore_q = Ok true /\
  ignored_in "G" ex_ignore_g /\ outputs_eq [] ex_ignore_g = Ok true /\ outputs_eq ex_before [] = Ok false /\
  outputs_eq (without_var "G" "q" ex_before) (without_var "G" "q" ex_ignore_q) = Ok true.
Proof.
  split.
  - intros k c n v i x Hc Hv Hx. cbn in Hc. destruct (String.eqb k "G"); [|discriminate]. injection Hc as <-.
    cbn in Hv. destruct (String.eqb n "p"); [|destruct (String.eqb n "q"); [|discriminate]]; injection Hv as <-;
      cbn in Hx; repeat match type of Hx with (if ?b then _ else _) = _ => destruct b; [injection Hx as <-; discriminate|] end; discriminate.
  - do 3 (split; [vm_compute; reflexivity|]). split; [do 2 eexists; repeat split; reflexivity|].
    split; [vm_compute; reflexivity|]. split; [eexists; split; reflexivity|]. repeat split; vm_compute; reflexivity.
Qed.
(** Equality is not transitive: an ignored variable is equal to anything. *)
Theorem C37_transitive_refuted : exists a b c,
  outputs_eq a b = Ok true /\ outputs_eq b c = Ok true /\ outputs_eq a c = Ok false.
Proof. exists ex_before, ex_ignore_q, ex_other. repeat split; vm_compute; reflexivity. Qed.
Print Assumptions C37_transitive_refuted.
(** Outputs that hold a NaN are not close to themselves. *)
Theorem C37_nan_refuted : exists a, outputs_is_close (Fin 1) (Fin 1) a a = Ok false.
Proof. exists (change_var "G" "p" (set_value (VNum NaN)) []). reflexivity. Qed.
Print Assumptions C37_nan_refuted.

(** ** C51 *)
(** The outputs of a problem that was built and solved show, for each component and each of its variables in
    the problem, the table of the values of its solver variables: one column for each timestep if it varies in time,
    one row for each scenario if it varies by scenario. *)
Theorem C51_values_of_solution : forall o st solution,
  usable_block o -> distinct_ids (o_network o) -> named_network (o_network o) -> build_problem o = Ok st ->
  (1 <= o_scenarios o)%Z ->
  forall c v, In c (all_components (o_network o)) -> In v (get_variables (o_selection o) (co_model c)) ->
  exists m,
    read_output (co_id c) (v_name v) (build_outputs solution (st_variables st)) =
      Ok (shown (extent (ix_scenario (v_structure v)) (o_scenarios o))
                (extent (ix_time (v_structure v)) (Z.of_nat (List.length (o_block o)))) m) /\
    forall t s, instance_of o c v t s -> forall i, get_component_variable o st t s (co_id c) (v_name v) = Ok i ->
    m (odefault 0 t) (odefault 0 s) = solution i.
Proof. exact outputs_tables. Qed.
Print Assumptions C51_values_of_solution.
(** They show nothing else. *)
Theorem C51_nothing_else : forall o st solution,
  usable_block o -> distinct_ids (o_network o) -> named_network (o_network o) -> build_problem o = Ok st ->
  forall id name, listed id name (build_outputs solution (st_variables st)) <->
    exists c v t s, instance_of o c v t s /\ co_id c = id /\ v_name v = name.
Proof. exact outputs_listed. Qed.
Print Assumptions C51_nothing_else.
Definition ex_solution (i : nat) : num := nz (10 + Z.of_nat i).
Example C51_case :
  usable_block exp_settings /\ distinct_ids (o_network exp_settings) /\ named_network (o_network exp_settings) /\
  build_problem exp_settings = Ok exp_built /\ (1 <= o_scenarios exp_settings)%Z /\
  read_output "G" "p" (build_outputs ex_solution (st_variables exp_built)) =
    Ok (VList [IList [nz 10; nz 12]; IList [nz 11; nz 13]]) /\
  read_output "G" "inv" (build_outputs ex_solution (st_variables exp_built)) = Ok (VNum (nz 14)).
Proof.
  pose proof exp_good as G. split; [apply G|]. split; [apply G|].
  split; [intros c Hc; apply G; exact Hc|]. split; [exact exp_builds|].
  split; [cbn; lia|]. split; vm_compute; reflexivity.
Qed.

(** ** C52 *)
(** Solutions of the decomposed problem are equal if and only if the cost and the candidates are, and
    close if and only if each of these numbers is. *)
Theorem C52_equal_means : forall a b, benders_eqb a b = true <-> agree_benders same_number a b.
Proof. exact benders_eqb_true. Qed.
Print Assumptions C52_equal_means.
Theorem C52_close_means : forall r t a b, (0 <= r)%Qc -> (0 <= t)%Qc ->
  benders_is_close (Fin r) (Fin t) a b = Ok true <-> agree_benders (near_number r t) a b.
Proof. exact benders_close_means. Qed.
Print Assumptions C52_close_means.
Theorem C52_symmetric : forall rel abs a b, tol_ok rel -> tol_ok abs ->
  benders_is_close rel abs a b = benders_is_close rel abs b a /\ benders_eqb a b = benders_eqb b a.
Proof. exact benders_both_symmetric. Qed.
Print Assumptions C52_symmetric.
Definition ex_benders c x : benders_solution := {| bs_overall_cost := nz c; bs_candidates := [("G_p", nz x); ("H_p", nz 3)] |}.
Example C52_case :
  benders_eqb (ex_benders 100 7) (ex_benders 100 7) = true /\ benders_eqb (ex_benders 100 7) (ex_benders 101 7) = false /\
  benders_is_close (Fin (Q2Qc (1#50))) n0 (ex_benders 100 7) (ex_benders 101 7) = Ok true /\
  benders_is_close (Fin (Q2Qc (1#50))) n0 (ex_benders 100 7) (ex_benders 100 8) = Ok false.
Proof. repeat split; vm_compute; reflexivity. Qed.
