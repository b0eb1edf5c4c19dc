(** Property theorems C10-C13: operator expansion. *)
From Verif Require Import Base Expr Visitors Expansion BaseFacts SpecExpr SpecSyntax SpecVisitors
  SpecExpansion ExpansionFacts.
From Coq Require Import Lia.

(** A concrete situation used by the examples: a variable "x" depending on time and scenario,
    a constant parameter "k" worth 2, blocks of 3 timesteps, 2 scenarios; x = 10 s + t mod 3. *)
Definition ex_sp : structure_provider := {|
  get_parameter_structure := fun _ => Err GenericException;
  get_variable_structure := fun _ => Err GenericException;
  get_component_variable_structure := fun _ _ => Ok {| ix_time := true; ix_scenario := true |};
  get_component_parameter_structure := fun _ _ => Ok {| ix_time := false; ix_scenario := false |}
|}.
Definition ex_env : env := {|
  e_var := fun _ _ _ => 0%Qc; e_par := fun _ _ _ => None;
  e_cvar := fun _ _ t s => Z2Qc (10 * s + t mod 3);
  e_cpar := fun _ _ _ _ => Some (Z2Qc 2);
  e_port := fun _ _ => []; e_T := 3; e_S := 2
|}.
Definition ex_dim : dimensions := {| timesteps_count := 3; scenarios_count := 2 |}.
(** evaluates integer literals and the parameter *)
Definition ex_ev (e : expr) : result Z :=
  match e with
  | Lit (Fin q) => match Qc_int q with Some z => Ok z | None => Err ValueError end
  | Neg (Lit (Fin q)) => match Qc_int q with Some z => Ok (- z)%Z | None => Err ValueError end
  | CParam _ _ => Ok 2%Z
  | _ => Err ValueError
  end.
Definition ex_x : expr := CVar "c" "x".
Definition ex_lit (z : Z) : expr := Lit (nz z).

(** ** C10 *)

(** Expansion preserves the mathematical meaning of every expression in which nothing below a
    shift or a window is pinned to a fixed timestep.  The nesting condition is what separates
    this from the full property (see C11_shift_of_eval_refuted, C12_nested_expectation_refuted). *)
Theorem C10_expansion_preserves_meaning :
  forall (cyc : Prop) (E : env) d ev sp e e',
  component_names_only e -> well_nested cyc e -> (cyc -> cyclic E) -> respects sp E ->
  evaluator_sound E ev e ->
  e_T E = timesteps_count d -> e_S E = scenarios_count d -> (0 <= scenarios_count d)%Z ->
  expand_operators e d ev sp = Ok e' ->
  forall t s, den E e' t s = den E e t s.
Proof. intros. eapply expand_den; eauto. Qed.
Print Assumptions C10_expansion_preserves_meaning.

Theorem C10_expansion_succeeds :
  forall d ev sp e, expandable ev sp e -> exists e', expand_operators e d ev sp = Ok e'.
Proof. intros d ev sp e H. destruct (expand_ok d ev sp e H) as (e' & He & _). eauto. Qed.
Print Assumptions C10_expansion_succeeds.

(** The three time operators spelled out, for an operand made of arithmetic, shifts and
    windows. *)
Theorem C10_shift_reads_later :
  forall (E : env) d ev sp e k z e',
  component_names_only (TShift e k) -> well_nested False (TShift e k) -> respects sp E ->
  evaluator_sound E ev (TShift e k) ->
  e_T E = timesteps_count d -> e_S E = scenarios_count d -> (0 <= scenarios_count d)%Z ->
  ev k = Ok z -> expand_operators (TShift e k) d ev sp = Ok e' ->
  forall t s, den E e' t s = den E e (t + z) s.
Proof.
  intros E d ev sp e k z e' HN HW HR HE HT HS HS0 Hz He t s.
  rewrite (C10_expansion_preserves_meaning False E d ev sp _ e' HN HW (False_ind _) HR HE HT HS HS0 He).
  cbn [den]. unfold evaluator_sound, time_args in HE. apply VisitorFacts.all_nodes_root in HE.
  rewrite (HE z Hz), oint_Z. reflexivity.
Qed.
Print Assumptions C10_shift_reads_later.

Theorem C10_window_is_inclusive_sum :
  forall (E : env) d ev sp e a b za zb e',
  component_names_only (TSum e a b) -> well_nested False (TSum e a b) -> respects sp E ->
  evaluator_sound E ev (TSum e a b) ->
  e_T E = timesteps_count d -> e_S E = scenarios_count d -> (0 <= scenarios_count d)%Z ->
  ev a = Ok za -> ev b = Ok zb -> expand_operators (TSum e a b) d ev sp = Ok e' ->
  (forall t s, den E e' t s = osum (map (fun i => den E e (t + i) s) (zrange za (zb + 1)))) /\
  ((zb < za)%Z -> forall t s, den E e' t s = Some 0%Qc).
Proof.
  intros E d ev sp e a b za zb e' HN HW HR HE HT HS HS0 Ha Hb He.
  assert (H : forall t s, den E e' t s = osum (map (fun i => den E e (t + i) s) (zrange za (zb + 1)))).
  { intros t s.
    rewrite (C10_expansion_preserves_meaning False E d ev sp _ e' HN HW (False_ind _) HR HE HT HS HS0 He).
    cbn [den]. unfold evaluator_sound, time_args in HE. apply VisitorFacts.all_nodes_root in HE.
    destruct HE as [HE1 HE2]. rewrite (HE1 za Ha), (HE2 zb Hb), !oint_Z. reflexivity. }
  split; [exact H|]. intros Hlt t s. rewrite H, zrange_empty by lia. reflexivity.
Qed.
Print Assumptions C10_window_is_inclusive_sum.

Theorem C10_whole_horizon_sum :
  forall (E : env) d ev sp e e',
  component_names_only (AllSum e) -> well_nested False (AllSum e) -> respects sp E ->
  evaluator_sound E ev (AllSum e) ->
  e_T E = timesteps_count d -> e_S E = scenarios_count d -> (0 <= scenarios_count d)%Z ->
  expand_operators (AllSum e) d ev sp = Ok e' ->
  forall t s, den E e' t s = osum (map (fun i => den E e i s) (zrange 0 (timesteps_count d))).
Proof.
  intros E d ev sp e e' HN HW HR HE HT HS HS0 He t s.
  rewrite (C10_expansion_preserves_meaning False E d ev sp _ e' HN HW (False_ind _) HR HE HT HS HS0 He).
  cbn [den]. now rewrite HT.
Qed.
Print Assumptions C10_whole_horizon_sum.

(** The operators as a user writes them: `e.time_sum(a, b)`, `e.time_sum()`, `e.shift(k)`, `e.eval(k)`,
    `e.expec()`; a window with only one end is refused. *)
Theorem C10_written_operators :
  forall (E : env) e a b t s za zb,
  den E a t s = Some (Z2Qc za) -> den E b t s = Some (Z2Qc zb) ->
  (forall w, time_sum e (Some a) (Some b) = Ok w ->
     den E w t s = osum (map (fun i => den E e (t + i) s) (zrange za (zb + 1)))) /\
  (forall w, time_sum e None None = Ok w ->
     den E w t s = osum (map (fun i => den E e i s) (zrange 0 (e_T E)))) /\
  (exists w w', time_sum e (Some a) (Some b) = Ok w /\ time_sum e None None = Ok w') /\
  (exists k k', time_sum e (Some a) None = Err k /\ time_sum e None (Some b) = Err k') /\
  den E (py_shift e a) t s = den E e (t + za) s /\
  den E (py_eval e a) t s = den E e za s /\
  ((0 < e_S E)%Z -> den E (py_expec e) t s =
     olift2 Qcdiv (osum (map (fun w => den E e t w) (zrange 0 (e_S E)))) (Some (Z2Qc (e_S E)))).
Proof.
  intros E e a b t s za zb Ha Hb. split; [|split; [|split; [|split; [|split; [|split]]]]].
  - intros w [= <-]. cbn [den]. rewrite Ha, Hb, !oint_Z. reflexivity.
  - intros w [= <-]. reflexivity.
  - do 2 eexists. split; reflexivity.
  - do 2 eexists. split; reflexivity.
  - cbn [den py_shift]. rewrite Ha, oint_Z. reflexivity.
  - cbn [den py_eval]. rewrite Ha, oint_Z. reflexivity.
  - intros HS. cbn [den py_expec]. unfold omean. destruct (Z.leb_spec (e_S E) 0); [lia|reflexivity].
Qed.
Print Assumptions C10_written_operators.
Example C10_written_example :
  den ex_env (ex_lit (-1)) 4 1 = Some (Z2Qc (-1)) /\ den ex_env (CParam "c" "k") 4 1 = Some (Z2Qc 2) /\
  (exists w, time_sum ex_x (Some (ex_lit (-1))) (Some (CParam "c" "k")) = Ok w /\
             den ex_env w 4 1 = Some (Z2Qc (10 + 11 + 12 + 10))) /\
  den ex_env (py_expec ex_x) 4 1 = Some (Z2Qc 6).
Proof.
  split; [reflexivity|]. split; [reflexivity|]. split.
  2: { vm_compute. f_equal. apply Qc_is_canon. reflexivity. }
  eexists. split; [reflexivity|]. vm_compute. reflexivity.
Qed.

(** sum(t-1 .. t+k, x[t+1] + 1) with the parameter k = 2, in a cyclic world *)
Definition ex_window : expr :=
  TSum (Add [TShift ex_x (ex_lit 1); ex_lit 1]) (Neg (ex_lit 1)) (CParam "c" "k").

Lemma ex_env_cyclic : cyclic ex_env.
Proof.
  split; intros; cbn [ex_env e_cvar e_cpar e_T]; [|reflexivity].
  replace ((t + 3) mod 3)%Z with (t mod 3)%Z; [reflexivity|].
  rewrite <- (Z.mul_1_l 3) at 2. symmetry. rewrite Z.mul_1_l. rewrite <- (Z.mul_1_l 3) at 1.
  now rewrite Z.mod_add.
Qed.
Lemma ex_env_respects : respects ex_sp ex_env.
Proof.
  repeat split; cbn in *; try discriminate;
    injection H as <-; cbn in *; intros; congruence.
Qed.
Lemma ex_window_sound : evaluator_sound ex_env ex_ev ex_window.
Proof.
  unfold evaluator_sound, time_args, ex_window. cbn -[ex_ev den]. repeat split; auto;
    intros z Hz; vm_compute in Hz; injection Hz as <-; intros t s; qcex.
Qed.
Example C10_example :
  component_names_only ex_window /\ well_nested True ex_window /\ cyclic ex_env /\
  respects ex_sp ex_env /\ evaluator_sound ex_env ex_ev ex_window /\
  expandable ex_ev ex_sp ex_window /\
  (exists e', expand_operators ex_window ex_dim ex_ev ex_sp = Ok e' /\
     (* at t = 1, s = 1: (x at 1, 2, 3, 4, plus 1 each) = 11 + 12 + 10 + 11 + 4 = 48 *)
     den ex_env e' 1 1 = Some (Z2Qc 48)).
Proof.
  split; [vm_compute; tauto|]. split; [vm_compute; tauto|].
  split; [apply ex_env_cyclic|]. split; [apply ex_env_respects|].
  split; [apply ex_window_sound|]. split; [vm_compute; tauto|].
  eexists; split; [reflexivity|]. qcex.
Qed.

(** ** C11 *)

(** x[N] in any position that is not below a shift or a window denotes x at N: instance of
    C10_expansion_preserves_meaning.  What is missing: positions below shifts and windows
    (refuted below). *)
Theorem C11_eval_reads_fixed_step_partial :
  forall (E : env) d ev sp e k z e',
  component_names_only (TEval e k) -> well_nested False (TEval e k) -> respects sp E ->
  evaluator_sound E ev (TEval e k) ->
  e_T E = timesteps_count d -> e_S E = scenarios_count d -> (0 <= scenarios_count d)%Z ->
  ev k = Ok z -> expand_operators (TEval e k) d ev sp = Ok e' ->
  forall t s, den E e' t s = den E e z s.
Proof.
  intros E d ev sp e k z e' HN HW HR HE HT HS HS0 Hz He t s.
  rewrite (C10_expansion_preserves_meaning False E d ev sp _ e' HN HW (False_ind _) HR HE HT HS HS0 He).
  cbn [den]. unfold evaluator_sound, time_args in HE. apply VisitorFacts.all_nodes_root in HE.
  rewrite (HE z Hz), oint_Z. reflexivity.
Qed.
Print Assumptions C11_eval_reads_fixed_step_partial.

(** Shifting x[0] by one step reads x[1]: the claim is false in general. *)
Theorem C11_shift_of_eval_refuted :
  exists (E : env) d ev sp e k e' t s,
    component_names_only (TShift (TEval ex_x e) k) /\ cyclic E /\ respects sp E /\
    evaluator_sound E ev (TShift (TEval ex_x e) k) /\
    e_T E = timesteps_count d /\ e_S E = scenarios_count d /\ (0 <= scenarios_count d)%Z /\
    expand_operators (TShift (TEval ex_x e) k) d ev sp = Ok e' /\
    den E (TEval ex_x e) t s = Some (Z2Qc 0) /\ den E e' t s = Some (Z2Qc 1).
Proof.
  exists ex_env, ex_dim, ex_ev, ex_sp, (ex_lit 0), (ex_lit 1),
    (PVar "c" "x" (TimeStep 1) CurrentScenarioIndex), 0%Z, 0%Z.
  split; [vm_compute; tauto|]. split; [apply ex_env_cyclic|]. split; [apply ex_env_respects|].
  split.
  { unfold evaluator_sound, time_args. cbn -[ex_ev den]. repeat split; auto;
    intros z Hz; vm_compute in Hz; injection Hz as <-; intros t s; qcex. }
  repeat split; try reflexivity; try discriminate; try (cbn; lia); qcex.
Qed.
Print Assumptions C11_shift_of_eval_refuted.

(** A pinned time-dependent variable moves with every enclosing shift, always: the expansion of
    (x[N]) shifted by k is x[N+k]. *)
Theorem C11_shift_moves_eval :
  forall d ev sp c n N k zN zk ix,
  ev N = Ok zN -> ev k = Ok zk -> get_component_variable_structure sp c n = Ok ix ->
  ix_time ix = true ->
  exists si, expand_operators (TShift (TEval (CVar c n) N) k) d ev sp =
             Ok (PVar c n (TimeStep (zN + zk)) si).
Proof.
  intros d ev sp c n N k zN zk ix HN Hk Hix Ht. unfold expand_operators. cbn [expand].
  rewrite Hk, HN, Hix. cbn. unfold initial_time_index. rewrite Ht. cbn. eexists. reflexivity.
Qed.
Print Assumptions C11_shift_moves_eval.

(** (x[N])[M] and (sum(x))[M] are rejected instead of denoting x[N] and sum(x). *)
Theorem C11_nested_eval_rejected :
  forall d ev sp c n N M zN zM ix,
  ev N = Ok zN -> ev M = Ok zM -> get_component_variable_structure sp c n = Ok ix ->
  ix_time ix = true ->
  expand_operators (TEval (TEval (CVar c n) N) M) d ev sp = Err ValueError.
Proof.
  intros d ev sp c n N M zN zM ix HN HM Hix Ht. unfold expand_operators. cbn [expand].
  rewrite HM, HN, Hix. cbn. unfold initial_time_index. rewrite Ht. reflexivity.
Qed.
Print Assumptions C11_nested_eval_rejected.

(** x[t+1] evaluated at step 1 reads x at 2 *)
Example C11_example :
  exists e', expand_operators (TEval (TShift ex_x (ex_lit 1)) (ex_lit 1)) ex_dim ex_ev ex_sp = Ok e' /\
    component_names_only (TEval (TShift ex_x (ex_lit 1)) (ex_lit 1)) /\
    well_nested False (TEval (TShift ex_x (ex_lit 1)) (ex_lit 1)) /\
    den ex_env e' 7 1 = Some (Z2Qc 12).
Proof.
  eexists; split; [reflexivity|]. split; [vm_compute; tauto|].
  split; [vm_compute; tauto|]. qcex.
Qed.

(** ** C12 *)
Theorem C12_expectation_is_mean_partial :
  forall (E : env) d ev sp e e',
  component_names_only e -> well_nested False e -> no_scenario_operator e -> respects sp E ->
  evaluator_sound E ev e ->
  e_T E = timesteps_count d -> e_S E = scenarios_count d -> (0 < scenarios_count d)%Z ->
  expand_operators (ScenOp e Expectation) d ev sp = Ok e' ->
  forall t s, den E e' t s =
    olift2 Qcdiv (osum (map (fun w => den E e t w) (zrange 0 (scenarios_count d))))
                 (Some (Z2Qc (scenarios_count d))).
Proof.
  intros E d ev sp e e' HN HW HO HR HE HT HS HS0 He t s.
  rewrite (C10_expansion_preserves_meaning False E d ev sp (ScenOp e Expectation) e'); auto;
    try (split; auto; fail).
  - cbn [den]. unfold omean. rewrite HS. destruct (Z.leb_spec (scenarios_count d) 0); [lia|reflexivity].
  - contradiction.
  - lia.
Qed.
Print Assumptions C12_expectation_is_mean_partial.

(** With zero scenarios the result has no value (it is a division by the literal 0). *)
Theorem C12_zero_scenarios_no_value :
  forall (E : env) d ev sp e e',
  scenarios_count d = 0%Z -> expand_operators (ScenOp e Expectation) d ev sp = Ok e' ->
  forall t s, den E e' t s = None.
Proof.
  intros E d ev sp e e' HS He t s. unfold expand_operators in He. cbn [expand] in He. inv_bind He.
  inv_bind He. injection He as <-. rewrite HS. unfold py_div_num, py_div, wrap_num, nz. cbn [den].
  unfold odiv. destruct (den E (sum_expressions v0) t s); reflexivity.
Qed.
Print Assumptions C12_zero_scenarios_no_value.

(** An expectation inside an expectation loses its own average: E(E(x) * x) is expanded to
    E(x * x). *)
Theorem C12_nested_expectation_refuted :
  exists (E : env) d ev sp e e' t s,
    component_names_only (ScenOp e Expectation) /\ cyclic E /\ respects sp E /\
    (forall P, time_args P e) /\
    e_T E = timesteps_count d /\ e_S E = scenarios_count d /\ (0 < scenarios_count d)%Z /\
    expand_operators (ScenOp e Expectation) d ev sp = Ok e' /\
    den E (ScenOp e Expectation) t s = Some (Z2Qc 25) /\ den E e' t s = Some (Z2Qc 50).
Proof.
  exists ex_env, ex_dim, ex_ev, ex_sp, (Mul (ScenOp ex_x Expectation) ex_x).
  eexists. exists 0%Z, 0%Z.
  split; [vm_compute; tauto|]. split; [apply ex_env_cyclic|]. split; [apply ex_env_respects|].
  split; [intros P; cbn; tauto|]. split; [reflexivity|]. split; [reflexivity|]. split; [reflexivity|].
  split; [reflexivity|]. split; qcex.
Qed.
Print Assumptions C12_nested_expectation_refuted.

(** The variance operator is never expanded: it is rejected. *)
Theorem C12_variance_rejected :
  forall d ev sp e, expand_operators (ScenOp e Variance) d ev sp = Err ValueError.
Proof. reflexivity. Qed.
Print Assumptions C12_variance_rejected.

Example C12_example :
  exists e', expand_operators (ScenOp (Mul ex_x ex_x) Expectation) ex_dim ex_ev ex_sp = Ok e' /\
    component_names_only (Mul ex_x ex_x) /\ well_nested False (Mul ex_x ex_x) /\
    no_scenario_operator (Mul ex_x ex_x) /\ respects ex_sp ex_env /\
    den ex_env e' 1 0 = Some (Z2Qc 61).   (* (1 * 1 + 11 * 11) / 2 *)
Proof.
  eexists; split; [reflexivity|]. split; [vm_compute; tauto|]. split; [vm_compute; tauto|].
  split; [vm_compute; tauto|]. split; [apply ex_env_respects|]. qcex.
Qed.

(** ** C13 *)
Theorem C13_expanded_has_no_operator :
  forall d ev sp e e',
  component_names_only e -> expand_operators e d ev sp = Ok e' -> expanded sp e'.
Proof. intros d ev sp e e' HN He. eapply expand_expanded; eauto. Qed.
Print Assumptions C13_expanded_has_no_operator.

(** No operator of time or scenario survives, whatever the input. *)
Theorem C13_no_operator_whatever_input :
  forall d ev sp e e',
  expand_operators e d ev sp = Ok e' ->
  all_nodes (fun x => match x with
    | TShift _ _ | TEval _ _ | TSum _ _ _ | AllSum _ | ScenOp _ _ | CVar _ _ | CParam _ _ => False
    | _ => True end) e'.
Proof. intros d ev sp e e' He. eapply expand_no_operator; eauto. Qed.
Print Assumptions C13_no_operator_whatever_input.

Example C13_example :
  component_names_only ex_window /\
  exists e', expand_operators ex_window ex_dim ex_ev ex_sp = Ok e' /\ expanded ex_sp e' /\
  length (add_operands e') = 4%nat.
Proof.
  split; [vm_compute; tauto|].
  assert (H : exists e', expand_operators ex_window ex_dim ex_ev ex_sp = Ok e')
    by (eexists; reflexivity).
  destruct H as [e' H]. exists e'. split; [exact H|]. split.
  - eapply C13_expanded_has_no_operator; [|exact H]. vm_compute; tauto.
  - vm_compute in H. injection H as <-. reflexivity.
Qed.
