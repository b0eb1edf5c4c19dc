(** C71: the order in which nodes, components, connections and libraries are given does not matter. *)
From Coq Require Import Lia Permutation.
From Verif Require Import Base BaseFacts Expr Visitors LinearExpr Model Study Strategy Optim System Library
  Main SpecExpr SpecModel SpecLibrary SpecSystem SpecLinear SpecOptim SpecFusion SpecMain MainFacts PropMain SystemFacts
  SpecOrder OrderProblem OrderFiles.
Local Open Scope string_scope.
Local Open Scope list_scope.

(** ** The study of the examples, with a second generator *)
Definition exo_generator id cost : input_component :=
  {| ic_id := id; ic_model := "models.generator"; ic_group := None;
     ic_parameters := Some [exm_parameter "cost" false false (inl (nz cost)); exm_parameter "p_max" true false (inr "p_max")] |}.
Definition exo_load : input_component :=
  {| ic_id := "D"; ic_model := "models.load"; ic_group := None;
     ic_parameters := Some [exm_parameter "demand" true true (inr "demand")] |}.
Definition exo_link a b : input_connection := {| icn_component1 := a; icn_port1 := "port"; icn_component2 := b; icn_port2 := "port" |}.
Definition exo_system : input_system := {|
  is_nodes := is_nodes exm_system; is_components := [exo_generator "G" 30; exo_generator "H" 40; exo_load];
  is_connections := [exo_link "N" "G"; exo_link "D" "N"; exo_link "N" "H"] |}.
Definition exo_reversed : input_system := {|
  is_nodes := is_nodes exm_system; is_components := [exo_load; exo_generator "H" 40; exo_generator "G" 30];
  is_connections := [exo_link "N" "H"; exo_link "D" "N"; exo_link "N" "G"] |}.
Lemma exo_reordered : reordered_file exo_system exo_reversed.
Proof.
  split; [reflexivity|]. split; cbn.
  - exact (Permutation_rev [exo_generator "G" 30; exo_generator "H" 40; exo_load]).
  - exact (Permutation_rev [exo_link "N" "G"; exo_link "D" "N"; exo_link "N" "H"]).
Qed.
Lemma exo_ids : NoDup (input_ids exo_system).
Proof. repeat constructor; cbn; intuition discriminate. Qed.
Lemma exo_no_clash : no_clash exm_libs [].
Proof.
  assert (G : forall a k t, usable exm_libs [] a k t -> k = "flow" /\ t = {| pt_id := "flow"; pt_fields := ["flow"] |}).
  { intros a k t H. induction H as [a p k t []|a l t Hl E Ht|a b k t _ _ IH]; [|exact IH].
    cbn in Hl. destruct Hl as [<-|[<-|[]]]; cbn in Ht; [destruct Ht|]. destruct Ht as [<-|[]]. split; reflexivity. }
  intros a k t t' H H'. apply G in H, H'. destruct H, H'. congruence.
Qed.
Definition exo_columns (sys : input_system) : result (list string) :=
  r <- main_cli exm_order (rev exm_libs) sys exm_files 2 1 ;; Ok (map sv_name (s_vars (st_solver (snd r)))).

(** ** The problem *)
(** the problems of two networks with the same nodes, components and connections are the same linear program up to
    the order of its columns, rows and terms *)
Theorem C71_order : forall o o' st, reordered_settings o o' -> usable_block o -> sound_network (o_network o) ->
  build_problem o = Ok st ->
  exists st' f, build_problem o' = Ok st' /\ same_program f (st_solver st) (st_solver st').
Proof. intros o o' st Hr Hu (Hb & Hd & Hn & Hc) H. exact (reordered_built o o' Hr Hu Hb Hd Hn Hc st H). Qed.
Print Assumptions C71_order.

(** one can be built if and only if the other can *)
Theorem C71_builds : forall o o', reordered_settings o o' -> usable_block o -> sound_network (o_network o) ->
  built_network (o_network o') ->
  (exists st, build_problem o = Ok st) <-> (exists st', build_problem o' = Ok st').
Proof.
  intros o o' Hr Hu Hs Hb'. split; intros [st H].
  - destruct (C71_order o o' st Hr Hu Hs H) as (st' & f & H' & _). eauto.
  - destruct (C71_order o' o st) as (st' & f & H' & _); eauto.
    + now apply reordered_settings_sym.
    + now apply (reordered_usable o).
    + apply (reordered_sound (o_network o)); auto. apply Hr.
Qed.
Print Assumptions C71_builds.

(** the same columns; the same values of the named variables are allowed and cost the same *)
Theorem C71_meaning : forall o o' st st', reordered_settings o o' -> usable_block o -> sound_network (o_network o) ->
  build_problem o = Ok st -> build_problem o' = Ok st' ->
  Permutation (s_vars (st_solver st)) (s_vars (st_solver st')) /\
  (forall y, feasible y (st_solver st) <-> feasible y (st_solver st')) /\
  (forall y, objective_value (by_name (st_solver st) y) (st_solver st) = objective_value (by_name (st_solver st') y) (st_solver st')).
Proof.
  intros o o' st st' Hr Hu Hs H H'. destruct (C71_order o o' st Hr Hu Hs H) as (st2 & f & H2 & S).
  assert (st2 = st') by congruence. subst st2.
  split; [exact (same_columns f _ _ S)|]. split; intros y; [exact (same_feasible f _ _ S y)|exact (same_objective f _ _ S y)].
Qed.
Print Assumptions C71_meaning.

(** ** The files *)
(** a study whose libraries, nodes, components and connections are given in another order runs as well, and solves the
    same linear program *)
Theorem C71_files : forall order order' libs libs' sys sys' files T S o st,
  any_order order -> any_order order' -> Permutation libs libs' -> no_clash libs [] ->
  reordered_file sys sys' -> NoDup (input_ids sys) -> (1 <= T)%Z ->
  main_cli order libs sys files T S = Ok (o, st) ->
  exists o' st' f, main_cli order' libs' sys' files T S = Ok (o', st') /\ reordered_settings o o' /\
    same_program f (st_solver st) (st_solver st').
Proof. exact run_reordered. Qed.
Print Assumptions C71_files.
(** two generators, given in both orders; the columns are in another order *)
Example C71_files_example : any_order exm_order /\ Permutation exm_libs (rev exm_libs) /\ no_clash exm_libs [] /\
  reordered_file exo_system exo_reversed /\ NoDup (input_ids exo_system) /\
  exo_columns exo_system = Ok ["G_p_t0"; "G_p_t1"; "G_on"; "H_p_t0"; "H_p_t1"; "H_on"] /\
  exo_columns exo_reversed = Ok ["H_p_t0"; "H_p_t1"; "H_on"; "G_p_t0"; "G_p_t1"; "G_on"].
Proof.
  split; [exact exm_any_order|]. split; [apply Permutation_rev|]. split; [exact exo_no_clash|]. split; [exact exo_reordered|].
  split; [exact exo_ids|]. split; vm_compute; reflexivity.
Qed.
(** the settings of these two runs meet the hypotheses of [C71_order], [C71_builds] and [C71_meaning] *)
Example C71_order_example : exists o o' st, reordered_settings o o' /\ usable_block o /\ sound_network (o_network o) /\
  built_network (o_network o') /\ build_problem o = Ok st /\ n_components (o_network o) <> n_components (o_network o') /\
  List.length (s_rows (st_solver st)) = 6%nat.
Proof.
  assert (HT : (1 <= 2)%Z) by lia.
  destruct (main_cli exm_order exm_libs exo_system exm_files 2 1) as [[o st]|e] eqn:E; [|vm_compute in E; discriminate].
  destruct (C71_files exm_order exm_order exm_libs exm_libs exo_system exo_reversed exm_files 2 1 o st exm_any_order exm_any_order
    (Permutation_refl _) exo_no_clash exo_reordered exo_ids HT E) as (o' & st' & f & E' & R & _).
  destruct (run_sound _ _ _ _ _ _ _ _ exm_any_order exo_ids HT E) as [U S].
  assert (D' : NoDup (input_ids exo_reversed)) by (repeat constructor; cbn; intuition discriminate).
  destruct (run_sound _ _ _ _ _ _ _ _ exm_any_order D' HT E') as [_ [B _]].
  exists o, o', st. split; [exact R|]. split; [exact U|]. split; [exact S|]. split; [exact B|].
  destruct (MainNeeds.run_steps _ _ _ _ _ _ _ _ E) as (_ & _ & _ & _ & _ & _ & _ & _ & _ & H).
  split; [exact H|]. clear H.
  assert (X : match main_cli exm_order exm_libs exo_system exm_files 2 1, main_cli exm_order exm_libs exo_reversed exm_files 2 1 with
    | Ok (o, st), Ok (o', _) => Nat.eqb (List.length (s_rows (st_solver st))) 6 &&
        negb (String.eqb (String.concat "" (map fst (n_components (o_network o)))) (String.concat "" (map fst (n_components (o_network o'))))) | _, _ => false end = true)
    by (vm_compute; reflexivity).
  rewrite E, E' in X. apply andb_true_iff in X. destruct X as [X1 X2]. split; [|now apply Nat.eqb_eq].
  intros Q. rewrite Q, String.eqb_refl in X2. discriminate.
Qed.

(** two entries with the same id: the last one counts, so that their order matters *)
Definition exo_twice a b : input_system := {|
  is_nodes := is_nodes exm_system; is_components := [exo_generator "G" a; exo_generator "G" b; exo_load];
  is_connections := [exo_link "N" "G"; exo_link "D" "N"] |}.
Theorem C71_duplicate_refuted : exists libs sys sys' o st o' st' y,
  reordered_file sys sys' /\ no_clash libs [] /\
  main_cli exm_order libs sys exm_files 1 1 = Ok (o, st) /\ main_cli exm_order libs sys' exm_files 1 1 = Ok (o', st') /\
  objective_value (by_name (st_solver st) y) (st_solver st) <> objective_value (by_name (st_solver st') y) (st_solver st').
Proof.
  destruct (main_cli exm_order exm_libs (exo_twice 30 40) exm_files 1 1) as [[o st]|e] eqn:E; [|vm_compute in E; discriminate].
  destruct (main_cli exm_order exm_libs (exo_twice 40 30) exm_files 1 1) as [[o' st']|e] eqn:E'; [|vm_compute in E'; discriminate].
  exists exm_libs, (exo_twice 30 40), (exo_twice 40 30), o, st, o', st', (fun _ => 1%Qc).
  split; [split; [reflexivity|split; [apply perm_swap|reflexivity]]|]. split; [exact exo_no_clash|].
  split; [exact E|]. split; [exact E'|].
  assert (X : match main_cli exm_order exm_libs (exo_twice 30 40) exm_files 1 1, main_cli exm_order exm_libs (exo_twice 40 30) exm_files 1 1 with
    | Ok (_, st), Ok (_, st') =>
       match objective_value (by_name (st_solver st) (fun _ => 1%Qc)) (st_solver st),
             objective_value (by_name (st_solver st') (fun _ => 1%Qc)) (st_solver st') with
       | Some a, Some b => negb (Qc_eq_bool a b) | _, _ => false end
    | _, _ => false end = true) by (vm_compute; reflexivity).
  rewrite E, E' in X. intros Q. rewrite Q in X. destruct (objective_value _ _) as [a|]; [|discriminate].
  unfold Qc_eq_bool in X. destruct (Qc_eq_dec a a); [discriminate|contradiction].
Qed.
Print Assumptions C71_duplicate_refuted.
