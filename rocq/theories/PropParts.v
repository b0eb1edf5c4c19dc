(** C78: a system made of two parts that are not connected.  C79: data of other components do not matter. *)
From Coq Require Import Lia Permutation.
From Verif Require Import Base BaseFacts Expr Visitors LinearExpr Model Study Strategy Optim System Library
  Main SpecExpr SpecModel SpecLibrary SpecSystem SpecLinear SpecOptim SpecFusion SpecMain MainFacts PropMain SystemFacts
  SpecOrder OrderProblem OrderFiles PropOrder PropDecompose SpecParts PartsFacts DataFacts PartsFiles.
Local Open Scope string_scope.
Local Open Scope list_scope.

(** ** The studies of the examples: the study of [PropMain] and a second one, with a larger demand *)
Definition exq_component id model ps : input_component := {| ic_id := id; ic_model := model; ic_group := None; ic_parameters := Some ps |}.
Definition exq_east : input_system := {|
  is_nodes := [exq_component "E" "types.bus" []];
  is_components := [exo_generator "G1" 30; exo_generator "G2" 40; exq_component "D1" "models.load" [exm_parameter "demand" true true (inr "demand")]];
  is_connections := [exo_link "E" "G1"; exo_link "D1" "E"; exo_link "G2" "E"] |}.
Definition exq_west : input_system := {|
  is_nodes := [exq_component "W" "types.bus" []];
  is_components := [exq_component "D2" "models.load" [exm_parameter "demand" true true (inr "more")]; exo_generator "G3" 20];
  is_connections := [exo_link "W" "G3"; exo_link "D2" "W"] |}.
Definition exq_files (name : string) : result frame :=
  if String.eqb name "more" then Ok [[nz 55; nz 65]; [nz 72; nz 45]] else exm_files name.
Definition exq_state (i : input_system) : state :=
  match main_cli exm_order exm_libs i exq_files 2 1 with Ok (_, st) => st | Err _ => initial_state end.
Definition exq_settings (i : input_system) : settings :=
  match main_cli exm_order exm_libs i exq_files 2 1 with Ok (o, _) => o | Err _ => main_settings (new_network "") [] 1 1 end.
Definition exq_runs (i : input_system) : Prop := main_cli exm_order exm_libs i exq_files 2 1 = Ok (exq_settings i, exq_state i).
Lemma exq_run i : match main_cli exm_order exm_libs i exq_files 2 1 with Ok _ => true | Err _ => false end = true -> exq_runs i.
Proof. unfold exq_runs, exq_settings, exq_state. now destruct (main_cli _ _ _ _ _ _) as [[o st]|]. Qed.
Lemma exq_ids : NoDup (input_ids (put_together exq_east exq_west)).
Proof. repeat constructor; cbn; intuition discriminate. Qed.
Lemma exq_contained : contained_file exq_east /\ contained_file exq_west.
Proof. split; intros k Hk; cbn in Hk; intuition (subst k; cbn; tauto). Qed.

(** ** Networks *)
(** a network made of two parts gives a problem exactly when both parts do *)
Theorem C78_builds : forall o n1 n2, usable_block o -> side_by_side n1 n2 (o_network o) -> part n1 -> part n2 -> distinct_ids (o_network o) ->
  (exists st, build_problem o = Ok st) <->
  (exists st1, build_problem (with_network o n1) = Ok st1) /\ (exists st2, build_problem (with_network o n2) = Ok st2).
Proof.
  intros o n1 n2 Hu Hs H1 H2 Hd. split.
  - intros [st H]. exact (parts_built o n1 n2 Hu Hs H1 H2 Hd st H).
  - intros [[st1 B1] [st2 B2]]. exact (whole_built o n1 n2 Hu Hs H1 H2 Hd st1 st2 B1 B2).
Qed.
Print Assumptions C78_builds.
(** the columns, rows and objective are those of both parts, and nothing else *)
Theorem C78_side_by_side : forall o n1 n2 st st1 st2,
  usable_block o -> side_by_side n1 n2 (o_network o) -> part n1 -> part n2 -> distinct_ids (o_network o) ->
  build_problem o = Ok st -> build_problem (with_network o n1) = Ok st1 -> build_problem (with_network o n2) = Ok st2 ->
  exists f1 f2, union_of f1 f2 (st_solver st1) (st_solver st2) (st_solver st).
Proof. intros o n1 n2 st st1 st2 Hu Hs H1 H2 Hd. exact (united o n1 n2 Hu Hs H1 H2 Hd st st1 st2). Qed.
Print Assumptions C78_side_by_side.

(** ** Meaning *)
(** values are allowed when each part allows them, and they cost what they cost in both parts *)
Theorem C78_meaning : forall f1 f2 s1 s2 s, union_of f1 f2 s1 s2 s ->
  Permutation (s_vars s) (s_vars s1 ++ s_vars s2) /\
  (forall y, allowed y s <-> allowed y s1 /\ allowed y s2) /\
  (forall y, objective_at y s = olift2 Qcplus (objective_at y s1) (objective_at y s2)).
Proof.
  intros f1 f2 s1 s2 s U. split; [exact (columns_both f1 f2 s1 s2 s U)|]. split; intros y; [exact (allowed_both f1 f2 s1 s2 s U y)|exact (objective_both f1 f2 s1 s2 s U y)].
Qed.
Print Assumptions C78_meaning.
(** the cheapest values of the whole are the cheapest values of each part *)
Theorem C78_cheapest : forall f1 f2 s1 s2 s, union_of f1 f2 s1 s2 s ->
  (forall v1 v2, In v1 (s_vars s1) -> In v2 (s_vars s2) -> sv_name v1 <> sv_name v2) ->
  forall y, cheapest y s <-> cheapest y s1 /\ cheapest y s2.
Proof.
  intros f1 f2 s1 s2 s U HA y. split; [exact (cheapest_down f1 f2 s1 s2 s U y HA)|]. intros [C1 C2]. exact (cheapest_up f1 f2 s1 s2 s U y C1 C2).
Qed.
Print Assumptions C78_cheapest.

(** ** Files *)
(** two systems that can be run alone can be run together, and give the two problems side by side *)
Theorem C78_files : forall i1 i2 order libs files T S o1 st1 o2 st2, any_order order -> (1 <= T)%Z -> NoDup (input_ids (put_together i1 i2)) ->
  main_cli order libs i1 files T S = Ok (o1, st1) -> main_cli order libs i2 files T S = Ok (o2, st2) ->
  exists o st f1 f2, main_cli order libs (put_together i1 i2) files T S = Ok (o, st) /\
    side_by_side (o_network o1) (o_network o2) (o_network o) /\ union_of f1 f2 (st_solver st1) (st_solver st2) (st_solver st).
Proof. intros i1 i2 order libs files T S o1 st1 o2 st2 Ho HT D. exact (run_together i1 i2 D order libs files T S Ho HT o1 st1 o2 st2). Qed.
Print Assumptions C78_files.
(** and conversely *)
Theorem C78_files_back : forall i1 i2 order libs files T S o st, any_order order -> (1 <= T)%Z -> NoDup (input_ids (put_together i1 i2)) ->
  contained_file i1 -> contained_file i2 -> main_cli order libs (put_together i1 i2) files T S = Ok (o, st) ->
  (exists o1 st1, main_cli order libs i1 files T S = Ok (o1, st1)) /\ (exists o2 st2, main_cli order libs i2 files T S = Ok (o2, st2)).
Proof. intros i1 i2 order libs files T S o st Ho HT D C1 C2. exact (run_apart i1 i2 D order libs files T S Ho HT o st C1 C2). Qed.
Print Assumptions C78_files_back.

(** both studies run; the columns of the whole are not in the order of the parts *)
Example C78_files_example : any_order exm_order /\ NoDup (input_ids (put_together exq_east exq_west)) /\ contained_file exq_east /\ contained_file exq_west /\
  exq_runs exq_east /\ exq_runs exq_west /\ exq_runs (put_together exq_east exq_west) /\
  map sv_name (s_vars (st_solver (exq_state exq_east))) = ["G1_p_t0"; "G1_p_t1"; "G1_on"; "G2_p_t0"; "G2_p_t1"; "G2_on"] /\
  map sv_name (s_vars (st_solver (exq_state exq_west))) = ["G3_p_t0"; "G3_p_t1"; "G3_on"] /\
  map sr_name (s_rows (st_solver (exq_state (put_together exq_east exq_west)))) =
    ["E_balance_t0_s0"; "E_balance_t1_s0"; "W_balance_t0_s0"; "W_balance_t1_s0"; "G1_ramp_t0_s0"; "G1_ramp_t1_s0"; "G2_ramp_t0_s0"; "G2_ramp_t1_s0";
     "G3_ramp_t0_s0"; "G3_ramp_t1_s0"].
Proof.
  split; [exact exm_any_order|]. split; [exact exq_ids|]. split; [apply exq_contained|]. split; [apply exq_contained|].
  split; [apply exq_run; vm_compute; reflexivity|]. split; [apply exq_run; vm_compute; reflexivity|]. split; [apply exq_run; vm_compute; reflexivity|].
  repeat split; vm_compute; reflexivity.
Qed.
(** the same, as networks *)
Lemma exq_network i : any_order exm_order -> NoDup (input_ids i) -> exq_runs i -> part (o_network (exq_settings i)).
Proof.
  intros Ho N R. destruct (MainNeeds.run_steps _ _ _ _ _ _ _ _ R) as (out & s & db & n & H0 & Rs & Db & B & E & Q). rewrite E. cbn.
  exact (file_part exm_order exm_libs Ho i out s n N H0 Rs B).
Qed.
Lemma ran {A B} (x : result B) (a c : A) (b : B) : (st <- x ;; Ok (a, st)) = Ok (c, b) -> a = c /\ x = Ok b.
Proof. destruct x as [y|e]; cbn; [|discriminate]. intros H. injection H as -> ->. auto. Qed.
Example C78_example : exists o n1 n2 st st1 st2 f1 f2 y, usable_block o /\ side_by_side n1 n2 (o_network o) /\ part n1 /\ part n2 /\ distinct_ids (o_network o) /\
  build_problem o = Ok st /\ build_problem (with_network o n1) = Ok st1 /\ build_problem (with_network o n2) = Ok st2 /\
  union_of f1 f2 (st_solver st1) (st_solver st2) (st_solver st) /\
  (forall v1 v2, In v1 (s_vars (st_solver st1)) -> In v2 (s_vars (st_solver st2)) -> sv_name v1 <> sv_name v2) /\
  allowed y (st_solver st) /\ objective_at y (st_solver st) = Some (Q2Qc 6140).
Proof.
  assert (HT : (1 <= 2)%Z) by lia. destruct C78_files_example as (Ho & D & _ & _ & R1 & R2 & R & _).
  destruct (MainNeeds.run_steps _ _ _ _ _ _ _ _ R1) as (out & s1 & db1 & n1 & H0 & A1 & A2 & A3 & A4 & A5).
  destruct (MainNeeds.run_steps _ _ _ _ _ _ _ _ R2) as (out' & s2 & db2 & n2 & H0' & B1 & B2 & B3 & B4 & B5). assert (out' = out) as -> by congruence.
  destruct (pieces exq_east exq_west D exm_order exm_libs exq_files 2 1 Ho out s1 s2 n1 n2 db1 db2 H0 A1 A3 A2 B1 B3 B2) as (s & n & db & Rs & Bs & Db & Hs & Hd & P1 & P2 & L1 & L2).
  pose proof (main_usable 2 1 HT n db) as Hu. rewrite A4, L1 in A5. rewrite B4, L2 in B5.
  assert (E : main_settings n db 2 1 = exq_settings (put_together exq_east exq_west) /\ build_problem (main_settings n db 2 1) = Ok (exq_state (put_together exq_east exq_west))).
  { apply (ran _ _ _ _ (eq_trans (eq_sym (runs exm_order exm_libs exq_files 2 1 Ho _ _ _ _ _ H0 Rs Bs Db)) R)). }
  destruct E as [E1 E2].
  destruct (C78_side_by_side _ n1 n2 _ _ _ Hu Hs P1 P2 Hd E2 A5 B5) as (f1 & f2 & U).
  exists (main_settings n db 2 1), n1, n2, (exq_state (put_together exq_east exq_west)), (exq_state exq_east), (exq_state exq_west), f1, f2.
  exists (fun x => if String.eqb x "G1_p_t0" then Q2Qc 50 else if String.eqb x "G1_p_t1" then Q2Qc 70 else if String.eqb x "G3_p_t0" then Q2Qc 55 else if String.eqb x "G3_p_t1" then Q2Qc 72 else 0%Qc).
  repeat (split; [assumption|]). split; [|split; [split|]].
  - intros v1 v2 I1 I2. apply (in_map sv_name) in I1. apply (in_map sv_name) in I2. intros Eq. rewrite Eq in I1. clear Eq.
    assert (X : existsb (fun a => existsb (String.eqb a) (map sv_name (s_vars (st_solver (exq_state exq_east))))) (map sv_name (s_vars (st_solver (exq_state exq_west)))) = false) by (vm_compute; reflexivity).
    assert (Y : existsb (fun a => existsb (String.eqb a) (map sv_name (s_vars (st_solver (exq_state exq_east))))) (map sv_name (s_vars (st_solver (exq_state exq_west)))) = true); [|congruence].
    apply existsb_exists. exists (sv_name v2). split; [exact I2|]. apply existsb_exists. exists (sv_name v2). split; [exact I1|apply String.eqb_refl].
  - apply feasible_checked. vm_compute. reflexivity.
  - intros v Hv _. generalize (sv_name v). intros x. cbv beta. repeat (destruct (String.eqb x _); [eexists; reflexivity|]). exists 0%Z. reflexivity.
  - vm_compute. reflexivity.
Qed.

(** an id in both files stands for one component only *)
Theorem C78_duplicate_refuted : exists i1 i2 o1 st1 o2 st2 o st,
  main_cli exm_order exm_libs i1 exq_files 2 1 = Ok (o1, st1) /\ main_cli exm_order exm_libs i2 exq_files 2 1 = Ok (o2, st2) /\
  main_cli exm_order exm_libs (put_together i1 i2) exq_files 2 1 = Ok (o, st) /\
  List.length (s_vars (st_solver st)) <> (List.length (s_vars (st_solver st1)) + List.length (s_vars (st_solver st2)))%nat.
Proof.
  exists exq_west, exq_west. do 6 eexists. split; [apply exq_run; vm_compute; reflexivity|]. split; [apply exq_run; vm_compute; reflexivity|].
  split; [apply exq_run; vm_compute; reflexivity|]. vm_compute. discriminate.
Qed.
Print Assumptions C78_duplicate_refuted.

(** ** C79: data *)
(** data bases with the same data for the components of the network give the same problem, or the same error *)
Theorem C79_data : forall o db, built_network (o_network o) -> self_contained (o_network o) ->
  (forall c p, In c (map co_id (all_components (o_network o))) -> get_data db c p = get_data (o_database o) c p) ->
  build_problem (with_database o db) = build_problem o.
Proof. intros o db Hb Hs HD. symmetry. exact (data_local o db Hb Hs HD). Qed.
Print Assumptions C79_data.
(** data added for something that is not in the network *)
Theorem C79_added : forall o c p d, built_network (o_network o) -> self_contained (o_network o) ->
  ~ In c (map co_id (all_components (o_network o))) ->
  build_problem (with_database o (add_data c p d (o_database o))) = build_problem o.
Proof.
  intros o c p d Hb Hs Hc. apply C79_data; auto. intros c' p' Hc'. apply get_add_other. intros E. injection E as -> _. contradiction.
Qed.
Print Assumptions C79_added.
(** a data base with data of the other system as well *)
Definition exq_data : database := o_database (exq_settings (put_together exq_east exq_west)).
Example C79_data_example : let o := exq_settings exq_east in
  built_network (o_network o) /\ self_contained (o_network o) /\
  (forall c p, In c (map co_id (all_components (o_network o))) -> get_data exq_data c p = get_data (o_database o) c p) /\
  get_data exq_data "G3" "cost" = Ok (ConstantData (nz 20)) /\ get_data (o_database o) "G3" "cost" = Err KeyError /\
  build_problem o = Ok (exq_state exq_east).
Proof.
  destruct C78_files_example as (Ho & D & _ & _ & R1 & R2 & R & _).
  destruct (exq_network exq_east Ho (ids_1 _ _ D) R1) as (Hb & _ & Hs). cbv zeta. split; [exact Hb|]. split; [exact Hs|].
  destruct (MainNeeds.run_steps _ _ _ _ _ _ _ _ R1) as (out & s1 & db1 & n1 & H0 & A1 & A2 & A3 & A4 & A5).
  destruct (MainNeeds.run_steps _ _ _ _ _ _ _ _ R2) as (out' & s2 & db2 & n2 & _ & _ & B2 & _).
  destruct (MainNeeds.run_steps _ _ _ _ _ _ _ _ R) as (out'' & s & db & n & _ & _ & C2 & _ & C4 & _).
  split; [|split; [vm_compute; reflexivity|split; [vm_compute; reflexivity|]]].
  - intros c p Hc. unfold exq_data. rewrite C4. rewrite A4 in Hc |- *. cbn [main_settings o_network o_database] in Hc |- *. destruct (data_both _ _ D _ _ _ A2 B2) as (db' & Db' & G & _).
    assert (db' = db) as <- by congruence. apply G. now apply (network_ids exq_east out s1 n1 (ids_1 _ _ D) A1 A3).
  - exact A5.
Qed.
