(** C88: a problem depends only on what its block reads of the data. *)
From Coq Require Import Lia.
From Verif Require Import Base BaseFacts Expr Visitors Expansion LinearExpr Linearize Model Study Strategy Optim
  SpecExpr SpecSyntax SpecExpansion SpecLinear SpecModel SpecOptim ExampleProblem ModelFacts SpecBlock BlockFacts.
Local Open Scope string_scope.
Local Open Scope list_scope.

(** Other data that give every value which the data gave at the steps of the block, for the scenarios of the problem,
    make the very same problem, whatever they are at other times and for other scenarios, wherever the block is in
    the year, and whether they are constants, series or matrices; all that is asked of them is to pass the check
    made on all data. *)
Theorem C88_kept :
  forall o block db st, (1 <= o_scenarios o)%Z -> gives_as_much o block db -> requirements_consistency db (o_network o) = Ok tt ->
  build_problem o = Ok st -> build_problem (with_block o block db) = Ok st.
Proof. intros o block db st HS HG HR. exact (block_data_kept o block db HS HG HR st). Qed.
Print Assumptions C88_kept.

(** So two blocks that read the same values make the same problem, or none of them makes one. *)
Theorem C88_same :
  forall o block db, (1 <= o_scenarios o)%Z -> requirements_consistency db (o_network o) = Ok tt -> requirements_consistency (o_database o) (o_network o) = Ok tt ->
  gives_as_much o block db -> gives_as_much (with_block o block db) (o_block o) (o_database o) ->
  forall st, build_problem o = Ok st <-> build_problem (with_block o block db) = Ok st.
Proof. exact block_data_same. Qed.
Print Assumptions C88_same.

(** In particular a block with data some timesteps later makes the same problem. *)
Theorem C88_moved :
  forall k o, (1 <= o_scenarios o)%Z -> Forall (fun t => 0 <= t)%Z (o_block o) ->
  forall st, build_problem o = Ok st <-> build_problem (with_block o (moved_block k (o_block o)) (moved_data k (o_database o))) = Ok st.
Proof. exact block_moved. Qed.
Print Assumptions C88_moved.

(** ** The problem of the generator and the load, at the start of the year: no earlier rows, more scenarios than are
    simulated, a later value that is never read, the constant cost and ramp unchanged *)
Definition exb_database : database :=
  [(("D", "demand"), TimeScenarioSeriesData [[nz 50; nz 55; nz 99]; [nz 60; nz 65; nz 98]; [NaN; NaN; NaN]] None);
   (("G", "pmax"), TimeSeriesData [(0%Z, nz 100); (1%Z, nz 200); (2%Z, nz 300)]); (("G", "cost"), ConstantData (nz 7)); (("G", "ramp"), ConstantData (nz 50))].
Lemma exb_gives : gives_as_much exp_settings [0%Z; 1%Z] exb_database.
Proof.
  split; [reflexivity|]. intros c n d Hd. unfold get_data in Hd. destruct (dget pfi_eqb (c, n) (o_database exp_settings)) as [d0|] eqn:E; [|discriminate]. injection Hd as ->.
  apply (dget_In pfi_eqb pfi_eqb_eq) in E. cbn in E.
  assert (HB : forall i a a', nth_error (o_block exp_settings) i = Some a -> nth_error [0%Z; 1%Z] i = Some a' -> (a = 5 /\ a' = 0)%Z \/ (a = 6 /\ a' = 1)%Z).
  { intros [|[|[|i]]] a a'; cbn; intros [= <-] [= <-]; auto. }
  assert (HS : forall z, (0 <= z < 2)%Z -> z = 0%Z \/ z = 1%Z) by lia.
  destruct E as [E|[E|[E|[E|[]]]]]; injection E as <- <- <-; eexists; (split; [vm_compute; reflexivity|]); intros s v Hs; (split; [auto|]); intros i a a' Ha Ha'; destruct (HB i a a' Ha Ha') as [[-> ->]|[-> ->]]; auto.
  all: destruct s as [z|]; [|discriminate]; cbn [simulated] in Hs; destruct (HS z Hs) as [-> | ->]; intros Hv; vm_compute in Hv |- *; exact Hv.
Qed.
Example C88_example :
  (1 <= o_scenarios exp_settings)%Z /\ gives_as_much exp_settings [0%Z; 1%Z] exb_database /\ requirements_consistency exb_database (o_network exp_settings) = Ok tt /\
  build_problem exp_settings = Ok exp_built /\ Forall (fun t => 0 <= t)%Z (o_block exp_settings) /\
  moved_block 3 (o_block exp_settings) = [8%Z; 9%Z] /\
  build_problem (with_block exp_settings [0%Z; 1%Z] exb_database) = Ok exp_built /\
  build_problem (with_block exp_settings [1%Z; 0%Z] exb_database) <> Ok exp_built.
Proof.
  split; [cbn; lia|]. split; [exact exb_gives|]. split; [vm_compute; reflexivity|]. split; [exact exp_builds|]. split; [repeat constructor; lia|]. split; [reflexivity|].
  split; [vm_compute; reflexivity|]. intros H. vm_compute in H. discriminate H.
Qed.
