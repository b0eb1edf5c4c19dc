(** C89: loosening limits. *)
From Coq Require Import Lia.
From Verif Require Import Base BaseFacts Expr Visitors Expansion LinearExpr Linearize Model Study Strategy Optim
  SpecExpr SpecSyntax SpecExpansion SpecLinear SpecModel SpecOptim SpecParts SpecScenarios SpecPrecise ExampleProblem ModelFacts SpecLoose LooseFacts.
Local Open Scope string_scope.
Local Open Scope list_scope.

(** Data with higher upper limits and lower lower limits make the same problem, but for bounds that allow at least as much. *)
Theorem C89_looser :
  forall upper lower o db st, only_limits upper lower (o_network o) -> loosened upper lower o db -> requirements_consistency db (o_network o) = Ok tt ->
  build_problem o = Ok st -> exists st', build_problem (with_database o db) = Ok st' /\ looser_solver (st_solver st) (st_solver st').
Proof. intros upper lower o db st HO HD. exact (limits_loosened upper lower o db HO HD st). Qed.
Print Assumptions C89_looser.

(** So every solution is still one, at the same cost. *)
Theorem C89_solutions :
  forall upper lower o db st, only_limits upper lower (o_network o) -> loosened upper lower o db -> requirements_consistency db (o_network o) = Ok tt ->
  build_problem o = Ok st -> exists st', build_problem (with_database o db) = Ok st' /\
  forall y, solves y (st_solver st) -> solves y (st_solver st') /\ objective_value y (st_solver st') = objective_value y (st_solver st).
Proof.
  intros upper lower o db st HO HD HR H. destruct (limits_loosened upper lower o db HO HD st HR H) as (st' & H' & HL). exists st'. split; [exact H'|].
  intros y Hy. split; [exact (looser_solves _ _ y HL Hy)|exact (looser_cost _ _ y HL)].
Qed.
Print Assumptions C89_solutions.

(** And the optimal cost is not higher than before. *)
Theorem C89_cost :
  forall upper lower o db st st' y y' v v', only_limits upper lower (o_network o) -> loosened upper lower o db ->
  build_problem o = Ok st -> build_problem (with_database o db) = Ok st' ->
  optimal y (st_solver st) -> objective_value y (st_solver st) = Some v -> optimal y' (st_solver st') -> objective_value y' (st_solver st') = Some v' -> (v' <= v)%Qc.
Proof.
  intros upper lower o db st st' y y' v v' HO HD H H' [Hy _] Hv Hy' Hv'.
  assert (HR : requirements_consistency db (o_network o) = Ok tt).
  { unfold build_problem in H'. apply bind_ok in H' as ([] & HR & _). exact HR. }
  destruct (limits_loosened upper lower o db HO HD st HR H) as (st2 & H2 & HL). rewrite H' in H2. injection H2 as <-. exact (looser_better _ _ _ _ _ _ HL Hy Hv Hy' Hv').
Qed.
Print Assumptions C89_cost.

(** ** The generator with more power and a steeper ramp *)
Definition exl_upper (c p : string) : Prop := c = "G" /\ (p = "pmax" \/ p = "ramp").
Definition exl_lower (c p : string) : Prop := False.
Definition exl_database : database :=
  [(("G", "pmax"), TimeSeriesData [(5%Z, nz 150); (6%Z, nz 200)]); (("G", "cost"), ConstantData (nz 7));
   (("G", "ramp"), ConstantData PInf); (("D", "demand"), TimeScenarioSeriesData (map (fun t => [nz (10 * t); nz (10 * t + 5)]) (zrange 0 7)) None)].
Ltac solve_without := unfold without_limits, exl_upper, exl_lower; cbn; intuition (congruence || discriminate).
Lemma exl_limits : only_limits exl_upper exl_lower (o_network exp_settings).
Proof.
  intros c Hc. assert (E : c = exp_n \/ c = exp_g \/ c = exp_d).
  { destruct Hc as [Hc|(k & f & m & Hk & Hm & <-)].
    - vm_compute in Hc. destruct Hc as [<-|[<-|[<-|[]]]]; auto.
    - vm_compute in Hk. destruct Hk as [<-|[<-|[]]]; vm_compute in Hm; destruct Hm as [Hm|[]]; injection Hm as <- <-; auto. }
  clear Hc. destruct E as [-> |[-> | ->]]; (split; [|split; [|split]]).
  - intros v [].
  - intros k [<-|[]]. split; [solve_without|]. split; left; solve_without.
  - intros e [[=]|[=]].
  - intros f d [].
  - intros v [<-|[<-|[]]]; (split; intros e; cbn; [intros [= <-]; left; solve_without|]); [intros [= <-]; right; exists "pmax"; split; [reflexivity|split; auto]|discriminate].
  - intros k [<-|[<-|[]]]; (split; [solve_without|]; split; [left; solve_without|]); [right; exists "ramp"; split; [reflexivity|split; auto]|left; solve_without].
  - intros e [[= <-]|[= <-]]; solve_without.
  - intros f d [[= <- <-]|[]]. solve_without.
  - intros v [].
  - intros k [].
  - intros e [[=]|[=]].
  - intros f d [[= <- <-]|[]]. solve_without.
Qed.
Lemma exl_loosened : loosened exl_upper exl_lower exp_settings exl_database.
Proof.
  split.
  - intros c p H. unfold get_data, exl_database, exp_settings, exp_database. cbn [o_database dget].
    destruct (pfi_eqb (c, p) ("G", "pmax")) eqn:E1; [apply pfi_eqb_eq in E1; injection E1 as -> ->; exfalso; apply H; left; split; auto|].
    destruct (pfi_eqb (c, p) ("G", "cost")); [reflexivity|].
    destruct (pfi_eqb (c, p) ("G", "ramp")) eqn:E2; [apply pfi_eqb_eq in E2; injection E2 as -> ->; exfalso; apply H; left; split; auto|reflexivity].
  - intros c p d [[-> [-> | ->]]|[]] Hd; vm_compute in Hd; injection Hd as <-; eexists; (split; [vm_compute; reflexivity|]); intros t s v Hv.
    + destruct t as [t|]; cbn in Hv |- *; [|discriminate]. destruct (Z.eqb t 5); [injection Hv as <-|destruct (Z.eqb t 6); [injection Hv as <-|discriminate]]; eexists; (split; [reflexivity|split; [reflexivity|intros []]]).
    + injection Hv as <-. eexists. split; [reflexivity|split; [reflexivity|intros []]].
Qed.
Example C89_example :
  only_limits exl_upper exl_lower (o_network exp_settings) /\ loosened exl_upper exl_lower exp_settings exl_database /\
  requirements_consistency exl_database (o_network exp_settings) = Ok tt /\ build_problem exp_settings = Ok exp_built /\
  exists st', build_problem (with_database exp_settings exl_database) = Ok st' /\
  map sv_ub (s_vars (st_solver exp_built)) = [nz 100; nz 100; nz 200; nz 200; PInf] /\ map sv_ub (s_vars (st_solver st')) = [nz 150; nz 150; nz 200; nz 200; PInf].
Proof.
  split; [exact exl_limits|]. split; [exact exl_loosened|]. split; [vm_compute; reflexivity|]. split; [exact exp_builds|].
  eexists. split; [vm_compute; reflexivity|]. split; vm_compute; reflexivity.
Qed.
