(** What follows for the plans of an Antares study (see PropAntaresExact.v). *)
From Coq Require Import Lia.
From Verif Require Import Base BaseFacts Expr LinearExpr Study Optim System Library Main SpecExpr SpecLibrary SpecSystem SpecLinear SpecOptim
  SpecMain SpecPypsa PypsaFacts Thermal Antares SpecThermal SpecAntares AntaresFacts AntaresStudy SpecScenarios SpecPrecise SpecAntaresExact.
Local Open Scope string_scope.
Local Open Scope list_scope.

(** ** Sums *)
Lemma qsum_add {A} (f g : A -> Qc) l : qsum (fun a => (f a + g a)%Qc) l = (qsum f l + qsum g l)%Qc.
Proof. induction l as [|a l IH]; cbn [qsum fold_right]; [ring|]. unfold qsum in IH. rewrite IH. ring. Qed.
Lemma qsum_opp {A} (f : A -> Qc) l : qsum (fun a => (- f a)%Qc) l = (- qsum f l)%Qc.
Proof. induction l as [|a l IH]; cbn [qsum fold_right]; [ring|]. unfold qsum in IH. rewrite IH. ring. Qed.
Lemma qsum_scale {A} c (f : A -> Qc) l : qsum (fun a => (c * f a)%Qc) l = (c * qsum f l)%Qc.
Proof. induction l as [|a l IH]; cbn [qsum fold_right]; [ring|]. unfold qsum in IH. rewrite IH. ring. Qed.
Lemma qsum_swap {A B} (f : A -> B -> Qc) l l' : qsum (fun a => qsum (f a) l') l = qsum (fun b => qsum (fun a => f a b) l) l'.
Proof.
  induction l as [|a l IH]; [symmetry; apply qsum_zero|]. change (qsum (f a) l' + qsum (fun a => qsum (f a) l') l = qsum (fun b => f a b + qsum (fun a => f a b) l) l')%Qc.
  now rewrite qsum_add, IH.
Qed.
Lemma qsum_le {A} (f g : A -> Qc) l : (forall a, In a l -> f a <= g a)%Qc -> (qsum f l <= qsum g l)%Qc.
Proof. induction l as [|a l IH]; intros H; [apply Qcle_refl|]. apply Qcplus_le_compat; [apply H; now left|]. apply IH. intros. apply H. now right. Qed.
(** the sum over a whole cycle does not depend on where it starts *)
Lemma cycle_next T (f : Z -> Qc) : (1 <= T)%Z -> (forall t, f (t + T)%Z = f t) -> qsum (fun t => f (t + 1)%Z) (zrange 0 T) = qsum f (zrange 0 T).
Proof.
  intros HT P. rewrite <- (qsum_map f (fun t => (t + 1)%Z)), <- zrange_shift. change (0 + 1)%Z with 1%Z.
  rewrite zrange_snoc by lia. rewrite (zrange_cons 0 T) by lia. change (0 + 1)%Z with 1%Z. rewrite qsum_app. cbn [qsum fold_right].
  replace (f T) with (f 0%Z) by (symmetry; exact (P 0%Z)). unfold qsum. ring.
Qed.
Lemma cycle_before T (f : Z -> Qc) : (1 <= T)%Z -> (forall t, f (t + T)%Z = f t) -> qsum (fun t => f (t - 1)%Z) (zrange 0 T) = qsum f (zrange 0 T).
Proof.
  intros HT P. rewrite <- (cycle_next T (fun t => f (t - 1)%Z) HT).
  - apply qsum_ext. intros t _. f_equal. lia.
  - intros t. rewrite <- (P (t - 1)%Z). f_equal. lia.
Qed.
Lemma periodic_mod {A} T (f : Z -> A) t : (1 <= T)%Z -> (forall t, f (t + T)%Z = f t) -> f (t mod T)%Z = f t.
Proof.
  intros HT P. assert (N : forall n u, f (u + Z.of_nat n * T)%Z = f u).
  { induction n as [|n IH]; intros u; [now rewrite Z.add_0_r|]. rewrite <- (IH u), <- (P (u + Z.of_nat n * T)%Z). f_equal. lia. }
  rewrite (Z.div_mod t T) at 2 by lia. destruct (Z.le_ge_cases 0 (t / T)) as [H|H].
  - rewrite <- (N (Z.to_nat (t / T)) (t mod T)%Z). f_equal. rewrite Z2Nat.id by exact H. lia.
  - rewrite <- (N (Z.to_nat (- (t / T))) (T * (t / T) + t mod T)%Z). f_equal. rewrite Z2Nat.id by lia. lia.
Qed.

(** ** Plans *)
Section Plan.
  Context (s : an_study) (directory : string -> result frame) (period : nat) (T S : Z) (x : decisions).
  Hypothesis Good : good_antares s directory period T S.
  Hypothesis Dx : study_decisions T x.
  Hypothesis F : study_feasible s directory period T S x.
  Let HT : (1 <= T)%Z := proj1 Good.
  Let limits := proj1 F.
  Let rows := proj2 F.
  Context (sc : Z).
  Hypothesis Hs : (0 <= sc < S)%Z.

  Lemma units_cycle a g : In (Cluster a g) (everything s) ->
    over_time T (fun t sc => x (element_id (Cluster a g)) "nb_starting" t sc) sc = over_time T (fun t sc => x (element_id (Cluster a g)) "nb_stopping" t sc) sc.
  Proof.
    intros He. unfold over_time. pose proof (cycle_before T (fun t => x (element_id (Cluster a g)) "nb_units_on" t sc) HT (fun t => Dx _ _ t sc)) as C. cbv beta in C.
    assert (E : qsum (fun t => x (element_id (Cluster a g)) "nb_units_on" t sc) (zrange 0 T) =
      qsum (fun t => (x (element_id (Cluster a g)) "nb_units_on" (t - 1)%Z sc + (x (element_id (Cluster a g)) "nb_starting" t sc + - x (element_id (Cluster a g)) "nb_stopping" t sc))%Qc) (zrange 0 T)).
    { apply qsum_ext. intros t Ht. apply zrange_In in Ht. pose proof (rows (UnitsOn a g) t sc He Ht Hs) as R. cbn [row_holds row_place fst] in R.
      replace (_ - 0)%Qc with (x (element_id (Cluster a g)) "nb_units_on" t sc) in R by ring. rewrite R. ring. }
    rewrite !qsum_add, qsum_opp, C in E. clear -E.
    set (u := qsum _ _) in E at 1. set (v := qsum (fun t => x _ "nb_starting" t sc) _) in *. set (w := qsum (fun t => x _ "nb_stopping" t sc) _) in *.
    transitivity (v + - w + w)%Qc; [ring|]. replace (v + - w)%Qc with 0%Qc; [ring|]. transitivity ((u + (v + - w)) - u)%Qc; [|ring].
    transitivity (u - u)%Qc; [ring|]. f_equal. exact E.
  Qed.
  Lemma storage_cycle a o : In (Storage a o) (everything s) ->
    over_time T (fun t sc => (fin (so_efficiency o) * x (so_id o) "p_injection" t sc + storage_series s directory T o "inflows" t sc)%Qc) sc =
    over_time T (fun t sc => x (so_id o) "p_withdrawal" t sc) sc.
  Proof.
    intros He. unfold over_time. pose proof (cycle_next T (fun t => x (so_id o) "level" t sc) HT (fun t => Dx _ _ t sc)) as C. cbv beta in C.
    assert (E : qsum (fun t => x (so_id o) "level" (t + 1)%Z sc) (zrange 0 T) =
      qsum (fun t => (x (so_id o) "level" t sc + ((fin (so_efficiency o) * x (so_id o) "p_injection" t sc + storage_series s directory T o "inflows" t sc) +
        - x (so_id o) "p_withdrawal" t sc))%Qc) (zrange 0 T)).
    { apply qsum_ext. intros t Ht. apply zrange_In in Ht. pose proof (rows (LevelChange a o) t sc He Ht Hs) as R. cbn [row_holds row_place fst element_id] in R.
      replace (_ - 0)%Qc with (x (so_id o) "level" (t + 1)%Z sc) in R by ring. rewrite R. ring. }
    rewrite C in E. rewrite (qsum_add (fun t => x (so_id o) "level" t sc)) in E.
    rewrite (qsum_add (fun t => (fin (so_efficiency o) * x (so_id o) "p_injection" t sc + storage_series s directory T o "inflows" t sc)%Qc)), qsum_opp in E. clear -E.
    set (u := qsum (fun t => x _ "level" t sc) _) in E. set (v := qsum _ _) in E at 1 |- * at 1. set (w := qsum (fun t => x _ "p_withdrawal" t sc) _) in *.
    transitivity (v + - w + w)%Qc; [ring|]. replace (v + - w)%Qc with 0%Qc; [ring|]. transitivity ((u + (v + - w)) - u)%Qc; [|ring].
    transitivity (u - u)%Qc; [ring|]. f_equal. exact E.
  Qed.
  Lemma battery_cycle a b : In (Battery a b) (everything s) ->
    (fin (bt_charging b) * over_time T (fun t sc => x (element_id (Battery a b)) "p_injection" t sc) sc =
     fin (bt_discharging b) * over_time T (fun t sc => x (element_id (Battery a b)) "p_withdrawal" t sc) sc)%Qc.
  Proof.
    intros He. unfold over_time. set (id := element_id (Battery a b)) in *. pose proof (cycle_next T (fun t => x id "level" t sc) HT (fun t => Dx _ _ t sc)) as C. cbv beta in C.
    assert (E : qsum (fun t => x id "level" (t + 1)%Z sc) (zrange 0 T) =
      qsum (fun t => (x id "level" t sc + (fin (bt_charging b) * x id "p_injection" t sc + - (fin (bt_discharging b) * x id "p_withdrawal" t sc)))%Qc) (zrange 0 T)).
    { apply qsum_ext. intros t Ht. apply zrange_In in Ht. pose proof (rows (BatteryChange a b) t sc He Ht Hs) as R. cbn [row_holds row_place fst] in R. fold id in R.
      replace (_ - 0)%Qc with (x id "level" (t + 1)%Z sc) in R by ring. rewrite R. ring. }
    rewrite C in E. rewrite (qsum_add (fun t => x id "level" t sc)), (qsum_add (fun t => (fin (bt_charging b) * x id "p_injection" t sc)%Qc)), qsum_opp, !qsum_scale in E. clear -E.
    set (u := qsum (fun t => x _ "level" t sc) _) in E. set (v := (_ * qsum _ _)%Qc) in E at 1 |- * at 1. set (w := (_ * qsum (fun t => x _ "p_withdrawal" t sc) _)%Qc) in *.
    transitivity (v + - w + w)%Qc; [ring|]. replace (v + - w)%Qc with 0%Qc; [ring|]. transitivity ((u + (v + - w)) - u)%Qc; [|ring].
    transitivity (u - u)%Qc; [ring|]. f_equal. exact E.
  Qed.

  (** ** The whole system *)
  Lemma one_area id p : in_area s id -> qsum (fun n => if String.eqb id (element_id n) then p else 0%Qc) (nodes s) = p.
  Proof.
    intros H. assert (N : NoDup (map element_id (nodes s))).
    { assert (N : NoDup (map element_id (everything s))) by apply Good. unfold everything in N. rewrite map_app in N. now apply NoDup_app_remove_r in N. }
    unfold in_area in H. revert N H. generalize (nodes s). induction l as [|n l IH]; intros N H; [destruct H|]. cbn [map] in N, H. inversion N as [|? ? N1 N2]; subst.
    cbn [qsum fold_right]. destruct (String.eqb_spec id (element_id n)) as [->|E].
    - assert (Z : qsum (fun m => if String.eqb (element_id n) (element_id m) then p else 0%Qc) l = 0%Qc).
      { transitivity (qsum (fun _ : element => 0%Qc) l); [|apply qsum_zero]. apply qsum_ext. intros m Hm. destruct (String.eqb_spec (element_id n) (element_id m)) as [E|]; [|reflexivity].
        destruct N1. rewrite E. now apply in_map. }
      unfold qsum in Z. rewrite Z. ring.
    - destruct H as [H|H]; [congruence|]. specialize (IH N2 H). unfold qsum in IH. rewrite IH. ring.
  Qed.
  Lemma system_balance t : areas_present s -> (0 <= t < T)%Z ->
    qsum (fun n => (x (element_id n) "spillage" t sc - x (element_id n) "unsupplied_energy" t sc)%Qc) (nodes s) = qsum (net_power T x t sc) (elements s).
  Proof.
    intros Pr Ht. transitivity (qsum (fun n => qsum (delivers T x (element_id n) t sc) (elements s)) (nodes s)).
    - apply qsum_ext. intros n Hn. destruct (node_area s n Hn) as (a & ->).
      assert (He : In (Area a) (everything s)) by (apply in_or_app; now left).
      pose proof (rows (AreaBalance a) t sc He Ht Hs) as R. cbn [row_holds row_place fst element_id] in R |- *. rewrite <- R. ring.
    - rewrite qsum_swap. apply qsum_ext. intros e He. pose proof (Pr e He) as P.
      destruct e as [a|r|a g|a o|a|a|a|k|a b]; cbn [delivers net_power]; try (apply qsum_zero); try (now apply one_area).
      destruct P as [P1 P2].
      rewrite (qsum_ext _ (fun n => ((if String.eqb (ln_to k) (element_id n) then x (element_id (Link k)) "flow" t sc else 0) +
        (if String.eqb (ln_from k) (element_id n) then - x (element_id (Link k)) "flow" t sc else 0))%Qc)).
      + rewrite qsum_add, !one_area by assumption. ring.
      + intros n _. cbn [element_id]. destruct (String.eqb (ln_to k) _), (String.eqb (ln_from k) _); ring.
  Qed.
  Lemma system_shortage t : areas_present s -> (0 <= t < T)%Z ->
    (- qsum (most_power s directory T t sc) (elements s) <= qsum (fun n => x (element_id n) "unsupplied_energy" t sc) (nodes s))%Qc.
  Proof.
    intros Pr Ht. pose proof (system_balance t Pr Ht) as B.
    rewrite (qsum_ext _ (fun n => (x (element_id n) "spillage" t sc + - x (element_id n) "unsupplied_energy" t sc)%Qc)), qsum_add, qsum_opp in B by (intros; ring).
    assert (A : (0 <= qsum (fun n => x (element_id n) "spillage" t sc) (nodes s))%Qc).
    { rewrite <- (qsum_zero (nodes s)). apply qsum_le. intros n Hn. destruct (node_area s n Hn) as (a & ->).
      destruct (limits (Area a) "spillage" false t sc ltac:(apply in_or_app; now left) ltac:(cbn; tauto) Ht Hs) as ((L & _) & _). exact L. }
    assert (C : (qsum (net_power T x t sc) (elements s) <= qsum (most_power s directory T t sc) (elements s))%Qc).
    { apply qsum_le. intros e He. assert (Hin : In e (everything s)) by (apply in_or_app; now right).
      assert (Store : forall p q m, (0 <= p -> q <= m -> q - p <= m)%Qc).
      { intros p q m Hp Hq. replace m with (m + - 0)%Qc by ring. apply Qcplus_le_compat; [exact Hq|]. now apply Qcopp_le_compat. }
      destruct e as [a|r|a g|a o|a|a|a|k|a b]; cbn [net_power most_power]; try apply Qcle_refl.
      - destruct (limits (Cluster a g) "generation" false t sc Hin ltac:(cbn; tauto) Ht Hs) as ((_ & L) & _). exact L.
      - destruct (limits (Storage a o) "p_injection" false t sc Hin ltac:(cbn; tauto) Ht Hs) as ((L1 & _) & _).
        destruct (limits (Storage a o) "p_withdrawal" false t sc Hin ltac:(cbn; tauto) Ht Hs) as ((_ & L2) & _). now apply Store.
      - destruct (limits (Battery a b) "p_injection" false t sc Hin ltac:(cbn; tauto) Ht Hs) as ((L1 & _) & _).
        destruct (limits (Battery a b) "p_withdrawal" false t sc Hin ltac:(cbn; tauto) Ht Hs) as ((_ & L2) & _). now apply Store. }
    rewrite <- B in C. set (sp := qsum (fun n => x (element_id n) "spillage" t sc) (nodes s)) in *.
    set (un := qsum (fun n => x (element_id n) "unsupplied_energy" t sc) (nodes s)) in *. set (m := qsum (most_power _ _ _ _ _) _) in *.
    apply Qcopp_le_compat in C. eapply Qcle_trans; [exact C|]. replace un with (un + - 0)%Qc at 2 by ring.
    replace (- (sp + - un))%Qc with (un + - sp)%Qc by ring. apply Qcplus_le_compat; [apply Qcle_refl|]. now apply Qcopp_le_compat.
  Qed.
  (** nothing can be spilled out of a storage *)
  Lemma storage_overflow a o : In (Storage a o) (everything s) -> (0 <= fin (so_efficiency o))%Qc ->
    (over_time T (storage_series s directory T o "inflows") sc <=
     over_time T (fun t sc => storage_series s directory T o "PMAX-withdrawal" t sc * fin (so_withdrawal_nominal_capacity o)) sc)%Qc.
  Proof.
    intros He Ef. pose proof (storage_cycle a o He) as C.
    apply (Qcle_trans _ (over_time T (fun t sc => (fin (so_efficiency o) * x (so_id o) "p_injection" t sc + storage_series s directory T o "inflows" t sc)%Qc) sc)).
    - apply qsum_le. intros t Ht. apply zrange_In in Ht.
      destruct (limits (Storage a o) "p_injection" false t sc He ltac:(cbn; tauto) Ht Hs) as ((L & _) & _). cbn [quantity_limits String.eqb Ascii.eqb Bool.eqb between fst element_id] in L.
      rewrite <- (Qcplus_0_l (storage_series _ _ _ _ _ _ _)) at 1. apply Qcplus_le_compat; [|apply Qcle_refl].
      replace 0%Qc with (0 * x (so_id o) "p_injection" t sc)%Qc by ring. apply Qcmult_le_compat_r; [exact Ef|exact L].
    - rewrite C. apply qsum_le. intros t Ht. apply zrange_In in Ht.
      destruct (limits (Storage a o) "p_withdrawal" false t sc He ltac:(cbn; tauto) Ht Hs) as ((_ & L) & _). exact L.
  Qed.

  (** ** Units *)
  Section Units.
    Context (a : an_area) (g : an_thermal).
    Hypothesis He : In (Cluster a g) (everything s).
    Let id := element_id (Cluster a g).
    Lemma no_failure : (forall t, units_lost (at_cluster g) period (hour T t) (Z.to_nat sc) = 0%Z) -> forall t, x id "nb_failing" t sc = 0%Qc.
    Proof.
      intros L t. rewrite <- (periodic_mod T (fun t => x id "nb_failing" t sc) t HT (fun t => Dx _ _ t sc)).
      assert (Ht : (0 <= t mod T < T)%Z) by (apply Z.mod_pos_bound; lia).
      pose proof (rows (FailingLost a g) _ sc He Ht Hs) as R. cbn [row_holds row_place fst] in R. rewrite L, Z2Qc_0 in R. fold id in R.
      destruct (limits (Cluster a g) "nb_failing" false _ sc He ltac:(cbn; tauto) Ht Hs) as ((Lo & _) & _).
      cbn [quantity_limits String.eqb Ascii.eqb Bool.eqb fst] in Lo. fold id in Lo.
      apply Qcle_antisym; [|exact Lo]. replace (x id "nb_failing" (t mod T)%Z sc) with (x id "nb_failing" (t mod T)%Z sc - 0)%Qc by ring. exact R.
    Qed.
    Lemma kept_on t : (forall t, units_lost (at_cluster g) period (hour T t) (Z.to_nat sc) = 0%Z) -> (0 <= t < T)%Z ->
      (lately (at_min_up_time g) (fun t' => x id "nb_starting" t' sc) t <= x id "nb_units_on" t sc)%Qc.
    Proof.
      intros L Ht. pose proof (rows (UpTime a g) t sc He Ht Hs) as R. cbn [row_holds row_place fst] in R. fold id in R.
      replace (_ - 0)%Qc with (lately (at_min_up_time g) (fun t' => x id "nb_starting" t' sc) t) in R; [exact R|].
      unfold lately. rewrite (qsum_ext (fun k => (x id "nb_starting" (t + k)%Z sc - x id "nb_failing" (t + k)%Z sc)%Qc) (fun k => x id "nb_starting" (t + k)%Z sc)); [ring|].
      intros k _. rewrite (no_failure L). ring.
    Qed.
    Lemma kept_off t : (forall t, units_regained (at_cluster g) period (hour T t) (Z.to_nat sc) = 0%Z) -> (0 <= t < T)%Z ->
      (lately (at_min_down_time g) (fun t' => x id "nb_stopping" t' sc) t + x id "nb_units_on" t sc <=
       Z2Qc (most_units (at_cluster g) (hour T (t - at_min_down_time g)) (Z.to_nat sc)))%Qc.
    Proof.
      intros L Ht. pose proof (rows (DownTime a g) t sc He Ht Hs) as R. cbn [row_holds row_place fst] in R. fold id in R.
      assert (Z : lately (at_min_down_time g) (fun t' => Z2Qc (units_regained (at_cluster g) period (hour T t') (Z.to_nat sc))) t = 0%Qc).
      { unfold lately. rewrite (qsum_ext _ (fun _ => 0%Qc)); [apply qsum_zero|]. intros k _. now rewrite L, Z2Qc_0. }
      rewrite Z in R. apply (fun H => Qcplus_le_compat _ _ (x id "nb_units_on" t sc) (x id "nb_units_on" t sc) H (Qcle_refl _)) in R.
      match type of R with (?l <= ?r)%Qc => match goal with |- (?l' <= ?r')%Qc => replace l' with l by ring; replace r' with r by ring end end. exact R.
    Qed.
  End Units.
End Plan.
