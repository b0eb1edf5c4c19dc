(** What follows for the plans of a PyPSA network (see PropPypsaExact.v). *)
From Coq Require Import Lia.
From Verif Require Import Base BaseFacts Expr LinearExpr Study Optim System Library Main SpecExpr SpecLibrary SpecSystem SpecLinear SpecOptim
  SpecMain Pypsa SpecPypsa PypsaFacts SpecScenarios SpecPrecise SpecPypsaExact PypsaExact AntaresLaws.
Local Open Scope string_scope.
Local Open Scope list_scope.

Lemma attribute_periodic n T k c a t : (1 <= T)%Z -> attribute n T k c a (t mod T)%Z = attribute n T k c a t.
Proof. intros HT. unfold attribute. now rewrite Z.mod_mod by lia. Qed.
Lemma le_sides a b : (a <= b)%Qc -> (0 <= b - a)%Qc.
Proof. intros H. replace 0%Qc with (a - a)%Qc by ring. apply Qcplus_le_compat; [exact H|apply Qcle_refl]. Qed.
Lemma scaled_le a b c : (0 <= c)%Qc -> (a <= b)%Qc -> (c * a <= c * b)%Qc.
Proof. intros Hc H. rewrite !(Qcmult_comm c). now apply Qcmult_le_compat_r. Qed.

Section Plan.
  Context (n : pypsa_network) (T S : Z) (x : decisions).
  Hypothesis Good : good_network n T.
  Hypothesis HT : (1 <= T)%Z.
  Hypothesis Dx : network_decisions n T x.
  Hypothesis F : network_feasible n T S x.
  Let limited := proj1 F.
  Let rows := proj2 F.
  Let periodic id q t s : x id q (t + T)%Z s = x id q t s := proj1 Dx id q t s.
  Context (s : Z).
  Hypothesis Hs : (0 <= s < S)%Z.

  (** ** Over the whole horizon *)
  Lemma store_cycle e : In e (names n Stores) ->
    over_time T (fun t s => of_store x e "p" t s) s = (- over_time T (fun t s => attribute n T Stores e "standing_loss" t * of_store x e "e" (t - 1) s) s)%Qc.
  Proof.
    intros He. unfold over_time. pose proof (cycle_before T (fun t => of_store x e "e" t s) HT (fun t => periodic _ _ t s)) as C. cbv beta in C.
    assert (E : qsum (fun t => of_store x e "e" t s) (zrange 0 T) =
      qsum (fun t => (of_store x e "e" (t - 1) s + (- (attribute n T Stores e "standing_loss" t * of_store x e "e" (t - 1) s) + - of_store x e "p" t s))%Qc) (zrange 0 T)).
    { apply qsum_ext. intros t Ht. apply zrange_In in Ht. pose proof (rows (EnergyBalance e) t s He Ht Hs) as R. cbn [holds] in R.
      replace (of_store x e "e" t s) with (of_store x e "e" t s - 0)%Qc by ring. rewrite R. ring. }
    rewrite !qsum_add, !qsum_opp, C in E. clear -E.
    set (u := qsum (fun t => of_store x e "e" t s) _) in E. set (v := qsum (fun t => of_store x e "p" t s) _) in *. set (w := qsum (fun t => (attribute _ _ _ _ _ t * _)%Qc) _) in *.
    assert (Z : (- w + - v = 0)%Qc). { transitivity ((u + (- w + - v)) - u)%Qc; [ring|]. rewrite <- E. ring. }
    transitivity (v + (- w + - v))%Qc; [rewrite Z; ring|ring].
  Qed.
  Lemma unit_cycle u : In u (names n StorageUnits) ->
    over_time T (fun t s => attribute n T StorageUnits u "efficiency_store" t * of_unit x u "p_store" t s + attribute n T StorageUnits u "inflow" t) s =
    over_time T (fun t s => of_unit x u "p_dispatch" t s / attribute n T StorageUnits u "efficiency_dispatch" t + of_unit x u "spill" t s +
      attribute n T StorageUnits u "standing_loss" t * of_unit x u "state_of_charge" (t - 1) s) s.
  Proof.
    intros Hu. unfold over_time. pose proof (cycle_before T (fun t => of_unit x u "state_of_charge" t s) HT (fun t => periodic _ _ t s)) as C. cbv beta in C.
    set (gain := fun t => (attribute n T StorageUnits u "efficiency_store" t * of_unit x u "p_store" t s + attribute n T StorageUnits u "inflow" t)%Qc).
    set (loss := fun t => (of_unit x u "p_dispatch" t s / attribute n T StorageUnits u "efficiency_dispatch" t + of_unit x u "spill" t s +
      attribute n T StorageUnits u "standing_loss" t * of_unit x u "state_of_charge" (t - 1) s)%Qc).
    change (qsum gain (zrange 0 T) = qsum loss (zrange 0 T)).
    assert (E : qsum (fun t => of_unit x u "state_of_charge" t s) (zrange 0 T) =
      qsum (fun t => (of_unit x u "state_of_charge" (t - 1) s + (gain t + - loss t))%Qc) (zrange 0 T)).
    { apply qsum_ext. intros t Ht. apply zrange_In in Ht. pose proof (rows (ChargeBalance u) t s Hu Ht Hs) as R. cbn [holds] in R.
      replace (of_unit x u "state_of_charge" t s) with (of_unit x u "state_of_charge" t s - 0)%Qc by ring. rewrite R. unfold gain, loss. ring. }
    rewrite !qsum_add, !qsum_opp, C in E. clear -E. set (v := qsum (fun t => of_unit x u "state_of_charge" t s) _) in E.
    set (g := qsum gain _) in *. set (l := qsum loss _) in *.
    assert (Z : (g + - l = 0)%Qc). { transitivity ((v + (g + - l)) - v)%Qc; [ring|]. rewrite <- E. ring. }
    transitivity (g + - l + l)%Qc; [ring|rewrite Z; ring].
  Qed.

  (** ** The whole network *)
  Lemma one_bus b p : In b (names n Buses) -> qsum (fun b' => if String.eqb b b' then p else 0%Qc) (names n Buses) = p.
  Proof.
    intros H. assert (N : NoDup (names n Buses)).
    { destruct Good as (_ & _ & _ & _ & G & _). destruct (G Buses) as ((N & _) & _). exact N. }
    revert N H. generalize (names n Buses). induction l as [|b' l IH]; intros N H; [destruct H|]. inversion N as [|? ? N1 N2]; subst.
    change ((if String.eqb b b' then p else 0) + qsum (fun b' => if String.eqb b b' then p else 0) l = p)%Qc. destruct (String.eqb_spec b b') as [->|E].
    - assert (Z : qsum (fun b0 => if String.eqb b' b0 then p else 0%Qc) l = 0%Qc).
      { transitivity (qsum (fun _ : string => 0%Qc) l); [|apply qsum_zero]. apply qsum_ext. intros m Hm. destruct (String.eqb_spec b' m) as [E|]; [|reflexivity].
        now subst m. }
      rewrite Z. ring.
    - destruct H as [H|H]; [congruence|]. rewrite (IH N2 H). ring.
  Qed.
  Lemma attached_once k column f : buses_present n -> In column (bus_columns k) ->
    qsum (fun b => qsum f (attached n k column b)) (names n Buses) = qsum f (names n k).
  Proof.
    intros Pr Hcol.
    transitivity (qsum (fun b => qsum (fun c => if match entry_of (table n k) c column with Some (CText b') => String.eqb b' b | _ => false end then f c else 0%Qc) (names n k)) (names n Buses)).
    - apply qsum_ext. intros b _. unfold attached. symmetry. apply (qsum_filter (fun c => match entry_of (table n k) c column with Some (CText b') => String.eqb b' b | _ => false end) f).
    - rewrite qsum_swap. apply qsum_ext. intros c Hc.
      assert (E : exists b, entry_of (table n k) c column = Some (CText b)).
      { destruct Good as (_ & _ & _ & _ & G & _). destruct (G k) as (_ & _ & _ & Gc). now apply Gc. }
      destruct E as [b E]. rewrite E. apply one_bus. exact (Pr k c column b Hc Hcol E).
  Qed.
  Lemma network_balance t : buses_present n -> (0 <= t < T)%Z -> network_sum n (given_power n T x t s) = 0%Qc.
  Proof.
    intros Pr Ht. transitivity (qsum (fun b => injection n T x b t s) (names n Buses)).
    - unfold injection. rewrite !qsum_add. rewrite !attached_once by (first [exact Pr|cbn; tauto]). unfold network_sum, given_power.
      rewrite (qsum_ext (fun c => (attribute n T Links c "efficiency" t - 1) * of_link x c "p0" t s)%Qc
        (fun c => (- of_link x c "p0" t s + attribute n T Links c "efficiency" t * of_link x c "p0" t s)%Qc)) by (intros; ring).
      rewrite qsum_add. rewrite (qsum_ext (fun c => attribute n T Generators c "sign" t * of_generator x c "p" t s)%Qc
        (fun c => (of_generator x c "p" t s * attribute n T Generators c "sign" t)%Qc)) by (intros; ring). ring.
    - transitivity (qsum (fun _ : string => 0%Qc) (names n Buses)); [|apply qsum_zero]. apply qsum_ext. intros b Hb.
      pose proof (rows (PowerBalance b) t s Hb Ht Hs) as R. cbn [holds] in R. rewrite <- R. ring.
  Qed.
  Let fixed k c t s' : In c (names n k) -> with_capacity k = true -> (0 <= t < T)%Z -> (0 <= s' < S)%Z ->
    (least_capacity n k c <= x (study_id k c) (capacity k) t s')%Qc /\ (x (study_id k c) (capacity k) t s' <= greatest_capacity n k c)%Qc.
  Proof.
    intros Hc Hk Ht Hs'. assert (Hq : In (capacity k, false) (quantities k)) by (destruct k; try discriminate; cbn; tauto).
    pose proof (limited k c (capacity k) false t s' Hc Hq Ht Hs') as L. destruct k; try discriminate; exact L.
  Qed.
  Lemma given_most k c t : In c (names n k) -> (0 <= t < T)%Z -> usual n T k c t -> (given_power n T x t s k c <= most_given n T t k c)%Qc.
  Proof.
    intros Hc Ht U. destruct k; cbn [given_power most_given usual] in *; try apply Qcle_refl.
    - destruct U as [Us Up]. rewrite Us. replace (1 * of_generator x c "p" t s)%Qc with (of_generator x c "p" t s - 0)%Qc by ring.
      eapply Qcle_trans; [exact (rows (GreatestDispatch c) t s Hc Ht Hs)|]. rewrite Qcmult_comm. apply scaled_le; [exact Up|].
      exact (proj2 (fixed Generators c t s Hc eq_refl Ht Hs)).
    - destruct U as [(U1 & U2 & U3)|U].
      + assert (P : (0 <= of_link x c "p0" t s)%Qc).
        { pose proof (rows (LeastFlow c) t s Hc Ht Hs) as R. cbn [holds] in R. replace (of_link x c "p0" t s) with (of_link x c "p0" t s - 0)%Qc by ring.
          eapply Qcle_trans; [|exact R]. replace 0%Qc with (attribute n T Links c "p_min_pu" t * 0)%Qc by ring. apply scaled_le; [exact U1|].
          eapply Qcle_trans; [exact U2|]. exact (proj1 (fixed Links c t s Hc eq_refl Ht Hs)). }
        replace 0%Qc with (0 * of_link x c "p0" t s)%Qc by ring. apply Qcmult_le_compat_r; [|exact P].
        replace 0%Qc with (1 - 1)%Qc by ring. apply Qcplus_le_compat; [exact U3|apply Qcle_refl].
      + rewrite U. replace ((1 - 1) * of_link x c "p0" t s)%Qc with 0%Qc by ring. apply Qcle_refl.
    - destruct (limited StorageUnits c "p_dispatch" true t s Hc ltac:(cbn; tauto) Ht Hs) as [_ L1].
      destruct (limited StorageUnits c "p_store" true t s Hc ltac:(cbn; tauto) Ht Hs) as [L2 _]. cbn in L1, L2.
      replace (attribute n T StorageUnits c "p_max_pu" t * greatest_capacity n StorageUnits c)%Qc
        with (attribute n T StorageUnits c "p_max_pu" t * greatest_capacity n StorageUnits c + - 0)%Qc by ring.
      apply Qcplus_le_compat; [exact L1|]. now apply Qcopp_le_compat.
    - destruct U as (U1 & U2 & (_ & U3) & U4). pose proof (rows (EnergyBalance c) t s Hc Ht Hs) as R. cbn [holds] in R.
      replace (of_store x c "p" t s) with ((1 - attribute n T Stores c "standing_loss" t) * of_store x c "e" (t - 1) s + - of_store x c "e" t s)%Qc.
      2:{ transitivity ((1 - attribute n T Stores c "standing_loss" t) * of_store x c "e" (t - 1) s - (of_store x c "e" t s - 0))%Qc; [ring|]. rewrite R. ring. }
      match goal with |- (_ <= ?m)%Qc => replace m with (m + - 0)%Qc by ring end. apply Qcplus_le_compat.
      + apply scaled_le; [now apply le_sides|].
        assert (Hm : (0 <= (t - 1) mod T < T)%Z) by (apply Z.mod_pos_bound; lia).
        rewrite <- (periodic_mod T (fun t => of_store x c "e" t s) (t - 1) HT (fun t => periodic _ _ t s)), <- (attribute_periodic n T Stores c "e_max_pu" (t - 1) HT).
        pose proof (rows (GreatestEnergy c) ((t - 1) mod T)%Z s Hc Hm Hs) as R'. cbn [holds] in R'.
        replace (of_store x c "e" ((t - 1) mod T) s) with (of_store x c "e" ((t - 1) mod T) s - 0)%Qc by ring.
        eapply Qcle_trans; [exact R'|]. apply scaled_le; [now rewrite attribute_periodic|]. exact (proj2 (fixed Stores c _ s Hc eq_refl Hm Hs)).
      + apply Qcopp_le_compat. pose proof (rows (LeastEnergy c) t s Hc Ht Hs) as R'. cbn [holds] in R'.
        replace (of_store x c "e" t s) with (of_store x c "e" t s - 0)%Qc by ring. eapply Qcle_trans; [|exact R'].
        replace 0%Qc with (attribute n T Stores c "e_min_pu" t * 0)%Qc by ring. apply scaled_le; [exact U1|].
        eapply Qcle_trans; [exact U4|]. exact (proj1 (fixed Stores c t s Hc eq_refl Ht Hs)).
  Qed.
  Lemma network_supply t : buses_present n -> (0 <= t < T)%Z -> (forall k c, In c (names n k) -> usual n T k c t) ->
    (0 <= network_sum n (most_given n T t))%Qc.
  Proof.
    intros Pr Ht U. rewrite <- (network_balance t Pr Ht). unfold network_sum.
    repeat apply Qcplus_le_compat; apply qsum_le; intros c Hc; apply given_most; auto.
  Qed.
End Plan.

(** ** The same of solutions *)
Section Solutions.
  Context (order : list string -> list string) (n : pypsa_network) (sys : input_system) (files : dict string frame) (T S : Z)
    (order' : list string -> list string -> list string -> list string) (o : settings) (st : state).
  Hypothesis Ord : set_order order.
  Hypothesis Conv : convert_pypsa order n = Ok (sys, files).
  Hypothesis Good : good_network n T.
  Hypothesis HT : (1 <= T)%Z.
  Hypothesis HS : (1 <= S)%Z.
  Hypothesis Ord' : any_order order'.
  Hypothesis Run : main_cli order' [pypsa_library] sys (series_directory files) T S = Ok (o, st).
  Hypothesis Precise : precise_network n T S.
  Let feasible_of x y (Dx : network_decisions n T x) (Vx : network_values n T S o st y x) : solves y (st_solver st) -> network_feasible n T S x :=
    proj1 (pypsa_feasible order n sys files T S order' o st Ord Conv Good HT HS Ord' Run Precise x y Dx Vx).

  Lemma solved_balance x y : network_decisions n T x -> network_values n T S o st y x -> solves y (st_solver st) -> buses_present n ->
    forall t s, (0 <= t < T)%Z -> (0 <= s < S)%Z -> network_sum n (given_power n T x t s) = 0%Qc.
  Proof. intros Dx Vx Hy Pr t s Ht Hs. exact (network_balance n T S x Good (feasible_of x y Dx Vx Hy) s Hs t Pr Ht). Qed.
  Lemma solved_stored x y : network_decisions n T x -> network_values n T S o st y x -> solves y (st_solver st) ->
    (forall e s, In e (names n Stores) -> (0 <= s < S)%Z ->
       over_time T (fun t s => of_store x e "p" t s) s =
       (- over_time T (fun t s => attribute n T Stores e "standing_loss" t * of_store x e "e" (t - 1) s) s)%Qc) /\
    (forall u s, In u (names n StorageUnits) -> (0 <= s < S)%Z ->
       over_time T (fun t s => attribute n T StorageUnits u "efficiency_store" t * of_unit x u "p_store" t s + attribute n T StorageUnits u "inflow" t)%Qc s =
       over_time T (fun t s => of_unit x u "p_dispatch" t s / attribute n T StorageUnits u "efficiency_dispatch" t + of_unit x u "spill" t s +
         attribute n T StorageUnits u "standing_loss" t * of_unit x u "state_of_charge" (t - 1) s)%Qc s).
  Proof.
    intros Dx Vx Hy. split.
    - intros e s He Hs. exact (store_cycle n T S x HT Dx (feasible_of x y Dx Vx Hy) s Hs e He).
    - intros u s Hu Hs. exact (unit_cycle n T S x HT Dx (feasible_of x y Dx Vx Hy) s Hs u Hu).
  Qed.
  Lemma solved_emissions x y : network_decisions n T x -> network_values n T S o st y x -> solves y (st_solver st) ->
    forall c s, In c (constraint_names n) -> (0 <= s < S)%Z ->
    (has_sense n c "<=" -> (emitted n T x s <= constant_of n c)%Qc) /\ (has_sense n c "==" -> emitted n T x s = constant_of n c).
  Proof.
    intros Dx Vx Hy c s Hc Hs. destruct (feasible_of x y Dx Vx Hy) as [_ R]. assert (H0 : (0 <= 0 < T)%Z) by lia.
    split; intros Hk; [pose proof (R (EmissionLimit c) 0%Z s (conj Hc Hk) H0 Hs) as H|pose proof (R (EmissionTarget c) 0%Z s (conj Hc Hk) H0 Hs) as H];
      cbn [holds] in H.
    - replace (emitted n T x s) with (emitted n T x s - 0)%Qc by ring. exact H.
    - rewrite <- H. ring.
  Qed.
  Lemma solved_shortage t : buses_present n -> (0 <= t < T)%Z -> (forall k c, In c (names n k) -> usual n T k c t) ->
    (network_sum n (most_given n T t) < 0)%Qc -> forall y, ~ solves y (st_solver st).
  Proof.
    intros Pr Ht U Short. apply (pypsa_unsolvable order n sys files T S order' o st Ord Conv Good HT HS Ord' Run Precise). intros x Dx F.
    apply (Qclt_not_le _ _ Short). exact (network_supply n T S x Good HT Dx F 0%Z ltac:(lia) t Pr Ht U).
  Qed.
End Solutions.
