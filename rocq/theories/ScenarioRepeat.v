(** Scenarios that are repeated or left out (see PropRepeat.v). *)
From Coq Require Import Lia Permutation.
From Verif Require Import Base BaseFacts Expr Visitors LinearExpr Model Study Strategy Optim SpecExpr SpecSyntax SpecExpansion SpecLinear SpecModel
  SpecOptim SpecReady SpecOrder SpecScenarios SpecPrecise SpecSeparate SpecBlock SpecSame SpecReorder SpecRepeat OptimFacts OptimMeaning OptimProblem OptimNames PreciseFacts PreciseProblem
  ScenarioFacts ScenarioCost ScenarioExact ScenarioReady BlockFacts ScenarioSame ScenarioReorder.

Section Repeat.
  Context (o : settings) (db' : database) (S' : Z) (p : Z -> Z) (st st' : state) (sts sts' : Z -> state) (f f' : Z -> nat -> nat).
  Let o' := with_scenarios o S' db'.
  Hypothesis HR : chooses o S' p.
  Hypothesis HD : chosen_data o S' p db'.
  Lemma chosen_built s a b : (0 <= s < S')%Z ->
    build_problem (settings_of (p s) o) = Ok a -> build_problem (settings_of s o') = Ok b -> b = a.
  Proof.
    intros Hs H0 H1.
    assert (HG : gives_as_much (settings_of (p s) o) (o_block o) (o_database (settings_of s o'))).
    { split; [reflexivity|]. cbn [settings_of o_database o_tree_node o_block o' with_scenarios]. intros c n d Hd. apply data_of_get in Hd. destruct Hd as (d0 & Hd & ->).
      destruct (HD c n d0 Hd) as (d' & Hd' & HD').
      exists (data_of s d'). split; [now apply data_of_found|].
      assert (X : forall t sc, simulated (settings_of (p s) o) sc -> get_value (data_of s d') t sc (o_tree_node o) = get_value (data_of (p s) d0) t sc (o_tree_node o)).
      { intros t sc Hsc. rewrite !data_of_any. destruct (HD' t) as [D1 D2]. destruct sc as [z|]; [|exact D1].
        cbn [simulated settings_of o_scenarios] in Hsc. assert (z = 0%Z) by lia. subst z. cbn [read_back]. now apply D2. }
      intros sc v Hsc. split; [now rewrite X|]. intros i x x' Ha Ha' Hv. rewrite Ha in Ha'. injection Ha' as <-. now rewrite X. }
    assert (K : build_problem (settings_of s o') = Ok a).
    { refine (block_data_kept (settings_of (p s) o) (o_block o) (o_database (settings_of s o')) _ HG _ a H0); [cbn; lia|].
      unfold build_problem in H1. apply bind_ok in H1. destruct H1 as ([] & H1 & _). exact H1. }
    congruence.
  Qed.
  Hypothesis Hgood : good_problem o.
  Hypothesis Hgood' : good_problem o'.
  Hypothesis HA : averaged_costs o.
  Hypothesis Hst : build_problem o = Ok st.
  Hypothesis Hst' : build_problem o' = Ok st'.
  Hypothesis Hos : forall s, (0 <= s < o_scenarios o)%Z -> one_scenario s o (settings_of s o) /\ good_problem (settings_of s o) /\ build_problem (settings_of s o) = Ok (sts s).
  Hypothesis Hos' : forall s, (0 <= s < S')%Z -> one_scenario s o' (settings_of s o') /\ good_problem (settings_of s o') /\ build_problem (settings_of s o') = Ok (sts' s).
  Hypothesis HT : put_together o st (fun s => settings_of s o) sts f.
  Hypothesis HT' : put_together o' st' (fun s => settings_of s o') sts' f'.
  Hypothesis HP : precise_problem o.
  Hypothesis HP' : precise_problem o'.
  Let average' := exact_average o' st' (fun s => settings_of s o') sts' f' Hgood' HA Hst' Hos' HT' (proj1 (proj2 HP'))
    (fun s _ => proj1 (proj2 (settings_of_precise s o' HP'))).
  Lemma chosen_admissible x : admissible_decisions o x -> admissible_decisions o' (reordered_decisions p x).
  Proof. intros [A1 A2]. split; [intros c n t r; apply A1|]. intros c v Hc Hv. destruct (A2 c v Hc Hv) as [B1 B2]. split; [intros Ht t t' r; now apply B1|intros Hs t s s'; now apply B2]. Qed.
  Lemma chosen_solution x y y' : admissible_decisions o x -> represents o st y x -> represents o' st' y' (reordered_decisions p x) ->
    (solves y (st_solver st) -> solves y' (st_solver st')) /\ (chooses_all o S' p -> solves y' (st_solver st') -> solves y (st_solver st)) /\
    exists v, objective_value y' (st_solver st') = Some v /\
      mean_of S' (fun s => objective_value (fun i => y (f (p s) i)) (st_solver (sts (p s)))) v.
  Proof.
    intros Hx Hr Hr'.
    assert (Q : forall s, (0 <= s < S')%Z -> (solves (fun i => y (f (p s) i)) (st_solver (sts (p s))) <-> solves (fun i => y' (f' s i)) (st_solver (sts' s))) /\
      objective_value (fun i => y (f (p s) i)) (st_solver (sts (p s))) = objective_value (fun i => y' (f' s i)) (st_solver (sts' s))).
    { intros s Hs. pose proof (HR s Hs) as Hps. destruct (Hos (p s) Hps) as (HO & Hg & Hb). destruct (Hos' s Hs) as (HO' & Hg' & Hb').
      pose proof (chosen_built s _ _ Hs Hb Hb') as E. rewrite E in Hb' |- *.
      apply (same_part (fun s => settings_of s o) (p s) (settings_of (p s) o) (sts (p s)) (seen_in (p s) x) _ _ Hg Hb (settings_of_precise (p s) o HP) eq_refl).
      - eapply admissible_in; eauto.
      - eapply represents_in; eauto. now apply (pt_found _ _ _ _ _ HT).
      - assert (X : represents (settings_of s o') (sts' s) (fun i => y' (f' s i)) (seen_in s (reordered_decisions p x)))
          by (apply (represents_in s o' (settings_of s o') st' (sts' s) (f' s)); [exact Hs|exact HO'|now apply (pt_found _ _ _ _ _ HT')|exact Hr']). rewrite E in X. exact X. }
    split; [|split].
    - rewrite (together_solves _ _ _ _ _ HT y), (together_solves _ _ _ _ _ HT' y'). intros H s Hs. apply (Q s Hs). apply H. now apply HR.
    - rewrite (together_solves _ _ _ _ _ HT y), (together_solves _ _ _ _ _ HT' y'). intros All H s Hs. destruct (All s Hs) as (r & Hr0 & <-). apply (Q r Hr0). now apply H.
    - destruct (average' y') as (v' & E' & M'). exists v'. split; [exact E'|]. revert M'. apply mean_ext. intros s Hs. symmetry. now apply Q.
  Qed.
End Repeat.

Lemma repeated_together o S' p db' : complete_problem o -> complete_problem (with_scenarios o S' db') -> constraints_by_scenario o -> averaged_costs o ->
  chooses o S' p -> chosen_data o S' p db' ->
  exists st st' sts f, build_problem o = Ok st /\ build_problem (with_scenarios o S' db') = Ok st' /\
  (forall s, (0 <= s < o_scenarios o)%Z -> build_problem (settings_of s o) = Ok (sts s)) /\ put_together o st (fun s => settings_of s o) sts f /\
  forall x y y', admissible_decisions o x -> represents o st y x -> represents (with_scenarios o S' db') st' y' (reordered_decisions p x) ->
    (solves y (st_solver st) -> solves y' (st_solver st')) /\ (chooses_all o S' p -> solves y' (st_solver st') -> solves y (st_solver st)) /\
    exists v, objective_value y' (st_solver st') = Some v /\
      omean S' (map (fun s => objective_value (fun i => y (f (p s) i)) (st_solver (sts (p s)))) (zrange 0 S')) = Some v.
Proof.
  intros (G & R & P) (G' & R' & P') HC HA HR HD. set (o' := with_scenarios o S' db') in *.
  destruct (ready_scenarios o G R HC HA) as (st & sts & Hst & Hsts). destruct (ready_scenarios o' G' R' HC HA) as (st' & sts' & Hst' & Hsts').
  destruct (scenarios_together o st (fun s => settings_of s o) sts G HC (precise_bounds o P) Hst) as [f Hf]; [intros s Hs; split; apply (Hsts s Hs)|].
  destruct (scenarios_together o' st' (fun s => settings_of s o') sts' G' HC (precise_bounds o' P') Hst') as [f' Hf']; [intros s Hs; split; apply (Hsts' s Hs)|].
  exists st, st', sts, f. split; [exact Hst|]. split; [exact Hst'|]. split; [intros s Hs; apply (Hsts s Hs)|]. split; [exact Hf|]. intros x y y' Hx Hr Hr'.
  destruct (chosen_solution o db' S' p st st' sts sts' f f' HR HD G' HA Hst' Hsts Hsts' Hf Hf' P P' x y y' Hx Hr Hr') as (A & B & v & E & M).
  split; [exact A|]. split; [exact B|]. exists v. split; [exact E|]. apply (mean_omean S' (proj1 (proj2 G'))) in M. exact M.
Qed.

(** ** Every scenario as often *)
Lemma zrange_app a b n : (a <= b)%Z -> zrange a (b + Z.of_nat n) = zrange a b ++ zrange b (b + Z.of_nat n).
Proof.
  intros H. induction n as [|n IH]; [replace (b + Z.of_nat 0)%Z with b by lia; rewrite (zrange_empty b b) by lia; now rewrite app_nil_r|].
  replace (b + Z.of_nat (S n))%Z with (b + Z.of_nat n + 1)%Z by lia. rewrite !zrange_snoc by lia. rewrite IH. now rewrite <- app_assoc.
Qed.
Lemma total_app vs l l' : total vs (l ++ l') = (total vs l + total vs l')%Qc.
Proof. induction l as [|z l IH]; [cbn [app]; change (total vs []) with 0%Qc; ring|]. change (vs z + total vs (l ++ l') = vs z + total vs l + total vs l')%Qc. rewrite IH. ring. Qed.
Lemma total_ext vs ws l : (forall s, In s l -> vs s = ws s) -> total vs l = total ws l.
Proof. induction l as [|z l IH]; intros H; [reflexivity|]. change (vs z + total vs l = ws z + total ws l)%Qc. rewrite (H z) by now left. f_equal. apply IH. intros s Hs. apply H. now right. Qed.
Lemma total_blocks vs n k : (0 <= n)%Z ->
  total vs (zrange 0 (Z.of_nat k * n)) = total (fun j => total (fun s => vs (j * n + s)%Z) (zrange 0 n)) (zrange 0 (Z.of_nat k)).
Proof.
  intros Hn. induction k as [|k IH]; [reflexivity|].
  replace (Z.of_nat (S k)) with (Z.of_nat k + 1)%Z by lia. rewrite (zrange_snoc 0) by lia. rewrite total_app, <- IH.
  replace ((Z.of_nat k + 1) * n)%Z with (Z.of_nat k * n + Z.of_nat (Z.to_nat n))%Z by lia. rewrite zrange_app by lia. rewrite total_app. f_equal.
  replace (Z.of_nat (Z.to_nat n)) with n by lia. set (m := (Z.of_nat k * n)%Z).
  replace (zrange m (m + n)) with (map (fun x => (x + m)%Z) (zrange 0 n)) by (rewrite <- zrange_shift; f_equal; lia).
  rewrite <- (total_renamed vs (fun x => (x + m)%Z)). change (total (fun s => vs (s + m)%Z) (zrange 0 n) = total (fun s => vs (m + s)%Z) (zrange 0 n) + 0)%Qc.
  rewrite (total_ext (fun s => vs (s + m)%Z) (fun s => vs (m + s)%Z)); [ring|]. intros s _. f_equal. lia.
Qed.
Lemma total_const v l : total (fun _ => v) l = (Z2Qc (Z.of_nat (List.length l)) * v)%Qc.
Proof.
  induction l as [|z l IH]; [change (0 = Z2Qc 0 * v)%Qc; rewrite Z2Qc_0; ring|]. change (v + total (fun _ => v) l = Z2Qc (Z.of_nat (S (List.length l))) * v)%Qc. rewrite IH.
  replace (Z.of_nat (S (List.length l))) with (1 + Z.of_nat (List.length l))%Z by lia. rewrite Z2Qc_add. replace (Z2Qc 1) with 1%Qc by (apply Qc_is_canon; reflexivity). ring.
Qed.
Section Even.
  Context (n k : Z) (Hn : (1 <= n)%Z) (Hk : (1 <= k)%Z).
  Lemma blocks_index j s : (0 <= j < k)%Z -> (0 <= s < n)%Z -> (0 <= j * n + s < k * n)%Z /\ ((j * n + s) mod n)%Z = s.
  Proof. intros Hj Hs. split; [nia|]. rewrite Z.add_comm, Z.mod_add by lia. now apply Z.mod_small. Qed.
  Lemma mean_repeated F v : mean_of n F v -> mean_of (k * n) (fun s => F (s mod n)%Z) v.
  Proof.
    intros (vs & M1 & M2). exists (fun s => vs (s mod n)%Z). split; [intros s Hs; apply (M1 (s mod n)%Z); apply Z.mod_pos_bound; lia|].
    replace k with (Z.of_nat (Z.to_nat k)) at 2 by lia. rewrite total_blocks by lia. replace (Z.of_nat (Z.to_nat k)) with k by lia.
    rewrite (total_ext _ (fun _ => total vs (zrange 0 n))).
    - rewrite total_const, zrange_length, <- M2. replace (Z.of_nat (Z.to_nat (k - 0))) with k by lia. rewrite Z2Qc_mul. ring.
    - intros j Hj. apply zrange_In in Hj. apply total_ext. intros s Hs. apply zrange_In in Hs. f_equal. now apply blocks_index.
  Qed.
  Lemma some_block G v : mean_of (k * n) G v -> exists j w, (0 <= j < k)%Z /\ mean_of n (fun s => G (j * n + s)%Z) w /\ (w <= v)%Qc.
  Proof.
    intros (vs & M1 & M2). set (W := fun j => (total (fun s => vs (j * n + s)%Z) (zrange 0 n) / Z2Qc n)%Qc).
    assert (Pn : Z2Qc n <> 0%Qc). { pose proof (S_positive n Hn) as X. intros E. rewrite E in X. revert X. apply Qcle_not_lt, Qcle_refl. }
    assert (WE : forall j, (Z2Qc n * W j)%Qc = total (fun s => vs (j * n + s)%Z) (zrange 0 n)) by (intros j; unfold W; field; exact Pn).
    destruct (below_mean k (fun j => Some (W j)) v Hk) as (j & a & Hj & [= <-] & L).
    - exists W. split; [reflexivity|].
      assert (X : (Z2Qc n * (Z2Qc k * v) = Z2Qc n * total W (zrange 0 k))%Qc).
      { rewrite <- total_scale. rewrite (total_ext (fun s => (Z2Qc n * W s)%Qc) (fun j => total (fun s => vs (j * n + s)%Z) (zrange 0 n))) by (intros; apply WE).
        pose proof (total_blocks vs n (Z.to_nat k) ltac:(lia)) as B. replace (Z.of_nat (Z.to_nat k)) with k in B by lia. rewrite <- B, <- M2, Z2Qc_mul. ring. }
      transitivity (Z2Qc n * (Z2Qc k * v) / Z2Qc n)%Qc; [field; exact Pn|]. rewrite X. field. exact Pn.
    - exists j, (W j). split; [exact Hj|]. split; [|exact L]. exists (fun s => vs (j * n + s)%Z). split; [|apply WE]. intros s Hs. apply (M1 (j * n + s)%Z). now apply blocks_index.
  Qed.
End Even.

Lemma even_together o k db' : let S' := (k * o_scenarios o)%Z in
  complete_problem o -> complete_problem (with_scenarios o S' db') -> constraints_by_scenario o -> averaged_costs o -> (1 <= k)%Z ->
  chosen_data o S' (fun s => s mod o_scenarios o)%Z db' ->
  (forall c n d', get_data db' c n = Ok d' -> exists d, get_data (o_database o) c n = Ok d) ->
  exists st st', build_problem o = Ok st /\ build_problem (with_scenarios o S' db') = Ok st' /\
  forall v, least_cost (st_solver st) v <-> least_cost (st_solver st') v.
Proof.
  intros S' C C' HC HA Hk HD Back. pose proof C as (G & R & P). pose proof C' as (G' & R' & P'). set (o' := with_scenarios o S' db') in *. set (n := o_scenarios o) in *.
  assert (Hn : (1 <= n)%Z) by exact (proj1 (proj2 G)).
  destruct (ready_scenarios o G R HC HA) as (st & sts & Hst & Hsts). destruct (ready_scenarios o' G' R' HC HA) as (st' & sts' & Hst' & Hsts').
  destruct (scenarios_together o st (fun s => settings_of s o) sts G HC (precise_bounds o P) Hst) as [f Hf]; [intros s Hs; split; apply (Hsts s Hs)|].
  destruct (scenarios_together o' st' (fun s => settings_of s o') sts' G' HC (precise_bounds o' P') Hst') as [f' Hf']; [intros s Hs; split; apply (Hsts' s Hs)|].
  exists st, st'. split; [exact Hst|]. split; [exact Hst'|].
  pose proof (exact_average o st (fun s => settings_of s o) sts f G HA Hst Hsts Hf (proj1 (proj2 P)) (fun s _ => proj1 (proj2 (settings_of_precise s o P)))) as average.
  pose proof (exact_average o' st' (fun s => settings_of s o') sts' f' G' HA Hst' Hsts' Hf' (proj1 (proj2 P')) (fun s _ => proj1 (proj2 (settings_of_precise s o' P')))) as average'.
  assert (HR : chooses o S' (fun s => s mod n)%Z) by (intros s Hs; apply Z.mod_pos_bound; fold n; lia).
  assert (Copy : forall y, solves y (st_solver st) -> exists y', solves y' (st_solver st') /\ objective_value y' (st_solver st') = objective_value y (st_solver st)).
  { intros y Hy. destruct (decisions_of_values o st y G Hst) as (x & Hx & Hr).
    assert (Y : exists y', represents o' st' y' (reordered_decisions (fun s => s mod n)%Z x)).
    { pose proof G' as (Hu & _ & _ & _ & Hd & Hm & _). apply represented_exists; auto; [intros c Hc; apply (Hm c Hc)|]. exact (chosen_admissible o db' S' _ x Hx). }
    destruct Y as [y' Hy']. destruct (chosen_solution o db' S' _ st st' sts sts' f f' HR HD G' HA Hst' Hsts Hsts' Hf Hf' P P' x y y' Hx Hr Hy') as (A & _ & v & E & M).
    exists y'. split; [now apply A|]. destruct (average y) as (w & Ew & Mw). rewrite E, Ew. f_equal.
    apply (mean_repeated n k Hn Hk) in Mw. assert (HS' : (1 <= S')%Z) by exact (proj1 (proj2 G')). exact (mean_unique S' HS' _ _ _ M Mw). }
  assert (Pick : forall y' v', solves y' (st_solver st') -> objective_value y' (st_solver st') = Some v' ->
    exists y v, solves y (st_solver st) /\ objective_value y (st_solver st) = Some v /\ (v <= v')%Qc).
  { intros y' v' Hy' E'. destruct (average' y') as (w' & Ew' & Mw'). rewrite E' in Ew'. injection Ew' as <-.
    destruct (some_block n k Hn Hk _ _ Mw') as (j & w & Hj & Mw & L). set (pj := fun s => (j * n + s)%Z).
    assert (W : with_scenarios o' n (o_database o) = o) by (unfold n, o'; destruct o; reflexivity).
    assert (HRj : chooses o' n pj) by (intros s Hs; apply (blocks_index n k Hn Hk j s Hj Hs)).
    assert (HDj : chosen_data o' n pj (o_database o)).
    { intros c m d' Hd'. cbn [o' with_scenarios o_database o_tree_node] in *. destruct (Back c m d' Hd') as [d Hd]. exists d. split; [exact Hd|].
      destruct (HD c m d Hd) as (d2 & Hd2 & V). rewrite Hd' in Hd2. injection Hd2 as <-. intros t. destruct (V t) as [V1 V2]. split; [now symmetry|].
      intros s Hs. destruct (blocks_index n k Hn Hk j s Hj Hs) as [I1 I2]. unfold pj. rewrite (V2 _ I1), I2. reflexivity. }
    destruct (decisions_of_values o' st' y' G' Hst') as (x & Hx & Hr).
    pose proof (chosen_admissible o' (o_database o) n pj x Hx) as Hx2.
    pose proof (chosen_solution o' (o_database o) n pj st' st sts' sts f' f HRj HDj) as X. rewrite W in X, Hx2.
    assert (Y : exists y, represents o st y (reordered_decisions pj x)).
    { pose proof G as (Hu & _ & _ & _ & Hd & Hm & _). apply represented_exists; auto. intros c Hc; apply (Hm c Hc). }
    destruct Y as [y Hy]. destruct (X G HA Hst Hsts' Hsts Hf' Hf P' P x y' y Hx Hr Hy) as (A & _ & v & E & M).
    exists y, v. split; [now apply A|]. split; [exact E|]. rewrite (mean_unique n Hn _ _ _ M Mw). exact L. }
  intros v. split; intros (y & (Hy & v' & E' & Best) & E); rewrite E in E'; injection E' as <-.
  - destruct (Copy y Hy) as (y' & H' & E'). rewrite E in E'. exists y'. split; [|exact E']. split; [exact H'|]. exists v. split; [exact E'|].
    intros y2 v2 H2 E2. destruct (Pick y2 v2 H2 E2) as (y3 & v3 & H3 & E3 & L). eapply Qcle_trans; [exact (Best y3 v3 H3 E3)|exact L].
  - destruct (Pick y v Hy E) as (y1 & v1 & H1 & E1 & L). destruct (Copy y1 H1) as (y' & H' & E'). rewrite E1 in E'.
    assert (v1 = v) by (apply Qcle_antisym; [exact L|exact (Best y' v1 H' E')]). subst v1.
    exists y1. split; [|exact E1]. split; [exact H1|]. exists v. split; [exact E1|]. intros y2 v2 H2 E2. destruct (Copy y2 H2) as (y3 & H3 & E3). apply (Best y3 v2 H3). congruence.
Qed.
