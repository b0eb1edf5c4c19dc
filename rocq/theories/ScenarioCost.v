(** Solutions and costs of a problem and of those of its scenarios (C80). *)
From Coq Require Import Lia.
From Verif Require Import Base BaseFacts Expr Visitors LinearExpr Linearize Expansion Model Study Strategy Optim Tree
  SpecExpr SpecSyntax SpecVisitors SpecExpansion SpecLinear SpecModel SpecOptim SpecReady SpecFusion
  ExprFacts CopyFacts VisitorFacts DegreeFacts ExpansionFacts LinearFacts ModelFacts OptimFacts OptimMeaning OptimProblem ReadyFacts OptimReady
  SpecDecompose DecomposeFacts SpecOrder OrderFacts OrderProblem OrderFiles SpecParts PartsFacts SpecScenarios ScenarioFacts.

(** ** Solutions *)
Lemma coefs_renumber f (y : nat -> Qc) l : coefs_value y (map (renumber f) l) = coefs_value (fun i => y (f i)) l.
Proof. unfold coefs_value. rewrite map_map. reflexivity. Qed.
Lemma copied_sat f y r1 r : copied_row f r1 r -> row_sat y r <-> row_sat (fun i => y (f i)) r1.
Proof. intros (E1 & E2 & E3). unfold row_sat. rewrite E1, E2, E3, coefs_renumber. reflexivity. Qed.
Lemma together_solves o st os sts f : put_together o st os sts f ->
  forall y, solves y (st_solver st) <-> forall s, (0 <= s < o_scenarios o)%Z -> solves (fun i => y (f s i)) (st_solver (sts s)).
Proof.
  intros [P1 P2 P3 P4] y. split.
  - intros [HC HR] s Hs. destruct (P1 s Hs) as [[F1 F2 F3] _]. split.
    + intros i v Ev. destruct (F2 i v Ev) as (w & Ew & E1 & E2 & E3). specialize (HC _ _ Ew). unfold in_column in *. now rewrite <- E1, <- E2, <- E3.
    + apply Forall_forall. intros r1 Hr1. destruct (F3 r1 Hr1) as (r & Hr & C). apply (copied_sat _ y _ _ C). rewrite Forall_forall in HR. now apply HR.
  - intros H. split.
    + intros j w Ew. assert (Hj : (j < List.length (s_vars (st_solver st)))%nat) by (apply nth_error_Some; congruence).
      destruct (P2 j Hj) as (s & i & Hs & Hi & <-). destruct (P1 s Hs) as [[F1 F2 F3] _]. destruct (nth_error (s_vars (st_solver (sts s))) i) as [v|] eqn:Ev; [|apply nth_error_None in Ev; lia].
      destruct (F2 i v Ev) as (w' & Ew' & E1 & E2 & E3). rewrite Ew in Ew'. injection Ew' as <-. pose proof (proj1 (H s Hs) _ _ Ev) as HC. cbn in HC. unfold in_column in *. now rewrite E1, E2, E3.
    + apply Forall_forall. intros r Hr. destruct (P3 r Hr) as (s & r1 & Hs & Hr1 & C). apply (copied_sat _ y _ _ C). destruct (H s Hs) as [_ HR]. rewrite Forall_forall in HR. now apply HR.
Qed.

(** ** Averages *)
Section Means.
  Context (S : Z) (HS : (1 <= S)%Z).
  Notation L := (zrange 0 S).
  Definition total (vs : Z -> Qc) (l : list Z) : Qc := fold_right (fun s a => (vs s + a)%Qc) 0%Qc l.
  Definition mean_of (F : Z -> option Qc) (v : Qc) : Prop :=
    exists vs, (forall s, (0 <= s < S)%Z -> F s = Some (vs s)) /\ (Z2Qc S * v)%Qc = total vs L.
  Lemma total_add a b l : total (fun s => (a s + b s)%Qc) l = (total a l + total b l)%Qc.
  Proof. induction l as [|z l IH]; cbn [total fold_right]; [ring|]. fold (total (fun s => (a s + b s)%Qc) l) (total a l) (total b l). rewrite IH. ring. Qed.
  Lemma total_scale c a l : total (fun s => (c * a s)%Qc) l = (c * total a l)%Qc.
  Proof. induction l as [|z l IH]; cbn [total fold_right]; [ring|]. fold (total (fun s => (c * a s)%Qc) l) (total a l). rewrite IH. ring. Qed.
  Lemma total_const v l : total (fun _ => v) l = (Z2Qc (Z.of_nat (List.length l)) * v)%Qc.
  Proof.
    induction l as [|z l IH]; [cbn; rewrite Z2Qc_0; ring|]. cbn [total fold_right]. fold (total (fun _ => v) l). rewrite IH.
    change (List.length (z :: l)) with (Datatypes.S (List.length l)). rewrite Nat2Z.inj_succ. unfold Z.succ. rewrite Z2Qc_add, Z2Qc_1. ring.
  Qed.
  Lemma range_length : Z.of_nat (List.length L) = S.
  Proof. unfold zrange. rewrite map_length, seq_length. lia. Qed.
  Lemma mean_const v : mean_of (fun _ => Some v) v.
  Proof. exists (fun _ => v). split; [auto|]. now rewrite total_const, range_length. Qed.
  Lemma mean_ext F G v : (forall s, (0 <= s < S)%Z -> F s = G s) -> mean_of F v -> mean_of G v.
  Proof. intros E (vs & H1 & H2). exists vs. split; [|exact H2]. intros s Hs. now rewrite <- E, H1. Qed.
  Lemma mean_add F G a b : mean_of F a -> mean_of G b -> mean_of (fun s => olift2 Qcplus (F s) (G s)) (a + b)%Qc.
  Proof. intros (va & A1 & A2) (vb & B1 & B2). exists (fun s => (va s + vb s)%Qc). split; [intros s Hs; now rewrite A1, B1|]. rewrite total_add, <- A2, <- B2. ring. Qed.
  Lemma mean_scale c F a : mean_of F a -> mean_of (fun s => olift2 Qcmult (Some c) (F s)) (c * a)%Qc.
  Proof. intros (va & A1 & A2). exists (fun s => (c * va s)%Qc). split; [intros s Hs; now rewrite A1|]. rewrite total_scale, <- A2. ring. Qed.
  Lemma mean_scale' c F a : mean_of F a -> mean_of (fun s => olift2 Qcmult (F s) (Some c)) (a * c)%Qc.
  Proof.
    intros H. rewrite (Qcmult_comm a c). apply (mean_ext (fun s => olift2 Qcmult (Some c) (F s))); [|now apply mean_scale].
    intros s _. destruct (F s); cbn; [now rewrite Qcmult_comm|reflexivity].
  Qed.
  Lemma mean_opp F a : mean_of F a -> mean_of (fun s => option_map Qcopp (F s)) (- a)%Qc.
  Proof.
    intros (va & A1 & A2). exists (fun s => (- (1) * va s)%Qc). split; [intros s Hs; rewrite A1 by exact Hs; cbn; f_equal; ring|]. rewrite total_scale, <- A2. ring.
  Qed.
  Lemma S_nonzero : Z2Qc S <> 0%Qc.
  Proof. rewrite <- Z2Qc_0. intros E. apply Z2Qc_inj in E. lia. Qed.
  Lemma osum_total vs (F : Z -> option Qc) l : (forall s, In s l -> F s = Some (vs s)) -> osum (map F l) = Some (total vs l).
  Proof. induction l as [|z l IH]; intros H; cbn [map osum total fold_right]; [reflexivity|]. rewrite (H z) by (now left). rewrite IH by (intros; apply H; now right). reflexivity. Qed.
  Lemma mean_omean F v : mean_of F v -> omean S (map F L) = Some v.
  Proof.
    intros (vs & H1 & H2). unfold omean. destruct (Z.leb_spec S 0); [lia|]. rewrite (osum_total vs) by (intros s Hs; apply H1; now apply zrange_In in Hs).
    cbn. f_equal. rewrite <- H2. field. apply S_nonzero.
  Qed.
  Lemma osum_each (F : Z -> option Qc) l v : osum (map F l) = Some v -> forall s, In s l -> exists w, F s = Some w.
  Proof.
    revert v. induction l as [|z l IH]; intros v H s [].
    - subst z. cbn in H. destruct (F s); [eauto|discriminate].
    - cbn in H. destruct (F z); [|discriminate]. destruct (osum (map F l)) eqn:E; [|discriminate]. eauto.
  Qed.
  Lemma omean_mean F v : omean S (map F L) = Some v -> mean_of F v.
  Proof.
    unfold omean. destruct (Z.leb_spec S 0); [lia|]. intros H1. destruct (osum (map F L)) as [w|] eqn:E; [|discriminate]. cbn in H1. injection H1 as <-.
    exists (fun s => match F s with Some q => q | None => 0%Qc end). assert (G : forall s, In s L -> F s = Some (match F s with Some q => q | None => 0%Qc end)).
    { intros s Hs. destruct (osum_each _ _ _ E s Hs) as [q ->]. reflexivity. }
    split; [intros s Hs; apply G; now apply zrange_In|]. rewrite (osum_total _ _ _ G) in E. injection E as <-. field. apply S_nonzero.
  Qed.
End Means.

(** ** Values of expressions in one scenario *)
Lemma den_in (E E1 : env) (s : Z) a : (forall n t, e_var E1 n t 0%Z = e_var E n t s) -> (forall n t, e_par E1 n t 0%Z = e_par E n t s) ->
  (forall p f, Forall2 (fun v1 v => forall t, v1 t 0%Z = v t s) (e_port E1 p f) (e_port E p f)) -> e_T E1 = e_T E -> by_scenario a ->
  forall t, den E1 a t 0 = den E a t s.
Proof.
  intros HV HP HF HT. unfold by_scenario. assert (HA : forall p f t, osum (map (fun v => v t 0%Z) (e_port E1 p f)) = osum (map (fun v => v t s) (e_port E p f))).
  { intros p f t. specialize (HF p f). induction HF as [|v1 v l1 l Hv _ IH]; [reflexivity|]. cbn [map osum]. now rewrite Hv, IH. }
  induction a using expr_ind'; intros HN t; cbn [den]; try reflexivity; try (apply all_nodes_root in HN; contradiction).
  - cbn in HN. now rewrite IHa by tauto.
  - apply all_nodes_Add in HN. destruct HN as [_ HN]. f_equal. clear HA HF. induction H as [|a l Ha _ IH]; [reflexivity|]. inversion HN; subst. cbn [map]. now rewrite Ha, IH.
  - cbn in HN. now rewrite IHa1, IHa2 by tauto.
  - cbn in HN. now rewrite IHa1, IHa2 by tauto.
  - now rewrite HV.
  - now rewrite HP.
  - cbn in HN. rewrite IHa2 by tauto. destruct (oint _); [|reflexivity]. now apply IHa1.
  - cbn in HN. rewrite IHa2 by tauto. destruct (oint _); [|reflexivity]. now apply IHa1.
  - cbn in HN. rewrite IHa2, IHa3 by tauto. destruct (oint _); [|reflexivity]. destruct (oint _); [|reflexivity]. f_equal. apply map_ext. intros i. now apply IHa1.
  - cbn in HN. rewrite HT. f_equal. apply map_ext. intros i. now apply IHa.
  - specialize (HF p f). inversion HF as [|v1 v l1 l Hv Hl E2 E3]; [reflexivity|]. inversion Hl; [apply Hv|reflexivity].
  - destruct a; try reflexivity. destruct a0; try reflexivity. apply HA.
Qed.

(** what is connected to a port is defined without scenario operators and by names of its component *)
Lemma context_own_names id e e' : add_component_context id e = Ok e' ->
  all_nodes (fun x => match x with CVar _ _ | CParam _ _ | PVar _ _ _ _ | PParam _ _ _ _ => False | _ => True end) e.
Proof.
  unfold add_component_context. revert e'. induction e using expr_ind'; intros e' He; cbn [copy_with context_adder on_var on_param on_cvar on_cparam on_pvar on_pparam on_agg] in He; try discriminate;
    repeat inv_bind He; cbn [all_nodes]; try tauto; repeat split; eauto.
  match goal with Hm : mapM _ l = Ok _ |- _ => apply mapM_ok in Hm; rename Hm into Hvs end. clear He e'. induction Hvs as [|a b l vs Hab _ IH]; cbn; [exact I|]. inversion H; subst. split; [|now apply IH]. eauto.
Qed.
Lemma connected_by_scenario o ports c p f d : good_problem o -> register_connections o = Ok ports -> In d (connected (o_network o) c p f) -> by_scenario (snd d).
Proof.
  intros Hgood HP Hd. pose proof (ob_built o Hgood) as Hb. pose proof (ob_connections o Hgood) as Hk.
  assert (HF := connections_registered o ports Hb (fun k Hk' => conj (proj1 (proj1 (Hk k Hk'))) (proj1 (proj2 (Hk k Hk')))) HP c p f).
  apply In_nth_error in Hd as Hi. destruct Hi as [i Hi]. destruct (Forall2_nth_left _ _ _ HF _ _ Hi) as (e & _ & E). apply context_own_names in E.
  pose proof (connected_good (o_network o) c p f d Hk Hd) as (_ & _ & _ & _ & HS). revert E HS. unfold by_scenario, no_scenario_operator.
  generalize (snd d) as a. intros a H1 H2. eapply all_nodes_imp; [|exact (all_nodes_and _ _ _ H1 H2)]. intros x. destruct x; tauto.
Qed.
Section Cost.
  Context (s : Z) (o o1 : settings) (HO : one_scenario s o o1) (x : decisions) (ports : dict port_field_key (list expr)).
  Hypothesis (Hgood : good_problem o) (HP : register_connections o = Ok ports).
  Lemma data_at_one c n t : data_at o1 c n t 0 = data_at o c n t s.
  Proof.
    unfold data_at. rewrite (os_block _ _ _ HO), (os_tree_node _ _ _ HO). pose proof (os_data _ _ _ HO c n) as H. destruct (get_data (o_database o) c n), (get_data (o_database o1) c n); try contradiction; [|reflexivity].
    destruct (nth_error _ _); [|reflexivity]. now rewrite (proj1 (H _)).
  Qed.
  Lemma value_in id a t : by_scenario a -> den (component_world o1 (seen_in s x) id) a t 0 = den (component_world o x id) a t s.
  Proof.
    intros Ha. apply den_in; [reflexivity|intros; apply data_at_one| |cbn; now rewrite (os_block _ _ _ HO)|exact Ha].
    intros p f. cbn [component_world e_port]. rewrite (os_network _ _ _ HO). assert (G : forall d, In d (connected (o_network o) id p f) -> by_scenario (snd d)) by (intros d Hd; eapply connected_by_scenario; eauto).
    induction (connected (o_network o) id p f) as [|d l IH]; [constructor|]. cbn [map]. constructor; [|apply IH; intros; apply G; now right].
    intros t'. apply den_in; [reflexivity|intros; apply data_at_one|constructor|cbn; now rewrite (os_block _ _ _ HO)|apply G; now left].
  Qed.
End Cost.
Section Steady.
  Context (o : settings) (x : decisions).
  Hypothesis (Hgood : good_problem o) (Hreq : requirements_consistency (o_database o) (o_network o) = Ok tt) (Hx : admissible_decisions o x).
  Lemma steady_value id b t z z' : steady (o_network o) id b -> den (component_world o x id) b t z = den (component_world o x id) b t z'.
  Proof.
    intros [HN HV]. unfold varies_in_scenario, varies_in in HV. revert HV. generalize (fun p f => existsb (fun d => varies ix_scenario false true (local_structure (o_network o) (fst d)) (fun _ _ => false) (snd d)) (connected (o_network o) id p f)) as ports.
    intros ports. revert t. induction b using expr_ind'; intros t HV; try (apply all_nodes_root in HN; contradiction); cbn [varies negb andb] in HV; cbn [den].
    - reflexivity.
    - cbn in HN. now rewrite IHb by tauto.
    - apply all_nodes_Add in HN. destruct HN as [_ HN]. f_equal. induction H as [|a l Ha _ IH]; [reflexivity|]. inversion HN; subst. cbn [map existsb] in *. apply orb_false_elim in HV. destruct HV. now rewrite Ha, IH.
    - cbn in HN. apply orb_false_elim in HV. now rewrite IHb1, IHb2 by tauto.
    - cbn in HN. apply orb_false_elim in HV. now rewrite IHb1, IHb2 by tauto.
    - cbn [component_world e_var]. f_equal. unfold local_structure in HV. destruct (get_component (o_network o) id) as [k|] eqn:E; [|discriminate]. cbn [model_structure_provider get_variable_structure get_parameter_structure] in HV. unfold may_vary, dict_structure in HV.
      destruct (dget String.eqb n (m_variables (co_model k))) as [v|] eqn:Ev; [|discriminate]. cbn in HV.
      destruct (get_component_known _ _ _ (ob_built o Hgood) E) as [Hin <-]. apply (dget_In String.eqb String.eqb_eq) in Ev.
      destruct (ob_named o Hgood k Hin) as (_ & _ & _ & [_ Hnv] & _). pose proof (Hnv _ _ Ev) as En. subst n. apply (proj2 Hx k v Hin); [|exact HV]. apply in_map_iff. eexists; split; [|exact Ev]; reflexivity.
    - cbn [component_world e_par]. unfold local_structure in HV. destruct (get_component (o_network o) id) as [k|] eqn:E; [|discriminate]. cbn [model_structure_provider get_variable_structure get_parameter_structure] in HV. unfold may_vary, dict_structure in HV.
      destruct (dget String.eqb n (m_parameters (co_model k))) as [p|] eqn:Ep; [|discriminate]. cbn in HV.
      destruct (get_component_known _ _ _ (ob_built o Hgood) E) as [Hin <-]. apply (dget_In String.eqb String.eqb_eq) in Ep.
      destruct (ob_named o Hgood k Hin) as (_ & _ & [_ Hnp] & _). pose proof (Hnp _ _ Ep) as En. subst n.
      pose proof Hgood as (_ & _ & _ & _ & _ & Hm & _ & _ & Hnd).
      assert (HD : has_suitable_data (o_database o) (co_id k) p).
      { assert (Hp : In p (map snd (m_parameters (co_model k)))) by (apply in_map_iff; eexists; split; [|exact Ep]; reflexivity).
        unfold all_components in Hin. apply in_app_or in Hin. destruct Hin as [Hin|Hin]; [now apply Hnd|]. eapply requirements_ok; eauto. intros c' Hc'. apply (Hm c'). apply in_or_app. now right. }
      now apply (data_at_suitable o (co_id k) p HD).
    - cbn in HN. f_equal. apply map_ext. intros i. now apply IHb.
  Qed.
End Steady.
Lemma steady_by_scenario n id b : steady n id b -> by_scenario b.
Proof. intros [H _]. revert H. apply all_nodes_imp. intros y. destruct y; tauto. Qed.
Section Averaged.
  Context (o : settings) (os : Z -> settings) (x : decisions) (ports : dict port_field_key (list expr)).
  Hypothesis (Hgood : good_problem o) (Hreq : requirements_consistency (o_database o) (o_network o) = Ok tt) (HP : register_connections o = Ok ports) (Hx : admissible_decisions o x).
  Hypothesis Hos : forall s, (0 <= s < o_scenarios o)%Z -> one_scenario s o (os s).
  Let HS : (1 <= o_scenarios o)%Z := proj1 (proj2 Hgood).
  Notation E := (component_world o x).
  Notation Es := (fun s => component_world (os s) (seen_in s x)).
  Lemma steady_mean id b t z v : steady (o_network o) id b -> den (E id) b t z = Some v -> mean_of (o_scenarios o) (fun s => den (Es s id) b t 0) v /\ forall s, (0 <= s < o_scenarios o)%Z -> den (Es s id) b t 0 = Some v.
  Proof.
    intros Hb Hv. assert (G : forall s, (0 <= s < o_scenarios o)%Z -> den (Es s id) b t 0 = Some v).
    { intros s Hs. cbn beta. rewrite (value_in s o (os s) (Hos s Hs) x ports Hgood HP id b t (steady_by_scenario _ _ _ Hb)). rewrite <- Hv. now apply steady_value. }
    split; [|exact G]. apply (mean_ext _ (fun _ => Some v)); [intros s Hs; symmetry; now apply G|]. now apply mean_const.
  Qed.
  Lemma averaged_value id e t z : averaged (o_network o) id e -> forall r, den (E id) e t z = Some r -> mean_of (o_scenarios o) (fun s => den (Es s id) e t 0) r.
  Proof.
    induction e using expr_ind'; intros HA r Hv; inversion HA; subst; try (eapply steady_mean; eassumption); cbn [den] in Hv |- *.
    - destruct (den (E id) e t z) as [w|]; [|discriminate]. cbn in Hv. injection Hv as <-. apply mean_opp. auto.
    - revert r Hv. clear HA. match goal with HF : Forall (averaged _ _) l |- _ => rename HF into HA end.
      induction H as [|a l Ha _ IH]; intros r Hv; cbn [map osum] in Hv |- *; [injection Hv as <-; now apply mean_const|]. inversion HA; subst.
      destruct (den (E id) a t z) as [w|]; [|discriminate]. destruct (osum (map (fun a => den (E id) a t z) l)) as [w'|]; [|discriminate]. injection Hv as <-.
      apply (mean_ext _ (fun s => olift2 Qcplus (den (Es s id) a t 0) (osum (map (fun a => den (Es s id) a t 0) l)))).
      + intros s _. cbn beta. destruct (den _ a t 0); [|reflexivity]. destruct (osum _); reflexivity.
      + apply mean_add; auto.
    - destruct (den (E id) e1 t z) as [w1|] eqn:E1; [|discriminate]. destruct (den (E id) e2 t z) as [w2|] eqn:E2; [|discriminate]. cbn in Hv. injection Hv as <-.
      match goal with HB : steady _ _ e2 |- _ => destruct (steady_mean _ _ _ _ _ HB E2) as [_ G] end. apply (mean_ext _ (fun s => olift2 Qcmult (den (Es s id) e1 t 0) (Some w2))); [intros s Hs; cbn beta in *; now rewrite (G s Hs)|].
      apply mean_scale'. auto.
    - destruct (den (E id) e1 t z) as [w1|] eqn:E1; [|discriminate]. destruct (den (E id) e2 t z) as [w2|] eqn:E2; [|discriminate]. cbn in Hv. injection Hv as <-.
      match goal with HB : steady _ _ e1 |- _ => destruct (steady_mean _ _ _ _ _ HB E1) as [_ G] end. apply (mean_ext _ (fun s => olift2 Qcmult (Some w1) (den (Es s id) e2 t 0))); [intros s Hs; cbn beta in *; now rewrite (G s Hs)|].
      apply mean_scale. auto.
    - destruct (den (E id) e1 t z) as [w1|] eqn:E1; [|discriminate]. destruct (den (E id) e2 t z) as [w2|] eqn:E2; [|discriminate]. cbn in Hv. destruct (Qceqb w2 0) eqn:EZ; [discriminate|]. injection Hv as <-.
      match goal with HB : steady _ _ e2 |- _ => destruct (steady_mean _ _ _ _ _ HB E2) as [_ G] end. apply (mean_ext _ (fun s => olift2 Qcmult (den (Es s id) e1 t 0) (Some (/ w2)%Qc))).
      + intros s Hs. cbn beta in *. rewrite (G s Hs). cbn. destruct (den _ e1 t 0); cbn; [now rewrite EZ|reflexivity].
      + apply mean_scale'. auto.
    - apply omean_mean in Hv; [|exact HS]. revert Hv. apply mean_ext. intros s Hs. cbn [component_world e_S]. rewrite (os_scenarios _ _ _ (Hos s Hs)).
      change (zrange 0 1) with [0%Z]. cbn [map osum]. rewrite (value_in s o (os s) (Hos s Hs) x ports Hgood HP id e t) by assumption.
      unfold omean. change (1 <=? 0)%Z with false. cbn iota. rewrite Z2Qc_1. destruct (den (E id) e t s); [|reflexivity]. cbn [osum olift2]. apply f_equal. field. discriminate.
  Qed.
  Lemma contributions_value t z v : averaged_costs o -> osum (map (contribution_value o x t z) (contributions o)) = Some v ->
    mean_of (o_scenarios o) (fun s => osum (map (contribution_value (os s) (seen_in s x) t 0) (contributions o))) v.
  Proof.
    intros HA. clearbody HS. assert (G : forall l, incl l (contributions o) -> forall v, osum (map (contribution_value o x t z) l) = Some v ->
      mean_of (o_scenarios o) (fun s => osum (map (contribution_value (os s) (seen_in s x) t 0) l)) v); [|apply G, incl_refl].
    induction l as [|[c e] l IH]; intros HI r Hr; cbn [map osum] in Hr |- *; [injection Hr as <-; now apply mean_const|].
    destruct (contribution_value o x t z (c, e)) as [w|] eqn:E1; [|discriminate]. destruct (osum _) as [w'|] eqn:E2; [|discriminate]. injection Hr as <-.
    apply (mean_ext _ (fun s => olift2 Qcplus (contribution_value (os s) (seen_in s x) t 0 (c, e)) (osum (map (contribution_value (os s) (seen_in s x) t 0) l)))).
    - intros s _. cbn beta. destruct (contribution_value _ _ _ _ _); [|reflexivity]. destruct (osum _); reflexivity.
    - apply mean_add; [|apply IH; [intros y Hy; apply HI; now right|reflexivity]]. unfold contribution_value in E1 |- *. cbn [fst snd] in *.
      destruct (risk_factor (o_risk o)) as [p|] eqn:Ep; [|discriminate]. destruct (den (E (co_id c)) e t z) as [q|] eqn:Ed; [|discriminate]. cbn in E1. injection E1 as <-.
      apply (mean_ext _ (fun s => olift2 Qcmult (Some p) (den (Es s (co_id c)) e t 0))); [intros s Hs; cbn beta; now rewrite (os_risk _ _ _ (Hos s Hs)), Ep|].
      apply mean_scale. eapply averaged_value; [|exact Ed]. apply HA, HI. now left.
  Qed.
End Averaged.
Lemma admissible_in s o o1 x : one_scenario s o o1 -> admissible_decisions o x -> admissible_decisions o1 (seen_in s x).
Proof.
  intros HO [H1 H2]. unfold admissible_decisions, seen_in. rewrite (os_block _ _ _ HO), (os_network _ _ _ HO). split; [auto|]. intros c v Hc Hv. destruct (H2 c v Hc Hv) as [G1 G2]. split; [auto|reflexivity].
Qed.
Lemma represents_in s o o1 st st1 f x y : (0 <= s < o_scenarios o)%Z -> one_scenario s o o1 -> same_decisions s o1 o st1 st f -> represents o st y x ->
  represents o1 st1 (fun i => y (f i)) (seen_in s x).
Proof.
  intros Hs HO HD HR c v t sc i (I1 & I2 & I3 & I4) Hi t' s'. rewrite (os_network _ _ _ HO) in I1. rewrite (os_selection _ _ _ HO) in I2. rewrite (os_block _ _ _ HO) in I3. rewrite (os_scenarios _ _ _ HO) in I4.
  destruct (HD (co_id c) (v_name v) t) as [D1 D2]. unfold seen_in. destruct sc as [z|].
  - cbn in I4. assert (z = 0%Z) by lia. subst z. apply D1 in Hi. apply (HR c v t (Some s) _) with (t' := t') (s' := s') in Hi; [exact Hi|]. repeat split; auto; cbn; tauto.
  - apply D2 in Hi. apply (HR c v t None _) with (t' := t') (s' := s) in Hi; [exact Hi|]. repeat split; auto.
Qed.
Lemma scenarios_cost o st os sts f : good_problem o -> averaged_costs o -> build_problem o = Ok st ->
  (forall s, (0 <= s < o_scenarios o)%Z -> one_scenario s o (os s) /\ good_problem (os s) /\ build_problem (os s) = Ok (sts s)) -> put_together o st os sts f ->
  exists d ds, few (list_sum (map (contribution_mentions o) (contributions o))) d /\
  (forall s, (0 <= s < o_scenarios o)%Z -> few (list_sum (map (contribution_mentions (os s)) (contributions (os s)))) (ds s)) /\
  forall x y t z, admissible_decisions o x -> represents o st y x -> exists v,
    olift2 Qcplus (objective_value y (st_solver st)) (terms_value (read (world o x) t z) d) = Some v /\
    omean (o_scenarios o) (map (fun s => olift2 Qcplus (objective_value (fun i => y (f s i)) (st_solver (sts s))) (terms_value (read (world (os s) (seen_in s x)) t 0) (ds s)))
      (zrange 0 (o_scenarios o))) = Some v.
Proof.
  intros Hgood HA Hst Hos HT. destruct (objective_meaning o st Hgood Hst) as (d & Hd & HM). pose proof (proj1 (proj2 Hgood)) as HS.
  destruct (chosen_functions (fun s ds => few (list_sum (map (contribution_mentions (os s)) (contributions (os s)))) ds /\
    forall x y t z, admissible_decisions (os s) x -> represents (os s) (sts s) y x -> exists v, osum (map (contribution_value (os s) x t z) (contributions (os s))) = Some v /\
      olift2 Qcplus (objective_value y (st_solver (sts s))) (terms_value (read (world (os s) x) t z) ds) = Some v) [] (o_scenarios o)) as [ds Hds]; [lia| |].
  { intros s Hs. destruct (Hos s Hs) as (_ & Hg & Hb). exact (objective_meaning _ _ Hg Hb). }
  exists d, ds. split; [exact Hd|]. split; [intros s Hs; apply (Hds s Hs)|]. intros x y t z Hx Hr. destruct (HM x y t z Hx Hr) as (v & Hv & Ho). exists v. split; [exact Ho|].
  destruct (build_steps o st Hst) as (ports & _ & _ & Hreq & HP & _).
  pose proof (contributions_value o os x ports Hgood Hreq HP Hx (fun s Hs => proj1 (Hos s Hs)) t z v HA Hv) as HMean. apply mean_omean; [exact HS|]. revert HMean. apply mean_ext.
  intros s Hs. destruct (Hos s Hs) as (HO & Hg & Hb). destruct (Hds s Hs) as [_ G]. destruct (G (seen_in s x) (fun i => y (f s i)) t 0%Z) as (w & E1 & E2).
  - eapply admissible_in; eauto.
  - eapply represents_in; eauto. now apply (pt_found _ _ _ _ _ HT).
  - rewrite (one_contributions s o (os s) HO) in E1. now rewrite E1, E2.
Qed.

(** ** The settings of one scenario, made from those of all *)
Lemma data_scenario_of s sc : data_scenario (scenarization_of s sc) 0 = data_scenario sc s.
Proof. unfold scenarization_of. destruct (data_scenario sc s) as [c|e] eqn:E; [reflexivity|]. cbn. destruct sc as [m|]; cbn in E; [|discriminate]. unfold get_scenario_for_year in *. destruct (dget _ _ _); congruence. Qed.
Lemma data_of_value s d t node : get_value (data_of s d) t (Some 0%Z) node = get_value d t (Some s) node /\ get_value (data_of s d) t None node = get_value d t None node.
Proof.
  revert node. induction d using data_ind'; intros node; cbn [data_of get_value]; auto.
  - now rewrite data_scenario_of.
  - destruct t; [|auto]. now rewrite data_scenario_of.
  - induction H as [|[k d] l Hd _ IH]; cbn [map fst snd]; [auto|]. destruct (String.eqb node k); [apply Hd|exact IH].
Qed.
Lemma settings_of_one s o : one_scenario s o (settings_of s o).
Proof.
  constructor; try reflexivity. intros c n. cbn [settings_of o_database]. unfold get_data. 
  assert (E : forall db, dget pfi_eqb (c, n) (map (fun kd => (fst kd, data_of s (snd kd))) db) = option_map (data_of s) (dget pfi_eqb (c, n) db)).
  { induction db as [|[k d] db IH]; [reflexivity|]. cbn [map fst snd dget]. destruct (pfi_eqb (c, n) k); [reflexivity|exact IH]. }
  rewrite E. destruct (dget pfi_eqb (c, n) (o_database o)) as [d|]; cbn [option_map]; [|reflexivity]. intros t. apply data_of_value.
Qed.
