(** Studies given by their files whose numbers have a common denominator (see PropPreciseFiles.v). *)
From Coq Require Import Lia.
From Verif Require Import Base BaseFacts Expr SpecExpr SpecSyntax CopyFacts Visitors EqFacts Parse SpecParse LexFacts ParseFacts
  ModelFacts ParseMeaning LinearExpr LinearFacts Model Study Strategy Optim System Library LibraryFacts Main SpecModel SpecLibrary SpecSystem
  SystemFacts SpecVisitors SpecExpansion SpecLinear SpecOptim SpecMain TextFacts MentionFacts OptimFacts OptimProblem OptimNames MainFacts
  ExprFacts SpecScenarios SpecPrecise SpecPreciseFiles PreciseFacts PreciseProblem.
Local Open Scope string_scope.
Local Open Scope list_scope.

(** ** Texts and the expressions made of them *)
Section Texts.
  Context (S : Z) (ids : identifiers) (data : string -> string -> (Qc -> Prop) -> Prop) (own : string -> (Qc -> Prop) -> Prop) (ports : string -> string -> Z -> Prop).
  Let vars := id_variables ids.
  Lemma precise_operands D a : precise S data own ports D a -> Forall (precise S data own ports D) (add_operands a).
  Proof. intros H. destruct a; cbn [add_operands]; try (constructor; [exact H|constructor]). now apply precise_Add. Qed.
  Lemma precise_py_add D a b : precise S data own ports D a -> precise S data own ports D b -> precise S data own ports D (py_add a b).
  Proof. intros Ha Hb. apply precise_Add. apply Forall_app. split; now apply precise_operands. Qed.
  Lemma precise_py_sub D a b : precise S data own ports D a -> precise S data own ports D b -> precise S data own ports D (py_sub a b).
  Proof.
    intros Ha Hb. apply precise_Add. apply Forall_app. split; [now apply precise_operands|]. apply precise_operands in Hb.
    induction Hb as [|u l Hu _ IH]; constructor; [exact Hu|exact IH].
  Qed.
  Lemma precise_name D n : name_precise vars own D n -> precise S data own ports D (name_of vars n).
  Proof. unfold name_precise, name_of. intros [->|H]; [exact I|]. destruct (existsb _ _); [exact I|exact H]. Qed.
  Lemma precise_expr_of e : plain e -> valid_tokens (tokens e) -> without_comparison e ->
    forall D, text_precise S vars own ports D e -> precise S data own ports D (expr_of vars e).
  Proof.
    unfold without_comparison. induction e; intros P V W D H; cbn [text_precise] in H; cbn [throughout plain tokens] in P, V, W.
    - exists (decimal_value n). split; [|exact H]. cbn [expr_of]. inversion V; subst. now rewrite number_value_decimal.
    - now apply precise_name.
    - exact H.
    - apply valid_cons in V. apply IHe; tauto.
    - apply valid_cons, valid_app in V. apply IHe; tauto.
    - apply valid_app in V. destruct V as [V1 V2]. apply valid_cons in V2. destruct o.
      + destruct H as (D1 & D2 & H1 & H2 & HD & P1 & P2). exists D1, D2. repeat split; auto; [apply IHe1|apply IHe2]; tauto.
      + destruct H as (D1 & D2 & H1 & H2 & HD & P1 & P2). exists D1, D2. repeat split; auto; [apply IHe1; tauto|].
        destruct e2; cbn [text_divisor] in P2; try contradiction.
        * exists (decimal_value n). split; [|exact P2]. cbn [expr_of]. inversion V2; subst. now rewrite number_value_decimal.
        * destruct P2 as [E P2]. unfold vars in E. cbn [expr_of]. unfold name_of. fold vars. unfold vars. rewrite E. exact P2.
    - apply valid_app in V. destruct V as [V1 V2]. apply valid_cons in V2.
      assert (G1 : precise S data own ports D (expr_of vars e1)) by (apply IHe1; tauto).
      assert (G2 : precise S data own ports D (expr_of vars e2)) by (apply IHe2; tauto).
      destruct o; [now apply precise_py_add|now apply precise_py_sub].
    - contradiction (proj1 W).
    - apply valid_cons, valid_cons, valid_app in V. apply IHe; tauto.
    - exact H.
    - apply valid_cons, valid_cons, valid_app in V. destruct V as [Va V]. apply valid_cons, valid_app in V. destruct V as [Vb V].
      apply valid_cons, valid_app in V. change (precise S data own ports D (expr_of vars e)). apply IHe; tauto.
    - apply valid_cons, valid_cons, valid_app in V. destruct H as (D1 & H1 & HD & P1). exists D1. repeat split; auto. apply IHe; tauto.
    - change (expr_of vars (WAt x k)) with
        (if is_zero (shift_of vars k) then name_of vars x else py_shift (name_of vars x) (shift_of vars k)).
      apply precise_name in H. destruct (is_zero _); exact H.
    - now apply precise_name in H.
    - contradiction P.
    - contradiction P.
  Qed.
End Texts.

(** ** Data at scenarios below 0, which count from the end *)
Lemma iloc_wraps {A} (l : list A) i a : iloc l i = Ok a -> exists j, (0 <= j)%Z /\ iloc l j = Ok a.
Proof.
  unfold iloc. destruct (i <? 0)%Z eqn:E; [|intros H; exists i; apply Z.ltb_ge in E; split; [exact E|]; destruct (i <? 0)%Z eqn:E2; [apply Z.ltb_lt in E2; lia|exact H]].
  intros H. exists (i + Z.of_nat (List.length l))%Z. destruct ((0 <=? i + Z.of_nat (List.length l))%Z && _) eqn:E2; [|discriminate].
  apply andb_true_iff in E2. destruct E2 as [E2 E3]. pose proof E2 as E2'. apply Z.leb_le in E2. split; [exact E2|].
  destruct (i + _ <? 0)%Z eqn:E4; [apply Z.ltb_lt in E4; lia|]. now rewrite E2', E3.
Qed.
Lemma built_wraps files p d t s v : build_data files (ip_time p) (ip_scenario p) (ip_value p) None = Ok d ->
  get_value d (Some t) (Some s) EmptyString = Ok v -> exists s', (0 <= s')%Z /\ get_value d (Some t) (Some s') EmptyString = Ok v.
Proof.
  unfold build_data. intros Hd Hv. destruct (ip_value p) as [x|name].
  - destruct (_ || _); [discriminate|]. injection Hd as <-. exists 0%Z. split; [lia|exact Hv].
  - inv_bind Hd. destruct (ip_time p), (ip_scenario p); cbn [andb] in Hd; try discriminate.
    + injection Hd as <-. cbn in Hv |- *. inv_bind Hv. destruct (iloc_wraps _ _ _ Hv) as (j & Hj & E). exists j. split; [exact Hj|]. now rewrite H0.
    + inv_bind Hd. injection Hd as <-. exists 0%Z. split; [lia|exact Hv].
    + inv_bind Hd. injection Hd as <-. exists s. split; [|exact Hv]. cbn in Hv. destruct (dget Z.eqb s v1) eqn:E; [|discriminate].
      unfold dataframe_to_scenario_series in H0. destruct v0 as [|r [|? ?]]; try discriminate. injection H0 as <-.
      apply (dget_In Z.eqb Z.eqb_eq) in E. apply in_combine_l in E. apply zrange_In in E. lia.
Qed.

(** ** A study *)
Section Study.
  Context (order : list string -> list string -> list string -> list string) (libs : list in_library) (sys : input_system)
    (files : string -> result frame) (T S : Z) (rd : in_model -> string -> wexpr) (o : settings).
  Hypothesis Ord : any_order order.
  Hypothesis Steps : prepared order libs sys files T S o.
  Hypothesis Good : good_study libs sys files T S rd.
  Let HT : (1 <= T)%Z. Proof. apply Good. Qed.
  Let HS : (1 <= S)%Z. Proof. apply Good. Qed.
  Let n := o_network o.
  Let lnk := link libs sys o.
  Let len : Z.of_nat (List.length (o_block o)) = T.
  Proof. rewrite (run_settings _ _ _ _ _ _ _ Steps). cbn [o_block main_settings]. rewrite zrange_length. lia. Qed.
  Let scen : o_scenarios o = S.
  Proof. rewrite (run_settings _ _ _ _ _ _ _ Steps). reflexivity. Qed.
  Let select : o_selection o = MergedProblem.
  Proof. rewrite (run_settings _ _ _ _ _ _ _ Steps). reflexivity. Qed.
  Let risk : o_risk o = UniformRisk.
  Proof. rewrite (run_settings _ _ _ _ _ _ _ Steps). reflexivity. Qed.
  Let model_of e m c (L : lnk e m c) := link_model libs sys files T S rd o Good e m c L.

  Lemma file_data e m c name P : lnk e m c -> file_values files T e name P -> data_values o (co_id c) name P.
  Proof.
    intros L H t s q Hq.
    assert (X : exists s', (0 <= s')%Z /\ data_at o (co_id c) name t s' = Some q).
    { pose proof L as (He & _ & Ec & _). unfold data_at in *. rewrite Ec in *.
      destruct (get_data (o_database o) (ic_id e) name) as [d|] eqn:Ed; [|discriminate].
      destruct (nth_error (o_block o) _) as [a|]; [|discriminate].
      assert (Ho : o_tree_node o = EmptyString) by (rewrite (run_settings _ _ _ _ _ _ _ Steps); reflexivity). rewrite Ho in *.
      destruct (get_value d (Some a) (Some s) "") as [[v| | |]|] eqn:Ev; try discriminate. injection Hq as ->.
      destruct (in_dec (ltac:(decide equality; apply string_dec) : forall a b : string * string, {a = b} + {a <> b}) (ic_id e, name) (parameter_keys (all_inputs sys))) as [Hin|Hno].
      2:{ rewrite (plain_absent files sys _ _ _ (run_data _ _ _ _ _ _ _ Steps) Hno) in Ed. discriminate. }
      assert (Dk : NoDup (parameter_keys (all_inputs sys))) by apply Good.
      unfold parameter_keys in Hin. apply in_flat_map in Hin. destruct Hin as (e' & He' & Hin).
      apply in_map_iff in Hin. destruct Hin as (p & [= E1 <-] & Hp).
      destruct (plain_data files sys _ e' p (run_data _ _ _ _ _ _ _ Steps) Dk He' Hp) as (d' & Hd' & Hg). rewrite E1 in Hg.
      assert (d' = d) by congruence. subst d'. destruct (built_wraps _ _ _ _ _ _ Hd' Ev) as (s' & Hs & E). exists s'. split; [exact Hs|]. now rewrite E. }
    destruct X as (s' & Hs & E). rewrite (data_file order libs sys files T S rd o Steps Good e m c name t s' L Hs) in E. exact (H _ _ _ Hs E).
  Qed.
  Lemma own_weaken SS data (own own' : string -> (Qc -> Prop) -> Prop) (ports ports' : string -> string -> Z -> Prop) (e : expr) :
    (forall x P, own x P -> own' x P) -> (forall p f D, ports p f D -> ports' p f D) ->
    forall D, precise SS data own ports D e -> precise SS data own' ports' D e.
  Proof.
    intros H1 H2. induction e using expr_ind'; intros D HP.
    3:{ rewrite precise_Add in HP |- *. rewrite Forall_forall in *. eauto. }
    all: cbn [precise] in *; eauto; try contradiction.
    - destruct HP as (D1 & D2 & A & B & C & P1 & P2). exists D1, D2. repeat split; auto.
    - destruct HP as (D1 & D2 & A & B & C & P1 & P2). exists D1, D2. repeat split; auto. destruct e2; cbn [divisor] in *; eauto.
    - destruct HP as (D1 & A & B & P1). exists D1. repeat split; auto.
    - destruct e; eauto.
  Qed.
  Lemma definition_precise e' m' d D : forall c', lnk e' m' c' -> In d (ym_definitions m') ->
    text_precise S (map yv_id (ym_variables m')) (file_values files T e') (fun _ _ _ => False) D (rd m' (yd_definition d)) ->
    precise (o_scenarios o) (data_values o) (data_values o (co_id c')) (fun _ _ _ => False) D
      (expr_of (map yv_id (ym_variables m')) (rd m' (yd_definition d))).
  Proof.
    intros c' L Hd H. rewrite scen. destruct (model_of _ _ _ L) as (GT & _).
    destruct (text_reads rd m' GT _ (defined_text m' d Hd)) as (Sp & U & P & Dc).
    assert (W : without_comparison (rd m' (yd_definition d))) by apply (proj1 (proj2 (proj2 GT)) d Hd).
    pose proof (precise_expr_of S (model_identifiers m') (data_values o) (file_values files T e') (fun _ _ _ => False)
      _ P (spells_valid _ _ Sp) W D H) as HP.
    revert HP. apply own_weaken; [|tauto]. intros x D'. now apply (file_data e' m' c').
  Qed.
  Lemma text_in e m c ex w D : lnk e m c ->
    (forall (own : string -> (Qc -> Prop) -> Prop) (ports : string -> string -> Z -> Prop), (forall x P, file_values files T e x P -> own x P) ->
       (forall p f D', (forall e' m' d, In (e', m', d) (text_connected libs sys (ic_id e) p f) ->
          text_precise S (map yv_id (ym_variables m')) (file_values files T e') (fun _ _ _ => False) D' (rd m' (yd_definition d))) -> ports p f D') ->
       file_precise libs sys files T S rd e m D w -> precise S (data_values o) own ports D ex) ->
    file_precise libs sys files T S rd e m D w -> precise_in o (co_id c) D ex.
  Proof.
    intros L H HP. unfold precise_in. rewrite scen. apply H; [| |exact HP].
    - intros x D'. now apply (file_data e m c).
    - intros p f D' HD d Hin. pose proof L as (_ & _ & Ec & _). rewrite Ec in Hin.
      pose proof (connected_file order libs sys files T S rd o Ord Steps Good (ic_id e) p f) as F.
      destruct (Forall2_In_l _ _ _ _ F Hin) as ([[e' m'] d'] & Hin' & (c' & L' & E1 & Hd & E2)). rewrite E1, E2, <- scen.
      apply definition_precise with (e' := e'); auto.
  Qed.
  Lemma expression_in e m c w D : lnk e m c -> In w (model_texts m) -> without_comparison (rd m w) ->
    file_precise libs sys files T S rd e m D (rd m w) -> precise_in o (co_id c) D (expr_of (map yv_id (ym_variables m)) (rd m w)).
  Proof.
    intros L Hw W. apply (text_in e m c _ _ D L). intros own ports H1 H2 HP. destruct (model_of _ _ _ L) as (GT & _).
    destruct (text_reads rd m GT w Hw) as (Sp & U & P & Dc).
    pose proof (precise_expr_of S (model_identifiers m) (data_values o) _ _ _ P (spells_valid _ _ Sp) W D HP) as G.
    revert G. now apply own_weaken.
  Qed.
  Lemma constraint_in e m c y k D : lnk e m c -> In y (ym_binding_constraints m ++ ym_constraints m) -> constraint_shape rd m y k ->
    file_precise libs sys files T S rd e m D (rd m (yc_expression y)) -> precise_in o (co_id c) D (c_expr k).
  Proof.
    intros L Hy (_ & _ & Hs). destruct (model_of _ _ _ L) as (GT & _).
    assert (Hw : In (yc_expression y) (model_texts m)).
    { unfold model_texts. rewrite !in_app_iff. apply in_app_or in Hy.
      destruct Hy as [Hy|Hy]; [right; right; left|right; right; right; left]; apply in_flat_map; exists y; (split; [exact Hy|now left]). }
    pose proof (proj1 (proj2 GT) y Hy) as R.
    destruct (text_reads rd m GT _ Hw) as (Sp & U & P & Dc). apply spells_valid in Sp.
    pose proof (expression_in e m c _ D L Hw) as G.
    destruct (rd m (yc_expression y)) as [| | | | | | |op l r| | | | | | | |] eqn:E; try (destruct Hs as [-> _]; apply G; apply R).
    destruct Hs as [-> _]. apply (text_in e m c _ _ D L). intros own ports H1 H2 [HP1 HP2]. destruct P as [P1 P2].
    cbn [tokens] in Sp. apply valid_app in Sp. destruct Sp as [V1 V2]. apply valid_cons in V2.
    apply precise_py_sub.
    - pose proof (precise_expr_of S (model_identifiers m) (data_values o) _ _ _ P1 V1 (proj1 (proj1 R)) D HP1) as X. revert X. now apply own_weaken.
    - pose proof (precise_expr_of S (model_identifiers m) (data_values o) _ _ _ P2 V2 (proj1 (proj2 R)) D HP2) as X. revert X. now apply own_weaken.
  Qed.
  Hypothesis HP : precise_study libs sys files T S rd.
  Let objective_text m w : In w (given_text (ym_objective m)) -> In w (model_texts m).
  Proof. intros H. unfold model_texts. rewrite !in_app_iff. repeat right. exact H. Qed.
  Let objective_of e m c a : lnk e m c -> In (Some a) (get_objectives (o_selection o) (co_model c)) ->
    exists w, In w (given_text (ym_objective m)) /\ a = expr_of (map yv_id (ym_variables m)) (rd m w).
  Proof.
    intros L Ha. destruct (model_of e m c L) as (GT & DN & pts & R). rewrite select in Ha.
    pose proof (mo_investment _ _ _ (resolve_model_parts _ _ _ R)) as Ei. pose proof (model_objective rd pts m (co_model c) GT R) as Eo.
    cbn [get_objectives] in Ha. rewrite Ei, Eo in Ha. destruct (given_text (ym_objective m)) as [|w r].
    - destruct Ha as [Ha|[Ha|[]]]; discriminate.
    - destruct Ha as [Ha|[Ha|[]]]; [|discriminate]. injection Ha as <-. exists w. split; [now left|reflexivity].
  Qed.
  Lemma study_precise : precise_problem o.
  Proof.
    split; [|split].
    - intros c k Hc Hk. destruct (component_link order libs sys files T S rd o Ord Steps Good c Hc) as (e & m & L).
      destruct (constraint_made libs sys files T S rd o Good e m c k L Hk) as (y & Hy & Sh).
      destruct (proj1 HP e m y (conj (link_entry _ _ _ _ _ _ L) Hy)) as [(D & HD & HPy) HB]. split.
      + exists D. split; [exact HD|]. exact (constraint_in e m c y k D L Hy Sh HPy).
      + exact (bounds_file order libs sys files T S rd o Ord Steps Good e m c y k L Hy Sh HB).
    - intros [c a] Hce. unfold contributions in Hce. apply in_flat_map in Hce. destruct Hce as (c' & Hc & Hce).
      apply in_flat_map in Hce. destruct Hce as ([a'|] & Ha & Hin); [|destruct Hin]. destruct Hin as [[= -> ->]|[]].
      destruct (component_link order libs sys files T S rd o Ord Steps Good c Hc) as (e & m & L).
      destruct (objective_of e m c a L Ha) as (w & Hw & ->).
      destruct (proj2 HP e m w (link_entry _ _ _ _ _ _ L) Hw) as (D & [HD1 HD2] & HPw).
      exists D, 1%Z, 1%Qc. rewrite risk. repeat split; auto; try lia; [|apply multiple_1].
      cbn [fst snd]. destruct (model_of e m c L) as (GT & _).
      apply (expression_in e m c w D L (objective_text m w Hw)); [|exact HPw]. apply (proj2 (proj2 (proj2 GT)) w Hw).
    - intros c v Hc Hv. destruct (component_link order libs sys files T S rd o Ord Steps Good c Hc) as (e & m & L).
      apply filter_In in Hv. destruct Hv as [Hv _].
      destruct (text_of_made libs sys files T S rd o Good e m c v L Hv) as (y & M). destruct (model_of e m c L) as (GT & _).
      destruct (bounds_written rd m c y v GT M) as [-> ->]. split; apply bound_good.
  Qed.
  Lemma plans_constraints x :
    (forall c k t s, In c (all_components (o_network o)) -> In k (get_constraints (o_selection o) (co_model c)) ->
     (0 <= t < Z.of_nat (List.length (o_block o)))%Z -> (0 <= s < o_scenarios o)%Z ->
     constraint_holds (component_world o x (co_id c)) (c_expr k) (c_lower k) (c_upper k) t s) <->
    (forall e m k t s, entry_constraint libs sys e m k -> (0 <= t < T)%Z -> (0 <= s < S)%Z ->
       text_holds libs sys files T S rd [] x e m k t s).
  Proof.
    rewrite len, scen.
    assert (G : forall e m c y k t s, lnk e m c -> In y (ym_binding_constraints m ++ ym_constraints m) -> constraint_shape rd m y k -> (0 <= s)%Z ->
      constraint_holds (component_world o x (co_id c)) (c_expr k) (c_lower k) (c_upper k) t s <-> text_holds libs sys files T S rd [] x e m y t s).
    { intros e m c y k t s L Hy Sh Hs. destruct (model_of e m c L) as (GT & _).
      rewrite <- (without_vanishing [] _ _ _ _ t s (Forall_nil _)).
      rewrite (constraint_holds_text rd m GT y k [] _ t s Hy Sh). exact (holds_file order libs sys files T S rd o Ord Steps Good [] x e m c y t s L Hs). }
    split.
    - intros H e m y t s [He Hy] Ht Hs. destruct (entry_link order libs sys files T S rd o Ord Steps Good e m He) as (c & L).
      destruct (constraint_kept order libs sys files T S rd o Steps Good e m c y L Hy) as (k & Hk & Sh).
      apply (G e m c y k t s L Hy Sh); [lia|]. apply H; auto. apply L.
    - intros H c k t s Hc Hk Ht Hs. destruct (component_link order libs sys files T S rd o Ord Steps Good c Hc) as (e & m & L).
      destruct (constraint_made libs sys files T S rd o Good e m c k L Hk) as (y & Hy & Sh).
      apply (G e m c y k t s L Hy Sh); [lia|]. apply H; auto. split; [exact (link_entry _ _ _ _ _ _ L)|exact Hy].
  Qed.
  Lemma costs_file x : plan_cost o x = file_cost libs sys files T S rd x.
  Proof.
    unfold plan_cost, file_cost. f_equal. unfold contributions, text_objectives. rewrite select.
    destruct (network_file order libs sys files T S rd o Ord Steps Good) as [F _].
    assert (G : forall l cs, Forall2 (fun e c => exists m, lnk e m c) l cs ->
      map (contribution_value o x 0 0) (flat_map (fun c => flat_map (fun a => match a with Some a => [(c, a)] | None => [] end)
        (get_objectives MergedProblem (co_model c))) cs) =
      map (text_objective_value libs sys files T S rd x 0 0)
        (flat_map (fun e => match file_model libs (ic_model e) with Some m => map (fun w => (e, m, w)) (given_text (ym_objective m)) | None => [] end) l));
      [|exact (G _ _ F)].
    clear F. intros es cs F. induction F as [|e c l cs (m & L) F IH]; [reflexivity|]. cbn [flat_map]. rewrite !map_app, IH. f_equal.
    destruct (model_of e m c L) as (GT & DN & pts & R).
    pose proof (mo_investment _ _ _ (resolve_model_parts _ _ _ R)) as Ei. pose proof (model_objective rd pts m (co_model c) GT R) as Eo.
    cbn [get_objectives flat_map]. rewrite Ei, Eo. pose proof L as (_ & _ & _ & Fm & _). rewrite Fm.
    destruct (given_text (ym_objective m)) as [|w r] eqn:Eg; [reflexivity|].
    assert (Er : r = []).
    { unfold given_text in Eg. destruct (ym_objective m) as [[|a b]|]; try discriminate. now injection Eg as _ <-. }
    rewrite Er. cbn [map app]. f_equal. unfold contribution_value. cbn [fst snd text_objective_value]. rewrite risk. cbn [risk_factor].
    assert (Hw : In w (model_texts m)) by (apply objective_text; rewrite Eg; now left).
    rewrite (text_den rd m GT w _ 0%Z 0%Z Hw), (value_file order libs sys files T S rd o Ord Steps Good x e m c (rd m w) 0%Z 0%Z L) by lia.
    destruct (text_value _ _ _ _ _) as [v|]; [|reflexivity]. cbn. f_equal. ring.
  Qed.
End Study.

(** a run *)
Section Run.
  Context (order : list string -> list string -> list string -> list string) (libs : list in_library) (sys : input_system)
    (files : string -> result frame) (T S : Z) (rd : in_model -> string -> wexpr) (o : settings) (st : state).
  Hypothesis Ord : any_order order.
  Hypothesis Run : main_cli order libs sys files T S = Ok (o, st).
  Hypothesis Good : good_study libs sys files T S rd.
  Let run_steps : prepared order libs sys files T S o /\ build_problem o = Ok st.
  Proof.
    pose proof Run as H. unfold main_cli in H. inv_bind H. inv_bind H. inv_bind H. inv_bind H. inv_bind H. inv_bind H.
    injection H as <- <-. split; [exists v, v0, v2, v3; repeat split; assumption|assumption].
  Qed.
  Let Steps := proj1 run_steps.
  Let Built := proj2 run_steps.
  Let Gp := study_good order libs sys files T S rd o Ord Steps Good.
  (** the bounds written are those of the solver's variables *)
  Lemma columns_file x y : file_decisions libs sys T x -> takes_values libs sys T S (placed o st) y x ->
    (forall i sv, nth_error (s_vars (st_solver st)) i = Some sv -> in_column sv (y i)) <->
    (forall e m v t s, entry libs sys e m -> In v (ym_variables m) -> (0 <= t < T)%Z -> (0 <= s < S)%Z ->
       let q := x (ic_id e) (yv_id v) t s in
       text_bound rd (fun b => (b <= q)%Qc) (file_world libs sys files T S rd x e) m (yv_lower v) t s /\
       text_bound rd (fun b => (q <= b)%Qc) (file_world libs sys files T S rd x e) m (yv_upper v) t s /\
       (yv_type v = "integer" -> exists z, q = Z2Qc z)).
  Proof.
    intros Hx Hy.
    assert (G : forall i sv e m v t s t' s', entry libs sys e m -> (0 <= s')%Z ->
      (yv_type v = "continuous"%string /\ sv_integer sv = false \/ yv_type v = "integer"%string /\ sv_integer sv = true) ->
      text_bound_is libs sys files T S rd e m v NInf (yv_lower v) t s (sv_lb sv) ->
      text_bound_is libs sys files T S rd e m v PInf (yv_upper v) t s (sv_ub sv) ->
      (yv_time v = true -> t' = t) -> (yv_scenario v = true -> s' = s) ->
      in_column sv (y i) <->
      text_bound rd (fun b => (b <= y i)%Qc) (file_world libs sys files T S rd x e) m (yv_lower v) t' s' /\
      text_bound rd (fun b => (y i <= b)%Qc) (file_world libs sys files T S rd x e) m (yv_upper v) t' s' /\
      (yv_type v = "integer" -> exists z, y i = Z2Qc z)).
    { intros i sv e m v t s t' s' He Hs' Ty BL BU Et Es. unfold in_column.
      assert (A1 : at_least (sv_lb sv) (y i) <-> text_bound rd (fun b => (b <= y i)%Qc) (file_world libs sys files T S rd x e) m (yv_lower v) t' s').
      { unfold text_bound_is in BL. unfold text_bound. destruct (given_text (yv_lower v)) as [|w l]; [rewrite BL; cbn; tauto|].
        destruct BL as (q & -> & HQ). rewrite (HQ x t' s' Et Es Hs'). cbn. split; [eauto|]. now intros (? & [= <-] & H). }
      assert (A2 : at_most (sv_ub sv) (y i) <-> text_bound rd (fun b => (y i <= b)%Qc) (file_world libs sys files T S rd x e) m (yv_upper v) t' s').
      { unfold text_bound_is in BU. unfold text_bound. destruct (given_text (yv_upper v)) as [|w l]; [rewrite BU; cbn; tauto|].
        destruct BU as (q & -> & HQ). rewrite (HQ x t' s' Et Es Hs'). cbn. split; [eauto|]. now intros (? & [= <-] & H). }
      rewrite A1, A2. destruct Ty as [[E1 E2]|[E1 E2]]; rewrite E1, E2; intuition discriminate. }
    split.
    - intros H e m v t s He Hv Ht Hs q.
      destruct (positions order libs sys files T S rd o st Ord Run Good e m v t s He Hv Ht Hs) as (i & sv & Hp & Hi & _).
      destruct (variables_file order libs sys files T S rd o st Ord Run Good i sv Hi) as (e' & m' & v' & t' & s' & He' & Hv' & Ht' & Hs' & Hp' & Ty & BL & BU & _).
      destruct (placed_once order libs sys files T S rd o st Ord Run Good e m v t s e' m' v' t' s' i He Hv He' Hv' Ht Ht' Hp Hp') as (<- & <- & Et & Es).
      assert (m' = m) by (destruct He, He'; congruence). subst m'.
      assert (Eq : q = y i) by (symmetry; exact (Hy e m v t s i He Hv Ht Hs Hp)). rewrite Eq.
      refine (proj1 (G i sv e m v t' s' t s He (proj1 Hs) Ty BL BU Et Es) (H i sv Hi)).
    - intros H i sv Hi.
      destruct (variables_file order libs sys files T S rd o st Ord Run Good i sv Hi) as (e & m & v & t & s & He & Hv & Ht & Hs & Hp & Ty & BL & BU & _).
      apply (G i sv e m v t s t s He (proj1 Hs) Ty BL BU (fun _ => eq_refl) (fun _ => eq_refl)).
      rewrite (Hy e m v t s i He Hv Ht Hs Hp). exact (H e m v t s He Hv Ht Hs).
  Qed.
  Hypothesis HP : precise_study libs sys files T S rd.
  Lemma plans_file x y : file_decisions libs sys T x -> takes_values libs sys T S (placed o st) y x ->
    solves y (st_solver st) <-> file_feasible libs sys files T S rd x.
  Proof.
    intros Hx Hy. pose proof (takes_represents order libs sys files T S rd o Ord Steps Good st x y Hx Hy) as Hrep.
    pose proof Hx as Hx'. apply (decisions_file order libs sys files T S rd o Ord Steps Good) in Hx'.
    unfold solves, file_feasible. rewrite (columns_file x y Hx Hy).
    rewrite (exact_constraints o st Gp Built (study_precise order libs sys files T S rd o Ord Steps Good HP) x y Hx' Hrep).
    rewrite (plans_constraints order libs sys files T S rd o Ord Steps Good x). tauto.
  Qed.
  Lemma cost_file x y : file_decisions libs sys T x -> takes_values libs sys T S (placed o st) y x ->
    objective_value y (st_solver st) = file_cost libs sys files T S rd x /\ file_cost libs sys files T S rd x <> None.
  Proof.
    intros Hx Hy. pose proof (takes_represents order libs sys files T S rd o Ord Steps Good st x y Hx Hy) as Hrep.
    pose proof Hx as Hx'. apply (decisions_file order libs sys files T S rd o Ord Steps Good) in Hx'.
    rewrite <- (costs_file order libs sys files T S rd o Ord Steps Good x).
    exact (exact_cost o st Gp Built (study_precise order libs sys files T S rd o Ord Steps Good HP) x y Hx' Hrep).
  Qed.
  Lemma optimum_file x y : file_decisions libs sys T x -> takes_values libs sys T S (placed o st) y x ->
    optimal y (st_solver st) <-> file_cheapest libs sys files T S rd x.
  Proof.
    intros Hx Hy. unfold optimal, file_cheapest. rewrite (plans_file x y Hx Hy), (proj1 (cost_file x y Hx Hy)). apply and_iff_compat_l.
    destruct (decisions_correspond order libs sys files T S rd o st Ord Run Good) as [C1 C2].
    split; intros (v & E & H); exists v; (split; [exact E|]).
    - intros x' v' Hx' Hf Hc. destruct (C1 x' Hx') as [y' Hy'].
      apply (H y' v'); [now apply (plans_file x' y')|]. now rewrite (proj1 (cost_file x' y' Hx' Hy')).
    - intros y' v' Hs Hc. destruct (C2 y') as (x' & Hx' & Hy').
      apply (H x' v' Hx'); [now apply (plans_file x' y')|]. now rewrite <- (proj1 (cost_file x' y' Hx' Hy')).
  Qed.
End Run.
