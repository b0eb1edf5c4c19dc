(** Which PyPSA networks are converted. *)
From Coq Require Import Lia Permutation FinFun.
From Verif Require Import Base BaseFacts Study System Library SpecOptim SpecMain Pypsa SpecPypsa PypsaFacts.
Local Open Scope string_scope.
Local Open Scope list_scope.

Lemma require_ok b : require b = Ok tt <-> b = true.
Proof. destruct b; cbn; split; congruence. Qed.
Lemma combine_fst {A B} (l : list A) (m : list B) : List.length m = List.length l -> map fst (combine l m) = l.
Proof. revert m. induction l as [|a l IH]; intros [|b m] H; cbn in *; try discriminate; [reflexivity|]. f_equal. apply IH. congruence. Qed.
Lemma column_cells df a c v : full_table df -> dget String.eqb a (df_columns df) = Some c -> In v c ->
  exists row, In row (df_index df) /\ entry_of df row a = Some v.
Proof.
  intros (Nd & _ & L) Hc Hv. assert (Len : List.length c = List.length (df_index df)) by (apply (L a), (dget_In String.eqb String.eqb_eq), Hc).
  apply In_nth_error in Hv. destruct Hv as [i Hi].
  destruct (nth_error (df_index df) i) as [row|] eqn:Hr.
  2: { apply nth_error_None in Hr. assert (nth_error c i <> None) by congruence. apply nth_error_Some in H. lia. }
  exists row. split; [now apply nth_error_In in Hr|]. unfold entry_of. rewrite Hc.
  apply (In_dget_nodup String.eqb String.eqb_eq).
  - now rewrite combine_fst.
  - clear - Hi Hr. revert c i Hi Hr. induction (df_index df) as [|r l IH]; intros [|w c] [|i] Hi Hr; cbn in *; try discriminate.
    + left. congruence.
    + right. now apply (IH c i).
Qed.
Lemma cell_is_value q v : cell_is (Fin q) v = true <->
  match v with CNum (Fin r) => r = q | CBool b => (if b then 1 else 0)%Qc = q | _ => False end.
Proof.
  destruct v as [[r| | |]|s|b]; cbn; try (split; [discriminate|tauto]).
  - apply Qceqb_eq.
  - destruct b; apply Qceqb_eq.
Qed.
Lemma require_all_ok df a q : require_all df a (Fin q) = Ok tt -> all_are df a q.
Proof.
  unfold require_all, all_are, has_column, dmem, col, entry_of. destruct (dget String.eqb a (df_columns df)) as [c|]; [|discriminate].
  cbn. destruct (forallb (cell_is (Fin q)) c) eqn:E; [|discriminate]. intros _. split; [reflexivity|]. intros row v Hv.
  rewrite forallb_forall in E. apply cell_is_value, E. now apply dget_combine_in in Hv.
Qed.
Lemma all_require df a q : full_table df -> all_are df a q -> require_all df a (Fin q) = Ok tt.
Proof.
  intros F [H1 H2]. unfold require_all, has_column, dmem, col in *. destruct (dget String.eqb a (df_columns df)) as [c|] eqn:E; [|discriminate].
  cbn. replace (forallb (cell_is (Fin q)) c) with true; [reflexivity|]. symmetry. apply forallb_forall. intros v Hv.
  destruct (column_cells df a c v F E Hv) as (row & _ & Hr). apply cell_is_value. exact (H2 row v Hr).
Qed.
Lemma global_ok df c : check_global_constraint df c = Ok tt <->
  entry_of df c "type" = Some (CText "primary_energy") /\ entry_of df c "carrier_attribute" = Some (CText "co2_emissions").
Proof.
  unfold check_global_constraint. split.
  - intros H. inv_bind H. inv_bind H. inv_bind H.
    repeat match goal with L : loc _ _ _ = Ok _ |- _ => apply loc_entry in L; rewrite L end.
    repeat match goal with R : require _ = Ok ?u |- _ => try destruct u; apply require_ok in R end.
    repeat match goal with R : match ?v with _ => _ end = true |- _ => destruct v; try discriminate; apply String.eqb_eq in R; subst end.
    split; reflexivity.
  - intros [H1 H2]. apply loc_entry in H1, H2. now rewrite H1, H2.
Qed.
Lemma assertion_ok n : network_assertion n = Ok tt ->
  pn_investment_periods n = 0%nat /\ (forall w, In w (pn_weightings n) -> w = Fin 1%Qc) /\
  all_are (pn_generators n) "marginal_cost_quadratic" 0 /\ all_are (pn_generators n) "active" 1 /\
  all_are (pn_generators n) "committable" 0 /\ all_are (pn_loads n) "active" 1 /\ all_are (pn_links n) "active" 1 /\
  all_are (pn_storage_units n) "sign" 1 /\ all_are (pn_storage_units n) "cyclic_state_of_charge" 1 /\
  all_are (pn_storage_units n) "marginal_cost_quadratic" 0 /\
  all_are (pn_stores n) "sign" 1 /\ all_are (pn_stores n) "e_cyclic" 1 /\ all_are (pn_stores n) "marginal_cost_quadratic" 0 /\
  forall c, In c (constraint_names n) ->
    entry_of (pn_global_constraints n) c "type" = Some (CText "primary_energy") /\
    entry_of (pn_global_constraints n) c "carrier_attribute" = Some (CText "co2_emissions").
Proof.
  unfold network_assertion. intros H. do 16 inv_bind H.
  repeat match goal with u : unit |- _ => destruct u end.
  repeat match goal with R : require _ = Ok tt |- _ => apply require_ok in R end.
  split; [now apply Nat.eqb_eq|]. split.
  { intros w Hw. match goal with F : forallb (neqb n1) _ = true |- _ => rewrite forallb_forall in F; specialize (F w Hw) end.
    destruct w; try discriminate. f_equal. symmetry. now apply Qceqb_eq. }
  repeat (split; [apply require_all_ok; assumption|]).
  intros c Hc. match goal with M : mapM _ _ = Ok _ |- _ => destruct (mapM_total _ _ _ M c Hc) as (u & E & _) end. destruct u.
  now apply global_ok.
Qed.

Lemma assertion_accepts n : (forall k, full_table (table n k)) -> supported n -> network_assertion n = Ok tt.
Proof.
  intros F (P & Wt & A1 & A2 & A3 & A4 & A5 & A6 & A7 & A8 & A9 & A10 & A11 & G). unfold network_assertion.
  pose proof (F Generators) as F1. pose proof (F Loads) as F2. pose proof (F Links) as F3. pose proof (F StorageUnits) as F4. pose proof (F Stores) as F5.
  cbn [table] in *. rewrite P. cbn [Nat.eqb require bind].
  replace (forallb (neqb n1) (pn_weightings n)) with true.
  2: { symmetry. apply forallb_forall. intros w Hw. rewrite (Wt w Hw). reflexivity. }
  cbn [require bind]. change n0 with (Fin 0%Qc). change n1 with (Fin 1%Qc).
  repeat (rewrite all_require by assumption; cbn [bind]).
  assert (M : forall l, incl l (constraint_names n) -> exists us, mapM (check_global_constraint (pn_global_constraints n)) l = Ok us).
  { induction l as [|c l IH]; intros I; [now exists []|]. destruct IH as [us E]; [intros d Hd; apply I; now right|].
    destruct (G c) as (G1 & G2 & _); [apply I; now left|]. pose proof (proj2 (global_ok _ _) (conj G1 G2)) as X. cbn [mapM]. rewrite X. cbn [bind]. rewrite E. now eexists. }
  destruct (M _ (fun c H => H)) as [us E]. unfold constraint_names in E. now rewrite E.
Qed.

(** ** Columns after preprocessing *)
Lemma mapM_accepts {A B} (f : A -> result B) l : (forall a, In a l -> exists b, f a = Ok b) -> exists l', mapM f l = Ok l'.
Proof.
  induction l as [|a l IH]; intros H; [now exists []|]. destruct (H a ltac:(now left)) as [b Hb]. destruct IH as [l' Hl]; [intros c Hc; apply H; now right|].
  exists (b :: l'). cbn [mapM]. rewrite Hb. cbn [bind]. now rewrite Hl.
Qed.
Lemma column_of df a : has_column df a -> exists c, col df a = Ok c.
Proof. unfold has_column, dmem, col. destruct (dget String.eqb a (df_columns df)) as [c|]; [now exists c|discriminate]. Qed.
Lemma has_set df b v a : has_column df a \/ a = b -> has_column (set_col b v df) a.
Proof.
  unfold has_column, dmem. intros H. rewrite columns_set. destruct (String.eqb a b) eqn:E; [reflexivity|].
  destruct H as [H|H]; [exact H|]. subst. now rewrite String.eqb_refl in E.
Qed.
Lemma has_join carriers df l a : has_column df a -> ends_with "_carrier" a = false -> has_column (join_carriers carriers df l) a.
Proof. unfold has_column. intros H E. unfold dmem. rewrite join_kept by assumption. exact H. Qed.
Lemma has_assign df flags values field a : has_column df a \/ a = field -> has_column (assign_where flags values field df) a.
Proof. apply has_set. Qed.
Lemma full_rename sf df : full_table df -> full_table (rename sf df).
Proof.
  intros (N & C & L). unfold rename. split; [|split]; cbn [df_index df_columns].
  - apply FinFun.Injective_map_NoDup; [intros a b; apply append_right|exact N].
  - exact C.
  - intros a c H. rewrite map_length. now apply (L a).
Qed.
Lemma components_accept carriers capa df : (capa = "p_nom" \/ capa = "e_nom") -> full_table df ->
  has_column df "carrier" -> has_column df (capa ++ "_extendable") -> has_column df capa ->
  (forall row, In row (df_index df) -> exists s, entry_of df row "carrier" = Some (CText s)) ->
  exists df', preprocess_components carriers capa df = Ok df'.
Proof.
  intros Capa F H1 H2 H3 Hc. unfold preprocess_components. destruct (column_of _ _ H1) as [c Ec]. rewrite Ec. cbn [bind].
  destruct (mapM_accepts with_carrier c) as [l El].
  { intros v Hv. unfold col in Ec. destruct (dget String.eqb "carrier" (df_columns df)) as [c'|] eqn:E; [|discriminate]. injection Ec as ->.
    destruct (column_cells df _ _ _ F E Hv) as (row & Hr & Ev). destruct (Hc row Hr) as [s Es]. assert (v = CText s) as -> by congruence. cbn. now eexists. }
  rewrite El. cbn [bind].
  destruct (column_of (join_carriers carriers (set_col "carrier" l df) l) (capa ++ "_extendable")) as [fl Ef].
  { apply has_join; [|destruct Capa as [-> | ->]; reflexivity]. apply has_set. now left. }
  destruct (column_of (join_carriers carriers (set_col "carrier" l df) l) capa) as [va Ev].
  { apply has_join; [|destruct Capa as [-> | ->]; reflexivity]. apply has_set. now left. }
  rewrite Ef. cbn [bind]. rewrite Ev. cbn [bind]. now eexists.
Qed.
Lemma components_columns carriers capa df df' : preprocess_components carriers capa df = Ok df' ->
  (forall a, has_column df a -> ends_with "_carrier" a = false -> has_column df' a) /\ has_column df' (capa ++ "_min") /\ has_column df' (capa ++ "_max") /\ has_column df' "capital_cost" /\ has_column df' "carrier" /\ (NoDup (map fst (df_columns carriers)) -> has_column carriers "co2_emissions" -> has_column df' "co2_emissions").
Proof.
  unfold preprocess_components. intros H. inv_bind H. inv_bind H. inv_bind H. inv_bind H. injection H as <-.
  split; [|split; [|split; [|split; [|split]]]].
  - intros a Ha E. do 3 (apply has_assign; left). apply has_join; [|exact E]. apply has_set. now left.
  - do 2 (apply has_assign; left). apply has_assign. now right.
  - apply has_assign; left. apply has_assign. now right.
  - apply has_assign. now right.
  - do 3 (apply has_assign; left). apply has_join; [|reflexivity]. apply has_set. now right.
  - intros Nd Hc. do 3 (apply has_assign; left).
    match goal with |- has_column (join_carriers _ ?d ?l) _ => destruct (dmem String.eqb "co2_emissions" (df_columns d)) eqn:D end.
    + now apply has_join.
    + unfold has_column, dmem in Hc |- *. destruct (dget String.eqb "co2_emissions" (df_columns carriers)) as [vs|] eqn:E; [|discriminate].
      now rewrite (join_new _ _ _ _ vs).
Qed.

Section Accepted.
  Context (order : list string -> list string) (n : pypsa_network) (T : Z).
  Hypothesis Ord : set_order order.
  Hypothesis Good : good_network n T.
  Hypothesis Cols : all_columns n.
  Hypothesis Sup : supported n.
  Let Full k : full_table (table n k).
  Proof. destruct Good as (_ & _ & _ & _ & G & _). apply G. Qed.
  Let Capa k : capacity k = "p_nom" \/ capacity k = "e_nom".
  Proof. destruct k; auto. Qed.

  Lemma component_accepts k : with_capacity k = true ->
    exists df', preprocess_components (add_null_carrier (pn_carriers n)) (capacity k) (rename (suffix k) (table n k)) = Ok df'.
  Proof.
    intros Wk. apply components_accept; [apply Capa|apply full_rename, Full|..].
    1-3: refine (Cols k _ _); rewrite Wk; unfold capacity_attributes; rewrite Wk; rewrite !in_app_iff; cbn; tauto.
    intros row Hr. unfold rename in Hr. cbn [df_index] in Hr. apply in_map_iff in Hr. destruct Hr as (c & <- & Hc).
    destruct Good as (_ & _ & _ & _ & G & _). destruct (G k) as (_ & _ & _ & Gc). destruct (Gc c Hc) as (_ & _ & Cap).
    destruct (Cap Wk) as [(carrier & Ec & _) _]. exists carrier. rewrite entry_renamed. exact Ec.
  Qed.
  Lemma preprocess_accepts : exists n', preprocess n = Ok n'.
  Proof.
    destruct (component_accepts Generators eq_refl) as [g Eg]. destruct (component_accepts Stores eq_refl) as [s Es].
    destruct (component_accepts StorageUnits eq_refl) as [u Eu]. destruct (component_accepts Links eq_refl) as [l El].
    cbn [suffix table capacity] in *. rewrite rename_nothing in El. unfold preprocess. cbn [network_preprocessing pn_carriers pn_generators pn_stores pn_storage_units pn_links].
    rewrite Eg. cbn [bind]. rewrite Es. cbn [bind]. rewrite Eu. cbn [bind]. rewrite El. cbn [bind]. now eexists.
  Qed.

  Context (n' : pypsa_network).
  Hypothesis Pre : preprocess n = Ok n'.
  Lemma columns_kept k a : In a (map fst (kparams k) ++ bus_columns k ++ (if with_capacity k then ["carrier"] else [])) -> has_column (table n' k) a.
  Proof.
    intros Ha. destruct (pre_tables n n' Pre k) as (P1 & P2 & _). destruct (with_capacity k) eqn:Wk.
    - destruct (components_columns _ _ _ _ (P1 eq_refl)) as (Kept & Lo & Hi & Cost & Car & Co2). rewrite !in_app_iff in Ha.
      assert (Plain : forall a, In a (attributes k ++ bus_columns k) -> has_column (table n' k) a).
      { intros b Hb. apply Kept; [|exact (proj1 (attributes_plain k b Hb))]. apply (Cols k b). apply in_app_or in Hb. rewrite !in_app_iff. tauto. }
      destruct Ha as [Ha|[Ha|[<-|[]]]]; [|apply Plain, in_or_app; now right|exact Car].
      destruct (params_split k a Ha) as [[Hat _]|[_ Hin]]; [apply Plain, in_or_app; now left|].
      cbn in Hin. destruct Hin as [<-|[<-|[<-|[<-|[]]]]]; try assumption.
      destruct Good as (_ & Fc & Nn & Hco2 & _). apply Co2; [exact (null_columns _ Fc Nn)|].
      destruct (null_values _ Fc Nn Hco2) as (vs & Hv & _). unfold has_column, dmem. now rewrite Hv.
    - rewrite (P2 eq_refl). apply (Cols k a). rewrite !in_app_iff in Ha. rewrite !in_app_iff. destruct Ha as [Ha|[Ha|[]]]; [|tauto].
      destruct (params_split k a Ha) as [[Hat _]|[X _]]; [tauto|congruence].
  Qed.
  Lemma column_same k a : In a (bus_columns k) -> dget String.eqb a (df_columns (table n' k)) = dget String.eqb a (df_columns (table n k)).
  Proof.
    intros Ha. destruct (pre_tables n n' Pre k) as (P1 & P2 & _).
    destruct (attributes_plain k a (in_or_app _ _ _ (or_intror Ha))) as [Ec Nc].
    assert (Has : has_column (table n k) a) by (apply (Cols k); rewrite !in_app_iff; tauto).
    destruct (with_capacity k) eqn:Wk; [|now rewrite (P2 eq_refl)].
    specialize (P1 eq_refl). unfold preprocess_components in P1. inv_bind P1. inv_bind P1. inv_bind P1. inv_bind P1. injection P1 as <-.
    unfold assign_where. rewrite !columns_set.
    rewrite !(proj2 (String.eqb_neq a _)) by (intros X; apply Nc; rewrite X; cbn; tauto).
    rewrite join_kept; [|apply has_set; left; exact Has|exact Ec].
    rewrite columns_set, (proj2 (String.eqb_neq a _)) by (intros X; apply Nc; rewrite X; cbn; tauto). reflexivity.
  Qed.
  Lemma connections_accept k : exists l, gems_connections (kdata n' k) = Ok l.
  Proof.
    unfold gems_connections. cbn [cd_constant cd_connections kdata].
    assert (I : forall bp, In bp (kconns k) -> In (fst bp) (bus_columns k)) by (destruct k; cbn; intuition (subst; cbn; tauto)).
    match goal with |- context [mapM ?f (kconns k)] => destruct (mapM_accepts f (kconns k)) as [ls E] end.
    2: { rewrite E. now eexists. }
    intros bp Hbp. specialize (I bp Hbp). unfold col. rewrite (column_same k _ I).
    assert (Has : has_column (table n k) (fst bp)) by (apply (Cols k); rewrite !in_app_iff; tauto).
    unfold has_column, dmem in Has. destruct (dget String.eqb (fst bp) (df_columns (table n k))) as [c|] eqn:E; [|discriminate]. cbn [bind].
    apply mapM_accepts. intros [id v] Hv. apply in_combine_r in Hv. destruct (column_cells _ _ _ _ (Full k) E Hv) as (row & Hr & Er).
    destruct Good as (_ & _ & _ & _ & G & _). destruct (G k) as (_ & _ & _ & Gc). destruct (Gc row Hr) as (_ & Hb & _).
    destruct (Hb _ I) as [b Eb]. assert (v = CText b) as -> by congruence. now eexists.
  Qed.
  Lemma number_accepted c q : cell_number c = Some q -> exists v, any_to_float c = Ok v.
  Proof. destruct c as [v|s|b]; cbn [any_to_float]; intros H; [eexists; reflexivity|discriminate H|eexists; reflexivity]. Qed.
  Lemma parameter_accepts k c pg : In c (names n k) -> In pg (kparams k) ->
    exists p, gems_parameter (pn_name n') (kdata n' k) (W order n' k) (study_id k c) pg = Ok p.
  Proof.
    intros Hc Hp. assert (Ha : In (fst pg) (map fst (kparams k))) by now apply in_map.
    unfold gems_parameter, series_of. destruct (existsb _ (W order n' k)) eqn:E; [now eexists|].
    destruct (series_of_attribute n k c (fst pg)) as [l|] eqn:Hs.
    - exfalso. assert (X : existsb (fun w => String.eqb (study_id k c) (fst (fst w)) && String.eqb (fst pg) (snd (fst w))) (W order n' k) = true).
      { apply existsb_exists. exists ((study_id k c, fst pg), l). split; [|cbn; now rewrite !String.eqb_refl].
        apply (written_iff order n n' T Ord Pre Good). split; [exact Ha|]. eauto. }
      congruence.
    - destruct (static_value n n' T Pre Good k c (fst pg) Hc Ha Hs) as (v & Ev & Q). cbn [cd_constant kdata].
      apply loc_entry in Ev. rewrite Ev. cbn [bind]. destruct (number_accepted v _ (Q 0%Z)) as [w Ew]. rewrite Ew. now eexists.
  Qed.
  Lemma class_accepts k : exists p, convert_components order (pn_name n') (kdata n' k) = Ok p.
  Proof.
    unfold convert_components, check_params_consistency. cbn [cd_constant cd_parameters cd_connections kdata].
    match goal with |- context [if ?b then _ else _] => replace b with true end.
    2: { symmetry. apply forallb_forall. intros a Ha. apply columns_kept. rewrite in_app_iff in Ha |- *. destruct Ha as [Ha|Ha]; [tauto|right].
         apply in_or_app. left. destruct k; cbn in *; tauto. }
    cbn [bind]. destruct (connections_accept k) as [l El]. rewrite El. cbn [bind].
    match goal with |- context [mapM ?f ?l] => destruct (mapM_accepts f l) as [es Es] end.
    2: { rewrite Es. now eexists. }
    intros id Hid. rewrite (table_index n n' Pre k) in Hid. apply in_map_iff in Hid. destruct Hid as (c & <- & Hc).
    unfold gems_component. cbn [cd_parameters kdata].
    match goal with |- context [mapM ?f ?l] => destruct (mapM_accepts f l) as [ps Ps] end.
    2: { cbn [kdata cd_parameters] in Ps. rewrite Ps. now eexists. }
    intros pg Hpg. exact (parameter_accepts k c pg Hc Hpg).
  Qed.
  Lemma constraints_accept : exists gcs, registered_constraints n' = Ok gcs.
  Proof.
    assert (C : forall k, with_capacity k = true -> exists l, contributors (table n' k) = Ok l).
    { intros k Wk. unfold contributors. destruct (column_of (table n' k) "carrier") as [c Ec].
      - apply columns_kept. rewrite Wk. rewrite !in_app_iff. cbn. tauto.
      - rewrite Ec. now eexists. }
    destruct (C Generators eq_refl) as [g Eg]. destruct (C Stores eq_refl) as [s Es]. destruct (C StorageUnits eq_refl) as [u Eu].
    cbn [table] in *. unfold registered_constraints. rewrite Eg. cbn [bind]. rewrite Es. cbn [bind]. rewrite Eu. cbn [bind].
    apply mapM_accepts. rewrite (proj2 (pre_name n n' Pre)). intros c Hc.
    destruct Sup as (_ & _ & _ & _ & _ & _ & _ & _ & _ & _ & _ & _ & _ & G). destruct (G c Hc) as (_ & G2 & G3).
    destruct Good as (_ & _ & _ & _ & _ & _ & _ & _ & Gq). destruct (Gq c Hc) as [q Eq].
    unfold registered_constraint. apply loc_entry in G2, Eq.
    destruct G3 as [G3|G3]; unfold has_sense in G3; apply loc_entry in G3; rewrite G3; cbn [bind]; rewrite G2; cbn [bind]; rewrite Eq; cbn; now eexists.
  Qed.
End Accepted.

Lemma supported_accepted order n T : set_order order -> good_network n T -> all_columns n -> supported n -> exists r, convert_pypsa order n = Ok r.
Proof.
  intros Ord Good Cols Sup. unfold convert_pypsa. rewrite assertion_accepts; [|intros k; apply Good|exact Sup]. cbn [bind].
  destruct (preprocess_accepts n T Good Cols) as [n' Pre]. rewrite Pre. cbn [bind].
  destruct (constraints_accept n T Good Cols Sup n' Pre) as [gcs Gcs]. rewrite Gcs. cbn [bind]. rewrite registered_kinds.
  match goal with |- context [mapM ?f ?l] => destruct (mapM_accepts f l) as [ps Ps] end.
  - intros d Hd. apply in_map_iff in Hd. destruct Hd as (k & <- & _). exact (class_accepts order n T Ord Good Cols n' Pre k).
  - rewrite Ps. cbn [bind]. now eexists.
Qed.
Lemma accepted_supported order n r : convert_pypsa order n = Ok r -> supported n.
Proof.
  unfold convert_pypsa. intros H. inv_bind H. match goal with u : unit |- _ => destruct u end.
  match goal with A : network_assertion n = _ |- _ => apply assertion_ok in A; destruct A as (P & Wt & A1 & A2 & A3 & A4 & A5 & A6 & A7 & A8 & A9 & A10 & A11 & G) end.
  repeat (split; [assumption|]). intros c Hc. destruct (G c Hc) as [G1 G2]. split; [exact G1|]. split; [exact G2|].
  inv_bind H. inv_bind H. match goal with P : preprocess n = Ok ?n', R : registered_constraints ?n' = Ok _ |- _ =>
    unfold registered_constraints in R; rewrite (proj2 (pre_name n n' P)) in R; inv_bind R; inv_bind R; inv_bind R;
    destruct (mapM_total _ _ _ R c Hc) as (gc & E & _) end.
  unfold registered_constraint in E. inv_bind E. inv_bind E. inv_bind E.
  repeat match goal with L : loc _ _ _ = Ok _ |- _ => apply loc_entry in L end. unfold has_sense.
  repeat match goal with E : match ?v with _ => _ end = Ok gc |- _ => destruct v eqn:?; try discriminate end; subst.
  - left. match goal with B : (_ && _) = true |- _ => apply andb_true_iff in B; destruct B as [_ B]; apply String.eqb_eq in B; subst end. assumption.
  - right. match goal with B : (_ && _) = true |- _ => apply andb_true_iff in B; destruct B as [_ B]; apply String.eqb_eq in B; subst end. assumption.
Qed.

(** ** What a conversion leaves of the network *)
Lemma kept_entry n n' k c a v : preprocess n = Ok n' -> entry_of (table n k) c a = Some v -> ends_with "_carrier" a = false ->
  ~ In a ["carrier"; capacity k ++ "_min"; capacity k ++ "_max"; "capital_cost"]%string -> entry_of (table n' k) (study_id k c) a = Some v.
Proof.
  intros Pre H E N. destruct (pre_tables n n' Pre k) as (P1 & P2 & _). destruct (with_capacity k) eqn:Wk.
  - apply (pre_kept _ _ _ _ (P1 eq_refl)); [destruct k; auto|unfold study_id; now rewrite entry_renamed|exact E|exact N].
  - rewrite (P2 eq_refl). unfold study_id. now rewrite entry_renamed.
Qed.
Lemma kept_series n n' k c a l : preprocess n = Ok n' -> series_of_attribute n k c a = Some l -> series_of_attribute n' k (study_id k c) a = Some l.
Proof.
  intros Pre. destruct (pre_tables n n' Pre k) as (_ & _ & P3). unfold series_of_attribute. rewrite P3, dget_renamed.
  destruct (dget String.eqb a (series n k)) as [columns|]; [|discriminate]. cbn.
  intros H. induction columns as [|[c' l'] columns IH]; cbn in *; [discriminate|]. unfold study_id in *.
  destruct (String.eqb c c') eqn:E.
  - apply String.eqb_eq in E. subst c'. now rewrite String.eqb_refl.
  - destruct (String.eqb (c ++ suffix k) (c' ++ suffix k)) eqn:E2; [|now apply IH].
    apply String.eqb_eq, append_right in E2. subst c'. now rewrite String.eqb_refl in E.
Qed.
