(** Proofs about the converter of PyPSA networks. *)
From Coq Require Import Lia Permutation Ascii.
From Verif Require Import Base BaseFacts Expr Visitors Parse SpecParse LexFacts LinearExpr Model Study Strategy Optim System Library
  Main SpecExpr SpecModel SpecLibrary SpecSystem SystemFacts SpecLinear SpecOptim OptimFacts SpecMain MainFacts Pypsa SpecPypsa.
Local Open Scope string_scope.
Local Open Scope list_scope.

(** ** Texts *)
Lemma append_nil s : (s ++ "")%string = s.
Proof. induction s as [|a s IH]; cbn; [reflexivity|now rewrite IH]. Qed.
Lemma append_assoc a b c : ((a ++ b) ++ c)%string = (a ++ b ++ c)%string.
Proof. induction a as [|x a IH]; cbn; [reflexivity|now rewrite IH]. Qed.
Lemma append_left a b c : (a ++ b = a ++ c)%string -> b = c.
Proof. induction a as [|x a IH]; cbn; [auto|]. intros [= H]. auto. Qed.
Lemma append_length a b : String.length (a ++ b) = (String.length a + String.length b)%nat.
Proof. induction a as [|x a IH]; cbn; [reflexivity|now rewrite IH]. Qed.
Lemma append_right a b c : (a ++ c = b ++ c)%string -> a = b.
Proof.
  revert b. induction a as [|x a IH]; intros [|y b]; cbn.
  - auto.
  - intros H. apply (f_equal String.length) in H. cbn in H. rewrite append_length in H. lia.
  - intros H. apply (f_equal String.length) in H. cbn in H. rewrite append_length in H. lia.
  - intros [= -> H]. f_equal. auto.
Qed.
Fixpoint ends_with (e s : string) : bool :=
  String.eqb s e || match s with EmptyString => false | String _ s => ends_with e s end.
Lemma ends_append a e : ends_with e (a ++ e) = true.
Proof.
  induction a as [|x a IH]; cbn.
  - destruct e; cbn; rewrite ?Ascii.eqb_refl, ?String.eqb_refl; reflexivity.
  - rewrite IH. apply orb_true_r.
Qed.
(** two ways to cut a text: one of the ends is an end of the other *)
Lemma cut a b a' b' : (a ++ b = a' ++ b')%string -> ends_with b b' = true \/ ends_with b' b = true.
Proof.
  revert a'. induction a as [|x a IH]; intros [|y a']; cbn.
  - intros ->. left. exact (ends_append "" b').
  - intros ->. right. exact (ends_append (String y a') b').
  - intros H. left. rewrite <- H. exact (ends_append (String x a) b).
  - intros [= _ H]. eauto.
Qed.

(** ** Lists and dictionaries *)
Lemma dget_combine_map {A B} (f : string -> string) (g : A -> B) idx col c :
  (forall a b, f a = f b -> a = b) ->
  dget String.eqb (f c) (combine (map f idx) (map g col)) = option_map g (dget String.eqb c (combine idx col)).
Proof.
  intros Inj. revert col. induction idx as [|i idx IH]; intros [|v col]; cbn; try reflexivity.
  destruct (String.eqb c i) eqn:E.
  - apply String.eqb_eq in E. subst i. now rewrite String.eqb_refl.
  - destruct (String.eqb (f c) (f i)) eqn:E2; [|apply IH].
    apply String.eqb_eq, Inj in E2. subst. now rewrite String.eqb_refl in E.
Qed.
Lemma dget_combine_some {A} idx (col : list A) c : In c idx -> List.length col = List.length idx ->
  exists v, dget String.eqb c (combine idx col) = Some v.
Proof.
  revert col. induction idx as [|i idx IH]; intros [|v col]; cbn; intros Hc L; try destruct Hc; try discriminate.
  - subst. rewrite String.eqb_refl. eauto.
  - destruct (String.eqb c i); [eauto|]. apply IH; auto.
Qed.
Lemma dget_combine_in {A} idx (col : list A) c v : dget String.eqb c (combine idx col) = Some v -> In c idx /\ In v col.
Proof.
  intros H. apply (dget_In String.eqb String.eqb_eq) in H. split; [eapply in_combine_l|eapply in_combine_r]; eauto.
Qed.
Lemma dget_combine3 {A B C D} (g : A * (B * C) -> D) idx a b c row va vb vc :
  dget String.eqb row (combine idx a) = Some va -> dget String.eqb row (combine idx b) = Some vb ->
  dget String.eqb row (combine idx c) = Some vc ->
  dget String.eqb row (combine idx (map g (combine a (combine b c)))) = Some (g (va, (vb, vc))).
Proof.
  revert a b c. induction idx as [|i idx IH]; intros [|x a] [|y b] [|z c]; cbn; try discriminate.
  destruct (String.eqb row i); [congruence|]. apply IH.
Qed.
Lemma mapM_total {A B} (f : A -> result B) l l' : mapM f l = Ok l' -> forall a, In a l -> exists b, f a = Ok b /\ In b l'.
Proof.
  intros H a Ha. apply mapM_ok in H. destruct (Forall2_In_l _ _ _ _ H Ha) as (b & Hb & E). eauto.
Qed.
Lemma mapM_length {A B} (f : A -> result B) l l' : mapM f l = Ok l' -> List.length l' = List.length l.
Proof. intros H. apply mapM_ok in H. induction H; cbn; congruence. Qed.
Lemma dget_combine_mapM {A B} (f : A -> result B) idx col col' row v : mapM f col = Ok col' ->
  dget String.eqb row (combine idx col) = Some v ->
  exists v', f v = Ok v' /\ dget String.eqb row (combine idx col') = Some v'.
Proof.
  intros H. apply mapM_ok in H. revert idx. induction H as [|a b l l' E F IH]; intros [|i idx]; cbn; try discriminate.
  destruct (String.eqb row i); [intros [= <-]; eauto|]. apply IH.
Qed.
Lemma dmem_dget {A} k (d : dict string A) : dmem String.eqb k d = true <-> exists v, dget String.eqb k d = Some v.
Proof.
  unfold dmem. destruct (dget String.eqb k d); split; intros H; eauto; try discriminate. destruct H; discriminate.
Qed.
(** the last of several writes, when writes under one name agree *)
Lemma writes_get {A B} (key : A -> string) (val : A -> B) W files :
  (forall w w', In w W -> In w' W -> key w = key w' -> val w = val w') ->
  forall w, In w W ->
  dget String.eqb (key w) (fold_left (fun d w => dset String.eqb (key w) (val w) d) W files) = Some (val w).
Proof.
  revert files. induction W as [|a W IH] using rev_ind; intros files H w Hw; [destruct Hw|].
  rewrite fold_left_app. cbn. destruct (String.eqb (key w) (key a)) eqn:E.
  - apply String.eqb_eq in E. rewrite E, (dget_dset_same String.eqb String.eqb_eq). f_equal. apply H; auto.
    apply in_or_app. right. now left.
  - rewrite (dget_dset_other String.eqb String.eqb_eq) by (intros X; rewrite X, String.eqb_refl in E; discriminate).
    apply in_app_or in Hw. destruct Hw as [Hw|[<-|[]]]; [|now rewrite String.eqb_refl in E].
    apply IH; [|exact Hw]. intros u u' Hu Hu'. apply H; apply in_or_app; now left.
Qed.
Lemma writes_in {A B} (key : A -> string) (val : A -> B) W files k v :
  dget String.eqb k (fold_left (fun d w => dset String.eqb (key w) (val w) d) W files) = Some v ->
  dget String.eqb k files = Some v \/ exists w, In w W /\ key w = k /\ val w = v.
Proof.
  revert files. induction W as [|a W IH]; intros files; cbn; [auto|]. intros H. apply IH in H. destruct H as [H|(w & Hw & E)].
  - destruct (String.eqb k (key a)) eqn:E.
    + apply String.eqb_eq in E. subst k. rewrite (dget_dset_same String.eqb String.eqb_eq) in H. right. exists a.
      split; [now left|]. split; congruence.
    + rewrite (dget_dset_other String.eqb String.eqb_eq) in H; [auto|]. intros X. rewrite X, String.eqb_refl in E. discriminate.
  - right. exists w. split; [now right|exact E].
Qed.
Lemma fold_flat {A B C} (f : C -> B -> C) (g : A -> list B) l c :
  fold_left (fun c a => fold_left f (g a) c) l c = fold_left f (flat_map g l) c.
Proof. revert c. induction l as [|a l IH]; intros c; cbn; [reflexivity|]. now rewrite fold_left_app, IH. Qed.

(** ** Sums *)
Lemma osum_values {A} (F : A -> option Qc) f l : (forall a, In a l -> F a = Some (f a)) -> osum (map F l) = Some (qsum f l).
Proof.
  unfold qsum. induction l as [|a l IH]; intros H; cbn; [reflexivity|]. rewrite (H a (or_introl eq_refl)), IH; [reflexivity|].
  intros b Hb. apply H. now right.
Qed.
Lemma osum_joined l1 l2 a b : osum l1 = Some a -> osum l2 = Some b -> osum (l1 ++ l2) = Some (a + b)%Qc.
Proof.
  revert a. induction l1 as [|[x|] l IH]; cbn; intros a; try discriminate.
  - intros [= <-] ->. f_equal. ring.
  - destruct (osum l) as [y|]; [|discriminate]. intros [= <-] H. rewrite (IH y eq_refl H). f_equal. ring.
Qed.
Lemma osum_pieces {A B} (F : B -> option Qc) (G : A -> list B) f l :
  (forall a, In a l -> osum (map F (G a)) = Some (f a)) -> osum (map F (flat_map G l)) = Some (qsum f l).
Proof.
  unfold qsum. induction l as [|a l IH]; intros H; cbn; [reflexivity|]. rewrite map_app. apply osum_joined; [apply H; now left|].
  apply IH. intros b Hb. apply H. now right.
Qed.
Lemma qsum_filter {A} (p : A -> bool) f l : qsum (fun a => if p a then f a else 0%Qc) l = qsum f (filter p l).
Proof.
  unfold qsum. induction l as [|a l IH]; cbn; [reflexivity|]. destruct (p a); cbn; rewrite IH; [reflexivity|ring].
Qed.
Lemma qsum_ext {A} (f g : A -> Qc) l : (forall a, In a l -> f a = g a) -> qsum f l = qsum g l.
Proof.
  unfold qsum. induction l as [|a l IH]; intros H; cbn; [reflexivity|]. rewrite (H a (or_introl eq_refl)), IH; [reflexivity|].
  intros b Hb. apply H. now right.
Qed.
Lemma qsum_app {A} (f : A -> Qc) l l' : qsum f (l ++ l') = (qsum f l + qsum f l')%Qc.
Proof. unfold qsum. induction l as [|a l IH]; cbn; [ring|rewrite IH; ring]. Qed.
Lemma qsum_map {A B} (f : B -> Qc) (g : A -> B) l : qsum f (map g l) = qsum (fun a => f (g a)) l.
Proof. unfold qsum. induction l as [|a l IH]; cbn; [reflexivity|now rewrite IH]. Qed.
Lemma qsum_zero {A} (l : list A) : qsum (fun _ => 0%Qc) l = 0%Qc.
Proof. unfold qsum. induction l as [|a l IH]; cbn; [reflexivity|rewrite IH; ring]. Qed.

(** ** Numbers *)
Lemma below_finite a b : nltb (Fin a) (Fin b) = Qcltb a b.
Proof.
  unfold nltb, nleb, neqb. destruct (Qcltb a b) eqn:E.
  - apply Qcltb_lt in E. apply andb_true_iff. split; [apply Qcleb_le; now apply Qclt_le_weak|].
    apply negb_true_iff. destruct (Qceqb a b) eqn:Q; [|reflexivity]. apply Qceqb_eq in Q. subst. exfalso.
    exact (Qclt_not_eq _ _ E eq_refl).
  - destruct (Qcleb a b) eqn:L; [|reflexivity]. cbn. apply negb_false_iff. apply Qcleb_le in L. apply Qceqb_eq.
    apply Qcle_antisym; [exact L|]. apply Qcnot_lt_le. intros X. apply Qcltb_lt in X. congruence.
Qed.
Lemma limited_number c q v : cell_number c = Some q -> any_to_float c = Ok v -> v = Fin q.
Proof.
  assert (B : Qcltb (Z2Qc (10 ^ 20)) (- Z2Qc (10 ^ 20)) = false) by (vm_compute; reflexivity).
  assert (B' : Qcltb (- Z2Qc (10 ^ 20)) (- Z2Qc (10 ^ 20)) = false) by (vm_compute; reflexivity).
  unfold cell_number, any_to_float, limited, max_float. revert B B'. generalize (Z2Qc (10 ^ 20)). intros b B B'.
  destruct c as [[r| | |]|s|[|]]; intros [= <-] [= <-]; try reflexivity.
  - cbn [nneg]. rewrite below_finite. destruct (Qcltb b r) eqn:E; cbn zeta; rewrite below_finite; [now rewrite B|].
    now destruct (Qcltb r (- b)).
  - change (nltb (Fin b) PInf) with true. cbn beta iota zeta. cbn [nneg]. rewrite below_finite, B. reflexivity.
Qed.

(** ** Tables *)
Lemma rename_nothing df : rename "" df = df.
Proof. destruct df as [i c]. unfold rename. cbn. f_equal. rewrite <- (map_id i) at 2. apply map_ext, append_nil. Qed.
Lemma rename_columns_nothing (l : dict string (list num)) : map (fun cv => (fst cv ++ "", snd cv)%string) l = l.
Proof. induction l as [|[c v] l IH]; cbn [map fst snd]; [reflexivity|]. now rewrite IH, append_nil. Qed.
Lemma rename_series_nothing d : rename_series "" d = d.
Proof.
  unfold rename_series. induction d as [|[a l] d IH]; [reflexivity|]. cbn [map fst snd].
  rewrite rename_columns_nothing. now rewrite IH.
Qed.
Lemma entry_renamed sf df c a : entry_of (rename sf df) (c ++ sf) a = entry_of df c a.
Proof.
  unfold entry_of, rename. cbn [df_columns df_index]. destruct (dget String.eqb a (df_columns df)) as [col|]; [|reflexivity].
  pose proof (dget_combine_map (fun c => c ++ sf)%string (fun v : pcell => v) (df_index df) col c) as H.
  rewrite map_id in H. etransitivity; [apply H; intros x y; apply append_right|]. now destruct (dget String.eqb c _).
Qed.
Lemma loc_entry df row a v : loc df row a = Ok v <-> entry_of df row a = Some v.
Proof.
  unfold loc, col, entry_of, cell_at. destruct (dget String.eqb a (df_columns df)); cbn; [|split; discriminate].
  destruct (dget String.eqb row _); split; intros H; congruence.
Qed.
Lemma columns_set a b v df : dget String.eqb a (df_columns (set_col b v df)) =
  if String.eqb a b then Some v else dget String.eqb a (df_columns df).
Proof.
  cbn. destruct (String.eqb a b) eqn:E.
  - apply String.eqb_eq in E. subst. apply (dget_dset_same String.eqb String.eqb_eq).
  - apply (dget_dset_other String.eqb String.eqb_eq). intros X. subst. now rewrite String.eqb_refl in E.
Qed.
Lemma index_set b v df : df_index (set_col b v df) = df_index df.
Proof. reflexivity. Qed.
Lemma index_join carriers df names : df_index (join_carriers carriers df names) = df_index df.
Proof.
  unfold join_carriers. generalize (df_columns carriers) at 1. intros l.
  cut (forall df', df_index df' = df_index df -> df_index (fold_left (fun df' kc =>
    set_col (if dmem String.eqb (fst kc) (df_columns df) then fst kc ++ "_carrier" else fst kc)%string
      (map (fun c => match c with
                     | CText s => match cell_at carriers (snd kc) s with Some v => v | None => CNum NaN end
                     | _ => CNum NaN
                     end) names) df') l df') = df_index df); [intros H; now apply H|].
  induction l as [|kc l IH]; intros df' H; cbn [fold_left]; [exact H|]. apply IH. now rewrite index_set.
Qed.
Lemma join_kept carriers df names a : dmem String.eqb a (df_columns df) = true -> ends_with "_carrier" a = false ->
  dget String.eqb a (df_columns (join_carriers carriers df names)) = dget String.eqb a (df_columns df).
Proof.
  intros Ha He. unfold join_carriers. generalize (df_columns carriers) at 1. intros l.
  match goal with |- context [fold_left ?f l df] =>
    cut (forall df', dget String.eqb a (df_columns df') = dget String.eqb a (df_columns df) ->
      dget String.eqb a (df_columns (fold_left f l df')) = dget String.eqb a (df_columns df)); [intros H; now apply H|] end.
  induction l as [|kc l IH]; intros df' H; cbn [fold_left]; [exact H|]. apply IH. rewrite columns_set.
  destruct (String.eqb a _) eqn:E; [|exact H]. exfalso. apply String.eqb_eq in E.
  destruct (dmem String.eqb (fst kc) (df_columns df)) eqn:D.
  - subst a. now rewrite ends_append in He.
  - subst a. congruence.
Qed.
Definition carrier_value (carriers : dataframe) (values : list pcell) (c : pcell) : pcell :=
  match c with
  | CText s => match cell_at carriers values s with Some v => v | None => CNum NaN end
  | _ => CNum NaN
  end.
Lemma join_new carriers df names a values : dmem String.eqb a (df_columns df) = false -> ends_with "_carrier" a = false ->
  NoDup (map fst (df_columns carriers)) -> dget String.eqb a (df_columns carriers) = Some values ->
  dget String.eqb a (df_columns (join_carriers carriers df names)) = Some (map (carrier_value carriers values) names).
Proof.
  intros Ha He Nd Hv. unfold join_carriers. fold (carrier_value carriers). revert Nd Hv.
  generalize (df_columns carriers) at 1 2 3. intros l Nd Hv.
  match goal with |- context [fold_left ?f l df] =>
    cut (forall df', (dget String.eqb a l = Some values \/
        dget String.eqb a (df_columns df') = Some (map (carrier_value carriers values) names) /\ dget String.eqb a l = None) ->
      dget String.eqb a (df_columns (fold_left f l df')) = Some (map (carrier_value carriers values) names));
      [intros H; apply H; now left|] end.
  clear Hv. induction l as [|[k v] l IH]; intros df' H; cbn [fold_left].
  - destruct H as [H|[H _]]; [discriminate|exact H].
  - inversion_clear Nd as [|? ? N1 N2]. apply IH; [exact N2|]. cbn [fst snd]. rewrite columns_set.
    cbn [dget] in H. destruct (String.eqb a k) eqn:E.
    + apply String.eqb_eq in E. subst k. rewrite Ha, String.eqb_refl.
      destruct H as [H|[_ H]]; [|discriminate]. injection H as ->. right. split; [reflexivity|].
      destruct (dget String.eqb a l) eqn:G; [|reflexivity]. exfalso. apply N1. apply (dget_In String.eqb String.eqb_eq) in G.
      now apply (in_map fst) in G.
    + destruct H as [H|[H1 H2]]; [now left|]. right. split; [|exact H2].
      match goal with |- (if String.eqb a ?b then _ else _) = _ => destruct (String.eqb a b) eqn:E2 end; [|exact H1]. exfalso. apply String.eqb_eq in E2.
      destruct (dmem String.eqb k (df_columns df)).
      * subst a. now rewrite ends_append in He.
      * subst a. now rewrite String.eqb_refl in E.
Qed.
Lemma entry_set b v df row a : entry_of (set_col b v df) row a =
  if String.eqb a b then dget String.eqb row (combine (df_index df) v) else entry_of df row a.
Proof. unfold entry_of. rewrite columns_set, index_set. now destruct (String.eqb a b). Qed.
Lemma assign_other flags values field df row a : a <> field ->
  entry_of (assign_where flags values field df) row a = entry_of df row a.
Proof. intros H. unfold assign_where. rewrite entry_set. now apply String.eqb_neq in H as ->. Qed.
Lemma assign_same flags values field df row f v old :
  dget String.eqb row (combine (df_index df) flags) = Some f -> dget String.eqb row (combine (df_index df) values) = Some v ->
  entry_of df row field = Some old ->
  entry_of (assign_where flags values field df) row field = Some (if cell_is n0 f then v else old).
Proof.
  intros Hf Hv Ho. unfold assign_where. rewrite entry_set, String.eqb_refl. unfold entry_of in Ho.
  destruct (dget String.eqb field (df_columns df)) as [c|]; [|discriminate].
  now rewrite (dget_combine3 _ _ _ _ _ _ _ _ _ Hf Hv Ho).
Qed.
Lemma index_assign flags values field df : df_index (assign_where flags values field df) = df_index df.
Proof. reflexivity. Qed.
Lemma entry_column df row a v : entry_of df row a = Some v -> dmem String.eqb a (df_columns df) = true.
Proof. unfold entry_of, dmem. now destruct (dget String.eqb a (df_columns df)). Qed.
Lemma entry_join carriers df names row a v : entry_of df row a = Some v -> ends_with "_carrier" a = false ->
  entry_of (join_carriers carriers df names) row a = Some v.
Proof.
  intros H He. pose proof (entry_column _ _ _ _ H) as D. unfold entry_of in *.
  rewrite (join_kept _ _ _ _ D He), index_join. exact H.
Qed.

Section Preprocessed.
  Context (carriers : dataframe) (capa : string) (df df' : dataframe).
  Hypothesis Pre : preprocess_components carriers capa df = Ok df'.
  Hypothesis Capa : capa = "p_nom" \/ capa = "e_nom".

  Let steps : exists carrier names flags values df1,
    col df "carrier" = Ok carrier /\ mapM with_carrier carrier = Ok names /\
    df1 = join_carriers carriers (set_col "carrier" names df) names /\
    col df1 (capa ++ "_extendable") = Ok flags /\ col df1 capa = Ok values /\
    df' = assign_where flags (map (fun _ => CNum n0) flags) "capital_cost"
            (assign_where flags values (capa ++ "_max") (assign_where flags values (capa ++ "_min") df1)).
  Proof.
    pose proof Pre as H. unfold preprocess_components in H. inv_bind H. inv_bind H. inv_bind H. inv_bind H. injection H as <-.
    eexists; eexists; eexists; eexists; eexists. repeat (split; [first [eassumption|reflexivity]|]). reflexivity.
  Qed.
  Lemma pre_index : df_index df' = df_index df.
  Proof.
    destruct steps as (ca & na & fl & va & df1 & _ & _ & -> & _ & _ & ->). rewrite !index_assign, index_join. reflexivity.
  Qed.
  Lemma pre_kept row a v : entry_of df row a = Some v -> ends_with "_carrier" a = false ->
    ~ In a ["carrier"; capa ++ "_min"; capa ++ "_max"; "capital_cost"]%string -> entry_of df' row a = Some v.
  Proof.
    intros H He N. destruct steps as (ca & na & fl & va & df1 & _ & _ & -> & _ & _ & ->).
    rewrite !assign_other by (intros X; apply N; rewrite X; cbn; tauto). apply entry_join; [|exact He].
    rewrite entry_set. destruct (String.eqb a "carrier") eqn:E; [|exact H]. apply String.eqb_eq in E. subst. exfalso. apply N. now left.
  Qed.
  Lemma pre_carrier row v : entry_of df row "carrier" = Some v -> exists v', with_carrier v = Ok v' /\ entry_of df' row "carrier" = Some v'.
  Proof.
    intros H. destruct steps as (ca & na & fl & va & df1 & Hc & Hn & -> & _ & _ & ->).
    unfold entry_of in H. unfold col in Hc. destruct (dget String.eqb "carrier" (df_columns df)) as [c|]; [|discriminate].
    injection Hc as ->. destruct (dget_combine_mapM _ _ _ _ _ _ Hn H) as (v' & E & G). exists v'. split; [exact E|].
    rewrite !assign_other by (destruct Capa as [-> | ->]; discriminate). apply entry_join; [|reflexivity].
    now rewrite entry_set, String.eqb_refl.
  Qed.
  Lemma pre_joined row a v values : entry_of df row "carrier" = Some v ->
    dmem String.eqb a (df_columns df) = false -> ends_with "_carrier" a = false -> NoDup (map fst (df_columns carriers)) ->
    ~ In a ["carrier"; capa ++ "_min"; capa ++ "_max"; "capital_cost"]%string ->
    dget String.eqb a (df_columns carriers) = Some values ->
    exists v', with_carrier v = Ok v' /\ entry_of df' row a = Some (carrier_value carriers values v').
  Proof.
    intros H D He Nd N Hv. destruct steps as (ca & na & fl & va & df1 & Hc & Hn & -> & _ & _ & ->).
    unfold entry_of in H. unfold col in Hc. destruct (dget String.eqb "carrier" (df_columns df)) as [c|]; [|discriminate].
    injection Hc as ->. destruct (dget_combine_mapM _ _ _ _ _ _ Hn H) as (v' & E & G). exists v'. split; [exact E|].
    rewrite !assign_other by (intros X; apply N; rewrite X; cbn; tauto). unfold entry_of.
    rewrite (join_new _ _ _ a values); [| |exact He|exact Nd|exact Hv].
    - rewrite index_join, index_set.
      pose proof (dget_combine_map (fun r => r) (carrier_value carriers values) (df_index df) na row (fun a b X => X)) as M.
      rewrite map_id in M. etransitivity; [exact M|]. now rewrite G.
    - unfold dmem. rewrite columns_set. destruct (String.eqb a "carrier") eqn:E2.
      + apply String.eqb_eq in E2. subst. exfalso. apply N. now left.
      + exact D.
  Qed.
  Let join_entry row a v : entry_of df row a = Some v -> a <> "carrier" -> ends_with "_carrier" a = false -> forall names,
    entry_of (join_carriers carriers (set_col "carrier" names df) names) row a = Some v.
  Proof. intros H N He names. apply entry_join; [|exact He]. rewrite entry_set. now apply String.eqb_neq in N as ->. Qed.
  Let column_entry df1 c a row v : col df1 a = Ok c -> entry_of df1 row a = Some v ->
    dget String.eqb row (combine (df_index df1) c) = Some v.
  Proof. unfold col, entry_of. destruct (dget String.eqb a (df_columns df1)); [|discriminate]. intros [= ->]. auto. Qed.
  Lemma pre_assigned row f p lo hi cost : entry_of df row (capa ++ "_extendable") = Some f -> entry_of df row capa = Some p ->
    entry_of df row (capa ++ "_min") = Some lo -> entry_of df row (capa ++ "_max") = Some hi ->
    entry_of df row "capital_cost" = Some cost ->
    entry_of df' row (capa ++ "_min") = Some (if cell_is n0 f then p else lo) /\
    entry_of df' row (capa ++ "_max") = Some (if cell_is n0 f then p else hi) /\
    entry_of df' row "capital_cost" = Some (if cell_is n0 f then CNum n0 else cost).
  Proof.
    intros Hf Hp Hlo Hhi Hc. destruct steps as (ca & na & fl & va & df1 & _ & _ & E1 & Hfl & Hva & ->).
    assert (X : forall a v, entry_of df row a = Some v -> a <> "carrier" -> ends_with "_carrier" a = false -> entry_of df1 row a = Some v)
      by (intros a v Ha N He; rewrite E1; auto).
    clear E1.
    assert (Gf : dget String.eqb row (combine (df_index df1) fl) = Some f).
    { eapply column_entry; [exact Hfl|]. apply X; [exact Hf|..]; destruct Capa as [-> | ->]; first [discriminate|reflexivity]. }
    assert (Gp : dget String.eqb row (combine (df_index df1) va) = Some p).
    { eapply column_entry; [exact Hva|]. apply X; [exact Hp|..]; destruct Capa as [-> | ->]; first [discriminate|reflexivity]. }
    assert (Gz : dget String.eqb row (combine (df_index df1) (map (fun _ => CNum n0) fl)) = Some (CNum n0)).
    { pose proof (dget_combine_map (fun r => r) (fun _ : pcell => CNum n0) (df_index df1) fl row (fun a b E => E)) as M.
      rewrite map_id in M. etransitivity; [exact M|]. now rewrite Gf. }
    assert (Xlo : entry_of df1 row (capa ++ "_min") = Some lo)
      by (apply X; [exact Hlo|..]; destruct Capa as [-> | ->]; first [discriminate|reflexivity]).
    assert (Xhi : entry_of df1 row (capa ++ "_max") = Some hi)
      by (apply X; [exact Hhi|..]; destruct Capa as [-> | ->]; first [discriminate|reflexivity]).
    assert (Xc : entry_of df1 row "capital_cost" = Some cost) by (apply X; [exact Hc|discriminate|reflexivity]).
    split; [|split].
    - rewrite assign_other by (destruct Capa as [-> | ->]; discriminate).
      rewrite assign_other by (destruct Capa as [-> | ->]; discriminate). now apply assign_same.
    - rewrite assign_other by (destruct Capa as [-> | ->]; discriminate). apply assign_same; rewrite ?index_assign; auto.
      rewrite assign_other by (destruct Capa as [-> | ->]; discriminate). exact Xhi.
    - apply assign_same; rewrite ?index_assign; auto.
      rewrite assign_other by (destruct Capa as [-> | ->]; discriminate).
      rewrite assign_other by (destruct Capa as [-> | ->]; discriminate). exact Xc.
  Qed.
End Preprocessed.

(** ** Carriers *)
Lemma dget_app {A} k (d d' : dict string A) : dget String.eqb k (d ++ d') =
  match dget String.eqb k d with Some v => Some v | None => dget String.eqb k d' end.
Proof. induction d as [|[k' v] d IH]; cbn; [reflexivity|]. now destruct (String.eqb k k'). Qed.
Lemma combine_app {A B} (l l' : list A) (m m' : list B) : List.length m = List.length l ->
  combine (l ++ l') (m ++ m') = combine l m ++ combine l' m'.
Proof. revert m. induction l as [|a l IH]; intros [|b m]; cbn; intros H; try discriminate; [reflexivity|]. now rewrite IH by congruence. Qed.
Lemma dget_mapped {A B} (g : string * A -> B) k d :
  dget String.eqb k (map (fun kc => (fst kc, g kc)) d) = option_map (fun v => g (k, v)) (dget String.eqb k d).
Proof.
  induction d as [|[k' v] d IH]; cbn; [reflexivity|]. destruct (String.eqb k k') eqn:E; [|exact IH]. apply String.eqb_eq in E. now subst.
Qed.
Section Carriers.
  Context (carriers : dataframe).
  Hypothesis Full : full_table carriers.
  Hypothesis No_null : ~ In "null" (df_index carriers).
  Hypothesis Has : dmem String.eqb "co2_emissions" (df_columns carriers) = true.
  Let carriers' := add_null_carrier carriers.

  Let added : existsb (String.eqb null_carrier) (df_index carriers) = false.
  Proof.
    destruct (existsb _ _) eqn:E; [|reflexivity]. apply existsb_exists in E. destruct E as (c & Hc & E). apply String.eqb_eq in E.
    subst c. now destruct No_null.
  Qed.
  Lemma null_columns : NoDup (map fst (df_columns carriers')).
  Proof.
    unfold carriers', add_null_carrier. rewrite added. cbn [df_columns set_col]. apply (dset_nodup String.eqb String.eqb_eq).
    rewrite map_map. cbn [fst]. apply Full.
  Qed.
  Lemma null_values : exists values, dget String.eqb "co2_emissions" (df_columns carriers') = Some values /\
    cell_at carriers' values "null" = Some (CNum n0) /\
    forall c v, entry_of carriers c "co2_emissions" = Some v -> cell_at carriers' values c = Some v.
  Proof.
    unfold carriers', add_null_carrier. rewrite added. rewrite columns_set. cbn [String.eqb Ascii.eqb Bool.eqb df_columns].
    rewrite dget_mapped. apply dmem_dget in Has. destruct Has as [values Hv]. rewrite Hv. cbn [option_map fst snd String.eqb Ascii.eqb Bool.eqb].
    eexists. split; [reflexivity|]. unfold cell_at. rewrite !index_set. cbn [df_index].
    assert (L : List.length values = List.length (df_index carriers)).
    { apply (dget_In String.eqb String.eqb_eq) in Hv. now apply Full in Hv. }
    rewrite combine_app by exact L. split.
    - rewrite dget_app. destruct (dget String.eqb "null" _) as [x|] eqn:E; [|reflexivity].
      exfalso. apply dget_combine_in in E. apply No_null, E.
    - intros c v H. unfold entry_of in H. rewrite Hv in H. rewrite dget_app. now rewrite H.
  Qed.
End Carriers.

(** ** Kinds *)
Definition kmodel (k : kind) : string :=
  match k with Generators => "generator" | Loads => "load" | Buses => "bus" | Links => "link"
             | StorageUnits => "storage_unit" | Stores => "store" end.
Definition kparams (k : kind) : dict string string :=
  match k with Generators => generator_parameters | Loads => load_parameters | Buses => bus_parameters | Links => link_parameters
             | StorageUnits => storage_unit_parameters | Stores => store_parameters end.
Definition kconns (k : kind) : dict string (string * string) :=
  match k with
  | Buses => []
  | Links => [("bus0", ("p0_port", "p_balance_port")); ("bus1", ("p1_port", "p_balance_port"))]
  | _ => [("bus", ("p_balance_port", "p_balance_port"))]
  end.
Definition kdata (n : pypsa_network) (k : kind) : class_data :=
  {| cd_constant := table n k; cd_series := series n k; cd_model := kmodel k; cd_parameters := kparams k; cd_connections := kconns k |}.
Lemma registered_kinds n : registered n = map (kdata n) kinds.
Proof. reflexivity. Qed.
Definition value (n : pypsa_network) (T : Z) (k : kind) (c a : string) (t : Z) : Qc :=
  if with_capacity k && String.eqb a (capacity k ++ "_min") then least_capacity n k c
  else if with_capacity k && String.eqb a (capacity k ++ "_max") then greatest_capacity n k c
  else if with_capacity k && String.eqb a "capital_cost" then investment_cost n k c
  else if with_capacity k && String.eqb a "co2_emissions" then emissions n k c
  else attribute n T k c a t.
Lemma params_split k a : In a (map fst (kparams k)) ->
  In a (attributes k) /\ (forall n T c t, value n T k c a t = attribute n T k c a t) \/
  with_capacity k = true /\ In a [capacity k ++ "_min"; capacity k ++ "_max"; "capital_cost"; "co2_emissions"]%string.
Proof.
  intros H. destruct k; cbn in H;
    repeat (destruct H as [<-|H]; [first [left; split; [cbn; tauto|intros; reflexivity]|right; split; [reflexivity|cbn; tauto]]|]); destruct H.
Qed.
Lemma attributes_plain k a : In a (attributes k ++ bus_columns k) -> ends_with "_carrier" a = false /\
  ~ In a ["carrier"; capacity k ++ "_min"; capacity k ++ "_max"; "capital_cost"]%string.
Proof.
  intros H. destruct k; cbn in H; repeat (destruct H as [<-|H]; [split; [reflexivity|cbn; intuition discriminate]|]); destruct H.
Qed.
Lemma study_id_inj k a b : study_id k a = study_id k b -> a = b.
Proof. apply append_right. Qed.

Section Preprocessing.
  Context (n n' : pypsa_network) (T : Z).
  Hypothesis Pre : preprocess n = Ok n'.
  Hypothesis Good : good_network n T.
  Let carriers' := add_null_carrier (pn_carriers n).

  Lemma pre_tables k :
    (with_capacity k = true -> preprocess_components carriers' (capacity k) (rename (suffix k) (table n k)) = Ok (table n' k)) /\
    (with_capacity k = false -> table n' k = rename (suffix k) (table n k)) /\ series n' k = rename_series (suffix k) (series n k).
  Proof.
    pose proof Pre as H. unfold preprocess in H. inv_bind H. inv_bind H. inv_bind H. inv_bind H. injection H as <-.
    destruct k; cbn [with_capacity table series suffix capacity pn_generators pn_generators_t pn_loads pn_loads_t pn_buses pn_buses_t
      pn_links pn_links_t pn_storage_units pn_storage_units_t pn_stores pn_stores_t network_preprocessing];
      (split; [intros X; first [discriminate|rewrite ?rename_nothing; assumption]|]);
      (split; [intros X; first [discriminate|rewrite ?rename_nothing; reflexivity]|]);
      rewrite ?rename_series_nothing; reflexivity.
  Qed.
  Lemma pre_name : pn_name n' = pn_name n /\ pn_global_constraints n' = pn_global_constraints n.
  Proof.
    pose proof Pre as H. unfold preprocess in H. inv_bind H. inv_bind H. inv_bind H. inv_bind H. injection H as <-. split; reflexivity.
  Qed.
  Let Capa k : capacity k = "p_nom" \/ capacity k = "e_nom".
  Proof. destruct k; auto. Qed.
  Lemma table_index k : df_index (table n' k) = map (study_id k) (names n k).
  Proof.
    destruct (pre_tables k) as (P1 & P2 & _). destruct (with_capacity k) eqn:W.
    - rewrite (pre_index _ _ _ _ (P1 eq_refl)). reflexivity.
    - rewrite (P2 eq_refl). reflexivity.
  Qed.
  Let renamed k c a : entry_of (rename (suffix k) (table n k)) (study_id k c) a = entry_of (table n k) c a.
  Proof. apply entry_renamed. Qed.
  Lemma table_kept k c a v : entry_of (table n k) c a = Some v -> In a (attributes k ++ bus_columns k) ->
    entry_of (table n' k) (study_id k c) a = Some v.
  Proof.
    intros H Ha. destruct (attributes_plain k a Ha) as [E N]. destruct (pre_tables k) as (P1 & P2 & _). destruct (with_capacity k) eqn:W.
    - apply (pre_kept _ _ _ _ (P1 eq_refl)); auto. now rewrite renamed.
    - rewrite (P2 eq_refl), renamed. exact H.
  Qed.
  Lemma flag_extendable k c v : entry_of (table n k) c (capacity k ++ "_extendable") = Some v -> extendable n k c = negb (cell_is n0 v).
  Proof.
    intros H. unfold extendable. rewrite H. destruct v as [[q| | |]|s|[|]]; cbn; try reflexivity.
  Qed.
  Lemma static_value k c a : In c (names n k) -> In a (map fst (kparams k)) -> series_of_attribute n k c a = None ->
    exists v, entry_of (table n' k) (study_id k c) a = Some v /\ forall t, cell_number v = Some (value n T k c a t).
  Proof.
    intros Hc Ha Hs. destruct Good as (_ & Fc & Nn & Hco2 & Gk & _). destruct (Gk k) as (Ft & Gs & Nco2 & Gc).
    destruct (Gc c Hc) as (Num & _ & Cap). destruct (params_split k a Ha) as [[Hat V]|[W Hin]].
    - destruct (Num a) as (v & q & E & Q); [apply in_or_app; now left|]. exists v. split.
      + apply table_kept; [exact E|apply in_or_app; now left].
      + intros t. rewrite V. unfold attribute. rewrite Hs. unfold static_number. rewrite E, Q. reflexivity.
    - destruct (Cap W) as [(carrier & Ec & Kc) (flag & Ef)]. specialize (Nco2 W).
      destruct (pre_tables k) as (P1 & _ & _). specialize (P1 W).
      assert (Nu : forall b, In b (capacity_attributes k) -> numeric (table n k) c b) by (intros b Hb; apply Num, in_or_app; now right).
      unfold capacity_attributes in Nu. rewrite W in Nu.
      destruct (Nu (capacity k) ltac:(cbn; tauto)) as (vp & qp & Ep & Qp).
      destruct (Nu (capacity k ++ "_min")%string ltac:(cbn; tauto)) as (vlo & qlo & Elo & Qlo).
      destruct (Nu (capacity k ++ "_max")%string ltac:(cbn; tauto)) as (vhi & qhi & Ehi & Qhi).
      destruct (Nu "capital_cost" ltac:(cbn; tauto)) as (vc & qc & Ecc & Qcc).
      pose proof (flag_extendable k c flag Ef) as X.
      destruct (pre_assigned _ _ _ _ P1 (Capa k) (study_id k c) flag vp vlo vhi vc) as (R1 & R2 & R3);
        rewrite ?renamed; auto.
      cbn in Hin. destruct Hin as [<-|[<-|[<-|[<-|[]]]]].
      + eexists. split; [exact R1|]. intros t. unfold value. rewrite W, String.eqb_refl. cbn [andb].
        unfold least_capacity. rewrite X. destruct (cell_is n0 flag); cbn [negb]; unfold static_number; rewrite ?Ep, ?Qp, ?Elo, ?Qlo; reflexivity.
      + eexists. split; [exact R2|]. intros t. unfold value. rewrite W, String.eqb_refl. cbn [andb].
        replace (String.eqb (capacity k ++ "_max") (capacity k ++ "_min")) with false by (destruct k; reflexivity).
        unfold greatest_capacity. rewrite X. destruct (cell_is n0 flag); cbn [negb]; unfold static_number; rewrite ?Ep, ?Qp, ?Ehi, ?Qhi; reflexivity.
      + eexists. split; [exact R3|]. intros t. unfold value. rewrite W. cbn [andb].
        replace (String.eqb "capital_cost" (capacity k ++ "_min")) with false by (destruct k; reflexivity).
        replace (String.eqb "capital_cost" (capacity k ++ "_max")) with false by (destruct k; reflexivity). cbn [String.eqb Ascii.eqb Bool.eqb].
        unfold investment_cost. rewrite X. destruct (cell_is n0 flag); cbn [negb]; unfold static_number; rewrite ?Ecc, ?Qcc; [|reflexivity].
        vm_compute. reflexivity.
      + destruct (null_values (pn_carriers n) Fc Nn Hco2) as (values & Hv & Hnull & Hother).
        fold carriers' in Hv, Hnull, Hother.
        destruct (pre_joined _ _ _ _ P1 (Capa k) (study_id k c) "co2_emissions" (CText carrier) values) as (v' & Wc & E).
        * now rewrite renamed.
        * exact Nco2.
        * reflexivity.
        * exact (null_columns (pn_carriers n) Fc Nn).
        * destruct (Capa k) as [-> | ->]; cbn; intuition discriminate.
        * exact Hv.
        * eexists. split; [exact E|]. intros t. unfold value. rewrite W. cbn [andb].
          replace (String.eqb "co2_emissions" (capacity k ++ "_min")) with false by (destruct k; reflexivity).
          replace (String.eqb "co2_emissions" (capacity k ++ "_max")) with false by (destruct k; reflexivity). cbn [String.eqb Ascii.eqb Bool.eqb].
          unfold emissions. rewrite Ec. cbn [with_carrier] in Wc. injection Wc as <-. destruct Kc as [-> | (Nc & v & q & E2 & Q2)].
          -- cbn [String.length Nat.eqb carrier_value]. change null_carrier with "null". rewrite Hnull. vm_compute. reflexivity.
          -- destruct carrier as [|ch carrier].
             ++ cbn [String.length Nat.eqb carrier_value]. change null_carrier with "null". rewrite Hnull. vm_compute. reflexivity.
             ++ cbn [String.length Nat.eqb carrier_value]. rewrite (Hother _ _ E2). unfold static_number. now rewrite E2, Q2.
  Qed.
End Preprocessing.

Lemma NoDup_app_remove_l {A} (l l' : list A) : NoDup (l ++ l') -> NoDup l'.
Proof. induction l; cbn; [auto|]. intros N. inversion N. auto. Qed.
Lemma NoDup_app_remove_r {A} (l l' : list A) : NoDup (l ++ l') -> NoDup l.
Proof. induction l; cbn; [constructor|]. intros N. inversion N; subst. constructor; [|auto]. intros H. apply H1. apply in_or_app. now left. Qed.

Lemma dget_renamed f (d : series_tables) p : dget String.eqb p (rename_series f d) =
  option_map (fun cols : dict string (list num) => map (fun cv => ((fst cv ++ f)%string, snd cv)) cols) (dget String.eqb p d).
Proof. exact (dget_mapped _ _ _). Qed.

(** ** The series written *)
Definition all_params : list string := flat_map (fun k => map fst (kparams k)) kinds.
Lemma series_name_inj system c a c' a' : In a all_params -> In a' all_params ->
  series_name system c a = series_name system c' a' -> c = c' /\ a = a'.
Proof.
  assert (X : forallb (fun a => forallb (fun a' => implb (ends_with ("_" ++ a) ("_" ++ a')) (String.eqb a a')) all_params) all_params = true)
    by (vm_compute; reflexivity).
  rewrite forallb_forall in X.
  assert (Y : forall a a', In a all_params -> In a' all_params -> ends_with ("_" ++ a) ("_" ++ a') = true -> a = a').
  { intros b b' Hb Hb' E. specialize (X b Hb). rewrite forallb_forall in X. specialize (X b' Hb'). rewrite E in X. now apply String.eqb_eq. }
  intros Ha Ha' E. unfold series_name in E. apply append_left in E. cbn [append] in E. injection E as E.
  assert (a = a').
  { destruct (cut _ _ _ _ E) as [D|D]; [now apply Y|symmetry; now apply Y]. }
  subst a'. split; [|reflexivity]. eapply append_right. exact E.
Qed.
Lemma nodup_pieces {A B} (f : A -> list B) l a a' x : NoDup (flat_map f l) -> In a l -> In a' l -> In x (f a) -> In x (f a') -> a = a'.
Proof.
  induction l as [|b l IH]; cbn; [intros _ []|]. intros N.
  assert (N' : NoDup (flat_map f l)) by now apply NoDup_app_remove_l in N.
  assert (D : forall y, In y (f b) -> ~ In y (flat_map f l)).
  { intros y Hy Hy2. apply in_split in Hy. destruct Hy as (l1 & l2 & E). rewrite E in N. rewrite <- app_assoc in N. cbn in N.
    apply NoDup_remove_2 in N. apply N. apply in_or_app. right. apply in_or_app. now right. }
  intros [<-|Ha] [<-|Ha'] H H'; auto.
  - exfalso. apply (D x H). apply in_flat_map. eauto.
  - exfalso. apply (D x H'). apply in_flat_map. eauto.
Qed.
Lemma nodup_piece {A B} (f : A -> list B) l a : NoDup (flat_map f l) -> In a l -> NoDup (f a).
Proof.
  induction l as [|b l IH]; cbn; [intros _ []|]. intros N [<-|H].
  - now apply NoDup_app_remove_r in N.
  - apply IH; [|exact H]. now apply NoDup_app_remove_l in N.
Qed.
Lemma kinds_all k : In k kinds.
Proof. destruct k; cbn; tauto. Qed.

Section Converted.
  Context (order : list string -> list string) (n n' : pypsa_network) (T : Z) (gcs : list constraint_data)
    (parts : list (list input_component * list input_connection)).
  Hypothesis Ord : set_order order.
  Hypothesis Pre : preprocess n = Ok n'.
  Hypothesis Good : good_network n T.
  Hypothesis HT : (1 <= T)%Z.
  Hypothesis Gcs : registered_constraints n' = Ok gcs.
  Hypothesis Parts : mapM (convert_components order (pn_name n')) (map (kdata n') kinds) = Ok parts.

  Definition W (k : kind) := written_series order (kdata n' k).
  Definition conv_sys : input_system := {|
    is_nodes := [];
    is_components := flat_map fst parts ++ map fst (map convert_constraint gcs);
    is_connections := flat_map snd parts ++ flat_map snd (map convert_constraint gcs) |}.
  Definition conv_files : dict string frame :=
    fold_left (fun files d => write_files (pn_name n') (written_series order d) files) (map (kdata n') kinds) [].
  Let sys := conv_sys.
  Let files := series_directory conv_files.
  Let Gk k : full_table (table n k) /\ good_series n T k.
  Proof. destruct Good as (_ & _ & _ & _ & G & _). destruct (G k) as (A & B & _). auto. Qed.

  Lemma ids_unique k c k' c' : In c (names n k) -> In c' (names n k') -> study_id k c = study_id k' c' -> k = k' /\ c = c'.
  Proof.
    intros H H' E. destruct Good as (N & _). unfold study_ids in N. apply NoDup_app_remove_r in N.
    assert (k = k').
    { apply (nodup_pieces _ kinds k k' (study_id k c) N); try apply kinds_all; [now apply in_map|]. rewrite E. now apply in_map. }
    subst k'. split; [reflexivity|]. now apply study_id_inj in E.
  Qed.
  Lemma ids_constraints k c : In c (names n k) -> ~ In (study_id k c) (constraint_names n).
  Proof.
    intros H Hin. destruct Good as (N & _). unfold study_ids in N.
    assert (X : In (study_id k c) (flat_map (fun k => map (study_id k) (names n k)) kinds)).
    { apply in_flat_map. exists k. split; [apply kinds_all|]. now apply in_map. }
    apply in_split in X. destruct X as (l1 & l2 & E). rewrite E, <- app_assoc in N. cbn in N. apply NoDup_remove_2 in N. apply N.
    apply in_or_app. right. apply in_or_app. now right.
  Qed.
  Lemma written_iff k comp a l : In ((comp, a), l) (W k) <->
    In a (map fst (kparams k)) /\ exists c, comp = study_id k c /\ series_of_attribute n k c a = Some l.
  Proof.
    destruct (pre_tables n n' Pre k) as (_ & _ & S). unfold W, written_series. cbn [cd_series kdata cd_parameters]. rewrite S.
    unfold series_of_attribute. rewrite in_flat_map. destruct (Gk k) as [_ [Ns Gs]]. split.
    - intros (p & Hp & H). apply (Permutation_in _ (Ord _)) in Hp. apply filter_In in Hp. destruct Hp as [Hp _].
      rewrite dget_renamed in H. destruct (dget String.eqb p (series n k)) as [cols|] eqn:E; cbn [option_map] in H; [|destruct H].
      apply in_map_iff in H. destruct H as ([c2 v2] & [= <- <- <-] & H). split; [exact Hp|].
      apply in_map_iff in H. destruct H as ([c v] & [= <- <-] & H). exists c. split; [reflexivity|]. rewrite E.
      apply (In_dget_nodup String.eqb String.eqb_eq); [|exact H]. apply (dget_In String.eqb String.eqb_eq) in E. now apply (Gs _ _ E).
    - intros (Ha & c & -> & H). destruct (dget String.eqb a (series n k)) as [cols|] eqn:E; [|discriminate]. exists a. split.
      + apply (Permutation_in _ (Permutation_sym (Ord _))). apply filter_In. split; [exact Ha|]. apply dmem_dget.
        rewrite dget_renamed, E. cbn. eauto.
      + rewrite dget_renamed, E. cbn [option_map]. apply (dget_In String.eqb String.eqb_eq) in H.
        apply in_map_iff. exists (study_id k c, l). split; [reflexivity|]. cbn [snd]. apply in_map_iff. exists (c, l). split; [reflexivity|exact H].
  Qed.
  Lemma series_known k c a l : series_of_attribute n k c a = Some l -> In c (names n k) /\ (T <= Z.of_nat (List.length l))%Z /\
    (forall v, In v l -> exists q, v = Fin q) /\ ~ In a ("co2_emissions" :: capacity_attributes k).
  Proof.
    unfold series_of_attribute. intros H. destruct (dget String.eqb a (series n k)) as [cols|] eqn:E; [|discriminate].
    destruct (Gk k) as [_ [_ Gs]]. apply (dget_In String.eqb String.eqb_eq) in E. apply (dget_In String.eqb String.eqb_eq) in H.
    destruct (Gs _ _ E) as (N1 & N2 & G). destruct (G _ _ H) as (G1 & G2 & G3). repeat split; auto.
    intros X. rewrite (N1 X) in H. destruct H.
  Qed.
  Let files_flat : conv_files = fold_left (fun d w =>
     dset String.eqb (series_name (pn_name n') (fst (fst w)) (snd (fst w))) (map (fun v => [v]) (snd w)) d) (flat_map W kinds) [].
  Proof. unfold conv_files, write_files. rewrite <- (fold_flat _ W). reflexivity. Qed.
  Lemma files_get k c a l : In a (map fst (kparams k)) -> series_of_attribute n k c a = Some l ->
    files (series_name (pn_name n') (study_id k c) a) = Ok (map (fun v => [v]) l).
  Proof.
    intros Ha Hs. unfold files, series_directory.
    assert (X : dget String.eqb (series_name (pn_name n') (study_id k c) a) conv_files = Some (map (fun v => [v]) l)); [|now rewrite X].
    rewrite files_flat.
    apply (writes_get (fun w : string * string * list num => series_name (pn_name n') (fst (fst w)) (snd (fst w)))
      (fun w => map (fun v => [v]) (snd w)) (flat_map W kinds) []) with (w := ((study_id k c, a), l)).
    - intros [[c1 a1] l1] [[c2 a2] l2] H1 H2 E. cbn [fst snd] in *. apply in_flat_map in H1, H2.
      destruct H1 as (k1 & _ & H1), H2 as (k2 & _ & H2). apply written_iff in H1, H2.
      destruct H1 as (A1 & d1 & -> & S1), H2 as (A2 & d2 & -> & S2).
      apply series_name_inj in E; try (apply in_flat_map; eexists; split; [apply kinds_all|eassumption]).
      destruct E as [E ->]. apply ids_unique in E; [|now apply (series_known _ _ _ _ S1)|now apply (series_known _ _ _ _ S2)].
      destruct E as [-> ->]. congruence.
    - apply in_flat_map. exists k. split; [apply kinds_all|]. apply written_iff. split; [exact Ha|]. eauto.
  Qed.
  Lemma files_finite name ts r v : files name = Ok ts -> In r ts -> In v r -> exists q, v = Fin q.
  Proof.
    unfold files, series_directory. rewrite files_flat. destruct (dget _ _ _) as [ts'|] eqn:E; [|discriminate]. intros [= ->] Hr Hv.
    apply (writes_in (fun w : string * string * list num => series_name (pn_name n') (fst (fst w)) (snd (fst w)))
      (fun w => map (fun v => [v]) (snd w))) in E. destruct E as [E|([[c a] l] & Hw & _ & <-)]; [discriminate|].
    apply in_flat_map in Hw. destruct Hw as (k & _ & Hw). apply written_iff in Hw. destruct Hw as (_ & d & _ & Hs).
    cbn [snd] in Hr. apply in_map_iff in Hr. destruct Hr as (v' & <- & Hv'). destruct Hv as [<-|[]]. now apply (series_known _ _ _ _ Hs).
  Qed.

  (** ** The entries *)
  Definition made (k : kind) (c : string) (e : input_component) : Prop :=
    gems_component (pn_name n') (kdata n' k) (W k) (study_id k c) = Ok e.
  Lemma parts_made : Forall2 (fun k p => Forall2 (made k) (names n k) (fst p) /\ gems_connections (kdata n' k) = Ok (snd p)) kinds parts.
  Proof.
    pose proof (proj1 (mapM_ok _ _ _) Parts) as F. revert F. generalize kinds, parts. intros ks ps F.
    remember (map (kdata n') ks) as ds eqn:E. revert ks E. induction F as [|d p ds ps H F IH]; intros [|k ks] E; try discriminate; constructor.
    - cbn in E. injection E as -> ->. unfold convert_components in H. inv_bind H. inv_bind H. inv_bind H. injection H as <-.
      split; [|assumption]. cbn [fst]. match goal with M : mapM (gems_component _ _ _) _ = _ |- _ => apply mapM_ok in M; cbn [cd_constant kdata] in M;
        rewrite (table_index n n' Pre k) in M; revert M end.
      generalize (names n k). intros l M. remember (map (study_id k) l) as ids eqn:El. revert l El.
      induction M as [|i e ids es Hi M IHM]; intros [|c l] El; try discriminate; constructor.
      + cbn in El. injection El as -> _. exact Hi.
      + apply IHM. now injection El.
    - apply IH. now injection E.
  Qed.
  Lemma made_id k c e : made k c e -> ic_id e = study_id k c /\ ic_model e = ("pypsa_models." ++ kmodel k)%string /\
    Forall2 (fun pg p => gems_parameter (pn_name n') (kdata n' k) (W k) (study_id k c) pg = Ok p) (kparams k) (parameters_of e).
  Proof.
    unfold made, gems_component. intros H. inv_bind H. injection H as <-. split; [reflexivity|]. split; [reflexivity|].
    unfold parameters_of. cbn. match goal with M : mapM _ _ = _ |- _ => now apply mapM_ok in M end.
  Qed.
  Lemma parameter_id k c pg p : gems_parameter (pn_name n') (kdata n' k) (W k) (study_id k c) pg = Ok p -> ip_id p = snd pg /\ ip_scenario p = false.
  Proof.
    unfold gems_parameter. destruct (series_of _ _ _ _); [intros [= <-]; split; reflexivity|]. intros H. inv_bind H. inv_bind H. injection H as <-.
    split; reflexivity.
  Qed.
  Lemma params_distinct k : NoDup (map snd (kparams k)).
  Proof. destruct k; cbn; repeat constructor; cbn; intuition discriminate. Qed.
  Lemma made_parameters k c e : made k c e -> map ip_id (parameters_of e) = map snd (kparams k).
  Proof.
    intros H. apply made_id in H. destruct H as (_ & _ & F). induction F as [|pg p l l' H F IH]; cbn; [reflexivity|].
    rewrite IH. f_equal. now apply parameter_id in H.
  Qed.
  (** the parameter made of attribute [a]: its value, or the series *)
  Lemma parameter_made k c pg p : In c (names n k) -> In pg (kparams k) ->
    gems_parameter (pn_name n') (kdata n' k) (W k) (study_id k c) pg = Ok p ->
    match series_of_attribute n k c (fst pg) with
    | Some l => ip_time p = true /\ ip_value p = inr (series_name (pn_name n') (study_id k c) (fst pg))
    | None => ip_time p = false /\ forall t, ip_value p = inl (Fin (value n T k c (fst pg) t))
    end.
  Proof.
    intros Hc Hp H. assert (Ha : In (fst pg) (map fst (kparams k))) by now apply in_map.
    unfold gems_parameter, series_of in H. destruct (existsb _ (W k)) eqn:E.
    - apply existsb_exists in E. destruct E as ([[c2 a2] l] & Hw & E). cbn [fst snd] in E. apply andb_true_iff in E. destruct E as [E1 E2].
      apply String.eqb_eq in E1, E2. subst c2 a2. apply written_iff in Hw. destruct Hw as (_ & c' & Ec & Hs).
      apply study_id_inj in Ec. subst c'. rewrite Hs. injection H as <-. split; reflexivity.
    - destruct (series_of_attribute n k c (fst pg)) as [l|] eqn:Hs.
      + exfalso. assert (X : existsb (fun w => String.eqb (study_id k c) (fst (fst w)) && String.eqb (fst pg) (snd (fst w))) (W k) = true).
        { apply existsb_exists. exists ((study_id k c, fst pg), l). split; [|cbn; now rewrite !String.eqb_refl].
          apply written_iff. split; [exact Ha|]. eauto. }
        congruence.
      + destruct (static_value n n' T Pre Good k c (fst pg) Hc Ha Hs) as (v & Ev & Q). inv_bind H. inv_bind H. injection H as <-.
        cbn [cd_constant kdata] in *. match goal with L : loc _ _ _ = Ok ?x |- _ => apply loc_entry in L; assert (x = v) by congruence; subst x end.
        split; [reflexivity|]. intros t. cbn [ip_value]. f_equal. eapply limited_number; [apply Q|assumption].
  Qed.
  Lemma value_series k c a t l : series_of_attribute n k c a = Some l -> value n T k c a t = attribute n T k c a t.
  Proof.
    intros Hs. apply series_known in Hs. destruct Hs as (_ & _ & _ & N). unfold value, capacity_attributes in *.
    destruct (with_capacity k) eqn:W0; [|reflexivity]. cbn [andb].
    destruct (String.eqb a (capacity k ++ "_min")) eqn:E1; [exfalso; apply String.eqb_eq in E1; apply N; rewrite E1; cbn; tauto|].
    destruct (String.eqb a (capacity k ++ "_max")) eqn:E2; [exfalso; apply String.eqb_eq in E2; apply N; rewrite E2; cbn; tauto|].
    destruct (String.eqb a "capital_cost") eqn:E3; [exfalso; apply String.eqb_eq in E3; apply N; rewrite E3; cbn; tauto|].
    destruct (String.eqb a "co2_emissions") eqn:E4; [exfalso; apply String.eqb_eq in E4; apply N; rewrite E4; cbn; tauto|].
    reflexivity.
  Qed.
  Lemma parameter_value k c e pg t s : In c (names n k) -> made k c e -> In pg (kparams k) ->
    file_value files T e (snd pg) t s = Some (value n T k c (fst pg) t).
  Proof.
    intros Hc Hm Hp. pose proof (made_parameters k c e Hm) as Hn. apply made_id in Hm. destruct Hm as (_ & _ & F).
    destruct (Forall2_In_l _ _ _ _ F Hp) as (p & Hin & Gp). destruct (parameter_id _ _ _ _ Gp) as [Ei Es].
    unfold file_value. rewrite <- Ei, (find_distinct ip_id (parameters_of e) p).
    - pose proof (parameter_made k c pg p Hc Hp Gp) as M. unfold parameter_cell. rewrite Es.
      destruct (series_of_attribute n k c (fst pg)) as [l|] eqn:Hs.
      + destruct M as [-> ->]. rewrite (files_get k c (fst pg) l) by (try apply in_map; assumption). cbn [orb].
        rewrite (value_series _ _ _ _ _ Hs). unfold attribute. rewrite Hs. unfold cell.
        pose proof (Z.mod_pos_bound t T ltac:(lia)) as B. replace (0 <=? t mod T)%Z with true by (symmetry; apply Z.leb_le; lia).
        cbn [Z.leb Z.compare Z.to_nat]. rewrite nth_error_map. destruct (series_known _ _ _ _ Hs) as (_ & L & Fi & _).
        destruct (nth_error l (Z.to_nat (t mod T))) as [v|] eqn:E.
        * cbn. apply nth_error_In in E. destruct (Fi v E) as [q ->]. reflexivity.
        * exfalso. apply nth_error_None in E. lia.
      + destruct M as [-> M]. rewrite (M t). reflexivity.
    - rewrite Hn. apply params_distinct.
    - exact Hin.
  Qed.
End Converted.
