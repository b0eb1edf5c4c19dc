(** Facts about output values (C36, C37, C51, C52). *)
From Coq Require Import Lia.
From Verif Require Import Base BaseFacts Expr Visitors LinearExpr Model Study Strategy SpecModel Optim SpecOptim LinearFacts OptimFacts
  SpecVisitors EqFacts Output SpecOutput SpecLinear.
Local Open Scope list_scope.

Lemma tsi_eqb_eq a b : tsi_eqb a b = true <-> a = b.
Proof.
  unfold tsi_eqb. rewrite andb_true_iff, !Z.eqb_eq. destruct a, b; cbn. split; [intros [-> ->]; reflexivity|].
  intros H. injection H as -> ->. auto.
Qed.

(** ** reading *)
Lemma mapM_all {A B} (f : A -> result B) g l : (forall a, In a l -> f a = Ok (g a)) -> mapM f l = Ok (map g l).
Proof.
  induction l as [|a l IH]; intros H; [reflexivity|]. cbn. rewrite (H a (or_introl eq_refl)). cbn.
  rewrite IH by (intros; apply H; now right). reflexivity.
Qed.
Lemma value_shown v S T m : ov_size v = (S, T) ->
  (forall t s, (0 <= t < T)%Z -> (0 <= s < S)%Z -> dget tsi_eqb (t, s) (ov_value v) = Some (m t s)) ->
  value v = Ok (shown S T m).
Proof.
  intros Hs H. unfold value, shown, value_at. rewrite Hs. destruct (T =? 1)%Z eqn:ET.
  - apply Z.eqb_eq in ET. subst T. destruct (S =? 1)%Z eqn:ES.
    + apply Z.eqb_eq in ES. subst S. rewrite H by lia. reflexivity.
    + rewrite (mapM_all _ (fun s => INum (m 0%Z s))); [reflexivity|]. intros s Hin. apply zrange_In in Hin.
      rewrite H by lia. reflexivity.
  - rewrite (mapM_all _ (fun s => IList (map (fun t => m t s) (zrange 0 T)))); [reflexivity|].
    intros s Hin. apply zrange_In in Hin. rewrite (mapM_all _ (fun t => m t s)); [reflexivity|].
    intros t Ht. apply zrange_In in Ht. rewrite H by lia. reflexivity.
Qed.

(** ** writing *)
Lemma enumerate_nth {A} (l : list A) i a : In (i, a) (enumerate l) <-> (0 <= i)%Z /\ nth_error l (Z.to_nat i) = Some a.
Proof.
  unfold enumerate.
  enough (G : forall b, In (i, a) (combine (zrange b (b + Z.of_nat (List.length l))) l) <->
    (b <= i)%Z /\ nth_error l (Z.to_nat (i - b)) = Some a).
  { specialize (G 0%Z). rewrite Z.add_0_l, Z.sub_0_r in G. exact G. }
  induction l as [|x l IH]; intros b.
  - cbn. rewrite zrange_empty by lia. cbn. split; [tauto|]. intros [_ H]. now destruct (Z.to_nat (i - b)).
  - rewrite zrange_cons by (cbn [List.length]; lia). cbn [combine In List.length].
    replace (b + Z.of_nat (S (List.length l)))%Z with (b + 1 + Z.of_nat (List.length l))%Z by lia.
    rewrite IH. split.
    + intros [E|[H1 H2]].
      * injection E as -> ->. split; [lia|]. rewrite Z.sub_diag. reflexivity.
      * split; [lia|]. replace (Z.to_nat (i - b)) with (S (Z.to_nat (i - (b + 1)))) by lia. exact H2.
    + intros [H1 H2]. destruct (Z.eq_dec i b) as [->|N].
      * left. rewrite Z.sub_diag in H2. cbn in H2. congruence.
      * right. split; [lia|]. replace (Z.to_nat (i - b)) with (S (Z.to_nat (i - (b + 1)))) in H2 by lia. exact H2.
Qed.
Lemma enumerate_length {A} (l : list A) : List.length (enumerate l) = List.length l.
Proof. unfold enumerate. rewrite combine_length, zrange_length. lia. Qed.
Lemma enumerate_keys {A} (l : list A) : map fst (enumerate l) = zrange 0 (Z.of_nat (List.length l)).
Proof. unfold enumerate. apply combine_map_fst. rewrite zrange_length. lia. Qed.

Lemma write_row_get (l : list num) s : forall d t s',
  dget tsi_eqb (t, s') (fold_left (fun d tv => dset tsi_eqb (fst tv, s) (snd tv) d) (enumerate l) d) =
  if (s' =? s)%Z && (0 <=? t)%Z then match nth_error l (Z.to_nat t) with Some x => Some x | None => dget tsi_eqb (t, s') d end
  else dget tsi_eqb (t, s') d.
Proof.
  enough (G : forall b d t s', dget tsi_eqb (t, s') (fold_left (fun d tv => dset tsi_eqb (fst tv, s) (snd tv) d)
      (combine (zrange b (b + Z.of_nat (List.length l))) l) d) =
    if (s' =? s)%Z && (b <=? t)%Z then match nth_error l (Z.to_nat (t - b)) with Some x => Some x | None => dget tsi_eqb (t, s') d end
    else dget tsi_eqb (t, s') d).
  { intros d t s'. specialize (G 0%Z d t s'). rewrite Z.sub_0_r in G. exact G. }
  induction l as [|x l IH]; intros b d t s'.
  - cbn. rewrite zrange_empty by lia. cbn. destruct (Z.to_nat (t - b)); destruct (_ && _); reflexivity.
  - rewrite zrange_cons by (cbn [List.length]; lia). cbn [combine fold_left List.length fst snd].
    replace (b + Z.of_nat (S (List.length l)))%Z with (b + 1 + Z.of_nat (List.length l))%Z by lia.
    rewrite IH. destruct (Z.eqb_spec s' s) as [->|Ns]; cbn [andb].
    + destruct (Z.eq_dec t b) as [->|Nt].
      * replace (b + 1 <=? b)%Z with false by (symmetry; apply Z.leb_gt; lia). rewrite Z.leb_refl, Z.sub_diag. cbn [nth_error Z.to_nat].
        now rewrite (dget_dset_same tsi_eqb tsi_eqb_eq).
      * rewrite (dget_dset_other tsi_eqb tsi_eqb_eq) by congruence.
        destruct (Z.leb_spec (b + 1) t), (Z.leb_spec b t); try lia; [|reflexivity].
        replace (Z.to_nat (t - b)) with (S (Z.to_nat (t - (b + 1)))) by lia. reflexivity.
    + now rewrite (dget_dset_other tsi_eqb tsi_eqb_eq) by congruence.
Qed.
Lemma write_items_snoc l a acc :
  fold_left write_item (enumerate (l ++ [a])) acc = write_item (fold_left write_item (enumerate l) acc) (Z.of_nat (List.length l), a).
Proof.
  assert (E : enumerate (l ++ [a]) = enumerate l ++ [(Z.of_nat (List.length l), a)]).
  { unfold enumerate. rewrite app_length. cbn [List.length]. rewrite Nat2Z.inj_add. cbn [Z.of_nat Pos.of_succ_nat].
    rewrite zrange_snoc by lia. 
    assert (G : forall (X : list Z) (Y : list out_item) x y, List.length X = List.length Y -> combine (X ++ [x]) (Y ++ [y]) = combine X Y ++ [(x, y)]).
    { induction X as [|? X IH]; intros [|? Y] x y H; cbn in *; try discriminate; [reflexivity|]. f_equal. apply IH. congruence. }
    apply G. rewrite zrange_length. lia. }
  rewrite E, fold_left_app. reflexivity.
Qed.
Lemma write_numbers l : forall d size,
  snd (fold_left write_item (enumerate (map INum l)) (d, size)) = size /\
  forall s, (0 <= s)%Z -> dget tsi_eqb (0%Z, s) (fst (fold_left write_item (enumerate (map INum l)) (d, size))) =
    match nth_error l (Z.to_nat s) with Some x => Some x | None => dget tsi_eqb (0%Z, s) d end.
Proof.
  induction l as [|a l IH] using rev_ind; intros d size.
  - cbn. split; [reflexivity|]. intros s _. now destruct (Z.to_nat s).
  - rewrite map_app. cbn [map]. rewrite write_items_snoc. destruct (IH d size) as [H1 H2].
    destruct (fold_left write_item (enumerate (map INum l)) (d, size)) as [d' size'] eqn:E. cbn [write_item fst snd] in *.
    split; [exact H1|]. intros s Hs. rewrite map_length. destruct (Z.eq_dec s (Z.of_nat (List.length l))) as [->|N].
    + rewrite (dget_dset_same tsi_eqb tsi_eqb_eq), Nat2Z.id, nth_error_app2, Nat.sub_diag by lia. reflexivity.
    + rewrite (dget_dset_other tsi_eqb tsi_eqb_eq) by congruence. rewrite H2 by exact Hs.
      destruct (Z.lt_ge_cases s (Z.of_nat (List.length l))).
      * rewrite nth_error_app1 by lia. reflexivity.
      * assert (X : nth_error l (Z.to_nat s) = None) by (apply nth_error_None; lia).
        assert (Y : nth_error (l ++ [a]) (Z.to_nat s) = None) by (apply nth_error_None; rewrite app_length; cbn; lia).
        now rewrite X, Y.
Qed.
Lemma write_rows T rows : Forall (fun r => List.length r = T) rows -> forall d size,
  (rows <> [] -> snd (fold_left write_item (enumerate (map IList rows)) (d, size)) = Z.of_nat T) /\
  forall t s, (0 <= t < Z.of_nat T)%Z -> (0 <= s)%Z ->
    dget tsi_eqb (t, s) (fst (fold_left write_item (enumerate (map IList rows)) (d, size))) =
    match nth_error rows (Z.to_nat s) with Some r => nth_error r (Z.to_nat t) | None => dget tsi_eqb (t, s) d end.
Proof.
  induction rows as [|r rows IH] using rev_ind; intros F d size.
  - cbn. split; [congruence|]. intros t s _ _. now destruct (Z.to_nat s).
  - apply Forall_app in F. destruct F as [F Fr]. inversion Fr as [|? ? Hr _]; subst.
    rewrite map_app. cbn [map]. rewrite write_items_snoc. destruct (IH F d size) as [_ H2].
    destruct (fold_left write_item (enumerate (map IList rows)) (d, size)) as [d' size'] eqn:E. cbn [write_item fst snd] in *.
    split; [reflexivity|]. intros t s Ht Hs. rewrite map_length, write_row_get.
    destruct (Z.eqb_spec s (Z.of_nat (List.length rows))) as [->|N]; cbn [andb].
    + replace (0 <=? t)%Z with true by (symmetry; apply Z.leb_le; lia).
      rewrite Nat2Z.id, nth_error_app2, Nat.sub_diag by lia. cbn [nth_error].
      destruct (nth_error r (Z.to_nat t)) eqn:X; [reflexivity|]. apply nth_error_None in X. lia.
    + rewrite H2 by assumption. destruct (Z.lt_ge_cases s (Z.of_nat (List.length rows))).
      * rewrite nth_error_app1 by lia. reflexivity.
      * assert (X : nth_error rows (Z.to_nat s) = None) by (apply nth_error_None; lia).
        assert (Y : nth_error (rows ++ [r]) (Z.to_nat s) = None) by (apply nth_error_None; rewrite app_length; cbn; lia).
        now rewrite X, Y.
Qed.

Lemma map_nth_zrange {A B} (f : A -> B) (g : Z -> B) l :
  (forall i a, nth_error l i = Some a -> g (Z.of_nat i) = f a) -> map g (zrange 0 (Z.of_nat (List.length l))) = map f l.
Proof.
  intros H. rewrite <- (enumerate_keys l). rewrite map_map.
  transitivity (map (fun ia : Z * A => f (snd ia)) (enumerate l)).
  - apply map_ext_in. intros [i a] Hin. cbn. apply enumerate_nth in Hin. destruct Hin as [Hi Ha].
    rewrite <- (H _ _ Ha). f_equal. lia.
  - rewrite <- (map_map snd f). f_equal. unfold enumerate. apply combine_map_fst. rewrite zrange_length. lia.
Qed.

Definition list_table (l : list num) : Z -> Z -> num := fun _ s => nth (Z.to_nat s) l NaN.
Definition row_table (rows : list (list num)) : Z -> Z -> num := fun t s => nth (Z.to_nat t) (nth (Z.to_nat s) rows []) NaN.
Lemma nth_nth_error {A} (l : list A) i a d : nth_error l i = Some a -> nth i l d = a.
Proof. revert i. induction l as [|b l IH]; intros [|i] H; cbn in *; try discriminate; [congruence|auto]. Qed.
Lemma set_numbers_value l v : value (set_value (VList (map INum l)) v) = Ok (shown (Z.of_nat (List.length l)) 1 (list_table l)).
Proof.
  unfold set_value. destruct (write_numbers l (ov_value v) 1) as [H1 H2].
  destruct (fold_left write_item (enumerate (map INum l)) (ov_value v, 1%Z)) as [d size] eqn:E. cbn [fst snd] in *. subst size.
  apply value_shown; [cbn; now rewrite map_length|]. cbn [ov_value]. intros t s Ht Hs. replace t with 0%Z by lia.
  rewrite H2 by lia. unfold list_table. destruct (nth_error l (Z.to_nat s)) eqn:X.
  - now rewrite (nth_nth_error _ _ _ NaN X).
  - apply nth_error_None in X. lia.
Qed.
Lemma set_rows_value T rows v : rows <> [] -> Forall (fun r => List.length r = T) rows ->
  value (set_value (VList (map IList rows)) v) = Ok (shown (Z.of_nat (List.length rows)) (Z.of_nat T) (row_table rows)).
Proof.
  intros N F. unfold set_value. destruct (write_rows T rows F (ov_value v) 1) as [H1 H2]. specialize (H1 N).
  destruct (fold_left write_item (enumerate (map IList rows)) (ov_value v, 1%Z)) as [d size] eqn:E. cbn [fst snd] in *. subst size.
  apply value_shown; [cbn; now rewrite map_length|]. cbn [ov_value]. intros t s Ht Hs.
  rewrite H2 by lia. unfold row_table. destruct (nth_error rows (Z.to_nat s)) as [r|] eqn:X.
  - rewrite (nth_nth_error _ _ _ [] X). rewrite Forall_forall in F. pose proof (F r (nth_error_In _ _ X)) as Hr.
    destruct (nth_error r (Z.to_nat t)) eqn:Y; [now rewrite (nth_nth_error _ _ _ NaN Y)|]. apply nth_error_None in Y. lia.
  - apply nth_error_None in X. lia.
Qed.
Lemma shown_numbers l : List.length l <> 1%nat -> shown (Z.of_nat (List.length l)) 1 (list_table l) = VList (map INum l).
Proof.
  intros N. unfold shown. rewrite Z.eqb_refl.
  replace (Z.of_nat (List.length l) =? 1)%Z with false by (symmetry; apply Z.eqb_neq; lia).
  f_equal. apply map_nth_zrange. intros i a H. unfold list_table. rewrite Nat2Z.id. now rewrite (nth_nth_error _ _ _ NaN H).
Qed.
Lemma shown_rows T rows : T <> 1%nat -> Forall (fun r => List.length r = T) rows ->
  shown (Z.of_nat (List.length rows)) (Z.of_nat T) (row_table rows) = VList (map IList rows).
Proof.
  intros N F. unfold shown. replace (Z.of_nat T =? 1)%Z with false by (symmetry; apply Z.eqb_neq; lia).
  f_equal. apply map_nth_zrange. intros i r H. f_equal.
  rewrite Forall_forall in F. rewrite <- (F r (nth_error_In _ _ H)).
  transitivity (map (fun x : num => x) r); [|apply map_id].
  apply map_nth_zrange. intros j a Ha. unfold row_table. rewrite !Nat2Z.id, (nth_nth_error _ _ _ [] H). now apply nth_nth_error.
Qed.

Lemma read_back x v : keeps_shape x -> value (set_value x v) = Ok x.
Proof.
  intros [a|l N|T rows NT N F].
  - unfold set_value, value, value_at. cbn [ov_size ov_value]. cbn [Z.eqb Pos.eqb].
    rewrite (dget_dset_same tsi_eqb tsi_eqb_eq). reflexivity.
  - now rewrite set_numbers_value, shown_numbers.
  - now rewrite (set_rows_value T rows v N F), shown_rows.
Qed.
Lemma single_step rows v : rows <> [] -> List.length rows <> 1%nat ->
  value (set_value (VList (map (fun x => IList [x]) rows)) v) = Ok (VList (map INum rows)).
Proof.
  intros N N1. rewrite <- (map_map (fun x => [x]) IList).
  rewrite (set_rows_value 1); [|now destruct rows|apply Forall_forall; intros r Hr; apply in_map_iff in Hr; destruct Hr as [x [<- _]]; reflexivity].
  rewrite map_length. rewrite <- (shown_numbers rows N1). f_equal. unfold shown. cbn [Z.of_nat Pos.of_succ_nat Z.eqb Pos.eqb].
  replace (Z.of_nat (List.length rows) =? 1)%Z with false by (symmetry; apply Z.eqb_neq; lia). f_equal. apply map_ext_in.
  intros s Hs. apply zrange_In in Hs. f_equal. unfold row_table, list_table.
  destruct (nth_error rows (Z.to_nat s)) as [x|] eqn:X; [|apply nth_error_None in X; lia].
  rewrite (nth_nth_error _ _ _ NaN X). rewrite (nth_nth_error _ _ [x]); [reflexivity|].
  rewrite nth_error_map, X. reflexivity.
Qed.

(** ** frames *)
Definition look (id name : string) (o : outputs) : out_var := fst (component_var (fst (output_component o id)) name).
Lemma change_var_get id name f o id' :
  dget String.eqb id' (change_var id name f o) =
  if String.eqb id' id then
    let c := fst (output_component o id) in
    let c' := snd (component_var c name) in
    Some {| oc_id := oc_id c; oc_variables := dset String.eqb name (f (look id name o)) (oc_variables c'); oc_ignore := oc_ignore c |}
  else dget String.eqb id' o.
Proof.
  unfold change_var, look, output_component, component_var. destruct (String.eqb_spec id' id) as [->|N].
  - destruct (dget String.eqb id o) as [c|] eqn:E; cbn [fst].
    + destruct (dget String.eqb name (oc_variables c)) eqn:E2; cbn [fst snd oc_id oc_variables oc_ignore];
        rewrite (dget_dset_same String.eqb String.eqb_eq); reflexivity.
    + cbn. rewrite (dget_dset_same String.eqb String.eqb_eq). reflexivity.
  - destruct (dget String.eqb id o) as [c|] eqn:E; cbn [fst].
    + destruct (dget String.eqb name (oc_variables c)) eqn:E2; cbn [fst snd oc_id oc_variables oc_ignore];
        rewrite (dget_dset_other String.eqb String.eqb_eq) by congruence; reflexivity.
    + cbn. rewrite !(dget_dset_other String.eqb String.eqb_eq) by congruence. reflexivity.
Qed.
Lemma look_change id name f o id' name' :
  look id' name' (change_var id name f o) =
  if String.eqb id' id && String.eqb name' name then f (look id name o) else look id' name' o.
Proof.
  pose proof (change_var_get id name f o id') as H.
  assert (L : forall o x y, look x y o = match dget String.eqb x o with
      | Some c => match dget String.eqb y (oc_variables c) with Some v => v | None => new_var y end | None => new_var y end).
  { intros o0 x y. unfold look, output_component. destruct (dget String.eqb x o0) as [c|]; cbn [fst].
    - unfold component_var. destruct (dget String.eqb y (oc_variables c)); reflexivity.
    - reflexivity. }
  rewrite (L (change_var id name f o)), H. destruct (String.eqb_spec id' id) as [->|N]; cbn [andb].
  - cbn [oc_variables]. destruct (String.eqb_spec name' name) as [->|N'].
    + now rewrite (dget_dset_same String.eqb String.eqb_eq).
    + rewrite (dget_dset_other String.eqb String.eqb_eq) by congruence. rewrite (L o id name').
      unfold output_component, component_var. destruct (dget String.eqb id o) as [c|]; cbn [fst].
      * destruct (dget String.eqb name (oc_variables c)); [reflexivity|]. cbn [snd oc_variables].
        now rewrite (dget_dset_other String.eqb String.eqb_eq) by congruence.
      * cbn. destruct (String.eqb_spec name' name); [contradiction|reflexivity].
  - now rewrite <- L.
Qed.
Lemma read_look id name o : read_output id name o = value (look id name o).
Proof. reflexivity. Qed.

(** ** comparison *)
Lemma allM_true {A} (f : A -> result bool) l : allM f l = Ok true <-> forall a, In a l -> f a = Ok true.
Proof.
  induction l as [|a l IH]; cbn.
  - split; [intros _ a []|reflexivity].
  - destruct (f a) as [[]|e] eqn:E; cbn.
    + rewrite IH. split; [intros H b [<-|Hb]; auto|auto].
    + split; [discriminate|]. intros H. rewrite <- (H a (or_introl eq_refl)), E. reflexivity.
    + split; [discriminate|]. intros H. rewrite <- (H a (or_introl eq_refl)), E. reflexivity.
Qed.
Lemma allM_ok {A} (f : A -> result bool) l : (forall a, In a l -> exists b, f a = Ok b) -> exists b, allM f l = Ok b.
Proof.
  induction l as [|a l IH]; cbn; intros H; [eauto|]. destruct (H a (or_introl eq_refl)) as [b ->]. cbn.
  destruct b; [apply IH; auto|eauto].
Qed.
Section Mappings.
  Context {A : Type} (ignore : A -> bool) (eq : A -> A -> result bool) (is_close : num -> num -> A -> A -> result bool).
  Variables rel_tol abs_tol : num.
  Definition chosen (a b : A) : result bool :=
    if neqb rel_tol abs_tol && neqb abs_tol n0 then eq a b else is_close rel_tol abs_tol a b.
  Lemma lone_keys (lhs rhs : dict string A) :
    existsb (fun k => negb (dmem String.eqb k rhs) &&
                      match dget String.eqb k lhs with Some a => negb (ignore a) | None => false end) (map fst lhs) = false <->
    forall k a, dget String.eqb k lhs = Some a -> dget String.eqb k rhs = None -> ignore a = true.
  Proof.
    rewrite <- not_true_iff_false, existsb_exists. split.
    - intros H k a Ha Hb. destruct (ignore a) eqn:E; [reflexivity|]. exfalso. apply H. exists k.
      split; [apply (dget_In String.eqb String.eqb_eq) in Ha; apply (in_map fst) in Ha; exact Ha|].
      rewrite Ha, E. unfold dmem. rewrite Hb. reflexivity.
    - intros H [k [_ Hk]]. apply andb_true_iff in Hk. destruct Hk as [Hr Hk].
      destruct (dget String.eqb k lhs) as [a|] eqn:Ha; [|discriminate].
      unfold dmem in Hr. destruct (dget String.eqb k rhs) eqn:Hb; [discriminate|]. rewrite (H k a Ha Hb) in Hk. discriminate.
  Qed.
  Lemma mappings_true (R : A -> A -> Prop) (lhs rhs : dict string A) :
    (forall a b, chosen a b = Ok true <-> R a b) ->
    are_mappings_close ignore eq is_close lhs rhs rel_tol abs_tol = Ok true <->
    agree String.eqb (fun a => ignore a = true) R lhs rhs.
  Proof.
    intros HR. unfold are_mappings_close.
    pose proof (lone_keys lhs rhs) as L1. pose proof (lone_keys rhs lhs) as L2.
    destruct (existsb _ (map fst lhs)).
    { split; [discriminate|]. intros H. enough (true = false) by discriminate. apply L1. intros k a Ha Hb.
      specialize (H k). now rewrite Ha, Hb in H. }
    destruct (existsb _ (map fst rhs)).
    { split; [discriminate|]. intros H. enough (true = false) by discriminate. apply L2. intros k a Ha Hb.
      specialize (H k). now rewrite Ha, Hb in H. }
    destruct L1 as [L1 _]. destruct L2 as [L2 _]. specialize (L1 Logic.eq_refl). specialize (L2 Logic.eq_refl).
    rewrite allM_true. split.
    - intros H k. destruct (dget String.eqb k lhs) as [a|] eqn:Ha, (dget String.eqb k rhs) as [b|] eqn:Hb; eauto.
      apply HR. unfold chosen. specialize (H k). rewrite Ha, Hb in H. apply H.
      apply (dget_In String.eqb String.eqb_eq) in Ha. apply (in_map fst) in Ha. exact Ha.
    - intros H k _. specialize (H k). destruct (dget String.eqb k lhs) as [a|], (dget String.eqb k rhs) as [b|]; try reflexivity.
      apply HR in H. exact H.
  Qed.
  Lemma mappings_ok (lhs rhs : dict string A) : (forall a b, exists r, chosen a b = Ok r) ->
    exists r, are_mappings_close ignore eq is_close lhs rhs rel_tol abs_tol = Ok r.
  Proof.
    intros H. unfold are_mappings_close. destruct (existsb _ _); [eauto|]. destruct (existsb _ _); [eauto|].
    apply allM_ok. intros k _. destruct (dget String.eqb k lhs) as [a|], (dget String.eqb k rhs) as [b|]; eauto.
  Qed.
End Mappings.

Section Values.
  Context {K : Type} (eqb : K -> K -> bool) (eqb_eq : forall a b, eqb a b = true <-> a = b).
  Lemma keys_eqb_true {V W} (a : dict K V) (b : dict K W) :
    keys_eqb eqb a b = true <-> forall k, dget eqb k a = None <-> dget eqb k b = None.
  Proof.
    unfold keys_eqb. rewrite andb_true_iff, !forallb_forall. split.
    - intros [H1 H2] k. rewrite !(dget_None eqb eqb_eq). split; intros N Hin; apply in_map_iff in Hin; destruct Hin as [[k' v] [E Hin]];
        cbn in E; subst k'; apply N.
      + apply (dmem_In eqb eqb_eq). exact (H2 _ Hin).
      + apply (dmem_In eqb eqb_eq). exact (H1 _ Hin).
    - intros H. split; intros [k v] Hin; cbn [fst]; apply (in_map fst) in Hin; cbn [fst] in Hin; unfold dmem.
      + destruct (dget eqb k b) eqn:E; [reflexivity|]. apply H in E. apply (dget_None eqb eqb_eq) in E. contradiction.
      + destruct (dget eqb k a) eqn:E; [reflexivity|]. apply H in E. apply (dget_None eqb eqb_eq) in E. contradiction.
  Qed.
  Lemma same_number_neqb x y : neqb x y = true <-> same_number x y.
  Proof.
    unfold same_number. split.
    - intros H. split; [now apply neqb_eq|]. intros ->. discriminate.
    - intros [-> N]. now apply neqb_refl.
  Qed.
  Lemma values_eqb_true (a b : dict K num) : values_eqb eqb a b = true <-> agree eqb (fun _ => False) same_number a b.
  Proof.
    unfold values_eqb. rewrite andb_true_iff, keys_eqb_true, forallb_forall. split.
    - intros [Hk H] k. specialize (Hk k). destruct (dget eqb k a) as [x|] eqn:Ea, (dget eqb k b) as [y|] eqn:Eb; auto.
      + specialize (H (k, x) (dget_In eqb eqb_eq _ _ _ Ea)). cbn [fst] in H. rewrite Ea, Eb in H. now apply same_number_neqb.
      + enough (Some x = None) by discriminate. tauto.
      + enough (Some y = None) by discriminate. tauto.
    - intros H. split.
      + intros k. specialize (H k). destruct (dget eqb k a), (dget eqb k b); try tauto; split; discriminate.
      + intros [k x] Hin. cbn [fst]. specialize (H k). apply (in_map fst) in Hin. cbn [fst] in Hin.
        destruct (dget eqb k a) eqn:Ea; [|apply (dget_None eqb eqb_eq) in Ea; contradiction].
        destruct (dget eqb k b); [now apply same_number_neqb|contradiction].
  Qed.
  Lemma values_close_true rel abs (a b : dict K num) (R : num -> num -> Prop) :
    (forall x y, isclose rel abs x y = Ok true <-> R x y) ->
    keys_eqb eqb a b = true /\ values_close eqb rel abs a b = Ok true <-> agree eqb (fun _ => False) R a b.
  Proof.
    intros HR. unfold values_close. rewrite keys_eqb_true, allM_true. split.
    - intros [Hk H] k. specialize (Hk k). destruct (dget eqb k a) as [x|] eqn:Ea, (dget eqb k b) as [y|] eqn:Eb; auto.
      + specialize (H (k, x) (dget_In eqb eqb_eq _ _ _ Ea)). cbn [fst] in H. rewrite Ea, Eb in H. now apply HR.
      + enough (Some x = None) by discriminate. tauto.
      + enough (Some y = None) by discriminate. tauto.
    - intros H. split.
      + intros k. specialize (H k). destruct (dget eqb k a), (dget eqb k b); try tauto; split; discriminate.
      + intros [k x] Hin. cbn [fst]. specialize (H k). apply (in_map fst) in Hin. cbn [fst] in Hin.
        destruct (dget eqb k a) eqn:Ea; [|apply (dget_None eqb eqb_eq) in Ea; contradiction].
        destruct (dget eqb k b); [now apply HR|contradiction].
  Qed.
  Lemma values_close_ok rel abs (a b : dict K num) : tol_ok rel -> tol_ok abs -> keys_eqb eqb a b = true ->
    exists r, values_close eqb rel abs a b = Ok r.
  Proof.
    intros Hr Ha Hk. apply keys_eqb_true in Hk || (rewrite keys_eqb_true in Hk). apply allM_ok. intros [k x] Hin. cbn [fst].
    apply (in_map fst) in Hin. cbn [fst] in Hin. specialize (Hk k).
    destruct (dget eqb k a) eqn:Ea; [|apply (dget_None eqb eqb_eq) in Ea; contradiction].
    destruct (dget eqb k b) eqn:Eb; [now apply isclose_ok|]. enough (Some n = None) by discriminate. tauto.
  Qed.
End Values.

Lemma size_eqb_eq a b : size_eqb a b = true <-> a = b.
Proof. exact (tsi_eqb_eq a b). Qed.
Lemma var_eqb_true a b : var_eqb a b = true <-> agree_var same_number a b.
Proof.
  unfold var_eqb, agree_var. rewrite !orb_true_iff, !andb_true_iff, String.eqb_eq, size_eqb_eq, (values_eqb_true tsi_eqb tsi_eqb_eq).
  tauto.
Qed.
Section Close.
  Variables (rel abs : num) (R : num -> num -> Prop).
  Hypothesis HR : forall x y, isclose rel abs x y = Ok true <-> R x y.
  Lemma var_is_close_true a b : var_is_close rel abs a b = Ok true <-> agree_var R a b.
  Proof.
    unfold var_is_close, agree_var. rewrite <- (values_close_true tsi_eqb tsi_eqb_eq rel abs _ _ R HR).
    destruct (ov_ignore a); cbn [orb]; [tauto|]. destruct (ov_ignore b); cbn [orb]; [tauto|].
    rewrite <- String.eqb_eq, <- size_eqb_eq.
    destruct (String.eqb (ov_name a) (ov_name b)), (size_eqb (ov_size a) (ov_size b)), (keys_eqb tsi_eqb (ov_value a) (ov_value b));
      cbn [andb]; intuition discriminate.
  Qed.
  Hypothesis same : neqb rel abs && neqb abs n0 = true -> R = same_number.
  Lemma component_is_close_true a b : component_is_close rel abs a b = Ok true <-> agree_component R a b.
  Proof.
    unfold component_is_close, agree_component.
    rewrite <- (mappings_true ov_ignore (fun v w => Ok (var_eqb v w)) var_is_close rel abs (agree_var R) (oc_variables a) (oc_variables b)).
    2:{ intros v w. unfold chosen. destruct (neqb rel abs && neqb abs n0) eqn:E; [|apply var_is_close_true].
        rewrite (same Logic.eq_refl). rewrite <- var_eqb_true. split; [intros H; injection H as ->; reflexivity|intros ->; reflexivity]. }
    destruct (oc_ignore a); cbn [orb]; [tauto|]. destruct (oc_ignore b); cbn [orb]; [tauto|].
    rewrite <- String.eqb_eq. destruct (String.eqb (oc_id a) (oc_id b)); intuition discriminate.
  Qed.
End Close.
Lemma isclose_zero_same x y : isclose n0 n0 x y = Ok true <-> same_number x y.
Proof. apply isclose_zero. Qed.
Lemma component_eq_true a b : component_eq a b = Ok true <-> agree_component same_number a b.
Proof. apply component_is_close_true; [exact isclose_zero_same|reflexivity]. Qed.
Lemma outputs_eq_true a b : outputs_eq a b = Ok true <-> agree_outputs same_number a b.
Proof.
  unfold outputs_eq, agree_outputs. apply mappings_true. intros c d. unfold chosen. cbn [neqb n0]. 
  replace (neqb n0 n0 && neqb n0 n0) with true by reflexivity. apply component_eq_true.
Qed.
Lemma outputs_is_close_true rel abs R a b : (forall x y, isclose rel abs x y = Ok true <-> R x y) ->
  (neqb rel abs && neqb abs n0 = true -> R = same_number) ->
  outputs_is_close rel abs a b = Ok true <-> agree_outputs R a b.
Proof.
  intros HR same. unfold outputs_is_close, agree_outputs. apply mappings_true. intros c d. unfold chosen.
  destruct (neqb rel abs && neqb abs n0) eqn:E; [rewrite (same Logic.eq_refl); apply component_eq_true|].
  apply component_is_close_true; [exact HR|intros X; rewrite E in X; discriminate].
Qed.
Lemma var_is_close_ok rel abs a b : tol_ok rel -> tol_ok abs -> exists r, var_is_close rel abs a b = Ok r.
Proof.
  intros Hr Ha. unfold var_is_close. destruct (_ || _); [eauto|]. destruct (_ && keys_eqb _ _ _) eqn:E; [|eauto].
  apply andb_true_iff in E. destruct E as [_ E]. now apply (values_close_ok tsi_eqb tsi_eqb_eq).
Qed.
Lemma component_is_close_ok rel abs a b : tol_ok rel -> tol_ok abs -> exists r, component_is_close rel abs a b = Ok r.
Proof.
  intros Hr Ha. unfold component_is_close. destruct (_ || _); [eauto|]. destruct (String.eqb _ _); [|eauto].
  apply mappings_ok. intros v w. unfold chosen. destruct (_ && _); [eauto|now apply var_is_close_ok].
Qed.
Lemma outputs_is_close_ok rel abs a b : tol_ok rel -> tol_ok abs -> exists r, outputs_is_close rel abs a b = Ok r.
Proof.
  intros Hr Ha. apply mappings_ok. intros v w. unfold chosen.
  destruct (_ && _); [now apply component_is_close_ok|now apply component_is_close_ok].
Qed.
Lemma outputs_eq_ok a b : exists r, outputs_eq a b = Ok r.
Proof. apply (outputs_is_close_ok n0 n0); reflexivity. Qed.

(** the relation meant by tolerances *)
Definition means (rel abs : num) : num -> num -> Prop :=
  if neqb rel abs && neqb abs n0 then same_number else fun x y => isclose rel abs x y = Ok true.
Lemma neqb_zero_fin x : neqb x n0 = true -> x = n0.
Proof. apply neqb_eq. Qed.
Lemma outputs_means rel abs a b : outputs_is_close rel abs a b = Ok true <-> agree_outputs (means rel abs) a b.
Proof.
  apply outputs_is_close_true; unfold means.
  - intros x y. destruct (neqb rel abs && neqb abs n0) eqn:E; [|tauto]. apply andb_true_iff in E. destruct E as [E1 E2].
    apply neqb_eq in E1, E2. subst. apply isclose_zero_same.
  - intros ->. reflexivity.
Qed.
Lemma outputs_eq_is_close a b : outputs_eq a b = outputs_is_close n0 n0 a b.
Proof. reflexivity. Qed.

(** ** reflexivity and symmetry *)
Lemma agree_sym {K A} (eqb : K -> K -> bool) (lone : A -> Prop) (R : A -> A -> Prop) a b :
  (forall x y, R x y -> R y x) -> agree eqb lone R a b -> agree eqb lone R b a.
Proof. intros HR H k. specialize (H k). destruct (dget eqb k a), (dget eqb k b); auto. Qed.
Lemma agree_outputs_sym (R : num -> num -> Prop) a b : (forall x y, R x y -> R y x) -> agree_outputs R a b -> agree_outputs R b a.
Proof.
  intros HR. apply agree_sym. intros c d [H|[H|[H1 H2]]]; [right; left; exact H|left; exact H|]. right. right.
  split; [now symmetry|]. revert H2. apply agree_sym. intros v w [H|[H|[H3 [H4 H5]]]]; [right; left; exact H|left; exact H|].
  right. right. split; [now symmetry|]. split; [now symmetry|]. revert H5. now apply agree_sym.
Qed.
Lemma means_sym rel abs x y : means rel abs x y -> means rel abs y x.
Proof.
  unfold means. destruct (_ && _).
  - intros [-> N]. now split.
  - now rewrite isclose_sym.
Qed.
Lemma bool_result_eq (a b : result bool) : (exists x, a = Ok x) -> (exists y, b = Ok y) -> (a = Ok true <-> b = Ok true) -> a = b.
Proof.
  intros [x ->] [y ->] H. destruct x, y; try reflexivity.
  - symmetry. now apply H.
  - now apply H.
Qed.
Lemma outputs_symmetric rel abs a b : tol_ok rel -> tol_ok abs -> outputs_is_close rel abs a b = outputs_is_close rel abs b a.
Proof.
  intros Hr Ha. apply bool_result_eq; [now apply outputs_is_close_ok|now apply outputs_is_close_ok|].
  rewrite !outputs_means. split; apply agree_outputs_sym, means_sym.
Qed.
Lemma outputs_reflexive rel abs a : tol_ok rel -> tol_ok abs -> no_nan_outputs a -> outputs_is_close rel abs a a = Ok true.
Proof.
  intros Hr Ha N. apply outputs_means. intros k. destruct (dget String.eqb k a) as [c|] eqn:Ec; [|exact I].
  right. right. split; [reflexivity|]. intros n. destruct (dget String.eqb n (oc_variables c)) as [v|] eqn:Ev; [|exact I].
  right. right. do 2 (split; [reflexivity|]). intros i. destruct (dget tsi_eqb i (ov_value v)) as [x|] eqn:Ex; [|exact I].
  pose proof (N _ _ _ _ _ _ Ec Ev Ex) as Nx. unfold means. destruct (_ && _); [now split|now apply isclose_refl].
Qed.

(** ** what is ignored *)
Lemma dget_without {A} k k' (d : dict string A) : dget String.eqb k' (without k d) = if String.eqb k k' then None else dget String.eqb k' d.
Proof.
  unfold without. induction d as [|[k2 v] d IH]; cbn.
  - now destruct (String.eqb k k').
  - destruct (String.eqb_spec k k2) as [->|N]; cbn.
    + rewrite IH. destruct (String.eqb_spec k2 k') as [->|N']; [reflexivity|].
      destruct (String.eqb_spec k' k2) as [->|]; [contradiction|reflexivity].
    + rewrite IH. destruct (String.eqb_spec k' k2) as [->|N']; [|reflexivity].
      destruct (String.eqb_spec k k2); [contradiction|reflexivity].
Qed.
Lemma ignored_component rel abs a b k : tol_ok rel -> tol_ok abs -> ignored_in k a \/ ignored_in k b ->
  outputs_is_close rel abs a b = outputs_is_close rel abs (without k a) (without k b).
Proof.
  intros Hr Ha Hi. apply bool_result_eq; [now apply outputs_is_close_ok|now apply outputs_is_close_ok|].
  rewrite !outputs_means. unfold agree_outputs, agree. split; intros H k'; specialize (H k').
  - rewrite !dget_without. destruct (String.eqb k k'); [exact I|exact H].
  - rewrite !dget_without in H. destruct (String.eqb_spec k k') as [Ek|N]; [|exact H]. subst k'. clear H.
    destruct Hi as [[c [E I]]|[c [E I]]]; rewrite E.
    + destruct (dget String.eqb k b); [left; exact I|exact I].
    + destruct (dget String.eqb k a) as [c'|] eqn:E'; [right; left; exact I|exact I].
Qed.

Lemma dget_map_fst {A} (f : string * A -> string * A) (d : dict string A) k : (forall ka, fst (f ka) = fst ka) ->
  dget String.eqb k (map f d) = option_map (fun a => snd (f (k, a))) (dget String.eqb k d).
Proof.
  intros Hf. induction d as [|[k' a] d IH]; [reflexivity|]. cbn. pose proof (Hf (k', a)) as E. destruct (f (k', a)) as [k2 a2] eqn:F.
  cbn in E. subst k2. destruct (String.eqb_spec k k') as [->|N]; [cbn; now rewrite F|exact IH].
Qed.
Lemma dget_without_var k n o k' : dget String.eqb k' (without_var k n o) =
  option_map (fun c => if String.eqb k k' then
     {| oc_id := oc_id c; oc_variables := without n (oc_variables c); oc_ignore := oc_ignore c |} else c) (dget String.eqb k' o).
Proof.
  unfold without_var. rewrite dget_map_fst.
  - cbn. destruct (dget String.eqb k' o) as [c|]; [|reflexivity]. cbn. now destruct (String.eqb k k').
  - intros [k2 c]. cbn. now destruct (String.eqb k k2).
Qed.
Lemma ignored_variable rel abs a b k n : tol_ok rel -> tol_ok abs -> var_ignored_in k n a \/ var_ignored_in k n b ->
  outputs_is_close rel abs a b = outputs_is_close rel abs (without_var k n a) (without_var k n b).
Proof.
  intros Hr Ha Hi. apply bool_result_eq; [now apply outputs_is_close_ok|now apply outputs_is_close_ok|].
  rewrite !outputs_means. unfold agree_outputs.
  assert (G : forall k', (match dget String.eqb k' a, dget String.eqb k' b with
      | Some x, Some y => agree_component (means rel abs) x y | Some x, None | None, Some x => oc_ignore x = true | None, None => True end) <->
    (match dget String.eqb k' (without_var k n a), dget String.eqb k' (without_var k n b) with
      | Some x, Some y => agree_component (means rel abs) x y | Some x, None | None, Some x => oc_ignore x = true | None, None => True end)).
  { intros k'. rewrite !dget_without_var. destruct (String.eqb_spec k k') as [Ek|N].
    2:{ destruct (dget String.eqb k' a), (dget String.eqb k' b); reflexivity. }
    subst k'. destruct (dget String.eqb k a) as [c|] eqn:Ea, (dget String.eqb k b) as [d|] eqn:Eb; cbn [option_map oc_ignore]; try reflexivity.
    unfold agree_component. cbn [oc_id oc_variables oc_ignore].
    enough (X : agree String.eqb (fun v => ov_ignore v = true) (agree_var (means rel abs)) (oc_variables c) (oc_variables d) <->
                agree String.eqb (fun v => ov_ignore v = true) (agree_var (means rel abs)) (without n (oc_variables c)) (without n (oc_variables d)))
      by (rewrite X; reflexivity).
    split; intros H n'; specialize (H n').
    - rewrite !dget_without. destruct (String.eqb n n'); [exact I|exact H].
    - rewrite !dget_without in H. destruct (String.eqb_spec n n') as [En|N]; [|exact H]. subst n'. clear H.
      destruct Hi as [[c' [v [E [E' V]]]]|[c' [v [E [E' V]]]]].
      + rewrite Ea in E. injection E as <-. rewrite E'. destruct (dget String.eqb n (oc_variables d)); [left; exact V|exact V].
      + rewrite Eb in E. injection E as <-. rewrite E'. destruct (dget String.eqb n (oc_variables c)); [right; left; exact V|exact V]. }
  unfold agree. split; intros H k'; apply G, H.
Qed.

(** ** closeness of numbers *)
Lemma Qcabs_scale r p : (0 <= r)%Qc -> Qcabs (r * p) = (r * Qcabs p)%Qc.
Proof.
  intros Hr. unfold Qcabs. destruct (Qcleb 0 p) eqn:E.
  - apply Qcleb_le in E. replace (Qcleb 0 (r * p)) with true; [reflexivity|]. symmetry. apply Qcleb_le.
    replace 0%Qc with (0 * p)%Qc by ring. now apply Qcmult_le_compat_r.
  - apply Qcleb_gt in E. destruct (Qcleb 0 (r * p)) eqn:F; [|ring]. apply Qcleb_le in F.
    assert (H : (r * p <= 0)%Qc).
    { replace 0%Qc with (r * 0)%Qc by ring. rewrite !(Qcmult_comm r). apply Qcmult_le_compat_r; [now apply Qclt_le_weak|exact Hr]. }
    assert (r * p = 0)%Qc by (now apply Qcle_antisym). replace (r * - p)%Qc with (- (r * p))%Qc by ring. rewrite H0. reflexivity.
Qed.
Lemma isclose_near r a x y : (0 <= r)%Qc -> (0 <= a)%Qc -> (isclose (Fin r) (Fin a) x y = Ok true <-> near_number r a x y).
Proof.
  intros Hr Ha. unfold isclose, near_number.
  assert (Z : forall q, (0 <= q)%Qc -> nltb (Fin q) n0 = false).
  { intros q Hq. unfold nltb. cbn. destruct (Qcleb q 0) eqn:E; [|reflexivity]. apply Qcleb_le in E.
    replace (Qceqb q 0) with true; [reflexivity|]. symmetry. apply Qceqb_eq. now apply Qcle_antisym. }
  rewrite !Z by assumption. cbn [orb]. destruct (neqb x y) eqn:E.
  { apply same_number_neqb in E. tauto. }
  assert (N : ~ same_number x y) by (rewrite <- same_number_neqb; congruence).
  destruct x as [p| | |], y as [q| | |]; cbn [nisinf orb];
    try (split; [discriminate|intros [H|(p' & q' & H1 & H2 & _)]; [contradiction|discriminate]]).
  cbn [nabs nsub nadd nneg nmul nleb]. split.
  - intros H. injection H as H. right. exists p, q. do 2 (split; [reflexivity|]).
    rewrite !orb_true_iff, !Qcleb_le in H. rewrite !Qcabs_scale in H by exact Hr.
    fold (q - p)%Qc in H. rewrite (Qcabs_sub_sym q p) in H. tauto.
  - intros [H|(p' & q' & H1 & H2 & H)]; [contradiction|]. injection H1 as <-. injection H2 as <-. f_equal.
    rewrite !orb_true_iff, !Qcleb_le, !Qcabs_scale by exact Hr. fold (q - p)%Qc. rewrite (Qcabs_sub_sym q p). tauto.
Qed.
Lemma near_zero x y : near_number 0 0 x y <-> same_number x y.
Proof. rewrite <- isclose_near by discriminate. apply isclose_zero. Qed.
Lemma agree_ext {K A} (eqb : K -> K -> bool) (lone : A -> Prop) (R R' : A -> A -> Prop) a b :
  (forall x y, R x y <-> R' x y) -> agree eqb lone R a b <-> agree eqb lone R' a b.
Proof. intros HR. split; intros H k; specialize (H k); destruct (dget eqb k a), (dget eqb k b); auto; now apply HR. Qed.
Lemma agree_outputs_ext R R' a b : (forall x y, R x y <-> R' x y) -> agree_outputs R a b <-> agree_outputs R' a b.
Proof.
  intros HR. unfold agree_outputs. apply agree_ext. intros c d. unfold agree_component.
  rewrite (agree_ext String.eqb (fun v => ov_ignore v = true) (agree_var R) (agree_var R')); [reflexivity|].
  intros v w. unfold agree_var. now rewrite (agree_ext tsi_eqb (fun _ => False) R R').
Qed.
Lemma outputs_close_means r a o1 o2 : (0 <= r)%Qc -> (0 <= a)%Qc ->
  outputs_is_close (Fin r) (Fin a) o1 o2 = Ok true <-> agree_outputs (near_number r a) o1 o2.
Proof.
  intros Hr Ha. rewrite outputs_means. apply agree_outputs_ext. intros x y. unfold means.
  destruct (neqb (Fin r) (Fin a) && neqb (Fin a) n0) eqn:E; [|now apply isclose_near].
  apply andb_true_iff in E. destruct E as [E1 E2]. apply neqb_eq in E1, E2. injection E1 as ->. injection E2 as ->.
  symmetry. apply near_zero.
Qed.

(** ** Benders solutions *)
Lemma benders_eqb_true a b : benders_eqb a b = true <-> agree_benders same_number a b.
Proof. unfold benders_eqb, agree_benders. now rewrite andb_true_iff, same_number_neqb, (values_eqb_true String.eqb String.eqb_eq). Qed.
Lemma benders_close_true rel abs R a b : (forall x y, isclose rel abs x y = Ok true <-> R x y) ->
  benders_is_close rel abs a b = Ok true <-> agree_benders R a b.
Proof.
  intros HR. unfold benders_is_close, agree_benders. rewrite <- HR, <- (values_close_true String.eqb String.eqb_eq rel abs _ _ R HR).
  destruct (isclose rel abs (bs_overall_cost a) (bs_overall_cost b)) as [[]|]; cbn [bind andb].
  - destruct (keys_eqb String.eqb (bs_candidates a) (bs_candidates b)); intuition discriminate.
  - intuition discriminate.
  - intuition discriminate.
Qed.
Lemma benders_close_ok rel abs a b : tol_ok rel -> tol_ok abs -> exists r, benders_is_close rel abs a b = Ok r.
Proof.
  intros Hr Ha. unfold benders_is_close. destruct (isclose_ok rel abs (bs_overall_cost a) (bs_overall_cost b) Hr Ha) as [c ->]. cbn [bind].
  destruct (c && _) eqn:E; [|eauto]. apply andb_true_iff in E. now apply (values_close_ok String.eqb String.eqb_eq).
Qed.
Lemma benders_symmetric rel abs a b : tol_ok rel -> tol_ok abs -> benders_is_close rel abs a b = benders_is_close rel abs b a.
Proof.
  intros Hr Ha. apply bool_result_eq; [now apply benders_close_ok|now apply benders_close_ok|].
  rewrite !(benders_close_true rel abs (fun x y => isclose rel abs x y = Ok true)) by reflexivity.
  unfold agree_benders. rewrite (isclose_sym rel abs (bs_overall_cost a)).
  split; intros [H1 H2]; (split; [exact H1|]); revert H2; apply agree_sym; intros x y; now rewrite isclose_sym.
Qed.

(** ** one value at a time *)
Lemma NoDup_map_of_inj {A B} (f : A -> B) l : (forall a b, In a l -> In b l -> f a = f b -> a = b) -> NoDup l -> NoDup (map f l).
Proof.
  induction l as [|a l IH]; intros H N; cbn; [constructor|]. inversion N as [|? ? Na Nl]; subst. constructor.
  - intros Hin. apply in_map_iff in Hin. destruct Hin as [b [E Hb]]. apply Na.
    rewrite (H a b (or_introl eq_refl) (or_intror Hb) (eq_sym E)). exact Hb.
  - apply IH; [|exact Nl]. intros x y Hx Hy. apply H; now right.
Qed.
Lemma holds_table_value v S T m : holds_table v S T m -> value v = Ok (shown S T m).
Proof. intros [H1 H2]. exact (value_shown v S T m H1 H2). Qed.
Lemma set_one_table v S T m t s x : holds_table v S T m -> (0 <= t < T)%Z -> (0 <= s < S)%Z ->
  holds_table (set_one (Some t) (Some s) x v) S T (fun t' s' => if (t' =? t)%Z && (s' =? s)%Z then x else m t' s').
Proof.
  intros [H1 H2] Ht Hs. split.
  - cbn. unfold dmem. rewrite H2 by assumption. exact H1.
  - intros t' s' Ht' Hs'. cbn [set_one ov_value].
    destruct (Z.eqb_spec t' t) as [->|Nt]; cbn [andb]; [destruct (Z.eqb_spec s' s) as [->|Ns]|].
    + now rewrite (dget_dset_same tsi_eqb tsi_eqb_eq).
    + rewrite (dget_dset_other tsi_eqb tsi_eqb_eq) by congruence. auto.
    + rewrite (dget_dset_other tsi_eqb tsi_eqb_eq) by congruence. auto.
Qed.

Definition slot (ts : option Z * option Z) : tsi := (odefault 0 (fst ts), odefault 0 (snd ts)).
Definition write (v : out_var) (e : (option Z * option Z) * num) : out_var := set_one (fst (fst e)) (snd (fst e)) (snd e) v.
Lemma write_value v e : ov_value (write v e) = dset tsi_eqb (slot (fst e)) (snd e) (ov_value v).
Proof. destruct e as [[[t|] [s|]] x]; reflexivity. Qed.
Lemma write_size v e : ~ In (slot (fst e)) (map fst (ov_value v)) ->
  ov_size (write v e) = (Z.max (fst (ov_size v)) (snd (slot (fst e)) + 1), Z.max (snd (ov_size v)) (fst (slot (fst e)) + 1))%Z.
Proof.
  intros N. assert (E : dmem tsi_eqb (slot (fst e)) (ov_value v) = false).
  { destruct (dmem tsi_eqb (slot (fst e)) (ov_value v)) eqn:E; [|reflexivity]. apply (dmem_In tsi_eqb tsi_eqb_eq) in E. contradiction. }
  unfold write, set_one. destruct e as [[[t|] [s|]] x]; unfold slot in *; cbn [fst snd odefault] in *;
    unfold odefault in *; cbn [ov_size]; rewrite E; destruct (ov_size v); reflexivity.
Qed.
Lemma writes_fresh l : forall v, NoDup (map (fun e => slot (fst e)) l) ->
  (forall e, In e l -> ~ In (slot (fst e)) (map fst (ov_value v))) ->
  (forall e, In e l -> dget tsi_eqb (slot (fst e)) (ov_value (fold_left write l v)) = Some (snd e)) /\
  (forall k x, dget tsi_eqb k (ov_value v) = Some x -> dget tsi_eqb k (ov_value (fold_left write l v)) = Some x) /\
  ov_size (fold_left write l v) =
    (fold_left Z.max (map (fun e => snd (slot (fst e)) + 1)%Z l) (fst (ov_size v)),
     fold_left Z.max (map (fun e => fst (slot (fst e)) + 1)%Z l) (snd (ov_size v))).
Proof.
  induction l as [|e l IH]; intros v N F.
  - cbn. split; [intros e []|]. split; [auto|]. now destruct (ov_size v).
  - cbn [map] in N. inversion N as [|? ? Ne Nl]; subst. cbn [fold_left map].
    destruct (IH (write v e) Nl) as [H1 [H2 H3]].
    { intros e' He' Hin. rewrite write_value, (dset_keys tsi_eqb) in Hin.
      assert (X : In (slot (fst e')) (map fst (ov_value v)) \/ slot (fst e') = slot (fst e)).
      { destruct (dmem tsi_eqb (slot (fst e)) (ov_value v)); [now left|]. apply in_app_or in Hin. destruct Hin as [Hin|[Hin|[]]]; auto. }
      destruct X as [X|X]; [exact (F e' (or_intror He') X)|]. apply Ne. rewrite <- X. apply (in_map (fun e => slot (fst e)) _ _ He'). }
    split; [|split].
    + intros e' [<-|He']; [|auto]. apply H2. rewrite write_value. apply (dget_dset_same tsi_eqb tsi_eqb_eq).
    + intros k x Hk. apply H2. rewrite write_value, (dget_dset_other tsi_eqb tsi_eqb_eq); [exact Hk|]. intros ->.
      apply (F e (or_introl eq_refl)). apply (dget_In tsi_eqb tsi_eqb_eq) in Hk. apply (in_map fst) in Hk. exact Hk.
    + rewrite H3, write_size by (apply F; now left). reflexivity.
Qed.
Lemma fold_max_is l n : (0 < n)%Z -> (forall x, In x l -> (x <= n)%Z) -> In n l -> fold_left Z.max l 0%Z = n.
Proof.
  intros Hn Hle Hin.
  assert (G : forall l a, (forall x, In x l -> (x <= n)%Z) -> (a <= n)%Z -> (fold_left Z.max l a <= n)%Z /\
    (a <= fold_left Z.max l a)%Z /\ forall x, In x l -> (x <= fold_left Z.max l a)%Z).
  { clear. induction l as [|y l IH]; intros a H Ha; cbn.
    - split; [exact Ha|]. split; [lia|]. intros x [].
    - destruct (IH (Z.max a y)) as (H1 & H2 & H3); [intros; apply H; now right|pose proof (H y (or_introl eq_refl)); lia|].
      split; [exact H1|]. split; [lia|]. intros x [<-|Hx]; [lia|auto]. }
  destruct (G l 0%Z Hle) as (H1 & _ & H3); [lia|]. pose proof (H3 n Hin). lia.
Qed.

(** ** outputs of a built problem *)
Definition of_variable (c n : string) (kv : term_key * nat) : bool :=
  String.eqb (tk_component (fst kv)) c && String.eqb (tk_variable (fst kv)) n.
Definition entry (solution : nat -> num) (kv : term_key * nat) : (option Z * option Z) * num :=
  ((tk_time (fst kv), tk_scenario (fst kv)), solution (snd kv)).
Lemma look_build solution c n l : forall o,
  look c n (fold_left (fun o kv => change_var (tk_component (fst kv)) (tk_variable (fst kv))
     (set_one (tk_time (fst kv)) (tk_scenario (fst kv)) (solution (snd kv))) o) l o) =
  fold_left write (map (entry solution) (filter (of_variable c n) l)) (look c n o).
Proof.
  induction l as [|kv l IH]; intros o; [reflexivity|]. cbn [fold_left filter]. rewrite IH, look_change.
  unfold of_variable at 2. rewrite (String.eqb_sym c), (String.eqb_sym n).
  destruct (String.eqb_spec (tk_component (fst kv)) c) as [E1|]; cbn [andb]; [|reflexivity].
  destruct (String.eqb_spec (tk_variable (fst kv)) n) as [E2|]; [|reflexivity].
  cbn [map fold_left]. rewrite E1, E2. reflexivity.
Qed.
Lemma built_entries o st : usable_block o -> distinct_ids (o_network o) -> named_network (o_network o) -> build_problem o = Ok st ->
  NoDup (map fst (st_variables st)) /\
  forall k i, In (k, i) (st_variables st) <-> exists c v t s, instance_of o c v t s /\
    k = {| tk_component := co_id c; tk_variable := v_name v; tk_time := t; tk_scenario := s |} /\
    get_component_variable o st t s (co_id c) (v_name v) = Ok i.
Proof.
  intros Hu Hd Hn H. destruct (built_variables o st Hd Hn H) as (ports & _ & _ & Hv & _).
  assert (Hl : List.length (var_insts o) = List.length (map inst_key (var_insts o))) by now rewrite map_length.
  assert (Hw : forall c v t s, instance_of o c v t s -> wrapped o t = t).
  { intros c v t s (_ & _ & Ht & _). destruct t as [t|]; [|reflexivity]. cbn in Ht |- *. f_equal. apply Z.mod_small. tauto. }
  split.
  - rewrite Hv, Hl. rewrite (proj1 (combine_map_fst _ _ (eq_sym (seq_length _ _)))). now apply keys_nodup.
  - intros k i. assert (X : In (k, i) (st_variables st) <-> nth_error (map inst_key (var_insts o)) i = Some k).
    { rewrite Hv, Hl, combine_seq_nth, Nat.sub_0_r. intuition lia. }
    rewrite X. split.
    + intros E. rewrite nth_error_map in E. destruct (nth_error (var_insts o) i) as [[[c v] [t s]]|] eqn:E2; [|discriminate].
      cbn in E. injection E as <-. assert (I : instance_of o c v t s) by (apply var_insts_In; eapply nth_error_In; eauto).
      exists c, v, t, s. split; [exact I|]. split; [reflexivity|]. apply (lookup_iff o st t s _ _ i Hu Hd Hn Hv).
      rewrite (Hw _ _ _ _ I). apply nth_inst. eauto.
    + intros (c & v & t & s & I & -> & G). apply (lookup_iff o st t s _ _ i Hu Hd Hn Hv) in G. rewrite (Hw _ _ _ _ I) in G. exact G.
Qed.
Lemma outputs_tables o st solution : usable_block o -> distinct_ids (o_network o) -> named_network (o_network o) -> build_problem o = Ok st ->
  (1 <= o_scenarios o)%Z ->
  forall c v, In c (all_components (o_network o)) -> In v (get_variables (o_selection o) (co_model c)) ->
  exists m,
    read_output (co_id c) (v_name v) (build_outputs solution (st_variables st)) =
      Ok (shown (extent (ix_scenario (v_structure v)) (o_scenarios o))
                (extent (ix_time (v_structure v)) (Z.of_nat (List.length (o_block o)))) m) /\
    forall t s, instance_of o c v t s -> forall i, get_component_variable o st t s (co_id c) (v_name v) = Ok i ->
    m (odefault 0 t) (odefault 0 s) = solution i.
Proof.
  intros Hu Hd Hn H Hs c v Hc Hv. destruct (built_entries o st Hu Hd Hn H) as [Nd He].
  destruct (reads_variable o st Hu Hd Hn H) as (R1 & _ & _ & _).
  set (l := map (entry solution) (filter (of_variable (co_id c) (v_name v)) (st_variables st))).
  set (T := extent (ix_time (v_structure v)) (Z.of_nat (List.length (o_block o)))).
  set (S := extent (ix_scenario (v_structure v)) (o_scenarios o)).
  assert (HT : (1 <= T)%Z).
  { unfold T, extent. destruct (ix_time (v_structure v)); [|lia]. destruct Hu as [Hu _]. destruct (o_block o); [congruence|]. cbn. lia. }
  assert (HS : (1 <= S)%Z) by (unfold S, extent; destruct (ix_scenario (v_structure v)); lia).
  (* the entries are the instances of the variable *)
  assert (Hsame : forall c' v' t s, instance_of o c' v' t s -> co_id c' = co_id c -> v_name v' = v_name v -> c' = c /\ v' = v).
  { intros c' v' t s (I1 & I2 & _) E1 E2. assert (c' = c) by (apply (NoDup_map_inj_in co_id _ _ _ Hd); assumption). subst c'.
    split; [reflexivity|]. apply (NoDup_map_inj_in v_name (get_variables (o_selection o) (co_model c))); auto.
    apply variables_nodup. now apply Hn. }
  assert (Hin : forall ts x, In (ts, x) l <-> exists t s i, ts = (t, s) /\ instance_of o c v t s /\
      get_component_variable o st t s (co_id c) (v_name v) = Ok i /\ x = solution i).
  { intros ts x. unfold l. rewrite in_map_iff. split.
    - intros [[k i] [E F]]. apply filter_In in F. destruct F as [F P]. apply He in F. destruct F as (c' & v' & t & s & I & -> & G).
      unfold of_variable in P. cbn in P. apply andb_true_iff in P. destruct P as [P1 P2]. apply String.eqb_eq in P1, P2.
      destruct (Hsame _ _ _ _ I P1 P2) as [-> ->]. injection E as <- <-. exists t, s, i. auto.
    - intros (t & s & i & -> & I & G & ->).
      exists ({| tk_component := co_id c; tk_variable := v_name v; tk_time := t; tk_scenario := s |}, i). split; [reflexivity|].
      apply filter_In. split; [apply He; eauto 10|]. unfold of_variable. cbn. now rewrite !String.eqb_refl. }
  assert (Hinst : forall t s, (0 <= t < T)%Z -> (0 <= s < S)%Z -> exists ot os, instance_of o c v ot os /\ odefault 0 ot = t /\ odefault 0 os = s).
  { intros t s Ht Hs'. unfold T, S, extent in Ht, Hs'.
    exists (if ix_time (v_structure v) then Some t else None), (if ix_scenario (v_structure v) then Some s else None).
    destruct (ix_time (v_structure v)) eqn:E1, (ix_scenario (v_structure v)) eqn:E2;
      (split; [split; [exact Hc|]; split; [exact Hv|]; cbn; rewrite ?E1, ?E2; auto|cbn; split; lia]). }
  assert (Hslot : forall t s, instance_of o c v t s -> (0 <= odefault 0 t < T)%Z /\ (0 <= odefault 0 s < S)%Z).
  { intros t s (_ & _ & I1 & I2). unfold T, S, extent. destruct t, s; cbn in *.
    - destruct I1 as [-> ?], I2 as [-> ?]. auto.
    - destruct I1 as [-> ?]. rewrite I2. lia.
    - destruct I2 as [-> ?]. rewrite I1. lia.
    - rewrite I1, I2. lia. }
  assert (Hinj : forall t s t' s', instance_of o c v t s -> instance_of o c v t' s' -> slot (t, s) = slot (t', s') -> t = t' /\ s = s').
  { intros t s t' s' (_ & _ & I1 & I2) (_ & _ & J1 & J2) E. unfold slot in E. cbn in E. injection E as E1 E2.
    destruct t, t'; cbn in I1, J1, E1; destruct s, s'; cbn in I2, J2, E2; split; try congruence;
      try (destruct I1; congruence); try (destruct J1; congruence); try (destruct I2; congruence); try (destruct J2; congruence). }
  assert (Nl : NoDup (map (fun e => slot (fst e)) l)).
  { apply NoDup_map_of_inj.
    - intros [[t s] x] [[t' s'] x'] X Y E. apply Hin in X, Y. destruct X as (t1 & s1 & i & E1 & I & G & ->).
      destruct Y as (t2 & s2 & i' & E2 & I' & G' & ->). injection E1 as <- <-. injection E2 as <- <-. cbn [fst] in E.
      destruct (Hinj _ _ _ _ I I' E) as [-> ->]. congruence.
    - unfold l. apply NoDup_map_of_inj.
      + intros [k i] [k' i'] X Y E. apply filter_In in X, Y. destruct X as [X P], Y as [Y Q].
        unfold of_variable in P, Q. cbn in P, Q, E. apply andb_true_iff in P, Q. destruct P as [P1 P2], Q as [Q1 Q2].
        apply String.eqb_eq in P1, P2, Q1, Q2. injection E as E1 E2 E3.
        assert (k = k') by (destruct k, k'; cbn in *; congruence). subst k'. f_equal.
        pose proof (In_dget_nodup tk_eqb tk_eqb_eq _ _ _ Nd X) as G1. pose proof (In_dget_nodup tk_eqb tk_eqb_eq _ _ _ Nd Y) as G2. congruence.
      + apply NoDup_filter. apply (NoDup_map_inv fst). exact Nd. }
  destruct (writes_fresh l (new_var (v_name v)) Nl) as (W1 & _ & W3); [intros e _ []|].
  assert (Hlook : look (co_id c) (v_name v) (build_outputs solution (st_variables st)) = fold_left write l (new_var (v_name v))).
  { unfold build_outputs. rewrite look_build. reflexivity. }
  assert (Hget : forall t s, instance_of o c v t s -> exists i, get_component_variable o st t s (co_id c) (v_name v) = Ok i).
  { intros t s I. destruct (R1 _ _ _ _ I) as (i & sv & _ & _ & G). exists i. apply G.
    destruct I as (_ & _ & Ht & _). destruct t as [t|]; [|reflexivity]. cbn in Ht |- *. f_equal. apply Z.mod_small. tauto. }
  exists (fun t s => match dget tsi_eqb (t, s) (ov_value (fold_left write l (new_var (v_name v)))) with Some x => x | None => NaN end).
  split.
  - rewrite read_look, Hlook. apply value_shown.
    + rewrite W3. cbn [new_var ov_size fst snd]. f_equal; apply fold_max_is; try lia.
      * intros x Hx. apply in_map_iff in Hx. destruct Hx as [[[t s] y] [<- Hx]]. apply Hin in Hx.
        destruct Hx as (t1 & s1 & i & E1 & I & _). injection E1 as <- <-. cbn. apply Hslot in I. lia.
      * apply in_map_iff. destruct (Hinst (T - 1) (S - 1))%Z as (t & s & I & E1 & E2); [lia|lia|].
        destruct (Hget _ _ I) as [i G]. exists ((t, s), solution i). split; [cbn; lia|]. apply Hin. eauto 10.
      * intros x Hx. apply in_map_iff in Hx. destruct Hx as [[[t s] y] [<- Hx]]. apply Hin in Hx.
        destruct Hx as (t1 & s1 & i & E1 & I & _). injection E1 as <- <-. cbn. apply Hslot in I. lia.
      * apply in_map_iff. destruct (Hinst (T - 1) (S - 1))%Z as (t & s & I & E1 & E2); [lia|lia|].
        destruct (Hget _ _ I) as [i G]. exists ((t, s), solution i). split; [cbn; lia|]. apply Hin. eauto 10.
    + intros t s Ht Hs'. destruct (Hinst t s Ht Hs') as (ot & os & I & <- & <-). destruct (Hget _ _ I) as [i G].
      assert (X : In ((ot, os), solution i) l) by (apply Hin; eauto 10). specialize (W1 _ X). unfold slot in W1; cbn [fst snd] in W1. now rewrite W1.
  - intros t s I i G. assert (X : In ((t, s), solution i) l) by (apply Hin; eauto 10). specialize (W1 _ X). unfold slot in W1; cbn [fst snd] in W1. now rewrite W1.
Qed.

Lemma listed_change id name f o id' name' : listed id' name' (change_var id name f o) <-> (id' = id /\ name' = name) \/ listed id' name' o.
Proof.
  unfold listed. rewrite change_var_get. destruct (String.eqb_spec id' id) as [->|N].
  2:{ split; [auto|]. intros [[E _]|X]; [contradiction|exact X]. }
  cbn zeta. split.
  - intros [c [E Hin]]. injection E as <-. cbn [oc_variables] in Hin. rewrite (dset_keys String.eqb) in Hin.
    unfold component_var, output_component in Hin. destruct (dget String.eqb id o) as [c|]; cbn [fst] in Hin.
    + destruct (dget String.eqb name (oc_variables c)) eqn:E; cbn [snd oc_variables] in Hin.
      * right. exists c. split; [reflexivity|]. unfold dmem in Hin. rewrite E in Hin. exact Hin.
      * unfold dmem in Hin. rewrite (dget_dset_same String.eqb String.eqb_eq), (dset_keys String.eqb) in Hin.
        unfold dmem in Hin. rewrite E in Hin. apply in_app_or in Hin. destruct Hin as [Hin|[<-|[]]]; [right; eauto|auto].
    + cbn in Hin. unfold dmem in Hin. cbn in Hin. rewrite String.eqb_refl in Hin. destruct Hin as [<-|[]]. auto.
  - intros X. eexists. split; [reflexivity|]. cbn [oc_variables]. rewrite (dset_keys String.eqb).
    assert (Y : In name' (map fst (oc_variables (snd (component_var (fst (output_component o id)) name))))).
    { unfold component_var, output_component. destruct (dget String.eqb id o) as [c|] eqn:Ec; cbn [fst].
      - destruct (dget String.eqb name (oc_variables c)) eqn:E; cbn [snd oc_variables].
        + destruct X as [[_ ->]|[c' [E' Hin]]]; [|congruence]. apply (dget_In String.eqb String.eqb_eq) in E. apply (in_map fst) in E. exact E.
        + rewrite (dset_keys String.eqb). unfold dmem. rewrite E. apply in_or_app.
          destruct X as [[_ ->]|[c' [E' Hin]]]; [right; now left|left; congruence].
      - destruct X as [[_ ->]|[c' [E' Hin]]]; [|discriminate]. cbn. now left. }
    destruct (dmem _ _ _); [exact Y|]. apply in_or_app. now left.
Qed.
Lemma outputs_listed o st solution : usable_block o -> distinct_ids (o_network o) -> named_network (o_network o) -> build_problem o = Ok st ->
  forall id name, listed id name (build_outputs solution (st_variables st)) <->
    exists c v t s, instance_of o c v t s /\ co_id c = id /\ v_name v = name.
Proof.
  intros Hu Hd Hn H id name. destruct (built_entries o st Hu Hd Hn H) as [_ He].
  assert (G : forall l o, listed id name (fold_left (fun o kv => change_var (tk_component (fst kv)) (tk_variable (fst kv))
     (set_one (tk_time (fst kv)) (tk_scenario (fst kv)) (solution (snd kv))) o) l o) <->
     (exists kv : term_key * nat, In kv l /\ tk_component (fst kv) = id /\ tk_variable (fst kv) = name) \/ listed id name o).
  { induction l as [|kv l IH]; intros o0; cbn [fold_left].
    - split; [auto|]. intros [[kv [[] _]]|X]; exact X.
    - rewrite IH, listed_change. split.
      + intros [[kv' [I X]]|[[E1 E2]|X]]; [left; exists kv'; split; [now right|exact X]|left; exists kv; split; [now left|auto]|auto].
      + intros [[kv' [[<-|I] [X Y]]]|X]; [right; left; auto|left; eauto|auto]. }
  unfold build_outputs. rewrite G. split.
  - intros [[[k i] [I [E1 E2]]]|[c [X _]]]; [|discriminate]. apply He in I. destruct I as (c & v & t & s & I & -> & _).
    exists c, v, t, s. auto.
  - intros (c & v & t & s & I & <- & <-). left. destruct (reads_variable o st Hu Hd Hn H) as (R1 & _).
    destruct (R1 _ _ _ _ I) as (i & _ & _ & _ & X).
    exists ({| tk_component := co_id c; tk_variable := v_name v; tk_time := t; tk_scenario := s |}, i). split; [|auto].
    apply He. exists c, v, t, s. split; [exact I|]. split; [reflexivity|]. apply X.
    destruct I as (_ & _ & Ht & _). destruct t as [t|]; [|reflexivity]. cbn in Ht |- *. f_equal. apply Z.mod_small. tauto.
Qed.

(** ** statements on outputs *)
Lemma assigned_read x id name o : keeps_shape x -> read_output id name (change_var id name (set_value x) o) = Ok x.
Proof. intros H. rewrite read_look, look_change, !String.eqb_refl. now apply read_back. Qed.
Lemma single_step_read l id name o : l <> [] -> List.length l <> 1%nat ->
  read_output id name (change_var id name (set_value (VList (map (fun x => IList [x]) l))) o) = Ok (VList (map INum l)).
Proof. intros. rewrite read_look, look_change, !String.eqb_refl. now apply single_step. Qed.
Lemma read_other id name f o id' name' : (id', name') <> (id, name) ->
  read_output id' name' (change_var id name f o) = read_output id' name' o.
Proof.
  intros N. rewrite !read_look, look_change. destruct (String.eqb_spec id' id), (String.eqb_spec name' name); cbn; try reflexivity. congruence.
Qed.
Lemma set_rows_table T rows v : rows <> [] -> Forall (fun r => List.length r = T) rows ->
  holds_table (set_value (VList (map IList rows)) v) (Z.of_nat (List.length rows)) (Z.of_nat T) (row_table rows).
Proof.
  intros N F. unfold set_value. destruct (write_rows T rows F (ov_value v) 1) as [H1 H2]. specialize (H1 N).
  destruct (fold_left write_item (enumerate (map IList rows)) (ov_value v, 1%Z)) as [d size] eqn:E. cbn [fst snd] in *. subst size.
  split; [cbn; now rewrite map_length|]. cbn [ov_value]. intros t s Ht Hs. rewrite H2 by lia.
  unfold row_table. destruct (nth_error rows (Z.to_nat s)) as [r|] eqn:X.
  - rewrite (nth_nth_error _ _ _ [] X). rewrite Forall_forall in F. specialize (F r (nth_error_In _ _ X)).
    apply nth_error_nth'. lia.
  - apply nth_error_None in X. lia.
Qed.
Lemma set_one_read rows T id name o t s x : rows <> [] -> Forall (fun r => List.length r = T) rows ->
  (0 <= t < Z.of_nat T)%Z -> (0 <= s < Z.of_nat (List.length rows))%Z ->
  read_output id name (change_var id name (set_one (Some t) (Some s) x)
    (change_var id name (set_value (VList (map IList rows))) o)) =
  Ok (shown (Z.of_nat (List.length rows)) (Z.of_nat T)
    (fun t' s' => if (t' =? t)%Z && (s' =? s)%Z then x else nth (Z.to_nat t') (nth (Z.to_nat s') rows []) NaN)).
Proof.
  intros N F Ht Hs. rewrite read_look, !look_change, !String.eqb_refl. cbn [andb].
  exact (holds_table_value _ _ _ _ (set_one_table _ _ _ _ t s x (set_rows_table T rows _ N F) Ht Hs)).
Qed.
Lemma comparison_symmetric rel abs a b : tol_ok rel -> tol_ok abs ->
  outputs_is_close rel abs a b = outputs_is_close rel abs b a /\ outputs_eq a b = outputs_eq b a.
Proof. intros. split; [now apply outputs_symmetric|]. rewrite !outputs_eq_is_close. now apply outputs_symmetric. Qed.
Lemma comparison_reflexive rel abs a : tol_ok rel -> tol_ok abs -> no_nan_outputs a ->
  outputs_is_close rel abs a a = Ok true /\ outputs_eq a a = Ok true.
Proof. intros. split; [now apply outputs_reflexive|]. rewrite !outputs_eq_is_close. now apply outputs_reflexive. Qed.
Lemma benders_close_means r t a b : (0 <= r)%Qc -> (0 <= t)%Qc ->
  benders_is_close (Fin r) (Fin t) a b = Ok true <-> agree_benders (near_number r t) a b.
Proof. intros. apply benders_close_true. intros. now apply isclose_near. Qed.
Lemma benders_both_symmetric rel abs a b : tol_ok rel -> tol_ok abs ->
  benders_is_close rel abs a b = benders_is_close rel abs b a /\ benders_eqb a b = benders_eqb b a.
Proof.
  intros. split; [now apply benders_symmetric|]. apply eq_true_iff_eq. rewrite !benders_eqb_true.
  split; intros [[H1 N] H2]; (split; [split; congruence|]); revert H2; apply agree_sym; intros p q [-> M]; now split.
Qed.
