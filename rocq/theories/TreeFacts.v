(** Facts about decision trees (C38). *)
From Coq Require Import Lia Permutation.
From Verif Require Import Base BaseFacts Expr Model Study Tree SpecTree SpecOutput OutputFacts.
Local Open Scope list_scope.

(** ** objects *)
Lemma nth_update {A} (f : A -> A) l : forall i j, nth_error (update i f l) j = if Nat.eqb i j then option_map f (nth_error l j) else nth_error l j.
Proof.
  induction l as [|a l IH]; intros i j; cbn.
  - destruct i, j; cbn; try destruct (Nat.eqb i _); reflexivity.
  - destruct i, j; cbn; try reflexivity. apply IH.
Qed.
Lemma update_length {A} (f : A -> A) l : forall i, List.length (update i f l) = List.length l.
Proof. induction l as [|a l IH]; intros [|i]; cbn; auto. Qed.
Lemma map_update {A B} (g : A -> B) (f : A -> A) l : (forall a, g (f a) = g a) -> forall i, map g (update i f l) = map g l.
Proof. intros H. induction l as [|a l IH]; intros [|i]; cbn; auto; f_equal; auto. Qed.
Lemma update_last {A} (f : A -> A) l a : update (List.length l) f (l ++ [a]) = l ++ [f a].
Proof. induction l as [|b l IH]; cbn; [reflexivity|]. now rewrite IH. Qed.

Lemma nth_error_ext' {A} (l : list A) : forall l', (forall j, nth_error l j = nth_error l' j) -> l = l'.
Proof.
  induction l as [|a l IH]; intros [|b l'] H; [reflexivity|discriminate (H O)|discriminate (H O)|].
  pose proof (H O) as H0. cbn in H0. injection H0 as ->. f_equal. apply IH. intros j. exact (H (S j)).
Qed.
Lemma Qcabs_of_nonneg a : (0 <= a)%Qc -> Qcabs a = a.
Proof. intros H. apply Qcle_antisym; [apply Qcabs_le; split; [|apply Qcle_refl]|].
  - apply Qcle_trans with 0%Qc; [|exact H]. change 0%Qc with (- 0)%Qc. now apply Qcopp_le_compat.
  - pose proof (proj1 (Qcabs_le a (Qcabs a)) (Qcle_refl _)) as [_ X]. exact X.
Qed.

(** ** probabilities are set once *)
Definition probs (nodes : list tree_node) : list (option num) := map tn_prob nodes.
Lemma set_parent_probs nodes s v nodes' : set_parent nodes s v = Ok nodes' -> probs nodes' = probs nodes.
Proof.
  unfold set_parent, probs. destruct (same_parent _ _); [congruence|].
  assert (G : forall q g (l : list tree_node), map tn_prob (update q (with_children g) l) = map tn_prob l) by (intros; now apply map_update).
  assert (G2 : forall q p (l : list tree_node), map tn_prob (update q (with_parent p) l) = map tn_prob l) by (intros; now apply map_update).
  destruct v as [p|].
  - destruct (existsb _ _); [discriminate|]. intros [= <-]. rewrite G2, G. destruct (parent_of nodes s); now rewrite ?G.
  - intros [= <-]. rewrite G2. destruct (parent_of nodes s); now rewrite ?G.
Qed.
Lemma delete_children_probs nodes s : probs (delete_children nodes s) = probs nodes.
Proof.
  unfold delete_children. destruct (nth_error nodes s) as [n|]; [|reflexivity]. generalize (tn_children n). intros l.
  revert nodes. induction l as [|c l IH]; intros nodes; cbn; [reflexivity|]. rewrite IH.
  destruct (set_parent nodes c None) eqn:E; [|reflexivity]. now apply set_parent_probs in E.
Qed.
Lemma attach_children_probs l s : forall nodes, probs (fst (attach_children nodes s l)) = probs nodes.
Proof.
  induction l as [|c l IH]; intros nodes; cbn; [reflexivity|]. destruct (set_parent nodes c (Some s)) eqn:E; cbn; [|reflexivity].
  rewrite IH. now apply set_parent_probs in E.
Qed.
Lemma set_children_probs nodes s l : probs (fst (set_children nodes s l)) = probs nodes.
Proof.
  unfold set_children. destruct (has_repetition l); [reflexivity|].
  pose proof (attach_children_probs l s nodes) as H. destruct (attach_children nodes s l) as [nodes' [[]|e]]; cbn in *; [exact H|].
  now rewrite delete_children_probs.
Qed.
Lemma prob_of_probs nodes i p : prob_of nodes i = Ok p <-> nth_error (probs nodes) i = Some (Some p).
Proof.
  unfold prob_of, probs. rewrite nth_error_map. destruct (nth_error nodes i) as [n|]; cbn; [|intuition discriminate].
  destruct (tn_prob n); split; intros H; congruence.
Qed.
Definition in_range (p : num) : Prop := p = NaN \/ exists q, p = Fin q /\ (0 <= q)%Qc /\ (q <= 1)%Qc.
Lemma accepted_range p : nltb p n0 || nltb n1 p = false -> in_range p.
Proof.
  intros H. apply orb_false_iff in H. destruct H as [H1 H2]. destruct p as [q| | |]; [|discriminate|discriminate|now left].
  right. exists q. split; [reflexivity|]. unfold nltb, n0, n1 in *. cbn in H1, H2. split.
  - destruct (Qcleb q 0) eqn:E.
    + cbn in H1. apply negb_false_iff in H1. apply Qceqb_eq in H1. subst q. apply Qcle_refl.
    + apply Qcleb_gt in E. now apply Qclt_le_weak.
  - destruct (Qcleb 1 q) eqn:E.
    + cbn in H2. apply negb_false_iff in H2. apply Qceqb_eq in H2. subst q. apply Qcle_refl.
    + apply Qcleb_gt in E. now apply Qclt_le_weak.
Qed.
Lemma nmul_n1 p : in_range p -> nmul p n1 = p.
Proof. intros [->|[q [-> _]]]; cbn; [reflexivity|]. f_equal. apply Qcmult_1_r. Qed.
Lemma in_range_mul p q : in_range p -> in_range q -> in_range (nmul p q).
Proof.
  intros [->|[a [-> [A0 A1]]]] [->|[b [-> [B0 B1]]]]; cbn; try (left; reflexivity). right. exists (a * b)%Qc. split; [reflexivity|]. split.
  - rewrite <- (Qcmult_0_l b). apply Qcmult_le_compat_r; assumption.
  - apply Qcle_trans with (1 * b)%Qc; [apply Qcmult_le_compat_r; assumption|]. now rewrite Qcmult_1_l.
Qed.

(** the state after one call: one more node, with a probability or without *)
Lemma new_node_probs c f : exists o, probs (f_nodes (fst (new_node c f))) = probs (f_nodes f) ++ [o] /\
  forall p, o = Some p -> in_range (nc_prob c) /\
    match nc_parent c with
    | None => p = nc_prob c
    | Some j => exists q, nth_error (probs (f_nodes f)) j = Some (Some q) /\ p = nmul (nc_prob c) q
    end.
Proof.
  unfold new_node. set (fresh := {| tn_id := nc_id c; tn_config := nc_config c; tn_network := nc_network c; tn_prob := None;
    tn_parent := None; tn_children := []; tn_coupling_network := _; tn_coupling_info := _ |}).
  assert (F : probs (f_nodes f ++ [fresh]) = probs (f_nodes f) ++ [None]) by (unfold probs; now rewrite map_app).
  destruct (set_parent (f_nodes f ++ [fresh]) (List.length (f_nodes f)) (nc_parent c)) as [nodes1|e] eqn:E1; cbn [fst f_nodes].
  2:{ exists None. split; [exact F|discriminate]. }
  apply set_parent_probs in E1. rewrite F in E1.
  destruct (nltb (nc_prob c) n0 || nltb n1 (nc_prob c)) eqn:R; cbn [fst f_nodes].
  1:{ exists None. split; [exact E1|discriminate]. }
  apply accepted_range in R.
  destruct (path_probability nodes1 (nc_prob c) (nc_parent c)) as [p|e] eqn:P; cbn [fst f_nodes].
  2:{ exists None. split; [exact E1|discriminate]. }
  exists (Some p). split.
  - assert (U : probs (update (List.length (f_nodes f)) (set_prob p) nodes1) = probs (f_nodes f) ++ [Some p]).
    { assert (L : List.length nodes1 = S (List.length (f_nodes f))).
      { apply (f_equal (@List.length _)) in E1. unfold probs in E1. rewrite app_length, !map_length in E1. cbn in E1. lia. }
      apply nth_error_ext'. intros j. unfold probs. rewrite nth_error_map, nth_update.
      assert (N : nth_error (probs nodes1) j = nth_error (probs (f_nodes f) ++ [None]) j) by now rewrite E1.
      unfold probs in N. rewrite nth_error_map in N. destruct (Nat.eqb_spec (List.length (f_nodes f)) j) as [<-|Nj].
      - assert (X : exists n, nth_error nodes1 (List.length (f_nodes f)) = Some n).
        { destruct (nth_error nodes1 (List.length (f_nodes f))) eqn:X; [eauto|]. apply nth_error_None in X. lia. }
        destruct X as [n ->]. cbn. rewrite nth_error_app2 by (rewrite map_length; lia). now rewrite map_length, Nat.sub_diag.
      - rewrite N. destruct (Nat.lt_ge_cases j (List.length (f_nodes f))).
        + now rewrite !nth_error_app1 by (rewrite map_length; lia).
        + rewrite !nth_error_app2 by (rewrite map_length; lia). rewrite map_length.
          destruct (j - List.length (f_nodes f))%nat eqn:D; [lia|]. cbn. now destruct n. }
    destruct (nc_children c) as [|ch chs]; [exact U|].
    pose proof (set_children_probs (update (List.length (f_nodes f)) (set_prob p) nodes1) (List.length (f_nodes f)) (ch :: chs)) as S.
    destruct (set_children _ _ _) as [nodes2 [[]|e]]; cbn [fst f_nodes] in *; congruence.
  - intros p' [= <-]. split; [exact R|]. unfold path_probability in P. destruct (nc_parent c) as [j|].
    + destruct (prob_of nodes1 j) as [a|] eqn:Ea; cbn in P; [|discriminate]. injection P as <-. exists a. split; [|reflexivity]. apply prob_of_probs in Ea. rewrite E1 in Ea.
      destruct (Nat.lt_ge_cases j (List.length (f_nodes f))).
      * now rewrite nth_error_app1 in Ea by (unfold probs; rewrite map_length; lia).
      * rewrite nth_error_app2 in Ea by (unfold probs; rewrite map_length; lia). unfold probs in Ea. rewrite map_length in Ea.
        destruct (j - List.length (f_nodes f))%nat as [|[|n]]; cbn in Ea; discriminate.
    + injection P as <-. now apply nmul_n1.
Qed.
Lemma created_snoc calls c : created (calls ++ [c]) = fst (new_node c (created calls)).
Proof. unfold created. now rewrite fold_left_app. Qed.
Lemma created_length calls : List.length (f_nodes (created calls)) = List.length calls.
Proof.
  induction calls as [|c calls IH] using rev_ind; [reflexivity|]. rewrite created_snoc, app_length.
  destruct (new_node_probs c (created calls)) as [o [H _]]. apply (f_equal (@List.length _)) in H. unfold probs in H.
  rewrite app_length, !map_length in H. cbn in *. lia.
Qed.
Lemma path_product_app calls c i p : path_product calls i p -> path_product (calls ++ [c]) i p.
Proof.
  assert (N : forall j x, nth_error calls j = Some x -> nth_error (calls ++ [c]) j = Some x).
  { intros j x H. rewrite nth_error_app1; [exact H|]. apply nth_error_Some. congruence. }
  induction 1; [now apply pp_root; auto|]. eapply pp_child; eauto.
Qed.
Lemma created_probs calls : forall i p, prob_of (f_nodes (created calls)) i = Ok p -> path_product calls i p /\ in_range p.
Proof.
  induction calls as [|c calls IH] using rev_ind; intros i p H; [destruct i; discriminate|].
  apply prob_of_probs in H. rewrite created_snoc in H. destruct (new_node_probs c (created calls)) as [o [E Ho]]. rewrite E in H.
  assert (L : List.length (probs (f_nodes (created calls))) = List.length calls) by (unfold probs; rewrite map_length; apply created_length).
  destruct (Nat.lt_ge_cases i (List.length calls)) as [Hi|Hi].
  - rewrite nth_error_app1 in H by (rewrite L; exact Hi). apply prob_of_probs in H. apply IH in H. destruct H. split; [now apply path_product_app|assumption].
  - rewrite nth_error_app2 in H by (rewrite L; exact Hi). rewrite L in H. destruct (i - List.length calls)%nat as [|n] eqn:D; [|destruct n; discriminate].
    assert (i = List.length calls) by lia. subst i. cbn in H. injection H as ->. destruct (Ho p eq_refl) as [R Hp].
    assert (N : nth_error (calls ++ [c]) (List.length calls) = Some c) by (rewrite nth_error_app2, Nat.sub_diag; auto).
    destruct (nc_parent c) as [j|] eqn:P.
    + destruct Hp as [q [Hq ->]]. apply prob_of_probs in Hq. apply IH in Hq. destruct Hq as [Q1 Q2].
      split; [eapply pp_child; eauto using path_product_app|now apply in_range_mul].
    + subst p. split; [now apply pp_root|exact R].
Qed.

(** ** the check *)
Definition loss : Qc := (1 - Q2Qc (1 # 1000000000))%Qc.
Lemma finite_sum ps : forall a s, fold_left nadd ps (Fin a) = Fin s -> exists qs, ps = map Fin qs /\ s = (a + qsum qs)%Qc.
Proof.
  induction ps as [|p ps IH]; intros a s H; cbn in H.
  - injection H as <-. exists []. split; [reflexivity|]. cbn. now rewrite Qcplus_0_r.
  - assert (X : forall b, (b = PInf \/ b = NInf \/ b = NaN) -> forall l s, fold_left nadd l b <> Fin s).
    { intros b Hb l. revert b Hb. induction l as [|x l IHl]; intros b Hb s' Hs; cbn in Hs; [destruct Hb as [->|[->| ->]]; discriminate|].
      apply (IHl (nadd b x)) in Hs; [exact Hs|]. destruct Hb as [->|[->| ->]], x; cbn; auto. }
    destruct p as [q| | |]; cbn in H; try (exfalso; revert H; apply X; solve [auto]).
    apply IH in H. destruct H as [qs [-> ->]]. exists (q :: qs). split; [reflexivity|]. change (qsum (q :: qs)) with (q + qsum qs)%Qc. ring.
Qed.
Lemma qc_pow_nonneg e n : (0 <= e)%Qc -> (0 <= e ^ n)%Qc.
Proof.
  intros H. induction n as [|n IH]; cbn; [discriminate|]. rewrite <- (Qcmult_0_l (e ^ n)%Qc). now apply Qcmult_le_compat_r.
Qed.
Lemma qc_pow_antitone e m n : (0 <= e)%Qc -> (e <= 1)%Qc -> (m <= n)%nat -> (e ^ n <= e ^ m)%Qc.
Proof.
  intros H0 H1. induction 1 as [|n Hle IH]; [apply Qcle_refl|]. cbn. apply Qcle_trans with (1 * e ^ n)%Qc.
  - apply Qcmult_le_compat_r; [exact H1|now apply qc_pow_nonneg].
  - now rewrite Qcmult_1_l.
Qed.
Lemma qcmult_le_l a b c : (0 <= c)%Qc -> (a <= b)%Qc -> (c * a <= c * b)%Qc.
Proof. intros. rewrite !(Qcmult_comm c). now apply Qcmult_le_compat_r. Qed.
Definition within (t : dtree) : Prop :=
  (0 <= root_prob t)%Qc /\ (0 <= leaf_sum t)%Qc /\
  (loss ^ height t * root_prob t <= leaf_sum t)%Qc /\ (loss ^ height t * leaf_sum t <= root_prob t)%Qc.
Lemma loss_range : (0 <= loss)%Qc /\ (loss <= 1)%Qc.
Proof. split; discriminate. Qed.
Definition top (ts : list dtree) : nat := fold_right (fun u h => Nat.max (S (height u)) h) O ts.
Lemma sums_within ts H : (forall t, In t ts -> within t /\ (height t <= H)%nat) ->
  (0 <= qsum (map root_prob ts))%Qc /\ (0 <= qsum (map leaf_sum ts))%Qc /\
  (loss ^ H * qsum (map root_prob ts) <= qsum (map leaf_sum ts))%Qc /\
  (loss ^ H * qsum (map leaf_sum ts) <= qsum (map root_prob ts))%Qc.
Proof.
  destruct loss_range as [L0 L1].
  induction ts as [|t ts IH]; intros W; cbn.
  - rewrite !Qcmult_0_r. repeat split; apply Qcle_refl.
  - destruct IH as (A1 & A2 & A3 & A4); [intros; apply W; now right|]. destruct (W t (or_introl Logic.eq_refl)) as [(B1 & B2 & B3 & B4) B5].
    pose proof (qc_pow_antitone loss _ _ L0 L1 B5) as PA.
    assert (Z : (0 = 0 + 0)%Qc) by ring. rewrite !Qcmult_plus_distr_r. split; [|split; [|split]].
    + rewrite Z at 1. now apply Qcplus_le_compat.
    + rewrite Z at 1. now apply Qcplus_le_compat.
    + apply Qcplus_le_compat; [|exact A3]. apply Qcle_trans with (loss ^ height t * root_prob t)%Qc; [|exact B3]. now apply Qcmult_le_compat_r.
    + apply Qcplus_le_compat; [|exact A4]. apply Qcle_trans with (loss ^ height t * leaf_sum t)%Qc; [|exact B4]. now apply Qcmult_le_compat_r.
Qed.
Lemma close_within p s : (0 <= p)%Qc -> (0 <= s)%Qc -> isclose default_rel_tol n0 (Fin p) (Fin s) = Ok true ->
  (loss * p <= s)%Qc /\ (loss * s <= p)%Qc.
Proof.
  intros Hp Hs H. destruct loss_range as [L0 L1]. apply isclose_near in H; [|discriminate|apply Qcle_refl].
  assert (M : forall x, (0 <= x)%Qc -> (loss * x <= x)%Qc).
  { intros x Hx. rewrite <- (Qcmult_1_l x) at 2. now apply Qcmult_le_compat_r. }
  destruct H as [[E _]|(a & b & [= <-] & [= <-] & H)]; [injection E as ->; auto|].
  assert (N : forall a b : Qc, (Qcabs (a - b) <= 0 -> a = b)%Qc).
  { intros a b X. assert (Y : Qcabs (a - b) = 0%Qc) by (apply Qcle_antisym; [exact X|apply Qcabs_nonneg]).
    apply Qcabs_eq_0 in Y. rewrite <- (Qcplus_0_r b), <- Y. ring. }
  assert (K : forall x y, (0 <= x)%Qc -> (0 <= y)%Qc -> (Qcabs (x - y) <= Q2Qc (1 # 1000000000) * x)%Qc -> (loss * x <= y)%Qc /\ (loss * y <= x)%Qc).
  { intros x y Hx Hy X. apply Qcabs_le in X. destruct X as [X1 X2]. unfold loss. split.
    - apply Qcle_minus_iff in X2. apply Qcle_minus_iff. 
      replace (y + - ((1 - Q2Qc (1 # 1000000000)) * x))%Qc with (Q2Qc (1 # 1000000000) * x + - (x - y))%Qc by ring. exact X2.
    - apply Qcle_minus_iff in X1. apply Qcle_minus_iff.
      set (e := Q2Qc (1 # 1000000000)) in *.
      replace (x + - ((1 - e) * y))%Qc with ((1 - e) * (x - y + - (- (e * x))) + e * e * x)%Qc by ring.
      rewrite <- (Qcplus_0_r 0) at 1. apply Qcplus_le_compat.
      + rewrite <- (Qcmult_0_r (1 - e)). apply qcmult_le_l; [discriminate|exact X1].
      + rewrite <- (Qcmult_0_r (e * e)). apply qcmult_le_l; [discriminate|exact Hx]. }
  destruct H as [H|[H|H]].
  - apply N in H. subst s. auto.
  - rewrite (Qcabs_of_nonneg _ Hp) in H. now apply K.
  - rewrite (Qcabs_of_nonneg _ Hs) in H. rewrite Qcabs_sub_sym in H. destruct (K s p Hs Hp H). auto.
Qed.

Lemma tree_at_eq nodes i p ts : tree_at nodes (DTree i p ts) <->
  (exists n, nth_error nodes i = Some n /\ tn_prob n = Some (Fin p) /\ tn_children n = map root_node ts) /\ Forall (tree_at nodes) ts.
Proof.
  cbn. split; intros [H1 H2]; (split; [exact H1|]); clear H1.
  - induction ts as [|t ts IH]; constructor; [apply H2|apply IH, H2].
  - induction ts as [|t ts IH]; [exact I|]. inversion_clear H2. split; [assumption|now apply IH].
Qed.
Lemma leaf_sum_cons i p t ts : leaf_sum (DTree i p (t :: ts)) = qsum (map leaf_sum (t :: ts)).
Proof. reflexivity. Qed.
Lemma height_top t ts : In t ts -> (S (height t) <= top ts)%nat.
Proof.
  induction ts as [|u ts IH]; [easy|]. change (top (u :: ts)) with (Nat.max (S (height u)) (top ts)).
  intros [->|H]; [lia|]. apply IH in H. lia.
Qed.
Lemma leaves_S fuel nodes i : leaves_prob_sum_one (S fuel) nodes i =
      match nth_error nodes i with
      | None => Err KeyError
      | Some n =>
          match tn_children n with
          | [] => Ok true
          | _ :: _ =>
              p <- prob_of nodes i ;;
              ps <- mapM (prob_of nodes) (tn_children n) ;;
              close <- isclose default_rel_tol n0 p (fold_left nadd ps n0) ;;
              if close : bool then all_true (leaves_prob_sum_one fuel nodes) (tn_children n) else Ok false
          end
      end.
Proof. cbn. destruct (nth_error nodes i) as [n|]; [|reflexivity]. now destruct (tn_children n). Qed.
Lemma leaves_tree fuel nodes : (forall i p, prob_of nodes i = Ok p -> in_range p) ->
  forall i q, leaves_prob_sum_one fuel nodes i = Ok true -> prob_of nodes i = Ok (Fin q) ->
  exists t, tree_at nodes t /\ root_node t = i /\ root_prob t = q /\ within t.
Proof.
  intros R. induction fuel as [|fuel IH]; intros i q H P; [discriminate|]. rewrite leaves_S in H.
  destruct (nth_error nodes i) as [n|] eqn:N; [|discriminate].
  assert (Pn : tn_prob n = Some (Fin q)).
  { unfold prob_of in P. rewrite N in P. destruct (tn_prob n); congruence. }
  assert (Q0 : (0 <= q)%Qc) by (apply R in P; destruct P as [?|[x [[= <-] [? ?]]]]; [discriminate|assumption]).
  destruct (tn_children n) as [|c0 cs0] eqn:C.
  - exists (DTree i q []). split; [apply tree_at_eq; split; [exists n; auto|constructor]|]. split; [reflexivity|]. split; [reflexivity|].
    unfold within. cbn. rewrite !Qcmult_1_l. repeat split; auto using Qcle_refl.
  - remember (c0 :: cs0) as cs. rewrite P in H. cbn [bind] in H. inv_bind H. inv_bind H.
    destruct v0; [|discriminate].
    assert (X : exists s, fold_left nadd v n0 = Fin s).
    { destruct (fold_left nadd v n0); try (eexists; reflexivity); exfalso; revert H1; unfold isclose; cbn; discriminate. }
    destruct X as [s X]. rewrite X in H1. apply finite_sum in X. destruct X as [qs [-> ->]]. rewrite Qcplus_0_l in H1.
    apply mapM_ok in H0.
    assert (T : exists ts, Forall (tree_at nodes) ts /\ map root_node ts = cs /\ map root_prob ts = qs /\ (forall t, In t ts -> within t)).
    { clear - H H0 IH. revert qs H0. induction cs as [|c cs IHc]; intros qs F.
      - inversion F. destruct qs; [|discriminate]. exists []. split; [constructor|]. split; [reflexivity|]. split; [reflexivity|intros t []].
      - destruct qs as [|x qs]; inversion F; subst. cbn in H. inv_bind H. destruct v; [|discriminate].
        destruct (IH c x H0 ltac:(assumption)) as (t & T1 & T2 & T3 & T4). destruct (IHc H qs ltac:(assumption)) as (ts & S1 & S2 & S3 & S4).
        exists (t :: ts). cbn [map]. rewrite T2, T3, S2, S3. split; [now constructor|]. split; [reflexivity|]. split; [reflexivity|].
        intros u [<-|U]; auto. }
    destruct T as (ts & T1 & T2 & T3 & T4). exists (DTree i q ts).
    split; [apply tree_at_eq; split; [exists n; rewrite T2; auto|exact T1]|]. split; [reflexivity|]. split; [reflexivity|].
    assert (NE : ts <> []) by (intros ->; cbn in T2; subst cs; discriminate).
    destruct ts as [|t0 ts0]; [congruence|]. unfold within. rewrite leaf_sum_cons. set (ts := t0 :: ts0) in *.
    change (height (DTree i q ts)) with (top ts). change (root_prob (DTree i q ts)) with q.
    assert (TP : exists h, top ts = S h) by (unfold ts; cbn; destruct (fold_right _ _ _); eauto).
    destruct TP as [h TP].
    destruct (sums_within ts h) as (A1 & A2 & A3 & A4).
    { intros t Ht. split; [now apply T4|]. apply height_top in Ht. lia. }
    rewrite T3 in *. destruct (close_within q (qsum qs) Q0 A1 H1) as [B1 B2]. rewrite TP. cbn [Qcpower].
    destruct loss_range as [L0 L1]. pose proof (qc_pow_nonneg loss h L0) as LH.
    repeat split; auto.
    + apply Qcle_trans with (loss ^ h * qsum qs)%Qc; [|exact A3]. rewrite <- Qcmult_assoc, Qcmult_comm, <- Qcmult_assoc, (Qcmult_comm q), Qcmult_comm.
      rewrite (Qcmult_comm (loss ^ h)%Qc). now apply Qcmult_le_compat_r.
    + rewrite <- Qcmult_assoc. apply Qcle_trans with (loss * qsum qs)%Qc; [now apply qcmult_le_l|exact B2].
Qed.

(** ** trees built from the root downwards *)
Definition parents (calls : list node_call) (j : nat) : option nat :=
  match nth_error calls j with Some c => nc_parent c | None => None end.
Definition kids (calls : list node_call) (i : nat) : list nat :=
  filter (fun j => match parents calls j with Some p => Nat.eqb p i | None => false end) (seq 0 (List.length calls)).
Lemma path_reverse_below fuel nodes : (forall i p, parent_of nodes i = Some p -> (p < i)%nat) ->
  forall i j, In j (path_reverse fuel nodes i) -> (j <= i)%nat.
Proof.
  intros H. induction fuel as [|fuel IH]; intros i j; cbn; [easy|]. intros [->|Hj]; [lia|].
  destruct (parent_of nodes i) as [p|] eqn:E; [|easy]. apply H in E. apply IH in Hj. lia.
Qed.
Lemma parents_app calls c j : parents (calls ++ [c]) j = if Nat.eqb j (List.length calls) then nc_parent c else parents calls j.
Proof.
  unfold parents. destruct (Nat.eqb_spec j (List.length calls)) as [->|N].
  - now rewrite nth_error_app2, Nat.sub_diag.
  - destruct (Nat.lt_ge_cases j (List.length calls)); [now rewrite nth_error_app1|].
    rewrite nth_error_app2 by lia. replace (nth_error calls j) with (@None node_call) by (symmetry; apply nth_error_None; lia).
    destruct (j - List.length calls)%nat eqn:D; [lia|]. now destruct n.
Qed.
Lemma kids_app calls c i : kids (calls ++ [c]) i =
  kids calls i ++ (match nc_parent c with Some p => if Nat.eqb p i then [List.length calls] else [] | None => [] end).
Proof.
  unfold kids. rewrite app_length. cbn [List.length]. rewrite Nat.add_1_r, seq_S, filter_app. cbn [Nat.add filter]. f_equal.
  - apply filter_ext_in. intros j Hj. apply in_seq in Hj. rewrite parents_app.
    destruct (Nat.eqb_spec j (List.length calls)); [lia|reflexivity].
  - rewrite parents_app, Nat.eqb_refl. destruct (nc_parent c) as [p|]; [|reflexivity]. now destruct (Nat.eqb p i).
Qed.
Lemma kids_In calls i j : In j (kids calls i) <-> child calls i j.
Proof.
  unfold kids, child, parents. rewrite filter_In, in_seq. split.
  - intros [_ H]. destruct (nth_error calls j) as [c|]; [|discriminate]. destruct (nc_parent c) as [p|] eqn:P; [|discriminate].
    apply Nat.eqb_eq in H. subst p. eauto.
  - intros (c & H & P). rewrite H, P. rewrite Nat.eqb_refl. split; [|reflexivity].
    assert (j < List.length calls)%nat by (apply nth_error_Some; congruence). lia.
Qed.
Lemma kids_nodup calls i : NoDup (kids calls i).
Proof. apply NoDup_filter, seq_NoDup. Qed.

Definition shaped (calls : list node_call) (nodes : list tree_node) : Prop :=
  List.length nodes = List.length calls /\
  forall i n, nth_error nodes i = Some n ->
    exists c, nth_error calls i = Some c /\ tn_id n = nc_id c /\ tn_config n = nc_config c /\ tn_network n = nc_network c /\
      tn_parent n = nc_parent c /\ tn_children n = kids calls i /\
      tn_coupling_network n = (match nc_coupling_network c with Some i => i | None => O end) /\
      tn_coupling_info n = (match nc_coupling_info c with Some i => i | None => O end).
Lemma kids_none calls c : top_down (calls ++ [c]) -> kids (calls ++ [c]) (List.length calls) = [].
Proof.
  intros T. destruct (kids (calls ++ [c]) (List.length calls)) as [|j l] eqn:E; [reflexivity|]. exfalso.
  assert (J : In j (kids (calls ++ [c]) (List.length calls))) by (rewrite E; now left).
  apply kids_In in J. destruct J as (d & Hd & P). destruct (T j d Hd) as [_ T2]. apply T2 in P.
  assert (j < List.length (calls ++ [c]))%nat by (apply nth_error_Some; congruence). rewrite app_length in *. cbn in *. lia.
Qed.
Lemma top_down_app calls c : top_down (calls ++ [c]) -> top_down calls.
Proof. intros T i d H. apply T. rewrite nth_error_app1; [exact H|]. apply nth_error_Some. congruence. Qed.
Lemma shaped_new calls c f : top_down (calls ++ [c]) -> shaped calls (f_nodes f) ->
  exists nodes1, set_parent (f_nodes f ++ [{| tn_id := nc_id c; tn_config := nc_config c; tn_network := nc_network c; tn_prob := None;
                                tn_parent := None; tn_children := [];
                                tn_coupling_network := match nc_coupling_network c with Some i => i | None => O end;
                                tn_coupling_info := match nc_coupling_info c with Some i => i | None => O end |}])
     (List.length (f_nodes f)) (nc_parent c) = Ok nodes1 /\ shaped (calls ++ [c]) nodes1.
Proof.
  intros T [L Sh]. set (fresh := {| tn_id := nc_id c; tn_config := _; tn_network := _; tn_prob := None; tn_parent := None;
    tn_children := []; tn_coupling_network := _; tn_coupling_info := _ |}).
  assert (Tc : nc_children c = [] /\ forall p, nc_parent c = Some p -> (p < List.length calls)%nat).
  { apply T. now rewrite nth_error_app2, Nat.sub_diag. }
  destruct Tc as [_ Tp].
  assert (PN : forall i p, parent_of (f_nodes f ++ [fresh]) i = Some p -> (p < i)%nat).
  { intros i p. unfold parent_of. destruct (Nat.lt_ge_cases i (List.length (f_nodes f))) as [Hi|Hi].
    - rewrite nth_error_app1 by exact Hi. destruct (nth_error (f_nodes f) i) as [n|] eqn:N; [|discriminate].
      destruct (Sh i n N) as (d & D1 & _ & _ & _ & D2 & _). rewrite D2. apply (top_down_app _ _ T i d D1).
    - rewrite nth_error_app2 by exact Hi. destruct (i - List.length (f_nodes f))%nat as [|[|x]]; discriminate. }
  assert (PF : parent_of (f_nodes f ++ [fresh]) (List.length (f_nodes f)) = None).
  { unfold parent_of. now rewrite nth_error_app2, Nat.sub_diag. }
  unfold set_parent. rewrite PF. destruct (nc_parent c) as [p|] eqn:P; cbn [same_parent].
  - specialize (Tp p Logic.eq_refl).
    assert (LOOP : existsb (Nat.eqb (List.length (f_nodes f))) (path_reverse (S (List.length (f_nodes f ++ [fresh]))) (f_nodes f ++ [fresh]) p) = false).
    { destruct (existsb _ _) eqn:E; [|reflexivity]. apply existsb_exists in E. destruct E as [x [X1 X2]]. apply Nat.eqb_eq in X2. subst x.
      apply (path_reverse_below _ _ PN) in X1. lia. }
    rewrite LOOP. eexists. split; [reflexivity|]. split; [rewrite !update_length, !app_length, L; reflexivity|].
    intros i n. rewrite !nth_update. rewrite kids_app, P. rewrite L. destruct (Nat.eqb_spec (List.length calls) i) as [<-|Ni].
    + destruct (Nat.eqb_spec p (List.length calls)) as [Ep|_]; [lia|]. rewrite <- L, nth_error_app2, Nat.sub_diag by lia. cbn.
      intros [= <-]. exists c. rewrite L, nth_error_app2, Nat.sub_diag by lia. cbn. rewrite P, app_nil_r. repeat split; auto.
      pose proof (kids_none calls c T) as K. rewrite kids_app, P in K. destruct (Nat.eqb_spec p (List.length calls)); [lia|].
      rewrite app_nil_r in K. now rewrite K.
    + destruct (Nat.lt_ge_cases i (List.length calls)) as [Hi|Hi].
      * rewrite nth_error_app1 by lia. rewrite (nth_error_app1 calls) by lia. destruct (nth_error (f_nodes f) i) as [n0|] eqn:N.
        -- destruct (Sh i n0 N) as (d & D1 & D2 & D3 & D4 & D5 & D6 & D7 & D8). destruct (Nat.eqb p i); cbn; intros [= <-]; exists d; cbn;
           rewrite ?D6, ?app_nil_r; repeat split; auto.
        -- destruct (Nat.eqb p i); discriminate.
      * rewrite nth_error_app2 by lia. destruct (i - List.length (f_nodes f))%nat as [|x] eqn:D; [lia|].
        destruct (Nat.eqb p i), x; discriminate.
  - eexists. split; [reflexivity|]. split; [rewrite !app_length, L; reflexivity|].
    intros i n. rewrite kids_app, P, app_nil_r. destruct (Nat.lt_ge_cases i (List.length calls)) as [Hi|Hi].
    + rewrite nth_error_app1 by lia. intros N. rewrite (nth_error_app1 calls) by lia. now apply Sh.
    + rewrite nth_error_app2 by lia. destruct (i - List.length (f_nodes f))%nat as [|x] eqn:D; [|destruct x; discriminate].
      assert (i = List.length calls) by lia. subst i. intros [= <-]. exists c. rewrite nth_error_app2, Nat.sub_diag by lia. cbn.
      rewrite P. repeat split; auto. pose proof (kids_none calls c T) as K. rewrite kids_app, P, app_nil_r in K. now rewrite K.
Qed.
Lemma shaped_update calls nodes i g : (forall n, tn_id (g n) = tn_id n /\ tn_config (g n) = tn_config n /\ tn_network (g n) = tn_network n /\
     tn_parent (g n) = tn_parent n /\ tn_children (g n) = tn_children n /\ tn_coupling_network (g n) = tn_coupling_network n /\
     tn_coupling_info (g n) = tn_coupling_info n) ->
  shaped calls nodes -> shaped calls (update i g nodes).
Proof.
  intros G [L H]. split; [now rewrite update_length|]. intros j n. rewrite nth_update. destruct (Nat.eqb i j).
  - destruct (nth_error nodes j) as [m|] eqn:M; [|discriminate]. cbn. intros [= <-]. destruct (H j m M) as (c & C1 & C2 & C3 & C4 & C5 & C6 & C7 & C8).
    destruct (G m) as (G1 & G2 & G3 & G4 & G5 & G6 & G7). exists c. rewrite G1, G2, G3, G4, G5, G6, G7. repeat split; auto.
  - apply H.
Qed.
Lemma created_shaped calls : top_down calls -> shaped calls (f_nodes (created calls)).
Proof.
  induction calls as [|c calls IH] using rev_ind; intros T.
  - split; [reflexivity|]. intros [|i] n; discriminate.
  - specialize (IH (top_down_app _ _ T)). destruct (shaped_new calls c (created calls) T IH) as (nodes1 & E & Sh).
    assert (Tc : nc_children c = []) by (apply (T (List.length calls) c); now rewrite nth_error_app2, Nat.sub_diag).
    rewrite created_snoc. unfold new_node. rewrite E, Tc. destruct (_ || _); [exact Sh|].
    destruct (path_probability _ _ _); [|exact Sh]. cbn [fst f_nodes]. apply shaped_update; [|exact Sh]. intros n. cbn. repeat split.
Qed.

(** ** probabilities of trees built from the root downwards *)
Lemma prob_of_old calls c i p : prob_of (f_nodes (created calls)) i = Ok p -> prob_of (f_nodes (created (calls ++ [c]))) i = Ok p.
Proof.
  rewrite !prob_of_probs, created_snoc. intros H. destruct (new_node_probs c (created calls)) as [o [-> _]].
  rewrite nth_error_app1; [exact H|]. apply nth_error_Some. congruence.
Qed.
Lemma new_node_accepted calls c : top_down (calls ++ [c]) -> nltb (nc_prob c) n0 || nltb n1 (nc_prob c) = false ->
  (forall j, nc_parent c = Some j -> exists q, prob_of (f_nodes (created calls)) j = Ok q) ->
  snd (new_node c (created calls)) = Ok (List.length calls) /\
  exists p, prob_of (f_nodes (created (calls ++ [c]))) (List.length calls) = Ok p.
Proof.
  intros T R HP. rewrite created_snoc.
  pose proof (created_shaped calls (top_down_app _ _ T)) as Sh. destruct (shaped_new calls c (created calls) T Sh) as (nodes1 & E & Sh1).
  assert (Tc : nc_children c = []) by (apply (T (List.length calls) c); now rewrite nth_error_app2, Nat.sub_diag).
  pose proof E as E'. apply set_parent_probs in E'.
  unfold new_node. rewrite E, R, Tc, created_length.
  assert (PP : exists p, path_probability nodes1 (nc_prob c) (nc_parent c) = Ok p).
  { unfold path_probability. destruct (nc_parent c) as [j|]; [|eauto]. destruct (HP j Logic.eq_refl) as [q Hq].
    assert (X : prob_of nodes1 j = Ok q).
    { apply prob_of_probs. rewrite E'. unfold probs. rewrite map_app, nth_error_app1.
      - now apply prob_of_probs in Hq.
      - apply prob_of_probs in Hq. apply nth_error_Some. unfold probs in Hq. congruence. }
    rewrite X. eexists; reflexivity. }
  destruct PP as [p ->]. split; [reflexivity|]. exists p. cbn [fst f_nodes]. unfold prob_of. rewrite nth_update, Nat.eqb_refl.
  destruct (nth_error nodes1 (List.length calls)) eqn:X; [reflexivity|]. apply nth_error_None in X. destruct Sh1 as [L1 _].
  rewrite L1, app_length in X. cbn in X. lia.
Qed.
Lemma in_range_accepted q : (0 <= q)%Qc -> (q <= 1)%Qc -> nltb (Fin q) n0 || nltb n1 (Fin q) = false.
Proof.
  intros H0 H1. unfold nltb, n0, n1. cbn. apply orb_false_iff. split.
  - destruct (Qcleb q 0) eqn:E; [|reflexivity]. cbn. apply Qcleb_le in E. apply negb_false_iff, Qceqb_eq. now apply Qcle_antisym.
  - destruct (Qcleb 1 q) eqn:E; [|reflexivity]. cbn. apply Qcleb_le in E. apply negb_false_iff, Qceqb_eq. now apply Qcle_antisym.
Qed.
Lemma created_valid calls given : top_down calls -> valid_probabilities calls given ->
  forall i, (i < List.length calls)%nat -> exists p, prob_of (f_nodes (created calls)) i = Ok p.
Proof.
  induction calls as [|c calls IH] using rev_ind; intros T V i Hi; [inversion Hi|].
  assert (T' := top_down_app _ _ T).
  assert (V' : valid_probabilities calls given).
  { intros j d H. apply V. rewrite nth_error_app1; [exact H|]. apply nth_error_Some. congruence. }
  specialize (IH T' V'). rewrite app_length in Hi. cbn in Hi.
  assert (N : nth_error (calls ++ [c]) (List.length calls) = Some c) by now rewrite nth_error_app2, Nat.sub_diag.
  destruct (Nat.eq_dec i (List.length calls)) as [->|Ni].
  - apply new_node_accepted; [exact T| |].
    + destruct (V _ _ N) as (-> & V0 & V1). now apply in_range_accepted.
    + intros j Hj. apply IH. now apply (T _ _ N).
  - destruct (IH i ltac:(lia)) as [p P]. exists p. now apply prob_of_old.
Qed.
Lemma path_product_functional calls i p : path_product calls i p -> forall p', path_product calls i p' -> p = p'.
Proof.
  induction 1 as [i c H1 H2|i c j q H1 H2 H3 IH]; intros p' H'; destruct H' as [i' c' H1' H2'|i' c' j' q' H1' H2' H3'].
  - congruence.
  - congruence.
  - congruence.
  - assert (c' = c) by congruence. subst c'. assert (j' = j) by congruence. subst j'. f_equal. now apply IH.
Qed.
Lemma path_product_finite calls given i p : valid_probabilities calls given -> path_product calls i p ->
  exists q, p = Fin q /\ (0 <= q)%Qc.
Proof.
  intros V. induction 1 as [i c H1 H2|i c j q H1 H2 H3 [x [-> Hx]]].
  - destruct (V i c H1) as (-> & A & B). eauto.
  - destruct (V i c H1) as (-> & A & B). cbn. eexists. split; [reflexivity|].
    rewrite <- (Qcmult_0_l x). now apply Qcmult_le_compat_r.
Qed.

(** ** what the check says *)
Definition qprob (nodes : list tree_node) (i : nat) : Qc := match prob_of nodes i with Ok (Fin q) => q | _ => 0%Qc end.
Lemma fold_nadd_fin qs : forall a, fold_left nadd (map Fin qs) (Fin a) = Fin (a + qsum qs).
Proof.
  induction qs as [|q qs IH]; intros a; cbn [map fold_left].
  - f_equal. cbn. now rewrite Qcplus_0_r.
  - cbn [nadd]. rewrite IH. f_equal. change (qsum (q :: qs)) with (q + qsum qs)%Qc. ring.
Qed.
Lemma fold_nadd_fin0 qs : fold_left nadd (map Fin qs) n0 = Fin (qsum qs).
Proof. unfold n0. rewrite fold_nadd_fin. f_equal. apply Qcplus_0_l. Qed.
Definition near9 := near_number (Q2Qc (1 # 1000000000)) 0.
Lemma isclose_total p q : exists b, isclose default_rel_tol n0 (Fin p) (Fin q) = Ok b.
Proof. unfold isclose, default_rel_tol. destruct (nltb _ _ || nltb _ _) eqn:E; [vm_compute in E; discriminate|]. destruct (neqb _ _); eauto. destruct (nisinf _ || nisinf _); eauto. Qed.
Lemma isclose_near9 p q : isclose default_rel_tol n0 (Fin p) (Fin q) = Ok true <-> near9 (Fin p) (Fin q).
Proof. apply isclose_near; [discriminate|apply Qcle_refl]. Qed.
Lemma all_true_spec {A} (f : A -> result bool) l (P : A -> Prop) :
  (forall a, In a l -> exists b, f a = Ok b /\ (b = true <-> P a)) -> exists b, all_true f l = Ok b /\ (b = true <-> forall a, In a l -> P a).
Proof.
  induction l as [|a l IH]; intros H.
  - exists true. split; [reflexivity|]. split; [intros _ x []|reflexivity].
  - destruct (H a (or_introl Logic.eq_refl)) as [b [Hb Hp]]. destruct IH as [b' [Hb' Hp']]; [intros; apply H; now right|].
    cbn [all_true]. rewrite Hb. cbn [bind]. destruct b.
    + exists b'. split; [exact Hb'|]. rewrite Hp'. split.
      * intros X x [<-|Hx]; [now apply Hp|now apply X].
      * intros X x Hx. apply X. now right.
    + exists false. split; [reflexivity|]. split; [discriminate|]. intros X. apply Hp. apply X. now left.
Qed.
Lemma levels_first calls i k j : levels_below calls i (S k) j <-> exists m, child calls i m /\ levels_below calls m k j.
Proof.
  split.
  - intros H. remember (S k) as K eqn:EK. revert k EK. induction H as [|k0 j c p H IH H1 H2]; intros k EK; [discriminate|]. injection EK as ->.
    destruct k as [|k].
    + inversion H; subst. exists j. split; [exists c; auto|constructor].
    + destruct (IH k Logic.eq_refl) as (m & M1 & M2). exists m. split; [exact M1|]. econstructor; eauto.
  - intros (m & (c & C1 & C2) & H). induction H as [|k j d p H IH H1 H2].
    + econstructor; [constructor|exact C1|exact C2].
    + econstructor; eauto.
Qed.
Lemma leaves_exact calls nodes (P : nat -> Qc) : top_down calls -> shaped calls nodes ->
  (forall i, (i < List.length calls)%nat -> prob_of nodes i = Ok (Fin (P i))) ->
  forall fuel i, (i < List.length calls)%nat -> (List.length calls - i < fuel)%nat ->
  exists b, leaves_prob_sum_one fuel nodes i = Ok b /\
    (b = true <-> forall k j, levels_below calls i k j -> kids calls j <> [] -> near9 (Fin (P j)) (Fin (qsum (map P (kids calls j))))).
Proof.
  intros T [L Sh] HP. induction fuel as [|fuel IH]; intros i Hi Hf; [lia|]. rewrite leaves_S.
  destruct (nth_error nodes i) as [n|] eqn:N; [|apply nth_error_None in N; lia].
  destruct (Sh i n N) as (c & C & _ & _ & _ & _ & K & _). rewrite K.
  assert (KI : forall m, In m (kids calls i) -> (i < m < List.length calls)%nat).
  { intros m Hm. apply kids_In in Hm. destruct Hm as (d & D1 & D2). split; [now apply (T m d D1)|]. apply nth_error_Some. congruence. }
  destruct (kids calls i) as [|m0 ms] eqn:EK.
  - exists true. split; [reflexivity|]. split; [|reflexivity]. intros _ k j H NE. exfalso. destruct k as [|k].
    + inversion H; subst. congruence.
    + apply levels_first in H. destruct H as (m & M & _). apply kids_In in M. rewrite EK in M. exact M.
  - rewrite <- EK in *. rewrite (HP i Hi). cbn [bind].
    assert (E : mapM (prob_of nodes) (kids calls i) = Ok (map Fin (map P (kids calls i)))).
    { apply mapM_ok. clear - KI HP. induction (kids calls i) as [|m l IHl]; cbn; constructor.
      - apply HP. apply KI. now left.
      - apply IHl. intros; apply KI; now right. }
    rewrite E. cbn [bind]. rewrite fold_nadd_fin0. destruct (isclose_total (P i) (qsum (map P (kids calls i)))) as [b Hb].
    rewrite Hb. cbn [bind]. destruct b.
    + apply isclose_near9 in Hb.
      destruct (all_true_spec (leaves_prob_sum_one fuel nodes) (kids calls i) (fun m => forall k j, levels_below calls m k j -> kids calls j <> [] -> near9 (Fin (P j)) (Fin (qsum (map P (kids calls j)))))) as [b [B1 B2]].
      { intros m Hm. apply KI in Hm. apply IH; lia. }
      exists b. split; [exact B1|]. rewrite B2. split.
      * intros X k j H NE. destruct k as [|k]; [inversion H; subst; exact Hb|].
        apply levels_first in H. destruct H as (m & M & H). apply kids_In in M. exact (X m M k j H NE).
      * intros X m Hm k j H NE. apply (X (S k) j); [|exact NE]. apply levels_first. exists m. split; [now apply kids_In|exact H].
    + exists false. split; [reflexivity|]. split; [discriminate|]. intros X. exfalso.
      assert (Y : near9 (Fin (P i)) (Fin (qsum (map P (kids calls i))))) by (apply (X O); [constructor|congruence]).
      apply isclose_near9 in Y. congruence.
Qed.
Lemma near_scaled p s : (0 <= p)%Qc -> near9 (Fin p) (Fin (s * p)) <-> p = 0%Qc \/ near9 n1 (Fin s).
Proof.
  intros Hp. unfold near9, near_number.
  assert (AB : Qcabs (p - s * p) = (p * Qcabs (1 - s))%Qc).
  { replace (p - s * p)%Qc with (p * (1 - s))%Qc by ring. now apply Qcabs_scale. }
  assert (AS : Qcabs (s * p) = (p * Qcabs s)%Qc) by (rewrite Qcmult_comm; now apply Qcabs_scale).
  assert (AP : Qcabs p = (p * Qcabs 1)%Qc) by (rewrite !Qcabs_of_nonneg by (assumption || discriminate); ring).
  assert (REG : forall x y, p <> 0%Qc -> (p * x <= p * y)%Qc -> (x <= y)%Qc).
  { intros x y N H. apply Qcmult_lt_0_le_reg_r with p; [|rewrite !(Qcmult_comm _ p); exact H].
    destruct (Qcle_lt_or_eq _ _ Hp) as [X|X]; [exact X|congruence]. }
  split.
  - intros H. destruct (Qc_eq_dec p 0) as [->|N]; [now left|]. right.
    destruct H as [[E _]|(a & b & [= <-] & [= <-] & H)].
    + left. injection E as E. split; [|discriminate].
      assert (X : ((s - 1) * p = 0)%Qc) by (replace ((s - 1) * p)%Qc with (s * p - p)%Qc by ring; rewrite <- E; ring).
      apply Qcmult_integral in X. destruct X as [X|X]; [|congruence].
      assert (S1 : s = 1%Qc) by (transitivity (s - 1 + 1)%Qc; [ring|]; rewrite X; ring). now rewrite S1.
    + right. exists 1%Qc, s. split; [reflexivity|]. split; [reflexivity|]. rewrite AB, AS, AP in H. destruct H as [H|[H|H]].
      * left. apply REG; [exact N|]. now rewrite Qcmult_0_r.
      * right; left. apply REG; [exact N|]. replace (p * (Q2Qc (1 # 1000000000) * Qcabs 1))%Qc with (Q2Qc (1 # 1000000000) * (p * Qcabs 1))%Qc by ring. exact H.
      * right; right. apply REG; [exact N|]. replace (p * (Q2Qc (1 # 1000000000) * Qcabs s))%Qc with (Q2Qc (1 # 1000000000) * (p * Qcabs s))%Qc by ring. exact H.
  - intros [->|H].
    + left. rewrite Qcmult_0_r. split; [reflexivity|discriminate].
    + destruct H as [[E _]|(a & b & E1 & [= <-] & H)].
      * injection E as <-. left. rewrite Qcmult_1_l. split; [reflexivity|discriminate].
      * injection E1 as <-. right. exists p, (s * p)%Qc. split; [reflexivity|]. split; [reflexivity|]. rewrite AB, AS, AP. destruct H as [H|[H|H]].
        -- left. rewrite <- (Qcmult_0_r p). now apply qcmult_le_l.
        -- right; left. replace (Q2Qc (1 # 1000000000) * (p * Qcabs 1))%Qc with (p * (Q2Qc (1 # 1000000000) * Qcabs 1))%Qc by ring. now apply qcmult_le_l.
        -- right; right. replace (Q2Qc (1 # 1000000000) * (p * Qcabs s))%Qc with (p * (Q2Qc (1 # 1000000000) * Qcabs s))%Qc by ring. now apply qcmult_le_l.
Qed.
Lemma qsum_perm l l' : Permutation l l' -> qsum l = qsum l'.
Proof.
  induction 1 as [|x l l' H IH|x y l|]; try congruence.
  - change (x + qsum l = x + qsum l')%Qc. now rewrite IH.
  - change (y + (x + qsum l) = x + (y + qsum l))%Qc. ring.
Qed.
Lemma lists_children_kids calls i cs : lists_children calls i cs -> Permutation cs (kids calls i).
Proof. intros [N H]. apply NoDup_Permutation; [exact N|apply kids_nodup|]. intros j. rewrite H. symmetry. apply kids_In. Qed.
Lemma levels_in calls i k j : (i < List.length calls)%nat -> levels_below calls i k j -> (j < List.length calls)%nat.
Proof. intros H. destruct 1; [exact H|]. apply nth_error_Some. congruence. Qed.
Lemma check_exact calls given i : top_down calls -> valid_probabilities calls given -> (i < List.length calls)%nat ->
  exists b, is_leaves_prob_sum_one (created calls) i = Ok b /\
  (b = true <-> forall k j cs, levels_below calls i k j -> lists_children calls j cs -> cs <> [] ->
     path_product calls j n0 \/ near_number (Q2Qc (1 # 1000000000)) 0 n1 (Fin (qsum (map given cs)))).
Proof.
  intros T V Hi. set (nodes := f_nodes (created calls)).
  assert (HP : forall j, (j < List.length calls)%nat -> prob_of nodes j = Ok (Fin (qprob nodes j)) /\ path_product calls j (Fin (qprob nodes j)) /\ (0 <= qprob nodes j)%Qc).
  { intros j Hj. destruct (created_valid calls given T V j Hj) as [p Hp]. destruct (created_probs calls j p Hp) as [PP _].
    destruct (path_product_finite calls given j p V PP) as (q & -> & Hq). unfold qprob, nodes. rewrite Hp. auto. }
  destruct (leaves_exact calls nodes (qprob nodes) T (created_shaped calls T) (fun j Hj => proj1 (HP j Hj)) (S (List.length nodes)) i Hi) as [b [B1 B2]].
  { unfold nodes. rewrite created_length. lia. }
  exists b. split; [exact B1|]. rewrite B2. clear B1 B2.
  assert (SC : forall j, (j < List.length calls)%nat -> qsum (map (qprob nodes) (kids calls j)) = (qsum (map given (kids calls j)) * qprob nodes j)%Qc).
  { intros j Hj. assert (F : forall m, In m (kids calls j) -> qprob nodes m = (given m * qprob nodes j)%Qc).
    { intros m Hm. apply kids_In in Hm. destruct Hm as (d & D1 & D2).
      assert (Hm : (m < List.length calls)%nat) by (apply nth_error_Some; congruence).
      destruct (HP m Hm) as (_ & PM & _). destruct (HP j Hj) as (_ & PJ & _). destruct (V m d D1) as (VM & _).
      pose proof (pp_child calls m d j _ D1 D2 PJ) as PM'. rewrite VM in PM'.
      pose proof (path_product_functional _ _ _ PM _ PM') as X. injection X as X. exact X. }
    clear - F. induction (kids calls j) as [|m l IH]; [cbn; now rewrite Qcmult_0_l|].
    cbn [map]. change (qprob nodes m + qsum (map (qprob nodes) l) = (given m + qsum (map given l)) * qprob nodes j)%Qc.
    rewrite IH, F by (intros; (now left) || (apply F; now right)). ring. }
  split.
  - intros X k j cs H LC NE. assert (Hj := levels_in _ _ _ _ Hi H). pose proof (lists_children_kids _ _ _ LC) as PM.
    assert (NK : kids calls j <> []) by (intros K; rewrite K in PM; apply Permutation_sym, Permutation_nil in PM; congruence).
    specialize (X k j H NK). rewrite SC in X by exact Hj. destruct (HP j Hj) as (_ & PJ & P0). apply near_scaled in X; [|exact P0].
    destruct X as [X|X]; [left; rewrite X in PJ; exact PJ|]. right. rewrite (qsum_perm _ _ (Permutation_map given PM)). exact X.
  - intros X k j H NK. assert (Hj := levels_in _ _ _ _ Hi H). rewrite SC by exact Hj. destruct (HP j Hj) as (_ & PJ & P0).
    apply near_scaled; [exact P0|]. destruct (X k j (kids calls j) H) as [Z|Z]; auto.
    + split; [apply kids_nodup|intros; apply kids_In].
    + left. pose proof (path_product_functional _ _ _ Z _ PJ) as Y. injection Y as Y. now symmetry.
Qed.

(** ** traversal *)
Lemma children_of_kids calls nodes i : top_down calls -> shaped calls nodes -> children_of nodes i = kids calls i.
Proof.
  intros T [L H]. unfold children_of. destruct (nth_error nodes i) as [n|] eqn:N.
  - destruct (H i n N) as (c & _ & _ & _ & _ & _ & K & _). exact K.
  - apply nth_error_None in N. destruct (kids calls i) as [|j l] eqn:E; [reflexivity|]. exfalso.
    assert (J : In j (kids calls i)) by (rewrite E; now left). apply kids_In in J. destruct J as (c & C & P).
    pose proof (proj2 (T j c C) i P). assert (j < List.length calls)%nat by (apply nth_error_Some; congruence). lia.
Qed.
Fixpoint levels (calls : list node_call) (k : nat) (level : list nat) : list (list nat) :=
  match k with O => [] | S k => level :: levels calls k (flat_map (kids calls) level) end.
Lemma levels_nil calls k : concat (levels calls k []) = [].
Proof. induction k as [|k IH]; cbn; auto. Qed.
Lemma level_order_levels calls nodes : top_down calls -> shaped calls nodes ->
  forall fuel level, level_order fuel nodes level = concat (levels calls fuel level).
Proof.
  intros T Sh. induction fuel as [|fuel IH]; intros level; cbn [level_order levels concat]; [reflexivity|].
  assert (E : flat_map (children_of nodes) level = flat_map (kids calls) level).
  { clear - T Sh. induction level as [|i l IH]; cbn; [reflexivity|]. now rewrite IH, (children_of_kids calls). }
  rewrite <- E, <- IH. destruct level; [|reflexivity]. cbn. clear E IH. now destruct fuel.
Qed.
Lemma levels_below_le calls i k j : top_down calls -> levels_below calls i k j -> (i + k <= j)%nat.
Proof. intros T. induction 1 as [|k j c p H IH H1 H2]; [lia|]. apply (T j c H1) in H2. lia. Qed.
Lemma levels_below_unique calls i : top_down calls -> forall k j, levels_below calls i k j -> forall k', levels_below calls i k' j -> k = k'.
Proof.
  intros T. induction 1 as [|k j c p H IH H1 H2]; intros k' H'.
  - apply levels_below_le in H'; [lia|exact T].
  - destruct H' as [|k' j c' p' H' H1' H2'].
    + apply levels_below_le in H; [|exact T]. apply (T _ _ H1) in H2. lia.
    + f_equal. apply IH. assert (p = p') by congruence. now subst p'.
Qed.
Definition is_level (calls : list node_call) (i k : nat) (level : list nat) : Prop :=
  NoDup level /\ forall j, In j level <-> levels_below calls i k j.
Lemma NoDup_flat_map {A B} (f : A -> list B) l : NoDup l -> (forall a, In a l -> NoDup (f a)) ->
  (forall a a' b, In b (f a) -> In b (f a') -> a = a') -> NoDup (flat_map f l).
Proof.
  intros H D U. induction H as [|a l N H IH]; cbn; [constructor|].
  assert (X : NoDup (flat_map f l)) by (apply IH; intros; apply D; now right).
  assert (Y : NoDup (f a)) by (apply D; now left). revert Y. assert (Z : forall b, In b (f a) -> ~ In b (flat_map f l)).
  { intros b Hb Hc. apply in_flat_map in Hc. destruct Hc as (a' & A1 & A2). assert (a = a') by eauto. subst a'. contradiction. }
  clear D U N H IH. induction (f a) as [|b m IHm]; intros Y; cbn; [exact X|]. inversion_clear Y. constructor.
  - rewrite in_app_iff. intros [C|C]; [contradiction|]. apply (Z b); [now left|exact C].
  - apply IHm; [|assumption]. intros; apply Z; now right.
Qed.
Lemma next_level calls i k level : is_level calls i k level -> is_level calls i (S k) (flat_map (kids calls) level).
Proof.
  intros [N H]. split.
  - apply NoDup_flat_map; [exact N|intros; apply kids_nodup|]. intros a a' b Ha Ha'. apply kids_In in Ha, Ha'.
    destruct Ha as (c & C1 & C2), Ha' as (c' & C1' & C2'). congruence.
  - intros j. rewrite in_flat_map. split.
    + intros (p & P1 & P2). apply H in P1. apply kids_In in P2. destruct P2 as (c & C1 & C2). econstructor; eauto.
    + intros X. inversion X as [|k' j' c p X1 X2 X3]; subst. exists p. split; [now apply H|]. apply kids_In. exists c. auto.
Qed.
Lemma levels_are calls i : forall n k level, is_level calls i k level ->
  List.length (levels calls n level) = n /\ forall m l, nth_error (levels calls n level) m = Some l -> is_level calls i (k + m)%nat l.
Proof.
  induction n as [|n IH]; intros k level H; cbn [levels List.length].
  - split; [reflexivity|]. intros [|m] l; discriminate.
  - destruct (IH (S k) _ (next_level calls i k level H)) as [I1 I2]. split; [now rewrite I1|].
    intros [|m] l; cbn [nth_error]; [intros [= <-]; now rewrite Nat.add_0_r|]. intros X. apply I2 in X.
    replace (k + S m)%nat with (S k + m)%nat by lia. exact X.
Qed.
Lemma first_level calls i : is_level calls i O [i].
Proof.
  split; [repeat constructor; easy|]. intros j. cbn. split.
  - intros [<-|[]]. constructor.
  - intros H. inversion H. now left.
Qed.
Lemma traverse_levels calls i depth : top_down calls ->
  exists ls, traverse (created calls) i depth = concat ls /\ List.length ls = (match depth with Some d => d | None => List.length calls end) /\ forall k l, nth_error ls k = Some l -> NoDup l /\ forall j, In j l <-> levels_below calls i k j.
Proof.
  intros T. unfold traverse. rewrite (level_order_levels calls) by auto using created_shaped. rewrite created_length.
  eexists. split; [reflexivity|]. destruct (levels_are calls i (match depth with Some d => d | None => List.length calls end) O [i] (first_level calls i)) as [L1 L2].
  split; [exact L1|]. intros k l H. exact (L2 k l H).
Qed.
Lemma NoDup_concat {A} (ls : list (list A)) : (forall l, In l ls -> NoDup l) ->
  (forall k k' l l' a, nth_error ls k = Some l -> nth_error ls k' = Some l' -> In a l -> In a l' -> k = k') -> NoDup (concat ls).
Proof.
  induction ls as [|l ls IH]; intros D U; cbn; [constructor|].
  assert (X : NoDup (concat ls)).
  { apply IH; [intros; apply D; now right|]. intros k k' m m' a H H' I1 I2. assert (S k = S k') by (eapply U; cbn; eassumption). lia. }
  assert (Y : NoDup l) by (apply D; now left).
  assert (Z : forall b, In b l -> ~ In b (concat ls)).
  { intros b Hb Hc. apply in_concat in Hc. destruct Hc as (m & M1 & M2). apply In_nth_error in M1. destruct M1 as [k M1].
    assert (O = S k) by (eapply (U O (S k) l m b); cbn; auto). discriminate. }
  clear D U IH. induction l as [|b m IHm]; cbn; [exact X|]. inversion_clear Y. constructor.
  - rewrite in_app_iff. intros [C|C]; [contradiction|]. apply (Z b); [now left|exact C].
  - apply IHm; [assumption|]. intros; apply Z; now right.
Qed.
Lemma traverse_nodup calls i depth : top_down calls -> NoDup (traverse (created calls) i depth).
Proof.
  intros T. destruct (traverse_levels calls i depth T) as (ls & -> & _ & H). apply NoDup_concat.
  - intros l Hl. apply In_nth_error in Hl. destruct Hl as [k Hk]. now apply H in Hk.
  - intros k k' l l' a H1 H2 I1 I2. apply (H k l H1) in I1. apply (H k' l' H2) in I2. eapply levels_below_unique; eauto.
Qed.
Lemma traverse_In calls i depth j : top_down calls -> (i < List.length calls)%nat ->
  In j (traverse (created calls) i depth) <-> exists k, levels_below calls i k j /\ forall d, depth = Some d -> (k < d)%nat.
Proof.
  intros T Hi. destruct (traverse_levels calls i depth T) as (ls & -> & L & H). rewrite in_concat. split.
  - intros (l & I1 & I2). apply In_nth_error in I1. destruct I1 as [k Hk]. exists k. split; [now apply (H k l Hk)|].
    intros d ->. rewrite <- L. apply nth_error_Some. congruence.
  - intros (k & K1 & K2). assert (K : (k < List.length ls)%nat).
    { rewrite L. destruct depth as [d|]; [now apply K2|]. pose proof (levels_below_le _ _ _ _ T K1). pose proof (levels_in _ _ _ _ Hi K1). lia. }
    apply nth_error_Some in K. destruct (nth_error ls k) as [l|] eqn:E; [|congruence]. exists l. split; [eapply nth_error_In; eauto|]. now apply (H k l E).
Qed.
(** exact conditional probabilities *)
Lemma exact_tree calls given i : top_down calls -> valid_probabilities calls given -> (i < List.length calls)%nat ->
  (forall k j cs, levels_below calls i k j -> lists_children calls j cs -> cs <> [] -> qsum (map given cs) = 1%Qc) ->
  exists t, tree_at (f_nodes (created calls)) t /\ root_node t = i /\ leaf_sum t = root_prob t.
Proof.
  intros T V. set (nodes := f_nodes (created calls)).
  assert (HP : forall j, (j < List.length calls)%nat -> prob_of nodes j = Ok (Fin (qprob nodes j)) /\ path_product calls j (Fin (qprob nodes j))).
  { intros j Hj. destruct (created_valid calls given T V j Hj) as [p Hp]. destruct (created_probs calls j p Hp) as [PP _].
    destruct (path_product_finite calls given j p V PP) as (q & -> & Hq). unfold qprob, nodes. rewrite Hp. auto. }
  assert (Sh : shaped calls nodes) by now apply created_shaped.
  enough (G : forall fuel i, (i < List.length calls)%nat -> (List.length calls - i < fuel)%nat ->
    (forall k j cs, levels_below calls i k j -> lists_children calls j cs -> cs <> [] -> qsum (map given cs) = 1%Qc) ->
    exists t, tree_at nodes t /\ root_node t = i /\ root_prob t = qprob nodes i /\ leaf_sum t = root_prob t).
  { intros Hi H. destruct (G (S (List.length calls - i)) i Hi ltac:(lia) H) as (t & T1 & T2 & _ & T3). eauto. }
  clear i. induction fuel as [|fuel IH]; intros i Hi Hf H; [lia|].
  destruct (HP i Hi) as [P1 P2].
  assert (N : exists n, nth_error nodes i = Some n /\ tn_prob n = Some (Fin (qprob nodes i)) /\ tn_children n = kids calls i).
  { unfold prob_of in P1. destruct (nth_error nodes i) as [n|] eqn:N; [|discriminate]. destruct Sh as [_ Sh].
    destruct (Sh i n N) as (c & C & _ & _ & _ & _ & K & _). exists n. split; [reflexivity|]. split; [|exact K].
    destruct (tn_prob n); [|discriminate]. injection P1 as P1. now rewrite <- P1. }
  destruct N as (n & N1 & N2 & N3).
  assert (KI : forall m, In m (kids calls i) -> (i < m < List.length calls)%nat /\ qprob nodes m = (given m * qprob nodes i)%Qc).
  { intros m Hm. apply kids_In in Hm. destruct Hm as (d & D1 & D2).
    assert (Hm : (m < List.length calls)%nat) by (apply nth_error_Some; congruence).
    split; [split; [now apply (T m d D1)|exact Hm]|].
    destruct (HP m Hm) as (_ & PM). destruct (V m d D1) as (VM & _).
    pose proof (pp_child calls m d i _ D1 D2 P2) as PM'. rewrite VM in PM'.
    pose proof (path_product_functional _ _ _ PM _ PM') as X. injection X as X. exact X. }
  assert (TS : exists ts, Forall (tree_at nodes) ts /\ map root_node ts = kids calls i /\
     qsum (map leaf_sum ts) = (qsum (map given (kids calls i)) * qprob nodes i)%Qc).
  { assert (SUB : forall m, In m (kids calls i) -> In m (kids calls i)) by auto. revert SUB. generalize (kids calls i) at 1 3 4.
    intros l. induction l as [|m l IHl]; intros SUB.
    - exists []. split; [constructor|]. split; [reflexivity|]. cbn. now rewrite Qcmult_0_l.
    - destruct IHl as (ts & S1 & S2 & S3); [intros; apply SUB; now right|].
      destruct (KI m (SUB m (or_introl Logic.eq_refl))) as [M1 M2].
      destruct (IH m (proj2 M1) ltac:(lia)) as (t & T1 & T2 & T3 & T4).
      { intros k j cs Hk. apply (H (S k) j cs). apply levels_first. exists m. split; [|exact Hk]. apply kids_In. apply SUB. now left. }
      exists (t :: ts). split; [now constructor|]. split; [cbn; now rewrite T2, S2|].
      cbn [map]. change (leaf_sum t + qsum (map leaf_sum ts) = (given m + qsum (map given l)) * qprob nodes i)%Qc.
      rewrite S3, T4, T3, M2. ring. }
  destruct TS as (ts & S1 & S2 & S3). exists (DTree i (qprob nodes i) ts).
  split; [apply tree_at_eq; split; [exists n; rewrite S2; auto|exact S1]|]. split; [reflexivity|]. split; [reflexivity|].
  destruct ts as [|t0 ts0]; [reflexivity|]. rewrite leaf_sum_cons. cbn [root_prob]. rewrite S3.
  rewrite (H O i (kids calls i)); [apply Qcmult_1_l|constructor|split; [apply kids_nodup|intros; apply kids_In]|].
  rewrite <- S2. discriminate.
Qed.
Lemma leaves_sum calls i q : is_leaves_prob_sum_one (created calls) i = Ok true -> prob_of (f_nodes (created calls)) i = Ok (Fin q) ->
  exists t, tree_at (f_nodes (created calls)) t /\ root_node t = i /\ root_prob t = q /\
    ((1 - Q2Qc (1 # 1000000000)) ^ height t * q <= leaf_sum t)%Qc /\ ((1 - Q2Qc (1 # 1000000000)) ^ height t * leaf_sum t <= q)%Qc.
Proof.
  intros H P. destruct (leaves_tree _ _ (fun j p Hp => proj2 (created_probs calls j p Hp)) i q H P) as (t & T1 & T2 & T3 & (_ & _ & W1 & W2)).
  exists t. rewrite T3 in *. auto.
Qed.
Lemma refused calls c : top_down (calls ++ [c]) -> (exists q, nc_prob c = Fin q /\ (q < 0 \/ 1 < q)%Qc) \/ nc_prob c = PInf \/ nc_prob c = NInf ->
  snd (new_node c (created calls)) = Err ValueError.
Proof.
  intros T R. pose proof (created_shaped calls (top_down_app _ _ T)) as Sh. destruct (shaped_new calls c (created calls) T Sh) as (nodes1 & E & _).
  unfold new_node. rewrite E. replace (nltb (nc_prob c) n0 || nltb n1 (nc_prob c)) with true; [reflexivity|]. symmetry.
  assert (X : forall a b, (a < b)%Qc -> nltb (Fin a) (Fin b) = true).
  { intros a b H. unfold nltb. cbn. apply andb_true_iff. split; [apply Qcleb_le; now apply Qclt_le_weak|].
    apply negb_true_iff. destruct (Qceqb a b) eqn:E'; [|reflexivity]. apply Qceqb_eq in E'. subst b. now apply Qclt_not_eq in H. }
  destruct R as [[q [-> [R|R]]]|[->| ->]]; apply orb_true_iff.
  - left. now apply X.
  - right. now apply X.
  - right. reflexivity.
  - left. reflexivity.
Qed.
