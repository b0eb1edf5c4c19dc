(** Facts on the columns of decomposed problems (C70). *)
From Coq Require Import Lia Permutation.
From Verif Require Import Base BaseFacts Expr Visitors LinearExpr Model Study Strategy Optim Tree Fusion Benders
  SpecExpr SpecModel SpecOptim SpecFusion SpecBenders SpecDecompose
  OptimFacts BuiltFacts FusionFacts DecompositionFacts StructureFacts DecomposeTree.

(** ** Columns and names *)
Lemma coefs_ranged s y x d : sound_coefs s d -> same_values x s y -> coefs_value x d = coefs_value (by_name s y) d.
Proof.
  intros [_ H] E. unfold coefs_value. f_equal. apply map_ext_in. intros [i c] Hi. cbn [fst snd]. unfold by_name.
  specialize (H i c Hi). destruct (nth_error (s_vars s) i) as [v|] eqn:Ev; [now rewrite (E i v Ev)|]. apply nth_error_None in Ev. lia.
Qed.
Lemma columns_names s x y : sound_solver s -> same_values x s y -> columns_feasible x s <-> feasible y s.
Proof.
  intros (_ & R & _) E. unfold columns_feasible, feasible. split; intros [H1 H2]; split.
  - intros v Hv. apply In_nth_error in Hv as (i & Hi). rewrite <- (E i v Hi). exact (H1 i v Hi).
  - intros r Hr. destruct (H2 r Hr) as (v & K & B). exists v. split; [|exact B]. rewrite <- K. symmetry. apply coefs_ranged; auto.
  - intros i v Hi. rewrite (E i v Hi). apply H1. eapply nth_error_In; eauto.
  - intros r Hr. destruct (H2 r Hr) as (v & K & B). exists v. split; [|exact B]. rewrite <- K. apply coefs_ranged; auto.
Qed.
Fixpoint position (n : string) (l : list string) : option nat :=
  match l with [] => None | m :: l => if String.eqb n m then Some 0%nat else option_map S (position n l) end.
Lemma position_at n l i : NoDup l -> nth_error l i = Some n -> position n l = Some i.
Proof.
  intros N. revert i. induction N as [|m l Hm N IH]; intros i H; [now destruct i|]. cbn [position]. destruct i as [|i]; cbn in H.
  - injection H as ->. now rewrite String.eqb_refl.
  - destruct (String.eqb_spec n m) as [->|_]; [exfalso; apply Hm; eapply nth_error_In; eauto|]. now rewrite (IH i H).
Qed.
Lemma position_some n l i : position n l = Some i -> nth_error l i = Some n.
Proof.
  revert i. induction l as [|m l IH]; intros i; [discriminate|]. cbn [position]. destruct (String.eqb_spec n m) as [->|_].
  - intros [= <-]. reflexivity.
  - destruct (position n l) as [j|]; [|discriminate]. intros [= <-]. cbn. now apply IH.
Qed.
Lemma position_in n l : In n l -> exists i, position n l = Some i.
Proof.
  induction l as [|m l IH]; intros H; [destruct H|]. cbn [position]. destruct (String.eqb_spec n m) as [->|K]; [eauto|].
  destruct H as [<-|H]; [congruence|]. destruct (IH H) as (i & ->). cbn. eauto.
Qed.
Lemma columns_in p n i : In (n, i) (columns p) <-> nth_error (variable_names p) i = Some n.
Proof.
  unfold columns. generalize (variable_names p) as l. intros l.
  assert (G : forall k, In (n, i) (combine l (seq k (List.length l))) <-> (k <= i)%nat /\ nth_error l (i - k) = Some n).
  { induction l as [|m l IH]; intros k; cbn [List.length seq combine]; [cbn; split; [intros []|intros [_ K]; destruct (i - k)%nat; discriminate K]|]. split.
    - intros [[= -> ->]|H]; [rewrite Nat.sub_diag; auto|]. apply IH in H as [H1 H2]. split; [lia|]. replace (i - k)%nat with (S (i - S k)) by lia. exact H2.
    - intros [H1 H2]. destruct (Nat.eq_dec i k) as [->|Hne]; [rewrite Nat.sub_diag in H2; cbn in H2; injection H2 as ->; now left|].
      right. apply IH. split; [lia|]. replace (i - k)%nat with (S (i - S k)) in H2 by lia. exact H2. }
  rewrite G, Nat.sub_0_r. split; [intros [_ K]; exact K|intros K; split; [lia|exact K]].
Qed.
Lemma names_nth p i v : nth_error (s_vars (solver_of p)) i = Some v -> nth_error (variable_names p) i = Some (sv_name v).
Proof. intros H. unfold variable_names. now apply map_nth_error. Qed.
Lemma nth_names p i n : nth_error (variable_names p) i = Some n -> exists v, nth_error (s_vars (solver_of p)) i = Some v /\ sv_name v = n.
Proof.
  unfold variable_names. intros H. rewrite nth_error_map in H. destruct (nth_error (s_vars (solver_of p)) i) as [v|]; [|discriminate]. injection H as <-. eauto.
Qed.

(** ** The problems are sound *)
Lemma several_sound evs root db order f' b n : nth_error (f_nodes (history evs)) root = Some n ->
  some_order (history evs) root order -> build_benders (history evs) root db order = (f', Ok b) ->
  (1 < List.length (traverse (history evs) root None))%nat -> apart_tree (history evs) (traverse (history evs) root None) ->
  sound_solver (solver_of (bd_master b)).
Proof.
  intros Hn Ho H L A. destruct (built_parts _ _ _ _ _ _ Ho H) as (n' & st & parts & Hn' & _ & C & F & Fu & _).
  rewrite Hn in Hn'. injection Hn' as <-. pose proof (tree_mergeable _ _ _ _ _ _ _ A L F C) as M. exact (proj2 (merged_sound _ _ _ M Fu)).
Qed.
Lemma subs_sound evs root db order f' b : some_order (history evs) root order -> build_benders (history evs) root db order = (f', Ok b) ->
  apart_tree (history evs) (traverse (history evs) root None) -> (forall s, In s (bd_subproblems b) -> NoDup (variable_names s)) ->
  forall s, In s (bd_subproblems b) -> sound_solver (solver_of s).
Proof.
  intros Ho H [_ A] Nd s Hs. destruct (subproblems_meaning _ _ _ _ _ _ Ho H) as (sss & Es & F). pose proof (Nd s Hs) as Nv. rewrite Es in Hs.
  apply in_concat in Hs as (ss & Hss & Hs). destruct (Forall2_right _ _ _ _ F Hss) as (i & Hi & k & p & Hk & _ & F2).
  destruct (Forall2_right _ _ _ _ F2 Hs) as (blk & _ & Hb & _). destruct (A i k Hi Hk) as ((D & _) & Hnm & _).
  refine (built_sound (operation_settings k p db (snd blk)) _ D Hnm _ Hb).
  destruct (built_variables (operation_settings k p db (snd blk)) _ D Hnm Hb) as (ports & _ & _ & _ & HF).
  assert (E : variable_names s = map (inst_name (operation_settings k p db (snd blk))) (var_insts (operation_settings k p db (snd blk)))).
  { unfold variable_names, solver_of. clear -HF. induction HF as [|a b l m Hab HF IH]; [reflexivity|]. cbn [map]. f_equal; [|exact IH]. eapply made_name; eauto. }
  rewrite <- E. exact Nv.
Qed.

(** ** Linked values and linked columns *)
Lemma shared_in b p x c : In (p, (x, c)) (shared b) <->
  (p = "master"%string /\ nth_error (variable_names (bd_master b)) c = Some x) \/
  exists s, In s (bd_subproblems b) /\ p = pb_name s /\ nth_error (variable_names s) c = Some x /\ In x (variable_names (bd_master b)).
Proof.
  unfold shared. rewrite in_app_iff, in_map_iff, in_flat_map. split.
  - intros [((m & i) & [= <- -> ->] & K)|(s & Hs & K)].
    + left. now rewrite columns_in in K.
    + right. apply in_map_iff in K as ((m & i) & [= <- -> ->] & K). apply filter_In in K as [K1 K2]. cbn [fst] in K2.
      apply existsb_exists in K2 as (x' & K2 & K3). apply String.eqb_eq in K3. subst x'. exists s. rewrite columns_in in K1. auto.
  - intros [[-> K]|(s & Hs & -> & K & Hx)].
    + left. exists (x, c). split; [reflexivity|]. now apply columns_in.
    + right. exists s. split; [exact Hs|]. apply in_map_iff. exists (x, c). split; [reflexivity|]. apply filter_In. split; [now apply columns_in|].
      apply existsb_exists. exists x. cbn. split; [exact Hx|apply String.eqb_refl].
Qed.
Definition master_values (b : benders) (x : string -> nat -> Qc) (n : string) : Qc :=
  match position n (variable_names (bd_master b)) with Some i => x "master"%string i | None => 0%Qc end.
Definition sub_values (b : benders) (x : string -> nat -> Qc) (s : problem) (n : string) : Qc :=
  match position n (variable_names s) with Some i => x (pb_name s) i | None => master_values b x n end.
Lemma linked_columns b x : NoDup ("master"%string :: map pb_name (bd_subproblems b)) -> NoDup (variable_names (bd_master b)) ->
  (forall s, In s (bd_subproblems b) -> NoDup (variable_names s)) ->
  (forall p n c c', In (p, (n, c)) (shared b) -> In ("master"%string, (n, c')) (shared b) -> x p c = x "master"%string c') <->
  exists y zs, linked b y zs /\ same_values (x "master"%string) (solver_of (bd_master b)) y /\
    Forall2 (fun z s => same_values (x (pb_name s)) (solver_of s) z) zs (bd_subproblems b).
Proof.
  intros Np Nm Ns. split.
  - intros H. exists (master_values b x), (map (sub_values b x) (bd_subproblems b)). split; [|split].
    + intros z n Hz Hn. apply in_map_iff in Hz as (s & <- & Hs). unfold sub_values. destruct (position n (variable_names s)) as [i|] eqn:Ei; [|reflexivity].
      apply position_some in Ei. destruct (position_in n _ Hn) as (j & Ej). unfold master_values. rewrite Ej. apply position_some in Ej.
      apply (H (pb_name s) n); apply shared_in; [right; exists s; auto|left; auto].
    + intros i v Hi. unfold master_values. now rewrite (position_at (sv_name v) _ i Nm (names_nth _ _ _ Hi)).
    + assert (G : forall l, incl l (bd_subproblems b) -> Forall2 (fun z s => same_values (x (pb_name s)) (solver_of s) z) (map (sub_values b x) l) l).
      { induction l as [|s l IH]; intros Hl; constructor; [|apply IH; intros a Ha; apply Hl; now right].
        intros i v Hi. unfold sub_values. now rewrite (position_at (sv_name v) _ i (Ns s (Hl s (or_introl eq_refl))) (names_nth _ _ _ Hi)). }
      apply G, incl_refl.
  - intros (y & zs & Hl & Hm & Hs) p n c c' H H'. apply shared_in in H'.
    assert (Hc' : nth_error (variable_names (bd_master b)) c' = Some n).
    { destruct H' as [[_ K]|(s & Is & E & _)]; [exact K|]. inversion Np as [|? ? K _]. exfalso. apply K. rewrite E. now apply in_map. }
    destruct (nth_names _ _ _ Hc') as (v' & Hv' & Ev'). rewrite (Hm _ _ Hv'). apply shared_in in H as [[-> H]|(s & Is & -> & H & Hin)].
    + destruct (nth_names _ _ _ H) as (v & Hv & Ev). rewrite (Hm _ _ Hv). congruence.
    + destruct (nth_names _ _ _ H) as (v & Hv & Ev). destruct (Forall2_right _ _ _ _ Hs Is) as (z & Hz & Sv). rewrite (Sv _ _ Hv), Ev, Ev'. now apply Hl.
Qed.
Lemma same_feasible x zs ss : Forall2 (fun z s => same_values (x (pb_name s)) (solver_of s) z) zs ss -> (forall s, In s ss -> sound_solver (solver_of s)) ->
  (forall s, In s ss -> columns_feasible (x (pb_name s)) (solver_of s)) <-> all_feasible zs (map solver_of ss) .
Proof.
  intros F. induction F as [|z s zs ss H F IH]; intros S.
  - split; [constructor|intros _ s []].
  - cbn [map]. split.
    + intros K. constructor; [apply (columns_names _ _ _ (S s (or_introl eq_refl)) H), K; now left|]. apply IH; [intros t Ht; apply S; now right|]. intros t Ht. apply K. now right.
    + intros K. inversion K as [|? ? ? ? K1 K2]; subst. intros t [<-|Ht].
      * now apply (columns_names _ _ _ (S s (or_introl eq_refl)) H).
      * apply IH; [intros t' Ht'; apply S; now right|exact K2|exact Ht].
Qed.

Lemma tree_files : forall evs root db order f' b n wholes, nth_error (f_nodes (history evs)) root = Some n ->
  some_order (history evs) root order -> build_benders (history evs) root db order = (f', Ok b) ->
  (1 < List.length (traverse (history evs) root None))%nat -> apart_tree (history evs) (traverse (history evs) root None) ->
  settled_tree (history evs) (traverse (history evs) root None) db -> rows_with_terms (history evs) (traverse (history evs) root None) db ->
  coupled_investments evs (tn_coupling_info n) (traverse (history evs) root None) db ->
  (forall i n, In i (traverse (history evs) root None) -> nth_error (f_nodes (history evs)) i = Some n -> NoDup (map fst (tc_blocks (tn_config n)))) ->
  (forall s, In s (bd_subproblems b) -> NoDup (variable_names s)) ->
  Forall2 (whole_of db) (cells (history evs) (traverse (history evs) root None)) wholes ->
  forall x, solves b x <->
    exists y zs, linked b y zs /\ same_values (x "master"%string) (solver_of (bd_master b)) y /\
      Forall2 (fun z s => same_values (x (pb_name s)) (solver_of s) z) zs (bd_subproblems b) /\
      (forall q, asked evs (tn_coupling_info n) q -> equation_holds y q) /\ all_feasible zs (map st_solver wholes).
Proof.
  intros evs root db order f' b n wholes Hn Ho H L Ap St Rt Ci Bl Ns W x.
  destruct (built_structure _ _ _ _ _ _ _ Hn Ho H ltac:(lia) Ap Bl Ns) as (Np & (_ & Nm) & _).
  pose proof (several_sound _ _ _ _ _ _ _ Hn Ho H L Ap) as Sm. pose proof (subs_sound _ _ _ _ _ _ Ho H Ap Ns) as Ss.
  pose proof (fun y zs K => tree_feasible evs root db order f' b n wholes Hn Ho H L Ap St Rt Ci W y zs K) as T.
  unfold solves. rewrite (linked_columns b x Np Nm Ns). split.
  - intros (H1 & H2 & y & zs & Hl & Hm & Hs). exists y, zs. do 3 (split; [assumption|]). apply (T y zs Hl).
    split; [now apply (columns_names _ _ _ Sm Hm)|now apply (same_feasible x zs)].
  - intros (y & zs & Hl & Hm & Hs & K). apply (T y zs Hl) in K as [K1 K2].
    split; [now apply (columns_names _ _ _ Sm Hm)|]. split; [now apply (same_feasible x zs)|]. exists y, zs. auto.
Qed.
