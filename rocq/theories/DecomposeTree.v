(** Facts on decomposed trees (C70). *)
From Coq Require Import Lia Permutation.
From Verif Require Import Base BaseFacts Expr Visitors LinearExpr Model Study Strategy Optim Tree Fusion Benders
  SpecExpr SpecModel SpecOptim SpecFusion SpecBenders SpecDecompose
  OptimFacts DecompositionFacts DecomposeFacts.

(** ** Values count only at the names of a problem *)
Lemma by_name_agree s y z : (forall x, In x (map sv_name (s_vars s)) -> y x = z x) -> forall i, by_name s y i = by_name s z i.
Proof.
  intros H i. unfold by_name. destruct (nth_error (s_vars s) i) as [v|] eqn:E; [|reflexivity].
  apply H, in_map. now apply nth_error_In in E.
Qed.
Lemma coefs_agree y z d : (forall i, y i = z i) -> coefs_value y d = coefs_value z d.
Proof. intros H. unfold coefs_value. f_equal. apply map_ext. intros [i c]. cbn. now rewrite H. Qed.
Lemma feasible_agree s y z : (forall x, In x (map sv_name (s_vars s)) -> y x = z x) -> feasible y s -> feasible z s.
Proof.
  intros H [B R]. split.
  - intros v Hv. rewrite <- H by now apply in_map. now apply B.
  - intros r Hr. destruct (R r Hr) as (v & E & K). exists v. split; [|exact K]. rewrite <- E. symmetry. apply coefs_agree, by_name_agree, H.
Qed.
Lemma cost_agree s y z : (forall x, In x (map sv_name (s_vars s)) -> y x = z x) -> cost y s = cost z s.
Proof. intros H. unfold cost. apply coefs_agree, by_name_agree, H. Qed.

(** ** Groups: the investments of a node, its subproblems and its whole problems *)
Definition split_of (m : state) (s : problem) (w : state) : Prop :=
  (forall z, feasible z (st_solver w) <-> feasible z (st_solver m) /\ feasible z (solver_of s)) /\
  forall z, cost z (st_solver w) = olift2 Qcplus (cost z (st_solver m)) (cost z (solver_of s)).
Definition group : Type := state * (list problem * list state).
Definition group_ok (g : group) : Prop := fst (snd g) <> [] /\ Forall2 (split_of (fst g)) (fst (snd g)) (snd (snd g)).
Definition subs_of (gs : list group) : list problem := flat_map (fun g => fst (snd g)) gs.
Definition wholes_of (gs : list group) : list state := flat_map (fun g => snd (snd g)) gs.
Definition repeated (gs : list group) : list state := flat_map (fun g => map (fun _ => fst g) (fst (snd g))) gs.
Definition agree (s : state) (y : string -> Qc) (zs : list (string -> Qc)) : Prop :=
  forall z x, In z zs -> In x (map sv_name (s_vars (st_solver s))) -> z x = y x.

Lemma group_feasible m ss ws y zs : ss <> [] -> Forall2 (split_of m) ss ws -> agree m y zs ->
  (feasible y (st_solver m) /\ all_feasible zs (map solver_of ss)) <-> all_feasible zs (map st_solver ws).
Proof.
  intros Hne F A. unfold all_feasible. split.
  - intros [H1 H2]. clear Hne. revert zs A H2. induction F as [|s w ss ws S F IH]; intros zs A H2; inversion H2; subst; cbn [map]; constructor.
    + apply (proj1 S). split; [|assumption]. eapply feasible_agree; [|exact H1]. intros v Hv. symmetry. apply A; [now left|exact Hv].
    + apply IH; [|assumption]. intros z v Hz. apply A. now right.
  - intros H. split.
    + destruct F as [|s w ss ws S F]; [easy|]. inversion H as [|z ? zs' ? Hz _]; subst. apply (proj1 S) in Hz as [Hz _].
      eapply feasible_agree; [|exact Hz]. intros v Hv. apply A; [now left|exact Hv].
    + clear Hne. revert zs A H. induction F as [|s w ss ws S F IH]; intros zs A H; inversion H; subst; cbn [map]; constructor.
      * now apply (proj1 S).
      * apply IH; [|assumption]. intros z v Hz. apply A. now right.
Qed.
Lemma groups_feasible gs y zs : Forall group_ok gs -> (forall g, In g gs -> agree (fst g) y zs) ->
  ((forall g, In g gs -> feasible y (st_solver (fst g))) /\ all_feasible zs (map solver_of (subs_of gs))) <->
  all_feasible zs (map st_solver (wholes_of gs)).
Proof.
  intros F. revert zs. induction F as [|[m [ss ws]] gs [Hne G] F IH]; intros zs A; cbn [subs_of wholes_of flat_map fst snd] in *.
  - split; [intros [_ H]; exact H|intros H; split; [intros g []|exact H]].
  - rewrite !map_app. unfold all_feasible. split.
    + intros [H1 H2]. apply Forall2_app_inv_r in H2 as (z1 & z2 & Z1 & Z2 & ->). apply Forall2_app.
      * apply (group_feasible m ss ws y z1 Hne G); [intros z x Hz; apply (A (m, (ss, ws)) (or_introl eq_refl)), in_or_app; now left|].
        split; [exact (H1 (m, (ss, ws)) (or_introl eq_refl))|exact Z1].
      * apply IH; [intros g Hg z x Hz; apply (A g (or_intror Hg)), in_or_app; now right|]. split; [intros g Hg; apply H1; now right|exact Z2].
    + intros H. apply Forall2_app_inv_r in H as (z1 & z2 & Z1 & Z2 & ->).
      apply (group_feasible m ss ws y z1 Hne G) in Z1 as [M1 S1]; [|intros z x Hz; apply (A (m, (ss, ws)) (or_introl eq_refl)), in_or_app; now left].
      apply IH in Z2 as [M2 S2]; [|intros g Hg z x Hz; apply (A g (or_intror Hg)), in_or_app; now right].
      split; [|now apply Forall2_app]. intros g [<-|Hg]; [exact M1|now apply M2].
Qed.
Lemma oplus_four a b c d : olift2 Qcplus (olift2 Qcplus a b) (olift2 Qcplus c d) = olift2 Qcplus (olift2 Qcplus a c) (olift2 Qcplus b d).
Proof. destruct a, b, c, d; cbn; try reflexivity. f_equal. ring. Qed.
Lemma groups_cost gs y zs : Forall group_ok gs -> (forall g, In g gs -> agree (fst g) y zs) ->
  (forall g, In g gs -> List.length (fst (snd g)) = 1%nat) -> List.length zs = List.length (subs_of gs) ->
  olift2 Qcplus (osum (map (fun g => cost y (st_solver (fst g))) gs)) (total_cost zs (map solver_of (subs_of gs))) =
  total_cost zs (map st_solver (wholes_of gs)).
Proof.
  intros F. revert zs. induction F as [|[m [ss ws]] gs [Hne G] F IH]; intros zs A One L.
  - destruct zs; [|discriminate L]. reflexivity.
  - pose proof (One _ (or_introl eq_refl)) as O1. cbn [fst snd] in O1, G. destruct ss as [|s [|? ?]]; try discriminate O1.
    inversion G as [|? w ? ws' S G']; subst. inversion G'; subst. unfold subs_of, wholes_of in *. cbn [flat_map fst snd app] in *.
    destruct zs as [|z zs]; [discriminate L|]. unfold total_cost in *. cbn [map combine fst snd osum]. cbn [List.length] in L. injection L as L.
    specialize (IH zs). rewrite <- IH; [|intros g Hg z' x Hz; apply (A g (or_intror Hg)); now right|intros g Hg; apply One; now right|exact L].
    rewrite (proj2 S z), (cost_agree (st_solver m) z y); [|intros x Hx; exact (A _ (or_introl eq_refl) z x (or_introl eq_refl) Hx)].
    apply oplus_four.
Qed.

Lemma group_all_cost m ss ws y zs : Forall2 (split_of m) ss ws -> agree m y zs -> List.length zs = List.length ss ->
  total_cost zs (map st_solver ws) = olift2 Qcplus (osum (map (fun _ => cost y (st_solver m)) ss)) (total_cost zs (map solver_of ss)).
Proof.
  intros F. revert zs. induction F as [|s w ss ws S F IH]; intros zs A L; destruct zs as [|z zs]; try discriminate L; [reflexivity|].
  unfold total_cost in *. cbn [map combine fst snd osum]. rewrite IH; [|intros z' x Hz; apply A; now right|now injection L].
  rewrite (proj2 S z), (cost_agree (st_solver m) z y); [|intros x Hx; exact (A z x (or_introl eq_refl) Hx)]. apply oplus_four.
Qed.
Lemma total_app zs zs' ss ss' : List.length zs = List.length ss ->
  total_cost (zs ++ zs') (ss ++ ss') = olift2 Qcplus (total_cost zs ss) (total_cost zs' ss').
Proof.
  revert ss. induction zs as [|z zs IH]; intros [|s ss] L; try discriminate L; unfold total_cost in *; cbn [app combine map osum].
  - destruct (osum _); [|reflexivity]. cbn. f_equal. ring.
  - rewrite IH by (now injection L). cbn [fst snd]. destruct (cost z s); [|reflexivity]. do 2 (match goal with |- context [osum ?l] => destruct (osum l) end); cbn; try reflexivity. f_equal. ring.
Qed.
Lemma osum_joined (a c : list (option Qc)) : osum (a ++ c) = olift2 Qcplus (osum a) (osum c).
Proof.
  induction a as [|x a IH]; cbn [app osum]; [destruct (osum c); [cbn; f_equal; ring|reflexivity]|]. rewrite IH.
  destruct x, (osum a), (osum c); cbn; try reflexivity. f_equal. ring.
Qed.
Lemma groups_all_cost gs y zs : Forall group_ok gs -> (forall g, In g gs -> agree (fst g) y zs) -> List.length zs = List.length (subs_of gs) ->
  total_cost zs (map st_solver (wholes_of gs)) =
  olift2 Qcplus (osum (map (fun st => cost y (st_solver st)) (repeated gs))) (total_cost zs (map solver_of (subs_of gs))).
Proof.
  intros F. revert zs. induction F as [|[m [ss ws]] gs [Hne G] F IH]; intros zs A L.
  - destruct zs; [|discriminate L]. reflexivity.
  - unfold subs_of, wholes_of, repeated in *. cbn [flat_map fst snd] in *. rewrite app_length in L.
    rewrite <- (firstn_skipn (List.length ss) zs), !map_app, map_map. cbn [fst] in *.
    assert (L1 : List.length (firstn (List.length ss) zs) = List.length ss) by (rewrite firstn_length; lia).
    rewrite total_app by (rewrite L1, map_length; apply (Forall2_len _ _ _ G)).
    rewrite (total_app _ _ (map solver_of ss)) by (now rewrite L1, map_length).
    rewrite (group_all_cost m ss ws y _ G); [|intros z x Hz; apply (A _ (or_introl eq_refl)); rewrite <- (firstn_skipn (List.length ss) zs); apply in_or_app; now left|exact L1].
    rewrite IH; [|intros g Hg z x Hz; apply (A g (or_intror Hg)); rewrite <- (firstn_skipn (List.length ss) zs); apply in_or_app; now right|rewrite skipn_length; lia].
    rewrite oplus_four. f_equal. symmetry. apply osum_joined.
Qed.

(** ** The groups of a tree *)
Section Tree.
  Context (f : forest) (db : database) (nodes : list nat).
  Hypothesis (Ap : apart_tree f nodes) (St : settled_tree f nodes db).
  Lemma node_group i n p m : In i nodes -> nth_error (f_nodes f) i = Some n -> build_problem (investment_settings n p db) = Ok m ->
    forall blks ss, incl blks (tc_blocks (tn_config n)) -> Forall2 (fun blk s => build_problem (operation_settings n p db (snd blk)) = Ok (pb_state s)) blks ss ->
    exists ws, Forall2 (fun blk w => build_problem (node_settings n p db (snd blk)) = Ok w) blks ws /\ Forall2 (split_of m) ss ws.
  Proof.
    intros Hi Hn Hm blks ss Hin F. destruct (St i n Hi Hn) as (Hb & Hs & Hd & _ & Hne).
    destruct (proj2 Ap i n Hi Hn) as ((Hnd & _) & Hnm & _).
    induction F as [|blk s blks ss E F IH]; [exists []; split; constructor|].
    destruct IH as (ws & W1 & W2); [intros x Hx; apply Hin; now right|].
    set (o := node_settings n p db (snd blk)).
    assert (Hu : usable_block o) by (split; [apply Hne, Hin; now left|reflexivity]).
    destruct (whole_built o Hu Hb Hnd Hnm Hs Hd m (pb_state s) Hm E) as (w & Ew).
    exists (w :: ws). split; constructor; auto. split.
    - intros z. exact (feasible_parts o Hu Hb Hnd Hnm Hs Hd w m (pb_state s) Ew Hm E z).
    - intros z. exact (cost_parts o Hu Hb Hnd Hnm Hs w m (pb_state s) Ew Hm E z).
  Qed.
  Lemma tree_groups l sts sss (R : tree_node -> Z * list Z -> problem -> Prop) : incl l nodes -> Forall2 (investment_problem f db) l sts ->
    Forall2 (fun i ss => exists n p, nth_error (f_nodes f) i = Some n /\ tn_prob n = Some p /\
       Forall2 (fun blk s => build_problem (operation_settings n p db (snd blk)) = Ok (pb_state s) /\ R n blk s) (tc_blocks (tn_config n)) ss) l sss ->
    exists gs, map fst gs = sts /\ subs_of gs = concat sss /\ Forall group_ok gs /\ Forall2 (whole_of db) (cells f l) (wholes_of gs) /\
      Forall2 (investment_of db) (cells f l) (repeated gs) /\
      (one_block_each f l -> forall g, In g gs -> List.length (fst (snd g)) = 1%nat).
  Proof.
    intros Hl F. revert sss. induction F as [|i m l sts Hm F IH]; intros sss Fs; inversion Fs as [|? ss ? sss' Hss Fs']; subst.
    - exists []. repeat split; try constructor. intros _ g [].
    - destruct (IH (fun x Hx => Hl x (or_intror Hx)) sss' Fs') as (gs & G1 & G2 & G3 & G4 & G6 & G5).
      destruct Hm as (n & p & Hn & Hp & Hm). destruct Hss as (n' & p' & Hn' & Hp' & Hss).
      rewrite Hn in Hn'. injection Hn' as <-. rewrite Hp in Hp'. injection Hp' as <-.
      pose proof (Hl i (or_introl eq_refl)) as Hi.
      destruct (node_group i n p m Hi Hn Hm _ ss (incl_refl _)) as (ws & W1 & W2).
      { eapply Forall2_weaken; [|exact Hss]. intros a b H. exact (proj1 H). }
      exists ((m, (ss, ws)) :: gs). cbn [map fst snd subs_of wholes_of flat_map concat cells].
      split; [now rewrite G1|]. split; [now rewrite <- G2|]. split; [|split; [|split]].
      + constructor; [|exact G3]. split; [|exact W2]. cbn [fst snd]. intros ->. inversion Hss as [Hb|]. destruct (St i n Hi Hn) as (_ & _ & _ & Hne & _). now apply Hne.
      + rewrite Hn. apply Forall2_app; [|exact G4]. clear - W1 Hp. induction W1; constructor; auto. exists p. auto.
      + unfold repeated. cbn [flat_map fst snd]. rewrite Hn. apply Forall2_app; [|exact G6]. clear - Hss Hp Hm. induction Hss; constructor; auto. exists p. auto.
      + intros One g [<-|Hg].
        * cbn [fst snd]. rewrite <- (Forall2_len _ _ _ Hss). apply (One i n (or_introl eq_refl) Hn).
        * apply G5; [|exact Hg]. intros j k Hj. apply One. now right.
  Qed.
End Tree.

Lemma investment_unique f db i st st' : investment_problem f db i st -> investment_problem f db i st' -> st = st'.
Proof. intros (n & p & H1 & H2 & H3) (n' & p' & H1' & H2' & H3'). congruence. Qed.
Lemma Forall2_left {A B} (R : A -> B -> Prop) l m a : Forall2 R l m -> In a l -> exists b, In b m /\ R a b.
Proof. intros F. induction F as [|x b l m H F IH]; intros Ha; [destruct Ha|]. destruct Ha as [<-|Ha]; [exists b; cbn; auto|]. destruct (IH Ha) as (c & Hc & Hr). exists c. cbn. auto. Qed.
Lemma Forall2_right {A B} (R : A -> B -> Prop) l m b : Forall2 R l m -> In b m -> exists a, In a l /\ R a b.
Proof. intros F. induction F as [|x c l m H F IH]; intros Hb; [destruct Hb|]. destruct Hb as [<-|Hb]; [exists x; cbn; auto|]. destruct (IH Hb) as (a & Ha & Hr). exists a. cbn. auto. Qed.

Lemma wholes_unique db cs ws ws' : Forall2 (whole_of db) cs ws -> Forall2 (whole_of db) cs ws' -> ws = ws'.
Proof.
  intros F. revert ws'. induction F as [|c w cs ws (p & Hp & Hw) F IH]; intros ws' F'; inversion F' as [|? w' ? ws'' (p' & Hp' & Hw') F'']; subst; [reflexivity|].
  f_equal; [congruence|]. now apply IH.
Qed.
Lemma states_unique f db l sts sts' : Forall2 (investment_problem f db) l sts -> Forall2 (investment_problem f db) l sts' -> sts = sts'.
Proof.
  intros F. revert sts'. induction F as [|c w cs ws H F IH]; intros ws' F'; inversion F' as [|? w' ? ws'' H' F'']; subst; [reflexivity|].
  f_equal; [|now apply IH]. eapply investment_unique; eassumption.
Qed.

Lemma built_groups evs root db order f' b : some_order (history evs) root order -> build_benders (history evs) root db order = (f', Ok b) ->
  apart_tree (history evs) (traverse (history evs) root None) -> settled_tree (history evs) (traverse (history evs) root None) db ->
  exists gs, Forall2 (investment_problem (history evs) db) (traverse (history evs) root None) (map fst gs) /\ subs_of gs = bd_subproblems b /\ Forall group_ok gs /\
    Forall2 (whole_of db) (cells (history evs) (traverse (history evs) root None)) (wholes_of gs) /\
    Forall2 (investment_of db) (cells (history evs) (traverse (history evs) root None)) (repeated gs) /\
    (one_block_each (history evs) (traverse (history evs) root None) -> forall g, In g gs -> List.length (fst (snd g)) = 1%nat).
Proof.
  intros Ho H Ap St. destruct (built_parts _ _ _ _ _ _ Ho H) as (n' & st & parts & _ & _ & _ & F & _). apply parts_states in F.
  destruct (subproblems_meaning evs root db order f' b Ho H) as (sss & Es & Fs).
  destruct (tree_groups (history evs) db _ Ap St _ _ sss _ (incl_refl _) F Fs) as (gs & G1 & G2 & G3 & G4 & G6 & G5).
  exists gs. rewrite G1, Es. repeat (split; [assumption|]). assumption.
Qed.
Lemma wholes_exist evs root db order f' b n : nth_error (f_nodes (history evs)) root = Some n ->
  some_order (history evs) root order -> build_benders (history evs) root db order = (f', Ok b) ->
  apart_tree (history evs) (traverse (history evs) root None) -> settled_tree (history evs) (traverse (history evs) root None) db ->
  exists wholes, Forall2 (whole_of db) (cells (history evs) (traverse (history evs) root None)) wholes.
Proof. intros _ Ho H Ap St. destruct (built_groups _ _ _ _ _ _ Ho H Ap St) as (gs & _ & _ & _ & G & _). eauto. Qed.

Section Built_tree.
  Context (evs : list event) (root : nat) (db : database) (order : list string) (f' : forest) (b : benders) (n : tree_node) (wholes : list state).
  Let nodes := traverse (history evs) root None.
  Hypothesis (Hn : nth_error (f_nodes (history evs)) root = Some n) (Ho : some_order (history evs) root order)
    (H : build_benders (history evs) root db order = (f', Ok b)) (L : (1 < List.length nodes)%nat)
    (Ap : apart_tree (history evs) nodes) (St : settled_tree (history evs) nodes db).
  Hypothesis W : Forall2 (whole_of db) (cells (history evs) nodes) wholes.
  Lemma tree_feasible_at : rows_with_terms (history evs) nodes db -> coupled_investments evs (tn_coupling_info n) nodes db ->
    forall y zs, linked b y zs ->
      (feasible y (solver_of (bd_master b)) /\ all_feasible zs (map solver_of (bd_subproblems b))) <->
      ((forall q, asked evs (tn_coupling_info n) q -> equation_holds y q) /\ all_feasible zs (map st_solver wholes)).
  Proof.
    intros Rt Ci. destruct (master_meaning evs root db order f' b n Hn Ho H L Ap) as (sts & F & Hf & _ & Hnames & _).
    destruct (built_groups _ _ _ _ _ _ Ho H Ap St) as (gs & G1 & G2 & G3 & G4 & _ & _). pose proof (states_unique _ _ _ _ _ F G1) as Es.
    rewrite (wholes_unique _ _ _ _ W G4).
    intros y zs Hlk. assert (Ag : forall g, In g gs -> agree (fst g) y zs).
    { intros g Hg z x Hz Hx. apply (Hlk z x Hz). apply Hnames. right. exists (fst g). split; [|exact Hx]. rewrite Es. now apply in_map. }
    rewrite <- G2, <- (groups_feasible gs y zs G3 Ag), (Hf y). split.
    - intros [(Q1 & _ & Q3) Hz]. split; [exact Q1|]. split; [|exact Hz]. intros g Hg.
      assert (Hs : In (fst g) sts) by (rewrite Es; now apply in_map). destruct (Q3 _ Hs) as [B T]. split; [exact B|].
      intros r Hr. apply T; [exact Hr|]. destruct (Forall2_right _ _ _ _ F Hs) as (i & Hi & Hip). exact (Rt i _ r Hi Hip Hr).
    - intros (Q1 & Q2 & Hz). split; [|exact Hz]. split; [exact Q1|]. split.
      + intros q x Hq Hx Hno. exfalso. destruct (Ci q x Hq Hx) as (i & st & Hi & Hip & Hin).
        destruct (Forall2_left _ _ _ _ F Hi) as (st' & Hs & Hip'). rewrite (investment_unique _ _ _ _ _ Hip Hip') in Hin. exact (Hno st' Hs Hin).
      + intros st Hs. rewrite Es in Hs. apply in_map_iff in Hs as (g & <- & Hg). destruct (Q2 g Hg) as [B R]. split; [exact B|]. intros r Hr _. now apply R.
  Qed.
  Lemma tree_cost_at : one_block_each (history evs) nodes -> forall y zs, linked b y zs -> List.length zs = List.length (bd_subproblems b) ->
    olift2 Qcplus (cost y (solver_of (bd_master b))) (total_cost zs (map solver_of (bd_subproblems b))) = total_cost zs (map st_solver wholes).
  Proof.
    intros One. destruct (master_meaning evs root db order f' b n Hn Ho H L Ap) as (sts & F & _ & Hc & Hnames & _).
    destruct (built_groups _ _ _ _ _ _ Ho H Ap St) as (gs & G1 & G2 & G3 & G4 & G6 & G5). pose proof (states_unique _ _ _ _ _ F G1) as Es.
    rewrite (wholes_unique _ _ _ _ W G4), <- G2.
    intros y zs Hlk Hlen. assert (Ag : forall g, In g gs -> agree (fst g) y zs).
    { intros g Hg z x Hz Hx. apply (Hlk z x Hz). apply Hnames. right. exists (fst g). split; [|exact Hx]. rewrite Es. now apply in_map. }
    rewrite (Hc y), Es, map_map. exact (groups_cost gs y zs G3 Ag (G5 One) Hlen).
  Qed.
  Lemma tree_blocks_at : exists invs, Forall2 (investment_of db) (cells (history evs) nodes) invs /\
    forall y zs, linked b y zs -> List.length zs = List.length (bd_subproblems b) ->
    total_cost zs (map st_solver wholes) =
    olift2 Qcplus (osum (map (fun st => cost y (st_solver st)) invs)) (total_cost zs (map solver_of (bd_subproblems b))).
  Proof.
    destruct (master_meaning evs root db order f' b n Hn Ho H L Ap) as (sts & F & _ & Hc & Hnames & _).
    destruct (built_groups _ _ _ _ _ _ Ho H Ap St) as (gs & G1 & G2 & G3 & G4 & G6 & G5). pose proof (states_unique _ _ _ _ _ F G1) as Es.
    exists (repeated gs). split; [exact G6|]. rewrite (wholes_unique _ _ _ _ W G4), <- G2.
    intros y zs Hlk Hlen. assert (Ag : forall g, In g gs -> agree (fst g) y zs).
    { intros g Hg z x Hz Hx. apply (Hlk z x Hz). apply Hnames. right. exists (fst g). split; [|exact Hx]. rewrite Es. now apply in_map. }
    exact (groups_all_cost gs y zs G3 Ag Hlen).
  Qed.
End Built_tree.
Lemma tree_blocks : forall evs root db order f' b n wholes, nth_error (f_nodes (history evs)) root = Some n ->
  some_order (history evs) root order -> build_benders (history evs) root db order = (f', Ok b) ->
  (1 < List.length (traverse (history evs) root None))%nat -> apart_tree (history evs) (traverse (history evs) root None) ->
  settled_tree (history evs) (traverse (history evs) root None) db ->
  Forall2 (whole_of db) (cells (history evs) (traverse (history evs) root None)) wholes ->
  exists invs, Forall2 (investment_of db) (cells (history evs) (traverse (history evs) root None)) invs /\
    forall y zs, linked b y zs -> List.length zs = List.length (bd_subproblems b) ->
    total_cost zs (map st_solver wholes) =
    olift2 Qcplus (osum (map (fun st => cost y (st_solver st)) invs)) (total_cost zs (map solver_of (bd_subproblems b))).
Proof. intros evs root db order f' b n wholes Hn Ho H L Ap St W. exact (tree_blocks_at evs root db order f' b n wholes Hn Ho H L Ap St W). Qed.
Lemma tree_feasible : forall evs root db order f' b n wholes, nth_error (f_nodes (history evs)) root = Some n ->
  some_order (history evs) root order -> build_benders (history evs) root db order = (f', Ok b) ->
  (1 < List.length (traverse (history evs) root None))%nat -> apart_tree (history evs) (traverse (history evs) root None) ->
  settled_tree (history evs) (traverse (history evs) root None) db -> rows_with_terms (history evs) (traverse (history evs) root None) db ->
  coupled_investments evs (tn_coupling_info n) (traverse (history evs) root None) db ->
  Forall2 (whole_of db) (cells (history evs) (traverse (history evs) root None)) wholes ->
  forall y zs, linked b y zs ->
    (feasible y (solver_of (bd_master b)) /\ all_feasible zs (map solver_of (bd_subproblems b))) <->
    ((forall q, asked evs (tn_coupling_info n) q -> equation_holds y q) /\ all_feasible zs (map st_solver wholes)).
Proof. intros evs root db order f' b n wholes Hn Ho H L Ap St Rt Ci W. exact (tree_feasible_at evs root db order f' b n wholes Hn Ho H L Ap St W Rt Ci). Qed.
Lemma tree_cost : forall evs root db order f' b n wholes, nth_error (f_nodes (history evs)) root = Some n ->
  some_order (history evs) root order -> build_benders (history evs) root db order = (f', Ok b) ->
  (1 < List.length (traverse (history evs) root None))%nat -> apart_tree (history evs) (traverse (history evs) root None) ->
  settled_tree (history evs) (traverse (history evs) root None) db -> one_block_each (history evs) (traverse (history evs) root None) ->
  Forall2 (whole_of db) (cells (history evs) (traverse (history evs) root None)) wholes ->
  forall y zs, linked b y zs -> List.length zs = List.length (bd_subproblems b) ->
    olift2 Qcplus (cost y (solver_of (bd_master b))) (total_cost zs (map solver_of (bd_subproblems b))) = total_cost zs (map st_solver wholes).
Proof. intros evs root db order f' b n wholes Hn Ho H L Ap St One W. exact (tree_cost_at evs root db order f' b n wholes Hn Ho H L Ap St W One). Qed.

Lemma best_same {A} (ok ok' : A -> Prop) (value value' : A -> option Qc) :
  (forall a, ok a <-> ok' a) -> (forall a, ok a -> value a = value' a) -> forall a, best ok value a <-> best ok' value' a.
Proof.
  intros E V a. split; intros [H1 H2]; (split; [now apply E|]); intros a' v v' Ha Hv Hv'.
  - apply (H2 a' v v'); [now apply E|rewrite V; auto|rewrite V; [auto|now apply E]].
  - apply (H2 a' v v'); [now apply E|rewrite <- V; [auto|now apply E]|rewrite <- V; auto].
Qed.
Lemma tree_optimum : forall evs root db order f' b n wholes, nth_error (f_nodes (history evs)) root = Some n ->
  some_order (history evs) root order -> build_benders (history evs) root db order = (f', Ok b) ->
  (1 < List.length (traverse (history evs) root None))%nat -> apart_tree (history evs) (traverse (history evs) root None) ->
  settled_tree (history evs) (traverse (history evs) root None) db -> rows_with_terms (history evs) (traverse (history evs) root None) db ->
  coupled_investments evs (tn_coupling_info n) (traverse (history evs) root None) db -> one_block_each (history evs) (traverse (history evs) root None) ->
  Forall2 (whole_of db) (cells (history evs) (traverse (history evs) root None)) wholes ->
  forall y zs,
    best (fun a => linked b (fst a) (snd a) /\ feasible (fst a) (solver_of (bd_master b)) /\ all_feasible (snd a) (map solver_of (bd_subproblems b)))
         (fun a => olift2 Qcplus (cost (fst a) (solver_of (bd_master b))) (total_cost (snd a) (map solver_of (bd_subproblems b)))) (y, zs) <->
    best (fun a => linked b (fst a) (snd a) /\ (forall q, asked evs (tn_coupling_info n) q -> equation_holds (fst a) q) /\
                   all_feasible (snd a) (map st_solver wholes))
         (fun a => total_cost (snd a) (map st_solver wholes)) (y, zs).
Proof.
  intros evs root db order f' b n wholes Hn Ho H L Ap St Rt Ci One W y zs. apply best_same.
  - intros [y' zs']. cbn [fst snd]. split; intros [Hlk K]; (split; [exact Hlk|]);
      now apply (tree_feasible evs root db order f' b n wholes Hn Ho H L Ap St Rt Ci W y' zs' Hlk).
  - intros [y' zs'] (Hlk & _ & K). cbn [fst snd] in *. apply (tree_cost evs root db order f' b n wholes Hn Ho H L Ap St One W y' zs' Hlk).
    rewrite (Forall2_len _ _ _ K). apply map_length.
Qed.

(** one node only: nothing is coupled *)
Lemma single_node evs root db order f' b wholes : some_order (history evs) root order ->
  build_benders (history evs) root db order = (f', Ok b) -> List.length (traverse (history evs) root None) = 1%nat ->
  apart_tree (history evs) (traverse (history evs) root None) -> settled_tree (history evs) (traverse (history evs) root None) db ->
  Forall2 (whole_of db) (cells (history evs) (traverse (history evs) root None)) wholes ->
  (forall y zs, linked b y zs ->
     (feasible y (solver_of (bd_master b)) /\ all_feasible zs (map solver_of (bd_subproblems b))) <-> all_feasible zs (map st_solver wholes)) /\
  (one_block_each (history evs) (traverse (history evs) root None) -> forall y zs, linked b y zs ->
     List.length zs = List.length (bd_subproblems b) ->
     olift2 Qcplus (cost y (solver_of (bd_master b))) (total_cost zs (map solver_of (bd_subproblems b))) = total_cost zs (map st_solver wholes)).
Proof.
  intros Ho H L Ap St W. destruct (single_master evs root db order f' b Ho H L) as (i & k & p & st & Et & Hn & Hp & Hm & Eb).
  destruct (built_groups _ _ _ _ _ _ Ho H Ap St) as (gs & G1 & G2 & G3 & G4 & G6 & G5). rewrite (wholes_unique _ _ _ _ W G4).
  assert (F : Forall2 (investment_problem (history evs) db) (traverse (history evs) root None) [st]).
  { rewrite Et. constructor; [|constructor]. exists k, p. auto. }
  pose proof (states_unique _ _ _ _ _ F G1) as Es. destruct gs as [|g [|? ?]]; try discriminate Es. injection Es as Eg.
  assert (Ag : forall y zs, linked b y zs -> forall g', In g' [g] -> agree (fst g') y zs).
  { intros y zs Hlk g' [<-|[]] z x Hz Hx. rewrite <- Eg in Hx. apply (Hlk z x Hz). rewrite Eb. exact Hx. }
  rewrite <- G2, Eb. unfold solver_of at 1 3. cbn [pb_state]. split.
  - intros y zs Hlk. rewrite <- (groups_feasible [g] y zs G3 (Ag y zs Hlk)). rewrite Eg.
    split; intros [Q1 Q2]; (split; [|exact Q2]); [intros g' [<-|[]]; exact Q1|apply Q1; now left].
  - intros One y zs Hlk Hlen.
    pose proof (groups_cost [g] y zs G3 (Ag y zs Hlk) (G5 One) Hlen) as K. rewrite <- K. cbn [map osum]. rewrite <- Eg. f_equal.
    destruct (cost y (st_solver st)); [|reflexivity]. cbn. f_equal. ring.
Qed.
