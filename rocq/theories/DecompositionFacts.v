(** Proofs about decomposed problems: what the master and the subproblems are. *)
From Coq Require Import Lia Permutation.
From Verif Require Import Base BaseFacts Expr Visitors LinearExpr Model ModelFacts Study Strategy Optim ModelEq Tree Fusion Benders.
From Verif Require Import SpecExpr SpecLinear SpecModel SpecOptim SpecFusion SpecBenders.
From Verif Require Import OptimFacts OptimProblem OptimNames LibraryFacts FusionFacts BuiltFacts BendersFacts CouplerFacts.
Local Open Scope string_scope.
Local Open Scope list_scope.

(** ** The rows of the coupler are kept *)
Definition keeps_names (old new : list string) : Prop := forall i n, nth_error old i = Some n -> nth_error new i = Some n.
Lemma fuse_step_kept c roots m f iv f' : (exists D, row_dict c f D) -> fuse_step roots m f iv = Ok f' ->
  (exists D, row_dict c f' D) /\ keeps_names (names_of (fvars f)) (names_of (fvars f')).
Proof.
  intros (D & HD) H. destruct iv as [i v]. destruct (fuse_step_spec _ _ _ _ _ _ _ _ HD H) as (R & V & _).
  split; [eauto|]. intros k n Hk. rewrite V. now apply nth_names_put.
Qed.
Lemma fuse_master_kept c roots m f f' : (exists D, row_dict c f D) -> fuse_master roots f m = Ok f' ->
  (exists D, row_dict c f' D) /\ keeps_names (names_of (fvars f)) (names_of (fvars f')).
Proof.
  intros HD H. unfold fuse_master in H.
  apply (foldM_invariant _ (fun g => (exists D, row_dict c g D) /\ keeps_names (names_of (fvars f)) (names_of (fvars g)))) in H;
    [exact H| |split; [exact HD|intros ? ? A; exact A]].
  intros acc iv acc' _ [A B] S. destruct (fuse_step_kept _ _ _ _ _ _ A S) as [A' B']. split; [exact A'|]. intros k n Hk. apply B', B, Hk.
Qed.
Lemma coupler_kept masters coupler p y : List.length masters <> 1%nat -> sound_solver (solver_of coupler) ->
  fusion_problems masters coupler = Ok p -> rows_hold y (solver_of p) -> rows_hold y (solver_of coupler).
Proof.
  intros L S H R. unfold fusion_problems in H.
  assert (H' : bind (foldM (fuse_master (root_variables (st_solver (pb_state coupler)))) {| fu_state := pb_state coupler; fu_rows := [] |} masters)
     (fun f => Ok {| pb_name := "master"; pb_state := fu_state f |}) = Ok p) by (destruct masters as [|a [|b l]]; [exact H|now contradiction L|exact H]).
  clear H. inv_bind H'. injection H' as <-.
  match goal with F : foldM _ _ masters = Ok ?x |- _ => rename x into f; rename F into H end.
  apply (foldM_invariant _ (fun g => (exists D, row_dict (solver_of coupler) g D) /\
    keeps_names (names_of (s_vars (solver_of coupler))) (names_of (fvars g)))) in H.
  - destruct H as [(D & E & _) K]. intros r Hr. assert (Hin : In r (s_rows (st_solver (fu_state f)))) by (rewrite E; apply in_or_app; now left).
    specialize (R r Hin). destruct R as (v & Ev & A & B). exists v. split; [|auto]. rewrite <- Ev. apply coefs_ext.
    intros j Hj. apply in_map_iff in Hj as ([j' cj] & <- & Hj). cbn [fst]. destruct S as (_ & SR & _). destruct (SR r Hr) as [_ Sb]. specialize (Sb _ _ Hj).
    rewrite !by_name_named. unfold named_value. destruct (nth_error (names_of (s_vars (solver_of coupler))) j') as [n|] eqn:En.
    + specialize (K _ _ En). unfold fvars in K. unfold solver_of. cbn [pb_state]. now rewrite K.
    + unfold names_of in En. apply nth_error_None in En. rewrite map_length in En. lia.
  - intros acc m acc' _ [A B] S'. destruct (fuse_master_kept _ _ _ _ _ A S') as [A' B']. split; [exact A'|]. intros k n Hk. apply B', B, Hk.
  - split; [exists []; split; cbn; [now rewrite app_nil_r|reflexivity]|intros ? ? A; exact A].
Qed.

(** ** The parts of a decomposed problem *)
Lemma level_order_same nodes nodes' fuel : nodes = nodes' -> forall l, level_order fuel nodes l = level_order fuel nodes' l.
Proof. now intros ->. Qed.
Lemma build_node_same f f' db size j : f_nodes f' = f_nodes f -> build_node f' db size j = build_node f db size j.
Proof. intros E. unfold build_node, node_at. now rewrite E. Qed.
Lemma traverse_same f f' root depth : f_nodes f' = f_nodes f -> traverse f' root depth = traverse f root depth.
Proof. intros E. unfold traverse. now rewrite E. Qed.
Definition part_of (f : forest) (db : database) (size : nat) (j : nat) (part : problem * list problem) : Prop :=
  exists n p st, nth_error (f_nodes f) j = Some n /\ tn_prob n = Some p /\
    fst part = {| pb_name := "master" ++ suffix_tree size n; pb_state := st |} /\ build_problem (investment_settings n p db) = Ok st /\
    Forall2 (fun b s => exists st', s = {| pb_name := "subproblem" ++ suffix_tree size n ++ suffix_block (tc_blocks (tn_config n)) (fst b); pb_state := st' |} /\
               build_problem (operation_settings n p db (snd b)) = Ok st') (tc_blocks (tn_config n)) (snd part).
Lemma build_node_part f db size j part : build_node f db size j = Ok part <-> part_of f db size j part.
Proof.
  unfold build_node, node_at, prob_of, part_of, named_problem. destruct (nth_error (f_nodes f) j) as [n|]; cbn [bind];
    [|split; [discriminate|intros (? & ? & ? & ? & _); discriminate]].
  destruct (tn_prob n) as [p|] eqn:Ep; cbn [bind]; [|split; [discriminate|intros (? & ? & ? & [= ->] & ? & _); congruence]].
  change (master_settings n p db) with (investment_settings n p db).
  destruct (build_problem (investment_settings n p db)) as [st|] eqn:Eb; cbn [bind];
    [|split; [discriminate|intros (? & ? & ? & [= ->] & H & _ & H' & _); congruence]].
  assert (G : forall bs ss, mapM (build_subproblem db size n p) bs = Ok ss <->
    Forall2 (fun b s => exists st', s = {| pb_name := "subproblem" ++ suffix_tree size n ++ suffix_block (tc_blocks (tn_config n)) (fst b); pb_state := st' |} /\
               build_problem (operation_settings n p db (snd b)) = Ok st') bs ss).
  { induction bs as [|b bs IH]; intros ss; cbn [mapM].
    - split; [intros [= <-]; constructor|]. intros F. now inversion F.
    - unfold build_subproblem at 1, named_problem at 1. change (subproblem_settings n p (snd b) db) with (operation_settings n p db (snd b)).
      destruct (build_problem (operation_settings n p db (snd b))) as [st'|] eqn:Es; cbn [bind].
      + destruct (mapM _ bs) as [ss'|]; cbn [bind].
        * split; [intros [= <-]; constructor; [eauto|now apply IH]|]. intros F. inversion F as [|? s ? ss0 (st0 & -> & E0) F']; subst.
          apply IH in F'. injection F' as ->. congruence.
        * split; [discriminate|]. intros F. inversion F as [|? s ? ss0 _ F']; subst. apply IH in F'. discriminate.
      + split; [discriminate|]. intros F. inversion F as [|? s ? ss0 (st0 & _ & E0) F']; subst. congruence. }
  split.
  - destruct (mapM (build_subproblem db size n p) (tc_blocks (tn_config n))) as [ss|] eqn:Es; cbn [bind]; [|discriminate].
    intros [= <-]. exists n, p, st. repeat (split; [auto|]). now apply G.
  - intros (n' & p' & st' & [= <-] & Hp & Hm & Hb & F). assert (p' = p) by congruence. subst p'. assert (st' = st) by congruence. subst st'.
    apply G in F. rewrite F. cbn [bind]. destruct part as [m ss]. cbn in *. now subst m.
Qed.
(** what the coupler is, [E] being the equations asked for *)
Record coupler_of (order : list string) (E : equation -> Prop) (st : state) : Prop := {
  co_sound : sound_solver (st_solver st);
  co_columns : sound_columns st;
  co_vars : s_vars (st_solver st) = map (fun n => {| sv_name := n; sv_lb := n0; sv_ub := PInf; sv_integer := false |}) order;
  co_names : forall n, In n order <-> exists q, E q /\ In n (equation_names q);
  co_objective : s_objective (st_solver st) = [];
  co_offset : s_offset (st_solver st) = n0;
  co_rows : forall y, rows_hold y (st_solver st) <-> forall q, E q -> equation_holds y q
}.
Lemma built_parts evs root db order f' b : some_order (history evs) root order ->
  build_benders (history evs) root db order = (f', Ok b) ->
  exists n st parts, nth_error (f_nodes (history evs)) root = Some n /\ is_leaves_prob_sum_one (history evs) root = Ok true /\
    coupler_of order (asked evs (tn_coupling_info n)) st /\
    Forall2 (part_of (history evs) db (List.length (traverse (history evs) root None))) (traverse (history evs) root None) parts /\
    fusion_problems (map fst parts) {| pb_name := "coupler"; pb_state := st |} = Ok (bd_master b) /\
    bd_subproblems b = flat_map snd parts.
Proof.
  intros (n & i & Hn & Hi & Ho) H. unfold build_benders in H.
  destruct (is_leaves_prob_sum_one (history evs) root) as [[|]|] eqn:Ep; [|discriminate|discriminate].
  destruct (add_coupling_constraints (history evs) root order) as [f1|] eqn:Ea; [|discriminate]. injection H as -> H.
  destruct (add_coupling_rest _ _ _ _ Ea) as (En & Ei & n' & i' & c & Hn' & Hi' & Hc & Hnet).
  rewrite Hn in Hn'. injection Hn' as <-. rewrite Hi in Hi'. injection Hi' as <-.
  unfold build_problems, node_at in H. rewrite En, Hn in H. cbn [bind] in H. rewrite Hnet in H.
  rewrite nth_update, Nat.eqb_refl in H. destruct (nth_error (f_networks (history evs)) (tn_coupling_network n)) as [net|] eqn:Enet; [|discriminate H].
  cbn [option_map bind] in H. unfold named_problem in H.
  destruct (build_problem (coupler_settings (add_component c net) db)) as [st|] eqn:Eb; [|discriminate H]. cbn [bind] in H.
  rewrite (traverse_same _ _ root None En) in H.
  set (nodes := traverse (history evs) root None) in *.
  destruct (mapM (build_node f' db (List.length nodes)) nodes) as [parts|] eqn:Eparts; [|discriminate H]. cbn [bind] in H.
  inv_bind H. injection H as <-. cbn [bd_master bd_subproblems].
  pose proof (proj1 (history_infos evs _) _ Hi) as Oi. pose proof (history_networks evs _ _ Enet) as Onet.
  pose proof (coupling_component_id _ _ _ Hc) as Hid. destruct (add_coupling_network c net Hid Onet) as [Onet' Hcs].
  assert (No : NoDup order) by (apply (Permutation_NoDup (Permutation_sym Ho)); apply Oi).
  destruct (coupling_component_spec _ _ _ _ Oi No Hc) as [_ Hm].
  exists n, st, parts. split; [exact Hn|]. split; [reflexivity|]. split; [|split; [|split; [assumption|reflexivity]]].
  - destruct (coupler_sound _ db _ _ _ _ Onet' Hcs Hm Oi Ho st Eb) as [S1 S2].
    destruct (coupler_objective _ db _ _ _ _ Onet' Hcs Hm Oi Ho st Eb) as [O1 O2].
    constructor; auto.
    + exact (coupler_vars _ db _ _ _ _ Onet' Hcs Hm Oi Ho st Eb).
    + intros m. exact (order_names _ _ _ Oi Ho m).
    + intros y. exact (coupler_rows _ db _ _ _ _ Onet' Hcs Hid Hm Oi Ho st y Eb).
  - apply mapM_ok in Eparts. clear - Eparts En. unfold nodes in *. revert Eparts. generalize (List.length (traverse (history evs) root None)).
    intros size F. induction F as [|j part l ps Hj F IH]; constructor; auto. rewrite (build_node_same _ _ _ _ _ En) in Hj. now apply build_node_part.
Qed.

(** ** Names in the investment problem of a node *)
Lemma cancel_end (s : string) : forall a b, (a ++ s)%string = (b ++ s)%string -> a = b.
Proof.
  assert (L : forall u v, String.length (u ++ v) = (String.length u + String.length v)%nat) by (induction u; intros; cbn; auto).
  induction a as [|x a IH]; intros [|z b] H; cbn in H; auto.
  - apply (f_equal String.length) in H. cbn in H. rewrite L in H. lia.
  - apply (f_equal String.length) in H. cbn in H. rewrite L in H. lia.
  - injection H as <- H. f_equal. auto.
Qed.
Section Investment.
  Context (n : tree_node) (p : num) (db : database) (st : state).
  Context (Hid : tn_id n <> "") (Hids : apart (map co_id (all_components (tn_network n)))) (Hn : named_network (tn_network n))
    (Hcs : forall c, In c (all_components (tn_network n)) -> NoDup (map c_name (get_constraints InvestmentProblem (co_model c))))
    (Hb : build_problem (investment_settings n p db) = Ok st).
  Let o := investment_settings n p db.
  Lemma investment_distinct : distinct_ids (o_network o).
  Proof. exact (proj1 Hids). Qed.
  Lemma prefix_of z : z <> "" -> name_prefix o z = (z ++ "_")%string.
  Proof. intros Hz. unfold name_prefix. cbn. destruct (String.eqb_spec z ""); [congruence|reflexivity]. Qed.
  Lemma component_named c : In c (all_components (tn_network n)) -> co_id c <> "".
  Proof. intros H E. apply (proj1 (proj2 Hids)). rewrite <- E. now apply in_map. Qed.
  Lemma investment_name c v t s : In (c, v, (t, s)) (var_insts o) -> inst_name o (c, v, (t, s)) = joined (tn_id n) (co_id c) (v_name v).
  Proof.
    intros H. apply var_insts_In in H as (Hc & _ & _ & Hs). cbn [inst_name]. unfold solver_variable_name, joined.
    change (o_tree_node o) with (tn_id n). rewrite (prefix_of _ Hid), (prefix_of _ (component_named c Hc)), !append_assoc.
    assert (T : name_suffix "t" (block_length o) t = "") by (unfold name_suffix; destruct t; reflexivity).
    assert (S : name_suffix "s" (o_scenarios o) s = "") by (unfold name_suffix; destruct s; reflexivity).
    rewrite T, S. now rewrite append_nil_r.
  Qed.
  Lemma joined_inj c c' v v' : In c (all_components (tn_network n)) -> In c' (all_components (tn_network n)) ->
    joined (tn_id n) (co_id c) v = joined (tn_id n) (co_id c') v' -> co_id c = co_id c' /\ v = v'.
  Proof.
    intros Hc Hc' E. unfold joined in E. apply append_inj_r, append_inj_r in E.
    apply tail_cut in E; [|right; eexists; reflexivity|right; eexists; reflexivity|apply Hids; now apply in_map|apply Hids; now apply in_map].
    destruct E as [E1 E2]. apply append_inj_r in E2. auto.
  Qed.
  Lemma investment_names : NoDup (map (inst_name o) (var_insts o)).
  Proof.
    apply NoDup_map_inj; [|exact (NoDup_map_inv _ _ (keys_nodup o investment_distinct Hn))].
    intros [[c v] [t s]] [[c' v'] [t' s']] H H' E. rewrite (investment_name _ _ _ _ H), (investment_name _ _ _ _ H') in E.
    apply var_insts_In in H, H'. pose proof H as (Hc & Hv & Ht & Hs). pose proof H' as (Hc' & Hv' & Ht' & Hs').
    destruct (joined_inj _ _ _ _ Hc Hc' E) as [E1 E2].
    destruct (instance_unique o investment_distinct Hn _ _ _ _ _ _ _ _ H H' E1 E2) as [-> ->].
    change (o_scenarios o) with 0%Z in *. change (Z.of_nat (List.length (o_block o))) with 1%Z in *. unfold index_of in Hs, Hs', Ht, Ht'. destruct s as [s|]; [lia|]. destruct s' as [s'|]; [lia|].
    destruct t as [t|], t' as [t'|]; cbn in Ht, Ht'; try congruence; try (destruct Ht, Ht'; congruence); try (destruct Ht; congruence); try (destruct Ht'; congruence).
    replace t' with t by lia. reflexivity.
  Qed.
  Lemma investment_sound : sound_solver (st_solver st) /\ sound_columns st.
  Proof.
    split.
    - exact (built_sound o st investment_distinct Hn investment_names Hb).
    - exact (built_columns o st investment_distinct Hn investment_names Hb).
  Qed.
  Lemma investment_vars v : In v (map sv_name (s_vars (st_solver st))) <->
    exists c x, In c (all_components (tn_network n)) /\ In x (get_variables InvestmentProblem (co_model c)) /\
      ix_scenario (v_structure x) = false /\ v = joined (tn_id n) (co_id c) (v_name x).
  Proof.
    rewrite (proj1 (built_view o st investment_distinct Hn investment_names Hb)). rewrite in_map_iff. split.
    - intros ([[c x] [t s]] & <- & H). rewrite (investment_name _ _ _ _ H). apply var_insts_In in H as (Hc & Hx & Ht & Hs).
      exists c, x. repeat (split; [assumption|]). split; [|reflexivity]. change (o_scenarios o) with 0%Z in Hs. destruct s; unfold index_of in Hs; [lia|exact Hs].
    - intros (c & x & Hc & Hx & Hs & ->). exists (c, x, ((if ix_time (v_structure x) then Some 0%Z else None), None)).
      assert (H : In (c, x, ((if ix_time (v_structure x) then Some 0%Z else None), None)) (var_insts o)).
      { apply var_insts_In. split; [exact Hc|]. split; [exact Hx|]. split; [|exact Hs]. destruct (ix_time (v_structure x)) eqn:Ex; cbn; auto.
        split; [reflexivity|lia]. }
      split; [now apply investment_name|exact H].
  Qed.
  Definition row_name (ck : component * constraint) : string := (co_id (fst ck) ++ "_" ++ c_name (snd ck) ++ "_t0_s0")%string.
  Lemma investment_block st1 ck rows : block_rows o st1 ck rows -> rows = [] \/ exists r, rows = [r] /\ sr_name r = row_name ck.
  Proof.
    intros (ic & Hic & H). unfold create_constraint in H. inv_bind H. inv_bind H.
    match type of H with mapM _ (list_prod (get_time_indices o ?ix) _) = _ => set (ix0 := ix) in * end.
    assert (T : get_time_indices o ix0 = [0%Z]) by (unfold get_time_indices; destruct (ix_time ix0); reflexivity).
    rewrite T in H. unfold get_scenario_indices in H. destruct (ix_scenario ix0); cbn in H; [left; congruence|].
    inv_bind H. injection H as <-. right. eexists. split; [reflexivity|].
    match goal with B : create_row _ _ _ _ _ _ = Ok _ |- _ => unfold create_row in B; inv_bind B; inv_bind B; inv_bind B; unfold make_constraint in B; inv_bind B; injection B as <- end.
    cbn [sr_name]. unfold row_name. unfold instantiate_constraint in Hic. inv_bind Hic. inv_bind Hic. inv_bind Hic.
    apply mk_constraint_name in Hic as [Hic _]. rewrite Hic. now rewrite !append_assoc.
  Qed.
  Lemma row_names_unique : NoDup (map row_name (row_pairs o)).
  Proof.
    assert (C : forall c, In c (all_components (tn_network n)) -> NoDup (get_constraints InvestmentProblem (co_model c)))
      by (intros c Hc; exact (NoDup_map_inv _ _ (Hcs c Hc))).
    apply NoDup_map_inj.
    - intros [c k] [c' k'] H H' E. unfold row_pairs in H, H'. apply in_flat_map in H as (x & Hx & H), H' as (x' & Hx' & H').
      apply in_map_iff in H as (u & [= <- <-] & Hu), H' as (u' & [= <- <-] & Hu'). unfold row_name in E. cbn [fst snd] in E.
      apply tail_cut in E; [|right; eexists; reflexivity|right; eexists; reflexivity|apply Hids; now apply in_map|apply Hids; now apply in_map].
      destruct E as [E1 E2]. apply append_inj_r in E2. apply cancel_end in E2.
      assert (x = x') by (exact (NoDup_map_inj_in _ _ _ _ (proj1 Hids) Hx Hx' E1)). subst x'.
      f_equal. exact (NoDup_map_inj_in _ _ _ _ (Hcs x Hx) Hu Hu' E2).
    - unfold row_pairs. apply NoDup_flat_map.
      + exact (NoDup_map_inv _ _ (proj1 Hids)).
      + intros c Hc. apply FinFun.Injective_map_NoDup; [intros ? ? [=]; assumption|exact (C c Hc)].
      + intros c c' b _ _ H H'. apply in_map_iff in H as (u & <- & _), H' as (u' & [= <- _] & _). reflexivity.
  Qed.
  Lemma investment_rows : NoDup (map sr_name (s_rows (st_solver st))) /\ incl (map sr_name (s_rows (st_solver st))) (map row_name (row_pairs o)).
  Proof.
    destruct (built_rows o st investment_distinct Hn Hb) as (st1 & rss & _ & _ & _ & _ & _ & F & ->).
    pose proof row_names_unique as N. revert N. generalize (row_pairs o) rss F. clear. intros l rss F N.
    induction F as [|ck rows l rss B F IH]; [split; [constructor|intros ? []]|]. cbn in N. inversion_clear N as [|? ? Na Nl]. destruct (IH Nl) as [I1 I2].
    destruct (investment_block _ _ _ B) as [->|(r & -> & Er)]; cbn.
    - split; [exact I1|]. intros x Hx. right. now apply I2.
    - rewrite Er. split; [constructor; [|exact I1]; intros H; apply Na; now apply I2|]. intros x [<-|Hx]; [now left|right; now apply I2].
  Qed.
End Investment.

(** ** The masters of a tree can be merged *)
Lemma nodup_prefixed {A} (g : A -> string) (h : A -> list string) l : NoDup (map g l) -> (forall a b, In a (map g l) -> In b (map g l) -> ~ extends a b) ->
  (forall a, In a l -> NoDup (h a) /\ forall x, In x (h a) -> exists w, x = (g a ++ "_" ++ w)%string) -> NoDup (flat_map h l).
Proof.
  intros N X H. apply NoDup_flat_map.
  - exact (NoDup_map_inv _ _ N).
  - intros a Ha. apply H, Ha.
  - intros a a' x Ha Ha' Hx Hx'. destruct (proj2 (H a Ha) x Hx) as (w & Ew), (proj2 (H a' Ha') x Hx') as (w' & Ew').
    apply (NoDup_map_inj_in _ _ _ _ N Ha Ha'). rewrite Ew in Ew'.
    apply tail_cut in Ew'; [tauto|right; eexists; reflexivity|right; eexists; reflexivity|apply X; now apply in_map|apply X; now apply in_map].
Qed.
(** the masters beside their nodes *)
Definition master_of (db : database) (n : tree_node) (m : problem) : Prop :=
  exists p st, tn_prob n = Some p /\ m = {| pb_name := ("master_" ++ tn_id n)%string; pb_state := st |} /\ build_problem (investment_settings n p db) = Ok st.
Definition usable_node (n : tree_node) : Prop :=
  tn_id n <> "" /\ apart (map co_id (all_components (tn_network n))) /\ named_network (tn_network n) /\
  forall c, In c (all_components (tn_network n)) -> NoDup (map c_name (get_constraints InvestmentProblem (co_model c))).
Lemma tree_masters f db nodes parts : apart_tree f nodes -> (1 < List.length nodes)%nat ->
  Forall2 (part_of f db (List.length nodes)) nodes parts ->
  exists ns, map (nth_error (f_nodes f)) nodes = map Some ns /\ apart (map tn_id ns) /\ Forall usable_node ns /\
    Forall2 (master_of db) ns (map fst parts).
Proof.
  intros ((ns & E & A) & H) L F. exists ns. split; [exact E|]. split; [exact A|].
  assert (S : forall n, suffix_tree (List.length nodes) n = ("_" ++ tn_id n)%string).
  { intros n. unfold suffix_tree. destruct (Nat.ltb_spec 1 (List.length nodes)); [reflexivity|lia]. }
  revert S F. generalize (List.length nodes). intros size S F. destruct A as (_ & A & _). clear L.
  revert ns E A. induction F as [|j part l ps P F IH]; intros ns E A; destruct ns as [|n ns]; try discriminate E.
  - split; constructor.
  - cbn in E. injection E as En E. destruct (IH (fun i n0 Hi => H i n0 (or_intror Hi)) ns E (fun K => A (or_intror K))) as [I1 I2].
    destruct (H j n (or_introl eq_refl) En) as (H1 & H2 & H3). split; constructor; auto.
    + split; [intros K; apply A; now left|auto].
    + destruct P as (n' & p & st & Hn & Hp & Hm & Hb & _). rewrite En in Hn. injection Hn as <-. exists p, st. rewrite S in Hm. auto.
Qed.
Lemma Forall2_flat {A B C} (R : A -> B -> Prop) (h : B -> list C) l m : Forall2 R l m ->
  flat_map h m = flat_map (fun ab => h (snd ab)) (combine l m) /\ map fst (combine l m) = l /\ forall ab, In ab (combine l m) -> R (fst ab) (snd ab) /\ In (fst ab) l /\ In (snd ab) m.
Proof.
  intros F. induction F as [|a b l m H F IH]; [cbn; split; [reflexivity|]; split; [reflexivity|intros ? []]|]. destruct IH as (I1 & I2 & I3). cbn. split; [now rewrite I1|]. split; [now rewrite I2|].
  intros ab [<-|Hab]; cbn; [auto|]. destruct (I3 ab Hab) as (J1 & J2 & J3). auto.
Qed.
Lemma tree_mergeable f db nodes parts order E st : apart_tree f nodes -> (1 < List.length nodes)%nat ->
  Forall2 (part_of f db (List.length nodes)) nodes parts -> coupler_of order E st ->
  mergeable (map fst parts) {| pb_name := "coupler"; pb_state := st |}.
Proof.
  intros A L F C. destruct (tree_masters f db nodes parts A L F) as (ns & En & (N1 & N2 & N3) & U & M).
  assert (G : forall n m, In (n, m) (combine ns (map fst parts)) -> usable_node n /\ master_of db n m).
  { intros n m H. destruct (Forall2_flat _ (fun _ => @nil nat) _ _ M) as (_ & _ & K). destruct (K _ H) as (K1 & K2 & _). cbn in *.
    split; [exact (proj1 (Forall_forall _ _) U n K2)|exact K1]. }
  constructor.
  - rewrite map_length, <- (Forall2_len _ _ _ F). lia.
  - split; apply C.
  - intros m Hm. destruct (In_nth_error _ _ Hm) as (k & Hk).
    assert (Hc : exists n, In (n, m) (combine ns (map fst parts))).
    { clear - M Hm. induction M as [|n m' ns ms R M IH]; [destruct Hm|]. destruct Hm as [<-|Hm]; [exists n; now left|]. destruct (IH Hm) as (n' & Hn). exists n'. now right. }
    destruct Hc as (n & Hc). destruct (G n m Hc) as ((U1 & U2 & U3 & U4) & p & stm & _ & -> & Hb).
    exact (investment_sound n p db stm U1 U2 U3 Hb).
  - destruct (Forall2_flat _ variable_names _ _ M) as (K1 & K2 & _). rewrite K1.
    assert (Km : map (fun ab : tree_node * problem => tn_id (fst ab)) (combine ns (map fst parts)) = map tn_id ns).
    { etransitivity; [symmetry; apply (map_map fst tn_id)|]. now rewrite K2. }
    apply (nodup_prefixed (fun ab => tn_id (fst ab))).
    + now rewrite Km.
    + now rewrite Km.
    + intros [n m] Hc. destruct (G n m Hc) as ((U1 & U2 & U3 & U4) & p & stm & _ & -> & Hb). cbn [fst snd]. unfold variable_names, solver_of. cbn [pb_state].
      destruct (investment_sound n p db stm U1 U2 U3 Hb) as [(S1 & _) _]. split; [exact S1|].
      intros x Hx. apply (investment_vars n p db stm U1 U2 U3 Hb) in Hx as (c & v & _ & _ & _ & ->). eexists. reflexivity.
  - destruct (Forall2_flat _ row_keys _ _ M) as (K1 & K2 & _). rewrite K1.
    assert (Km : map (fun ab : tree_node * problem => tn_id (fst ab)) (combine ns (map fst parts)) = map tn_id ns).
    { etransitivity; [symmetry; apply (map_map fst tn_id)|]. now rewrite K2. }
    apply (nodup_prefixed (fun ab => "master_" ++ tn_id (fst ab))%string).
    + rewrite <- (map_map (fun ab : tree_node * problem => tn_id (fst ab)) (fun x => "master_" ++ x)%string), Km.
      apply FinFun.Injective_map_NoDup; [intros x x'; apply append_inj_r|exact N1].
    + rewrite <- (map_map (fun ab : tree_node * problem => tn_id (fst ab)) (fun x => "master_" ++ x)%string), Km.
      intros a b Ha Hb (z & Ez). apply in_map_iff in Ha as (x & <- & Hx), Hb as (x' & <- & Hx'). apply (N3 x x' Hx Hx'). exists z.
      rewrite !append_assoc in Ez. now apply append_inj_r in Ez.
    + intros [n m] Hc. destruct (G n m Hc) as ((U1 & U2 & U3 & U4) & p & stm & _ & -> & Hb). cbn [fst snd]. unfold row_keys, solver_of. cbn [pb_state pb_name].
      destruct (investment_rows n p db stm U2 U3 U4 Hb) as [R1 _]. split.
      * rewrite <- (map_map sr_name (fun x => ("master_" ++ tn_id n) ++ "_" ++ x)%string). apply FinFun.Injective_map_NoDup; [|exact R1].
        intros x x' Ex. apply append_inj_r, append_inj_r in Ex. exact Ex.
      * intros x Hx. apply in_map_iff in Hx as (r & <- & _). eexists. reflexivity.
  - unfold solver_of. cbn [pb_state]. rewrite (co_objective _ _ _ C). intros k v [].
Qed.

(** ** The master *)
Lemma parts_length {A B} (R : A -> B -> Prop) l m : Forall2 R l m -> List.length m = List.length l.
Proof. intros F. symmetry. exact (Forall2_len _ _ _ F). Qed.
Lemma coupling_enforced evs root db order f' b n y : nth_error (f_nodes (history evs)) root = Some n ->
  some_order (history evs) root order -> build_benders (history evs) root db order = (f', Ok b) ->
  (1 < List.length (traverse (history evs) root None))%nat -> rows_hold y (solver_of (bd_master b)) ->
  forall q, asked evs (tn_coupling_info n) q -> equation_holds y q.
Proof.
  intros Hn Ho H L R q Hq. destruct (built_parts _ _ _ _ _ _ Ho H) as (n' & st & parts & Hn' & _ & C & F & Fu & _).
  rewrite Hn in Hn'. injection Hn' as <-. refine (proj1 (co_rows _ _ _ C y) _ q Hq).
  refine (coupler_kept _ _ _ y _ _ Fu R).
  - rewrite map_length, (parts_length _ _ _ F). lia.
  - exact (co_sound _ _ _ C).
Qed.
Lemma parts_states f db size nodes parts : Forall2 (part_of f db size) nodes parts ->
  Forall2 (investment_problem f db) nodes (map (fun part => pb_state (fst part)) parts).
Proof.
  intros F. induction F as [|j part l ps P F IH]; constructor; auto. destruct P as (n & p & st & Hn & Hp & Hm & Hb & _).
  exists n, p. rewrite Hm. auto.
Qed.
Lemma names_of_parts parts x : In x (flat_map variable_names (map fst parts)) <->
  exists st, In st (map (fun part : problem * list problem => pb_state (fst part)) parts) /\ In x (map sv_name (s_vars (st_solver st))).
Proof.
  rewrite in_flat_map. split.
  - intros (m & Hm & Hx). apply in_map_iff in Hm as (part & <- & Hp). exists (pb_state (fst part)). split; [|exact Hx].
    apply in_map_iff. eauto.
  - intros (st & Hs & Hx). apply in_map_iff in Hs as (part & <- & Hp). exists (fst part). split; [now apply in_map|exact Hx].
Qed.
Lemma master_meaning evs root db order f' b n : nth_error (f_nodes (history evs)) root = Some n ->
  some_order (history evs) root order -> build_benders (history evs) root db order = (f', Ok b) ->
  (1 < List.length (traverse (history evs) root None))%nat -> apart_tree (history evs) (traverse (history evs) root None) ->
  exists sts, Forall2 (investment_problem (history evs) db) (traverse (history evs) root None) sts /\
    (forall y, feasible y (solver_of (bd_master b)) <->
       (forall q, asked evs (tn_coupling_info n) q -> equation_holds y q) /\
       (forall q x, asked evs (tn_coupling_info n) q -> In x (equation_names q) ->
          (forall st, In st sts -> ~ In x (map sv_name (s_vars (st_solver st)))) -> (0 <= y x)%Qc) /\
       (forall st, In st sts -> bounds_hold y (st_solver st) /\ term_rows_hold y (st_solver st))) /\
    (forall y, cost y (solver_of (bd_master b)) = osum (map (fun st => cost y (st_solver st)) sts)) /\
    (forall x, In x (variable_names (bd_master b)) <->
       (exists q, asked evs (tn_coupling_info n) q /\ In x (equation_names q)) \/
       exists st, In st sts /\ In x (map sv_name (s_vars (st_solver st)))) /\
    NoDup (variable_names (bd_master b)) /\ sound_columns (pb_state (bd_master b)) /\ pb_name (bd_master b) = "master".
Proof.
  intros Hn Ho H L A. destruct (built_parts _ _ _ _ _ _ Ho H) as (n' & st & parts & Hn' & _ & C & F & Fu & _).
  rewrite Hn in Hn'. injection Hn' as <-. pose proof (tree_mergeable _ _ _ _ _ _ _ A L F C) as M.
  exists (map (fun part => pb_state (fst part)) parts). split; [exact (parts_states _ _ _ _ _ F)|]. split; [|split; [|split; [|split; [|split]]]].
  - intros y. rewrite (merged_feasible _ _ _ M Fu y). unfold solver_of at 1. cbn [pb_state]. rewrite (co_rows _ _ _ C y). split.
    + intros (H1 & H2 & H3). split; [exact H1|]. split.
      * intros q x Hq Hx Hno. assert (Hin : In x order) by (apply (co_names _ _ _ C); eauto).
        assert (W : within {| sv_name := x; sv_lb := n0; sv_ub := PInf; sv_integer := false |} (y x)).
        { apply (H2 {| sv_name := x; sv_lb := n0; sv_ub := PInf; sv_integer := false |}). split.
          - unfold solver_of. cbn [pb_state]. rewrite (co_vars _ _ _ C). apply in_map_iff. eauto.
          - cbn [sv_name]. rewrite names_of_parts. intros (st' & Hs & Hx'). exact (Hno st' Hs Hx'). }
        exact (proj1 W).
      * intros st' Hs. apply in_map_iff in Hs as (part & <- & Hp). apply (H3 (fst part)). now apply in_map.
    + intros (H1 & H2 & H3). split; [exact H1|]. split.
      * intros v [Hv Hno]. unfold solver_of in Hv. cbn [pb_state] in Hv. rewrite (co_vars _ _ _ C) in Hv. apply in_map_iff in Hv as (x & <- & Hx).
        cbn [sv_name] in *. rewrite names_of_parts in Hno. apply (co_names _ _ _ C) in Hx as (q & Hq & Hx). split; [|exact I].
        cbn. apply (H2 q x Hq Hx). intros st' Hs Hx'. apply Hno. eauto.
      * intros m Hm. apply in_map_iff in Hm as (part & <- & Hp). apply (H3 (pb_state (fst part))). apply in_map_iff. eauto.
  - intros y. rewrite (merged_cost _ _ _ M Fu y). unfold cost at 1, solver_of at 1 2. cbn [pb_state]. rewrite (co_objective _ _ _ C).
    rewrite !map_map. unfold solver_of. change (coefs_value (by_name (st_solver st) y) []) with (Some 0%Qc).
    cbn [osum]. destruct (osum _); [|reflexivity]. f_equal. ring.
  - intros x. rewrite (merged_names _ _ _ M Fu), in_app_iff, filter_In, names_of_parts.
    assert (Nc : In x (variable_names {| pb_name := "coupler"; pb_state := st |}) <-> exists q, asked evs (tn_coupling_info n) q /\ In x (equation_names q)).
    { rewrite <- (co_names _ _ _ C x). unfold variable_names, solver_of. cbn [pb_state]. rewrite (co_vars _ _ _ C), map_map. cbn. now rewrite map_id. }
    rewrite Nc. split; [intros [K|[K _]]; auto|]. intros [K|K]; [now left|].
    destruct (existsb (String.eqb x) (variable_names {| pb_name := "coupler"; pb_state := st |})) eqn:Ex.
    + left. apply Nc. apply existsb_exists in Ex as (z & Hz & Ez). apply String.eqb_eq in Ez. now subst z.
    + right. split; [exact K|reflexivity].
  - exact (proj1 (proj2 (merged_sound _ _ _ M Fu))).
  - exact (proj1 (merged_sound _ _ _ M Fu)).
  - destruct (merged_accepts _ _ M) as (p & Ep & Np). rewrite Ep in Fu. injection Fu as Fu. now rewrite <- Fu.
Qed.
(** a tree of one node: no coupling, no merging *)
Lemma single_master evs root db order f' b : some_order (history evs) root order ->
  build_benders (history evs) root db order = (f', Ok b) -> List.length (traverse (history evs) root None) = 1%nat ->
  exists i n p st, traverse (history evs) root None = [i] /\ nth_error (f_nodes (history evs)) i = Some n /\ tn_prob n = Some p /\
    build_problem (investment_settings n p db) = Ok st /\ bd_master b = {| pb_name := "master"; pb_state := st |}.
Proof.
  intros Ho H L. destruct (built_parts _ _ _ _ _ _ Ho H) as (n' & st & parts & _ & _ & _ & F & Fu & _). rewrite L in F.
  destruct (traverse (history evs) root None) as [|i [|? ?]] eqn:Et; try discriminate L.
  inversion F as [|? part ? ps P F']; subst. inversion F'; subst. destruct P as (n & p & st' & Hn & Hp & Hm & Hb & _).
  exists i, n, p, st'. cbn in Fu. repeat (split; [auto|]). rewrite Hm in Fu. injection Fu as <-. reflexivity.
Qed.
(** ** The subproblems *)
Lemma subproblems_meaning evs root db order f' b : some_order (history evs) root order ->
  build_benders (history evs) root db order = (f', Ok b) ->
  exists sss, bd_subproblems b = concat sss /\
    Forall2 (fun i ss => exists n p, nth_error (f_nodes (history evs)) i = Some n /\ tn_prob n = Some p /\
       Forall2 (fun blk s => build_problem (operation_settings n p db (snd blk)) = Ok (pb_state s) /\
                  pb_name s = ("subproblem" ++ (if Nat.ltb 1 (List.length (traverse (history evs) root None)) then "_" ++ tn_id n else "")
                               ++ (if Nat.ltb 1 (List.length (tc_blocks (tn_config n))) then "_b" ++ string_of_Z (fst blk) else ""))%string)
               (tc_blocks (tn_config n)) ss)
      (traverse (history evs) root None) sss.
Proof.
  intros Ho H. destruct (built_parts _ _ _ _ _ _ Ho H) as (n' & st & parts & _ & _ & _ & F & _ & Es).
  exists (map snd parts). split; [now rewrite Es, flat_map_concat_map|]. clear - F.
  revert F. generalize (List.length (traverse (history evs) root None)). intros size F. induction F as [|j part l ps P F IH]; constructor; auto.
  destruct P as (n & p & st' & Hn & Hp & _ & _ & F2). exists n, p. split; [exact Hn|]. split; [exact Hp|].
  clear - F2. revert F2. generalize (snd part). unfold suffix_block. generalize (Nat.ltb 1 (List.length (tc_blocks (tn_config n)))). intros several ss F2.
  induction F2 as [|blk s bl ss (st0 & -> & Hb) F2 IH]; constructor; auto.
Qed.
(** ** What is accepted *)
Lemma build_accepted evs root db order n net : nth_error (f_nodes (history evs)) root = Some n -> some_order (history evs) root order ->
  nth_error (f_networks (history evs)) (tn_coupling_network n) = Some net ->
  (1 < List.length (traverse (history evs) root None))%nat -> apart_tree (history evs) (traverse (history evs) root None) ->
  (exists f' b, build_benders (history evs) root db order = (f', Ok b)) <->
  is_leaves_prob_sum_one (history evs) root = Ok true /\
  forall i, In i (traverse (history evs) root None) -> exists n p, nth_error (f_nodes (history evs)) i = Some n /\ tn_prob n = Some p /\
    (exists st, build_problem (investment_settings n p db) = Ok st) /\
    forall blk, In blk (tc_blocks (tn_config n)) -> exists st, build_problem (operation_settings n p db (snd blk)) = Ok st.
Proof.
  intros Hn Ho Enet L A. split.
  - intros (f' & b & H). destruct (built_parts _ _ _ _ _ _ Ho H) as (n' & st & parts & _ & Hp & _ & F & _). split; [exact Hp|].
    intros i Hi. revert F Hi. clear. generalize (List.length (traverse (history evs) root None)). generalize (traverse (history evs) root None).
    intros l size F Hi. induction F as [|j part l ps P F IH]; [destruct Hi|]. destruct Hi as [<-|Hi]; [|auto].
    destruct P as (n & p & st' & Hn & Hp & _ & Hb & F2). exists n, p. split; [exact Hn|]. split; [exact Hp|]. split; [eauto|].
    intros blk Hk. clear - F2 Hk. revert F2 Hk. generalize (snd part). unfold suffix_block. generalize (Nat.ltb 1 (List.length (tc_blocks (tn_config n)))). intros several ss F2 Hk.
    induction F2 as [|k s bl ss (st0 & _ & Hb) F2 IH]; [destruct Hk|]. destruct Hk as [<-|Hk]; eauto.
  - intros [Hp Hall]. pose proof Ho as (n' & i & Hn' & Hi & Hperm). rewrite Hn in Hn'. injection Hn' as <-.
    set (nodes := traverse (history evs) root None) in *.
    assert (P : exists parts, Forall2 (part_of (history evs) db (List.length nodes)) nodes parts).
    { clear - Hall. generalize (List.length nodes). intros size. induction nodes as [|j l IH]; [exists []; constructor|].
      destruct IH as (ps & F); [intros k Hk; apply Hall; now right|]. destruct (Hall j (or_introl eq_refl)) as (n & p & Hn & Hp & (st & Hb) & Hs).
      assert (S : forall bl, incl bl (tc_blocks (tn_config n)) -> exists ss,
        Forall2 (fun b s => exists st', s = {| pb_name := "subproblem" ++ suffix_tree size n ++ suffix_block (tc_blocks (tn_config n)) (fst b); pb_state := st' |} /\
               build_problem (operation_settings n p db (snd b)) = Ok st') bl ss).
      { induction bl as [|k bl IHb]; intros Hbl; [exists []; constructor|]. destruct IHb as (ss & Fs); [intros x Hx; apply Hbl; now right|].
        destruct (Hs k) as (st' & Hst); [apply Hbl; now left|]. eexists (_ :: ss). constructor; [eexists; split; [reflexivity|exact Hst]|exact Fs]. }
      destruct (S _ (incl_refl _)) as (ss & Fs). exists (({| pb_name := ("master" ++ suffix_tree size n)%string; pb_state := st |}, ss) :: ps).
      constructor; [|exact F]. exists n, p, st. cbn. repeat (split; [auto|]). exact Fs. }
    destruct P as (parts & F).
    unfold build_benders. rewrite Hp. unfold add_coupling_constraints, node_at, info_at. rewrite Hn. cbn [bind]. rewrite Hi. cbn [bind].
    pose proof (proj1 (history_infos evs _) _ Hi) as Oi. pose proof (history_networks evs _ _ Enet) as Onet.
    destruct (coupling_component_ok order i _ Oi) as (c & Ec). rewrite Ec. cbn [bind].
    pose proof (coupling_component_id _ _ _ Ec) as Hid. destruct (add_coupling_network c net Hid Onet) as [Onet' Hcs].
    assert (No : NoDup order) by (apply (Permutation_NoDup (Permutation_sym Hperm)); apply Oi).
    destruct (coupling_component_spec _ _ _ _ Oi No Ec) as [_ Hm].
    destruct (coupler_built _ db _ _ _ _ Onet' Hcs Hid Hm Oi Hperm) as (st & Eb).
    set (f1 := {| f_nodes := f_nodes (history evs); f_networks := _; f_infos := f_infos (history evs) |}).
    exists f1. unfold build_problems, node_at. change (f_nodes f1) with (f_nodes (history evs)). rewrite Hn. cbn [bind].
    assert (En : nth_error (f_networks f1) (tn_coupling_network n) = Some (add_component c net)).
    { unfold f1. cbn [f_networks]. rewrite nth_update, Nat.eqb_refl, Enet. reflexivity. }
    rewrite En. cbn [bind]. unfold named_problem. rewrite Eb. cbn [bind].
    rewrite (traverse_same (history evs) f1 root None eq_refl). fold nodes.
    assert (Ep : mapM (build_node f1 db (List.length nodes)) nodes = Ok parts).
    { clear - F. revert F. generalize (List.length nodes). intros size F. induction F as [|j part l ps P F IH]; [reflexivity|]. cbn [mapM].
      rewrite (build_node_same (history evs) f1 _ _ _ eq_refl). apply build_node_part in P. rewrite P. cbn [bind]. now rewrite IH. }
    rewrite Ep. cbn [bind].
    assert (C : coupler_of order (asked evs (tn_coupling_info n)) st).
    { destruct (coupler_sound _ db _ _ _ _ Onet' Hcs Hm Oi Hperm st Eb) as [S1 S2].
      destruct (coupler_objective _ db _ _ _ _ Onet' Hcs Hm Oi Hperm st Eb) as [O1 O2].
      constructor; auto.
      - exact (coupler_vars _ db _ _ _ _ Onet' Hcs Hm Oi Hperm st Eb).
      - intros m. exact (order_names _ _ _ Oi Hperm m).
      - intros y. exact (coupler_rows _ db _ _ _ _ Onet' Hcs Hid Hm Oi Hperm st y Eb). }
    destruct (merged_accepts _ _ (tree_mergeable _ _ _ _ _ _ _ A L F C)) as (m & Em & _). rewrite Em. cbn [bind]. eauto.
Qed.
