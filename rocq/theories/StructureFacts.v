(** Facts about the structure file (C39). *)
From Coq Require Import Lia Permutation Ascii.
From Verif Require Import Base BaseFacts Expr Visitors LinearExpr Model ModelFacts Study Strategy Optim ModelEq Tree Fusion Benders.
From Verif Require Import SpecExpr SpecLinear SpecModel SpecOptim SpecModelEq SpecFusion SpecBenders.
From Verif Require Import OptimFacts OptimProblem OptimNames LibraryFacts FusionFacts BuiltFacts ModelEqFacts BendersFacts CouplerFacts DecompositionFacts.
Local Open Scope string_scope.
Local Open Scope list_scope.

(** ** Columns *)
Definition info_columns (p : problem) : list (string * nat) :=
  map (fun ki => (vi_name (snd ki), vi_column (snd ki))) (st_infos (pb_state p)).
Lemma columns_of p : sound_columns (pb_state p) -> NoDup (variable_names p) ->
  Permutation (info_columns p) (columns p) /\ NoDup (map fst (info_columns p)).
Proof.
  intros (N & L & H) Nv.
  assert (Lv : List.length (variable_names p) = List.length (s_vars (st_solver (pb_state p)))) by apply map_length.
  assert (Nc : NoDup (columns p)).
  { apply (NoDup_map_inv fst). unfold columns. destruct (combine_map_fst (variable_names p) (seq 0 (List.length (variable_names p)))) as [E _]; [now rewrite seq_length|]. now rewrite E. }
  assert (I : incl (columns p) (info_columns p)).
  { intros [n i] Hi. unfold columns in Hi. apply combine_seq_nth in Hi as [_ Hi]. rewrite Nat.sub_0_r in Hi. unfold variable_names in Hi.
    rewrite nth_error_map in Hi. destruct (nth_error _ i) as [v|] eqn:Ev; [|discriminate]. cbn in Hi. injection Hi as <-.
    destruct (H i v Ev) as (info & G & E1 & E2). apply (dget_In String.eqb String.eqb_eq) in G.
    apply in_map_iff. exists (sv_name v, info). cbn. split; [congruence|exact G]. }
  assert (P : Permutation (columns p) (info_columns p)).
  { apply NoDup_Permutation_bis; [exact Nc| |exact I]. unfold info_columns, columns. rewrite map_length, combine_length, seq_length, L, Lv. lia. }
  split; [now apply Permutation_sym|]. apply (Permutation_NoDup (Permutation_map fst P)).
  unfold columns. destruct (combine_map_fst (variable_names p) (seq 0 (List.length (variable_names p)))) as [E _]; [now rewrite seq_length|]. now rewrite E.
Qed.
Lemma fold_dset {A B} (g : A -> string * B) (l : list A) : forall d, NoDup (map fst d ++ map (fun a => fst (g a)) l) ->
  fold_left (fun d a => dset String.eqb (fst (g a)) (snd (g a)) d) l d = d ++ map g l.
Proof.
  induction l as [|a l IH]; intros d N; cbn [fold_left map]; [now rewrite app_nil_r|]. cbn [map] in N.
  assert (Hn : ~ In (fst (g a)) (map fst d)).
  { apply NoDup_remove_2 in N. intros F. apply N, in_or_app. now left. }
  rewrite (dset_new String.eqb String.eqb_eq) by exact Hn. rewrite IH.
  - rewrite <- app_assoc. cbn. f_equal. f_equal. now destruct (g a).
  - rewrite map_app, <- app_assoc. cbn. exact N.
Qed.
Lemma nodup_filter_map {A} (g : A -> string) q l : NoDup (map g l) -> NoDup (map g (filter q l)).
Proof.
  induction l as [|a l IH]; cbn; intros N; [constructor|]. apply NoDup_cons_iff in N as [N1 N2].
  destruct (q a); [|auto]. cbn. constructor; [|auto]. intros F. apply N1. apply in_map_iff in F as (x & E & Hx). apply filter_In in Hx as [Hx _]. rewrite <- E. now apply in_map.
Qed.
Lemma master_listing p : NoDup (map fst (info_columns p)) -> master_columns p = info_columns p.
Proof.
  intros N. unfold master_columns, info_columns in *. rewrite map_map in N.
  exact (fold_dset (fun ki : string * var_info => (vi_name (snd ki), vi_column (snd ki))) _ [] N).
Qed.
Lemma filter_map_eq {A B} (g : A -> B) q l : filter q (map g l) = map g (filter (fun a => q (g a)) l).
Proof. induction l as [|a l IH]; cbn; [reflexivity|]. destruct (q (g a)); cbn; now rewrite IH. Qed.
Lemma fold_filter {A B} (q : A -> bool) (h : B -> A -> B) l : forall b,
  fold_left (fun b a => if q a then h b a else b) l b = fold_left h (filter q l) b.
Proof. induction l as [|a l IH]; intros b; cbn; [reflexivity|]. rewrite IH. now destruct (q a). Qed.
Lemma sub_listing cs p : NoDup (map fst (info_columns p)) ->
  candidate_columns cs p = filter (fun nc => dmem String.eqb (fst nc) cs) (info_columns p).
Proof.
  intros N. unfold candidate_columns, info_columns in *. rewrite map_map in N.
  rewrite (fold_filter (fun ki : string * var_info => dmem String.eqb (vi_name (snd ki)) cs) (fun d ki => dset String.eqb (vi_name (snd ki)) (vi_column (snd ki)) d)).
  rewrite filter_map_eq. cbn [fst].
  apply (fold_dset (fun ki : string * var_info => (vi_name (snd ki), vi_column (snd ki))) _ []). cbn [map app fst].
  now apply nodup_filter_map.
Qed.
(** the entries in the order of the file *)
Definition listed (b : benders) : list entry :=
  flat_map (fun pc => map (pair (fst pc)) (snd pc)) (problem_to_candidates b).
Definition line_of (e : entry) : string := structure_line (fst e) (fst (snd e)) (snd (snd e)).
Definition text_of (l : list entry) : string := fold_right (fun e t => (line_of e ++ t)%string) "" l.
Lemma append_nil s : (s ++ "")%string = s.
Proof. induction s; cbn; congruence. Qed.
Lemma text_lines p cs : forall text,
  fold_left (fun text ci => (text ++ structure_line p (fst ci) (snd ci))%string) cs text = (text ++ text_of (map (pair p) cs))%string.
Proof.
  induction cs as [|c cs IH]; intros text; cbn [fold_left map text_of fold_right]; [now rewrite append_nil|].
  rewrite IH, append_assoc. reflexivity.
Qed.
Lemma text_app l l' : text_of (l ++ l') = (text_of l ++ text_of l')%string.
Proof. unfold text_of. induction l as [|e l IH]; cbn [fold_right app]; [reflexivity|]. rewrite IH. now rewrite append_assoc. Qed.
Lemma export_text b : bd_subproblems b <> [] -> export_structure b = Ok (text_of (listed b)).
Proof.
  intros H. unfold export_structure. destruct (bd_subproblems b) as [|s ss] eqn:E; [contradiction|]. f_equal. unfold listed. clear.
  transitivity ("" ++ text_of (flat_map (fun pc : string * list (string * nat) => map (pair (fst pc)) (snd pc)) (problem_to_candidates b)))%string; [|reflexivity].
  generalize ""%string as text. induction (problem_to_candidates b) as [|pc l IH]; intros text; cbn [fold_left flat_map]; [cbn; now rewrite append_nil|].
  rewrite text_lines, IH, text_app, append_assoc. reflexivity.
Qed.
Lemma dmem_in (d : dict string nat) n : dmem String.eqb n d = existsb (String.eqb n) (map fst d).
Proof.
  unfold dmem. induction d as [|[k v] d IH]; cbn; [reflexivity|]. rewrite (String.eqb_sym n k).
  destruct (String.eqb k n) eqn:E; cbn; [reflexivity|exact IH].
Qed.
Lemma existsb_perm {A} (q : A -> bool) l l' : Permutation l l' -> existsb q l = existsb q l'.
Proof. induction 1; cbn; try congruence. now rewrite !orb_assoc, (orb_comm (q y)). Qed.
Lemma filter_perm {A} (q : A -> bool) l l' : Permutation l l' -> Permutation (filter q l) (filter q l').
Proof.
  induction 1 as [|x l l' P IH|x y l|l m n P1 IH1 P2 IH2]; cbn; auto.
  - destruct (q x); auto.
  - destruct (q x), (q y); auto. apply perm_swap.
  - now apply (perm_trans IH1).
Qed.
Definition good_columns (p : problem) : Prop := sound_columns (pb_state p) /\ NoDup (variable_names p).
Lemma listed_shared b : NoDup ("master" :: map pb_name (bd_subproblems b)) ->
  good_columns (bd_master b) -> Forall good_columns (bd_subproblems b) -> Permutation (listed b) (shared b).
Proof.
  intros N [M1 M2] S. destruct (columns_of _ M1 M2) as [Pm Nm]. unfold listed, shared.
  assert (E : problem_to_candidates b = ("master", info_columns (bd_master b)) ::
      map (fun p => (pb_name p, candidate_columns (info_columns (bd_master b)) p)) (bd_subproblems b)).
  { unfold problem_to_candidates. cbv zeta. rewrite (master_listing _ Nm).
    exact (fold_dset (fun p => (pb_name p, candidate_columns (info_columns (bd_master b)) p)) (bd_subproblems b) [("master", info_columns (bd_master b))] N). }
  rewrite E. clear E.
  cbn [app flat_map fst snd]. apply Permutation_app; [now apply Permutation_map|].
  assert (Q : forall n, dmem String.eqb n (info_columns (bd_master b)) = existsb (String.eqb n) (variable_names (bd_master b))).
  { intros n. rewrite dmem_in. rewrite (existsb_perm _ _ _ (Permutation_map fst Pm)). f_equal. unfold columns. apply combine_map_fst. now rewrite seq_length. }
  clear N. revert Q. generalize (info_columns (bd_master b)) as cs. intros cs Q.
  induction S as [|s ss [S1 S2] S IH]; cbn [map flat_map fst snd]; [constructor|]. apply Permutation_app; [|exact IH].
  apply Permutation_map. destruct (columns_of _ S1 S2) as [Ps Ns]. rewrite (sub_listing _ _ Ns).
  rewrite (filter_ext _ (fun nc => existsb (String.eqb (fst nc)) (variable_names (bd_master b)))) by (intros nc; apply Q).
  now apply filter_perm.
Qed.

(** ** Reading the text *)
Fixpoint without (c : ascii) (s : string) : bool :=
  match s with EmptyString => true | String a s => negb (Ascii.eqb a c) && without c s end.
Lemma split_cut c w r : without c w = true -> split c (w ++ String c r)%string = w :: split c r.
Proof.
  induction w as [|a w IH]; cbn; intros H.
  - now rewrite Ascii.eqb_refl.
  - apply andb_true_iff in H as [H1 H2]. apply negb_true_iff in H1. rewrite H1, (IH H2). reflexivity.
Qed.
Lemma split_end c w : without c w = true -> split c w = [w].
Proof.
  induction w as [|a w IH]; cbn; intros H; [reflexivity|]. apply andb_true_iff in H as [H1 H2]. apply negb_true_iff in H1. now rewrite H1, (IH H2).
Qed.
Lemma pieces_cut c w r : without c w = true -> w <> "" -> pieces c (w ++ String c r)%string = w :: pieces c r.
Proof.
  intros H Hw. unfold pieces. rewrite (split_cut _ _ _ H). cbn [filter]. apply String.eqb_neq in Hw. now rewrite Hw.
Qed.
Lemma pieces_end c w : without c w = true -> w <> "" -> pieces c w = [w].
Proof. intros H Hw. unfold pieces. rewrite (split_end _ _ H). cbn [filter]. apply String.eqb_neq in Hw. now rewrite Hw. Qed.
Lemma pieces_spaces k s : pieces " "%char (spaces k ++ s)%string = pieces " "%char s.
Proof. induction k as [|k IH]; cbn [spaces String.append]; [reflexivity|]. unfold pieces in *. cbn [split]. rewrite Ascii.eqb_refl. cbn [filter]. rewrite String.eqb_refl. cbn. exact IH. Qed.
Lemma plain_without s : plain s = true -> without " "%char s = true /\ without "010"%char s = true.
Proof.
  induction s as [|a s IH]; cbn; [auto|]. rewrite !andb_true_iff. intros [[H1 H2] H3]. destruct (IH H3). auto.
Qed.
Lemma without_app c a b : without c (a ++ b)%string = without c a && without c b.
Proof. induction a as [|x a IH]; cbn; [reflexivity|]. now rewrite IH, andb_assoc. Qed.
Lemma without_spaces k : without "010"%char (spaces k) = true.
Proof. induction k; cbn; auto. Qed.
Lemma app_empty a b : (a ++ b)%string = "" -> a = "" /\ b = "".
Proof. destruct a; cbn; [auto|discriminate]. Qed.
Lemma uint_without d c : (c = " "%char \/ c = "010"%char) -> without c (DecimalString.NilEmpty.string_of_uint d) = true.
Proof. intros [-> | ->]; induction d; cbn; auto. Qed.
Lemma digits_without n c : (c = " "%char \/ c = "010"%char) -> without c (string_of_Z (Z.of_nat n)) = true.
Proof.
  intros Hc. unfold string_of_Z, DecimalString.NilZero.string_of_int. destruct (Z.to_int (Z.of_nat n)) as [d|d] eqn:E.
  - unfold DecimalString.NilZero.string_of_uint. destruct d; try now apply uint_without. now destruct Hc as [-> | ->].
  - destruct n; discriminate.
Qed.
Lemma digits_some n : string_of_Z (Z.of_nat n) <> "".
Proof.
  unfold string_of_Z, DecimalString.NilZero.string_of_int. destruct (Z.to_int (Z.of_nat n)) as [d|d] eqn:E; [|discriminate].
  unfold DecimalString.NilZero.string_of_uint. destruct d; discriminate.
Qed.
Lemma spaces_some k : (0 < k)%nat -> exists j, spaces k = String " "%char (spaces j).
Proof. destruct k as [|k]; [lia|]. intros _. now exists k. Qed.
Definition row_text (e : entry) : string :=
  (right_aligned 50 (fst e) ++ right_aligned 50 (fst (snd e)) ++ right_aligned 10 (string_of_Z (Z.of_nat (snd (snd e)))))%string.
Lemma line_row e : line_of e = (row_text e ++ String "010"%char "")%string.
Proof. unfold line_of, row_text, structure_line. now rewrite !append_assoc. Qed.
Lemma row_words e : fits e -> pieces " "%char (row_text e) = as_row e.
Proof.
  intros (P1 & P2 & C1 & C2 & C3 & I1). destruct (plain_without _ P2) as [P2' _], (plain_without _ C2) as [C2' _].
  unfold row_text, as_row, right_aligned. destruct (spaces_some (50 - String.length (fst (snd e)))) as (j & ->); [lia|].
  destruct (spaces_some (10 - String.length (string_of_Z (Z.of_nat (snd (snd e)))))) as (k & ->); [lia|]. rewrite !append_assoc, pieces_spaces.
  cbn [String.append]. rewrite pieces_cut by assumption. f_equal. rewrite ?append_assoc, pieces_spaces. cbn [String.append].
  rewrite pieces_cut by assumption. f_equal. rewrite pieces_spaces. apply pieces_end; [|apply digits_some]. apply digits_without. now left.
Qed.
Lemma row_plain e : fits e -> without "010"%char (row_text e) = true /\ row_text e <> "".
Proof.
  intros (P1 & P2 & C1 & C2 & C3 & I1). destruct (plain_without _ P2) as [_ P2'], (plain_without _ C2) as [_ C2'].
  unfold row_text, right_aligned. split.
  - rewrite !without_app, !without_spaces, P2', C2', digits_without by now right. reflexivity.
  - intros E. apply app_empty in E as [E _]. apply app_empty in E as [_ E]. contradiction.
Qed.
Lemma text_rows l : Forall fits l -> rows_of_text (text_of l) = map as_row l.
Proof.
  unfold rows_of_text. induction 1 as [|e l He Hl IH]; [reflexivity|]. cbn [text_of fold_right map]. rewrite line_row, append_assoc.
  destruct (row_plain e He) as [W1 W2]. cbn [String.append]. rewrite pieces_cut by assumption. cbn [map]. rewrite (row_words e He). f_equal. exact IH.
Qed.

(** ** The file of a decomposition *)
Lemma structure_rows b : bd_subproblems b <> [] -> NoDup ("master" :: map pb_name (bd_subproblems b)) ->
  good_columns (bd_master b) -> Forall good_columns (bd_subproblems b) -> Forall fits (shared b) ->
  exists text rows, export_structure b = Ok text /\ Permutation rows (shared b) /\ rows_of_text text = map as_row rows.
Proof.
  intros H N M S Fi. exists (text_of (listed b)), (listed b). pose proof (listed_shared b N M S) as P.
  split; [now apply export_text|]. split; [exact P|]. apply text_rows. apply (Permutation_Forall (Permutation_sym P)). exact Fi.
Qed.
(** names of subproblems *)
Definition subproblem_name (size : nat) (n : tree_node) (blk : Z * list Z) : string :=
  ("subproblem" ++ (if Nat.ltb 1 size then "_" ++ tn_id n else "") ++
   (if Nat.ltb 1 (List.length (tc_blocks (tn_config n))) then "_b" ++ string_of_Z (fst blk) else ""))%string.
Lemma block_names size n : NoDup (map fst (tc_blocks (tn_config n))) -> NoDup (map (subproblem_name size n) (tc_blocks (tn_config n))).
Proof.
  intros N. unfold subproblem_name. destruct (Nat.ltb_spec 1 (List.length (tc_blocks (tn_config n)))) as [L|L].
  - apply NoDup_map_inj.
    + intros a b Ha Hb E. apply append_inj_r in E. apply append_inj_r in E. apply (append_inj_r "_b") in E. apply string_of_Z_inj in E.
      exact (NoDup_map_inj_in _ _ _ _ N Ha Hb E).
    + exact (NoDup_map_inv _ _ N).
  - destruct (tc_blocks (tn_config n)) as [|x [|y l]]; cbn in *; [constructor|repeat constructor; easy|lia].
Qed.
Lemma subproblem_names evs root db order f' b : some_order (history evs) root order ->
  build_benders (history evs) root db order = (f', Ok b) ->
  apart_tree (history evs) (traverse (history evs) root None) ->
  (forall i n, In i (traverse (history evs) root None) -> nth_error (f_nodes (history evs)) i = Some n -> NoDup (map fst (tc_blocks (tn_config n)))) ->
  NoDup ("master" :: map pb_name (bd_subproblems b)).
Proof.
  intros Ho H ((ns & En & (A1 & A2 & A3)) & _) B. destruct (subproblems_meaning _ _ _ _ _ _ Ho H) as (sss & Es & F).
  set (nodes := traverse (history evs) root None) in *.
  assert (Ln : List.length ns = List.length nodes) by (rewrite <- (map_length Some ns), <- En; apply map_length).
  assert (B' : forall n, In n ns -> NoDup (map fst (tc_blocks (tn_config n)))).
  { intros n Hn. assert (K : In (Some n) (map (nth_error (f_nodes (history evs))) nodes)) by (rewrite En; now apply in_map).
    apply in_map_iff in K as (i & Ei & Hi). exact (B i n Hi Ei). }
  assert (E : map pb_name (bd_subproblems b) = flat_map (fun n => map (subproblem_name (List.length nodes) n) (tc_blocks (tn_config n))) ns).
  { rewrite Es. clear - F En. revert F En. unfold subproblem_name. generalize (List.length nodes). intros size F. revert ns.
    induction F as [|i ss l sss (n & p & Hn & _ & F2) F IH]; intros ns En; destruct ns as [|n' ns]; try discriminate En; [reflexivity|].
    cbn in En. injection En as En1 En2. rewrite Hn in En1. injection En1 as <-. cbn [concat flat_map]. rewrite map_app, (IH ns En2). f_equal.
    clear - F2. revert F2. generalize (Nat.ltb 1 (List.length (tc_blocks (tn_config n)))). intros several F2.
    induction F2 as [|blk s bl ss (_ & Hs) F2 IH]; [reflexivity|]. cbn [map]. now rewrite Hs, IH. }
  constructor.
  - rewrite E. intros K. apply in_flat_map in K as (n & _ & K). apply in_map_iff in K as (blk & K & _). discriminate K.
  - rewrite E. apply NoDup_flat_map.
    + exact (NoDup_map_inv _ _ A1).
    + intros n Hn. apply block_names, B', Hn.
    + intros n n' x Hn Hn' Hx Hx'. apply in_map_iff in Hx as (blk & <- & _), Hx' as (blk' & E' & _). unfold subproblem_name in E'.
      apply append_inj_r in E'. destruct (Nat.ltb_spec 1 (List.length nodes)) as [L|L].
      * apply (NoDup_map_inj_in _ _ _ _ A1 Hn Hn'). rewrite !append_assoc in E'. apply (append_inj_r "_") in E'. symmetry.
        apply tail_cut in E'; [tauto| | |apply A3; now apply in_map|apply A3; now apply in_map].
        -- match goal with |- tail (if ?q then _ else _) => destruct q end; [right; eexists ("b" ++ _)%string; reflexivity|now left].
        -- match goal with |- tail (if ?q then _ else _) => destruct q end; [right; eexists ("b" ++ _)%string; reflexivity|now left].
      * clear - L Ln Hn Hn'. destruct ns as [|a [|c l]]; [destruct Hn| |cbn [List.length] in Ln; lia]. destruct Hn as [<-|[]], Hn' as [<-|[]]. reflexivity.
Qed.
Lemma good_sub n p db blk s : apart (map co_id (all_components (tn_network n))) -> named_network (tn_network n) ->
  build_problem (operation_settings n p db blk) = Ok (pb_state s) -> NoDup (variable_names s) -> good_columns s.
Proof.
  intros (D & _) Hn Hb Nv. split; [|exact Nv]. refine (built_columns _ _ _ _ _ Hb).
  - exact D.
  - exact Hn.
  - destruct (built_variables (operation_settings n p db blk) _ D Hn Hb) as (ports & _ & _ & _ & HF).
    assert (E : variable_names s = map (inst_name (operation_settings n p db blk)) (var_insts (operation_settings n p db blk))).
    { unfold variable_names, solver_of. clear -HF. induction HF as [|a b l m Hab HF IH]; [reflexivity|]. cbn [map]. f_equal; [|exact IH]. eapply made_name; eauto. }
    rewrite <- E. exact Nv.
Qed.
Lemma good_master evs root db order f' b n : nth_error (f_nodes (history evs)) root = Some n -> some_order (history evs) root order ->
  build_benders (history evs) root db order = (f', Ok b) -> (0 < List.length (traverse (history evs) root None))%nat ->
  apart_tree (history evs) (traverse (history evs) root None) -> good_columns (bd_master b).
Proof.
  intros Hn Ho H L A. destruct (Nat.eq_dec (List.length (traverse (history evs) root None)) 1) as [E|E].
  - destruct (single_master _ _ _ _ _ _ Ho H E) as (i & n' & p & st & Et & Hi & Hp & Hb & ->). destruct A as ((ns & En & (A1 & A2 & A3)) & A).
    rewrite Et in *. destruct ns as [|n0 [|? ?]]; try discriminate En. cbn in En. injection En as En. rewrite Hi in En. injection En as <-.
    destruct (A i n' (or_introl eq_refl) Hi) as (B1 & B2 & B3).
    assert (I : tn_id n' <> "") by (intros K; apply A2; now left).
    destruct (investment_sound n' p db st I B1 B2 Hb) as [(S1 & _) S2]. split; [exact S2|exact S1].
  - destruct (master_meaning _ _ _ _ _ _ _ Hn Ho H ltac:(lia) A) as (sts & _ & _ & _ & _ & N & S & _). split; [exact S|exact N].
Qed.
Lemma built_structure evs root db order f' b n : nth_error (f_nodes (history evs)) root = Some n -> some_order (history evs) root order ->
  build_benders (history evs) root db order = (f', Ok b) -> (0 < List.length (traverse (history evs) root None))%nat ->
  apart_tree (history evs) (traverse (history evs) root None) ->
  (forall i n, In i (traverse (history evs) root None) -> nth_error (f_nodes (history evs)) i = Some n -> NoDup (map fst (tc_blocks (tn_config n)))) ->
  (forall s, In s (bd_subproblems b) -> NoDup (variable_names s)) ->
  NoDup ("master" :: map pb_name (bd_subproblems b)) /\ good_columns (bd_master b) /\ Forall good_columns (bd_subproblems b).
Proof.
  intros Hn Ho H L A B Ns. split; [exact (subproblem_names _ _ _ _ _ _ Ho H A B)|]. split; [exact (good_master _ _ _ _ _ _ _ Hn Ho H L A)|].
  destruct (subproblems_meaning _ _ _ _ _ _ Ho H) as (sss & Es & F). destruct A as [_ A]. rewrite Es in *. clear - F A Ns.
  revert F Ns A. generalize (List.length (traverse (history evs) root None)). generalize (traverse (history evs) root None). intros nodes size F.
  induction F as [|i ss l sss (n & p & Hn & _ & F2) F IH]; intros Ns A; [constructor|]. cbn [concat] in *. apply Forall_app. split.
  - destruct (A i n (or_introl eq_refl) Hn) as (B1 & B2 & _).
    assert (N2 : forall s, In s ss -> NoDup (variable_names s)) by (intros s Hs; apply Ns, in_or_app; now left).
    clear - F2 B1 B2 N2. revert F2. generalize (Nat.ltb 1 (List.length (tc_blocks (tn_config n)))). intros several F2.
    induction F2 as [|blk s bl ss (Hb & _) F2 IH]; constructor.
    + exact (good_sub n p db _ s B1 B2 Hb (N2 s (or_introl eq_refl))).
    + apply IH. intros x Hx. apply N2. now right.
  - apply IH; [intros s Hs; apply Ns, in_or_app; now right|]. intros j m Hj. apply A. now right.
Qed.
Lemma built_file evs root db order f' b n : nth_error (f_nodes (history evs)) root = Some n -> some_order (history evs) root order ->
  build_benders (history evs) root db order = (f', Ok b) -> (0 < List.length (traverse (history evs) root None))%nat ->
  apart_tree (history evs) (traverse (history evs) root None) ->
  (forall i n, In i (traverse (history evs) root None) -> nth_error (f_nodes (history evs)) i = Some n -> NoDup (map fst (tc_blocks (tn_config n)))) ->
  (forall s, In s (bd_subproblems b) -> NoDup (variable_names s)) ->
  bd_subproblems b <> [] -> Forall fits (shared b) ->
  exists text rows, export_structure b = Ok text /\ Permutation rows (shared b) /\ rows_of_text text = map as_row rows.
Proof.
  intros Hn Ho H L A B Ns Hs Fi. destruct (built_structure _ _ _ _ _ _ _ Hn Ho H L A B Ns) as (N & M & S). now apply structure_rows.
Qed.
Lemma no_file b : bd_subproblems b = [] <-> export_structure b = Err RuntimeErr.
Proof. unfold export_structure. destruct (bd_subproblems b); split; congruence. Qed.

(** ** What an accepted call says *)
Lemma component_in_true c l : component_in c l = Ok true -> exists d, In d l /\ component_eqv d c = Ok true.
Proof.
  induction l as [|d l IH]; cbn; intros H; [discriminate|]. destruct (component_eqv d c) as [[|]|] eqn:E; cbn in H; [|destruct (IH H) as (d' & ? & ?)|discriminate]; eauto.
Qed.
Lemma given_in_true g net : given_in g net = Ok true -> exists d, In d (all_components net) /\ component_eqv d (given_component g) = Ok true.
Proof.
  destruct g; cbn; intros H; apply component_in_true in H as (d & Hd & E); exists d; (split; [|exact E]); apply in_or_app; auto.
Qed.
Lemma variable_kept d c n : component_eqv d c = Ok true -> proper_model (co_model d) -> proper_model (co_model c) -> is_variable_in_model c n = true ->
  co_id d = co_id c /\ In n (map fst (m_variables (co_model d))).
Proof.
  intros E Pd Pc V. apply component_eqv_true in E as [E Ei]. split; [exact Ei|]. apply (model_eq_true _ _ Pd Pc) in E.
  destruct E as (_ & _ & _ & _ & _ & E & _). specialize (E n). unfold is_variable_in_model, dmem in V.
  destruct (dget String.eqb n (m_variables (co_model c))); [|discriminate].
  destruct (dget String.eqb n (m_variables (co_model d))) as [w|] eqn:G; [|destruct E]. apply (dget_In String.eqb String.eqb_eq) in G. apply (in_map fst) in G. exact G.
Qed.
Lemma accepted_call f self c f' n : define_coupling_constraint f self c = Ok f' -> nth_error (f_nodes f) self = Some n ->
  proper_model (co_model (given_component (cc_child c))) -> proper_model (co_model (given_component (cc_parent c))) -> proper_network (tn_network n) ->
  has_variable (tn_network n) (co_id (given_component (cc_child c))) (cc_cumulative_child c) /\
  has_variable (tn_network n) (co_id (given_component (cc_child c))) (cc_incremental_child c) /\
  forall p, parent_node f n = Some p -> proper_network (tn_network p) ->
    has_variable (tn_network p) (co_id (given_component (cc_parent c))) (cc_cumulative_parent c).
Proof.
  intros H Hn Pc Pp Pn. unfold define_coupling_constraint, node_at in H. rewrite Hn in H. cbn [bind] in H.
  destruct (info_at f (tn_coupling_info n)); [|discriminate]. cbn [bind] in H. fold (parent_node f n) in H.
  destruct (check_coupling (parent_node f n) n c) as [[]|] eqn:E; [|discriminate]. clear H. unfold check_coupling in E.
  destruct (check_parent (parent_node f n) (cc_parent c)) as [[]|] eqn:Ep; [|discriminate]. cbn [bind] in E.
  destruct (given_in (cc_child c) (tn_network n)) as [[|]|] eqn:Eg; try discriminate. cbn [bind negb] in E.
  destruct (is_variable_in_model (given_component (cc_parent c)) (cc_cumulative_parent c)) eqn:V1; [|discriminate].
  destruct (is_variable_in_model (given_component (cc_child c)) (cc_cumulative_child c)) eqn:V2; [|discriminate].
  destruct (is_variable_in_model (given_component (cc_child c)) (cc_incremental_child c)) eqn:V3; [|discriminate].
  apply given_in_true in Eg as (d & Hd & Ed). split; [|split].
  - destruct (variable_kept _ _ _ Ed (Pn d Hd) Pc V2). exists d. auto.
  - destruct (variable_kept _ _ _ Ed (Pn d Hd) Pc V3). exists d. auto.
  - intros p Hp Pp'. rewrite Hp in Ep. cbn in Ep. destruct (given_in (cc_parent c) (tn_network p)) as [[|]|] eqn:Eq; try discriminate.
    apply given_in_true in Eq as (d' & Hd' & Ed'). destruct (variable_kept _ _ _ Ed' (Pp' d' Hd') Pp V1). exists d'. auto.
Qed.
