(** Problems that are built: their columns, coefficients and rows are those of their variables. *)
From Coq Require Import Lia.
From Verif Require Import Base BaseFacts Expr LinearExpr Linearize Model Study Strategy Optim.
From Verif Require Import SpecExpr SpecLinear SpecModel SpecOptim SpecFusion LinearFacts OptimFacts OptimNames FusionFacts.
Local Open Scope list_scope.

(** ** Columns *)
Definition column_view (infos : dict string var_info) : list (string * (string * nat)) :=
  map (fun ki => (fst ki, (vi_name (snd ki), vi_column (snd ki)))) infos.
Lemma view_dset name i j infos : dget String.eqb name infos = Some i -> vi_name j = vi_name i -> vi_column j = vi_column i ->
  column_view (dset String.eqb name j infos) = column_view infos.
Proof.
  intros E Hn Hc. induction infos as [|[k x] infos IH]; [discriminate E|]. cbn in *. destruct (String.eqb_spec name k) as [->|N].
  - injection E as ->. cbn. now rewrite Hn, Hc.
  - cbn. f_equal. exact (IH E).
Qed.
Lemma mark_view name infos infos' : mark_in_objective name infos = Ok infos' -> column_view infos' = column_view infos.
Proof.
  unfold mark_in_objective. destruct (dget String.eqb name infos) as [i|] eqn:E; [|discriminate]. intros [= <-].
  now apply (view_dset name i).
Qed.
Lemma objectives_view o st st' : create_objectives o st = Ok st' -> column_view (st_infos st') = column_view (st_infos st).
Proof.
  intros H. apply create_objectives_flat in H.
  apply (foldM_invariant _ (fun s => column_view (st_infos s) = column_view (st_infos st))) in H; [exact H| |reflexivity].
  clear H. intros acc [c [e|]] acc' _ HI H; cbn in H; [|injection H as <-; exact HI].
  unfold create_objective in H. inv_bind H. inv_bind H. inv_bind H. inv_bind H.
  assert (Hs : acc' = add_offset (le_constant v1) v2) by congruence. subst acc'.
  apply (foldM_invariant _ (fun s => column_view (st_infos s) = column_view (st_infos st))) in H3; [exact H3| |exact HI].
  clear. intros acc kt acc' _ HI H. unfold add_objective_term in H. inv_bind H. inv_bind H. inv_bind H.
  assert (Hi : st_infos acc' = v2) by (injection H as <-; reflexivity). rewrite Hi.
  rewrite (mark_view _ _ _ H2). apply HI.
Qed.
(** the infos of a problem that is built, in the order of its variables *)
Lemma built_view o st : distinct_ids (o_network o) -> named_network (o_network o) ->
  NoDup (map (inst_name o) (var_insts o)) -> build_problem o = Ok st ->
  map sv_name (s_vars (st_solver st)) = map (inst_name o) (var_insts o) /\
  column_view (st_infos st) =
    map (fun ni => (fst ni, ni)) (combine (map (inst_name o) (var_insts o)) (seq 0 (List.length (var_insts o)))).
Proof.
  intros Hd Hn Hnd Hb. destruct (built_variables o st Hd Hn Hb) as (ports & Hr & Hp & _ & HF).
  split. { clear -HF. induction HF as [|a b l m Hab HF IH]; [reflexivity|]. cbn [map]. f_equal; [|exact IH]. eapply made_name; eauto. }
  apply build_steps in Hb. destruct Hb as (ports' & st1 & st2 & _ & Hp' & H1 & H2 & H3).
  assert (ports' = ports) by congruence. subst ports'.
  rewrite (objectives_view _ _ _ H3). apply create_constraints_spec in H2. destruct H2 as (rss & _ & ->).
  apply create_variables_spec in H1. destruct H1 as (svs & HF1 & Hst1).
  pose proof (Forall2_len _ _ _ HF1) as Hlen. destruct (combine_map_fst _ _ Hlen) as [M1 M2].
  assert (Hn1 : map sv_name svs = map (inst_name o) (var_insts o)).
  { clear -HF1. induction HF1 as [|a b l m Hab HF IH]; [reflexivity|]. cbn [map]. f_equal; [|exact IH]. eapply made_name; eauto. }
  assert (K1 : map (fun p : inst * solver_var => inst_key (fst p)) (combine (var_insts o) svs) = map inst_key (var_insts o)).
  { rewrite <- M1 at 2. now rewrite map_map. }
  assert (K2 : map (fun p : inst * solver_var => sv_name (snd p)) (combine (var_insts o) svs) = map sv_name svs).
  { rewrite <- M2 at 2. now rewrite map_map. }
  pose proof (add_all_infos (combine (var_insts o) svs) (set_ports initial_state ports)) as HI.
  rewrite K1, K2 in HI. specialize (HI (keys_nodup o Hd Hn)). cbn [st_infos set_ports initial_state map app] in HI.
  rewrite Hn1 in HI. specialize (HI Hnd). rewrite <- Hst1 in HI.
  change (st_infos (set_rows st1 (s_rows (st_solver st1) ++ concat rss))) with (st_infos st1). rewrite HI.
  unfold column_view. rewrite map_map. cbn [List.length]. rewrite combine_length, Hlen, Nat.min_id. rewrite <- Hlen.
  apply map_ext. now intros [n i].
Qed.
Lemma view_columns infos (names : list string) : NoDup names ->
  column_view infos = map (fun ni => (fst ni, ni)) (combine names (seq 0 (List.length names))) ->
  NoDup (map fst infos) /\ List.length infos = List.length names /\
  forall i n, nth_error names i = Some n ->
  exists info, dget String.eqb n infos = Some info /\ vi_name info = n /\ vi_column info = i.
Proof.
  intros Nd E.
  assert (K : map fst infos = names).
  { transitivity (map fst (column_view infos)); [unfold column_view; now rewrite map_map|]. rewrite E, map_map. cbn [fst].
    rewrite (map_ext _ fst) by reflexivity. apply combine_map_fst. now rewrite seq_length. }
  assert (ND : NoDup (map fst infos)) by now rewrite K.
  split; [exact ND|]. split; [rewrite <- (map_length fst infos); now rewrite K|]. intros i n Hi.
  assert (H : In (n, (n, i)) (column_view infos)).
  { rewrite E. apply in_map_iff. exists (n, i). split; [reflexivity|]. apply combine_seq_nth. split; [lia|]. now rewrite Nat.sub_0_r. }
  unfold column_view in H. apply in_map_iff in H as ([k info] & [= -> <- <-] & H). exists info.
  split; [|split; [|reflexivity]].
  - now apply (In_dget_nodup String.eqb String.eqb_eq).
  - reflexivity.
Qed.
Lemma built_columns o st : distinct_ids (o_network o) -> named_network (o_network o) ->
  NoDup (map (inst_name o) (var_insts o)) -> build_problem o = Ok st -> sound_columns st.
Proof.
  intros Hd Hn Hnd Hb. destruct (built_view o st Hd Hn Hnd Hb) as [N V].
  assert (L : List.length (var_insts o) = List.length (map (inst_name o) (var_insts o))) by now rewrite map_length.
  rewrite L in V. destruct (view_columns _ _ Hnd V) as (A & B & C). split; [exact A|]. split.
  - rewrite B, <- N. now rewrite map_length.
  - intros i v Hi. apply C. rewrite <- N, nth_error_map, Hi. reflexivity.
Qed.

(** ** Coefficients *)
Lemma lookup_bound o st t s c n i : distinct_ids (o_network o) -> named_network (o_network o) ->
  st_variables st = combine (map inst_key (var_insts o)) (seq 0 (List.length (var_insts o))) ->
  get_component_variable o st t s c n = Ok i -> (i < List.length (var_insts o))%nat.
Proof.
  intros Hd Hn E H. unfold get_component_variable in H. inv_bind H. rewrite E in H.
  destruct (dget _ _ _) as [j|] eqn:Ej in H; [|discriminate H]. injection H as ->.
  rewrite <- (map_length inst_key (var_insts o)) in Ej. apply (lookup_position _ _ _ (keys_nodup o Hd Hn)) in Ej.
  rewrite <- (map_length inst_key). apply nth_error_Some. congruence.
Qed.
Definition coefs_ok (n : nat) (d : dict nat num) : Prop := NoDup (map fst d) /\ forall i c, In (i, c) d -> (i < n)%nat.
Lemma coefs_ok_dset n i c d : (i < n)%nat -> coefs_ok n d -> coefs_ok n (dset Nat.eqb i c d).
Proof.
  intros Hi [A B]. split; [now apply (dset_nodup Nat.eqb Nat.eqb_eq)|]. intros j x H.
  assert (K : In j (map fst (dset Nat.eqb i c d))) by (apply in_map_iff; exists (j, x); auto).
  destruct (Nat.eq_dec j i) as [->|N]; [exact Hi|].
  assert (G : dget Nat.eqb j (dset Nat.eqb i c d) = Some x) by (apply (In_dget_nodup Nat.eqb Nat.eqb_eq); [now apply (dset_nodup Nat.eqb Nat.eqb_eq)|exact H]).
  rewrite (dget_dset_other Nat.eqb Nat.eqb_eq) in G by exact N. apply (dget_In Nat.eqb Nat.eqb_eq) in G. exact (B _ _ G).
Qed.
Lemma row_coefs_ok o st t s name lb ub e r : distinct_ids (o_network o) -> named_network (o_network o) ->
  st_variables st = combine (map inst_key (var_insts o)) (seq 0 (List.length (var_insts o))) ->
  make_constraint o st t s name lb ub e = Ok r -> coefs_ok (List.length (var_insts o)) (sr_coefs r).
Proof.
  intros Hd Hn E H. unfold make_constraint in H. inv_bind H. injection H as <-. cbn [sr_coefs].
  match goal with F : foldM _ [] _ = Ok _ |- _ => apply (foldM_invariant _ (coefs_ok (List.length (var_insts o)))) in F; [exact F| |split; [constructor|intros ? ? []]] end.
  intros acc kt acc' _ HI HA. unfold add_term, get_solver_var in HA. inv_bind HA. injection HA as <-. apply coefs_ok_dset; [|exact HI].
  eapply lookup_bound; eauto.
Qed.
Lemma built_rows o st : distinct_ids (o_network o) -> named_network (o_network o) -> build_problem o = Ok st ->
  exists st1 rss, register_connections o = Ok (st_ports st1) /\ st_ports st = st_ports st1 /\ st_variables st = st_variables st1 /\
    st_variables st1 = combine (map inst_key (var_insts o)) (seq 0 (List.length (var_insts o))) /\
    s_vars (st_solver st) = s_vars (st_solver st1) /\
    Forall2 (block_rows o st1) (row_pairs o) rss /\ s_rows (st_solver st) = concat rss.
Proof.
  intros Hd Hn H. apply build_steps in H as (ports & st1 & st2 & _ & Hp & H1 & H2 & H3).
  destruct (created_state o (set_ports initial_state ports) st1 Hd Hn eq_refl eq_refl H1) as (V & _ & P & R & _ & _). cbn in P, R.
  destruct (create_constraints_spec _ _ _ H2) as (rss & F & ->).
  destruct (create_objectives_same _ _ _ H3) as ((S1 & S2 & S3) & R3). cbn in S1, S2, S3, R3.
  exists st1, rss. split; [congruence|]. split; [exact S2|]. split; [exact S1|]. split; [exact V|]. split; [exact S3|]. split; [exact F|]. rewrite R in R3. exact R3.
Qed.
Lemma built_objective_ok o st : distinct_ids (o_network o) -> named_network (o_network o) -> build_problem o = Ok st ->
  coefs_ok (List.length (var_insts o)) (s_objective (st_solver st)).
Proof.
  intros Hd Hn H. apply build_steps in H as (ports & st1 & st2 & _ & Hp & H1 & H2 & H3).
  destruct (created_state o (set_ports initial_state ports) st1 Hd Hn eq_refl eq_refl H1) as (V & _ & _ & _ & O & _). cbn in O.
  destruct (create_constraints_spec _ _ _ H2) as (rss & _ & ->). apply create_objectives_flat in H3.
  set (I := fun s : state => st_variables s = st_variables st1 /\ coefs_ok (List.length (var_insts o)) (s_objective (st_solver s))).
  assert (G : I st); [|exact (proj2 G)].
  apply (foldM_invariant _ I) in H3; [exact H3| |].
  - clear H3. intros acc [c [e|]] acc' _ HI H; cbn in H; [|injection H as <-; exact HI].
    unfold create_objective in H. inv_bind H. inv_bind H. inv_bind H. inv_bind H.
    assert (Hs : acc' = add_offset (le_constant v1) v2) by congruence. subst acc'.
    match goal with F : foldM (add_objective_term o) _ _ = Ok _ |- _ => apply (foldM_invariant _ I) in F; [exact F| |exact HI] end.
    intros a kt a' _ [HI1 HI2] HA. unfold add_objective_term in HA. inv_bind HA. inv_bind HA. inv_bind HA. injection HA as <-.
    split; [exact HI1|]. cbn [st_solver s_objective]. apply coefs_ok_dset; [|exact HI2].
    match goal with G : get_solver_var _ _ _ = Ok _ |- _ => unfold get_solver_var in G; apply (lookup_bound o a) in G; auto end. congruence.
  - split; [reflexivity|]. cbn. rewrite O. split; [constructor|intros ? ? []].
Qed.
Lemma built_sound o st : distinct_ids (o_network o) -> named_network (o_network o) ->
  NoDup (map (inst_name o) (var_insts o)) -> build_problem o = Ok st -> sound_solver (st_solver st).
Proof.
  intros Hd Hn Hnd Hb. destruct (built_view o st Hd Hn Hnd Hb) as [N _].
  assert (L : List.length (s_vars (st_solver st)) = List.length (var_insts o)).
  { rewrite <- (map_length sv_name), N. now rewrite map_length. }
  split; [now rewrite N|]. unfold sound_coefs. rewrite L. split; [|exact (built_objective_ok o st Hd Hn Hb)].
  intros r Hr. destruct (built_rows o st Hd Hn Hb) as (st1 & rss & _ & _ & _ & V & _ & F & R). rewrite R in Hr.
  apply in_concat in Hr as (rs & Hrs & Hr). clear R.
  assert (B : exists ck, block_rows o st1 ck rs).
  { clear -F Hrs. induction F as [|a b l m Hab F IH]; [destruct Hrs|]. destruct Hrs as [->|Hrs]; [now exists a|auto]. }
  destruct B as (ck & ic & _ & C). unfold create_constraint in C. inv_bind C. inv_bind C.
  apply mapM_ok in C.
  assert (D : exists ts, create_row o st1 ic v (fst ts) (snd ts) = Ok r).
  { clear -C Hr. induction C as [|a b l m Hab F IH]; [destruct Hr|]. destruct Hr as [->|Hr]; [now exists a|auto]. }
  destruct D as (ts & D). unfold create_row in D. inv_bind D. inv_bind D. inv_bind D. exact (row_coefs_ok o st1 _ _ _ _ _ _ _ Hd Hn V D).
Qed.
