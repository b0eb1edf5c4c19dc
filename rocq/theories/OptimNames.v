(** Bounds (C24), names and columns (C23) of the solver variables. *)
From Coq Require Import Lia DecimalString DecimalFacts DecimalZ.
From Verif Require Import Base Expr Visitors Expansion LinearExpr Linearize Model Study Strategy Optim
  BaseFacts SpecExpr SpecSyntax SpecVisitors SpecExpansion SpecLinear SpecModel SpecOptim
  ExprFacts CopyFacts VisitorFacts DegreeFacts ExpansionFacts LinearFacts ModelFacts OptimFacts OptimMeaning OptimProblem.

(** ** C24 *)
Lemma not_greater a b : nltb b a = false -> a <> NaN -> b <> NaN -> num_le a b.
Proof.
  intros H Ha Hb. destruct a as [p| | |], b as [q| | |]; cbn in *; auto; try discriminate; try congruence.
  unfold nltb in H. cbn in H. destruct (Qcleb q p) eqn:E1; cbn in H.
  - destruct (Qceqb q p) eqn:E2; [|discriminate]. apply Qceqb_eq in E2. subst. apply Qcle_refl.
  - destruct (Qclt_le_dec p q) as [Hl|Hl]; [now apply Qclt_le_weak|]. apply Qcleb_le in Hl. congruence.
Qed.
Lemma bound_of_is o st default b c t s v :
  usable_block o -> finite_values o -> built_network (o_network o) -> good_connections (o_network o) ->
  register_connections o = Ok (st_ports st) ->
  good_variable_bound b -> default <> NaN ->
  bound_of o st default b c t s v -> bound_is o c default b t s v /\ v <> NaN.
Proof.
  intros Hu Hf Hbn Hg Hr Hb Hd H. destruct b as [e|]; cbn in *; [|subst; auto].
  destruct H as (e' & Hi & He). destruct (Hb e eq_refl) as [(w & -> & Hw)|[Hfin Hagg]].
  - cbn in Hi. injection Hi as <-. cbn in He. injection He as <-. auto.
  - pose proof (instantiate_finite o st Hbn Hg Hr c e e' Hagg Hfin Hi) as HF.
    assert (Hv : exists q, v = Fin q /\ forall x t' s', den (component_world o x c) e (odefault t' t) (odefault s' s) = Some q).
    { destruct (evaluate_value _ (world o (fun _ _ _ _ => 0%Qc)) (odefault 0 t) (odefault 0 s) e'
        (provider_world o _ t s 0 0 Hu Hf) HF _ He) as (q & -> & _).
      exists q. split; [reflexivity|]. intros x t' s'.
      destruct (evaluate_value _ (world o x) (odefault t' t) (odefault s' s) e'
        (provider_world o x t s t' s' Hu Hf) HF _ He) as (q' & Hq & Hq'). injection Hq as <-.
      now rewrite (instantiate_den o st Hbn Hg Hr x c e e' Hagg Hi) in Hq'. }
    destruct Hv as (q & -> & Hq). split; [|discriminate]. destruct e; eauto.
    apply all_nodes_root in Hfin. destruct v; try contradiction. specialize (Hq (fun _ _ _ _ => 0%Qc) 0%Z 0%Z). cbn in Hq. congruence.
Qed.
Lemma variable_bounds o st : usable_block o -> distinct_ids (o_network o) -> named_network (o_network o) ->
  built_network (o_network o) -> good_connections (o_network o) -> finite_values o ->
  build_problem o = Ok st ->
  forall i sv, nth_error (s_vars (st_solver st)) i = Some sv ->
  exists c v t s, instance_of o c v t s /\ get_component_variable o st t s (co_id c) (v_name v) = Ok i /\
    (good_variable_bound (v_lower v) -> good_variable_bound (v_upper v) ->
     match v_type v with
     | BOOLEAN => sv_lb sv = n0 /\ sv_ub sv = n1 /\ sv_integer sv = true
     | ty => bound_is o (co_id c) NInf (v_lower v) t s (sv_lb sv) /\
             bound_is o (co_id c) PInf (v_upper v) t s (sv_ub sv) /\
             num_le (sv_lb sv) (sv_ub sv) /\ sv_integer sv = match ty with INTEGER => true | _ => false end
     end).
Proof.
  intros Hu Hd Hn Hbn Hg Hf Hb i sv Hi.
  destruct (reads_variable o st Hu Hd Hn Hb) as (H1 & _ & H3 & _).
  destruct (built_variables o st Hd Hn Hb) as (ports & Hr & Hp & Hv & HF).
  assert (Hex : exists x, nth_error (var_insts o) i = Some x /\ made o (set_ports initial_state ports) x sv).
  { clear -HF Hi. revert i Hi. induction HF as [|a b l m Hab HF IH]; intros [|i] Hi; cbn in *; try discriminate.
    - injection Hi as <-. eauto.
    - now apply IH. }
  destruct Hex as ([[c v] [t s]] & Hx & Hmade). exists c, v, t, s.
  assert (Hin : instance_of o c v t s) by (apply var_insts_In; eapply nth_error_In; eauto).
  split; [exact Hin|]. split.
  { apply (lookup_iff o st t s (co_id c) (v_name v) i Hu Hd Hn Hv).
    rewrite nth_error_map, Hx. cbn. assert (Hw : wrapped o t = t); [|now rewrite Hw].
    destruct Hin as (_ & _ & Ht & _). destruct t as [t|]; [|reflexivity]. cbn in Ht |- *. f_equal. apply Z.mod_small. lia. }
  intros Hl Hup. destruct Hmade as (lo & up & Hlo & Hupp & Hlt & ->).
  assert (Hreg : register_connections o = Ok (st_ports (set_ports initial_state ports))) by exact Hr.
  destruct (bound_of_is o _ NInf (v_lower v) (co_id c) t s lo Hu Hf Hbn Hg Hreg Hl ltac:(discriminate) Hlo) as [HA HA'].
  destruct (bound_of_is o _ PInf (v_upper v) (co_id c) t s up Hu Hf Hbn Hg Hreg Hup ltac:(discriminate) Hupp) as [HB HB'].
  pose proof (not_greater _ _ Hlt HA' HB') as Hle.
  destruct (v_type v); cbn; auto.
Qed.

(** ** C23 *)
Fixpoint no_underscore (s : string) : Prop :=
  match s with EmptyString => True | String a s => String a EmptyString <> "_"%string /\ no_underscore s end.
Lemma cut_unique a b u w : no_underscore a -> no_underscore b ->
  (a ++ "_" ++ u)%string = (b ++ "_" ++ w)%string -> a = b /\ u = w.
Proof.
  revert b. induction a as [|x a IH]; intros [|z b] Ha Hb H; cbn in *.
  - injection H as H. auto.
  - injection H as <- _. destruct Hb as [Hb _]. congruence.
  - injection H as -> _. destruct Ha as [Ha _]. congruence.
  - injection H as <- H. destruct (IH b (proj2 Ha) (proj2 Hb) H) as [-> ->]. auto.
Qed.
Lemma cut_end a b w : no_underscore a -> no_underscore b -> a = (b ++ "_" ++ w)%string -> False.
Proof.
  revert b. induction a as [|x a IH]; intros [|z b] Ha Hb H; cbn in *; try discriminate.
  - injection H as -> _. destruct Ha as [Ha _]. congruence.
  - injection H as <- H. eapply IH; [exact (proj2 Ha)|exact (proj2 Hb)|exact H].
Qed.
Lemma append_inj_r (a : string) u w : (a ++ u)%string = (a ++ w)%string -> u = w.
Proof. induction a as [|x a IH]; cbn; intros H; [exact H|]. injection H as H. auto. Qed.
Lemma uint_no_underscore d : no_underscore (NilEmpty.string_of_uint d).
Proof. induction d; cbn; repeat split; auto; discriminate. Qed.
Lemma string_of_Z_digits z : (0 <= z)%Z -> no_underscore (string_of_Z z).
Proof.
  intros H. unfold string_of_Z, NilZero.string_of_int. destruct (Z.to_int z) as [d|d] eqn:E.
  - unfold NilZero.string_of_uint. destruct d; try apply uint_no_underscore. cbn. split; [discriminate|exact I].
  - destruct z; cbn in E; try discriminate. lia.
Qed.
Lemma string_of_Z_inj a b : string_of_Z a = string_of_Z b -> a = b.
Proof.
  intros H. unfold string_of_Z in H.
  assert (Hn : forall z, Z.to_int z <> Decimal.Pos Decimal.Nil /\ Z.to_int z <> Decimal.Neg Decimal.Nil).
  { intros [|p|p]; cbn; split; try discriminate; intros [= E]; revert E; apply DecimalPos.Unsigned.to_uint_nonnil. }
  apply (f_equal NilZero.int_of_string) in H.
  rewrite !NilZero.isi in H by apply Hn. injection H as H. apply DecimalZ.to_int_inj in H. exact H.
Qed.
Definition tail (u : string) : Prop := u = EmptyString \/ exists w, u = ("_" ++ w)%string.
Lemma append_nil_r (a : string) : (a ++ "")%string = a.
Proof. induction a as [|x a IH]; cbn; [reflexivity|now rewrite IH]. Qed.
Lemma cut_tail a b u w : no_underscore a -> no_underscore b -> tail u -> tail w ->
  (a ++ u)%string = (b ++ w)%string -> a = b /\ u = w.
Proof.
  intros Ha Hb [->|[u' ->]] [->|[w' ->]] H.
  - rewrite !append_nil_r in H. auto.
  - rewrite append_nil_r in H. exfalso. eapply (cut_end a b); eauto.
  - rewrite append_nil_r in H. exfalso. eapply (cut_end b a); eauto.
  - apply cut_unique in H; auto. destruct H as [-> ->]. auto.
Qed.
Lemma suffix_tail l n i : tail (name_suffix l n i).
Proof.
  unfold name_suffix. destruct i as [i|]; [|now left]. destruct (1 <? n)%Z; [|now left]. right.
  exists (l ++ string_of_Z i)%string. reflexivity.
Qed.
Lemma tail_app u w : tail u -> tail w -> tail (u ++ w)%string.
Proof. intros [->|[u' ->]] Hw; [exact Hw|]. right. exists (u' ++ w)%string. reflexivity. Qed.
Lemma suffix_inj l n b i i' u w : index_of b n i -> index_of b n i' -> tail u -> tail w ->
  (name_suffix l n i ++ u)%string = (name_suffix l n i' ++ w)%string -> i = i' /\ u = w.
Proof.
  intros Hi Hi' Hu Hw H. unfold name_suffix in H. destruct i as [i|], i' as [i'|]; cbn in Hi, Hi'.
  - destruct (Z.ltb_spec 1 n).
    + apply (append_inj_r "_") in H. rewrite !string_append_assoc in H.
      apply append_inj_r in H. destruct (cut_tail _ _ _ _ (string_of_Z_digits i ltac:(lia)) (string_of_Z_digits i' ltac:(lia)) Hu Hw H) as [E ->].
      apply string_of_Z_inj in E. subst. auto.
    + split; [f_equal; lia|exact H].
  - destruct Hi. congruence.
  - destruct Hi'. congruence.
  - auto.
Qed.
Lemma NoDup_map_inj {A B} (f : A -> B) l : (forall a b, In a l -> In b l -> f a = f b -> a = b) -> NoDup l -> NoDup (map f l).
Proof.
  intros Hf Hnd. induction Hnd as [|a l Ha Hnd IH]; cbn; constructor.
  - intros Hin. apply in_map_iff in Hin. destruct Hin as (b & E & Hb). apply Ha.
    rewrite (Hf a b); auto; [now left|now right].
  - apply IH. intros. apply Hf; auto; now right.
Qed.
Lemma tail_cut a b u w : tail u -> tail w -> ~ extends a b -> ~ extends b a ->
  (a ++ u)%string = (b ++ w)%string -> a = b /\ u = w.
Proof.
  intros Hu Hw. revert b. induction a as [|x a IH]; intros [|z b] Hab Hba H.
  - auto.
  - exfalso. cbn in H. destruct Hu as [->|[u' ->]]; [discriminate|]. cbn in H. injection H as <- H.
    apply Hab. exists b. reflexivity.
  - exfalso. cbn in H. destruct Hw as [->|[w' ->]]; [discriminate|]. cbn in H. injection H as -> H.
    apply Hba. exists a. reflexivity.
  - cbn in H. injection H as <- H. destruct (IH b) as [-> ->]; auto.
    + intros [y Hy]. apply Hab. exists y. cbn. now rewrite Hy.
    + intros [y Hy]. apply Hba. exists y. cbn. now rewrite Hy.
Qed.
Lemma names_unique o : o_full_names o = true -> names_apart o ->
  distinct_ids (o_network o) -> named_network (o_network o) -> NoDup (map (inst_name o) (var_insts o)).
Proof.
  intros Hfull Hplain Hd Hn. apply NoDup_map_inj; [|exact (NoDup_map_inv _ _ (keys_nodup o Hd Hn))].
  intros [[c v] [t s]] [[c' v'] [t' s']] H H' E.
  apply var_insts_In in H, H'. pose proof H as (Hc & Hv & Ht & Hs). pose proof H' as (Hc' & Hv' & Ht' & Hs').
  destruct (Hplain c Hc) as (Hcne & Hcu & Hcv), (Hplain c' Hc') as (Hcne' & Hcu' & Hcv').
  cbn [inst_name] in E. unfold solver_variable_name in E. apply append_inj_r in E.
  assert (Hp : forall z, z <> EmptyString -> name_prefix o z = (z ++ "_")%string).
  { intros z Hz. unfold name_prefix. rewrite Hfull. destruct (String.eqb_spec z ""); [congruence|reflexivity]. }
  rewrite (Hp _ Hcne), (Hp _ Hcne'), !string_append_assoc in E.
  apply tail_cut in E; auto; try (right; eexists; reflexivity). destruct E as [Eid E]. apply append_inj_r in E.
  assert (Hcc : c = c').
  { destruct (In_nth_error _ _ Hc) as [i Hi], (In_nth_error _ _ Hc') as [j Hj].
    assert (i = j).
    { apply (proj1 (NoDup_nth_error _) Hd); [|rewrite !nth_error_map, Hi, Hj; cbn; now rewrite Eid].
      rewrite map_length. apply nth_error_Some. congruence. }
    congruence. }
  subst c'.
  apply tail_cut in E; auto; try (apply tail_app; apply suffix_tail). destruct E as [Ev E].
  destruct (instance_unique o Hd Hn _ _ _ _ _ _ _ _ H H' Eid Ev) as [_ ->].
  rewrite <- (append_nil_r (name_suffix "s" (o_scenarios o) s)), <- (append_nil_r (name_suffix "s" (o_scenarios o) s')) in E.
  eapply suffix_inj in E; eauto; try (apply tail_app; [apply suffix_tail|now left]).
  destruct E as [-> E]. eapply suffix_inj in E; eauto; try (now left). destruct E as [-> _]. reflexivity.
Qed.

Lemma mark_columns name infos infos' : mark_in_objective name infos = Ok infos' -> forall n,
  option_map vi_column (dget String.eqb n infos') = option_map vi_column (dget String.eqb n infos).
Proof.
  unfold mark_in_objective. destruct (dget String.eqb name infos) as [i|] eqn:E; [|discriminate]. intros [= <-] n.
  destruct (String.eqb_spec n name) as [->|Hne].
  - rewrite (dget_dset_same String.eqb String.eqb_eq), E. reflexivity.
  - rewrite (dget_dset_other String.eqb String.eqb_eq); auto.
Qed.
Definition same_columns (st st' : state) : Prop := forall n,
  option_map vi_column (dget String.eqb n (st_infos st')) = option_map vi_column (dget String.eqb n (st_infos st)).
Lemma objectives_columns o st st' : create_objectives o st = Ok st' -> same_columns st st'.
Proof.
  intros H. apply create_objectives_flat in H.
  apply (foldM_invariant _ (same_columns st)) in H; [exact H| |intros n; reflexivity].
  clear H. intros acc [c [e|]] acc' _ HI H; cbn in H; [|injection H as <-; exact HI].
  unfold create_objective in H. inv_bind H. inv_bind H. inv_bind H. inv_bind H.
  assert (Hs : acc' = add_offset (le_constant v1) v2) by congruence. subst acc'.
  apply (foldM_invariant _ (same_columns st)) in H3; [exact H3| |exact HI].
  clear. intros acc kt acc' _ HI H n. unfold add_objective_term in H. inv_bind H. inv_bind H. inv_bind H.
  assert (Hi : st_infos acc' = v2) by (injection H as <-; reflexivity). rewrite Hi.
  rewrite (mark_columns _ _ _ H2). apply HI.
Qed.
Lemma dget_positions (names : list string) : NoDup names -> forall i n, nth_error names i = Some n ->
  dget String.eqb n (map (fun ni => info_of (fst ni) (snd ni)) (combine names (seq 0 (List.length names)))) =
  Some {| vi_name := n; vi_column := i; vi_in_objective := false |}.
Proof.
  intros Hnd i n Hi. apply (In_dget_nodup String.eqb String.eqb_eq).
  - rewrite map_map, (map_ext _ fst) by reflexivity. rewrite (proj1 (combine_map_fst names (seq 0 (List.length names)) ltac:(now rewrite seq_length))). exact Hnd.
  - apply in_map_iff. exists (n, i). split; [reflexivity|]. apply combine_seq_nth. split; [lia|]. now rewrite Nat.sub_0_r.
Qed.
Lemma columns_positions o st : distinct_ids (o_network o) -> named_network (o_network o) ->
  NoDup (map (inst_name o) (var_insts o)) -> build_problem o = Ok st ->
  NoDup (map sv_name (s_vars (st_solver st))) /\
  forall i sv, nth_error (s_vars (st_solver st)) i = Some sv ->
  exists info, dget String.eqb (sv_name sv) (st_infos st) = Some info /\ vi_column info = i.
Proof.
  intros Hd Hn Hnd Hb. destruct (built_variables o st Hd Hn Hb) as (ports & Hr & Hp & _ & HF).
  assert (Hnames : map sv_name (s_vars (st_solver st)) = map (inst_name o) (var_insts o)).
  { clear -HF. induction HF as [|a b l m Hab HF IH]; [reflexivity|]. cbn [map]. f_equal; [|exact IH]. eapply made_name; eauto. }
  split; [now rewrite Hnames|].
  apply build_steps in Hb. destruct Hb as (ports' & st1 & st2 & _ & Hp' & H1 & H2 & H3).
  assert (ports' = ports) by congruence. subst ports'.
  apply objectives_columns in H3. apply create_constraints_spec in H2. destruct H2 as (rss & _ & ->).
  apply create_variables_spec in H1. destruct H1 as (svs & HF1 & Hst1).
  pose proof (Forall2_len _ _ _ HF1) as Hlen. destruct (combine_map_fst _ _ Hlen) as [M1 M2].
  assert (Hn1 : map sv_name svs = map (inst_name o) (var_insts o)).
  { clear -HF1. induction HF1 as [|a b l m Hab HF IH]; [reflexivity|]. cbn [map]. f_equal; [|exact IH]. eapply made_name; eauto. }
  assert (K1 : map (fun p : inst * solver_var => inst_key (fst p)) (combine (var_insts o) svs) = map inst_key (var_insts o)).
  { rewrite <- M1 at 2. now rewrite map_map. }
  assert (K2 : map (fun p : inst * solver_var => sv_name (snd p)) (combine (var_insts o) svs) = map sv_name svs).
  { rewrite <- M2 at 2. now rewrite map_map. }
  pose proof (add_all_infos (combine (var_insts o) svs) (set_ports initial_state ports)) as HI.
  rewrite K1, K2 in HI. specialize (HI (keys_nodup o Hd Hn)). cbn [st_infos set_ports initial_state map app] in HI.
  rewrite Hn1 in HI. specialize (HI Hnd). rewrite <- Hst1 in HI.
  intros i sv Hi.
  assert (Hni : nth_error (map (inst_name o) (var_insts o)) i = Some (sv_name sv)).
  { rewrite <- Hnames, nth_error_map, Hi. reflexivity. }
  specialize (H3 (sv_name sv)). change (st_infos (set_rows st1 (s_rows (st_solver st1) ++ concat rss))) with (st_infos st1) in H3.
  rewrite HI in H3.
  cbn [List.length] in H3.
  match type of H3 with context [combine _ (seq 0 ?k)] => replace k with (List.length (map (inst_name o) (var_insts o))) in H3 end.
  2:{ rewrite map_length, combine_length, <- Hlen. lia. }
  rewrite (dget_positions _ Hnd i _ Hni) in H3. cbn in H3.
  destruct (dget String.eqb (sv_name sv) (st_infos st)) as [info|]; cbn in H3; [|discriminate].
  exists info. split; [reflexivity|congruence].
Qed.
