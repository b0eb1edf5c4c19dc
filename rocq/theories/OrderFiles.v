(** Reordered problems have the same meaning; reordered files give reordered networks (C71). *)
From Coq Require Import Lia Permutation.
From Verif Require Import Base BaseFacts Expr Visitors LinearExpr Model Study Strategy Optim System Library Main
  SpecExpr SpecModel SpecLibrary SpecSystem SpecOptim SpecFusion SpecMain ModelFacts OptimFacts SystemFacts LibraryFacts MainFacts MainNeeds RunNeeds
  FusionFacts SpecOrder OrderFacts OrderProblem.

(** ** Meaning *)
Lemma olift_swap a b c : olift2 Qcplus a (olift2 Qcplus b c) = olift2 Qcplus b (olift2 Qcplus a c).
Proof. destruct a, b, c; cbn; try reflexivity. f_equal. ring. Qed.
Lemma coefs_permuted y d d' : Permutation d d' -> coefs_value y d = coefs_value y d'.
Proof.
  induction 1 as [|[i c] d d' _ IH|[i c] [j e] d|d d' d'' _ IH1 _ IH2]; [reflexivity| | |congruence].
  - rewrite !coefs_cons. now rewrite IH.
  - rewrite !coefs_cons. apply olift_swap.
Qed.
Lemma coefs_renumbered f y z d : (forall i, z (f i) = y i) -> coefs_value z (map (renumber f) d) = coefs_value y d.
Proof.
  intros H. unfold coefs_value. rewrite map_map. f_equal. apply map_ext. intros [i c]. cbn. now rewrite H.
Qed.

Section Meaning.
  Context (f : nat -> nat) (s s' : solver).
  Hypothesis H : same_program f s s'.
  Lemma by_name_renumbered y i : by_name s' y (f i) = by_name s y i.
  Proof. unfold by_name. destruct H as (_ & _ & Hn & _). now rewrite Hn. Qed.
  Lemma same_columns : Permutation (s_vars s) (s_vars s').
  Proof.
    destruct H as (Hi & Hl & Hn & _). symmetry. apply Permutation_nth_error. split; [exact Hl|].
    exists f. split; [exact Hi|]. intros i. symmetry. apply Hn.
  Qed.
  Lemma same_row_sat y r r' : same_row f r r' -> row_sat (by_name s y) r <-> row_sat (by_name s' y) r'.
  Proof.
    intros (_ & Hlb & Hub & Hp). unfold row_sat. rewrite Hlb, Hub.
    rewrite <- (coefs_permuted (by_name s' y) _ _ Hp).
    rewrite (coefs_renumbered f (by_name s y)) by (intros; apply by_name_renumbered). reflexivity.
  Qed.
  Lemma same_feasible y : feasible y s <-> feasible y s'.
  Proof.
    pose proof same_columns as P. destruct H as (_ & _ & _ & (rows & HP & HF) & _).
    unfold feasible, bounds_hold, rows_hold. split; intros [H1 H2]; split.
    - intros v Hv. apply H1. eapply Permutation_in; [symmetry; exact P|exact Hv].
    - intros r Hr. apply (Permutation_in _ (Permutation_sym HP)) in Hr.
      destruct (Forall2_In_r _ _ _ _ HF Hr) as (r0 & H0 & Hs). apply (same_row_sat y _ _ Hs). auto.
    - intros v Hv. apply H1. eapply Permutation_in; [exact P|exact Hv].
    - intros r Hr. destruct (Forall2_In_l _ _ _ _ HF Hr) as (r0 & H0 & Hs). apply (same_row_sat y _ _ Hs).
      apply H2. eapply Permutation_in; eauto.
  Qed.
  Lemma same_objective y : objective_value (by_name s y) s = objective_value (by_name s' y) s'.
  Proof.
    destruct H as (_ & _ & _ & _ & Ho & Hf). unfold objective_value. rewrite Hf.
    rewrite <- (coefs_permuted (by_name s' y) _ _ Ho).
    now rewrite (coefs_renumbered f (by_name s y)) by (intros; apply by_name_renumbered).
  Qed.
End Meaning.

(** ** Symmetry *)
Lemma reordered_sym n n' : reordered n n' -> reordered n' n.
Proof. intros (H1 & H2 & H3). repeat split; now symmetry. Qed.
Lemma reordered_settings_sym o o' : reordered_settings o o' -> reordered_settings o' o.
Proof.
  intros (H1 & H2 & H). split; [now apply reordered_sym|]. split; [intros; symmetry; apply H2|].
  destruct H as (?&?&?&?&?&?&?). repeat split; congruence.
Qed.
Lemma reordered_all n n' : reordered n n' -> Permutation (all_components n) (all_components n').
Proof. intros (H1 & H2 & _). apply Permutation_app; now apply Permutation_map. Qed.
Lemma reordered_sound n n' : reordered n n' -> built_network n' -> sound_network n -> sound_network n'.
Proof.
  intros Hr Hb' (Hb & Hd & Hn & Hc). pose proof (reordered_all _ _ Hr) as P. split; [exact Hb'|]. split; [|split].
  - unfold distinct_ids in *. eapply Permutation_NoDup; [apply Permutation_map; exact P|exact Hd].
  - intros c Hin. apply Hn. eapply Permutation_in; [symmetry; exact P|exact Hin].
  - intros k Hk. apply Hc. destruct Hr as (_ & _ & H3). eapply Permutation_in; [symmetry; exact H3|exact Hk].
Qed.
Lemma reordered_usable o o' : reordered_settings o o' -> usable_block o -> usable_block o'.
Proof. intros (_ & _ & H1 & _ & H2 & _) [U1 U2]. split; congruence. Qed.

(** ** Networks of reordered files *)
Lemma file_ids i i' : reordered_file i i' -> Permutation (input_ids i) (input_ids i').
Proof. intros (H1 & H2 & _). apply Permutation_app; now apply Permutation_map. Qed.
Lemma by_id_permuted l l' x : NoDup (map co_id l) -> Permutation l l' -> get_component_by_id l' x = get_component_by_id l x.
Proof.
  intros D P. assert (D' : NoDup (map co_id l')) by (eapply Permutation_NoDup; [apply Permutation_map; exact P|exact D]).
  destruct (get_component_by_id l x) as [c|] eqn:E.
  - apply by_id_distinct in E; [|exact D]. apply by_id_distinct; [exact D'|]. destruct E. split; [|assumption].
    eapply Permutation_in; eauto.
  - destruct (get_component_by_id l' x) as [c|] eqn:E'; [|reflexivity]. exfalso.
    apply by_id_distinct in E'; [|exact D']. destruct E' as [I <-].
    assert (X : get_component_by_id l (co_id c) = Some c); [|congruence].
    apply by_id_distinct; [exact D|]. split; [|reflexivity]. eapply Permutation_in; [symmetry; exact P|exact I].
Qed.
Lemma forall2_functional {A B} (R : A -> B -> Prop) l m m' : (forall a b b', R a b -> R a b' -> b = b') ->
  Forall2 R l m -> Forall2 R l m' -> m = m'.
Proof.
  intros F H. revert m'. induction H as [|a b l m Hab _ IH]; intros m' H'; inversion H'; subst; [reflexivity|].
  f_equal; eauto.
Qed.
Lemma stands_functional libs a b b' : stands_as libs a b -> stands_as libs a b' -> b = b'.
Proof.
  intros [H1 H2] [H3 H4]. pose proof (names_model_functional _ _ _ _ H2 H4). destruct b, b'; cbn in *. congruence.
Qed.

Lemma resolved_reordered i i' libs libs' s : reordered_file i i' -> NoDup (input_ids i) ->
  (forall r m, names_model libs r m -> names_model libs' r m) -> resolve_system i libs = Ok s ->
  exists s' n n', resolve_system i' libs' = Ok s' /\ build_network s = Ok n /\ build_network s' = Ok n' /\ reordered n n'.
Proof.
  intros Hr D HL R. destruct (build_network_ok _ _ _ R) as (cs & ns & ks & Hc & Hn & Hk & Hb).
  destruct Hr as (Pn & Pc & Pk).
  destruct (Permutation_Forall2 Pc Hc) as (cs' & Pcs & Hc').
  destruct (Permutation_Forall2 Pn Hn) as (ns' & Pns & Hn').
  assert (St : forall l m, Forall2 (stands_as libs) l m -> Forall2 (stands_as libs') l m).
  { intros l m. apply Forall2_imp. intros a b [H1 H2]. split; auto. }
  apply St in Hc', Hn'.
  pose proof (stands_as_ids _ _ _ Hc) as Ic. pose proof (stands_as_ids _ _ _ Hn) as In'.
  assert (Dall : NoDup (map co_id (cs ++ ns))) by (rewrite map_app, Ic, In'; exact D).
  assert (Dc : NoDup (map co_id cs)) by (rewrite map_app in Dall; now apply NoDup_app_l in Dall).
  assert (Dn : NoDup (map co_id ns)) by (rewrite map_app in Dall; now apply NoDup_app_r in Dall).
  assert (Dc' : NoDup (map co_id cs')) by (eapply Permutation_NoDup; [apply Permutation_map; exact Pcs|exact Dc]).
  assert (Dn' : NoDup (map co_id ns')) by (eapply Permutation_NoDup; [apply Permutation_map; exact Pns|exact Dn]).
  assert (G : forall k, resolve_connection (cs' ++ ns') k = resolve_connection (cs ++ ns) k).
  { intros k. unfold resolve_connection. now rewrite !(by_id_permuted (cs ++ ns) (cs' ++ ns')) by (auto using Permutation_app). }
  destruct (Permutation_Forall2 Pk Hk) as (ks' & Pks & Hk').
  assert (Hk2 : Forall2 (fun i k => resolve_connection (cs' ++ ns') i = Ok k) (is_connections i') ks').
  { eapply Forall2_imp; [|exact Hk']. intros a b Hab. cbv beta in *. now rewrite G. }
  assert (R' : resolve_system i' libs' = Ok (mk_system cs' ns' ks')).
  { unfold resolve_system. rewrite (proj2 (resolve_components_ok libs' _ _) Hc'). cbn [bind].
    rewrite (proj2 (resolve_components_ok libs' _ _) Hn'). cbn [bind].
    rewrite (proj2 (mapM_ok _ _ _) Hk2). reflexivity. }
  destruct (build_network_ok _ _ _ R') as (cs2 & ns2 & ks2 & Hc2 & Hn2 & Hk3 & Hb').
  pose proof (forall2_functional _ _ _ _ (stands_functional libs') Hc' Hc2) as <-.
  pose proof (forall2_functional _ _ _ _ (stands_functional libs') Hn' Hn2) as <-.
  assert (ks' = ks2) as <- by (eapply forall2_functional; [|exact Hk2|exact Hk3]; cbv beta; intros; congruence).
  exists (mk_system cs' ns' ks'). do 2 eexists. split; [exact R'|]. split; [exact Hb|]. split; [exact Hb'|].
  assert (Q : forall l l', Permutation l l' -> NoDup (map co_id l) -> NoDup (map co_id l') ->
    Permutation (dict_of String.eqb co_id l) (dict_of String.eqb co_id l')).
  { intros l l' P N N'. rewrite !dict_of_distinct by (auto; apply String.eqb_eq). now apply Permutation_map. }
  unfold reordered. cbn. repeat split; [now apply Q|now apply Q|assumption].
Qed.

(** ** Data of reordered files *)
(** what a step [k] writes: new values of some parameters of one component, whatever was there *)
Definition writes (id : string) (step : database -> result database) : Prop :=
  forall db r, step db = Ok r -> exists g : string -> option data, forall db, exists r, step db = Ok r /\
    forall c p, get_data r c p = if String.eqb c id then match g p with Some d => Ok d | None => get_data db c p end
                                 else get_data db c p.
Lemma writes_run {A} (id : A -> string) (step : database -> A -> result database) :
  (forall a, writes (id a) (fun db => step db a)) -> forall l l', Permutation l l' -> NoDup (map id l) ->
  forall db db' r, (forall c p, get_data db' c p = get_data db c p) -> foldM step db l = Ok r ->
  exists r', foldM step db' l' = Ok r' /\ forall c p, get_data r' c p = get_data r c p.
Proof.
  intros W l l' P. induction P as [|a l l' P IH|a b l|l l' l'' P1 IH1 P2 IH2]; intros N db db' r E H.
  - injection H as <-. exists db'. auto.
  - cbn [foldM] in *. inv_bind H. inversion N; subst. destruct (W a _ _ H0) as (g & Hg).
    destruct (Hg db) as (r1 & R1 & G1). destruct (Hg db') as (r2 & R2 & G2). assert (v = r1) as -> by congruence.
    rewrite R2. cbn [bind]. apply (IH ltac:(assumption) r1 r2 r); [|exact H].
    intros c p. rewrite G1, G2, E. reflexivity.
  - cbn [foldM] in *. inv_bind H. inv_bind H.
    destruct (W b _ _ H0) as (gb & Hb). destruct (W a _ _ H1) as (ga & Ha).
    destruct (Hb db) as (r1 & R1 & G1). assert (v = r1) as -> by congruence.
    destruct (Ha r1) as (r2 & R2 & G2). assert (v0 = r2) as -> by congruence.
    destruct (Ha db') as (r3 & R3 & G3). destruct (Hb r3) as (r4 & R4 & G4).
    rewrite R3. cbn [bind]. rewrite R4. cbn [bind].
    assert (Q : forall (l : list A) db db' r, (forall c p, get_data db' c p = get_data db c p) -> foldM step db l = Ok r ->
      exists r', foldM step db' l = Ok r' /\ forall c p, get_data r' c p = get_data r c p).
    { clear -W. intros l. induction l as [|x l IH]; intros db db' r E H; [injection H as <-; exists db'; auto|].
      cbn [foldM] in *. inv_bind H. destruct (W x _ _ H0) as (g & Hg).
      destruct (Hg db) as (s1 & R1 & G1). destruct (Hg db') as (s2 & R2 & G2). assert (v = s1) as -> by congruence.
      rewrite R2. cbn [bind]. apply (IH s1 s2 r); [|exact H]. intros c p. rewrite G1, G2, E. reflexivity. }
    apply (Q l r2 r4 r); [|exact H].
    assert (Hne : id b <> id a).
    { cbn in N. inversion N as [|x xs Hx]; subst. intros Eq. apply Hx. cbn. auto. }
    intros c p. rewrite G4, G3, G2, G1, E.
    destruct (String.eqb_spec c (id b)), (String.eqb_spec c (id a)); try reflexivity. congruence.
  - destruct (IH1 N db db r ltac:(reflexivity) H) as (r1 & R1 & G1).
    assert (N' : NoDup (map id l')) by (eapply Permutation_NoDup; [apply Permutation_map; exact P1|exact N]).
    destruct (IH2 N' db db' r1 E R1) as (r2 & R2 & G2). exists r2. split; [exact R2|].
    intros c p. now rewrite G2, G1.
Qed.

Lemma parameters_write files c : writes (ic_id c) (fun db =>
  foldM (fun db p => d <- build_data files (ip_time p) (ip_scenario p) (ip_value p) None ;;
                     Ok (add_data (ic_id c) (ip_id p) d db)) db (parameters_of c)).
Proof.
  unfold writes. generalize (ic_id c) as id. intros id. induction (parameters_of c) as [|p ps IH]; intros db r H.
  - exists (fun _ => None). intros db'. exists db'. split; [reflexivity|]. intros k q. now destruct (String.eqb _ _).
  - cbn [foldM] in H. inv_bind H. inv_bind H0. injection H0 as <-. destruct (IH _ _ H) as (g & Hg).
    exists (fun q => match g q with Some d => Some d | None => if String.eqb q (ip_id p) then Some v0 else None end).
    intros db'. cbn [foldM]. rewrite H1. cbn [bind]. destruct (Hg (add_data id (ip_id p) v0 db')) as (r1 & R1 & G1).
    exists r1. split; [exact R1|]. intros k q. rewrite G1. destruct (String.eqb_spec k id) as [->|Hk].
    + destruct (g q); [reflexivity|]. destruct (String.eqb_spec q (ip_id p)) as [->|Hq].
      * now rewrite get_add_same.
      * apply get_add_other. congruence.
    + apply get_add_other. congruence.
Qed.
Lemma scenarized_writes files scs c : writes (ic_id c) (fun db => scenarized_component files scs db c).
Proof.
  intros db r H. unfold scenarized_component in *. inv_bind H. inv_bind H. injection H as <-. rename v into sc, v0 into acc.
  rewrite H0. cbn [bind]. clear H0. revert H1. generalize (ic_id c) as id. intros id. revert db sc acc.
  induction (parameters_of c) as [|p ps IH]; intros db sc acc H.
  - exists (fun _ => None). intros db'. exists db'. split; [reflexivity|]. intros k q. now destruct (String.eqb _ _).
  - cbn [foldM] in H. inv_bind H. unfold scenarized_parameter in H0. cbn [fst snd] in H0. inv_bind H0. inv_bind H0.
    injection H0 as <-. destruct (IH _ _ _ H) as (g & Hg).
    exists (fun q => match g q with Some d => Some d | None => if String.eqb q (ip_id p) then Some v1 else None end).
    intros db'. destruct (Hg (add_data id (ip_id p) v1 db')) as (r1 & R1 & G1). exists r1. split.
    + cbn [foldM]. assert (X : scenarized_parameter files scs id (db', sc) p = Ok (add_data id (ip_id p) v1 db', v0))
        by (unfold scenarized_parameter; cbn [fst snd]; rewrite H1; cbn [bind]; rewrite H2; reflexivity).
      rewrite X. cbn [bind]. exact R1.
    + intros k q. rewrite G1. destruct (String.eqb_spec k id) as [->|Hk].
      * destruct (g q); [reflexivity|]. destruct (String.eqb_spec q (ip_id p)) as [->|Hq].
        -- now rewrite get_add_same.
        -- apply get_add_other. congruence.
      * apply get_add_other. congruence.
Qed.

Lemma data_reordered files i i' db : reordered_file i i' -> NoDup (input_ids i) -> build_data_base files i = Ok db ->
  exists db', build_data_base files i' = Ok db' /\ forall c p, get_data db' c p = get_data db c p.
Proof.
  intros (P1 & P2 & _) D H. unfold build_data_base in *.
  refine (writes_run ic_id _ (parameters_write files) _ _ _ _ [] [] db _ H); [now apply Permutation_app| |reflexivity].
  rewrite map_app. exact D.
Qed.
Lemma scenarized_reordered files i i' rows db : reordered_file i i' -> NoDup (input_ids i) ->
  build_scenarized_data_base files i rows = Ok db ->
  exists db', build_scenarized_data_base files i' rows = Ok db' /\ forall c p, get_data db' c p = get_data db c p.
Proof.
  intros (P1 & P2 & _) D H. unfold build_scenarized_data_base in *. inv_bind H. rewrite H0. cbn [bind].
  refine (writes_run ic_id _ (scenarized_writes files v) _ _ P2 _ [] [] db _ H); [|reflexivity].
  now apply NoDup_app_l in D.
Qed.

(** ** Models of libraries *)
Lemma returned_models order libs out reference M : any_order order -> input_libs order libs = Ok out ->
  names_model out reference M -> exists pts m, resolve_model pts m = Ok M.
Proof.
  intros Ord H1 (a & b & lib & _ & _ & _ & G1 & G2). apply input_libs_ok in H1. destruct H1 as [N Rl].
  assert (Ha : In a (map yl_id libs)).
  { destruct (returned_keys libs [] order Ord N out Rl) as [_ K].
    destruct (proj1 (K a)) as [X|X]; [|exact X|destruct X]. apply (dget_In String.eqb String.eqb_eq) in G1.
    now apply (in_map fst) in G1. }
  apply in_map_iff in Ha. destruct Ha as (y & Ey & Hy).
  destruct (returned_library libs [] order Ord N out Rl y Hy) as (l & Gl & _ & _ & _ & Nm & ms & Ms & El).
  assert (l = lib) by (rewrite Ey in Gl; congruence). subst lib.
  apply mapM_ok in Ms. rewrite El in G2. apply (dict_of_from String.eqb m_id String.eqb_eq) in G2. destruct G2 as [G2 _].
  destruct (Forall2_In_r _ _ _ _ Ms G2) as (m & _ & Rm). eauto.
Qed.
Lemma resolved_checked pts m M : resolve_model pts m = Ok M -> checked_definitions M.
Proof.
  intros R. pose proof (resolve_model_parts _ _ _ R) as P. destruct (mo_definitions _ _ _ P) as (ds & Hd & E).
  intros k d Hin. rewrite E in Hin. apply (In_dget_nodup pfi_eqb pfi_eqb_eq) in Hin; [|apply dict_of_named; exact pfi_eqb_eq].
  apply (dict_of_from pfi_eqb d_field pfi_eqb_eq) in Hin. destruct Hin as [Hin _].
  destruct (Forall2_In_r _ _ _ _ Hd Hin) as (y & _ & Hy). unfold resolve_field_definition in Hy. inv_bind Hy. inv_bind Hy.
  pose proof Hy as E'. unfold mk_port_field_def in E'. apply bind_ok in E'. destruct E' as (u & _ & E').
  injection E' as <-. exact Hy.
Qed.

(** ** Reordered libraries *)
Section SameLibraries.
  Context (libs libs' : list in_library) (preloaded : list library).
  Hypothesis P : forall l, In l libs' -> In l libs.
  Lemma depends_incl a b : depends libs' a b -> depends libs a b.
  Proof. intros (l & H1 & H2). exists l. auto. Qed.
  Lemma usable_incl a k t : usable libs' preloaded a k t -> usable libs preloaded a k t.
  Proof.
    induction 1; [eapply u_preloaded; eassumption|eapply u_own; eauto|eapply u_dependency; [apply depends_incl; eassumption|assumption]].
  Qed.
  Lemma collected_incl y k t : collected libs' preloaded y k t -> collected libs preloaded y k t.
  Proof. intros [H|(d & H1 & H2)]; [left; exact H|right]. exists d. split; [exact H1|now apply usable_incl]. Qed.
  Lemma reaches_incl a b : reaches libs' a b -> reaches libs a b.
  Proof. induction 1; [apply Relation_Operators.t_step; now apply depends_incl|eapply Relation_Operators.t_trans; eassumption]. Qed.
End SameLibraries.

Lemma libraries_reordered order order' libs libs' preloaded out :
  any_order order -> any_order order' -> Permutation libs libs' -> NoDup (map yl_id libs) -> no_clash libs preloaded ->
  resolve_library order libs preloaded = Ok out ->
  exists out', resolve_library order' libs' preloaded = Ok out' /\
    forall y, In y libs -> exists l l', dget String.eqb (yl_id y) out = Some l /\ dget String.eqb (yl_id y) out' = Some l' /\
      l_models l = l_models l' /\ same_types (l_port_types l) (l_port_types l').
Proof.
  intros Ho Ho' HP Hn N H.
  assert (Hn' : NoDup (map yl_id libs')) by (eapply Permutation_NoDup; [apply Permutation_map; exact HP|exact Hn]).
  assert (I1 : forall l, In l libs' -> In l libs) by (intros; eapply Permutation_in; [symmetry; exact HP|assumption]).
  assert (I2 : forall l, In l libs -> In l libs') by (intros; eapply Permutation_in; [exact HP|assumption]).
  assert (S : exists out', resolve_library order' libs' preloaded = Ok out').
  { destruct (resolve_library order' libs' preloaded) as [out'|k] eqn:H'; [eauto|exfalso].
    destruct (failures order' libs' preloaded k Ho' Hn' H') as [[_ C]|[[_ C]|[y [pts [Hy [R [F1 F2]]]]]]].
    - apply C. intros a b D. apply (Permutation_in _ (Permutation_map yl_id HP)).
      apply (returned_complete libs preloaded order Ho Hn out H a b). now apply (depends_incl libs libs').
    - apply C. intros a D. apply (returned_acyclic libs preloaded order Ho Hn out H a). now apply (reaches_incl libs libs').
    - apply I1 in Hy. destruct (run_done libs preloaded Hn order Ho out H) as [tr [I P]].
      assert (Ht : In (yl_id y) tr) by (apply (Permutation_in _ (Permutation_sym P)); now apply in_map).
      assert (Gy : dget String.eqb (yl_id y) (yaml_of libs) = Some y) by (now apply yaml_get).
      destruct (i_out _ _ _ _ _ _ _ I _ Ht) as [l [G [lib [done [pts' [Gy' [Pd [A R']]]]]]]].
      assert (lib = y) as -> by congruence.
      assert (Hd : incl (yl_dependencies y) tr).
      { intros d Hd. apply (topo_in _ _ _ _ _ _ _ (yl_id y) d I Ht). exists y. auto. }
      assert (X : same_types pts pts').
      { apply (same_types_of libs preloaded (yl_id y)); [exact N| | |].
        - intros k0 t Hk. apply (collected_usable libs preloaded Hn (yl_id y) y _ _ Gy). apply (collected_incl libs libs' preloaded I1). apply F1.
          now apply (dget_In String.eqb String.eqb_eq).
        - intros k0 t Hk. apply (collected_usable libs preloaded Hn (yl_id y) y _ _ Gy).
          apply (collected_from libs preloaded Hn _ _ _ _ I (yl_id y) y done pts' k0 t Gy Hd Pd A).
          now apply (dget_In String.eqb String.eqb_eq).
        - intros k0. split; intros Hk.
          + apply (key_dget String.eqb String.eqb_eq) in Hk. destruct Hk as [t Hk]. apply (dget_In String.eqb String.eqb_eq) in Hk.
            apply (collected_has libs preloaded Hn _ _ _ _ I (yl_id y) y done pts' k0 t Gy Hd Pd A).
            apply (collected_incl libs libs' preloaded I1). now apply F1.
          + apply (key_dget String.eqb String.eqb_eq) in Hk. destruct Hk as [t Hk]. apply (dget_In String.eqb String.eqb_eq) in Hk.
            apply (F2 k0 t). apply (collected_incl libs' libs preloaded I2).
            exact (collected_from libs preloaded Hn _ _ _ _ I (yl_id y) y done pts' k0 t Gy Hd Pd A Hk). }
      pose proof (resolve_lib_ext _ _ y X) as Y. rewrite R, R' in Y. exact Y. }
  destruct S as [out' H']. exists out'. split; [exact H'|]. intros y Hy.
  destruct (returned_library libs preloaded order Ho Hn out H y Hy) as [l [G [_ [T1 [T2 [_ [ms [M1 M2]]]]]]]].
  destruct (returned_library libs' preloaded order' Ho' Hn' out' H' y (I2 y Hy)) as [l' [G' [_ [T1' [T2' [_ [ms' [M1' M2']]]]]]]].
  exists l, l'. split; [exact G|]. split; [exact G'|].
  assert (X : same_types (l_port_types l) (l_port_types l')).
  { apply (same_types_of libs preloaded (yl_id y) _ _ N T1); [intros k t Hk; apply (usable_incl libs libs' preloaded I1); now apply T1'|].
    intros k. split; intros Hk; apply (key_dget String.eqb String.eqb_eq) in Hk; destruct Hk as [t Hk].
    - apply T1 in Hk. apply (usable_incl libs' libs preloaded I2) in Hk. apply T2' in Hk. destruct Hk as [t' Hk].
      apply (dget_In String.eqb String.eqb_eq) in Hk. apply (in_map fst) in Hk. exact Hk.
    - apply T1' in Hk. apply (usable_incl libs libs' preloaded I1) in Hk. apply T2 in Hk. destruct Hk as [t' Hk].
      apply (dget_In String.eqb String.eqb_eq) in Hk. apply (in_map fst) in Hk. exact Hk. }
  split; [|exact X]. rewrite M2, M2'.
  rewrite (mapM_ext (resolve_model (l_port_types l)) (resolve_model (l_port_types l'))) in M1; [congruence|].
  apply Forall_forall. intros m _. now apply resolve_model_ext.
Qed.

Lemma input_libs_distinct order libs : NoDup (map yl_id libs) -> input_libs order libs = resolve_library order libs [].
Proof.
  intros N. unfold input_libs.
  assert (G : forall a s, NoDup (s ++ map yl_id libs) ->
    foldM (fun acc l => if existsb (String.eqb (yl_id l)) (snd acc) then Err ValueError
                        else Ok (fst acc ++ [l], snd acc ++ [yl_id l])) (a, s) libs = Ok (a ++ libs, s ++ map yl_id libs)).
  { clear N. induction libs as [|l libs IH]; intros a s D; cbn [foldM map]; [now rewrite !app_nil_r|]. cbn [fst snd].
    destruct (existsb (String.eqb (yl_id l)) s) eqn:E.
    - exfalso. apply existsb_exists in E. destruct E as (x & Hx & Hq). apply String.eqb_eq in Hq. subst x.
      cbn [map] in D. apply NoDup_remove_2 in D. apply D. apply in_or_app. auto.
    - cbn [bind]. rewrite IH by (rewrite <- app_assoc; exact D). now rewrite <- !app_assoc. }
  rewrite (G [] []) by exact N. reflexivity.
Qed.

(** ** Runs on reordered files *)
Lemma run_sound order libs sys files T S o st : any_order order -> NoDup (input_ids sys) -> (1 <= T)%Z ->
  main_cli order libs sys files T S = Ok (o, st) -> usable_block o /\ sound_network (o_network o).
Proof.
  intros Ho D HT H. destruct (run_steps _ _ _ _ _ _ _ _ H) as (out & s & db & n & H1 & H2 & H3 & H4 & E & H5). clear H.
  assert (Models : forall c, In c (all_components n) -> exists pts m, resolve_model pts m = Ok (co_model c)).
  { intros c Hc. destruct (network_of_file sys out s n D H2 H4) as (_ & F1 & F2 & _).
    unfold all_components in Hc. apply in_app_or in Hc.
    assert (X : exists x, stands_as out x c)
      by (destruct Hc as [Hc|Hc]; [destruct (Forall2_In_r _ _ _ _ F1 Hc) as (x & _ & Hx)|destruct (Forall2_In_r _ _ _ _ F2 Hc) as (x & _ & Hx)]; eauto).
    destruct X as (x & _ & Hm). exact (returned_models order libs out _ _ Ho H1 Hm). }
  assert (En : o_network o = n) by (subst o; reflexivity).
  split; [|rewrite En; split; [|split; [|split]]].
  - subst o. split; [|reflexivity]. cbn. unfold zrange. intros X. apply map_eq_nil in X.
    apply (f_equal (@List.length nat)) in X. rewrite seq_length in X. cbn in X. lia.
  - exact (build_network_built _ _ H4).
  - unfold distinct_ids, all_components. destruct (network_of_file sys out s n D H2 H4) as (_ & F1 & F2 & _).
    rewrite map_app, (stands_as_ids _ _ _ F1), (stands_as_ids _ _ _ F2).
    eapply Permutation_NoDup; [apply Permutation_app_comm|exact D].
  - intros c Hc. destruct (Models c Hc) as (pts & m & Rm). exact (proj1 (model_named_of _ _ _ Rm)).
  - intros k Hk. destruct (network_of_file sys out s n D H2 H4) as (_ & _ & _ & F3 & _).
    destruct (Forall2_In_r _ _ _ _ F3 Hk) as (i & _ & (_ & _ & _ & _ & I1 & I2)).
    split; [destruct (Models _ I1) as (pts & m & Rm)|destruct (Models _ I2) as (pts & m & Rm)]; exact (resolved_checked _ _ _ Rm).
Qed.
Lemma run_reordered order order' libs libs' sys sys' files T S o st :
  any_order order -> any_order order' -> Permutation libs libs' -> no_clash libs [] ->
  reordered_file sys sys' -> NoDup (input_ids sys) -> (1 <= T)%Z ->
  main_cli order libs sys files T S = Ok (o, st) ->
  exists o' st' f, main_cli order' libs' sys' files T S = Ok (o', st') /\ reordered_settings o o' /\
    same_program f (st_solver st) (st_solver st').
Proof.
  intros Ho Ho' Pl Nc Hr D HT H.
  pose proof H as H0. destruct (run_steps _ _ _ _ _ _ _ _ H) as (out & s & db & n & H1 & H2 & H3 & H4 & E & H5). clear H.
  pose proof H1 as L1. apply input_libs_ok in H1. destruct H1 as [Nl Rl].
  assert (Nl' : NoDup (map yl_id libs')) by (eapply Permutation_NoDup; [apply Permutation_map; exact Pl|exact Nl]).
  destruct (libraries_reordered order order' libs libs' [] out Ho Ho' Pl Nl Nc Rl) as (out' & Rl' & Same).
  assert (L1' : input_libs order' libs' = Ok out') by (rewrite (input_libs_distinct order' libs' Nl'); exact Rl').
  assert (Names : forall r m, names_model out r m -> names_model out' r m).
  { intros r m (a & b & lib & E1 & D1 & D2 & G1 & G2).
    assert (Ha : In a (map yl_id libs)).
    { destruct (returned_keys libs [] order Ho Nl out Rl) as [_ K].
      destruct (proj1 (K a)) as [X|X]; [|exact X|destruct X]. apply (dget_In String.eqb String.eqb_eq) in G1.
      now apply (in_map fst) in G1. }
    apply in_map_iff in Ha. destruct Ha as (y & <- & Hy). destruct (Same y Hy) as (l & l' & X1 & X2 & X3 & _).
    exists (yl_id y), b, l'. repeat (split; [assumption|]). assert (l = lib) by congruence. subst l. now rewrite <- X3. }
  destruct (resolved_reordered sys sys' out out' s Hr D Names H2) as (s' & n0 & n' & R' & B & B' & Rn).
  assert (n0 = n) by congruence. subst n0.
  destruct (data_reordered files sys sys' db Hr D H3) as (db' & Db' & Sd).
  set (o' := main_settings n' db' T S).
  assert (Rs : reordered_settings o o') by (subst o; repeat split; cbn; auto; apply Rn).
  destruct (run_sound order libs sys files T S o st Ho D HT H0) as (Hu & Hb & Hd & Hn & Hc).
  destruct (reordered_built o o' Rs Hu Hb Hd Hn Hc st H5) as (st' & f & B1 & B2).
  exists o', st', f. split; [|split; assumption]. unfold main_cli. rewrite L1'. cbn [bind]. rewrite R'. cbn [bind].
  rewrite (check_passes order' libs' sys' out' s' Ho' L1' R'). cbn [bind]. rewrite Db'. cbn [bind]. rewrite B'. cbn [bind].
  fold o'. rewrite B1. reflexivity.
Qed.
