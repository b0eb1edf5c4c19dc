(** Facts about system files. *)
From Coq Require Import Ascii Lia.
From Verif Require Import Base Expr Visitors BaseFacts Model Study SpecModel ModelFacts OptimFacts System SpecSystem.

(** ** References *)
Lemma split_dot_none s : no_dot s -> split_dot s = [s].
Proof.
  induction s as [|a s IH]; cbn; [reflexivity|]. intros [Ha H]. rewrite IH by auto.
  destruct (Ascii.eqb_spec a "."%char); [contradiction|reflexivity].
Qed.
Lemma split_dot_app a s : no_dot a -> split_dot (a ++ String "."%char s) = a :: split_dot s.
Proof.
  induction a as [|x a IH]; cbn; [reflexivity|]. intros [Hx H]. rewrite IH by auto.
  destruct (Ascii.eqb_spec x "."%char); [contradiction|reflexivity].
Qed.
Lemma split_dot_one s p : split_dot s = [p] -> no_dot s /\ p = s.
Proof.
  revert p. induction s as [|a s IH]; cbn; intros p H; [injection H as <-; auto|].
  destruct (Ascii.eqb_spec a "."%char) as [E|E].
  - exfalso. destruct s as [|b s']; cbn in H; [discriminate|].
    destruct (Ascii.eqb b "."%char); [discriminate|]. destruct (split_dot s'); discriminate.
  - destruct (split_dot s) as [|q qs] eqn:Es.
    + exfalso. destruct s as [|b s']; cbn in Es; [discriminate|].
      destruct (Ascii.eqb b "."%char); [discriminate|]. destruct (split_dot s'); discriminate.
    + injection H as <- ->. destruct (IH q eq_refl) as [H1 ->]. auto.
Qed.
Lemma split_dot_two s a b : split_dot s = [a; b] <->
  s = (a ++ "." ++ b)%string /\ no_dot a /\ no_dot b.
Proof.
  split.
  - revert a. induction s as [|x s IH]; cbn; intros a H; [discriminate|].
    destruct (Ascii.eqb_spec x "."%char) as [->|E].
    + injection H as <- H. apply split_dot_one in H. destruct H as [H ->]. cbn. auto.
    + destruct (split_dot s) as [|q qs] eqn:Es; [discriminate|].
      injection H as <- ->. destruct (IH q eq_refl) as (-> & H1 & H2). cbn. auto.
  - intros (-> & Ha & Hb). cbn. rewrite split_dot_app by auto. now rewrite split_dot_none.
Qed.

Lemma resolve_component_ok libs i c : resolve_component libs i = Ok c <-> stands_as libs i c.
Proof.
  unfold resolve_component, stands_as, names_model. split.
  - destruct (split_dot (ic_model i)) as [|a [|b [|? ?]]] eqn:E; try discriminate.
    apply split_dot_two in E. destruct E as (E & Ha & Hb).
    destruct (dget _ a _) as [lib|] eqn:El; [|discriminate].
    destruct (dget _ b _) as [m|] eqn:Em; [|discriminate].
    intros H. injection H as <-. cbn. split; [reflexivity|]. exists a, b, lib. auto.
  - intros (Hid & a & b & lib & E & Ha & Hb & El & Em).
    assert (Hs : split_dot (ic_model i) = [a; b]) by (apply split_dot_two; auto).
    rewrite Hs, El, Em. destruct c as [m id]. cbn in *. subst. reflexivity.
Qed.
Lemma names_model_functional libs r m m' : names_model libs r m -> names_model libs r m' -> m = m'.
Proof.
  intros (a & b & l & E & Ha & Hb & El & Em) (a' & b' & l' & E' & Ha' & Hb' & El' & Em').
  assert (H : split_dot r = [a; b]) by (apply split_dot_two; auto).
  assert (H' : split_dot r = [a'; b']) by (apply split_dot_two; auto).
  rewrite H in H'. injection H' as <- <-. congruence.
Qed.
Lemma resolve_components_ok libs l cs :
  mapM (resolve_component libs) l = Ok cs <-> Forall2 (stands_as libs) l cs.
Proof.
  rewrite mapM_ok. split; intros H; induction H; constructor; auto; now apply resolve_component_ok.
Qed.
Lemma stands_as_ids libs l cs : Forall2 (stands_as libs) l cs -> map co_id cs = map ic_id l.
Proof. induction 1 as [|i c l cs [H _] _ IH]; cbn; congruence. Qed.

(** ** Dicts of components *)
Section Distinct.
  Context {K A : Type} (eqb : K -> K -> bool) (key : A -> K).
  Hypothesis eqb_eq : forall a b, eqb a b = true <-> a = b.
  Lemma dset_new k (a : A) d : ~ In k (map fst d) -> dset eqb k a d = d ++ [(k, a)].
  Proof.
    induction d as [|[k' v] d IH]; cbn; intros H; [reflexivity|].
    destruct (eqb k k') eqn:E.
    - apply eqb_eq in E. subst. exfalso. auto.
    - rewrite IH; auto.
  Qed.
  Lemma fold_dset_distinct l : forall d, NoDup (map fst d ++ map key l) ->
    fold_left (fun d a => dset eqb (key a) a d) l d = d ++ map (fun a => (key a, a)) l.
  Proof.
    induction l as [|a l IH]; cbn; intros d H; [now rewrite app_nil_r|].
    rewrite dset_new by (intros Hin; apply NoDup_remove_2 in H; apply H; apply in_or_app; auto).
    rewrite IH.
    - now rewrite <- app_assoc.
    - rewrite map_app. cbn. now rewrite <- app_assoc.
  Qed.
  Lemma dict_of_distinct l : NoDup (map key l) -> dict_of eqb key l = map (fun a => (key a, a)) l.
  Proof. intros H. unfold dict_of. rewrite fold_dset_distinct; auto. Qed.
End Distinct.
Lemma map_snd_key {A K} (key : A -> K) (l : list A) : map snd (map (fun a => (key a, a)) l) = l.
Proof. rewrite map_map. cbn. apply map_id. Qed.
Lemma map_fst_key {A K} (key : A -> K) (l : list A) : map fst (map (fun a => (key a, a)) l) = map key l.
Proof. now rewrite map_map. Qed.

Lemma dict_of_from {K A} (eqb : K -> K -> bool) (key : A -> K) (Heq : forall a b, eqb a b = true <-> a = b) l x a :
  dget eqb x (dict_of eqb key l) = Some a -> In a l /\ key a = x.
Proof.
  intros H. split; [|eapply named_dget; [exact Heq|apply dict_of_named; exact Heq|exact H]].
  apply (dget_In eqb Heq) in H. unfold dict_of in H. revert H.
  assert (G : forall d, In (x, a) (fold_left (fun d a => dset eqb (key a) a d) l d) -> In a l \/ In (x, a) d).
  { induction l as [|b l IH]; cbn; intros d H; [auto|]. apply IH in H.
    destruct H as [H|H]; [auto|]. apply (dset_entries eqb Heq) in H. destruct H as [[-> ->]|H]; auto. }
  intros H. apply G in H. destruct H as [H|[]]. exact H.
Qed.
Lemma dict_of_has {K A} (eqb : K -> K -> bool) (key : A -> K) (Heq : forall a b, eqb a b = true <-> a = b) l x :
  In x (map key l) -> exists a, dget eqb x (dict_of eqb key l) = Some a.
Proof.
  assert (G : forall d, In x (map key l) \/ In x (map fst d) ->
    In x (map fst (fold_left (fun d a => dset eqb (key a) a d) l d))).
  { induction l as [|b l IH]; cbn; intros d H; [tauto|]. apply IH. rewrite (dset_keys eqb).
    destruct H as [[<-|H]|H]; auto.
    - right. destruct (dmem eqb (key b) d) eqn:E; [now apply (dmem_In eqb Heq)|]. apply in_or_app. cbn. auto.
    - right. destruct (dmem _ _ _); [auto|apply in_or_app; auto]. }
  intros H. destruct (dget eqb x (dict_of eqb key l)) eqn:E; [eauto|].
  apply (dget_None eqb Heq) in E. exfalso. apply E. apply G. auto.
Qed.

Lemma by_id_some all id c : get_component_by_id all id = Some c -> In c all /\ co_id c = id.
Proof. apply dict_of_from. apply String.eqb_eq. Qed.
Lemma by_id_distinct all id c : NoDup (map co_id all) ->
  get_component_by_id all id = Some c <-> In c all /\ co_id c = id.
Proof.
  intros Hn. split; [apply by_id_some|]. intros [H <-]. unfold get_component_by_id.
  rewrite (dict_of_distinct String.eqb co_id String.eqb_eq _ Hn).
  apply (In_dget_nodup String.eqb String.eqb_eq); [now rewrite map_fst_key|].
  now apply (in_map (fun a => (co_id a, a))).
Qed.
Lemma by_id_none all id : ~ In id (map co_id all) -> get_component_by_id all id = None.
Proof.
  intros H. destruct (get_component_by_id all id) eqn:E; [|reflexivity].
  apply by_id_some in E. destruct E as [E <-]. exfalso. apply H. now apply in_map.
Qed.

Lemma mk_connection_ports r1 r2 k : mk_connection r1 r2 = Ok k -> pc_port1 k = r1 /\ pc_port2 k = r2.
Proof.
  unfold mk_connection. intros H. destruct (dget _ _ _); [|discriminate]. destruct (dget _ _ _); [|discriminate].
  destruct (negb _); [discriminate|]. inv_bind H. injection H as <-. auto.
Qed.
Lemma resolve_connection_some all i k : resolve_connection all i = Ok k ->
  connects all i k /\ mk_connection (pc_port1 k) (pc_port2 k) = Ok k.
Proof.
  unfold resolve_connection, connects. destruct (get_component_by_id all (icn_component1 i)) as [c1|] eqn:E1; [|discriminate].
  destruct (get_component_by_id all (icn_component2 i)) as [c2|] eqn:E2; [|discriminate]. intros H.
  apply by_id_some in E1, E2. destruct (mk_connection_ports _ _ _ H) as [-> ->]. cbn.
  destruct E1, E2. repeat split; auto.
Qed.

(** ** Networks *)
Lemma fold_add_nodes_gen {A} (f : A -> component) l : forall r,
  fold_left (fun r a => add_node (f a) r) l r =
  {| n_id := n_id r; n_nodes := fold_left (fun d a => dset String.eqb (co_id (f a)) (f a) d) l (n_nodes r);
     n_components := n_components r; n_connections := n_connections r |}.
Proof. induction l as [|kc d IH]; intros r; cbn; [destruct r; reflexivity|]. rewrite IH. reflexivity. Qed.
Lemma fold_connect ks : forall n, (forall k, In k ks -> mk_connection (pc_port1 k) (pc_port2 k) = Ok k) ->
  foldM (fun n c => connect (pc_port1 c) (pc_port2 c) n) n ks =
  Ok {| n_id := n_id n; n_nodes := n_nodes n; n_components := n_components n; n_connections := n_connections n ++ ks |}.
Proof.
  induction ks as [|k ks IH]; intros n H; cbn; [rewrite app_nil_r; destruct n; reflexivity|].
  unfold connect at 1. rewrite H by (cbn; auto). cbn. rewrite IH by (cbn in *; auto). cbn. now rewrite <- app_assoc.
Qed.
Lemma fold_left_ext_in {A B} (f g : B -> A -> B) l : forall b, (forall b a, In a l -> f b a = g b a) ->
  fold_left f l b = fold_left g l b.
Proof.
  induction l as [|a l IH]; intros b H; cbn; [reflexivity|]. rewrite H by (cbn; auto).
  apply IH. intros. apply H. cbn. auto.
Qed.

(** the network of a resolved system *)
Lemma build_network_ok i libs s : resolve_system i libs = Ok s ->
  exists cs ns ks, Forall2 (stands_as libs) (is_components i) cs /\ Forall2 (stands_as libs) (is_nodes i) ns /\
    Forall2 (fun i k => resolve_connection (cs ++ ns) i = Ok k) (is_connections i) ks /\
    build_network s = Ok {| n_id := "study"; n_nodes := dict_of String.eqb co_id ns;
                            n_components := dict_of String.eqb co_id cs; n_connections := ks |}.
Proof.
  unfold resolve_system. intros H. inv_bind H. inv_bind H. inv_bind H. injection H as <-.
  rename v into cs, v0 into ns, v1 into ks.
  apply resolve_components_ok in H0. apply resolve_components_ok in H1. apply mapM_ok in H2.
  exists cs, ns, ks. repeat (split; [assumption|]).
  unfold build_network. cbn [sy_nodes sy_components sy_connections mk_system].
  assert (N : forall l, named_dict co_id (dict_of String.eqb co_id l)) by (intros; apply dict_of_named; apply String.eqb_eq).
  rewrite (fold_left_ext_in (fun n kc => add_node {| co_model := co_model (snd kc); co_id := fst kc |} n)
             (fun r kc => add_node (snd kc) r)).
  2: { intros n [k c] Hin. cbn. destruct (N ns) as [_ Hk]. rewrite <- (Hk _ _ Hin). destruct c. reflexivity. }
  rewrite fold_add_nodes, fold_add_components. cbn [n_id n_nodes n_components n_connections new_network].
  rewrite !fold_dset_fresh by (apply N). cbn [app].
  rewrite fold_connect; [reflexivity|].
  intros k Hk. clear -H2 Hk. induction H2 as [|x k' l ks H _ IH]; [destruct Hk|].
  destruct Hk as [->|Hk]; [|auto]. now apply resolve_connection_some in H.
Qed.

Lemma Forall2_imp {A B} (R S : A -> B -> Prop) l l' : (forall a b, R a b -> S a b) -> Forall2 R l l' -> Forall2 S l l'.
Proof. intros H. induction 1; constructor; auto. Qed.

Lemma NoDup_app_l {A} (l l' : list A) : NoDup (l ++ l') -> NoDup l.
Proof.
  induction l as [|a l IH]; cbn; intros H; constructor; inversion H; subst; auto.
  intros Hin. match goal with H : ~ In _ _ |- _ => apply H end. apply in_or_app. auto.
Qed.
Lemma NoDup_app_r {A} (l l' : list A) : NoDup (l ++ l') -> NoDup l'.
Proof. induction l as [|a l IH]; cbn; intros H; auto. inversion H; auto. Qed.

Section Network.
  Context (i : input_system) (libs : dict string library) (s : system) (n : network).
  Hypothesis D : NoDup (input_ids i).
  Hypothesis R : resolve_system i libs = Ok s.
  Hypothesis B : build_network s = Ok n.
  Lemma network_of_file :
    n_id n = "study"%string /\
    Forall2 (stands_as libs) (is_nodes i) (map snd (n_nodes n)) /\
    Forall2 (stands_as libs) (is_components i) (map snd (n_components n)) /\
    Forall2 (connects (all_components n)) (is_connections i) (n_connections n) /\
    (forall x c, In x (all_inputs i) -> stands_as libs x c -> get_component n (ic_id x) = Ok c) /\
    (forall x, ~ In x (input_ids i) -> get_component n x = Err KeyError).
  Proof.
    destruct (build_network_ok _ _ _ R) as (cs & ns & ks & Hc & Hn & Hk & Hb).
    assert (n = {| n_id := "study"; n_nodes := dict_of String.eqb co_id ns;
                   n_components := dict_of String.eqb co_id cs; n_connections := ks |}) by congruence.
    subst n. cbn [n_id n_nodes n_components n_connections].
    pose proof (stands_as_ids _ _ _ Hc) as Ic. pose proof (stands_as_ids _ _ _ Hn) as In'.
    assert (Dall : NoDup (map co_id (cs ++ ns))) by (rewrite map_app, Ic, In'; exact D).
    assert (Dc : NoDup (map co_id cs)) by (rewrite map_app in Dall; now apply NoDup_app_l in Dall).
    assert (Dn : NoDup (map co_id ns)) by (rewrite map_app in Dall; now apply NoDup_app_r in Dall).
    rewrite !dict_of_distinct by (auto; apply String.eqb_eq). rewrite !map_snd_key.
    split; [reflexivity|]. split; [exact Hn|]. split; [exact Hc|]. split; [|split].
    - eapply Forall2_imp; [|exact Hk]. intros a k H. apply resolve_connection_some in H.
      destruct H as [(H1 & H2 & H3 & H4 & H5 & H6) _]. unfold connects, all_components.
      cbn [n_nodes n_components]. rewrite !map_snd_key.
      repeat split; auto; apply in_or_app; apply in_app_or in H5; apply in_app_or in H6; tauto.
    - intros x c Hx Hs. unfold get_component. cbn [n_nodes n_components].
      assert (G : forall l cs', Forall2 (stands_as libs) l cs' -> In x l -> In c cs').
      { clear -Hs. intros l cs' H. induction H as [|a b l cs' Hab _ IH]; [tauto|].
        intros [->|H]; [left|right; auto]. destruct Hab as [H1 H2], Hs as [H3 H4].
        pose proof (names_model_functional _ _ _ _ H2 H4). destruct b, c; cbn in *. congruence. }
      destruct Hs as [Hid _]. rewrite <- Hid. unfold all_inputs in Hx. apply in_app_or in Hx.
      assert (Hnd : forall l, NoDup (map co_id l) -> In c l ->
                dget String.eqb (co_id c) (map (fun a => (co_id a, a)) l) = Some c).
      { intros l Hl Hin. apply (In_dget_nodup String.eqb String.eqb_eq); [now rewrite map_fst_key|].
        now apply (in_map (fun a => (co_id a, a))). }
      destruct Hx as [Hx|Hx].
      + rewrite Hnd; auto. eapply G; eauto.
      + pose proof (G _ _ Hn Hx) as Hin.
        replace (dget String.eqb (co_id c) (map (fun a => (co_id a, a)) cs)) with (@None component).
        * rewrite Hnd; auto.
        * symmetry. apply (dget_None String.eqb String.eqb_eq). rewrite map_fst_key. intros Hbad.
          rewrite map_app in Dall. apply in_split in Hbad. destruct Hbad as (u & w & Hbad). rewrite Hbad in Dall.
          rewrite <- app_assoc in Dall. cbn in Dall. apply NoDup_remove_2 in Dall. apply Dall.
          apply in_or_app. right. apply in_or_app. right. now apply in_map.
    - intros x Hx. unfold get_component. cbn [n_nodes n_components]. unfold input_ids in Hx.
      rewrite <- Ic, <- In' in Hx.
      assert (Hno : forall l, ~ In x (map co_id l) -> dget String.eqb x (map (fun a => (co_id a, a)) l) = None).
      { intros l H. apply (dget_None String.eqb String.eqb_eq). now rewrite map_fst_key. }
      rewrite !Hno; [reflexivity| |]; intros H; apply Hx; apply in_or_app; auto.
  Qed.
End Network.

Lemma build_network_built s n : build_network s = Ok n -> built_network n.
Proof.
  unfold build_network. apply (foldM_invariant _ built_network).
  - intros m k m' _ Hm Hk. eapply bn_connect; eauto.
  - assert (G1 : forall (l : dict string component) m, built_network m -> built_network (fold_left (fun n kc => add_component (snd kc) n) l m)).
    { intros l. induction l as [|kc l IH]; cbn; auto. intros m Hm. apply IH. now apply bn_component. }
    assert (G2 : forall (l : dict string component) m, built_network m ->
      built_network (fold_left (fun n kc => add_node {| co_model := co_model (snd kc); co_id := fst kc |} n) l m)).
    { intros l. induction l as [|kc l IH]; cbn; auto. intros m Hm. apply IH. now apply bn_node. }
    apply G1, G2, bn_new.
Qed.

Lemma Forall2_In_r {A B} (R : A -> B -> Prop) l l' b : Forall2 R l l' -> In b l' -> exists a, In a l /\ R a b.
Proof.
  induction 1 as [|a b' l l' H _ IH]; [intros []|]. intros [->|Hin]; [exists a; cbn; auto|].
  destruct (IH Hin) as (a' & H1 & H2). exists a'. cbn. auto.
Qed.
Lemma Forall2_In_l {A B} (R : A -> B -> Prop) l l' a : Forall2 R l l' -> In a l -> exists b, In b l' /\ R a b.
Proof.
  induction 1 as [|a' b' l l' H _ IH]; [intros []|]. intros [->|Hin]; [exists b'; cbn; auto|].
  destruct (IH Hin) as (b & H1 & H2). exists b. cbn. auto.
Qed.
Lemma Forall2_exists {A B} (R : A -> B -> Prop) l : (forall a, In a l -> exists b, R a b) -> exists l', Forall2 R l l'.
Proof.
  induction l as [|a l IH]; intros H; [exists []; constructor|].
  destruct (H a) as [b Hb]; [cbn; auto|]. destruct IH as [l' Hl]; [intros; apply H; cbn; auto|].
  exists (b :: l'). constructor; auto.
Qed.
Lemma Forall2_app' {A B} (R : A -> B -> Prop) l1 l1' l2 l2' :
  Forall2 R l1 l1' -> Forall2 R l2 l2' -> Forall2 R (l1 ++ l2) (l1' ++ l2').
Proof. induction 1; cbn; auto. Qed.

Lemma resolve_iff i libs : NoDup (input_ids i) -> named_libraries libs ->
  (exists s n, resolve_system i libs = Ok s /\ build_network s = Ok n) <->
  (forall c, In c (all_inputs i) -> exists m, names_model libs (ic_model c) m) /\
  (forall k, In k (is_connections i) -> connectable libs i k).
Proof.
  intros D N. split.
  - intros (s & n & R & _). destruct (build_network_ok _ _ _ R) as (cs & ns & ks & Hc & Hn & Hk & _).
    assert (Hall : Forall2 (stands_as libs) (all_inputs i) (cs ++ ns)) by (now apply Forall2_app').
    split.
    + intros c H. destruct (Forall2_In_l _ _ _ _ Hall H) as (k & _ & _ & Hm). eauto.
    + intros k H. destruct (Forall2_In_l _ _ _ _ Hk H) as (k' & _ & Hk'). apply resolve_connection_some in Hk'.
      destruct Hk' as [(H1 & H2 & H3 & H4 & H5 & H6) Hm].
      destruct (Forall2_In_r _ _ _ _ Hall H5) as (c1 & I1 & S1).
      destruct (Forall2_In_r _ _ _ _ Hall H6) as (c2 & I2 & S2).
      destruct S1 as [E1 M1], S2 as [E2 M2].
      exists c1, c2, (co_model (pr_component (pc_port1 k'))), (co_model (pr_component (pc_port2 k'))).
      repeat (split; [first [assumption|congruence]|]).
      destruct (pc_port1 k') as [[m1 i1] p1], (pc_port2 k') as [[m2 i2] p2]. cbn in *. subst.
      refine (proj1 (connection_accepted _ _ _ _) (ex_intro _ _ Hm)); apply named_ports; eapply N; eauto.
  - intros [Hm Hk].
    assert (G : forall l, (forall c, In c l -> In c (all_inputs i)) -> exists cs, Forall2 (stands_as libs) l cs).
    { intros l Hl. apply Forall2_exists. intros c Hc. destruct (Hm c (Hl c Hc)) as [m Hm'].
      exists {| co_model := m; co_id := ic_id c |}. split; [reflexivity|exact Hm']. }
    destruct (G (is_components i)) as [cs Hc]; [intros; apply in_or_app; auto|].
    destruct (G (is_nodes i)) as [ns Hn]; [intros; apply in_or_app; auto|].
    assert (Hall : Forall2 (stands_as libs) (all_inputs i) (cs ++ ns)) by (now apply Forall2_app').
    assert (Dall : NoDup (map co_id (cs ++ ns))).
    { rewrite (stands_as_ids _ _ _ Hall). unfold all_inputs. rewrite map_app. exact D. }
    assert (Hks : exists ks, mapM (resolve_connection (cs ++ ns)) (is_connections i) = Ok ks).
    { destruct (Forall2_exists (fun k k' => resolve_connection (cs ++ ns) k = Ok k') (is_connections i)) as [ks H].
      - intros k Hin. destruct (Hk k Hin) as (c1 & c2 & m1 & m2 & I1 & I2 & E1 & E2 & M1 & M2 & Cp).
        assert (F : forall c m, In c (all_inputs i) -> names_model libs (ic_model c) m ->
                  get_component_by_id (cs ++ ns) (ic_id c) = Some {| co_model := m; co_id := ic_id c |}).
        { intros c m Ic Mc. apply by_id_distinct; [exact Dall|]. split; [|reflexivity].
          destruct (Forall2_In_l _ _ _ _ Hall Ic) as ([m' id'] & Hin' & Hid & Hm'). cbn in *.
          rewrite (names_model_functional _ _ _ _ Mc Hm'), <- Hid. exact Hin'. }
        unfold resolve_connection. rewrite <- E1, <- E2, (F c1 m1 I1 M1), (F c2 m2 I2 M2).
        refine (proj2 (connection_accepted _ _ _ _) Cp); apply named_ports; eapply N; eauto.
      - exists ks. now apply mapM_ok. }
    destruct Hks as [ks Hks].
    assert (R : resolve_system i libs = Ok (mk_system cs ns ks)).
    { unfold resolve_system. apply resolve_components_ok in Hc, Hn. rewrite Hc. cbn [bind]. rewrite Hn. cbn [bind].
      rewrite Hks. reflexivity. }
    destruct (build_network_ok _ _ _ R) as (? & ? & ? & _ & _ & _ & Hb). eauto.
Qed.

Lemma result_cases {A} (r : result A) : (exists a, r = Ok a) \/ (exists e, r = Err e).
Proof. destruct r; eauto. Qed.
Lemma unknown_refused i libs :
  (exists c, In c (all_inputs i) /\ forall m, ~ names_model libs (ic_model c) m) \/
  (exists k, In k (is_connections i) /\ (~ In (icn_component1 k) (input_ids i) \/ ~ In (icn_component2 k) (input_ids i))) ->
  exists e, resolve_system i libs = Err e.
Proof.
  intros H. destruct (result_cases (resolve_system i libs)) as [[s R]|He]; [exfalso|exact He].
  destruct (build_network_ok _ _ _ R) as (cs & ns & ks & Hc & Hn & Hk & _).
  assert (Hall : Forall2 (stands_as libs) (all_inputs i) (cs ++ ns)) by (now apply Forall2_app').
  destruct H as [(c & Hin & Hno)|(k & Hin & Hno)].
  - destruct (Forall2_In_l _ _ _ _ Hall Hin) as (x & _ & _ & Hm). exact (Hno _ Hm).
  - destruct (Forall2_In_l _ _ _ _ Hk Hin) as (k' & _ & Hk'). apply resolve_connection_some in Hk'.
    destruct Hk' as [(H1 & H2 & H3 & H4 & H5 & H6) _].
    assert (E : map co_id (cs ++ ns) = input_ids i).
    { rewrite (stands_as_ids _ _ _ Hall). unfold all_inputs, input_ids. now rewrite map_app. }
    rewrite <- E, <- H1, <- H3 in Hno. destruct Hno as [Hno|Hno]; apply Hno; now apply in_map.
Qed.

Lemma consistency_iff study models :
  (consistency_check study models = Ok true <->
   forall c, In c (map snd study) -> In (m_id (co_model c)) (map fst models)) /\
  (consistency_check study models = Ok true \/ consistency_check study models = Err ValueError).
Proof.
  unfold consistency_check. induction study as [|[k c] l [IH1 IH2]]; cbn.
  - split; [|left; reflexivity]. split; [intros _ c []|reflexivity].
  - destruct (dmem String.eqb (m_id (co_model c)) models) eqn:E; cbn [bind].
    + apply (dmem_In String.eqb String.eqb_eq) in E.
      destruct (mapM _ l) eqn:El; cbn [bind] in *.
      * split; [|auto]. split; [|reflexivity]. intros _ c' [<-|H]; [exact E|]. now apply IH1.
      * split; [|destruct IH2 as [H|H]; [discriminate|auto]]. split; [discriminate|]. intros H. apply IH1. auto.
    + split; [|auto]. split; [discriminate|]. intros H. exfalso.
      specialize (H c (or_introl eq_refl)). apply (dmem_In String.eqb String.eqb_eq) in H. congruence.
Qed.

(** ** Data *)
Lemma combine_zrange_get {A} (l : list A) t : dget Z.eqb t (combine (zrange 0 (Z.of_nat (List.length l))) l) =
  if (t <? 0)%Z then None else nth_error l (Z.to_nat t).
Proof. pose proof (dget_combine_zrange l 0 t) as H. rewrite Z.add_0_l, Z.sub_0_r in H. exact H. Qed.

Lemma singles ts vs : mapM (fun r : list num => match r with [v] => Ok v | _ => Err ValueError end) ts = Ok vs <->
  ts = map (fun v => [v]) vs.
Proof.
  rewrite mapM_ok. split.
  - induction 1 as [|r v ts vs H _ IH]; cbn; [reflexivity|]. destruct r as [|x [|? ?]]; try discriminate. congruence.
  - intros ->. induction vs as [|v vs IH]; cbn; constructor; auto.
Qed.

Lemma nth_error_some_map {A B} (f : A -> B) l k : nth_error (map f l) k = option_map f (nth_error l k).
Proof. revert k. induction l as [|a l IH]; intros [|k]; cbn; auto. Qed.

(** what reading the data of one parameter gives *)
Lemma build_data_value files p sc d t y col v :
  build_data files (ip_time p) (ip_scenario p) (ip_value p) sc = Ok d ->
  (0 <= t)%Z -> (ip_scenario p = true -> data_scenario sc y = Ok col /\ (0 <= col)%Z) ->
  get_value d (Some t) (Some y) EmptyString = Ok v <-> parameter_cell files p t col = Some v.
Proof.
  unfold build_data, parameter_cell. intros Hd Ht Hc. destruct (ip_value p) as [x|name].
  - destruct (ip_time p || ip_scenario p)%bool; [discriminate|]. injection Hd as <-. cbn.
    split; intros H; congruence.
  - inv_bind Hd. rename v0 into ts. rewrite H. destruct (ip_time p), (ip_scenario p); cbn [andb orb] in *.
    + injection Hd as <-. destruct (Hc eq_refl) as [Hy Hcol].
      rewrite (time_scenario_cell _ _ _ _ _ _ Hy Ht Hcol). unfold cell.
      rewrite (proj2 (Z.leb_le _ _) Ht), (proj2 (Z.leb_le _ _) Hcol).
      destruct (nth_error ts (Z.to_nat t)) as [r|]; [|split; discriminate].
      destruct (nth_error r (Z.to_nat col)) as [w|]; split; intros E; try discriminate; congruence.
    + inv_bind Hd. injection Hd as <-. unfold dataframe_to_time_series in H0. inv_bind H0. injection H0 as <-.
      apply singles in H1. subst ts. cbn [get_value]. rewrite combine_zrange_get. unfold cell.
      rewrite (proj2 (Z.leb_le _ _) Ht). destruct (t <? 0)%Z eqn:E; [lia|]. change (0 <=? 0)%Z with true. cbn iota.
      rewrite nth_error_some_map. destruct (nth_error v1 (Z.to_nat t)); cbn; split; intros E'; try discriminate; congruence.
    + inv_bind Hd. injection Hd as <-. unfold dataframe_to_scenario_series in H0.
      destruct ts as [|r [|? ?]]; try discriminate. injection H0 as <-. destruct (Hc eq_refl) as [Hy Hcol].
      cbn [get_value]. rewrite Hy. cbn [bind]. rewrite combine_zrange_get. unfold cell. cbn.
      rewrite (proj2 (Z.leb_le _ _) Hcol). destruct (col <? 0)%Z eqn:E; [lia|].
      destruct (nth_error r (Z.to_nat col)); split; intros E'; try discriminate; congruence.
    + discriminate.
Qed.
(** a scenario that the builder does not list *)
Lemma build_data_missing files p sc d t y e :
  build_data files (ip_time p) (ip_scenario p) (ip_value p) sc = Ok d ->
  ip_scenario p = true -> data_scenario sc y = Err e ->
  exists e', get_value d (Some t) (Some y) EmptyString = Err e'.
Proof.
  unfold build_data. intros Hd Hs Hy. rewrite Hs in Hd. destruct (ip_value p) as [x|name].
  - rewrite orb_true_r in Hd. discriminate.
  - inv_bind Hd. rewrite andb_true_r in Hd. destruct (ip_time p).
    + injection Hd as <-. cbn. rewrite Hy. cbn. eauto.
    + inv_bind Hd. injection Hd as <-. cbn. rewrite Hy. cbn. eauto.
Qed.
Lemma build_data_accepts files p sc :
  (exists d, build_data files (ip_time p) (ip_scenario p) (ip_value p) sc = Ok d) <-> acceptable files p.
Proof.
  unfold build_data, acceptable. destruct (ip_value p) as [x|name].
  - destruct (ip_time p), (ip_scenario p); cbn; split; intros H; try (destruct H; discriminate); eauto;
      destruct H; discriminate.
  - split.
    + intros [d Hd]. inv_bind Hd. exists v. split; [exact H|].
      destruct (ip_time p), (ip_scenario p); cbn in Hd; [auto| | |discriminate].
      * right. left. split; [reflexivity|]. split; [reflexivity|]. inv_bind Hd.
        unfold dataframe_to_time_series in H0. inv_bind H0. apply singles in H1. subst v. intros r Hr.
        apply in_map_iff in Hr. destruct Hr as (w & <- & _). eauto.
      * right. right. split; [reflexivity|]. split; [reflexivity|]. inv_bind Hd.
        unfold dataframe_to_scenario_series in H0. destruct v as [|r [|? ?]]; try discriminate. eauto.
    + intros (ts & -> & [[-> ->]|[(-> & -> & H)|(-> & -> & r & ->)]]); cbn [bind andb]; [eauto| |cbn; eauto].
      unfold dataframe_to_time_series.
      assert (Hv : exists vs, ts = map (fun v => [v]) vs).
      { induction ts as [|r ts IH]; [exists []; reflexivity|]. destruct (H r) as [v ->]; [cbn; auto|].
        destruct IH as [vs ->]; [intros; apply H; cbn; auto|]. exists (v :: vs). reflexivity. }
      destruct Hv as [vs Hv]. apply singles in Hv. rewrite Hv. cbn. eauto.
Qed.

Lemma get_add_same c n d db : get_data (add_data c n d db) c n = Ok d.
Proof. unfold get_data, add_data. now rewrite (dget_dset_same pfi_eqb pfi_eqb_eq). Qed.
Lemma get_add_other c n c' n' d db : (c, n) <> (c', n') -> get_data (add_data c' n' d db) c n = get_data db c n.
Proof. intros H. unfold get_data, add_data. now rewrite (dget_dset_other pfi_eqb pfi_eqb_eq). Qed.

(** the group in force after some parameters *)
Definition group_after (scs : dict string scenarization) (sc : option scenarization) (ps : list input_parameter)
  : result (option scenarization) := foldM (fun sc p => choose_group scs (ip_group p) sc) sc ps.

Section Scenarized.
  Context (files : string -> result frame) (scs : dict string scenarization).
  Lemma params_group cid ps : forall db sc db' sc',
    foldM (scenarized_parameter files scs cid) (db, sc) ps = Ok (db', sc') ->
    group_after scs sc ps = Ok sc' /\
    forall c n, ~ In (c, n) (map (fun p => (cid, ip_id p)) ps) -> get_data db' c n = get_data db c n.
  Proof.
    induction ps as [|p ps IH]; intros db sc db' sc' H.
    - injection H as <- <-. split; reflexivity.
    - cbn [foldM] in H. inv_bind H. unfold scenarized_parameter in H0. cbn [fst snd] in H0. inv_bind H0. inv_bind H0.
      injection H0 as <-. apply IH in H. destruct H as [G2 G3]. split.
      + unfold group_after. cbn [foldM]. rewrite H1. exact G2.
      + intros c n Hn. cbn in Hn. rewrite G3 by auto. apply get_add_other. intros E. apply Hn. auto.
  Qed.
  Lemma params_data cid before p after db sc db' sc' :
    foldM (scenarized_parameter files scs cid) (db, sc) (before ++ p :: after) = Ok (db', sc') ->
    ~ In (ip_id p) (map ip_id after) ->
    exists scp d, group_after scs sc (before ++ [p]) = Ok scp /\
      build_data files (ip_time p) (ip_scenario p) (ip_value p) scp = Ok d /\ get_data db' cid (ip_id p) = Ok d.
  Proof.
    intros H Hn. rewrite foldM_app in H. inv_bind H. destruct v as [db1 sc1]. apply params_group in H0.
    destruct H0 as [Hg _]. cbn [foldM] in H. inv_bind H. unfold scenarized_parameter in H0. cbn [fst snd] in H0.
    inv_bind H0. inv_bind H0. injection H0 as <-. apply params_group in H. destruct H as [_ H].
    exists v0, v1. split; [|split; [exact H2|]].
    - unfold group_after in *. rewrite foldM_app, Hg. cbn. rewrite H1. reflexivity.
    - rewrite H; [apply get_add_same|]. intros Hin. apply Hn. apply in_map_iff in Hin.
      destruct Hin as (q & E & Hq). apply in_map_iff. exists q. split; [congruence|exact Hq].
  Qed.
  Lemma components_other cs : forall db db', foldM (scenarized_component files scs) db cs = Ok db' ->
    forall c n, ~ In (c, n) (parameter_keys cs) -> get_data db' c n = get_data db c n.
  Proof.
    induction cs as [|x cs IH]; intros db db' H c n Hn; [injection H as <-; reflexivity|].
    cbn [foldM] in H. inv_bind H. cbn in Hn. rewrite (IH _ _ H) by (intros Hin; apply Hn; apply in_or_app; auto).
    unfold scenarized_component in H0. inv_bind H0. inv_bind H0. injection H0 as <-. destruct v1 as [db1 sc1].
    apply params_group in H2. destruct H2 as [_ H2]. apply H2. intros Hin. apply Hn. apply in_or_app. auto.
  Qed.
  Lemma component_data cs1 c cs2 before p after db db' :
    foldM (scenarized_component files scs) db (cs1 ++ c :: cs2) = Ok db' ->
    parameters_of c = before ++ p :: after ->
    ~ In (ip_id p) (map ip_id after) -> ~ In (ic_id c, ip_id p) (parameter_keys cs2) ->
    exists sc scp d, choose_group scs (ic_group c) None = Ok sc /\ group_after scs sc (before ++ [p]) = Ok scp /\
      build_data files (ip_time p) (ip_scenario p) (ip_value p) scp = Ok d /\ get_data db' (ic_id c) (ip_id p) = Ok d.
  Proof.
    intros H Hp Ha Hcs. rewrite foldM_app in H. inv_bind H. cbn [foldM] in H. inv_bind H.
    pose proof (components_other _ _ _ H _ _ Hcs) as Hg. unfold scenarized_component in H1. inv_bind H1. inv_bind H1.
    injection H1 as <-. rewrite Hp in H3. destruct v2 as [db1 sc1].
    destruct (params_data _ _ _ _ _ _ _ _ H3 Ha) as (scp & d & G1 & G2 & G3).
    exists v1, scp, d. repeat (split; [assumption|]). rewrite Hg. exact G3.
  Qed.
End Scenarized.

(** which key is given where *)
Lemma parameter_keys_app l m : parameter_keys (l ++ m) = parameter_keys l ++ parameter_keys m.
Proof. apply flat_map_app. Qed.
Lemma keys_split cs1 c cs2 before p after :
  parameters_of c = before ++ p :: after -> NoDup (parameter_keys (cs1 ++ c :: cs2)) ->
  ~ In (ip_id p) (map ip_id after) /\ ~ In (ic_id c, ip_id p) (parameter_keys cs2).
Proof.
  intros Hp Hn. rewrite parameter_keys_app in Hn. apply NoDup_app_r in Hn. cbn in Hn. rewrite Hp, map_app, <- app_assoc in Hn.
  apply NoDup_app_r in Hn. cbn in Hn. inversion Hn as [|? ? H _]; subst. split; intros Hin; apply H; apply in_or_app.
  - left. apply in_map_iff in Hin. destruct Hin as (q & E & Hq). apply in_map_iff. exists q. split; [congruence|exact Hq].
  - right. exact Hin.
Qed.

Lemma group_none scs sc ps : Forall (fun q => given (ip_group q) = None) ps -> group_after scs sc ps = Ok sc.
Proof.
  induction 1 as [|p ps H _ IH]; [reflexivity|]. unfold group_after in *. cbn [foldM].
  replace (choose_group scs (ip_group p) sc) with (Ok sc : result (option scenarization)); [exact IH|].
  unfold given in H. destruct (ip_group p) as [[|? ?]|]; [reflexivity|discriminate|reflexivity].
Qed.
Lemma choose_given scs g sc sc' : choose_group scs g sc = Ok sc' ->
  match given g with Some g => exists s, dget String.eqb g scs = Some s /\ sc' = Some s | None => sc' = sc end.
Proof.
  unfold choose_group, given. destruct g as [[|a g]|]; intros H; [congruence| |congruence].
  destruct (dget _ _ _) as [s|]; [|discriminate]. exists s. split; [reflexivity|congruence].
Qed.

(** *** The scenario builder *)
Lemma resolve_scenarization_spec rows : forall (done : list builder_row) (out0 out : dict string scenarization),
  (forall g y c, (exists sc : scenarization, dget String.eqb g out0 = Some sc /\ dget Z.eqb y sc = Some c) <-> In (g, (y, c)) done) ->
  foldM (fun out (row : builder_row) =>
           let '(name, (year, scenario)) := row in
           match dget String.eqb name out with
           | Some sc => sc' <- add_year year scenario sc ;; Ok (dset String.eqb name sc' out)
           | None => Ok (dset String.eqb name [(year, scenario)] out)
           end) out0 rows = Ok out ->
  forall g y c, (exists sc, dget String.eqb g out = Some sc /\ dget Z.eqb y sc = Some c) <-> In (g, (y, c)) (done ++ rows).
Proof.
  induction rows as [|[n [y0 c0]] rows IH]; intros done out0 out Hd H.
  - injection H as <-. now rewrite app_nil_r.
  - cbn [foldM] in H. inv_bind H.
    intros g y c. transitivity (In (g, (y, c)) ((done ++ [(n, (y0, c0))]) ++ rows)); [|now rewrite <- app_assoc].
    revert g y c. apply (IH (done ++ [(n, (y0, c0))]) v); [|exact H]. clear IH H. intros g y c.
    assert (Hin : In (g, (y, c)) (done ++ [(n, (y0, c0))]) <-> In (g, (y, c)) done \/ (g = n /\ y = y0 /\ c = c0)).
    { rewrite in_app_iff. cbn. split; intros [H|H]; auto.
      - destruct H as [H|[]]. injection H as -> -> ->. auto.
      - destruct H as (-> & -> & ->). auto. }
    rewrite Hin, <- Hd. clear Hin Hd.
    destruct (dget String.eqb n out0) as [sc|] eqn:E.
    + inv_bind H0. injection H0 as <-. unfold add_year in H. destruct (dmem Z.eqb y0 sc) eqn:Ey; [discriminate|].
      injection H as <-. unfold dmem in Ey.
      destruct (string_dec g n) as [->|Hne].
      * rewrite (dget_dset_same String.eqb String.eqb_eq), E. split.
        -- intros (s & Hs & Hc). injection Hs as <-. rewrite dget_app in Hc.
           destruct (dget Z.eqb y sc) eqn:Es; [left; eauto; exists sc; split; [reflexivity|congruence]|].
           right. cbn in Hc. destruct (Z.eqb_spec y y0); [split; [reflexivity|split; congruence]|discriminate].
        -- intros [(s & Hs & Hc)|(_ & -> & ->)].
           ++ injection Hs as <-. exists (sc ++ [(y0, c0)]). split; [reflexivity|]. rewrite dget_app, Hc. reflexivity.
           ++ exists (sc ++ [(y0, c0)]). split; [reflexivity|]. rewrite dget_app.
              destruct (dget Z.eqb y0 sc); [discriminate|]. cbn. now rewrite Z.eqb_refl.
      * rewrite (dget_dset_other String.eqb String.eqb_eq) by auto. tauto.
    + injection H0 as <-. destruct (string_dec g n) as [->|Hne].
      * rewrite (dget_dset_same String.eqb String.eqb_eq), E. split.
        -- intros (s & Hs & Hc). injection Hs as <-. right. cbn in Hc.
           destruct (Z.eqb_spec y y0); [split; [reflexivity|split; congruence]|discriminate].
        -- intros [(s & Hs & _)|(_ & -> & ->)]; [discriminate|]. eexists. split; [reflexivity|]. cbn. now rewrite Z.eqb_refl.
      * rewrite (dget_dset_other String.eqb String.eqb_eq) by auto. tauto.
Qed.
Lemma builder_map rows out : resolve_scenarization rows = Ok out ->
  forall g y c, (exists sc, dget String.eqb g out = Some sc /\ get_scenario_for_year sc y = Ok c) <-> In (g, (y, c)) rows.
Proof.
  intros H g y c. rewrite <- (resolve_scenarization_spec rows [] [] out); [|cbn; intros ? ? ?; split; [intros (? & ? & _); discriminate|tauto]|exact H].
  unfold get_scenario_for_year. split; intros (sc & H1 & H2); exists sc; split; auto;
    destruct (dget Z.eqb y sc); try discriminate; congruence.
Qed.
Lemma builder_group rows out g : resolve_scenarization rows = Ok out ->
  (exists sc, dget String.eqb g out = Some sc) <-> In g (map fst rows).
Proof.
  unfold resolve_scenarization. intros H.
  assert (G : forall rows (out0 out : dict string scenarization),
    foldM (fun out (row : builder_row) =>
           let '(name, (year, scenario)) := row in
           match dget String.eqb name out with
           | Some sc => sc' <- add_year year scenario sc ;; Ok (dset String.eqb name sc' out)
           | None => Ok (dset String.eqb name [(year, scenario)] out)
           end) out0 rows = Ok out ->
    ((exists sc, dget String.eqb g out = Some sc) <-> (exists sc, dget String.eqb g out0 = Some sc) \/ In g (map fst rows))).
  { clear. induction rows as [|[n [y0 c0]] rows IH]; intros out0 out H.
    - injection H as <-. cbn. tauto.
    - cbn [foldM] in H. inv_bind H. rewrite (IH _ _ H). cbn.
      assert (Hv : exists sc', v = dset String.eqb n sc' out0).
      { destruct (dget String.eqb n out0); [inv_bind H0|]; injection H0 as <-; eauto. }
      destruct Hv as [sc' ->]. destruct (string_dec n g) as [->|Hne].
      + rewrite (dget_dset_same String.eqb String.eqb_eq). split; [auto|]. intros _. left. eauto.
      + rewrite (dget_dset_other String.eqb String.eqb_eq) by auto. split; [tauto|]. intros [?|[?|?]]; auto. contradiction. }
  rewrite (G _ _ _ H). cbn. split; [intros [[? ?]|?]; [discriminate|auto]|auto].
Qed.
Lemma builder_accepts rows :
  (exists out, resolve_scenarization rows = Ok out) <-> NoDup (map (fun r : builder_row => (fst r, fst (snd r))) rows).
Proof.
  rewrite <- (rev_involutive rows). generalize (rev rows). clear rows. intros rows.
  induction rows as [|[n [y c]] rows IH]; [cbn; split; [constructor|exists []; reflexivity]|].
  cbn [rev]. rewrite map_app. cbn [map fst snd]. unfold resolve_scenarization in *.
  assert (Hmap : forall out, foldM (fun out (row : builder_row) =>
           let '(name, (year, scenario)) := row in
           match dget String.eqb name out with
           | Some sc => sc' <- add_year year scenario sc ;; Ok (dset String.eqb name sc' out)
           | None => Ok (dset String.eqb name [(year, scenario)] out)
           end) [] (rev rows) = Ok out ->
      (exists out', match dget String.eqb n out with
           | Some sc => sc' <- add_year y c sc ;; Ok (dset String.eqb n sc' out)
           | None => Ok (dset String.eqb n [(y, c)] out)
           end = Ok out') <-> ~ In (n, y) (map (fun r : builder_row => (fst r, fst (snd r))) (rev rows))).
  { intros out Hout. pose proof (builder_map _ _ Hout) as Hb.
    assert (Hin : In (n, y) (map (fun r : builder_row => (fst r, fst (snd r))) (rev rows)) <->
                  exists sc c', dget String.eqb n out = Some sc /\ dget Z.eqb y sc = Some c').
    { rewrite in_map_iff. split.
      - intros ([n' [y' c']] & E & Hr). injection E as -> ->. apply Hb in Hr. destruct Hr as (sc & H1 & H2).
        exists sc, c'. split; [exact H1|]. unfold get_scenario_for_year in H2. destruct (dget Z.eqb y sc); congruence.
      - intros (sc & c' & H1 & H2). exists (n, (y, c')). split; [reflexivity|]. apply Hb. exists sc. split; [exact H1|].
        unfold get_scenario_for_year. now rewrite H2. }
    rewrite Hin. destruct (dget String.eqb n out) as [sc|].
    - unfold add_year, dmem. destruct (dget Z.eqb y sc) as [c'|] eqn:E; cbn.
      + split; [intros [? ?]; discriminate|]. intros H. exfalso. apply H. exists sc, c'. auto.
      + split; [|eauto]. intros _ (s & c' & H1 & H2). congruence.
    - split; [|eauto]. intros _ (s & c' & H1 & _). discriminate. }
  rewrite foldM_app.
  match goal with |- context [bind ?r _] => destruct r as [out|e] eqn:E end; cbn [bind foldM].
  - specialize (Hmap out E).
    assert (Hnd : NoDup (map (fun r : builder_row => (fst r, fst (snd r))) (rev rows))) by (apply IH; eauto).
    split.
    + intros [out' H]. inv_bind H. apply NoDup_append; [exact Hnd|repeat constructor; tauto|].
      intros a Ha [<-|[]]. revert Ha. apply Hmap. eauto.
    + intros H. assert (Hn : ~ In (n, y) (map (fun r : builder_row => (fst r, fst (snd r))) (rev rows))).
      { intros Hin. apply NoDup_remove_2 in H. apply H. rewrite app_nil_r. exact Hin. }
      apply Hmap in Hn. destruct Hn as [out' Hn]. rewrite Hn. cbn. eauto.
  - split; [intros [? ?]; discriminate|]. intros H. exfalso.
    apply NoDup_app_l in H. apply IH in H. destruct H as [? H]. discriminate.
Qed.

(** *** Reading a scenarised data base *)
Section Read.
  Context (files : string -> result frame) (i : input_system) (rows : list builder_row) (db : database).
  Hypothesis B : build_scenarized_data_base files i rows = Ok db.
  Hypothesis D : NoDup (parameter_keys (is_components i)).
  Context (c : input_component) (before after : list input_parameter) (p : input_parameter).
  Hypothesis Ic : In c (is_components i).
  Hypothesis P : parameters_of c = before ++ p :: after.
  Hypothesis G : given (ip_group p) <> None \/ Forall (fun q => given (ip_group q) = None) before.

  Lemma scenarized_data_of : exists scs scp d, resolve_scenarization rows = Ok scs /\
    match wanted_group c p with Some g => exists s, dget String.eqb g scs = Some s /\ scp = Some s | None => scp = None end /\
    build_data files (ip_time p) (ip_scenario p) (ip_value p) scp = Ok d /\ get_data db (ic_id c) (ip_id p) = Ok d.
  Proof.
    pose proof B as B0. unfold build_scenarized_data_base in B0. inv_bind B0. rename v into scs.
    pose proof D as D0. destruct (in_split _ _ Ic) as (cs1 & cs2 & E). rewrite E in B0, D0.
    destruct (keys_split _ _ _ _ _ _ P D0) as [K1 K2].
    destruct (component_data _ _ _ _ _ _ _ _ _ _ B0 P K1 K2) as (sc & scp & d & H1 & H2 & H3 & H4).
    exists scs, scp, d. split; [exact H|]. split; [|auto].
    apply choose_given in H1. unfold group_after in H2. rewrite foldM_app in H2. inv_bind H2. cbn [foldM] in H2.
    inv_bind H2. injection H2 as <-. apply choose_given in H5. unfold wanted_group.
    destruct (given (ip_group p)) as [g|]; [exact H5|]. subst v0.
    destruct G as [G'|G']; [contradiction|]. pose proof (group_none scs sc before G') as Hg. unfold group_after in Hg.
    assert (v = sc) by congruence. subst v. destruct (given (ic_group c)) as [g|]; [exact H1|]. subst. reflexivity.
  Qed.
  Lemma scenarized_read t y col v : (0 <= t)%Z ->
    (ip_scenario p = true -> column_for rows (wanted_group c p) y col /\ (0 <= col)%Z) ->
    db_get_value db (ic_id c) (ip_id p) t y = Ok v <-> parameter_cell files p t col = Some v.
  Proof.
    intros Ht Hc. destruct scenarized_data_of as (scs & scp & d & H1 & H2 & H3 & H4).
    rewrite db_value, H4. cbn [bind]. apply (build_data_value files p scp d t y col v H3 Ht).
    intros Hs. destruct (Hc Hs) as [Hcol Hpos]. split; [|exact Hpos]. unfold column_for in Hcol.
    destruct (wanted_group c p) as [g|]; [|subst; reflexivity]. destruct H2 as (s & Hg & ->).
    apply (builder_map _ _ H1) in Hcol. destruct Hcol as (s' & Hs' & Hy). cbn. congruence.
  Qed.
  Lemma scenarized_missing t y : ip_scenario p = true -> (forall col, ~ column_for rows (wanted_group c p) y col) ->
    exists e, db_get_value db (ic_id c) (ip_id p) t y = Err e.
  Proof.
    intros Hs Hno. destruct scenarized_data_of as (scs & scp & d & H1 & H2 & H3 & H4).
    rewrite db_value, H4. cbn [bind]. unfold column_for in Hno.
    destruct (wanted_group c p) as [g|]; [|exfalso; apply (Hno y); reflexivity]. destruct H2 as (s & Hg & ->).
    destruct (get_scenario_for_year s y) as [col|e] eqn:E.
    - exfalso. apply (Hno col). apply (builder_map _ _ H1). eauto.
    - exact (build_data_missing _ _ _ _ _ _ _ H3 Hs E).
  Qed.
End Read.

(** *** The plain data base is the scenarised one without groups, for components and nodes *)
Definition no_groups (c : input_component) : input_component := {|
  ic_id := ic_id c; ic_model := ic_model c; ic_group := None;
  ic_parameters := Some (map (fun p => {| ip_id := ip_id p; ip_time := ip_time p; ip_scenario := ip_scenario p;
                                          ip_value := ip_value p; ip_group := None |}) (parameters_of c)) |}.
Lemma plain_component files c db : forall db',
  foldM (fun db p => d <- build_data files (ip_time p) (ip_scenario p) (ip_value p) None ;;
                     Ok (add_data (ic_id c) (ip_id p) d db)) db (parameters_of c) = Ok db' <->
  scenarized_component files [] db (no_groups c) = Ok db'.
Proof.
  intros db'. unfold scenarized_component. cbn [ic_group no_groups choose_group bind parameters_of ic_parameters ic_id].
  rewrite foldM_map. fold (parameters_of c). generalize (parameters_of c) as ps. intros ps. revert db.
  induction ps as [|p ps IH]; intros db; cbn [foldM]; [cbn; tauto|].
  unfold scenarized_parameter at 1. cbn [ip_group choose_group bind ip_time ip_scenario ip_value fst snd ip_id].
  destruct (build_data files (ip_time p) (ip_scenario p) (ip_value p) None); cbn [bind]; [apply IH|split; discriminate].
Qed.
Lemma foldM_same {A B} (f g : B -> A -> result B) l : (forall b a r, f b a = Ok r <-> g b a = Ok r) ->
  forall b r, foldM f b l = Ok r <-> foldM g b l = Ok r.
Proof.
  intros H. induction l as [|a l IH]; intros b r; cbn; [tauto|].
  split; intros E; inv_bind E; apply H in H0; rewrite H0; cbn; now apply IH.
Qed.
Lemma plain_data_base files i db : build_data_base files i = Ok db <->
  build_scenarized_data_base files {| is_nodes := []; is_components := map no_groups (all_inputs i); is_connections := [] |} []
    = Ok db.
Proof.
  unfold build_data_base, build_scenarized_data_base. cbn [resolve_scenarization foldM bind is_components].
  rewrite foldM_map. apply foldM_same. intros b a r. apply plain_component.
Qed.
Lemma keys_no_groups l : parameter_keys (map no_groups l) = parameter_keys l.
Proof.
  induction l as [|c l IH]; cbn; [reflexivity|]. unfold parameter_keys in IH. rewrite IH. f_equal.
  cbn. rewrite map_map. reflexivity.
Qed.
Lemma plain_read files i db c p t s v :
  build_data_base files i = Ok db -> NoDup (parameter_keys (all_inputs i)) ->
  In c (all_inputs i) -> In p (parameters_of c) -> (0 <= t)%Z -> (0 <= s)%Z ->
  db_get_value db (ic_id c) (ip_id p) t s = Ok v <-> parameter_cell files p t s = Some v.
Proof.
  intros B D Ic Ip Ht Hs. apply plain_data_base in B.
  set (q := {| ip_id := ip_id p; ip_time := ip_time p; ip_scenario := ip_scenario p; ip_value := ip_value p; ip_group := None |}).
  change (parameter_cell files p t s) with (parameter_cell files q t s).
  apply in_split in Ip. destruct Ip as (before & after & Ep).
  set (f := fun p => {| ip_id := ip_id p; ip_time := ip_time p; ip_scenario := ip_scenario p; ip_value := ip_value p; ip_group := None |}).
  refine (scenarized_read files _ [] db B _ (no_groups c) (map f before) (map f after) q _ _ _ t s s v Ht _).
  - cbn. now rewrite keys_no_groups.
  - cbn. now apply in_map.
  - cbn. fold f. rewrite Ep, map_app. reflexivity.
  - right. apply Forall_forall. intros x Hx. apply in_map_iff in Hx. destruct Hx as (y & <- & _). reflexivity.
  - intros _. split; [reflexivity|exact Hs].
Qed.
Lemma plain_accepts files i : (exists db, build_data_base files i = Ok db) <->
  forall c p, In c (all_inputs i) -> In p (parameters_of c) -> acceptable files p.
Proof.
  unfold build_data_base. fold (all_inputs i). generalize (@nil (string * string * data) : database).
  induction (all_inputs i) as [|c l IH]; intros db0; cbn [foldM].
  - split; [intros _ ? ? []|eauto].
  - assert (Hc : forall db, (exists db', foldM (fun db p => d <- build_data files (ip_time p) (ip_scenario p) (ip_value p) None ;;
                     Ok (add_data (ic_id c) (ip_id p) d db)) db (parameters_of c) = Ok db') <->
             forall p, In p (parameters_of c) -> acceptable files p).
    { induction (parameters_of c) as [|p ps IHp]; intros db; cbn [foldM]; [split; [intros _ ? []|eauto]|]. split.
      - intros [db' H]. inv_bind H. inv_bind H0. intros q [<-|Hq]; [apply build_data_accepts with (sc := None); eauto|].
        eapply IHp; eauto.
      - intros H. destruct (proj2 (build_data_accepts files p None)) as [d Hd]; [apply H; cbn; auto|].
        rewrite Hd. cbn [bind]. apply IHp. intros; apply H; cbn; auto. }
    split.
    + intros [db H]. inv_bind H. intros c' p [<-|Hin] Hp.
      * eapply Hc; eauto.
      * eapply IH; eauto.
    + intros H. destruct (proj2 (Hc db0)) as [db' H']; [intros; eapply H; cbn; eauto|]. rewrite H'. cbn [bind].
      apply IH. intros. eapply H; cbn; eauto.
Qed.
Lemma plain_absent files i db c n : build_data_base files i = Ok db -> ~ In (c, n) (parameter_keys (all_inputs i)) ->
  get_data db c n = Err KeyError.
Proof.
  intros B Hn. apply plain_data_base in B. unfold build_scenarized_data_base in B. inv_bind B. cbn [is_components] in B.
  rewrite (components_other _ _ _ _ _ B); [reflexivity|]. now rewrite keys_no_groups.
Qed.
