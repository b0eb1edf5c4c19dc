(** The study that the conversion of a PyPSA network gives: entries, connections, data. *)
From Coq Require Import Lia Permutation.
From Verif Require Import Base BaseFacts Expr Visitors Parse SpecParse LexFacts LinearExpr Model Study Strategy Optim System Library
  Main SpecExpr SpecModel SpecLibrary SpecSystem SystemFacts SpecLinear SpecOptim OptimFacts SpecMain MainFacts Pypsa SpecPypsa
  PypsaFacts PypsaReading.
Local Open Scope string_scope.
Local Open Scope list_scope.

Ltac take H x E := apply bind_ok in H; destruct H as (x & E & H).
Lemma combine_named {A} (f : string -> string) (g : string -> A) l vals : NoDup (map f l) ->
  (forall c, In c l -> dget String.eqb (f c) (combine (map f l) vals) = Some (g c)) ->
  combine (map f l) vals = map (fun c => (f c, g c)) l.
Proof.
  revert vals. induction l as [|c l IH]; intros vals N H; [reflexivity|]. destruct vals as [|v vals].
  - specialize (H c (or_introl eq_refl)). discriminate.
  - cbn [map combine] in *. inversion N as [|? ? N1 N2]; subst. f_equal.
    + specialize (H c (or_introl eq_refl)). cbn in H. rewrite String.eqb_refl in H. congruence.
    + apply IH; [exact N2|]. intros c' Hc'. specialize (H c' (or_intror Hc')). cbn [dget] in H.
      destruct (String.eqb (f c') (f c)) eqn:E; [|exact H]. exfalso. apply String.eqb_eq in E. apply N1. rewrite <- E. now apply in_map.
Qed.
Lemma mapM_map {A B C} (f : B -> result C) (g : A -> B) (h : A -> C) l : (forall a, In a l -> f (g a) = Ok (h a)) ->
  mapM f (map g l) = Ok (map h l).
Proof.
  induction l as [|a l IH]; intros H; cbn; [reflexivity|]. rewrite (H a (or_introl eq_refl)). cbn.
  rewrite IH; [reflexivity|]. intros b Hb. apply H. now right.
Qed.
Lemma find_none_id {A} (key : A -> string) l i : ~ In i (map key l) -> find (fun b => String.eqb (key b) i) l = None.
Proof.
  intros H. destruct (find_by key i l) as [(b & _ & Hb & E)|[E _]]; [|exact E]. exfalso. apply H. rewrite <- E. now apply in_map.
Qed.
Lemma flat_map_nothing {A B} (f : A -> list B) l : (forall a, In a l -> f a = []) -> flat_map f l = [].
Proof.
  induction l as [|a l IH]; intros H; cbn; [reflexivity|]. rewrite (H a (or_introl eq_refl)). apply IH. intros b Hb. apply H. now right.
Qed.
Lemma flat_map_map {A B C} (f : B -> list C) (g : A -> B) l : flat_map f (map g l) = flat_map (fun a => f (g a)) l.
Proof. induction l as [|a l IH]; cbn; [reflexivity|now rewrite IH]. Qed.
Lemma flat_map_flat {A B C} (f : B -> list C) (g : A -> list B) l : flat_map f (flat_map g l) = flat_map (fun a => flat_map f (g a)) l.
Proof. induction l as [|a l IH]; cbn; [reflexivity|]. now rewrite flat_map_app, IH. Qed.
Lemma flat_map_some {A B} (f : A -> list B) (p : A -> bool) (g : A -> B) l :
  (forall a, In a l -> f a = if p a then [g a] else []) -> flat_map f l = map g (filter p l).
Proof.
  induction l as [|a l IH]; intros H; cbn; [reflexivity|]. rewrite (H a (or_introl eq_refl)), IH by (intros b Hb; apply H; now right).
  destruct (p a); reflexivity.
Qed.

Lemma one_of_many {A B} (key : A -> string) (f : A -> list B) r g l : NoDup (map key l) -> In g l ->
  (forall a, In a l -> f a = if String.eqb (key a) (key g) then r else []) -> flat_map f l = r.
Proof.
  induction l as [|a l IH]; intros N Hg One; [destruct Hg|]. cbn [flat_map].
  rewrite (One a (or_introl eq_refl)). cbn [map] in N. inversion N as [|? ? N1 N2]; subst. destruct Hg as [->|Hg].
  - rewrite String.eqb_refl. rewrite (flat_map_nothing f l); [apply app_nil_r|]. intros b Hb. rewrite One by now right.
    destruct (String.eqb (key b) (key g)) eqn:E; [|reflexivity]. apply String.eqb_eq in E. exfalso. apply N1. rewrite <- E. now apply in_map.
  - destruct (String.eqb (key a) (key g)) eqn:E.
    + apply String.eqb_eq in E. exfalso. apply N1. rewrite E. now apply in_map.
    + cbn [app]. apply IH; auto. intros; apply One; now right.
Qed.

(** the model of a kind, and of a global constraint *)
Definition kmod (k : kind) : in_model :=
  match k with Generators => lib_generator | Loads => lib_load | Buses => lib_bus | Links => lib_link
             | StorageUnits => lib_storage_unit | Stores => lib_store end.
Definition libs : list in_library := [pypsa_library].
Definition gentry (g : constraint_data) : input_component := fst (convert_constraint g).
(** buses named, connections made *)
Definition bus_of (n : pypsa_network) (k : kind) (column c : string) : string :=
  match entry_of (table n k) c column with Some (CText b) => b | _ => "" end.
Definition kconn (n : pypsa_network) (k : kind) (bp : string * (string * string)) (c : string) : input_connection :=
  {| icn_component1 := bus_of n k (fst bp) c; icn_port1 := snd (snd bp); icn_component2 := study_id k c; icn_port2 := fst (snd bp) |}.
Definition emitting (n : pypsa_network) (k : kind) (c : string) : bool :=
  match entry_of (table n k) c "carrier" with Some (CText s) => negb (String.eqb s "") | _ => true end.
Definition emitters (n : pypsa_network) (k : kind) : list string := filter (emitting n k) (names n k).

Section Study.
  Context (order : list string -> list string) (n n' : pypsa_network) (T S : Z) (gcs : list constraint_data)
    (parts : list (list input_component * list input_connection)).
  Hypothesis Ord : set_order order.
  Hypothesis Pre : preprocess n = Ok n'.
  Hypothesis Good : good_network n T.
  Hypothesis HT : (1 <= T)%Z.
  Hypothesis HS : (1 <= S)%Z.
  Hypothesis Gcs : registered_constraints n' = Ok gcs.
  Hypothesis Parts : mapM (convert_components order (pn_name n')) (map (kdata n') kinds) = Ok parts.
  Let sys := conv_sys gcs parts.
  Let files := series_directory (conv_files order n').
  Let made := made order n'.
  Let Pm := parts_made order n n' parts Pre Parts.

  Let names_nodup k : NoDup (map (study_id k) (names n k)).
  Proof.
    destruct Good as (N & _). unfold study_ids in N. apply NoDup_app_remove_r in N.
    exact (nodup_piece _ _ k N (kinds_all k)).
  Qed.

  (** ** Entries *)
  Lemma comps_in e : In e (flat_map fst parts) <-> exists k c, In c (names n k) /\ made k c e.
  Proof.
    rewrite in_flat_map. split.
    - intros (p & Hp & He). destruct (Forall2_In_r _ _ _ _ Pm Hp) as (k & _ & F & _).
      destruct (Forall2_In_r _ _ _ _ F He) as (c & Hc & M). eauto.
    - intros (k & c & Hc & M). destruct (Forall2_In_l _ _ _ _ Pm (kinds_all k)) as (p & Hp & F & _).
      exists p. split; [exact Hp|]. destruct (Forall2_In_l _ _ _ _ F Hc) as (e' & He & M').
      unfold made, PypsaFacts.made in *. congruence.
  Qed.
  Lemma comps_ids : map ic_id (flat_map fst parts) = flat_map (fun k => map (study_id k) (names n k)) kinds.
  Proof.
    pose proof Pm as F. revert F. generalize kinds, parts. intros ks ps F. induction F as [|k p ks ps [Fp _] F IH]; cbn; [reflexivity|].
    rewrite map_app, IH. f_equal. clear -Fp. induction Fp as [|c e l l' M F IH]; cbn; [reflexivity|]. rewrite IH. f_equal.
    now apply made_id in M.
  Qed.
  Lemma made_exists k c : In c (names n k) -> exists e, made k c e /\ In e (flat_map fst parts).
  Proof.
    intros Hc. destruct (Forall2_In_l _ _ _ _ Pm (kinds_all k)) as (p & Hp & F & _). destruct (Forall2_In_l _ _ _ _ F Hc) as (e & He & M).
    exists e. split; [exact M|]. apply comps_in. eauto.
  Qed.
  (** ** Global constraints *)
  Lemma contributors_are k l : with_capacity k = true -> contributors (table n' k) = Ok l -> l = map (study_id k) (emitters n k).
  Proof.
    intros Wk H. unfold contributors in H. take H x E. injection H as <-. unfold col in E.
    destruct (dget String.eqb "carrier" (df_columns (table n' k))) as [vals|] eqn:Ed; [|discriminate]. injection E as ->.
    rewrite (table_index n n' Pre k).
    rewrite (combine_named (study_id k) (fun c => match entry_of (table n k) c "carrier" with
      | Some (CText s) => CText (if Nat.eqb (String.length s) 0 then null_carrier else s) | _ => CText "" end)).
    - unfold emitters. assert (G : forall c, In c (names n k) -> known_carrier n k c).
      { destruct Good as (_ & _ & _ & _ & G & _). destruct (G k) as (_ & _ & _ & Gc). intros c Hc. destruct (Gc c Hc) as (_ & _ & X). now apply X. }
      revert G. generalize (names n k). intros l. induction l as [|c l IH]; intros G; [reflexivity|]. cbn [map filter].
      assert (IH' := IH (fun c Hc => G c (or_intror Hc))). clear IH. destruct (G c (or_introl eq_refl)) as (s & Es & K).
      unfold emitting at 1. rewrite Es. cbn [snd]. destruct s as [|ch s].
      + cbn. exact IH'.
      + replace (negb (String.eqb (String ch s) "")) with true by reflexivity. cbn [String.length Nat.eqb].
        destruct K as [K|[K _]]; [discriminate|]. replace (String.eqb (String ch s) null_carrier) with false
          by (symmetry; apply String.eqb_neq; exact K). cbn [negb map fst]. now rewrite IH'.
    - apply names_nodup.
    - intros c Hc. destruct Good as (_ & _ & _ & _ & G & _). destruct (G k) as (_ & _ & _ & Gc). destruct (Gc c Hc) as (_ & _ & X).
      destruct (X Wk) as [(s & Es & _) _]. rewrite Es. destruct (pre_tables n n' Pre k) as (P1 & _ & _). specialize (P1 Wk).
      destruct (pre_carrier _ _ _ _ P1 ltac:(destruct k; auto) (study_id k c) (CText s)) as (v' & Wc & E2).
      { change (study_id k c) with (c ++ suffix k)%string. rewrite entry_renamed. exact Es. }
      cbn in Wc. injection Wc as <-. unfold entry_of in E2. rewrite Ed, (table_index n n' Pre k) in E2. exact E2.
  Qed.
  Definition contributing : list string :=
    map (study_id Generators) (emitters n Generators) ++ map (study_id Stores) (emitters n Stores) ++
    map (study_id StorageUnits) (emitters n StorageUnits).
  Definition constraint_made (c : string) (g : constraint_data) : Prop :=
    gc_name g = c /\ gc_constant g = Fin (constant_of n c) /\ gc_components g = contributing /\
    (has_sense n c "<=" /\ gc_model g = "global_constraint_co2_max" \/ has_sense n c "==" /\ gc_model g = "global_constraint_co2_eq").
  Lemma constraints_made : Forall2 constraint_made (constraint_names n) gcs.
  Proof.
    pose proof Gcs as H. unfold registered_constraints in H. take H l1 E. take H l2 E0. take H l3 E1. apply mapM_ok in H.
    apply (contributors_are Generators) in E; [|reflexivity]. apply (contributors_are Stores) in E0; [|reflexivity].
    apply (contributors_are StorageUnits) in E1; [|reflexivity]. subst.
    destruct (pre_name n n' Pre) as [_ Eg]. rewrite Eg in H. unfold constraint_names.
    destruct Good as (_ & _ & _ & _ & _ & _ & _ & _ & Gc). unfold constraint_names in Gc. revert H Gc.
    generalize (df_index (pn_global_constraints n)), gcs. intros l gs H. induction H as [|c g l l' R F IH]; intros Gc; [constructor|].
    constructor; [|apply IH; intros; apply Gc; now right].
    destruct (Gc c (or_introl eq_refl)) as [q Eq]. unfold registered_constraint in R. take R x E. take R x0 E0. take R x1 E1.
    apply loc_entry in E, E0, E1. rewrite Eq in E1. injection E1 as <-.
    destruct x0 as [?|a|?]; try discriminate. destruct x as [?|s|?]; try discriminate.
    unfold constraint_made, constant_of, has_sense. rewrite Eq, E.
    destruct (String.eqb a "co2_emissions"); [|discriminate].
    destruct (String.eqb s "<=") eqn:E1; cbn [andb] in R.
    - injection R as <-. apply String.eqb_eq in E1. subst s. repeat split. left. split; reflexivity.
    - destruct (String.eqb s "==") eqn:E2; cbn [andb] in R; [|discriminate]. injection R as <-. apply String.eqb_eq in E2. subst s.
      repeat split. right. split; reflexivity.
  Qed.
  Lemma gcs_names : map gc_name gcs = constraint_names n.
  Proof. pose proof constraints_made as F. revert F. generalize (constraint_names n), gcs. intros cs gs F. induction F as [|c g l l' (E & _) F IH]; cbn; [reflexivity|]. now rewrite IH, E. Qed.
  Lemma sys_inputs : all_inputs sys = flat_map fst parts ++ map gentry gcs.
  Proof. unfold all_inputs, sys, conv_sys. cbn. rewrite app_nil_r, map_map. reflexivity. Qed.
  Lemma sys_ids : map ic_id (all_inputs sys) = study_ids n.
  Proof.
    rewrite sys_inputs, map_app, comps_ids, map_map. unfold study_ids. f_equal. exact gcs_names.
  Qed.
  Lemma sys_nodup : NoDup (map ic_id (all_inputs sys)).
  Proof. rewrite sys_ids. apply Good. Qed.
  Definition gmod (g : constraint_data) : in_model :=
    if String.eqb (gc_model g) "global_constraint_co2_max" then lib_co2_max else lib_co2_eq.
  Lemma made_model k c e : made k c e -> file_model libs (ic_model e) = Some (kmod k).
  Proof. intros M. apply made_id in M. destruct M as (_ & -> & _). destruct k; vm_compute; reflexivity. Qed.
  Lemma constraint_model g : In g gcs -> file_model libs (ic_model (gentry g)) = Some (gmod g).
  Proof.
    intros H. destruct (Forall2_In_r _ _ _ _ constraints_made H) as (c & _ & _ & _ & _ & [[_ E]|[_ E]]); unfold gmod; cbn [gentry convert_constraint fst ic_model];
      rewrite E; vm_compute; reflexivity.
  Qed.
  Lemma entries e m : entry libs sys e m <->
    (exists k c, In c (names n k) /\ made k c e /\ m = kmod k) \/ (exists g, In g gcs /\ e = gentry g /\ m = gmod g).
  Proof.
    unfold entry. rewrite sys_inputs, in_app_iff, comps_in, in_map_iff. split.
    - intros [[(k & c & Hc & M)|(g & <- & Hg)] Hm].
      + left. exists k, c. rewrite (made_model k c e M) in Hm. split; [exact Hc|]. split; [exact M|]. congruence.
      + right. exists g. rewrite (constraint_model g Hg) in Hm. split; [exact Hg|]. split; [reflexivity|]. congruence.
    - intros [(k & c & Hc & M & ->)|(g & Hg & -> & ->)].
      + split; [left; eauto|]. exact (made_model k c e M).
      + split; [right; eauto|]. now apply constraint_model.
  Qed.
  Lemma entry_found k c e : In c (names n k) -> made k c e -> file_entry sys (study_id k c) = Some e.
  Proof.
    intros Hc M. unfold file_entry. destruct (made_id _ _ _ _ _ M) as (E & _). rewrite <- E. apply find_distinct; [apply sys_nodup|].
    rewrite sys_inputs. apply in_or_app. left. apply comps_in. eauto.
  Qed.
  Lemma definition_of k c e p f : In c (names n k) -> made k c e -> text_definition libs sys (study_id k c) p f =
    match find (fun d => String.eqb (yd_port d) p && String.eqb (yd_field d) f) (ym_definitions (kmod k)) with
    | Some d => [(e, kmod k, d)] | None => [] end.
  Proof. intros Hc M. unfold text_definition. now rewrite (entry_found k c e Hc M), (made_model k c e M). Qed.
  Lemma definition_constraint g p f : In g gcs -> text_definition libs sys (gc_name g) p f = [].
  Proof.
    intros Hg. unfold text_definition. assert (E : file_entry sys (gc_name g) = Some (gentry g)).
    { unfold file_entry. change (gc_name g) with (ic_id (gentry g)). apply find_distinct; [apply sys_nodup|].
      rewrite sys_inputs. apply in_or_app. right. now apply in_map. }
    rewrite E, (constraint_model g Hg). unfold gmod. destruct (String.eqb _ _); reflexivity.
  Qed.

  (** ** Connections *)
  Lemma conns_made : flat_map snd parts = flat_map (fun k => flat_map (fun bp => map (kconn n k bp) (names n k)) (kconns k)) kinds.
  Proof.
    pose proof Pm as F. revert F. generalize kinds, parts. intros ks ps F. induction F as [|k p ks ps [_ G] F IH]; cbn [flat_map]; [reflexivity|].
    rewrite IH. f_equal. clear IH F. unfold gems_connections in G. take G ls E. injection G as E2. rewrite <- E2. clear E2. rewrite flat_map_concat_map. f_equal.
    rename E into M. cbn [cd_connections cd_constant kdata] in M.
    assert (B : forall bp, In bp (kconns k) -> In (fst bp) (bus_columns k)) by (destruct k; cbn; intuition; subst; cbn; auto).
    revert B M. generalize (kconns k). intros l B M. apply mapM_ok in M. induction M as [|bp cs l l' H M IH]; [reflexivity|].
    cbn [map]. f_equal; [|apply IH; intros; apply B; now right]. specialize (B bp (or_introl eq_refl)). clear M IH.
    take H x E. unfold col in E. destruct (dget String.eqb (fst bp) (df_columns (table n' k))) as [vals|] eqn:Ed; [|discriminate].
    injection E as ->. rewrite (table_index n n' Pre k) in H.
    rewrite (combine_named (study_id k) (fun c => CText (bus_of n k (fst bp) c)) (names n k) x) in H.
    - rewrite (mapM_map _ _ (kconn n k bp)) in H by reflexivity. congruence.
    - apply names_nodup.
    - intros c Hc. destruct Good as (_ & _ & _ & _ & G & _). destruct (G k) as (_ & _ & _ & Gc). destruct (Gc c Hc) as (_ & X & _).
      destruct (X _ B) as [b Eb]. unfold bus_of. rewrite Eb. apply (table_kept n n' Pre k c) in Eb; [|apply in_or_app; now right].
      unfold entry_of in Eb. rewrite Ed, (table_index n n' Pre k) in Eb. exact Eb.
  Qed.
  Lemma sys_connections : is_connections sys =
    flat_map (fun k => flat_map (fun bp => map (kconn n k bp) (names n k)) (kconns k)) kinds ++
    flat_map (fun g => map (fun c => {| icn_component1 := gc_name g; icn_port1 := "emission_port"; icn_component2 := c;
                                        icn_port2 := "emission_port" |}) contributing) gcs.
  Proof.
    unfold sys, conv_sys. cbn [is_connections]. rewrite conns_made. f_equal. rewrite flat_map_map.
    pose proof constraints_made as F. revert F. generalize (constraint_names n), gcs. intros cs gs F. induction F as [|c g l l' (_ & _ & E & _) F IH]; [reflexivity|].
    cbn [flat_map]. rewrite IH. f_equal. cbn [convert_constraint snd]. now rewrite E.
  Qed.
  (** the definition that [c] brings through a connection to a bus *)
  Definition brought_by (k : kind) (port c : string) : list (input_component * in_model * in_definition) :=
    text_definition libs sys (study_id k c) port "flow".
  Lemma bus_connected b : In b (names n Buses) -> text_connected libs sys b "p_balance_port" "flow" =
    flat_map (fun k => flat_map (fun bp => flat_map (fun c => brought_by k (fst (snd bp)) c) (attached n k (fst bp) b)) (kconns k)) kinds.
  Proof.
    intros Hb. unfold text_connected. rewrite sys_connections, flat_map_app.
    rewrite (flat_map_nothing _ (flat_map _ gcs)).
    - rewrite app_nil_r, flat_map_flat. apply flat_map_ext. intros k. rewrite flat_map_flat.
      assert (B : forall bp, In bp (kconns k) -> snd (snd bp) = "p_balance_port" /\ In (fst bp) (bus_columns k) /\ k <> Buses)
        by (destruct k; cbn; intuition; subst; cbn; auto; discriminate).
      revert B. generalize (kconns k). intros l B. induction l as [|bp l IH]; [reflexivity|]. cbn [flat_map].
      rewrite IH by (intros; apply B; now right). f_equal. destruct (B bp (or_introl eq_refl)) as (Ep & Ec & Nk). clear B IH.
      unfold attached. rewrite flat_map_map. assert (I : forall c, In c (names n k) -> In c (names n k)) by auto. revert I.
      generalize (names n k) at 1 3 4. intros cs I. induction cs as [|c cs IH]; [reflexivity|]. cbn [flat_map filter].
      rewrite IH by (intros; apply I; now right). clear IH. specialize (I c (or_introl eq_refl)).
      cbn [icn_component1 icn_component2 icn_port1 icn_port2 kconn].
      assert (Nid : String.eqb (study_id k c) b = false).
      { apply String.eqb_neq. intros X. rewrite <- (append_nil b) in X. change (b ++ "")%string with (study_id Buses b) in X.
        apply (ids_unique n T Good) in X; [|exact I|exact Hb]. now destruct X. }
      rewrite Nid, Ep. cbn [andb]. rewrite String.eqb_refl, andb_true_r, app_nil_r.
      unfold bus_of at 1. destruct Good as (_ & _ & _ & _ & G & _). destruct (G k) as (_ & _ & _ & Gc). destruct (Gc c I) as (_ & X & _).
      destruct (X _ Ec) as [b' Eb]. rewrite Eb. destruct (String.eqb b' b) eqn:E; [|reflexivity]. cbn [flat_map]. f_equal.
      unfold text_brought. cbn [icn_component1 icn_component2 icn_port1 icn_port2 kconn]. unfold bus_of. rewrite Eb.
      apply String.eqb_eq in E. subst b'. destruct (made_exists Buses b Hb) as (e & M & _).
      pose proof (definition_of Buses b e (snd (snd bp)) "flow" Hb M) as D. change (study_id Buses b) with (b ++ "")%string in D.
      rewrite append_nil in D. rewrite D. reflexivity.
    - intros k Hk. apply in_flat_map in Hk. destruct Hk as (g & _ & Hk). apply in_map_iff in Hk. destruct Hk as (c & <- & _).
      cbn [icn_port1 icn_port2]. replace (String.eqb "emission_port" "p_balance_port") with false by reflexivity.
      now rewrite !andb_false_r.
  Qed.
  Lemma bus_reactive b : text_connected libs sys b "q_balance_port" "flow" = [].
  Proof.
    unfold text_connected. apply flat_map_nothing. intros k Hk. rewrite sys_connections in Hk. apply in_app_or in Hk.
    assert (X : icn_port1 k <> "q_balance_port" /\ icn_port2 k <> "q_balance_port").
    { destruct Hk as [Hk|Hk]; apply in_flat_map in Hk.
      - destruct Hk as (kd & _ & Hk). apply in_flat_map in Hk. destruct Hk as (bp & Hbp & Hk). apply in_map_iff in Hk. destruct Hk as (c & <- & _).
        cbn. destruct kd; cbn in Hbp; intuition; subst; cbn in *; discriminate.
      - destruct Hk as (g & _ & Hk). apply in_map_iff in Hk. destruct Hk as (c & <- & _). cbn. split; discriminate. }
    destruct X as [X1 X2]. apply String.eqb_neq in X1, X2. now rewrite X1, X2, !andb_false_r.
  Qed.
  Lemma constraint_connected g : In g gcs -> text_connected libs sys (gc_name g) "emission_port" "emission" =
    flat_map (fun c => text_definition libs sys c "emission_port" "emission") contributing.
  Proof.
    intros Hg. unfold text_connected. rewrite sys_connections, flat_map_app. rewrite (flat_map_nothing _ (flat_map _ kinds)).
    - cbn [app]. rewrite flat_map_flat.
      assert (N : NoDup (map gc_name gcs)).
      { rewrite gcs_names. destruct Good as (N & _). now apply NoDup_app_remove_l in N. }
      assert (C : forall c, In c contributing -> ~ In c (map gc_name gcs)).
      { rewrite gcs_names. intros c Hc. unfold contributing in Hc. rewrite !in_app_iff, !in_map_iff in Hc.
        destruct Hc as [(d & <- & Hd)|[(d & <- & Hd)|(d & <- & Hd)]]; apply (ids_constraints n T Good);
          apply filter_In in Hd; apply Hd. }
      assert (D : forall g', In g' gcs -> text_definition libs sys (gc_name g') "emission_port" "emission" = []) by (intros; now apply definition_constraint).
      assert (One : forall g', In g' gcs -> flat_map (fun k =>
        (if String.eqb (icn_component1 k) (gc_name g) && String.eqb (icn_port1 k) "emission_port" then text_brought libs sys k "emission" else []) ++
        (if String.eqb (icn_component2 k) (gc_name g) && String.eqb (icn_port2 k) "emission_port" then text_brought libs sys k "emission" else []))
        (map (fun c => {| icn_component1 := gc_name g'; icn_port1 := "emission_port"; icn_component2 := c; icn_port2 := "emission_port" |}) contributing) =
        if String.eqb (gc_name g') (gc_name g) then flat_map (fun c => text_definition libs sys c "emission_port" "emission") contributing else []).
      { intros g' Hg'. rewrite flat_map_map. cbn [icn_component1 icn_component2 icn_port1 icn_port2].
        replace (String.eqb "emission_port" "emission_port") with true by reflexivity.
        assert (X : forall c, In c contributing -> String.eqb c (gc_name g) = false).
        { intros c Hc. apply String.eqb_neq. intros ->. apply (C _ Hc). now apply in_map. }
        revert X. generalize contributing. intros l X. induction l as [|c l IH]; cbn [flat_map]; [now destruct (String.eqb _ _)|].
        rewrite IH by (intros; apply X; now right). rewrite (X c (or_introl eq_refl)). cbn [andb]. rewrite andb_true_r, app_nil_r.
        destruct (String.eqb (gc_name g') (gc_name g)); [|reflexivity]. unfold text_brought. cbn [icn_component1 icn_component2 icn_port1 icn_port2].
        now rewrite (D g' Hg'). }
      exact (one_of_many gc_name _ _ g gcs N Hg One).
    - intros k Hk. apply in_flat_map in Hk. destruct Hk as (kd & _ & Hk). apply in_flat_map in Hk. destruct Hk as (bp & Hbp & Hk).
      apply in_map_iff in Hk. destruct Hk as (c & <- & _). cbn [icn_component1 icn_component2 icn_port1 icn_port2 kconn].
      assert (X : String.eqb (snd (snd bp)) "emission_port" = false /\ String.eqb (fst (snd bp)) "emission_port" = false)
        by (destruct kd; cbn in Hbp; intuition; subst; reflexivity).
      destruct X as [-> ->]. now rewrite !andb_false_r.
  Qed.

  (** ** The study is good *)
  Lemma keys_nodup : NoDup (parameter_keys (all_inputs sys)).
  Proof.
    unfold parameter_keys. pose proof sys_nodup as N.
    assert (P : forall e, In e (all_inputs sys) -> NoDup (map ip_id (parameters_of e))).
    { intros e He. rewrite sys_inputs in He. apply in_app_or in He. destruct He as [He|He].
      - apply comps_in in He. destruct He as (k & c & _ & M). rewrite (made_parameters order n' k c e M). apply params_distinct.
      - apply in_map_iff in He. destruct He as (g & <- & _). cbn. repeat constructor. intros []. }
    revert N P. generalize (all_inputs sys). intros l N P. induction l as [|e l IH]; cbn [flat_map]; [constructor|].
    cbn [map] in N. inversion N as [|? ? N1 N2]; subst. apply NoDup_append.
    - specialize (P e (or_introl eq_refl)). revert P. generalize (parameters_of e). intros ps P. induction ps as [|p ps IHp]; cbn; [constructor|].
      cbn in P. inversion P as [|? ? P1 P2]; subst. constructor; [|auto]. intros X. apply in_map_iff in X. destruct X as (q & Eq & Hq).
      apply P1. apply in_map_iff. exists q. split; [congruence|exact Hq].
    - apply IH; auto. intros; apply P; now right.
    - intros [a b] X Y. apply in_map_iff in X. destruct X as (p & Ep & _). apply in_flat_map in Y. destruct Y as (e' & He' & Y).
      apply in_map_iff in Y. destruct Y as (p' & Ep' & _). apply N1. apply in_map_iff. exists e'. split; [congruence|exact He'].
  Qed.
  Lemma data_finite : finite_data sys files.
  Proof.
    intros e p He Hp. rewrite sys_inputs in He. apply in_app_or in He. destruct He as [He|He].
    - apply comps_in in He. destruct He as (k & c & Hc & M). pose proof (made_id _ _ _ _ _ M) as (_ & _ & F).
      destruct (Forall2_In_r _ _ _ _ F Hp) as (pg & Hpg & G).
      pose proof (parameter_made order n n' T Ord Pre Good k c pg p Hc Hpg G) as X.
      destruct (series_of_attribute n k c (fst pg)) as [l|].
      + destruct X as [_ ->]. intros ts r v Hts Hr Hv. exact (files_finite order n n' T Ord Pre Good _ _ _ _ Hts Hr Hv).
      + destruct X as [_ X]. rewrite (X 0%Z). eexists; reflexivity.
    - apply in_map_iff in He. destruct He as (g & <- & Hg). cbn in Hp. destruct Hp as [<-|[]]. cbn.
      destruct (Forall2_In_r _ _ _ _ constraints_made Hg) as (c & _ & _ & -> & _). eexists; reflexivity.
  Qed.
  Lemma study_good : good_study libs sys files T S pypsa_reading.
  Proof.
    split; [exact HT|]. split; [exact HS|].
    split. { unfold input_ids. cbn [is_nodes sys conv_sys map]. rewrite app_nil_r. pose proof sys_nodup as N. unfold all_inputs in N.
             cbn [is_nodes sys conv_sys] in N. rewrite app_nil_r in N. exact N. }
    split; [exact keys_nodup|]. split; [exact data_finite|]. split; [intros e m p []|].
    intros e m H. apply library_good. apply entries in H. destruct H as [(k & c & _ & _ & ->)|(g & _ & _ & ->)].
    - destruct k; cbn; tauto.
    - unfold gmod. destruct (String.eqb _ _); cbn; tauto.
  Qed.
  Lemma no_bounds e m k : entry_constraint libs sys e m k -> yc_lower k = None /\ yc_upper k = None.
  Proof.
    intros [H Hk]. assert (X : In m (yl_models pypsa_library)).
    { apply entries in H. destruct H as [(kd & c & _ & _ & ->)|(g & _ & _ & ->)]; [destruct kd; cbn; tauto|].
      unfold gmod. destruct (String.eqb _ _); cbn; tauto. }
    revert Hk. revert X. clear. intros X Hk. cbn in X. repeat (destruct X as [<-|X]; [cbn in Hk; repeat (destruct Hk as [<-|Hk]; [split; reflexivity|]); destruct Hk|]).
    destruct X.
  Qed.
  Lemma bounds_follow e m k : entry_constraint libs sys e m k -> text_bounds_follow libs sys pypsa_reading e m k.
  Proof. intros H w Hw. destruct (no_bounds e m k H) as [E1 E2]. rewrite E1, E2 in Hw. destruct Hw. Qed.
End Study.
