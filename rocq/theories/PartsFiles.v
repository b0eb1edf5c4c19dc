(** System files put together (C78). *)
From Coq Require Import Lia Permutation.
From Verif Require Import Base BaseFacts Expr Visitors LinearExpr Model Study Strategy Optim System Library Main
  SpecExpr SpecModel SpecLibrary SpecSystem SpecOptim SpecFusion SpecMain ModelFacts OptimFacts SystemFacts LibraryFacts MainFacts MainNeeds RunNeeds
  FusionFacts SpecOrder OrderFacts OrderProblem OrderFiles SpecParts PartsFacts DataFacts.

(** ** Data *)
Section Writes.
  Context {A : Type} (id : A -> string) (step : database -> A -> result database).
  Hypothesis W : forall a, writes (id a) (fun db => step db a).
  Lemma untouched l c p : ~ In c (map id l) -> forall db r, foldM step db l = Ok r -> get_data r c p = get_data db c p.
  Proof.
    induction l as [|a l IH]; intros Hc db r H; cbn [foldM] in H; [injection H as <-; reflexivity|]. inv_bind H.
    rewrite (IH (fun X => Hc (or_intror X)) _ _ H). destruct (W a _ _ H0) as (g & Hg). destruct (Hg db) as (r1 & R1 & G1). assert (v = r1) as -> by congruence.
    rewrite G1. destruct (String.eqb_spec c (id a)) as [->|_]; [exfalso; apply Hc; now left|reflexivity].
  Qed.
  Lemma any_start (S : string -> Prop) l : forall db db' r, (forall c p, S c -> get_data db' c p = get_data db c p) -> foldM step db l = Ok r ->
    exists r', foldM step db' l = Ok r' /\ forall c p, S c -> get_data r' c p = get_data r c p.
  Proof.
    induction l as [|a l IH]; intros db db' r E H; [injection H as <-; exists db'; auto|]. cbn [foldM] in *. inv_bind H. destruct (W a _ _ H0) as (g & Hg).
    destruct (Hg db) as (s1 & R1 & G1). destruct (Hg db') as (s2 & R2 & G2). assert (v = s1) as -> by congruence.
    rewrite R2. cbn [bind]. apply (IH s1 s2 r); [|exact H]. intros c p HS. rewrite G1, G2, E by exact HS. reflexivity.
  Qed.
  Lemma writes_both l1 l2 r1 r2 : NoDup (map id (l1 ++ l2)) -> foldM step [] l1 = Ok r1 -> foldM step [] l2 = Ok r2 ->
    exists r, foldM step [] (l1 ++ l2) = Ok r /\ (forall c p, In c (map id l1) -> get_data r c p = get_data r1 c p) /\
      (forall c p, In c (map id l2) -> get_data r c p = get_data r2 c p).
  Proof.
    intros D H1 H2. rewrite map_app in D. assert (N : forall c, In c (map id l1) -> In c (map id l2) -> False).
    { intros c X1 X2. apply in_split in X1. destruct X1 as (a & b & E). rewrite E, <- app_assoc in D. cbn in D. apply NoDup_remove_2 in D. apply D.
      apply in_or_app. right. apply in_or_app. now right. }
    destruct (any_start (fun c => In c (map id l2)) l2 [] r1 r2) as (r & R & G); [|exact H2|].
    { intros c p Hc. apply (untouched l1 c p); [|exact H1]. intros X. exact (N _ X Hc). }
    exists r. rewrite foldM_app, H1. cbn [bind]. split; [exact R|]. split; [|exact G]. intros c p Hc. apply (untouched l2 c p); [|exact R]. intros X. exact (N _ Hc X).
  Qed.
  Lemma writes_parts l1 l2 r : foldM step [] (l1 ++ l2) = Ok r -> (exists r1, foldM step [] l1 = Ok r1) /\ (exists r2, foldM step [] l2 = Ok r2).
  Proof.
    rewrite foldM_app. intros H. inv_bind H. split; [eauto|]. destruct (any_start (fun _ => False) l2 v [] r) as (r' & R & _); [tauto|exact H|]. eauto.
  Qed.
End Writes.

Section Together.
  Context (i1 i2 : input_system).
  Notation i := (put_together i1 i2).
  Hypothesis D : NoDup (input_ids i).
  Lemma inputs_both : Permutation (all_inputs i) (all_inputs i1 ++ all_inputs i2).
  Proof.
    unfold all_inputs. cbn [put_together is_components is_nodes]. rewrite <- !app_assoc. apply Permutation_app_head. rewrite !app_assoc. apply Permutation_app_tail.
    apply Permutation_app_comm.
  Qed.
  Lemma all_ids j : map ic_id (all_inputs j) = input_ids j.
  Proof. unfold all_inputs, input_ids. now rewrite map_app. Qed.
  Lemma distinct_inputs : NoDup (map ic_id (all_inputs i1 ++ all_inputs i2)).
  Proof. eapply Permutation_NoDup; [apply Permutation_map; exact inputs_both|]. rewrite all_ids. exact D. Qed.
  Lemma ids_1 : NoDup (input_ids i1).
  Proof. pose proof distinct_inputs as H. rewrite map_app in H. apply NoDup_app_l in H. now rewrite all_ids in H. Qed.
  Lemma ids_2 : NoDup (input_ids i2).
  Proof. pose proof distinct_inputs as H. rewrite map_app in H. apply NoDup_app_r in H. now rewrite all_ids in H. Qed.

  Lemma data_both files db1 db2 : build_data_base files i1 = Ok db1 -> build_data_base files i2 = Ok db2 ->
    exists db, build_data_base files i = Ok db /\ (forall c p, In c (input_ids i1) -> get_data db c p = get_data db1 c p) /\
      (forall c p, In c (input_ids i2) -> get_data db c p = get_data db2 c p).
  Proof.
    intros H1 H2. destruct (writes_both ic_id _ (parameters_write files) _ _ _ _ distinct_inputs H1 H2) as (r & R & G1 & G2).
    destruct (writes_run ic_id _ (parameters_write files) _ _ (Permutation_sym inputs_both) distinct_inputs [] [] r (fun _ _ => eq_refl) R) as (db & Db & G).
    exists db. split; [exact Db|]. rewrite all_ids in G1, G2. split; intros c p Hc; rewrite G; auto.
  Qed.
  Lemma data_parts files db : build_data_base files i = Ok db -> (exists db1, build_data_base files i1 = Ok db1) /\ (exists db2, build_data_base files i2 = Ok db2).
  Proof.
    intros H. assert (N : NoDup (map ic_id (all_inputs i))) by (rewrite all_ids; exact D).
    destruct (writes_run ic_id _ (parameters_write files) _ _ inputs_both N [] [] db (fun _ _ => eq_refl) H) as (r & R & _).
    exact (writes_parts ic_id _ (parameters_write files) _ _ _ R).
  Qed.

  (** ** Networks *)
  Lemma connection_wider l l' k r : NoDup (map co_id l) -> NoDup (map co_id l') -> incl l l' -> resolve_connection l k = Ok r -> resolve_connection l' k = Ok r.
  Proof.
    intros N N' HI. unfold resolve_connection. destruct (get_component_by_id l (icn_component1 k)) as [c1|] eqn:E1; [|discriminate].
    destruct (get_component_by_id l (icn_component2 k)) as [c2|] eqn:E2; [|discriminate]. apply by_id_distinct in E1, E2; auto. destruct E1 as [A1 B1], E2 as [A2 B2].
    rewrite (proj2 (by_id_distinct l' _ c1 N')), (proj2 (by_id_distinct l' _ c2 N')); auto.
  Qed.
  Lemma connection_narrower l l' k r : NoDup (map co_id l) -> NoDup (map co_id l') -> incl l l' ->
    In (icn_component1 k) (map co_id l) -> In (icn_component2 k) (map co_id l) -> resolve_connection l' k = Ok r -> resolve_connection l k = Ok r.
  Proof.
    intros N N' HI I1 I2. apply in_map_iff in I1, I2. destruct I1 as (c1 & E1 & I1), I2 as (c2 & E2 & I2). unfold resolve_connection.
    rewrite (proj2 (by_id_distinct l' _ c1 N')), (proj2 (by_id_distinct l' _ c2 N')), (proj2 (by_id_distinct l _ c1 N)), (proj2 (by_id_distinct l _ c2 N)); auto.
  Qed.
  Definition resolves (j : input_system) (libs : dict string library) cs ns ks : Prop :=
    Forall2 (stands_as libs) (is_components j) cs /\ Forall2 (stands_as libs) (is_nodes j) ns /\
    Forall2 (fun i k => resolve_connection (cs ++ ns) i = Ok k) (is_connections j) ks.
  Lemma resolves_ok j libs cs ns ks : resolves j libs cs ns ks -> resolve_system j libs = Ok (mk_system cs ns ks).
  Proof.
    intros (H1 & H2 & H3). unfold resolve_system. rewrite (proj2 (resolve_components_ok libs _ _) H1). cbn [bind].
    rewrite (proj2 (resolve_components_ok libs _ _) H2). cbn [bind]. now rewrite (proj2 (mapM_ok _ _ _) H3).
  Qed.
  Definition network_from cs ns ks : network := {| n_id := "study"; n_nodes := dict_of String.eqb co_id ns;
    n_components := dict_of String.eqb co_id cs; n_connections := ks |}.
  Lemma resolves_network j libs s n : resolve_system j libs = Ok s -> build_network s = Ok n ->
    exists cs ns ks, resolves j libs cs ns ks /\ n = network_from cs ns ks.
  Proof.
    intros R B. destruct (build_network_ok _ _ _ R) as (cs & ns & ks & H1 & H2 & H3 & H4). exists cs, ns, ks. split; [repeat split; assumption|]. unfold network_from. congruence.
  Qed.
  Lemma network_resolves j libs cs ns ks : resolves j libs cs ns ks -> exists s, resolve_system j libs = Ok s /\ build_network s = Ok (network_from cs ns ks).
  Proof.
    intros H. pose proof (resolves_ok _ _ _ _ _ H) as R. exists (mk_system cs ns ks). split; [exact R|]. destruct (build_network_ok _ _ _ R) as (cs' & ns' & ks' & H1 & H2 & H3 & H4).
    destruct H as (G1 & G2 & G3). pose proof (forall2_functional _ _ _ _ (stands_functional libs) G1 H1) as <-. pose proof (forall2_functional _ _ _ _ (stands_functional libs) G2 H2) as <-.
    assert (ks = ks') as <- by (eapply forall2_functional; [|exact G3|exact H3]; cbv beta; intros; congruence). exact H4.
  Qed.
  Lemma resolved_ids j libs cs ns ks : resolves j libs cs ns ks -> map co_id (cs ++ ns) = input_ids j.
  Proof. intros (H1 & H2 & _). unfold input_ids. now rewrite map_app, (stands_as_ids _ _ _ H1), (stands_as_ids _ _ _ H2). Qed.
  Lemma resolves_both libs cs1 ns1 ks1 cs2 ns2 ks2 : resolves i1 libs cs1 ns1 ks1 -> resolves i2 libs cs2 ns2 ks2 ->
    resolves i libs (cs1 ++ cs2) (ns1 ++ ns2) (ks1 ++ ks2).
  Proof.
    intros H1 H2. pose proof (resolved_ids _ _ _ _ _ H1) as E1. pose proof (resolved_ids _ _ _ _ _ H2) as E2.
    destruct H1 as (A1 & A2 & A3), H2 as (B1 & B2 & B3).
    assert (N : NoDup (map co_id ((cs1 ++ cs2) ++ ns1 ++ ns2))).
    { rewrite !map_app. rewrite (stands_as_ids _ _ _ A1), (stands_as_ids _ _ _ A2), (stands_as_ids _ _ _ B1), (stands_as_ids _ _ _ B2). unfold input_ids in D. cbn in D. rewrite !map_app in D. exact D. }
    split; [now apply Forall2_app|]. split; [now apply Forall2_app|]. cbn [put_together is_connections]. apply Forall2_app.
    - eapply Forall2_imp; [|exact A3]. intros a b. cbv beta. apply connection_wider; auto; [rewrite E1; exact ids_1|]. intros x Hx. apply in_app_or in Hx. rewrite !in_app_iff. tauto.
    - eapply Forall2_imp; [|exact B3]. intros a b. cbv beta. apply connection_wider; auto; [rewrite E2; exact ids_2|]. intros x Hx. apply in_app_or in Hx. rewrite !in_app_iff. tauto.
  Qed.
  Lemma forall2_split {X Y} (R : X -> Y -> Prop) l1 l2 m : Forall2 R (l1 ++ l2) m -> exists m1 m2, m = m1 ++ m2 /\ Forall2 R l1 m1 /\ Forall2 R l2 m2.
  Proof. intros H. apply Forall2_app_inv_l in H. destruct H as (m1 & m2 & H1 & H2 & ->). eauto. Qed.
  Lemma resolves_parts libs cs ns ks : contained_file i1 -> contained_file i2 -> resolves i libs cs ns ks ->
    exists cs1 ns1 ks1 cs2 ns2 ks2, resolves i1 libs cs1 ns1 ks1 /\ resolves i2 libs cs2 ns2 ks2.
  Proof.
    intros C1 C2 H. pose proof (resolved_ids _ _ _ _ _ H) as E. destruct H as (H1 & H2 & H3). cbn [put_together is_components is_nodes is_connections] in H1, H2, H3.
    destruct (forall2_split _ _ _ _ H1) as (cs1 & cs2 & -> & A1 & B1). destruct (forall2_split _ _ _ _ H2) as (ns1 & ns2 & -> & A2 & B2).
    destruct (forall2_split _ _ _ _ H3) as (ks1 & ks2 & -> & A3 & B3). exists cs1, ns1, ks1, cs2, ns2, ks2.
    assert (N : NoDup (map co_id ((cs1 ++ cs2) ++ ns1 ++ ns2))) by (rewrite E; exact D).
    assert (J1 : map co_id (cs1 ++ ns1) = input_ids i1) by (unfold input_ids; now rewrite map_app, (stands_as_ids _ _ _ A1), (stands_as_ids _ _ _ A2)).
    assert (J2 : map co_id (cs2 ++ ns2) = input_ids i2) by (unfold input_ids; now rewrite map_app, (stands_as_ids _ _ _ B1), (stands_as_ids _ _ _ B2)).
    assert (G : forall j l ks, contained_file j -> map co_id l = input_ids j -> NoDup (input_ids j) -> incl l ((cs1 ++ cs2) ++ ns1 ++ ns2) ->
      Forall2 (fun i k => resolve_connection ((cs1 ++ cs2) ++ ns1 ++ ns2) i = Ok k) (is_connections j) ks ->
      Forall2 (fun i k => resolve_connection l i = Ok k) (is_connections j) ks).
    { intros j l ks C J Nj HI HF. unfold contained_file in C. revert C. induction HF as [|a b la lb Hab HF IH]; intros C; constructor; [|apply IH; intros k Hk; apply C; now right].
      destruct (C a (or_introl eq_refl)) as [Ca Cb]. rewrite <- J in Ca, Cb. eapply connection_narrower; [rewrite J; exact Nj|exact N|exact HI|exact Ca|exact Cb|exact Hab]. }
    split; (split; [assumption|split; [assumption|]]).
    - apply (G i1); auto using ids_1. intros x Hx. rewrite !in_app_iff in *. tauto.
    - apply (G i2); auto using ids_2. intros x Hx. rewrite !in_app_iff in *. tauto.
  Qed.
  Lemma networks_beside libs cs1 ns1 ks1 cs2 ns2 ks2 : resolves i1 libs cs1 ns1 ks1 -> resolves i2 libs cs2 ns2 ks2 ->
    side_by_side (network_from cs1 ns1 ks1) (network_from cs2 ns2 ks2) (network_from (cs1 ++ cs2) (ns1 ++ ns2) (ks1 ++ ks2)).
  Proof.
    intros (A1 & A2 & _) (B1 & B2 & _). unfold side_by_side, network_from. cbn.
    assert (N : NoDup (map co_id (ns1 ++ ns2)) /\ NoDup (map co_id (cs1 ++ cs2))).
    { rewrite !map_app, (stands_as_ids _ _ _ A1), (stands_as_ids _ _ _ A2), (stands_as_ids _ _ _ B1), (stands_as_ids _ _ _ B2). unfold input_ids in D. cbn in D. rewrite !map_app in D.
      split; [now apply NoDup_app_r in D|now apply NoDup_app_l in D]. }
    destruct N as [N1 N2]. split; [|split; [|reflexivity]].
    - rewrite !dict_of_distinct by (first [exact String.eqb_eq|rewrite ?map_app in *; eauto using NoDup_app_l, NoDup_app_r]). apply map_app.
    - rewrite !dict_of_distinct by (first [exact String.eqb_eq|rewrite ?map_app in *; eauto using NoDup_app_l, NoDup_app_r]). apply map_app.
  Qed.
  Lemma contained_network j libs s n : NoDup (input_ids j) -> resolve_system j libs = Ok s -> build_network s = Ok n -> self_contained n.
  Proof.
    intros N R B k Hk. destruct (network_of_file j libs s n N R B) as (_ & _ & _ & F & _). destruct (Forall2_In_r _ _ _ _ F Hk) as (x & _ & (_ & _ & _ & _ & I1 & I2)). auto.
  Qed.
  Lemma network_ids j libs s n : NoDup (input_ids j) -> resolve_system j libs = Ok s -> build_network s = Ok n -> forall c, in_part n c <-> In c (input_ids j).
  Proof.
    intros N R B c. destruct (network_of_file j libs s n N R B) as (_ & F1 & F2 & _). unfold in_part, all_components, input_ids.
    rewrite map_app, (stands_as_ids _ _ _ F1), (stands_as_ids _ _ _ F2), !in_app_iff. tauto.
  Qed.

  (** ** Runs *)
  Section Runs.
    Context (order : list string -> list string -> list string -> list string) (libs : list in_library) (files : string -> result frame) (T S : Z).
    Hypothesis Ho : any_order order.
    Hypothesis HT : (1 <= T)%Z.
    Lemma runs j out s n db : input_libs order libs = Ok out -> resolve_system j out = Ok s -> build_network s = Ok n -> build_data_base files j = Ok db ->
      main_cli order libs j files T S = (st <- build_problem (main_settings n db T S) ;; Ok (main_settings n db T S, st)).
    Proof.
      intros H1 H2 H3 H4. unfold main_cli. rewrite H1. cbn [bind]. rewrite H2. cbn [bind]. rewrite (check_passes order libs j out s Ho H1 H2). cbn [bind]. rewrite H4. cbn [bind]. rewrite H3. reflexivity.
    Qed.
    (** the pieces of two runs *)
    Lemma file_part j out s n : NoDup (input_ids j) -> input_libs order libs = Ok out -> resolve_system j out = Ok s -> build_network s = Ok n -> part n.
    Proof.
      intros N H1 H2 H3. split; [exact (build_network_built _ _ H3)|]. split; [|exact (contained_network _ _ _ _ N H2 H3)].
      intros c Hc. destruct (network_of_file j out s n N H2 H3) as (_ & F1 & F2 & _). unfold all_components in Hc. apply in_app_or in Hc.
      assert (X : exists x, stands_as out x c)
        by (destruct Hc as [Hc|Hc]; [destruct (Forall2_In_r _ _ _ _ F1 Hc) as (x & _ & Hx)|destruct (Forall2_In_r _ _ _ _ F2 Hc) as (x & _ & Hx)]; eauto).
      destruct X as (x & _ & Hm). destruct (returned_models order libs out _ _ Ho H1 Hm) as (pts & m & Rm). exact (proj1 (model_named_of _ _ _ Rm)).
    Qed.
    Lemma main_usable n db : usable_block (main_settings n db T S).
    Proof.
      split; [|reflexivity]. cbn. unfold zrange. intros X. apply map_eq_nil in X. apply (f_equal (@List.length nat)) in X. rewrite seq_length in X. cbn in X. lia.
    Qed.
    Lemma pieces out s1 s2 n1 n2 db1 db2 : input_libs order libs = Ok out ->
      resolve_system i1 out = Ok s1 -> build_network s1 = Ok n1 -> build_data_base files i1 = Ok db1 ->
      resolve_system i2 out = Ok s2 -> build_network s2 = Ok n2 -> build_data_base files i2 = Ok db2 ->
      exists s n db, resolve_system i out = Ok s /\ build_network s = Ok n /\ build_data_base files i = Ok db /\ side_by_side n1 n2 n /\
        distinct_ids n /\ part n1 /\ part n2 /\
        build_problem (main_settings n1 db1 T S) = build_problem (with_network (main_settings n db T S) n1) /\
        build_problem (main_settings n2 db2 T S) = build_problem (with_network (main_settings n db T S) n2).
    Proof.
      intros H0 R1 B1 D1 R2 B2 D2. destruct (data_both files db1 db2 D1 D2) as (db & Db & G1 & G2).
      destruct (resolves_network _ _ _ _ R1 B1) as (cs1 & ns1 & ks1 & V1 & ->). destruct (resolves_network _ _ _ _ R2 B2) as (cs2 & ns2 & ks2 & V2 & ->).
      destruct (network_resolves _ _ _ _ _ (resolves_both _ _ _ _ _ _ _ V1 V2)) as (s & Rs & Bs). exists s, (network_from (cs1 ++ cs2) (ns1 ++ ns2) (ks1 ++ ks2)), db.
      pose proof (file_part i1 _ _ _ ids_1 H0 R1 B1) as P1. pose proof (file_part i2 _ _ _ ids_2 H0 R2 B2) as P2.
      split; [exact Rs|]. split; [exact Bs|]. split; [exact Db|]. split; [now apply (networks_beside out)|].
      split; [|split; [exact P1|split; [exact P2|]]].
      - unfold distinct_ids, all_components. destruct (network_of_file i out s _ D Rs Bs) as (_ & F1 & F2 & _).
        rewrite map_app, (stands_as_ids _ _ _ F1), (stands_as_ids _ _ _ F2). eapply Permutation_NoDup; [apply Permutation_app_comm|exact D].
      - split.
        + apply (data_local (main_settings (network_from cs1 ns1 ks1) db1 T S) db); [apply P1|apply P1|]. intros c p Hc. cbn. apply G1. now apply (network_ids _ _ _ _ ids_1 R1 B1).
        + apply (data_local (main_settings (network_from cs2 ns2 ks2) db2 T S) db); [apply P2|apply P2|]. intros c p Hc. cbn. apply G2. now apply (network_ids _ _ _ _ ids_2 R2 B2).
    Qed.
    Lemma run_together o1 st1 o2 st2 : main_cli order libs i1 files T S = Ok (o1, st1) -> main_cli order libs i2 files T S = Ok (o2, st2) ->
      exists o st f1 f2, main_cli order libs i files T S = Ok (o, st) /\ side_by_side (o_network o1) (o_network o2) (o_network o) /\
        union_of f1 f2 (st_solver st1) (st_solver st2) (st_solver st).
    Proof.
      intros M1 M2. destruct (run_steps _ _ _ _ _ _ _ _ M1) as (out & s1 & db1 & n1 & H0 & R1 & D1 & B1 & E1 & Q1).
      destruct (run_steps _ _ _ _ _ _ _ _ M2) as (out' & s2 & db2 & n2 & H0' & R2 & D2 & B2 & E2 & Q2). assert (out' = out) as -> by congruence. clear H0'.
      destruct (pieces out s1 s2 n1 n2 db1 db2 H0 R1 B1 D1 R2 B2 D2) as (s & n & db & Rs & Bs & Db & Hs & Hd & P1 & P2 & L1 & L2).
      subst o1 o2. rewrite L1 in Q1. rewrite L2 in Q2.
      destruct (whole_built (main_settings n db T S) n1 n2 (main_usable n db) Hs P1 P2 Hd st1 st2 Q1 Q2) as [st Q].
      destruct (united (main_settings n db T S) n1 n2 (main_usable n db) Hs P1 P2 Hd st st1 st2 Q Q1 Q2) as (f1 & f2 & U).
      exists (main_settings n db T S), st, f1, f2. split; [|split; [exact Hs|exact U]]. rewrite (runs i out s n db H0 Rs Bs Db), Q. reflexivity.
    Qed.
    Lemma run_apart o st : contained_file i1 -> contained_file i2 -> main_cli order libs i files T S = Ok (o, st) ->
      (exists o1 st1, main_cli order libs i1 files T S = Ok (o1, st1)) /\ (exists o2 st2, main_cli order libs i2 files T S = Ok (o2, st2)).
    Proof.
      intros C1 C2 M. destruct (run_steps _ _ _ _ _ _ _ _ M) as (out & s & db & n & H0 & R & Db & B & E & Q). destruct (data_parts files db Db) as [[db1 D1] [db2 D2]].
      destruct (resolves_network _ _ _ _ R B) as (cs & ns & ks & V & En). destruct (resolves_parts out cs ns ks C1 C2 V) as (cs1 & ns1 & ks1 & cs2 & ns2 & ks2 & V1 & V2).
      destruct (network_resolves _ _ _ _ _ V1) as (s1 & R1 & B1). destruct (network_resolves _ _ _ _ _ V2) as (s2 & R2 & B2).
      destruct (pieces out s1 s2 _ _ db1 db2 H0 R1 B1 D1 R2 B2 D2) as (s' & n' & db' & Rs & Bs & Db' & Hs & Hd & P1 & P2 & L1 & L2).
      assert (s' = s) as -> by congruence. assert (n' = n) as -> by congruence. assert (db' = db) as -> by congruence. subst o.
      destruct (parts_built (main_settings n db T S) _ _ (main_usable n db) Hs P1 P2 Hd st Q) as [[st1 Q1] [st2 Q2]]. rewrite <- L1 in Q1. rewrite <- L2 in Q2. split.
      - do 2 eexists. rewrite (runs i1 out s1 _ db1 H0 R1 B1 D1), Q1. reflexivity.
      - do 2 eexists. rewrite (runs i2 out s2 _ db2 H0 R2 B2 D2), Q2. reflexivity.
    Qed.
  End Runs.
End Together.
