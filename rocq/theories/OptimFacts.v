(** Facts about problem construction (C17, C19, C22-C24, C27). *)
From Coq Require Import Lia.
From Verif Require Import Base Expr Visitors Expansion LinearExpr Linearize Model Study Strategy Optim
  BaseFacts SpecExpr SpecSyntax SpecVisitors SpecExpansion SpecLinear SpecModel SpecOptim
  ExprFacts CopyFacts VisitorFacts ExpansionFacts LinearFacts ModelFacts.

(** ** loops *)
Lemma foldM_app {A B} (f : B -> A -> result B) l1 l2 : forall acc,
  foldM f acc (l1 ++ l2) = (x <- foldM f acc l1 ;; foldM f x l2).
Proof.
  induction l1 as [|a l1 IH]; intros acc; cbn; [reflexivity|].
  destruct (f acc a); cbn; [apply IH|reflexivity].
Qed.
Lemma foldM_map {A B C} (f : B -> A -> result B) (g : C -> A) l : forall acc,
  foldM f acc (map g l) = foldM (fun acc c => f acc (g c)) acc l.
Proof.
  induction l as [|a l IH]; intros acc; cbn; [reflexivity|].
  destruct (f acc (g a)); cbn; [apply IH|reflexivity].
Qed.
Lemma foldM_flat_map {A B C} (f : B -> A -> result B) (g : C -> list A) l : forall acc,
  foldM f acc (flat_map g l) = foldM (fun acc c => foldM f acc (g c)) acc l.
Proof.
  induction l as [|a l IH]; intros acc; cbn; [reflexivity|].
  rewrite foldM_app. destruct (foldM f acc (g a)); cbn; [apply IH|reflexivity].
Qed.
Lemma foldM_ext {A B} (f g : B -> A -> result B) l : (forall acc a, In a l -> f acc a = g acc a) ->
  forall acc, foldM f acc l = foldM g acc l.
Proof.
  induction l as [|a l IH]; intros H acc; cbn; [reflexivity|]. rewrite H by now left.
  destruct (g acc a); cbn; [|reflexivity]. apply IH. intros. apply H. now right.
Qed.
(** invariants of loops *)
Lemma foldM_invariant {A B} (f : B -> A -> result B) (I : B -> Prop) l :
  (forall acc a acc', In a l -> I acc -> f acc a = Ok acc' -> I acc') ->
  forall acc acc', I acc -> foldM f acc l = Ok acc' -> I acc'.
Proof.
  induction l as [|a l IH]; intros H acc acc' HI E; cbn in E.
  - injection E as <-. exact HI.
  - inv_bind E. eapply IH; [| |exact E].
    + intros. eapply H; eauto. now right.
    + eapply H; eauto. now left.
Qed.

(** ** C17 *)
Lemma block_length_pos o : usable_block o -> (0 < block_length o)%Z.
Proof.
  intros [H _]. unfold block_length. destruct (o_block o); [congruence|]. cbn. lia.
Qed.
Lemma wrap_ok o t : usable_block o -> wrap_timestep o t = Ok (t mod block_length o)%Z.
Proof.
  intros H. pose proof (block_length_pos o H). destruct H as [_ Hc]. unfold wrap_timestep. rewrite Hc.
  destruct (Z.eqb_spec (block_length o) 0); [lia|reflexivity].
Qed.
Lemma wrap_period o t k : wrap_timestep o (t + k * block_length o) = wrap_timestep o t.
Proof.
  unfold wrap_timestep. destruct (o_cycle o); [|reflexivity].
  destruct (Z.eqb_spec (block_length o) 0); [reflexivity|]. now rewrite Z_mod_plus_full.
Qed.
Lemma variable_period o st t k s c n :
  get_component_variable o st (Some (t + k * Z.of_nat (List.length (o_block o)))%Z) s c n =
  get_component_variable o st (Some t) s c n.
Proof.
  unfold get_component_variable. change (Z.of_nat (List.length (o_block o))) with (block_length o).
  now rewrite wrap_period.
Qed.
Lemma parameter_period o t k s c n :
  parameter_value o (Some (t + k * Z.of_nat (List.length (o_block o)))%Z) s c n =
  parameter_value o (Some t) s c n.
Proof.
  unfold parameter_value, block_timestep_to_absolute_timestep.
  change (Z.of_nat (List.length (o_block o))) with (block_length o). now rewrite wrap_period.
Qed.
Lemma absolute_timestep o t : usable_block o ->
  exists a, nth_error (o_block o) (Z.to_nat (t mod block_length o)) = Some a /\
            block_timestep_to_absolute_timestep o (Some t) = Ok (Some a).
Proof.
  intros H. pose proof (block_length_pos o H). unfold block_timestep_to_absolute_timestep. rewrite wrap_ok by exact H.
  cbn [bind]. pose proof (Z.mod_pos_bound t (block_length o) ltac:(lia)).
  destruct (nth_error (o_block o) (Z.to_nat (t mod block_length o))) as [a|] eqn:E; [eauto|].
  apply nth_error_None in E. unfold block_length in *. lia.
Qed.
Lemma parameter_in_block o t s c n a : o_cycle o = true ->
  (0 <= t)%Z -> nth_error (o_block o) (Z.to_nat t) = Some a ->
  parameter_value o (Some t) s c n =
  (d <- get_data (o_database o) c n ;; get_value d (Some a) s (o_tree_node o)).
Proof.
  intros Hc Ht Ha. assert (Hu : usable_block o).
  { split; [|exact Hc]. intros E. rewrite E in Ha. now destruct (Z.to_nat t). }
  assert (Hlt : (t < block_length o)%Z).
  { assert (nth_error (o_block o) (Z.to_nat t) <> None) by congruence. apply nth_error_Some in H.
    unfold block_length. lia. }
  unfold parameter_value. destruct (get_data (o_database o) c n); cbn [bind]; [|reflexivity].
  destruct (absolute_timestep o t Hu) as (a' & H1 & H2). rewrite Z.mod_small in H1 by lia.
  rewrite H2. cbn [bind]. congruence.
Qed.
Lemma variable_in_block o st t s c n : o_cycle o = true ->
  (0 <= t < Z.of_nat (List.length (o_block o)))%Z ->
  get_component_variable o st (Some t) s c n =
  match dget tk_eqb {| tk_component := c; tk_variable := n; tk_time := Some t; tk_scenario := s |}
          (st_variables st) with Some i => Ok i | None => Err KeyError end.
Proof.
  intros Hc Ht. unfold get_component_variable. rewrite wrap_ok; [cbn [bind]; now rewrite Z.mod_small|].
  split; [|exact Hc]. intros E. rewrite E in Ht. cbn in Ht. lia.
Qed.

(** ** C27 *)
Definition registered (ports : dict port_field_key (list expr)) (c p f : string) : list expr :=
  match dget pfk_eqb (c, (p, f)) ports with Some l => l | None => [] end.
Lemma register_get c p f e ports c' p' f' :
  registered (register_port_expression c p f e ports) c' p' f' =
  registered ports c' p' f' ++ (if pfk_eqb (c', (p', f')) (c, (p, f)) then [e] else []).
Proof.
  unfold registered, register_port_expression. destruct (pfk_eqb (c', (p', f')) (c, (p, f))) eqn:E.
  - apply pfk_eqb_eq in E. injection E as -> -> ->. rewrite (dget_dset_same pfk_eqb pfk_eqb_eq). reflexivity.
  - rewrite (dget_dset_other pfk_eqb pfk_eqb_eq), app_nil_r; [reflexivity|].
    intros H. apply pfk_eqb_eq in H. congruence.
Qed.
Definition field_contribution (cnx : ports_connection) (e : expr) (f c' p' f' : string) : list expr :=
  (if is_port (pc_port1 cnx) c' p' && String.eqb f f' then [e] else []) ++
  (if is_port (pc_port2 cnx) c' p' && String.eqb f f' then [e] else []).
Lemma pfk_is_port r c' p' f f' :
  pfk_eqb (c', (p', f')) (co_id (pr_component r), (pr_port r, f)) = is_port r c' p' && String.eqb f f'.
Proof.
  unfold pfk_eqb, is_port. cbn [fst snd].
  now rewrite (String.eqb_sym c'), (String.eqb_sym p'), (String.eqb_sym f').
Qed.
(** the expression registered for a field of a connection: the definition of its master *)
Definition master_expression (m : port_ref) (f : string) (e : expr) : Prop :=
  exists d, dget pfi_eqb (pr_port m, f) (m_port_definitions (co_model (pr_component m))) = Some d /\
            add_component_context (co_id (pr_component m)) (d_definition d) = Ok e.
Lemma register_field_spec cnx ports fm ports' : register_field cnx ports fm = Ok ports' ->
  exists e, master_expression (snd fm) (fst fm) e /\
  forall c' p' f', registered ports' c' p' f' = registered ports c' p' f' ++ field_contribution cnx e (fst fm) c' p' f'.
Proof.
  destruct fm as [f m]. unfold register_field. destruct (dget pfi_eqb _ _) as [d|] eqn:Ed; [|discriminate].
  intros H. inv_bind H. exists v. cbn [fst snd]. split; [exists d; auto|].
  intros c' p' f'. assert (Hp : ports' = register_port_expression (co_id (pr_component (pc_port2 cnx)))
    (pr_port (pc_port2 cnx)) f v (register_port_expression (co_id (pr_component (pc_port1 cnx)))
                      (pr_port (pc_port1 cnx)) f v ports)) by congruence.
  subst ports'. rewrite !register_get, !pfk_is_port. unfold field_contribution. now rewrite app_assoc.
Qed.
Lemma register_fields_spec cnx ms : forall ports ports', NoDup (map fst ms) ->
  foldM (register_field cnx) ports ms = Ok ports' ->
  forall c' p' f',
    match dget String.eqb f' ms with
    | Some m => exists e, master_expression m f' e /\
        registered ports' c' p' f' = registered ports c' p' f' ++
          (if is_port (pc_port1 cnx) c' p' then [e] else []) ++ (if is_port (pc_port2 cnx) c' p' then [e] else [])
    | None => registered ports' c' p' f' = registered ports c' p' f'
    end.
Proof.
  induction ms as [|[f m] ms IH]; intros ports ports' Hnd H c' p' f'; cbn [foldM] in H.
  - injection H as <-. reflexivity.
  - inv_bind H. cbn [map fst] in Hnd. apply NoDup_cons_iff in Hnd. destruct Hnd as [Hnin Hnd].
    apply register_field_spec in H0. destruct H0 as (e & He & Hr). cbn [fst snd] in He, Hr.
    specialize (IH _ _ Hnd H c' p' f'). cbn [dget]. rewrite Hr in IH. unfold field_contribution in IH.
    destruct (String.eqb_spec f' f) as [->|Hne].
    + assert (Hn : dget String.eqb f ms = None) by (apply (dget_None String.eqb String.eqb_eq); exact Hnin).
      rewrite Hn in IH. exists e. split; [exact He|]. rewrite IH. rewrite String.eqb_refl, !andb_true_r. reflexivity.
    + assert (Hff : String.eqb f f' = false) by (apply String.eqb_neq; congruence).
      rewrite Hff, !andb_false_r in IH. cbn [app] in IH. rewrite app_nil_r in IH. exact IH.
Qed.

Definition named_port_ref (r : port_ref) : Prop := named_dict mp_name (m_ports (co_model (pr_component r))).

Lemma fold_dset_keys_nodup {A} (g : string -> A) fields : forall acc, NoDup (map fst acc) ->
  NoDup (map fst (fold_left (fun acc f => dset String.eqb f (g f) acc) fields acc)).
Proof.
  induction fields as [|f fields IH]; intros acc H; cbn; auto. apply IH.
  apply (dset_nodup String.eqb String.eqb_eq). exact H.
Qed.

Lemma connection_brought k : named_port_ref (pc_port1 k) -> named_port_ref (pc_port2 k) ->
  mk_connection (pc_port1 k) (pc_port2 k) = Ok k ->
  NoDup (map fst (pc_master k)) /\
  forall f, match dget String.eqb f (pc_master k) with
            | Some m => exists d, dget pfi_eqb (pr_port m, f) (m_port_definitions (co_model (pr_component m))) = Some d /\
                                  brought k f = [(co_id (pr_component m), d_definition d)]
            | None => brought k f = []
            end.
Proof.
  intros N1 N2 H. rewrite (mk_connection_eq _ _ N1 N2) in H. unfold brought, definition_of.
  set (r1 := pc_port1 k) in *. set (r2 := pc_port2 k) in *. 
  destruct (dget String.eqb (pr_port r1) _) as [p1|] eqn:E1; [|discriminate].
  destruct (dget String.eqb (pr_port r2) _) as [p2|] eqn:E2; [|discriminate].
  destruct (_ && _) eqn:E; [|discriminate]. apply andb_true_iff in E. destruct E as [Et Ef].
  apply port_type_eqb_eq in Et. rewrite forallb_forall in Ef.
  assert (Hm : pc_master k = fold_left (fun acc f => dset String.eqb f (definer r1 r2 f) acc) (pt_fields (mp_type p1)) []).
  { injection H as H. rewrite <- H. reflexivity. }
  clear H. rewrite Hm. split; [apply fold_dset_keys_nodup; constructor|].
  intros f. rewrite fold_dset_get, <- Et. destruct (existsb (String.eqb f) (pt_fields (mp_type p1))) eqn:Ex.
  - apply existsb_exists in Ex. destruct Ex as (f' & Hin & Hf). apply String.eqb_eq in Hf. subst f'.
    specialize (Ef f Hin). unfold definer. unfold defb, dmem in *.
    destruct (dget pfi_eqb (pr_port r1, f) _) as [d1|] eqn:D1;
      destruct (dget pfi_eqb (pr_port r2, f) _) as [d2|] eqn:D2; try discriminate.
    + exists d1. auto.
    + exists d2. auto.
  - cbn [dget]. destruct (dget pfi_eqb (pr_port r1, f) _), (dget pfi_eqb (pr_port r2, f) _); reflexivity.
Qed.

Lemma register_connections_spec (cs : list ports_connection) :
  (forall k, In k cs -> named_port_ref (pc_port1 k) /\ named_port_ref (pc_port2 k) /\
     mk_connection (pc_port1 k) (pc_port2 k) = Ok k) ->
  forall ports ports',
  foldM (fun ports cnx => foldM (register_field cnx) ports (pc_master cnx)) ports cs = Ok ports' ->
  forall c p f, exists new, registered ports' c p f = registered ports c p f ++ new /\
    Forall2 (fun d e => add_component_context (fst d) (snd d) = Ok e)
      (flat_map (fun k => (if is_port (pc_port1 k) c p then brought k f else []) ++
                          (if is_port (pc_port2 k) c p then brought k f else [])) cs) new.
Proof.
  induction cs as [|k cs IH]; intros Hk ports ports' H c p f; cbn [foldM flat_map] in *.
  - injection H as <-. exists []. split; [now rewrite app_nil_r|constructor].
  - inv_bind H. destruct (Hk k (or_introl eq_refl)) as (N1 & N2 & Hc).
    destruct (connection_brought k N1 N2 Hc) as [Hnd Hb]. specialize (Hb f).
    pose proof (register_fields_spec _ _ _ _ Hnd H0 c p f) as Hr.
    destruct (IH (fun k' Hin => Hk k' (or_intror Hin)) _ _ H c p f) as (new & Hnew & HF).
    destruct (dget String.eqb f (pc_master k)) as [m|].
    + destruct Hr as (e & (d & Hd & He) & Hr). destruct Hb as (d' & Hd' & Hb).
      assert (d' = d) by congruence. subst d'. rewrite Hnew, Hr, <- !app_assoc. 
      exists ((if is_port (pc_port1 k) c p then [e] else []) ++
              (if is_port (pc_port2 k) c p then [e] else []) ++ new). split; [reflexivity|].
      rewrite Hb. apply Forall2_app; [|apply Forall2_app; [|exact HF]].
      * destruct (is_port (pc_port1 k) c p); repeat constructor. exact He.
      * destruct (is_port (pc_port2 k) c p); repeat constructor. exact He.
    + rewrite Hnew, Hr, Hb. exists new. split; [reflexivity|].
      destruct (is_port (pc_port1 k) c p), (is_port (pc_port2 k) c p); exact HF.
Qed.

Lemma connections_registered o ports :
  built_network (o_network o) ->
  (forall k, In k (n_connections (o_network o)) ->
     named_model (co_model (pr_component (pc_port1 k))) /\ named_model (co_model (pr_component (pc_port2 k)))) ->
  register_connections o = Ok ports ->
  forall c p f,
  Forall2 (fun d e => add_component_context (fst d) (snd d) = Ok e)
    (connected (o_network o) c p f)
    (match dget pfk_eqb (c, (p, f)) ports with Some l => l | None => [] end).
Proof.
  intros Hb Hn H c p f.
  destruct (register_connections_spec (n_connections (o_network o))) with (ports := @nil (port_field_key * list expr))
    (ports' := ports) (c := c) (p := p) (f := f) as (new & Hnew & HF).
  - intros k Hk. destruct (Hn k Hk). split; [|split].
    + now apply named_ports.
    + now apply named_ports.
    + now apply built_network_connections with (n := o_network o).
  - exact H.
  - change (match dget pfk_eqb (c, (p, f)) ports with Some l => l | None => [] end) with (registered ports c p f).
    rewrite Hnew. exact HF.
Qed.

(** registering connections fails only if a definition already contains component names or an
    empty sum *)
Lemma register_connections_ok o :
  built_network (o_network o) ->
  (forall k, In k (n_connections (o_network o)) ->
     named_model (co_model (pr_component (pc_port1 k))) /\ named_model (co_model (pr_component (pc_port2 k)))) ->
  (forall k f d, In k (n_connections (o_network o)) -> In d (brought k f) ->
     no_component_name (snd d) /\ no_empty_sum (snd d)) ->
  exists ports, register_connections o = Ok ports.
Proof.
  intros Hb Hn Hd. unfold register_connections.
  assert (H : forall cs ports, (forall k, In k cs -> In k (n_connections (o_network o))) ->
    exists ports', foldM (fun ports cnx => foldM (register_field cnx) ports (pc_master cnx)) ports cs = Ok ports').
  { induction cs as [|k cs IH]; intros ports Hin; cbn [foldM]; [eauto|].
    assert (Hk : In k (n_connections (o_network o))) by (apply Hin; now left).
    assert (Hok : exists p', foldM (register_field k) ports (pc_master k) = Ok p').
    { destruct (Hn k Hk) as [N1 N2].
      destruct (connection_brought k) as [Hnd Hbr]; [now apply named_ports|now apply named_ports|
        now apply built_network_connections with (n := o_network o)|].
      assert (Hms : forall ms ports, (forall f m, In (f, m) ms -> In (f, m) (pc_master k)) ->
        exists p', foldM (register_field k) ports ms = Ok p').
      { induction ms as [|[f m] ms IHm]; intros ports0 Hsub; cbn [foldM]; [eauto|].
        pose proof (Hsub f m (or_introl eq_refl)) as Hfm.
        apply (In_dget_nodup String.eqb String.eqb_eq) in Hfm; [|exact Hnd].
        specialize (Hbr f). rewrite Hfm in Hbr. destruct Hbr as (d & Hd1 & Hbr). cbn [register_field].
        rewrite Hd1. 
        destruct (proj1 (context_ok_iff (co_id (pr_component m)) (d_definition d))) as [e He].
        { apply (Hd k f (co_id (pr_component m), d_definition d)); [exact Hk|]. rewrite Hbr. now left. }
        rewrite He. cbn [bind]. apply IHm. intros. apply Hsub. now right. }
      apply Hms. auto. }
    destruct Hok as [p' Hp']. rewrite Hp'. cbn [bind]. apply IH. intros. apply Hin. now right. }
  apply H. auto.
Qed.

(** ** C19: rows *)
Lemma coefs_cons y i c d : coefs_value y ((i, c) :: d) =
  oplus (option_map (fun c => c * y i)%Qc (nval c)) (coefs_value y d).
Proof. unfold coefs_value. cbn [map fst snd]. now rewrite osum_cons. Qed.
Lemma coefs_dset y i c d : NoDup (map fst d) ->
  coefs_value y (dset Nat.eqb i (nadd c (get_coefficient d i)) d) =
  oplus (option_map (fun c => c * y i)%Qc (nval c)) (coefs_value y d).
Proof.
  unfold get_coefficient. induction d as [|[j b] d IH]; intros Hnd; cbn [dset dget].
  - rewrite coefs_cons. unfold n0. rewrite nadd_0_r. reflexivity.
  - cbn [map fst] in Hnd. apply NoDup_cons_iff in Hnd. destruct Hnd as [Hnin Hnd].
    destruct (Nat.eqb_spec i j) as [->|Hne].
    + rewrite !coefs_cons, nval_nadd. destruct (nval c), (nval b), (coefs_value y d); cbn; try reflexivity.
      f_equal. ring.
    + rewrite !coefs_cons, IH by exact Hnd. rewrite !oplus_assoc. f_equal. apply oplus_comm.
Qed.
Lemma add_terms_value o st y x ts : reads o st y x -> forall d d', NoDup (map fst d) ->
  foldM (add_term o st) d ts = Ok d' ->
  NoDup (map fst d') /\ coefs_value y d' = oplus (terms_value x ts) (coefs_value y d).
Proof.
  intros Hr. induction ts as [|[k c] ts IH]; intros d d' Hnd H; cbn [foldM] in H.
  - injection H as <-. split; [exact Hnd|]. now rewrite oplus_0_l.
  - inv_bind H. unfold add_term in H0. cbn [fst snd] in H0. inv_bind H0. injection H0 as <-.
    apply IH in H; [|now apply (dset_nodup Nat.eqb Nat.eqb_eq)]. destruct H as [HA HB].
    split; [exact HA|]. rewrite HB, coefs_dset by exact Hnd. rewrite terms_value_cons.
    rewrite <- (Hr _ _ H1). unfold term_value. cbn [fst snd].
    rewrite !oplus_assoc. f_equal. apply oplus_comm.
Qed.
Lemma at_least_shift lb c v : at_least (nsub lb (Fin c)) v <-> at_least lb (c + v)%Qc.
Proof.
  destruct lb as [q| | |]; cbn; try tauto. split; intros H; qclra.
Qed.
Lemma at_most_shift ub c v : at_most (nsub ub (Fin c)) v <-> at_most ub (c + v)%Qc.
Proof.
  destruct ub as [q| | |]; cbn; try tauto. split; intros H; qclra.
Qed.
Lemma make_constraint_sat o st t s name lb ub e row q :
  make_constraint o st t s name lb ub e = Ok row -> le_constant e = Fin q ->
  forall y x, reads o st y x ->
  (row_sat y row <-> exists v, le_value x e = Some v /\ at_least lb v /\ at_most ub v).
Proof.
  unfold make_constraint. intros H Hq y x Hr. inv_bind H. injection H as <-.
  destruct (add_terms_value o st y x (le_terms e) Hr [] v (NoDup_nil _) H0) as [_ Hv].
  change (coefs_value y []) with (Some 0%Qc) in Hv. rewrite oplus_0_r in Hv.
  unfold row_sat. cbn [sr_coefs sr_lb sr_ub]. rewrite Hv. unfold le_value. rewrite Hq.
  replace (Q2Qc 0 + q)%Qc with q by ring. cbn [nval]. split.
  - intros (w & Hw & H1 & H2). rewrite Hw. cbn. exists (q + w)%Qc. split; [reflexivity|].
    split; [now apply at_least_shift|now apply at_most_shift].
  - intros (w & Hw & H1 & H2). destruct (terms_value x (le_terms e)) as [u|]; [|discriminate].
    cbn in Hw. injection Hw as <-. exists u. split; [reflexivity|].
    split; [now apply at_least_shift|now apply at_most_shift].
Qed.
(** the row is made whenever every variable is known *)
Lemma make_constraint_ok o st t s name lb ub e :
  (exists row, make_constraint o st t s name lb ub e = Ok row) <->
  Forall (fun kt => exists i, get_solver_var o st (fst kt) = Ok i) (le_terms e).
Proof.
  unfold make_constraint.
  assert (H : forall ts d, (exists d', foldM (add_term o st) d ts = Ok d') <->
    Forall (fun kt => exists i, get_solver_var o st (fst kt) = Ok i) ts).
  { induction ts as [|kt ts IH]; intros d; cbn [foldM].
    - split; [constructor|eauto].
    - unfold add_term at 1. destruct (get_solver_var o st (fst kt)) as [i|] eqn:E; cbn [bind].
      + rewrite IH. split; intros HF; [constructor; eauto|now inversion HF].
      + split; [intros [? [=]]|]. intros HF. inversion HF; subst. destruct H1. congruence. }
  rewrite <- (H (le_terms e) []). split; intros [r Hr].
  - inv_bind Hr. eauto.
  - rewrite Hr. cbn. eauto.
Qed.

Lemma Forall2_weaken {A B} (R S : A -> B -> Prop) l m : (forall a b, R a b -> S a b) -> Forall2 R l m -> Forall2 S l m.
Proof. intros H HF. induction HF; constructor; auto. Qed.

(** ** Variables *)
Definition var_pairs (o : settings) : list (component * variable) :=
  flat_map (fun c => map (pair c) (get_variables (o_selection o) (co_model c))) (all_components (o_network o)).
Definition inst : Type := (component * variable * (option Z * option Z))%type.
Definition var_insts (o : settings) : list inst :=
  flat_map (fun cv => map (pair cv) (variable_instances o (v_structure (snd cv)))) (var_pairs o).
Definition inst_key (i : inst) : term_key :=
  let '(c, v, (t, s)) := i in
  {| tk_component := co_id c; tk_variable := v_name v; tk_time := t; tk_scenario := s |}.
Definition inst_name (o : settings) (i : inst) : string :=
  let '(c, v, (t, s)) := i in solver_variable_name o (co_id c) (v_name v) t s.

(** value of a bound of a variable at a timestep and scenario *)
Definition bound_of (o : settings) (st : state) (default : num) (b : option expr) (cid : string)
  (t s : option Z) (v : num) : Prop :=
  match b with
  | None => v = default
  | Some e => exists e', instantiate st e cid = Ok e' /\ compute_expression_value o e' t s = Ok v
  end.
Definition made (o : settings) (st : state) (i : inst) (sv : solver_var) : Prop :=
  let '(c, v, (t, s)) := i in
  exists lower upper, bound_of o st NInf (v_lower v) (co_id c) t s lower /\
    bound_of o st PInf (v_upper v) (co_id c) t s upper /\ nltb upper lower = false /\
    sv = new_solver_var (v_type v) lower upper (inst_name o i).
Definition add_one (st : state) (p : inst * solver_var) : state :=
  let '(c, v, (t, s)) := fst p in
  register_component_variable t s (co_id c) (v_name v) (List.length (s_vars (st_solver st)))
    (sv_name (snd p)) (add_solver_var (snd p) st).

Lemma made_ports o st st' i sv : st_ports st' = st_ports st -> made o st' i sv -> made o st i sv.
Proof.
  intros H. destruct i as [[c v] [t s]]. cbn. unfold bound_of, instantiate. rewrite H. auto.
Qed.
Lemma sv_name_new ty lb ub n : sv_name (new_solver_var ty lb ub n) = n.
Proof. now destruct ty. Qed.
Lemma made_name o st i sv : made o st i sv -> sv_name sv = inst_name o i.
Proof. destruct i as [[c v] [t s]]. intros (l & u & _ & _ & _ & ->). apply sv_name_new. Qed.

Lemma create_variable_instance_spec o c v lbe ube st0 st ts st' :
  instantiate_bound st0 (v_lower v) (co_id c) = Ok lbe -> instantiate_bound st0 (v_upper v) (co_id c) = Ok ube ->
  create_variable_instance o c v lbe ube st ts = Ok st' ->
  exists sv, made o st0 (c, v, ts) sv /\ st' = add_one st ((c, v, ts), sv).
Proof.
  intros Hl Hu H. destruct ts as [t s]. unfold create_variable_instance in H. inv_bind H. inv_bind H.
  destruct (nltb v1 v0) eqn:E; [discriminate|].
  exists (new_solver_var (v_type v) v0 v1 (solver_variable_name o (co_id c) (v_name v) t s)). split.
  - cbn. exists v0, v1. split; [|split; [|split; [exact E|reflexivity]]].
    + destruct (v_lower v) as [e|]; cbn in Hl, H0 |- *.
      * inv_bind Hl. injection Hl as <-. eauto.
      * injection Hl as <-. cbn in H0. congruence.
    + destruct (v_upper v) as [e|]; cbn in Hu, H1 |- *.
      * inv_bind Hu. injection Hu as <-. eauto.
      * injection Hu as <-. cbn in H1. congruence.
  - unfold add_one. cbn [fst snd]. rewrite sv_name_new. congruence.
Qed.

Definition creates (o : settings) (l : list inst) (st st' : state) : Prop :=
  exists svs, Forall2 (made o st) l svs /\ st' = fold_left add_one (combine l svs) st.
Lemma add_one_ports st p : st_ports (add_one st p) = st_ports st.
Proof. destruct p as [[[c v] [t s]] sv]. reflexivity. Qed.
Lemma fold_add_ports l : forall st, st_ports (fold_left add_one l st) = st_ports st.
Proof. induction l as [|a l IH]; intros st; cbn; [reflexivity|]. now rewrite IH, add_one_ports. Qed.
Lemma combine_app' {A B} (l1 l2 : list A) : forall (m1 m2 : list B), List.length l1 = List.length m1 ->
  combine (l1 ++ l2) (m1 ++ m2) = combine l1 m1 ++ combine l2 m2.
Proof.
  induction l1 as [|a l1 IH]; intros [|b m1] m2 H; cbn in *; try discriminate; [reflexivity|].
  f_equal. apply IH. congruence.
Qed.
Lemma creates_app o l1 l2 st st1 st2 : creates o l1 st st1 -> creates o l2 st1 st2 -> creates o (l1 ++ l2) st st2.
Proof.
  intros (v1 & H1 & ->) (v2 & H2 & ->). exists (v1 ++ v2). split.
  - apply Forall2_app; [exact H1|].
    eapply Forall2_weaken; [|exact H2]. intros i sv. apply made_ports. apply fold_add_ports.
  - rewrite combine_app' by (eapply Forall2_len; eauto). now rewrite fold_left_app.
Qed.
Lemma creates_nil o st : creates o [] st st.
Proof. exists []. split; [constructor|reflexivity]. Qed.
Lemma creates_ports o l st st' : creates o l st st' -> st_ports st' = st_ports st.
Proof. intros (v & _ & ->). apply fold_add_ports. Qed.

Lemma create_variable_spec o c st v st' : create_variable o c st v = Ok st' ->
  creates o (map (pair (c, v)) (variable_instances o (v_structure v))) st st'.
Proof.
  unfold create_variable. intros H. inv_bind H. inv_bind H.
  assert (HI : forall l st1, st_ports st1 = st_ports st ->
    foldM (create_variable_instance o c v v0 v1) st1 l = Ok st' ->
    exists svs, Forall2 (made o st) (map (pair (c, v)) l) svs /\
                st' = fold_left add_one (combine (map (pair (c, v)) l) svs) st1).
  { clear H. induction l as [|ts l IH]; intros st1 Hp H; cbn [foldM map] in *.
    - injection H as <-. exists []. split; [constructor|reflexivity].
    - inv_bind H. destruct (create_variable_instance_spec _ _ _ _ _ _ _ _ _ H0 H1 H2) as (sv & Hm & ->).
      destruct (IH _ ltac:(rewrite add_one_ports; exact Hp) H) as (svs & HF & Hst).
      exists (sv :: svs). split; [constructor; assumption|]. exact Hst. }
  exact (HI _ st eq_refl H).
Qed.
Lemma create_variables_spec o st st' : create_variables o st = Ok st' -> creates o (var_insts o) st st'.
Proof.
  unfold create_variables, var_insts. intros H.
  assert (H' : foldM (fun st cv => create_variable o (fst cv) st (snd cv)) st (var_pairs o) = Ok st').
  { unfold var_pairs. rewrite foldM_flat_map. rewrite <- H. apply foldM_ext. intros acc c _. now rewrite foldM_map. }
  clear H. revert st H'. induction (var_pairs o) as [|[c v] l IH]; intros st H; cbn [foldM flat_map] in *.
  - injection H as <-. apply creates_nil.
  - inv_bind H. cbn [fst snd] in *. eapply creates_app.
    + apply create_variable_spec. exact H0.
    + apply IH. exact H.
Qed.

(** *** what [fold_left add_one] does *)
Lemma add_all_vars l : forall st,
  s_vars (st_solver (fold_left add_one l st)) = s_vars (st_solver st) ++ map snd l.
Proof.
  induction l as [|[[[c v] [t s]] sv] l IH]; intros st; cbn [fold_left map].
  - now rewrite app_nil_r.
  - rewrite IH. cbn. now rewrite <- app_assoc.
Qed.
Lemma add_all_rest l : forall st,
  s_rows (st_solver (fold_left add_one l st)) = s_rows (st_solver st) /\
  s_objective (st_solver (fold_left add_one l st)) = s_objective (st_solver st) /\
  s_offset (st_solver (fold_left add_one l st)) = s_offset (st_solver st).
Proof.
  induction l as [|[[[c v] [t s]] sv] l IH]; intros st; cbn [fold_left]; [auto|].
  exact (IH (add_one st (c, v, (t, s), sv))).
Qed.
Lemma dset_new {K A} (eqb : K -> K -> bool) (Heq : forall a b, eqb a b = true <-> a = b) k (a : A) d :
  ~ In k (map fst d) -> dset eqb k a d = d ++ [(k, a)].
Proof.
  induction d as [|[k' a'] d IH]; cbn; intros H; [reflexivity|].
  destruct (eqb k k') eqn:E; [apply Heq in E; subst; tauto|]. rewrite IH; tauto.
Qed.
Lemma add_all_variables l : forall st,
  NoDup (map fst (st_variables st) ++ map (fun p => inst_key (fst p)) l) ->
  st_variables (fold_left add_one l st) =
  st_variables st ++ combine (map (fun p => inst_key (fst p)) l) (seq (List.length (s_vars (st_solver st))) (List.length l)).
Proof.
  induction l as [|[[[c v] [t s]] sv] l IH]; intros st H; cbn [fold_left map combine seq List.length].
  - now rewrite app_nil_r.
  - set (st1 := add_one st (c, v, (t, s), sv)). cbn [map fst inst_key] in H.
    set (k := {| tk_component := co_id c; tk_variable := v_name v; tk_time := t; tk_scenario := s |}) in *.
    assert (Hv : st_variables st1 = st_variables st ++ [(k, List.length (s_vars (st_solver st)))]).
    { unfold st1, add_one. cbn [fst snd register_component_variable st_variables add_solver_var].
      apply (dset_new tk_eqb tk_eqb_eq). fold k. apply NoDup_remove_2 in H.
      intros Hin. apply H. apply in_or_app. now left. }
    etransitivity; [apply (IH st1)|].
    + rewrite Hv, map_app, <- app_assoc. exact H.
    + rewrite Hv, <- app_assoc. cbn [app]. do 2 f_equal. f_equal.
      unfold st1. cbn. rewrite app_length. cbn. f_equal. lia.
Qed.
Definition info_of (name : string) (i : nat) : string * var_info :=
  (name, {| vi_name := name; vi_column := i; vi_in_objective := false |}).
Lemma add_all_infos l : forall st,
  NoDup (map fst (st_variables st) ++ map (fun p => inst_key (fst p)) l) ->
  NoDup (map fst (st_infos st) ++ map (fun p => sv_name (snd p)) l) ->
  st_infos (fold_left add_one l st) =
  st_infos st ++ map (fun ni => info_of (fst ni) (snd ni))
    (combine (map (fun p => sv_name (snd p)) l) (seq (List.length (st_infos st)) (List.length l))).
Proof.
  induction l as [|[[[c v] [t s]] sv] l IH]; intros st H Hn; cbn [fold_left map combine seq List.length].
  - now rewrite app_nil_r.
  - set (st1 := add_one st (c, v, (t, s), sv)). cbn [map fst snd inst_key] in H, Hn.
    set (k := {| tk_component := co_id c; tk_variable := v_name v; tk_time := t; tk_scenario := s |}) in *.
    assert (Hk : ~ In k (map fst (st_variables st))).
    { apply NoDup_remove_2 in H. intros Hin. apply H. apply in_or_app. now left. }
    assert (Hv : st_variables st1 = st_variables st ++ [(k, List.length (s_vars (st_solver st)))]).
    { unfold st1, add_one. cbn [fst snd register_component_variable st_variables add_solver_var].
      apply (dset_new tk_eqb tk_eqb_eq). exact Hk. }
    assert (Hi : st_infos st1 = st_infos st ++ [info_of (sv_name sv) (List.length (st_infos st))]).
    { unfold st1, add_one. cbn [fst snd register_component_variable st_variables st_infos add_solver_var].
      fold k. destruct (dmem tk_eqb k (st_variables st)) eqn:E.
      - apply (dmem_In tk_eqb tk_eqb_eq) in E. contradiction.
      - apply (dset_new String.eqb String.eqb_eq). apply NoDup_remove_2 in Hn.
        intros Hin. apply Hn. apply in_or_app. now left. }
    etransitivity; [apply (IH st1)|].
    + rewrite Hv, map_app, <- app_assoc. exact H.
    + rewrite Hi, map_app, <- app_assoc. exact Hn.
    + rewrite Hi, <- app_assoc. cbn [app]. do 2 f_equal. rewrite app_length. cbn [List.length].
      now replace (List.length (st_infos st) + 1)%nat with (S (List.length (st_infos st))) by lia.
Qed.

(** *** instances *)
Lemma NoDup_append {A} (l m : list A) : NoDup l -> NoDup m -> (forall a, In a l -> ~ In a m) -> NoDup (l ++ m).
Proof.
  induction l as [|a l IH]; cbn; intros Hl Hm H; [exact Hm|]. apply NoDup_cons_iff in Hl. destruct Hl as [Ha Hl].
  constructor.
  - intros Hin. apply in_app_or in Hin. destruct Hin as [Hin|Hin]; [contradiction|]. apply (H a); auto.
  - apply IH; auto.
Qed.
Lemma variable_instances_In o ix t s :
  In (t, s) (variable_instances o ix) <->
  index_of (ix_time ix) (Z.of_nat (List.length (o_block o))) t /\ index_of (ix_scenario ix) (o_scenarios o) s.
Proof.
  unfold variable_instances, get_time_indices, get_scenario_indices. rewrite in_prod_iff.
  assert (H : forall (b : bool) n i, In i (if b then map Some (if b then zrange 0 n else zrange 0 1) else [None]) <->
                              index_of b n i).
  { intros b n i. destruct b; cbn [In].
    - rewrite in_map_iff. destruct i as [z|]; cbn [index_of].
      + split; [intros (y & E & Hy); injection E as <-; apply zrange_In in Hy; auto|].
        intros [_ Hz]. exists z. split; [reflexivity|]. now apply zrange_In.
      + split; [intros (y & [=] & _)|discriminate].
    - destruct i; cbn [index_of]; split; intros HH; try tauto; try (destruct HH; discriminate).
      destruct HH as [HH|HH]; [discriminate|contradiction]. }
  change (block_length o) with (Z.of_nat (List.length (o_block o))). now rewrite !H.
Qed.
Lemma variable_instances_nodup o ix : NoDup (variable_instances o ix).
Proof.
  unfold variable_instances.
  assert (H : forall (b : bool) l, NoDup l -> NoDup (if b then map (@Some Z) l else [None])).
  { intros b l Hl. destruct b; [|repeat constructor; tauto].
    apply FinFun.Injective_map_NoDup; [|exact Hl]. intros x y E. now injection E. }
  assert (Hp : forall A B (l : list A) (m : list B), NoDup l -> NoDup m -> NoDup (list_prod l m)).
  { intros A B l m Hl Hm. induction Hl as [|a l Ha Hl IH]; cbn; [constructor|].
    apply NoDup_append.
    - apply FinFun.Injective_map_NoDup; [|exact Hm]. intros x y E. now injection E.
    - exact IH.
    - intros [x y] H1 H2. apply in_map_iff in H1. destruct H1 as (b & E & _). injection E as <- <-.
      apply in_prod_iff in H2. tauto. }
  apply Hp; apply H; unfold get_time_indices, get_scenario_indices; destruct (ix_time ix), (ix_scenario ix);
    apply zrange_nodup.
Qed.
Lemma var_insts_In o c v t s : In (c, v, (t, s)) (var_insts o) <-> instance_of o c v t s.
Proof.
  unfold var_insts, instance_of, var_pairs. rewrite in_flat_map. split.
  - intros ([c' v'] & H1 & H2). apply in_map_iff in H2. destruct H2 as (ts & E & H2).
    injection E as -> -> ->. apply in_flat_map in H1. destruct H1 as (c' & Hc & H1).
    apply in_map_iff in H1. destruct H1 as (v' & E & Hv). injection E as -> ->.
    apply variable_instances_In in H2. tauto.
  - intros (Hc & Hv & Ht & Hs). exists (c, v). split.
    + apply in_flat_map. exists c. split; [exact Hc|]. apply in_map. exact Hv.
    + apply in_map. apply variable_instances_In. auto.
Qed.
Lemma variables_nodup s m : named_model m -> NoDup (map v_name (get_variables s m)).
Proof.
  intros (_ & _ & _ & [Hnd Hk] & _). unfold get_variables.
  assert (H : map v_name (map snd (m_variables m)) = map fst (m_variables m)).
  { rewrite map_map. apply map_ext_in. intros [k a] Hin. cbn. apply Hk. exact Hin. }
  rewrite <- H in Hnd. clear H Hk. induction (map snd (m_variables m)) as [|a l IH]; cbn in *; [constructor|].
  apply NoDup_cons_iff in Hnd. destruct Hnd as [Ha Hnd].
  destruct (keep_from_context s (v_context a)); cbn; auto. constructor; auto.
  intros Hin. apply Ha. apply in_map_iff in Hin. destruct Hin as (b & Hb & Hin). apply filter_In in Hin.
  apply in_map_iff. exists b. tauto.
Qed.
Lemma map_pair_keys {A B C} (f : A * B -> C) a l : map f (map (pair a) l) = map (fun b => f (a, b)) l.
Proof. apply map_map. Qed.
Lemma NoDup_flat_map {A B} (f : A -> list B) l : NoDup l -> (forall a, In a l -> NoDup (f a)) ->
  (forall a a' b, In a l -> In a' l -> In b (f a) -> In b (f a') -> a = a') -> NoDup (flat_map f l).
Proof.
  induction l as [|a l IH]; intros Hnd Hf Hd; cbn; [constructor|].
  apply NoDup_cons_iff in Hnd. destruct Hnd as [Ha Hnd]. apply NoDup_append.
  - apply Hf. now left.
  - apply IH; auto.
    + intros. apply Hf. now right.
    + intros. eapply Hd; eauto; now right.
  - intros b H1 H2. apply in_flat_map in H2. destruct H2 as (a' & Ha' & H2).
    assert (a = a') by (eapply Hd; eauto; [now left|now right]). subst. contradiction.
Qed.
Lemma flat_map_map {A B C} (f : B -> C) (g : A -> list B) l :
  map f (flat_map g l) = flat_map (fun a => map f (g a)) l.
Proof. induction l as [|a l IH]; cbn; [reflexivity|]. now rewrite map_app, IH. Qed.
Lemma NoDup_map_inv' {A B} (f : A -> B) l : NoDup (map f l) -> NoDup l.
Proof. apply NoDup_map_inv. Qed.
Lemma NoDup_map_inj_in {A B} (f : A -> B) l a b : NoDup (map f l) -> In a l -> In b l -> f a = f b -> a = b.
Proof.
  induction l as [|c l IH]; cbn; [tauto|]. intros Hnd Ha Hb E. apply NoDup_cons_iff in Hnd.
  destruct Hnd as [Hc Hnd]. destruct Ha as [->|Ha], Hb as [->|Hb]; auto.
  - exfalso. apply Hc. rewrite E. now apply in_map.
  - exfalso. apply Hc. rewrite <- E. now apply in_map.
Qed.

Lemma keys_nodup o : distinct_ids (o_network o) -> named_network (o_network o) ->
  NoDup (map inst_key (var_insts o)).
Proof.
  intros Hd Hn. unfold var_insts, var_pairs.
  assert (Hcs : NoDup (all_components (o_network o))) by (exact (NoDup_map_inv co_id _ Hd)).
  rewrite flat_map_map. apply NoDup_flat_map.
  - apply NoDup_flat_map; [exact Hcs| |].
    + intros c Hc. apply FinFun.Injective_map_NoDup; [intros x y E; now injection E|].
      apply (NoDup_map_inv v_name). apply variables_nodup. now apply Hn.
    + intros c c' [c1 v1] _ _ H1 H2. apply in_map_iff in H1, H2. destruct H1 as (? & E1 & _), H2 as (? & E2 & _).
      congruence.
  - intros [c v] _. rewrite map_map. apply FinFun.Injective_map_NoDup; [|apply variable_instances_nodup].
    intros [t s] [t' s'] E. cbn in E. now injection E as -> ->.
  - intros [c v] [c' v'] k Hcv Hcv' Hk Hk'. rewrite map_map in Hk, Hk'. apply in_map_iff in Hk, Hk'.
    destruct Hk as ([t s] & E & _), Hk' as ([t' s'] & E' & _). cbn in E, E'.
    assert (Hid : co_id c = co_id c' /\ v_name v = v_name v') by (split; congruence).
    apply in_flat_map in Hcv, Hcv'. destruct Hcv as (d & Hd1 & Hv), Hcv' as (d' & Hd2 & Hv').
    apply in_map_iff in Hv, Hv'. destruct Hv as (w & Ew & Hv), Hv' as (w' & Ew' & Hv').
    injection Ew as <- <-. injection Ew' as <- <-. destruct Hid as [Hid1 Hid2].
    assert (Hc : d = d') by (apply (NoDup_map_inj_in co_id _ _ _ Hd); assumption). subst d'.
    assert (w = w'); [|congruence].
    apply (NoDup_map_inj_in v_name (get_variables (o_selection o) (co_model d))); auto.
    apply variables_nodup. now apply Hn.
Qed.

(** the state after variable creation *)
Lemma combine_map_fst {A B} (l : list A) : forall (m : list B), List.length l = List.length m ->
  map fst (combine l m) = l /\ map snd (combine l m) = m.
Proof.
  induction l as [|a l IH]; intros [|b m] H; cbn in *; try discriminate; auto.
  destruct (IH m ltac:(congruence)) as [-> ->]. auto.
Qed.
Lemma created_state o st st' : distinct_ids (o_network o) -> named_network (o_network o) ->
  st_variables st = [] -> s_vars (st_solver st) = [] ->
  create_variables o st = Ok st' ->
  st_variables st' = combine (map inst_key (var_insts o)) (seq 0 (List.length (var_insts o))) /\
  Forall2 (made o st) (var_insts o) (s_vars (st_solver st')) /\ st_ports st' = st_ports st /\
  s_rows (st_solver st') = s_rows (st_solver st) /\
  s_objective (st_solver st') = s_objective (st_solver st) /\ s_offset (st_solver st') = s_offset (st_solver st).
Proof.
  intros Hd Hn Hv0 Hs0 H. apply create_variables_spec in H. pose proof (creates_ports _ _ _ _ H) as Hp.
  destruct H as (svs & HF & ->). pose proof (Forall2_len _ _ _ HF) as Hlen.
  destruct (combine_map_fst _ _ Hlen) as [H1 H2].
  assert (Hk : map (fun p : inst * solver_var => inst_key (fst p)) (combine (var_insts o) svs) = map inst_key (var_insts o)).
  { rewrite <- H1 at 2. now rewrite map_map. }
  split; [|split; [|split; [exact Hp|apply add_all_rest]]].
  - rewrite add_all_variables; rewrite Hv0, Hk.
    + rewrite Hs0. cbn [app List.length]. do 2 f_equal. rewrite combine_length. lia.
    + cbn. now apply keys_nodup.
  - rewrite add_all_vars, Hs0, H2. exact HF.
Qed.

Lemma combine_seq_nth {A} (l : list A) k : forall a i, In (a, i) (combine l (seq k (List.length l))) <->
  (k <= i)%nat /\ nth_error l (i - k) = Some a.
Proof.
  revert k. induction l as [|b l IH]; intros k a i; cbn [combine List.length seq In].
  - split; [tauto|]. intros [_ H]. now destruct (i - k)%nat.
  - rewrite IH. split.
    + intros [E|[H1 H2]].
      * injection E as <- <-. split; [lia|]. now rewrite Nat.sub_diag.
      * split; [lia|]. now replace (i - k)%nat with (S (i - S k)) by lia.
    + intros [H1 H2]. destruct (Nat.eq_dec i k) as [->|Hne].
      * left. rewrite Nat.sub_diag in H2. cbn in H2. congruence.
      * right. split; [lia|]. now replace (i - k)%nat with (S (i - S k)) in H2 by lia.
Qed.
Lemma lookup_position (l : list term_key) k i : NoDup l ->
  dget tk_eqb k (combine l (seq 0 (List.length l))) = Some i <-> nth_error l i = Some k.
Proof.
  intros Hnd. assert (Hk : map fst (combine l (seq 0 (List.length l))) = l)
    by (apply combine_map_fst; now rewrite seq_length).
  split.
  - intros H. apply (dget_In tk_eqb tk_eqb_eq) in H. apply combine_seq_nth in H. rewrite Nat.sub_0_r in H. tauto.
  - intros H. apply (In_dget_nodup tk_eqb tk_eqb_eq); [now rewrite Hk|]. apply combine_seq_nth.
    rewrite Nat.sub_0_r. split; [lia|exact H].
Qed.

(** ** Constraints and objectives do not touch the variables *)
Definition same_variables (st st' : state) : Prop :=
  st_variables st' = st_variables st /\ st_ports st' = st_ports st /\
  s_vars (st_solver st') = s_vars (st_solver st).
Lemma same_variables_trans a b c : same_variables a b -> same_variables b c -> same_variables a c.
Proof. unfold same_variables. intuition congruence. Qed.
Lemma same_variables_refl a : same_variables a a.
Proof. repeat split. Qed.

Definition row_pairs (o : settings) : list (component * constraint) :=
  flat_map (fun c => map (pair c) (get_constraints (o_selection o) (co_model c))) (all_components (o_network o)).
Definition block_rows (o : settings) (st : state) (ck : component * constraint) (rows : list solver_row) : Prop :=
  exists ic, instantiate_constraint st (co_id (fst ck)) (snd ck) = Ok ic /\ create_constraint o st ic = Ok rows.

Lemma instantiate_same st st' e cid : st_ports st' = st_ports st -> instantiate st' e cid = instantiate st e cid.
Proof. intros H. unfold instantiate. now rewrite H. Qed.
Lemma get_variable_same o st st' t s c n : st_variables st' = st_variables st ->
  get_component_variable o st' t s c n = get_component_variable o st t s c n.
Proof. intros H. unfold get_component_variable. now rewrite H. Qed.

Lemma set_rows_block o st rows ck r : block_rows o (set_rows st rows) ck r <-> block_rows o st ck r.
Proof. reflexivity. Qed.
Lemma create_constraints_spec o st st' : create_constraints o st = Ok st' ->
  exists rss, Forall2 (block_rows o st) (row_pairs o) rss /\
              st' = set_rows st (s_rows (st_solver st) ++ concat rss).
Proof.
  unfold create_constraints. intros H.
  assert (H' : foldM (fun st ck => create_component_constraint o (co_id (fst ck)) st (snd ck)) st (row_pairs o) = Ok st').
  { unfold row_pairs. rewrite foldM_flat_map. rewrite <- H. apply foldM_ext. intros acc c _. now rewrite foldM_map. }
  clear H. revert st H'. induction (row_pairs o) as [|[c k] l IH]; intros st H; cbn [foldM] in H.
  - injection H as <-. exists []. split; [constructor|]. cbn. rewrite app_nil_r. now destruct st as [? ? ? []].
  - inv_bind H. cbn [fst snd] in H0. unfold create_component_constraint in H0. inv_bind H0. inv_bind H0.
    injection H0 as <-. apply IH in H. destruct H as (rss & HF & ->). exists (v1 :: rss). split.
    + constructor; [exists v0; auto|]. exact HF.
    + cbn. now rewrite <- app_assoc.
Qed.

Definition obj_pairs (o : settings) : list (component * option expr) :=
  flat_map (fun c => map (pair c) (get_objectives (o_selection o) (co_model c))) (all_components (o_network o)).
Lemma add_objective_terms_same o ts : forall st st', foldM (add_objective_term o) st ts = Ok st' ->
  same_variables st st' /\ s_rows (st_solver st') = s_rows (st_solver st) /\
  s_offset (st_solver st') = s_offset (st_solver st).
Proof.
  induction ts as [|kt ts IH]; intros st st' H; cbn [foldM] in H.
  - injection H as <-. repeat split.
  - inv_bind H. unfold add_objective_term in H0. inv_bind H0. inv_bind H0. inv_bind H0. injection H0 as <-.
    apply IH in H. exact H.
Qed.
Lemma create_objective_same o c st e st' : create_objective o c st e = Ok st' ->
  same_variables st st' /\ s_rows (st_solver st') = s_rows (st_solver st).
Proof.
  unfold create_objective. intros H. repeat inv_bind H. injection H as <-.
  apply add_objective_terms_same in H3. destruct H3 as (H3 & H4 & _). split; [exact H3|exact H4].
Qed.
Lemma create_objectives_flat o st st' : create_objectives o st = Ok st' <->
  foldM (fun st ce => create_component_objective o (fst ce) st (snd ce)) st (obj_pairs o) = Ok st'.
Proof.
  unfold create_objectives, obj_pairs. rewrite foldM_flat_map.
  erewrite foldM_ext; [reflexivity|]. intros acc c _. cbn. now rewrite foldM_map.
Qed.
Lemma create_objectives_same o st st' : create_objectives o st = Ok st' ->
  same_variables st st' /\ s_rows (st_solver st') = s_rows (st_solver st).
Proof.
  intros H. apply create_objectives_flat in H.
  apply (foldM_invariant _ (fun st' => same_variables st st' /\ s_rows (st_solver st') = s_rows (st_solver st)))
    in H; [exact H| |repeat split].
  intros acc [c e] acc' _ [H1 H2] Hc. cbn [fst snd] in Hc. destruct e as [e|]; cbn in Hc.
  - apply create_objective_same in Hc. destruct Hc as [H3 H4]. split; [|congruence].
    eapply same_variables_trans; eauto.
  - injection Hc as <-. auto.
Qed.

(** the steps of [build_problem] *)
Lemma build_steps o st : build_problem o = Ok st ->
  exists ports st1 st2, requirements_consistency (o_database o) (o_network o) = Ok tt /\
    register_connections o = Ok ports /\
    create_variables o (set_ports initial_state ports) = Ok st1 /\
    create_constraints o st1 = Ok st2 /\ create_objectives o st2 = Ok st.
Proof.
  unfold build_problem, optimization_problem. intros H. repeat inv_bind H.
  destruct v. exists v0, v1, v2. auto.
Qed.
Lemma built_variables o st : distinct_ids (o_network o) -> named_network (o_network o) ->
  build_problem o = Ok st ->
  exists ports, register_connections o = Ok ports /\ st_ports st = ports /\
    st_variables st = combine (map inst_key (var_insts o)) (seq 0 (List.length (var_insts o))) /\
    Forall2 (made o (set_ports initial_state ports)) (var_insts o) (s_vars (st_solver st)).
Proof.
  intros Hd Hn H. apply build_steps in H. destruct H as (ports & st1 & st2 & _ & Hp & H1 & H2 & H3).
  exists ports. split; [exact Hp|]. apply created_state in H1; auto.
  destruct H1 as (Hv & HF & Hpo & _). apply create_constraints_spec in H2. destruct H2 as (rss & _ & ->).
  apply create_objectives_same in H3. destruct H3 as [(E1 & E2 & E3) _]. cbn in E1, E2, E3.
  rewrite E2, Hpo, E1, E3. auto.
Qed.

(** ** C22 *)
Lemma lookup_iff o st t s c n i :
  usable_block o -> distinct_ids (o_network o) -> named_network (o_network o) ->
  st_variables st = combine (map inst_key (var_insts o)) (seq 0 (List.length (var_insts o))) ->
  get_component_variable o st t s c n = Ok i <->
  nth_error (map inst_key (var_insts o)) i =
    Some {| tk_component := c; tk_variable := n; tk_time := wrapped o t; tk_scenario := s |}.
Proof.
  intros Hu Hd Hn Hv. unfold get_component_variable.
  assert (Ht : match t with None => Ok None | Some t => i <- wrap_timestep o t ;; Ok (Some i) end = Ok (wrapped o t)).
  { destruct t; [|reflexivity]. rewrite wrap_ok by exact Hu. reflexivity. }
  rewrite Ht. cbn [bind]. rewrite Hv.
  assert (Hl : List.length (var_insts o) = List.length (map inst_key (var_insts o))) by now rewrite map_length.
  rewrite Hl. destruct (dget tk_eqb _ _) as [j|] eqn:E.
  - apply lookup_position in E; [|now apply keys_nodup]. split; [congruence|].
    intros H. f_equal. rewrite <- H in E. 
    assert (Hnd := keys_nodup o Hd Hn). rewrite NoDup_nth_error in Hnd. apply Hnd; [|congruence].
    apply nth_error_Some. congruence.
  - split; [discriminate|]. intros H. apply lookup_position in H; [|now apply keys_nodup]. congruence.
Qed.
Lemma nth_inst o c n t s i :
  nth_error (map inst_key (var_insts o)) i =
    Some {| tk_component := c; tk_variable := n; tk_time := t; tk_scenario := s |} <->
  exists k v, nth_error (var_insts o) i = Some (k, v, (t, s)) /\ co_id k = c /\ v_name v = n.
Proof.
  rewrite nth_error_map. destruct (nth_error (var_insts o) i) as [[[k v] [t' s']]|]; cbn; split.
  - intros H. injection H as <- <- <- <-. eauto.
  - intros (k' & v' & H & H1 & H2). injection H as -> -> -> ->. congruence.
  - discriminate.
  - intros (k' & v' & H & _). discriminate.
Qed.
Lemma reads_variable o st : usable_block o -> distinct_ids (o_network o) -> named_network (o_network o) ->
  build_problem o = Ok st ->
  (** every instance can be read, at its own step and at every step that wraps to it *)
  (forall c v t s, instance_of o c v t s ->
     exists i sv, nth_error (s_vars (st_solver st)) i = Some sv /\
       sv_name sv = solver_variable_name o (co_id c) (v_name v) t s /\
       (forall t', wrapped o t' = t -> get_component_variable o st t' s (co_id c) (v_name v) = Ok i)) /\
  (** nothing else can be read *)
  (forall t s cid n i, get_component_variable o st t s cid n = Ok i ->
     exists c v, instance_of o c v (wrapped o t) s /\ co_id c = cid /\ v_name v = n) /\
  (** two readings give the same solver variable only if they are of the same instance *)
  (forall t s cid n t' s' cid' n' i,
     get_component_variable o st t s cid n = Ok i -> get_component_variable o st t' s' cid' n' = Ok i ->
     cid = cid' /\ n = n' /\ wrapped o t = wrapped o t' /\ s = s') /\
  (** every solver variable is an instance *)
  (forall i sv, nth_error (s_vars (st_solver st)) i = Some sv ->
     exists c v t s, instance_of o c v t s /\ get_component_variable o st t s (co_id c) (v_name v) = Ok i).
Proof.
  intros Hu Hd Hn H. apply built_variables in H; auto. destruct H as (ports & _ & _ & Hv & HF).
  pose proof (fun t s c n i => lookup_iff o st t s c n i Hu Hd Hn Hv) as HL.
  assert (Hsv : forall i x, nth_error (var_insts o) i = Some x ->
            exists sv, nth_error (s_vars (st_solver st)) i = Some sv /\ sv_name sv = inst_name o x).
  { intros i x. revert i. clear HL Hv. induction HF as [|a b l m Hab HF IH]; intros [|i] Hx; cbn in *; try discriminate.
    - injection Hx as ->. exists b. split; [reflexivity|]. eapply made_name; eauto.
    - auto. }
  assert (Hw : forall c v t s, instance_of o c v t s -> wrapped o t = t).
  { intros c v t s (_ & _ & Ht & _). destruct t as [t|]; [|reflexivity]. cbn in Ht |- *. f_equal.
    apply Z.mod_small. tauto. }
  split; [|split; [|split]].
  - intros c v t s Hi. pose proof Hi as Hin. apply var_insts_In in Hin. apply In_nth_error in Hin.
    destruct Hin as [i Hin]. destruct (Hsv _ _ Hin) as (sv & H1 & H2). exists i, sv.
    split; [exact H1|]. split; [exact H2|]. intros t' Ht'. apply HL. rewrite Ht'. apply nth_inst. eauto.
  - intros t s cid n i H. apply HL, nth_inst in H. destruct H as (c & v & H1 & H2 & H3).
    exists c, v. split; [|auto]. apply var_insts_In. eapply nth_error_In; eauto.
  - intros t s cid n t' s' cid' n' i H1 H2. apply HL in H1, H2. rewrite H1 in H2. 
    injection H2 as -> -> -> ->. auto.
  - intros i sv Hi. assert (Hx : nth_error (var_insts o) i <> None).
    { apply nth_error_Some. rewrite (Forall2_len _ _ _ HF). apply nth_error_Some. congruence. }
    destruct (nth_error (var_insts o) i) as [[[c v] [t s]]|] eqn:E; [|congruence].
    exists c, v, t, s. assert (Hii : instance_of o c v t s) by (apply var_insts_In; eapply nth_error_In; eauto).
    split; [exact Hii|]. apply HL. rewrite (Hw _ _ _ _ Hii). apply nth_inst. eauto.
Qed.
