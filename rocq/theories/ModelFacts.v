(** Lemmas about models, networks and data. *)
From Coq Require Import Lia.
From Verif Require Import Base Expr Visitors BaseFacts SpecExpr SpecSyntax SpecVisitors ExprFacts
  CopyFacts VisitorFacts LinearFacts Model Study Strategy SpecModel.

(** ** Constraints *)
Lemma osum_map_opp l : osum (map (option_map Qcopp) l) = option_map Qcopp (osum l).
Proof.
  induction l as [|[x|] l IH]; cbn; [f_equal; ring| |reflexivity].
  rewrite IH. destruct (osum l); cbn; [|reflexivity]. f_equal. ring.
Qed.

Lemma den_py_sub E a b t s :
  den E (py_sub a b) t s = olift2 Qcminus (den E a t s) (den E b t s).
Proof.
  unfold py_sub. cbn [den]. rewrite map_app, osum_app, den_add_operands, map_map. cbn [den py_neg].
  rewrite <- (map_map (fun x => den E x t s) (option_map Qcopp)), osum_map_opp, den_add_operands.
  destruct (den E a t s), (den E b t s); reflexivity.
Qed.

Lemma is_unbounded_iff e : is_unbounded e = true <-> infinite_literal e.
Proof.
  unfold infinite_literal. split.
  - destruct e; cbn; try discriminate. destruct v; cbn; try discriminate; auto.
  - intros [->| ->]; reflexivity.
Qed.

Lemma mk_constraint_cmp n l r c lb ub ctx k :
  mk_constraint n (Cmp l r c) lb ub ctx = Ok k ->
  forall E t s vl vr, den E l t s = Some vl -> den E r t s = Some vr ->
  (constraint_holds E (c_expr k) (c_lower k) (c_upper k) t s <-> cmp_holds c vl vr).
Proof.
  cbn [mk_constraint]. destruct (negb _ || negb _); [discriminate|]. intros H E t s vl vr Hl Hr.
  unfold constraint_holds.
  assert (Hd : den E (py_sub l r) t s = Some (vl - vr)%Qc).
  { rewrite den_py_sub, Hl, Hr. reflexivity. }
  destruct c; injection H as <-; cbn [c_expr c_lower c_upper]; rewrite Hd; cbn [lower_ok upper_ok plus_infinity minus_infinity n0 cmp_holds].
  - split.
    + intros (v & Hv & _ & q & Hq & Hle). injection Hv as <-. injection Hq as <-. qclra.
    + intros H. eexists; split; [reflexivity|]. split; [exact I|]. exists 0%Qc. split; [reflexivity|]. qclra.
  - split.
    + intros (v & Hv & (q & Hq & Hle) & (q' & Hq' & Hle')). injection Hv as <-. injection Hq as <-. injection Hq' as <-.
      apply Qcle_antisym; qclra.
    + intros ->. eexists; split; [reflexivity|]. split; (exists 0%Qc; split; [reflexivity|]; qclra).
  - split.
    + intros (v & Hv & (q & Hq & Hle) & _). injection Hv as <-. injection Hq as <-. qclra.
    + intros H. eexists; split; [reflexivity|]. split; [|exact I]. exists 0%Qc. split; [reflexivity|]. qclra.
Qed.

Lemma mk_constraint_cmp_accepted n l r c lb ub ctx :
  (infinite_literal lb /\ infinite_literal ub ->
     exists k, mk_constraint n (Cmp l r c) lb ub ctx = Ok k) /\
  (~ (infinite_literal lb /\ infinite_literal ub) ->
     mk_constraint n (Cmp l r c) lb ub ctx = Err ValueError).
Proof.
  cbn [mk_constraint]. rewrite <- !is_unbounded_iff.
  destruct (is_unbounded lb), (is_unbounded ub); cbn; split; intros H;
    try (destruct H as [H1 H2]; discriminate); try reflexivity.
  - destruct c; eexists; reflexivity.
  - exfalso. apply H. auto.
Qed.

Lemma mk_constraint_bounds n e lb ub ctx k :
  (forall l r c, e <> Cmp l r c) ->
  (mk_constraint n e lb ub ctx = Ok k <->
   k = {| c_name := n; c_expr := e; c_lower := lb; c_upper := ub; c_context := ctx |} /\
   is_constant lb = Ok true /\ is_constant ub = Ok true /\ lb <> Lit PInf /\ ub <> Lit NInf).
Proof.
  intros Hne.
  assert (Heq : mk_constraint n e lb ub ctx =
    (kl <- is_constant lb ;;
      if negb kl then Err ValueError else
      ku <- is_constant ub ;;
      if negb ku then Err ValueError else
      if is_unbounded lb && is_non_negative lb then Err ValueError else
      if is_unbounded ub && negb (is_non_negative ub) then Err ValueError else
      Ok {| c_name := n; c_expr := e; c_lower := lb; c_upper := ub; c_context := ctx |})).
  { destruct e; try reflexivity. exfalso. eapply Hne; reflexivity. }
  rewrite Heq. clear Heq.
  destruct (is_constant lb) as [kl|] eqn:Hl; cbn [bind];
    [|split; [discriminate|intros (_ & H & _); discriminate]].
  destruct kl; cbn [negb]; [|split; [discriminate|intros (_ & H & _); discriminate]].
  destruct (is_constant ub) as [ku|] eqn:Hu; cbn [bind];
    [|split; [discriminate|intros (_ & _ & H & _); discriminate]].
  destruct ku; cbn [negb]; [|split; [discriminate|intros (_ & _ & H & _); discriminate]].
  assert (HL : is_unbounded lb && is_non_negative lb = true <-> lb = Lit PInf).
  { split; [|intros ->; reflexivity]. destruct lb; cbn; try discriminate. destruct v; cbn; try discriminate. reflexivity. }
  assert (HU : is_unbounded ub && negb (is_non_negative ub) = true <-> ub = Lit NInf).
  { split; [|intros ->; reflexivity]. destruct ub; cbn; try discriminate. destruct v; cbn; try discriminate. reflexivity. }
  destruct (is_unbounded lb && is_non_negative lb).
  { split; [discriminate|]. intros (_ & _ & _ & H & _). exfalso. apply H. now apply HL. }
  destruct (is_unbounded ub && negb (is_non_negative ub)).
  { split; [discriminate|]. intros (_ & _ & _ & _ & H). exfalso. apply H. now apply HU. }
  split.
  - intros H. injection H as <-. split; [reflexivity|]. split; [reflexivity|]. split; [reflexivity|].
    split; intros ->; [apply HL in HU || (pose proof (proj2 HL eq_refl)); discriminate|pose proof (proj2 HU eq_refl); discriminate].
  - intros (-> & _). reflexivity.
Qed.

(** ** Dict comprehensions *)
Section DictOf.
  Context {K A : Type} (eqb : K -> K -> bool) (key : A -> K).
  Hypothesis eqb_eq : forall a b, eqb a b = true <-> a = b.

  Lemma dset_entries k a (d : dict K A) x y :
    In (x, y) (dset eqb k a d) -> (x = k /\ y = a) \/ In (x, y) d.
  Proof.
    induction d as [|[k' v] d IH]; cbn.
    - intros [H|[]]. injection H as <- <-. auto.
    - destruct (eqb k k') eqn:E; cbn; intros [H|H].
      + injection H as <- <-. apply eqb_eq in E. subst. auto.
      + auto.
      + auto.
      + destruct (IH H) as [H1|H1]; auto.
  Qed.

  Lemma dset_named a (d : dict K A) : named_dict key d -> named_dict key (dset eqb (key a) a d).
  Proof.
    intros [H1 H2]. split; [now apply dset_nodup|].
    intros k b H. apply dset_entries in H. destruct H as [[-> ->]|H]; [reflexivity|auto].
  Qed.

  Lemma dict_of_named l : named_dict key (dict_of eqb key l).
  Proof.
    unfold dict_of.
    assert (H : forall d, named_dict key d -> named_dict key (fold_left (fun d a => dset eqb (key a) a d) l d)).
    { induction l as [|a l IH]; cbn; auto. intros d Hd. apply IH. now apply dset_named. }
    apply H. split; [constructor|]. intros ? ? [].
  Qed.

  Lemma named_dget (d : dict K A) k a :
    named_dict key d -> dget eqb k d = Some a -> key a = k.
  Proof. intros [_ H] Hg. apply H. now apply (dget_In eqb eqb_eq). Qed.
End DictOf.

Lemma pfi_eqb_eq a b : pfi_eqb a b = true <-> a = b.
Proof.
  destruct a, b. unfold pfi_eqb. cbn. rewrite andb_true_iff, !String.eqb_eq.
  split; [intros [-> ->]; reflexivity|]. intros H. injection H as -> ->. auto.
Qed.

Lemma unique_ports_named l : forall seen r,
  named_dict mp_name seen -> unique_ports seen l = Ok r -> named_dict mp_name r.
Proof.
  induction l as [|p l IH]; cbn; intros seen r Hn H; [injection H as <-; exact Hn|].
  destruct (dmem String.eqb (mp_name p) seen) eqn:E; [discriminate|].
  apply IH in H; auto. destruct Hn as [H1 H2]. split.
  - rewrite map_app. cbn.
    pose proof (dset_nodup String.eqb String.eqb_eq (mp_name p) p seen H1) as Hd.
    rewrite (dset_keys String.eqb) in Hd. rewrite E in Hd. exact Hd.
  - intros k a Hin. apply in_app_or in Hin. destruct Hin as [Hin|[Hin|[]]]; auto.
    injection Hin as <- <-. reflexivity.
Qed.

Lemma unique_ports_spec l : forall seen,
  (NoDup (map mp_name l) /\ (forall p, In p l -> ~ In (mp_name p) (map fst seen)) ->
     unique_ports seen l = Ok (seen ++ map (fun p => (mp_name p, p)) l)) /\
  (forall r, unique_ports seen l = Ok r ->
     NoDup (map mp_name l) /\ (forall p, In p l -> ~ In (mp_name p) (map fst seen))).
Proof.
  induction l as [|p l IH]; cbn; intros seen; split.
  - intros _. now rewrite app_nil_r.
  - intros r _. split; [constructor|]. intros ? [].
  - intros [Hnd Hni]. inversion Hnd as [|? ? Hp Hnd']; subst.
    destruct (dmem String.eqb (mp_name p) seen) eqn:E.
    + apply (dmem_In String.eqb String.eqb_eq) in E. exfalso. apply (Hni p); auto.
    + destruct (IH (seen ++ [(mp_name p, p)])) as [IH1 _]. rewrite IH1.
      * now rewrite <- app_assoc.
      * split; auto. intros q Hq Hin. rewrite map_app in Hin. apply in_app_or in Hin.
        destruct Hin as [Hin|[Hin|[]]]; [apply (Hni q); auto|].
        cbn in Hin. apply Hp. rewrite Hin. now apply in_map.
  - intros r H. destruct (dmem String.eqb (mp_name p) seen) eqn:E; [discriminate|].
    destruct (IH (seen ++ [(mp_name p, p)])) as [_ IH2]. specialize (IH2 r H). destruct IH2 as [Hnd Hni].
    assert (Hns : ~ In (mp_name p) (map fst seen)).
    { intros Hin. apply (dmem_In String.eqb String.eqb_eq) in Hin. congruence. }
    split.
    + constructor; auto. intros Hin. apply in_map_iff in Hin. destruct Hin as (q & Hq & Hin).
      apply (Hni q Hin). rewrite map_app. apply in_or_app. right. cbn. auto.
    + intros q [<-|Hq]; auto. intros Hin. apply (Hni q Hq). rewrite map_app. apply in_or_app. auto.
Qed.

Lemma check_definition_ok ports d :
  check_definition ports d = Ok tt <->
  exists p, dget String.eqb (fst (d_field d)) ports = Some p /\ In (snd (d_field d)) (pt_fields (mp_type p)).
Proof.
  unfold check_definition. destruct (dget _ _ _) as [p|].
  - destruct (existsb _ _) eqn:E.
    + split; auto. intros _. exists p. split; auto. apply existsb_exists in E. destruct E as (x & Hx & Hxe).
      apply String.eqb_eq in Hxe. now subst.
    + split; [discriminate|]. intros (p' & Hp & Hin). injection Hp as <-.
      assert (H : existsb (String.eqb (snd (d_field d))) (pt_fields (mp_type p)) = true).
      { apply existsb_exists. exists (snd (d_field d)). split; auto. apply String.eqb_refl. }
      congruence.
  - split; [discriminate|]. intros (p & H & _). discriminate.
Qed.

Lemma make_model_named id cs bcs ps vs op inv dyn ports defs m :
  make_model id cs bcs ps vs op inv dyn ports defs = Ok m ->
  named_model m /\ definitions_on_ports m.
Proof.
  unfold make_model. intros H. inv_bind H. rename H0 into Hp. unfold check_model in H.
  inv_bind H. inv_bind H. inv_bind H. injection H as <-. cbn [m_operational m_investment m_parameters m_variables m_ports m_port_definitions] in *.
  pose proof (unique_ports_named ports [] v (conj (NoDup_nil _) (fun _ _ (F : In _ []) => match F with end)) Hp) as Hnp.
  assert (Hnd : named_dict d_field (dict_of pfi_eqb d_field defs)) by (apply dict_of_named; apply pfi_eqb_eq).
  split.
  - unfold named_model. cbn. repeat (split; [apply dict_of_named; apply String.eqb_eq|]). auto.
  - intros k d Hin. apply mapM_ok in H2. cbn in Hin.
    assert (Hc : exists u, check_definition v (snd (k, d)) = Ok u).
    { clear - H2 Hin. revert Hin. generalize (k, d). induction H2; cbn; [tauto|]. intros p [<-|Hp]; eauto. }
    destruct Hc as [[] Hc]. cbn in Hc. apply check_definition_ok in Hc. destruct Hc as (p & Hg & Hf).
    exists p. cbn. split; [|split; auto].
    + apply (dget_In String.eqb String.eqb_eq) in Hg. now apply in_map with (f := snd) in Hg.
    + exact (named_dget String.eqb mp_name String.eqb_eq v _ _ Hnp Hg).
Qed.

(** ** Connections *)
Lemma strings_eqb_eq a : forall b, strings_eqb a b = true <-> a = b.
Proof.
  induction a as [|x a IH]; intros [|y b]; cbn; split; intros H; try discriminate; auto.
  - apply andb_true_iff in H. destruct H as [H1 H2]. apply String.eqb_eq in H1. apply IH in H2. congruence.
  - injection H as -> ->. rewrite String.eqb_refl. now apply IH.
Qed.
Lemma port_type_eqb_eq a b : port_type_eqb a b = true <-> a = b.
Proof.
  destruct a, b. unfold port_type_eqb. cbn. rewrite andb_true_iff, String.eqb_eq, strings_eqb_eq.
  split; [intros [-> ->]; reflexivity|]. intros H. injection H as -> ->. auto.
Qed.

Definition defb (r : port_ref) (f : string) : bool :=
  dmem pfi_eqb (pr_port r, f) (m_port_definitions (co_model (pr_component r))).
Lemma defb_iff r f : defb r f = true <-> defines r f.
Proof. unfold defb, defines. apply (dmem_In pfi_eqb pfi_eqb_eq). Qed.

Definition definer (r1 r2 : port_ref) (f : string) : port_ref := if defb r1 f then r1 else r2.

Lemma masters_spec r1 r2 fields : forall acc,
  masters (co_model (pr_component r1)) (co_model (pr_component r2)) (pr_port r1) (pr_port r2) r1 r2 fields acc =
  if forallb (fun f => xorb (defb r1 f) (defb r2 f)) fields
  then Ok (fold_left (fun acc f => dset String.eqb f (definer r1 r2 f) acc) fields acc)
  else Err ValueError.
Proof.
  induction fields as [|f fields IH]; intros acc; cbn [masters forallb fold_left]; [reflexivity|].
  fold (defb r1 f) (defb r2 f). unfold definer at 1.
  destruct (defb r1 f) eqn:D1, (defb r2 f) eqn:D2; cbn; try reflexivity; rewrite IH; unfold definer at 2; rewrite D1; reflexivity.
Qed.

Lemma xorb_one_definer r1 r2 f : xorb (defb r1 f) (defb r2 f) = true <-> one_definer r1 r2 f.
Proof.
  unfold one_definer. rewrite <- !defb_iff.
  destruct (defb r1 f), (defb r2 f); cbn; split; intros H; try discriminate; auto;
    try (left; split; [reflexivity|discriminate]); try (right; split; [discriminate|reflexivity]);
    destruct H as [[H1 H2]|[H1 H2]]; congruence.
Qed.

Lemma mk_connection_eq r1 r2 :
  named_dict mp_name (m_ports (co_model (pr_component r1))) ->
  named_dict mp_name (m_ports (co_model (pr_component r2))) ->
  mk_connection r1 r2 =
  match dget String.eqb (pr_port r1) (m_ports (co_model (pr_component r1))),
        dget String.eqb (pr_port r2) (m_ports (co_model (pr_component r2))) with
  | Some p1, Some p2 =>
      if port_type_eqb (mp_type p1) (mp_type p2) &&
         forallb (fun f => xorb (defb r1 f) (defb r2 f)) (pt_fields (mp_type p1))
      then Ok {| pc_port1 := r1; pc_port2 := r2;
                 pc_master := fold_left (fun acc f => dset String.eqb f (definer r1 r2 f) acc)
                                (pt_fields (mp_type p1)) [] |}
      else Err ValueError
  | _, _ => Err ValueError
  end.
Proof.
  intros N1 N2. unfold mk_connection.
  destruct (dget String.eqb (pr_port r1) _) as [p1|] eqn:E1; [|reflexivity].
  destruct (dget String.eqb (pr_port r2) _) as [p2|] eqn:E2; [|reflexivity].
  destruct (port_type_eqb (mp_type p1) (mp_type p2)); cbn [negb andb]; [|reflexivity].
  rewrite (named_dget String.eqb mp_name String.eqb_eq _ _ _ N1 E1).
  rewrite (named_dget String.eqb mp_name String.eqb_eq _ _ _ N2 E2).
  rewrite masters_spec. destruct (forallb _ _); reflexivity.
Qed.

Lemma fold_dset_get {A} (g : string -> A) fields : forall acc f,
  dget String.eqb f (fold_left (fun acc f => dset String.eqb f (g f) acc) fields acc) =
  if existsb (String.eqb f) fields then Some (g f) else dget String.eqb f acc.
Proof.
  induction fields as [|x fields IH]; intros acc f; cbn; [reflexivity|].
  rewrite IH. destruct (existsb (String.eqb f) fields); [now rewrite orb_true_r|].
  rewrite orb_false_r. destruct (String.eqb f x) eqn:E.
  - apply String.eqb_eq in E. subst. apply (dget_dset_same String.eqb String.eqb_eq).
  - apply (dget_dset_other String.eqb String.eqb_eq). intros ->. rewrite String.eqb_refl in E. discriminate.
Qed.

Lemma has_port_dget r p :
  named_dict mp_name (m_ports (co_model (pr_component r))) ->
  has_port r p <-> dget String.eqb (pr_port r) (m_ports (co_model (pr_component r))) = Some p.
Proof.
  intros [Hnd _]. unfold has_port. split.
  - now apply (In_dget_nodup String.eqb String.eqb_eq).
  - apply (dget_In String.eqb String.eqb_eq).
Qed.

Section Connection.
  Context (r1 r2 : port_ref).
  Hypothesis N1 : named_dict mp_name (m_ports (co_model (pr_component r1))).
  Hypothesis N2 : named_dict mp_name (m_ports (co_model (pr_component r2))).

  Lemma connection_accepted : (exists c, mk_connection r1 r2 = Ok c) <-> compatible r1 r2.
  Proof.
    rewrite (mk_connection_eq r1 r2 N1 N2). unfold compatible. split.
    - intros [c H].
      destruct (dget String.eqb (pr_port r1) _) as [p1|] eqn:E1; [|discriminate].
      destruct (dget String.eqb (pr_port r2) _) as [p2|] eqn:E2; [|discriminate].
      destruct (_ && _) eqn:E; [|discriminate]. apply andb_true_iff in E. destruct E as [Et Ef].
      exists p1, p2. split; [now apply has_port_dget|]. split; [now apply has_port_dget|].
      split; [now apply port_type_eqb_eq|]. intros f Hf. apply xorb_one_definer.
      rewrite forallb_forall in Ef. auto.
    - intros (p1 & p2 & H1 & H2 & Ht & Hf). apply has_port_dget in H1; auto. apply has_port_dget in H2; auto.
      rewrite H1, H2. apply port_type_eqb_eq in Ht. rewrite Ht. cbn [andb].
      replace (forallb _ _) with true; [eexists; reflexivity|]. symmetry. apply forallb_forall.
      intros f Hin. apply xorb_one_definer. auto.
  Qed.

  Lemma connection_rejected : ~ compatible r1 r2 -> mk_connection r1 r2 = Err ValueError.
  Proof.
    intros H. rewrite <- connection_accepted in H. rewrite (mk_connection_eq r1 r2 N1 N2) in *.
    destruct (dget String.eqb (pr_port r1) _) as [p1|]; [|reflexivity].
    destruct (dget String.eqb (pr_port r2) _) as [p2|]; [|reflexivity].
    destruct (_ && _); [|reflexivity]. exfalso. eauto.
  Qed.

  Lemma connection_master c p : mk_connection r1 r2 = Ok c -> has_port r1 p ->
    pc_port1 c = r1 /\ pc_port2 c = r2 /\
    forall f, (In f (pt_fields (mp_type p)) -> exists r, dget String.eqb f (pc_master c) = Some r /\
                  (r = r1 \/ r = r2) /\ defines r f) /\
              (~ In f (pt_fields (mp_type p)) -> dget String.eqb f (pc_master c) = None).
  Proof.
    intros H Hp. rewrite (mk_connection_eq r1 r2 N1 N2) in H. apply has_port_dget in Hp; auto. rewrite Hp in H.
    destruct (dget String.eqb (pr_port r2) _) as [p2|] eqn:E2; [|discriminate].
    destruct (_ && _) eqn:E; [|discriminate]. apply andb_true_iff in E. destruct E as [Et Ef].
    injection H as <-. cbn. split; [reflexivity|]. split; [reflexivity|]. intros f.
    rewrite fold_dset_get. split.
    - intros Hf. rewrite (proj2 (existsb_exists _ _) (ex_intro _ f (conj Hf (String.eqb_refl f)))).
      eexists. split; [reflexivity|]. rewrite forallb_forall in Ef. specialize (Ef f Hf).
      apply xorb_one_definer in Ef. unfold definer. destruct (defb r1 f) eqn:D.
      + split; auto. now apply defb_iff.
      + split; auto. destruct Ef as [[H1 _]|[_ H1]]; auto. apply defb_iff in H1. congruence.
    - intros Hf. destruct (existsb (String.eqb f) _) eqn:X; [|reflexivity].
      apply existsb_exists in X. destruct X as (x & Hx & Hxe). apply String.eqb_eq in Hxe. subst. contradiction.
  Qed.
End Connection.

Lemma connection_symmetric r1 r2 c :
  named_dict mp_name (m_ports (co_model (pr_component r1))) ->
  named_dict mp_name (m_ports (co_model (pr_component r2))) ->
  mk_connection r1 r2 = Ok c ->
  exists c', mk_connection r2 r1 = Ok c' /\ pc_master c' = pc_master c.
Proof.
  intros N1 N2 H. rewrite (mk_connection_eq r1 r2 N1 N2) in H. rewrite (mk_connection_eq r2 r1 N2 N1).
  destruct (dget String.eqb (pr_port r1) _) as [p1|] eqn:E1; [|discriminate].
  destruct (dget String.eqb (pr_port r2) _) as [p2|] eqn:E2; [|discriminate].
  destruct (_ && _) eqn:E; [|discriminate]. apply andb_true_iff in E. destruct E as [Et Ef].
  apply port_type_eqb_eq in Et. rewrite Et in *.
  rewrite (proj2 (port_type_eqb_eq _ _) eq_refl). cbn [andb].
  assert (Ef' : forallb (fun f => xorb (defb r2 f) (defb r1 f)) (pt_fields (mp_type p2)) = true).
  { rewrite forallb_forall in *. intros f Hf. rewrite xorb_comm. auto. }
  rewrite Ef'. eexists. split; [reflexivity|]. injection H as <-. cbn.
  rewrite forallb_forall in Ef. revert Ef. clear. generalize (@nil (string * port_ref)).
  generalize (pt_fields (mp_type p2)). intros l. induction l as [|f l IH]; cbn; intros acc H; [reflexivity|].
  assert (Hd : definer r2 r1 f = definer r1 r2 f).
  { specialize (H f (or_introl eq_refl)). unfold definer. destruct (defb r1 f), (defb r2 f); try discriminate; reflexivity. }
  rewrite Hd. apply IH. intros x Hx. auto.
Qed.

(** ** Networks *)
Lemma built_network_named n : built_network n -> named_dict co_id (n_nodes n) /\ named_dict co_id (n_components n).
Proof.
  induction 1 as [id|c n H [IH1 IH2]|c n H [IH1 IH2]|r1 r2 n n' H [IH1 IH2] Hc]; cbn.
  - repeat split; try constructor; intros ? ? [].
  - split; auto. apply dset_named; auto. apply String.eqb_eq.
  - split; auto. apply dset_named; auto. apply String.eqb_eq.
  - unfold connect in Hc. inv_bind Hc. injection Hc as <-. auto.
Qed.

Lemma built_network_connections n c : built_network n -> In c (n_connections n) ->
  mk_connection (pc_port1 c) (pc_port2 c) = Ok c.
Proof.
  induction 1 as [id|c0 n H IH|c0 n H IH|r1 r2 n n' H IH Hc]; cbn; auto; [tauto|].
  unfold connect in Hc. inv_bind Hc. injection Hc as <-. cbn. intros Hin.
  apply in_app_or in Hin. destruct Hin as [Hin|[<-|[]]]; auto.
  assert (Hv : pc_port1 v = r1 /\ pc_port2 v = r2).
  { unfold mk_connection in H0. destruct (dget _ _ _); [|discriminate]. destruct (dget _ _ _); [|discriminate].
    destruct (negb _); [discriminate|]. inv_bind H0. injection H0 as <-. auto. }
  destruct Hv as [-> ->]. exact H0.
Qed.

Lemma dset_fresh {A} k (a : A) (d : dict string A) : ~ In k (map fst d) -> dset String.eqb k a d = d ++ [(k, a)].
Proof.
  induction d as [|[k' v] d IH]; cbn; intros H; [reflexivity|].
  destruct (String.eqb k k') eqn:E.
  - apply String.eqb_eq in E. subst. exfalso. auto.
  - rewrite IH; auto.
Qed.

Lemma fold_dset_fresh (d : dict string component) : forall acc,
  named_dict co_id (acc ++ d) ->
  fold_left (fun acc kc => dset String.eqb (co_id (snd kc)) (snd kc) acc) d acc = acc ++ d.
Proof.
  induction d as [|[k c] d IH]; intros acc [Hnd Hn]; cbn; [now rewrite app_nil_r|].
  assert (Hk : co_id c = k) by (apply Hn; apply in_or_app; cbn; auto).
  rewrite dset_fresh.
  - rewrite Hk. replace (acc ++ (k, c) :: d) with ((acc ++ [(k, c)]) ++ d) by (now rewrite <- app_assoc).
    apply IH. split; [|intros x y Hxy; apply Hn]; rewrite <- app_assoc in *; auto.
  - rewrite Hk. intros Hin. rewrite map_app in Hnd. apply NoDup_remove_2 in Hnd. apply Hnd.
    apply in_or_app. auto.
Qed.

Lemma fold_add_nodes (d : dict string component) : forall r,
  fold_left (fun r kc => add_node (snd kc) r) d r =
  {| n_id := n_id r; n_nodes := fold_left (fun acc kc => dset String.eqb (co_id (snd kc)) (snd kc) acc) d (n_nodes r);
     n_components := n_components r; n_connections := n_connections r |}.
Proof. induction d as [|kc d IH]; intros r; cbn; [destruct r; reflexivity|]. rewrite IH. reflexivity. Qed.
Lemma fold_add_components (d : dict string component) : forall r,
  fold_left (fun r kc => add_component (snd kc) r) d r =
  {| n_id := n_id r; n_nodes := n_nodes r;
     n_components := fold_left (fun acc kc => dset String.eqb (co_id (snd kc)) (snd kc) acc) d (n_components r);
     n_connections := n_connections r |}.
Proof. induction d as [|kc d IH]; intros r; cbn; [destruct r; reflexivity|]. rewrite IH. reflexivity. Qed.

Lemma mapM_id {A} (f : A -> result A) l : (forall x, In x l -> f x = Ok x) -> mapM f l = Ok l.
Proof.
  induction l as [|a l IH]; cbn; intros H; [reflexivity|].
  rewrite (H a) by auto. cbn. rewrite IH by auto. reflexivity.
Qed.

Lemma replicate_equal n id : built_network n ->
  replicate n id = Ok {| n_id := id; n_nodes := n_nodes n; n_components := n_components n;
                         n_connections := n_connections n |}.
Proof.
  intros H. unfold replicate. rewrite mapM_id.
  - cbn [bind]. rewrite fold_add_components, fold_add_nodes. cbn.
    destruct (built_network_named n H) as [H1 H2].
    rewrite !fold_dset_fresh; auto.
  - intros c Hc. unfold replicate_connection. eapply built_network_connections; eauto.
Qed.

(** ** Data *)
Section DataInd.
  Variable P : data -> Prop.
  Hypothesis HC : forall v, P (ConstantData v).
  Hypothesis HT : forall m, P (TimeSeriesData m).
  Hypothesis HS : forall m sc, P (ScenarioSeriesData m sc).
  Hypothesis HTS : forall r sc, P (TimeScenarioSeriesData r sc).
  Hypothesis HN : forall l, Forall (fun kd => P (snd kd)) l -> P (TreeData l).
  Fixpoint data_ind' (d : data) : P d :=
    match d with
    | ConstantData v => HC v
    | TimeSeriesData m => HT m
    | ScenarioSeriesData m sc => HS m sc
    | TimeScenarioSeriesData r sc => HTS r sc
    | TreeData l =>
        HN l ((fix go (l : list (string * data)) : Forall (fun kd => P (snd kd)) l :=
                 match l with
                 | [] => Forall_nil _
                 | (k, d) :: l => Forall_cons (k, d) (data_ind' d) (go l)
                 end) l)
    end.
End DataInd.

(** the child chosen by a tree *)
Lemma get_value_tree l t s node :
  get_value (TreeData l) t s node =
  match dget String.eqb node l with Some d => get_value d t s EmptyString | None => Err KeyError end.
Proof.
  cbn. induction l as [|[k d] l IH]; cbn; [reflexivity|]. destruct (String.eqb node k); auto.
Qed.

Lemma check_ignores_time d time sc : check_requirement d time sc = true -> time = false -> ignores_time d.
Proof.
  unfold ignores_time. induction d using data_ind'; intros Hc ->; intros t t' s node; cbn in Hc; try discriminate; auto.
  rewrite !get_value_tree. destruct (dget String.eqb node l) as [d|] eqn:E; [|reflexivity].
  apply (dget_In String.eqb String.eqb_eq) in E. rewrite forallb_forall in Hc. rewrite Forall_forall in H.
  apply (H _ E); [apply (Hc _ E)|reflexivity].
Qed.
Lemma check_ignores_scenario d time sc : check_requirement d time sc = true -> sc = false -> ignores_scenario d.
Proof.
  unfold ignores_scenario. induction d using data_ind'; intros Hc ->; intros t s s' node; cbn in Hc; try discriminate; auto.
  - rewrite andb_false_r in Hc. discriminate.
  - rewrite !get_value_tree. destruct (dget String.eqb node l) as [d|] eqn:E; [|reflexivity].
    apply (dget_In String.eqb String.eqb_eq) in E. rewrite forallb_forall in Hc. rewrite Forall_forall in H.
    apply (H _ E); [apply (Hc _ E)|reflexivity].
Qed.

(** a value found without an index is found with any index *)
Lemma get_value_more d t s node v :
  get_value d None s node = Ok v -> get_value d (Some t) s node = Ok v.
Proof.
  revert node. induction d using data_ind'; intros node Hv; auto; try discriminate.
  rewrite get_value_tree in *. destruct (dget String.eqb node l) as [d|] eqn:E; [|discriminate].
  apply (dget_In String.eqb String.eqb_eq) in E. rewrite Forall_forall in H. apply (H _ E). exact Hv.
Qed.
Lemma get_value_more_scenario d t s node v :
  get_value d t None node = Ok v -> get_value d t (Some s) node = Ok v.
Proof.
  revert node. induction d using data_ind'; intros node Hv; auto; try discriminate.
  - cbn in Hv. destruct t; discriminate.
  - rewrite get_value_tree in *. destruct (dget String.eqb node l) as [d|] eqn:E; [|discriminate].
    apply (dget_In String.eqb String.eqb_eq) in E. rewrite Forall_forall in H. apply (H _ E). exact Hv.
Qed.

Lemma mapM_ok_In {A B} (f : A -> result B) l bs x : mapM f l = Ok bs -> In x l -> exists y, f x = Ok y.
Proof.
  intros H. apply mapM_ok in H. induction H; cbn; [tauto|]. intros [<-|Hin]; eauto.
Qed.

Lemma requirements_guarantee db n : 
  (forall c, In c (map snd (n_components n)) -> named_dict p_name (m_parameters (co_model c))) ->
  requirements_consistency db n = Ok tt ->
  forall c p, In c (map snd (n_components n)) -> In p (map snd (m_parameters (co_model c))) ->
  has_suitable_data db (co_id c) p.
Proof.
  intros HN H c p Hc Hp. unfold requirements_consistency in H. inv_bind H.
  pose proof (HN c Hc) as Hnp.
  apply in_map_iff in Hc. destruct Hc as ([k c'] & <- & Hc). cbn [snd] in *.
  destruct (mapM_ok_In _ _ _ _ H0 Hc) as [u Hu]. cbn in Hu. unfold check_component_data in Hu. inv_bind Hu.
  apply in_map_iff in Hp. destruct Hp as ([k' p'] & <- & Hp). cbn [snd] in *.
  destruct (mapM_ok_In _ _ _ _ H1 Hp) as [w Hw]. cbn in Hw. inv_bind Hw.
  assert (Hk : p_name p' = k') by (apply Hnp; auto).
  rewrite Hk in Hw. rewrite (In_dget_nodup String.eqb String.eqb_eq _ _ _ (proj1 Hnp) Hp) in Hw.
  destruct (check_requirement v1 _ _) eqn:Ec; [|discriminate].
  exists v1. split; [exact H2|]. split; intros.
  - eapply check_ignores_time; eauto.
  - eapply check_ignores_scenario; eauto.
Qed.

Lemma requirements_succeeds db n :
  (forall c, In c (map snd (n_components n)) -> named_dict p_name (m_parameters (co_model c))) ->
  (forall c p, In c (map snd (n_components n)) -> In p (map snd (m_parameters (co_model c))) ->
     exists d, get_data db (co_id c) (p_name p) = Ok d /\
       check_requirement d (ix_time (p_structure p)) (ix_scenario (p_structure p)) = true) ->
  requirements_consistency db n = Ok tt.
Proof.
  intros HN H. unfold requirements_consistency.
  assert (Hm : exists ys, mapM (fun kc => check_component_data db (snd kc)) (n_components n) = Ok ys).
  { apply mapM_ok_all. apply Forall_forall. intros [k c] Hc. cbn.
    assert (Hcs : In c (map snd (n_components n))) by (apply in_map_iff; exists (k, c); auto).
    unfold check_component_data.
    match goal with |- context [mapM ?f ?l] => assert (Hm : exists ys, mapM f l = Ok ys) end.
    { apply mapM_ok_all. apply Forall_forall. intros [k' p] Hp. cbn.
      assert (Hps : In p (map snd (m_parameters (co_model c)))) by (apply in_map_iff; exists (k', p); auto).
      destruct (H c p Hcs Hps) as (d & Hd & Hr). rewrite Hd. cbn.
      destruct (HN c Hcs) as [Hnd Hnm]. rewrite (Hnm _ _ Hp).
      rewrite (In_dget_nodup String.eqb String.eqb_eq _ _ _ Hnd Hp). rewrite Hr. eauto. }
    destruct Hm as [ys Hm]. rewrite Hm. cbn. eauto. }
  destruct Hm as [ys Hm]. rewrite Hm. reflexivity.
Qed.

Lemma adds_get history : forall db c n,
  get_data (fold_left (fun db (h : string * string * data) => let '(c, n, d) := h in add_data c n d db) history db) c n =
  match last_added c n history with Some d => Ok d | None => get_data db c n end.
Proof.
  induction history as [|[[c' n'] d] h IH]; intros db c n; cbn; [reflexivity|].
  rewrite IH. destruct (last_added c n h); [reflexivity|].
  destruct (String.eqb c c' && String.eqb n n') eqn:E.
  - apply andb_true_iff in E. destruct E as [E1 E2]. apply String.eqb_eq in E1, E2. subst.
    unfold get_data, add_data. now rewrite (dget_dset_same pfi_eqb pfi_eqb_eq).
  - unfold get_data, add_data. rewrite (dget_dset_other pfi_eqb pfi_eqb_eq); [reflexivity|].
    intros Heq. injection Heq as -> ->. rewrite !String.eqb_refl in E. discriminate.
Qed.

(** ** Strategies *)
Lemma filter_all {A} (l : list A) : filter (fun _ => true) l = l.
Proof. induction l; cbn; congruence. Qed.
Lemma merged_everything m :
  get_variables MergedProblem m = map snd (m_variables m) /\
  get_constraints MergedProblem m = map snd (m_binding_constraints m) ++ map snd (m_constraints m) /\
  get_objectives MergedProblem m = [m_operational m; m_investment m].
Proof.
  unfold get_variables, get_constraints, get_all_constraints. cbn [keep_from_context].
  rewrite !filter_all. auto.
Qed.

Lemma keep_investment c : keep_from_context InvestmentProblem c = true <-> c = INVESTMENT \/ c = COUPLING.
Proof. destruct c; cbn; split; intros H; auto; try discriminate; destruct H; discriminate. Qed.
Lemma keep_operational c : keep_from_context OperationalProblem c = true <-> c = OPERATIONAL \/ c = COUPLING.
Proof. destruct c; cbn; split; intros H; auto; try discriminate; destruct H; discriminate. Qed.

Lemma variables_selected m v : In v (map snd (m_variables m)) ->
  (In v (get_variables InvestmentProblem m) \/ In v (get_variables OperationalProblem m)) /\
  (In v (get_variables InvestmentProblem m) <-> v_context v = INVESTMENT \/ v_context v = COUPLING) /\
  (In v (get_variables OperationalProblem m) <-> v_context v = OPERATIONAL \/ v_context v = COUPLING) /\
  (In v (get_variables InvestmentProblem m) /\ In v (get_variables OperationalProblem m)
     <-> v_context v = COUPLING).
Proof.
  intros H. unfold get_variables. rewrite !filter_In, keep_investment, keep_operational.
  destruct (v_context v); intuition discriminate.
Qed.
Lemma constraints_selected m c :
  In c (map snd (m_constraints m)) \/ In c (map snd (m_binding_constraints m)) ->
  (In c (get_constraints InvestmentProblem m) \/ In c (get_constraints OperationalProblem m)) /\
  (In c (get_constraints InvestmentProblem m) <-> c_context c = INVESTMENT \/ c_context c = COUPLING) /\
  (In c (get_constraints OperationalProblem m) <-> c_context c = OPERATIONAL \/ c_context c = COUPLING) /\
  (In c (get_constraints InvestmentProblem m) /\ In c (get_constraints OperationalProblem m)
     <-> c_context c = COUPLING).
Proof.
  intros H0. assert (H : In c (get_all_constraints m)) by (apply in_or_app; tauto).
  unfold get_constraints. rewrite !filter_In, keep_investment, keep_operational.
  destruct (c_context c); intuition discriminate.
Qed.
Lemma selected_of_model s m :
  (forall v, In v (get_variables s m) -> In v (map snd (m_variables m))) /\
  (forall c, In c (get_constraints s m) ->
     In c (map snd (m_constraints m)) \/ In c (map snd (m_binding_constraints m))).
Proof.
  unfold get_variables, get_constraints, get_all_constraints. split; intros x; rewrite filter_In, ?in_app_iff; tauto.
Qed.
Lemma objectives_shared m : get_objectives OperationalProblem m ++ get_objectives InvestmentProblem m =
            get_objectives MergedProblem m.
Proof. reflexivity. Qed.
Lemma risk_den E e t s :
  (forall p, den E (modify_expression (ExpectedValue (Fin p)) e) t s = option_map (Qcmult p) (den E e t s)) /\
  den E (modify_expression UniformRisk e) t s = den E e t s.
Proof.
  split; [|reflexivity]. intros p. cbn [modify_expression]. cbn [den py_mul].
  destruct (den E e t s); reflexivity.
Qed.

(** ** Wrappers for models made by [make_model] *)
Lemma named_ports m : named_model m -> named_dict mp_name (m_ports m).
Proof. intros (_ & _ & _ & _ & H & _). exact H. Qed.
Lemma named_parameters m : named_model m -> named_dict p_name (m_parameters m).
Proof. intros (_ & _ & H & _). exact H. Qed.
Lemma connection_iff r1 r2 :
  named_model (co_model (pr_component r1)) -> named_model (co_model (pr_component r2)) ->
  ((exists c, mk_connection r1 r2 = Ok c) <-> compatible r1 r2) /\
  (~ compatible r1 r2 -> mk_connection r1 r2 = Err ValueError).
Proof.
  intros N1 N2. apply named_ports in N1, N2. split; [now apply connection_accepted|now apply connection_rejected].
Qed.
Lemma connection_master_named r1 r2 c p :
  named_model (co_model (pr_component r1)) -> named_model (co_model (pr_component r2)) ->
  mk_connection r1 r2 = Ok c -> has_port r1 p ->
  pc_port1 c = r1 /\ pc_port2 c = r2 /\
  forall f, (In f (pt_fields (mp_type p)) -> exists r, dget String.eqb f (pc_master c) = Some r /\
                (r = r1 \/ r = r2) /\ defines r f) /\
            (~ In f (pt_fields (mp_type p)) -> dget String.eqb f (pc_master c) = None).
Proof. intros N1 N2. apply connection_master; now apply named_ports. Qed.
Lemma connection_swap r1 r2 c :
  named_model (co_model (pr_component r1)) -> named_model (co_model (pr_component r2)) ->
  mk_connection r1 r2 = Ok c -> exists c', mk_connection r2 r1 = Ok c' /\ pc_master c' = pc_master c.
Proof. intros N1 N2. apply connection_symmetric; now apply named_ports. Qed.
Lemma requirements_ok db n : (forall c, In c (map snd (n_components n)) -> named_model (co_model c)) ->
  requirements_consistency db n = Ok tt ->
  forall c p, In c (map snd (n_components n)) -> In p (map snd (m_parameters (co_model c))) ->
  has_suitable_data db (co_id c) p.
Proof. intros H. apply requirements_guarantee. intros c Hc. apply named_parameters. auto. Qed.
Lemma check_suits ix d : check_requirement d (ix_time ix) (ix_scenario ix) = true <-> suits ix d.
Proof.
  induction d using data_ind'; cbn.
  - split; [constructor|reflexivity].
  - split; [now constructor|now inversion 1].
  - split; [now constructor|now inversion 1].
  - rewrite andb_true_iff. split; [intros []; now constructor|now inversion 1].
  - rewrite forallb_forall. rewrite Forall_forall in H. split.
    + intros Hc. constructor. intros node d Hd. apply (H _ Hd), (Hc _ Hd).
    + intros Hs [node d] Hd. inversion_clear Hs as [| | | |? Hs']. apply (H _ Hd), (Hs' _ _ Hd).
Qed.
Lemma requirements_accept db n : (forall c, In c (map snd (n_components n)) -> named_model (co_model c)) ->
  (requirements_consistency db n = Ok tt <->
   forall c p, In c (map snd (n_components n)) -> In p (map snd (m_parameters (co_model c))) ->
     exists d, get_data db (co_id c) (p_name p) = Ok d /\ suits (p_structure p) d).
Proof.
  intros HN. split.
  - intros H c p Hc Hp. pose proof (named_parameters _ (HN c Hc)) as Hnp. unfold requirements_consistency in H. inv_bind H.
    apply in_map_iff in Hc. destruct Hc as ([k c'] & <- & Hc). cbn [snd] in *.
    destruct (mapM_ok_In _ _ _ _ H0 Hc) as [u Hu]. cbn in Hu. unfold check_component_data in Hu. inv_bind Hu.
    apply in_map_iff in Hp. destruct Hp as ([k' p'] & <- & Hp). cbn [snd] in *.
    destruct (mapM_ok_In _ _ _ _ H1 Hp) as [w Hw]. cbn in Hw. inv_bind Hw.
    assert (Hk : p_name p' = k') by (apply Hnp; auto).
    rewrite Hk in Hw. rewrite (In_dget_nodup String.eqb String.eqb_eq _ _ _ (proj1 Hnp) Hp) in Hw.
    destruct (check_requirement v1 _ _) eqn:Ec; [|discriminate]. exists v1. split; [exact H2|]. now apply check_suits.
  - intros H. apply requirements_succeeds.
    + intros c Hc. apply named_parameters. auto.
    + intros c p Hc Hp. destruct (H c p Hc Hp) as (d & Hd & S). exists d. split; [exact Hd|]. now apply check_suits.
Qed.
Lemma database_map (history : list (string * string * data)) c n :
  get_data (fold_left (fun db h => add_data (fst (fst h)) (snd (fst h)) (snd h) db) history []) c n =
  match last_added c n history with Some d => Ok d | None => Err KeyError end.
Proof.
  transitivity (get_data (fold_left (fun db (h : string * string * data) =>
    let '(c, n, d) := h in add_data c n d db) history []) c n); [|apply adds_get].
  f_equal. change (dict (string * string) data) with database. generalize (@nil (string * string * data) : database).
  induction history as [|[[a b] d] h IH]; intros db; cbn [fold_left fst snd]; auto.
Qed.
Lemma db_value db c n t s :
  db_get_value db c n t s = (d <- get_data db c n ;; get_value d (Some t) (Some s) EmptyString).
Proof. unfold db_get_value, get_data. destruct (dget _ _ _); reflexivity. Qed.

(** ** Cells *)
Lemma dget_combine_zrange {A} (l : list A) : forall a t,
  dget Z.eqb t (combine (zrange a (a + Z.of_nat (List.length l))) l) =
  if (t <? a)%Z then None else nth_error l (Z.to_nat (t - a)).
Proof.
  induction l as [|x l IH]; intros a t.
  - cbn [List.length]. rewrite combine_nil. cbn. destruct (t <? a)%Z; [reflexivity|].
    destruct (Z.to_nat _); reflexivity.
  - cbn [List.length]. rewrite zrange_cons by lia.
    replace (a + Z.of_nat (S (List.length l)))%Z with (a + 1 + Z.of_nat (List.length l))%Z by lia.
    cbn [combine dget]. destruct (Z.eqb_spec t a) as [->|Hne].
    + rewrite Z.ltb_irrefl, Z.sub_diag. reflexivity.
    + rewrite IH. destruct (t <? a + 1)%Z eqn:E1, (t <? a)%Z eqn:E2; try reflexivity; try lia.
      replace (Z.to_nat (t - a)) with (S (Z.to_nat (t - (a + 1)))) by lia. reflexivity.
Qed.

Lemma time_series_cell col m t s node :
  dataframe_to_time_series (map (fun v => [v]) col) = Ok m ->
  get_value (TimeSeriesData m) (Some t) s node =
    match (if (t <? 0)%Z then None else nth_error col (Z.to_nat t)) with Some v => Ok v | None => Err KeyError end
  /\ get_value (TimeSeriesData m) None s node = Err KeyError.
Proof.
  unfold dataframe_to_time_series. intros H.
  assert (Hm : mapM (fun r : list num => match r with [v] => Ok v | _ => Err ValueError end) (map (fun v => [v]) col) = Ok col).
  { clear. induction col as [|a l IH]; cbn; [reflexivity|]. rewrite IH. reflexivity. }
  rewrite Hm in H. cbn [bind] in H. injection H as <-. split; [|reflexivity]. cbn [get_value].
  pose proof (dget_combine_zrange col 0 t) as Hd. rewrite Z.add_0_l, Z.sub_0_r in Hd. rewrite Hd. reflexivity.
Qed.
Lemma scenario_series_cell row m t s node :
  dataframe_to_scenario_series [row] = Ok m ->
  get_value (ScenarioSeriesData m None) t (Some s) node =
    match (if (s <? 0)%Z then None else nth_error row (Z.to_nat s)) with Some v => Ok v | None => Err KeyError end
  /\ get_value (ScenarioSeriesData m None) t None node = Err KeyError.
Proof.
  unfold dataframe_to_scenario_series. intros H. injection H as <-. split; [|reflexivity]. cbn [get_value data_scenario bind].
  pose proof (dget_combine_zrange row 0 s) as Hd. rewrite Z.add_0_l, Z.sub_0_r in Hd. rewrite Hd. reflexivity.
Qed.

Lemma series_lookup m sc t s c node : data_scenario sc s = Ok c ->
  (forall v, (NoDup (map fst m) /\ In (t, v) m -> get_value (TimeSeriesData m) (Some t) (Some s) node = Ok v) /\
             (get_value (TimeSeriesData m) (Some t) (Some s) node = Ok v -> In (t, v) m)) /\
  (forall v, (NoDup (map fst m) /\ In (c, v) m -> get_value (ScenarioSeriesData m sc) (Some t) (Some s) node = Ok v) /\
             (get_value (ScenarioSeriesData m sc) (Some t) (Some s) node = Ok v -> In (c, v) m)).
Proof.
  intros Hc. cbn [get_value]. rewrite Hc. cbn [bind]. split; intros v; split.
  - intros [Hn Hi]. rewrite (In_dget_nodup Z.eqb Z.eqb_eq _ _ _ Hn Hi). reflexivity.
  - destruct (dget Z.eqb t m) eqn:E; [|discriminate]. intros H. injection H as <-. now apply (dget_In Z.eqb Z.eqb_eq).
  - intros [Hn Hi]. rewrite (In_dget_nodup Z.eqb Z.eqb_eq _ _ _ Hn Hi). reflexivity.
  - destruct (dget Z.eqb c m) eqn:E; [|discriminate]. intros H. injection H as <-. now apply (dget_In Z.eqb Z.eqb_eq).
Qed.

Lemma dget_app {K A} (eqb : K -> K -> bool) k (d d' : dict K A) :
  dget eqb k (d ++ d') = match dget eqb k d with Some a => Some a | None => dget eqb k d' end.
Proof. induction d as [|[k' v] d IH]; cbn; [reflexivity|]. destruct (eqb k k'); auto. Qed.

Lemma scenarization_map sc y c : data_scenario None y = Ok y /\
  (add_year y c sc = Err ValueError <-> In y (map fst sc)) /\
  (forall sc', add_year y c sc = Ok sc' -> get_scenario_for_year sc' y = Ok c /\
      forall z, z <> y -> get_scenario_for_year sc' z = get_scenario_for_year sc z).
Proof.
  unfold add_year, get_scenario_for_year. split; [reflexivity|]. rewrite <- (dmem_In Z.eqb Z.eqb_eq).
  destruct (dmem Z.eqb y sc) eqn:E.
  - split; [split; reflexivity|]. discriminate.
  - split; [split; discriminate|]. intros sc' H. injection H as <-.
    assert (Hn : dget Z.eqb y sc = None) by (unfold dmem in E; destruct (dget Z.eqb y sc); [discriminate|reflexivity]).
    split.
    + rewrite dget_app, Hn. cbn. now rewrite Z.eqb_refl.
    + intros z Hz. rewrite dget_app. destruct (dget Z.eqb z sc); [reflexivity|]. cbn.
      destruct (Z.eqb_spec z y); [contradiction|reflexivity].
Qed.

Lemma iloc_nonneg {A} (l : list A) i : (0 <= i)%Z ->
  iloc l i = match nth_error l (Z.to_nat i) with Some a => Ok a | None => Err IndexError end.
Proof.
  intros Hi. unfold iloc. destruct (i <? 0)%Z eqn:E; [lia|].
  destruct ((0 <=? i)%Z && (i <? Z.of_nat (List.length l))%Z) eqn:E2; [reflexivity|].
  replace (nth_error l (Z.to_nat i)) with (@None A); [reflexivity|]. symmetry. apply nth_error_None. lia.
Qed.
Lemma time_scenario_cell rows sc t s c node : data_scenario sc s = Ok c -> (0 <= t)%Z -> (0 <= c)%Z ->
  get_value (TimeScenarioSeriesData rows sc) (Some t) (Some s) node =
    match nth_error rows (Z.to_nat t) with
    | Some row => match nth_error row (Z.to_nat c) with Some v => Ok v | None => Err IndexError end
    | None => Err IndexError
    end.
Proof.
  intros Hc Ht H. cbn [get_value]. rewrite Hc. cbn [bind]. rewrite iloc_nonneg by auto.
  destruct (nth_error rows (Z.to_nat t)); [|reflexivity]. cbn [bind]. now apply iloc_nonneg.
Qed.
Lemma iloc_counted {A} (l : list A) i : (forall x, iloc l i = Ok x <-> counted l i x) /\
  ((forall x, ~ counted l i x) -> iloc l i = Err IndexError).
Proof.
  assert (P : forall x, counted l i x -> iloc l i = Ok x).
  { intros x H. destruct H as [before x after ->|before x after ->]; unfold iloc; rewrite app_length; cbn [List.length].
    - rewrite (proj2 (Z.ltb_ge _ _)) by lia. cbn zeta. rewrite (proj2 (Z.leb_le _ _)), (proj2 (Z.ltb_lt _ _)) by lia. cbn [andb].
      rewrite Nat2Z.id, nth_error_app2, Nat.sub_diag by lia. reflexivity.
    - rewrite (proj2 (Z.ltb_lt _ _)) by lia. cbn zeta. rewrite (proj2 (Z.leb_le _ _)), (proj2 (Z.ltb_lt _ _)) by lia. cbn [andb].
      match goal with |- context [Z.to_nat ?z] => replace (Z.to_nat z) with (List.length before) by lia end.
      rewrite nth_error_app2, Nat.sub_diag by lia. reflexivity. }
  assert (Q : forall x, iloc l i = Ok x -> counted l i x).
  { intros x. unfold iloc. cbn zeta. destruct (andb _ _) eqn:B; [|discriminate]. apply andb_true_iff in B. destruct B as [B1 B2].
    apply Z.leb_le in B1. apply Z.ltb_lt in B2. destruct (nth_error l _) as [a|] eqn:E; [|discriminate]. intros [= ->].
    apply nth_error_split in E. destruct E as (before & after & -> & E). destruct (Z.ltb_spec i 0) as [L|L].
    - rewrite app_length in *. cbn [List.length] in *. replace i with (- Z.of_nat (S (List.length after)))%Z by lia. now apply (from_end _ before).
    - replace i with (Z.of_nat (List.length before)) by lia. now apply (from_start _ before x after). }
  split; [split; auto|]. intros H. destruct (iloc l i) as [x|e] eqn:E; [destruct (H x); now apply Q|].
  unfold iloc in E. cbn zeta in E. destruct (andb _ _); [|congruence]. destruct (nth_error _ _); congruence.
Qed.
Lemma time_scenario_any rows sc t s c node : data_scenario sc s = Ok c ->
  (forall v, get_value (TimeScenarioSeriesData rows sc) (Some t) (Some s) node = Ok v <->
     exists row, counted rows t row /\ counted row c v) /\
  ((forall row v, counted rows t row -> ~ counted row c v) ->
   get_value (TimeScenarioSeriesData rows sc) (Some t) (Some s) node = Err IndexError).
Proof.
  intros Hc. cbn [get_value]. rewrite Hc. cbn [bind]. destruct (iloc_counted rows t) as [R1 R2]. split.
  - intros v. split.
    + intros H. destruct (iloc rows t) as [row|] eqn:E; [|discriminate]. cbn [bind] in H. exists row.
      split; [now apply R1|now apply iloc_counted].
    + intros (row & Hr & Hv). apply R1 in Hr. rewrite Hr. cbn [bind]. now apply iloc_counted.
  - intros H. destruct (iloc rows t) as [row|e] eqn:E; cbn [bind].
    + apply (proj2 (iloc_counted row c)). intros v. apply H. now apply R1.
    + assert (N : @Err (list num) e = Err IndexError); [|now injection N as ->].
      apply R2. intros x Hx. apply R1 in Hx. discriminate.
Qed.
Lemma missing_index rows sc t s node :
  get_value (TimeScenarioSeriesData rows sc) None s node = Err KeyError /\
  get_value (TimeScenarioSeriesData rows sc) t None node = Err KeyError /\
  (forall y e, data_scenario sc y = Err e -> exists e', get_value (TimeScenarioSeriesData rows sc) t (Some y) node = Err e').
Proof.
  cbn [get_value]. split; [reflexivity|]. split; [destruct t; reflexivity|]. intros y e H.
  destruct t; [|eauto]. rewrite H. cbn. eauto.
Qed.
Lemma tree_lookup children node t s :
  (forall d, NoDup (map fst children) -> In (node, d) children ->
     get_value (TreeData children) t s node = get_value d t s EmptyString) /\
  (~ In node (map fst children) -> get_value (TreeData children) t s node = Err KeyError).
Proof.
  rewrite get_value_tree. split.
  - intros d Hn Hi. rewrite (In_dget_nodup String.eqb String.eqb_eq _ _ _ Hn Hi). reflexivity.
  - intros H. destruct (dget String.eqb node children) eqn:E; [|reflexivity].
    exfalso. apply H. apply (dget_In String.eqb String.eqb_eq) in E. now apply in_map with (f := fst) in E.
Qed.
