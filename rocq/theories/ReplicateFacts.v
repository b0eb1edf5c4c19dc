(** Proofs on copies with changes and on objects kept by name. *)
From Verif Require Import Base BaseFacts Expr Visitors SpecExpr Model Study SpecModel ModelFacts Replicate SpecReplicate.

Lemma takes_changed {A} (c : option A) (old : A) : takes c old (changed c old).
Proof. destruct c; reflexivity. Qed.
Lemma takes_eq {A} (c : option A) (old new : A) : takes c old new -> new = changed c old.
Proof. destruct c; intros H; exact H. Qed.

(** ** variables *)
Lemma check_bound_ok b u : check_variable_bound b = Ok u -> forall e, b = Some e -> is_constant e = Ok true.
Proof.
  intros H e ->. cbn in H. destruct (is_constant e) as [[]|]; try discriminate. reflexivity.
Qed.
Lemma check_bound_of b : (forall e, b = Some e -> is_constant e = Ok true) -> check_variable_bound b = Ok tt.
Proof. destruct b as [e|]; [|reflexivity]. intros H. cbn. now rewrite (H e eq_refl). Qed.

Lemma replicate_variable_iff v c v' : replicate_variable v c = Ok v' <->
  copied_variable v c v' /\ forall e, v_lower v' = Some e \/ v_upper v' = Some e -> is_constant e = Ok true.
Proof.
  unfold replicate_variable, mk_variable. split.
  - intros H. apply bind_ok in H as (u & L & H). apply bind_ok in H as (u' & U & H). injection H as <-.
    split; [repeat split; apply takes_changed|]. cbn [v_lower v_upper].
    intros e [E|E]; [exact (check_bound_ok _ _ L e E)|exact (check_bound_ok _ _ U e E)].
  - intros ((N & T & L & U & S & C) & H). destruct v' as [n ty lb ub st ctx].
    cbn [v_name v_type v_lower v_upper v_structure v_context] in *.
    apply takes_eq in N, T, L, U, S, C. subst.
    rewrite !check_bound_of; [reflexivity|intros e E; apply H; now right|intros e E; apply H; now left].
Qed.
Lemma replicate_variable_same n ty lb ub st ctx v : mk_variable n ty lb ub st ctx = Ok v ->
  replicate_variable v same_variable = Ok v.
Proof.
  intros H. assert (v = {| v_name := n; v_type := ty; v_lower := lb; v_upper := ub; v_structure := st; v_context := ctx |}).
  { unfold mk_variable in H. apply bind_ok in H as (? & _ & H). apply bind_ok in H as (? & _ & H). now injection H. }
  subst v. exact H.
Qed.

(** ** constraints *)
Lemma made_not_comparison n e lb ub ctx k : mk_constraint n e lb ub ctx = Ok k -> forall l r c, c_expr k <> Cmp l r c.
Proof.
  intros H l r c. destruct e; cbn [mk_constraint] in H;
    try (apply bind_ok in H as (kl & _ & H); destruct kl; [|discriminate]; apply bind_ok in H as (ku & _ & H); destruct ku; [|discriminate];
         cbn [negb] in H; repeat match type of H with (if ?b then _ else _) = _ => destruct b; [discriminate|] end; injection H as <-; discriminate).
  destruct (_ || _)%bool; [discriminate|]. destruct c0; injection H as <-; discriminate.
Qed.
Lemma made_bounds n e lb ub ctx k : mk_constraint n e lb ub ctx = Ok k ->
  is_constant (c_lower k) = Ok true /\ is_constant (c_upper k) = Ok true /\ c_lower k <> Lit PInf /\ c_upper k <> Lit NInf.
Proof.
  intros H. destruct (match e with Cmp _ _ _ => true | _ => false end) eqn:E.
  - destruct e; try discriminate. cbn [mk_constraint] in H. destruct (_ || _)%bool; [discriminate|].
    destruct c; injection H as <-; repeat split; discriminate.
  - apply mk_constraint_bounds in H; [|now intros ? ? ? ->]. destruct H as (-> & H). exact H.
Qed.
Lemma replicate_constraint_iff k c k' : (forall l r x, changed (cc_expr c) (c_expr k) <> Cmp l r x) ->
  (replicate_constraint k c = Ok k' <->
   copied_constraint k c k' /\ is_constant (c_lower k') = Ok true /\ is_constant (c_upper k') = Ok true /\
   c_lower k' <> Lit PInf /\ c_upper k' <> Lit NInf).
Proof.
  intros NC. unfold replicate_constraint. rewrite (mk_constraint_bounds _ _ _ _ _ _ NC). split.
  - intros (-> & H). split; [repeat split; apply takes_changed|exact H].
  - intros ((N & E & L & U & C) & H). apply takes_eq in N, E, L, U, C. destruct k' as [n e lb ub ctx].
    cbn [c_name c_expr c_lower c_upper c_context] in *. subst. auto.
Qed.
Lemma replicate_constraint_named n e lb ub ctx k n' ctx' : mk_constraint n e lb ub ctx = Ok k ->
  replicate_constraint k {| cc_name := n'; cc_expr := None; cc_lower := None; cc_upper := None; cc_context := ctx' |} =
  Ok {| c_name := changed n' (c_name k); c_expr := c_expr k; c_lower := c_lower k; c_upper := c_upper k;
        c_context := changed ctx' (c_context k) |}.
Proof.
  intros H. apply replicate_constraint_iff.
  - exact (made_not_comparison _ _ _ _ _ _ H).
  - split; [repeat split; apply takes_changed|exact (made_bounds _ _ _ _ _ _ H)].
Qed.
Lemma replicate_constraint_same n e lb ub ctx k : mk_constraint n e lb ub ctx = Ok k ->
  replicate_constraint k same_constraint = Ok k.
Proof. intros H. destruct k. exact (replicate_constraint_named _ _ _ _ _ _ None None H). Qed.
Lemma replicate_comparison n l r x lb ub ctx k : mk_constraint n (Cmp l r x) lb ub ctx = Ok k ->
  forall n' ctx' l' r' x',
  replicate_constraint k {| cc_name := n'; cc_expr := Some (Cmp l' r' x'); cc_lower := None; cc_upper := None; cc_context := ctx' |}
    = Err ValueError.
Proof.
  intros H n' ctx' l' r' x'. cbn [mk_constraint] in H. destruct (_ || _)%bool; [discriminate|].
  destruct x; injection H as <-; reflexivity.
Qed.
Lemma replicate_comparison_reset k n' ctx' l' r' x' :
  replicate_constraint k {| cc_name := n'; cc_expr := Some (Cmp l' r' x'); cc_lower := Some minus_infinity;
                            cc_upper := Some plus_infinity; cc_context := ctx' |}
  = mk_constraint (changed n' (c_name k)) (Cmp l' r' x') minus_infinity plus_infinity (changed ctx' (c_context k)).
Proof. reflexivity. Qed.

(** ** models *)
Lemma check_model_id m m' : check_model m = Ok m' -> m' = m.
Proof.
  unfold check_model. intros H. apply bind_ok in H as (? & _ & H). apply bind_ok in H as (? & _ & H).
  apply bind_ok in H as (? & _ & H). now injection H.
Qed.
Lemma replicate_model_iff h o c o' : replicate_model h o c = Ok o' <->
  copied_model o c o' /\ check_model (contents h o') = Ok (contents h o').
Proof.
  unfold replicate_model. split.
  - intros H. apply bind_ok in H as (m & C & H). injection H as <-.
    split; [repeat split; apply takes_changed|]. pose proof (check_model_id _ _ C). congruence.
  - intros ((H1 & H2 & H3 & H4 & H5 & H6 & H7 & H8 & H9 & H10) & C). destruct o' as [a1 a2 a3 a4 a5 a6 a7 a8 a9 a10].
    cbn [o_id o_constraints o_binding_constraints o_inter_block_dyn o_parameters o_variables o_operational o_investment o_ports o_port_definitions] in *.
    apply takes_eq in H1, H2, H3, H4, H5, H6, H7, H8, H9, H10. subst. rewrite C. reflexivity.
Qed.

(** ** objects by name *)
Section Named.
  Context {N A : Type} (eqb : N -> N -> bool) (eqb_eq : forall a b, eqb a b = true <-> a = b) (name : A -> N).
  Lemma dict_of_snoc l a : dict_of eqb name (l ++ [a]) = dset eqb (name a) a (dict_of eqb name l).
  Proof. unfold dict_of. now rewrite fold_left_app. Qed.
  Lemma dict_of_nodup l : NoDup (map fst (dict_of eqb name l)).
  Proof.
    induction l as [|a l IH] using rev_ind; [constructor|]. rewrite dict_of_snoc. now apply (dset_nodup eqb eqb_eq).
  Qed.
  Lemma dict_of_kept l : kept_by_name name l (dict_of eqb name l).
  Proof.
    split; [apply dict_of_nodup|]. induction l as [|x l IH] using rev_ind; intros n a.
    - split; [intros []|]. intros (b & c & E & _). destruct b; discriminate.
    - rewrite dict_of_snoc. pose proof (dict_of_nodup l) as D.
      assert (D' : NoDup (map fst (dset eqb (name x) x (dict_of eqb name l)))) by now apply (dset_nodup eqb eqb_eq).
      destruct (eqb n (name x)) eqn:Q.
      + apply eqb_eq in Q. subst n. split.
        * intros H. apply (In_dget_nodup eqb eqb_eq _ _ _ D') in H. rewrite (dget_dset_same eqb eqb_eq) in H. injection H as <-.
          exists l, []. split; [reflexivity|]. split; [reflexivity|]. intros b [].
        * intros (b & c & E & Hn & H). destruct c as [|y c _] using rev_ind.
          -- apply app_inj_tail in E as [_ <-]. apply (dget_In eqb eqb_eq), (dget_dset_same eqb eqb_eq).
          -- rewrite app_comm_cons, app_assoc in E. apply app_inj_tail in E as [_ <-].
             destruct (H x); [apply in_app_iff; right; now left|reflexivity].
      + assert (K : n <> name x) by (intros ->; rewrite (proj2 (eqb_eq _ _) eq_refl) in Q; discriminate).
        transitivity (In (n, a) (dict_of eqb name l)).
        * split; intros H.
          -- apply (In_dget_nodup eqb eqb_eq _ _ _ D') in H. rewrite (dget_dset_other eqb eqb_eq) in H by exact K.
             now apply (dget_In eqb eqb_eq).
          -- apply (In_dget_nodup eqb eqb_eq _ _ _ D) in H. apply (dget_In eqb eqb_eq).
             now rewrite (dget_dset_other eqb eqb_eq) by exact K.
        * rewrite IH. split.
          -- intros (b & c & -> & Hn & H). exists b, (c ++ [x]). split; [now rewrite <- app_assoc|]. split; [exact Hn|].
             intros y Hy. apply in_app_iff in Hy as [Hy|[<-|[]]]; [now apply H|congruence].
          -- intros (b & c & E & Hn & H). destruct c as [|y c _] using rev_ind.
             ++ apply app_inj_tail in E as [_ ->]. congruence.
             ++ rewrite app_comm_cons, app_assoc in E. apply app_inj_tail in E as [-> _].
                exists b, c. split; [reflexivity|]. split; [exact Hn|]. intros y' Hy'. apply H, in_app_iff. now left.
  Qed.
End Named.

Lemma unique_ports_all seen l d : unique_ports seen l = Ok d -> d = seen ++ map (fun p => (mp_name p, p)) l.
Proof.
  revert seen. induction l as [|p l IH]; intros seen H; cbn [unique_ports] in H.
  - injection H as <-. now rewrite app_nil_r.
  - destruct (dmem _ _ _); [discriminate|]. apply IH in H. rewrite H, <- app_assoc. reflexivity.
Qed.
Lemma made_model_kept id cs bcs ps vs op inv dyn ports defs m : make_model id cs bcs ps vs op inv dyn ports defs = Ok m ->
  m_id m = id /\ m_operational m = op /\ m_investment m = inv /\ m_inter_block_dyn m = dyn /\
  kept_by_name c_name cs (m_constraints m) /\ kept_by_name c_name bcs (m_binding_constraints m) /\
  kept_by_name p_name ps (m_parameters m) /\ kept_by_name v_name vs (m_variables m) /\
  kept_by_name d_field defs (m_port_definitions m) /\ m_ports m = map (fun p => (mp_name p, p)) ports.
Proof.
  unfold make_model. intros H. apply bind_ok in H as (d & P & H). apply check_model_id in H. subst m.
  apply unique_ports_all in P. subst d. cbn [m_id m_operational m_investment m_inter_block_dyn m_constraints m_binding_constraints
    m_parameters m_variables m_port_definitions m_ports].
  repeat (split; [first [reflexivity|apply dict_of_kept; first [apply String.eqb_eq|apply pfi_eqb_eq]]|]). reflexivity.
Qed.
