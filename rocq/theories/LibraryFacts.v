(** Proofs about library resolution. *)
From Coq Require Import Lia Relations Permutation.
From Verif Require Import Base BaseFacts Expr ExprFacts Visitors SpecExpr SpecParse Parse ParseMeaning
  SpecModel Model ModelFacts System SystemFacts Library SpecLibrary.

Lemma mem_In x l : mem x l = true <-> In x l.
Proof.
  unfold mem. rewrite existsb_exists. split.
  - intros [y [H E]]. apply String.eqb_eq in E. now subst.
  - intros H. exists x. split; [exact H|apply String.eqb_refl].
Qed.
Lemma mem_not x l : mem x l = false <-> ~ In x l.
Proof. rewrite <- mem_In. destruct (mem x l); split; congruence. Qed.

Section Loop.
  Variable order : list string -> list string -> list string -> list string.
  Hypothesis Hord : any_order order.
  Variable yaml : dict string in_library.
  Hypothesis Hyaml : named_dict yl_id yaml.
  Variable pre : dict string port_type.
  Variable output0 : dict string library.
  Hypothesis Hout0 : NoDup (map fst output0).

  Definition dep (a b : string) : Prop :=
    exists l, dget String.eqb a yaml = Some l /\ In b (yl_dependencies l).
  Notation keys := (map fst yaml).

  Definition resolved (output : dict string library) (x : string) (l : library) : Prop :=
    exists lib done pts, dget String.eqb x yaml = Some lib /\
      Permutation done (nodup string_dec (yl_dependencies lib)) /\
      add_resolved output done pre = Ok pts /\ resolve_lib pts lib = Ok l.

  Record inv (remaining treated stack : list string) (output : dict string library) : Prop := {
    i_rem : incl remaining keys;
    i_trk : incl treated keys;
    i_trn : NoDup treated;
    i_stn : NoDup stack;
    i_dis : forall x, In x stack -> ~ In x treated;
    i_below : forall x, In x (tl stack) -> In x keys;
    i_single : forall x, stack = [x] -> In x keys;
    i_chain : forall before b a after, stack = before ++ b :: a :: after -> dep a b;
    i_cover : forall k, In k keys -> In k remaining \/ In k stack \/ In k treated;
    i_topo : forall later x earlier, treated = later ++ x :: earlier -> forall d, dep x d -> In d earlier;
    i_out : forall x, In x treated -> exists l, dget String.eqb x output = Some l /\ resolved output x l;
    i_base : forall k, ~ In k treated -> dget String.eqb k output = dget String.eqb k output0;
    i_nod : NoDup (map fst output)
  }.

  Lemma topo_in remaining treated stack output x d : inv remaining treated stack output ->
    In x treated -> dep x d -> In d treated.
  Proof.
    intros I H D. apply in_split in H. destruct H as [a [b ->]].
    apply in_or_app. right. right. eapply (i_topo _ _ _ _ I); eauto.
  Qed.

  Lemma add_resolved_ok output done : forall pts, (forall d, In d done -> exists l, dget String.eqb d output = Some l) ->
    exists pts', add_resolved output done pts = Ok pts'.
  Proof.
    unfold add_resolved. induction done as [|d done IH]; cbn; intros pts H; [eauto|].
    destruct (H d (or_introl eq_refl)) as [l ->]. cbn. apply IH. auto.
  Qed.
  Lemma add_resolved_ext output output' done : forall pts,
    (forall d, In d done -> dget String.eqb d output = dget String.eqb d output') ->
    add_resolved output done pts = add_resolved output' done pts.
  Proof.
    unfold add_resolved. induction done as [|d done IH]; cbn; intros pts H; [reflexivity|].
    rewrite (H d (or_introl eq_refl)). destruct (dget String.eqb d output'); cbn; [|reflexivity]. apply IH. auto.
  Qed.

  Lemma chain_reaches stack : (forall before b a after, stack = before ++ b :: a :: after -> dep a b) ->
    forall top below x, stack = top :: below -> In x below -> clos_trans string dep x top.
  Proof.
    induction stack as [|t st IH]; intros C top below x E H; [discriminate|].
    injection E as <- <-. destruct st as [|a st]; [destruct H|].
    assert (D : dep a t) by (apply (C [] t a st); reflexivity).
    destruct H as [<-|H]; [apply t_step; exact D|].
    apply t_trans with a; [|apply t_step; exact D].
    apply (IH (fun before b a' after E => C (t :: before) b a' after (f_equal (cons t) E)) a st x eq_refl H).
  Qed.

  Lemma resolve_lib_id pts lib l : resolve_lib pts lib = Ok l -> l_id l = yl_id lib.
  Proof.
    unfold resolve_lib. destruct (existsb _ _); [discriminate|]. destruct (existsb _ _); [discriminate|].
    intros H. inv_bind H. injection H as <-. reflexivity.
  Qed.

  Definition failure (k : err) : Prop :=
    (k = KeyError /\ exists a b, dep a b /\ ~ In b keys) \/
    (k = GenericException /\ exists a, clos_trans string dep a a) \/
    (exists remaining treated stack output x lib done pts, inv remaining treated stack output /\
       dget String.eqb x yaml = Some lib /\ incl (yl_dependencies lib) treated /\
       Permutation done (nodup string_dec (yl_dependencies lib)) /\
       add_resolved output done pre = Ok pts /\ resolve_lib pts lib = Err k).

  Definition left_out (treated : list string) : nat :=
    List.length (filter (fun k => negb (mem k treated)) keys).

  Lemma left_out_less treated x : In x keys -> ~ In x treated -> (left_out (x :: treated) + 1 = left_out treated)%nat.
  Proof.
    destruct Hyaml as [Hnd _]. unfold left_out. intros Hx Ht. revert Hx. generalize keys Hnd.
    induction l as [|k l IH]; cbn [In filter]; intros N Hx; [destruct Hx|]. inversion N as [|? ? Hk N']; subst.
    destruct Hx as [<-|Hx].
    - replace (mem k (k :: treated)) with true by (symmetry; apply mem_In; left; reflexivity).
      replace (mem k treated) with false by (symmetry; now apply mem_not). cbn [negb List.length].
      replace (filter (fun k0 => negb (mem k0 (k :: treated))) l) with (filter (fun k0 => negb (mem k0 treated)) l); [lia|].
      apply filter_ext_in. intros a Ha. f_equal. cbn. destruct (String.eqb_spec a k); [subst; contradiction|reflexivity].
    - specialize (IH N' Hx). cbn [mem existsb].
      destruct (String.eqb_spec k x) as [->|D]; [contradiction|]. cbn [orb]. fold (mem k treated).
      change (fun k0 : string => negb ((k0 =? x)%string || existsb (String.eqb k0) treated))
        with (fun k0 : string => negb (mem k0 (x :: treated))).
      destruct (negb (mem k treated)); cbn [List.length]; lia.
  Qed.

  Lemma stack_small remaining treated stack output : inv remaining treated stack output ->
    (List.length stack <= left_out treated + 1)%nat.
  Proof.
    intros I. destruct stack as [|top below]; cbn [List.length]; [lia|].
    enough (List.length below <= left_out treated)%nat by lia.
    apply NoDup_incl_length.
    - generalize (i_stn _ _ _ _ I). inversion 1; assumption.
    - intros x Hx. apply filter_In. split; [apply (i_below _ _ _ _ I); exact Hx|].
      apply negb_true_iff, mem_not. apply (i_dis _ _ _ _ I). right. exact Hx.
  Qed.

  Lemma loop_spec fuel : forall remaining treated stack output, inv remaining treated stack output ->
    (2 * left_out treated + List.length remaining + 1 < fuel + List.length stack)%nat ->
    match loop order yaml pre fuel remaining treated stack output with
    | Ok out => exists treated', inv [] treated' [] out
    | Err k => failure k
    end.
  Proof.
    induction fuel as [|fuel IH]; intros remaining treated stack output I F.
    { pose proof (stack_small _ _ _ _ I). lia. }
    cbn [loop]. destruct stack as [|top below].
    - destruct (rev remaining) as [|next r] eqn:Er.
      { apply (f_equal (@rev string)) in Er. rewrite rev_involutive in Er. cbn in Er. subst. eauto. }
      assert (E : remaining = rev r ++ [next]).
      { rewrite <- (rev_involutive remaining), Er. reflexivity. }
      subst remaining. clear Er. rewrite app_length in F. cbn [List.length] in F.
      assert (Hnext : In next keys) by (apply (i_rem _ _ _ _ I); apply in_or_app; right; left; reflexivity).
      destruct (mem next treated) eqn:M.
      + apply mem_In in M. apply IH; [|cbn [List.length]; lia]. destruct I. constructor; auto.
        * intros x Hx. apply i_rem0. apply in_or_app. auto.
        * intros k Hk. destruct (i_cover0 k Hk) as [H|H]; [|auto]. apply in_app_or in H.
          destruct H as [H|[<-|[]]]; auto.
      + apply mem_not in M. apply IH; [|cbn [List.length]; lia]. destruct I. constructor; auto.
        * intros x Hx. apply i_rem0. apply in_or_app. auto.
        * constructor; [intros []|constructor].
        * intros x [<-|[]]. exact M.
        * intros x E. injection E as <-. exact Hnext.
        * intros before b a after E. destruct before as [|? before]; [discriminate|]. destruct before; discriminate.
        * intros k Hk. destruct (i_cover0 k Hk) as [H|H]; [|destruct H as [[]|H]; auto]. apply in_app_or in H.
          destruct H as [H|[<-|[]]]; auto. right. left. left. reflexivity.
    - destruct (dget String.eqb top yaml) as [lib|] eqn:G.
      2:{ apply (dget_None String.eqb String.eqb_eq) in G. left. split; [reflexivity|].
          destruct below as [|a after].
          - exfalso. apply G. apply (i_single _ _ _ _ I). reflexivity.
          - exists a, top. split; [apply (i_chain _ _ _ _ I []) with after; reflexivity|exact G]. }
      assert (Htop : In top keys).
      { apply (dget_In String.eqb String.eqb_eq) in G. apply (in_map fst) in G. exact G. }
      assert (Hid : yl_id lib = top).
      { apply (dget_In String.eqb String.eqb_eq) in G. apply (proj2 Hyaml) in G. exact G. }
      cbv zeta.
      set (deps := nodup string_dec (yl_dependencies lib)).
      set (done := order treated (top :: below) (filter (fun d => mem d treated) deps)).
      assert (Hdone : forall d, In d done -> In d treated).
      { intros d Hd. apply (Permutation_in _ (Hord _ _ _)) in Hd. apply filter_In in Hd. now apply mem_In. }
      destruct (add_resolved_ok output done pre) as [pts Ep].
      { intros d Hd. apply Hdone in Hd. destruct (i_out _ _ _ _ I d Hd) as [l [E _]]. eauto. }
      rewrite Ep. cbn [bind].
      pose proof (Hord treated (top :: below) (filter (fun d => negb (mem d treated)) deps)) as Hrem.
      destruct (order treated (top :: below) (filter (fun d => negb (mem d treated)) deps)) as [|first others] eqn:Eo.
      + apply Permutation_nil in Hrem.
        assert (Hall : forall d, In d deps -> In d treated).
        { intros d Hd. destruct (mem d treated) eqn:M; [now apply mem_In|].
          assert (In d (filter (fun d => negb (mem d treated)) deps)) as X by (apply filter_In; rewrite M; auto).
          rewrite Hrem in X. destruct X. }
        assert (Hperm : Permutation done deps).
        { unfold done. rewrite (Hord treated (top :: below)). replace (filter (fun d => mem d treated) deps) with deps; [reflexivity|].
          clear -Hall. induction deps as [|d l IH]; cbn; [reflexivity|].
          replace (mem d treated) with true by (symmetry; apply mem_In; apply Hall; left; reflexivity).
          f_equal. apply IH. intros; apply Hall; right; assumption. }
        assert (Hincl : incl (yl_dependencies lib) treated).
        { intros d Hd. apply Hall. unfold deps. now apply nodup_In. }
        destruct (resolve_lib pts lib) as [l|k] eqn:El; cbn [bind].
        2:{ right. right. exists remaining, treated, (top :: below), output, top, lib, done, pts. auto 10. }
        assert (Hl : l_id l = top) by (rewrite (resolve_lib_id _ _ _ El); exact Hid). rewrite Hl.
        assert (Htr : ~ In top treated) by (apply (i_dis _ _ _ _ I); left; reflexivity).
        assert (Hsame : forall d, In d treated -> dget String.eqb d (dset String.eqb top l output) = dget String.eqb d output).
        { intros d Hd. apply (dget_dset_other String.eqb String.eqb_eq). intros ->. contradiction. }
        apply IH.
        * pose proof (topo_in remaining treated (top :: below) output) as Ht.
          pose proof I as I'. destruct I. constructor; auto.
          -- intros x [<-|Hx]; auto.
          -- constructor; auto.
          -- inversion i_stn0; auto.
          -- intros x Hx [<-|H']; [inversion i_stn0; auto|]. exact (i_dis0 x (or_intror Hx) H').
          -- intros x Hx. apply i_below0. cbn. destruct below; [destruct Hx|right; exact Hx].
          -- intros x ->. apply i_below0. left. reflexivity.
          -- intros before b a after E. apply (i_chain0 (top :: before) b a after). cbn. now f_equal.
          -- intros k Hk. destruct (i_cover0 k Hk) as [H|[[<-|H]|H]]; auto.
             right. right. left. reflexivity. right. right. right. exact H.
          -- intros later x earlier E d D. destruct later as [|y later].
             ++ cbn in E. injection E as <- <-. destruct D as [lib' [G' D]]. rewrite G in G'. injection G' as <-. auto.
             ++ cbn in E. injection E as <- E. eapply i_topo0; eauto.
          -- intros x [<-|Hx].
             ++ exists l. rewrite (dget_dset_same String.eqb String.eqb_eq). split; [reflexivity|].
                exists lib, done, pts. split; [exact G|]. split; [exact Hperm|]. split; [|exact El].
                rewrite <- Ep. apply add_resolved_ext. intros d Hd. apply Hsame. auto.
             ++ destruct (i_out0 x Hx) as [lx [Ex [lib' [done' [pts' [G' [P' [A' R']]]]]]]]. exists lx.
                rewrite (Hsame x Hx). split; [exact Ex|]. exists lib', done', pts'.
                split; [exact G'|]. split; [exact P'|]. split; [|exact R'].
                rewrite <- A'. apply add_resolved_ext. intros d Hd. apply Hsame.
                apply (Ht x d I' Hx). exists lib'. split; [exact G'|].
                apply (Permutation_in _ P') in Hd. now apply nodup_In in Hd.
          -- intros k Hk. rewrite (dget_dset_other String.eqb String.eqb_eq).
             ++ apply i_base0. intros H. apply Hk. right. exact H.
             ++ intros ->. apply Hk. left. reflexivity.
          -- apply (dset_nodup String.eqb String.eqb_eq). assumption.
        * pose proof (left_out_less treated top Htop Htr). cbn [List.length] in F. lia.
      + assert (Hf : In first deps /\ ~ In first treated).
        { assert (In first (filter (fun d => negb (mem d treated)) deps)) as X
            by (apply (Permutation_in _ Hrem); left; reflexivity).
          apply filter_In in X. rewrite negb_true_iff, mem_not in X. exact X. }
        destruct Hf as [Hf Hft]. unfold deps in Hf. apply nodup_In in Hf.
        assert (D : dep top first) by (exists lib; auto).
        destruct (mem first (top :: below)) eqn:M.
        * apply mem_In in M. right. left. split; [reflexivity|]. exists first.
          destruct M as [<-|M]; [apply t_step; exact D|].
          apply t_trans with top; [|apply t_step; exact D].
          apply (chain_reaches _ (i_chain _ _ _ _ I) top below first eq_refl M).
        * apply mem_not in M. apply IH; [|cbn [List.length] in F |- *; lia]. destruct I. constructor; auto.
          -- constructor; auto.
          -- intros x [<-|Hx]; auto.
          -- intros x Hx. cbn [tl] in Hx. destruct Hx as [<-|Hx]; [exact Htop|]. apply i_below0. exact Hx.
          -- intros x E. discriminate.
          -- intros before b a after E. destruct before as [|y before]; cbn in E.
             ++ injection E as <- <- <-. exact D.
             ++ injection E as _ E. eapply i_chain0; eauto.
          -- intros k Hk. destruct (i_cover0 k Hk) as [H|[H|H]]; auto. right. left. right. exact H.
  Qed.

  Lemma inv_start : inv keys [] [] output0.
  Proof.
    constructor; auto; try (intros ? []; fail); try constructor.
    - intros x Hx. exact Hx.
    - intros x. discriminate.
    - intros before b a after E. destruct before; discriminate.
    - intros later x earlier E. destruct later; discriminate.
  Qed.

  Lemma loop_result :
    match loop order yaml pre (3 * List.length yaml + 2) keys [] [] output0 with
    | Ok out => exists treated', inv [] treated' [] out
    | Err k => failure k
    end.
  Proof.
    apply loop_spec; [exact inv_start|]. cbn [List.length].
    assert (left_out [] <= List.length yaml)%nat; [|rewrite map_length; lia].
    unfold left_out. rewrite <- (map_length fst yaml). generalize keys. induction l; cbn; [lia|]. cbn in *. lia.
  Qed.
End Loop.

(** ** Dictionaries *)
Section Update.
  Context {K A : Type} (eqb : K -> K -> bool) (Heq : forall a b, eqb a b = true <-> a = b).
  Lemma update_from (d' : dict K A) : forall d k t, In (k, t) (update eqb d d') -> In (k, t) d' \/ In (k, t) d.
  Proof.
    unfold update. induction d' as [|[k0 t0] d' IH]; cbn; intros d k t H; [auto|].
    apply IH in H. destruct H as [H|H]; [auto|]. apply (dset_entries eqb Heq) in H.
    destruct H as [[-> ->]|H]; auto.
  Qed.
  Lemma update_has (d' : dict K A) : forall d k, In k (map fst d') \/ In k (map fst d) -> In k (map fst (update eqb d d')).
  Proof.
    unfold update. induction d' as [|[k0 t0] d' IH]; cbn; intros d k H; [tauto|].
    apply IH. rewrite (dset_keys eqb). destruct H as [[<-|H]|H]; auto.
    - right. destruct (dmem eqb k0 d) eqn:E; [now apply (dmem_In eqb Heq)|]. apply in_or_app. right. left. reflexivity.
    - right. destruct (dmem eqb k0 d); [exact H|apply in_or_app; auto].
  Qed.
  Lemma key_dget (d : dict K A) k : In k (map fst d) -> exists t, dget eqb k d = Some t.
  Proof.
    intros H. destruct (dget eqb k d) eqn:E; [eauto|]. apply (dget_None eqb Heq) in E. contradiction.
  Qed.
End Update.

Lemma preloaded_from preloaded k t :
  In (k, t) (fold_left (fun d l => update String.eqb d (l_port_types l)) preloaded []) ->
  exists p, In p preloaded /\ In (k, t) (l_port_types p).
Proof.
  assert (G : forall d, In (k, t) (fold_left (fun d l => update String.eqb d (l_port_types l)) preloaded d) ->
    (exists p, In p preloaded /\ In (k, t) (l_port_types p)) \/ In (k, t) d).
  { induction preloaded as [|p l IH]; cbn; intros d H; [auto|]. apply IH in H.
    destruct H as [[q [Hq H]]|H]; [left; eauto|]. apply (update_from String.eqb String.eqb_eq) in H.
    destruct H as [H|H]; [left; eauto|auto]. }
  intros H. apply G in H. destruct H as [H|[]]. exact H.
Qed.
Lemma preloaded_has preloaded p k t : In p preloaded -> In (k, t) (l_port_types p) ->
  In k (map fst (fold_left (fun d l => update String.eqb d (l_port_types l)) preloaded [])).
Proof.
  assert (G : forall d, (In p preloaded /\ In (k, t) (l_port_types p)) \/ In k (map fst d) ->
    In k (map fst (fold_left (fun d l => update String.eqb d (l_port_types l)) preloaded d))).
  { induction preloaded as [|q l IH]; cbn; intros d H; [tauto|]. apply IH.
    destruct H as [[[->|Hp] Hk]|H].
    - right. apply (update_has String.eqb String.eqb_eq). left. apply (in_map fst) in Hk. exact Hk.
    - left. auto.
    - right. apply (update_has String.eqb String.eqb_eq). auto. }
  intros. apply G. auto.
Qed.

Lemma add_resolved_from output done : forall pts pts' k t, add_resolved output done pts = Ok pts' -> In (k, t) pts' ->
  In (k, t) pts \/ exists d l, In d done /\ dget String.eqb d output = Some l /\ In (k, t) (l_port_types l).
Proof.
  unfold add_resolved. induction done as [|d done IH]; cbn; intros pts pts' k t H Hk; [injection H as <-; auto|].
  destruct (dget String.eqb d output) as [l|] eqn:E; cbn in H; [|discriminate].
  destruct (IH _ _ _ _ H Hk) as [X|[d' [l' [H1 [H2 H3]]]]].
  - apply (update_from String.eqb String.eqb_eq) in X. destruct X as [X|X]; [right; exists d, l; auto|auto].
  - right. exists d', l'. auto.
Qed.
Lemma add_resolved_has output done : forall pts pts' k, add_resolved output done pts = Ok pts' ->
  (In k (map fst pts) \/ exists d l, In d done /\ dget String.eqb d output = Some l /\ In k (map fst (l_port_types l))) ->
  In k (map fst pts').
Proof.
  unfold add_resolved. induction done as [|d done IH]; cbn; intros pts pts' k H Hk.
  - injection H as <-. destruct Hk as [Hk|[d [l [[] _]]]]. exact Hk.
  - destruct (dget String.eqb d output) as [l|] eqn:E; cbn in H; [|discriminate].
    apply (IH _ _ _ H). destruct Hk as [Hk|[d' [l' [[<-|H1] [H2 H3]]]]].
    + left. apply (update_has String.eqb String.eqb_eq). auto.
    + left. apply (update_has String.eqb String.eqb_eq). left. congruence.
    + right. exists d', l'. auto.
Qed.

(** ** One library *)

Lemma resolve_model_ext pts pts' m : same_types pts pts' -> resolve_model pts m = resolve_model pts' m.
Proof.
  intros H. unfold resolve_model. cbv zeta.
  replace (mapM (resolve_model_port pts) (ym_ports m)) with (mapM (resolve_model_port pts') (ym_ports m)); [reflexivity|].
  apply mapM_ext, Forall_forall. intros p _. unfold resolve_model_port. now rewrite (H (yo_type p)).
Qed.

Definition own_types (l : in_library) : dict string port_type :=
  dict_of String.eqb pt_id (map convert_port_type (yl_port_types l)).
Lemma resolve_lib_ok pts lib l : resolve_lib pts lib = Ok l ->
  l_id l = yl_id lib /\ l_port_types l = update String.eqb pts (own_types lib) /\
  (forall k, In k (map fst (own_types lib)) -> ~ In k (map fst pts)) /\
  NoDup (map ym_id (yl_models lib)) /\
  exists ms, mapM (resolve_model (l_port_types l)) (yl_models lib) = Ok ms /\ l_models l = dict_of String.eqb m_id ms.
Proof.
  unfold resolve_lib. fold (own_types lib). destruct (existsb _ (own_types lib)) eqn:E1; [discriminate|].
  cbv zeta. destruct (existsb _ (map ym_id _)) eqn:E2; [discriminate|]. intros H. inv_bind H. injection H as <-.
  cbn. split; [reflexivity|]. split; [reflexivity|]. split; [|split; [|eauto]].
  - intros k Hk Hp. apply in_map_iff in Hk. destruct Hk as [kv [<- Hk]].
    assert (existsb (fun kv => dmem String.eqb (fst kv) pts) (own_types lib) = true) as X; [|congruence].
    apply existsb_exists. exists kv. split; [exact Hk|]. now apply (dmem_In String.eqb String.eqb_eq).
  - apply (NoDup_count_occ string_dec). intros i.
    destruct (in_dec string_dec i (map ym_id (yl_models lib))) as [Hi|Hi].
    + destruct (Nat.ltb 1 (count_occ string_dec (map ym_id (yl_models lib)) i)) eqn:L.
      * assert (existsb (fun i => Nat.ltb 1 (count_occ string_dec (map ym_id (yl_models lib)) i)) (map ym_id (yl_models lib)) = true) as X; [|congruence].
        apply existsb_exists. eauto.
      * apply Nat.ltb_ge in L. exact L.
    + apply (count_occ_not_In string_dec) in Hi. rewrite Hi. lia.
Qed.
Lemma own_types_from lib k t : In (k, t) (own_types lib) ->
  exists y, In y (yl_port_types lib) /\ k = yt_id y /\ t = {| pt_id := yt_id y; pt_fields := yt_fields y |}.
Proof.
  unfold own_types. intros H.
  assert (N : named_dict pt_id (dict_of String.eqb pt_id (map convert_port_type (yl_port_types lib))))
    by (apply dict_of_named; apply String.eqb_eq).
  apply (In_dget_nodup String.eqb String.eqb_eq) in H; [|apply N].
  apply (dict_of_from String.eqb pt_id String.eqb_eq) in H. destruct H as [H E].
  apply in_map_iff in H. destruct H as [y [<- Hy]]. exists y. cbn in E. auto.
Qed.
Lemma own_types_has lib y : In y (yl_port_types lib) -> In (yt_id y) (map fst (own_types lib)).
Proof.
  intros H. unfold own_types.
  destruct (dict_of_has String.eqb pt_id String.eqb_eq (map convert_port_type (yl_port_types lib)) (yt_id y)) as [a E].
  - rewrite map_map. apply in_map_iff. exists y. auto.
  - apply (dget_In String.eqb String.eqb_eq) in E. apply (in_map fst) in E. exact E.
Qed.

Lemma existsb_ext' {A} (f g : A -> bool) l : (forall a, f a = g a) -> existsb f l = existsb g l.
Proof. intros H. induction l as [|a l IH]; cbn; [reflexivity|]. now rewrite H, IH. Qed.
Lemma update_same pts pts' d : same_types pts pts' -> same_types (update String.eqb pts d) (update String.eqb pts' d).
Proof.
  unfold update. revert pts pts'. induction d as [|[k t] d IH]; cbn; intros pts pts' H; [exact H|].
  apply IH. intros k0. destruct (string_dec k0 k) as [->|D].
  - now rewrite !(dget_dset_same String.eqb String.eqb_eq).
  - rewrite !(dget_dset_other String.eqb String.eqb_eq) by exact D. apply H.
Qed.
Lemma resolve_lib_ext pts pts' lib : same_types pts pts' ->
  match resolve_lib pts lib, resolve_lib pts' lib with
  | Ok l, Ok l' => l_models l = l_models l' /\ same_types (l_port_types l) (l_port_types l')
  | Err k, Err k' => k = k'
  | _, _ => False
  end.
Proof.
  intros H. unfold resolve_lib.
  rewrite (existsb_ext' (fun kv => dmem String.eqb (fst kv) pts) (fun kv => dmem String.eqb (fst kv) pts')).
  2:{ intros kv. unfold dmem. now rewrite (H (fst kv)). }
  destruct (existsb _ _); [reflexivity|]. cbv zeta. destruct (existsb _ _); [reflexivity|].
  set (a := update String.eqb pts _). set (a' := update String.eqb pts' _).
  assert (S : same_types a a') by (apply update_same; exact H).
  rewrite (mapM_ext (resolve_model a) (resolve_model a')); [|apply Forall_forall; intros; now apply resolve_model_ext].
  destruct (mapM _ _); cbn; auto.
Qed.

(** ** Whole sets of libraries *)
Section Libraries.
  Variable inputs : list in_library.
  Variable preloaded : list library.
  Hypothesis Hids : NoDup (map yl_id inputs).

  Definition yaml_of : dict string in_library := dict_of String.eqb yl_id inputs.
  Definition pre_of : dict string port_type :=
    fold_left (fun d l => update String.eqb d (l_port_types l)) preloaded [].
  Definition out_of : dict string library := dict_of String.eqb l_id preloaded.

  Lemma yaml_named : named_dict yl_id yaml_of.
  Proof. apply dict_of_named. apply String.eqb_eq. Qed.
  Lemma out_nodup : NoDup (map fst out_of).
  Proof. apply (dict_of_named String.eqb l_id String.eqb_eq). Qed.
  Lemma yaml_get a l : dget String.eqb a yaml_of = Some l <-> In l inputs /\ yl_id l = a.
  Proof.
    split; [apply dict_of_from; apply String.eqb_eq|]. intros [H <-].
    apply (In_dget_nodup String.eqb String.eqb_eq); [apply yaml_named|].
    unfold yaml_of. rewrite dict_of_distinct; [|apply String.eqb_eq|exact Hids].
    apply in_map_iff. exists l. auto.
  Qed.
  Lemma yaml_keys : map fst yaml_of = map yl_id inputs.
  Proof. unfold yaml_of. rewrite dict_of_distinct; [apply map_fst_key|apply String.eqb_eq|exact Hids]. Qed.
  Lemma dep_iff a b : dep yaml_of a b <-> depends inputs a b.
  Proof.
    unfold dep, depends. split.
    - intros [l [G H]]. apply yaml_get in G. destruct G. eauto.
    - intros [l [H1 [H2 H3]]]. exists l. split; [|exact H3]. now apply yaml_get.
  Qed.
  Lemma reaches_iff a b : clos_trans string (dep yaml_of) a b <-> reaches inputs a b.
  Proof.
    split; (induction 1; [apply t_step; now apply dep_iff|eapply t_trans; eassumption]).
  Qed.

  Section State.
    Variables (remaining treated stack : list string) (output : dict string library).
    Hypothesis I : inv yaml_of pre_of out_of remaining treated stack output.

    Lemma topo_reach later x earlier y : treated = later ++ x :: earlier ->
      clos_trans string (dep yaml_of) x y -> In y earlier.
    Proof.
      intros E H. apply clos_trans_t1n in H. revert later earlier E.
      induction H as [x y H|x y z H _ IH]; intros later earlier E.
      - eapply (i_topo _ _ _ _ _ _ _ I); eauto.
      - assert (Hy : In y earlier) by (eapply (i_topo _ _ _ _ _ _ _ I); eauto).
        apply in_split in Hy. destruct Hy as [l1 [l2 ->]].
        apply in_or_app. right. right. apply (IH (later ++ x :: l1) l2). rewrite E, <- app_assoc. reflexivity.
    Qed.
    Lemma treated_acyclic x : In x treated -> ~ clos_trans string (dep yaml_of) x x.
    Proof.
      intros H C. pose proof (i_trn _ _ _ _ _ _ _ I) as N. apply in_split in H. destruct H as [a [b E]].
      pose proof (topo_reach _ _ _ _ E C) as X. rewrite E in N. apply NoDup_remove_2 in N. apply N. apply in_or_app. auto.
    Qed.

    Lemma types_from : forall later earlier, treated = later ++ earlier -> forall x l k t, In x earlier ->
      dget String.eqb x output = Some l -> In (k, t) (l_port_types l) -> usable inputs preloaded x k t.
    Proof.
      intros later earlier. revert later. induction earlier as [|y earlier IH]; intros later E x l k t Hx G Hk; [destruct Hx|].
      destruct Hx as [<-|Hx].
      2:{ apply (IH (later ++ [y])) with l; auto. now rewrite <- app_assoc. }
      destruct (i_out _ _ _ _ _ _ _ I y) as [l' [G' [lib [done [pts [Gy [P [A R]]]]]]]].
      { rewrite E. apply in_or_app. right. left. reflexivity. }
      rewrite G in G'. injection G' as <-. destruct (resolve_lib_ok _ _ _ R) as [_ [T _]]. rewrite T in Hk.
      pose proof Gy as Gy'. apply yaml_get in Gy'. destruct Gy' as [Hin Hid].
      apply (update_from String.eqb String.eqb_eq) in Hk. destruct Hk as [Hk|Hk].
      - apply own_types_from in Hk. destruct Hk as [o [Ho [-> ->]]]. eapply u_own; eauto.
      - apply (add_resolved_from _ _ _ _ _ _ A) in Hk. destruct Hk as [Hk|[d [ld [Hd [Gd Hk]]]]].
        + apply preloaded_from in Hk. destruct Hk as [p [Hp Hk]]. eapply u_preloaded; eauto.
        + apply (Permutation_in _ P) in Hd. apply nodup_In in Hd.
          assert (D : dep yaml_of y d) by (exists lib; auto).
          eapply u_dependency; [apply dep_iff; exact D|].
          apply (IH (later ++ [y])) with ld; auto.
          * now rewrite <- app_assoc.
          * eapply (i_topo _ _ _ _ _ _ _ I); eauto.
    Qed.
    Lemma types_from' x l k t : In x treated ->
      dget String.eqb x output = Some l -> In (k, t) (l_port_types l) -> usable inputs preloaded x k t.
    Proof. apply (types_from [] treated). reflexivity. Qed.

    Lemma types_has x k t : usable inputs preloaded x k t -> In x treated ->
      exists l, dget String.eqb x output = Some l /\ In k (map fst (l_port_types l)).
    Proof.
      induction 1 as [x p k t Hp Hk|x lib t Hl Hid Ht|x b k t D _ IH]; intros Hx;
        destruct (i_out _ _ _ _ _ _ _ I x Hx) as [l [G [lib' [done [pts [Gy [P [A R]]]]]]]];
        exists l; (split; [exact G|]); destruct (resolve_lib_ok _ _ _ R) as [_ [-> _]];
        apply (update_has String.eqb String.eqb_eq).
      - right. apply (add_resolved_has _ _ _ _ _ A). left. eapply preloaded_has; eauto.
      - left. assert (lib' = lib) as ->.
        { assert (dget String.eqb x yaml_of = Some lib) by (now apply yaml_get). congruence. }
        now apply own_types_has.
      - right. apply (add_resolved_has _ _ _ _ _ A). right. apply dep_iff in D. destruct D as [lib [Gx Hb]].
        rewrite Gy in Gx. injection Gx as <-.
        assert (Hbt : In b treated).
        { apply (topo_in yaml_of pre_of out_of _ _ _ _ x b I Hx). exists lib'. auto. }
        destruct (IH Hbt) as [lb [Gb Hk]]. exists b, lb. split; [|auto].
        apply (Permutation_in _ (Permutation_sym P)). now apply nodup_In.
    Qed.

    (** the port types collected from the dependencies of [lib] *)
    Lemma collected_from x lib done pts k t : dget String.eqb x yaml_of = Some lib ->
      incl (yl_dependencies lib) treated -> Permutation done (nodup string_dec (yl_dependencies lib)) ->
      add_resolved output done pre_of = Ok pts -> In (k, t) pts ->
      (exists p, In p preloaded /\ In (k, t) (l_port_types p)) \/
      (exists d, In d (yl_dependencies lib) /\ usable inputs preloaded d k t).
    Proof.
      intros G Hd P A Hk. apply (add_resolved_from _ _ _ _ _ _ A) in Hk.
      destruct Hk as [Hk|[d [l [H1 [H2 H3]]]]]; [left; now apply preloaded_from|right].
      apply (Permutation_in _ P), nodup_In in H1. exists d. split; [exact H1|]. apply (types_from' d l); auto.
    Qed.
    Lemma collected_has x lib done pts k t : dget String.eqb x yaml_of = Some lib ->
      incl (yl_dependencies lib) treated -> Permutation done (nodup string_dec (yl_dependencies lib)) ->
      add_resolved output done pre_of = Ok pts ->
      (exists p, In p preloaded /\ In (k, t) (l_port_types p)) \/
      (exists d, In d (yl_dependencies lib) /\ usable inputs preloaded d k t) -> In k (map fst pts).
    Proof.
      intros G Hd P A H. apply (add_resolved_has _ _ _ _ _ A). destruct H as [[p [H1 H2]]|[d [H1 H2]]].
      - left. eapply preloaded_has; eauto.
      - right. destruct (types_has d k t H2 (Hd d H1)) as [l [G' H]]. exists d, l.
        split; [|auto]. apply (Permutation_in _ (Permutation_sym P)). now apply nodup_In.
    Qed.
    Lemma collected_usable x lib k t : dget String.eqb x yaml_of = Some lib ->
      (exists p, In p preloaded /\ In (k, t) (l_port_types p)) \/
      (exists d, In d (yl_dependencies lib) /\ usable inputs preloaded d k t) -> usable inputs preloaded x k t.
    Proof.
      intros G [[p [H1 H2]]|[d [H1 H2]]]; [eapply u_preloaded; eauto|].
      eapply u_dependency; [|exact H2]. apply dep_iff. exists lib. auto.
    Qed.
  End State.

  Section Run.
    Variable order : list string -> list string -> list string -> list string.
    Hypothesis Hord : any_order order.

    Lemma run_result : match resolve_library order inputs preloaded with
      | Ok out => exists treated, inv yaml_of pre_of out_of [] treated [] out
      | Err k => failure yaml_of pre_of out_of k
      end.
    Proof. unfold resolve_library. apply loop_result; [exact Hord|apply yaml_named|apply out_nodup]. Qed.

    Lemma run_done out : resolve_library order inputs preloaded = Ok out ->
      exists treated, inv yaml_of pre_of out_of [] treated [] out /\ Permutation treated (map yl_id inputs).
    Proof.
      intros H. pose proof run_result as R. rewrite H in R. destruct R as [tr I]. exists tr. split; [exact I|].
      rewrite <- yaml_keys. apply NoDup_Permutation; [apply I|apply yaml_named|].
      intros x. split; [apply (i_trk _ _ _ _ _ _ _ I)|]. intros Hx.
      destruct (i_cover _ _ _ _ _ _ _ I x Hx) as [[]|[[]|Hx']]. exact Hx'.
    Qed.
  End Run.
End Libraries.

(** ** No run goes on for ever *)
Definition tame {A} (r : result A) : Prop := r <> Err OutOfFuel.
Lemma tame_bind {A B} (r : result A) (f : A -> result B) : tame r -> (forall a, tame (f a)) -> tame (bind r f).
Proof. unfold tame. intros H1 H2. destruct r; cbn; [apply H2|congruence]. Qed.
Lemma tame_ok {A} (a : A) : tame (Ok a). Proof. discriminate. Qed.
Lemma tame_mapM {A B} (f : A -> result B) l : Forall (fun a => tame (f a)) l -> tame (mapM f l).
Proof.
  induction 1; cbn; [apply tame_ok|]. apply tame_bind; [assumption|]. intros. apply tame_bind; [assumption|]. intros. apply tame_ok.
Qed.
Lemma tame_degree e : tame (compute_degree e).
Proof.
  induction e using expr_ind'; cbn; auto using tame_ok;
    try (apply tame_bind; [assumption|intros; apply tame_bind; [assumption|intros; apply tame_ok]]; fail).
  - apply tame_bind; [now apply tame_mapM|]. intros l0. destruct l0; [discriminate|apply tame_ok].
  - apply tame_bind; [assumption|]. intros y. destruct (Nat.eqb y 0); [assumption|discriminate].
  - apply tame_bind; [destruct o; discriminate|]. intros. apply tame_bind; [assumption|intros; apply tame_ok].
Qed.
Lemma tame_indexation ps vs e : tame (compute_indexation (model_structure_provider ps vs) e).
Proof.
  induction e using expr_ind'; cbn; auto using tame_ok; try discriminate;
    try (apply tame_bind; [assumption|intros; apply tame_ok]; fail);
    try (apply tame_bind; [assumption|]; intros r; destruct (is_time_scenario_varying r); [apply tame_ok|];
         apply tame_bind; [assumption|intros; apply tame_ok]; fail);
    try (unfold dict_structure; destruct (dget _ _ _); discriminate).
  destruct l as [|o l]; cbn; [apply tame_ok|]. inversion H as [|? ? H1 H2]; subst.
  apply tame_bind; [assumption|]. intros r. destruct (is_time_scenario_varying r); [apply tame_ok|].
  clear H H1. revert r. induction H2 as [|a l Ha _ IH]; cbn; intros r; [apply tame_ok|].
  apply tame_bind; [assumption|]. intros r'. destruct (is_time_scenario_varying _); [apply tame_ok|apply IH].
Qed.
Lemma tame_constant e : tame (is_constant e).
Proof. apply tame_bind; [apply tame_degree|intros; apply tame_ok]. Qed.
Lemma tame_port_expression e : tame (check_port_expression e).
Proof.
  induction e using expr_ind'; cbn; auto using tame_ok; try discriminate;
    apply tame_bind; auto using tame_mapM, tame_ok.
Qed.
Lemma tame_parse text ids : tame (parse_expression text ids).
Proof. intros H. apply parse_expression_fails in H. discriminate. Qed.
Lemma tame_optional text ids : tame (to_expression_if_present text ids).
Proof.
  destruct text as [[|c s]|]; cbn; try apply tame_ok.
  apply tame_bind; [apply tame_parse|]. intros []; discriminate.
Qed.
Lemma tame_variable ids v : tame (to_variable ids v).
Proof.
  unfold to_variable. apply tame_bind.
  { unfold to_value_type. destruct (String.eqb _ _); [discriminate|]. destruct (String.eqb _ _); discriminate. }
  intros ty. apply tame_bind; [apply tame_optional|]. intros lb. apply tame_bind; [apply tame_optional|]. intros ub.
  assert (C : forall b, tame (check_variable_bound b)).
  { intros [e|]; [|apply tame_ok]. cbn. apply tame_bind; [apply tame_constant|]. intros []; discriminate. }
  unfold mk_variable. apply tame_bind; [apply C|]. intros _. apply tame_bind; [apply C|]. intros _. apply tame_ok.
Qed.
Lemma tame_constraint ids c : tame (to_constraint ids c).
Proof.
  unfold to_constraint. apply tame_bind; [apply tame_optional|]. intros lb.
  apply tame_bind; [apply tame_optional|]. intros ub. apply tame_bind; [apply tame_parse|]. intros v.
  apply tame_bind; [destruct v; discriminate|]. intros e. generalize (match lb with Some e => e | None => Lit NInf end).
  generalize (match ub with Some e => e | None => Lit PInf end). intros u l. unfold mk_constraint.
  destruct e; try (apply tame_bind; [apply tame_constant|]; intros []; cbn [negb]; [|discriminate];
    apply tame_bind; [apply tame_constant|]; intros []; cbn [negb]; [|discriminate];
    destruct (is_unbounded l && is_non_negative l); [discriminate|];
    destruct (is_unbounded u && negb (is_non_negative u)); discriminate).
  destruct (negb _ || negb _); [discriminate|]. destruct c0; discriminate.
Qed.
Lemma tame_model pts m : tame (resolve_model pts m).
Proof.
  unfold resolve_model. cbv zeta.
  apply tame_bind; [apply tame_mapM, Forall_forall; intros; apply tame_variable|intros a].
  apply tame_bind; [|intros a0].
  { apply tame_mapM, Forall_forall. intros p _. unfold resolve_model_port. destruct (dget _ _ _); discriminate. }
  apply tame_bind; [|intros a1].
  { apply tame_mapM, Forall_forall. intros d _. unfold resolve_field_definition.
    apply tame_bind; [apply tame_parse|]. intros []; cbn; try discriminate.
    apply tame_bind; [apply tame_port_expression|]. intros; apply tame_ok. }
  apply tame_bind; [apply tame_mapM, Forall_forall; intros; apply tame_constraint|intros a2].
  apply tame_bind; [apply tame_mapM, Forall_forall; intros; apply tame_constraint|intros a3].
  apply tame_bind; [apply tame_optional|intros a4].
  - unfold make_model. apply tame_bind.
    + generalize (@nil (string * model_port)). induction a0 as [|p l IH]; cbn; intros seen; [apply tame_ok|].
      destruct (dmem _ _ _); [discriminate|apply IH].
    + intros ps. unfold check_model. cbn [m_parameters m_variables m_operational m_investment].
      assert (C : forall o, tame (check_objective (dict_of String.eqb p_name (map to_parameter (ym_parameters m)))
        (dict_of String.eqb v_name a) o)).
      { intros [e|]; [|apply tame_ok]. unfold check_objective. apply tame_bind.
        - apply tame_bind; [apply tame_degree|intros; apply tame_ok].
        - intros []; cbn [negb]; [|discriminate]. apply tame_bind; [apply tame_indexation|].
          intros ix. destruct (ix_time ix || ix_scenario ix); discriminate. }
      apply tame_bind; [apply C|]. intros _. apply tame_bind; [apply C|]. intros _. apply tame_bind; [|intros; apply tame_ok].
      apply tame_mapM, Forall_forall. intros kd _. unfold check_definition. destruct (dget _ _ _); [|discriminate].
      destruct (existsb _ _); discriminate.
Qed.
Lemma tame_lib pts lib : tame (resolve_lib pts lib).
Proof.
  unfold resolve_lib. destruct (existsb _ _); [discriminate|]. cbv zeta. destruct (existsb _ _); [discriminate|].
  apply tame_bind; [|intros; apply tame_ok]. apply tame_mapM, Forall_forall. intros; apply tame_model.
Qed.

Lemma resolve_terminates order inputs preloaded : any_order order ->
  resolve_library order inputs preloaded <> Err OutOfFuel.
Proof.
  intros Ho H. pose proof (run_result inputs preloaded order Ho) as R. rewrite H in R.
  destruct R as [[R _]|[[R _]|(a & b & c & d & e & lib & f & pts & _ & _ & _ & _ & _ & R)]]; try discriminate.
  exact (tame_lib _ _ R).
Qed.

(** ** What is returned *)
Section Returned.
  Variable inputs : list in_library.
  Variable preloaded : list library.
  Variable order : list string -> list string -> list string -> list string.
  Hypothesis Hord : any_order order.
  Hypothesis Hids : NoDup (map yl_id inputs).
  Variable out : dict string library.
  Hypothesis Hout : resolve_library order inputs preloaded = Ok out.

  Lemma returned_keys : NoDup (map fst out) /\
    forall k, In k (map fst out) <-> In k (map yl_id inputs) \/ In k (map l_id preloaded).
  Proof.
    destruct (run_done inputs preloaded Hids order Hord out Hout) as [tr [I P]].
    split; [apply I|]. intros k. destruct (in_dec string_dec k tr) as [H|H].
    - split; [intros _; left; now apply (Permutation_in _ P)|]. intros _.
      destruct (i_out _ _ _ _ _ _ _ I k H) as [l [G _]]. apply (dget_In String.eqb String.eqb_eq) in G.
      apply (in_map fst) in G. exact G.
    - assert (E : In k (map fst out) <-> In k (map fst (out_of preloaded))).
      { pose proof (i_base _ _ _ _ _ _ _ I k H) as B. split; intros X.
        - apply (key_dget String.eqb String.eqb_eq) in X. destruct X as [t X]. rewrite B in X.
          apply (dget_In String.eqb String.eqb_eq) in X. apply (in_map fst) in X. exact X.
        - apply (key_dget String.eqb String.eqb_eq) in X. destruct X as [t X]. rewrite <- B in X.
          apply (dget_In String.eqb String.eqb_eq) in X. apply (in_map fst) in X. exact X. }
      rewrite E. split.
      + intros X. right. apply (key_dget String.eqb String.eqb_eq) in X. destruct X as [l X].
        apply (dict_of_from String.eqb l_id String.eqb_eq) in X. destruct X as [X <-]. now apply in_map.
      + intros [X|X].
        * exfalso. apply H. now apply (Permutation_in _ (Permutation_sym P)).
        * apply (dict_of_has String.eqb l_id String.eqb_eq) in X. destruct X as [l X].
          apply (dget_In String.eqb String.eqb_eq) in X. apply (in_map fst) in X. exact X.
  Qed.

  Lemma returned_preloaded k : ~ In k (map yl_id inputs) -> dget String.eqb k out = dget String.eqb k (dict_of String.eqb l_id preloaded).
  Proof.
    intros H. destruct (run_done inputs preloaded Hids order Hord out Hout) as [tr [I P]].
    apply (i_base _ _ _ _ _ _ _ I). intros X. apply H. now apply (Permutation_in _ P).
  Qed.

  Lemma returned_library y : In y inputs -> exists l, dget String.eqb (yl_id y) out = Some l /\
    l_id l = yl_id y /\
    (forall k t, dget String.eqb k (l_port_types l) = Some t -> usable inputs preloaded (yl_id y) k t) /\
    (forall k t, usable inputs preloaded (yl_id y) k t -> exists t', dget String.eqb k (l_port_types l) = Some t') /\
    NoDup (map ym_id (yl_models y)) /\
    exists ms, mapM (resolve_model (l_port_types l)) (yl_models y) = Ok ms /\ l_models l = dict_of String.eqb m_id ms.
  Proof.
    intros Hy. destruct (run_done inputs preloaded Hids order Hord out Hout) as [tr [I P]].
    assert (Ht : In (yl_id y) tr) by (apply (Permutation_in _ (Permutation_sym P)); now apply in_map).
    destruct (i_out _ _ _ _ _ _ _ I _ Ht) as [l [G [lib [done [pts [Gy [Pd [A R]]]]]]]]. exists l.
    assert (lib = y) as ->.
    { assert (X : dget String.eqb (yl_id y) (yaml_of inputs) = Some y) by (now apply yaml_get). congruence. }
    destruct (resolve_lib_ok _ _ _ R) as [E1 [E2 [E3 [E4 E5]]]].
    split; [exact G|]. split; [exact E1|]. split; [|split; [|auto]].
    - intros k t Hk. apply (types_from' inputs preloaded Hids _ _ _ _ I _ l); auto.
      now apply (dget_In String.eqb String.eqb_eq).
    - intros k t Hk. destruct (types_has inputs preloaded Hids _ _ _ _ I _ _ _ Hk Ht) as [l' [G' X]].
      rewrite G in G'. injection G' as <-. now apply (key_dget String.eqb String.eqb_eq).
  Qed.

  Lemma returned_order : exists sequence, Permutation sequence (map yl_id inputs) /\
    forall before x after, sequence = before ++ x :: after -> forall d, depends inputs x d -> In d before.
  Proof.
    destruct (run_done inputs preloaded Hids order Hord out Hout) as [tr [I P]]. exists (rev tr).
    split; [rewrite <- Permutation_rev; exact P|]. intros before x after E d D.
    apply (f_equal (@rev string)) in E. rewrite rev_involutive, rev_app_distr in E. cbn in E. rewrite <- app_assoc in E.
    cbn in E. apply in_rev. eapply (i_topo _ _ _ _ _ _ _ I); [exact E|]. now apply dep_iff.
  Qed.
  Lemma returned_complete : complete inputs.
  Proof.
    intros a b D. destruct (run_done inputs preloaded Hids order Hord out Hout) as [tr [I P]].
    apply (Permutation_in _ P). apply (topo_in _ _ _ _ _ _ _ a b I).
    - apply (Permutation_in _ (Permutation_sym P)). destruct D as [l [H [<- _]]]. now apply in_map.
    - now apply dep_iff.
  Qed.
  Lemma returned_acyclic : acyclic inputs.
  Proof.
    intros a C. destruct (run_done inputs preloaded Hids order Hord out Hout) as [tr [I P]].
    apply (treated_acyclic inputs preloaded _ _ _ _ I a); [|now apply reaches_iff].
    apply (Permutation_in _ (Permutation_sym P)). apply clos_trans_t1n in C.
    assert (D : exists d, depends inputs a d) by (inversion C; subst; eauto).
    destruct D as [d [l [H [<- _]]]]. now apply in_map.
  Qed.
End Returned.

Lemma result_err {A} (r : result A) : (forall a, r <> Ok a) -> exists k, r = Err k.
Proof. destruct r as [a|k]; intros H; [exfalso; now apply (H a)|eauto]. Qed.
Lemma cycle_raises order inputs preloaded a : any_order order -> NoDup (map yl_id inputs) ->
  reaches inputs a a -> exists k, resolve_library order inputs preloaded = Err k.
Proof.
  intros Ho Hn C. apply result_err. intros out H.
  exact (returned_acyclic inputs preloaded order Ho Hn out H a C).
Qed.
Lemma missing_raises order inputs preloaded a b : any_order order -> NoDup (map yl_id inputs) ->
  depends inputs a b -> ~ In b (map yl_id inputs) -> exists k, resolve_library order inputs preloaded = Err k.
Proof.
  intros Ho Hn D M. apply result_err. intros out H.
  exact (M (returned_complete inputs preloaded order Ho Hn out H a b D)).
Qed.

Lemma failures order inputs preloaded k : any_order order -> NoDup (map yl_id inputs) ->
  resolve_library order inputs preloaded = Err k ->
  (k = KeyError /\ ~ complete inputs) \/ (k = GenericException /\ ~ acyclic inputs) \/
  exists y pts, In y inputs /\ resolve_lib pts y = Err k /\
    (forall k t, In (k, t) pts -> collected inputs preloaded y k t) /\
    (forall k t, collected inputs preloaded y k t -> In k (map fst pts)).
Proof.
  intros Ho Hn H. pose proof (run_result inputs preloaded order Ho) as R. rewrite H in R.
  destruct R as [[-> [a [b [D M]]]]|[[-> [a C]]|(rem & tr & st & o & x & lib & done & pts & I & G & Hd & P & A & R)]].
  - left. split; [reflexivity|]. intros Hc. apply M. rewrite (yaml_keys inputs Hn). apply (Hc a). now apply dep_iff.
  - right. left. split; [reflexivity|]. intros Hc. apply (Hc a). now apply reaches_iff.
  - right. right. exists lib, pts. split; [|split; [exact R|]].
    + apply yaml_get in G; [|exact Hn]. apply G.
    + split.
      * intros k0 t Hk. exact (collected_from inputs preloaded Hn _ _ _ _ I x lib done pts k0 t G Hd P A Hk).
      * intros k0 t Hk. exact (collected_has inputs preloaded Hn _ _ _ _ I x lib done pts k0 t G Hd P A Hk).
Qed.

(** ** Any order gives the same *)
Lemma same_types_of inputs preloaded x (d d' : dict string port_type) :
  no_clash inputs preloaded ->
  (forall k t, dget String.eqb k d = Some t -> usable inputs preloaded x k t) ->
  (forall k t, dget String.eqb k d' = Some t -> usable inputs preloaded x k t) ->
  (forall k, In k (map fst d) <-> In k (map fst d')) -> same_types d d'.
Proof.
  intros N H H' K k. destruct (dget String.eqb k d) as [t|] eqn:E.
  - assert (X : In k (map fst d')).
    { apply K. apply (dget_In String.eqb String.eqb_eq) in E. apply (in_map fst) in E. exact E. }
    apply (key_dget String.eqb String.eqb_eq) in X. destruct X as [t' X]. rewrite X. f_equal.
    eapply N; [apply H; exact E|apply H'; exact X].
  - symmetry. apply (dget_None String.eqb String.eqb_eq). apply (dget_None String.eqb String.eqb_eq) in E.
    intros X. apply E. now apply K.
Qed.

Lemma order_irrelevant order order' inputs preloaded out :
  any_order order -> any_order order' -> NoDup (map yl_id inputs) -> no_clash inputs preloaded ->
  resolve_library order inputs preloaded = Ok out ->
  exists out', resolve_library order' inputs preloaded = Ok out' /\
    forall y, In y inputs -> exists l l', dget String.eqb (yl_id y) out = Some l /\ dget String.eqb (yl_id y) out' = Some l' /\
      l_models l = l_models l' /\ same_types (l_port_types l) (l_port_types l').
Proof.
  intros Ho Ho' Hn N H.
  assert (S : exists out', resolve_library order' inputs preloaded = Ok out').
  { destruct (resolve_library order' inputs preloaded) as [out'|k] eqn:H'; [eauto|exfalso].
    destruct (failures order' inputs preloaded k Ho' Hn H') as [[_ C]|[[_ C]|[y [pts [Hy [R [F1 F2]]]]]]].
    - exact (C (returned_complete inputs preloaded order Ho Hn out H)).
    - exact (C (returned_acyclic inputs preloaded order Ho Hn out H)).
    - destruct (run_done inputs preloaded Hn order Ho out H) as [tr [I P]].
      assert (Ht : In (yl_id y) tr) by (apply (Permutation_in _ (Permutation_sym P)); now apply in_map).
      assert (Gy : dget String.eqb (yl_id y) (yaml_of inputs) = Some y) by (now apply yaml_get).
      destruct (i_out _ _ _ _ _ _ _ I _ Ht) as [l [G [lib [done [pts' [Gy' [Pd [A R']]]]]]]].
      assert (lib = y) as -> by congruence.
      assert (Hd : incl (yl_dependencies y) tr).
      { intros d Hd. apply (topo_in _ _ _ _ _ _ _ (yl_id y) d I Ht). exists y. auto. }
      assert (X : same_types pts pts').
      { apply (same_types_of inputs preloaded (yl_id y)); [exact N| | |].
        - intros k0 t Hk. apply (collected_usable inputs preloaded Hn (yl_id y) y _ _ Gy). apply F1.
          now apply (dget_In String.eqb String.eqb_eq).
        - intros k0 t Hk. apply (collected_usable inputs preloaded Hn (yl_id y) y _ _ Gy).
          apply (collected_from inputs preloaded Hn _ _ _ _ I (yl_id y) y done pts' k0 t Gy Hd Pd A).
          now apply (dget_In String.eqb String.eqb_eq).
        - intros k0. split; intros Hk.
          + apply (key_dget String.eqb String.eqb_eq) in Hk. destruct Hk as [t Hk]. apply (dget_In String.eqb String.eqb_eq) in Hk.
            apply (collected_has inputs preloaded Hn _ _ _ _ I (yl_id y) y done pts' k0 t Gy Hd Pd A). now apply F1.
          + apply (key_dget String.eqb String.eqb_eq) in Hk. destruct Hk as [t Hk]. apply (dget_In String.eqb String.eqb_eq) in Hk.
            apply (F2 k0 t). exact (collected_from inputs preloaded Hn _ _ _ _ I (yl_id y) y done pts' k0 t Gy Hd Pd A Hk). }
      pose proof (resolve_lib_ext _ _ y X) as Y. rewrite R, R' in Y. exact Y. }
  destruct S as [out' H']. exists out'. split; [exact H'|]. intros y Hy.
  destruct (returned_library inputs preloaded order Ho Hn out H y Hy) as [l [G [_ [T1 [T2 [_ [ms [M1 M2]]]]]]]].
  destruct (returned_library inputs preloaded order' Ho' Hn out' H' y Hy) as [l' [G' [_ [T1' [T2' [_ [ms' [M1' M2']]]]]]]].
  exists l, l'. split; [exact G|]. split; [exact G'|].
  assert (X : same_types (l_port_types l) (l_port_types l')).
  { apply (same_types_of inputs preloaded (yl_id y) _ _ N T1 T1'). intros k.
    split; intros Hk; apply (key_dget String.eqb String.eqb_eq) in Hk; destruct Hk as [t Hk].
    - apply T1 in Hk. apply T2' in Hk. destruct Hk as [t' Hk]. apply (dget_In String.eqb String.eqb_eq) in Hk.
      apply (in_map fst) in Hk. exact Hk.
    - apply T1' in Hk. apply T2 in Hk. destruct Hk as [t' Hk]. apply (dget_In String.eqb String.eqb_eq) in Hk.
      apply (in_map fst) in Hk. exact Hk. }
  split; [|exact X]. rewrite M2, M2'.
  rewrite (mapM_ext (resolve_model (l_port_types l)) (resolve_model (l_port_types l'))) in M1; [congruence|].
  apply Forall_forall. intros m _. now apply resolve_model_ext.
Qed.

(** ** Models *)
Lemma optional_means ids text x : to_expression_if_present text ids = Ok x -> means_text ids text x.
Proof.
  destruct text as [[|c s]|]; cbn; intros H; try congruence.
  intros e [H1 [H2 [H3 H4]]]. destruct (parse_expression_meaning (String c s) e ids H1 H2 H3 H4) as [x' [P M]].
  rewrite P in H. cbn in H. injection H as <-. eauto.
Qed.
Lemma optional_texts ids text x w : to_expression_if_present text ids = Ok x -> In w (given_text text) ->
  exists v, parse_expression w ids = Ok v.
Proof.
  destruct text as [[|c s]|]; cbn; intros H Hw; try destruct Hw as [<-|[]]; try destruct Hw.
  destruct (parse_expression (String c s) ids) eqn:E; [eauto|discriminate].
Qed.

Record model_parts (pts : dict string port_type) (m : in_model) (M : model) : Prop := {
  mo_id : m_id M = ym_id m;
  mo_parameters : m_parameters M = dict_of String.eqb p_name (map to_parameter (ym_parameters m));
  mo_variables : exists vs, Forall2 (fun y v => to_variable (model_identifiers m) y = Ok v) (ym_variables m) vs /\
    m_variables M = dict_of String.eqb v_name vs;
  mo_ports : exists ps, Forall2 (fun y p => resolve_model_port pts y = Ok p) (ym_ports m) ps /\
    m_ports M = map (fun p => (mp_name p, p)) ps /\ NoDup (map mp_name ps);
  mo_definitions : exists ds, Forall2 (fun y d => resolve_field_definition (model_identifiers m) y = Ok d) (ym_definitions m) ds /\
    m_port_definitions M = dict_of pfi_eqb d_field ds;
  mo_binding : exists cs, Forall2 (fun y c => to_constraint (model_identifiers m) y = Ok c) (ym_binding_constraints m) cs /\
    m_binding_constraints M = dict_of String.eqb c_name cs;
  mo_constraints : exists cs, Forall2 (fun y c => to_constraint (model_identifiers m) y = Ok c) (ym_constraints m) cs /\
    m_constraints M = dict_of String.eqb c_name cs;
  mo_objective : to_expression_if_present (ym_objective m) (model_identifiers m) = Ok (m_operational M);
  mo_investment : m_investment M = None
}.
Lemma resolve_model_parts pts m M : resolve_model pts m = Ok M -> model_parts pts m M.
Proof.
  unfold resolve_model. cbv zeta. intros H.
  apply bind_ok in H. destruct H as [vs [Hv H]]. apply bind_ok in H. destruct H as [ps [Hp H]].
  apply bind_ok in H. destruct H as [ds [Hd H]]. apply bind_ok in H. destruct H as [bs [Hb H]].
  apply bind_ok in H. destruct H as [cs [Hc H]]. apply bind_ok in H. destruct H as [o [Ho H]].
  unfold make_model in H. apply bind_ok in H. destruct H as [pd [Hu H]].
  unfold check_model in H. apply bind_ok in H. destruct H as [? [_ H]]. apply bind_ok in H. destruct H as [? [_ H]].
  apply bind_ok in H. destruct H as [? [_ H]]. injection H as <-.
  apply mapM_ok in Hv, Hp, Hd, Hb, Hc.
  pose proof (unique_ports_spec ps []) as [U1 U2]. destruct (U2 _ Hu) as [N _].
  rewrite U1 in Hu by (split; [exact N|intros p _ []]). injection Hu as <-.
  constructor; cbn; eauto.
Qed.

Lemma well_written_in pts m M w : resolve_model pts m = Ok M -> In w (model_texts m) ->
  exists v, parse_expression w (model_identifiers m) = Ok v.
Proof.
  intros H Hw. apply resolve_model_parts in H. destruct H as [_ _ [vs [Hv _]] _ [ds [Hd _]] [bs [Hb _]] [cs [Hc _]] Ho _].
  unfold model_texts in Hw. rewrite !in_app_iff in Hw.
  assert (C : forall ys cs, Forall2 (fun y c => to_constraint (model_identifiers m) y = Ok c) ys cs ->
    In w (flat_map constraint_texts ys) -> exists v, parse_expression w (model_identifiers m) = Ok v).
  { intros ys ks F X. apply in_flat_map in X. destruct X as [y [Hy X]].
    destruct (Forall2_In_l _ _ _ _ F Hy) as [c [_ E]]. unfold to_constraint in E.
    apply bind_ok in E. destruct E as [lb [E1 E]]. apply bind_ok in E. destruct E as [ub [E2 E]].
    apply bind_ok in E. destruct E as [v [E3 E]].
    unfold constraint_texts in X. cbn in X. rewrite in_app_iff in X.
    destruct X as [<-|[X|X]]; [eauto|exact (optional_texts _ _ _ _ E1 X)|exact (optional_texts _ _ _ _ E2 X)]. }
  destruct Hw as [X|[X|[X|[X|X]]]]; eauto.
  - apply in_flat_map in X. destruct X as [y [Hy X]]. destruct (Forall2_In_l _ _ _ _ Hv Hy) as [v [_ E]].
    unfold to_variable in E. apply bind_ok in E. destruct E as [ty [_ E]]. apply bind_ok in E. destruct E as [lb [E1 E]].
    apply bind_ok in E. destruct E as [ub [E2 _]]. unfold variable_texts in X. rewrite in_app_iff in X.
    destruct X as [X|X]; [exact (optional_texts _ _ _ _ E1 X)|exact (optional_texts _ _ _ _ E2 X)].
  - apply in_map_iff in X. destruct X as [y [<- Hy]]. destruct (Forall2_In_l _ _ _ _ Hd Hy) as [d [_ E]].
    unfold resolve_field_definition in E. apply bind_ok in E. destruct E as [v [E _]]. eauto.
  - eapply optional_texts; eauto.
Qed.

Section Named.
  Context {K Y A : Type} (eqb : K -> K -> bool) (Heq : forall a b, eqb a b = true <-> a = b).
  Variables (f : Y -> result A) (kid : Y -> K) (key : A -> K).
  Hypothesis Hkey : forall y a, f y = Ok a -> key a = kid y.
  Lemma loaded_dict ys l : Forall2 (fun y a => f y = Ok a) ys l -> NoDup (map kid ys) ->
    map fst (dict_of eqb key l) = map kid ys /\
    forall y, In y ys -> exists a, f y = Ok a /\ dget eqb (kid y) (dict_of eqb key l) = Some a.
  Proof.
    intros F N. assert (E : map key l = map kid ys).
    { clear N. induction F as [|y a ys' l' H _ IH]; cbn; [reflexivity|]. rewrite (Hkey _ _ H). now f_equal. }
    rewrite <- E in N. rewrite (dict_of_distinct eqb key Heq l N), map_fst_key. split; [exact E|].
    intros y Hy. destruct (Forall2_In_l _ _ _ _ F Hy) as [a [Ha H]]. exists a. split; [exact H|].
    rewrite <- (Hkey _ _ H). apply (In_dget_nodup eqb Heq).
    - rewrite map_fst_key. exact N.
    - apply in_map_iff. exists a. auto.
  Qed.
End Named.

Lemma to_variable_name ids y v : to_variable ids y = Ok v -> v_name v = yv_id y.
Proof.
  unfold to_variable, mk_variable. intros H. apply bind_ok in H. destruct H as [? [_ H]].
  apply bind_ok in H. destruct H as [? [_ H]]. apply bind_ok in H. destruct H as [? [_ H]].
  apply bind_ok in H. destruct H as [? [_ H]]. apply bind_ok in H. destruct H as [? [_ H]]. injection H as <-. reflexivity.
Qed.
Lemma mk_constraint_name n e lb ub ctx k : mk_constraint n e lb ub ctx = Ok k -> c_name k = n /\ c_context k = ctx.
Proof.
  unfold mk_constraint. destruct e; intros H;
    try (apply bind_ok in H; destruct H as [[] [_ H]]; cbn in H; [|discriminate];
         apply bind_ok in H; destruct H as [[] [_ H]]; cbn in H; [|discriminate];
         destruct (_ && _); [discriminate|]; destruct (_ && _); [discriminate|]; injection H as <-; auto).
  destruct (_ || _); [discriminate|]. destruct c; injection H as <-; auto.
Qed.
Lemma to_constraint_name ids y c : to_constraint ids y = Ok c -> c_name c = yc_id y /\ c_context c = OPERATIONAL.
Proof.
  unfold to_constraint. intros H. apply bind_ok in H. destruct H as [? [_ H]]. apply bind_ok in H. destruct H as [? [_ H]].
  apply bind_ok in H. destruct H as [? [_ H]]. apply bind_ok in H. destruct H as [? [_ H]]. now apply mk_constraint_name in H.
Qed.
Lemma definition_name ids y d : resolve_field_definition ids y = Ok d -> d_field d = (yd_port y, yd_field y).
Proof.
  unfold resolve_field_definition, mk_port_field_def. intros H. apply bind_ok in H. destruct H as [? [_ H]].
  apply bind_ok in H. destruct H as [? [_ H]]. apply bind_ok in H. destruct H as [? [_ H]]. injection H as <-. reflexivity.
Qed.

Lemma variable_as_written ids y v : to_variable ids y = Ok v ->
  (yv_type y = "continuous"%string /\ v_type v = CONTINUOUS \/ yv_type y = "integer"%string /\ v_type v = INTEGER) /\
  v_structure v = {| ix_time := yv_time y; ix_scenario := yv_scenario y |} /\ v_context v = OPERATIONAL /\
  means_text ids (yv_lower y) (v_lower v) /\ means_text ids (yv_upper y) (v_upper v).
Proof.
  unfold to_variable, mk_variable. intros H. apply bind_ok in H. destruct H as [ty [T H]].
  apply bind_ok in H. destruct H as [lb [L H]]. apply bind_ok in H. destruct H as [ub [U H]].
  apply bind_ok in H. destruct H as [? [_ H]]. apply bind_ok in H. destruct H as [? [_ H]]. injection H as <-. cbn.
  split; [|split; [reflexivity|split; [reflexivity|split; now apply optional_means]]].
  unfold to_value_type in T. destruct (String.eqb_spec (yv_type y) "continuous"); [left; split; congruence|].
  destruct (String.eqb_spec (yv_type y) "integer"); [right; split; congruence|discriminate].
Qed.
Lemma parameter_as_written y : to_parameter y =
  {| p_name := yp_id y; p_type := CONTINUOUS; p_structure := {| ix_time := yp_time y; ix_scenario := yp_scenario y |} |}.
Proof. reflexivity. Qed.

Lemma comparison_as_written ids y k c l r : to_constraint ids y = Ok k -> reads_as ids (yc_expression y) (WCmp c l r) ->
  forall E t s vl vr, meaning E (id_variables ids) l t s = Some vl -> meaning E (id_variables ids) r t s = Some vr ->
  (constraint_holds E (c_expr k) (c_lower k) (c_upper k) t s <-> cmp_holds c vl vr).
Proof.
  intros H [H1 [H2 [H3 H4]]] E t s vl vr Hl Hr.
  destruct (parse_expression_comparison _ c l r ids H1 H2 H3 H4) as [a [b [P M]]].
  unfold to_constraint in H. rewrite P in H. apply bind_ok in H. destruct H as [lb [_ H]].
  apply bind_ok in H. destruct H as [ub [_ H]]. cbn [bind the_expression] in H.
  destruct (M E t s) as [Ma Mb]. eapply mk_constraint_cmp; eauto; congruence.
Qed.
Lemma written_bound_value E ids t s text q x : written_value E ids t s text q -> to_expression_if_present text ids = Ok x ->
  match q, x with
  | None, None => True
  | Some q, Some x => den E x t s = Some q
  | _, _ => False
  end.
Proof.
  intros W H. apply optional_means in H. destruct W as [| |c w e q R M]; cbn in H; try (subst; exact I).
  destruct (H e R) as [x' [-> D]]. rewrite D. exact M.
Qed.
Lemma bounds_as_written ids y k e : to_constraint ids y = Ok k -> reads_as ids (yc_expression y) e ->
  forall E t s v lo hi, meaning E (id_variables ids) e t s = Some v ->
  written_value E ids t s (yc_lower y) lo -> written_value E ids t s (yc_upper y) hi ->
  (constraint_holds E (c_expr k) (c_lower k) (c_upper k) t s <-> at_least lo v /\ at_most hi v).
Proof.
  intros H [H1 [H2 [H3 H4]]] E t s v lo hi Hm Hlo Hhi.
  destruct (parse_expression_meaning _ e ids H1 H2 H3 H4) as [x [P M]].
  unfold to_constraint in H. rewrite P in H. apply bind_ok in H. destruct H as [lb [L H]].
  apply bind_ok in H. destruct H as [ub [U H]]. cbn [bind the_expression] in H.
  assert (Dx : den E x t s = Some v) by (rewrite M; exact Hm).
  assert (NC : forall a b c, x <> Cmp a b c) by (intros a b c ->; discriminate).
  apply mk_constraint_bounds in H; [|exact NC]. destruct H as [-> _]. cbn [c_expr c_lower c_upper].
  pose proof (written_bound_value _ _ _ _ _ _ _ Hlo L) as Bl. pose proof (written_bound_value _ _ _ _ _ _ _ Hhi U) as Bu.
  assert (Lo : lower_ok E (match lb with Some e => e | None => Lit NInf end) t s v <-> at_least lo v).
  { destruct lo as [q|], lb as [b|]; try contradiction; [|cbn; tauto]. cbn [at_least].
    assert (X : lower_ok E b t s v <-> exists q, den E b t s = Some q /\ (q <= v)%Qc).
    { destruct b as [n| | | | | | | | | | | | | | | | | |]; try (cbn [lower_ok]; tauto). destruct n; try (cbn [lower_ok]; tauto). discriminate. }
    rewrite X, Bl. split; [intros [q' [E' L']]; congruence|eauto]. }
  assert (Hi : upper_ok E (match ub with Some e => e | None => Lit PInf end) t s v <-> at_most hi v).
  { destruct hi as [q|], ub as [b|]; try contradiction; [|cbn; tauto]. cbn [at_most].
    assert (X : upper_ok E b t s v <-> exists q, den E b t s = Some q /\ (v <= q)%Qc).
    { destruct b as [n| | | | | | | | | | | | | | | | | |]; try (cbn [upper_ok]; tauto). destruct n; try (cbn [upper_ok]; tauto). discriminate. }
    rewrite X, Bu. split; [intros [q' [E' L']]; congruence|eauto]. }
  unfold constraint_holds. rewrite Dx, <- Lo, <- Hi. split; [intros [v' [E' R]]; congruence|eauto].
Qed.
Lemma definition_as_written ids y d e : resolve_field_definition ids y = Ok d -> reads_as ids (yd_definition y) e ->
  forall E t s, den E (d_definition d) t s = meaning E (id_variables ids) e t s.
Proof.
  intros H [H1 [H2 [H3 H4]]]. destruct (parse_expression_meaning _ e ids H1 H2 H3 H4) as [x [P M]].
  unfold resolve_field_definition, mk_port_field_def in H. rewrite P in H. cbn [bind the_expression] in H.
  apply bind_ok in H. destruct H as [? [_ H]]. injection H as <-. exact M.
Qed.

Section ReturnedModels.
  Variable inputs : list in_library.
  Variable preloaded : list library.
  Variable order : list string -> list string -> list string -> list string.
  Hypothesis Hord : any_order order.
  Hypothesis Hids : NoDup (map yl_id inputs).
  Variable out : dict string library.
  Hypothesis Hout : resolve_library order inputs preloaded = Ok out.
  Variables (y : in_library) (m : in_model).
  Hypothesis Hy : In y inputs.
  Hypothesis Hm : In m (yl_models y).

  Lemma returned_model : exists l M, dget String.eqb (yl_id y) out = Some l /\
    dget String.eqb (ym_id m) (l_models l) = Some M /\ resolve_model (l_port_types l) m = Ok M /\
    (forall k t, dget String.eqb k (l_port_types l) = Some t -> usable inputs preloaded (yl_id y) k t) /\
    map fst (l_models l) = map ym_id (yl_models y).
  Proof.
    destruct (returned_library inputs preloaded order Hord Hids out Hout y Hy) as [l [G [_ [T [_ [N [ms [E El]]]]]]]].
    apply mapM_ok in E.
    destruct (loaded_dict String.eqb String.eqb_eq (resolve_model (l_port_types l)) ym_id m_id
      (fun m M H => mo_id _ _ _ (resolve_model_parts _ _ _ H)) _ _ E N) as [K D].
    rewrite <- El in *. destruct (D m Hm) as [M [R G']]. exists l, M. auto.
  Qed.

  Lemma returned_ports : exists l M, dget String.eqb (yl_id y) out = Some l /\
    dget String.eqb (ym_id m) (l_models l) = Some M /\
    map fst (m_ports M) = map yo_id (ym_ports m) /\
    forall p, In p (ym_ports m) -> exists t,
      dget String.eqb (yo_id p) (m_ports M) = Some {| mp_type := t; mp_name := yo_id p |} /\
      usable inputs preloaded (yl_id y) (yo_type p) t.
  Proof.
    destruct returned_model as [l [M [G [G' [R [T _]]]]]]. exists l, M. split; [exact G|]. split; [exact G'|].
    destruct (mo_ports _ _ _ (resolve_model_parts _ _ _ R)) as [ps [F [Eps N]]]. rewrite Eps.
    assert (Hn : forall p q, resolve_model_port (l_port_types l) p = Ok q -> mp_name q = yo_id p).
    { intros p q. unfold resolve_model_port. destruct (dget String.eqb (yo_type p) (l_port_types l)); intros X; inversion X; reflexivity. }
    rewrite map_fst_key. split.
    - clear N Eps. induction F as [|p q ps' qs H _ IH]; cbn; [reflexivity|]. rewrite (Hn _ _ H). now f_equal.
    - intros p Hp. destruct (Forall2_In_l _ _ _ _ F Hp) as [q [Hq H]]. unfold resolve_model_port in H.
      destruct (dget String.eqb (yo_type p) (l_port_types l)) as [t|] eqn:E; [|discriminate]. injection H as <-.
      exists t. split; [|now apply T]. apply (In_dget_nodup String.eqb String.eqb_eq).
      + rewrite map_fst_key. exact N.
      + apply in_map_iff. eexists. split; [|exact Hq]. reflexivity.
  Qed.

  Lemma returned_texts w : In w (model_texts m) -> well_written (model_names m) w.
  Proof.
    intros Hw. destruct returned_model as [l [M [_ [_ [R _]]]]].
    destruct (well_written_in _ _ _ _ R Hw) as [v P]. exact (parse_expression_accepts _ _ _ P).
  Qed.

  Lemma returned_contents :
    NoDup (map yp_id (ym_parameters m)) -> NoDup (map yv_id (ym_variables m)) ->
    NoDup (map yc_id (ym_constraints m)) -> NoDup (map yc_id (ym_binding_constraints m)) ->
    NoDup (map (fun d => (yd_port d, yd_field d)) (ym_definitions m)) ->
    exists l M, dget String.eqb (yl_id y) out = Some l /\ dget String.eqb (ym_id m) (l_models l) = Some M /\
    (map fst (m_parameters M) = map yp_id (ym_parameters m) /\
     forall p, In p (ym_parameters m) -> dget String.eqb (yp_id p) (m_parameters M) =
       Some {| p_name := yp_id p; p_type := CONTINUOUS; p_structure := {| ix_time := yp_time p; ix_scenario := yp_scenario p |} |}) /\
    (map fst (m_variables M) = map yv_id (ym_variables m) /\
     forall v, In v (ym_variables m) -> exists v', dget String.eqb (yv_id v) (m_variables M) = Some v' /\
       to_variable (model_identifiers m) v = Ok v') /\
    (map fst (m_constraints M) = map yc_id (ym_constraints m) /\
     forall c, In c (ym_constraints m) -> exists k, dget String.eqb (yc_id c) (m_constraints M) = Some k /\
       to_constraint (model_identifiers m) c = Ok k) /\
    (map fst (m_binding_constraints M) = map yc_id (ym_binding_constraints m) /\
     forall c, In c (ym_binding_constraints m) -> exists k, dget String.eqb (yc_id c) (m_binding_constraints M) = Some k /\
       to_constraint (model_identifiers m) c = Ok k) /\
    (map fst (m_port_definitions M) = map (fun d => (yd_port d, yd_field d)) (ym_definitions m) /\
     forall d, In d (ym_definitions m) -> exists d', dget pfi_eqb (yd_port d, yd_field d) (m_port_definitions M) = Some d' /\
       resolve_field_definition (model_identifiers m) d = Ok d') /\
    to_expression_if_present (ym_objective m) (model_identifiers m) = Ok (m_operational M) /\ m_investment M = None.
  Proof.
    intros N1 N2 N3 N4 N5. destruct returned_model as [l [M [G [G' [R _]]]]]. exists l, M.
    split; [exact G|]. split; [exact G'|].
    destruct (resolve_model_parts _ _ _ R) as [_ Ep [vs [Fv Ev]] _ [ds [Fd Ed]] [bs [Fb Eb]] [cs [Fc Ec]] Eo Ei].
    rewrite Ev, Ed, Eb, Ec. split.
    { rewrite Ep. destruct (loaded_dict String.eqb String.eqb_eq (fun p => Ok (to_parameter p)) yp_id p_name) with
        (ys := ym_parameters m) (l := map to_parameter (ym_parameters m)) as [K D].
      - intros p a X. injection X as <-. reflexivity.
      - clear. induction (ym_parameters m); cbn; constructor; auto.
      - exact N1.
      - split; [exact K|]. intros p Hp. destruct (D p Hp) as [a [X ->]]. injection X as <-. reflexivity. }
    split.
    { destruct (loaded_dict String.eqb String.eqb_eq _ yv_id v_name (to_variable_name _) _ _ Fv N2) as [K D].
      split; [exact K|]. intros v Hv. destruct (D v Hv) as [a [X ->]]. eauto. }
    split.
    { destruct (loaded_dict String.eqb String.eqb_eq _ yc_id c_name (fun y c H => proj1 (to_constraint_name _ y c H)) _ _ Fc N3) as [K D].
      split; [exact K|]. intros v Hv. destruct (D v Hv) as [a [X ->]]. eauto. }
    split.
    { destruct (loaded_dict String.eqb String.eqb_eq _ yc_id c_name (fun y c H => proj1 (to_constraint_name _ y c H)) _ _ Fb N4) as [K D].
      split; [exact K|]. intros v Hv. destruct (D v Hv) as [a [X ->]]. eauto. }
    split.
    { destruct (loaded_dict pfi_eqb pfi_eqb_eq _ (fun d => (yd_port d, yd_field d)) d_field (definition_name _) _ _ Fd N5) as [K D].
      split; [exact K|]. intros v Hv. destruct (D v Hv) as [a [X ->]]. eauto. }
    auto.
  Qed.
End ReturnedModels.

Lemma unknown_type_fails order inputs preloaded y m p : any_order order -> NoDup (map yl_id inputs) ->
  In y inputs -> In m (yl_models y) -> In p (ym_ports m) ->
  (forall t, ~ usable inputs preloaded (yl_id y) (yo_type p) t) ->
  exists k, resolve_library order inputs preloaded = Err k.
Proof.
  intros Ho Hn Hy Hm Hp Hu. apply result_err. intros out H.
  destruct (returned_ports inputs preloaded order Ho Hn out H y m Hy Hm) as [l [M [_ [_ [_ P]]]]].
  destruct (P p Hp) as [t [_ U]]. exact (Hu t U).
Qed.
Lemma undeclared_fails order inputs preloaded y m w e : any_order order -> NoDup (map yl_id inputs) ->
  In y inputs -> In m (yl_models y) -> In w (model_texts m) ->
  spells w (tokens e) -> unambiguous e -> ~ declared (model_names m) e ->
  exists k, resolve_library order inputs preloaded = Err k.
Proof.
  intros Ho Hn Hy Hm Hw Hs Hu Hd. apply result_err. intros out H.
  destruct (returned_texts inputs preloaded order Ho Hn out H y m Hy Hm w Hw) as [e' [S [U D]]].
  apply Hd. rewrite (reading_unique w e e' Hs S Hu U). exact D.
Qed.

(** libraries whose own contents are fine load whatever the order *)
Lemma good_libraries_load order inputs preloaded : any_order order -> NoDup (map yl_id inputs) ->
  acyclic inputs -> complete inputs ->
  (forall y, In y inputs -> forall t k t', In t (yl_port_types y) -> k = yt_id t -> ~ collected inputs preloaded y k t') ->
  (forall y, In y inputs -> NoDup (map ym_id (yl_models y))) ->
  (forall y m pts, In y inputs -> In m (yl_models y) ->
     (forall k t, dget String.eqb k pts = Some t -> usable inputs preloaded (yl_id y) k t) ->
     (forall k t, usable inputs preloaded (yl_id y) k t -> exists t', dget String.eqb k pts = Some t') ->
     exists M, resolve_model pts m = Ok M) ->
  exists out, resolve_library order inputs preloaded = Ok out.
Proof.
  intros Ho Hn Ha Hc Hp Hd Hm. destruct (resolve_library order inputs preloaded) as [out|k] eqn:H; [eauto|exfalso].
  destruct (failures order inputs preloaded k Ho Hn H) as [[_ C]|[[_ C]|[y [pts [Hy [R [F1 F2]]]]]]]; auto.
  assert (Gy : dget String.eqb (yl_id y) (yaml_of inputs) = Some y) by (now apply yaml_get).
  unfold resolve_lib in R. fold (own_types y) in R. cbv zeta in R.
  destruct (existsb (fun kv => dmem String.eqb (fst kv) pts) (own_types y)) eqn:E1.
  { apply existsb_exists in E1. destruct E1 as [[k0 t0] [X1 X2]]. cbn in X2. apply (dmem_In String.eqb String.eqb_eq) in X2.
    apply (key_dget String.eqb String.eqb_eq) in X2. destruct X2 as [t' X2]. apply (dget_In String.eqb String.eqb_eq) in X2.
    apply own_types_from in X1. destruct X1 as [o [O1 [O2 _]]]. exact (Hp y Hy o k0 t' O1 O2 (F1 _ _ X2)). }
  destruct (existsb _ (map ym_id (yl_models y))) eqn:E2.
  { apply existsb_exists in E2. destruct E2 as [i [_ L]]. apply Nat.ltb_lt in L.
    pose proof (proj1 (NoDup_count_occ string_dec _) (Hd y Hy) i). lia. }
  destruct (mapM (resolve_model (update String.eqb pts (own_types y))) (yl_models y)) as [ms|k'] eqn:E3; [discriminate|].
  apply mapM_err in E3. destruct E3 as [m [M1 M2]]. edestruct (Hm y m (update String.eqb pts (own_types y)) Hy M1) as [M X]; [| |congruence].
  - intros k0 t Hk. apply (dget_In String.eqb String.eqb_eq) in Hk. apply (update_from String.eqb String.eqb_eq) in Hk.
    destruct Hk as [Hk|Hk].
    + apply own_types_from in Hk. destruct Hk as [o [O1 [-> ->]]]. eapply u_own; eauto.
    + apply (collected_usable inputs preloaded Hn _ y _ _ Gy). now apply F1.
  - intros k0 t Hk. apply (key_dget String.eqb String.eqb_eq). apply (update_has String.eqb String.eqb_eq).
    inversion Hk as [p ? ? P1 P2|lib t0 L1 L2 L3|b ? ? D U]; subst.
    + right. apply (F2 k0 t). left. eauto.
    + left. assert (lib = y) as <-; [|now apply own_types_has].
      assert (dget String.eqb (yl_id y) (yaml_of inputs) = Some lib) by (apply yaml_get; auto). congruence.
    + right. apply (F2 k0 t). right. exists b. split; [|exact U].
      destruct D as [lib [L1 [L2 L3]]]. assert (lib = y) as <-; [|exact L3].
      assert (dget String.eqb (yl_id y) (yaml_of inputs) = Some lib) by (apply yaml_get; auto). congruence.
Qed.

Lemma one_library_per_input order inputs preloaded out : any_order order ->
  NoDup (map yl_id inputs) -> resolve_library order inputs preloaded = Ok out ->
  (NoDup (map fst out) /\
   forall k, In k (map fst out) <-> In k (map yl_id inputs) \/ In k (map l_id preloaded)) /\
  (forall k, ~ In k (map yl_id inputs) -> dget String.eqb k out = dget String.eqb k (dict_of String.eqb l_id preloaded)) /\
  (forall y, In y inputs -> exists l, dget String.eqb (yl_id y) out = Some l /\ l_id l = yl_id y /\
     map fst (l_models l) = map ym_id (yl_models y)).
Proof.
  intros Ho Hn H. split; [exact (returned_keys inputs preloaded order Ho Hn out H)|].
  split; [exact (returned_preloaded inputs preloaded order Ho Hn out H)|]. intros y Hy.
  destruct (returned_library inputs preloaded order Ho Hn out H y Hy) as [l [G [E [_ [_ [N [ms [M El]]]]]]]].
  exists l. split; [exact G|]. split; [exact E|]. rewrite El. apply mapM_ok in M.
  apply (loaded_dict String.eqb String.eqb_eq (resolve_model (l_port_types l)) ym_id m_id
      (fun m M H => mo_id _ _ _ (resolve_model_parts _ _ _ H)) _ _ M N).
Qed.
Lemma dependencies_first order inputs preloaded out : any_order order ->
  NoDup (map yl_id inputs) -> resolve_library order inputs preloaded = Ok out ->
  (exists sequence, Permutation sequence (map yl_id inputs) /\
     forall before x after, sequence = before ++ x :: after -> forall d, depends inputs x d -> In d before) /\
  (forall x d, depends inputs x d -> exists lx ld, dget String.eqb x out = Some lx /\ dget String.eqb d out = Some ld /\
     incl (map fst (l_port_types ld)) (map fst (l_port_types lx))).
Proof.
  intros Ho Hn H. split; [exact (returned_order inputs preloaded order Ho Hn out H)|]. intros x d D.
  pose proof (returned_complete inputs preloaded order Ho Hn out H x d D) as Hd.
  apply in_map_iff in Hd. destruct Hd as [yd [Ed Hyd]]. pose proof D as D'. destruct D' as [yx [Hyx [Ex _]]].
  destruct (returned_library inputs preloaded order Ho Hn out H yx Hyx) as [lx [Gx [_ [_ [T _]]]]].
  destruct (returned_library inputs preloaded order Ho Hn out H yd Hyd) as [ld [Gd [_ [T' _]]]].
  rewrite Ex in *. rewrite Ed in *. exists lx, ld. split; [exact Gx|]. split; [exact Gd|].
  intros k Hk. apply (key_dget String.eqb String.eqb_eq) in Hk. destruct Hk as [t Hk]. apply T' in Hk.
  destruct (T k t (u_dependency _ _ _ _ _ _ D Hk)) as [t' E].
  apply (dget_In String.eqb String.eqb_eq) in E. apply (in_map fst) in E. exact E.
Qed.
Lemma model_as_written order inputs preloaded out y m : any_order order ->
  NoDup (map yl_id inputs) -> resolve_library order inputs preloaded = Ok out ->
  In y inputs -> In m (yl_models y) ->
  NoDup (map yp_id (ym_parameters m)) -> NoDup (map yv_id (ym_variables m)) ->
  NoDup (map yc_id (ym_constraints m)) -> NoDup (map yc_id (ym_binding_constraints m)) ->
  NoDup (map (fun d => (yd_port d, yd_field d)) (ym_definitions m)) ->
  exists l M, dget String.eqb (yl_id y) out = Some l /\ dget String.eqb (ym_id m) (l_models l) = Some M /\
  (map fst (m_parameters M) = map yp_id (ym_parameters m) /\
   forall p, In p (ym_parameters m) -> dget String.eqb (yp_id p) (m_parameters M) =
     Some {| p_name := yp_id p; p_type := CONTINUOUS; p_structure := {| ix_time := yp_time p; ix_scenario := yp_scenario p |} |}) /\
  (map fst (m_variables M) = map yv_id (ym_variables m) /\
   forall v, In v (ym_variables m) -> exists v', dget String.eqb (yv_id v) (m_variables M) = Some v' /\ v_name v' = yv_id v /\
     (yv_type v = "continuous"%string /\ v_type v' = CONTINUOUS \/ yv_type v = "integer"%string /\ v_type v' = INTEGER) /\
     v_structure v' = {| ix_time := yv_time v; ix_scenario := yv_scenario v |} /\ v_context v' = OPERATIONAL /\
     means_text (model_names m) (yv_lower v) (v_lower v') /\ means_text (model_names m) (yv_upper v) (v_upper v')) /\
  (forall cs ys, (cs, ys) = (m_constraints M, ym_constraints m) \/ (cs, ys) = (m_binding_constraints M, ym_binding_constraints m) ->
   map fst cs = map yc_id ys /\
   forall c, In c ys -> exists k, dget String.eqb (yc_id c) cs = Some k /\ c_name k = yc_id c /\ c_context k = OPERATIONAL /\
     (forall o l r, reads_as (model_names m) (yc_expression c) (WCmp o l r) -> forall E t s vl vr,
        meaning E (map yv_id (ym_variables m)) l t s = Some vl -> meaning E (map yv_id (ym_variables m)) r t s = Some vr ->
        (constraint_holds E (c_expr k) (c_lower k) (c_upper k) t s <-> cmp_holds o vl vr)) /\
     (forall e, reads_as (model_names m) (yc_expression c) e -> forall E t s v lo hi,
        meaning E (map yv_id (ym_variables m)) e t s = Some v ->
        written_value E (model_names m) t s (yc_lower c) lo -> written_value E (model_names m) t s (yc_upper c) hi ->
        (constraint_holds E (c_expr k) (c_lower k) (c_upper k) t s <-> at_least lo v /\ at_most hi v))) /\
  (map fst (m_port_definitions M) = map (fun d => (yd_port d, yd_field d)) (ym_definitions m) /\
   forall d, In d (ym_definitions m) -> exists d', dget pfi_eqb (yd_port d, yd_field d) (m_port_definitions M) = Some d' /\
     forall e, reads_as (model_names m) (yd_definition d) e ->
     forall E t s, den E (d_definition d') t s = meaning E (map yv_id (ym_variables m)) e t s) /\
  means_text (model_names m) (ym_objective m) (m_operational M) /\ m_investment M = None.
Proof.
  intros Ho Hn H Hy Hm N1 N2 N3 N4 N5.
  destruct (returned_contents inputs preloaded order Ho Hn out H y m Hy Hm N1 N2 N3 N4 N5)
    as [l [M [G [G' [P [[V1 V2] [[C1 C2] [[B1 B2] [[D1 D2] [O1 O2]]]]]]]]]].
  exists l, M. split; [exact G|]. split; [exact G'|]. split; [exact P|]. split.
  { split; [exact V1|]. intros v Hv. destruct (V2 v Hv) as [v' [E T]]. exists v'. split; [exact E|].
    split; [exact (to_variable_name _ _ _ T)|]. exact (variable_as_written _ _ _ T). }
  split.
  { assert (K : forall cs ys, (forall c, In c ys -> exists k, dget String.eqb (yc_id c) cs = Some k /\
        to_constraint (model_identifiers m) c = Ok k) -> forall c, In c ys ->
      exists k, dget String.eqb (yc_id c) cs = Some k /\ c_name k = yc_id c /\ c_context k = OPERATIONAL /\
     (forall o l r, reads_as (model_names m) (yc_expression c) (WCmp o l r) -> forall E t s vl vr,
        meaning E (map yv_id (ym_variables m)) l t s = Some vl -> meaning E (map yv_id (ym_variables m)) r t s = Some vr ->
        (constraint_holds E (c_expr k) (c_lower k) (c_upper k) t s <-> cmp_holds o vl vr)) /\
     (forall e, reads_as (model_names m) (yc_expression c) e -> forall E t s v lo hi,
        meaning E (map yv_id (ym_variables m)) e t s = Some v ->
        written_value E (model_names m) t s (yc_lower c) lo -> written_value E (model_names m) t s (yc_upper c) hi ->
        (constraint_holds E (c_expr k) (c_lower k) (c_upper k) t s <-> at_least lo v /\ at_most hi v))).
    { intros cs ys F c Hc. destruct (F c Hc) as [k [E T]]. exists k. split; [exact E|].
      destruct (to_constraint_name _ _ _ T) as [X1 X2]. split; [exact X1|]. split; [exact X2|]. split.
      - intros o a b R. exact (comparison_as_written _ _ _ _ _ _ T R).
      - intros e R. exact (bounds_as_written _ _ _ _ T R). }
    intros cs ys [E|E]; injection E as -> ->; [exact (conj C1 (K _ _ C2))|exact (conj B1 (K _ _ B2))]. }
  split.
  { split; [exact D1|]. intros d Hd. destruct (D2 d Hd) as [d' [E T]]. exists d'. split; [exact E|].
    intros e R. exact (definition_as_written _ _ _ _ T R). }
  split; [|exact O2]. exact (optional_means _ _ _ O1).
Qed.
Lemma definitions_on_ports_of_file order inputs preloaded out y m : any_order order ->
  NoDup (map yl_id inputs) -> resolve_library order inputs preloaded = Ok out ->
  In y inputs -> In m (yl_models y) ->
  forall d, In d (ym_definitions m) -> exists p t, In p (ym_ports m) /\ yo_id p = yd_port d /\
    usable inputs preloaded (yl_id y) (yo_type p) t /\ In (yd_field d) (pt_fields t).
Proof.
  intros Ho Hn H Hy Hm d Hd.
  destruct (returned_model inputs preloaded order Ho Hn out H y m Hy Hm) as [l [M [_ [_ [R [T _]]]]]].
  pose proof (resolve_model_parts _ _ _ R) as P. destruct (mo_definitions _ _ _ P) as [ds [F E]].
  destruct (Forall2_In_l _ _ _ _ F Hd) as [d' [Hd' X]].
  assert (In (d_field d') (map d_field ds)) as K by (now apply in_map).
  apply (dict_of_has pfi_eqb d_field pfi_eqb_eq) in K. destruct K as [d2 K].
  unfold resolve_model in R. cbv zeta in R.
  do 6 (apply bind_ok in R; destruct R as [? [_ R]]).
  assert (DP : definitions_on_ports M) by (apply make_model_named in R; apply R).
  rewrite <- E in K. pose proof (dget_In pfi_eqb pfi_eqb_eq _ _ _ K) as K'. destruct (DP _ _ K') as [p [Hp [E1 E2]]].
  assert (Ed : d_field d2 = (yd_port d, yd_field d)).
  { rewrite E in K. apply (dict_of_from pfi_eqb d_field pfi_eqb_eq) in K. destruct K as [_ K]. rewrite K. exact (definition_name _ _ _ X). }
  rewrite Ed in E1, E2. cbn in E1, E2.
  destruct (mo_ports _ _ _ P) as [ps [Fp [Ep _]]]. rewrite Ep, map_snd_key in Hp.
  destruct (Forall2_In_r _ _ _ _ Fp Hp) as [yp [Hyp Xp]]. unfold resolve_model_port in Xp.
  destruct (dget String.eqb (yo_type yp) (l_port_types l)) as [t|] eqn:Et; [|discriminate]. injection Xp as <-.
  exists yp, t. split; [exact Hyp|]. split; [exact E1|]. split; [now apply T|exact E2].
Qed.
