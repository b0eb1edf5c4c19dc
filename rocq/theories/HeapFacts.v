(** Facts about linear expressions as objects (C42). *)
From Coq Require Import Lia.
From Verif Require Import Base Expr LinearExpr LinearHeap Linearize BaseFacts SpecExpr SpecLinear
  ExprFacts LinearFacts LinearOpsFacts.
Import List.
Local Open Scope nat_scope.

Lemma list_set_length {A} n (a : A) l : length (list_set n a l) = length l.
Proof. revert n; induction l as [|b l IH]; intros [|n]; cbn; auto. Qed.
Lemma list_set_same {A} n (a : A) l : n < length l -> nth_error (list_set n a l) n = Some a.
Proof. revert n; induction l as [|b l IH]; intros [|n] H; cbn in *; try lia; auto. apply IH. lia. Qed.
Lemma list_set_other {A} n m (a : A) l : n <> m -> nth_error (list_set n a l) m = nth_error l m.
Proof. revert n m; induction l as [|b l IH]; intros [|n] [|m] H; cbn; auto; try lia. Qed.
Lemma list_set_id {A} n (a : A) l : nth_error l n = Some a -> list_set n a l = l.
Proof.
  revert n; induction l as [|b l IH]; intros [|n] H; cbn in *; try discriminate; auto.
  - injection H as ->. reflexivity.
  - now rewrite IH.
Qed.
Lemma nth_some_lt {A} (l : list A) i a : nth_error l i = Some a -> i < length l.
Proof. intros H. apply nth_error_Some. congruence. Qed.

Lemma get_obj_ok h i o : get_obj h i = Ok o <-> nth_error (h_objs h) i = Some o.
Proof.
  unfold get_obj. destruct (nth_error (h_objs h) i); split; try congruence.
Qed.

(** [h'] comes from [h] by changes to object [i] and by allocations only *)
Definition step (i : nat) (h h' : heap) : Prop :=
  separated h -> separated h' /\ length (h_objs h) <= length (h_objs h') /\
    forall j, j < length (h_objs h) -> j <> i -> h_value h' j = h_value h j.

Lemma step_refl i h : step i h h.
Proof. intros H. auto. Qed.
Lemma step_trans i h1 h2 h3 : step i h1 h2 -> step i h2 h3 -> step i h1 h3.
Proof.
  intros H12 H23 Hs. destruct (H12 Hs) as (Hs2 & Hl2 & Hv2). destruct (H23 Hs2) as (Hs3 & Hl3 & Hv3).
  split; [exact Hs3|]. split; [lia|]. intros j Hj Hne. rewrite Hv3 by (auto; lia). auto.
Qed.

Lemma h_value_unfold h j : h_value h j =
  match nth_error (h_objs h) j with
  | Some o => match nth_error (h_dicts h) (o_dict o) with
              | Some d => Ok {| le_terms := d; le_constant := o_constant o |}
              | None => Err AttributeErr
              end
  | None => Err AttributeErr
  end.
Proof.
  unfold h_value, get_terms, get_constant, get_obj. destruct (nth_error (h_objs h) j) as [o|]; [|reflexivity].
  cbn. destruct (nth_error (h_dicts h) (o_dict o)); reflexivity.
Qed.

Lemma set_constant_step h i c h' : set_constant h i c = Ok h' -> step i h h'.
Proof.
  unfold set_constant. intros H. inv_bind H. injection H as <-. apply get_obj_ok in H0.
  pose proof (nth_some_lt _ _ _ H0) as Hi. intros [Hw Hu].
  assert (Hd : forall j o, nth_error (list_set i {| o_dict := o_dict v; o_constant := c |} (h_objs h)) j = Some o ->
      exists o', nth_error (h_objs h) j = Some o' /\ o_dict o' = o_dict o).
  { intros j o Hj. destruct (Nat.eq_dec i j) as [<-|Hne].
    - rewrite list_set_same in Hj by exact Hi. injection Hj as <-. exists v. auto.
    - rewrite list_set_other in Hj by exact Hne. eauto. }
  split; [split|split]; cbn [h_objs h_dicts].
  - intros j o Hj. destruct (Hd _ _ Hj) as (o' & Ho' & <-). eauto.
  - intros j k oj ok Hj Hk He. destruct (Hd _ _ Hj) as (oj' & Hj' & Ej). destruct (Hd _ _ Hk) as (ok' & Hk' & Ek).
    apply (Hu j k oj' ok'); auto. congruence.
  - rewrite list_set_length. auto.
  - intros j Hj Hne. rewrite !h_value_unfold. cbn [h_objs h_dicts]. rewrite list_set_other by auto. reflexivity.
Qed.
Lemma set_constant_value h i c h' e : set_constant h i c = Ok h' -> h_value h i = Ok e ->
  h_value h' i = Ok {| le_terms := le_terms e; le_constant := c |}.
Proof.
  unfold set_constant. intros H He. inv_bind H. injection H as <-. apply get_obj_ok in H0.
  pose proof (nth_some_lt _ _ _ H0) as Hi. rewrite h_value_unfold in *. cbn [h_objs h_dicts] in *.
  rewrite H0 in He. rewrite list_set_same by exact Hi. cbn [o_dict o_constant].
  destruct (nth_error (h_dicts h) (o_dict v)); [|discriminate]. injection He as <-. reflexivity.
Qed.

Lemma set_new_terms_step h i d h' : set_new_terms h i d = Ok h' -> step i h h'.
Proof.
  unfold set_new_terms. intros H. inv_bind H. injection H as <-. apply get_obj_ok in H0.
  pose proof (nth_some_lt _ _ _ H0) as Hi. intros [Hw Hu].
  set (no := {| o_dict := length (h_dicts h); o_constant := o_constant v |}).
  assert (Hd : forall j o, nth_error (list_set i no (h_objs h)) j = Some o ->
      (j = i /\ o_dict o = length (h_dicts h)) \/ (j <> i /\ nth_error (h_objs h) j = Some o)).
  { intros j o Hj. destruct (Nat.eq_dec i j) as [<-|Hne].
    - rewrite list_set_same in Hj by exact Hi. injection Hj as <-. auto.
    - rewrite list_set_other in Hj by exact Hne. right. auto. }
  split; [split|split]; cbn [h_objs h_dicts].
  - intros j o Hj. rewrite app_length. cbn. destruct (Hd _ _ Hj) as [[_ ->]|[_ Ho]]; [lia|].
    apply Hw in Ho. lia.
  - intros j k oj ok Hj Hk He.
    destruct (Hd _ _ Hj) as [[-> Ej]|[Nj Ej]]; destruct (Hd _ _ Hk) as [[-> Ek]|[Nk Ek]]; auto.
    + apply Hw in Ek. lia.
    + apply Hw in Ej. lia.
    + now apply (Hu j k oj ok).
  - rewrite list_set_length. auto.
  - intros j Hj Hne. rewrite !h_value_unfold. cbn [h_objs h_dicts]. rewrite list_set_other by auto.
    destruct (nth_error (h_objs h) j) as [o|] eqn:E; [|reflexivity]. apply Hw in E.
    rewrite nth_error_app1 by exact E. reflexivity.
Qed.
Lemma set_new_terms_value h i d h' e : set_new_terms h i d = Ok h' -> h_value h i = Ok e ->
  h_value h' i = Ok {| le_terms := d; le_constant := le_constant e |}.
Proof.
  unfold set_new_terms. intros H He. inv_bind H. injection H as <-. apply get_obj_ok in H0.
  pose proof (nth_some_lt _ _ _ H0) as Hi. rewrite h_value_unfold in *. cbn [h_objs h_dicts] in *.
  rewrite H0 in He. rewrite list_set_same by exact Hi. cbn [o_dict o_constant].
  rewrite nth_error_app2, Nat.sub_diag by lia. cbn.
  destruct (nth_error (h_dicts h) (o_dict v)); [|discriminate]. injection He as <-. reflexivity.
Qed.

Lemma mutate_terms_step h i d h' : mutate_terms h i d = Ok h' -> step i h h'.
Proof.
  unfold mutate_terms. intros H. inv_bind H. injection H as <-. apply get_obj_ok in H0. intros [Hw Hu].
  split; [split|split]; cbn [h_objs h_dicts].
  - intros j o Hj. rewrite list_set_length. eauto.
  - exact Hu.
  - auto.
  - intros j Hj Hne. rewrite !h_value_unfold. cbn [h_objs h_dicts].
    destruct (nth_error (h_objs h) j) as [o|] eqn:E; [|reflexivity].
    rewrite list_set_other; [reflexivity|]. intros He. apply Hne. symmetry. apply (Hu i j v o); auto.
Qed.
Lemma mutate_terms_value h i d h' e : mutate_terms h i d = Ok h' -> h_value h i = Ok e ->
  h_value h' i = Ok {| le_terms := d; le_constant := le_constant e |}.
Proof.
  unfold mutate_terms. intros H He. inv_bind H. injection H as <-. apply get_obj_ok in H0.
  rewrite h_value_unfold in *. cbn [h_objs h_dicts] in *. rewrite H0 in *.
  destruct (nth_error (h_dicts h) (o_dict v)) eqn:E; [|discriminate]. injection He as <-.
  rewrite list_set_same by (eapply nth_some_lt; eauto). reflexivity.
Qed.

Lemma copy_self h i h' : h_copy h i i = Ok h' -> h' = h.
Proof.
  unfold h_copy. intros H. inv_bind H. inv_bind H. injection H as <-. apply get_obj_ok in H0.
  rewrite list_set_id; [destruct h; reflexivity|]. rewrite H0. destruct v; reflexivity.
Qed.

Lemma new_step i h e : step i h (fst (h_new h e)).
Proof.
  intros [Hw Hu]. cbn [h_new fst]. split; [split|split]; cbn [h_objs h_dicts].
  - intros j o Hj. rewrite app_length. cbn. destruct (Nat.lt_ge_cases j (length (h_objs h))) as [Hlt|Hge].
    + rewrite nth_error_app1 in Hj by exact Hlt. apply Hw in Hj. lia.
    + rewrite nth_error_app2 in Hj by exact Hge. destruct (j - length (h_objs h)) as [|m]; cbn in Hj.
      * injection Hj as <-. cbn. lia.
      * destruct m; discriminate.
  - intros j k oj ok Hj Hk He.
    assert (Hc : forall j o, nth_error (h_objs h ++ [{| o_dict := length (h_dicts h); o_constant := le_constant e |}]) j = Some o ->
       (j = length (h_objs h) /\ o_dict o = length (h_dicts h)) \/ nth_error (h_objs h) j = Some o).
    { clear. intros j o Hj. destruct (Nat.lt_ge_cases j (length (h_objs h))) as [Hlt|Hge].
      - rewrite nth_error_app1 in Hj by exact Hlt. auto.
      - rewrite nth_error_app2 in Hj by exact Hge. left. destruct (j - length (h_objs h)) as [|m] eqn:E; cbn in Hj.
        + injection Hj as <-. split; [lia|reflexivity].
        + destruct m; discriminate. }
    destruct (Hc _ _ Hj) as [[-> Ej]|Ej]; destruct (Hc _ _ Hk) as [[-> Ek]|Ek]; auto.
    + apply Hw in Ek. lia.
    + apply Hw in Ej. lia.
    + now apply (Hu j k oj ok).
  - rewrite app_length. lia.
  - intros j Hj Hne. rewrite !h_value_unfold. cbn [h_objs h_dicts]. rewrite nth_error_app1 by exact Hj.
    destruct (nth_error (h_objs h) j) as [o|] eqn:E; [|reflexivity]. apply Hw in E.
    rewrite nth_error_app1 by exact E. reflexivity.
Qed.
Lemma new_value h e : h_value (fst (h_new h e)) (snd (h_new h e)) = Ok e.
Proof.
  rewrite h_value_unfold. cbn [h_new fst snd h_objs h_dicts].
  rewrite nth_error_app2, Nat.sub_diag by lia. cbn. rewrite nth_error_app2, Nat.sub_diag by lia.
  cbn. destruct e; reflexivity.
Qed.

(** ** the operators *)
Lemma value_parts h i e : h_value h i = Ok e ->
  get_terms h i = Ok (le_terms e) /\ get_constant h i = Ok (le_constant e) /\ i < length (h_objs h).
Proof.
  intros H. rewrite h_value_unfold in H. unfold get_terms, get_constant, get_obj.
  destruct (nth_error (h_objs h) i) as [o|] eqn:E; [|discriminate]. cbn.
  destruct (nth_error (h_dicts h) (o_dict o)); [|discriminate]. injection H as <-.
  split; [reflexivity|]. split; [reflexivity|]. eapply nth_some_lt; eauto.
Qed.
Lemma parts_value h i d c : get_terms h i = Ok d -> get_constant h i = Ok c ->
  h_value h i = Ok {| le_terms := d; le_constant := c |}.
Proof. intros H1 H2. unfold h_value. rewrite H1. cbn [bind]. rewrite H2. reflexivity. Qed.

Lemma terms_constant h i c h' j : set_constant h i c = Ok h' -> get_terms h' j = get_terms h j.
Proof.
  unfold set_constant. intros H. inv_bind H. injection H as <-. apply get_obj_ok in H0.
  pose proof (nth_some_lt _ _ _ H0) as Hi. unfold get_terms, get_obj. cbn [h_objs h_dicts].
  destruct (Nat.eq_dec i j) as [<-|Hne].
  - rewrite list_set_same, H0 by exact Hi. reflexivity.
  - rewrite list_set_other by exact Hne. reflexivity.
Qed.

Lemma iadd_step h self rhs h' r : h_iadd h self rhs = Ok (h', r) -> r = self /\ step self h h' /\
  forall ea eb, h_value h self = Ok ea -> h_value h rhs = Ok eb -> h_value h' self = Ok (le_iadd ea eb).
Proof.
  unfold h_iadd. intros H. inv_bind H. inv_bind H. inv_bind H. inv_bind H. inv_bind H. inv_bind H.
  injection H as <- <-. split; [reflexivity|]. split.
  - eapply step_trans; [eapply set_constant_step; eauto|eapply set_new_terms_step; eauto].
  - intros ea eb Ha Hb. destruct (value_parts _ _ _ Ha) as (Ta & Ca & _).
    destruct (value_parts _ _ _ Hb) as (Tb & Cb & _).
    rewrite Ca in H0. injection H0 as <-. rewrite Cb in H1. injection H1 as <-.
    rewrite (terms_constant _ _ _ _ _ H2) in H3. rewrite (terms_constant _ _ _ _ _ H2) in H4. rewrite Ta in H3. rewrite Tb in H4.
    injection H3 as <-. injection H4 as <-.
    pose proof (set_constant_value _ _ _ _ _ H2 Ha) as Hv.
    rewrite (set_new_terms_value _ _ _ _ _ H5 Hv). reflexivity.
Qed.
Lemma isub_step h self rhs h' r : h_isub h self rhs = Ok (h', r) -> r = self /\ step self h h' /\
  forall ea eb, h_value h self = Ok ea -> h_value h rhs = Ok eb -> h_value h' self = Ok (le_isub ea eb).
Proof.
  unfold h_isub. intros H. inv_bind H. inv_bind H. inv_bind H. inv_bind H. inv_bind H. inv_bind H.
  injection H as <- <-. split; [reflexivity|]. split.
  - eapply step_trans; [eapply set_constant_step; eauto|eapply set_new_terms_step; eauto].
  - intros ea eb Ha Hb. destruct (value_parts _ _ _ Ha) as (Ta & Ca & _).
    destruct (value_parts _ _ _ Hb) as (Tb & Cb & _).
    rewrite Ca in H0. injection H0 as <-. rewrite Cb in H1. injection H1 as <-.
    rewrite (terms_constant _ _ _ _ _ H2) in H3. rewrite (terms_constant _ _ _ _ _ H2) in H4. rewrite Ta in H3. rewrite Tb in H4.
    injection H3 as <-. injection H4 as <-.
    pose proof (set_constant_value _ _ _ _ _ H2 Ha) as Hv.
    rewrite (set_new_terms_value _ _ _ _ _ H5 Hv). reflexivity.
Qed.

Lemma itruediv_step h self rhs h' r : h_itruediv h self rhs = Ok (h', r) -> r = self /\ step self h h' /\
  forall ea eb, h_value h self = Ok ea -> h_value h rhs = Ok eb ->
    exists e, le_itruediv ea eb = Ok e /\ h_value h' self = Ok e.
Proof.
  unfold h_itruediv. intros H. inv_bind H. destruct v as [|]; [|discriminate]. inv_bind H.
  destruct (is_close_abs v n0 (Fin EPS)) eqn:E0; [discriminate|].
  destruct (is_close_abs v n1 (Fin EPS)) eqn:E1.
  { injection H as <- <-. split; [reflexivity|]. split; [apply step_refl|]. intros ea eb Ha Hb.
    destruct (value_parts _ _ _ Hb) as (Tb & Cb & _). rewrite Tb in H0. injection H0 as H0.
    rewrite Cb in H1. injection H1 as <-. exists ea. split; [|exact Ha].
    unfold le_itruediv, has_terms. now rewrite H0, E0, E1. }
  inv_bind H. inv_bind H. inv_bind H. inv_bind H. inv_bind H. inv_bind H. inv_bind H. injection H as <- <-.
  split; [reflexivity|]. split.
  - eapply step_trans; [eapply set_constant_step; eauto|eapply mutate_terms_step; eauto].
  - intros ea eb Ha Hb. destruct (value_parts _ _ _ Ha) as (Ta & Ca & La).
    destruct (value_parts _ _ _ Hb) as (Tb & Cb & _). rewrite Tb in H0. injection H0 as H0.
    rewrite Cb in H1. injection H1 as <-. rewrite Ca in H2. injection H2 as <-.
    rewrite (terms_constant _ _ _ _ _ H4) in H5. rewrite Ta in H5. injection H5 as <-.
    pose proof (set_constant_value _ _ _ _ _ H4 Ha) as Hv.
    rewrite (mutate_terms_value _ _ _ _ _ H8 Hv). cbn [le_constant].
    exists {| le_terms := v5; le_constant := v1 |}. split; [|reflexivity].
    unfold le_itruediv, has_terms. rewrite H0, E0, E1. rewrite H3. cbn [bind].
    destruct (Nat.eq_dec self rhs) as [<-|Hne].
    + rewrite Ha in Hb. injection Hb as <-. rewrite H0 in *. cbn in H7. injection H7 as <-. reflexivity.
    + assert (Hc : v4 = le_constant eb).
      { unfold set_constant in H4. inv_bind H4. injection H4 as <-.
        unfold get_constant, get_obj in H6, Cb. cbn [h_objs] in H6. rewrite list_set_other in H6 by auto.
        destruct (nth_error (h_objs h) rhs); [|discriminate]. cbn in *. congruence. }
      subst v4. rewrite H7. reflexivity.
Qed.

Lemma imul_step h self rhs h' r : h_imul h self rhs = Ok (h', r) ->
  forall ea eb, h_value h self = Ok ea -> h_value h rhs = Ok eb ->
  le_terms ea <> [] \/ is_zero (le_constant ea) = true ->
  step self h h' /\ (r = self \/ r = length (h_objs h)) /\
  exists e, le_imul ea eb = Ok e /\ h_value h' r = Ok e.
Proof.
  unfold h_imul. intros H ea eb Ha Hb Hs.
  destruct (value_parts _ _ _ Ha) as (Ta & Ca & La). destruct (value_parts _ _ _ Hb) as (Tb & Cb & Lb).
  rewrite Ta, Tb in H. cbn [bind] in H. unfold le_imul, has_terms.
  destruct (le_terms ea) as [|ka ta] eqn:Ea.
  - destruct Hs as [Hs|Hs]; [congruence|]. cbn [andb].
    assert (Hc : match le_terms eb with
      | [] | _ => (c <- get_constant h self ;; if is_close_abs c n0 (Fin EPS) then Ok (h_new h le_empty) else Err OutOfFuel)
      end = Ok (h', r)).
    { destruct (le_terms eb); rewrite Ca in H |- *; cbn [bind] in *; unfold is_zero in Hs; rewrite Hs in *; exact H. }
    assert (Hc' : Ok (h_new h le_empty) = Ok (h', r)).
    { destruct (le_terms eb); rewrite Ca in Hc; cbn [bind] in Hc; unfold is_zero in Hs; rewrite Hs in Hc; exact Hc. }
    injection Hc' as <- <-. split; [exact (new_step self h le_empty)|]. split; [right; reflexivity|].
    exists le_empty. split; [unfold is_zero in Hs; now rewrite Hs|]. exact (new_value h le_empty).
  - destruct (le_terms eb) as [|kb tb] eqn:Eb; [|discriminate]. cbn [andb].
    rewrite Cb in H. cbn [bind] in H.
    destruct (is_close_abs (le_constant eb) n0 (Fin EPS)) eqn:E0.
    { injection H as <- <-. split; [exact (new_step self h le_empty)|]. split; [right; reflexivity|].
      exists le_empty. split; [reflexivity|]. exact (new_value h le_empty). }
    destruct (is_close_abs (le_constant eb) n1 (Fin EPS)) eqn:E1.
    { inv_bind H. injection H as <- <-. apply copy_self in H0. subst v. split; [apply step_refl|].
      split; [now left|]. eauto. }
    assert (Hne : self <> rhs).
    { intros <-. rewrite Ha in Hb. injection Hb as <-. congruence. }
    rewrite Ca in H. cbn [bind] in H. inv_bind H. inv_bind H. inv_bind H. inv_bind H. inv_bind H.
    injection H as <- <-. apply copy_self in H4. subst v3.
    assert (Hc : v0 = le_constant eb).
    { unfold set_constant in H0. inv_bind H0. injection H0 as <-.
      unfold get_constant, get_obj in H1, Cb. cbn [h_objs] in H1. rewrite list_set_other in H1 by auto.
      destruct (nth_error (h_objs h) rhs); [|discriminate]. cbn in *. congruence. }
    subst v0. rewrite (terms_constant _ _ _ _ _ H0) in H2. rewrite Ta in H2. injection H2 as <-.
    split.
    + eapply step_trans; [eapply set_constant_step; eauto|eapply mutate_terms_step; eauto].
    + split; [now left|]. eexists; split; [reflexivity|].
      pose proof (set_constant_value _ _ _ _ _ H0 Ha) as Hv.
      rewrite (mutate_terms_value _ _ _ _ _ H3 Hv). rewrite Ea. reflexivity.
Qed.

(** what a new object leaves alone *)
Lemma fresh_unchanged h e h' : step (length (h_objs h)) (fst (h_new h e)) h' ->
  step (length (h_objs h)) h h'.
Proof. intros H. eapply step_trans; [apply new_step|exact H]. Qed.

Lemma new_old_value h e j v : separated h -> h_value h j = Ok v -> h_value (fst (h_new h e)) j = Ok v.
Proof.
  intros Hs Hv. destruct (value_parts _ _ _ Hv) as (_ & _ & Hl).
  destruct (new_step (length (h_objs h)) h e Hs) as (_ & _ & H). rewrite H; auto. lia.
Qed.

Definition op_value (s : stmt) (ea eb : lin_expr) : result lin_expr :=
  match s with
  | SNew e => Ok e
  | SAdd _ _ => Ok (le_add ea eb)
  | SSub _ _ => Ok (le_sub ea eb)
  | SNeg _ => Ok (le_neg ea)
  | SMul _ _ => le_mul ea eb
  | SDiv _ _ => le_truediv ea eb
  | SIAdd _ _ => Ok (le_iadd ea eb)
  | SISub _ _ => Ok (le_isub ea eb)
  | SIMul _ _ => le_imul ea eb
  | SIDiv _ _ => le_itruediv ea eb
  end.

Definition changed (h : heap) (s : stmt) : nat :=
  match target s with Some a => a | None => length (h_objs h) end.

Lemma value_ok_ex h i : separated h -> i < length (h_objs h) -> exists e, h_value h i = Ok e.
Proof.
  intros [Hw _] Hi. rewrite h_value_unfold. destruct (nth_error (h_objs h) i) as [o|] eqn:E.
  - apply Hw in E. destruct (nth_error (h_dicts h) (o_dict o)) eqn:E'; [eauto|].
    apply nth_error_None in E'. lia.
  - apply nth_error_None in E. lia.
Qed.
Lemma get_constant_lt h i c : get_constant h i = Ok c -> i < length (h_objs h).
Proof.
  unfold get_constant. intros H. inv_bind H. apply get_obj_ok in H0. eapply nth_some_lt; eauto.
Qed.
Lemma get_terms_lt h i c : get_terms h i = Ok c -> i < length (h_objs h).
Proof.
  unfold get_terms. intros H. inv_bind H. apply get_obj_ok in H0. eapply nth_some_lt; eauto.
Qed.

Lemma mul_left_ok (va : lin_expr) :
  (exists kt, In kt (le_terms va) /\ ~ negligible [kt]) \/
  (le_terms va = [] /\ exists c, le_constant va = Fin c /\ (Qcabs c < Q2Qc (1 # 10 ^ 16))%Qc) ->
  le_terms (le_iadd le_empty va) <> [] \/ is_zero (le_constant (le_iadd le_empty va)) = true.
Proof.
  intros [(kt & Hin & Hn)|(_ & c & Hc & Hlt)].
  - left. rewrite (proj1 (empty_iadd_terms va)).
    assert (Hk : In kt (non_zero_terms (le_terms va))).
    { apply filter_In. split; [exact Hin|]. apply negb_true_iff. destruct (is_zero (snd kt)) eqn:E; [|reflexivity].
      exfalso. apply Hn. constructor; [|constructor]. now apply is_zero_true in E. }
    destruct (non_zero_terms (le_terms va)); [destruct Hk|discriminate].
  - right. apply is_zero_true. exists c. split; [|exact Hlt]. cbn [le_iadd le_empty le_constant].
    rewrite Hc. cbn. f_equal. ring.
Qed.

Lemma exec_step h s h' r : separated h -> left_not_constant h s -> exec h s = Ok (h', r) ->
  step (changed h s) h h' /\
  (target s = None -> length (h_objs h) <= r).
Proof.
  intros Hs Hl H. destruct s; cbn [exec changed target] in *.
  - injection H as <- <-. split; [exact (new_step _ h e)|]. auto.
  - unfold h_add in H. cbn [h_new] in H. inv_bind H. destruct v as [h1 r1]. cbn [fst snd] in H.
    apply iadd_step in H0. destruct H0 as (-> & Hst & _). apply iadd_step in H. destruct H as (-> & Hst2 & _).
    split; [|intros; lia]. apply (fresh_unchanged h le_empty). eapply step_trans; eauto.
  - unfold h_sub in H. cbn [h_new] in H. inv_bind H. destruct v as [h1 r1]. cbn [fst snd] in H.
    apply iadd_step in H0. destruct H0 as (-> & Hst & _). apply isub_step in H. destruct H as (-> & Hst2 & _).
    split; [|intros; lia]. apply (fresh_unchanged h le_empty). eapply step_trans; eauto.
  - unfold h_neg in H. cbn [h_new] in H. apply isub_step in H. destruct H as (-> & Hst2 & _).
    split; [|intros; lia]. apply (fresh_unchanged h le_empty). exact Hst2.
  - unfold h_mul in H. cbn [h_new] in H. inv_bind H. destruct v as [h1 r1]. cbn [fst snd] in H.
    pose proof H0 as Hia. apply iadd_step in H0. destruct H0 as (-> & Hst & Hval).
    destruct (new_step (length (h_objs h)) h le_empty Hs) as (Hs0 & _ & Hold).
    destruct (Hst Hs0) as (Hs1 & Hlen1 & Hold1).
    unfold h_iadd in Hia. inv_bind Hia. inv_bind Hia.
    assert (Hn0 : h_value (fst (h_new h le_empty)) (length (h_objs h)) = Ok le_empty) by apply (new_value h le_empty).
    destruct (value_ok_ex _ _ Hs0 (get_constant_lt _ _ _ H1)) as [ea Hea].
    specialize (Hval le_empty ea Hn0 Hea).
    unfold h_imul in H. pose proof H as Him. inv_bind H. inv_bind H. clear H.
    destruct (value_ok_ex _ _ Hs1 (get_terms_lt _ _ _ H3)) as [eb Heb].
    assert (Hleft : le_terms (le_iadd le_empty ea) <> [] \/ is_zero (le_constant (le_iadd le_empty ea)) = true).
    { destruct (Nat.eq_dec a (length (h_objs h))) as [->|Hne].
      - rewrite Hn0 in Hea. injection Hea as <-. right. reflexivity.
      - pose proof (get_constant_lt _ _ _ H1) as Hlt. cbn [h_objs] in Hlt. rewrite app_length in Hlt. cbn in Hlt.
        assert (Ha : h_value h a = Ok ea) by (rewrite <- Hold by lia; exact Hea).
        apply mul_left_ok. exact (Hl ea Ha). }
    destruct (imul_step _ _ _ _ _ Him _ _ Hval Heb Hleft) as (Hst2 & Hr & _). split.
    + apply (fresh_unchanged h le_empty). eapply step_trans; eauto.
    + intros _. destruct Hr as [->| ->]; [lia|]. cbn [h_objs] in Hlen1. rewrite app_length in Hlen1. lia.
  - unfold h_truediv in H. cbn [h_new] in H. inv_bind H. destruct v as [h1 r1]. cbn [fst snd] in H.
    apply iadd_step in H0. destruct H0 as (-> & Hst & _). apply itruediv_step in H. destruct H as (-> & Hst2 & _).
    split; [|intros; lia]. apply (fresh_unchanged h le_empty). eapply step_trans; eauto.
  - apply iadd_step in H. destruct H as (-> & Hst & _). split; [exact Hst|discriminate].
  - apply isub_step in H. destruct H as (-> & Hst & _). split; [exact Hst|discriminate].
  - pose proof H as Him. unfold h_imul in H. inv_bind H. inv_bind H. clear H.
    destruct (value_ok_ex _ _ Hs (get_terms_lt _ _ _ H0)) as [ea Hea].
    destruct (value_ok_ex _ _ Hs (get_terms_lt _ _ _ H1)) as [eb Heb].
    destruct (imul_step _ _ _ _ _ Him _ _ Hea Heb) as (Hst & Hr & _).
    + destruct (Hl ea Hea) as [(kt & Hin & _)|(He & c & Hc & Hlt)].
      * left. intros He. rewrite He in Hin. destruct Hin.
      * right. apply is_zero_true. exists c. auto.
    + split; [exact Hst|discriminate].
  - apply itruediv_step in H. destruct H as (-> & Hst & _). split; [exact Hst|discriminate].
Qed.

Lemma history_unchanged p : forall h i, separated h -> no_constant_left_factor h p ->
  i < length (h_objs h) -> ~ In (Some i) (map target p) ->
  separated (exec_all h p) /\ h_value (exec_all h p) i = h_value h i.
Proof.
  induction p as [|s p IH]; intros h i Hs Hn Hi Ht; [split; [exact Hs|reflexivity]|].
  cbn [no_constant_left_factor exec_all map] in *. destruct Hn as [Hl Hn].
  destruct (exec h s) as [[h' r]|] eqn:E.
  - destruct (exec_step _ _ _ _ Hs Hl E) as (Hst & _). destruct (Hst Hs) as (Hs' & Hlen & Hv).
    destruct (IH h' i Hs' Hn) as [H1 H2].
    + lia.
    + intros Hin. apply Ht. now right.
    + split; [exact H1|]. rewrite H2. apply Hv; [exact Hi|]. unfold changed.
      destruct (target s) as [a|] eqn:Et.
      * intros <-. apply Ht. now left.
      * lia.
  - apply IH; auto. intros Hin. apply Ht. now right.
Qed.

Lemma operators_leave_operands h s h' r : separated h -> left_not_constant h s -> target s = None ->
  exec h s = Ok (h', r) ->
  separated h' /\ length (h_objs h) <= r /\
  forall i, i < length (h_objs h) -> h_value h' i = h_value h i.
Proof.
  intros Hs Hl Ht H. destruct (exec_step _ _ _ _ Hs Hl H) as (Hst & Hr). specialize (Hr Ht).
  destruct (Hst Hs) as (Hs' & Hlen & Hv). split; [exact Hs'|]. split; [exact Hr|].
  intros i Hi. apply Hv; auto. unfold changed. rewrite Ht. lia.
Qed.

(** products whatever the left operand *)
Lemma copy_value h src dst h' e : h_copy h src dst = Ok h' -> h_value h src = Ok e ->
  h_value h' dst = Ok e /\ h_value h' src = Ok e.
Proof.
  unfold h_copy. intros H He. inv_bind H. inv_bind H. injection H as <-. apply get_obj_ok in H0, H1.
  pose proof (nth_some_lt _ _ _ H1) as Hd. rewrite !h_value_unfold in *. cbn [h_objs h_dicts]. rewrite H0 in He.
  rewrite list_set_same by exact Hd. cbn [o_dict o_constant]. split; [exact He|].
  destruct (Nat.eq_dec dst src) as [<-|Hne].
  - rewrite list_set_same by exact Hd. exact He.
  - rewrite list_set_other by exact Hne. rewrite H0. exact He.
Qed.
Lemma imul_value h self rhs h' r ea eb : self <> rhs -> h_imul h self rhs = Ok (h', r) ->
  h_value h self = Ok ea -> h_value h rhs = Ok eb ->
  exists e, le_imul ea eb = Ok e /\ h_value h' r = Ok e /\
    (le_terms ea = [] -> is_close_abs (le_constant ea) n0 (Fin EPS) = false -> h_value h' rhs = Ok e).
Proof.
  intros Hne H Ha Hb.
  destruct (value_parts _ _ _ Ha) as (Ta & Ca & La). destruct (value_parts _ _ _ Hb) as (Tb & Cb & Lb).
  destruct (le_terms ea) as [|ka ta] eqn:Ea.
  - unfold h_imul in H. rewrite Ta, Tb in H. cbn [bind] in H.
    unfold le_imul. assert (Hta : has_terms ea = false) by (unfold has_terms; now rewrite Ea). rewrite Hta. cbn [andb].
    assert (H' : (c <- get_constant h self ;;
      if is_close_abs c n0 (Fin EPS) then Ok (h_new h le_empty)
      else if is_close_abs c n1 (Fin EPS) then
        h1 <- h_copy h rhs self ;; Ok (h1, self)
      else
        cl <- get_constant h rhs ;;
        h1 <- set_constant h rhs (nmul cl c) ;;
        c1 <- get_constant h1 self ;;
        d <- get_terms h1 rhs ;;
        h2 <- mutate_terms h1 rhs (map (fun kt => (fst kt, nmul (snd kt) c1)) d) ;;
        h3 <- h_copy h2 rhs self ;;
        Ok (h3, self)) = Ok (h', r)) by (destruct (le_terms eb); exact H).
    clear H. rewrite Ca in H'. cbn [bind] in H'.
    destruct (is_close_abs (le_constant ea) n0 (Fin EPS)) eqn:E0.
    { injection H' as <- <-. exists le_empty. split; [reflexivity|]. split; [exact (new_value h le_empty)|]. intros _. discriminate. }
    destruct (is_close_abs (le_constant ea) n1 (Fin EPS)) eqn:E1.
    { inv_bind H'. injection H' as <- <-. destruct (copy_value _ _ _ _ _ H Hb). exists eb. auto. }
    rewrite Cb in H'. cbn [bind] in H'. inv_bind H'. inv_bind H'. inv_bind H'. inv_bind H'. inv_bind H'. injection H' as <- <-.
    assert (Hc : v0 = le_constant ea).
    { unfold set_constant in H. inv_bind H. injection H as <-.
      unfold get_constant, get_obj in H0, Ca. cbn [h_objs] in H0. rewrite list_set_other in H0 by auto.
      destruct (nth_error (h_objs h) self); [|discriminate]. cbn in *. congruence. }
    subst v0. rewrite (terms_constant _ _ _ _ _ H) in H1. rewrite Tb in H1. injection H1 as <-.
    pose proof (set_constant_value _ _ _ _ _ H Hb) as Hv. pose proof (mutate_terms_value _ _ _ _ _ H2 Hv) as Hv2.
    destruct (copy_value _ _ _ _ _ H3 Hv2). eexists. split; [reflexivity|]. auto.
  - destruct (imul_step _ _ _ _ _ H ea eb Ha Hb) as (_ & _ & e & He & Hv); [left; congruence|].
    exists e. split; [exact He|]. split; [exact Hv|]. congruence.
Qed.

(** the operators compute the values of LinearExpr.v *)
Lemma operator_values h a b ea eb : separated h -> h_value h a = Ok ea -> h_value h b = Ok eb ->
  (forall h' r, h_add h a b = Ok (h', r) -> h_value h' r = Ok (le_add ea eb)) /\
  (forall h' r, h_sub h a b = Ok (h', r) -> h_value h' r = Ok (le_sub ea eb)) /\
  (forall h' r, h_neg h a = Ok (h', r) -> h_value h' r = Ok (le_neg ea)) /\
  (forall h' r, h_truediv h a b = Ok (h', r) -> exists e, le_truediv ea eb = Ok e /\ h_value h' r = Ok e) /\
  (forall h' r, h_mul h a b = Ok (h', r) -> exists e, le_mul ea eb = Ok e /\ h_value h' r = Ok e /\
     (le_terms ea = [] -> (forall c, le_constant ea = Fin c -> (EPS <= Qcabs c)%Qc) -> h_value h' b = Ok e)).
Proof.
  intros Hs Ha Hb.
  pose proof (new_old_value h le_empty a ea Hs Ha) as Ha0. pose proof (new_old_value h le_empty b eb Hs Hb) as Hb0.
  pose proof (new_value h le_empty) as Hn.
  destruct (new_step 0 h le_empty Hs) as (Hs0 & _ & _).
  destruct (value_parts _ _ _ Hb) as (_ & _ & Lb).
  assert (Hlast : forall h1 r, h_iadd (fst (h_new h le_empty)) (snd (h_new h le_empty)) a = Ok (h1, r) ->
    r = length (h_objs h) /\ h_value h1 r = Ok (le_iadd le_empty ea) /\ h_value h1 b = Ok eb).
  { intros h1 r H. apply iadd_step in H. destruct H as (-> & Hst & Hv). split; [reflexivity|].
    split; [now apply Hv|]. destruct (Hst Hs0) as (_ & _ & Hold). rewrite Hold; auto.
    - cbn. rewrite app_length. lia.
    - cbn. lia. }
  split; [|split; [|split; [|split]]].
  - intros h' r H. unfold h_add in H. destruct (h_new h le_empty) as [h0 r0] eqn:En. cbn [fst snd] in *.
    inv_bind H. destruct v as [h1 r1]. destruct (Hlast _ _ H0) as (-> & H1 & H2). cbn [fst snd] in H.
    apply iadd_step in H. destruct H as (-> & _ & Hv). now apply Hv.
  - intros h' r H. unfold h_sub in H. destruct (h_new h le_empty) as [h0 r0] eqn:En. cbn [fst snd] in *.
    inv_bind H. destruct v as [h1 r1]. destruct (Hlast _ _ H0) as (-> & H1 & H2). cbn [fst snd] in H.
    apply isub_step in H. destruct H as (-> & _ & Hv). now apply Hv.
  - intros h' r H. unfold h_neg in H. destruct (h_new h le_empty) as [h0 r0] eqn:En. cbn [fst snd] in *.
    apply isub_step in H. destruct H as (-> & _ & Hv). now apply Hv.
  - intros h' r H. unfold h_truediv in H. destruct (h_new h le_empty) as [h0 r0] eqn:En. cbn [fst snd] in *.
    inv_bind H. destruct v as [h1 r1]. destruct (Hlast _ _ H0) as (-> & H1 & H2). cbn [fst snd] in H.
    apply itruediv_step in H. destruct H as (-> & _ & Hv). now apply Hv.
  - intros h' r H. unfold h_mul in H. destruct (h_new h le_empty) as [h0 r0] eqn:En. cbn [fst snd] in *.
    inv_bind H. destruct v as [h1 r1]. destruct (Hlast _ _ H0) as (-> & H1 & H2). cbn [fst snd] in H.
    destruct (imul_value _ _ _ _ _ _ _ (fun E => Nat.lt_irrefl _ (Nat.lt_le_trans _ _ _ Lb (Nat.eq_le_incl _ _ E))) H H1 H2) as (e & E1 & E2 & E3).
    exists e. split; [exact E1|]. split; [exact E2|]. intros Ht Hc. apply E3.
    + rewrite (proj1 (empty_iadd_terms ea)), Ht. reflexivity.
    + cbn [le_iadd le_constant le_empty]. destruct (is_close_abs _ n0 (Fin EPS)) eqn:E; [|reflexivity]. exfalso.
      apply is_close_0 in E. destruct E as (c & Ec & Hl). cbn [le_iadd le_constant le_empty] in Ec.
      destruct (le_constant ea) as [q| | |]; try discriminate Ec. cbn in Ec. injection Ec as <-. specialize (Hc q eq_refl).
      replace (0 + q - 0)%Qc with q in Hl by ring. exact (Qcle_not_lt _ _ Hc Hl).
Qed.
