(** Lemmas about the base layer. *)
From Coq Require Import Lia Lqa Permutation.
From Verif Require Import Base.

(** ** Rationals *)
Lemma Qcleb_le a b : Qcleb a b = true <-> (a <= b)%Qc.
Proof. unfold Qcleb, Qcle. apply Qle_bool_iff. Qed.

Lemma Qcleb_gt a b : Qcleb a b = false <-> (b < a)%Qc.
Proof.
  unfold Qcleb, Qclt. split; intros H.
  - apply Qnot_le_lt. intros H'. apply Qle_bool_iff in H'. congruence.
  - destruct (Qle_bool a b) eqn:E; auto. apply Qle_bool_iff in E.
    apply Qle_not_lt in E. contradiction.
Qed.

Lemma Qcltb_lt a b : Qcltb a b = true <-> (a < b)%Qc.
Proof.
  unfold Qcltb. rewrite negb_true_iff. change (Qle_bool b a) with (Qcleb b a).
  apply Qcleb_gt.
Qed.

Lemma Qcltb_ge a b : Qcltb a b = false <-> (b <= a)%Qc.
Proof.
  unfold Qcltb. rewrite negb_false_iff. change (Qle_bool b a) with (Qcleb b a).
  apply Qcleb_le.
Qed.

Lemma Qceqb_eq a b : Qceqb a b = true <-> a = b.
Proof.
  unfold Qceqb. split; intros H.
  - apply Qc_is_canon. apply Qeq_bool_iff. exact H.
  - subst. apply Qeq_bool_iff. apply Qeq_refl.
Qed.

Lemma Qceqb_refl a : Qceqb a a = true.
Proof. apply Qceqb_eq; reflexivity. Qed.

Lemma Qceqb_neq a b : Qceqb a b = false <-> a <> b.
Proof.
  split; intros H.
  - intros ->. rewrite Qceqb_refl in H. discriminate.
  - destruct (Qceqb a b) eqn:E; auto. apply Qceqb_eq in E. contradiction.
Qed.

Lemma Qceqb_sym a b : Qceqb a b = Qceqb b a.
Proof.
  destruct (Qceqb a b) eqn:E; symmetry.
  - apply Qceqb_eq in E. subst. apply Qceqb_refl.
  - apply Qceqb_neq. apply Qceqb_neq in E. congruence.
Qed.

(** Linear arithmetic over [Qc] by translation to [Q]. *)
Lemma Qc_eq_Q (a b : Qc) : a = b <-> (a == b)%Q.
Proof. split; [intros ->; apply Qeq_refl | apply Qc_is_canon]. Qed.

Lemma Qcplus_Q (a b : Qc) : (this (a + b)%Qc == this a + this b)%Q.
Proof. apply Qred_correct. Qed.
Lemma Qcminus_Q (a b : Qc) : (this (a - b)%Qc == this a - this b)%Q.
Proof. unfold Qcminus, Qcplus, Qcopp, Q2Qc; cbn [this]. rewrite !Qred_correct. reflexivity. Qed.
Lemma Qcopp_Q (a : Qc) : (this (- a)%Qc == - this a)%Q.
Proof. apply Qred_correct. Qed.
Lemma Qcmult_Q (a b : Qc) : (this (a * b)%Qc == this a * this b)%Q.
Proof. apply Qred_correct. Qed.
Lemma Qcinv_Q (a : Qc) : (this (/ a)%Qc == / this a)%Q.
Proof. apply Qred_correct. Qed.
Lemma Qcdiv_Q (a b : Qc) : (this (a / b)%Qc == this a / this b)%Q.
Proof. unfold Qcdiv. rewrite Qcmult_Q, Qcinv_Q. reflexivity. Qed.

Ltac qc2q :=
  unfold Qclt, Qcle in *;
  repeat match goal with
  | H : @eq Qc ?a ?b |- _ => rewrite Qc_eq_Q in H
  | |- @eq Qc ?a ?b => rewrite Qc_eq_Q
  | |- context [this (?a + ?b)%Qc] => rewrite (Qcplus_Q a b)
  | |- context [this (?a - ?b)%Qc] => rewrite (Qcminus_Q a b)
  | |- context [this (- ?a)%Qc] => rewrite (Qcopp_Q a)
  | |- context [this (?a * ?b)%Qc] => rewrite (Qcmult_Q a b)
  | |- context [this (?a / ?b)%Qc] => rewrite (Qcdiv_Q a b)
  | H : context [this (?a + ?b)%Qc] |- _ => rewrite (Qcplus_Q a b) in H
  | H : context [this (?a - ?b)%Qc] |- _ => rewrite (Qcminus_Q a b) in H
  | H : context [this (- ?a)%Qc] |- _ => rewrite (Qcopp_Q a) in H
  | H : context [this (?a * ?b)%Qc] |- _ => rewrite (Qcmult_Q a b) in H
  | H : context [this (?a / ?b)%Qc] |- _ => rewrite (Qcdiv_Q a b) in H
  end;
  change (this 0%Qc) with 0%Q in *; change (this 1%Qc) with 1%Q in *.
(** closes goals between concrete rationals or results of computations on them *)
Ltac qcex :=
  vm_compute;
  first [ reflexivity
        | apply Qc_is_canon; reflexivity
        | apply f_equal; apply Qc_is_canon; reflexivity
        | do 2 apply f_equal; apply Qc_is_canon; reflexivity
        | try f_equal; try f_equal; try (apply Qc_is_canon; reflexivity) ].
Ltac qclra := qc2q; lra.

Lemma Z2Qc_this z : (this (Z2Qc z) == inject_Z z)%Q.
Proof. apply Qred_correct. Qed.

Lemma Z2Qc_0 : Z2Qc 0 = 0%Qc.
Proof. apply Qc_is_canon. reflexivity. Qed.
Lemma Z2Qc_1 : Z2Qc 1 = 1%Qc.
Proof. apply Qc_is_canon. reflexivity. Qed.
Lemma Z2Qc_add a b : Z2Qc (a + b) = (Z2Qc a + Z2Qc b)%Qc.
Proof.
  apply Qc_is_canon. rewrite Qcplus_Q, !Z2Qc_this, inject_Z_plus. reflexivity.
Qed.
Lemma Z2Qc_opp a : Z2Qc (- a) = (- Z2Qc a)%Qc.
Proof.
  apply Qc_is_canon. rewrite Qcopp_Q, !Z2Qc_this, inject_Z_opp. reflexivity.
Qed.
Lemma Z2Qc_mul a b : Z2Qc (a * b) = (Z2Qc a * Z2Qc b)%Qc.
Proof.
  apply Qc_is_canon. rewrite Qcmult_Q, !Z2Qc_this, inject_Z_mult. reflexivity.
Qed.
Lemma Z2Qc_sub a b : Z2Qc (a - b) = (Z2Qc a - Z2Qc b)%Qc.
Proof. unfold Z.sub, Qcminus. rewrite Z2Qc_add, Z2Qc_opp. reflexivity. Qed.
Lemma Z2Qc_inj a b : Z2Qc a = Z2Qc b -> a = b.
Proof.
  intros H. apply Qc_eq_Q in H. rewrite !Z2Qc_this in H. now apply inject_Z_injective.
Qed.
Lemma Z2Qc_le a b : (Z2Qc a <= Z2Qc b)%Qc <-> (a <= b)%Z.
Proof. unfold Qcle. rewrite !Z2Qc_this. rewrite <- Zle_Qle. reflexivity. Qed.
Lemma Z2Qc_lt a b : (Z2Qc a < Z2Qc b)%Qc <-> (a < b)%Z.
Proof. unfold Qclt. rewrite !Z2Qc_this. rewrite <- Zlt_Qlt. reflexivity. Qed.
Lemma Z2Qc_nonzero a : a <> 0%Z -> Z2Qc a <> 0%Qc.
Proof. intros H E. apply H. apply Z2Qc_inj. rewrite E, Z2Qc_0. reflexivity. Qed.

Lemma Qcabs_nonneg a : (0 <= Qcabs a)%Qc.
Proof.
  unfold Qcabs. destruct (Qcleb 0 a) eqn:E.
  - apply Qcleb_le in E; exact E.
  - apply Qcleb_gt in E. qclra.
Qed.
Lemma Qcabs_opp a : Qcabs (- a) = Qcabs a.
Proof.
  unfold Qcabs. destruct (Qcleb 0 a) eqn:E, (Qcleb 0 (- a)) eqn:F;
    rewrite ?Qcleb_le, ?Qcleb_gt in *; qclra.
Qed.
Lemma Qcabs_0 : Qcabs 0 = 0%Qc.
Proof. reflexivity. Qed.
Lemma Qcabs_eq_0 a : Qcabs a = 0%Qc -> a = 0%Qc.
Proof.
  unfold Qcabs. destruct (Qcleb 0 a) eqn:E; auto. intros H. qclra.
Qed.
Lemma Qcabs_lt a b : (Qcabs a < b)%Qc <-> (- b < a)%Qc /\ (a < b)%Qc.
Proof.
  unfold Qcabs. destruct (Qcleb 0 a) eqn:E; rewrite ?Qcleb_le, ?Qcleb_gt in *; split;
    [intros H; split | intros [H1 H2] | intros H; split | intros [H1 H2]]; qclra.
Qed.
Lemma Qcabs_le a b : (Qcabs a <= b)%Qc <-> (- b <= a)%Qc /\ (a <= b)%Qc.
Proof.
  unfold Qcabs. destruct (Qcleb 0 a) eqn:E; rewrite ?Qcleb_le, ?Qcleb_gt in *; split;
    [intros H; split | intros [H1 H2] | intros H; split | intros [H1 H2]]; qclra.
Qed.
Lemma Qcabs_sub_sym a b : Qcabs (a - b) = Qcabs (b - a).
Proof. rewrite <- (Qcabs_opp (b - a)). f_equal. ring. Qed.

(** ** Numbers *)
Lemma nadd_comm a b : nadd a b = nadd b a.
Proof. destruct a, b; cbn; try reflexivity. f_equal; ring. Qed.

Lemma nadd_assoc a b c : nadd a (nadd b c) = nadd (nadd a b) c.
Proof. destruct a, b, c; cbn; try reflexivity. f_equal; ring. Qed.

Lemma nadd_0_l a : nadd n0 a = a.
Proof. destruct a; cbn; try reflexivity. f_equal; ring. Qed.
Lemma nadd_0_r a : nadd a n0 = a.
Proof. rewrite nadd_comm. apply nadd_0_l. Qed.
Lemma nneg_add a b : nneg (nadd a b) = nadd (nneg a) (nneg b).
Proof. destruct a, b; cbn; try reflexivity. f_equal; ring. Qed.
Lemma nneg_nneg a : nneg (nneg a) = a.
Proof. destruct a; cbn; try reflexivity. f_equal; ring. Qed.

Lemma neqb_refl a : a <> NaN -> neqb a a = true.
Proof. destruct a; cbn; intros; try reflexivity; [apply Qceqb_refl | congruence]. Qed.
Lemma neqb_eq a b : neqb a b = true -> a = b.
Proof. destruct a, b; cbn; try congruence. intros H. apply Qceqb_eq in H. congruence. Qed.
Lemma neqb_sym a b : neqb a b = neqb b a.
Proof. destruct a, b; cbn; try reflexivity. apply Qceqb_sym. Qed.
Lemma nabs_nneg a : nabs (nneg a) = nabs a.
Proof. destruct a; cbn; try reflexivity. f_equal. apply Qcabs_opp. Qed.
Lemma nsub_anti a b : nsub a b = nneg (nsub b a).
Proof.
  unfold nsub. rewrite nneg_add, nneg_nneg, nadd_comm. reflexivity.
Qed.

(** ** Monad *)
Lemma bind_ok {A B} (x : result A) (f : A -> result B) b :
  bind x f = Ok b <-> exists a, x = Ok a /\ f a = Ok b.
Proof.
  split.
  - destruct x as [a|e]; cbn; [eauto | discriminate].
  - intros (a & -> & H). exact H.
Qed.

Ltac inv_bind H :=
  let a := fresh "v" in let H1 := fresh "H" in
  apply bind_ok in H; destruct H as (a & H1 & H).

Lemma mapM_ok {A B} (f : A -> result B) l bs :
  mapM f l = Ok bs <-> Forall2 (fun a b => f a = Ok b) l bs.
Proof.
  revert bs. induction l as [|a l IH]; cbn; intros bs; split; intros H.
  - injection H as <-. constructor.
  - inversion H; reflexivity.
  - inv_bind H. inv_bind H. injection H as <-. constructor; auto. now apply IH.
  - inversion H as [|? ? ? ? Ha Hl]; subst. rewrite Ha. cbn.
    apply IH in Hl. rewrite Hl. reflexivity.
Qed.

Lemma Forall2_len {A B} (R : A -> B -> Prop) l l' : Forall2 R l l' -> length l = length l'.
Proof. induction 1; cbn; congruence. Qed.

Lemma mapM_length {A B} (f : A -> result B) l bs :
  mapM f l = Ok bs -> length bs = length l.
Proof. intros H. apply mapM_ok in H. symmetry. eapply Forall2_len; eauto. Qed.

Lemma mapM_ext {A B} (f g : A -> result B) l :
  Forall (fun a => f a = g a) l -> mapM f l = mapM g l.
Proof.
  induction 1 as [|a l Ha Hl IH]; cbn; [reflexivity|]. rewrite Ha, IH. reflexivity.
Qed.

Lemma mapM_app {A B} (f : A -> result B) l1 l2 :
  mapM f (l1 ++ l2) = (x <- mapM f l1 ;; y <- mapM f l2 ;; Ok (x ++ y)).
Proof.
  induction l1 as [|a l IH]; cbn.
  - destruct (mapM f l2); reflexivity.
  - destruct (f a); cbn; [|reflexivity]. rewrite IH.
    destruct (mapM f l); cbn; [|reflexivity]. destruct (mapM f l2); reflexivity.
Qed.

Lemma mapM_err {A B} (f : A -> result B) l e :
  mapM f l = Err e -> exists a, In a l /\ f a = Err e.
Proof.
  induction l as [|a l IH]; cbn; [discriminate|].
  destruct (f a) eqn:E; cbn.
  - destruct (mapM f l); cbn; [discriminate|]. intros H. injection H as <-.
    destruct (IH eq_refl) as (x & Hx & Hf). eauto.
  - intros H. injection H as <-. eauto.
Qed.

(** ** Dicts *)
Section DictFacts.
  Context {K V : Type} (eqb : K -> K -> bool).
  Hypothesis eqb_eq : forall a b, eqb a b = true <-> a = b.

  Lemma eqb_refl' a : eqb a a = true.
  Proof. apply eqb_eq; reflexivity. Qed.

  Lemma dget_dset_same k (v : V) d : dget eqb k (dset eqb k v d) = Some v.
  Proof.
    induction d as [|[k' v'] d IH]; cbn; [now rewrite eqb_refl'|].
    destruct (eqb k k') eqn:E; cbn; rewrite E; auto.
  Qed.

  Lemma dget_dset_other k k0 (v : V) d : k <> k0 -> dget eqb k (dset eqb k0 v d) = dget eqb k d.
  Proof.
    intros Hne. induction d as [|[k' v'] d IH]; cbn.
    - destruct (eqb k k0) eqn:E; auto. apply eqb_eq in E. contradiction.
    - destruct (eqb k0 k') eqn:E; cbn.
      + apply eqb_eq in E. subst k'. destruct (eqb k k0) eqn:E2; auto.
        apply eqb_eq in E2. contradiction.
      + destruct (eqb k k'); auto.
  Qed.

  Lemma dget_In k (v : V) d : dget eqb k d = Some v -> In (k, v) d.
  Proof.
    induction d as [|[k' v'] d IH]; cbn; [discriminate|].
    destruct (eqb k k') eqn:E; intros H.
    - injection H as <-. apply eqb_eq in E. subst. now left.
    - right. auto.
  Qed.

  Lemma dget_None k d : dget (V:=V) eqb k d = None <-> ~ In k (map fst d).
  Proof.
    induction d as [|[k' v'] d IH]; cbn; [tauto|].
    destruct (eqb k k') eqn:E.
    - apply eqb_eq in E. subst. split; [discriminate|]. intros H. exfalso. auto.
    - rewrite IH. split; intros H.
      + intros [H1|H1]; [|auto]. subst. rewrite eqb_refl' in E. discriminate.
      + intros H1. apply H. now right.
  Qed.

  Lemma In_dget_nodup k (v : V) d :
    NoDup (map fst d) -> In (k, v) d -> dget eqb k d = Some v.
  Proof.
    induction d as [|[k' v'] d IH]; cbn; [tauto|]. intros Hnd [H|H].
    - injection H as -> ->. now rewrite eqb_refl'.
    - inversion Hnd as [|? ? Hni Hnd']; subst. destruct (eqb k k') eqn:E.
      + apply eqb_eq in E. subst. exfalso. apply Hni. now apply in_map with (f:=fst) in H.
      + auto.
  Qed.

  Lemma dset_keys k (v : V) d :
    map fst (dset eqb k v d) = if dmem eqb k d then map fst d else map fst d ++ [k].
  Proof.
    unfold dmem. induction d as [|[k' v'] d IH]; cbn; [reflexivity|].
    destruct (eqb k k') eqn:E; cbn; [reflexivity|]. rewrite IH.
    destruct (dget eqb k d); reflexivity.
  Qed.

  Lemma dmem_In k d : dmem (V:=V) eqb k d = true <-> In k (map fst d).
  Proof.
    unfold dmem. destruct (dget eqb k d) eqn:E.
    - split; [|reflexivity]. intros _. apply dget_In in E. now apply in_map with (f:=fst) in E.
    - split; [discriminate|]. intros H. apply dget_None in E. contradiction.
  Qed.

  Lemma dset_nodup k (v : V) d : NoDup (map fst d) -> NoDup (map fst (dset eqb k v d)).
  Proof.
    intros H. rewrite dset_keys. destruct (dmem eqb k d) eqn:E; auto.
    apply NoDup_rev in H. rewrite <- (rev_involutive (map fst d ++ [k])).
    apply NoDup_rev. rewrite rev_app_distr. cbn. constructor; auto.
    rewrite <- in_rev. intros Hin. apply dmem_In in Hin. congruence.
  Qed.
End DictFacts.

Lemma zrange_In a b x : In x (zrange a b) <-> (a <= x < b)%Z.
Proof.
  unfold zrange. rewrite in_map_iff. split.
  - intros (i & <- & Hi). apply in_seq in Hi. lia.
  - intros H. exists (Z.to_nat (x - a)). split; [lia|]. apply in_seq. lia.
Qed.

Lemma zrange_nodup a b : NoDup (zrange a b).
Proof.
  unfold zrange. apply FinFun.Injective_map_NoDup; [|apply seq_NoDup].
  intros i j H. lia.
Qed.

Lemma zrange_length a b : length (zrange a b) = Z.to_nat (b - a).
Proof. unfold zrange. rewrite map_length, seq_length. reflexivity. Qed.

Lemma zrange_empty a b : (b <= a)%Z -> zrange a b = [].
Proof. intros H. unfold zrange. replace (Z.to_nat (b - a)) with 0%nat by lia. reflexivity. Qed.

Lemma zrange_shift a b k : zrange (a + k) (b + k) = map (fun x => (x + k)%Z) (zrange a b).
Proof.
  unfold zrange. rewrite map_map. replace (b + k - (a + k))%Z with (b - a)%Z by lia.
  apply map_ext. intros i. lia.
Qed.
Lemma zrange_cons a b : (a < b)%Z -> zrange a b = a :: zrange (a + 1) b.
Proof.
  intros H. unfold zrange.
  replace (Z.to_nat (b - a)) with (S (Z.to_nat (b - (a + 1)))) by lia.
  cbn [seq map]. f_equal; [lia|]. rewrite <- seq_shift, map_map. apply map_ext. intros i. lia.
Qed.
Lemma zrange_snoc a b : (a <= b)%Z -> zrange a (b + 1) = zrange a b ++ [b].
Proof.
  intros H. unfold zrange.
  replace (Z.to_nat (b + 1 - a)) with (Z.to_nat (b - a) + 1)%nat by lia.
  rewrite seq_app, map_app. cbn. do 2 f_equal. lia.
Qed.
