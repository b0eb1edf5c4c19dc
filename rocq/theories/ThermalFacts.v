(** Facts about the preprocessing of thermal clusters (C43). *)
From Coq Require Import Lia Qround.
From Verif Require Import Base BaseFacts Study Thermal SpecThermal.
Local Open Scope string_scope.
Local Open Scope list_scope.

(** ** Unit counts *)
Definition units (size p : Qc) : Z := Qceiling (this (p / size)%Qc).
Lemma ceil_bounds q : (Z2Qc (Qceiling (this q)) - 1 < q /\ q <= Z2Qc (Qceiling (this q)))%Qc.
Proof.
  split.
  - rewrite <- Z2Qc_1, <- Z2Qc_sub. unfold Qclt. rewrite Z2Qc_this. apply Qceiling_lt.
  - unfold Qcle. rewrite Z2Qc_this. apply Qle_ceiling.
Qed.
Lemma div_mul p size : (0 < size)%Qc -> (p / size * size = p)%Qc.
Proof. intros H. field. intros E. rewrite E in H. now apply Qclt_not_eq in H. Qed.
Lemma mul_lt a b size : (0 < size)%Qc -> (a < b)%Qc -> (a * size < b * size)%Qc.
Proof. intros H L. apply Qcmult_lt_compat_r; assumption. Qed.
Lemma mul_le a b size : (0 < size)%Qc -> (a <= b)%Qc -> (a * size <= b * size)%Qc.
Proof. intros H L. apply Qcmult_le_compat_r; [exact L|]. now apply Qclt_le_weak. Qed.
Lemma units_cover size p : (0 < size)%Qc -> covers size p (units size p).
Proof.
  intros H. unfold covers, units. destruct (ceil_bounds (p / size)) as [A B].
  apply (mul_lt _ _ _ H) in A. apply (mul_le _ _ _ H) in B. rewrite (div_mul p size H) in A, B. auto.
Qed.
Lemma count_units size p : (0 < size)%Qc -> np_ceil (np_div (Fin p) (Fin size)) = Fin (Z2Qc (units size p)).
Proof.
  intros H. unfold np_div, ndiv. assert (E : Qceqb size 0 = false).
  { destruct (Qceqb size 0) eqn:E; [|reflexivity]. apply Qceqb_eq in E. subst. now apply Qclt_not_eq in H. }
  rewrite E. reflexivity.
Qed.
Lemma covers_mono size p q k l : (0 < size)%Qc -> covers size p k -> covers size q l -> (p <= q)%Qc -> (k <= l)%Z.
Proof.
  intros H [A _] [_ B] L. destruct (Z.le_gt_cases k l) as [K|K]; [exact K|exfalso].
  assert (K' : (Z2Qc l <= Z2Qc k - 1)%Qc) by (rewrite <- Z2Qc_1, <- Z2Qc_sub; apply Z2Qc_le; lia).
  apply (mul_le _ _ _ H) in K'. qclra.
Qed.
Lemma covers_unique size p k l : (0 < size)%Qc -> covers size p k -> covers size p l -> k = l.
Proof. intros H A B. assert (L : (p <= p)%Qc) by apply Qcle_refl. apply Z.le_antisymm; eapply covers_mono; eauto. Qed.

(** ** Tables *)
Lemma cell_In t i j v : at_cell t i j = Some v -> exists row, nth_error (tb_rows t) i = Some row /\ nth_error row j = Some v.
Proof. unfold at_cell. destruct (nth_error (tb_rows t) i); [eauto|discriminate]. Qed.
Lemma each_cell f t i j v : at_cell t i j = Some v -> at_cell (each f t) i j = Some (f v).
Proof.
  unfold at_cell, each. cbn. rewrite nth_error_map. destruct (nth_error (tb_rows t) i) as [row|]; [|discriminate]. cbn.
  rewrite nth_error_map. now intros ->.
Qed.
Lemma each_shape f t n m : shape t n m -> shape (each f t) n m.
Proof.
  intros (A & B & C). unfold shape, each. cbn. rewrite map_length. split; [exact A|]. split; [exact B|].
  intros row H. apply in_map_iff in H as (r & <- & H). rewrite map_length. auto.
Qed.
Lemma units_values c n m modulation power size : (0 < size)%Qc -> regular c n m modulation power size ->
  has_values (nb_units_max c) n m (fun i j => Z2Qc (units size (power i j))).
Proof.
  intros H [ [S V] _ _ _ Z]. split; [now apply each_shape|]. intros i j Hi Hj. unfold nb_units_max.
  rewrite (each_cell _ _ _ _ _ (V i j Hi Hj)), Z, count_units by exact H. reflexivity.
Qed.

(** ** The least power *)
Lemma nltb_fin a b : nltb (Fin a) (Fin b) = true <-> (a < b)%Qc.
Proof.
  unfold nltb. cbn [nleb neqb]. rewrite andb_true_iff, negb_true_iff, Qcleb_le. split.
  - intros [L E]. destruct (Qc_eq_dec a b) as [->|N]; [|now apply Qcle_lt_or_eq in L as [L|L]]. assert (K : Qceqb b b = true) by now apply Qceqb_eq. congruence.
  - intros L. split; [now apply Qclt_le_weak|]. destruct (Qceqb a b) eqn:E; [|reflexivity]. apply Qceqb_eq in E. subst. now apply Qclt_not_eq in L.
Qed.
Lemma nltb_fin_false a b : nltb (Fin a) (Fin b) = false -> (b <= a)%Qc.
Proof. intros E. destruct (Qclt_le_dec a b) as [K|K]; [|exact K]. apply nltb_fin in K. congruence. Qed.
Lemma nth_ext_error {A} (l : list A) : forall l', (forall j, nth_error l j = nth_error l' j) -> l = l'.
Proof.
  induction l as [|a l IH]; intros [|b l'] H; [reflexivity|specialize (H 0%nat); discriminate|specialize (H 0%nat); discriminate|].
  f_equal; [specialize (H 0%nat); now injection H|]. apply IH. intros j. exact (H (S j)).
Qed.
Lemma row_min_fin l : forall a, exists q, fold_left (fun acc x => match acc with NaN => x | _ => if nltb x acc then x else acc end) (map Fin l) (Fin a) = Fin q /\
  (q <= a)%Qc /\ (forall x, In x l -> (q <= x)%Qc) /\ (q = a \/ In q l).
Proof.
  induction l as [|x l IH]; intros a; cbn [map fold_left].
  - exists a. split; [reflexivity|]. split; [apply Qcle_refl|]. split; [intros ? []|now left].
  - destruct (nltb (Fin x) (Fin a)) eqn:E.
    + apply nltb_fin in E. destruct (IH x) as (q & Eq & A & B & C). exists q. split; [exact Eq|]. split; [qclra|]. split.
      * intros y [<-|Hy]; auto.
      * right. destruct C as [->|C]; [now left|now right].
    + apply nltb_fin_false in E. destruct (IH a) as (q & Eq & A & B & C). exists q. split; [exact Eq|]. split; [exact A|]. split.
      * intros y [<-|Hy]; [qclra|auto].
      * destruct C as [->|C]; [now left|right; now right].
Qed.
Lemma nth_default {A} (l : list A) i d v : nth_error l i = Some v -> nth i l d = v.
Proof. revert i. induction l as [|a l IH]; intros [|i]; cbn; try discriminate; [congruence|apply IH]. Qed.
Definition modulated (c : cluster) (size m : Qc) : Qc := (m * size * Z2Qc (th_unit_count c))%Qc.
Lemma finite_row row m (f : nat -> Qc) : List.length row = m -> (forall j, (j < m)%nat -> nth_error row j = Some (Fin (f j))) -> row = map Fin (map f (seq 0 m)).
Proof.
  intros L H. apply nth_ext_error. intros j. rewrite !nth_error_map. destruct (Nat.lt_ge_cases j m) as [K|K].
  - rewrite (H j K). rewrite (nth_error_nth' (seq 0 m) 0%nat) by now rewrite seq_length. rewrite seq_nth by exact K. reflexivity.
  - assert (E1 : nth_error row j = None) by (apply nth_error_None; lia). assert (E2 : nth_error (seq 0 m) j = None) by (apply nth_error_None; rewrite seq_length; lia).
    now rewrite E1, E2.
Qed.
Lemma p_min_values c n m modulation power size : regular c n m modulation power size ->
  exists t p, p_min_cluster c = Ok t /\ has_values t n 1 (fun i _ => p i) /\
    forall i, (i < n)%nat -> smallest (p i) (modulated c size (modulation i)) m (power i).
Proof.
  intros [[(S1 & S2 & S3) V] W R M Z]. unfold p_min_cluster, column.
  destruct (Nat.ltb_spec 3 (tb_width (th_modulation c))) as [_|K]; [|lia]. cbn [bind]. rewrite !map_length, R, S1, Nat.max_id, Z.
  set (scaled := map _ (map _ (tb_rows (th_modulation c)))).
  assert (Hs : forall i, (i < n)%nat -> nth i scaled NaN = Fin (modulated c size (modulation i))).
  { intros i Hi. apply nth_default. unfold scaled. rewrite !nth_error_map. destruct (cell_In _ _ _ _ (M i Hi)) as (row & Er & Ev). rewrite Er. cbn.
    rewrite (nth_default _ _ NaN _ Ev). reflexivity. }
  assert (Hm : forall i, (i < n)%nat -> exists q, row_min (concat_row scaled (th_series c) i) = Fin q /\ smallest q (modulated c size (modulation i)) m (power i)).
  { intros i Hi. unfold concat_row. rewrite (Hs i Hi).
    assert (Er : exists row, nth_error (tb_rows (th_series c)) i = Some row) by (destruct (nth_error (tb_rows (th_series c)) i) eqn:E; [eauto|apply nth_error_None in E; lia]).
    destruct Er as (row & Er). rewrite (nth_default _ _ _ _ Er).
    rewrite (finite_row row m (power i)).
    - destruct (row_min_fin (map (power i) (seq 0 m)) (modulated c size (modulation i))) as (q & Eq & A & B & C).
      exists q. split; [exact Eq|]. split; [exact A|]. split.
      + intros j Hj. apply B. apply in_map_iff. exists j. split; [reflexivity|]. apply in_seq. lia.
      + destruct C as [C|C]; [now left|right]. apply in_map_iff in C as (j & <- & Hj). apply in_seq in Hj. exists j. split; [lia|reflexivity].
    - apply S3. exact (nth_error_In _ _ Er).
    - intros j Hj. specialize (V i j Hi Hj). unfold at_cell in V. now rewrite Er in V. }
  set (p := fun i => match row_min (concat_row scaled (th_series c) i) with Fin q => q | _ => 0%Qc end).
  eexists _, p. split; [reflexivity|]. split.
  - split; [split; [cbn; now rewrite map_length, seq_length|split; [reflexivity|]]|].
    + cbn. intros row H. apply in_map_iff in H as (i & <- & _). reflexivity.
    + intros i j Hi Hj. unfold at_cell. cbn [tb_rows]. rewrite nth_error_map, (nth_error_nth' (seq 0 n) 0%nat) by now rewrite seq_length.
      rewrite seq_nth by exact Hi. cbn [option_map plus]. assert (j = 0)%nat by lia. subst j. cbn [nth_error]. unfold p.
      destruct (Hm i Hi) as (q & -> & _). reflexivity.
  - intros i Hi. unfold p. destruct (Hm i Hi) as (q & -> & Hq). exact Hq.
Qed.
Lemma units_min_values c n m modulation power size : (0 < size)%Qc -> regular c n m modulation power size ->
  exists t p, nb_units_min c = Ok t /\ has_values t n 1 (fun i _ => Z2Qc (units size (p i))) /\
    forall i, (i < n)%nat -> smallest (p i) (modulated c size (modulation i)) m (power i).
Proof.
  intros H G. destruct (p_min_values _ _ _ _ _ _ G) as (t & p & E & [S V] & Hp). unfold nb_units_min. rewrite E. cbn [bind].
  eexists _, p. split; [reflexivity|]. split; [|exact Hp]. split; [now apply each_shape|]. intros i j Hi Hj.
  rewrite (each_cell _ _ _ _ _ (V i j Hi Hj)), (rg_size _ _ _ _ _ _ G), count_units by exact H. reflexivity.
Qed.

(** ** Previous hours *)
Definition used_before (n period i : nat) : nat := if Nat.eqb i 0 then 0%nat else hour_before n period i.
Lemma previous_hour n period i : (0 < period)%nat -> (i < n)%nat -> previous_index n (Z.of_nat period) i = Z.of_nat (used_before n period i).
Proof.
  intros Hp Hi. unfold previous_index, used_before, hour_before, np_mod, np_floordiv.
  destruct (Nat.eqb_spec i 0) as [->|Hi0]; [reflexivity|]. destruct (Z.eqb_spec (Z.of_nat i) 0) as [K|_]; [lia|].
  destruct (Z.eqb_spec (Z.of_nat period) 0) as [K|_]; [lia|].
  assert (D : (Z.of_nat i = Z.of_nat period * (Z.of_nat i / Z.of_nat period) + Z.of_nat i mod Z.of_nat period)%Z) by (apply Z.div_mod; lia).
  assert (B : (0 <= Z.of_nat i mod Z.of_nat period < Z.of_nat period)%Z) by (apply Z.mod_pos_bound; lia).
  rewrite <- Nat2Z.inj_mod in D, B. destruct (Nat.eqb_spec (i mod period) 0) as [E|E].
  - rewrite E in D. rewrite <- (Z.mod_unique (Z.of_nat i - 1) (Z.of_nat period) (Z.of_nat i / Z.of_nat period - 1) (Z.of_nat period - 1)); [lia|left; lia|lia].
  - rewrite <- (Z.mod_unique (Z.of_nat i - 1) (Z.of_nat period) (Z.of_nat i / Z.of_nat period) (Z.of_nat (i mod period) - 1)); [lia|left; lia|lia].
Qed.
Lemma hour_before_range n period i : (0 < period)%nat -> (i < n)%nat -> (hour_before n period i < n)%nat /\ (hour_before n period i / period = i / period)%nat.
Proof.
  intros Hp Hi. unfold hour_before. pose proof (Nat.div_mod i period ltac:(lia)) as D. pose proof (Nat.mod_upper_bound i period ltac:(lia)) as B.
  destruct (Nat.eqb_spec (i mod period) 0) as [E|E].
  - split; [lia|]. symmetry. apply (Nat.div_unique _ period (i / period) (Nat.min (i + period - 1) (n - 1) - i)); [lia|]. rewrite E in D. lia.
  - split; [lia|]. symmetry. apply (Nat.div_unique _ period (i / period) (i mod period - 1)); lia.
Qed.
Lemma hour_before_cyclic n period i : (0 < period)%nat -> (i < n)%nat ->
  (i mod period <> 0 -> hour_before n period i = i - 1)%nat /\
  (i mod period = 0 -> hour_before n period i = i + period - 1 \/ hour_before n period i = n - 1 /\ n - 1 <= i + period - 1)%nat.
Proof.
  intros Hp Hi. unfold hour_before. destruct (Nat.eqb_spec (i mod period) 0) as [E|E]; split; intros K; try contradiction; try lia.
Qed.
Lemma used_before_range n period i : (0 < period)%nat -> (i < n)%nat -> (used_before n period i < n)%nat.
Proof. intros Hp Hi. unfold used_before. destruct (Nat.eqb_spec i 0); [lia|]. now apply hour_before_range. Qed.

(** ** Variations *)
Lemma clip_fin z : clip0 (Fin (Z2Qc z)) = Fin (Z2Qc (Z.max 0 z)).
Proof.
  unfold clip0, n0. destruct (nltb (Fin (Z2Qc z)) (Fin 0)) eqn:E.
  - apply nltb_fin in E. rewrite <- Z2Qc_0 in E |- *. apply (proj1 (Z2Qc_lt _ _)) in E. now rewrite Z.max_l by lia.
  - apply nltb_fin_false in E. rewrite <- Z2Qc_0 in E. apply (proj1 (Z2Qc_le _ _)) in E. now rewrite Z.max_r by lia.
Qed.
Definition change (d : direction) (before now : Z) : Z := match d with FORWARD => Z.max 0 (before - now) | BACKWARD => Z.max 0 (now - before) end.
Lemma row_sub_nth a b j x y : nth_error a j = Some x -> nth_error b j = Some y -> nth_error (row_sub a b) j = Some (nsub x y).
Proof.
  unfold row_sub. rewrite nth_error_map. revert b j. induction a as [|u a IH]; intros [|v b] [|j]; cbn; try discriminate; [congruence|apply IH].
Qed.
Lemma nth_combine {A B} (l : list A) : forall (l' : list B) i a b, nth_error l i = Some a -> nth_error l' i = Some b -> nth_error (combine l l') i = Some (a, b).
Proof. induction l as [|u l IH]; intros [|v l'] [|i] a b; cbn; try discriminate; [congruence|apply IH]. Qed.
Lemma seq_at n i : (i < n)%nat -> nth_error (seq 0 n) i = Some i.
Proof. intros H. rewrite (nth_error_nth' (seq 0 n) 0%nat) by now rewrite seq_length. now rewrite seq_nth. Qed.
Lemma Forall2_at {A B} (R : A -> B -> Prop) l m : Forall2 R l m -> forall i a, nth_error l i = Some a -> exists b, nth_error m i = Some b /\ R a b.
Proof. induction 1 as [|a b l m H F IH]; intros [|i] x; cbn; try discriminate; [intros [= <-]; eauto|apply IH]. Qed.
Lemma mapM_total {A B} (f : A -> result B) l : (forall a, In a l -> exists b, f a = Ok b) -> exists bs, mapM f l = Ok bs.
Proof.
  induction l as [|a l IH]; intros H; [now exists []|]. destruct (H a (or_introl eq_refl)) as (b & Eb), (IH (fun x Hx => H x (or_intror Hx))) as (bs & E).
  exists (b :: bs). cbn. now rewrite Eb, E.
Qed.
Lemma iloc_nat {A} (l : list A) i a : nth_error l i = Some a -> iloc l (Z.of_nat i) = Ok a.
Proof.
  intros H. unfold iloc. assert (L : (i < List.length l)%nat) by (apply nth_error_Some; congruence).
  destruct (Z.ltb_spec (Z.of_nat i) 0); [lia|]. destruct (Z.leb_spec 0 (Z.of_nat i)); [|lia].
  destruct (Z.ltb_spec (Z.of_nat i) (Z.of_nat (List.length l))); [|lia]. cbn. now rewrite Nat2Z.id, H.
Qed.
Lemma row_at t n m i : shape t n m -> (i < n)%nat -> exists row, nth_error (tb_rows t) i = Some row.
Proof. intros (A & _) H. destruct (nth_error (tb_rows t) i) eqn:E; [eauto|]. apply nth_error_None in E. lia. Qed.
Lemma variation_values d c n m modulation power size period : (0 < size)%Qc -> (0 < period)%nat -> (0 < m)%nat -> regular c n m modulation power size ->
  exists t, nb_units_max_variation d (Z.of_nat period) c = Ok t /\
    has_values t n m (fun i j => Z2Qc (change d (units size (power (used_before n period i) j)) (units size (power i j)))).
Proof.
  intros Hs Hp Hm G. destruct (units_values _ _ _ _ _ _ Hs G) as [S V]. unfold nb_units_max_variation. cbv zeta.
  set (u := nb_units_max c) in *. pose proof S as (S1 & S2 & S3). rewrite S1.
  assert (Pi : forall i, (i < n)%nat -> iloc (tb_rows u) (previous_index n (Z.of_nat period) i) = Ok (nth (used_before n period i) (tb_rows u) [])).
  { intros i Hi. rewrite (previous_hour _ _ _ Hp Hi). apply iloc_nat. apply nth_error_nth'. rewrite S1. now apply used_before_range. }
  destruct (mapM_total (fun i => iloc (tb_rows u) (previous_index n (Z.of_nat period) i)) (seq 0 n)) as (prev & Ep).
  { intros i Hi. apply in_seq in Hi. eexists. apply Pi. lia. }
  rewrite Ep. cbn [bind]. destruct (Nat.eqb_spec (tb_width u) 0) as [K|_]; [lia|]. eexists. split; [reflexivity|].
  pose proof (mapM_length _ _ _ Ep) as Lp. rewrite seq_length in Lp. apply mapM_ok in Ep.
  assert (Ev : forall i, (i < n)%nat -> exists row prow, nth_error (tb_rows u) i = Some row /\ nth_error (tb_rows u) (used_before n period i) = Some prow /\
      nth_error (combine (tb_rows u) prev) i = Some (row, prow)).
  { intros i Hi. destruct (row_at _ _ _ _ S Hi) as (row & Er), (row_at _ _ _ _ S (used_before_range _ _ _ Hp Hi)) as (prow & Epr).
    exists row, prow. split; [exact Er|]. split; [exact Epr|]. apply nth_combine; [exact Er|].
    destruct (Forall2_at _ _ _ Ep i i (seq_at _ _ Hi)) as (b & Eb & Hb). rewrite (Pi i Hi) in Hb. rewrite (nth_default _ _ _ _ Epr) in Hb. congruence. }
  split; [split; [|split; [exact S2|]]|].
  - cbn [tb_rows]. rewrite map_length, combine_length, S1, Lp. apply Nat.min_id.
  - cbn. intros row H. apply in_map_iff in H as ([r pr] & <- & H). unfold variation_row. rewrite map_length.
    assert (L1 : List.length r = m) by (apply S3; exact (in_combine_l _ _ _ _ H)).
    assert (L2 : List.length pr = m).
    { apply in_combine_r in H. apply In_nth_error in H as (k & Hk). assert (Hk' : (k < n)%nat) by (rewrite <- Lp; apply nth_error_Some; congruence).
      destruct (Forall2_at _ _ _ Ep k k (seq_at _ _ Hk')) as (b & Eb & Hb). rewrite (Pi k Hk') in Hb. apply (f_equal (fun r => match r with Ok x => x | Err _ => [] end)) in Hb. cbn beta iota in Hb.
      replace pr with (nth (used_before n period k) (tb_rows u) []) by (rewrite Hb; congruence). apply S3. apply nth_In. rewrite S1. now apply used_before_range. }
    destruct d; unfold row_sub; cbn; rewrite map_length, combine_length; lia.
  - intros i j Hi Hj. destruct (Ev i Hi) as (row & prow & Er & Epr & Ec). unfold at_cell. cbn [tb_rows]. rewrite nth_error_map, Ec. cbn [option_map fst snd].
    assert (C1 : nth_error row j = Some (Fin (Z2Qc (units size (power i j))))) by (specialize (V i j Hi Hj); unfold at_cell in V; now rewrite Er in V).
    assert (C2 : nth_error prow j = Some (Fin (Z2Qc (units size (power (used_before n period i) j)))))
      by (specialize (V _ j (used_before_range n period i Hp Hi) Hj); unfold at_cell in V; now rewrite Epr in V).
    unfold variation_row. rewrite nth_error_map. destruct d; cbn [change].
    + rewrite (row_sub_nth _ _ _ _ _ C2 C1). cbn [option_map]. unfold nsub. cbn [nneg nadd]. fold (Qcminus (Z2Qc (units size (power (used_before n period i) j))) (Z2Qc (units size (power i j)))).
      rewrite <- Z2Qc_sub. now rewrite clip_fin.
    + rewrite (row_sub_nth _ _ _ _ _ C1 C2). cbn [option_map]. unfold nsub. cbn [nneg nadd]. fold (Qcminus (Z2Qc (units size (power i j))) (Z2Qc (units size (power (used_before n period i) j)))).
      rewrite <- Z2Qc_sub. now rewrite clip_fin.
Qed.

(** ** Files *)
Lemma app_nil_string (a : string) : (a ++ "")%string = a.
Proof. induction a as [|c a IH]; cbn; [reflexivity|now rewrite IH]. Qed.
Lemma app_assoc_string (a b c : string) : ((a ++ b) ++ c)%string = (a ++ (b ++ c))%string.
Proof. induction a as [|x a IH]; cbn; [reflexivity|now rewrite IH]. Qed.
Lemma length_app_string (a b : string) : String.length (a ++ b)%string = (String.length a + String.length b)%nat.
Proof. induction a as [|x a IH]; cbn; [reflexivity|now rewrite IH]. Qed.
Lemma substring_all (b : string) : substring 0 (String.length b) b = b.
Proof. induction b as [|x b IH]; cbn; [reflexivity|now rewrite IH]. Qed.
Lemma substring_end (a b : string) : substring (String.length a) (String.length b) (a ++ b)%string = b.
Proof. induction a as [|x a IH]; cbn; [apply substring_all|exact IH]. Qed.
Lemma substring_start (a b : string) : substring 0 (String.length a) (a ++ b)%string = a.
Proof. induction a as [|x a IH]; cbn; [now destruct b|now rewrite IH]. Qed.
Lemma removesuffix_app (a b : string) : removesuffix b (a ++ b)%string = a.
Proof.
  unfold removesuffix. rewrite length_app_string, Nat.add_sub, substring_end, String.eqb_refl.
  destruct (Nat.leb_spec (String.length b) (String.length a + String.length b)); [|lia]. cbn. apply substring_start.
Qed.
Lemma slash_unique a b u w : no_slash a -> no_slash b -> (a ++ "/" ++ u = b ++ "/" ++ w)%string -> a = b /\ u = w.
Proof.
  revert b. induction a as [|x a IH]; intros [|y b] Ha Hb E; cbn in *.
  - split; [reflexivity|congruence].
  - injection E as <- E. now destruct Hb as [Hb _].
  - injection E as -> E. now destruct Ha as [Ha _].
  - injection E as <- E. destruct (IH b) as [-> ->]; tauto.
Qed.
Lemma app_inj_left (a u w : string) : (a ++ u)%string = (a ++ w)%string -> u = w.
Proof. induction a as [|x a IH]; cbn; [auto|]. intros H. injection H as H. auto. Qed.
Lemma app_inj_right (a b u : string) : (a ++ u)%string = (b ++ u)%string -> a = b.
Proof. intros H. apply (f_equal (removesuffix u)) in H. now rewrite !removesuffix_app in H. Qed.
Lemma path_inj study c c' id id' : no_slash (th_area c) -> no_slash (th_area c') -> no_slash (th_id c) -> no_slash (th_id c') ->
  build_csv_path study c id = build_csv_path study c' id' -> th_area c = th_area c' /\ th_id c = th_id c' /\ id = id'.
Proof.
  intros A A' B B' H. unfold build_csv_path, series_path in H. rewrite !app_assoc_string in H.
  apply app_inj_left, app_inj_left in H. apply slash_unique in H as [-> H]; auto. apply slash_unique in H as [-> H]; auto.
  apply app_inj_right in H. auto.
Qed.
Lemma generated study c id period path t par : generate_component_parameter study c id period = Ok ((path, t), par) ->
  path = build_csv_path study c id /\ (cp_value par ++ ".txt")%string = path /\ cp_id par = id /\
  cp_time_dependent par = true /\ cp_scenario_dependent par = true.
Proof.
  unfold generate_component_parameter. destruct (prepro_parameter id period c) as [r|]; [|discriminate]. intros H. inv_bind H. injection H as <- <- <-.
  split; [reflexivity|]. split; [|auto]. cbn [cp_value]. unfold build_csv_path. rewrite <- !app_assoc_string. now rewrite removesuffix_app.
Qed.
Lemma unknown_id study c id period : ~ In id known -> generate_component_parameter study c id period = Err ValueError.
Proof.
  intros H. unfold generate_component_parameter, prepro_parameter. cbn in H.
  destruct (String.eqb_spec id "p_min_cluster") as [->|_]; [tauto|]. destruct (String.eqb_spec id "nb_units_min") as [->|_]; [tauto|].
  destruct (String.eqb_spec id "nb_units_max") as [->|_]; [tauto|]. destruct (String.eqb_spec id "nb_units_max_variation_forward") as [->|_]; [tauto|].
  destruct (String.eqb_spec id "nb_units_max_variation_backward") as [->|_]; [tauto|]. reflexivity.
Qed.
Lemma written_of study c id period t : prepro_parameter id period c = Some (Ok t) -> written study c id period t.
Proof. intros H. unfold written, generate_component_parameter. rewrite H. cbn. eauto. Qed.
Lemma written_inv study c id period t : written study c id period t -> prepro_parameter id period c = Some (Ok t).
Proof.
  intros (path & par & H). unfold generate_component_parameter in H. destruct (prepro_parameter id period c) as [[r|e]|]; try discriminate.
  cbn in H. now injection H as _ ->.
Qed.

(** ** Statements *)
Lemma pmin_written study c n m modulation power size period : regular c n m modulation power size ->
  exists t p, written study c "p_min_cluster" period t /\ has_values t n 1 (fun i _ => p i) /\
    forall i, (i < n)%nat -> smallest (p i) (modulation i * size * Z2Qc (th_unit_count c))%Qc m (power i).
Proof.
  intros G. destruct (p_min_values _ _ _ _ _ _ G) as (t & p & E & V & H). exists t, p. split; [|split; [exact V|exact H]].
  apply written_of. cbn. now rewrite E.
Qed.
Lemma max_written study c n m modulation power size period : (0 < size)%Qc -> regular c n m modulation power size ->
  exists t k, written study c "nb_units_max" period t /\ has_values t n m (fun i j => Z2Qc (k i j)) /\
    forall i j, (i < n)%nat -> (j < m)%nat -> covers size (power i j) (k i j).
Proof.
  intros Hs G. exists (nb_units_max c), (fun i j => units size (power i j)). split; [now apply written_of|]. split; [eapply units_values; eauto|].
  intros. now apply units_cover.
Qed.
Lemma min_written study c n m modulation power size period : (0 < size)%Qc -> regular c n m modulation power size ->
  exists t k, written study c "nb_units_min" period t /\ has_values t n 1 (fun i _ => Z2Qc (k i)) /\
    forall i, (i < n)%nat -> exists p, smallest p (modulation i * size * Z2Qc (th_unit_count c))%Qc m (power i) /\ covers size p (k i).
Proof.
  intros Hs G. destruct (units_min_values _ _ _ _ _ _ Hs G) as (t & p & E & V & H). exists t, (fun i => units size (p i)).
  split; [apply written_of; cbn; now rewrite E|]. split; [exact V|]. intros i Hi. exists (p i). split; [exact (H i Hi)|]. now apply units_cover.
Qed.
Lemma min_below_max study c n m modulation power size period period' tmin tmax : (0 < size)%Qc -> regular c n m modulation power size ->
  written study c "nb_units_min" period tmin -> written study c "nb_units_max" period' tmax ->
  forall i j, (i < n)%nat -> (j < m)%nat -> exists low high, at_cell tmin i 0 = Some (Fin (Z2Qc low)) /\ at_cell tmax i j = Some (Fin (Z2Qc high)) /\ (low <= high)%Z.
Proof.
  intros Hs G A B i j Hi Hj. apply written_inv in A, B. cbn in A, B. destruct (units_min_values _ _ _ _ _ _ Hs G) as (t & p & E & [_ V] & H).
  assert (t = tmin) by congruence. subst t. destruct (units_values _ _ _ _ _ _ Hs G) as [_ V']. injection B as <-.
  exists (units size (p i)), (units size (power i j)). split; [apply V; [exact Hi|lia]|]. split; [now apply V'|].
  destruct (H i Hi) as (_ & L & _). eapply covers_mono; [exact Hs|now apply units_cover|now apply units_cover|]. now apply L.
Qed.
Lemma variations_written study c n m modulation power size period : (0 < size)%Qc -> (0 < period)%nat -> (0 < m)%nat -> regular c n m modulation power size ->
  exists tmax tf tb (k f b : nat -> nat -> Z),
    written study c "nb_units_max" (Z.of_nat period) tmax /\ has_values tmax n m (fun i j => Z2Qc (k i j)) /\
    written study c "nb_units_max_variation_forward" (Z.of_nat period) tf /\ has_values tf n m (fun i j => Z2Qc (f i j)) /\
    written study c "nb_units_max_variation_backward" (Z.of_nat period) tb /\ has_values tb n m (fun i j => Z2Qc (b i j)) /\
    forall i j, (i < n)%nat -> (j < m)%nat ->
      (0 <= f i j /\ 0 <= b i j /\ (f i j = 0 \/ b i j = 0))%Z /\
      (i <> 0%nat -> f i j - b i j = k (hour_before n period i) j - k i j)%Z /\
      (i = 0%nat -> f i j = 0 /\ b i j = 0)%Z.
Proof.
  intros Hs Hp Hm G.
  destruct (variation_values FORWARD _ _ _ _ _ _ _ Hs Hp Hm G) as (tf & Ef & Vf), (variation_values BACKWARD _ _ _ _ _ _ _ Hs Hp Hm G) as (tb & Eb & Vb).
  exists (nb_units_max c), tf, tb, (fun i j => units size (power i j)), (fun i j => change FORWARD (units size (power (used_before n period i) j)) (units size (power i j))),
    (fun i j => change BACKWARD (units size (power (used_before n period i) j)) (units size (power i j))).
  split; [now apply written_of|]. split; [eapply units_values; eauto|]. split; [apply written_of; cbn [prepro_parameter]; cbn; now rewrite Ef|]. split; [exact Vf|].
  split; [apply written_of; cbn; now rewrite Eb|]. split; [exact Vb|]. intros i j Hi Hj. unfold change. split; [lia|]. unfold used_before. split.
  - intros N. destruct (Nat.eqb_spec i 0); [contradiction|]. lia.
  - intros ->. cbn [Nat.eqb]. lia.
Qed.
