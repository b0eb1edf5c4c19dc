(** Facts about merged problems (C40). *)
From Coq Require Import Lia Permutation.
From Verif Require Import Base BaseFacts Expr LinearExpr Optim Fusion SpecExpr SpecLinear SpecOptim CopyFacts ExpansionFacts ModelFacts SystemFacts OptimFacts SpecFusion.
Local Open Scope list_scope.

(** ** Lists *)
Lemma change_length {A} i (f : A -> A) l : List.length (change i f l) = List.length l.
Proof. revert i. induction l as [|a l IH]; intros [|i]; cbn; auto. Qed.
Lemma nth_change {A} i (f : A -> A) l j : nth_error (change i f l) j =
  if Nat.eqb i j then option_map f (nth_error l j) else nth_error l j.
Proof.
  revert i j. induction l as [|a l IH]; intros [|i] [|j]; cbn; try reflexivity.
  - now destruct (Nat.eqb i j).
  - apply IH.
Qed.
Lemma change_app_r {A} i (f : A -> A) l l' : change (List.length l + i) f (l ++ l') = l ++ change i f l'.
Proof. induction l as [|a l IH]; cbn; [reflexivity|]. now rewrite IH. Qed.
Lemma numbered_nth {A} (l : list A) i a : In (i, a) (numbered l) <-> nth_error l i = Some a.
Proof.
  unfold numbered.
  assert (G : forall k, In (i, a) (combine (seq k (List.length l)) l) <-> (k <= i)%nat /\ nth_error l (i - k) = Some a).
  { induction l as [|b l IH]; intros k; cbn [List.length seq combine In].
    - split; [intros []|]. intros [_ H]. now destruct (i - k)%nat.
    - rewrite IH. split.
      + intros [E|[H1 H2]].
        * injection E as -> ->. split; [lia|]. now rewrite Nat.sub_diag.
        * split; [lia|]. now replace (i - k)%nat with (S (i - S k)) by lia.
      + intros [H1 H2]. destruct (Nat.eq_dec i k) as [->|Hne].
        * left. rewrite Nat.sub_diag in H2. cbn in H2. congruence.
        * right. split; [lia|]. replace (i - k)%nat with (S (i - S k)) in H2 by lia. exact H2. }
  rewrite G, Nat.sub_0_r. intuition lia.
Qed.
Lemma numbered_snd {A} (l : list A) : map snd (numbered l) = l.
Proof.
  unfold numbered. generalize 0%nat. induction l as [|a l IH]; intros k; cbn; [reflexivity|]. f_equal. apply IH.
Qed.
Lemma numbered_fst {A} (l : list A) : map fst (numbered l) = seq 0 (List.length l).
Proof.
  unfold numbered. generalize 0%nat. induction l as [|a l IH]; intros k; cbn; [reflexivity|]. f_equal. apply IH.
Qed.
Lemma numbered_snoc {A} (l : list A) a : numbered (l ++ [a]) = numbered l ++ [(List.length l, a)].
Proof.
  unfold numbered. rewrite app_length. cbn [List.length]. rewrite Nat.add_1_r, seq_S. cbn.
  assert (G : forall (x : list nat) (y : list A) x' y', List.length x = List.length y -> combine (x ++ x') (y ++ y') = combine x y ++ combine x' y').
  { induction x as [|b x IH]; intros [|c y] x' y' H; try discriminate; [reflexivity|]. cbn. f_equal. apply IH. now injection H. }
  rewrite G by apply seq_length. reflexivity.
Qed.

(** ** Values of coefficients *)
(** one term *)
Definition term_value (y : nat -> Qc) (i : nat) (c : num) : option Qc := option_map (fun c => c * y i)%Qc (nval c).
Lemma nonzero_false c : neqb c n0 = true -> c = n0.
Proof. destruct c as [q| | |]; cbn; try discriminate. intros H. apply Qceqb_eq in H. now subst. Qed.
Lemma zero_term y i : term_value y i n0 = Some 0%Qc.
Proof. unfold term_value. cbn. f_equal. ring. Qed.
Lemma osum_other {A} (eq_dec : forall a b : A, {a = b} + {a <> b}) (f g : A -> option Qc) k l : NoDup l -> In k l ->
  (forall a, a <> k -> g a = f a) -> f k = Some 0%Qc -> osum (map g l) = olift2 Qcplus (g k) (osum (map f l)).
Proof.
  intros N Hk Hg Hf. induction l as [|a l IH]; [destruct Hk|]. apply NoDup_cons_iff in N. destruct N as [Na Nl]. cbn [map].
  change (osum (g a :: map g l)) with (match g a, osum (map g l) with Some x, Some y => Some (x + y)%Qc | _, _ => None end).
  change (osum (f a :: map f l)) with (match f a, osum (map f l) with Some x, Some y => Some (x + y)%Qc | _, _ => None end).
  destruct (eq_dec a k) as [->|Hne].
  - rewrite Hf. replace (map g l) with (map f l).
    + destruct (g k), (osum (map f l)); cbn; try reflexivity. f_equal. ring.
    + apply map_ext_in. intros b Hb. symmetry. apply Hg. intros ->. contradiction.
  - destruct Hk as [Hk|Hk]; [congruence|]. rewrite (IH Nl Hk), (Hg a Hne).
    destruct (f a), (g k), (osum (map f l)); cbn; try reflexivity. f_equal. ring.
Qed.
(** summing by entries or by positions is the same *)
Lemma coefs_by_position y d n : NoDup (map fst d) -> (forall i c, In (i, c) d -> (i < n)%nat) ->
  coefs_value y d = osum (map (fun i => term_value y i (get_coefficient d i)) (seq 0 n)).
Proof.
  induction d as [|[k c] d IH]; intros N H.
  - unfold coefs_value. cbn [map]. symmetry. change (osum []) with (Some 0%Qc).
    generalize (seq 0 n). intros l. induction l as [|i l IHl]; [reflexivity|]. cbn [map].
    change (get_coefficient [] i) with n0. rewrite zero_term.
    change (osum (Some 0%Qc :: map (fun i => term_value y i (get_coefficient [] i)) l))
      with (match osum (map (fun i => term_value y i (get_coefficient [] i)) l) with Some b => Some (0 + b)%Qc | None => None end).
    rewrite IHl. reflexivity.
  - cbn [map fst] in N. apply NoDup_cons_iff in N. destruct N as [Nk Nd]. rewrite coefs_cons.
    rewrite IH; [|exact Nd|intros i b Hb; apply (H i b); now right].
    rewrite (osum_other Nat.eq_dec (fun i => term_value y i (get_coefficient d i))
               (fun i => term_value y i (get_coefficient ((k, c) :: d) i)) k).
    + unfold term_value, get_coefficient. cbn [dget]. rewrite Nat.eqb_refl. reflexivity.
    + apply seq_NoDup.
    + apply in_seq. specialize (H k c (or_introl eq_refl)). lia.
    + intros a Ha. unfold get_coefficient. cbn [dget]. destruct (Nat.eqb_spec a k) as [->|_]; [congruence|reflexivity].
    + unfold get_coefficient. destruct (dget Nat.eqb k d) as [b|] eqn:E; [|apply zero_term].
      exfalso. apply Nk. apply (dget_In Nat.eqb Nat.eqb_eq) in E. apply in_map_iff. exists (k, b). auto.
Qed.

(** ** New rows as a dict *)
Fixpoint positions {A} (n : nat) (D : dict string A) : dict string nat :=
  match D with [] => [] | (k, _) :: D => (k, n) :: positions (S n) D end.
Lemma positions_some {A} key (D : dict string A) : forall n p, dget String.eqb key (positions n D) = Some p ->
  exists q R, p = (n + q)%nat /\ dget String.eqb key D = Some R /\
    forall g, change q g (map snd D) = map snd (dset String.eqb key (g R) D) /\ positions n (dset String.eqb key (g R) D) = positions n D.
Proof.
  induction D as [|[k a] D IH]; intros n p; cbn [positions dget]; [discriminate|].
  destruct (String.eqb_spec key k) as [Ek|Hne].
  - intros [= <-]. exists 0%nat, a. split; [lia|]. split; [reflexivity|]. intros g. cbn [dset].
    destruct (String.eqb_spec key k) as [_|]; [|contradiction]. cbn. auto.
  - intros H. destruct (IH _ _ H) as (q & R & -> & H1 & H2). exists (S q), R. split; [lia|]. split; [exact H1|].
    intros g. destruct (H2 g) as [A1 A2]. cbn [dset]. destruct (String.eqb_spec key k); [contradiction|]. cbn. rewrite A1, A2. auto.
Qed.
Lemma positions_none {A} key (R : A) (D : dict string A) : forall n, dget String.eqb key (positions n D) = None ->
  dget String.eqb key D = None /\ dset String.eqb key R D = D ++ [(key, R)] /\
  positions n (D ++ [(key, R)]) = positions n D ++ [(key, (n + List.length D)%nat)].
Proof.
  induction D as [|[k a] D IH]; intros n; cbn [positions dget].
  - intros _. cbn. rewrite Nat.add_0_r. auto.
  - destruct (String.eqb_spec key k) as [Ek|Hne]; [discriminate|]. intros H. destruct (IH _ H) as (H1 & H2 & H3).
    split; [exact H1|]. cbn [dset]. destruct (String.eqb_spec key k); [contradiction|]. rewrite H2. split; [reflexivity|].
    cbn [app positions List.length]. rewrite H3. cbn. now rewrite Nat.add_succ_r.
Qed.
Lemma dget_none_dset key (x : nat) (d : dict string nat) : dget String.eqb key d = None -> dset String.eqb key x d = d ++ [(key, x)].
Proof.
  induction d as [|[k a] d IH]; cbn [dget dset]; [reflexivity|]. destruct (String.eqb key k); [discriminate|].
  intros H. now rewrite IH.
Qed.
(** the rows of [f] are those of the coupler and those of [D], known by their keys *)
Definition row_dict (c : solver) (f : fusion) (D : dict string solver_row) : Prop :=
  s_rows (st_solver (fu_state f)) = s_rows c ++ map snd D /\ fu_rows f = positions (List.length (s_rows c)) D.
Definition row_key (name : string) (r : solver_row) : string := (name ++ "_" ++ sr_name r)%string.
(** the row that a coefficient of row [r] is put in *)
Definition fresh_row (name : string) (r : solver_row) : solver_row :=
  {| sr_name := row_key name r; sr_lb := sr_lb r; sr_ub := sr_ub r; sr_coefs := [] |}.
Definition put_term (name : string) (r : solver_row) (j : nat) (c : num) (o : option solver_row) : solver_row :=
  set_row_coefficient j c (match o with Some R => R | None => fresh_row name r end).
Definition put_row (name : string) (i j : nat) (D : dict string solver_row) (r : solver_row) : dict string solver_row :=
  let c := get_coefficient (sr_coefs r) i in
  if neqb c n0 then D else dset String.eqb (row_key name r) (put_term name r j c (dget String.eqb (row_key name r) D)) D.
Lemma fuse_row_dict c name i j f D r : row_dict c f D -> row_dict c (fuse_row name i j f r) (put_row name i j D r).
Proof.
  intros [H1 H2]. unfold fuse_row, put_row. destruct (neqb (get_coefficient (sr_coefs r) i) n0) eqn:Ec; [split; assumption|].
  set (k := get_coefficient (sr_coefs r) i). cbv zeta. fold (row_key name r). set (key := row_key name r).
  destruct (dget String.eqb key (fu_rows f)) as [p|] eqn:E.
  - rewrite H2 in E. destruct (positions_some _ _ _ _ E) as (q & R & -> & HR & Hg).
    destruct (Hg (set_row_coefficient j k)) as [G1 G2]. unfold put_term. rewrite HR. unfold row_dict.
    cbn [fu_state fu_rows st_solver with_solver s_rows]. rewrite H1, change_app_r, G1, G2. auto.
  - rewrite H2 in E. destruct (positions_none key (put_term name r j k None) D _ E) as (HD & HS & HP). rewrite HD, HS.
    unfold row_dict. cbn [fu_state fu_rows st_solver with_solver s_rows]. rewrite H1, HP.
    rewrite H2. rewrite dget_none_dset by exact E. rewrite !app_length, !map_length, map_app, <- !app_assoc. split.
    + rewrite change_app_r. f_equal.
      replace (List.length D) with (List.length (map snd D) + 0)%nat by (rewrite map_length; lia).
      rewrite change_app_r. reflexivity.
    + reflexivity.
Qed.
Lemma fuse_row_frame name i j f r :
  s_vars (st_solver (fu_state (fuse_row name i j f r))) = s_vars (st_solver (fu_state f)) /\
  s_objective (st_solver (fu_state (fuse_row name i j f r))) = s_objective (st_solver (fu_state f)) /\
  s_offset (st_solver (fu_state (fuse_row name i j f r))) = s_offset (st_solver (fu_state f)) /\
  st_infos (fu_state (fuse_row name i j f r)) = st_infos (fu_state f).
Proof.
  unfold fuse_row. destruct (neqb _ n0); [auto|]. cbv zeta. destruct (dget String.eqb _ (fu_rows f)); cbn; auto.
Qed.
Lemma fuse_rows_spec c name i j rows : forall f D, row_dict c f D ->
  let f' := fold_left (fuse_row name i j) rows f in
  row_dict c f' (fold_left (put_row name i j) rows D) /\
  s_vars (st_solver (fu_state f')) = s_vars (st_solver (fu_state f)) /\
  s_objective (st_solver (fu_state f')) = s_objective (st_solver (fu_state f)) /\
  s_offset (st_solver (fu_state f')) = s_offset (st_solver (fu_state f)) /\
  st_infos (fu_state f') = st_infos (fu_state f).
Proof.
  induction rows as [|r rows IH]; intros f D H; cbn [fold_left].
  - split; [exact H|]. auto.
  - destruct (IH (fuse_row name i j f r) (put_row name i j D r) (fuse_row_dict _ _ _ _ _ _ _ H)) as (I1 & I2 & I3 & I4 & I5).
    destruct (fuse_row_frame name i j f r) as (F1 & F2 & F3 & F4). cbv zeta in *. split; [exact I1|]. intuition congruence.
Qed.
(** what one variable does to the rows *)
Lemma put_row_other name i j D r k : k <> row_key name r -> dget String.eqb k (put_row name i j D r) = dget String.eqb k D.
Proof.
  intros H. unfold put_row. destruct (neqb _ n0); [reflexivity|]. apply (dget_dset_other String.eqb String.eqb_eq). congruence.
Qed.
Lemma put_row_same name i j D r : dget String.eqb (row_key name r) (put_row name i j D r) =
  if neqb (get_coefficient (sr_coefs r) i) n0 then dget String.eqb (row_key name r) D
  else Some (put_term name r j (get_coefficient (sr_coefs r) i) (dget String.eqb (row_key name r) D)).
Proof. unfold put_row. destruct (neqb _ n0); [reflexivity|]. apply (dget_dset_same String.eqb String.eqb_eq). Qed.
Lemma put_rows_other name i j rows k : forall D, ~ In k (map (row_key name) rows) ->
  dget String.eqb k (fold_left (put_row name i j) rows D) = dget String.eqb k D.
Proof.
  induction rows as [|r rows IH]; intros D H; cbn [fold_left]; [reflexivity|]. rewrite IH by (intros F; apply H; now right).
  apply put_row_other. intros ->. apply H. now left.
Qed.
Lemma put_rows_same name i j rows r : NoDup (map (row_key name) rows) -> In r rows -> forall D,
  dget String.eqb (row_key name r) (fold_left (put_row name i j) rows D) =
  if neqb (get_coefficient (sr_coefs r) i) n0 then dget String.eqb (row_key name r) D
  else Some (put_term name r j (get_coefficient (sr_coefs r) i) (dget String.eqb (row_key name r) D)).
Proof.
  induction rows as [|r0 rows IH]; intros N Hr D; [destruct Hr|]. cbn [map] in N. apply NoDup_cons_iff in N. destruct N as [N0 N].
  cbn [fold_left]. destruct Hr as [<-|Hr].
  - rewrite put_rows_other by exact N0. apply put_row_same.
  - rewrite IH by assumption. rewrite put_row_other; [reflexivity|].
    intros E. apply N0. rewrite <- E. now apply in_map.
Qed.
Lemma put_row_keys name i j D r : incl (map fst (put_row name i j D r)) (row_key name r :: map fst D).
Proof.
  unfold put_row. destruct (neqb _ n0); [intros k Hk; now right|]. intros k Hk. rewrite (dset_keys String.eqb) in Hk.
  destruct (dmem _ _ _); [now right|]. apply in_app_or in Hk. cbn. destruct Hk as [Hk|[<-|[]]]; auto.
Qed.
Lemma put_rows_keys name i j rows : forall D, incl (map fst (fold_left (put_row name i j) rows D)) (map (row_key name) rows ++ map fst D).
Proof.
  induction rows as [|r rows IH]; intros D; cbn [fold_left map app]; [apply incl_refl|].
  intros k Hk. apply IH in Hk. apply in_app_or in Hk. destruct Hk as [Hk|Hk]; [right; apply in_or_app; auto|].
  apply put_row_keys in Hk. destruct Hk as [<-|Hk]; [now left|right; apply in_or_app; auto].
Qed.
Lemma put_row_nodup name i j D r : NoDup (map fst D) -> NoDup (map fst (put_row name i j D r)).
Proof. intros H. unfold put_row. destruct (neqb _ n0); [exact H|]. now apply (dset_nodup String.eqb String.eqb_eq). Qed.
Lemma put_rows_nodup name i j rows : forall D, NoDup (map fst D) -> NoDup (map fst (fold_left (put_row name i j) rows D)).
Proof. induction rows as [|r rows IH]; intros D H; cbn [fold_left]; auto using put_row_nodup. Qed.

(** ** One variable of a master *)
Definition relaxed (v : solver_var) : solver_var :=
  {| sv_name := sv_name v; sv_lb := sv_lb v; sv_ub := sv_ub v; sv_integer := false |}.
Definition put_var (roots : dict string nat) (vars : list solver_var) (v : solver_var) : list solver_var :=
  match dget String.eqb (sv_name v) roots with
  | None => vars ++ [relaxed v]
  | Some j => change j (set_bounds (sv_lb v) (sv_ub v)) vars
  end.
Definition pos_var (roots : dict string nat) (vars : list solver_var) (v : solver_var) : nat :=
  match dget String.eqb (sv_name v) roots with None => List.length vars | Some j => j end.
Definition put_obj (objective : dict nat num) (o : dict nat num) (ij : nat * nat) : dict nat num :=
  let c := get_coefficient objective (fst ij) in if neqb c n0 then o else dset Nat.eqb (snd ij) c o.
Definition fvars (f : fusion) : list solver_var := s_vars (st_solver (fu_state f)).
Definition fobj (f : fusion) : dict nat num := s_objective (st_solver (fu_state f)).
Definition foffset (f : fusion) : num := s_offset (st_solver (fu_state f)).
Definition master_rows (m : problem) : list solver_row := s_rows (solver_of m).
Definition master_vars (m : problem) : list solver_var := s_vars (solver_of m).

Lemma fuse_objective_frame objective i j f :
  s_vars (st_solver (fu_state (fuse_objective objective i j f))) = s_vars (st_solver (fu_state f)) /\
  s_rows (st_solver (fu_state (fuse_objective objective i j f))) = s_rows (st_solver (fu_state f)) /\
  s_offset (st_solver (fu_state (fuse_objective objective i j f))) = s_offset (st_solver (fu_state f)) /\
  st_infos (fu_state (fuse_objective objective i j f)) = st_infos (fu_state f) /\
  fu_rows (fuse_objective objective i j f) = fu_rows f /\
  s_objective (st_solver (fu_state (fuse_objective objective i j f))) = put_obj objective (fobj f) (i, j).
Proof. unfold fuse_objective, put_obj, fobj. cbn [fst snd]. destruct (neqb _ n0); cbn; auto 10. Qed.
Lemma fuse_variable_spec roots infos v st j st' : fuse_variable roots infos v st = Ok (j, st') ->
  j = pos_var roots (s_vars (st_solver st)) v /\ s_vars (st_solver st') = put_var roots (s_vars (st_solver st)) v /\
  s_rows (st_solver st') = s_rows (st_solver st) /\ s_objective (st_solver st') = s_objective (st_solver st) /\
  s_offset (st_solver st') = s_offset (st_solver st).
Proof.
  unfold fuse_variable, pos_var, put_var. destruct (dget String.eqb (sv_name v) roots) as [p|].
  - destruct (dget String.eqb (sv_name v) infos); [|discriminate]. destruct (dget String.eqb (sv_name v) (st_infos st)); [|discriminate].
    intros [= <- <-]. cbn. auto.
  - destruct (dget String.eqb (sv_name v) infos); [|discriminate]. intros [= <- <-]. cbn. auto.
Qed.
Lemma fuse_step_spec c roots m f i v f' D : row_dict c f D -> fuse_step roots m f (i, v) = Ok f' ->
  row_dict c f' (fold_left (put_row (pb_name m) i (pos_var roots (fvars f) v)) (master_rows m) D) /\
  fvars f' = put_var roots (fvars f) v /\
  fobj f' = put_obj (s_objective (solver_of m)) (fobj f) (i, pos_var roots (fvars f) v) /\
  foffset f' = foffset f.
Proof.
  intros HD H. unfold fuse_step in H. cbn [fst snd] in H. inv_bind H.
  match goal with E : fuse_variable _ _ _ _ = Ok ?x |- _ => destruct x as [j st] end. cbn [fst snd] in H.
  match goal with E : fuse_variable _ _ _ _ = Ok _ |- _ => destruct (fuse_variable_spec _ _ _ _ _ _ E) as (-> & V1 & V2 & V3 & V4) end.
  injection H as <-. fold (fvars f).
  assert (HD1 : row_dict c {| fu_state := st; fu_rows := fu_rows f |} D) by (destruct HD; split; cbn; congruence).
  destruct (fuse_rows_spec c (pb_name m) i (pos_var roots (fvars f) v) (master_rows m) _ _ HD1) as (R1 & R2 & R3 & R4 & R5).
  cbv zeta in *. cbn [fu_state] in *. unfold master_rows, solver_of in *.
  set (f1 := fold_left _ _ _) in *.
  destruct (fuse_objective_frame (s_objective (st_solver (pb_state m))) i (pos_var roots (fvars f) v) f1) as (O1 & O2 & O3 & O4 & O5 & O6).
  split; [destruct R1; split; congruence|]. unfold fvars, fobj, foffset in *. rewrite O1, O3, O6, R2, R4, V1, V4.
  repeat split; auto. unfold fobj. rewrite R3, V3. reflexivity.
Qed.

(** ** All variables of a master *)
Fixpoint js (roots : dict string nat) (vars : list solver_var) (L : list solver_var) : list nat :=
  match L with [] => [] | v :: L => pos_var roots vars v :: js roots (put_var roots vars v) L end.
Definition add_term (name : string) (r : solver_row) (o : option solver_row) (ij : nat * nat) : option solver_row :=
  let c := get_coefficient (sr_coefs r) (fst ij) in if neqb c n0 then o else Some (put_term name r (snd ij) c o).
Lemma fuse_steps_spec c roots m L : NoDup (row_keys m) -> forall f f' D, row_dict c f D -> NoDup (map fst D) ->
  foldM (fuse_step roots m) f L = Ok f' ->
  let ijs := combine (map fst L) (js roots (fvars f) (map snd L)) in
  exists D', row_dict c f' D' /\ NoDup (map fst D') /\ incl (map fst D') (row_keys m ++ map fst D) /\
    (forall k, ~ In k (row_keys m) -> dget String.eqb k D' = dget String.eqb k D) /\
    (forall r, In r (master_rows m) -> dget String.eqb (row_key (pb_name m) r) D' =
       fold_left (add_term (pb_name m) r) ijs (dget String.eqb (row_key (pb_name m) r) D)) /\
    fvars f' = fold_left (put_var roots) (map snd L) (fvars f) /\
    fobj f' = fold_left (put_obj (s_objective (solver_of m))) ijs (fobj f) /\ foffset f' = foffset f.
Proof.
  intros N. change (row_keys m) with (map (row_key (pb_name m)) (master_rows m)) in *.
  induction L as [|[i v] L IH]; intros f f' D HD ND H; cbn [foldM] in H.
  - injection H as <-. cbv zeta. exists D. split; [exact HD|]. split; [exact ND|]. split; [intros k Hk; apply in_or_app; auto|].
    split; [auto|]. split; [auto|]. auto.
  - inv_bind H. match goal with E : fuse_step _ _ _ _ = Ok ?x |- _ => destruct (fuse_step_spec _ _ _ _ _ _ _ _ HD E) as (S1 & S2 & S3 & S4) end.
    set (D1 := fold_left _ _ D) in S1.
    assert (ND1 : NoDup (map fst D1)) by now apply put_rows_nodup.
    destruct (IH _ _ _ S1 ND1 H) as (D' & I1 & I2 & I3 & I4 & I5 & I6 & I7 & I8). cbv zeta in *. cbn [map fst snd js combine fold_left].
    rewrite S2 in *. exists D'. split; [exact I1|]. split; [exact I2|]. split; [|split; [|split; [|split; [|split]]]].
    + intros k Hk. apply I3, in_app_or in Hk. destruct Hk as [Hk|Hk]; [apply in_or_app; auto|]. now apply put_rows_keys in Hk.
    + intros k Hk. rewrite I4 by exact Hk. now apply put_rows_other.
    + intros r Hr. rewrite I5 by exact Hr. f_equal. unfold D1. rewrite put_rows_same by assumption. reflexivity.
    + exact I6.
    + rewrite I7, S3. reflexivity.
    + congruence.
Qed.

(** ** Positions *)
Definition names_of (vars : list solver_var) : list string := map sv_name vars.
Definition roots_ok (roots : dict string nat) (vars : list solver_var) : Prop :=
  forall n j, dget String.eqb n roots = Some j -> nth_error (names_of vars) j = Some n.
Lemma names_change j lb ub vars : names_of (change j (set_bounds lb ub) vars) = names_of vars.
Proof. revert j. induction vars as [|v vars IH]; intros [|j]; cbn; try reflexivity. unfold names_of in *. now rewrite IH. Qed.
Lemma names_put roots vars v : names_of (put_var roots vars v) =
  match dget String.eqb (sv_name v) roots with None => names_of vars ++ [sv_name v] | Some _ => names_of vars end.
Proof.
  unfold put_var. destruct (dget _ _ roots); [apply names_change|]. unfold names_of. now rewrite map_app.
Qed.
Lemma nth_names_put roots vars v j n : nth_error (names_of vars) j = Some n -> nth_error (names_of (put_var roots vars v)) j = Some n.
Proof.
  intros H. rewrite names_put. destruct (dget _ _ roots); [exact H|]. rewrite nth_error_app1; [exact H|].
  apply nth_error_Some. congruence.
Qed.
Lemma nth_names_puts roots L j n : forall vars, nth_error (names_of vars) j = Some n ->
  nth_error (names_of (fold_left (put_var roots) L vars)) j = Some n.
Proof. induction L as [|v L IH]; intros vars H; cbn [fold_left]; [exact H|]. apply IH. now apply nth_names_put. Qed.
Lemma roots_put roots vars v : roots_ok roots vars -> roots_ok roots (put_var roots vars v).
Proof. intros H n j Hn. apply nth_names_put. now apply H. Qed.
Lemma roots_puts roots L : forall vars, roots_ok roots vars -> roots_ok roots (fold_left (put_var roots) L vars).
Proof. induction L as [|v L IH]; intros vars H; cbn [fold_left]; [exact H|]. apply IH. now apply roots_put. Qed.
Lemma pos_var_name roots vars v : roots_ok roots vars -> nth_error (names_of (put_var roots vars v)) (pos_var roots vars v) = Some (sv_name v).
Proof.
  intros H. rewrite names_put. unfold pos_var. destruct (dget _ _ roots) as [j|] eqn:E; [now apply H|].
  replace (List.length vars) with (List.length (names_of vars)) by (unfold names_of; apply map_length).
  rewrite nth_error_app2 by lia. now rewrite Nat.sub_diag.
Qed.
Lemma js_names roots L : forall vars, roots_ok roots vars ->
  map (nth_error (names_of (fold_left (put_var roots) L vars))) (js roots vars L) = map (fun v => Some (sv_name v)) L.
Proof.
  induction L as [|v L IH]; intros vars H; cbn [fold_left js map]; [reflexivity|].
  rewrite IH by now apply roots_put. f_equal. apply nth_names_puts. now apply pos_var_name.
Qed.
Lemma js_length roots L : forall vars, List.length (js roots vars L) = List.length L.
Proof. induction L as [|v L IH]; intros vars; cbn; [reflexivity|]. now rewrite IH. Qed.
Lemma js_nodup roots vars L : roots_ok roots vars -> NoDup (map sv_name L) -> NoDup (js roots vars L).
Proof.
  intros H N. apply (NoDup_map_inv (nth_error (names_of (fold_left (put_var roots) L vars)))). rewrite js_names by exact H.
  rewrite <- (map_map sv_name Some). apply FinFun.Injective_map_NoDup; [|exact N]. intros a b. congruence.
Qed.
Lemma js_fresh roots vars L j n : roots_ok roots vars -> nth_error (names_of vars) j = Some n -> ~ In n (map sv_name L) ->
  ~ In j (js roots vars L).
Proof.
  intros H Hj Hn Hin. apply (in_map (nth_error (names_of (fold_left (put_var roots) L vars)))) in Hin.
  rewrite js_names in Hin by exact H. rewrite (nth_names_puts _ _ _ _ _ Hj) in Hin.
  apply in_map_iff in Hin. destruct Hin as (v & E & Hv). injection E as E. apply Hn. rewrite <- E. now apply in_map.
Qed.

(** ** Terms put in a row or in the objective *)
Definition term_of (d : dict nat num) (ij : nat * nat) : list (nat * num) :=
  let c := get_coefficient d (fst ij) in if neqb c n0 then [] else [(snd ij, c)].
Definition terms (d : dict nat num) (ijs : list (nat * nat)) : list (nat * num) := flat_map (term_of d) ijs.
Lemma dset_fresh j c (d : dict nat num) : ~ In j (map fst d) -> dset Nat.eqb j c d = d ++ [(j, c)].
Proof.
  induction d as [|[k a] d IH]; cbn [map fst dset In]; intros H; [reflexivity|].
  destruct (Nat.eqb_spec j k) as [->|Hne]; [exfalso; auto|]. rewrite IH by auto. reflexivity.
Qed.
Lemma terms_keys d ijs : incl (map fst (terms d ijs)) (map snd ijs).
Proof.
  induction ijs as [|ij ijs IH]; [easy|]. unfold terms. cbn [flat_map]. fold (terms d ijs). rewrite map_app.
  intros k Hk. apply in_app_or in Hk. destruct Hk as [Hk|Hk]; [|right; now apply IH].
  left. unfold term_of in Hk. destruct (neqb _ n0); cbn in Hk; [destruct Hk|]. destruct Hk as [Hk|[]]. exact Hk.
Qed.
Lemma terms_nodup d ijs : NoDup (map snd ijs) -> NoDup (map fst (terms d ijs)).
Proof.
  induction ijs as [|ij ijs IH]; intros N; [constructor|]. cbn [map] in N. apply NoDup_cons_iff in N. destruct N as [N0 N].
  unfold terms. cbn [flat_map]. fold (terms d ijs). rewrite map_app. unfold term_of. destruct (neqb _ n0); cbn [map app fst]; [now apply IH|].
  constructor; [|now apply IH]. intros F. apply N0. now apply (terms_keys d).
Qed.
Lemma put_obj_terms d ijs : NoDup (map snd ijs) -> forall o, (forall j, In j (map snd ijs) -> ~ In j (map fst o)) ->
  fold_left (put_obj d) ijs o = o ++ terms d ijs.
Proof.
  induction ijs as [|[i j] ijs IH]; intros N o H; cbn [fold_left].
  - cbn. now rewrite app_nil_r.
  - cbn [map snd] in N. apply NoDup_cons_iff in N. destruct N as [N0 N]. unfold terms. cbn [flat_map]. fold (terms d ijs).
    unfold put_obj at 2, term_of. cbn [fst snd]. destruct (neqb _ n0).
    + cbn [app]. apply IH; [exact N|]. intros k Hk. apply H. now right.
    + rewrite dset_fresh by (apply H; now left). rewrite IH; [now rewrite <- app_assoc|exact N|].
      intros k Hk F. rewrite map_app in F. apply in_app_or in F. destruct F as [F|[F|[]]].
      * apply (H k); [now right|exact F].
      * cbn in F. subst. contradiction.
Qed.
Definition with_coefs (R : solver_row) (T : dict nat num) : solver_row :=
  {| sr_name := sr_name R; sr_lb := sr_lb R; sr_ub := sr_ub R; sr_coefs := T |}.
Lemma add_terms_some name r ijs : NoDup (map snd ijs) -> forall R, (forall j, In j (map snd ijs) -> ~ In j (map fst (sr_coefs R))) ->
  fold_left (add_term name r) ijs (Some R) = Some (with_coefs R (sr_coefs R ++ terms (sr_coefs r) ijs)).
Proof.
  induction ijs as [|[i j] ijs IH]; intros N R H; cbn [fold_left].
  - cbn. rewrite app_nil_r. now destruct R.
  - cbn [map snd] in N. apply NoDup_cons_iff in N. destruct N as [N0 N]. unfold terms. cbn [flat_map]. fold (terms (sr_coefs r) ijs).
    unfold add_term at 2, term_of. cbn [fst snd]. destruct (neqb _ n0).
    + cbn [app]. apply IH; [exact N|]. intros k Hk. apply H. now right.
    + unfold put_term, set_row_coefficient. rewrite dset_fresh by (apply H; now left). rewrite IH; [|exact N|].
      * unfold with_coefs. cbn. now rewrite <- app_assoc.
      * cbn. intros k Hk F. rewrite map_app in F. apply in_app_or in F. destruct F as [F|[F|[]]].
        -- apply (H k); [now right|exact F].
        -- cbn in F. subst. contradiction.
Qed.
Lemma add_terms_none name r ijs : NoDup (map snd ijs) ->
  fold_left (add_term name r) ijs None =
  match terms (sr_coefs r) ijs with [] => None | T => Some (with_coefs (fresh_row name r) T) end.
Proof.
  induction ijs as [|[i j] ijs IH]; intros N; cbn [fold_left]; [reflexivity|].
  cbn [map snd] in N. apply NoDup_cons_iff in N. destruct N as [N0 N]. unfold terms. cbn [flat_map]. fold (terms (sr_coefs r) ijs).
  unfold add_term at 2, term_of. cbn [fst snd]. destruct (neqb _ n0).
  - cbn [app]. now apply IH.
  - cbn [app]. rewrite add_terms_some; [reflexivity|exact N|].
    cbn. intros k Hk [F|[]]. subst. contradiction.
Qed.
(** their value *)
Lemma osum_more x l : osum (x :: l) = olift2 Qcplus x (osum l).
Proof. reflexivity. Qed.
Lemma terms_value y y' d ijs : (forall i j, In (i, j) ijs -> y' j = y i) ->
  coefs_value y' (terms d ijs) = osum (map (fun i => term_value y i (get_coefficient d i)) (map fst ijs)).
Proof.
  induction ijs as [|[i j] ijs IH]; intros H; [reflexivity|]. unfold terms. cbn [flat_map map fst]. fold (terms d ijs).
  rewrite osum_more, <- IH by (intros a b Hab; apply H; now right). unfold term_of. cbn [fst snd].
  destruct (neqb (get_coefficient d i) n0) eqn:E.
  - apply nonzero_false in E. rewrite E, zero_term. cbn [app]. destruct (coefs_value y' (terms d ijs)); cbn; [|reflexivity]. f_equal. ring.
  - cbn [app]. rewrite coefs_cons. unfold term_value. rewrite (H i j) by now left. reflexivity.
Qed.
Lemma terms_empty d ijs : terms d ijs = [] <-> forall i, In i (map fst ijs) -> get_coefficient d i = n0.
Proof.
  induction ijs as [|[i j] ijs IH]; [split; [intros _ i []|reflexivity]|]. unfold terms. cbn [flat_map map fst]. fold (terms d ijs).
  unfold term_of. cbn [fst snd]. destruct (neqb (get_coefficient d i) n0) eqn:E.
  - cbn [app]. rewrite IH. apply nonzero_false in E. split; [intros H k [<-|Hk]; auto|]. intros H k Hk. apply H. now right.
  - cbn [app]. split; [discriminate|]. intros H. rewrite (H i) in E by now left. discriminate.
Qed.
Lemma coefs_ext y y' d : (forall k, In k (map fst d) -> y' k = y k) -> coefs_value y' d = coefs_value y d.
Proof.
  induction d as [|[k c] d IH]; intros H; [reflexivity|]. rewrite !coefs_cons, IH by (intros j Hj; apply H; now right).
  now rewrite (H k) by now left.
Qed.
Lemma coefs_app y d d' : coefs_value y (d ++ d') = olift2 Qcplus (coefs_value y d) (coefs_value y d').
Proof.
  induction d as [|[k c] d IH]; cbn [app].
  - change (coefs_value y []) with (Some 0%Qc). destruct (coefs_value y d'); cbn; [|reflexivity]. f_equal. ring.
  - rewrite !coefs_cons, IH. destruct (option_map _ _), (coefs_value y d), (coefs_value y d'); cbn; try reflexivity. f_equal. ring.
Qed.

(** ** All masters *)
Definition named_value (vars : list solver_var) (y : string -> Qc) (i : nat) : Qc :=
  match nth_error (names_of vars) i with Some n => y n | None => 0%Qc end.
Lemma by_name_named s y i : by_name s y i = named_value (s_vars s) y i.
Proof. unfold by_name, named_value, names_of. rewrite nth_error_map. now destruct (nth_error (s_vars s) i). Qed.
Lemma nodup_join {A} (l l' : list A) : NoDup l -> NoDup l' -> (forall a, In a l -> ~ In a l') -> NoDup (l ++ l').
Proof.
  induction l as [|a l IH]; intros H H' D; cbn [app]; [exact H'|]. apply NoDup_cons_iff in H. destruct H as [H0 H].
  constructor; [|apply IH; auto; intros b Hb; apply D; now right]. intros F. apply in_app_or in F. destruct F as [F|F]; [auto|].
  apply (D a); [now left|exact F].
Qed.
Lemma nodup_left {A} (l l' : list A) : NoDup (l ++ l') -> NoDup l.
Proof.
  induction l as [|a l IH]; cbn [app]; intros H; [constructor|]. apply NoDup_cons_iff in H. destruct H as [H0 H].
  constructor; [|auto]. intros F. apply H0, in_or_app. now left.
Qed.
(** the terms of a master, seen from the merged problem *)
Lemma master_terms_value y vars L roots d : roots_ok roots vars -> NoDup (map fst d) -> (forall i c, In (i, c) d -> (i < List.length L)%nat) ->
  coefs_value (named_value (fold_left (put_var roots) L vars) y) (terms d (numbered (js roots vars L))) = coefs_value (named_value L y) d.
Proof.
  intros HR Nd Hd. rewrite (terms_value (named_value L y)).
  - rewrite (coefs_by_position _ d (List.length L)) by assumption. now rewrite numbered_fst, js_length.
  - intros i j Hij. apply numbered_nth in Hij. unfold named_value. pose proof (js_names roots L vars HR) as E.
    apply (map_nth_error (nth_error (names_of (fold_left (put_var roots) L vars)))) in Hij. rewrite E, nth_error_map in Hij.
    unfold names_of at 2. rewrite nth_error_map. destruct (nth_error L i); cbn in Hij; [|discriminate]. injection Hij as <-. reflexivity.
Qed.
Lemma named_value_puts roots L vars y k n : nth_error (names_of vars) k = Some n ->
  named_value (fold_left (put_var roots) L vars) y k = named_value vars y k.
Proof. intros H. unfold named_value. now rewrite (nth_names_puts _ _ _ _ _ H), H. Qed.
Lemma terms_has d ijs : NoDup (map fst d) -> (forall i c, In (i, c) d -> In i (map fst ijs)) ->
  terms d ijs <> [] <-> exists i c, In (i, c) d /\ c <> n0.
Proof.
  intros N H. split.
  - intros Ht. destruct (existsb (fun ic => negb (neqb (snd ic) n0)) d) eqn:E.
    + apply existsb_exists in E. destruct E as ([i c] & Hic & E). exists i, c. split; [exact Hic|]. intros ->. discriminate.
    + exfalso. apply Ht, terms_empty. intros i Hi. unfold get_coefficient. destruct (dget Nat.eqb i d) as [c|] eqn:G; [|reflexivity].
      apply (dget_In Nat.eqb Nat.eqb_eq) in G. apply nonzero_false.
      destruct (neqb c n0) eqn:F; [reflexivity|]. exfalso.
      assert (existsb (fun ic : nat * num => negb (neqb (snd ic) n0)) d = true); [|congruence].
      apply existsb_exists. exists (i, c). cbn. now rewrite F.
  - intros (i & c & Hic & Hc) E. apply terms_empty with (i := i) in E; [|now apply (H i c)]. apply Hc. rewrite <- E.
    unfold get_coefficient. now rewrite (In_dget_nodup Nat.eqb Nat.eqb_eq _ _ _ N Hic).
Qed.

(** the row standing for row [r] of a master *)
Definition stands_for (vars mvars : list solver_var) (name : string) (r R : solver_row) : Prop :=
  sr_name R = row_key name r /\ sr_lb R = sr_lb r /\ sr_ub R = sr_ub r /\
  NoDup (map fst (sr_coefs R)) /\ (forall k, In k (map fst (sr_coefs R)) -> exists n, nth_error (names_of vars) k = Some n) /\
  forall y, coefs_value (named_value vars y) (sr_coefs R) = coefs_value (named_value mvars y) (sr_coefs r).
Definition all_vars (ms : list problem) : list solver_var := flat_map master_vars ms.
Record fused (c : solver) (roots : dict string nat) (ms : list problem) (f : fusion) (D : dict string solver_row) : Prop := {
  fd_rows : row_dict c f D;
  fd_nodup : NoDup (map fst D);
  fd_keys : incl (map fst D) (flat_map row_keys ms);
  fd_vars : fvars f = fold_left (put_var roots) (all_vars ms) (s_vars c);
  fd_offset : foffset f = s_offset c;
  fd_row : forall m r, In m ms -> In r (master_rows m) ->
    match dget String.eqb (row_key (pb_name m) r) D with
    | Some R => has_term r /\ stands_for (fvars f) (master_vars m) (pb_name m) r R
    | None => ~ has_term r
    end;
  fd_obj_nodup : NoDup (map fst (fobj f));
  fd_obj_keys : forall k, In k (map fst (fobj f)) -> exists n, nth_error (names_of (fvars f)) k = Some n /\
    (In n (flat_map variable_names ms) \/ In k (map fst (s_objective c)));
  fd_obj : forall y, coefs_value (named_value (fvars f) y) (fobj f) =
    olift2 Qcplus (cost y c) (osum (map (fun m => cost y (solver_of m)) ms))
}.
Lemma fused_start c st roots : st_solver st = c -> sound_solver c -> fused c roots [] {| fu_state := st; fu_rows := [] |} [].
Proof.
  intros E (N & _ & O1 & O2). constructor; unfold fvars, fobj, foffset; cbn [fu_state fu_rows]; rewrite ?E; auto.
  - split; cbn; [now rewrite E, app_nil_r|reflexivity].
  - constructor.
  - easy.
  - intros m r [].
  - intros k Hk. apply in_map_iff in Hk. destruct Hk as ([i a] & <- & Hk). cbn. pose proof (in_map fst _ _ Hk) as Hk'. apply O2 in Hk.
    destruct (nth_error (names_of (s_vars c)) i) as [n|] eqn:En; [exists n; split; [reflexivity|right; exact Hk']|].
    exfalso. apply nth_error_None in En. unfold names_of in En. rewrite map_length in En. lia.
  - intros y. cbn [map]. change (osum []) with (Some 0%Qc). unfold cost.
    rewrite (coefs_ext (by_name c y)) by (intros; now rewrite by_name_named).
    destruct (coefs_value _ _); cbn; [|reflexivity]. f_equal. ring.
Qed.
Lemma osum_snoc l x : osum (l ++ [x]) = olift2 Qcplus (osum l) x.
Proof. rewrite osum_app, osum_more. change (osum []) with (Some 0%Qc). destruct (osum l), x; cbn; try reflexivity. f_equal. ring. Qed.
Lemma fused_step c roots ms m f f' D : roots_ok roots (s_vars c) -> sound_solver c -> sound_solver (solver_of m) ->
  NoDup (flat_map row_keys (ms ++ [m])) -> NoDup (flat_map variable_names (ms ++ [m])) ->
  (forall k n, In k (map fst (s_objective c)) -> nth_error (names_of (s_vars c)) k = Some n -> ~ In n (variable_names m)) ->
  fused c roots ms f D -> fuse_master roots f m = Ok f' -> exists D', fused c roots (ms ++ [m]) f' D'.
Proof.
  intros HR SC (SN & SR & SO1 & SO2) NK NV HC F H. unfold fuse_master in H.
  rewrite !flat_map_app in *. cbn [flat_map] in *. rewrite app_nil_r in *.
  assert (NKm : NoDup (row_keys m)) by (clear - NK; induction (flat_map row_keys ms); cbn in NK; [exact NK|apply NoDup_cons_iff in NK; tauto]).
  assert (Kout : forall k, In k (row_keys m) -> ~ In k (flat_map row_keys ms)).
  { intros k Hk Hk'. clear - NK Hk Hk'. induction (flat_map row_keys ms) as [|a l IH]; [destruct Hk'|].
    cbn in NK. apply NoDup_cons_iff in NK. destruct NK as [N1 N2]. destruct Hk' as [->|Hk']; [apply N1, in_or_app; auto|auto]. }
  assert (Vout : forall n, In n (variable_names m) -> ~ In n (flat_map variable_names ms)).
  { intros k Hk Hk'. clear - NV Hk Hk'. induction (flat_map variable_names ms) as [|a l IH]; [destruct Hk'|].
    cbn in NV. apply NoDup_cons_iff in NV. destruct NV as [N1 N2]. destruct Hk' as [->|Hk']; [apply N1, in_or_app; auto|auto]. }
  destruct (fuse_steps_spec c roots m _ NKm _ _ _ (fd_rows _ _ _ _ _ F) (fd_nodup _ _ _ _ _ F) H)
    as (D' & I1 & I2 & I3 & I4 & I5 & I6 & I7 & I8). cbv zeta in *.
  rewrite numbered_snd, numbered_fst in *. fold (master_vars m) in *.
  assert (HRf : roots_ok roots (fvars f)) by (rewrite (fd_vars _ _ _ _ _ F); now apply roots_puts).
  set (J := js roots (fvars f) (master_vars m)) in *.
  assert (EJ : combine (seq 0 (List.length (master_vars m))) J = numbered J) by (unfold numbered, J; now rewrite js_length).
  change (s_vars (st_solver (pb_state m))) with (master_vars m) in *. fold J in I5, I7. rewrite EJ in *.
  assert (NJ : NoDup (map snd (numbered J))) by (rewrite numbered_snd; now apply js_nodup).
  assert (Jname : forall j, In j J -> exists n, nth_error (names_of (fvars f')) j = Some n /\ In n (variable_names m)).
  { intros j Hj. rewrite I6. pose proof (in_map (nth_error (names_of (fold_left (put_var roots) (master_vars m) (fvars f)))) _ _ Hj) as Hj'.
    unfold J in Hj'. rewrite js_names in Hj' by exact HRf. apply in_map_iff in Hj'. destruct Hj' as (v & E & Hv). exists (sv_name v).
    split; [congruence|]. now apply in_map. }
  assert (Fresh : forall j, In j (map snd (numbered J)) -> ~ In j (map fst (fobj f))).
  { intros j Hj Ho. rewrite numbered_snd in Hj. destruct (fd_obj_keys _ _ _ _ _ F j Ho) as (n & Hn & [Hm|Hc]).
    - revert Hj. unfold J. apply (js_fresh _ _ _ _ n); auto. intros Hn'. now apply (Vout n).
    - destruct (nth_error (names_of (s_vars c)) j) as [n'|] eqn:E.
      + revert Hj. unfold J. apply (js_fresh _ _ _ _ n); auto. intros Hn'. apply (HC j n'); auto.
        rewrite (fd_vars _ _ _ _ _ F) in Hn. rewrite (nth_names_puts _ _ _ _ _ E) in Hn. injection Hn as <-. exact Hn'.
      + exfalso. destruct SC as (_ & _ & _ & SC). apply in_map_iff in Hc. destruct Hc as ([i a] & Hi & Hc). cbn in Hi. subst i.
        apply SC in Hc. apply nth_error_None in E. unfold names_of in E. rewrite map_length in E. lia. }
  assert (OBJ : fobj f' = fobj f ++ terms (s_objective (solver_of m)) (numbered J)) by (rewrite I7; now apply put_obj_terms).
  exists D'. constructor.
  - exact I1.
  - exact I2.
  - intros k Hk. rewrite flat_map_app. cbn [flat_map]. rewrite app_nil_r. apply I3, in_app_or in Hk. apply in_or_app.
    destruct Hk as [Hk|Hk]; [now right|left]. now apply (fd_keys _ _ _ _ _ F).
  - rewrite I6, (fd_vars _ _ _ _ _ F). unfold all_vars. rewrite flat_map_app, fold_left_app. cbn [flat_map]. now rewrite app_nil_r.
  - rewrite I8. apply (fd_offset _ _ _ _ _ F).
  - intros m' r Hm' Hr. apply in_app_or in Hm'. destruct Hm' as [Hm'|[<-|[]]].
    + pose proof (fd_row _ _ _ _ _ F m' r Hm' Hr) as G. rewrite I4.
      * destruct (dget String.eqb _ D) as [R|]; [|exact G]. destruct G as [G0 (G1 & G2 & G3 & G4 & G5 & G6)].
        split; [exact G0|]. repeat split; auto.
        -- intros k Hk. destruct (G5 k Hk) as [n Hn]. exists n. rewrite I6. now apply nth_names_puts.
        -- intros y. rewrite <- G6. apply coefs_ext. intros k Hk. destruct (G5 k Hk) as [n Hn]. rewrite I6. now apply (named_value_puts _ _ _ _ _ n).
      * intros Hk. apply (Kout _ Hk). apply in_flat_map. exists m'. split; [exact Hm'|]. now apply (in_map (row_key (pb_name m'))).
    + rewrite I5 by exact Hr.
      assert (Hk : In (row_key (pb_name m) r) (row_keys m)) by now apply (in_map (row_key (pb_name m))).
      assert (E0 : dget String.eqb (row_key (pb_name m) r) D = None).
      { destruct (dget String.eqb (row_key (pb_name m) r) D) eqn:E; [|reflexivity]. exfalso.
        apply (Kout _ Hk). apply (fd_keys _ _ _ _ _ F). apply (dget_In String.eqb String.eqb_eq) in E.
        apply (in_map fst) in E. exact E. }
      rewrite E0, add_terms_none by exact NJ. destruct (SR r Hr) as [Nr Hrl].
      assert (Hin : forall i c, In (i, c) (sr_coefs r) -> In i (map fst (numbered J))).
      { intros i a Hi. rewrite numbered_fst. unfold J. rewrite js_length. apply in_seq. specialize (Hrl i a Hi).
        unfold master_vars. lia. }
      pose proof (terms_has _ _ Nr Hin) as TH.
      destruct (terms (sr_coefs r) (numbered J)) as [|t T] eqn:ET.
      * intros Hh. apply TH in Hh. congruence.
      * split; [now apply TH|]. rewrite <- ET. unfold stands_for, with_coefs, fresh_row. cbn. repeat split; auto.
        -- now apply terms_nodup.
        -- intros k Hk'. apply terms_keys in Hk'. rewrite numbered_snd in Hk'. destruct (Jname k Hk') as (n & Hn & _). now exists n.
        -- intros y. rewrite I6. unfold J. apply master_terms_value; auto.
  - rewrite OBJ, map_app. apply nodup_join.
    + apply (fd_obj_nodup _ _ _ _ _ F).
    + now apply terms_nodup.
    + intros k Hk Hk'. apply terms_keys in Hk'. now apply (Fresh k).
  - intros k Hk. rewrite OBJ, map_app in Hk. apply in_app_or in Hk. rewrite flat_map_app. cbn [flat_map]. rewrite app_nil_r.
    destruct Hk as [Hk|Hk].
    + destruct (fd_obj_keys _ _ _ _ _ F k Hk) as (n & Hn & Ho). exists n. split; [rewrite I6; now apply nth_names_puts|].
      destruct Ho as [Ho|Ho]; [left; apply in_or_app; now left|now right].
    + apply terms_keys in Hk. rewrite numbered_snd in Hk. destruct (Jname k Hk) as (n & Hn & Hm). exists n. split; [exact Hn|].
      left. apply in_or_app. now right.
  - intros y. rewrite OBJ, coefs_app, map_app. cbn [map]. rewrite osum_snoc. rewrite (coefs_ext (named_value (fvars f) y)).
    + rewrite (fd_obj _ _ _ _ _ F y). unfold cost at 2. rewrite I6. unfold J. rewrite master_terms_value by assumption.
      unfold cost. rewrite (coefs_ext (by_name (solver_of m) y) (named_value (master_vars m) y)) by (intros; now rewrite by_name_named).
      destruct (coefs_value (by_name c y) _), (osum _), (coefs_value (by_name (solver_of m) y) _); cbn; try reflexivity. f_equal. ring.
    + intros k Hk. destruct (fd_obj_keys _ _ _ _ _ F k Hk) as (n & Hn & _). rewrite I6. now apply (named_value_puts _ _ _ _ _ n).
Qed.
Lemma fused_masters c roots todo : roots_ok roots (s_vars c) -> sound_solver c -> Forall (fun m => sound_solver (solver_of m)) todo ->
  forall ms f f' D, NoDup (flat_map row_keys (ms ++ todo)) -> NoDup (flat_map variable_names (ms ++ todo)) ->
  (forall m k n, In m todo -> In k (map fst (s_objective c)) -> nth_error (names_of (s_vars c)) k = Some n -> ~ In n (variable_names m)) ->
  fused c roots ms f D -> foldM (fuse_master roots) f todo = Ok f' -> exists D', fused c roots (ms ++ todo) f' D'.
Proof.
  intros HR SC. induction 1 as [|m todo Hm _ IH]; intros ms f f' D NK NV HC F H; cbn [foldM] in H.
  - injection H as <-. rewrite app_nil_r. now exists D.
  - inv_bind H. replace (ms ++ m :: todo) with ((ms ++ [m]) ++ todo) in * by (now rewrite <- app_assoc).
    assert (P : forall {B} (g : problem -> list B) l l', NoDup (flat_map g (l ++ l')) -> NoDup (flat_map g l)).
    { intros B g l l' N. rewrite flat_map_app in N. now apply nodup_left in N. }
    match goal with E : fuse_master _ _ _ = Ok _ |- _ =>
      destruct (fused_step c roots ms m _ _ D HR SC Hm (P _ _ _ _ NK) (P _ _ _ _ NV) (fun k n => HC m k n (or_introl eq_refl)) F E) as [D1 F1] end.
    apply (IH _ _ _ _ NK NV) with (2 := F1); auto. intros m' k n Hm'. apply HC. now right.
Qed.

(** ** The variables of the coupler *)
Lemma roots_fold L n : forall d : dict string nat,
  (forall j, dget String.eqb n (fold_left (fun d iv => dset String.eqb (sv_name (snd iv)) (fst iv) d) L d) = Some j ->
     dget String.eqb n d = Some j \/ exists v, In (j, v) L /\ sv_name v = n) /\
  (In n (map (fun iv => sv_name (snd iv)) L) \/ dget String.eqb n d <> None ->
     dget String.eqb n (fold_left (fun d iv => dset String.eqb (sv_name (snd iv)) (fst iv) d) L d) <> None).
Proof.
  induction L as [|[i v] L IH]; intros d; cbn [fold_left map fst snd].
  - split; [auto|]. intros [[]|H]; exact H.
  - destruct (IH (dset String.eqb (sv_name v) i d)) as [I1 I2]. split.
    + intros j Hj. destruct (I1 j Hj) as [H|(v' & H & E)]; [|right; exists v'; split; [now right|exact E]].
      destruct (String.eqb_spec n (sv_name v)) as [->|Hne].
      * rewrite (dget_dset_same String.eqb String.eqb_eq) in H. injection H as <-. right. exists v. split; [now left|reflexivity].
      * rewrite (dget_dset_other String.eqb String.eqb_eq) in H by congruence. now left.
    + intros H. apply I2. destruct (String.eqb_spec n (sv_name v)) as [->|Hne].
      * right. rewrite (dget_dset_same String.eqb String.eqb_eq). discriminate.
      * destruct H as [[H|H]|H]; [congruence|now left|right]. now rewrite (dget_dset_other String.eqb String.eqb_eq) by congruence.
Qed.
Lemma roots_some s n j : dget String.eqb n (root_variables s) = Some j -> nth_error (names_of (s_vars s)) j = Some n.
Proof.
  intros H. apply roots_fold in H. destruct H as [H|(v & H & <-)]; [discriminate|]. apply numbered_nth in H.
  unfold names_of. now rewrite nth_error_map, H.
Qed.
Lemma roots_none s n : dget String.eqb n (root_variables s) = None <-> ~ In n (names_of (s_vars s)).
Proof.
  split.
  - intros H Hn. refine (proj2 (roots_fold (numbered (s_vars s)) n []) (or_introl _) H).
    rewrite <- (map_map snd sv_name), numbered_snd. exact Hn.
  - intros H. destruct (dget String.eqb n (root_variables s)) as [j|] eqn:E; [|reflexivity]. exfalso. apply H.
    apply roots_some, nth_error_In in E. exact E.
Qed.

(** ** The variables of the merged problem *)
Definition merged (L : list solver_var) (w : solver_var) : solver_var :=
  match find (fun v => String.eqb (sv_name v) (sv_name w)) L with
  | Some v => set_bounds (sv_lb v) (sv_ub v) w
  | None => w
  end.
Definition fresh (roots : dict string nat) (v : solver_var) : bool := negb (dmem String.eqb (sv_name v) roots).
Lemma list_ext {A} (l : list A) : forall l', (forall i, nth_error l i = nth_error l' i) -> l = l'.
Proof.
  induction l as [|a l IH]; intros [|b l'] H; auto.
  - specialize (H O). discriminate.
  - specialize (H O). discriminate.
  - f_equal; [specialize (H O); cbn in H; congruence|]. apply IH. intros i. apply (H (S i)).
Qed.
Lemma change_app_l {A} i (f : A -> A) l l' : (i < List.length l)%nat -> change i f (l ++ l') = change i f l ++ l'.
Proof. revert i. induction l as [|a l IH]; intros [|i] H; cbn in *; try lia; [reflexivity|]. now rewrite IH by lia. Qed.
Lemma find_none_name L n : ~ In n (map sv_name L) -> find (fun v => String.eqb (sv_name v) n) L = None.
Proof.
  induction L as [|v L IH]; cbn; intros H; [reflexivity|]. destruct (String.eqb_spec (sv_name v) n); [exfalso; auto|]. auto.
Qed.
Lemma find_snoc {A} (p : A -> bool) L v : find p (L ++ [v]) = match find p L with Some x => Some x | None => if p v then Some v else None end.
Proof. induction L as [|a L IH]; cbn; [reflexivity|]. destruct (p a); auto. Qed.
Lemma put_vars s L : NoDup (names_of (s_vars s)) -> NoDup (map sv_name L) ->
  fold_left (put_var (root_variables s)) L (s_vars s) =
  map (merged L) (s_vars s) ++ map relaxed (filter (fresh (root_variables s)) L).
Proof.
  intros N. induction L as [|v L IH] using rev_ind; intros NL.
  - cbn. rewrite app_nil_r. symmetry. etransitivity; [|apply map_id]. apply map_ext. reflexivity.
  - rewrite map_app in NL. pose proof (NoDup_remove_2 _ _ _ NL) as Nv. pose proof (NoDup_remove_1 _ _ _ NL) as NL'. rewrite app_nil_r in *.
    rewrite fold_left_app. cbn [fold_left]. rewrite IH by exact NL'. rewrite filter_app, map_app. cbn [filter].
    unfold put_var at 1. change (fresh (root_variables s) v) with (negb (dmem String.eqb (sv_name v) (root_variables s))). unfold dmem. destruct (dget String.eqb (sv_name v) (root_variables s)) as [j|] eqn:E.
    + cbn [negb map app]. rewrite app_nil_r. apply roots_some in E.
      rewrite change_app_l by (rewrite map_length; unfold names_of in E; rewrite nth_error_map in E; apply nth_error_Some; now destruct (nth_error (s_vars s) j)).
      f_equal. apply list_ext. intros i. rewrite nth_change, !nth_error_map.
      unfold names_of in E. rewrite nth_error_map in E. destruct (nth_error (s_vars s) j) as [w|] eqn:Ew; [|discriminate]. cbn in E. injection E as E.
      destruct (Nat.eqb_spec j i) as [<-|Hne].
      * rewrite Ew. cbn. f_equal. unfold merged. rewrite find_snoc, E, String.eqb_refl. rewrite find_none_name by exact Nv. reflexivity.
      * destruct (nth_error (s_vars s) i) as [w'|] eqn:Ei; [|reflexivity]. cbn. f_equal. unfold merged. rewrite find_snoc.
        destruct (String.eqb_spec (sv_name v) (sv_name w')) as [E'|_]; [|now destruct (find _ L)].
        exfalso. apply Hne. refine (proj1 (NoDup_nth_error _) N j i _ _).
        -- unfold names_of. rewrite map_length. apply nth_error_Some. congruence.
        -- unfold names_of. rewrite !nth_error_map, Ew, Ei. cbn. congruence.
    + cbn [negb map app]. rewrite <- app_assoc. f_equal. apply map_ext_in. intros w Hw. unfold merged. rewrite find_snoc.
      destruct (String.eqb_spec (sv_name v) (sv_name w)) as [E'|_]; [|now destruct (find _ L)].
      exfalso. apply roots_none in E. apply E. rewrite E'. now apply in_map.
Qed.

(** ** Columns *)
Lemma columns_keys st : sound_columns st -> NoDup (names_of (s_vars (st_solver st))) ->
  incl (map fst (st_infos st)) (names_of (s_vars (st_solver st))).
Proof.
  intros (N & Hl & Hi) Nv. apply NoDup_length_incl.
  - exact Nv.
  - unfold names_of. rewrite !map_length. lia.
  - intros n Hn. unfold names_of in Hn. apply in_map_iff in Hn. destruct Hn as (v & <- & Hv). apply In_nth_error in Hv.
    destruct Hv as [i Hv]. destruct (Hi i v Hv) as (info & E & _). apply (dget_In String.eqb String.eqb_eq) in E.
    apply (in_map fst) in E. exact E.
Qed.
Lemma names_put_nodup roots vars v : NoDup (names_of vars) ->
  (dget String.eqb (sv_name v) roots = None -> ~ In (sv_name v) (names_of vars)) -> NoDup (names_of (put_var roots vars v)).
Proof.
  intros N H. rewrite names_put. destruct (dget _ _ roots); [exact N|]. apply nodup_join; [exact N|repeat constructor; easy|].
  intros a Ha [<-|[]]. now apply H.
Qed.
Lemma fuse_variable_columns roots infos v st : sound_columns st -> NoDup (names_of (s_vars (st_solver st))) ->
  roots_ok roots (s_vars (st_solver st)) -> In (sv_name v) (map fst infos) ->
  (dget String.eqb (sv_name v) roots = None -> ~ In (sv_name v) (names_of (s_vars (st_solver st)))) ->
  exists j st', fuse_variable roots infos v st = Ok (j, st') /\ sound_columns st'.
Proof.
  intros SC N HR Hin Hn. pose proof (columns_keys st SC N) as K. destruct SC as (N1 & Hl & Hi).
  unfold fuse_variable. destruct (dget String.eqb (sv_name v) infos) as [info|] eqn:E0;
    [|exfalso; apply (dget_None String.eqb String.eqb_eq) in E0; contradiction].
  destruct (dget String.eqb (sv_name v) roots) as [j|] eqn:E.
  - pose proof (HR _ _ E) as Ej. unfold names_of in Ej. rewrite nth_error_map in Ej.
    destruct (nth_error (s_vars (st_solver st)) j) as [w|] eqn:Ew; [|discriminate]. cbn in Ej. injection Ej as Ej.
    destruct (Hi j w Ew) as (old & G1 & G2 & G3). rewrite Ej in *. rewrite G1. eexists _, _. split; [reflexivity|].
    assert (M : dmem String.eqb (sv_name v) (st_infos st) = true) by (unfold dmem; now rewrite G1).
    assert (KE : map fst (dset String.eqb (sv_name v) {| vi_name := vi_name old; vi_column := vi_column old; vi_in_objective := vi_in_objective info |} (st_infos st)) = map fst (st_infos st)) by (rewrite (dset_keys String.eqb), M; reflexivity).
    split; [|split]; cbn [st_infos st_solver with_solver s_vars].
    + now rewrite KE.
    + rewrite change_length, <- Hl. rewrite <- (map_length fst), KE, map_length. reflexivity.
    + intros i u Hu. rewrite nth_change in Hu. destruct (Nat.eqb_spec j i) as [<-|Hne].
      * rewrite Ew in Hu. cbn in Hu. injection Hu as <-. cbn. rewrite Ej, (dget_dset_same String.eqb String.eqb_eq). eexists. split; [reflexivity|]. cbn. auto.
      * destruct (Hi i u Hu) as (x & X1 & X2 & X3). exists x. split; [|auto]. rewrite (dget_dset_other String.eqb String.eqb_eq); [exact X1|].
        intros Eu. apply Hne. refine (proj1 (NoDup_nth_error _) N j i _ _).
        -- unfold names_of. rewrite map_length. apply nth_error_Some. congruence.
        -- unfold names_of. rewrite !nth_error_map, Ew, Hu. cbn. congruence.
  - eexists _, _. split; [reflexivity|]. specialize (Hn eq_refl).
    assert (M : dmem String.eqb (sv_name v) (st_infos st) = false).
    { unfold dmem. destruct (dget _ _ (st_infos st)) eqn:G; [|reflexivity]. exfalso. apply Hn, K.
      apply (dget_In String.eqb String.eqb_eq) in G. apply (in_map fst) in G. exact G. }
    assert (KE : forall x, map fst (dset String.eqb (sv_name v) x (st_infos st)) = map fst (st_infos st) ++ [sv_name v]) by (intros x; rewrite (dset_keys String.eqb), M; reflexivity).
    split; [|split]; cbn [st_infos st_solver with_solver s_vars].
    + rewrite KE. apply nodup_join; [exact N1|repeat constructor; easy|]. intros a Ha [<-|[]]. apply Hn. now apply K.
    + rewrite app_length. cbn. rewrite <- (map_length fst), KE, app_length, map_length. cbn. lia.
    + intros i u Hu. destruct (Nat.lt_ge_cases i (List.length (s_vars (st_solver st)))) as [Hlt|Hge].
      * rewrite nth_error_app1 in Hu by exact Hlt. destruct (Hi i u Hu) as (x & X1 & X2 & X3). exists x. split; [|auto].
        rewrite (dget_dset_other String.eqb String.eqb_eq); [exact X1|]. intros Eu. apply Hn.
        apply nth_error_In in Hu. apply (in_map sv_name) in Hu. unfold names_of. congruence.
      * rewrite nth_error_app2 in Hu by exact Hge. destruct (i - List.length (s_vars (st_solver st)))%nat as [|k] eqn:Ei;
          [|destruct k; discriminate]. cbn in Hu. injection Hu as <-. cbn. rewrite (dget_dset_same String.eqb String.eqb_eq).
        eexists. split; [reflexivity|]. cbn. split; [reflexivity|]. rewrite Hl. lia.
Qed.
Lemma columns_ext st st' : st_infos st' = st_infos st -> s_vars (st_solver st') = s_vars (st_solver st) -> sound_columns st -> sound_columns st'.
Proof. unfold sound_columns. intros -> ->. auto. Qed.
Lemma fuse_rows_frame name i j rows : forall f,
  let f' := fold_left (fuse_row name i j) rows f in
  s_vars (st_solver (fu_state f')) = s_vars (st_solver (fu_state f)) /\ st_infos (fu_state f') = st_infos (fu_state f).
Proof.
  induction rows as [|r rows IH]; intros f; cbn [fold_left]; [auto|]. destruct (IH (fuse_row name i j f r)) as [A B].
  destruct (fuse_row_frame name i j f r) as (F1 & _ & _ & F4). cbv zeta in *. split; congruence.
Qed.
Lemma fuse_step_columns roots m f i v : sound_columns (fu_state f) -> NoDup (names_of (fvars f)) -> roots_ok roots (fvars f) ->
  In (sv_name v) (map fst (st_infos (pb_state m))) ->
  (dget String.eqb (sv_name v) roots = None -> ~ In (sv_name v) (names_of (fvars f))) ->
  exists f', fuse_step roots m f (i, v) = Ok f' /\ sound_columns (fu_state f') /\ fvars f' = put_var roots (fvars f) v.
Proof.
  intros SC N HR Hin Hn. destruct (fuse_variable_columns roots (st_infos (pb_state m)) v (fu_state f) SC N HR Hin Hn) as (j & st' & E & SC').
  unfold fuse_step. cbn [fst snd]. rewrite E. cbn [bind]. eexists. split; [reflexivity|]. cbn [fst snd].
  set (f1 := fold_left _ _ _).
  destruct (fuse_rows_frame (pb_name m) i j (s_rows (st_solver (pb_state m))) {| fu_state := st'; fu_rows := fu_rows f |}) as [A B].
  cbv zeta in A, B. fold f1 in A, B. cbn [fu_state] in A, B.
  destruct (fuse_objective_frame (s_objective (st_solver (pb_state m))) i j f1) as (O1 & _ & _ & O4 & _ & _).
  split; [apply (columns_ext st'); [congruence|congruence|exact SC']|].
  unfold fvars. rewrite O1, A. now apply fuse_variable_spec in E.
Qed.
Lemma fuse_steps_columns roots m L : forall f, sound_columns (fu_state f) -> NoDup (names_of (fvars f)) -> roots_ok roots (fvars f) ->
  incl (map sv_name (map snd L)) (map fst (st_infos (pb_state m))) -> NoDup (map sv_name (map snd L)) ->
  (forall v, In v (map snd L) -> dget String.eqb (sv_name v) roots = None -> ~ In (sv_name v) (names_of (fvars f))) ->
  exists f', foldM (fuse_step roots m) f L = Ok f' /\ sound_columns (fu_state f') /\ NoDup (names_of (fvars f')) /\
    fvars f' = fold_left (put_var roots) (map snd L) (fvars f).
Proof.
  induction L as [|[i v] L IH]; intros f SC N HR Hin NL Hn; cbn [foldM map fst snd fold_left] in *.
  - exists f. auto.
  - apply NoDup_cons_iff in NL. destruct NL as [N0 NL].
    destruct (fuse_step_columns roots m f i v SC N HR (Hin _ (or_introl eq_refl)) (Hn v (or_introl eq_refl))) as (f1 & E & SC1 & V1).
    rewrite E. cbn [bind]. destruct (IH f1) as (f' & E' & SC' & N' & V'); rewrite ?V1 in *; auto.
    + apply names_put_nodup; [exact N|apply Hn; now left].
    + now apply roots_put.
    + intros n Hn'. apply Hin. now right.
    + intros w Hw Hd. rewrite names_put. destruct (dget String.eqb (sv_name v) roots); [exact (Hn w (or_intror Hw) Hd)|].
      intros F. apply in_app_or in F. destruct F as [F|[F|[]]]; [exact (Hn w (or_intror Hw) Hd F)|]. apply N0. rewrite F. now apply in_map.
    + exists f'. auto.
Qed.
Lemma fuse_masters_columns roots ms : forall f, sound_columns (fu_state f) -> NoDup (names_of (fvars f)) -> roots_ok roots (fvars f) ->
  Forall (fun m => sound_columns (pb_state m)) ms -> NoDup (flat_map variable_names ms) ->
  (forall v, In v (all_vars ms) -> dget String.eqb (sv_name v) roots = None -> ~ In (sv_name v) (names_of (fvars f))) ->
  exists f', foldM (fuse_master roots) f ms = Ok f' /\ sound_columns (fu_state f') /\ NoDup (names_of (fvars f')).
Proof.
  induction ms as [|m ms IH]; intros f SC N HR Hc NL Hn; cbn [foldM].
  - exists f. auto.
  - cbn [flat_map] in NL. apply Forall_cons_iff in Hc. destruct Hc as [Hm Hc].
    destruct (fuse_steps_columns roots m (numbered (master_vars m)) f SC N HR) as (f1 & E & SC1 & N1 & V1); rewrite ?numbered_snd in *.
    + intros n Hn'. apply in_map_iff in Hn'. destruct Hn' as (v & <- & Hv). apply In_nth_error in Hv. destruct Hv as [i Hv].
      destruct Hm as (_ & _ & Hm). destruct (Hm i v Hv) as (info & G & _). apply (dget_In String.eqb String.eqb_eq) in G.
      apply (in_map fst) in G. exact G.
    + now apply nodup_left in NL.
    + intros v Hv. apply Hn. unfold all_vars. cbn [flat_map]. apply in_or_app. now left.
    + unfold fuse_master at 1. change (s_vars (st_solver (pb_state m))) with (master_vars m). rewrite E. cbn [bind].
      assert (NR : NoDup (flat_map variable_names ms)) by (clear - NL; induction (variable_names m); cbn in NL; [exact NL|apply NoDup_cons_iff in NL; tauto]).
      apply IH; auto.
      * rewrite V1. now apply roots_puts.
      * intros v Hv Hd F. rewrite V1 in F.
        assert (G : forall L vars, In (sv_name v) (names_of (fold_left (put_var roots) L vars)) -> In (sv_name v) (names_of vars) \/ In (sv_name v) (map sv_name L)).
        { induction L as [|w L IHL]; intros vars Hw; cbn [fold_left map] in *; [now left|]. apply IHL in Hw. destruct Hw as [Hw|Hw]; [|right; now right].
          rewrite names_put in Hw. destruct (dget _ (sv_name w) roots); [now left|]. apply in_app_or in Hw. destruct Hw as [Hw|[Hw|[]]]; [now left|right; now left]. }
        apply G in F. destruct F as [F|F].
        -- apply (Hn v) in F; auto. unfold all_vars. cbn [flat_map]. apply in_or_app. now right.
        -- assert (Hv' : In (sv_name v) (flat_map variable_names ms)).
           { apply in_flat_map in Hv. destruct Hv as (m' & Hm' & Hv). apply in_flat_map. exists m'. split; [exact Hm'|]. now apply in_map. }
           clear - NL F Hv'. change (map sv_name (master_vars m)) with (variable_names m) in F.
           induction (variable_names m) as [|a l IHl]; [destruct F|]. cbn in NL. apply NoDup_cons_iff in NL. destruct NL as [N1 N2].
           destruct F as [->|F]; [apply N1, in_or_app; now right|auto].
Qed.

(** ** The merged problem *)
Lemma merged_of masters coupler : mergeable masters coupler ->
  exists f D, fusion_problems masters coupler = Ok {| pb_name := "master"; pb_state := fu_state f |} /\
    fused (solver_of coupler) (root_variables (solver_of coupler)) masters f D /\ sound_columns (fu_state f) /\ NoDup (names_of (fvars f)).
Proof.
  intros [Hn [C1 C2] Hm Nv Nr Ho].
  assert (HR : roots_ok (root_variables (solver_of coupler)) (s_vars (solver_of coupler))) by (intros n j; apply roots_some).
  destruct (fuse_masters_columns (root_variables (solver_of coupler)) masters {| fu_state := pb_state coupler; fu_rows := [] |}) as (f & E & SC & N).
  - exact C2.
  - exact (proj1 C1).
  - exact HR.
  - apply Forall_forall. intros m H. now apply Hm.
  - exact Nv.
  - intros v _ Hd. now apply roots_none in Hd.
  - assert (Hs : Forall (fun m => sound_solver (solver_of m)) masters) by (apply Forall_forall; intros m H; now apply Hm).
    destruct (fused_masters (solver_of coupler) (root_variables (solver_of coupler)) masters HR C1 Hs []
      {| fu_state := pb_state coupler; fu_rows := [] |} f [] Nr Nv) as [D F].
    + intros m k n Hin Hk Hn' F. unfold names_of in Hn'. rewrite nth_error_map in Hn'.
      destruct (nth_error (s_vars (solver_of coupler)) k) as [v|] eqn:Ev; [|discriminate]. cbn in Hn'. injection Hn' as <-.
      apply (Ho k v Hk Ev). apply in_flat_map. now exists m.
    + now apply fused_start.
    + exact E.
    + exists f, D. split; [|auto]. unfold fusion_problems. fold (solver_of coupler).
      destruct masters as [|m [|m' ms]]; [|cbn in Hn; congruence|]; rewrite E; reflexivity.
Qed.
Lemma rows_iff y c ms f D : fused (solver_of c) (root_variables (solver_of c)) ms f D -> sound_solver (solver_of c) ->
  rows_hold y (st_solver (fu_state f)) <-> rows_hold y (solver_of c) /\ forall m, In m ms -> term_rows_hold y (solver_of m).
Proof.
  intros F SC. unfold rows_hold. rewrite (proj1 (fd_rows _ _ _ _ _ F)).
  assert (VE : forall i, by_name (st_solver (fu_state f)) y i = named_value (fvars f) y i) by (intros; apply by_name_named).
  assert (RE : forall y1 y2 r r', coefs_value y1 (sr_coefs r) = coefs_value y2 (sr_coefs r') -> sr_lb r = sr_lb r' -> sr_ub r = sr_ub r' ->
    row_sat y1 r <-> row_sat y2 r') by (intros y1 y2 r r' E1 E2 E3; unfold row_sat; rewrite E1, E2, E3; apply iff_refl).
  assert (CE : forall r, In r (s_rows (solver_of c)) -> row_sat (by_name (st_solver (fu_state f)) y) r <-> row_sat (by_name (solver_of c) y) r).
  { intros r Hr. apply RE; auto. apply coefs_ext. intros k Hk. rewrite VE, by_name_named, (fd_vars _ _ _ _ _ F).
    destruct SC as (_ & SR & _). destruct (SR r Hr) as [_ SR']. apply in_map_iff in Hk. destruct Hk as ([i a] & <- & Hk). cbn. apply SR' in Hk.
    destruct (nth_error (names_of (s_vars (solver_of c))) i) as [n|] eqn:En; [now apply (named_value_puts _ _ _ _ _ n)|].
    exfalso. apply nth_error_None in En. unfold names_of in En. rewrite map_length in En. lia. }
  assert (ME : forall m r R, stands_for (fvars f) (master_vars m) (pb_name m) r R ->
    row_sat (by_name (st_solver (fu_state f)) y) R <-> row_sat (by_name (solver_of m) y) r).
  { intros m r R (_ & E1 & E2 & _ & _ & E3). apply RE; auto.
    rewrite (coefs_ext (named_value (fvars f) y)) by auto. rewrite E3. apply coefs_ext. intros; symmetry; apply by_name_named. }
  split.
  - intros H. split; [intros r Hr; apply CE; auto; apply H, in_or_app; now left|]. intros m Hm r Hr Ht.
    pose proof (fd_row _ _ _ _ _ F m r Hm Hr) as G. destruct (dget String.eqb _ D) as [R|] eqn:E; [|contradiction].
    apply (ME m r R (proj2 G)). apply H, in_or_app. right. apply (dget_In String.eqb String.eqb_eq) in E. apply (in_map snd) in E. exact E.
  - intros [H1 H2] R HR. apply in_app_or in HR. destruct HR as [HR|HR]; [apply CE; auto|].
    apply in_map_iff in HR. destruct HR as ([k R'] & <- & HR). cbn.
    pose proof (fd_keys _ _ _ _ _ F k (in_map fst _ _ HR)) as Hk. apply in_flat_map in Hk. destruct Hk as (m & Hm & Hk).
    apply in_map_iff in Hk. destruct Hk as (r & <- & Hr).
    pose proof (fd_row _ _ _ _ _ F m r Hm Hr) as G. unfold row_key in G.
    rewrite (In_dget_nodup String.eqb String.eqb_eq _ _ _ (fd_nodup _ _ _ _ _ F) HR) in G. destruct G as [Ht G].
    apply (ME m r R' G). now apply (H2 m Hm r Hr).
Qed.
Lemma all_vars_names ms : map sv_name (all_vars ms) = flat_map variable_names ms.
Proof. unfold all_vars. induction ms as [|m ms IH]; cbn; [reflexivity|]. now rewrite map_app, IH. Qed.
Lemma merged_variables c ms f D : fused (solver_of c) (root_variables (solver_of c)) ms f D -> sound_solver (solver_of c) ->
  NoDup (flat_map variable_names ms) ->
  fvars f = map (merged (all_vars ms)) (s_vars (solver_of c)) ++ map relaxed (filter (fresh (root_variables (solver_of c))) (all_vars ms)).
Proof.
  intros F SC N. rewrite (fd_vars _ _ _ _ _ F). apply put_vars; [exact (proj1 SC)|]. now rewrite all_vars_names.
Qed.
Lemma merged_same L v w : NoDup (map sv_name L) -> In v L -> sv_name w = sv_name v -> merged L w = set_bounds (sv_lb v) (sv_ub v) w.
Proof.
  intros N Hv E. unfold merged. rewrite E. clear E. induction L as [|u L IH]; [destruct Hv|]. cbn [map] in N. apply NoDup_cons_iff in N.
  destruct N as [N0 N]. cbn [find]. destruct Hv as [->|Hv]; [now rewrite String.eqb_refl|].
  destruct (String.eqb_spec (sv_name u) (sv_name v)) as [E|_]; [|auto]. exfalso. apply N0. rewrite E. now apply in_map.
Qed.
Lemma merged_other L w : ~ In (sv_name w) (map sv_name L) -> merged L w = w.
Proof. intros H. unfold merged. now rewrite find_none_name. Qed.
Lemma bounds_iff y c ms f D : fused (solver_of c) (root_variables (solver_of c)) ms f D -> sound_solver (solver_of c) ->
  NoDup (flat_map variable_names ms) ->
  bounds_hold y (st_solver (fu_state f)) <->
  (forall v, coupler_only ms c v -> within v (y (sv_name v))) /\ forall m, In m ms -> bounds_hold y (solver_of m).
Proof.
  intros F SC N. unfold bounds_hold at 1. fold (fvars f). rewrite (merged_variables _ _ _ _ F SC N).
  set (roots := root_variables (solver_of c)).
  assert (NA : NoDup (map sv_name (all_vars ms))) by now rewrite all_vars_names.
  split.
  - intros H. split.
    + intros v [Hv Ho]. rewrite <- (merged_other (all_vars ms) v) at 1 by now rewrite all_vars_names.
      replace (sv_name v) with (sv_name (merged (all_vars ms) v)) by (now rewrite merged_other by now rewrite all_vars_names).
      apply H, in_or_app. left. now apply in_map.
    + intros m Hm v Hv. assert (Ha : In v (all_vars ms)) by (apply in_flat_map; now exists m).
      destruct (dget String.eqb (sv_name v) roots) as [j|] eqn:E.
      * apply roots_some in E. unfold names_of in E. apply nth_error_In, in_map_iff in E. destruct E as (w & Ew & Hw).
        specialize (H (merged (all_vars ms) w)). rewrite (merged_same _ v) in H by assumption. cbn in H. rewrite Ew in H. apply H.
        apply in_or_app. left. apply in_map_iff. exists w. split; [now apply merged_same|exact Hw].
      * apply (H (relaxed v)). apply in_or_app. right. apply in_map, filter_In. split; [exact Ha|]. unfold fresh, dmem. now rewrite E.
  - intros [H1 H2] u Hu. apply in_app_or in Hu. destruct Hu as [Hu|Hu]; apply in_map_iff in Hu; destruct Hu as (w & <- & Hw).
    + destruct (in_dec String.string_dec (sv_name w) (map sv_name (all_vars ms))) as [Hi|Hi].
      * apply in_map_iff in Hi. destruct Hi as (v & Ev & Hv). rewrite (merged_same _ v) by auto. cbn. rewrite <- Ev.
        apply in_flat_map in Hv. destruct Hv as (m & Hm & Hv). exact (H2 m Hm v Hv).
      * rewrite merged_other by exact Hi. apply H1. split; [exact Hw|]. now rewrite <- all_vars_names.
    + apply filter_In in Hw. destruct Hw as [Hw _]. apply in_flat_map in Hw. destruct Hw as (m & Hm & Hv). exact (H2 m Hm w Hv).
Qed.
Lemma merged_feasible masters coupler p : mergeable masters coupler -> fusion_problems masters coupler = Ok p -> forall y,
  feasible y (solver_of p) <->
  rows_hold y (solver_of coupler) /\ (forall v, coupler_only masters coupler v -> within v (y (sv_name v))) /\
  forall m, In m masters -> bounds_hold y (solver_of m) /\ term_rows_hold y (solver_of m).
Proof.
  intros M E y. destruct (merged_of _ _ M) as (f & D & E' & F & _). rewrite E' in E. injection E as <-.
  unfold feasible, solver_of at 1 2. cbn [pb_state].
  rewrite (rows_iff y _ _ _ _ F (proj1 (mg_coupler _ _ M))), (bounds_iff y _ _ _ _ F (proj1 (mg_coupler _ _ M)) (mg_variables _ _ M)).
  split.
  - intros ((H1 & H2) & H3 & H4). split; [exact H3|]. split; [exact H1|]. intros m Hm. split; auto.
  - intros (H1 & H2 & H3). split; split; auto; intros m Hm; destruct (H3 m Hm); assumption.
Qed.
Lemma merged_feasible_all masters coupler p : mergeable masters coupler -> fusion_problems masters coupler = Ok p ->
  (forall m r, In m masters -> In r (s_rows (solver_of m)) -> has_term r) ->
  (forall v, In v (s_vars (solver_of coupler)) -> In (sv_name v) (flat_map variable_names masters)) -> forall y,
  feasible y (solver_of p) <-> rows_hold y (solver_of coupler) /\ forall m, In m masters -> feasible y (solver_of m).
Proof.
  intros M E Ht Hc y. rewrite (merged_feasible _ _ _ M E y). split.
  - intros (H1 & _ & H3). split; [exact H1|]. intros m Hm. destruct (H3 m Hm) as [A B]. split; [exact A|].
    intros r Hr. apply B; auto. now apply (Ht m).
  - intros (H1 & H2). split; [exact H1|]. split.
    + intros v [Hv Hn]. exfalso. apply Hn. now apply Hc.
    + intros m Hm. destruct (H2 m Hm) as [A B]. split; [exact A|]. intros r Hr _. now apply B.
Qed.
Lemma merged_cost masters coupler p : mergeable masters coupler -> fusion_problems masters coupler = Ok p -> forall y,
  cost y (solver_of p) = osum (cost y (solver_of coupler) :: map (fun m => cost y (solver_of m)) masters).
Proof.
  intros M E y. destruct (merged_of _ _ M) as (f & D & E' & F & _). rewrite E' in E. injection E as <-.
  unfold cost at 1, solver_of at 1 2. cbn [pb_state]. rewrite osum_more, <- (fd_obj _ _ _ _ _ F y). apply coefs_ext. intros. apply by_name_named.
Qed.
Lemma merged_offset masters coupler p : mergeable masters coupler -> fusion_problems masters coupler = Ok p ->
  s_offset (solver_of p) = s_offset (solver_of coupler).
Proof.
  intros M E. destruct (merged_of _ _ M) as (f & D & E' & F & _). rewrite E' in E. injection E as <-. apply (fd_offset _ _ _ _ _ F).
Qed.
Lemma merged_accepts masters coupler : mergeable masters coupler ->
  exists p, fusion_problems masters coupler = Ok p /\ pb_name p = "master"%string.
Proof. intros M. destruct (merged_of _ _ M) as (f & D & E' & _). eexists. split; [exact E'|reflexivity]. Qed.
Lemma relaxed_names L : map sv_name (map relaxed L) = map sv_name L.
Proof. rewrite map_map. reflexivity. Qed.
Lemma merged_names masters coupler p : mergeable masters coupler -> fusion_problems masters coupler = Ok p ->
  variable_names p = variable_names coupler ++
    filter (fun n => negb (existsb (String.eqb n) (variable_names coupler))) (flat_map variable_names masters).
Proof.
  intros M E. destruct (merged_of _ _ M) as (f & D & E' & F & _). rewrite E' in E. injection E as <-.
  unfold variable_names at 1, solver_of. cbn [pb_state]. fold (fvars f).
  rewrite (merged_variables _ _ _ _ F (proj1 (mg_coupler _ _ M)) (mg_variables _ _ M)). rewrite map_app, relaxed_names. f_equal.
  - unfold variable_names. rewrite map_map. apply map_ext. intros w. unfold merged. now destruct (find _ _).
  - rewrite <- all_vars_names. induction (all_vars masters) as [|v L IH]; [reflexivity|]. cbn [filter map].
    assert (Q : fresh (root_variables (solver_of coupler)) v = negb (existsb (String.eqb (sv_name v)) (variable_names coupler))).
    { unfold fresh, dmem. destruct (dget String.eqb (sv_name v) (root_variables (solver_of coupler))) as [j|] eqn:Ed.
      - apply roots_some, nth_error_In in Ed. f_equal. symmetry. apply existsb_exists. exists (sv_name v). split; [exact Ed|apply String.eqb_refl].
      - apply roots_none in Ed. destruct (existsb _ (variable_names coupler)) eqn:X; [|reflexivity]. exfalso. apply existsb_exists in X.
        destruct X as (n & Hn & X). apply String.eqb_eq in X. subst. contradiction. }
    rewrite Q. destruct (negb _); cbn [map]; now rewrite IH.
Qed.
Lemma merged_sound masters coupler p : mergeable masters coupler -> fusion_problems masters coupler = Ok p ->
  sound_columns (pb_state p) /\ sound_solver (solver_of p).
Proof.
  intros M E. destruct (merged_of _ _ M) as (f & D & E' & F & SC & N). rewrite E' in E. injection E as <-.
  split; [exact SC|]. destruct (mg_coupler _ _ M) as [CS _].
  assert (LT : forall k n, nth_error (names_of (fvars f)) k = Some n -> (k < List.length (fvars f))%nat).
  { intros k n Hk. replace (List.length (fvars f)) with (List.length (names_of (fvars f))) by (unfold names_of; apply map_length).
    apply nth_error_Some. congruence. }
  split; [exact N|]. unfold solver_of. cbn [pb_state]. split; [|split].
  - rewrite (proj1 (fd_rows _ _ _ _ _ F)). intros R HR. apply in_app_or in HR. destruct HR as [HR|HR].
    + destruct CS as (_ & CR & _). destruct (CR R HR) as [A B]. split; [exact A|]. intros i a Hi. specialize (B i a Hi).
      fold (fvars f). rewrite (merged_variables _ _ _ _ F (proj1 (mg_coupler _ _ M)) (mg_variables _ _ M)), app_length, map_length. unfold solver_of in *. lia.
    + apply in_map_iff in HR. destruct HR as ([k R'] & <- & HR). cbn.
      pose proof (fd_keys _ _ _ _ _ F k (in_map fst _ _ HR)) as Hk. apply in_flat_map in Hk. destruct Hk as (m & Hm & Hk).
      apply in_map_iff in Hk. destruct Hk as (r & <- & Hr).
      pose proof (fd_row _ _ _ _ _ F m r Hm Hr) as G. unfold row_key in G.
      rewrite (In_dget_nodup String.eqb String.eqb_eq _ _ _ (fd_nodup _ _ _ _ _ F) HR) in G. destruct G as [_ (_ & _ & _ & G4 & G5 & _)].
      split; [exact G4|]. intros i a Hi. destruct (G5 i (in_map fst _ _ Hi)) as [n Hn]. now apply (LT i n).
  - apply (fd_obj_nodup _ _ _ _ _ F).
  - intros i a Hi. destruct (fd_obj_keys _ _ _ _ _ F i (in_map fst _ _ Hi)) as (n & Hn & _). now apply (LT i n).
Qed.
(** a variable of a master that the coupler does not have is continuous *)
Lemma merged_continuous masters coupler p v : mergeable masters coupler -> fusion_problems masters coupler = Ok p ->
  In v (s_vars (solver_of p)) -> sv_integer v = true ->
  exists w, In w (s_vars (solver_of coupler)) /\ sv_name w = sv_name v /\ sv_integer w = true.
Proof.
  intros M E Hv Hi. destruct (merged_of _ _ M) as (f & D & E' & F & _). rewrite E' in E. injection E as <-.
  unfold solver_of in Hv. cbn [pb_state] in Hv. fold (fvars f) in Hv.
  rewrite (merged_variables _ _ _ _ F (proj1 (mg_coupler _ _ M)) (mg_variables _ _ M)) in Hv.
  apply in_app_or in Hv. destruct Hv as [Hv|Hv]; apply in_map_iff in Hv; destruct Hv as (w & <- & Hw); [|discriminate].
  exists w. split; [exact Hw|]. unfold merged in *. now destruct (find _ _).
Qed.
(** one master is handed over as it is *)
Lemma single_master m coupler : fusion_problems [m] coupler = Ok m.
Proof. reflexivity. Qed.
