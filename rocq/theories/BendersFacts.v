(** Proofs about coupling constraints and decomposed problems. *)
From Coq Require Import Lia Permutation.
From Verif Require Import Base BaseFacts Expr Visitors LinearExpr Linearize Expansion Model ModelFacts Study Strategy Optim ModelEq Tree Fusion Benders.
From Verif Require Import SpecExpr SpecSyntax SpecVisitors SpecExpansion SpecLinear SpecModel SpecOptim SpecFusion SpecBenders.
From Verif Require Import LinearFacts OptimFacts OptimNames FusionFacts BuiltFacts.
Local Open Scope string_scope.
Local Open Scope list_scope.

(** ** The recorded constraints *)
Definition coupling_expr (e : equation) : expr :=
  py_cmp (py_sub (Var (eq_child e)) (Var (eq_increment e)))
    (match eq_parent e with Some p => Var p | None => Lit n0 end) EQUAL.
Record info_ok (i : coupling_info) (E : equation -> Prop) : Prop := {
  io_variables : NoDup (ci_variables i);
  io_keys : NoDup (map fst (ci_constraints i));
  io_sound : forall k e, In (k, e) (ci_constraints i) -> exists q, E q /\ e = coupling_expr q;
  io_complete : forall q, E q -> exists k, In (k, coupling_expr q) (ci_constraints i);
  io_names : forall n, In n (ci_variables i) <-> exists q, E q /\ In n (equation_names q);
  io_numbers : forall k, In k (map fst (ci_constraints i)) ->
    exists pre j, k = (pre ++ "_" ++ string_of_Z j)%string /\ (0 <= j < Z.of_nat (List.length (ci_constraints i)))%Z
}.
Lemma info_ok_ext i E E' : (forall q, E q <-> E' q) -> info_ok i E -> info_ok i E'.
Proof.
  intros H [A B C D F G]. constructor; auto.
  - intros k e Hk. destruct (C k e Hk) as (q & Hq & ->). exists q. split; [now apply H|reflexivity].
  - intros q Hq. apply D. now apply H.
  - intros n. rewrite F. split; intros (q & Hq & Hn); exists q; (split; [now apply H|exact Hn]).
Qed.
Lemma set_add_In n l m : In m (set_add n l) <-> m = n \/ In m l.
Proof.
  unfold set_add. destruct (existsb (String.eqb n) l) eqn:E.
  - split; [auto|]. intros [->|H]; [|exact H]. apply existsb_exists in E as (x & Hx & Ex). apply String.eqb_eq in Ex. now subst.
  - rewrite in_app_iff. cbn. split; intros H; intuition auto.
Qed.
Lemma set_add_nodup n l : NoDup l -> NoDup (set_add n l).
Proof.
  intros H. unfold set_add. destruct (existsb (String.eqb n) l) eqn:E; [exact H|].
  apply nodup_join; [exact H|repeat constructor; auto|]. intros a Ha [<-|[]].
  assert (existsb (String.eqb n) l = true); [|congruence]. apply existsb_exists. exists n. split; [exact Ha|apply String.eqb_refl].
Qed.
(** keys end with different numbers *)
Lemma last_cut u w a b : no_underscore u -> no_underscore w -> (a ++ "_" ++ u)%string = (b ++ "_" ++ w)%string -> u = w.
Proof.
  intros Hu Hw. revert b. induction a as [|x a IH]; intros b E.
  - destruct b as [|y b]; [now injection E|]. exfalso. injection E as _ E. cbn in E.
    revert b E. induction u as [|z u IH]; intros b E.
    + destruct b; discriminate E.
    + destruct b as [|c b]; [injection E as E _; apply (proj1 Hu); now rewrite E|]. injection E as _ E. exact (IH (proj2 Hu) _ E).
  - destruct b as [|y b].
    + exfalso. injection E as _ E. cbn in E. clear IH. symmetry in E.
      revert a E. induction w as [|z w IH]; intros a E.
      * destruct a; discriminate E.
      * destruct a as [|c a]; [injection E as E _; apply (proj1 Hw); now rewrite E|]. injection E as _ E. exact (IH (proj2 Hw) _ E).
    + injection E as _ E. exact (IH _ E).
Qed.
Lemma append_assoc (a b c : string) : ((a ++ b) ++ c)%string = (a ++ (b ++ c))%string.
Proof. induction a as [|x a IH]; cbn; [reflexivity|]. now rewrite IH. Qed.

(** the new constraint of a call *)
Definition call_equation (parent : option tree_node) (n : tree_node) (c : coupling_call) : equation :=
  {| eq_child := joined (tn_id n) (co_id (given_component (cc_child c))) (cc_cumulative_child c);
     eq_increment := joined (tn_id n) (co_id (given_component (cc_child c))) (cc_incremental_child c);
     eq_parent := option_map (fun p => joined (tn_id p) (co_id (given_component (cc_parent c))) (cc_cumulative_parent c)) parent |}.
Lemma joined_not_empty a b c : String.eqb (joined a b c) "" = false.
Proof. apply String.eqb_neq. unfold joined. destruct a; discriminate. Qed.
Lemma couple_eq parent n c i : exists pre,
  ci_constraints (couple parent n c i) =
    dset String.eqb (pre ++ "_" ++ string_of_Z (Z.of_nat (List.length (ci_constraints i))))%string
      (coupling_expr (call_equation parent n c)) (ci_constraints i) /\
  forall m, In m (ci_variables (couple parent n c i)) <-> In m (equation_names (call_equation parent n c)) \/ In m (ci_variables i).
Proof.
  set (pp := match parent with Some p => (tn_id p ++ "_" ++ co_id (given_component (cc_parent c)))%string | None => "" end).
  exists (pp ++ "_" ++ tn_id n ++ "_" ++ co_id (given_component (cc_child c)))%string. split.
  - unfold couple. cbn [ci_constraints]. fold pp. f_equal; [now rewrite !append_assoc|].
    unfold coupling_expr, call_equation, joined. cbn [eq_child eq_increment eq_parent]. rewrite !append_assoc. f_equal.
    destruct parent as [p|]; cbn [option_map]; [|reflexivity]. subst pp. cbn beta iota. rewrite !append_assoc.
    change (tn_id p ++ "_" ++ co_id (given_component (cc_parent c)) ++ "_" ++ cc_cumulative_parent c)%string
      with (joined (tn_id p) (co_id (given_component (cc_parent c))) (cc_cumulative_parent c)).
    now rewrite joined_not_empty.
  - intros m. unfold couple. cbn [ci_variables]. rewrite !set_add_In. unfold equation_names, call_equation, joined.
    cbn [eq_child eq_increment eq_parent]. rewrite !append_assoc. destruct parent as [p|]; cbn [option_map In].
    + rewrite set_add_In, !append_assoc. intuition auto.
    + intuition auto.
Qed.
Lemma couple_nodup parent n c i : NoDup (ci_variables i) -> NoDup (ci_variables (couple parent n c i)).
Proof. intros H. unfold couple. cbn [ci_variables]. destruct parent; repeat apply set_add_nodup; exact H. Qed.
Lemma couple_ok parent n c i E : info_ok i E -> info_ok (couple parent n c i) (fun q => E q \/ q = call_equation parent n c).
Proof.
  intros [A B C D F G]. destruct (couple_eq parent n c i) as (pre & Ec & Ev).
  set (key := (pre ++ "_" ++ string_of_Z (Z.of_nat (List.length (ci_constraints i))))%string) in *.
  assert (Fresh : ~ In key (map fst (ci_constraints i))).
  { intros H. destruct (G _ H) as (pre' & j & Ek & Hj). unfold key in Ek.
    apply last_cut in Ek; [|apply string_of_Z_digits; lia|apply string_of_Z_digits; lia]. apply string_of_Z_inj in Ek. lia. }
  rewrite (dset_new String.eqb String.eqb_eq key _ _ Fresh) in Ec.
  constructor.
  - now apply couple_nodup.
  - rewrite Ec, map_app. apply nodup_join; [exact B|repeat constructor; auto|]. cbn. intros a Ha [<-|[]]. exact (Fresh Ha).
  - intros k e. rewrite Ec, in_app_iff. intros [H|[[= <- <-]|[]]].
    + destruct (C k e H) as (q & Hq & ->). exists q. auto.
    + eexists. split; [right; reflexivity|reflexivity].
  - intros q [Hq| ->]; rewrite Ec.
    + destruct (D q Hq) as (k & Hk). exists k. apply in_or_app. now left.
    + exists key. apply in_or_app. right. now left.
  - intros m. rewrite Ev, F. split.
    + intros [H|(q & Hq & Hn)]; [|exists q; auto]. eexists. split; [right; reflexivity|exact H].
    + intros (q & [Hq| ->] & Hn); [right; exists q; auto|now left].
  - intros k. rewrite Ec, map_app, in_app_iff, app_length. cbn [map List.length In fst]. intros [H|[<-|[]]].
    + destruct (G k H) as (pre' & j & -> & Hj). exists pre', j. split; [reflexivity|lia].
    + exists pre. eexists. split; [reflexivity|]. lia.
Qed.

(** ** The objects after any history *)
Lemma update_length {A} i (g : A -> A) l : List.length (update i g l) = List.length l.
Proof. revert i. induction l as [|a l IH]; intros [|i]; cbn; auto. Qed.
Lemma nth_update {A} i (g : A -> A) l : forall j, nth_error (update i g l) j =
  if Nat.eqb i j then option_map g (nth_error l j) else nth_error l j.
Proof.
  revert i. induction l as [|a l IH]; intros i j.
  - cbn. destruct i, j; cbn; try reflexivity; now destruct (Nat.eqb _ _).
  - destruct i as [|i], j as [|j]; cbn; try reflexivity. apply IH.
Qed.
Lemma new_node_rest c f : f_networks (fst (new_node c f)) = f_networks f /\ f_infos (fst (new_node c f)) = f_infos f.
Proof.
  unfold new_node. destruct (set_parent _ _ _); [|split; reflexivity].
  destruct (_ || _); [split; reflexivity|]. destruct (path_probability _ _ _); [|split; reflexivity].
  destruct (nc_children c); [split; reflexivity|]. destruct (set_children _ _ _) as [? [[]|]]; split; reflexivity.
Qed.
Lemma add_coupling_rest f self order f' : add_coupling_constraints f self order = Ok f' ->
  f_nodes f' = f_nodes f /\ f_infos f' = f_infos f /\
  exists n i c, nth_error (f_nodes f) self = Some n /\ nth_error (f_infos f) (tn_coupling_info n) = Some i /\
    coupling_component order i = Ok c /\ f_networks f' = update (tn_coupling_network n) (add_component c) (f_networks f).
Proof.
  unfold add_coupling_constraints, node_at, info_at. destruct (nth_error (f_nodes f) self) as [n|] eqn:En; [|discriminate]. cbn [bind].
  destruct (nth_error (f_infos f) (tn_coupling_info n)) as [i|] eqn:Ei; [|discriminate]. cbn [bind].
  destruct (coupling_component order i) as [c|] eqn:Ec; [|discriminate]. cbn [bind]. intros [= <-]. cbn.
  split; [reflexivity|]. split; [reflexivity|]. exists n, i, c. auto.
Qed.
Lemma build_forest f root db order : fst (build_benders f root db order) = f \/
  add_coupling_constraints f root order = Ok (fst (build_benders f root db order)).
Proof.
  unfold build_benders. destruct (is_leaves_prob_sum_one f root) as [[]|]; [|now left|now left].
  destruct (add_coupling_constraints f root order) as [f'|]; [right; reflexivity|now left].
Qed.
Lemma history_snoc evs e : history (evs ++ [e]) = step (history evs) e.
Proof. unfold history. now rewrite fold_left_app. Qed.
Lemma asked_snoc evs e k q : asked (evs ++ [e]) k q <-> asked evs k q \/
  exists self c n f', e = Couple self c /\ nth_error (f_nodes (history evs)) self = Some n /\ tn_coupling_info n = k /\
    define_coupling_constraint (history evs) self c = Ok f' /\ q = equation_of (history evs) n c.
Proof.
  split.
  - intros (before & self & c & after & n & f' & E & H). destruct after as [|x after] using rev_ind.
    + right. apply app_inj_tail in E as [-> ->]. exists self, c, n, f'. auto.
    + left. rewrite app_comm_cons, app_assoc in E. apply app_inj_tail in E as [-> ->].
      exists before, self, c, after, n, f'. auto.
  - intros [(before & self & c & after & n & f' & -> & H)|(self & c & n & f' & -> & H)].
    + exists before, self, c, (after ++ [e]), n, f'. rewrite <- app_assoc. auto.
    + exists evs, self, c, [], n, f'. auto.
Qed.
Lemma define_inv f self c f' : define_coupling_constraint f self c = Ok f' ->
  exists n i, nth_error (f_nodes f) self = Some n /\ nth_error (f_infos f) (tn_coupling_info n) = Some i /\
    check_coupling (parent_node f n) n c = Ok tt /\
    f' = with_infos f (update (tn_coupling_info n) (couple (parent_node f n) n c) (f_infos f)).
Proof.
  unfold define_coupling_constraint, node_at, info_at. destruct (nth_error (f_nodes f) self) as [n|]; [|discriminate]. cbn [bind].
  destruct (nth_error (f_infos f) (tn_coupling_info n)) as [i|] eqn:Ei; [|discriminate]. cbn [bind]. fold (parent_node f n).
  destruct (check_coupling (parent_node f n) n c) as [[]|] eqn:Ec; [|discriminate]. cbn [bind]. intros [= <-]. exists n, i. auto.
Qed.
Lemma history_infos evs : forall k,
  (forall i, nth_error (f_infos (history evs)) k = Some i -> info_ok i (asked evs k)) /\
  (forall q, asked evs k q -> (k < List.length (f_infos (history evs)))%nat).
Proof.
  induction evs as [|e evs IH] using rev_ind; intros k.
  - split.
    + destruct k as [|[|k]]; cbn; [|discriminate|discriminate]. intros i [= <-]. constructor; cbn; try (now constructor); try (intros ? ? []).
      * intros q (before & ? & ? & ? & ? & ? & E & _). destruct before; discriminate E.
      * intros n. split; [intros []|]. intros (q & (before & ? & ? & ? & ? & ? & E & _) & _). destruct before; discriminate E.
      * intros k' [].
    + intros q (before & ? & ? & ? & ? & ? & E & _). destruct before; discriminate E.
  - rewrite history_snoc.
    assert (Same : f_infos (step (history evs) e) = f_infos (history evs) ->
              (forall self c f', e = Couple self c -> define_coupling_constraint (history evs) self c = Ok f' -> False) ->
              (forall i, nth_error (f_infos (step (history evs) e)) k = Some i -> info_ok i (asked (evs ++ [e]) k)) /\
              (forall q, asked (evs ++ [e]) k q -> (k < List.length (f_infos (step (history evs) e)))%nat)).
    { intros -> N. destruct (IH k) as [I1 I2].
      assert (Q : forall q, asked evs k q <-> asked (evs ++ [e]) k q).
      { intros q. rewrite asked_snoc. split; [auto|]. intros [H|(self & c & n & f' & He & _ & _ & Hd & _)]; [exact H|]. destruct (N _ _ _ He Hd). }
      split; [intros i Hi; exact (info_ok_ext _ _ _ Q (I1 i Hi))|]. intros q Hq. apply (I2 q). now apply Q. }
    destruct e as [c|id| |self c|root db order].
    + apply Same; [apply new_node_rest|discriminate].
    + apply Same; [reflexivity|discriminate].
    + clear Same. cbn [step f_infos]. destruct (IH k) as [I1 I2].
      assert (Q : forall q, asked evs k q <-> asked (evs ++ [NewInfo]) k q).
      { intros q. rewrite asked_snoc. split; [auto|]. intros [H|(self & c & n & f' & He & _)]; [exact H|discriminate He]. }
      split.
      * intros i Hi. destruct (Nat.lt_ge_cases k (List.length (f_infos (history evs)))) as [L|L].
        -- rewrite nth_error_app1 in Hi by exact L. exact (info_ok_ext _ _ _ Q (I1 i Hi)).
        -- rewrite nth_error_app2 in Hi by exact L. destruct (k - _)%nat as [|[|?]]; [|discriminate Hi|discriminate Hi]. injection Hi as <-.
           assert (N : forall q, ~ asked (evs ++ [NewInfo]) k q) by (intros q Hq; apply Q in Hq; specialize (I2 _ Hq); lia).
           constructor; cbn; try (now constructor); try (intros ? ? []).
           ++ intros q Hq. destruct (N q Hq).
           ++ intros n. split; [intros []|]. intros (q & Hq & _). destruct (N q Hq).
           ++ intros k' [].
      * intros q Hq. apply Q in Hq. specialize (I2 _ Hq). rewrite app_length. lia.
    + cbn [step]. destruct (define_coupling_constraint (history evs) self c) as [f'|] eqn:Ed.
      * clear Same. destruct (define_inv _ _ _ _ Ed) as (n & i0 & En & Ei & Ec & ->). unfold with_infos; cbn [f_infos].
        destruct (IH k) as [I1 I2]. split.
        -- intros i. rewrite nth_update. destruct (Nat.eqb_spec (tn_coupling_info n) k) as [<-|N].
           ++ rewrite Ei. cbn [option_map]. intros [= <-]. apply (info_ok_ext _ (fun q => asked evs (tn_coupling_info n) q \/ q = call_equation (parent_node (history evs) n) n c)).
              ** intros q. rewrite asked_snoc. split; (intros [H|H]; [now left|right]).
                 --- exists self, c, n. eexists. repeat (split; [first [reflexivity|eassumption]|]). exact H.
                 --- destruct H as (self' & c' & n' & ? & [= <- <-] & En' & _ & _ & ->). rewrite En in En'. injection En' as <-. reflexivity.
              ** apply couple_ok. exact (I1 _ Ei).
           ++ intros Hi. apply (info_ok_ext _ (asked evs k)); [|exact (I1 _ Hi)]. intros q. rewrite asked_snoc. split; [auto|].
              intros [H|(self' & c' & n' & ? & [= <- <-] & En' & Hk & _)]; [exact H|]. rewrite En in En'. injection En' as <-. contradiction.
        -- intros q Hq. rewrite update_length. apply asked_snoc in Hq as [H|(self' & c' & n' & ? & [= <- <-] & En' & Hk & _)]; [exact (I2 q H)|].
           rewrite En in En'. injection En' as <-. rewrite <- Hk. apply nth_error_Some. rewrite Ei. discriminate.
      * cbn [step] in Same. rewrite Ed in Same. apply Same; [reflexivity|]. intros self' c' f' [= <- <-]. rewrite Ed. discriminate.
    + apply Same; [|discriminate]. cbn [step]. destruct (build_forest (history evs) root db order) as [->|H]; [reflexivity|].
      exact (proj1 (proj2 (add_coupling_rest _ _ _ _ H))).
Qed.

(** coupling networks contain one component at most *)
Definition coupling_network (n : network) : Prop :=
  n_nodes n = [] /\ n_connections n = [] /\ (n_components n = [] \/ exists c, n_components n = [("coupling", c)]).
Lemma coupling_component_id order i c : coupling_component order i = Ok c -> co_id c = "coupling".
Proof.
  unfold coupling_component. destruct (mapM coupling_variable order) as [vs|]; [|discriminate].
  destruct (mapM coupling_row (ci_constraints i)) as [cs|]; [|discriminate]. cbn [bind].
  destruct (make_model _ _ _ _ _ _ _ _ _ _) as [m|]; [|discriminate]. cbn [bind]. now intros [= <-].
Qed.
Lemma add_coupling_network c n : co_id c = "coupling" -> coupling_network n ->
  coupling_network (add_component c n) /\ n_components (add_component c n) = [("coupling", c)].
Proof.
  intros Hc (A & B & C). assert (E : n_components (add_component c n) = [("coupling", c)]).
  { unfold add_component. cbn [n_components]. rewrite Hc. destruct C as [->|(c' & ->)]; reflexivity. }
  split; [|exact E]. split; [exact A|]. split; [exact B|]. right. exists c. exact E.
Qed.
Lemma history_networks evs : forall k n, nth_error (f_networks (history evs)) k = Some n -> coupling_network n.
Proof.
  induction evs as [|e evs IH] using rev_ind; intros k n.
  - destruct k as [|[|k]]; cbn; [|discriminate|discriminate]. intros [= <-]. repeat split; auto.
  - rewrite history_snoc. destruct e as [c|id| |self c|root db order]; cbn [step].
    + rewrite (proj1 (new_node_rest c _)). apply IH.
    + cbn [f_networks]. intros H. destruct (Nat.lt_ge_cases k (List.length (f_networks (history evs)))) as [L|L].
      * rewrite nth_error_app1 in H by exact L. exact (IH _ _ H).
      * rewrite nth_error_app2 in H by exact L. destruct (k - _)%nat as [|[|?]]; [|discriminate H|discriminate H]. injection H as <-. repeat split; auto.
    + apply IH.
    + destruct (define_coupling_constraint (history evs) self c) as [f'|] eqn:Ed; [|apply IH].
      destruct (define_inv _ _ _ _ Ed) as (n' & i & _ & _ & _ & ->). apply IH.
    + destruct (build_forest (history evs) root db order) as [->|H]; [apply IH|].
      destruct (add_coupling_rest _ _ _ _ H) as (_ & _ & m & i & c & _ & _ & Ec & ->). rewrite nth_update.
      destruct (Nat.eqb _ k); [|apply IH]. destruct (nth_error (f_networks (history evs)) k) as [w|] eqn:Ew; [|discriminate]. intros [= <-].
      apply (add_coupling_network c w (coupling_component_id _ _ _ Ec) (IH _ _ Ew)).
Qed.

(** ** The model of the coupling component *)
Definition no_index : indexing := {| ix_time := false; ix_scenario := false |}.
Definition cvar (n : string) : variable :=
  {| v_name := n; v_type := CONTINUOUS; v_lower := Some (Lit n0); v_upper := None; v_structure := no_index; v_context := INVESTMENT |}.
Definition parent_expr (q : equation) : expr := match eq_parent q with Some p => Var p | None => Lit n0 end.
Definition crow (k : string) (q : equation) : constraint :=
  {| c_name := k; c_expr := Add [Var (eq_child q); Neg (Var (eq_increment q)); Neg (parent_expr q)]; c_lower := Lit n0; c_upper := Lit n0;
     c_context := INVESTMENT |}.
Lemma coupling_variable_eq n : coupling_variable n = Ok (cvar n).
Proof. reflexivity. Qed.
Lemma coupling_row_eq k q : coupling_row (k, coupling_expr q) = Ok (crow k q).
Proof. unfold crow, parent_expr, coupling_expr. destruct q as [a b [p|]]; reflexivity. Qed.
Lemma mapM_map {A B} (g : A -> result B) (h : A -> B) l : (forall a, In a l -> g a = Ok (h a)) -> mapM g l = Ok (map h l).
Proof.
  induction l as [|a l IH]; intros H; [reflexivity|]. cbn. rewrite (H a) by now left. cbn. rewrite IH; [reflexivity|]. intros b Hb. apply H. now right.
Qed.
Lemma dict_of_nodup {K A} (eqb : K -> K -> bool) (Heq : forall a b, eqb a b = true <-> a = b) (key : A -> K) l : NoDup (map key l) ->
  dict_of eqb key l = map (fun a => (key a, a)) l.
Proof.
  unfold dict_of. intros N. change (map (fun a => (key a, a)) l) with ([] ++ map (fun a => (key a, a)) l).
  assert (D : forall a, In a l -> ~ In (key a) (map fst (@nil (K * A)))) by (intros a _ []). revert D.
  generalize (@nil (K * A)). induction l as [|a l IH]; intros d D; cbn; [now rewrite app_nil_r|]. inversion_clear N as [|? ? Na Nl].
  rewrite (dset_new eqb Heq); [|apply D; now left]. rewrite IH; [now rewrite <- app_assoc|exact Nl|].
  intros b Hb. rewrite map_app, in_app_iff. cbn. intros [H|[H|[]]].
  - apply (D b); [now right|exact H].
  - apply Na. rewrite H. now apply in_map.
Qed.
(** the constraints of an info, as constraints of the model *)
Definition rows_of (i : coupling_info) (E : equation -> Prop) (cs : list constraint) : Prop :=
  Forall2 (fun ke c => exists q, E q /\ snd ke = coupling_expr q /\ c = crow (fst ke) q) (ci_constraints i) cs.
Lemma coupling_rows i E : info_ok i E -> exists cs, mapM coupling_row (ci_constraints i) = Ok cs /\ rows_of i E cs.
Proof.
  intros [_ _ S _ _ _]. unfold rows_of. induction (ci_constraints i) as [|[k e] l IH]; [exists []; split; [reflexivity|constructor]|].
  destruct (S k e) as (q & Hq & ->); [now left|]. destruct IH as (cs & Ec & F); [intros k' e' H; exact (S k' e' (or_intror H))|].
  exists (crow k q :: cs). cbn [mapM]. rewrite coupling_row_eq. cbn [bind]. rewrite Ec. split; [reflexivity|].
  constructor; [exists q; auto|exact F].
Qed.
Lemma rows_names i E cs : rows_of i E cs -> map c_name cs = map fst (ci_constraints i).
Proof.
  intros F. unfold rows_of in F. induction F as [|ke c l m (q & _ & _ & ->) F IH]; [reflexivity|]. cbn. now rewrite IH.
Qed.
Record coupling_model (order : list string) (i : coupling_info) (E : equation -> Prop) (m : model) : Prop := {
  cm_variables : m_variables m = map (fun n => (n, cvar n)) order;
  cm_constraints : exists cs, rows_of i E cs /\ m_constraints m = map (fun c => (c_name c, c)) cs;
  cm_rest : m_binding_constraints m = [] /\ m_parameters m = [] /\ m_ports m = [] /\ m_port_definitions m = [] /\
            m_operational m = None /\ m_investment m = None
}.
Lemma coupling_component_spec order i E c : info_ok i E -> NoDup order -> coupling_component order i = Ok c ->
  co_id c = "coupling" /\ coupling_model order i E (co_model c).
Proof.
  intros O N. unfold coupling_component. rewrite (mapM_map _ cvar) by (intros; apply coupling_variable_eq). cbn [bind].
  destruct (coupling_rows i E O) as (cs & -> & F). cbn [bind]. unfold make_model. cbn [unique_ports bind].
  unfold check_model. cbn [m_operational m_investment check_objective bind m_port_definitions dict_of fold_left mapM].
  intros [= <-]. cbn [co_id co_model]. split; [reflexivity|]. constructor; cbn.
  - rewrite (dict_of_nodup String.eqb String.eqb_eq); rewrite map_map; [reflexivity|]. cbn. now rewrite map_id.
  - exists cs. split; [exact F|]. apply (dict_of_nodup String.eqb String.eqb_eq). rewrite (rows_names _ _ _ F). apply O.
  - repeat split; reflexivity.
Qed.
Lemma coupling_component_ok order i E : info_ok i E -> exists c, coupling_component order i = Ok c.
Proof.
  intros O. unfold coupling_component. rewrite (mapM_map _ cvar) by (intros; apply coupling_variable_eq). cbn [bind].
  destruct (coupling_rows i E O) as (cs & -> & F). cbn [bind]. eexists. reflexivity.
Qed.
