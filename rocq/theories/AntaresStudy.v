(** The study that the conversion of an Antares study gives: entries, connections, data. *)
From Coq Require Import Lia Qround.
From Verif Require Import Base BaseFacts Expr Visitors Parse SpecParse LexFacts LinearExpr Model Study Strategy Optim System Library
  Main SpecExpr SpecModel SpecLibrary SpecSystem SystemFacts SpecLinear SpecOptim OptimFacts SpecMain MainFacts Pypsa SpecPypsa
  PypsaFacts PypsaStudy Thermal Antares SpecThermal SpecAntares ThermalFacts AntaresFacts AntaresReading.
Local Open Scope string_scope.
Local Open Scope list_scope.

(** ** Files written *)
Lemma dict_after {A} k (l : list (string * A)) : forall acc, ~ In k (map fst l) ->
  dget String.eqb k (fold_left (fun d kv => dset String.eqb (fst kv) (snd kv) d) l acc) = dget String.eqb k acc.
Proof.
  induction l as [|[k' v'] l IH]; intros acc H; cbn; [reflexivity|]. rewrite IH by (intros X; apply H; now right).
  apply (dget_dset_other String.eqb String.eqb_eq). intros ->. apply H. now left.
Qed.
Lemma dict_absent {A} k (l : list (string * A)) : ~ In k (map fst l) -> dget String.eqb k (as_dict l) = None.
Proof. intros H. unfold as_dict. now rewrite dict_after. Qed.
Lemma dict_kept {A} k v (l left : list (string * A)) : NoDup (map fst l) -> In (k, v) l -> ~ In k (map fst left) ->
  dget String.eqb k (as_dict (l ++ left)) = Some v.
Proof.
  intros N H L. unfold as_dict. rewrite fold_left_app, dict_after by exact L. generalize (@nil (string * A)) as acc.
  induction l as [|[k' v'] l IH]; intros acc; [destruct H|]. cbn. inversion N as [|? ? N1 N2]; subst. destruct H as [[= -> ->]|H].
  - rewrite dict_after by exact N1. apply (dget_dset_same String.eqb String.eqb_eq).
  - now apply IH.
Qed.
Lemma leading_prefix {A B} (f : A -> option B) l : exists rest, l = map fst (leading f l) ++ rest.
Proof.
  induction l as [|a l (rest & IH)]; cbn; [now exists []|]. destruct (f a); cbn; [|now exists (a :: l)]. exists rest. now rewrite <- IH.
Qed.
Lemma place_suffix s p q : place s (p ++ q) = (place s p ++ q)%string.
Proof. unfold place. now rewrite !app_assoc_string. Qed.
Lemma cluster_txt s a i p : (cluster_place s a i p ++ ".txt")%string = cluster_place s a i (p ++ ".txt").
Proof. apply cluster_suffix. Qed.
Lemma link_txt s a p : (link_place s a p ++ ".txt")%string = link_place s a (p ++ ".txt").
Proof. apply link_suffix. Qed.
Lemma storage_txt s a i p : (storage_place s a i p ++ ".txt")%string = storage_place s a i (p ++ ".txt").
Proof. unfold storage_place. rewrite <- place_suffix. now rewrite !app_assoc_string. Qed.

Section Files.
  Context (s : an_study) (directory : string -> result frame) (period : Z) (files : list (string * table)).
  Hypothesis Named : well_named s.
  Hypothesis Conv : conversion_files s period files.
  Hypothesis Areas : forall a g, In (Cluster a g) (elements s) -> th_area (at_cluster g) = ar_id a.
  Hypothesis Distinct : NoDup (written_files s).
  Hypothesis Apart : forall f, In f (source_files s) -> ~ In f (written_files s).

  Lemma cluster_of_pair a g : In (a, g) (cluster_pairs s) -> th_area (at_cluster g) = ar_id a.
  Proof. intros H. now apply Areas, cluster_element. Qed.
  Definition cluster_names (ag : an_area * an_thermal) : list string :=
    map (fun id => cluster_place s (ar_id (fst ag)) (th_id (at_cluster (snd ag))) (id ++ ".txt")) known.
  Lemma written_split : written_files s = flat_map cluster_names (cluster_pairs s) ++ flat_map (fun a => battery_names s (ar_id a)) (battery_areas s).
  Proof.
    unfold written_files. f_equal. rewrite (elements_split s Named), !flat_map_app, !AntaresFacts.flat_map_map.
    rewrite !(flat_map_nothing (fun _ => [])) by reflexivity. cbn [app]. rewrite !app_nil_r. reflexivity.
  Qed.
  Lemma files_split : exists core left tail, files = core ++ left /\ written_files s = map fst core ++ tail /\ incl (map fst left) tail /\
    (forall a g id, In (a, g) (cluster_pairs s) -> In id known -> exists tb,
       prepro_parameter id period (at_cluster g) = Some (Ok tb) /\ In (cluster_place s (ar_id a) (th_id (at_cluster g)) (id ++ ".txt"), tb) core) /\
    (forall a b, In (a, b) (battery_pairs s) -> incl (battery_files s (ar_id a) b) core).
  Proof.
    destruct Conv as (made & left & -> & F & L).
    set (core := flat_map snd made ++ flat_map (fun ab => battery_files s (ar_id (fst ab)) (snd ab)) (battery_pairs s)).
    destruct (leading_prefix (fun a => battery_of s (ar_id a)) (battery_areas s)) as (rest & Er). fold (battery_pairs s) in Er.
    assert (E1 : map fst (flat_map snd made) = flat_map cluster_names (cluster_pairs s)).
    { assert (C : forall ag, In ag (cluster_pairs s) -> th_area (at_cluster (snd ag)) = ar_id (fst ag)).
      { intros [a g] H. now apply cluster_of_pair. }
      revert C. clear -F. induction F as [|[a g] m l ms H F IH]; intros C; cbn [flat_map map]; [reflexivity|]. rewrite map_app, IH by (intros; apply C; now right).
      f_equal. cbn [snd] in H. destruct (cluster_converted s _ a g m H) as [_ G]. specialize (C _ (or_introl eq_refl)). cbn in C.
      unfold cluster_names. cbn [fst snd]. revert G. generalize known. intros l' G. induction G as [|id f l' fs (E & _) G IH']; cbn; [reflexivity|].
      now rewrite IH', E, C. }
    exists core, left, (flat_map (fun a => battery_names s (ar_id a)) rest). split; [unfold core; now rewrite app_assoc|]. split; [|split; [|split]].
    - rewrite written_split. unfold core. rewrite map_app, E1, <- app_assoc. f_equal. rewrite Er at 1. rewrite flat_map_app. f_equal.
      rewrite AntaresFacts.flat_map_map, map_flat. reflexivity.
    - destruct L as [->|(a & rest' & E & _ & W)]; [intros x []|]. rewrite Er in E at 1. apply app_inv_head in E. subst rest.
      intros n Hn. cbn [flat_map]. apply in_or_app. left. now apply W.
    - intros a g id H Hid. destruct (Forall2_In_l _ _ _ _ F H) as (m & Hm & E). cbn [snd] in E. destruct (cluster_converted s _ a g m E) as [_ G].
      destruct (Forall2_In_l _ _ _ id G Hid) as ([n tb] & Hf & E2 & E3). cbn in E2, E3. rewrite (cluster_of_pair a g H) in E2. subst n.
      exists tb. split; [exact E3|]. unfold core. apply in_or_app. left. apply in_flat_map. eauto.
    - intros a b H f Hf. unfold core. apply in_or_app. right. apply in_flat_map. exists (a, b). auto.
  Qed.
  Let found := directory_after directory files.
  Lemma cluster_found a g id : In (a, g) (cluster_pairs s) -> In id known -> exists tb,
    prepro_parameter id period (at_cluster g) = Some (Ok tb) /\ found (cluster_place s (ar_id a) (th_id (at_cluster g)) id) = Ok (tb_rows tb).
  Proof.
    intros H Hid. destruct files_split as (core & left & tail & E & W & L & C & _). destruct (C a g id H Hid) as (tb & P & I). exists tb. split; [exact P|].
    unfold found, directory_after. rewrite cluster_txt, E. rewrite W in Distinct. rewrite (dict_kept _ tb); [reflexivity| |exact I|].
    - now apply NoDup_app_remove_r in Distinct.
    - intros X. apply L in X. apply (in_map fst) in I. cbn [fst] in I. revert Distinct I X. generalize (map fst core). clear. intros l N I X.
      induction l as [|n l IH]; [destruct I|]. cbn in N. inversion N as [|? ? N1 N2]; subst. destruct I as [->|I]; [|auto]. apply N1. apply in_or_app. now right.
  Qed.
  Lemma battery_found a b n tb : In (a, b) (battery_pairs s) -> In ((n ++ ".txt")%string, tb) (battery_files s (ar_id a) b) -> found n = Ok (tb_rows tb).
  Proof.
    intros H Hf. destruct files_split as (core & left & tail & E & W & L & _ & C). apply (C a b H) in Hf.
    unfold found, directory_after. rewrite E. rewrite W in Distinct. rewrite (dict_kept _ tb); [reflexivity| |exact Hf|].
    - now apply NoDup_app_remove_r in Distinct.
    - intros X. apply L in X. apply (in_map fst) in Hf. cbn [fst] in Hf. revert Distinct Hf X. generalize (map fst core). clear. intros l N I X.
      induction l as [|m l IH]; [destruct I|]. cbn in N. inversion N as [|? ? N1 N2]; subst. destruct I as [->|I]; [|auto]. apply N1. apply in_or_app. now right.
  Qed.
  Lemma source_found n : In (n ++ ".txt")%string (source_files s) -> found n = directory n.
  Proof.
    intros H. unfold found, directory_after. rewrite dict_absent; [reflexivity|]. intros X. apply (Apart _ H).
    destruct files_split as (core & left & tail & E & W & L & _). rewrite E, map_app, in_app_iff in X. rewrite W, in_app_iff. destruct X as [X|X]; [auto|]. right. now apply L.
  Qed.
End Files.

(** ** Tables *)
Lemma hour_row T t n : (1 <= T)%Z -> (T <= Z.of_nat n)%Z -> (0 <= t mod T)%Z /\ (hour T t < n)%nat.
Proof. intros H1 H2. unfold hour. pose proof (Z.mod_pos_bound t T ltac:(lia)). lia. Qed.
Lemma matrix_cell T S rows t sc : (1 <= T)%Z -> full_matrix T S rows -> (0 <= sc < S)%Z ->
  cell rows (t mod T) sc = Some (Fin (value_at rows (hour T t) (Z.to_nat sc))).
Proof.
  intros HT [L F] Hs. destruct (hour_row T t _ HT L) as [H0 Hr]. unfold cell, value_at. fold (hour T t).
  destruct (Z.leb_spec 0 (t mod T)); [|lia]. destruct (Z.leb_spec 0 sc); [|lia].
  destruct (nth_error rows (hour T t)) as [row|] eqn:E; [|apply nth_error_None in E; lia].
  destruct (F row (nth_error_In _ _ E)) as [Lr Fr]. destruct (nth_error row (Z.to_nat sc)) as [v|] eqn:Ev; [|apply nth_error_None in Ev; lia].
  destruct (Fr v (nth_error_In _ _ Ev)) as [q ->]. rewrite (nth_default _ _ NaN _ Ev). reflexivity.
Qed.
Lemma matrix_finite T S rows r v : full_matrix T S rows -> In r rows -> In v r -> exists q, v = Fin q.
Proof. intros [_ F] Hr Hv. exact (proj2 (F r Hr) v Hv). Qed.
Lemma values_cell T tb n m f t sc : (1 <= T)%Z -> (T <= Z.of_nat n)%Z -> has_values tb n m f -> (0 <= sc < Z.of_nat m)%Z ->
  cell (tb_rows tb) (t mod T) sc = Some (Fin (f (hour T t) (Z.to_nat sc))).
Proof.
  intros HT L [_ V] Hs. destruct (hour_row T t n HT L) as [H0 Hr]. unfold cell. fold (hour T t). destruct (Z.leb_spec 0 (t mod T)); [|lia]. destruct (Z.leb_spec 0 sc); [|lia].
  specialize (V (hour T t) (Z.to_nat sc) Hr ltac:(lia)). exact V.
Qed.
Lemma values_finite tb n m f r v : has_values tb n m f -> In r (tb_rows tb) -> In v r -> exists q, v = Fin q.
Proof.
  intros [(L & _ & W) V] Hr Hv. apply In_nth_error in Hr as (i & Hi). pose proof (W r (nth_error_In _ _ Hi)) as Lr.
  apply In_nth_error in Hv as (j & Hj). assert (A : (i < n)%nat) by (rewrite <- L; apply nth_error_Some; congruence).
  assert (B : (j < m)%nat) by (rewrite <- Lr; apply nth_error_Some; congruence).
  specialize (V i j A B). unfold at_cell in V. rewrite Hi, Hj in V. injection V as ->. eauto.
Qed.
Lemma column_cell T l f t : (1 <= T)%Z -> (T <= Z.of_nat (List.length l))%Z -> 
  cell (map (fun v => [f v]) l) (t mod T) 0 = Some (f (nth (hour T t) l NaN)).
Proof.
  intros HT L. destruct (hour_row T t _ HT L) as [H0 Hr]. unfold cell. fold (hour T t). destruct (Z.leb_spec 0 (t mod T)); [|lia]. cbn [Z.leb Z.compare].
  rewrite nth_error_map. destruct (nth_error l (hour T t)) as [v|] eqn:E; [|apply nth_error_None in E; lia]. cbn. now rewrite (nth_default _ _ NaN _ E).
Qed.
Lemma divided a b : (b <> 0)%Qc -> np_div (Fin a) (Fin b) = Fin (a / b).
Proof. intros N. unfold np_div, ndiv. destruct (Qceqb b 0) eqn:E; [apply Qceqb_eq in E; contradiction|reflexivity]. Qed.

(** ** Numbers of a cluster *)
Lemma qmin_le a b : (qmin a b <= a)%Qc /\ (qmin a b <= b)%Qc /\ (qmin a b = a \/ qmin a b = b).
Proof.
  unfold qmin. destruct (Qcleb a b) eqn:E; [apply Qcleb_le in E|].
  - split; [apply Qcle_refl|]. auto.
  - assert (b < a)%Qc by (apply Qcnot_le_lt; intros X; apply Qcleb_le in X; congruence). split; [now apply Qclt_le_weak|]. split; [apply Qcle_refl|auto].
Qed.
Lemma least_of a l : let q := fold_right qmin a l in (q <= a)%Qc /\ (forall v, In v l -> (q <= v)%Qc) /\ (q = a \/ In q l).
Proof.
  induction l as [|x l (A & B & C)]; cbn; [split; [apply Qcle_refl|]; split; [intros ? []|auto]|].
  destruct (qmin_le x (fold_right qmin a l)) as (L1 & L2 & O). split; [eapply Qcle_trans; eauto|]. split.
  - intros v [<-|H]; [exact L1|]. eapply Qcle_trans; [exact L2|auto].
  - destruct O as [-> | ->]; [auto|]. destruct C; auto.
Qed.
Section Cluster.
  Context (c : cluster) (n m : nat) (modulation : nat -> Qc) (power : nat -> nat -> Qc) (size : Qc).
  Hypothesis Reg : regular c n m modulation power size.
  Lemma size_is : unit_size c = size.
  Proof. unfold unit_size. now rewrite (rg_size _ _ _ _ _ _ Reg). Qed.
  Lemma offered_is i j : (i < n)%nat -> (j < m)%nat -> offered c i j = power i j.
  Proof.
    intros Hi Hj. destruct Reg as [[_ V] _ _ _ _]. specialize (V i j Hi Hj). unfold at_cell in V. unfold offered, value_at.
    destruct (nth_error (tb_rows (th_series c)) i) as [row|]; [|discriminate]. now rewrite (nth_default _ _ NaN _ V).
  Qed.
  Lemma required_is i : (i < n)%nat -> required c i = modulated c size (modulation i).
  Proof.
    intros Hi. pose proof (rg_modulation _ _ _ _ _ _ Reg i Hi) as V. unfold at_cell in V. unfold required, value_at, modulated. rewrite size_is.
    destruct (nth_error (tb_rows (th_modulation c)) i) as [row|]; [|discriminate]. now rewrite (nth_default _ _ NaN _ V).
  Qed.
  Lemma least_is i p : (i < n)%nat -> smallest p (modulated c size (modulation i)) m (power i) -> p = least_power c i.
  Proof.
    intros Hi (A & B & C). unfold least_power. assert (W : tb_width (th_series c) = m) by apply Reg. rewrite W, (required_is i Hi).
    destruct (least_of (modulated c size (modulation i)) (map (offered c i) (seq 0 m))) as (A' & B' & C').
    apply Qcle_antisym.
    - destruct C' as [-> |C']; [exact A|]. apply in_map_iff in C' as (j & <- & Hj). apply in_seq in Hj. rewrite offered_is by lia. apply B. lia.
    - destruct C as [-> |(j & Hj & ->)]; [exact A'|]. apply B'. apply in_map_iff. exists j. rewrite offered_is by lia. split; [reflexivity|]. apply in_seq. lia.
  Qed.
  Lemma most_is i j : (i < n)%nat -> (j < m)%nat -> most_units c i j = units size (power i j).
  Proof. intros Hi Hj. unfold most_units. now rewrite size_is, offered_is. Qed.
  Lemma hours_are : hours c = n.
  Proof. apply Reg. Qed.
  Context (period : nat) (Hp : (0 < period)%nat).
  Lemma lost_is i j : (i < n)%nat -> (j < m)%nat ->
    units_lost c period i j = change FORWARD (units size (power (used_before n period i) j)) (units size (power i j)).
  Proof.
    intros Hi Hj. pose proof (used_before_range n period i Hp Hi) as U. unfold units_lost, used_before in *. rewrite hours_are. destruct i as [|i]; cbn [Nat.eqb] in *.
    - unfold change. lia.
    - now rewrite !most_is.
  Qed.
  Lemma regained_is i j : (i < n)%nat -> (j < m)%nat ->
    units_regained c period i j = change BACKWARD (units size (power (used_before n period i) j)) (units size (power i j)).
  Proof.
    intros Hi Hj. pose proof (used_before_range n period i Hp Hi) as U. unfold units_regained, used_before in *. rewrite hours_are. destruct i as [|i]; cbn [Nat.eqb] in *.
    - unfold change. lia.
    - now rewrite !most_is.
  Qed.
End Cluster.

(** ** The study *)
Definition libs : list in_library := [antares_library; andromede_v1_library].
(** the model of an element *)
Definition emod (e : element) : in_model :=
  match e with
  | Area _ => lib_area | Renewable _ => lib_renewable | Cluster _ _ => lib_thermal | Storage _ _ => lib_short_term_storage
  | Load _ | Wind _ | Solar _ => lib_an_load | Link _ => lib_an_link | Battery _ _ => lib_battery
  end.
Definition given_id (p : given_parameter) : string := fst (fst (fst p)).
Definition given (p : given_parameter) : input_parameter :=
  let '(id, time, scenario, v) := p in {| ip_id := id; ip_time := time; ip_scenario := scenario; ip_value := v; ip_group := None |}.

Section Study.
  Context (s : an_study) (directory : string -> result frame) (period : nat) (T S : Z) (sys : input_system) (files : list (string * table)).
  Hypothesis Good : good_antares s directory period T S.
  Hypothesis Nodes : is_nodes sys = map (component_of s) (nodes s).
  Hypothesis Comps : is_components sys = map (component_of s) (elements s).
  Hypothesis Conns : is_connections sys = flat_map connections_of (elements s).
  Hypothesis Conv : conversion_files s (Z.of_nat period) files.
  Let found := directory_after directory files.
  Let HT : (1 <= T)%Z := proj1 Good.
  Let HS : (1 <= S)%Z := proj1 (proj2 Good).
  Let Hp : (0 < period)%nat := proj1 (proj2 (proj2 Good)).
  Let Named : well_named s := proj1 (proj2 (proj2 (proj2 Good))).
  Let Ids : NoDup (map element_id (everything s)) := proj1 (proj2 (proj2 (proj2 (proj2 Good)))).
  Let Elements : forall e, In e (everything s) -> good_element s directory T S e := proj1 (proj2 (proj2 (proj2 (proj2 (proj2 Good))))).
  Let Distinct : NoDup (written_files s) := proj1 (proj2 (proj2 (proj2 (proj2 (proj2 (proj2 Good)))))).
  Let Apart : forall f, In f (source_files s) -> ~ In f (written_files s) := proj2 (proj2 (proj2 (proj2 (proj2 (proj2 (proj2 Good)))))).

  Lemma in_elements e : In e (elements s) -> In e (everything s).
  Proof. intros H. apply in_or_app. now right. Qed.
  Lemma in_nodes a : In (Area a) (everything s) -> In (Area a) (nodes s).
  Proof.
    intros H. apply in_app_or in H as [H|H]; [exact H|exfalso].
    destruct (element_cases s _ Named H) as [(? & ? & X & _)|[(? & ? & X & _)|[(? & ? & X & _)|[(? & X & _)|[(? & X & _)|[(? & X & _)|[(? & X & _)|(? & ? & X & _)]]]]]]]; discriminate X.
  Qed.
  Lemma node_area e : In e (nodes s) -> exists a, e = Area a.
  Proof. intros H. apply in_map_iff in H as (a & <- & _). eauto. Qed.
  Lemma element_of e : In e (everything s) -> (forall a, e <> Area a) -> In e (elements s).
  Proof. intros H N. apply in_app_or in H as [H|H]; [|exact H]. apply node_area in H as (a & ->). now destruct (N a). Qed.
  Lemma cluster_areas a g : In (Cluster a g) (elements s) -> th_area (at_cluster g) = ar_id a.
  Proof. intros H. now apply in_elements, Elements in H as (E & _). Qed.
  Lemma cluster_pair a g : In (Cluster a g) (elements s) -> In (a, g) (cluster_pairs s).
  Proof.
    intros H. destruct (element_cases s _ Named H) as [(? & ? & X & _)|[(? & ? & X & P)|[(? & ? & X & _)|[(? & X & _)|[(? & X & _)|[(? & X & _)|[(? & X & _)|(? & ? & X & _)]]]]]]]; try discriminate X.
    now injection X as <- <-.
  Qed.
  Lemma battery_pair a b : In (Battery a b) (elements s) -> In (a, b) (battery_pairs s).
  Proof.
    intros H. destruct (element_cases s _ Named H) as [(? & ? & X & _)|[(? & ? & X & _)|[(? & ? & X & _)|[(? & X & _)|[(? & X & _)|[(? & X & _)|[(? & X & _)|(? & ? & X & P)]]]]]]]; try discriminate X.
    now injection X as <- <-.
  Qed.
  Lemma component_unique e e' : In e (everything s) -> In e' (everything s) -> element_id e = element_id e' -> e = e'.
  Proof. intros H H' E. pose proof Ids as N. revert N H H' E. generalize (everything s). intros l N H H' E. exact (NoDup_map_inj_in element_id l e e' N H H' E). Qed.

  (** *** Data *)
  (** the value of a parameter *)
  Definition datum (e : element) (id : string) (t sc : Z) : Qc :=
    let is n := String.eqb id n in
    let i := hour T t in let j := Z.to_nat sc in
    match e with
    | Area a => if is "ens_cost" then fin (ar_energy_cost_unsupplied a) else fin (ar_energy_cost_spilled a)
    | Cluster a g =>
        let c := at_cluster g in
        if is "p_min_cluster" then least_power c i else if is "nb_units_min" then Z2Qc (least_units c i)
        else if is "nb_units_max" then Z2Qc (most_units c i j) else if is "nb_units_max_variation_forward" then Z2Qc (units_lost c period i j)
        else if is "nb_units_max_variation_backward" then Z2Qc (units_regained c period i j) else if is "unit_count" then Z2Qc (th_unit_count c)
        else if is "p_min_unit" then fin (at_min_stable_power g) else if is "efficiency" then fin (at_efficiency g)
        else if is "p_max_unit" then unit_size c else if is "generation_cost" then fin (at_marginal_cost g)
        else if is "fixed_cost" then fin (at_fixed_cost g) else if is "startup_cost" then fin (at_startup_cost g)
        else if is "d_min_up" then Z2Qc (at_min_up_time g) else if is "d_min_down" then Z2Qc (at_min_down_time g) else offered c i j
    | Storage a o =>
        if is "efficiency_injection" then fin (so_efficiency o) else if is "efficiency_withdrawal" then 1%Qc
        else if is "initial_level" then fin (so_initial_level o) else if is "reservoir_capacity" then fin (so_reservoir_capacity o)
        else if is "injection_nominal_capacity" then fin (so_injection_nominal_capacity o)
        else if is "withdrawal_nominal_capacity" then fin (so_withdrawal_nominal_capacity o)
        else storage_series s directory T o (if is "inflows" then "inflows" else if is "lower_rule_curve" then "lower-rule-curve"
          else if is "upper_rule_curve" then "upper-rule-curve" else if is "p_max_injection_modulation" then "PMAX-injection" else "PMAX-withdrawal") t sc
    | Load a => demand T a t sc
    | Link k => if is "capacity_direct" then capacity_direct s directory T k t sc else capacity_indirect s directory T k t sc
    | Battery a b =>
        if is "reservoir_capacity" then fin (bt_reservoir b) else if is "injection_nominal_capacity" then fin (bt_injection b)
        else if is "withdrawal_nominal_capacity" then fin (bt_withdrawal b) else if is "efficiency_injection" then fin (bt_charging b)
        else if is "efficiency_withdrawal" then fin (bt_discharging b) else if is "lower_rule_curve" then 0%Qc
        else if is "upper_rule_curve" then (battery_value T (bt_levels b) t / fin (bt_reservoir b))%Qc
        else if is "p_max_injection_modulation" then (battery_value T (bt_injections b) t / fin (bt_injection b))%Qc
        else if is "p_max_withdrawal_modulation" then (battery_value T (bt_withdrawals b) t / fin (bt_withdrawal b))%Qc
        else battery_value T (bt_costs b) t
    | _ => 0%Qc
    end.
  (** the scenarios for which an element has data: the tables written for the least power of a cluster have one column *)
  Definition scenarios_of (e : element) : Z := match e with Cluster _ _ => 1%Z | _ => S end.
  Definition fine (e : element) (p : given_parameter) : Prop :=
    let '(id, time, scenario, v) := p in
    match v with
    | inl v => time = false /\ scenario = false /\ exists q, v = Fin q /\ forall t sc, datum e id t sc = q
    | inr path => time = true /\ exists rows, found path = Ok rows /\ (forall r v, In r rows -> In v r -> exists q, v = Fin q) /\
        (scenario = false -> forall r, In r rows -> exists v, r = [v]) /\
        forall t sc, (0 <= sc < scenarios_of e)%Z -> cell rows (t mod T) (if scenario then sc else 0%Z) = Some (Fin (datum e id t sc))
    end.
  Lemma cluster_table a g id tb n m f v : In (Cluster a g) (elements s) -> (0 < m)%nat -> (T <= Z.of_nat n)%Z -> In id known ->
    prepro_parameter id (Z.of_nat period) (at_cluster g) = Some (Ok tb) -> has_values tb n m f ->
    (forall t, (hour T t < n)%nat -> f (hour T t) 0%nat = v t 0%Z) -> (forall t sc, datum (Cluster a g) id t sc = v t sc) ->
    fine (Cluster a g) (file_of id (cluster_place s (th_area (at_cluster g)) (th_id (at_cluster g)) id)).
  Proof.
    intros He Hm Hn Hid P V F D. unfold fine, file_of. split; [reflexivity|].
    destruct (cluster_found s directory _ files Named Conv cluster_areas Distinct a g id (cluster_pair a g He) Hid) as (tb' & P' & Ef).
    assert (tb' = tb) by congruence. subst tb'. rewrite (cluster_areas a g He). exists (tb_rows tb). split; [exact Ef|]. split; [|split; [discriminate|]].
    - intros r w. exact (values_finite tb n m f r w V).
    - intros t sc Hs. cbn [scenarios_of] in Hs. assert (sc = 0)%Z by lia. subst sc. rewrite (values_cell T tb n m f t 0 HT Hn V) by lia.
      rewrite D. change (Z.to_nat 0) with 0%nat. rewrite F; [reflexivity|]. now apply (hour_row T t n HT Hn).
  Qed.
  Lemma stored_fine e id path : In (path ++ ".txt")%string (source_files s) -> (exists rows, directory path = Ok rows /\ full_matrix T S rows) ->
    scenarios_of e = S -> (forall t sc, datum e id t sc = stored directory T path t sc) -> fine e (file_of id path).
  Proof.
    intros Hs (rows & Ef & F) Es D. unfold fine, file_of. split; [reflexivity|]. exists rows. split; [|split; [|split; [discriminate|]]].
    - refine (eq_trans _ Ef). exact (source_found s directory _ files Named Conv cluster_areas Apart path Hs).
    - intros r v. exact (matrix_finite T S rows r v F).
    - intros t sc Hsc. rewrite Es in Hsc. rewrite (matrix_cell T S rows t sc HT F Hsc), D. unfold stored. now rewrite Ef.
  Qed.
  Lemma source_in e f : In e (elements s) -> In f (match e with
      | Cluster a g => [cluster_place s (ar_id a) (th_id (at_cluster g)) "series.txt"]
      | Storage a o => map (fun f => storage_place s (ar_id a) (so_id o) (f ++ ".txt"))
          ["inflows"; "lower-rule-curve"; "upper-rule-curve"; "PMAX-injection"; "PMAX-withdrawal"]
      | Load a => [(matrix_place s "load" (ar_id a) ++ ".txt")%string]
      | Link k => map (fun way => link_place s (ln_from k) ("capacities/" ++ ln_to k ++ way ++ ".txt")) ["_direct"; "_indirect"]
      | _ => [] end) -> In f (source_files s).
  Proof. intros He Hf. unfold source_files. apply in_flat_map. eauto. Qed.
  Lemma battery_fine a b id path l f : In (Battery a b) (elements s) -> In ((path ++ ".txt")%string, {| tb_width := 1; tb_rows := map (fun v => [f v]) l |}) (battery_files s (ar_id a) b) ->
    (T <= Z.of_nat (List.length l))%Z -> (forall v, In v l -> exists q, f v = Fin q) ->
    (forall t sc, f (nth (hour T t) l NaN) = Fin (datum (Battery a b) id t sc)) -> fine (Battery a b) (file_of_time id path).
  Proof.
    intros He Hf L F D. unfold fine, file_of_time. split; [reflexivity|]. eexists. split; [|split; [|split]].
    - exact (battery_found s directory _ files Named Conv cluster_areas Distinct a b path _ (battery_pair a b He) Hf).
    - cbn [tb_rows]. intros r v Hr Hv. apply in_map_iff in Hr as (w & <- & Hw). destruct Hv as [<-|[]]. now apply F.
    - intros _ r Hr. cbn [tb_rows] in Hr. apply in_map_iff in Hr as (w & <- & _). eauto.
    - cbn [tb_rows]. intros t sc _. rewrite (column_cell T l f t HT L). now rewrite <- (D t sc).
  Qed.
  Lemma series_nth l t : full_series T l -> nth (hour T t) l NaN = Fin (battery_value T l t).
  Proof.
    intros [L F]. unfold battery_value. destruct (hour_row T t _ HT L) as [_ Hr]. destruct (F (nth (hour T t) l NaN) (nth_In _ _ Hr)) as [q ->]. reflexivity.
  Qed.
  Lemma data_fine e p : In e (everything s) -> In p (snd (described s e)) -> fine e p.
  Proof.
    intros He Hp0. pose proof (Elements e He) as G. destruct e as [a|r|a g|a o|a|a|a|k|a b]; cbn [good_element] in G; try contradiction.
    - destruct G as [[q1 E1] [q2 E2]]. cbn in Hp0. destruct Hp0 as [<-|[<-|[]]]; cbn; rewrite ?E1, ?E2; eauto 10.
    - assert (Hel : In (Cluster a g) (elements s)) by (apply element_of; [exact He|discriminate]).
      destruct G as (Ea & (n & m & md & pw & sz & Reg & Hsz & Hm & Hn) & Nums & Dir).
      assert (N1 := fun v H => Nums v H). cbn in N1.
      destruct (p_min_values _ _ _ _ _ _ Reg) as (t1 & p1 & E1 & V1 & L1).
      destruct (units_min_values _ _ _ _ _ _ Hsz Reg) as (t2 & p2 & E2 & V2 & L2).
      pose proof (units_values _ _ _ _ _ _ Hsz Reg) as V3.
      destruct (variation_values FORWARD _ _ _ _ _ _ period Hsz Hp Hm Reg) as (t4 & E4 & V4).
      destruct (variation_values BACKWARD _ _ _ _ _ _ period Hsz Hp Hm Reg) as (t5 & E5 & V5).
      cbn [described snd known map app In] in Hp0.
      destruct Hp0 as [<-|[<-|[<-|[<-|[<-|Hp0]]]]].
      + eapply (cluster_table a g _ t1 n 1%nat _ (fun t sc => least_power (at_cluster g) (hour T t)) Hel); [lia|exact Hn|cbn; tauto|cbn; now rewrite E1|exact V1| |reflexivity].
        intros t Ht. cbv beta. now apply (least_is _ n m md pw sz Reg), L1.
      + eapply (cluster_table a g _ t2 n 1%nat _ (fun t sc => Z2Qc (least_units (at_cluster g) (hour T t))) Hel); [lia|exact Hn|cbn; tauto|cbn; now rewrite E2|exact V2| |reflexivity].
        intros t Ht. cbv beta. unfold least_units. rewrite (size_is _ n m md pw sz Reg), <- (least_is _ n m md pw sz Reg (hour T t) (p2 (hour T t)) Ht (L2 _ Ht)). reflexivity.
      + eapply (cluster_table a g _ _ n m _ (fun t sc => Z2Qc (most_units (at_cluster g) (hour T t) (Z.to_nat sc))) Hel Hm Hn); [cbn; tauto|reflexivity|exact V3| |reflexivity].
        intros t Ht. cbv beta. change (Z.to_nat 0) with 0%nat. now rewrite (most_is _ n m md pw sz Reg (hour T t) _ Ht Hm).
      + eapply (cluster_table a g _ t4 n m _ (fun t sc => Z2Qc (units_lost (at_cluster g) period (hour T t) (Z.to_nat sc))) Hel Hm Hn); [cbn; tauto|cbn; now rewrite E4|exact V4| |reflexivity].
        intros t Ht. cbv beta. change (Z.to_nat 0) with 0%nat. now rewrite (lost_is _ n m md pw sz Reg period Hp (hour T t) _ Ht Hm).
      + eapply (cluster_table a g _ t5 n m _ (fun t sc => Z2Qc (units_regained (at_cluster g) period (hour T t) (Z.to_nat sc))) Hel Hm Hn); [cbn; tauto|cbn; now rewrite E5|exact V5| |reflexivity].
        intros t Ht. cbv beta. change (Z.to_nat 0) with 0%nat. now rewrite (regained_is _ n m md pw sz Reg period Hp (hour T t) _ Ht Hm).
      + repeat (destruct Hp0 as [<-|Hp0]; [first
          [ cbn; split; [reflexivity|]; split; [reflexivity|]; eexists; split; [reflexivity|]; reflexivity
          | cbn; split; [reflexivity|]; split; [reflexivity|]; match goal with |- exists q, ?v = Fin q /\ _ => destruct (Nums v ltac:(cbn; tauto)) as [q E]; exists q; rewrite E; auto end
          | idtac ]|]).
        * cbn. split; [reflexivity|]. split; [reflexivity|]. unfold unit_size. rewrite (rg_size _ _ _ _ _ _ Reg). eauto.
        * unfold fine, file_of. split; [reflexivity|]. rewrite Ea. exists (tb_rows (th_series (at_cluster g))). split; [|split; [|split; [discriminate|]]].
          -- refine (eq_trans _ Dir). apply (source_found s directory _ files Named Conv cluster_areas Apart). rewrite cluster_txt.
             apply (source_in (Cluster a g)); [exact Hel|]. now left.
          -- intros r v. exact (values_finite _ n m pw r v (rg_series _ _ _ _ _ _ Reg)).
          -- intros t sc Hs. cbn [scenarios_of] in Hs. assert (sc = 0)%Z by lia. subst sc.
             rewrite (values_cell T _ n m pw t 0 HT Hn (rg_series _ _ _ _ _ _ Reg)) by lia. cbn [datum String.eqb Ascii.eqb Bool.eqb].
             rewrite (offered_is _ n m md pw sz Reg); [reflexivity| |exact Hm]. now apply (hour_row T t n HT Hn).
        * destruct Hp0.
    - assert (Hel : In (Storage a o) (elements s)) by (apply element_of; [exact He|discriminate]).
      destruct G as (Ea & Nums & Fs). cbn [described snd In] in Hp0.
      assert (Fi : forall id f, In f ["inflows"; "lower-rule-curve"; "upper-rule-curve"; "PMAX-injection"; "PMAX-withdrawal"] ->
        (forall t sc, datum (Storage a o) id t sc = storage_series s directory T o f t sc) -> fine (Storage a o) (file_of id (storage_place s (so_area o) (so_id o) f))).
      { intros id f Hf D. apply stored_fine; [|rewrite Ea; now apply Fs|reflexivity|exact D]. rewrite storage_txt, Ea. apply (source_in (Storage a o)); [exact Hel|].
        exact (in_map (fun f => storage_place s (ar_id a) (so_id o) (f ++ ".txt")) _ f Hf). }
      repeat (destruct Hp0 as [<-|Hp0]; [first
          [ apply Fi; [cbn; tauto|reflexivity]
          | cbn; split; [reflexivity|]; split; [reflexivity|]; match goal with |- exists q, ?v = Fin q /\ _ => destruct (Nums v ltac:(cbn; tauto)) as [q E]; exists q; rewrite E; auto end
          | cbn; split; [reflexivity|]; split; [reflexivity|]; eexists; split; [reflexivity|]; reflexivity ]|]). destruct Hp0.
    - assert (Hel : In (Load a) (elements s)) by (apply element_of; [exact He|discriminate]).
      destruct G as (m & Em & Dir & F). cbn [described snd In] in Hp0. destruct Hp0 as [<-|[]]. apply stored_fine; [|eauto|reflexivity|].
      + apply (source_in (Load a)); [exact Hel|]. now left.
      + intros t sc. cbn [datum]. unfold demand, stored. now rewrite Em, Dir.
    - assert (Hel : In (Link k) (elements s)) by (apply element_of; [exact He|discriminate]). cbn [described snd In] in Hp0.
      destruct Hp0 as [<-|[<-|[]]]; (apply stored_fine; [|apply G; cbn; tauto|reflexivity|reflexivity]); (apply (source_in (Link k)); [exact Hel|]); rewrite link_txt, !app_assoc_string; cbn; auto.
    - assert (Hel : In (Battery a b) (elements s)) by (apply element_of; [exact He|discriminate]).
      destruct G as (Caps & [q1 E1] & [q2 E2] & S1 & S2 & S3 & S4). cbn [described snd In] in Hp0.
      destruct (Caps _ ltac:(now left)) as (c1 & C1 & N1). destruct (Caps _ ltac:(right; now left)) as (c2 & C2 & N2).
      destruct (Caps _ ltac:(right; right; now left)) as (c3 & C3 & N3).
      repeat (destruct Hp0 as [<-|Hp0]; [first
          [ cbn; split; [reflexivity|]; split; [reflexivity|]; rewrite ?C1, ?C2, ?C3, ?E1, ?E2; eexists; split; [reflexivity|]; reflexivity | idtac ]|]); try destruct Hp0.
      + apply (battery_fine a b _ _ (bt_levels b) (fun v => np_div v (bt_reservoir b))); [exact Hel|rewrite cluster_txt; cbn; tauto|apply S1| |].
        * intros v Hv. destruct S1 as [_ S1]. destruct (S1 v Hv) as [q ->]. rewrite C1, divided by exact N1. eauto.
        * intros t sc. rewrite (series_nth _ t S1), C1, divided by exact N1. cbn. now rewrite C1.
      + apply (battery_fine a b _ _ (bt_injections b) (fun v => np_div v (bt_injection b))); [exact Hel| |apply S2| |].
        * rewrite link_txt, !app_assoc_string. cbn. tauto.
        * intros v Hv. destruct S2 as [_ S2]. destruct (S2 v Hv) as [q ->]. rewrite C2, divided by exact N2. eauto.
        * intros t sc. rewrite (series_nth _ t S2), C2, divided by exact N2. cbn. now rewrite C2.
      + apply (battery_fine a b _ _ (bt_withdrawals b) (fun v => np_div v (bt_withdrawal b))); [exact Hel| |apply S3| |].
        * rewrite cluster_txt, !app_assoc_string. cbn. tauto.
        * intros v Hv. destruct S3 as [_ S3]. destruct (S3 v Hv) as [q ->]. rewrite C3, divided by exact N3. eauto.
        * intros t sc. rewrite (series_nth _ t S3), C3, divided by exact N3. cbn. now rewrite C3.
      + apply (battery_fine a b _ _ (bt_costs b) (fun v => v)); [exact Hel| |apply S4| |].
        * rewrite link_txt, !app_assoc_string. cbn. tauto.
        * intros v Hv. destruct S4 as [_ S4]. now apply S4.
        * intros t sc. rewrite (series_nth _ t S4). reflexivity.
  Qed.

  (** *** Entries *)
  Lemma inputs_are : all_inputs sys = map (component_of s) (elements s ++ nodes s).
  Proof. unfold all_inputs. now rewrite Nodes, Comps, map_app. Qed.
  Lemma input_in c : In c (all_inputs sys) <-> exists e, In e (everything s) /\ c = component_of s e.
  Proof.
    rewrite inputs_are, in_map_iff. unfold everything. split; intros (e & H1 & H2); exists e; rewrite in_app_iff in *; split; auto; tauto.
  Qed.
  Lemma inputs_nodup : NoDup (map ic_id (all_inputs sys)).
  Proof.
    rewrite inputs_are, map_map. change (fun x => ic_id (component_of s x)) with element_id. pose proof Ids as N. unfold everything in N.
    rewrite map_app in *. exact (Permutation.Permutation_NoDup (Permutation.Permutation_app_comm _ _) N).
  Qed.
  Lemma model_of e : In e (everything s) -> file_model libs (ic_model (component_of s e)) = Some (emod e).
  Proof. intros He. pose proof (Elements e He) as G. destruct e; try contradiction; reflexivity. Qed.
  Lemma entries c m : entry libs sys c m <-> exists e, In e (everything s) /\ c = component_of s e /\ m = emod e.
  Proof.
    unfold entry. rewrite input_in. split.
    - intros [(e & He & ->) Hm]. exists e. rewrite (model_of e He) in Hm. injection Hm as <-. auto.
    - intros (e & He & -> & ->). split; [eauto|]. now apply model_of.
  Qed.
  Lemma entry_found e : In e (everything s) -> file_entry sys (element_id e) = Some (component_of s e).
  Proof.
    intros He. unfold file_entry. change (element_id e) with (ic_id (component_of s e)). apply find_distinct; [apply inputs_nodup|]. apply input_in. eauto.
  Qed.
  Lemma definition_of e p f : In e (everything s) -> text_definition libs sys (element_id e) p f =
    match find (fun d => String.eqb (yd_port d) p && String.eqb (yd_field d) f) (ym_definitions (emod e)) with
    | Some d => [(component_of s e, emod e, d)] | None => [] end.
  Proof. intros He. unfold text_definition. now rewrite (entry_found e He), (model_of e He). Qed.
  (** *** Connections *)
  Lemma connection_from e k : In e (elements s) -> In k (connections_of e) -> icn_component1 k = element_id e /\ icn_port2 k = "balance_port".
  Proof.
    intros He Hk. pose proof (Elements e (in_elements e He)) as G. destruct e; cbn in Hk; try contradiction; repeat (destruct Hk as [<-|Hk]; [split; reflexivity|]); destruct Hk.
  Qed.
  Lemma area_connected a : In (Area a) (everything s) -> text_connected libs sys (ar_id a) "balance_port" "flow" =
    flat_map (fun e => flat_map (fun k => if String.eqb (icn_component2 k) (ar_id a) then text_definition libs sys (element_id e) (icn_port1 k) "flow" else [])
      (connections_of e)) (elements s).
  Proof.
    intros Ha. unfold text_connected. rewrite Conns, flat_map_flat. apply flat_map_ext_in. intros e He. apply flat_map_ext_in. intros k Hk.
    destruct (connection_from e k He Hk) as [E1 E2]. rewrite E1, E2.
    assert (N : String.eqb (element_id e) (ar_id a) = false).
    { apply String.eqb_neq. intros X. assert (e = Area a) by (apply component_unique; [now apply in_elements|exact Ha|exact X]). subst e. exact Hk. }
    rewrite N. cbn [andb app]. rewrite String.eqb_refl, andb_true_r. destruct (String.eqb (icn_component2 k) (ar_id a)) eqn:E; [|reflexivity].
    unfold text_brought. rewrite E1, E2. apply String.eqb_eq in E. rewrite E. pose proof (definition_of (Area a) "balance_port" "flow" Ha) as D. cbn in D. rewrite D. apply app_nil_r.
  Qed.
  (** *** The study is good *)
  Lemma parameters_are e : parameters_of (component_of s e) = map given (snd (described s e)).
  Proof. reflexivity. Qed.
  Lemma described_distinct e : NoDup (map given_id (snd (described s e))).
  Proof. destruct e; cbn; repeat constructor; cbn; intuition discriminate. Qed.
  Lemma given_ids l : map ip_id (map given l) = map given_id l.
  Proof. rewrite map_map. apply map_ext. intros [[[id tm] sc] v]. reflexivity. Qed.
  Lemma keys_nodup : NoDup (parameter_keys (all_inputs sys)).
  Proof.
    unfold parameter_keys. pose proof inputs_nodup as N.
    assert (P : forall e, In e (all_inputs sys) -> NoDup (map ip_id (parameters_of e))).
    { intros e He. apply input_in in He as (x & _ & ->). rewrite parameters_are, given_ids. apply described_distinct. }
    revert N P. generalize (all_inputs sys). intros l N P. induction l as [|e l IH]; cbn [flat_map]; [constructor|].
    cbn [map] in N. inversion N as [|? ? N1 N2]; subst. apply NoDup_append.
    - specialize (P e (or_introl eq_refl)). revert P. generalize (parameters_of e). intros ps P. induction ps as [|p ps IHp]; cbn; [constructor|].
      cbn in P. inversion P as [|? ? P1 P2]; subst. constructor; [|auto]. intros X. apply in_map_iff in X. destruct X as (q & Eq & Hq).
      apply P1. apply in_map_iff. exists q. split; [congruence|exact Hq].
    - apply IH; auto. intros; apply P; now right.
    - intros [a b] X Y. apply in_map_iff in X. destruct X as (p & Ep & _). apply in_flat_map in Y. destruct Y as (e' & He' & Y).
      apply in_map_iff in Y. destruct Y as (p' & Ep' & _). apply N1. apply in_map_iff. exists e'. split; [congruence|exact He'].
  Qed.
  Lemma data_finite : finite_data sys found.
  Proof.
    intros c p Hc Hp0. apply input_in in Hc as (e & He & ->). rewrite parameters_are in Hp0. apply in_map_iff in Hp0 as (g & <- & Hg).
    pose proof (data_fine e g He Hg) as F. destruct g as [[[id tm] sc] [v|path]]; cbn in *.
    - destruct F as (_ & _ & q & -> & _). eexists; reflexivity.
    - destruct F as (_ & rows & E & F & _). intros ts r v Ets Hr Hv. unfold found in *. rewrite E in Ets. injection Ets as <-. exact (F r v Hr Hv).
  Qed.
  Lemma element_value e id t sc : In e (everything s) -> In id (map given_id (snd (described s e))) -> (0 <= sc < scenarios_of e)%Z ->
    file_value found T (component_of s e) id t sc = Some (datum e id t sc).
  Proof.
    intros He Hid Hs. unfold file_value. rewrite parameters_are. apply in_map_iff in Hid as (g & <- & Hg).
    assert (E : find (fun p => String.eqb (ip_id p) (given_id g)) (map given (snd (described s e))) = Some (given g)).
    { pose proof (described_distinct e) as N. rewrite <- given_ids in N. assert (Ei : ip_id (given g) = given_id g) by (destruct g as [[[? ?] ?] ?]; reflexivity).
      rewrite <- Ei. apply (find_distinct ip_id); [exact N|]. now apply in_map. }
    rewrite E. pose proof (data_fine e g He Hg) as F. destruct g as [[[id tm] scn] [v|path]]; unfold parameter_cell; cbn [given ip_value ip_time ip_scenario given_id fst fine] in *.
    - destruct F as (-> & -> & q & -> & D). cbn. now rewrite D.
    - destruct F as (-> & rows & Ef & _ & _ & D). rewrite Ef. cbn [orb]. now rewrite (D t sc Hs).
  Qed.
  Lemma nodes_data : nodes_have_data libs sys.
  Proof.
    intros c m p Hc Hm Hp0. rewrite Nodes in Hc. apply in_map_iff in Hc as (e & <- & He). destruct (node_area e He) as (a & ->).
    assert (m = lib_area) by (cbn in Hm; congruence). subst m. cbn in Hp0.
    destruct Hp0 as [<-|[<-|[]]]; (eexists; split; [first [right; left; reflexivity]|]; split; [reflexivity|]; split; reflexivity) ||
      (eexists; split; [left; reflexivity|]; split; [reflexivity|]; split; reflexivity).
  Qed.
  Lemma model_in e : In (emod e) (yl_models antares_library ++ yl_models andromede_v1_library).
  Proof. destruct e; cbn; tauto. Qed.
  Lemma study_good : good_study libs sys found T S antares_reading.
  Proof.
    split; [exact HT|]. split; [exact HS|].
    split. { unfold input_ids. pose proof inputs_nodup as N. unfold all_inputs in N. rewrite map_app in N.
             first [exact N|exact (Permutation.Permutation_NoDup (Permutation.Permutation_app_comm _ _) N)]. }
    split; [exact keys_nodup|]. split; [exact data_finite|]. split; [exact nodes_data|].
    intros c m H. apply entries in H as (e & _ & _ & ->). apply antares_good, model_in.
  Qed.
  Lemma no_bounds c m k : entry_constraint libs sys c m k -> yc_lower k = None /\ yc_upper k = None.
  Proof.
    intros [H Hk]. apply entries in H as (e & _ & _ & ->). destruct e; cbn in Hk; repeat (destruct Hk as [<-|Hk]; [split; reflexivity|]); destruct Hk.
  Qed.
  Lemma bounds_follow c m k : entry_constraint libs sys c m k -> text_bounds_follow libs sys antares_reading c m k.
  Proof. intros H w Hw. destruct (no_bounds c m k H) as [E1 E2]. rewrite E1, E2 in Hw. destruct Hw. Qed.
End Study.
