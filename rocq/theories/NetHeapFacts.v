(** Lemmas about networks as mutable objects. *)
From Coq Require Import Lia.
From Verif Require Import Base Expr Visitors BaseFacts Model Study SpecModel ModelFacts NetHeap.
Local Open Scope nat_scope.

Lemma update_length {A} f (l : list A) : forall i, List.length (update i f l) = List.length l.
Proof. induction l as [|a l IH]; intros [|i]; cbn; auto. Qed.
Lemma update_nth_same {A} f (d : A) l : forall i, i < List.length l -> nth i (update i f l) d = f (nth i l d).
Proof. induction l as [|a l IH]; intros [|i]; cbn; intros H; try lia; [reflexivity|]. apply IH. lia. Qed.
Lemma update_nth_other {A} f (d : A) l : forall i j, i <> j -> nth j (update i f l) d = nth j l d.
Proof. induction l as [|a l IH]; intros [|i] [|j]; cbn; intros H; try lia; auto. Qed.

(** every container belongs to one network and one attribute *)
Definition separated (h : heap) : Prop :=
  (forall i o, nth_error (h_objects h) i = Some o ->
     h_nodes o < List.length (h_dicts h) /\ h_components o < List.length (h_dicts h) /\
     h_connections o < List.length (h_lists h) /\ h_nodes o <> h_components o) /\
  (forall i j o p, nth_error (h_objects h) i = Some o -> nth_error (h_objects h) j = Some p -> i <> j ->
     h_nodes o <> h_nodes p /\ h_components o <> h_components p /\ h_connections o <> h_connections p /\
     h_nodes o <> h_components p).

Lemma separated_empty : separated empty_heap.
Proof. split; intros i; intros; destruct i; discriminate. Qed.

Lemma observe_some h i n : observe h i = Some n -> exists o, nth_error (h_objects h) i = Some o.
Proof. unfold observe. destruct (nth_error _ _); [eauto|discriminate]. Qed.

(** ** One call on an existing network *)
Lemma add_component_sep i c h : separated h -> separated (h_add_component i c h).
Proof.
  unfold h_add_component. destruct (nth_error _ _); [|auto]. intros [H1 H2].
  split; cbn; [|exact H2]. rewrite update_length. exact H1.
Qed.
Lemma add_node_sep i c h : separated h -> separated (h_add_node i c h).
Proof.
  unfold h_add_node. destruct (nth_error _ _); [|auto]. intros [H1 H2].
  split; cbn; [|exact H2]. rewrite update_length. exact H1.
Qed.
Lemma append_sep i c h : separated h -> separated (h_append i c h).
Proof.
  unfold h_append. destruct (nth_error _ _); [|auto]. intros [H1 H2].
  split; cbn; [|exact H2]. rewrite update_length. exact H1.
Qed.

Definition append_connection (c : ports_connection) (n : network) : network :=
  {| n_id := n_id n; n_nodes := n_nodes n; n_components := n_components n;
     n_connections := n_connections n ++ [c] |}.

Lemma add_component_observe i c h j : separated h ->
  observe (h_add_component i c h) j =
  if Nat.eqb i j then option_map (add_component c) (observe h j) else observe h j.
Proof.
  intros [H1 H2]. unfold h_add_component, observe.
  destruct (nth_error (h_objects h) i) as [o|] eqn:E; cbn.
  - destruct (Nat.eqb_spec i j) as [<-|Hij].
    + rewrite E. cbn. unfold add_component. cbn. destruct (H1 _ _ E) as (? & ? & ? & ?).
      rewrite update_nth_same, update_nth_other by auto. reflexivity.
    + destruct (nth_error (h_objects h) j) as [p|] eqn:Ep; [|reflexivity].
      destruct (H2 _ _ _ _ E Ep Hij) as (? & ? & ? & ?).
      destruct (H2 _ _ _ _ Ep E (not_eq_sym Hij)) as (? & ? & ? & ?).
      rewrite !update_nth_other by auto. reflexivity.
  - destruct (Nat.eqb_spec i j) as [<-|Hij]; [|reflexivity]. rewrite E. reflexivity.
Qed.
Lemma add_node_observe i c h j : separated h ->
  observe (h_add_node i c h) j =
  if Nat.eqb i j then option_map (add_node c) (observe h j) else observe h j.
Proof.
  intros [H1 H2]. unfold h_add_node, observe.
  destruct (nth_error (h_objects h) i) as [o|] eqn:E; cbn.
  - destruct (Nat.eqb_spec i j) as [<-|Hij].
    + rewrite E. cbn. unfold add_node. cbn. destruct (H1 _ _ E) as (? & ? & ? & ?).
      rewrite update_nth_same, update_nth_other by auto. reflexivity.
    + destruct (nth_error (h_objects h) j) as [p|] eqn:Ep; [|reflexivity].
      destruct (H2 _ _ _ _ E Ep Hij) as (? & ? & ? & ?).
      destruct (H2 _ _ _ _ Ep E (not_eq_sym Hij)) as (? & ? & ? & ?).
      rewrite !update_nth_other by auto. reflexivity.
  - destruct (Nat.eqb_spec i j) as [<-|Hij]; [|reflexivity]. rewrite E. reflexivity.
Qed.
Lemma append_observe i c h j : separated h ->
  observe (h_append i c h) j =
  if Nat.eqb i j then option_map (append_connection c) (observe h j) else observe h j.
Proof.
  intros [H1 H2]. unfold h_append, observe.
  destruct (nth_error (h_objects h) i) as [o|] eqn:E; cbn.
  - destruct (Nat.eqb_spec i j) as [<-|Hij].
    + rewrite E. cbn. unfold append_connection. cbn. destruct (H1 _ _ E) as (? & ? & ? & ?).
      rewrite update_nth_same by auto. reflexivity.
    + destruct (nth_error (h_objects h) j) as [p|] eqn:Ep; [|reflexivity].
      destruct (H2 _ _ _ _ E Ep Hij) as (? & ? & ? & ?).
      rewrite !update_nth_other by auto. reflexivity.
  - destruct (Nat.eqb_spec i j) as [<-|Hij]; [|reflexivity]. rewrite E. reflexivity.
Qed.

(** ** New networks *)
Lemma alloc_sep id h : separated h -> separated (fst (alloc_network id h)).
Proof.
  intros [H1 H2]. unfold alloc_network. cbn. split; cbn; rewrite ?app_length; cbn.
  - intros i o H. destruct (Nat.lt_ge_cases i (List.length (h_objects h))) as [Hi|Hi].
    + rewrite nth_error_app1 in H by lia. destruct (H1 _ _ H) as (? & ? & ? & ?).
      split; [lia|]. split; [lia|]. split; [lia|auto].
    + rewrite nth_error_app2 in H by lia. destruct (i - _) as [|k]; [|destruct k; discriminate].
      injection H as <-. cbn. lia.
  - intros i j o p Ho Hp Hij.
    destruct (Nat.lt_ge_cases i (List.length (h_objects h))) as [Hi|Hi];
    destruct (Nat.lt_ge_cases j (List.length (h_objects h))) as [Hj|Hj].
    + rewrite nth_error_app1 in Ho, Hp by lia. eauto.
    + rewrite nth_error_app1 in Ho by lia. rewrite nth_error_app2 in Hp by lia.
      destruct (j - _) as [|k]; [|destruct k; discriminate]. injection Hp as <-. cbn.
      destruct (H1 _ _ Ho) as (? & ? & ? & ?). lia.
    + rewrite nth_error_app2 in Ho by lia. rewrite nth_error_app1 in Hp by lia.
      destruct (i - _) as [|k]; [|destruct k; discriminate]. injection Ho as <-. cbn.
      destruct (H1 _ _ Hp) as (? & ? & ? & ?). lia.
    + rewrite nth_error_app2 in Ho, Hp by lia.
      destruct (i - _) as [|k] eqn:Ei; [|destruct k; discriminate].
      destruct (j - _) as [|k] eqn:Ej; [|destruct k; discriminate]. lia.
Qed.

Lemma alloc_observe id h j : separated h ->
  observe (fst (alloc_network id h)) j =
  if Nat.eqb j (List.length (h_objects h)) then Some (new_network id) else observe h j.
Proof.
  intros [H1 H2]. unfold alloc_network, observe. cbn.
  destruct (Nat.eqb_spec j (List.length (h_objects h))) as [->|Hj].
  - rewrite nth_error_app2, Nat.sub_diag by lia. cbn. unfold new_network.
    rewrite !app_nth2 by lia. rewrite !Nat.sub_diag.
    replace (S (List.length (h_dicts h)) - List.length (h_dicts h)) with 1 by lia. reflexivity.
  - destruct (Nat.lt_ge_cases j (List.length (h_objects h))) as [Hlt|Hge].
    + rewrite nth_error_app1 by lia. destruct (nth_error (h_objects h) j) as [o|] eqn:E; [|reflexivity].
      destruct (H1 _ _ E) as (? & ? & ? & ?). rewrite !app_nth1 by lia. reflexivity.
    + rewrite nth_error_app2 by lia. destruct (j - List.length (h_objects h)) as [|k] eqn:Ek; [lia|].
      replace (nth_error (h_objects h) j) with (@None net_object) by (symmetry; apply nth_error_None; lia).
      destruct k; reflexivity.
Qed.

(** ** Filling a network *)
Lemma fill_nodes_sep j l : forall h, separated h ->
  separated (fold_left (fun h (kc : string * component) => h_add_node j (snd kc) h) l h).
Proof. induction l as [|c l IH]; cbn; intros h H; auto. apply IH. now apply add_node_sep. Qed.
Lemma fill_components_sep j l : forall h, separated h ->
  separated (fold_left (fun h (kc : string * component) => h_add_component j (snd kc) h) l h).
Proof. induction l as [|c l IH]; cbn; intros h H; auto. apply IH. now apply add_component_sep. Qed.
Lemma fill_connections_sep j l : forall h, separated h ->
  separated (fold_left (fun h c => h_append j c h) l h).
Proof. induction l as [|c l IH]; cbn; intros h H; auto. apply IH. now apply append_sep. Qed.

Lemma fill_nodes_observe j l : forall h k, separated h ->
  observe (fold_left (fun h (kc : string * component) => h_add_node j (snd kc) h) l h) k =
  if Nat.eqb j k then option_map (fun n => fold_left (fun r kc => add_node (snd kc) r) l n) (observe h k) else observe h k.
Proof.
  induction l as [|c l IH]; cbn; intros h k H.
  - destruct (Nat.eqb j k); [|reflexivity]. destruct (observe h k); reflexivity.
  - rewrite IH by now apply add_node_sep. rewrite add_node_observe by auto.
    destruct (Nat.eqb j k); [|reflexivity]. destruct (observe h k); reflexivity.
Qed.
Lemma fill_components_observe j l : forall h k, separated h ->
  observe (fold_left (fun h (kc : string * component) => h_add_component j (snd kc) h) l h) k =
  if Nat.eqb j k then option_map (fun n => fold_left (fun r kc => add_component (snd kc) r) l n) (observe h k) else observe h k.
Proof.
  induction l as [|c l IH]; cbn; intros h k H.
  - destruct (Nat.eqb j k); [|reflexivity]. destruct (observe h k); reflexivity.
  - rewrite IH by now apply add_component_sep. rewrite add_component_observe by auto.
    destruct (Nat.eqb j k); [|reflexivity]. destruct (observe h k); reflexivity.
Qed.
Lemma fill_connections_observe j l : forall h k, separated h ->
  observe (fold_left (fun h c => h_append j c h) l h) k =
  if Nat.eqb j k then option_map (fun n =>
    {| n_id := n_id n; n_nodes := n_nodes n; n_components := n_components n;
       n_connections := n_connections n ++ l |}) (observe h k) else observe h k.
Proof.
  induction l as [|c l IH]; cbn; intros h k H.
  - destruct (Nat.eqb j k); [|reflexivity]. destruct (observe h k) as [n|]; [|reflexivity].
    cbn. rewrite app_nil_r. destruct n; reflexivity.
  - rewrite IH by now apply append_sep. rewrite append_observe by auto.
    destruct (Nat.eqb j k); [|reflexivity]. destruct (observe h k) as [n|]; [|reflexivity].
    cbn. rewrite <- app_assoc. reflexivity.
Qed.

Lemma observe_parts h i o n : nth_error (h_objects h) i = Some o -> observe h i = Some n ->
  nth (h_nodes o) (h_dicts h) [] = n_nodes n /\ nth (h_components o) (h_dicts h) [] = n_components n /\
  nth (h_connections o) (h_lists h) [] = n_connections n.
Proof. unfold observe. intros -> H. injection H as <-. auto. Qed.

Lemma fill_objects {A} (f : A -> heap -> heap) (l : list A) :
  (forall a h, h_objects (f a h) = h_objects h) ->
  forall h, h_objects (fold_left (fun h a => f a h) l h) = h_objects h.
Proof. intros Hf. induction l as [|a l IH]; cbn; intros h; [reflexivity|]. rewrite IH. apply Hf. Qed.

Lemma replicate_heap i id h n : separated h -> observe h i = Some n ->
  match replicate n id with
  | Err e => h_replicate i id h = Err e
  | Ok r => exists h', h_replicate i id h = Ok (h', List.length (h_objects h)) /\ separated h' /\
      forall k, observe h' k = if Nat.eqb k (List.length (h_objects h)) then Some r else observe h k
  end.
Proof.
  intros Hsep Hobs. destruct (observe_some _ _ _ Hobs) as [o Ho].
  assert (Hi : i < List.length (h_objects h)) by (apply nth_error_Some; congruence).
  unfold h_replicate. rewrite Ho.
  remember (alloc_network id h) as a eqn:Ea. destruct a as [h1 j].
  assert (Hj : j = List.length (h_objects h)) by (unfold alloc_network in Ea; congruence).
  assert (H1 : h1 = fst (alloc_network id h)) by (rewrite <- Ea; reflexivity).
  assert (S1 : separated h1) by (rewrite H1; now apply alloc_sep).
  assert (O1 : forall k, observe h1 k = if Nat.eqb k j then Some (new_network id) else observe h k).
  { intros k. rewrite H1, alloc_observe, Hj by auto. reflexivity. }
  assert (Hij : Nat.eqb i j = false) by (apply Nat.eqb_neq; lia).
  assert (Hji : Nat.eqb j i = false) by (apply Nat.eqb_neq; lia).
  assert (Ho1 : nth_error (h_objects h1) i = Some o).
  { rewrite H1. unfold alloc_network. cbn. rewrite nth_error_app1 by lia. exact Ho. }
  assert (Hn1 : observe h1 i = Some n) by (rewrite O1, Hij; exact Hobs).
  destruct (observe_parts _ _ _ _ Ho1 Hn1) as (E1 & _ & _). rewrite E1.
  set (h2 := fold_left (fun h kc => h_add_node j (snd kc) h) (n_nodes n) h1).
  assert (S2 : separated h2) by now apply fill_nodes_sep.
  assert (O2 : forall k, observe h2 k = if Nat.eqb j k then option_map (fun r => fold_left (fun r kc => add_node (snd kc) r) (n_nodes n) r) (observe h1 k) else observe h1 k)
    by (intros; now apply fill_nodes_observe).
  assert (Ho2 : nth_error (h_objects h2) i = Some o).
  { unfold h2. rewrite (fill_objects (fun kc h => h_add_node j (snd kc) h)); [exact Ho1|].
    intros a h0. unfold h_add_node. destruct (nth_error (h_objects h0) j); reflexivity. }
  assert (Hn2 : observe h2 i = Some n) by (rewrite O2, Hji; exact Hn1).
  destruct (observe_parts _ _ _ _ Ho2 Hn2) as (_ & E2 & _). rewrite E2.
  set (h3 := fold_left (fun h kc => h_add_component j (snd kc) h) (n_components n) h2).
  assert (S3 : separated h3) by now apply fill_components_sep.
  assert (O3 : forall k, observe h3 k = if Nat.eqb j k then option_map (fun r => fold_left (fun r kc => add_component (snd kc) r) (n_components n) r) (observe h2 k) else observe h2 k)
    by (intros; now apply fill_components_observe).
  assert (Ho3 : nth_error (h_objects h3) i = Some o).
  { unfold h3. rewrite (fill_objects (fun kc h => h_add_component j (snd kc) h)); [exact Ho2|].
    intros a h0. unfold h_add_component. destruct (nth_error (h_objects h0) j); reflexivity. }
  assert (Hn3 : observe h3 i = Some n) by (rewrite O3, Hji; exact Hn2).
  destruct (observe_parts _ _ _ _ Ho3 Hn3) as (_ & _ & E3). rewrite E3.
  unfold replicate. destruct (mapM replicate_connection (n_connections n)) as [cs|e]; cbn [bind]; [|reflexivity].
  eexists. split; [rewrite Hj; reflexivity|]. split; [now apply fill_connections_sep|].
  intros k. rewrite <- Hj.
  rewrite fill_connections_observe by auto. rewrite (Nat.eqb_sym k j).
  destruct (Nat.eqb j k) eqn:Ek.
  - apply Nat.eqb_eq in Ek. subst k.
    rewrite O3, O2, O1, !Nat.eqb_refl. cbn [option_map].
    rewrite fold_add_components, fold_add_nodes. cbn. reflexivity.
  - rewrite O3, Ek, O2, Ek, O1, Nat.eqb_sym, Ek. reflexivity.
Qed.

(** ** Programs *)
Lemma Some_inj {A} (a b : A) : Some a = Some b -> a = b.
Proof. congruence. Qed.

Definition heap_built (h : heap) : Prop :=
  separated h /\ forall i n, observe h i = Some n -> built_network n.

Lemma append_connection_connect r1 r2 c n : mk_connection r1 r2 = Ok c ->
  connect r1 r2 n = Ok (append_connection c n).
Proof. unfold connect. intros ->. reflexivity. Qed.

Lemma run_call_built h c : heap_built h -> heap_built (run_call h c).
Proof.
  intros [Hs Hb]. destruct c as [id|i c|i c|i r1 r2|i id]; cbn [run_call].
  - split; [now apply alloc_sep|]. intros k n. rewrite alloc_observe by auto.
    destruct (Nat.eqb k _); [|apply Hb]. intros H. injection H as <-. constructor.
  - split; [now apply add_component_sep|]. intros k n. rewrite add_component_observe by auto.
    destruct (Nat.eqb i k); [|apply Hb]. destruct (observe h k) as [m|] eqn:E; [|discriminate].
    intros H. apply Some_inj in H. subst n. apply bn_component. eauto.
  - split; [now apply add_node_sep|]. intros k n. rewrite add_node_observe by auto.
    destruct (Nat.eqb i k); [|apply Hb]. destruct (observe h k) as [m|] eqn:E; [|discriminate].
    intros H. apply Some_inj in H. subst n. apply bn_node. eauto.
  - unfold h_connect. destruct (mk_connection r1 r2) as [c|] eqn:Ec; cbn; [|split; auto].
    split; [now apply append_sep|]. intros k n. rewrite append_observe by auto.
    destruct (Nat.eqb i k); [|apply Hb]. destruct (observe h k) as [m|] eqn:E; [|discriminate].
    intros H. apply Some_inj in H. subst n. eapply bn_connect; [eauto|]. apply append_connection_connect; exact Ec.
  - destruct (observe h i) as [n|] eqn:E.
    + pose proof (replicate_heap i id h n Hs E) as H. rewrite (replicate_equal n id (Hb _ _ E)) in H.
      destruct H as (h' & Hr & Hs' & Ho). rewrite Hr. split; auto. intros k m. rewrite Ho.
      destruct (Nat.eqb k _); [|apply Hb]. intros H. injection H as <-.
      assert (Hbn : built_network n) by eauto.
      clear - Hbn.
      induction Hbn as [id0|c n H IH|c n H IH|r1 r2 n n' H IH Hc]; cbn.
      * constructor.
      * apply (bn_component c) in IH. exact IH.
      * apply (bn_node c) in IH. exact IH.
      * unfold connect in Hc. inv_bind Hc. injection Hc as <-. cbn.
        eapply bn_connect; [exact IH|]. unfold connect. rewrite H0. reflexivity.
    + unfold h_replicate. unfold observe in E. destruct (nth_error _ _); [discriminate|]. split; auto.
Qed.

Lemma run_calls_built l : forall h, heap_built h -> heap_built (run_calls h l).
Proof. induction l as [|c l IH]; cbn; intros h H; auto. apply IH. now apply run_call_built. Qed.

Lemma heap_built_empty : heap_built empty_heap.
Proof. split; [apply separated_empty|]. intros i n. unfold observe. destruct i; discriminate. Qed.

Lemma run_call_frame h c i n : heap_built h -> observe h i = Some n -> acts_on c <> Some i ->
  observe (run_call h c) i = Some n.
Proof.
  intros [Hs Hb] Ho Ha.
  assert (Hlt : i < List.length (h_objects h)).
  { destruct (observe_some _ _ _ Ho) as [o Hn]. apply nth_error_Some. congruence. }
  destruct c as [id|k c|k c|k r1 r2|k id]; cbn [run_call acts_on] in *.
  - rewrite alloc_observe by auto. destruct (Nat.eqb_spec i (List.length (h_objects h))); [lia|exact Ho].
  - rewrite add_component_observe by auto. destruct (Nat.eqb_spec k i); [congruence|exact Ho].
  - rewrite add_node_observe by auto. destruct (Nat.eqb_spec k i); [congruence|exact Ho].
  - unfold h_connect. destruct (mk_connection r1 r2) as [c|]; cbn; [|exact Ho].
    rewrite append_observe by auto. destruct (Nat.eqb_spec k i); [congruence|exact Ho].
  - destruct (observe h k) as [m|] eqn:E.
    + pose proof (replicate_heap k id h m Hs E) as H. rewrite (replicate_equal m id (Hb _ _ E)) in H.
      destruct H as (h' & Hr & Hs' & Hob). rewrite Hr, Hob.
      destruct (Nat.eqb_spec i (List.length (h_objects h))); [lia|exact Ho].
    + unfold h_replicate. unfold observe in E. destruct (nth_error (h_objects h) k); [discriminate|]. exact Ho.
Qed.

Lemma run_calls_frame l : forall h i n, heap_built h -> observe h i = Some n ->
  (forall c, In c l -> acts_on c <> Some i) -> observe (run_calls h l) i = Some n.
Proof.
  induction l as [|c l IH]; cbn; intros h i n Hb Ho Ha; auto.
  apply IH; auto; [now apply run_call_built|]. apply run_call_frame; auto.
Qed.

Lemma replica_equal calls i n id : let h := run_calls empty_heap calls in
  observe h i = Some n ->
  exists h' j, h_replicate i id h = Ok (h', j) /\ observe h j = None /\
    observe h' j = Some {| n_id := id; n_nodes := n_nodes n; n_components := n_components n;
                           n_connections := n_connections n |} /\
    forall k m, observe h k = Some m -> observe h' k = Some m.
Proof.
  intros h Ho. destruct (run_calls_built calls _ heap_built_empty) as [Hs Hb]. fold h in Hs, Hb.
  pose proof (replicate_heap i id h n Hs Ho) as H. rewrite (replicate_equal n id (Hb _ _ Ho)) in H.
  destruct H as (h' & Hr & Hs' & Hob). exists h', (List.length (h_objects h)).
  split; [exact Hr|]. split.
  { unfold observe. rewrite (proj2 (nth_error_None _ _)); [reflexivity|lia]. }
  split; [rewrite Hob, Nat.eqb_refl; reflexivity|].
  intros k m Hk. rewrite Hob. destruct (observe_some _ _ _ Hk) as [o Hn].
  assert (k < List.length (h_objects h)) by (apply nth_error_Some; congruence).
  destruct (Nat.eqb_spec k (List.length (h_objects h))); [lia|exact Hk].
Qed.
Lemma edits_do_not_leak calls later i n : observe (run_calls empty_heap calls) i = Some n ->
  (forall c, In c later -> acts_on c <> Some i) ->
  observe (run_calls (run_calls empty_heap calls) later) i = Some n.
Proof. intros. apply run_calls_frame; auto. apply run_calls_built, heap_built_empty. Qed.
Lemma edits_act calls i n c r1 r2 : let h := run_calls empty_heap calls in
  observe h i = Some n ->
  observe (run_call h (CAddComponent i c)) i = Some (add_component c n) /\
  observe (run_call h (CAddNode i c)) i = Some (add_node c n) /\
  observe (run_call h (CConnect i r1 r2)) i =
    Some (match connect r1 r2 n with Ok n' => n' | Err _ => n end).
Proof.
  intros h Ho. destruct (run_calls_built calls _ heap_built_empty) as [Hs Hb]. fold h in Hs, Hb.
  cbn [run_call]. split; [|split].
  - now rewrite add_component_observe, Nat.eqb_refl, Ho.
  - now rewrite add_node_observe, Nat.eqb_refl, Ho.
  - unfold h_connect, connect. destruct (mk_connection r1 r2); cbn; [|exact Ho].
    now rewrite append_observe, Nat.eqb_refl, Ho.
Qed.
