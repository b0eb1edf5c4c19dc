(** Lemmas for C72 and C73: what the contents of a file say. *)
From Coq Require Import Ascii Permutation Lia.
From Verif Require Import Base BaseFacts Expr Model Study Strategy Optim System Library Yaml SpecYaml.
Local Open Scope string_scope.
Local Open Scope list_scope.

(** ** Keys *)
Lemma kebab_hyphens s : kebab s = hyphens s.
Proof. unfold hyphens. induction s as [|c s IH]; cbn; [reflexivity|]. now rewrite IH. Qed.
Lemma hyphens_idem s : hyphens (hyphens s) = hyphens s.
Proof.
  rewrite <- !kebab_hyphens. induction s as [|c s IH]; cbn; [reflexivity|]. rewrite IH. f_equal.
  destruct (Ascii.eqb c "_") eqn:E; [reflexivity|]. now rewrite E.
Qed.
Lemma dget_in (d : dict string tree) k : In k (keys d) <-> exists t, dget String.eqb k d = Some t.
Proof.
  unfold keys. induction d as [|[k' v] d IH]; cbn; [split; [easy|intros [t H]; discriminate]|].
  destruct (String.eqb_spec k k') as [->|N].
  - split; [eauto|auto].
  - rewrite <- IH. split; [intros [H|H]; [congruence|exact H]|auto].
Qed.
Lemma dget_not_in (d : dict string tree) k : ~ In k (keys d) <-> dget String.eqb k d = None.
Proof.
  rewrite dget_in. destruct (dget String.eqb k d) as [t|]; split; try easy.
  - intros H. destruct H. eauto.
  - intros _ [t H]. discriminate.
Qed.
Definition absent (d : dict string tree) (name : string) : Prop := ~ In name (keys d) /\ ~ In (hyphens name) (keys d).
Lemma entry_none d name : entry d name = None <-> absent d name.
Proof.
  unfold entry, absent. rewrite kebab_hyphens, !dget_not_in.
  destruct (dget String.eqb (hyphens name) d), (dget String.eqb name d); split; intros H; try easy; destruct H; easy.
Qed.
Lemma as_record_mapping names t d : as_record names t = Ok d <-> mapping names t d.
Proof.
  unfold as_record, mapping. destruct t as [| | | | | |d0]; try (split; [discriminate|intros [H _]; discriminate]).
  destruct (forallb (used d0 names) (map fst d0)) eqn:E.
  - rewrite forallb_forall in E. split; [intros H; injection H as ->|intros [H _]; now injection H as ->].
    split; [reflexivity|].
    assert (U : forall k, In k (keys d) -> exists name, In name names /\
      (k = hyphens name \/ (k = name /\ ~ In (hyphens name) (keys d)))).
    { intros k Hk. specialize (E k Hk). unfold used in E. apply existsb_exists in E. destruct E as [name [Hn E]].
      exists name. split; [exact Hn|]. unfold entry in E. rewrite kebab_hyphens in E.
      destruct (dget String.eqb (hyphens name) d) eqn:G; [left; symmetry; now apply String.eqb_eq|].
      destruct (dget String.eqb name d) eqn:G'; [|discriminate]. right. split; [symmetry; now apply String.eqb_eq|].
      now apply dget_not_in. }
    split.
    + intros k Hk. destruct (U k Hk) as [name [Hn [H|[H _]]]]; exists name; auto.
    + intros name Hn H1 H2. destruct (U name H1) as [name' [Hn' [H|[<- H]]]]; [|contradiction].
      rewrite H. symmetry. apply hyphens_idem.
  - split; [discriminate|]. intros [H [K O]]. injection H as ->. exfalso.
    assert (X : forallb (used d names) (map fst d) = true); [|congruence].
    apply forallb_forall. intros k Hk. destruct (K k Hk) as [name [Hn Hs]].
    unfold used. apply existsb_exists. exists name. split; [exact Hn|]. unfold entry. rewrite kebab_hyphens.
    destruct (dget String.eqb (hyphens name) d) as [t|] eqn:G.
    + destruct Hs as [->| ->]; [|apply String.eqb_refl]. apply String.eqb_eq. symmetry. apply O; auto. apply dget_in. eauto.
    + destruct Hs as [->| ->].
      * destruct (dget String.eqb name d) eqn:G'; [apply String.eqb_refl|]. apply dget_not_in in G'. contradiction.
      * apply dget_not_in in G. contradiction.
Qed.

(** ** Fields *)
Definition reflects {A} (f : tree -> result A) (P : tree -> A -> Prop) : Prop := forall t a, f t = Ok a <-> P t a.
Lemma entry_under names t d name : mapping names t d -> In name names -> forall v,
  (exists k, entry d name = Some (k, v)) <-> under d name v.
Proof.
  intros (_ & _ & O) Hn v. unfold entry, under. rewrite kebab_hyphens. specialize (O name Hn).
  destruct (dget String.eqb (hyphens name) d) as [a|] eqn:G.
  - split.
    + intros [k H]. injection H as _ ->. now left.
    + intros [H|H]; [injection H as ->; eauto|].
      assert (E : name = hyphens name) by (apply O; apply dget_in; eauto). rewrite <- E in G.
      assert (a = v) by congruence. subst. eauto.
  - destruct (dget String.eqb name d) as [b|] eqn:G'; split.
    + intros [k H]. injection H as _ ->. now right.
    + intros [H|H]; [discriminate|]. injection H as ->. eauto.
    + intros [k H]. discriminate.
    + intros [H|H]; discriminate.
Qed.
Lemma field_required {A} names t d name (f : tree -> result A) P a : mapping names t d -> In name names -> reflects f P ->
  (field d name f None = Ok a <-> required d name (fun t => P t a)).
Proof.
  intros Hm Hn R. unfold field, required. destruct (entry d name) as [[k v]|] eqn:E.
  - assert (U : under d name v) by (apply (entry_under _ _ _ _ Hm Hn); eauto). split.
    + intros H. exists v. split; [exact U|]. now apply R.
    + intros (w & Hw & Hp). apply (entry_under _ _ _ _ Hm Hn) in Hw. destruct Hw as [k' Hw]. rewrite E in Hw. injection Hw as _ <-. now apply R.
  - split; [discriminate|]. intros (w & Hw & Hp). apply (entry_under _ _ _ _ Hm Hn) in Hw. destruct Hw as [k' Hw]. congruence.
Qed.
Lemma field_optional {A} names t d name (f : tree -> result A) P x a : mapping names t d -> In name names -> reflects f P ->
  (field d name f (Some x) = Ok a <-> optional d name (fun t => P t a) (a = x)).
Proof.
  intros Hm Hn R. unfold optional. rewrite <- (field_required _ _ _ _ f P a Hm Hn R). unfold field.
  destruct (entry d name) as [[k v]|] eqn:E.
  - split; [now left|]. intros [H|(H1 & H2 & _)]; [exact H|].
    assert (entry d name = None) by (apply entry_none; split; assumption). congruence.
  - apply entry_none in E. destruct E as [Ea Eb]. split.
    + intros H. right. injection H as ->. auto.
    + intros [H|(_ & _ & ->)]; [discriminate|reflexivity].
Qed.

(** ** Values *)
Lemma as_text_reflects : reflects as_text text.
Proof. intros [] a; cbn; unfold text; split; intros H; try discriminate; injection H as ->; reflexivity. Qed.
Lemma as_text_or_number_reflects show : reflects (as_text_or_number show) (text_or_number show).
Proof.
  intros t a. unfold text_or_number. split.
  - destruct t; cbn; intros H; try discriminate; injection H as <-; eauto.
  - intros [->|[(z & -> & ->)|(v & -> & ->)]]; reflexivity.
Qed.
Lemma as_optional_reflects {A} (f : tree -> result A) P : reflects f P -> reflects (as_optional f) (nothing_or P).
Proof.
  intros R t o. unfold as_optional, nothing_or. split.
  - intros H. destruct t; try (left; split; [reflexivity|congruence]);
      (right; split; [discriminate|]; destruct (f _) as [a|] eqn:E; cbn in H; [|discriminate]; injection H as <-; apply R in E; eauto).
  - intros [[-> ->]|(N & a & -> & H)]; [reflexivity|]. apply R in H. destruct t; try congruence; rewrite H; reflexivity.
Qed.
Lemma as_list_reflects {A} (f : tree -> result A) P : reflects f P -> reflects (as_list f) (sequence P).
Proof.
  intros R t l. unfold as_list, sequence. split.
  - destruct t as [| | | | |ts|]; try discriminate. intros H. exists ts. split; [reflexivity|].
    revert l H. induction ts as [|t ts IH]; cbn; intros l H; [injection H as <-; constructor|].
    inv_bind H. inv_bind H. injection H as <-. constructor; [now apply R|auto].
  - intros (ts & -> & H). induction H as [|t a ts l H _ IH]; cbn; [reflexivity|]. apply R in H. rewrite H. cbn. rewrite IH. reflexivity.
Qed.
Lemma as_value_reflects : reflects as_value value.
Proof.
  intros t v. unfold value. split.
  - destruct t; cbn; intros H; try discriminate; injection H as <-; eauto 10.
    right. right. right. exists b. split; [reflexivity|]. f_equal. now destruct b.
  - intros [(s & -> & ->)|[(x & -> & ->)|[(z & -> & ->)|(b & -> & ->)]]]; try reflexivity. now destruct b.
Qed.
Lemma lower_any_case s w : lower s = w <-> any_case s w.
Proof.
  revert w. induction s as [|a s IH]; intros [|b w]; cbn [lower any_case]; cbv zeta; try easy.
  rewrite <- IH. destruct (Nat.leb_spec 65 (nat_of_ascii a)) as [E1|E1], (Nat.leb_spec (nat_of_ascii a) 90) as [E2|E2]; cbn [andb]; split.
  - intros H. injection H as <- <-. split; [|reflexivity]. right. split; [lia|]. rewrite nat_ascii_embedding; lia.
  - intros [[[_ N]|[_ H]] <-]; [lia|]. f_equal. rewrite <- H. apply ascii_nat_embedding.
  - intros H. injection H as <- <-. split; [|reflexivity]. left. split; [reflexivity|lia].
  - intros [[[<- _]|[N _]] <-]; [reflexivity|lia].
  - intros H. injection H as <- <-. split; [|reflexivity]. left. split; [reflexivity|lia].
  - intros [[[<- _]|[N _]] <-]; [reflexivity|lia].
  - intros H. injection H as <- <-. split; [|reflexivity]. left. split; [reflexivity|lia].
  - intros [[[<- _]|[N _]] <-]; [reflexivity|lia].
Qed.
Lemma words_exist s b : existsb (String.eqb (lower s)) (words b) = true <-> exists w, In w (words b) /\ any_case s w.
Proof.
  rewrite existsb_exists. split; intros (w & Hw & H); exists w; (split; [exact Hw|]).
  - apply String.eqb_eq in H. now apply lower_any_case.
  - apply lower_any_case in H. now apply String.eqb_eq.
Qed.
Lemma words_differ s : existsb (String.eqb (lower s)) (words false) = true -> existsb (String.eqb (lower s)) (words true) = false.
Proof. intros H. apply existsb_exists in H. destruct H as (w & Hw & H). apply String.eqb_eq in H. rewrite H. clear H. cbn in Hw. repeat (destruct Hw as [<-|Hw]; [reflexivity|]). destruct Hw. Qed.
Lemma as_bool_reflects : reflects as_bool boolean.
Proof.
  intros t b. unfold boolean. destruct t as [|b'|z|v|s|l|d]; cbn [as_bool].
  1, 6, 7: (split; [discriminate|]; intros [H|[H|[H|(s & w & H & _)]]]; discriminate).
  - split; [intros H; injection H as ->; auto|]. intros [H|[H|[H|(s & w & H & _)]]]; try discriminate. now injection H as ->.
  - split.
    + destruct (Z.eqb_spec z 0) as [->|]; [intros H; injection H as <-; auto|]. destruct (Z.eqb_spec z 1) as [->|]; [|discriminate].
      intros H; injection H as <-; auto.
    + intros [H|[H|[H|(s & w & H & _)]]]; try discriminate. injection H as ->. now destruct b.
  - split.
    + destruct v as [q| | |]; try discriminate.
      destruct (Qceqb q 0%Qc) eqn:E; [intros H; injection H as <-|destruct (Qceqb q 1%Qc) eqn:E1; [intros H; injection H as <-|discriminate]];
        right; right; left; unfold n0, n1; do 2 f_equal; apply Qc_is_canon; now apply Qeq_bool_eq.
    + intros [H|[H|[H|(s & w & H & _)]]]; try discriminate. injection H as ->. now destruct b.
  - change ["0"; "off"; "f"; "false"; "n"; "no"] with (words false). change ["1"; "on"; "t"; "true"; "y"; "yes"] with (words true). split.
    + destruct (existsb _ (words false)) eqn:E; [intros H; injection H as <-; apply words_exist in E; destruct E as (w & Hw & Hc); right; right; right; exists s, w; auto|].
      destruct (existsb _ (words true)) eqn:E1; [|discriminate]. intros H; injection H as <-. apply words_exist in E1; destruct E1 as (w & Hw & Hc); right; right; right; exists s, w; auto.
    + intros [H|[H|[H|(s' & w & H & Hw & Hc)]]]; try discriminate. injection H as <-.
      assert (E : existsb (String.eqb (lower s)) (words b) = true) by (apply words_exist; eauto).
      destruct b; [|now rewrite E]. destruct (existsb _ (words false)) eqn:E0; [apply words_differ in E0; congruence|]. now rewrite E.
Qed.
Lemma field_remark names t d name : mapping names t d -> In name names ->
  ((exists o, field d name (as_optional as_text) (Some None) = Ok o) <-> optional d name remark True).
Proof.
  intros Hm Hn. split.
  - intros [o H]. apply (field_optional names t d name _ (nothing_or text) _ _ Hm Hn (as_optional_reflects _ _ as_text_reflects)) in H.
    destruct H as [(v & Hv & Hp)|(H1 & H2 & _)]; [left; exists v; split; [exact Hv|]|right; auto].
    destruct Hp as [[-> _]|(_ & s & _ & ->)]; [now left|right; eauto].
  - intros H.
    assert (X : exists o, optional d name (fun t => nothing_or text t o) (o = None)).
    { destruct H as [(v & Hv & [->|[s ->]])|(H1 & H2 & _)].
      - exists None. left. exists TNull. split; [exact Hv|now left].
      - exists (Some s). left. exists (TText s). split; [exact Hv|]. right. split; [discriminate|]. exists s. split; reflexivity.
      - exists None. right. auto. }
    destruct X as [o X]. exists o.
    now apply (field_optional names t d name _ (nothing_or text) _ _ Hm Hn (as_optional_reflects _ _ as_text_reflects)).
Qed.

(** ** Classes *)
#[global] Hint Resolve as_text_reflects as_text_or_number_reflects as_optional_reflects as_list_reflects as_value_reflects as_bool_reflects : says.
(** from a reader to what is said *)
Ltac says_one M :=
  match goal with
  | E : field ?d ?n _ _ = Ok _ |- optional ?d ?n remark True => refine (proj1 (field_remark _ _ d n M _) (ex_intro _ _ E)); cbn; tauto
  | E : field ?d ?n _ None = Ok _ |- required ?d ?n _ =>
      eapply (field_required _ _ d n) in E; [exact E|exact M|cbn; tauto|eauto with says]
  | E : field ?d ?n _ (Some _) = Ok _ |- optional ?d ?n _ _ =>
      eapply (field_optional _ _ d n) in E; [exact E|exact M|cbn; tauto|eauto with says]
  end.
(** and back *)
Ltac read_one M :=
  match goal with
  | H : optional ?d ?n remark True |- context [field ?d ?n _ _] =>
      let o := fresh "o" in let E := fresh "E" in
      destruct (proj2 (field_remark _ _ d n M ltac:(cbn; tauto)) H) as [o E]; rewrite E; clear E; cbn [bind]
  | H : required ?d ?n _ |- context [field ?d ?n ?f None] =>
      let E := fresh "E" in
      eassert (E : field d n f None = Ok _) by (eapply field_required; [exact M|cbn; tauto|eauto with says|exact H]);
      rewrite E; clear E; cbn [bind]
  | H : optional ?d ?n _ _ |- context [field ?d ?n ?f (Some ?x)] =>
      let E := fresh "E" in
      eassert (E : field d n f (Some x) = Ok _) by (eapply field_optional; [exact M|cbn; tauto|eauto with says|exact H]);
      rewrite E; clear E; cbn [bind]
  end.
Ltac read_says reader :=
  let t := fresh "t" in let a := fresh "a" in let H := fresh in let d := fresh "d" in let M := fresh "M" in
  intros t a; unfold reader; split;
  [ intros H; apply bind_ok in H; destruct H as (d & M & H); apply as_record_mapping in M;
    repeat (let x := fresh "x" in let E := fresh "E" in apply bind_ok in H; destruct H as (x & E & H)); try injection H as <-;
    exists d; split; [exact M|]; repeat match goal with |- _ /\ _ => split end; cbn; says_one M
  | intros (d & M & H); repeat match type of H with _ /\ _ => let H' := fresh in destruct H as [H' H] end;
    rewrite (proj2 (as_record_mapping _ _ _) M); cbn [bind]; repeat read_one M; try (destruct a; reflexivity) ].
Lemma read_parameter_says : reflects read_parameter parameter_says.
Proof. read_says read_parameter. Qed.
Lemma read_variable_says show : reflects (read_variable show) (variable_says show).
Proof. read_says read_variable. Qed.
Lemma read_constraint_says : reflects read_constraint constraint_says.
Proof. read_says read_constraint. Qed.
Lemma read_field_says : reflects read_field field_says.
Proof. read_says read_field. Qed.
Lemma read_model_port_says : reflects read_model_port model_port_says.
Proof. read_says read_model_port. Qed.
Lemma read_definition_says : reflects read_definition definition_says.
Proof. read_says read_definition. Qed.
#[global] Hint Resolve read_parameter_says read_variable_says read_constraint_says read_field_says read_model_port_says read_definition_says : says.
Lemma read_port_type_says : reflects read_port_type port_type_says.
Proof. read_says read_port_type. Qed.
Lemma read_model_says show : reflects (read_model show) (model_says show).
Proof. read_says read_model. Qed.
#[global] Hint Resolve read_port_type_says read_model_says : says.
Lemma read_library_says show : reflects (read_library show) (library_says show).
Proof. read_says read_library. Qed.
Lemma read_connection_says : reflects read_connection connection_says.
Proof. read_says read_connection. Qed.
Lemma read_component_parameter_says : reflects read_component_parameter component_parameter_says.
Proof. read_says read_component_parameter. Qed.
#[global] Hint Resolve read_component_parameter_says read_connection_says : says.
Lemma read_component_says : reflects read_component component_says.
Proof. read_says read_component. Qed.
#[global] Hint Resolve read_component_says : says.
Lemma read_system_says : reflects read_system system_says.
Proof. read_says read_system. Qed.

(** ** Files *)
Lemma top_ok key t t' : top key t = Ok t' <-> exists d, t = TDict d /\ dget String.eqb key d = Some t'.
Proof.
  split.
  - destruct t as [| | | | | |d]; try discriminate. cbn. destruct (dget String.eqb key d) eqn:E; [|discriminate]. intros H. injection H as ->. eauto.
  - intros (d & -> & H). cbn. now rewrite H.
Qed.
Theorem library_file_exact show : reflects (parse_yaml_library show) (library_file show).
Proof.
  intros t l. unfold parse_yaml_library, library_file. rewrite bind_ok. split.
  - intros (t' & H & E). apply top_ok in H. destruct H as (d & H & G). apply read_library_says in E. exists d, t'. auto.
  - intros (d & t' & H & G & E). exists t'. split; [apply top_ok; eauto|]. now apply read_library_says.
Qed.
Theorem system_file_exact : reflects parse_yaml_components system_file.
Proof.
  intros t i. unfold parse_yaml_components, system_file. rewrite bind_ok. split.
  - intros (t' & H & E). apply top_ok in H. destruct H as (d & H & G). apply read_system_says in E. exists d, t'. auto.
  - intros (d & t' & H & G & E). exists t'. split; [apply top_ok; eauto|]. now apply read_system_says.
Qed.

(** ** Refusals *)
Definition value_errors {A} (f : tree -> result A) : Prop := forall t e, f t = Err e -> e = ValueError.
Lemma text_errors : value_errors as_text.
Proof. intros [] e H; cbn in H; congruence. Qed.
Lemma text_or_number_errors show : value_errors (as_text_or_number show).
Proof. intros [] e H; cbn in H; congruence. Qed.
Lemma bool_errors : value_errors as_bool.
Proof.
  intros [| |z|[q| | |]|s| |] e H; cbn [as_bool] in H; try congruence.
  - destruct (Z.eqb z 0); [discriminate|]. destruct (Z.eqb z 1); congruence.
  - destruct (Qceqb q 0); [discriminate|]. destruct (Qceqb q 1); congruence.
  - destruct (existsb _ _); [discriminate|]. destruct (existsb _ _); congruence.
Qed.
Lemma value_value_errors : value_errors as_value.
Proof. intros [] e H; cbn in H; congruence. Qed.
Lemma optional_errors {A} (f : tree -> result A) : value_errors f -> value_errors (as_optional f).
Proof. intros F t e H. unfold as_optional in H. destruct t; try discriminate; (destruct (f _) eqn:E; cbn in H; [discriminate|]; apply (F _ _ E) || (injection H as <-; exact (F _ _ E))). Qed.
Lemma list_errors {A} (f : tree -> result A) : value_errors f -> value_errors (as_list f).
Proof.
  intros F t e H. unfold as_list in H. destruct t as [| | | | |l|]; try congruence.
  apply mapM_err in H. destruct H as (a & _ & H). exact (F _ _ H).
Qed.
Lemma field_errors {A} d name (f : tree -> result A) x e : value_errors f -> field d name f x = Err e -> e = ValueError.
Proof. intros F. unfold field. destruct (entry d name) as [[k v]|]; [apply F|]. destruct x; congruence. Qed.
Lemma record_errors names : value_errors (as_record names).
Proof. intros t e H. unfold as_record in H. destruct t as [| | | | | |d]; try congruence. destruct (forallb _ _); congruence. Qed.
Lemma bind_errors {A B} (x : result A) (f : A -> result B) e :
  (forall e, x = Err e -> e = ValueError) -> (forall a, f a = Err e -> e = ValueError) -> (y <- x ;; f y) = Err e -> e = ValueError.
Proof. intros F G. destruct x as [a|e']; cbn; [apply G|]. intros H. injection H as <-. now apply F. Qed.
#[global] Hint Resolve text_errors text_or_number_errors bool_errors value_value_errors optional_errors list_errors record_errors : errors.
Ltac read_errors reader :=
  let t := fresh "t" in let e := fresh "e" in intros t e; unfold reader;
  apply bind_errors; [intros ?; apply record_errors|]; intros ?d;
  repeat (apply bind_errors; [intros ?; apply field_errors; eauto with errors|]; intros ?);
  first [discriminate | apply field_errors; eauto with errors].
Lemma parameter_errors : value_errors read_parameter. Proof. read_errors read_parameter. Qed.
Lemma variable_errors show : value_errors (read_variable show). Proof. read_errors read_variable. Qed.
Lemma constraint_errors : value_errors read_constraint. Proof. read_errors read_constraint. Qed.
Lemma field_name_errors : value_errors read_field. Proof. read_errors read_field. Qed.
Lemma model_port_errors : value_errors read_model_port. Proof. read_errors read_model_port. Qed.
Lemma definition_errors : value_errors read_definition. Proof. read_errors read_definition. Qed.
#[global] Hint Resolve parameter_errors variable_errors constraint_errors field_name_errors model_port_errors definition_errors : errors.
Lemma port_type_errors : value_errors read_port_type. Proof. read_errors read_port_type. Qed.
Lemma model_errors show : value_errors (read_model show). Proof. read_errors read_model. Qed.
#[global] Hint Resolve port_type_errors model_errors : errors.
Lemma library_errors show : value_errors (read_library show). Proof. read_errors read_library. Qed.
Lemma connection_errors : value_errors read_connection. Proof. read_errors read_connection. Qed.
Lemma component_parameter_errors : value_errors read_component_parameter. Proof. read_errors read_component_parameter. Qed.
#[global] Hint Resolve connection_errors component_parameter_errors : errors.
Lemma component_errors : value_errors read_component. Proof. read_errors read_component. Qed.
#[global] Hint Resolve component_errors : errors.
Lemma system_errors : value_errors read_system. Proof. read_errors read_system. Qed.
Lemma top_errors key t e : top key t = Err e ->
  (e = TypeError /\ forall d, t <> TDict d) \/ (e = KeyError /\ exists d, t = TDict d /\ ~ In key (keys d)).
Proof.
  destruct t as [| | | | | |d]; cbn; try (intros H; injection H as <-; left; split; [reflexivity|discriminate]).
  destruct (dget String.eqb key d) eqn:E; [discriminate|]. intros H. injection H as <-. right. split; [reflexivity|]. exists d.
  split; [reflexivity|]. now apply dget_not_in.
Qed.
Lemma file_errors {A} key (f : tree -> result A) t e : value_errors f -> (t' <- top key t ;; f t') = Err e ->
  (e = TypeError /\ forall d, t <> TDict d) \/ (e = KeyError /\ exists d, t = TDict d /\ ~ In key (keys d)) \/
  (e = ValueError /\ exists d, t = TDict d /\ In key (keys d)).
Proof.
  intros F H. destruct (top key t) as [t'|e'] eqn:E; cbn in H.
  - right. right. split; [exact (F _ _ H)|]. apply top_ok in E. destruct E as (d & -> & E). exists d. split; [reflexivity|]. apply dget_in. eauto.
  - injection H as ->. destruct (top_errors _ _ _ E) as [H|H]; auto.
Qed.

(** ** The order of keys *)
Definition respects {A} (f : tree -> result A) : Prop := forall t t', same_tree t t' -> f t = f t'.
Definition same_option (a b : option tree) : Prop :=
  match a, b with Some a, Some b => same_tree a b | None, None => True | _, _ => False end.
Definition same_dict (d d' : dict string tree) : Prop := forall k, same_option (dget String.eqb k d) (dget String.eqb k d').
Lemma dget_perm (d d1 : dict string tree) k : NoDup (keys d) -> Permutation d d1 -> dget String.eqb k d = dget String.eqb k d1.
Proof.
  intros N P. revert N. unfold keys. induction P as [|[a v] d d1 P IH|[a v] [b w] d|d1 d2 d3 P1 IH1 P2 IH2]; cbn; intros N.
  - reflexivity.
  - inversion N; subst. destruct (String.eqb k a); [reflexivity|auto].
  - inversion N as [|? ? N1 N2]; subst. destruct (String.eqb_spec k a) as [Ea|], (String.eqb_spec k b) as [Eb|]; try reflexivity.
    destruct N1. left. congruence.
  - rewrite IH1 by exact N. apply IH2. eapply Permutation_NoDup; [|exact N]. now apply Permutation_map.
Qed.
Lemma same_dict_intro d d1 d' : NoDup (keys d) -> Permutation d d1 ->
  Forall2 (fun a b => fst a = fst b /\ same_tree (snd a) (snd b)) d1 d' -> same_dict d d'.
Proof.
  intros N P F k. rewrite (dget_perm d d1 k N P). clear d N P. induction F as [|[a v] [b w] d1 d' [E H] F IH]; cbn; [exact I|].
  cbn in E, H. subst b. destruct (String.eqb k a); [exact H|exact IH].
Qed.
Lemma same_dict_refl d : same_dict d d.
Proof. intros k. unfold same_option. destruct (dget String.eqb k d); [apply st_same|exact I]. Qed.
Lemma same_entry d d' name : same_dict d d' ->
  match entry d name, entry d' name with Some (k, a), Some (k', b) => k = k' /\ same_tree a b | None, None => True | _, _ => False end.
Proof.
  intros S. unfold entry. pose proof (S (kebab name)) as A. pose proof (S name) as B. unfold same_option in A, B.
  destruct (dget String.eqb (kebab name) d), (dget String.eqb (kebab name) d'); try contradiction; [auto|].
  destruct (dget String.eqb name d), (dget String.eqb name d'); try contradiction; auto.
Qed.
Lemma same_keys d d' k : same_dict d d' -> In k (keys d) -> In k (keys d').
Proof.
  intros S H. apply dget_in in H. destruct H as [t H]. specialize (S k). rewrite H in S. cbn in S.
  apply dget_in. destruct (dget String.eqb k d'); [eauto|contradiction].
Qed.
Lemma same_dict_keys d d' k : same_dict d d' -> (In k (keys d) <-> In k (keys d')).
Proof.
  intros S. split; [now apply same_keys|]. intros H. apply dget_in in H. destruct H as [t H]. specialize (S k). rewrite H in S.
  apply dget_in. destruct (dget String.eqb k d); [eauto|contradiction].
Qed.
Lemma same_used d d' names k : same_dict d d' -> used d names k = used d' names k.
Proof.
  intros S. unfold used. induction names as [|n names IH]; cbn; [reflexivity|]. rewrite IH. f_equal.
  pose proof (same_entry d d' n S) as E. destruct (entry d n) as [[a v]|], (entry d' n) as [[b w]|]; try contradiction; [|reflexivity].
  now destruct E as [-> _].
Qed.
Lemma record_respects {A} names (k : dict string tree -> result A) :
  (forall d d', same_dict d d' -> k d = k d') -> respects (fun t => d <- as_record names t ;; k d).
Proof.
  intros K t t' S. destruct S as [t|l l' F|d d1 d' N P F]; [reflexivity|reflexivity|].
  assert (D := same_dict_intro d d1 d' N P F). cbn.
  assert (E : forallb (used d names) (map fst d) = forallb (used d' names) (map fst d')).
  { apply eq_true_iff_eq. rewrite !forallb_forall. split; intros H k' Hk.
    - rewrite <- (same_used d d' names k' D). apply H. now apply (same_dict_keys d d' k' D).
    - rewrite (same_used d d' names k' D). apply H. now apply (same_dict_keys d d' k' D). }
  rewrite E. destruct (forallb (used d' names) (map fst d')); cbn; [now apply K|reflexivity].
Qed.
Lemma field_same {A} d d' name (f : tree -> result A) x : same_dict d d' -> respects f -> field d name f x = field d' name f x.
Proof.
  intros S F. unfold field. pose proof (same_entry d d' name S) as E.
  destruct (entry d name) as [[a v]|], (entry d' name) as [[b w]|]; try contradiction; [|reflexivity]. destruct E as [_ E]. now apply F.
Qed.
Lemma text_respects : respects as_text.
Proof. intros t t' []; reflexivity. Qed.
Lemma text_or_number_respects show : respects (as_text_or_number show).
Proof. intros t t' []; reflexivity. Qed.
Lemma bool_respects : respects as_bool.
Proof. intros t t' []; reflexivity. Qed.
Lemma value_respects : respects as_value.
Proof. intros t t' []; reflexivity. Qed.
Lemma optional_respects {A} (f : tree -> result A) : respects f -> respects (as_optional f).
Proof. intros F t t' S. pose proof (F t t' S) as E. unfold as_optional. destruct S; [reflexivity| |]; now rewrite E. Qed.
Lemma list_respects {A} (f : tree -> result A) : respects f -> respects (as_list f).
Proof.
  intros F t t' S. destruct S as [t|l l' H|]; [reflexivity| |reflexivity]. cbn.
  induction H as [|a b l l' E H IH]; cbn; [reflexivity|]. now rewrite (F a b E), IH.
Qed.
#[global] Hint Resolve text_respects text_or_number_respects bool_respects value_respects optional_respects list_respects : same.
Ltac read_respects reader :=
  unfold reader; apply record_respects; intros ?d ?d' ?S;
  repeat match goal with S : same_dict ?d ?d' |- context [field ?d ?n ?f ?x] =>
    rewrite (field_same d d' n f x S ltac:(eauto with same)) end; reflexivity.
Lemma parameter_respects : respects read_parameter. Proof. read_respects read_parameter. Qed.
Lemma variable_respects show : respects (read_variable show). Proof. read_respects read_variable. Qed.
Lemma constraint_respects : respects read_constraint. Proof. read_respects read_constraint. Qed.
Lemma field_name_respects : respects read_field. Proof. read_respects read_field. Qed.
Lemma model_port_respects : respects read_model_port. Proof. read_respects read_model_port. Qed.
Lemma definition_respects : respects read_definition. Proof. read_respects read_definition. Qed.
#[global] Hint Resolve parameter_respects variable_respects constraint_respects field_name_respects model_port_respects definition_respects : same.
Lemma port_type_respects : respects read_port_type. Proof. read_respects read_port_type. Qed.
Lemma model_respects show : respects (read_model show). Proof. read_respects read_model. Qed.
#[global] Hint Resolve port_type_respects model_respects : same.
Lemma library_respects show : respects (read_library show). Proof. read_respects read_library. Qed.
Lemma connection_respects : respects read_connection. Proof. read_respects read_connection. Qed.
Lemma component_parameter_respects : respects read_component_parameter. Proof. read_respects read_component_parameter. Qed.
#[global] Hint Resolve connection_respects component_parameter_respects : same.
Lemma component_respects : respects read_component. Proof. read_respects read_component. Qed.
#[global] Hint Resolve component_respects : same.
Lemma system_respects : respects read_system. Proof. read_respects read_system. Qed.
Lemma top_respects {A} key (f : tree -> result A) : respects f -> respects (fun t => t' <- top key t ;; f t').
Proof.
  intros F t t' S. destruct S as [t|l l' H|d d1 d' N P H]; [reflexivity|reflexivity|]. cbn.
  pose proof (same_dict_intro d d1 d' N P H key) as E. unfold same_option in E.
  destruct (dget String.eqb key d), (dget String.eqb key d'); try contradiction; cbn; auto.
Qed.

(** ** What was written is read *)
Lemma mapM_map {A} {B} (f : tree -> result B) (g : A -> tree) (h : A -> B) l : (forall a, f (g a) = Ok (h a)) -> mapM f (map g l) = Ok (map h l).
Proof. intros F. induction l as [|a l IH]; cbn; [reflexivity|]. rewrite F. cbn. now rewrite IH. Qed.
Lemma connection_back k : read_connection (dump_connection k) = Ok k.
Proof. destruct k. reflexivity. Qed.
Lemma parameter_back a : read_component_parameter (dump_parameter a) = Ok (new_parameter a).
Proof. destruct a as [id [t|] [s|] [v|x] [[g|]|]]; reflexivity. Qed.
Lemma component_back a : read_component (dump_component a) = Ok (new_component a).
Proof.
  destruct a as [id m [[g|]|] [[l|]|]]; try reflexivity;
    unfold read_component; cbn - [mapM read_component_parameter dump_parameter];
    rewrite (mapM_map _ _ new_parameter l parameter_back); reflexivity.
Qed.
Lemma system_back a : parse_yaml_components (transform_to_yaml a) = Ok (new_system a).
Proof.
  assert (K : forall l, mapM read_connection (map dump_connection l) = Ok l)
    by (intros l; rewrite (mapM_map _ _ (fun k => k) l connection_back); now rewrite map_id).
  assert (C : forall l, mapM read_component (map dump_component l) = Ok (map new_component l))
    by (intros l; exact (mapM_map _ _ _ l component_back)).
  unfold parse_yaml_components, transform_to_yaml, top, read_system.
  destruct a as [[[g|]|] [n|] [c|] [k|]]; cbn - [mapM read_component dump_component read_connection dump_connection];
    rewrite ?K, ?C; cbn - [mapM read_component dump_component read_connection dump_connection]; rewrite ?K, ?C;
    cbn - [mapM read_component dump_component read_connection dump_connection]; rewrite ?K, ?C; reflexivity.
Qed.
Lemma converter_no_groups i : no_groups i -> new_system (converter_args i) = i.
Proof.
  intros N.
  assert (C : forall c, In c (is_nodes i ++ is_components i) -> new_component (converter_component c) = c).
  { intros c Hc. destruct (N c Hc) as [G P]. destruct c as [id m g [l|]]; cbn in *; subst g; unfold new_component; cbn; [|reflexivity].
    f_equal. f_equal. rewrite map_map. rewrite <- (map_id l) at 2. apply map_ext_in. intros p Hp. specialize (P l p eq_refl Hp).
    destruct p; cbn in *. now rewrite P. }
  destruct i as [n c k]. unfold new_system, converter_args. cbn in *. f_equal; rewrite map_map.
  - rewrite <- (map_id n) at 2. apply map_ext_in. intros a Ha. apply C, in_or_app. now left.
  - rewrite <- (map_id c) at 2. apply map_ext_in. intros a Ha. apply C, in_or_app. now right.
Qed.

(** ** Every library and every system can be written *)
Definition text_tree (o : option string) : tree := match o with Some s => TText s | None => TNull end.
Definition parameter_tree (p : in_parameter) : tree := TDict [
  ("id", TText (yp_id p)); ("time-dependent", TBool (yp_time p)); ("scenario-dependent", TBool (yp_scenario p))].
Definition variable_tree (v : in_variable) : tree := TDict [
  ("id", TText (yv_id v)); ("time-dependent", TBool (yv_time v)); ("scenario-dependent", TBool (yv_scenario v));
  ("lower-bound", text_tree (yv_lower v)); ("upper-bound", text_tree (yv_upper v)); ("variable-type", TText (yv_type v))].
Definition constraint_tree (c : in_constraint) : tree := TDict [
  ("id", TText (yc_id c)); ("expression", TText (yc_expression c)); ("lower-bound", text_tree (yc_lower c)); ("upper-bound", text_tree (yc_upper c))].
Definition port_type_tree (p : in_port_type) : tree := TDict [
  ("id", TText (yt_id p)); ("fields", TList (map (fun f => TDict [("id", TText f)]) (yt_fields p)))].
Definition port_tree (p : in_model_port) : tree := TDict [("id", TText (yo_id p)); ("type", TText (yo_type p))].
Definition definition_tree (d : in_definition) : tree := TDict [
  ("port", TText (yd_port d)); ("field", TText (yd_field d)); ("definition", TText (yd_definition d))].
Definition model_tree (m : in_model) : tree := TDict [
  ("id", TText (ym_id m)); ("parameters", TList (map parameter_tree (ym_parameters m))); ("variables", TList (map variable_tree (ym_variables m)));
  ("ports", TList (map port_tree (ym_ports m))); ("port-field-definitions", TList (map definition_tree (ym_definitions m)));
  ("binding-constraints", TList (map constraint_tree (ym_binding_constraints m)));
  ("constraints", TList (map constraint_tree (ym_constraints m))); ("objective", text_tree (ym_objective m))].
Definition library_tree (l : in_library) : tree := TDict [("library", TDict [
  ("id", TText (yl_id l)); ("dependencies", TList (map TText (yl_dependencies l)));
  ("port-types", TList (map port_type_tree (yl_port_types l))); ("models", TList (map model_tree (yl_models l)))])].
Lemma mapM_back {A} (f : tree -> result A) (g : A -> tree) l : (forall a, f (g a) = Ok a) -> mapM f (map g l) = Ok l.
Proof. intros F. rewrite (mapM_map f g (fun a => a) l F). now rewrite map_id. Qed.
Lemma parameter_written p : read_parameter (parameter_tree p) = Ok p.
Proof. destruct p. reflexivity. Qed.
Lemma variable_written show v : read_variable show (variable_tree v) = Ok v.
Proof. destruct v as [i t s [l|] [u|] ty]; reflexivity. Qed.
Lemma constraint_written c : read_constraint (constraint_tree c) = Ok c.
Proof. destruct c as [i e [l|] [u|]]; reflexivity. Qed.
Lemma port_written p : read_model_port (port_tree p) = Ok p.
Proof. destruct p. reflexivity. Qed.
Lemma definition_written p : read_definition (definition_tree p) = Ok p.
Proof. destruct p. reflexivity. Qed.
Lemma port_type_written p : read_port_type (port_type_tree p) = Ok p.
Proof.
  destruct p as [i f]. unfold read_port_type. cbn - [mapM read_field].
  rewrite (mapM_back read_field _ f); [reflexivity|]. reflexivity.
Qed.
Lemma model_written show m : read_model show (model_tree m) = Ok m.
Proof.
  destruct m as [i ps vs pts ds bs cs [o|]]; unfold read_model, model_tree;
    cbn - [mapM read_parameter read_variable read_model_port read_definition read_constraint];
    rewrite (mapM_back _ _ ps parameter_written), (mapM_back _ _ vs (variable_written show)), (mapM_back _ _ pts port_written),
      (mapM_back _ _ ds definition_written), (mapM_back _ _ bs constraint_written), (mapM_back _ _ cs constraint_written); reflexivity.
Qed.
Lemma library_written show l : parse_yaml_library show (library_tree l) = Ok l.
Proof.
  destruct l as [i ds ps ms]. unfold parse_yaml_library, library_tree, top, read_library. cbn - [mapM read_port_type read_model].
  rewrite (mapM_back as_text TText ds) by reflexivity. cbn [bind].
  rewrite (mapM_back _ _ ps port_type_written). cbn [bind]. rewrite (mapM_back _ _ ms (model_written show)). reflexivity.
Qed.
