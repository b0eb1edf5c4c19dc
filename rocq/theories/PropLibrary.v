(** C32, C33, C48, C49: libraries of models from their files. *)
From Coq Require Import Ascii Lia Relations Permutation.
From Verif Require Import Base BaseFacts Expr SpecExpr SpecParse Parse LexFacts ParseMeaning Visitors
  Model SpecModel System Library SpecLibrary LibraryFacts.
Local Open Scope string_scope.
Local Open Scope list_scope.

(** ** Example: three libraries and a preloaded one *)
Definition ex_port (n : string) (fs : list string) : in_port_type := {| yt_id := n; yt_fields := fs |}.
Definition ex_lib n deps types models : in_library :=
  {| yl_id := n; yl_dependencies := deps; yl_port_types := types; yl_models := models |}.
Definition ex_link : in_model := {|
  ym_id := "link";
  ym_parameters := [{| yp_id := "cap"; yp_time := true; yp_scenario := false |}];
  ym_variables := [{| yv_id := "p"; yv_time := true; yv_scenario := true; yv_lower := Some "-cap";
                      yv_upper := Some "cap"; yv_type := "continuous" |};
                   {| yv_id := "n"; yv_time := false; yv_scenario := false; yv_lower := Some "0";
                      yv_upper := None; yv_type := "integer" |}];
  ym_ports := [{| yo_id := "in"; yo_type := "flow" |}; {| yo_id := "out"; yo_type := "heat" |}];
  ym_definitions := [{| yd_port := "in"; yd_field := "value"; yd_definition := "-p" |};
                     {| yd_port := "out"; yd_field := "warm"; yd_definition := "p/2" |}];
  ym_binding_constraints := [{| yc_id := "balance"; yc_expression := "p = sum_connections(in.value)";
                                yc_lower := None; yc_upper := Some "" |}];
  ym_constraints := [{| yc_id := "ramp"; yc_expression := "p[t+1]-p"; yc_lower := Some "-5"; yc_upper := Some "2*cap" |}];
  ym_objective := Some "expec(sum(3*p))" |}.
Definition ex_base := ex_lib "base" [] [ex_port "flow" ["value"]] [].
Definition ex_mid := ex_lib "mid" ["base"] [] [].
Definition ex_top := ex_lib "top" ["mid"; "base"; "mid"] [] [ex_link].
Definition ex_inputs := [ex_base; ex_top; ex_mid].
Definition ex_preloaded : list library :=
  [{| l_id := "core"; l_port_types := [("heat", {| pt_id := "heat"; pt_fields := ["warm"] |})]; l_models := [] |}].
Definition forward (treated stack s : list string) : list string := s.
Definition backward (treated stack s : list string) : list string := rev s.

Lemma forward_any : any_order forward. Proof. intros t st s. reflexivity. Qed.
Lemma backward_any : any_order backward. Proof. intros t st s. symmetry. apply Permutation_rev. Qed.
Lemma ex_ids_distinct : NoDup (map yl_id ex_inputs).
Proof. repeat constructor; cbn; intuition discriminate. Qed.
Example ex_loads : exists out, resolve_library forward ex_inputs ex_preloaded = Ok out /\ map fst out = ["core"; "base"; "mid"; "top"].
Proof. eexists. split; vm_compute; reflexivity. Qed.

(** C32.  Loading always ends: with a result or an exception. *)
Theorem C32_terminates : forall order inputs preloaded, any_order order ->
  resolve_library order inputs preloaded <> Err OutOfFuel.
Proof. exact resolve_terminates. Qed.
Print Assumptions C32_terminates.
(** also for libraries depending on each other *)
Example C32_terminates_example :
  resolve_library backward [ex_lib "a" ["b"; "a"] [] []; ex_lib "b" ["c"; "a"] [] []; ex_lib "c" ["b"] [] []] []
  = Err GenericException.
Proof. vm_compute. reflexivity. Qed.

(** Exactly one library per file, besides the preloaded ones, under its id and with the models of its file. *)
Theorem C32_one_library_per_input : forall order inputs preloaded out, any_order order ->
  NoDup (map yl_id inputs) -> resolve_library order inputs preloaded = Ok out ->
  (NoDup (map fst out) /\
   forall k, In k (map fst out) <-> In k (map yl_id inputs) \/ In k (map l_id preloaded)) /\
  (forall k, ~ In k (map yl_id inputs) -> dget String.eqb k out = dget String.eqb k (dict_of String.eqb l_id preloaded)) /\
  (forall y, In y inputs -> exists l, dget String.eqb (yl_id y) out = Some l /\ l_id l = yl_id y /\
     map fst (l_models l) = map ym_id (yl_models y)).
Proof. exact one_library_per_input. Qed.
Print Assumptions C32_one_library_per_input.

(** Dependencies come first: there is a sequence of all libraries in which each comes after those it
    depends on, and a library has the port types of its dependencies. *)
Theorem C32_dependencies_first : forall order inputs preloaded out, any_order order ->
  NoDup (map yl_id inputs) -> resolve_library order inputs preloaded = Ok out ->
  (exists sequence, Permutation sequence (map yl_id inputs) /\
     forall before x after, sequence = before ++ x :: after -> forall d, depends inputs x d -> In d before) /\
  (forall x d, depends inputs x d -> exists lx ld, dget String.eqb x out = Some lx /\ dget String.eqb d out = Some ld /\
     incl (map fst (l_port_types ld)) (map fst (l_port_types lx))).
Proof. exact dependencies_first. Qed.
Print Assumptions C32_dependencies_first.
Example C32_success_example : any_order forward /\ NoDup (map yl_id ex_inputs) /\
  (exists out, resolve_library forward ex_inputs ex_preloaded = Ok out) /\
  depends ex_inputs "top" "mid" /\ depends ex_inputs "mid" "base".
Proof.
  split; [exact forward_any|]. split; [exact ex_ids_distinct|].
  split; [destruct ex_loads as [out [H _]]; eauto|].
  split; [exists ex_top|exists ex_mid]; cbn; auto 10.
Qed.

(** A cycle, of any length and anywhere, is refused. *)
Theorem C32_cycle_refused : forall order inputs preloaded a, any_order order -> NoDup (map yl_id inputs) ->
  reaches inputs a a -> exists k, resolve_library order inputs preloaded = Err k.
Proof. exact cycle_raises. Qed.
Print Assumptions C32_cycle_refused.
Definition ex_cycle := [ex_base; ex_lib "a" ["base"; "b"] [] []; ex_lib "b" ["c"] [] []; ex_lib "c" ["a"] [] []].
Example C32_cycle_example : NoDup (map yl_id ex_cycle) /\ reaches ex_cycle "a" "a" /\ ~ depends ex_cycle "a" "a".
Proof.
  split; [repeat constructor; cbn; intuition discriminate|]. split.
  - apply t_trans with "b"; [|apply t_trans with "c"]; apply t_step.
    + exists (ex_lib "a" ["base"; "b"] [] []). cbn. auto 10.
    + exists (ex_lib "b" ["c"] [] []). cbn. auto 10.
    + exists (ex_lib "c" ["a"] [] []). cbn. auto 10.
  - intros [l [H [E D]]]. cbn in H. destruct H as [<-|[<-|[<-|[<-|[]]]]]; cbn in E, D; try discriminate; intuition discriminate.
Qed.

(** So is a dependency that no file provides. *)
Theorem C32_missing_refused : forall order inputs preloaded a b, any_order order -> NoDup (map yl_id inputs) ->
  depends inputs a b -> ~ In b (map yl_id inputs) -> exists k, resolve_library order inputs preloaded = Err k.
Proof. exact missing_raises. Qed.
Print Assumptions C32_missing_refused.
Example C32_missing_example : let inputs := [ex_mid; ex_top] in
  NoDup (map yl_id inputs) /\ depends inputs "mid" "base" /\ ~ In "base" (map yl_id inputs).
Proof.
  cbv zeta. split; [repeat constructor; cbn; intuition discriminate|].
  split; [exists ex_mid; cbn; auto 10|cbn; intuition discriminate].
Qed.

(** Nothing else goes wrong with dependencies: whatever the order of the files and of the sets, a
    failure is a missing library (KeyError), a cycle (Exception), or the contents of one library. *)
Theorem C32_failures : forall order inputs preloaded k, any_order order -> NoDup (map yl_id inputs) ->
  resolve_library order inputs preloaded = Err k ->
  (k = KeyError /\ ~ complete inputs) \/ (k = GenericException /\ ~ acyclic inputs) \/
  exists y pts, In y inputs /\ resolve_lib pts y = Err k /\
    (forall k t, In (k, t) pts -> collected inputs preloaded y k t) /\
    (forall k t, collected inputs preloaded y k t -> In k (map fst pts)).
Proof. exact failures. Qed.
Print Assumptions C32_failures.
(** Acyclic and complete libraries load, when their contents are right: port types are declared
    once, models have distinct ids and refer to what they can use. *)
Theorem C32_acyclic_loads : forall order inputs preloaded, any_order order -> NoDup (map yl_id inputs) ->
  acyclic inputs -> complete inputs ->
  (forall y, In y inputs -> forall t k t', In t (yl_port_types y) -> k = yt_id t -> ~ collected inputs preloaded y k t') ->
  (forall y, In y inputs -> NoDup (map ym_id (yl_models y))) ->
  (forall y m pts, In y inputs -> In m (yl_models y) ->
     (forall k t, dget String.eqb k pts = Some t -> usable inputs preloaded (yl_id y) k t) ->
     (forall k t, usable inputs preloaded (yl_id y) k t -> exists t', dget String.eqb k pts = Some t') ->
     exists M, resolve_model pts m = Ok M) ->
  exists out, resolve_library order inputs preloaded = Ok out.
Proof. exact good_libraries_load. Qed.
Print Assumptions C32_acyclic_loads.

Lemma ex_depends a b : depends ex_inputs a b -> (a = "mid" /\ b = "base") \/ (a = "top" /\ (b = "mid" \/ b = "base")).
Proof.
  intros [l [H [E D]]]. cbn in H. destruct H as [<-|[<-|[<-|[]]]]; cbn in E, D; subst; intuition.
Qed.
Lemma ex_usable a k t : usable ex_inputs ex_preloaded a k t ->
  (k, t) = ("heat", {| pt_id := "heat"; pt_fields := ["warm"] |}) \/ (k, t) = ("flow", {| pt_id := "flow"; pt_fields := ["value"] |}).
Proof.
  induction 1 as [a p k t Hp Hk|a l t Hl E Ht|a b k t D _ IH]; [| |exact IH].
  - destruct Hp as [<-|[]]. destruct Hk as [Hk|[]]. left. congruence.
  - cbn in Hl. destruct Hl as [<-|[<-|[<-|[]]]]; cbn in Ht; try contradiction. destruct Ht as [<-|[]]. right. reflexivity.
Qed.
Lemma ex_acyclic : acyclic ex_inputs.
Proof.
  assert (R : forall a b, reaches ex_inputs a b -> (a = "mid" /\ b = "base") \/ (a = "top" /\ (b = "mid" \/ b = "base"))).
  { induction 1 as [a b D|a b c _ IH1 _ IH2]; [now apply ex_depends|]. intuition (subst; try discriminate; auto). }
  intros a C. apply R in C. intuition (subst; discriminate).
Qed.
Example C32_acyclic_example : NoDup (map yl_id ex_inputs) /\ acyclic ex_inputs /\ complete ex_inputs /\
  (forall y, In y ex_inputs -> forall t k t', In t (yl_port_types y) -> k = yt_id t -> ~ collected ex_inputs ex_preloaded y k t') /\
  (forall y, In y ex_inputs -> NoDup (map ym_id (yl_models y))) /\
  (forall y m pts, In y ex_inputs -> In m (yl_models y) ->
     (forall k t, dget String.eqb k pts = Some t -> usable ex_inputs ex_preloaded (yl_id y) k t) ->
     (forall k t, usable ex_inputs ex_preloaded (yl_id y) k t -> exists t', dget String.eqb k pts = Some t') ->
     exists M, resolve_model pts m = Ok M).
Proof.
  split; [exact ex_ids_distinct|]. split; [exact ex_acyclic|]. split.
  { intros a b D. apply ex_depends in D. cbn. intuition (subst; auto). }
  split.
  { intros y Hy t k t' Ht -> C. cbn in Hy. destruct Hy as [<-|[<-|[<-|[]]]]; cbn in Ht; try contradiction.
    destruct Ht as [<-|[]]. cbn in C. destruct C as [[p [Hp Hk]]|[d [[] _]]].
    destruct Hp as [<-|[]]. destruct Hk as [Hk|[]]. discriminate. }
  split.
  { intros y Hy. cbn in Hy. destruct Hy as [<-|[<-|[<-|[]]]]; repeat constructor; cbn; intuition. }
  intros y m pts Hy Hm F T. cbn in Hy. destruct Hy as [<-|[<-|[<-|[]]]]; cbn in Hm; try contradiction.
  destruct Hm as [<-|[]].
  assert (Fl : dget String.eqb "flow" pts = Some {| pt_id := "flow"; pt_fields := ["value"] |}).
  { destruct (T "flow" {| pt_id := "flow"; pt_fields := ["value"] |}) as [t' E].
    - apply u_dependency with "base"; [exists ex_top; cbn; auto|].
      exact (u_own ex_inputs ex_preloaded "base" ex_base (ex_port "flow" ["value"]) (or_introl eq_refl) eq_refl (or_introl eq_refl)).
    - rewrite E. apply F, ex_usable in E. destruct E as [E|E]; congruence. }
  assert (He : dget String.eqb "heat" pts = Some {| pt_id := "heat"; pt_fields := ["warm"] |}).
  { destruct (T "heat" {| pt_id := "heat"; pt_fields := ["warm"] |}) as [t' E].
    - eapply u_preloaded; [left; reflexivity|left; reflexivity].
    - rewrite E. apply F, ex_usable in E. destruct E as [E|E]; congruence. }
  assert (X : resolve_model pts ex_link =
    resolve_model [("flow", {| pt_id := "flow"; pt_fields := ["value"] |}); ("heat", {| pt_id := "heat"; pt_fields := ["warm"] |})] ex_link).
  { unfold resolve_model. cbn [ex_link ym_ports mapM]. unfold resolve_model_port. cbn [yo_type]. rewrite Fl, He. reflexivity. }
  rewrite X. eexists. vm_compute. reflexivity.
Qed.

(** The order in which python goes through its sets does not matter, when no name of a port type has
    two meanings. *)
Theorem C32_order_irrelevant : forall order order' inputs preloaded out,
  any_order order -> any_order order' -> NoDup (map yl_id inputs) -> no_clash inputs preloaded ->
  resolve_library order inputs preloaded = Ok out ->
  exists out', resolve_library order' inputs preloaded = Ok out' /\
    forall y, In y inputs -> exists l l', dget String.eqb (yl_id y) out = Some l /\ dget String.eqb (yl_id y) out' = Some l' /\
      l_models l = l_models l' /\ same_types (l_port_types l) (l_port_types l').
Proof. exact order_irrelevant. Qed.
Print Assumptions C32_order_irrelevant.
Example C32_order_irrelevant_example : any_order forward /\ any_order backward /\ no_clash ex_inputs ex_preloaded.
Proof.
  split; [exact forward_any|]. split; [exact backward_any|]. intros a k t t' H H'.
  apply ex_usable in H. apply ex_usable in H'. destruct H, H'; congruence.
Qed.

(** It does when two dependencies declare a port type with the same name: nothing is raised and the
    model gets the one that comes last. *)
Theorem C32_order_matters_refuted : exists inputs out out' l l',
  NoDup (map yl_id inputs) /\ acyclic inputs /\
  resolve_library forward inputs [] = Ok out /\ resolve_library backward inputs [] = Ok out' /\
  dget String.eqb "c" out = Some l /\ dget String.eqb "c" out' = Some l' /\ l_models l <> l_models l'.
Proof.
  set (m := {| ym_id := "m"; ym_parameters := []; ym_variables := []; ym_ports := [{| yo_id := "q"; yo_type := "p" |}];
    ym_definitions := []; ym_binding_constraints := []; ym_constraints := []; ym_objective := None |}).
  set (inputs := [ex_lib "a" [] [ex_port "p" ["x"]] []; ex_lib "b" [] [ex_port "p" ["y"]] []; ex_lib "c" ["a"; "b"] [] [m]]).
  exists inputs. do 4 eexists. split; [repeat constructor; cbn; intuition discriminate|].
  assert (D : forall a b, depends inputs a b -> a = "c" /\ b <> "c").
  { intros a b [l [H [E D]]]. cbn in H. destruct H as [<-|[<-|[<-|[]]]]; cbn in E, D; try contradiction.
    split; [congruence|]. intuition (subst; discriminate). }
  split.
  { assert (R : forall a b, reaches inputs a b -> a = "c" /\ b <> "c").
    { induction 1 as [a b H|a b c _ IH1 _ IH2]; [now apply D|]. tauto. }
    intros a C. apply R in C. destruct C. contradiction. }
  split; [vm_compute; reflexivity|]. split; [vm_compute; reflexivity|].
  split; [vm_compute; reflexivity|]. split; [vm_compute; reflexivity|]. discriminate.
Qed.
Print Assumptions C32_order_matters_refuted.

(** A dependency on a preloaded library is not found. *)
Theorem C32_preloaded_dependency_refuted : exists inputs preloaded,
  (forall a b, depends inputs a b -> In b (map yl_id inputs) \/ In b (map l_id preloaded)) /\ acyclic inputs /\
  forall order, any_order order -> resolve_library order inputs preloaded = Err KeyError.
Proof.
  exists [ex_lib "a" ["core"] [] []], ex_preloaded. split.
  { intros a b [l [[<-|[]] [_ [<-|[]]]]]. right. left. reflexivity. }
  split.
  { intros a C. assert (R : forall a b, reaches [ex_lib "a" ["core"] [] []] a b -> a = "a" /\ b = "core").
    { induction 1 as [x b [l [[<-|[]] [<- [<-|[]]]]]|x b c _ [-> ->] _ [E ->]]; [auto|discriminate]. }
    apply R in C. destruct C as [-> C]. discriminate. }
  intros order Ho. unfold resolve_library. cbv zeta. cbn [ex_lib dict_of fold_left yl_id dset map fst List.length].
  pose proof (Ho [] ["a"] []) as P1. apply Permutation_sym, Permutation_nil in P1.
  pose proof (Ho [] ["a"] ["core"]) as P2. apply Permutation_sym, Permutation_length_1_inv in P2.
  cbn. rewrite P1. cbn. rewrite P2. reflexivity.
Qed.
Print Assumptions C32_preloaded_dependency_refuted.

(** Two files with the same id: the first is dropped without a word. *)
Theorem C32_duplicate_id_refuted : exists y1 y2 out l,
  y1 <> y2 /\ resolve_library forward [y1; y2] [] = Ok out /\ map fst out = ["lib"] /\
  dget String.eqb "lib" out = Some l /\ dget String.eqb "flow" (l_port_types l) = None /\
  In (ex_port "flow" ["value"]) (yl_port_types y1).
Proof.
  exists (ex_lib "lib" [] [ex_port "flow" ["value"]] []), (ex_lib "lib" [] [] []). do 2 eexists.
  split; [discriminate|]. split; [vm_compute; reflexivity|]. split; [reflexivity|]. split; [reflexivity|].
  split; [reflexivity|]. left. reflexivity.
Qed.
Print Assumptions C32_duplicate_id_refuted.

(** C33.  The ports of a model are those of its file, each with a type its library can use. *)
Theorem C33_ports_have_known_types : forall order inputs preloaded out y m, any_order order ->
  NoDup (map yl_id inputs) -> resolve_library order inputs preloaded = Ok out ->
  In y inputs -> In m (yl_models y) ->
  exists l M, dget String.eqb (yl_id y) out = Some l /\ dget String.eqb (ym_id m) (l_models l) = Some M /\
    map fst (m_ports M) = map yo_id (ym_ports m) /\
    forall p, In p (ym_ports m) -> exists t,
      dget String.eqb (yo_id p) (m_ports M) = Some {| mp_type := t; mp_name := yo_id p |} /\
      usable inputs preloaded (yl_id y) (yo_type p) t.
Proof. intros order inputs preloaded out y m Ho Hn H. exact (returned_ports inputs preloaded order Ho Hn out H y m). Qed.
Print Assumptions C33_ports_have_known_types.

(** Every text of a model follows the grammar and uses declared variables and parameters only. *)
Theorem C33_names_are_declared : forall order inputs preloaded out y m text, any_order order ->
  NoDup (map yl_id inputs) -> resolve_library order inputs preloaded = Ok out ->
  In y inputs -> In m (yl_models y) -> In text (model_texts m) -> well_written (model_names m) text.
Proof.
  intros order inputs preloaded out y m text Ho Hn H Hy Hm.
  exact (returned_texts inputs preloaded order Ho Hn out H y m Hy Hm text).
Qed.
Print Assumptions C33_names_are_declared.
Example C33_example : In ex_top ex_inputs /\ In ex_link (yl_models ex_top) /\ In "2*cap" (model_texts ex_link) /\
  In {| yo_id := "in"; yo_type := "flow" |} (ym_ports ex_link).
Proof. cbn. auto 20. Qed.

(** Otherwise loading fails: a port of an unknown type ... *)
Theorem C33_unknown_type_refused : forall order inputs preloaded y m p, any_order order -> NoDup (map yl_id inputs) ->
  In y inputs -> In m (yl_models y) -> In p (ym_ports m) ->
  (forall t, ~ usable inputs preloaded (yl_id y) (yo_type p) t) ->
  exists k, resolve_library order inputs preloaded = Err k.
Proof. exact unknown_type_fails. Qed.
Print Assumptions C33_unknown_type_refused.
(** the library [top] without its dependency on [base] *)
Example C33_unknown_type_example : let y := ex_lib "top" [] [] [ex_link] in let inputs := [ex_base; y] in
  NoDup (map yl_id inputs) /\ In y inputs /\ In ex_link (yl_models y) /\
  In {| yo_id := "in"; yo_type := "flow" |} (ym_ports ex_link) /\ forall t, ~ usable inputs ex_preloaded "top" "flow" t.
Proof.
  cbv zeta. split; [repeat constructor; cbn; intuition discriminate|]. do 3 (split; [cbn; auto|]).
  intros t H. inversion H as [p k t' Hp Hk|l t' Hl E Ht|b k t' D U]; subst.
  - destruct Hp as [<-|[]]. destruct Hk as [Hk|[]]. discriminate.
  - destruct Hl as [<-|[<-|[]]]; [discriminate|]. destruct Ht.
  - destruct D as [l [[<-|[<-|[]]] [E D]]]; destruct D.
Qed.
(** ... or a name that is not declared, in any text. *)
Theorem C33_undeclared_name_refused : forall order inputs preloaded y m text e, any_order order -> NoDup (map yl_id inputs) ->
  In y inputs -> In m (yl_models y) -> In text (model_texts m) ->
  spells text (tokens e) -> unambiguous e -> ~ declared (model_names m) e ->
  exists k, resolve_library order inputs preloaded = Err k.
Proof. exact undeclared_fails. Qed.
Print Assumptions C33_undeclared_name_refused.
Definition ex_bad : in_model := {| ym_id := "bad"; ym_parameters := []; ym_variables := []; ym_ports := []; ym_definitions := [];
  ym_binding_constraints := []; ym_constraints := []; ym_objective := Some "2*cost" |}.
Example C33_undeclared_example : let y := ex_lib "l" [] [] [ex_bad] in let e := WMul Times (WNumber "2") (WName "cost") in
  In ex_bad (yl_models y) /\ In "2*cost" (model_texts ex_bad) /\ spells "2*cost" (tokens e) /\ unambiguous e /\
  ~ declared (model_names ex_bad) e.
Proof.
  cbv zeta. split; [left; reflexivity|]. split; [left; reflexivity|].
  split; [apply lex_spells; vm_compute; reflexivity|]. split; [cbn; repeat split; lia|]. cbn. tauto.
Qed.

(** C48.  A model means what its file says, when its entries have distinct ids.  Missing: texts that
    are not [plain] (see C44) and entries with the same id (see the refutation). *)
Theorem C48_model_means_its_file_partial : forall order inputs preloaded out y m, any_order order ->
  NoDup (map yl_id inputs) -> resolve_library order inputs preloaded = Ok out ->
  In y inputs -> In m (yl_models y) ->
  NoDup (map yp_id (ym_parameters m)) -> NoDup (map yv_id (ym_variables m)) ->
  NoDup (map yc_id (ym_constraints m)) -> NoDup (map yc_id (ym_binding_constraints m)) ->
  NoDup (map (fun d => (yd_port d, yd_field d)) (ym_definitions m)) ->
  exists l M, dget String.eqb (yl_id y) out = Some l /\ dget String.eqb (ym_id m) (l_models l) = Some M /\
  (* parameters *)
  (map fst (m_parameters M) = map yp_id (ym_parameters m) /\
   forall p, In p (ym_parameters m) -> dget String.eqb (yp_id p) (m_parameters M) =
     Some {| p_name := yp_id p; p_type := CONTINUOUS; p_structure := {| ix_time := yp_time p; ix_scenario := yp_scenario p |} |}) /\
  (* variables *)
  (map fst (m_variables M) = map yv_id (ym_variables m) /\
   forall v, In v (ym_variables m) -> exists v', dget String.eqb (yv_id v) (m_variables M) = Some v' /\ v_name v' = yv_id v /\
     (yv_type v = "continuous" /\ v_type v' = CONTINUOUS \/ yv_type v = "integer" /\ v_type v' = INTEGER) /\
     v_structure v' = {| ix_time := yv_time v; ix_scenario := yv_scenario v |} /\ v_context v' = OPERATIONAL /\
     means_text (model_names m) (yv_lower v) (v_lower v') /\ means_text (model_names m) (yv_upper v) (v_upper v')) /\
  (* constraints *)
  (forall cs ys, (cs, ys) = (m_constraints M, ym_constraints m) \/ (cs, ys) = (m_binding_constraints M, ym_binding_constraints m) ->
   map fst cs = map yc_id ys /\
   forall c, In c ys -> exists k, dget String.eqb (yc_id c) cs = Some k /\ c_name k = yc_id c /\ c_context k = OPERATIONAL /\
     (forall o l r, reads_as (model_names m) (yc_expression c) (WCmp o l r) -> forall E t s vl vr,
        meaning E (map yv_id (ym_variables m)) l t s = Some vl -> meaning E (map yv_id (ym_variables m)) r t s = Some vr ->
        (constraint_holds E (c_expr k) (c_lower k) (c_upper k) t s <-> cmp_holds o vl vr)) /\
     (forall e, reads_as (model_names m) (yc_expression c) e -> forall E t s v lo hi,
        meaning E (map yv_id (ym_variables m)) e t s = Some v ->
        written_value E (model_names m) t s (yc_lower c) lo -> written_value E (model_names m) t s (yc_upper c) hi ->
        (constraint_holds E (c_expr k) (c_lower k) (c_upper k) t s <-> at_least lo v /\ at_most hi v))) /\
  (* port field definitions *)
  (map fst (m_port_definitions M) = map (fun d => (yd_port d, yd_field d)) (ym_definitions m) /\
   forall d, In d (ym_definitions m) -> exists d', dget pfi_eqb (yd_port d, yd_field d) (m_port_definitions M) = Some d' /\
     forall e, reads_as (model_names m) (yd_definition d) e ->
     forall E t s, den E (d_definition d') t s = meaning E (map yv_id (ym_variables m)) e t s) /\
  (* objective *)
  means_text (model_names m) (ym_objective m) (m_operational M) /\ m_investment M = None.
Proof. exact model_as_written. Qed.
Print Assumptions C48_model_means_its_file_partial.
Example C48_example :
  NoDup (map yp_id (ym_parameters ex_link)) /\ NoDup (map yv_id (ym_variables ex_link)) /\
  NoDup (map yc_id (ym_constraints ex_link)) /\ NoDup (map yc_id (ym_binding_constraints ex_link)) /\
  NoDup (map (fun d => (yd_port d, yd_field d)) (ym_definitions ex_link)) /\
  reads_as (model_names ex_link) "p = sum_connections(in.value)" (WCmp EQUAL (WName "p") (WSumPorts "in" "value")) /\
  reads_as (model_names ex_link) "p[t+1]-p" (WAdd Minus (WAt "p" (WThen WNow Plus (WFactor (WNumber "1")))) (WName "p")) /\
  exists E, written_value E (model_names ex_link) 0 0 (Some "2*cap") (Some (Z2Qc 14)).
Proof.
  do 5 (split; [repeat constructor; cbn; intuition discriminate|]).
  split. { split; [apply lex_spells; vm_compute; reflexivity|]. split; [cbn; repeat split; try discriminate|]. split; [cbn; auto|]. cbn. auto 20. }
  split. { split; [apply lex_spells; vm_compute; reflexivity|]. split; [cbn; repeat split; try discriminate|]. split; [cbn; auto|]. cbn. auto 20. }
  exists {| e_var := fun _ _ _ => 0%Qc; e_par := fun _ _ _ => Some (Z2Qc 7); e_cvar := fun _ _ _ _ => 0%Qc;
            e_cpar := fun _ _ _ _ => None; e_port := fun _ _ => []; e_T := 1; e_S := 1 |}.
  apply wv_text with (WMul Times (WNumber "2") (WName "cap")).
  - split; [apply lex_spells; vm_compute; reflexivity|]. split; [cbn; repeat split; try discriminate|]. split; [cbn; auto|]. cbn. auto 20.
  - qcex.
Qed.

(** Two constraints with the same id in a model: the first is dropped without a word. *)
Theorem C48_duplicate_entries_refuted : exists m M,
  In {| yc_id := "c"; yc_expression := "x >= 5"; yc_lower := None; yc_upper := None |} (ym_constraints m) /\
  resolve_library forward [ex_lib "l" [] [] [m]] [] = Ok [("l", {| l_id := "l"; l_port_types := []; l_models := [(ym_id m, M)] |})] /\
  forall c, In c (get_all_constraints M) -> constraint_holds
    {| e_var := fun _ _ _ => 0%Qc; e_par := fun _ _ _ => None; e_cvar := fun _ _ _ _ => 0%Qc;
       e_cpar := fun _ _ _ _ => None; e_port := fun _ _ => []; e_T := 1; e_S := 1 |} (c_expr c) (c_lower c) (c_upper c) 0 0.
Proof.
  exists {| ym_id := "m"; ym_parameters := [];
    ym_variables := [{| yv_id := "x"; yv_time := true; yv_scenario := true; yv_lower := None; yv_upper := None; yv_type := "continuous" |}];
    ym_ports := []; ym_definitions := []; ym_binding_constraints := [];
    ym_constraints := [{| yc_id := "c"; yc_expression := "x >= 5"; yc_lower := None; yc_upper := None |};
                       {| yc_id := "c"; yc_expression := "x <= 9"; yc_lower := None; yc_upper := None |}];
    ym_objective := None |}. eexists.
  split; [left; reflexivity|]. split; [vm_compute; reflexivity|].
  intros c H. vm_compute in H. destruct H as [<-|[]]. cbn [c_expr c_lower c_upper].
  eexists. split; [vm_compute; reflexivity|]. split; [exact I|]. eexists. split; [vm_compute; reflexivity|].
  apply Qcleb_le. vm_compute. reflexivity.
Qed.
Print Assumptions C48_duplicate_entries_refuted.

(** C49.  Port fields.  The definitions of a model are about fields of its ports.  Missing: the port
    fields used in its expressions (see the refutation). *)
Theorem C49_definitions_on_ports_partial : forall order inputs preloaded out y m, any_order order ->
  NoDup (map yl_id inputs) -> resolve_library order inputs preloaded = Ok out ->
  In y inputs -> In m (yl_models y) ->
  forall d, In d (ym_definitions m) -> exists p t, In p (ym_ports m) /\ yo_id p = yd_port d /\
    usable inputs preloaded (yl_id y) (yo_type p) t /\ In (yd_field d) (pt_fields t).
Proof. exact definitions_on_ports_of_file. Qed.
Print Assumptions C49_definitions_on_ports_partial.
Example C49_example : In ex_link (yl_models ex_top) /\
  In {| yd_port := "out"; yd_field := "warm"; yd_definition := "p/2" |} (ym_definitions ex_link).
Proof. cbn. auto. Qed.

(** A constraint may use a field of a port that does not exist: nothing is raised on loading. *)
Theorem C49_unknown_port_refuted : exists m out,
  ym_ports m = [] /\
  In {| yc_id := "c"; yc_expression := "sum_connections(nowhere.flow) = 0"; yc_lower := None; yc_upper := None |} (ym_constraints m) /\
  resolve_library forward [ex_lib "l" [] [] [m]] [] = Ok out.
Proof.
  exists {| ym_id := "m"; ym_parameters := []; ym_variables := [];
    ym_ports := []; ym_definitions := []; ym_binding_constraints := [];
    ym_constraints := [{| yc_id := "c"; yc_expression := "sum_connections(nowhere.flow) = 0"; yc_lower := None; yc_upper := None |}];
    ym_objective := None |}. eexists.
  split; [reflexivity|]. split; [left; reflexivity|]. vm_compute. reflexivity.
Qed.
Print Assumptions C49_unknown_port_refuted.
