(** The order in which the disk lists the libraries of a study. *)
From Coq Require Import Lia Permutation.
From Verif Require Import Base BaseFacts Expr Visitors LinearExpr Model Study Strategy Optim System Library
  Main SpecExpr SpecModel SpecLibrary SpecSystem SpecLinear SpecOptim SpecFusion SpecMain MainFacts SystemFacts
  SpecOrder OrderProblem OrderFiles Yaml SpecYaml YamlFacts Cli SpecCli CliFacts.
Local Open Scope string_scope.
Local Open Scope list_scope.

(** the same disk, directories being listed by [l] *)
Definition listed (dk : disk) (l : string -> result (list string)) : disk := {| dk_yaml := dk_yaml dk; dk_list := l; dk_table := dk_table dk |}.

Lemma forall2_permuted {A B} (R : A -> B -> Prop) l l' m : Permutation l l' -> Forall2 R l m -> exists m', Permutation m m' /\ Forall2 R l' m'.
Proof.
  intros P. revert m. induction P as [|x l l' P IH|x y l|l1 l2 l3 P1 IH1 P2 IH2]; intros m F.
  - inversion F; subst. exists []. split; constructor.
  - inversion F as [|? b ? m' H F']; subst. destruct (IH _ F') as (m'' & Q & G). exists (b :: m''). split; [now constructor|now constructor].
  - inversion F as [|? b ? m' H F']; subst. inversion F' as [|? b' ? m'' H' F'']; subst. exists (b' :: b :: m''). split; [apply perm_swap|]. repeat constructor; assumption.
  - destruct (IH1 _ F) as (m1 & Q1 & G1). destruct (IH2 _ G1) as (m2 & Q2 & G2). exists m2. split; [now transitivity m1|exact G2].
Qed.

Lemma simulator_listed show order order' dk l a d files files' o st :
  any_order order -> any_order order' -> ar_study a = Some d ->
  dk_list dk (String.concat "/" [d; "input"; "models"]) = Ok files -> l (String.concat "/" [d; "input"; "models"]) = Ok files' -> Permutation files files' ->
  (forall z, ar_duration a = Some z -> (1 <= z)%Z) ->
  (forall paths libs, libraries_read show dk paths libs -> Forall2 (fun f path => under_directory d ["input"; "models"; f] path) files paths -> no_clash libs []) ->
  (forall path sys, system_read dk path sys -> under_directory d ["input"; "components"; "components.yml"] path -> NoDup (input_ids sys)) ->
  simulator show order dk a = Ok (o, st) ->
  exists o' st' f, simulator show order' (listed dk l) a = Ok (o', st') /\ reordered_settings o o' /\ same_program f (st_solver st) (st_solver st').
Proof.
  intros O O' D L L' P Du N I H. apply simulator_run in H as (models & components & series & libs & sys & T & S & To & Ch & Cs & R & Sy & M).
  destruct To as [(d' & fs & E1 & E2 & E3 & E4 & E5 & F & E6 & s & E7 & E8)|(E1 & _)]; [|congruence].
  assert (d' = d) by congruence. subst d'. assert (fs = files) by congruence. subst fs.
  destruct (forall2_permuted _ _ _ _ P F) as (models' & Pm & F'). destruct (forall2_permuted _ _ _ _ Pm R) as (libs' & Pl & R').
  assert (HT : (1 <= T)%Z) by (destruct Ch as [Ch|[_ ->]]; [exact (Du _ Ch)|lia]).
  assert (Rf : reordered_file sys sys) by (split; [reflexivity|split; reflexivity]).
  destruct (run_reordered order order' libs libs' sys sys (fun name => load_ts_from_txt dk name series) T S o st O O' Pl (N _ _ R F) Rf (I _ _ Sy E6) HT M)
    as (o' & st' & f & M' & Rs & Sp).
  exists o', st', f. split; [|split; assumption]. apply simulator_run. exists models', components, series, libs', sys, T, S.
  split; [left; exists d, files'; repeat split; eauto|]. split; [exact Ch|]. split; [exact Cs|]. split; [exact R'|]. split; [exact Sy|]. exact M'.
Qed.
