(** Induction principle for expressions; facts about evaluation, copy and friends. *)
From Coq Require Import Lia Permutation.
From Verif Require Import Base Expr Visitors BaseFacts SpecExpr.

Section ExprInd.
  Variable P : expr -> Prop.
  Hypothesis HLit : forall v, P (Lit v).
  Hypothesis HNeg : forall e, P e -> P (Neg e).
  Hypothesis HAdd : forall l, Forall P l -> P (Add l).
  Hypothesis HMul : forall a b, P a -> P b -> P (Mul a b).
  Hypothesis HDiv : forall a b, P a -> P b -> P (Div a b).
  Hypothesis HCmp : forall a b c, P a -> P b -> P (Cmp a b c).
  Hypothesis HVar : forall n, P (Var n).
  Hypothesis HParam : forall n, P (Param n).
  Hypothesis HCVar : forall c n, P (CVar c n).
  Hypothesis HCParam : forall c n, P (CParam c n).
  Hypothesis HPVar : forall c n ti si, P (PVar c n ti si).
  Hypothesis HPParam : forall c n ti si, P (PParam c n ti si).
  Hypothesis HTShift : forall e k, P e -> P k -> P (TShift e k).
  Hypothesis HTEval : forall e k, P e -> P k -> P (TEval e k).
  Hypothesis HTSum : forall e a b, P e -> P a -> P b -> P (TSum e a b).
  Hypothesis HAllSum : forall e, P e -> P (AllSum e).
  Hypothesis HScenOp : forall e o, P e -> P (ScenOp e o).
  Hypothesis HPortField : forall p f, P (PortField p f).
  Hypothesis HPortAgg : forall e a, P e -> P (PortAgg e a).
  Fixpoint expr_ind' (e : expr) : P e :=
    match e with
    | Lit v => HLit v
    | Neg a => HNeg a (expr_ind' a)
    | Add l =>
        HAdd l ((fix go (l : list expr) : Forall P l :=
                   match l with
                   | [] => Forall_nil P
                   | x :: l' => Forall_cons x (expr_ind' x) (go l')
                   end) l)
    | Mul a b => HMul a b (expr_ind' a) (expr_ind' b)
    | Div a b => HDiv a b (expr_ind' a) (expr_ind' b)
    | Cmp a b c => HCmp a b c (expr_ind' a) (expr_ind' b)
    | Var n => HVar n
    | Param n => HParam n
    | CVar c n => HCVar c n
    | CParam c n => HCParam c n
    | PVar c n ti si => HPVar c n ti si
    | PParam c n ti si => HPParam c n ti si
    | TShift a k => HTShift a k (expr_ind' a) (expr_ind' k)
    | TEval a k => HTEval a k (expr_ind' a) (expr_ind' k)
    | TSum a f u => HTSum a f u (expr_ind' a) (expr_ind' f) (expr_ind' u)
    | AllSum a => HAllSum a (expr_ind' a)
    | ScenOp a o => HScenOp a o (expr_ind' a)
    | PortField p f => HPortField p f
    | PortAgg a g => HPortAgg a g (expr_ind' a)
    end.
End ExprInd.

(** ** Sums of operands *)
Lemma fold_left_nadd l : forall x, fold_left nadd l x = nadd x (fold_left nadd l n0).
Proof.
  induction l as [|a l IH]; cbn [fold_left]; intros x.
  - now rewrite nadd_0_r.
  - rewrite IH, (IH (nadd n0 a)), nadd_0_l, nadd_assoc. reflexivity.
Qed.

Definition nsum (l : list num) : num := fold_left nadd l n0.

Lemma nsum_cons a l : nsum (a :: l) = nadd a (nsum l).
Proof. unfold nsum. cbn [fold_left]. now rewrite fold_left_nadd, nadd_0_l. Qed.
Lemma nsum_single a : nsum [a] = a.
Proof. unfold nsum. cbn [fold_left]. apply nadd_0_l. Qed.
Lemma nsum_app l1 l2 : nsum (l1 ++ l2) = nadd (nsum l1) (nsum l2).
Proof.
  induction l1 as [|a l IH]; cbn [app].
  - change (nsum []) with n0. now rewrite nadd_0_l.
  - now rewrite !nsum_cons, IH, nadd_assoc.
Qed.
Lemma nsum_neg l : nsum (map nneg l) = nneg (nsum l).
Proof.
  induction l as [|a l IH]; cbn [map].
  - unfold nsum; cbn. reflexivity.
  - now rewrite !nsum_cons, IH, nneg_add.
Qed.

Lemma sum_operands_nadd vs : vs <> [] -> sum_operands nadd vs = Ok (nsum vs).
Proof.
  destruct vs as [|v vs]; [congruence|]. intros _. cbn [sum_operands]. rewrite fold_left_nadd, nsum_cons.
  reflexivity.
Qed.

(** value of an expression as the sum of the values of its top-level operands *)
Lemma evaluate_operands vp e v :
  e <> Add [] ->
  (evaluate vp e = Ok v <->
   exists vs, mapM (evaluate vp) (add_operands e) = Ok vs /\ v = nsum vs).
Proof.
  intros Hne.
  assert (Hs : forall e0, (evaluate vp e0 = Ok v <->
      exists vs, mapM (evaluate vp) [e0] = Ok vs /\ v = nsum vs)).
  { intros e0. cbn [mapM]. split.
    - intros ->. exists [v]. split; [reflexivity|]. now rewrite nsum_single.
    - intros (vs & H & ->). inv_bind H. cbn in H. injection H as <-. rewrite H0.
      now rewrite nsum_single. }
  destruct e; try apply Hs. cbn [add_operands]. cbn [evaluate].
  split.
  - intros H. inv_bind H. destruct v0 as [|v0 vs].
    + discriminate.
    + rewrite sum_operands_nadd in H by discriminate. injection H as <-. eauto.
  - intros (vs & H & ->). rewrite H. cbn [bind].
    assert (vs <> []).
    { intros ->. apply mapM_length in H. destruct l; [congruence|discriminate]. }
    now rewrite sum_operands_nadd.
Qed.

Lemma add_operands_nonempty e : e <> Add [] -> add_operands e <> [].
Proof. destruct e as [| |[|]| | | | | | | | | | | | | | | |]; cbn; congruence. Qed.

Lemma evaluate_py_add vp a b v :
  a <> Add [] -> b <> Add [] ->
  (evaluate vp (py_add a b) = Ok v <->
   exists x y, evaluate vp a = Ok x /\ evaluate vp b = Ok y /\ v = nadd x y).
Proof.
  intros Ha Hb. unfold py_add. rewrite evaluate_operands.
  2:{ pose proof (add_operands_nonempty a Ha) as H. destruct (add_operands a); [congruence|discriminate]. }
  cbn [add_operands]. rewrite mapM_app. split.
  - intros (vs & H & ->). inv_bind H. inv_bind H. injection H as <-.
    exists (nsum v), (nsum v0). split; [|split].
    + apply evaluate_operands; eauto.
    + apply evaluate_operands; eauto.
    + apply nsum_app.
  - intros (x & y & Hx & Hy & ->).
    apply evaluate_operands in Hx; auto. apply evaluate_operands in Hy; auto.
    destruct Hx as (vx & Hx & ->), Hy as (vy & Hy & ->).
    exists (vx ++ vy). rewrite Hx; cbn. rewrite Hy; cbn. split; auto. now rewrite nsum_app.
Qed.

Lemma mapM_evaluate_neg vp l :
  mapM (evaluate vp) (map py_neg l) = (vs <- mapM (evaluate vp) l ;; Ok (map nneg vs)).
Proof.
  induction l as [|a l IH]; cbn; [reflexivity|].
  destruct (evaluate vp a); cbn; [|reflexivity]. rewrite IH.
  destruct (mapM (evaluate vp) l); reflexivity.
Qed.

Lemma evaluate_py_sub vp a b v :
  a <> Add [] -> b <> Add [] ->
  (evaluate vp (py_sub a b) = Ok v <->
   exists x y, evaluate vp a = Ok x /\ evaluate vp b = Ok y /\ v = nsub x y).
Proof.
  intros Ha Hb. unfold py_sub. rewrite evaluate_operands.
  2:{ pose proof (add_operands_nonempty a Ha) as H. destruct (add_operands a); [congruence|discriminate]. }
  cbn [add_operands]. rewrite mapM_app, mapM_evaluate_neg. split.
  - intros (vs & H & ->). inv_bind H. inv_bind H. injection H as <-. inv_bind H1.
    injection H1 as <-.
    exists (nsum v), (nsum v1). split; [|split].
    + apply evaluate_operands; eauto.
    + apply evaluate_operands; eauto.
    + rewrite nsum_app, nsum_neg. reflexivity.
  - intros (x & y & Hx & Hy & ->).
    apply evaluate_operands in Hx; auto. apply evaluate_operands in Hy; auto.
    destruct Hx as (vx & Hx & ->), Hy as (vy & Hy & ->).
    exists (vx ++ map nneg vy). rewrite Hx; cbn. rewrite Hy; cbn. split; auto.
    now rewrite nsum_app, nsum_neg.
Qed.

Lemma evaluate_py_mul vp a b v :
  evaluate vp (py_mul a b) = Ok v <->
  exists x y, evaluate vp a = Ok x /\ evaluate vp b = Ok y /\ v = nmul x y.
Proof.
  cbn. split.
  - intros H. inv_bind H. inv_bind H. injection H as <-. eauto.
  - intros (x & y & Hx & Hy & ->). now rewrite Hx, Hy.
Qed.

Lemma evaluate_py_div vp a b v :
  evaluate vp (py_div a b) = Ok v <->
  exists x y, evaluate vp a = Ok x /\ evaluate vp b = Ok y /\ ndiv x y = Ok v.
Proof.
  cbn. split.
  - intros H. inv_bind H. inv_bind H. eauto.
  - intros (x & y & Hx & Hy & Hv). now rewrite Hx, Hy.
Qed.

Lemma evaluate_py_neg vp a v :
  evaluate vp (py_neg a) = Ok v <-> exists x, evaluate vp a = Ok x /\ v = nneg x.
Proof.
  cbn. split.
  - intros H. inv_bind H. injection H as <-. eauto.
  - intros (x & Hx & ->). now rewrite Hx.
Qed.
