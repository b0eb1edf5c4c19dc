(** The parser: fuel, and which tokens it accepts with which tree. *)
From Coq Require Import Ascii Lia.
From Verif Require Import Base BaseFacts Expr SpecExpr Parse SpecParse.
Local Open Scope string_scope.
Local Open Scope list_scope.

(** ** One step of each rule *)
Lemma p_expr_S (n : nat) (p : Z) (ts : list token) : p_expr (S n) p ts = ( r <- p_primary n ts ;; p_loop n p (fst r) (snd r)).
Proof. reflexivity. Qed.
Lemma p_loop_S (n : nat) (p : Z) (l : pexpr) (ts : list token) : p_loop (S n) p l ts = (      match ts with
      | TkMulop o :: ts' =>
          if (p <=? 11)%Z then r <- p_expr n 12 ts' ;; p_loop n p (PMuldiv o l (fst r)) (snd r) else Ok (l, ts)
      | TkSign o :: ts' =>
          if (p <=? 10)%Z then r <- p_expr n 11 ts' ;; p_loop n p (PAddsub o l (fst r)) (snd r) else Ok (l, ts)
      | TkComparison c :: ts' =>
          if (p <=? 9)%Z then r <- p_expr n 10 ts' ;; p_loop n p (PComparison c l (fst r)) (snd r) else Ok (l, ts)
      | _ => Ok (l, ts)
      end).
Proof. reflexivity. Qed.
Lemma p_primary_S (n : nat) (ts : list token) : p_primary (S n) ts = (      match ts with
      | TkNumber x :: ts => Ok (PAtom (ANumber x), ts)
      | TkIdentifier x :: TkDot :: ts =>
          match ts with
          | TkIdentifier f :: ts => Ok (PPortField x f, ts)
          | _ => Err GenericException
          end
      | TkIdentifier x :: TkOpen :: ts =>
          r <- p_expr n 0 ts ;; ts <- p_close (snd r) ;; Ok (PFunction x (fst r), ts)
      | TkIdentifier x :: TkOpenBracket :: ts =>
          match ts with
          | TkTime :: _ => r <- p_shift n ts ;; ts <- p_close_bracket (snd r) ;; Ok (PTimeShift x (fst r), ts)
          | _ => r <- p_expr n 0 ts ;; ts <- p_close_bracket (snd r) ;; Ok (PTimeIndex x (fst r), ts)
          end
      | TkIdentifier x :: ts => Ok (PAtom (AIdentifier x), ts)
      | TkSign Minus :: ts => r <- p_expr n 13 ts ;; Ok (PNeg (fst r), snd r)
      | TkOpen :: ts =>
          r <- p_expr n 0 ts ;; ts <- p_close (snd r) ;;
          match ts with
          | TkOpenBracket :: ts =>
              match ts with
              | TkTime :: _ => k <- p_shift n ts ;; ts <- p_close_bracket (snd k) ;; Ok (PTimeShiftExpr (fst r) (fst k), ts)
              | _ => k <- p_expr n 0 ts ;; ts <- p_close_bracket (snd k) ;; Ok (PTimeIndexExpr (fst r) (fst k), ts)
              end
          | _ => Ok (PParen (fst r), ts)
          end
      | TkSum :: TkOpen :: ts =>
          match ts with
          | TkTime :: _ =>
              a <- p_shift n ts ;;
              match snd a with
              | TkDotDot :: ts =>
                  b <- p_shift n ts ;;
                  match snd b with
                  | TkComma :: ts => r <- p_expr n 0 ts ;; ts <- p_close (snd r) ;; Ok (PTimeSum (fst a) (fst b) (fst r), ts)
                  | _ => Err GenericException
                  end
              | _ => Err GenericException
              end
          | _ => r <- p_expr n 0 ts ;; ts <- p_close (snd r) ;; Ok (PAllTimeSum (fst r), ts)
          end
      | TkSumConnections :: TkOpen :: TkIdentifier p :: TkDot :: TkIdentifier f :: ts =>
          ts <- p_close ts ;; Ok (PPortFieldSum p f, ts)
      | _ => Err GenericException
      end).
Proof. reflexivity. Qed.
Lemma p_shift_S (n : nat) (ts : list token) : p_shift (S n) ts = (      match ts with
      | TkTime :: ts =>
          match ts with
          | TkSign _ :: _ => r <- p_shift_expr n ts ;; Ok (ShiftBy (fst r), snd r)
          | _ => Ok (ShiftNone, ts)
          end
      | _ => Err GenericException
      end).
Proof. reflexivity. Qed.
Lemma p_shift_expr_S (n : nat) (ts : list token) : p_shift_expr (S n) ts = (      match ts with
      | TkSign o :: TkOpen :: ts =>
          r <- p_expr n 0 ts ;; ts <- p_close (snd r) ;; p_shift_loop n (SignedExpression o (fst r)) ts
      | TkSign o :: ts => r <- p_atom ts ;; p_shift_loop n (SignedAtom o (fst r)) (snd r)
      | _ => Err GenericException
      end).
Proof. reflexivity. Qed.
Lemma p_shift_loop_S (n : nat) (l : pshift_expr) (ts : list token) : p_shift_loop (S n) l ts = (      match ts with
      | TkMulop o :: ts => r <- p_right n 0 ts ;; p_shift_loop n (ShiftMuldiv o l (fst r)) (snd r)
      | TkSign o :: ts => r <- p_right n 0 ts ;; p_shift_loop n (ShiftAddsub o l (fst r)) (snd r)
      | _ => Ok (l, ts)
      end).
Proof. reflexivity. Qed.
Lemma p_right_S (n : nat) (p : Z) (ts : list token) : p_right (S n) p ts = (      match ts with
      | TkOpen :: ts => r <- p_expr n 0 ts ;; ts <- p_close (snd r) ;; p_right_loop n p (RightExpression (fst r)) ts
      | _ => r <- p_atom ts ;; p_right_loop n p (RightAtom (fst r)) (snd r)
      end).
Proof. reflexivity. Qed.
Lemma p_right_loop_S (n : nat) (p : Z) (l : pright) (ts : list token) : p_right_loop (S n) p l ts = (      match ts with
      | TkMulop o :: ts' =>
          if (p <=? 3)%Z then r <- p_right n 4 ts' ;; p_right_loop n p (RightMuldiv o l (fst r)) (snd r) else Ok (l, ts)
      | _ => Ok (l, ts)
      end).
Proof. reflexivity. Qed.

(** ** More fuel does not change a result *)
Definition oof {A} (r : result A) : Prop := r = Err OutOfFuel.
Lemma bind_not_oof {A B} (x : result A) (f : A -> result B) : ~ oof (bind x f) -> ~ oof x.
Proof. unfold oof. intros H E. apply H. rewrite E. reflexivity. Qed.

Section Mono.
  Variables n m : nat.
  Definition same {A} (a b : result A) : Prop := ~ oof a -> b = a.
  Definition mono_at : Prop :=
    (forall p ts, same (p_expr n p ts) (p_expr m p ts)) /\
    (forall p l ts, same (p_loop n p l ts) (p_loop m p l ts)) /\
    (forall ts, same (p_primary n ts) (p_primary m ts)) /\
    (forall ts, same (p_shift n ts) (p_shift m ts)) /\
    (forall ts, same (p_shift_expr n ts) (p_shift_expr m ts)) /\
    (forall l ts, same (p_shift_loop n l ts) (p_shift_loop m l ts)) /\
    (forall p ts, same (p_right n p ts) (p_right m p ts)) /\
    (forall p l ts, same (p_right_loop n p l ts) (p_right_loop m p l ts)).
End Mono.

Lemma same_refl {A} (a : result A) : same a a. Proof. intros _. reflexivity. Qed.
Lemma same_bind {A B} (a a' : result A) (f f' : A -> result B) :
  same a a' -> (forall x, same (f x) (f' x)) -> same (bind a f) (bind a' f').
Proof.
  intros Ha Hf N. rewrite (Ha (bind_not_oof _ _ N)). destruct a as [x|k]; [|reflexivity].
  apply Hf. exact N.
Qed.

Ltac mono :=
  repeat first
    [ apply same_refl
    | match goal with
      | H : forall p ts, same (p_expr _ p ts) _ |- same (p_expr _ _ _) _ => apply H
      | H : forall p l ts, same (p_loop _ p l ts) _ |- same (p_loop _ _ _ _) _ => apply H
      | H : forall ts, same (p_primary _ ts) _ |- same (p_primary _ _) _ => apply H
      | H : forall ts, same (p_shift _ ts) _ |- same (p_shift _ _) _ => apply H
      | H : forall ts, same (p_shift_expr _ ts) _ |- same (p_shift_expr _ _) _ => apply H
      | H : forall l ts, same (p_shift_loop _ l ts) _ |- same (p_shift_loop _ _ _) _ => apply H
      | H : forall p ts, same (p_right _ p ts) _ |- same (p_right _ _ _) _ => apply H
      | H : forall p l ts, same (p_right_loop _ p l ts) _ |- same (p_right_loop _ _ _ _) _ => apply H
      end
    | apply same_bind; [|intros ?]
    | match goal with |- same (match ?x with _ => _ end) _ => destruct x end ].

Lemma mono_step n : mono_at n (S n).
Proof.
  induction n as [|n IH].
  { repeat split; intros; intros N; exfalso; apply N; reflexivity. }
  destruct IH as (H1 & H2 & H3 & H4 & H5 & H6 & H7 & H8).
  repeat split; intros.
  - rewrite (p_expr_S (S n)), (p_expr_S n). mono.
  - rewrite (p_loop_S (S n)), (p_loop_S n). mono.
  - rewrite (p_primary_S (S n)), (p_primary_S n). mono.
  - rewrite (p_shift_S (S n)), (p_shift_S n). mono.
  - rewrite (p_shift_expr_S (S n)), (p_shift_expr_S n). mono.
  - rewrite (p_shift_loop_S (S n)), (p_shift_loop_S n). mono.
  - rewrite (p_right_S (S n)), (p_right_S n). mono.
  - rewrite (p_right_loop_S (S n)), (p_right_loop_S n). mono.
Qed.

Lemma same_trans {A} (a b c : result A) : same a b -> same b c -> same a c.
Proof. intros H1 H2 N. rewrite (H2 ltac:(rewrite (H1 N); exact N)). apply H1, N. Qed.

Lemma mono_le n m : (n <= m)%nat -> mono_at n m.
Proof.
  induction 1 as [|m _ IH].
  - repeat split; intros; apply same_refl.
  - destruct IH as (H1 & H2 & H3 & H4 & H5 & H6 & H7 & H8).
    destruct (mono_step m) as (G1 & G2 & G3 & G4 & G5 & G6 & G7 & G8).
    repeat split; intros; eapply same_trans; eauto.
Qed.

(** ** Every rule takes tokens *)
Definition shorter {A} (k : nat) (ts : list token) (r : taken A) : Prop :=
  forall x rest, r = Ok (x, rest) -> (List.length rest + k <= List.length ts)%nat.

Lemma p_atom_short ts : shorter 1 ts (p_atom ts).
Proof. intros x rest. destruct ts as [|[] ts]; try discriminate; intros [= <- <-]; cbn; lia. Qed.
Lemma p_close_short ts rest : p_close ts = Ok rest -> (List.length rest + 1 <= List.length ts)%nat.
Proof. destruct ts as [|[] ts]; try discriminate; intros [= <-]; cbn; lia. Qed.
Lemma p_close_bracket_short ts rest : p_close_bracket ts = Ok rest -> (List.length rest + 1 <= List.length ts)%nat.
Proof. destruct ts as [|[] ts]; try discriminate; intros [= <-]; cbn; lia. Qed.

Definition short_at (n : nat) : Prop :=
  (forall p ts, shorter 1 ts (p_expr n p ts)) /\
  (forall p l ts, shorter 0 ts (p_loop n p l ts)) /\
  (forall ts, shorter 1 ts (p_primary n ts)) /\
  (forall ts, shorter 1 ts (p_shift n ts)) /\
  (forall ts, shorter 1 ts (p_shift_expr n ts)) /\
  (forall l ts, shorter 0 ts (p_shift_loop n l ts)) /\
  (forall p ts, shorter 1 ts (p_right n p ts)) /\
  (forall p l ts, shorter 0 ts (p_right_loop n p l ts)).

Ltac short_use :=
  repeat match goal with
    | H : forall p ts, shorter _ ts (p_expr ?n p ts), X : p_expr ?n _ _ = Ok _ |- _ => apply H in X
    | H : forall p l ts, shorter _ ts (p_loop ?n p l ts), X : p_loop ?n _ _ _ = Ok _ |- _ => apply H in X
    | H : forall ts, shorter _ ts (p_primary ?n ts), X : p_primary ?n _ = Ok _ |- _ => apply H in X
    | H : forall ts, shorter _ ts (p_shift ?n ts), X : p_shift ?n _ = Ok _ |- _ => apply H in X
    | H : forall ts, shorter _ ts (p_shift_expr ?n ts), X : p_shift_expr ?n _ = Ok _ |- _ => apply H in X
    | H : forall l ts, shorter _ ts (p_shift_loop ?n l ts), X : p_shift_loop ?n _ _ = Ok _ |- _ => apply H in X
    | H : forall p ts, shorter _ ts (p_right ?n p ts), X : p_right ?n _ _ = Ok _ |- _ => apply H in X
    | H : forall p l ts, shorter _ ts (p_right_loop ?n p l ts), X : p_right_loop ?n _ _ _ = Ok _ |- _ => apply H in X
    | X : p_atom _ = Ok _ |- _ => apply p_atom_short in X
    | X : p_close _ = Ok _ |- _ => apply p_close_short in X
    | X : p_close_bracket _ = Ok _ |- _ => apply p_close_bracket_short in X
    end.
Ltac split_pairs :=
  repeat match goal with v : (_ * list token)%type |- _ => destruct v as [? ?]; cbn [fst snd] in * end.
Ltac walk_ok :=
  repeat (cbn [fst snd] in *;
    match goal with
    | X : Err _ = Ok _ |- _ => discriminate X
    | X : Ok _ = Ok _ |- _ => injection X as; subst
    | X : bind _ _ = Ok _ |- _ => inv_bind X; split_pairs
    | X : match ?x with _ => _ end = Ok _ |- _ => destruct x eqn:?
    end).

Lemma short_all n : short_at n.
Proof.
  induction n as [|n IH].
  { repeat split; intros; intros x rest X; discriminate X. }
  destruct IH as (H1 & H2 & H3 & H4 & H5 & H6 & H7 & H8).
  repeat split; intros; intros x rest X.
  - rewrite p_expr_S in X. walk_ok. short_use. lia.
  - rewrite p_loop_S in X. walk_ok; short_use; cbn [List.length] in *; lia.
  - rewrite p_primary_S in X. walk_ok; short_use; subst; cbn [List.length] in *; try lia.
  - rewrite p_shift_S in X. walk_ok; short_use; subst; cbn [List.length] in *; try lia.
  - rewrite p_shift_expr_S in X. walk_ok; short_use; subst; cbn [List.length] in *; try lia.
  - rewrite p_shift_loop_S in X. walk_ok; short_use; subst; cbn [List.length] in *; try lia.
  - rewrite p_right_S in X. walk_ok; short_use; subst; cbn [List.length] in *; try lia.
  - rewrite p_right_loop_S in X. walk_ok; short_use; subst; cbn [List.length] in *; try lia.
Qed.

(** ** Enough fuel *)
Definition fuel_at (n : nat) : Prop :=
  (forall p ts, (4 * List.length ts + 2 <= n)%nat -> ~ oof (p_expr n p ts)) /\
  (forall p l ts, (4 * List.length ts + 1 <= n)%nat -> ~ oof (p_loop n p l ts)) /\
  (forall ts, (4 * List.length ts + 1 <= n)%nat -> ~ oof (p_primary n ts)) /\
  (forall ts, (4 * List.length ts + 1 <= n)%nat -> ~ oof (p_shift n ts)) /\
  (forall ts, (4 * List.length ts + 1 <= n)%nat -> ~ oof (p_shift_expr n ts)) /\
  (forall l ts, (4 * List.length ts + 1 <= n)%nat -> ~ oof (p_shift_loop n l ts)) /\
  (forall p ts, (4 * List.length ts + 1 <= n)%nat -> ~ oof (p_right n p ts)) /\
  (forall p l ts, (4 * List.length ts + 1 <= n)%nat -> ~ oof (p_right_loop n p l ts)).

Lemma not_oof_bind {A B} (x : result A) (f : A -> result B) :
  ~ oof x -> (forall a, x = Ok a -> ~ oof (f a)) -> ~ oof (bind x f).
Proof. intros Hx Hf. destruct x as [a|k]; [exact (Hf a eq_refl)|]. intros X. apply Hx. cbn in X. unfold oof in *. congruence. Qed.
Lemma not_oof_ok {A} (a : A) : ~ oof (Ok a). Proof. discriminate. Qed.
Lemma p_atom_not_oof ts : ~ oof (p_atom ts). Proof. destruct ts as [|[] ts]; discriminate. Qed.
Lemma p_close_not_oof ts : ~ oof (p_close ts). Proof. destruct ts as [|[] ts]; discriminate. Qed.
Lemma p_close_bracket_not_oof ts : ~ oof (p_close_bracket ts). Proof. destruct ts as [|[] ts]; discriminate. Qed.

Ltac fuel :=
  repeat (cbn [fst snd] in *; first
    [ apply not_oof_ok
    | apply p_atom_not_oof | apply p_close_not_oof | apply p_close_bracket_not_oof
    | discriminate
    | apply not_oof_bind; [|intros [? ?] ?]
    | apply not_oof_bind; [|intros ? ?]
    | match goal with
      | H : forall p ts, _ -> ~ oof (p_expr ?n p ts) |- ~ oof (p_expr ?n _ _) => apply H
      | H : forall p l ts, _ -> ~ oof (p_loop ?n p l ts) |- ~ oof (p_loop ?n _ _ _) => apply H
      | H : forall ts, _ -> ~ oof (p_primary ?n ts) |- ~ oof (p_primary ?n _) => apply H
      | H : forall ts, _ -> ~ oof (p_shift ?n ts) |- ~ oof (p_shift ?n _) => apply H
      | H : forall ts, _ -> ~ oof (p_shift_expr ?n ts) |- ~ oof (p_shift_expr ?n _) => apply H
      | H : forall l ts, _ -> ~ oof (p_shift_loop ?n l ts) |- ~ oof (p_shift_loop ?n _ _) => apply H
      | H : forall p ts, _ -> ~ oof (p_right ?n p ts) |- ~ oof (p_right ?n _ _) => apply H
      | H : forall p l ts, _ -> ~ oof (p_right_loop ?n p l ts) |- ~ oof (p_right_loop ?n _ _ _) => apply H
      end
    | match goal with |- ~ oof (match ?x with _ => _ end) => destruct x eqn:? end ]).

Lemma fuel_all n : fuel_at n.
Proof.
  induction n as [|n IH].
  { repeat split; intros; lia. }
  destruct IH as (G1 & G2 & G3 & G4 & G5 & G6 & G7 & G8).
  destruct (short_all n) as (H1 & H2 & H3 & H4 & H5 & H6 & H7 & H8).
  repeat split; intros.
  - rewrite p_expr_S. fuel; subst; short_use; cbn [List.length] in *; lia.
  - rewrite p_loop_S. fuel; subst; short_use; cbn [List.length] in *; lia.
  - rewrite p_primary_S. fuel; subst; short_use; cbn [List.length] in *; lia.
  - rewrite p_shift_S. fuel; subst; short_use; cbn [List.length] in *; lia.
  - rewrite p_shift_expr_S. fuel; subst; short_use; cbn [List.length] in *; lia.
  - rewrite p_shift_loop_S. fuel; subst; short_use; cbn [List.length] in *; lia.
  - rewrite p_right_S. fuel; subst; short_use; cbn [List.length] in *; lia.
  - rewrite p_right_loop_S. fuel; subst; short_use; cbn [List.length] in *; lia.
Qed.

(** what holds with some fuel holds with the fuel of [parse] *)
Lemma parse_of_fuel ts n x : p_expr n 0 ts = Ok (x, []) -> parse ts = Ok x.
Proof.
  intros H. unfold parse. set (N := (4 * List.length ts + 4)%nat).
  assert (R : p_expr N 0 ts = Ok (x, [])).
  { destruct (Nat.le_ge_cases n N) as [L|L].
    - rewrite <- H. apply (mono_le _ _ L). rewrite H. discriminate.
    - rewrite <- H. symmetry. apply (mono_le _ _ L). apply fuel_all. unfold N. lia. }
  rewrite R. reflexivity.
Qed.

(** ** The rules as relations *)
Definition Ex p ts r := exists n, p_expr n p ts = Ok r.
Definition Lp p l ts r := exists n, p_loop n p l ts = Ok r.
Definition Pr ts r := exists n, p_primary n ts = Ok r.
Definition Sh ts r := exists n, p_shift n ts = Ok r.
Definition Se ts r := exists n, p_shift_expr n ts = Ok r.
Definition Sl l ts r := exists n, p_shift_loop n l ts = Ok r.
Definition Rt p ts r := exists n, p_right n p ts = Ok r.
Definition Rl p l ts r := exists n, p_right_loop n p l ts = Ok r.

Lemma lift_expr n m p ts r : p_expr n p ts = Ok r -> (n <= m)%nat -> p_expr m p ts = Ok r.
Proof. intros H L. rewrite <- H. apply (mono_le _ _ L). rewrite H. discriminate. Qed.
Lemma lift_loop n m p l ts r : p_loop n p l ts = Ok r -> (n <= m)%nat -> p_loop m p l ts = Ok r.
Proof. intros H L. rewrite <- H. apply (mono_le _ _ L). rewrite H. discriminate. Qed.
Lemma lift_primary n m ts r : p_primary n ts = Ok r -> (n <= m)%nat -> p_primary m ts = Ok r.
Proof. intros H L. rewrite <- H. apply (mono_le _ _ L). rewrite H. discriminate. Qed.
Lemma lift_shift n m ts r : p_shift n ts = Ok r -> (n <= m)%nat -> p_shift m ts = Ok r.
Proof. intros H L. rewrite <- H. apply (mono_le _ _ L). rewrite H. discriminate. Qed.
Lemma lift_shift_expr n m ts r : p_shift_expr n ts = Ok r -> (n <= m)%nat -> p_shift_expr m ts = Ok r.
Proof. intros H L. rewrite <- H. apply (mono_le _ _ L). rewrite H. discriminate. Qed.
Lemma lift_shift_loop n m l ts r : p_shift_loop n l ts = Ok r -> (n <= m)%nat -> p_shift_loop m l ts = Ok r.
Proof. intros H L. rewrite <- H. apply (mono_le _ _ L). rewrite H. discriminate. Qed.
Lemma lift_right n m p ts r : p_right n p ts = Ok r -> (n <= m)%nat -> p_right m p ts = Ok r.
Proof. intros H L. rewrite <- H. apply (mono_le _ _ L). rewrite H. discriminate. Qed.
Lemma lift_right_loop n m p l ts r : p_right_loop n p l ts = Ok r -> (n <= m)%nat -> p_right_loop m p l ts = Ok r.
Proof. intros H L. rewrite <- H. apply (mono_le _ _ L). rewrite H. discriminate. Qed.

Lemma Ex_intro p ts l ts' r : Pr ts (l, ts') -> Lp p l ts' r -> Ex p ts r.
Proof.
  intros [a Ha] [b Hb]. exists (S (a + b)). rewrite p_expr_S.
  rewrite (lift_primary a (a + b) _ _ Ha) by lia. cbn [bind fst snd].
  now rewrite (lift_loop b (a + b) _ _ _ _ Hb) by lia.
Qed.
(** the precedence of the operator at the front *)
Definition level (ts : list token) : Z :=
  match ts with TkMulop _ :: _ => 11 | TkSign _ :: _ => 10 | TkComparison _ :: _ => 9 | _ => -1 end.
Lemma Lp_stop p l ts : (level ts < p)%Z -> Lp p l ts (l, ts).
Proof.
  intros H. exists 1%nat. rewrite p_loop_S. destruct ts as [|[] ts]; cbn [level] in H; try reflexivity.
  all: match goal with |- (if ?b then _ else _) = _ => replace b with false; [reflexivity|] end.
  all: symmetry; apply Z.leb_gt; exact H.
Qed.
Lemma Lp_mul p o l ts x ts' r :
  (p <= 11)%Z -> Ex 12 ts (x, ts') -> Lp p (PMuldiv o l x) ts' r -> Lp p l (TkMulop o :: ts) r.
Proof.
  intros Hp [a Ha] [b Hb]. exists (S (a + b)). rewrite p_loop_S.
  rewrite (proj2 (Z.leb_le _ _) Hp), (lift_expr a (a + b) _ _ _ Ha) by lia. cbn [bind fst snd].
  now rewrite (lift_loop b (a + b) _ _ _ _ Hb) by lia.
Qed.
Lemma Lp_add p o l ts x ts' r :
  (p <= 10)%Z -> Ex 11 ts (x, ts') -> Lp p (PAddsub o l x) ts' r -> Lp p l (TkSign o :: ts) r.
Proof.
  intros Hp [a Ha] [b Hb]. exists (S (a + b)). rewrite p_loop_S.
  rewrite (proj2 (Z.leb_le _ _) Hp), (lift_expr a (a + b) _ _ _ Ha) by lia. cbn [bind fst snd].
  now rewrite (lift_loop b (a + b) _ _ _ _ Hb) by lia.
Qed.
Lemma Lp_cmp p o l ts x ts' r :
  (p <= 9)%Z -> Ex 10 ts (x, ts') -> Lp p (PComparison o l x) ts' r -> Lp p l (TkComparison o :: ts) r.
Proof.
  intros Hp [a Ha] [b Hb]. exists (S (a + b)). rewrite p_loop_S.
  rewrite (proj2 (Z.leb_le _ _) Hp), (lift_expr a (a + b) _ _ _ Ha) by lia. cbn [bind fst snd].
  now rewrite (lift_loop b (a + b) _ _ _ _ Hb) by lia.
Qed.

(** ** The tree of what is written *)
Definition signed_of (s : sign) (e : pexpr) : pshift_expr :=
  match e with PAtom a => SignedAtom s a | PParen e => SignedExpression s e | _ => SignedExpression s e end.
Definition right_of (e : pexpr) : pright :=
  match e with PAtom a => RightAtom a | PParen e => RightExpression e | _ => RightExpression e end.
Fixpoint tree (e : wexpr) : pexpr :=
  match e with
  | WNumber n => PAtom (ANumber n)
  | WName x => PAtom (AIdentifier x)
  | WField p f => PPortField p f
  | WNeg e => PNeg (tree e)
  | WParen e => PParen (tree e)
  | WMul o l r => PMuldiv o (tree l) (tree r)
  | WAdd o l r => PAddsub o (tree l) (tree r)
  | WCmp c l r => PComparison c (tree l) (tree r)
  | WSumAll e => PAllTimeSum (tree e)
  | WSumPorts p f => PPortFieldSum p f
  | WSumOver a b e => PTimeSum (shift_tree a) (shift_tree b) (tree e)
  | WCall f e => PFunction f (tree e)
  | WAt x k => PTimeShift x (shift_tree k)
  | WIndex x k => PTimeIndex x (tree k)
  | WAtParen e k => PTimeShiftExpr (tree e) (shift_tree k)
  | WIndexParen e k => PTimeIndexExpr (tree e) (tree k)
  end
with shift_tree (k : wshift) : pshift :=
  match k with
  | WNow => ShiftNone
  | WThen k o m =>
      ShiftBy (match shift_tree k with
               | ShiftNone => first_tree o m
               | ShiftBy l => ShiftAddsub o l (right_tree m)
               end)
  end
with first_tree (s : sign) (m : wproduct) : pshift_expr :=
  match m with
  | WFactor f => signed_of s (tree f)
  | WTimes m o f =>
      match first_tree s m with
      | ShiftMuldiv o1 l r => ShiftMuldiv o1 l (RightMuldiv o r (right_of (tree f)))
      | l => ShiftMuldiv o l (right_of (tree f))
      end
  end
with right_tree (m : wproduct) : pright :=
  match m with
  | WFactor f => right_of (tree f)
  | WTimes m o f => RightMuldiv o (right_tree m) (right_of (tree f))
  end.

Scheme wexpr_mut := Induction for wexpr Sort Prop
  with wshift_mut := Induction for wshift Sort Prop
  with wproduct_mut := Induction for wproduct Sort Prop.
Combined Scheme written_ind from wexpr_mut, wshift_mut, wproduct_mut.

(** what may come after an expression *)
Definition detached (ts : list token) : Prop :=
  match ts with TkDot :: _ | TkOpen :: _ | TkOpenBracket :: _ => False | _ => True end.
Definition no_time (ts : list token) : Prop := match ts with TkTime :: _ | [] => False | _ => True end.

Lemma no_time_app a b : no_time a -> no_time (a ++ b).
Proof. destruct a; [intros []|]. cbn. auto. Qed.
Lemma tokens_no_time e : no_time (tokens e).
Proof. induction e; cbn; auto; now apply no_time_app. Qed.

Lemma Pr_paren ts ts' x : Ex 0 ts (x, TkClose :: ts') -> detached ts' -> Pr (TkOpen :: ts) (PParen x, ts').
Proof.
  intros [n H] D. exists (S n). rewrite p_primary_S, H. cbn [bind fst snd p_close].
  destruct ts' as [|[] ts']; try reflexivity; contradiction D.
Qed.
Lemma Pr_neg ts ts' x : Ex 13 ts (x, ts') -> Pr (TkSign Minus :: ts) (PNeg x, ts').
Proof. intros [n H]. exists (S n). rewrite p_primary_S, H. reflexivity. Qed.
Lemma Pr_sumall ts ts' x : no_time ts -> Ex 0 ts (x, TkClose :: ts') -> Pr (TkSum :: TkOpen :: ts) (PAllTimeSum x, ts').
Proof.
  intros N [n H]. exists (S n). rewrite p_primary_S. destruct ts as [|[] ts]; try contradiction N; rewrite H; reflexivity.
Qed.
Lemma Pr_call f ts ts' x : Ex 0 ts (x, TkClose :: ts') -> Pr (TkIdentifier f :: TkOpen :: ts) (PFunction f x, ts').
Proof. intros [n H]. exists (S n). rewrite p_primary_S, H. reflexivity. Qed.
Lemma Pr_index f ts ts' x : no_time ts -> Ex 0 ts (x, TkCloseBracket :: ts') ->
  Pr (TkIdentifier f :: TkOpenBracket :: ts) (PTimeIndex f x, ts').
Proof.
  intros N [n H]. exists (S n). rewrite p_primary_S. destruct ts as [|[] ts]; try contradiction N; rewrite H; reflexivity.
Qed.
Lemma Sh_time ts r : Sh ts r -> exists ts', ts = TkTime :: ts'.
Proof. intros [[|n] H]; [discriminate|]. rewrite p_shift_S in H. destruct ts as [|[] ts]; try discriminate. eauto. Qed.
Lemma Pr_at x ts ts' k : Sh ts (k, TkCloseBracket :: ts') ->
  Pr (TkIdentifier x :: TkOpenBracket :: ts) (PTimeShift x k, ts').
Proof.
  intros Hs. destruct (Sh_time _ _ Hs) as [u ->]. destruct Hs as [n H]. exists (S n). rewrite p_primary_S, H. reflexivity.
Qed.
Lemma Pr_at_paren ts us ts' e k : Ex 0 ts (e, TkClose :: TkOpenBracket :: us) -> Sh us (k, TkCloseBracket :: ts') ->
  Pr (TkOpen :: ts) (PTimeShiftExpr e k, ts').
Proof.
  intros [n H] Hs. destruct (Sh_time _ _ Hs) as [u ->]. destruct Hs as [m Hm]. exists (S (n + m)). rewrite p_primary_S.
  rewrite (lift_expr n (n + m) _ _ _ H) by lia. cbn [bind fst snd p_close].
  rewrite (lift_shift m (n + m) _ _ Hm) by lia. reflexivity.
Qed.
Lemma Pr_index_paren ts us ts' e k : no_time us -> Ex 0 ts (e, TkClose :: TkOpenBracket :: us) ->
  Ex 0 us (k, TkCloseBracket :: ts') -> Pr (TkOpen :: ts) (PTimeIndexExpr e k, ts').
Proof.
  intros N [n H] [m Hm]. exists (S (n + m)). rewrite p_primary_S.
  rewrite (lift_expr n (n + m) _ _ _ H) by lia. cbn [bind fst snd p_close].
  destruct us as [|[] us]; try contradiction N; rewrite (lift_expr m (n + m) _ _ _ Hm) by lia; reflexivity.
Qed.
Lemma Pr_sumover ts us vs ts' a b e :
  Sh ts (a, TkDotDot :: us) -> Sh us (b, TkComma :: vs) -> Ex 0 vs (e, TkClose :: ts') ->
  Pr (TkSum :: TkOpen :: ts) (PTimeSum a b e, ts').
Proof.
  intros Ha. destruct (Sh_time _ _ Ha) as [u ->]. destruct Ha as [n Ha]. intros [m Hb] [k He].
  exists (S (n + m + k)). rewrite p_primary_S.
  rewrite (lift_shift n (n + m + k) _ _ Ha) by lia. cbn [bind fst snd].
  rewrite (lift_shift m (n + m + k) _ _ Hb) by lia. cbn [bind fst snd].
  rewrite (lift_expr k (n + m + k) _ _ _ He) by lia. reflexivity.
Qed.

(** shifts *)
Definition no_arith (ts : list token) : Prop := match ts with TkSign _ :: _ | TkMulop _ :: _ => False | _ => True end.
Definition no_mul (ts : list token) : Prop := match ts with TkMulop _ :: _ => False | _ => True end.
Lemma Sh_now ts : no_arith ts -> Sh (TkTime :: ts) (ShiftNone, ts).
Proof. intros H. exists 1%nat. rewrite p_shift_S. destruct ts as [|[] ts]; try reflexivity; contradiction H. Qed.
Lemma Sh_by o ts ts' x : Se (TkSign o :: ts) (x, ts') -> Sh (TkTime :: TkSign o :: ts) (ShiftBy x, ts').
Proof. intros [n H]. exists (S n). rewrite p_shift_S, H. reflexivity. Qed.
Lemma Sl_stop l ts : no_arith ts -> Sl l ts (l, ts).
Proof. intros H. exists 1%nat. rewrite p_shift_loop_S. destruct ts as [|[] ts]; try reflexivity; contradiction H. Qed.
Lemma Sl_mul l o ts ts' x r : Rt 0 ts (x, ts') -> Sl (ShiftMuldiv o l x) ts' r -> Sl l (TkMulop o :: ts) r.
Proof.
  intros [n H] [m Hm]. exists (S (n + m)). rewrite p_shift_loop_S, (lift_right n (n + m) _ _ _ H) by lia. cbn [bind fst snd].
  now rewrite (lift_shift_loop m (n + m) _ _ _ Hm) by lia.
Qed.
Lemma Sl_add l o ts ts' x r : Rt 0 ts (x, ts') -> Sl (ShiftAddsub o l x) ts' r -> Sl l (TkSign o :: ts) r.
Proof.
  intros [n H] [m Hm]. exists (S (n + m)). rewrite p_shift_loop_S, (lift_right n (n + m) _ _ _ H) by lia. cbn [bind fst snd].
  now rewrite (lift_shift_loop m (n + m) _ _ _ Hm) by lia.
Qed.
Lemma Rl_stop p l ts : no_mul ts \/ (4 <= p)%Z -> Rl p l ts (l, ts).
Proof.
  intros H. exists 1%nat. rewrite p_right_loop_S. destruct ts as [|[] ts]; try reflexivity.
  destruct H as [[]|H]. replace (p <=? 3)%Z with false by (symmetry; apply Z.leb_gt; lia). reflexivity.
Qed.
Lemma Rl_mul p l o ts ts' x r : (p <= 3)%Z -> Rt 4 ts (x, ts') -> Rl p (RightMuldiv o l x) ts' r -> Rl p l (TkMulop o :: ts) r.
Proof.
  intros Hp [n H] [m Hm]. exists (S (n + m)). rewrite p_right_loop_S, (proj2 (Z.leb_le _ _) Hp), (lift_right n (n + m) _ _ _ H) by lia.
  cbn [bind fst snd]. now rewrite (lift_right_loop m (n + m) _ _ _ _ Hm) by lia.
Qed.

(** an expression read at any precedence it has, with whatever the loop makes of the rest *)
Definition reads (e : wexpr) : Prop :=
  forall p rest r, (p <= strength e)%Z -> (level rest <= strength e)%Z -> detached rest ->
    Lp p (tree e) rest r -> Ex p (tokens e ++ rest) r.

Lemma reads_all e rest : reads e -> (level rest < 9)%Z -> detached rest -> Ex 0 (tokens e ++ rest) (tree e, rest).
Proof.
  intros H L D. apply H; auto.
  - destruct e; cbn; lia.
  - destruct e; cbn; lia.
  - apply Lp_stop. destruct rest as [|[] rest]; cbn in *; lia.
Qed.

(** a factor in a shift *)
Lemma factor_right f p rest r :
  simple_factor f -> (match f with WParen e => reads e | _ => True end) ->
  Rl p (right_of (tree f)) rest r -> Rt p (tokens f ++ rest) r.
Proof.
  intros S He [m Hm]. destruct f; try contradiction S; cbn [tokens tree right_of] in *.
  - exists (Datatypes.S m). rewrite p_right_S. exact Hm.
  - exists (Datatypes.S m). rewrite p_right_S. exact Hm.
  - pose proof (reads_all _ (TkClose :: rest) He ltac:(cbn; lia) I) as [n H].
    exists (Datatypes.S (n + m)). cbn [app]. rewrite <- app_assoc. cbn [app]. rewrite p_right_S.
    rewrite (lift_expr n (n + m) _ _ _ H) by lia. cbn [bind fst snd p_close].
    now rewrite (lift_right_loop m (n + m) _ _ _ _ Hm) by lia.
Qed.
Lemma factor_signed f s rest r :
  simple_factor f -> (match f with WParen e => reads e | _ => True end) ->
  Sl (signed_of s (tree f)) rest r -> Se (TkSign s :: tokens f ++ rest) r.
Proof.
  intros S He [m Hm]. destruct f; try contradiction S; cbn [tokens tree signed_of] in *.
  - exists (Datatypes.S m). rewrite p_shift_expr_S. exact Hm.
  - exists (Datatypes.S m). rewrite p_shift_expr_S. exact Hm.
  - pose proof (reads_all _ (TkClose :: rest) He ltac:(cbn; lia) I) as [n H].
    exists (Datatypes.S (n + m)). cbn [app]. rewrite <- app_assoc. cbn [app]. rewrite p_shift_expr_S.
    rewrite (lift_expr n (n + m) _ _ _ H) by lia. cbn [bind fst snd p_close].
    now rewrite (lift_shift_loop m (n + m) _ _ _ Hm) by lia.
Qed.

Definition inner_reads (e : wexpr) : Prop := match e with WParen e => reads e | _ => True end.
Definition first_reads (m : wproduct) : Prop :=
  forall s,
  match first_tree s m with
  | ShiftMuldiv o l x =>
      forall rest y rest' r, Rl 0 x rest (y, rest') -> Sl (ShiftMuldiv o l y) rest' r ->
        Se (TkSign s :: product_tokens m ++ rest) r
  | l => forall rest r, Sl l rest r -> Se (TkSign s :: product_tokens m ++ rest) r
  end.
Definition right_reads (m : wproduct) : Prop :=
  forall rest r, Rl 0 (right_tree m) rest r -> Rt 0 (product_tokens m ++ rest) r.
Definition shift_reads (k : wshift) : Prop :=
  match shift_tree k with
  | ShiftNone => k = WNow
  | ShiftBy l => forall rest x rest', no_mul rest -> Sl l rest (x, rest') -> Sh (shift_tokens k ++ rest) (ShiftBy x, rest')
  end.

Lemma signed_of_not_mul s e : match signed_of s e with ShiftMuldiv _ _ _ | ShiftAddsub _ _ _ => False | _ => True end.
Proof. destruct e; exact I. Qed.

Lemma first_no_sum s m : match first_tree s m with ShiftAddsub _ _ _ => False | _ => True end.
Proof.
  destruct m; cbn [first_tree]; [pose proof (signed_of_not_mul s (tree f)); destruct (signed_of s (tree f)); tauto|].
  destruct (first_tree s m); exact I.
Qed.

Lemma first_done m s rest r : first_reads m -> no_mul rest -> Sl (first_tree s m) rest r ->
  Se (TkSign s :: product_tokens m ++ rest) r.
Proof.
  intros F N H. specialize (F s). destruct (first_tree s m) as [o l x|o l x|o a|o e].
  - apply (F rest x rest r); [apply Rl_stop; left; exact N|exact H].
  - apply F, H.
  - apply F, H.
  - apply F, H.
Qed.

Lemma shift_done k rest : shift_reads k -> no_arith rest -> Sh (shift_tokens k ++ rest) (shift_tree k, rest).
Proof.
  intros H N. unfold shift_reads in H. destruct (shift_tree k) as [|l].
  - subst k. now apply Sh_now.
  - apply H; [|now apply Sl_stop]. destruct rest as [|[] rest]; cbn in *; tauto.
Qed.

Lemma reads_primary e :
  strength e = 13%Z -> (forall rest, detached rest -> Pr (tokens e ++ rest) (tree e, rest)) -> reads e.
Proof. intros _ H p rest r _ _ D L. eapply Ex_intro; [apply H, D|exact L]. Qed.

Lemma reading :
  (forall e, unambiguous e -> reads e /\ inner_reads e) /\
  (forall k, unambiguous_shift k -> shift_reads k) /\
  (forall m, unambiguous_product m -> right_reads m /\ first_reads m).
Proof.
  apply written_ind.
  - intros n _. split; [|exact I]. apply reads_primary; [reflexivity|]. intros rest D. exists 1%nat. reflexivity.
  - intros x _. split; [|exact I]. apply reads_primary; [reflexivity|]. intros rest D. exists 1%nat.
    cbn [tokens app]. rewrite p_primary_S. destruct rest as [|[] rest]; try reflexivity; contradiction D.
  - intros q f _. split; [|exact I]. apply reads_primary; [reflexivity|]. intros rest D. exists 1%nat. reflexivity.
  - intros e IH [H1 H2]. destruct (IH H2) as [R _]. split; [|exact I]. apply reads_primary; [reflexivity|].
    intros rest D. cbn [tokens tree app]. apply Pr_neg. apply R; auto.
    + destruct rest as [|[] rest]; cbn in *; lia.
    + apply Lp_stop. destruct rest as [|[] rest]; cbn in *; lia.
  - intros e IH H. destruct (IH H) as [R _]. split; [|exact R]. apply reads_primary; [reflexivity|].
    intros rest D. cbn [tokens tree app]. rewrite <- app_assoc. apply Pr_paren; [|exact D].
    apply reads_all; [exact R|cbn; lia|exact I].
  - intros o l IHl r IHr (S1 & S2 & U1 & U2). destruct (IHl U1) as [Rl' _]. destruct (IHr U2) as [Rr _].
    split; [|exact I]. intros p rest res Hp Hl D HL. cbn [tokens strength tree] in *. rewrite <- app_assoc. cbn [app].
    apply Rl'; try lia; [cbn; lia|exact I|]. eapply Lp_mul; [lia| |exact HL].
    apply Rr; try lia; auto. apply Lp_stop. lia.
  - intros o l IHl r IHr (S1 & S2 & U1 & U2). destruct (IHl U1) as [Rl' _]. destruct (IHr U2) as [Rr _].
    split; [|exact I]. intros p rest res Hp Hl D HL. cbn [tokens strength tree] in *. rewrite <- app_assoc. cbn [app].
    apply Rl'; try lia; [cbn; lia|exact I|]. eapply Lp_add; [lia| |exact HL].
    apply Rr; try lia; auto. apply Lp_stop. lia.
  - intros o l IHl r IHr (S1 & S2 & U1 & U2). destruct (IHl U1) as [Rl' _]. destruct (IHr U2) as [Rr _].
    split; [|exact I]. intros p rest res Hp Hl D HL. cbn [tokens strength tree] in *. rewrite <- app_assoc. cbn [app].
    apply Rl'; try lia; [cbn; lia|exact I|]. eapply Lp_cmp; [lia| |exact HL].
    apply Rr; try lia; auto. apply Lp_stop. lia.
  - intros e IH H. destruct (IH H) as [R _]. split; [|exact I]. apply reads_primary; [reflexivity|].
    intros rest D. cbn [tokens tree app]. rewrite <- app_assoc. apply Pr_sumall; [apply no_time_app, tokens_no_time|].
    apply reads_all; [exact R|cbn; lia|exact I].
  - intros p f _. split; [|exact I]. apply reads_primary; [reflexivity|]. intros rest D. exists 1%nat. reflexivity.
  - intros a IHa b IHb e IHe (Ua & Ub & Ue). destruct (IHe Ue) as [R _]. split; [|exact I].
    apply reads_primary; [reflexivity|]. intros rest D. cbn [tokens tree app].
    rewrite <- app_assoc. cbn [app]. rewrite <- app_assoc. cbn [app]. rewrite <- app_assoc. cbn [app].
    eapply Pr_sumover.
    + apply shift_done; [exact (IHa Ua)|exact I].
    + apply shift_done; [exact (IHb Ub)|exact I].
    + apply reads_all; [exact R|cbn; lia|exact I].
  - intros f e IH H. destruct (IH H) as [R _]. split; [|exact I]. apply reads_primary; [reflexivity|].
    intros rest D. cbn [tokens tree app]. rewrite <- app_assoc. apply Pr_call.
    apply reads_all; [exact R|cbn; lia|exact I].
  - intros x k IH H. split; [|exact I]. apply reads_primary; [reflexivity|].
    intros rest D. cbn [tokens tree app]. rewrite <- app_assoc. apply Pr_at. apply shift_done; [exact (IH H)|exact I].
  - intros x e IH H. destruct (IH H) as [R _]. split; [|exact I]. apply reads_primary; [reflexivity|].
    intros rest D. cbn [tokens tree app]. rewrite <- app_assoc. apply Pr_index; [apply no_time_app, tokens_no_time|].
    apply reads_all; [exact R|cbn; lia|exact I].
  - intros e IH k IHk (U1 & U2). destruct (IH U1) as [R _]. split; [|exact I]. apply reads_primary; [reflexivity|].
    intros rest D. cbn [tokens tree app]. rewrite <- app_assoc. cbn [app]. rewrite <- app_assoc. cbn [app].
    eapply Pr_at_paren.
    + apply reads_all; [exact R|cbn; lia|exact I].
    + apply shift_done; [exact (IHk U2)|exact I].
  - intros e IH k IHk (U1 & U2). destruct (IH U1) as [R _]. destruct (IHk U2) as [Rk _].
    split; [|exact I]. apply reads_primary; [reflexivity|].
    intros rest D. cbn [tokens tree app]. rewrite <- app_assoc. cbn [app]. rewrite <- app_assoc. cbn [app].
    eapply Pr_index_paren; [|apply reads_all; [exact R|cbn; lia|exact I]|].
    + apply no_time_app, tokens_no_time.
    + apply reads_all; [exact Rk|cbn; lia|exact I].
  - intros _. reflexivity.
  - intros k IHk o m IHm (Uk & Um). specialize (IHk Uk). destruct (IHm Um) as [Rr Rf].
    unfold shift_reads in *. cbn [shift_tree shift_tokens]. destruct (shift_tree k) as [|l].
    + subst k. cbn [shift_tokens app]. intros rest x rest' N H. apply Sh_by. now apply first_done.
    + intros rest x rest' N H. rewrite <- app_assoc. cbn [app]. apply IHk; [exact I|].
      eapply Sl_add; [|exact H]. apply Rr. apply Rl_stop. left. exact N.
  - intros f IH (Sf & U). destruct (IH U) as [_ R]. split.
    + intros rest r H. now apply factor_right.
    + intros s. cbn [first_tree product_tokens]. pose proof (signed_of_not_mul s (tree f)) as Z.
      pose proof (fun rest r => factor_signed f s rest r Sf R) as G.
      destruct (signed_of s (tree f)); try contradiction Z; exact G.
  - intros m IHm o f IHf (Um & Sf & Uf). destruct (IHm Um) as [Rr Rf]. destruct (IHf Uf) as [_ R]. split.
    + intros rest r H. cbn [product_tokens right_tree] in *. rewrite <- app_assoc. cbn [app]. apply Rr.
      eapply Rl_mul; [lia| |exact H]. apply factor_right; auto. apply Rl_stop. right. lia.
    + intros s. specialize (Rf s). pose proof (first_no_sum s m) as Z. cbn [first_tree product_tokens].
      destruct (first_tree s m) as [o1 l x|o1 l x|o1 a|o1 a]; try contradiction Z;
        intros rest y rest' r H1 H2; rewrite <- app_assoc; cbn [app].
      * eapply Rf; [|exact H2]. eapply Rl_mul; [lia| |exact H1]. apply factor_right; auto. apply Rl_stop. right. lia.
      * apply Rf. eapply Sl_mul; [|exact H2]. apply factor_right; auto.
      * apply Rf. eapply Sl_mul; [|exact H2]. apply factor_right; auto.
Qed.

Lemma parse_tokens e : unambiguous e -> parse (tokens e) = Ok (tree e).
Proof.
  intros U. destruct (proj1 reading e U) as [R _].
  destruct (reads_all e [] R ltac:(cbn; lia) I) as [n H]. rewrite app_nil_r in H.
  exact (parse_of_fuel _ _ _ H).
Qed.

(** ** Whatever is accepted is something that can be written *)
Fixpoint product_app (m : wproduct) (o : mulop) (r : wproduct) : wproduct :=
  match r with
  | WFactor f => WTimes m o f
  | WTimes r o' f => WTimes (product_app m o r) o' f
  end.
Lemma product_app_tokens m o r : product_tokens (product_app m o r) = product_tokens m ++ TkMulop o :: product_tokens r.
Proof. induction r; cbn; [reflexivity|]. rewrite IHr, <- app_assoc. reflexivity. Qed.
Lemma product_app_unambiguous m o r :
  unambiguous_product m -> unambiguous_product r -> unambiguous_product (product_app m o r).
Proof. intros Hm. induction r; cbn; tauto. Qed.

Definition sound_at (n : nat) : Prop :=
  (forall p ts x rest, p_expr n p ts = Ok (x, rest) ->
     exists w, ts = tokens w ++ rest /\ unambiguous w /\ (p <= 13 -> p <= strength w)%Z /\ (0 <= p -> level rest < p \/ level rest = -1)%Z) /\
  (forall p l ts x rest, p_loop n p l ts = Ok (x, rest) ->
     forall wl, unambiguous wl -> (level ts <= strength wl)%Z -> (p <= 13 -> p <= strength wl)%Z ->
     exists w, tokens wl ++ ts = tokens w ++ rest /\ unambiguous w /\ (p <= 13 -> p <= strength w)%Z /\ (0 <= p -> level rest < p \/ level rest = -1)%Z) /\
  (forall ts x rest, p_primary n ts = Ok (x, rest) ->
     exists w, ts = tokens w ++ rest /\ unambiguous w /\ strength w = 13%Z) /\
  (forall ts x rest, p_shift n ts = Ok (x, rest) ->
     exists k, ts = shift_tokens k ++ rest /\ unambiguous_shift k) /\
  (forall ts x rest, p_shift_expr n ts = Ok (x, rest) ->
     exists k, TkTime :: ts = shift_tokens k ++ rest /\ unambiguous_shift k) /\
  (forall l ts x rest, p_shift_loop n l ts = Ok (x, rest) ->
     forall k o m, unambiguous_shift (WThen k o m) ->
     exists k', shift_tokens (WThen k o m) ++ ts = shift_tokens k' ++ rest /\ unambiguous_shift k') /\
  (forall p ts x rest, p_right n p ts = Ok (x, rest) ->
     exists m, ts = product_tokens m ++ rest /\ unambiguous_product m) /\
  (forall p l ts x rest, p_right_loop n p l ts = Ok (x, rest) ->
     forall m, unambiguous_product m ->
     exists m', product_tokens m ++ ts = product_tokens m' ++ rest /\ unambiguous_product m').

Lemma p_atom_sound ts a rest : p_atom ts = Ok (a, rest) ->
  exists w, ts = tokens w ++ rest /\ unambiguous w /\ simple_factor w /\ strength w = 13%Z.
Proof.
  destruct ts as [|[] ts]; try discriminate; intros [= <- <-].
  - exists (WNumber n). cbn. auto.
  - exists (WName s). cbn. auto.
Qed.
Lemma p_close_sound ts rest : p_close ts = Ok rest -> ts = TkClose :: rest.
Proof. destruct ts as [|[] ts]; try discriminate. now intros [= <-]. Qed.
Lemma p_close_bracket_sound ts rest : p_close_bracket ts = Ok rest -> ts = TkCloseBracket :: rest.
Proof. destruct ts as [|[] ts]; try discriminate. now intros [= <-]. Qed.

Ltac sound_use :=
  repeat match goal with
    | H : forall p ts x rest, p_expr ?n p ts = Ok (x, rest) -> _, X : p_expr ?n _ _ = Ok _ |- _ =>
        apply H in X; destruct X as (? & ? & ? & ? & ?)
    | H : forall ts x rest, p_primary ?n ts = Ok (x, rest) -> _, X : p_primary ?n _ = Ok _ |- _ =>
        apply H in X; destruct X as (? & ? & ? & ?)
    | H : forall ts x rest, p_shift ?n ts = Ok (x, rest) -> _, X : p_shift ?n _ = Ok _ |- _ =>
        apply H in X; destruct X as (? & ? & ?)
    | H : forall ts x rest, p_shift_expr ?n ts = Ok (x, rest) -> _, X : p_shift_expr ?n _ = Ok _ |- _ =>
        apply H in X; destruct X as (? & ? & ?)
    | H : forall p ts x rest, p_right ?n p ts = Ok (x, rest) -> _, X : p_right ?n _ _ = Ok _ |- _ =>
        apply H in X; destruct X as (? & ? & ?)
    | X : p_atom _ = Ok _ |- _ => apply p_atom_sound in X; destruct X as (? & ? & ? & ? & ?)
    | X : p_close _ = Ok _ |- _ => apply p_close_sound in X
    | X : p_close_bracket _ = Ok _ |- _ => apply p_close_bracket_sound in X
    end.

Lemma level_cases ts : (level ts = 11 \/ level ts = 10 \/ level ts = 9 \/ level ts = -1)%Z.
Proof. destruct ts as [|[] ts]; cbn; auto. Qed.

Ltac give w :=
  exists w; split;
    [cbn [tokens shift_tokens product_tokens app] in *; rewrite <- ?app_assoc; cbn [app];
     repeat first [progress (rewrite <- ?app_assoc) | progress (cbn [app])]; congruence
    | cbn; intuition (try lia)].
Ltac find_primary :=
  match goal with
  | |- exists w, TkNumber ?n :: _ = _ /\ _ => solve [give (WNumber n)]
  | |- exists w, TkIdentifier ?p :: TkDot :: TkIdentifier ?f :: _ = _ /\ _ => solve [give (WField p f)]
  | |- exists w, TkSumConnections :: TkOpen :: TkIdentifier ?p :: TkDot :: TkIdentifier ?f :: _ = _ /\ _ => solve [give (WSumPorts p f)]
  | x : wexpr |- exists w, TkIdentifier ?f :: TkOpen :: _ = _ /\ _ => solve [give (WCall f x)]
  | x : wexpr |- exists w, TkIdentifier ?f :: TkOpenBracket :: _ = _ /\ _ => solve [give (WIndex f x)]
  | k : wshift |- exists w, TkIdentifier ?f :: TkOpenBracket :: _ = _ /\ _ => solve [give (WAt f k)]
  | |- exists w, TkIdentifier ?f :: _ = _ /\ _ => solve [give (WName f)]
  | x : wexpr |- exists w, TkSign Minus :: _ = _ /\ _ => solve [give (WNeg x)]
  | a : wshift, b : wshift, x : wexpr |- exists w, TkSum :: TkOpen :: _ = _ /\ _ => solve [give (WSumOver a b x)]
  | x : wexpr |- exists w, TkSum :: TkOpen :: _ = _ /\ _ => solve [give (WSumAll x)]
  | x : wexpr, k : wshift |- exists w, TkOpen :: _ = _ /\ _ => solve [give (WAtParen x k)]
  | x : wexpr, k : wexpr |- exists w, TkOpen :: _ = _ /\ _ => solve [give (WIndexParen x k)]
  | x : wexpr |- exists w, TkOpen :: _ = _ /\ _ => solve [give (WParen x)]
  end.

Lemma sound_all n : sound_at n.
Proof.
  induction n as [|n IH].
  { unfold sound_at. repeat (split; [intros; discriminate|]). intros; discriminate. }
  destruct IH as (H1 & H2 & H3 & H4 & H5 & H6 & H7 & H8).
  split; [|split; [|split; [|split; [|split; [|split; [|split]]]]]].
  - intros p ts x rest X. rewrite p_expr_S in X. inv_bind X. destruct v as [l ts']. cbn [fst snd] in X.
    apply H3 in H. destruct H as (w & E & U & St).
    destruct (H2 _ _ _ _ _ X w U) as (w' & E' & R); [|lia|].
    { rewrite St. destruct (level_cases ts') as [->|[->|[->| ->]]]; lia. }
    exists w'. split; [congruence|exact R].
  - intros p l ts x rest X wl U Hl Hp. rewrite p_loop_S in X.
    assert (Stop : (level ts < p \/ level ts = -1)%Z -> Ok (l, ts) = Ok (x, rest) ->
      exists w, tokens wl ++ ts = tokens w ++ rest /\ unambiguous w /\ (p <= 13 -> p <= strength w)%Z /\
        (0 <= p -> level rest < p \/ level rest = -1)%Z).
    { intros Hs [= <- <-]. exists wl. auto. }
    destruct ts as [|tk ts]; [apply Stop; [right; reflexivity|exact X]|].
    destruct tk; try (apply Stop; [right; reflexivity|exact X]).
    + destruct (p <=? 9)%Z eqn:B; [|apply Stop; [left; cbn; lia|exact X]].
      apply Z.leb_le in B. inv_bind X. destruct v as [r ts']. cbn [fst snd] in X.
      apply H1 in H. destruct H as (wr & E & Ur & Sr & Lr). cbn [level] in Hl.
      destruct (H2 _ _ _ _ _ X (WCmp c wl wr)) as (w' & E' & R).
      * cbn. split; [exact Hl|]. split; [apply Sr; lia|auto].
      * cbn. destruct (level_cases ts') as [?|[?|[?|?]]]; lia.
      * cbn. lia.
      * exists w'. split; [|exact R]. rewrite <- E'. cbn [tokens]. rewrite E, <- app_assoc. reflexivity.
    + destruct (p <=? 10)%Z eqn:B; [|apply Stop; [left; cbn; lia|exact X]].
      apply Z.leb_le in B. inv_bind X. destruct v as [r ts']. cbn [fst snd] in X.
      apply H1 in H. destruct H as (wr & E & Ur & Sr & Lr). cbn [level] in Hl.
      destruct (H2 _ _ _ _ _ X (WAdd s wl wr)) as (w' & E' & R).
      * cbn. split; [exact Hl|]. split; [apply Sr; lia|auto].
      * cbn. destruct (level_cases ts') as [?|[?|[?|?]]]; lia.
      * cbn. lia.
      * exists w'. split; [|exact R]. rewrite <- E'. cbn [tokens]. rewrite E, <- app_assoc. reflexivity.
    + destruct (p <=? 11)%Z eqn:B; [|apply Stop; [left; cbn; lia|exact X]].
      apply Z.leb_le in B. inv_bind X. destruct v as [r ts']. cbn [fst snd] in X.
      apply H1 in H. destruct H as (wr & E & Ur & Sr & Lr). cbn [level] in Hl.
      destruct (H2 _ _ _ _ _ X (WMul o wl wr)) as (w' & E' & R).
      * cbn. split; [exact Hl|]. split; [apply Sr; lia|auto].
      * cbn. destruct (level_cases ts') as [?|[?|[?|?]]]; lia.
      * cbn. lia.
      * exists w'. split; [|exact R]. rewrite <- E'. cbn [tokens]. rewrite E, <- app_assoc. reflexivity.
  - intros ts x rest X. rewrite p_primary_S in X. walk_ok; sound_use; subst.
    all: cbn [tokens shift_tokens app] in *; try find_primary.
  - intros ts x rest X. rewrite p_shift_S in X. destruct ts as [|[] ts]; try discriminate X.
    destruct ts as [|tk ts]; [injection X as <- <-; exists WNow; cbn; auto|].
    destruct tk; try (injection X as <- <-; exists WNow; cbn; auto).
    inv_bind X. destruct v as [l ts']. injection X as <- <-. apply H5 in H. cbn [fst snd]. exact H.
  - intros ts x rest X. rewrite p_shift_expr_S in X.
    destruct ts as [|[] ts]; try discriminate X.
    assert (Start : (exists f ts', simple_factor f /\ unambiguous f /\ ts = tokens f ++ ts' /\
              exists l, p_shift_loop n l ts' = Ok (x, rest)) ->
            exists k, TkTime :: TkSign s :: ts = shift_tokens k ++ rest /\ unambiguous_shift k).
    { intros (f & ts' & Sf & Uf & -> & l & L).
      destruct (H6 _ _ _ _ L WNow s (WFactor f)) as (k' & E & U); [cbn; auto|].
      exists k'. split; [|exact U]. rewrite <- E. reflexivity. }
    apply Start. clear Start.
    assert (Atom : (r <- p_atom ts ;; p_shift_loop n (SignedAtom s (fst r)) (snd r)) = Ok (x, rest) ->
      exists f ts', simple_factor f /\ unambiguous f /\ ts = tokens f ++ ts' /\
              exists l, p_shift_loop n l ts' = Ok (x, rest)).
    { intros Y. inv_bind Y. destruct v as [a ts']. apply p_atom_sound in H. destruct H as (w & E & U & Sf & _).
      exists w, ts'. repeat split; auto. eauto. }
    destruct ts as [|[] ts]; try (apply Atom; exact X). clear Atom.
    inv_bind X. destruct v as [e ts']. inv_bind X. cbn [fst snd] in *.
    apply H1 in H. destruct H as (w & E & U & _). apply p_close_sound in H0. subst.
    exists (WParen w), v. split; [exact I|]. split; [exact U|]. split; [|eauto].
    cbn [tokens app]. rewrite <- app_assoc. reflexivity.
  - intros l ts x rest X k o m U. rewrite p_shift_loop_S in X.
    assert (Stop : Ok (l, ts) = Ok (x, rest) ->
      exists k', shift_tokens (WThen k o m) ++ ts = shift_tokens k' ++ rest /\ unambiguous_shift k').
    { intros [= <- <-]. eauto. }
    destruct ts as [|[] ts]; try (apply Stop; exact X); clear Stop.
    + inv_bind X. destruct v as [r ts']. cbn [fst snd] in X. apply H7 in H. destruct H as (m' & -> & Um).
      destruct (H6 _ _ _ _ X (WThen k o m) s m') as (k' & E & Uk); [cbn in *; auto|].
      exists k'. split; [|exact Uk]. rewrite <- E. cbn [shift_tokens]. rewrite <- !app_assoc. cbn [app]. rewrite <- ?app_assoc. reflexivity.
    + inv_bind X. destruct v as [r ts']. cbn [fst snd] in X. apply H7 in H. destruct H as (m' & -> & Um).
      destruct U as [U1 U2].
      destruct (H6 _ _ _ _ X k o (product_app m o0 m')) as (k' & E & Uk).
      { split; [exact U1|]. now apply product_app_unambiguous. }
      exists k'. split; [|exact Uk]. rewrite <- E. cbn [shift_tokens]. rewrite product_app_tokens.
      rewrite <- !app_assoc. cbn [app]. rewrite <- ?app_assoc. reflexivity.
  - intros p ts x rest X. rewrite p_right_S in X.
    assert (Atom : (r <- p_atom ts ;; p_right_loop n p (RightAtom (fst r)) (snd r)) = Ok (x, rest) ->
      exists m, ts = product_tokens m ++ rest /\ unambiguous_product m).
    { intros Y. inv_bind Y. destruct v as [a ts']. apply p_atom_sound in H. destruct H as (w & E & U & Sf & _).
      destruct (H8 _ _ _ _ _ Y (WFactor w)) as (m' & E' & Um); [cbn; auto|].
      exists m'. split; [|exact Um]. rewrite <- E'. exact E. }
    destruct ts as [|[] ts]; try (apply Atom; exact X). clear Atom.
    inv_bind X. destruct v as [e ts']. inv_bind X. cbn [fst snd] in *.
    apply H1 in H. destruct H as (w & E & U & _). apply p_close_sound in H0. subst.
    destruct (H8 _ _ _ _ _ X (WFactor (WParen w))) as (m' & E' & Um); [cbn; auto|].
    exists m'. split; [|exact Um]. rewrite <- E'. cbn [product_tokens tokens app]. rewrite <- app_assoc. reflexivity.
  - intros p l ts x rest X m U. rewrite p_right_loop_S in X.
    assert (Stop : Ok (l, ts) = Ok (x, rest) ->
      exists m', product_tokens m ++ ts = product_tokens m' ++ rest /\ unambiguous_product m').
    { intros [= <- <-]. eauto. }
    destruct ts as [|[] ts]; try (apply Stop; exact X).
    destruct (p <=? 3)%Z; [|apply Stop; exact X]. clear Stop.
    inv_bind X. destruct v as [r ts']. cbn [fst snd] in X. apply H7 in H. destruct H as (m' & -> & Um).
    destruct (H8 _ _ _ _ _ X (product_app m o m')) as (m'' & E & Um'').
    { now apply product_app_unambiguous. }
    exists m''. split; [|exact Um'']. rewrite <- E, product_app_tokens, <- !app_assoc. reflexivity.
Qed.

Lemma parse_sound ts x : parse ts = Ok x -> exists e, ts = tokens e /\ unambiguous e /\ x = tree e.
Proof.
  intros H. pose proof H as H0. unfold parse in H0. inv_bind H0. destruct v as [y rest]. cbn [fst snd] in H0.
  destruct rest; [|discriminate]. injection H0 as ->. apply (sound_all _) in H1.
  destruct H1 as (w & E & U & _). rewrite app_nil_r in E. exists w. split; [exact E|]. split; [exact U|].
  rewrite E, (parse_tokens w U) in H. congruence.
Qed.

(** what is written is determined by its tokens up to its tree *)
Lemma tokens_determine a b : unambiguous a -> unambiguous b -> tokens a = tokens b -> tree a = tree b.
Proof. intros Ha Hb E. apply parse_tokens in Ha, Hb. rewrite E in Ha. congruence. Qed.
