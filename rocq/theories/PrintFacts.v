(** Printed arithmetic reads back to the same meaning (C57). *)
From Coq Require Import Ascii Lia.
From Verif Require Import Base BaseFacts Expr ExprFacts SpecExpr Parse SpecParse LexFacts ParseMeaning Print SpecPrint.
Local Open Scope string_scope.
Local Open Scope list_scope.

Lemma string_assoc (a b c : string) : ((a ++ b) ++ c)%string = (a ++ (b ++ c))%string.
Proof. induction a as [|x a IH]; cbn; [reflexivity|now rewrite IH]. Qed.

(** ** Spelling *)
Definition delimited (rest : string) : Prop := rest = "" \/ exists r, rest = (" " ++ r)%string \/ rest = (")" ++ r)%string.
Lemma spells_token tk s rest ts : token_text tk s -> may_follow tk rest -> spells rest ts -> spells (s ++ rest)%string (tk :: ts).
Proof. intros H F S. exact (sp_token "" s rest tk ts I H F S). Qed.
Lemma spells_blank rest ts : spells rest ts -> spells (" " ++ rest)%string ts.
Proof.
  assert (B : blank " "%char) by (cbn; auto). intros H. destruct H as [s H|w s rest tk ts W H F S].
  - apply sp_end. split; assumption.
  - apply (sp_token (" " ++ w)%string s rest tk ts); [split; assumption|exact H|exact F|exact S].
Qed.
Lemma delimited_no_digit rest : delimited rest -> ~ starts digit rest /\ ~ starts (fun c => letter c \/ digit c) rest /\ ~ starts (eq "."%char) rest.
Proof.
  assert (D : forall c, ~ digit c -> is_char_or_digit c = false -> ~ (letter c \/ digit c)).
  { intros c _ K H. apply word_char_iff in H. congruence. }
  assert (G : forall c, is_digit c = false -> ~ digit c) by (intros c K H; apply digit_iff in H; congruence).
  intros [->|(r & [->| ->])]; cbn [starts append].
  - tauto.
  - split; [apply G; reflexivity|]. split; [apply D; [apply G|]; reflexivity|discriminate].
  - split; [apply G; reflexivity|]. split; [apply D; [apply G|]; reflexivity|discriminate].
Qed.
Lemma number_follow n rest : delimited rest -> may_follow (TkNumber n) rest.
Proof.
  intros H. pose proof (delimited_no_digit rest H) as (A & _ & C). split; [exact A|]. intros _ c r ->. exfalso. now apply C.
Qed.
Lemma word_follow x rest : delimited rest -> may_follow (TkIdentifier x) rest.
Proof. intros H. exact (proj1 (proj2 (delimited_no_digit rest H))). Qed.
Lemma space_delimited r : delimited (" " ++ r)%string.
Proof. right. exists r. now left. Qed.
Lemma close_delimited r : delimited (")" ++ r)%string.
Proof. right. exists r. now right. Qed.

(** ** What is printed *)
Section Read.
  Context (show : num -> string) (ids : identifiers).

  Definition written_as (text : string) (w : wexpr) : Prop :=
    unambiguous w /\ plain w /\ declared ids w /\
    forall rest ts, delimited rest -> spells rest ts -> spells (text ++ rest)%string (tokens w ++ ts).
  Definition means (w : wexpr) (e : expr) : Prop := forall E t s, meaning E (id_variables ids) w t s = den E e t s.

  Lemma paren_written text w : written_as text w -> written_as ("(" ++ text ++ ")")%string (WParen w).
  Proof.
    intros (U & P & D & S). split; [exact U|]. split; [exact P|]. split; [exact D|]. intros rest ts Hd Hs. cbn [tokens]. rewrite !string_assoc.
    cbn [List.app]. rewrite <- app_assoc. apply spells_token; [constructor|exact I|]. apply S; [apply close_delimited|].
    apply (spells_token TkClose ")" rest ts); [constructor|exact I|exact Hs].
  Qed.
  (** an operator between two printed expressions, with spaces around it *)
  Lemma operator_written a b (op : string) tk wa wb : written_as a wa -> written_as b wb -> token_text tk op ->
    (forall rest, may_follow tk rest) ->
    forall rest ts, delimited rest -> spells rest ts ->
      spells (a ++ " " ++ op ++ " " ++ b ++ rest)%string (tokens wa ++ tk :: tokens wb ++ ts).
  Proof.
    intros (_ & _ & _ & SA) (_ & _ & _ & SB) T F rest ts Hd Hs. apply SA; [apply space_delimited|]. apply spells_blank.
    apply spells_token; [exact T|apply F|]. apply spells_blank. now apply SB.
  Qed.
  Lemma mul_written o a b wa wb (op : string) : (11 <= strength wa)%Z -> (12 <= strength wb)%Z -> token_text (TkMulop o) op ->
    written_as a wa -> written_as b wb -> written_as (a ++ " " ++ op ++ " " ++ b)%string (WMul o wa wb).
  Proof.
    intros Ha Hb T A B. pose proof A as (U & P & D & _). pose proof B as (U' & P' & D' & _).
    split; [cbn; auto|]. split; [cbn; auto|]. split; [cbn; auto|]. intros rest ts Hd Hs. cbn [tokens]. rewrite <- app_assoc. cbn [List.app].
    rewrite !string_assoc. apply operator_written; auto. intros; exact I.
  Qed.
  Lemma add_written o a b wa wb (op : string) : (10 <= strength wa)%Z -> (11 <= strength wb)%Z -> token_text (TkSign o) op ->
    written_as a wa -> written_as b wb -> written_as (a ++ " " ++ op ++ " " ++ b)%string (WAdd o wa wb).
  Proof.
    intros Ha Hb T A B. pose proof A as (U & P & D & _). pose proof B as (U' & P' & D' & _).
    split; [cbn; auto|]. split; [cbn; auto|]. split; [cbn; auto|]. intros rest ts Hd Hs. cbn [tokens]. rewrite <- app_assoc. cbn [List.app].
    rewrite !string_assoc. apply operator_written; auto. intros; exact I.
  Qed.
  Lemma cmp_written c a b wa wb (op : string) : (9 <= strength wa)%Z -> (10 <= strength wb)%Z -> token_text (TkComparison c) op ->
    written_as a wa -> written_as b wb -> written_as (a ++ " " ++ op ++ " " ++ b)%string (WCmp c wa wb).
  Proof.
    intros Ha Hb T A B. pose proof A as (U & P & D & _). pose proof B as (U' & P' & D' & _).
    split; [cbn; auto|]. split; [cbn; auto|]. split; [cbn; auto|]. intros rest ts Hd Hs. cbn [tokens]. rewrite <- app_assoc. cbn [List.app].
    rewrite !string_assoc. apply operator_written; auto. intros; exact I.
  Qed.
  Lemma neg_written text w : strength w = 13%Z -> written_as text w -> written_as ("-" ++ text)%string (WNeg w).
  Proof.
    intros Hs (U & P & D & S). split; [cbn; split; [lia|exact U]|]. split; [exact P|]. split; [exact D|]. intros rest ts Hd H. cbn [tokens].
    rewrite string_assoc. cbn [List.app]. apply spells_token; [constructor|exact I|]. now apply S.
  Qed.
  Lemma number_written n : is_number n -> written_as n (WNumber n).
  Proof.
    intros H. split; [exact I|]. split; [exact I|]. split; [exact I|]. intros rest ts Hd Hs. cbn [tokens List.app].
    apply spells_token; [now constructor|now apply number_follow|exact Hs].
  Qed.
  Lemma name_written x : plain_word x -> In x (id_variables ids) \/ In x (id_parameters ids) -> written_as x (WName x).
  Proof.
    intros [A B] H. split; [exact I|]. split; [exact I|]. split; [exact H|]. intros rest ts Hd Hs. cbn [tokens List.app].
    apply spells_token; [now constructor|now apply word_follow|exact Hs].
  Qed.
  Lemma letter_not_dot x r : is_word x -> ~ starts (eq "."%char) (x ++ r)%string.
  Proof.
    intros [A _]. destruct x as [|c x]; [easy|]. cbn in A |- *. intros <-. assert (K : is_char "." = false) by reflexivity.
    apply letter_iff in A. congruence.
  Qed.
  Lemma field_written p f : plain_word p -> plain_word f -> written_as (p ++ "." ++ f)%string (WField p f).
  Proof.
    intros [A B] [C D]. split; [exact I|]. split; [exact I|]. split; [exact I|]. intros rest ts Hd Hs. cbn [tokens List.app]. rewrite !string_assoc.
    apply spells_token; [now constructor| |].
    - cbn. intros H. assert (K : is_char_or_digit "." = false) by reflexivity. apply word_char_iff in H. congruence.
    - apply (spells_token TkDot "."); [constructor|now apply letter_not_dot|]. apply spells_token; [now constructor|now apply word_follow|exact Hs].
  Qed.
  Lemma existsb_In x (l : list string) : existsb (String.eqb x) l = true <-> In x l.
  Proof.
    rewrite existsb_exists. split; [intros (y & H & E); apply String.eqb_eq in E; now subst|]. intros H. exists x. split; [exact H|apply String.eqb_refl].
  Qed.

  Definition reads_back (text : string) (e : expr) (w : wexpr) : Prop := strength w = 13%Z /\ written_as text w /\ means w e.
  (** a sum: what has been printed so far and the operands left *)
  Lemma sum_written l : Forall (fun o => arithmetic show ids o -> exists w, reads_back (print_expr show o) o w) l ->
    Forall (fun o => forall b, o = Neg b -> arithmetic show ids b -> exists w, reads_back (print_expr show b) b w) l ->
    Forall (arithmetic show ids) l ->
    forall text w (f : env -> Z -> Z -> option Qc), (10 <= strength w)%Z -> written_as text w ->
      (forall E t s, meaning E (id_variables ids) w t s = f E t s) ->
      exists w', written_as (fold_left (fun res o => match o with
                                                     | Neg b => (res ++ " - " ++ print_expr show b)%string
                                                     | _ => (res ++ " + " ++ print_expr show o)%string
                                                     end) l text) w' /\
        forall E t s, meaning E (id_variables ids) w' t s = olift2 Qcplus (f E t s) (osum (map (fun a => den E a t s) l)).
  Proof.
    intros H1 H2 H3. induction l as [|o l IH]; intros text w f Hs W M.
    - exists w. split; [exact W|]. intros E t s. rewrite M. cbn. destruct (f E t s) as [q|]; cbn; [f_equal; ring|reflexivity].
    - apply Forall_cons_iff in H1 as [A1 H1]. apply Forall_cons_iff in H2 as [A2 H2]. apply Forall_cons_iff in H3 as [A3 H3].
      assert (Step : exists w2, (10 <= strength w2)%Z /\
          written_as (match o with Neg b => (text ++ " - " ++ print_expr show b)%string | _ => (text ++ " + " ++ print_expr show o)%string end) w2 /\
          forall E t s, meaning E (id_variables ids) w2 t s = olift2 Qcplus (f E t s) (den E o t s)).
      { destruct (match o with Neg b => inl b | _ => inr tt end : expr + unit) as [b|] eqn:K.
        - assert (o = Neg b) as -> by (destruct o; congruence). destruct (A2 b eq_refl A3) as (w2 & S2 & W2 & M2).
          exists (WAdd Minus w w2). split; [cbn; lia|]. split; [apply (add_written Minus _ _ _ _ "-"); [lia|lia|constructor|exact W|exact W2]|].
          intros E t s. cbn [meaning addsub]. rewrite M, (M2 E t s). cbn [den]. destruct (f E t s), (den E b t s); reflexivity.
        - destruct (A1 A3) as (w2 & S2 & W2 & M2). exists (WAdd Plus w w2). split; [cbn; lia|]. split.
          + assert (Q : written_as (text ++ " + " ++ print_expr show o)%string (WAdd Plus w w2)).
            { apply (add_written Plus _ _ _ _ "+"); [lia|lia|constructor|exact W|exact W2]. }
            destruct o; try discriminate K; exact Q.
          + intros E t s. cbn [meaning addsub]. now rewrite M, (M2 E t s). }
      destruct Step as (w2 & S2 & W2 & M2). cbn [fold_left]. destruct (IH H1 H2 H3 _ w2 _ S2 W2 M2) as (w' & W' & M').
      exists w'. split; [exact W'|]. intros E t s. rewrite M'. cbn [map osum].
      destruct (f E t s), (den E o t s), (osum (map (fun a => den E a t s) l)); cbn; try reflexivity. f_equal. ring.
  Qed.
  Lemma arithmetic_all l : arithmetic show ids (Add l) -> l <> [] /\ Forall (arithmetic show ids) l.
  Proof.
    cbn. intros [N A]. split; [exact N|]. clear N. induction l as [|a l IH]; constructor; [tauto|]. apply IH. tauto.
  Qed.
  Lemma printed e : (arithmetic show ids e -> exists w, reads_back (print_expr show e) e w) /\
    (forall b, e = Neg b -> arithmetic show ids b -> exists w, reads_back (print_expr show b) b w).
  Proof.
    induction e using expr_ind'; (split; [intros A|intros b' [= <-]; try tauto]); try (cbn in A; contradiction).
    - destruct A as (q & -> & N). cbn [print_expr]. remember (show (Fin q)) as text eqn:Et. destruct N as [n H|n H].
      + exists (WNumber n). split; [reflexivity|]. split; [now apply number_written|]. intros E t s. reflexivity.
      + exists (WNeg (WNumber n)). split; [reflexivity|]. split; [apply neg_written; [reflexivity|now apply number_written]|]. intros E t s. reflexivity.
    - destruct IHe as [IHe _]. destruct (IHe A) as (w & S & W & M). exists (WNeg (WParen w)). split; [reflexivity|].
      split; [|intros E t s; cbn [meaning den]; now rewrite (M E t s)].
      change (print_expr show (Neg e)) with ("-" ++ ("(" ++ print_expr show e ++ ")"))%string. apply neg_written; [reflexivity|]. now apply paren_written.
    - apply arithmetic_all in A as [N A]. destruct l as [|a l]; [contradiction|]. apply Forall_cons_iff in H as [[Ha _] H]. apply Forall_cons_iff in A as [Aa A].
      destruct (Ha Aa) as (w & S & W & M).
      destruct (sum_written l) with (text := print_expr show a) (w := w) (f := fun E t s => den E a t s) as (w' & W' & M'); auto.
      + eapply Forall_impl; [|exact H]. intros o [K _]. exact K.
      + eapply Forall_impl; [|exact H]. intros o [_ K]. exact K.
      + lia.
      + exists (WParen w'). split; [reflexivity|]. split; [now apply (paren_written _ w')|]. intros E t s. cbn [meaning den map osum]. rewrite M'. reflexivity.
    - destruct A as [A B]. destruct IHe1 as [IH1 _], IHe2 as [IH2 _]. destruct (IH1 A) as (w1 & S1 & W1 & M1), (IH2 B) as (w2 & S2 & W2 & M2).
      exists (WParen (WMul Times w1 w2)). split; [reflexivity|]. split; [|intros E t s; cbn [meaning den muldiv]; now rewrite (M1 E t s), (M2 E t s)].
      assert (Q : written_as (print_expr show e1 ++ " " ++ "*" ++ " " ++ print_expr show e2)%string (WMul Times w1 w2)).
      { apply mul_written; [lia|lia|constructor|exact W1|exact W2]. }
      apply paren_written in Q. rewrite !string_assoc in Q. exact Q.
    - destruct A as [A B]. destruct IHe1 as [IH1 _], IHe2 as [IH2 _]. destruct (IH1 A) as (w1 & S1 & W1 & M1), (IH2 B) as (w2 & S2 & W2 & M2).
      exists (WParen (WMul Over w1 w2)). split; [reflexivity|]. split; [|intros E t s; cbn [meaning den muldiv]; now rewrite (M1 E t s), (M2 E t s)].
      assert (Q : written_as (print_expr show e1 ++ " " ++ "/" ++ " " ++ print_expr show e2)%string (WMul Over w1 w2)).
      { apply mul_written; [lia|lia|constructor|exact W1|exact W2]. }
      apply paren_written in Q. rewrite !string_assoc in Q. exact Q.
    - destruct A as [P A]. exists (WName n). split; [reflexivity|]. split; [apply name_written; auto|]. intros E t s. cbn. unfold name_value.
      apply existsb_In in A. now rewrite A.
    - destruct A as (P & A & B). exists (WName n). split; [reflexivity|]. split; [apply name_written; auto|]. intros E t s. cbn. unfold name_value.
      destruct (existsb (String.eqb n) (id_variables ids)) eqn:K; [apply existsb_In in K; contradiction|reflexivity].
    - destruct A as [A B]. exists (WField p f). split; [reflexivity|]. split; [now apply field_written|]. intros E t s. reflexivity.
  Qed.
  Lemma written_text text w : written_as text w -> spells text (tokens w).
  Proof.
    intros (_ & _ & _ & S). specialize (S "" [] (or_introl eq_refl) (sp_end "" I)). rewrite app_nil_r in S.
    now replace (text ++ "")%string with text in S by (clear; induction text as [|c text IH]; cbn; congruence).
  Qed.
  Lemma print_parse e : arithmetic show ids e ->
    exists x, parse_expression (print_expr show e) ids = Ok (PVal x) /\ forall E t s, den E x t s = den E e t s.
  Proof.
    intros A. destruct (printed e) as [H _]. destruct (H A) as (w & _ & W & M). pose proof (written_text _ _ W) as S. destruct W as (U & P & D & _).
    destruct (parse_expression_meaning _ _ _ S U P D) as (x & E & Hx). exists x. split; [exact E|]. intros. rewrite Hx. apply M.
  Qed.
  Lemma print_parse_comparison a b c : c <> EQUAL -> arithmetic show ids a -> arithmetic show ids b ->
    exists x y, parse_expression (print_expr show (Cmp a b c)) ids = Ok (PVal (Cmp x y c)) /\
      forall E t s, den E x t s = den E a t s /\ den E y t s = den E b t s.
  Proof.
    intros C A B. destruct (printed a) as [Ha _], (printed b) as [Hb _]. destruct (Ha A) as (w & Sw & W & M), (Hb B) as (w' & Sw' & W' & M').
    assert (Q : written_as (print_expr show (Cmp a b c)) (WCmp c w w')).
    { cbn [print_expr]. apply cmp_written; [lia|lia|destruct c; [constructor|contradiction|constructor]|exact W|exact W']. }
    pose proof (written_text _ _ Q) as S. destruct Q as (U & P & D & _).
    destruct (parse_expression_comparison _ _ _ _ _ S U P D) as (x & y & E & Hx). exists x, y. split; [exact E|]. intros E0 t s.
    destruct (Hx E0 t s) as [-> ->]. split; [apply M|apply M'].
  Qed.
End Read.

(** ** Integers, as python prints them *)
From Coq Require Import DecimalString DecimalZ DecimalPos.
From Verif Require Import Optim.
Definition text_of (d : Decimal.uint) : string := NilEmpty.string_of_uint d.
Lemma text_digits d : all_chars digit (text_of d).
Proof. induction d; cbn [text_of NilEmpty.string_of_uint]; [exact I|..]; (split; [apply digit_iff; reflexivity|exact IHd]). Qed.
Lemma text_nonempty d : d <> Decimal.Nil -> digits (text_of d).
Proof. intros H. split; [destruct d; [contradiction|discriminate..]|apply text_digits]. Qed.
Lemma text_value_acc d : forall acc, Zpos (Pos.of_uint_acc d acc) = digits_value (Zpos acc) (text_of d).
Proof.
  induction d; intros acc; [reflexivity|..]; cbn [Pos.of_uint_acc text_of NilEmpty.string_of_uint digits_value]; rewrite IHd; f_equal;
    match goal with |- _ = (_ + digit_value ?c)%Z => let v := eval vm_compute in (digit_value c) in change (digit_value c) with v end; lia.
Qed.
Lemma text_value d : Z.of_N (Pos.of_uint d) = digits_value 0 (text_of d).
Proof.
  induction d; cbn [Pos.of_uint text_of NilEmpty.string_of_uint digits_value]; [reflexivity|exact IHd|..]; cbn [Z.of_N]; rewrite text_value_acc; reflexivity.
Qed.
Lemma split_digits s : all_chars digit s -> split_point s = (s, None).
Proof.
  induction s as [|c s IH]; cbn; [reflexivity|]. intros [H A]. destruct (Ascii.eqb_spec c ".") as [->|_]; [|now rewrite (IH A)].
  apply digit_iff in H. discriminate H.
Qed.
Lemma decimal_text d : decimal_value (text_of d) = Z2Qc (Z.of_N (Pos.of_uint d)).
Proof.
  unfold decimal_value. rewrite split_digits by apply text_digits. now rewrite <- natural_value, text_value by apply text_digits.
Qed.
Lemma to_uint_text p : NilZero.string_of_uint (Pos.to_uint p) = text_of (Pos.to_uint p) /\ Pos.to_uint p <> Decimal.Nil.
Proof.
  assert (N : Pos.to_uint p <> Decimal.Nil).
  { intros H. assert (K : Pos.of_uint (Pos.to_uint p) = N.pos p) by apply DecimalPos.Unsigned.of_to. rewrite H in K. discriminate. }
  split; [|exact N]. unfold NilZero.string_of_uint, text_of. destruct (Pos.to_uint p); [contradiction|reflexivity..].
Qed.
Lemma integer_numeral z : numeral (string_of_Z z) (Z2Qc z).
Proof.
  destruct z as [|p|p].
  - replace (Z2Qc 0) with (decimal_value "0") by (vm_compute; apply Qc_is_canon; reflexivity). apply nu_positive. left. split; [discriminate|].
    split; [apply digit_iff; reflexivity|exact I].
  - unfold string_of_Z. cbn [Z.to_int NilZero.string_of_int]. destruct (to_uint_text p) as [-> N].
    replace (Z2Qc (Zpos p)) with (decimal_value (text_of (Pos.to_uint p))) by (rewrite decimal_text, DecimalPos.Unsigned.of_to; reflexivity).
    apply nu_positive. left. now apply text_nonempty.
  - unfold string_of_Z. cbn [Z.to_int NilZero.string_of_int]. destruct (to_uint_text p) as [-> N].
    replace (Z2Qc (Zneg p)) with (- decimal_value (text_of (Pos.to_uint p)))%Qc.
    + apply (nu_negative (text_of (Pos.to_uint p))). left. now apply text_nonempty.
    + rewrite decimal_text, DecimalPos.Unsigned.of_to. cbn [Z.of_N]. rewrite <- Z2Qc_opp. reflexivity.
Qed.
