(** The lexer cuts a text exactly as [spells] says. *)
From Coq Require Import Ascii Lia.
From Verif Require Import Base BaseFacts Expr SpecExpr Parse SpecParse.
Local Open Scope string_scope.
Local Open Scope list_scope.

Lemma between_spec lo hi c :
  between lo hi c = true <-> (nat_of_ascii lo <= nat_of_ascii c <= nat_of_ascii hi)%nat.
Proof.
  unfold between, nat_of_ascii. rewrite andb_true_iff, !N.leb_le. lia.
Qed.

Lemma digit_iff c : is_digit c = true <-> digit c.
Proof.
  unfold is_digit, digit. rewrite between_spec.
  change (nat_of_ascii "0") with 48%nat. change (nat_of_ascii "9") with 57%nat. split.
  - intros H. exists (nat_of_ascii c). split; [exact H | symmetry; apply ascii_nat_embedding].
  - intros (k & Hk & ->). rewrite nat_ascii_embedding by lia. exact Hk.
Qed.

Lemma letter_iff c : is_char c = true <-> letter c.
Proof.
  unfold is_char, letter. rewrite !orb_true_iff, !between_spec, Ascii.eqb_eq.
  change (nat_of_ascii "a") with 97%nat. change (nat_of_ascii "z") with 122%nat.
  change (nat_of_ascii "A") with 65%nat. change (nat_of_ascii "Z") with 90%nat. split.
  - intros [H| ->]; [left|right; reflexivity].
    exists (nat_of_ascii c). split; [lia | symmetry; apply ascii_nat_embedding].
  - intros [(k & Hk & ->)| ->]; [left|right; reflexivity]. rewrite nat_ascii_embedding by lia. lia.
Qed.

Lemma word_char_iff c : is_char_or_digit c = true <-> letter c \/ digit c.
Proof. unfold is_char_or_digit. now rewrite orb_true_iff, letter_iff, digit_iff. Qed.

Lemma blank_iff c : is_space c = true <-> blank c.
Proof.
  unfold is_space, blank. rewrite !orb_true_iff, !Ascii.eqb_eq. cbn [In]. intuition congruence.
Qed.

Lemma all_chars_iff (f : ascii -> bool) P :
  (forall c, f c = true <-> P c) -> forall s, all_chars (fun c => f c = true) s <-> all_chars P s.
Proof. intros H. induction s as [|c s IH]; cbn; [tauto|]. now rewrite H, IH. Qed.
Lemma starts_iff (f : ascii -> bool) P :
  (forall c, f c = true <-> P c) -> forall s, starts (fun c => f c = true) s <-> starts P s.
Proof. intros H [|c s]; cbn; [tauto|apply H]. Qed.

Lemma span_spec f s a b : span f s = (a, b) ->
  s = (a ++ b)%string /\ all_chars (fun c => f c = true) a /\ ~ starts (fun c => f c = true) b.
Proof.
  revert a b. induction s as [|c s IH]; intros a b; cbn.
  - intros [= <- <-]. cbn. auto.
  - destruct (f c) eqn:F.
    + destruct (span f s) as [x y] eqn:Sp. intros [= <- <-]. destruct (IH _ _ eq_refl) as (H1 & H2 & H3).
      cbn. now rewrite <- H1.
    + intros [= <- <-]. cbn. rewrite F. repeat split; auto.
Qed.

Lemma span_app f a b :
  all_chars (fun c => f c = true) a -> ~ starts (fun c => f c = true) b -> span f (a ++ b) = (a, b).
Proof.
  intros Ha Hb. induction a as [|c a IH]; cbn.
  - destruct b as [|c b]; cbn; [reflexivity|]. cbn in Hb. destruct (f c); [congruence|reflexivity].
  - destruct Ha as [Hc Ha]. rewrite Hc, (IH Ha). reflexivity.
Qed.

Lemma str_app_assoc (a b c : string) : ((a ++ b) ++ c = a ++ (b ++ c))%string.
Proof. induction a as [|x a IH]; cbn; [reflexivity|]. now rewrite IH. Qed.
Lemma str_app_nil (a : string) : (a ++ "" = a)%string.
Proof. induction a as [|x a IH]; cbn; [reflexivity|]. now rewrite IH. Qed.
Lemma str_app_length (a b : string) : String.length (a ++ b) = (String.length a + String.length b)%nat.
Proof. induction a as [|x a IH]; cbn; [reflexivity|]. now rewrite IH. Qed.

Definition digits_of s := all_chars (fun c => is_digit c = true) s.
Lemma digits_of_iff s : digits_of s <-> all_chars digit s.
Proof. apply all_chars_iff, digit_iff. Qed.

Lemma digit_not_char c : is_digit c = true -> is_char c = false.
Proof.
  intros H. destruct (is_char c) eqn:C; [|reflexivity].
  apply digit_iff in H. apply letter_iff in C. destruct H as (k & Hk & ->).
  destruct C as [(k' & Hk' & E)|E].
  - apply (f_equal nat_of_ascii) in E. rewrite !nat_ascii_embedding in E by lia. lia.
  - apply (f_equal nat_of_ascii) in E. rewrite nat_ascii_embedding in E by lia.
    change (nat_of_ascii "_") with 95%nat in E. lia.
Qed.
Lemma dot_not_digit : is_digit "." = false. Proof. reflexivity. Qed.

Lemma lex_number_spec s n rest :
  starts digit s -> lex_number s = (n, rest) ->
  s = (n ++ rest)%string /\ is_number n /\ may_follow (TkNumber n) rest.
Proof.
  intros Hs. unfold lex_number. destruct (span is_digit s) as [a r] eqn:Sp.
  destruct (span_spec _ _ _ _ Sp) as (E & Ha & Hr).
  assert (Hna : digits a).
  { split; [|now apply digits_of_iff]. intros ->. cbn in E. subst s. apply Hr.
    now apply (proj2 (starts_iff _ _ digit_iff _)). }
  assert (Hr' : ~ starts digit r) by (intros X; apply Hr; now apply (proj2 (starts_iff _ _ digit_iff _))).
  destruct r as [|c [|d r']].
  - intros [= <- <-]. split; [exact E|]. split; [left; exact Hna|]. split; [exact Hr'|]. intros _ c rest' X. discriminate.
  - intros [= <- <-]. split; [exact E|]. split; [left; exact Hna|]. split; [exact Hr'|].
    intros _ c' rest' X. discriminate.
  - destruct (Ascii.eqb c "." && is_digit d) eqn:B.
    + apply andb_true_iff in B. destruct B as [Bc Bd]. apply Ascii.eqb_eq in Bc. subst c.
      destruct (span is_digit (String d r')) as [x y] eqn:Sq.
      destruct (span_spec _ _ _ _ Sq) as (E2 & Hx & Hy).
      intros [= <- <-]. rewrite str_app_assoc. cbn [append]. rewrite <- E2. split; [exact E|].
      split.
      * right. exists a, x. split; [exact Hna|]. split; [|reflexivity]. split; [|now apply digits_of_iff].
        intros ->. cbn in E2. subst y. apply Hy. cbn. exact Bd.
      * split; [intros X; apply Hy; now apply (proj2 (starts_iff _ _ digit_iff _))|].
        intros [_ Hd] c rest' _. exfalso. revert Hd. clear. induction a as [|z a IH]; cbn.
        { intros [X _]. apply digit_iff in X. discriminate. }
        { intros [_ X]. exact (IH X). }
    + intros [= <- <-]. split; [exact E|]. split; [left; exact Hna|]. split; [exact Hr'|].
      intros _ c' rest' [= -> -> ->] X. apply digit_iff in X. rewrite X in B. discriminate.
Qed.

Lemma lex_number_app n rest :
  is_number n -> may_follow (TkNumber n) rest -> lex_number (n ++ rest) = (n, rest).
Proof.
  intros Hn [Hr Hd]. assert (Hr' : ~ starts (fun c => is_digit c = true) rest).
  { intros X. apply Hr. now apply (proj1 (starts_iff _ _ digit_iff _)). }
  unfold lex_number. destruct Hn as [Hn|(a & b & Ha & Hb & ->)].
  - rewrite (span_app _ n rest) by (try exact Hr'; apply digits_of_iff, Hn).
    destruct rest as [|c [|d r']]; try reflexivity.
    destruct (Ascii.eqb c "." && is_digit d) eqn:B; [|reflexivity].
    apply andb_true_iff in B. destruct B as [Bc Bd]. apply Ascii.eqb_eq in Bc. subst c.
    exfalso. apply (Hd Hn d r' eq_refl). now apply digit_iff.
  - rewrite str_app_assoc. cbn [append]. rewrite (span_app _ a).
    2: apply digits_of_iff, Ha. 2: cbn; discriminate.
    destruct Hb as [Hb1 Hb2]. apply digits_of_iff in Hb2. destruct b as [|d b]; [congruence|].
    pose proof Hb2 as [Hd1 _]. cbn [append].
    rewrite Hd1, andb_true_r. cbn [Ascii.eqb Bool.eqb].
    change (String d (b ++ rest)%string) with ((String d b) ++ rest)%string.
    now rewrite (span_app _ (String d b) rest Hb2 Hr').
Qed.

Lemma word_cases w : is_word w ->
  token_text (word w) w /\ forall rest, ~ starts (fun c => letter c \/ digit c) rest -> may_follow (word w) rest.
Proof.
  intros Hw. unfold word. destruct (String.eqb_spec w "sum") as [->|N1]; [split; [constructor|auto]|].
  destruct (String.eqb_spec w "sum_connections") as [->|N2]; [split; [constructor|auto]|].
  destruct (String.eqb_spec w "t") as [->|N3]; [split; [constructor|auto]|].
  split; [|auto]. constructor; [exact Hw|]. cbn. intuition congruence.
Qed.

Lemma lex_one_spec s tk rest :
  lex_one s = Ok (tk, rest) ->
  exists text, s = (text ++ rest)%string /\ token_text tk text /\ may_follow tk rest.
Proof.
  destruct s as [|c s]; [discriminate|]. unfold lex_one.
  destruct (is_digit c) eqn:D.
  { destruct (lex_number (String c s)) as [n r] eqn:L. intros [= <- <-].
    apply lex_number_spec in L; [|apply digit_iff; exact D]. destruct L as (E & Hn & Hf).
    exists n. split; [exact E|]. split; [now constructor|exact Hf]. }
  destruct (is_char c) eqn:C.
  { destruct (span is_char_or_digit (String c s)) as [w r] eqn:Sp. intros [= <- <-].
    destruct (span_spec _ _ _ _ Sp) as (E & Hw & Hr).
    assert (Hr' : ~ starts (fun c => letter c \/ digit c) r).
    { intros X. apply Hr. now apply (proj2 (starts_iff _ _ word_char_iff _)). }
    destruct (word_cases w) as [Ht Hf].
    { split; [|now apply (all_chars_iff _ _ word_char_iff)].
      destruct w as [|c' w].
      - cbn in E. subst r. exfalso. apply Hr. cbn. unfold is_char_or_digit. now rewrite C.
      - cbn in E. injection E as <- _. cbn. now apply letter_iff. }
    exists w. split; [exact E|]. split; [exact Ht|]. now apply Hf. }
  clear D C.
  destruct c as [b0 b1 b2 b3 b4 b5 b6 b7].
  destruct b0, b1, b2, b3, b4, b5, b6, b7; try discriminate.
  all: try (intros [= <- <-]; eexists (String _ EmptyString); split; [reflexivity|]; split; [constructor|exact I]).
  all: destruct s as [|c s]; try discriminate.
  all: try (intros [= <- <-]; exists "."; split; [reflexivity|]; split; [constructor|cbn; tauto]).
  all: destruct c as [c0 c1 c2 c3 c4 c5 c6 c7].
  all: destruct c0, c1, c2, c3, c4, c5, c6, c7; try discriminate.
  all: intros [= <- <-].
  all: try (exists "."; split; [reflexivity|]; split; [constructor|]; cbn; intros X; discriminate X).
  all: eexists (String _ (String _ EmptyString)); split; [reflexivity|]; split; [constructor|exact I].
Qed.

Lemma token_text_nonempty tk s : token_text tk s -> (0 < String.length s)%nat.
Proof.
  destruct 1; cbn [String.length]; try lia.
  - destruct H as [[H _]|(a & b & _ & _ & ->)]; [destruct n; [congruence|cbn; lia]|rewrite str_app_length; cbn; lia].
  - destruct H as [H _]. destruct w; [contradiction|cbn; lia].
Qed.

Lemma starts_token tk s rest : token_text tk s -> ~ starts (fun c => is_space c = true) (s ++ rest).
Proof.
  intros H X. apply (starts_iff _ _ blank_iff) in X. revert X.
  destruct H; cbn; unfold blank; cbn [In]; try (intuition discriminate).
  - assert (D : starts digit (n ++ rest)).
    { destruct H as [[H1 H2]|(a & b & [H1 H2] & _ & ->)].
      - destruct n; [congruence|]. exact (proj1 H2).
      - destruct a; [congruence|]. exact (proj1 H2). }
    destruct (n ++ rest)%string as [|c r]; [tauto|]. cbn in D. apply digit_iff in D. cbn.
    intros [<-|[<-|[<-|[<-|[]]]]]; discriminate.
  - destruct H as [H _]. destruct w as [|c w]; [contradiction|]. cbn in *. apply letter_iff in H.
    intros [<-|[<-|[<-|[<-|[]]]]]; discriminate.
Qed.

Lemma lex_word w rest : is_word w -> ~ starts (fun c => letter c \/ digit c) rest ->
  lex_one (w ++ rest) = Ok (word w, rest).
Proof.
  intros [H1 H2] Hr. destruct w as [|c w]; [contradiction|]. cbn in H1. apply letter_iff in H1.
  cbn [append lex_one]. destruct (is_digit c) eqn:D.
  { apply digit_not_char in D. congruence. }
  rewrite H1. change (String c (w ++ rest)%string) with ((String c w) ++ rest)%string.
  rewrite (span_app is_char_or_digit); [reflexivity | |].
  - now apply (all_chars_iff _ _ word_char_iff).
  - intros X. apply Hr. now apply (proj1 (starts_iff _ _ word_char_iff _)).
Qed.

Lemma lex_one_app tk s rest :
  token_text tk s -> may_follow tk rest -> lex_one (s ++ rest) = Ok (tk, rest).
Proof.
  intros H F. destruct H; try reflexivity.
  - pose proof (lex_number_app _ _ H F) as L.
    assert (D : starts digit n).
    { destruct H as [[H1 H2]|(a & b & [H1 H2] & _ & ->)].
      - destruct n; [congruence|]. exact (proj1 H2).
      - destruct a; [congruence|]. exact (proj1 H2). }
    destruct n as [|c n]; [contradiction|]. cbn in D. apply digit_iff in D.
    cbn [append lex_one] in *. rewrite D, L. reflexivity.
  - rewrite (lex_word _ _ H F). unfold word.
    destruct (String.eqb_spec w "sum") as [->|_]; [exfalso; apply H0; cbn; tauto|].
    destruct (String.eqb_spec w "sum_connections") as [->|_]; [exfalso; apply H0; cbn; tauto|].
    destruct (String.eqb_spec w "t") as [->|_]; [exfalso; apply H0; cbn; tauto|]. reflexivity.
  - apply (lex_word "t"); [|exact F]. split; [apply letter_iff; reflexivity|].
    apply (all_chars_iff _ _ word_char_iff). cbn. tauto.
  - apply (lex_word "sum"); [|exact F]. split; [apply letter_iff; reflexivity|].
    apply (all_chars_iff _ _ word_char_iff). cbn. tauto.
  - apply (lex_word "sum_connections"); [|exact F]. split; [apply letter_iff; reflexivity|].
    apply (all_chars_iff _ _ word_char_iff). cbn. repeat split; reflexivity.
  - destruct rest as [|c r]; [reflexivity|]. cbn in F. cbn.
    destruct c as [c0 c1 c2 c3 c4 c5 c6 c7].
    destruct c0, c1, c2, c3, c4, c5, c6, c7; try reflexivity. exfalso. apply F. reflexivity.
Qed.

Lemma lex_fuel_eq n s :
  lex_fuel n s = match snd (span is_space s) with
                 | EmptyString => Ok []
                 | s => match n with O => Err OutOfFuel
                        | S n => r <- lex_one s ;; ts <- lex_fuel n (snd r) ;; Ok (fst r :: ts) end
                 end.
Proof. destruct n; reflexivity. Qed.

Lemma lex_fuel_sound n s ts : lex_fuel n s = Ok ts -> spells s ts.
Proof.
  revert s ts. induction n as [|n IH]; intros s ts; rewrite lex_fuel_eq;
    destruct (span is_space s) as [w r] eqn:Sp; destruct (span_spec _ _ _ _ Sp) as (E & Hw & Hr);
    apply (all_chars_iff _ _ blank_iff) in Hw; cbn [snd].
  - destruct r; [|discriminate]. intros [= <-]. rewrite str_app_nil in E. subst s. now constructor.
  - destruct r as [|c r].
    + intros [= <-]. rewrite str_app_nil in E. subst s. now constructor.
    + intros H. inv_bind H. inv_bind H. injection H as <-. destruct v as [tk rest]. cbn [fst snd] in *.
      apply lex_one_spec in H0. destruct H0 as (text & E2 & Ht & Hf).
      rewrite E, E2. econstructor; eauto.
Qed.

Lemma lex_fuel_complete s ts : spells s ts -> forall n, (String.length s <= n)%nat -> lex_fuel n s = Ok ts.
Proof.
  induction 1 as [s Hs|w s rest tk ts Hw Ht Hf Hsp IH]; intros n Hn; rewrite lex_fuel_eq.
  - rewrite <- (str_app_nil s), (span_app is_space s ""); [reflexivity| |cbn; tauto].
    now apply (all_chars_iff _ _ blank_iff).
  - pose proof (token_text_nonempty _ _ Ht) as L0. rewrite !str_app_length in Hn.
    rewrite (span_app is_space w (s ++ rest)); [|now apply (all_chars_iff _ _ blank_iff)|eapply starts_token; eauto].
    cbn [snd]. pose proof (lex_one_app _ _ rest Ht Hf) as L1.
    destruct (s ++ rest)%string as [|c r] eqn:E.
    + destruct s; [cbn in L0; lia|discriminate].
    + destruct n as [|n]; [lia|]. rewrite L1. cbn [bind fst snd]. rewrite IH by lia. reflexivity.
Qed.

Lemma lex_spells s ts : lex s = Ok ts <-> spells s ts.
Proof.
  split; [apply lex_fuel_sound|]. intros H. now apply lex_fuel_complete.
Qed.
