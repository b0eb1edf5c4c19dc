(** Texts that have a value (see PropRun.v). *)
From Coq Require Import Lia.
From Verif Require Import Base BaseFacts Expr SpecExpr Parse SpecParse ParseMeaning SpecMain ExpansionFacts.
Local Open Scope string_scope.
Local Open Scope list_scope.

Lemma osum_all (l : list (option Qc)) : (forall x, In x l -> x <> None) -> osum l <> None.
Proof.
  induction l as [|x l IH]; intros H; [discriminate|]. assert (Hx := H x (or_introl eq_refl)).
  assert (Hl := IH (fun y Hy => H y (or_intror Hy))). cbn. destruct x; [|congruence]. destruct (osum l); [discriminate|congruence].
Qed.
Section Value.
  Context (E : env) (vars : list string).
  Let S := e_S E.
  Definition always (f : Z -> Z -> option Qc) : Prop := forall t s, (0 <= s < S)%Z -> f t s <> None.
  Definition whole (f : Z -> Z -> option Qc) : Prop := forall t s, (0 <= s < S)%Z -> exists z, f t s = Some (Z2Qc z).
  (** divisions by names and numbers that are never zero only *)
  Definition valued_part (w : wexpr) : Prop :=
    match w with
    | WName x => always (name_value E vars x)
    | WMul Over _ r => forall t s, (0 <= s < S)%Z -> meaning E vars r t s <> Some 0%Qc
    | WField p f => exists v, e_port E p f = [v] /\ always v
    | WSumPorts p f => forall v, In v (e_port E p f) -> always v
    | WCall f _ => f = "expec"
    | WAt x k => always (name_value E vars x) /\ whole (shift_meaning E vars k)
    | WSumOver a b _ => whole (shift_meaning E vars a) /\ whole (shift_meaning E vars b)
    | WIndex x k => always (name_value E vars x) /\ whole (meaning E vars k)
    | WCmp _ _ _ | WAtParen _ _ | WIndexParen _ _ => False
    | _ => True
    end.
  Lemma whole_oint f t s : whole f -> (0 <= s < S)%Z -> exists z, oint (f t s) = Some z.
  Proof. intros H Hs. destruct (H t s Hs) as [z ->]. exists z. apply oint_Z. Qed.
  Lemma text_has_value w : throughout valued_part w -> always (meaning E vars w).
  Proof.
    induction w; intros H t s Hs; cbn [throughout valued_part meaning] in *.
    - discriminate.
    - now apply H.
    - destruct H as [(v & -> & Hv) _]. now apply Hv.
    - destruct H as [_ H]. specialize (IHw H t s Hs). destruct (meaning E vars w t s); [discriminate|congruence].
    - apply IHw; tauto.
    - destruct H as (H & H1 & H2). specialize (IHw1 H1 t s Hs). specialize (IHw2 H2 t s Hs).
      destruct (meaning E vars w1 t s); [|congruence]. destruct o; cbn.
      + destruct (meaning E vars w2 t s); [discriminate|congruence].
      + specialize (H t s Hs). destruct (meaning E vars w2 t s) as [d|]; [|congruence].
        unfold odiv. destruct (Qceqb d 0) eqn:B; [|discriminate]. apply Qceqb_eq in B. congruence.
    - destruct H as (H & H1 & H2). specialize (IHw1 H1 t s Hs). specialize (IHw2 H2 t s Hs).
      destruct (meaning E vars w1 t s); [|congruence]. destruct (meaning E vars w2 t s); [|congruence]. destruct o; discriminate.
    - contradiction (proj1 H).
    - destruct H as [_ H]. apply osum_all. intros x Hx. apply in_map_iff in Hx. destruct Hx as (i & <- & _). now apply IHw.
    - destruct H as [H _]. apply osum_all. intros x Hx. apply in_map_iff in Hx. destruct Hx as (v & <- & Hv). now apply H.
    - destruct H as ([H1 H2] & _ & _ & H). destruct (whole_oint _ t s H1 Hs) as [i Ei], (whole_oint _ t s H2 Hs) as [j Ej].
      change (match oint (shift_meaning E vars a t s), oint (shift_meaning E vars b t s) with
        | Some i, Some j => osum (map (fun k => meaning E vars w (t + k) s) (zrange i (j + 1))) | _, _ => None end <> None). rewrite Ei, Ej.
      apply osum_all. intros x Hx. apply in_map_iff in Hx. destruct Hx as (k & <- & _). now apply IHw.
    - destruct H as [-> H]. cbn. unfold omean. assert (X : osum (map (fun i => meaning E vars w t i) (zrange 0 (e_S E))) <> None).
      { apply osum_all. intros x Hx. apply in_map_iff in Hx. destruct Hx as (k & <- & Hk). apply zrange_In in Hk. apply IHw; [exact H|]. unfold S. lia. }
      destruct (Z.leb_spec (e_S E) 0); [exfalso; unfold S in Hs; lia|]. destruct (osum _) as [q|]; [discriminate|congruence].
    - destruct H as [[H1 H2] _]. destruct (whole_oint _ t s H2 Hs) as [i Ei].
      change (match oint (shift_meaning E vars k t s) with Some z => name_value E vars x (t + z) s | None => None end <> None).
      rewrite Ei. now apply H1.
    - destruct H as [[H1 H2] _]. destruct (whole_oint _ t s H2 Hs) as [i ->]. now apply H1.
    - contradiction (proj1 H).
    - contradiction (proj1 H).
  Qed.
End Value.
