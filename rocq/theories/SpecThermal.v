(** Specification of the preprocessing of thermal clusters (C43). *)
From Coq Require Import Ascii.
From Verif Require Import Base Thermal.
Local Open Scope string_scope.

(** the value at a row and a column *)
Definition at_cell (t : table) (i j : nat) : option num :=
  match nth_error (tb_rows t) i with Some row => nth_error row j | None => None end.
Definition shape (t : table) (rows columns : nat) : Prop :=
  List.length (tb_rows t) = rows /\ tb_width t = columns /\ forall row, In row (tb_rows t) -> List.length row = columns.
(** a table of [rows] rows and [columns] columns with the values [v] *)
Definition has_values (t : table) (rows columns : nat) (v : nat -> nat -> Qc) : Prop :=
  shape t rows columns /\ forall i j, (i < rows)%nat -> (j < columns)%nat -> at_cell t i j = Some (Fin (v i j)).
(** the least integer [k] such that [k] units of size [size] cover the power [p] *)
Definition covers (size p : Qc) (k : Z) : Prop := ((Z2Qc k - 1) * size < p /\ p <= Z2Qc k * size)%Qc.
(** a cluster with finite data over [n] hours and [m] scenarios: modulation, available power, size and number of units *)
Record regular (c : cluster) (n m : nat) (modulation : nat -> Qc) (power : nat -> nat -> Qc) (size : Qc) : Prop := {
  rg_series : has_values (th_series c) n m power;
  rg_width : (3 < tb_width (th_modulation c))%nat;
  rg_rows : List.length (tb_rows (th_modulation c)) = n;
  rg_modulation : forall i, (i < n)%nat -> at_cell (th_modulation c) i 3 = Some (Fin (modulation i));
  rg_size : th_nominal_capacity c = Fin size
}.
(** [q] is the smallest of [a] and of the values [f 0], ..., [f (m - 1)] *)
Definition smallest (q a : Qc) (m : nat) (f : nat -> Qc) : Prop :=
  (q <= a)%Qc /\ (forall j, (j < m)%nat -> (q <= f j)%Qc) /\ (q = a \/ exists j, (j < m)%nat /\ q = f j).
(** the hour before hour [i], in periods of [p] hours that are closed on themselves, among [n] hours *)
Definition hour_before (n p i : nat) : nat :=
  if Nat.eqb (Nat.modulo i p) 0 then Nat.min (i + p - 1) (n - 1) else (i - 1)%nat.
(** the table written by a request for a parameter *)
Definition written (study : string) (c : cluster) (id : string) (period : Z) (t : table) : Prop :=
  exists path parameter, generate_component_parameter study c id period = Ok ((path, t), parameter).
(** the parameters of the documentation *)
Definition known : list string :=
  ["p_min_cluster"; "nb_units_min"; "nb_units_max"; "nb_units_max_variation_forward"; "nb_units_max_variation_backward"]%list.
Fixpoint no_slash (s : string) : Prop :=
  match s with EmptyString => True | String c s => c <> "/"%char /\ no_slash s end.
