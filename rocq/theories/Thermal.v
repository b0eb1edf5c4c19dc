(** Preprocessing of thermal clusters (src/andromede/input_converter/src/data_preprocessing/thermal.py).  Definitions only. *)
From Coq Require Import Qround.
From Verif Require Import Base Study.
Local Open Scope string_scope.
Local Open Scope list_scope.

(** ** Tables, as far as thermal.py uses pandas and numpy *)
(** a DataFrame of numbers, rows numbered from 0, thermal.py:44, 47, 65: the number of columns, and the rows *)
Record table := { tb_width : nat; tb_rows : list (list num) }.
(** `df.iloc[:, k]`, thermal.py:44-46: IndexError without such a column *)
Definition column (k : nat) (t : table) : result (list num) :=
  if Nat.ltb k (tb_width t) then Ok (map (fun row => nth k row NaN) (tb_rows t)) else Err IndexError.
(** elementwise operations, thermal.py:61, 68 *)
Definition each (f : num -> num) (t : table) : table := {| tb_width := tb_width t; tb_rows := map (map f) (tb_rows t) |}.
(** `min(axis=1)` on one row, thermal.py:52-54: NaN is skipped, NaN if there is nothing else *)
Definition row_min (row : list num) : num :=
  fold_left (fun acc x => match acc with
                          | NaN => x
                          | _ => if nltb x acc then x else acc
                          end) row NaN.
(** row [i] of `pd.concat([a, b], axis=1)`, thermal.py:52: aligned on row numbers, NaN where one has no row *)
Definition concat_row (a : list num) (b : table) (i : nat) : list num :=
  nth i a NaN :: nth i (tb_rows b) (repeat NaN (tb_width b)).
(** numpy float division, thermal.py:61, 68: dividing by zero gives an infinity or NaN, without exception *)
Definition np_div (a b : num) : num :=
  match ndiv a b with
  | Ok v => v
  | Err _ => match a with
             | Fin q => if Qceqb q 0 then NaN else if Qcltb 0 q then PInf else NInf
             | v => v
             end
  end.
(** np.ceil, thermal.py:61, 68 *)
Definition np_ceil (v : num) : num := match v with Fin q => Fin (Z2Qc (Qceiling (this q))) | v => v end.
(** `clip(lower=0)` on a value, thermal.py:97: NaN stays NaN *)
Definition clip0 (v : num) : num := if nltb v n0 then n0 else v.
(** numpy integer `//`, thermal.py:79: 0 when dividing by zero *)
Definition np_floordiv (a b : Z) : Z := if (b =? 0)%Z then 0%Z else (a / b)%Z.
(** numpy integer `%`, thermal.py:78: 0 when dividing by zero *)
Definition np_mod (a b : Z) : Z := if (b =? 0)%Z then 0%Z else (a mod b)%Z.

(** ** Clusters *)
(** what thermal.py reads of a cluster of antares_craft (outside /repo), thermal.py:28-29, 44-49, 65-66 *)
Record cluster := {
  th_area : string;
  th_id : string;
  th_modulation : table;
  th_series : table;
  th_unit_count : Z;
  th_nominal_capacity : num
}.
(** thermal.py:43-55 `_compute_p_min_cluster` *)
Definition p_min_cluster (c : cluster) : result table :=
  modulation <- column 3 (th_modulation c) ;;
  let scaled := map (fun m => nmul (nmul m (th_nominal_capacity c)) (nz (th_unit_count c))) modulation in
  let n := Nat.max (List.length scaled) (List.length (tb_rows (th_series c))) in
  Ok {| tb_width := 1; tb_rows := map (fun i => [row_min (concat_row scaled (th_series c) i)]) (seq 0 n) |}.
(** thermal.py:57-62 `_compute_nb_units_min` *)
Definition nb_units_min (c : cluster) : result table :=
  p <- p_min_cluster c ;;
  Ok (each (fun v => np_ceil (np_div v (th_nominal_capacity c))) p).
(** thermal.py:64-69 `_compute_nb_units_max` *)
Definition nb_units_max (c : cluster) : table :=
  each (fun v => np_ceil (np_div v (th_nominal_capacity c))) (th_series c).

(** thermal.py:12-14 `Direction` *)
Inductive direction := FORWARD | BACKWARD.
(** thermal.py:75-84: the row compared with row [i] among [n] rows; the size of numpy integers is not modelled *)
Definition previous_index (n : nat) (period : Z) (i : nat) : Z :=
  let i := Z.of_nat i in
  if (i =? 0)%Z then 0%Z
  else Z.min (np_mod (i - 1) period + np_floordiv i period * period) (Z.of_nat n - 1).
(** the difference of two rows, thermal.py:87-93 *)
Definition row_sub (a b : list num) : list num := map (fun ab => nsub (fst ab) (snd ab)) (combine a b).
(** thermal.py:86-97: one row of the result *)
Definition variation_row (d : direction) (current previous : list num) : list num :=
  map clip0 (match d with BACKWARD => row_sub current previous | FORWARD => row_sub previous current end).
(** thermal.py:71-100 `_compute_nb_units_max_variation`; `columns[0]` fails on a table without columns *)
Definition nb_units_max_variation (d : direction) (period : Z) (c : cluster) : result table :=
  let units := nb_units_max c in
  let rows := tb_rows units in
  previous <- mapM (fun i => iloc rows (previous_index (List.length rows) period i)) (seq 0 (List.length rows)) ;;
  if Nat.eqb (tb_width units) 0 then Err IndexError
  else Ok {| tb_width := tb_width units; tb_rows := map (fun cp => variation_row d (fst cp) (snd cp)) (combine rows previous) |}.

(** ** Parameters *)
(** study/parsing.py `InputComponentParameter`, as built at thermal.py:117-122 *)
Record component_parameter := { cp_id : string; cp_time_dependent : bool; cp_scenario_dependent : bool; cp_value : string }.
(** thermal.py:31-41: the parameters that can be generated *)
Definition prepro_parameter (id : string) (period : Z) (c : cluster) : option (result table) :=
  if String.eqb id "p_min_cluster" then Some (p_min_cluster c)
  else if String.eqb id "nb_units_min" then Some (nb_units_min c)
  else if String.eqb id "nb_units_max" then Some (Ok (nb_units_max c))
  else if String.eqb id "nb_units_max_variation_forward" then Some (nb_units_max_variation FORWARD period c)
  else if String.eqb id "nb_units_max_variation_backward" then Some (nb_units_max_variation BACKWARD period c)
  else None.
(** thermal.py:23-30: the directory of the series of a cluster; study_path is a path without a final separator *)
Definition series_path (study_path : string) (c : cluster) : string :=
  study_path ++ "/input/thermal/series/" ++ th_area c ++ "/" ++ th_id c.
(** thermal.py:102-103 `_build_csv_path` for the ids above, which have no dot *)
Definition build_csv_path (study_path : string) (c : cluster) (id : string) : string := series_path study_path c ++ "/" ++ id ++ ".txt".
(** `str.removesuffix`, thermal.py:121 *)
Definition removesuffix (suffix s : string) : string :=
  let n := (String.length s - String.length suffix)%nat in
  if String.eqb (String.substring n (String.length suffix) s) suffix && Nat.leb (String.length suffix) (String.length s)
  then String.substring 0 n s else s.
(** thermal.py:105-122 `generate_component_parameter`: the file written and its content, and the parameter.  Failures of
    the file system are not modelled. *)
Definition generate_component_parameter (study_path : string) (c : cluster) (id : string) (period : Z)
  : result ((string * table) * component_parameter) :=
  match prepro_parameter id period c with
  | None => Err ValueError
  | Some r =>
      df <- r ;;
      let path := build_csv_path study_path c id in
      Ok ((path, df), {| cp_id := id; cp_time_dependent := true; cp_scenario_dependent := true; cp_value := removesuffix ".txt" path |})
  end.
(** thermal.py:106: the period when none is given *)
Definition default_period : Z := 0.
(** converter.py:62: the period of a converter *)
Definition converter_period (period : option Z) : Z := match period with Some p => if (p =? 0)%Z then 168 else p | None => 168 end.
