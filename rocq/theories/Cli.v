(** The commands: the simulator (src/andromede/main/main.py, study/parsing.py, study/data.py) and the converter of Antares studies
    (src/andromede/input_converter/src/main.py, converter.py, utils.py).  Definitions only.  `argparse` is modelled from the namespace
    that it makes of the command line: which options were given, with which values.  Paths are texts; `~` and `..` are left out. *)
From Coq Require Import Ascii.
From Verif Require Import Base Expr Model Study Strategy Optim System Library Main Thermal Antares Yaml.
Local Open Scope string_scope.
Local Open Scope list_scope.

(** ** The simulator *)
(** pathlib's `/`, parsing.py:106-109 *)
Definition join (a b : string) : string := (a ++ "/" ++ b)%string.

(** the disk, which does not change during a run: the content of a YAML file (main/main.py:41-42, 54-55, 59-60), the names in a directory
    (parsing.py:110), the table of a text file of a directory (data.py:139-142) *)
Record disk := {
  dk_yaml : string -> result tree;
  dk_list : string -> result (list string);
  dk_table : string -> result frame
}.
(** parsing.py:77-96: the options given *)
Record arguments := {
  ar_study : option string;
  ar_models : option (list string);
  ar_component : option string;
  ar_timeseries : option string;
  ar_duration : option Z;
  ar_scenario : option Z
}.
(** parsing.py:66-72 `ParsedArguments`; the directory of time series is None when it is not given (line 118) *)
Record parsed_arguments := {
  pg_models : list string;
  pg_components : string;
  pg_timeseries : option string;
  pg_duration : Z;
  pg_scenarios : Z
}.
(** truth of `args.component` (parsing.py:101, 115): a path is true *)
Definition is_given {A} (o : option A) : bool := match o with Some _ => true | None => false end.
(** truth of `args.models` (parsing.py:101, 115): a list is true when it is not empty *)
Definition some_models (o : option (list string)) : bool := match o with Some (_ :: _) => true | _ => false end.
(** defaults of parsing.py:91, 94 *)
Definition or_one (o : option Z) : Z := match o with Some z => z | None => 1%Z end.

(** parsing.py:75-123 `parse_cli`; `parser.error` (lines 102, 116) leaves the program *)
Definition parse_cli (dk : disk) (a : arguments) : result parsed_arguments :=
  match ar_study a with
  | Some study =>
      if some_models (ar_models a) || is_given (ar_component a) || is_given (ar_timeseries a) then Err SystemExit
      else
        let components := join (join (join study "input") "components") "components.yml" in
        let timeseries := join (join (join study "input") "components") "series" in
        let models := join (join study "input") "models" in
        files <- dk_list dk models ;;
        Ok {| pg_models := map (join models) files; pg_components := components; pg_timeseries := Some timeseries;
              pg_duration := or_one (ar_duration a); pg_scenarios := or_one (ar_scenario a) |}
  | None =>
      match ar_models a, ar_component a with
      | Some (m :: models), Some component =>
          Ok {| pg_models := m :: models; pg_components := component; pg_timeseries := ar_timeseries a;
                pg_duration := or_one (ar_duration a); pg_scenarios := or_one (ar_scenario a) |}
      | _, _ => Err SystemExit
      end
  end.

(** main/main.py:36-50 `input_libs`, with the files: each is read when its turn comes *)
Definition input_libs_files (show : num -> string) (order : list string -> list string -> list string -> list string)
  (dk : disk) (paths : list string) : result (dict string library) :=
  r <- foldM (fun acc path =>
                t <- dk_yaml dk path ;;
                l <- parse_yaml_library show t ;;
                if existsb (String.eqb (yl_id l)) (snd acc) then Err ValueError
                else Ok (fst acc ++ [l], snd acc ++ [yl_id l])) ([], []) paths ;;
  resolve_library order (fst r) [].

(** data.py:135-147 `load_ts_from_txt`.  Without a directory the name `ts_path` is not bound on line 142, nor on line 147 where the
    exception is handled *)
Definition load_ts_from_txt (dk : disk) (name : string) (directory : option string) : result frame :=
  match directory with
  | Some directory =>
      match dk_table dk (join directory (name ++ ".txt")) with
      | Ok f => Ok f
      | Err FileNotFoundErr => Err FileNotFoundErr
      | Err _ => Err GenericException
      end
  | None => Err UnboundLocalErr
  end.

(** main/main.py:53-55 `input_database` *)
Definition input_database (dk : disk) (path : string) (timeseries : option string) : result database :=
  t <- dk_yaml dk path ;;
  sys <- parse_yaml_components t ;;
  build_data_base (fun name => load_ts_from_txt dk name timeseries) sys.
(** main/main.py:58-60 `input_study` *)
Definition input_study (dk : disk) (path : string) (libs : dict string library) : result system :=
  t <- dk_yaml dk path ;;
  sys <- parse_yaml_components t ;;
  resolve_system sys libs.

(** main/main.py:63-97 `main_cli`, from the options to the call of the solver *)
Definition simulator (show : num -> string) (order : list string -> list string -> list string -> list string)
  (dk : disk) (a : arguments) : result (settings * state) :=
  p <- parse_cli dk a ;;
  lib_dict <- input_libs_files show order dk (pg_models p) ;;
  study <- input_study dk (pg_components p) lib_dict ;;
  _ <- consistency_check (sy_components study) (all_models lib_dict) ;;
  db <- match input_database dk (pg_components p) (pg_timeseries p) with
        | Err UnboundLocalErr => Err SeriesImportErr
        | r => r
        end ;;
  n <- build_network study ;;
  let o := main_settings n db (pg_duration p) (pg_scenarios p) in
  st <- build_problem o ;;
  Ok (o, st).
(** main/main.py:99-102: what is printed, [solve] being `Solve` and the value of the objective afterwards *)
Definition printed (solve : state -> Z * num) (r : result (settings * state)) : result (Z * num) :=
  s <- r ;; Ok (solve (snd s)).

(** ** Configuration files: `configparser`, input_converter/src/main.py:135-159 *)
(** the sections and the defaults of a `ConfigParser`; names of options are in lower case *)
Record config := { cf_defaults : dict string string; cf_sections : dict string (dict string string) }.

(** `value.replace("%%", "")` in `BasicInterpolation.before_set`, called by main.py:155, 157 *)
Fixpoint without_escapes (s : string) : string :=
  match s with
  | String c1 ((String c2 s') as s1) =>
      if (Ascii.eqb c1 "%"%char && Ascii.eqb c2 "%"%char)%bool then without_escapes s' else String c1 (without_escapes s1)
  | _ => s
  end.
(** the expression `%\(([^)]+)\)s` of `configparser` (main.py:155, 157, 160) after `%(`: the name, at least one character, and what follows *)
Fixpoint reference (s : string) : option (string * string) :=
  match s with
  | String c s' =>
      if Ascii.eqb c ")"%char then
        match s' with String d rest => if Ascii.eqb d "s"%char then Some ("", rest) else None | EmptyString => None end
      else match reference s' with Some (name, rest) => Some (String c name, rest) | None => None end
  | EmptyString => None
  end.
(** the whole expression, at the start of a text (main.py:155, 157, 160) *)
Definition reference_at (s : string) : option (string * string) :=
  match s with
  | String c1 (String c2 s') =>
      if (Ascii.eqb c1 "%"%char && Ascii.eqb c2 "("%char)%bool then
        match reference s' with Some (EmptyString, _) => None | r => r end
      else None
  | _ => None
  end.
(** `_KEYCRE.sub('', value)` (main.py:155, 157), [n] bounding the length *)
Fixpoint without_references (n : nat) (s : string) : string :=
  match n with
  | O => s
  | S n =>
      match reference_at s with
      | Some (_, rest) => without_references n rest
      | None => match s with String c s => String c (without_references n s) | EmptyString => EmptyString end
      end
  end.
(** `"%" in value` *)
Fixpoint has_percent (s : string) : bool :=
  match s with String c s => (Ascii.eqb c "%"%char || has_percent s)%bool | EmptyString => false end.
(** `config_parser.set("study", key, value)`, main.py:155, 157: a text with a stray percent sign is refused *)
Definition config_set (section key value : string) (c : config) : result config :=
  let left := without_references (String.length value) (without_escapes value) in
  if has_percent left then Err ValueError
  else match dget String.eqb section (cf_sections c) with
       | Some s => Ok {| cf_defaults := cf_defaults c; cf_sections := dset String.eqb section (dset String.eqb key value s) (cf_sections c) |}
       | None => Err GenericException
       end.
(** an option of a section, or of the defaults (main.py:160) *)
Definition config_raw (c : config) (section key : string) : option string :=
  match dget String.eqb section (cf_sections c) with
  | Some s => match dget String.eqb key s with Some v => Some v | None => dget String.eqb key (cf_defaults c) end
  | None => None
  end.
(** `_interpolate_some` of `configparser` (main.py:160): `%%` is a percent sign, `%(name)s` the value of another option, in which the same
    is done again, [depth] times at most; [n] bounds the length *)
Fixpoint interpolate (depth : nat) (lookup : string -> option string) : nat -> string -> result string :=
  fix go (n : nat) (s : string) : result string :=
    match n, s with
    | _, EmptyString => Ok ""
    | O, _ => Err OutOfFuel
    | S n, String c s' =>
        if Ascii.eqb c "%"%char then
          match s', reference_at s with
          | _, Some (name, rest) =>
              match lookup (lower name) with
              | Some v =>
                  v <- (if has_percent v then match depth with S depth => interpolate depth lookup (String.length v) v | O => Err GenericException end
                        else Ok v) ;;
                  r <- go n rest ;; Ok (v ++ r)%string
              | None => Err GenericException
              end
          | String d s'', None => if Ascii.eqb d "%"%char then r <- go n s'' ;; Ok (String "%" r) else Err GenericException
          | EmptyString, None => Err GenericException
          end
        else r <- go n s' ;; Ok (String c r)
    end.
(** `config_parser["study"].get(key)`, main.py:160: None when the option is missing *)
Definition config_get (c : config) (section key : string) : result (option string) :=
  match config_raw c section key with
  | Some v => v <- interpolate 9 (config_raw c section) (String.length v) v ;; Ok (Some v)
  | None => Ok None
  end.

(** ** The converter of Antares studies *)
(** what a path is, main.py:36-39, 66-89 *)
Inductive kind := AFile | ADirectory.
(** the disk: what a path is, its absolute form (main.py:34, utils.py:25), its directory (main.py:39), the text of a configuration (main.py:148),
    the study of a directory (converter.py:70), whether a file can be made (main.py:44) *)
Record machine := {
  md_kind : string -> option kind;
  md_resolve : string -> string;
  md_parent : string -> string;
  md_config : string -> result config;
  md_study : string -> result an_study;
  md_touch : string -> bool
}.
(** main.py:33-50 `CreateFileIfMissing`: the path, and the file made if it was missing *)
Definition create_file_if_missing (m : machine) (text : string) : result (string * list string) :=
  let path := md_resolve m text in
  match md_kind m path with
  | Some ADirectory => Err SystemExit
  | k =>
      match md_kind m (md_parent m path) with
      | None => Err SystemExit
      | Some _ =>
          match k with
          | None => if md_touch m path then Ok (path, [path]) else Err SystemExit
          | Some _ => Ok (path, [])
          end
      end
  end.
(** main.py:53-91 `PathType`; an `ArgumentTypeError` makes `argparse` leave the program *)
Definition path_type (exist file_ok dir_ok : bool) (m : machine) (path : string) : result string :=
  if negb (file_ok || dir_ok) then Err ValueError
  else if negb exist then Ok path
  else if (file_ok && dir_ok)%bool then (if is_given (md_kind m path) then Ok path else Err SystemExit)
  else if file_ok then match md_kind m path with Some AFile => Ok path | _ => Err SystemExit end
  else match md_kind m path with Some ADirectory => Ok path | _ => Err SystemExit end.

(** main.py:98-123: the options given *)
Record converter_options := {
  cv_conf : option string;
  cv_logging : option string;
  cv_study : option string;
  cv_output : option string
}.
(** main.py:94-124 `parse_commandline`, the options taken in this order: the types apply to the defaults as well, because these are texts.
    [package] is the directory of line 23.  The files made are returned *)
Definition parse_commandline (m : machine) (package : string) (a : converter_options)
  : result (string * string * option string * option string * list string) :=
  conf <- path_type true true false m (match cv_conf a with Some c => c | None => "data/config.ini" end) ;;
  lg <- create_file_if_missing m (match cv_logging a with Some l => l | None => join package "data/logging.log" end) ;;
  study <- match cv_study a with Some s => s <- path_type true false true m s ;; Ok (Some s) | None => Ok None end ;;
  output <- match cv_output a with Some o => o <- path_type true false true m o ;; Ok (Some o) | None => Ok None end ;;
  Ok (conf, fst lg, study, output, snd lg).

(** whether a text ends with `.log`, logger.py:24 *)
Fixpoint ends_with (e s : string) : bool :=
  (String.eqb s e || match s with String _ s => ends_with e s | EmptyString => false end)%bool.
(** logger.py:18-43 `Logger`: the file in which it writes *)
Definition log_file (name : string) : string := if ends_with ".log" name then name else (name ++ ".log")%string.

(** what is on the disk afterwards: files made by the option of the log, the file of the log, the system file and its content, the series *)
Record effects := {
  ef_made : list string;
  ef_log : string;
  ef_path : string;
  ef_content : tree;
  ef_series : list (string * table)
}.
(** converter.py:52-76, 709-712 and utils.py:19-26: a converter given a path and maybe an output, and what it writes.  An output is used as it is *)
Definition convert_path (m : machine) (input : string) (output : option string) (period : option Z) : result (string * tree * list (string * table)) :=
  match md_kind m input with
  | None => Err FileNotFoundErr
  | Some _ =>
      let path := md_resolve m input in
      s <- md_study m path ;;
      r <- convert_antares [] period s ;;
      Ok (match output with Some o => o | None => join path "output.yaml" end, transform_to_yaml (converter_args (fst r)), snd r)
  end.
(** pathlib: the empty text is the current directory (main.py:160) *)
Definition as_path (s : string) : string := match s with EmptyString => "." | _ => s end.
(** main.py:127-163, the program *)
Definition converter (m : machine) (package : string) (a : converter_options) : result effects :=
  p <- parse_commandline m package a ;;
  let '(conf, log, study, output, made) := p in
  c <- md_config m conf ;;
  let c := match dget String.eqb "study" (cf_sections c) with
           | Some _ => c
           | None => {| cf_defaults := cf_defaults c; cf_sections := dset String.eqb "study" [] (cf_sections c) |}
           end in
  c <- match study with Some s => config_set "study" "study_path" s c | None => Ok c end ;;
  c <- match output with Some o => config_set "study" "output_path" o c | None => Ok c end ;;
  path <- config_get c "study" "study_path" ;;
  match path with
  | Some path =>
      r <- convert_path m (as_path path) None None ;;
      let '(where_to, content, series) := r in
      Ok {| ef_made := made; ef_log := log_file log; ef_path := where_to; ef_content := content; ef_series := series |}
  | None => Err TypeError
  end.
