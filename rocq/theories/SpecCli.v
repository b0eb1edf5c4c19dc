(** What the commands are told, in terms of their options and of the files; independent of the model's functions. *)
From Coq Require Import Ascii.
From Verif Require Import Base Library System Yaml SpecYaml Cli.
Local Open Scope string_scope.
Local Open Scope list_scope.

(** a number given as an option, 1 if it is not given *)
Definition chosen (o : option Z) (z : Z) : Prop := o = Some z \/ (o = None /\ z = 1%Z).
(** [path] lies under the directory [d], with the names in between *)
Definition under_directory (d : string) (names : list string) (path : string) : Prop :=
  path = String.concat "/" (d :: names).
(** the files a command line speaks of: those of a study directory, or those given one by one *)
Definition told (dk : disk) (a : arguments) (models : list string) (components : string) (series : option string) : Prop :=
  (exists d files, ar_study a = Some d /\ (ar_models a = None \/ ar_models a = Some []) /\ ar_component a = None /\ ar_timeseries a = None /\
     dk_list dk (String.concat "/" [d; "input"; "models"]) = Ok files /\
     Forall2 (fun f path => under_directory d ["input"; "models"; f] path) files models /\
     under_directory d ["input"; "components"; "components.yml"] components /\
     exists s, series = Some s /\ under_directory d ["input"; "components"; "series"] s) \/
  (ar_study a = None /\ ar_models a = Some models /\ models <> [] /\ ar_component a = Some components /\ ar_timeseries a = series).
(** options that do not go together, or too few of them *)
Definition misused (a : arguments) : Prop :=
  (ar_study a <> None /\ ((exists m l, ar_models a = Some (m :: l)) \/ ar_component a <> None \/ ar_timeseries a <> None)) \/
  (ar_study a = None /\ (ar_models a = None \/ ar_models a = Some [] \/ ar_component a = None)).

(** the libraries and the system of the files *)
Definition libraries_read (show : num -> string) (dk : disk) (paths : list string) (libs : list in_library) : Prop :=
  Forall2 (fun path l => exists t, dk_yaml dk path = Ok t /\ library_file show t l) paths libs.
Definition system_read (dk : disk) (path : string) (i : input_system) : Prop :=
  exists t, dk_yaml dk path = Ok t /\ system_file t i.

(** parameters of a system, in the order of their reading *)
Definition parameters_given (i : input_system) : list input_parameter :=
  flat_map (fun c => match ic_parameters c with Some l => l | None => [] end) (is_components i ++ is_nodes i).
Definition names_series (p : input_parameter) : Prop := exists name, ip_value p = inr name.
Definition constant_number (p : input_parameter) : Prop := exists v, ip_value p = inl v /\ ip_time p = false /\ ip_scenario p = false.

(** a text without percent signs *)
Definition plain (s : string) : Prop := ~ In "%"%char (list_ascii_of_string s).

(** the time series found in the directory of the options: one text file each *)
Definition series_found (dk : disk) (directory : option string) (tables : string -> result frame) : Prop :=
  forall name f, tables name = Ok f <-> exists d, directory = Some d /\ dk_table dk (d ++ "/" ++ name ++ ".txt")%string = Ok f.

(** a text with every percent sign written twice *)
Fixpoint doubled (s : string) : string :=
  match s with
  | String c s => if Ascii.eqb c "%" then String "%" (String "%" (doubled s)) else String c (doubled s)
  | EmptyString => EmptyString
  end.
(** what a value of a configuration says, [values] being those of the other options: two percent signs stand for one, and a name between
    parentheses for what the option of this name says, at most [depth] times one in the other *)
Inductive says (values : string -> option string) : nat -> string -> string -> Prop :=
| says_end depth : says values depth "" ""
| says_char depth c s v : c <> "%"%char -> says values depth s v -> says values depth (String c s) (String c v)
| says_percent depth s v : says values depth s v -> says values depth (String "%" (String "%" s)) (String "%" v)
| says_plain_option depth name w s v : name <> "" -> ~ In ")"%char (list_ascii_of_string name) -> values (lower name) = Some w -> plain w ->
    says values depth s v -> says values depth ("%(" ++ name ++ ")s" ++ s)%string (w ++ v)%string
| says_option depth name raw w s v : name <> "" -> ~ In ")"%char (list_ascii_of_string name) -> values (lower name) = Some raw -> says values depth raw w ->
    says values (S depth) s v -> says values (S depth) ("%(" ++ name ++ ")s" ++ s)%string (w ++ v)%string.

(** the value of an option of the section of the study: the output given on the command line, or what the section of the file gives, or its
    defaults *)
Definition option_value (c : config) (output : option string) (name : string) : option string :=
  match output, String.eqb name "output_path" with
  | Some o, true => Some o
  | _, _ => match dget String.eqb "study" (cf_sections c) with
            | Some section => match dget String.eqb name section with Some v => Some v | None => dget String.eqb name (cf_defaults c) end
            | None => dget String.eqb name (cf_defaults c)
            end
  end.
