(** Model of /repo/setup.py, of the loggers of /repo/pibronic/log_conf.py and of
    subprocess_submit_asynch_wrapper, subprocess_run_wrapper, check_acct_state and check_running_state
    of /repo/pibronic/server/job_boss.py:41-56, 89-100.

    Simplified: what is printed on the terminal is left out; of setup() only that it is called and with
    which name, version, python requirement and description; an OSError stands for FileNotFoundError.
    The commands are recorded in the order in which they are started. *)
From Verif Require Import Common PyStr_Model FileStruct_Model.
Local Open Scope string_scope.

(** ** versions of python *)
(** sys.version_info[:2], compared as tuples, setup.py:20-22 *)
Definition pyver : Type := Z * Z.
Definition ver_leb (a b : pyver) : bool := (fst a <? fst b)%Z || ((fst a =? fst b)%Z && (snd a <=? snd b)%Z).
(** the arguments of subprocess.run, setup.py:21-25 and job_boss.py:51-56 *)
Inductive capture := CaptureOutput | UniversalNewlines.
(** setup.py:20-25: the second test is not an elif *)
Definition setup_kwargs (v : pyver) : res capture :=
  let kwargs := if ver_leb (3, 7)%Z v then Some CaptureOutput else None in
  let kwargs := if ver_leb (3, 5)%Z v && ver_leb v (3, 7)%Z then Some UniversalNewlines else kwargs in
  match kwargs with Some k => Ok k | None => Raise UnboundLocalError end.
(** job_boss.py:41-46 and 49-56: None is what a function without a return gives *)
Definition wrapper_kwargs (v : pyver) : option capture :=
  if ver_leb (3, 7)%Z v then Some CaptureOutput
  else if ver_leb (3, 5)%Z v && ver_leb v (3, 7)%Z then Some UniversalNewlines
  else None.

(** ** the queue *)
(** the programs of the machine: what they print, None if there is no such program *)
Definition programs : Type := list string -> option (string * string).
(** job_boss.py:49-56 *)
Definition subprocess_run_wrapper (v : pyver) (run : programs) (cmd : list string) : res (option (string * string)) :=
  match wrapper_kwargs v with
  | None => Ok None
  | Some _ => match run cmd with Some o => Ok (Some o) | None => Raise OSError end
  end.
(** job_boss.py:89-93 *)
Definition check_acct_state (v : pyver) (run : programs) (id_job : Z) : res string :=
  do result <- subprocess_run_wrapper v run ["sacct"; "-n"; "-o"; "state"; "-j"; dec id_job];
  match result with Some o => Ok (fst o) | None => Raise AttributeError end.
(** job_boss.py:96-100 *)
Definition check_running_state (v : pyver) (run : programs) (id_job : Z) : res (string * string) :=
  do result <- subprocess_run_wrapper v run ["scontrol"; "show"; "job"; dec id_job];
  match result with Some o => Ok o | None => Raise AttributeError end.

(** ** loggers *)
(** log_conf.py:7-15 *)
Definition FLOW : Z := 25.
Definition LOCK : Z := 5.
(** logging.INFO and the level of log_conf.py:40 *)
Definition INFO : Z := 20.
Definition configured : Z := INFO.
(** logging.Logger.isEnabledFor *)
Definition isEnabledFor (threshold level : Z) : bool := (threshold <=? level)%Z.
(** log_conf.py:22-29: the records that are made *)
Definition log_flow (threshold : Z) (message : string) : list (Z * string) := if isEnabledFor threshold FLOW then [(FLOW, message)] else [].
Definition log_lock (threshold : Z) (message : string) : list (Z * string) := if isEnabledFor threshold LOCK then [(LOCK, message)] else [].

(** ** setup.py *)
Record machine := {
  python : pyver;
  programs_of : programs;
  (** the directory of setup.py, setup.py:86 *)
  here : string;
  contents : fsys string;
  (** pypandoc.convert_text, if the module is there *)
  pandoc : option (string -> res string) }.
(** the commands that were started and the outcome *)
Definition ran (A : Type) : Type := list (list string) * res A.
Definition then_ {A B} (x : ran A) (f : A -> ran B) : ran B :=
  match x with
  | (l, Ok a) => ((l ++ fst (f a))%list, snd (f a))
  | (l, Raise e) => (l, Raise e)
  end.
(** s[-1] *)
Fixpoint last_char (s : string) : res string :=
  match s with
  | EmptyString => Raise IndexError
  | String c EmptyString => Ok (String c EmptyString)
  | String _ t => last_char t
  end.
(** setup.py:29-40 *)
Definition version_accepted (out : string) : res bool :=
  if String.prefix "julia version" out then
    let bits := split "." out in
    do b0 <- item bits 0;
    do c <- last_char b0;
    do major <- py_int_str c;
    if (1 <=? major)%Z then Ok true
    else
      do b1 <- item bits 1;
      do minor <- py_int_str b1;
      Ok (7 <=? minor)%Z
  else Ok false.
(** setup.py:17-40 *)
Definition julia_is_installed (m : machine) : ran bool :=
  match setup_kwargs (python m) with
  | Raise e => ([], Raise e)
  | Ok _ =>
      let cmd := ["julia"; "--version"] in
      match programs_of m cmd with
      | None => ([cmd], Raise OSError)
      | Some o => ([cmd], version_accepted (fst o))
      end
  end.
Definition quote : string := String "034"%char "".
(** setup.py:54-56 *)
Definition install_command : list string :=
  ["julia"; "-e"; "using Pkg;" ++ "Pkg.add(PackageSpec(url=" ++ quote ++ "https://github.com/ngraymon/VibronicToolkit.jl.git" ++ quote ++ ", rev=" ++ quote ++ "integrated" ++ quote ++ "));"].
(** setup.py:75-77 *)
Definition develop_command : list string :=
  ["julia"; "-e"; "using Pkg;" ++ "Pkg.develop(PackageSpec(url=" ++ quote ++ "https://github.com/ngraymon/VibronicToolkit.jl.git" ++ quote ++ ", rev=" ++ quote ++ "integrated" ++ quote ++ "));"].
(** subprocess.run without a check, setup.py:56 and 77 *)
Definition run_unchecked (m : machine) (cmd : list string) : ran unit :=
  ([cmd], match programs_of m cmd with None => Raise OSError | Some _ => Ok tt end).
(** setup.py:43-60 *)
Definition install_VibronicToolkit (m : machine) : ran unit := run_unchecked m install_command.
(** setup.py:63-81 *)
Definition install_VibronicToolkit_in_development_mode (m : machine) : ran unit := run_unchecked m develop_command.
(** setup.py:84-93 *)
Definition read_md (m : machine) (filename : string) : res string :=
  match contents m (join (here m) filename) with
  | None => Raise OSError
  | Some text => match pandoc m with Some convert => convert text | None => Ok text end
  end.
(** the elements of VERSION, setup.py:96-102 *)
Inductive part := PInt (z : Z) | PStr (s : string).
Definition VERSION : list part := [PInt 0; PInt 3; PInt 0; PStr "dev"; PInt 0].
(** str(x) *)
Definition part_text (p : part) : string := match p with PInt z => dec z | PStr s => s end.
(** '.'.join *)
Fixpoint join_dots (l : list string) : string :=
  match l with
  | [] => ""
  | [x] => x
  | x :: l' => x ++ "." ++ join_dots l'
  end.
(** setup.py:105-108 *)
Definition get_version (version : list part) : res string :=
  do p <- item version 2;
  let parts := match p with PInt z => if (z =? 0)%Z then 2%nat else 3%nat | PStr _ => 3%nat end in
  Ok (join_dots (map part_text (firstn parts version))).
(** what setup() is called with, setup.py:129-164 *)
Record package := { p_name : string; p_version : string; p_requires : string; p_description : string }.
(** setup.py:113 and 132 *)
Definition python_requires : string := "~=" ++ dec 3 ++ "." ++ dec 5.
(** setup.py:126-127 and 170-171 *)
Definition with_julia (m : machine) : ran unit :=
  then_ (julia_is_installed m) (fun b => if b then install_VibronicToolkit m else ([], Ok tt)).
(** setup.py:123-166 *)
Definition setup_package (m : machine) : ran package :=
  then_ (with_julia m) (fun _ =>
    ([], do version <- get_version VERSION;
         do text <- read_md m "README.md";
         Ok {| p_name := "pibronic"; p_version := version; p_requires := python_requires; p_description := text |})).
(** setup.py:169-172: both ask for julia *)
Definition setup_script (m : machine) : ran package := then_ (with_julia m) (fun _ => setup_package m).
(** python setup.py: a python before 3.6 cannot read the strings of setup.py:55 and 76 and stops with a SyntaxError, which is
    an OtherException here, before any line is run *)
Definition setup_file (m : machine) : ran package := if ver_leb (3, 6)%Z (python m) then setup_script m else ([], Raise OtherException).
