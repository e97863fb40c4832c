(** Model of the scripts that analyse all results of the examples,
    /repo/examples/paper_1.5025058/analyze_results.py:16-39 and
    /repo/examples/artificial_systems/analyze_results.py:16-39 (the same text), with
    systems.py:31-70 (paper_1.5025058) and systems.py:32-55 (artificial_systems), and of
    /repo/pibronic/stats/stats.py:380-396 testing_execution and main.

    Simplified: [ls] gives the files of samples in the results directory; the other files there do
    not match the pattern for them (C79).  printing is left out.  The processes that run for the systems at the same time
    are not modelled: no two systems have a data set in common (C100). *)
From Coq Require Import QArith.
From Verif Require Import Common PyStr_Model FileName_Model FileStruct_Model Json_Model Julia_Model Results_Model Analysis_Model Submit_Model Submit2_Model Setup_Model.
Local Open Scope string_scope.
Local Open Scope nat_scope.

(** the sampling models of a data set, paper: systems.py:31-70; artificial: systems.py:32-55 *)
Definition paper_rhos (name : string) : list Z := if String.eqb name "jahnteller" then [0; 1; 2; 11]%Z else [0; 1; 11]%Z.
Definition art_rhos (name : string) : list Z := [0; 1; 2; 3; 4]%Z.
(** the two example directories: names, data sets, sampling models, root *)
Inductive example := Paper | Artificial.
Definition ex_names (e : example) : list string := match e with Paper => name_lst | Artificial => art_names end.
Definition ex_ids (e : example) : list (string * list Z) := match e with Paper => id_dict | Artificial => art_ids end.
Definition ex_rhos (e : example) : string -> list Z := match e with Paper => paper_rhos | Artificial => art_rhos end.
Definition ex_root (e : example) : string := match e with Paper => paper_root | Artificial => art_root end.

(** analyze_results.py:18-20: the analyses of one sampling model, in order *)
Definition simple_wrapper_methods : list (analysis * string) := [(Statistical, "basic"); (Jackknife, "basic")].
(** stats.py:382-385 *)
Definition testing_methods : list (analysis * string) := [(Statistical, "basic"); (Statistical, "alpha"); (Jackknife, "basic"); (Jackknife, "alpha")].

Section Survey.
  Variable set_order : list string -> list string.
  Variable divide : json -> json -> res json.
  Variable operation : analysis -> string -> Q -> result -> list (string * json) -> res (list (string * json)).
  Variable H : string -> string.
  Variable npz_files : files.
  (** os.listdir of a results directory *)
  Variable ls : string -> list string.

  (** the analyses one after the other with the same FileStructure, which keeps the hashes *)
  Inductive methods_run : fstruct -> list (analysis * string) -> fsys string -> fsys string -> res unit -> Prop :=
  | mr_done f fs : methods_run f [] fs fs (Ok tt)
  | mr_stop f k m l fs fs' e : analyse set_order divide operation H npz_files f (ls (path_rho_results f)) k m "local" fs fs' (Raise e) -> methods_run f ((k, m) :: l) fs fs' (Raise e)
  | mr_next f k m l fs fs1 fs2 r : analyse set_order divide operation H npz_files f (ls (path_rho_results f)) k m "local" fs fs1 (Ok tt) ->
      methods_run (fst (generate_model_hashes H fs false f)) l fs1 fs2 r -> methods_run f ((k, m) :: l) fs fs2 r.

  (** analyze_results.py:31-38: the pairs in order; pairs without a sampling model are left out *)
  Inductive survey_run (cwd root : string) (is_dir : bool) : list (Z * Z) -> fsys string -> fsys string -> res unit -> Prop :=
  | sr_done fs : survey_run cwd root is_dir [] fs fs (Ok tt)
  | sr_new d r l fs e : new_fs cwd is_dir [] root d r true = Raise e -> survey_run cwd root is_dir ((d, r) :: l) fs fs (Raise e)
  | sr_skip d r l fs fs' o f ds : new_fs cwd is_dir [] root d r true = Ok (f, ds) -> fs (FileStruct_Model.path_rho_model f) = None ->
      survey_run cwd root is_dir l fs fs' o -> survey_run cwd root is_dir ((d, r) :: l) fs fs' o
  | sr_stop d r l fs fs' e f ds : new_fs cwd is_dir [] root d r true = Ok (f, ds) -> fs (FileStruct_Model.path_rho_model f) <> None ->
      methods_run f simple_wrapper_methods fs fs' (Raise e) -> survey_run cwd root is_dir ((d, r) :: l) fs fs' (Raise e)
  | sr_next d r l fs fs1 fs' o f ds : new_fs cwd is_dir [] root d r true = Ok (f, ds) -> fs (FileStruct_Model.path_rho_model f) <> None ->
      methods_run f simple_wrapper_methods fs fs1 (Ok tt) -> survey_run cwd root is_dir l fs1 fs' o -> survey_run cwd root is_dir ((d, r) :: l) fs fs' o.

  (** analyze_results.py:31-32: for id_data in id_dict[name]: for id_rho in rho_dict[name][id_data] *)
  Definition survey_pairs (e : example) (name : string) : list (Z * Z) :=
    match dget String.eqb (ex_ids e) name with
    | Some ids => flat_map (fun d => map (fun r => (d, r)) (ex_rhos e name)) ids
    | None => []
    end.
  (** automate_statistical_analysis, analyze_results.py:25-39; systems.py:86-95 (paper), 70-79 (artificial) *)
  Inductive automate_run (e : example) (cwd host : string) (is_dir : bool) (name : string) (fs : fsys string) : fsys string -> res unit -> Prop :=
  | ar_name : existsb (String.eqb name) (ex_names e) = false -> automate_run e cwd host is_dir name fs fs (Raise AssertionError)
  | ar_host x : existsb (String.eqb name) (ex_names e) = true -> choose_root (ex_root e) host = Raise x -> automate_run e cwd host is_dir name fs fs (Raise x)
  | ar_run root fs' o : existsb (String.eqb name) (ex_names e) = true -> choose_root (ex_root e) host = Ok root ->
      survey_run cwd root is_dir (survey_pairs e name) fs fs' o -> automate_run e cwd host is_dir name fs fs' o.

  (** stats.py:389-396 main: the directories that are made, the files, the outcome *)
  Inductive main_run (cwd : string) (is_dir : bool) (argv : list string) (fs : fsys string) : dirs -> fsys string -> res unit -> Prop :=
  | main_arg e : (do a <- item argv 1; py_int_str a) = Raise e -> main_run cwd is_dir argv fs [] fs (Raise e)
  | main_new d e : (do a <- item argv 1; py_int_str a) = Ok d -> new_fs cwd is_dir [] "/work/ngraymon/pimc/testing/" d 0 false = Raise e -> main_run cwd is_dir argv fs [] fs (Raise e)
  | main_go d f ds fs' o : (do a <- item argv 1; py_int_str a) = Ok d -> new_fs cwd is_dir [] "/work/ngraymon/pimc/testing/" d 0 false = Ok (f, ds) ->
      methods_run f testing_methods fs fs' o -> main_run cwd is_dir argv fs ds fs' o.
End Survey.
