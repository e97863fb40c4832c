(** Model of /repo/pibronic/everything.py, of pretty_print_job_status and
    calculate_vibronic_model_wrapper_one of
    /repo/pibronic/vibronic/electronic_structure.py:166-222, 1677-1686, of pos_sym_assert
    (/repo/pibronic/pimc/pimc.py:1043-1059), of verify_directories_exists
    (/repo/pibronic/data/file_structure.py:204-217) and of prepare_julia
    (/repo/pibronic/julia_wrapper.py:286-297).

    Simplified: log messages are left out except the report of pretty_print_job_status, whose result
    here is the list of what it logs.  Ends of lines are newlines (text mode of open). *)
From Coq Require Import QArith.
From Verif Require Import Common PyStr_Model FileStruct_Model.
Local Open Scope string_scope.

(** ** everything.py *)
(** everything.py:34-57, electronic_structure.py:166-189 *)
Definition model_dict : list (Z * (string * Z)) :=
  [(0, ("acetonitrile", 200)); (1, ("ammonia", 201)); (2, ("boron_trifluoride", 202)); (3, ("formaldehyde", 203)); (4, ("methane", 204));
   (5, ("formamide", 205)); (6, ("formic_acid", 206)); (7, ("hydrogen_peroxide", 207)); (8, ("water", 208)); (9, ("pyridine", 209));
   (10, ("furan", 210)); (11, ("trichloroethylene", 211)); (12, ("chloroethylene", 212)); (13, ("acrolein", 213)); (14, ("acrylonitrile", 214));
   (15, ("cis_12_dichloroethylene", 215)); (16, ("trans_12_dichloroethylene", 216)); (17, ("11_dichloroethylene", 217))]%Z.
Definition number_dictionary := model_dict.

(** the regular files and the directories *)
Record disk := mkDisk { d_files : fsys string; d_dirs : dirs }.
(** shutil.copyfile: [dir] is the directory of [dst] *)
Definition copyfile (s : disk) (src dir dst : string) : disk * res unit :=
  match d_files s src with
  | None => (s, Raise OSError)
  | Some text =>
      if isdir (d_dirs s) dir then (mkDisk (fun p => if String.eqb p dst then Some text else d_files s p) (d_dirs s), Ok tt)
      else (s, Raise OSError)
  end.
(** join(a, b, c) *)
Definition join3 (a b c : string) : string := join (join a b) c.
(** everything.py:60-74; [module_file] is input_files.__file__, which a package without __init__.py lacks *)
Definition copyInput (cwd : string) (module_file : option string) (s : disk) (f : fstruct) (file_name : string) : disk * res unit :=
  match module_file with
  | None => (s, Raise AttributeError)
  | Some m =>
      let path_root := abspath cwd m in
      let dir := join (path_es f) file_name ++ "/" in
      match copyfile s (join3 path_root file_name "_params.txt") dir (join3 (path_es f) file_name "_params.txt") with
      | (s, Raise e) => (s, Raise e)
      | (s, Ok _) => copyfile s (join3 path_root file_name "_zmat.txt") dir (join3 (path_es f) file_name "_zmat.txt")
      end
  end.
(** everything.py:77-98: it returns at once *)
Definition generate_analytical_results : res unit := Ok tt.
(** everything.py:101-196; [rest] is what follows the copies (123-196) *)
Definition execute (cwd : string) (module_file : option string) (root_is_dir : bool) (isdir_rel : string -> bool)
    (rest : disk -> fstruct -> disk * res unit) (s : disk) (id_model : Z) : disk * res unit :=
  match dget Z.eqb model_dict id_model with
  | None => (s, Raise OtherException)
  | Some (molecule_name, id_data) =>
      match new_fs cwd root_is_dir (d_dirs s) "/work/ngraymon/pimc/" id_data 0 false with
      | Raise e => (s, Raise e)
      | Ok (f, ds) =>
          let s := mkDisk (d_files s) (if directories_exist isdir_rel then ds else make_directories ds f) in
          match copyInput cwd module_file s f molecule_name with
          | (s, Raise e) => (s, Raise e)
          | (s, Ok _) => rest s f
          end
      end
  end.
(** everything.py:199-206: execute is called with one argument and has two *)
Definition everything_script (argv : list string) : res unit :=
  do _ <- passert (length argv =? 2)%nat;
  do a <- item argv 1;
  do id_model <- py_int_str a;
  Raise TypeError.

(** ** electronic_structure.py:194-222 *)
(** the argument: none, the root of the data sets, or a text with data_set_ in it as a function of the number *)
Inductive where_ := Default | Root (root : string) | Template (f : Z -> string).
Definition state_path (w : where_) (d : Z) : string :=
  match w with
  | Default => join ("/work/ngraymon/pimc/data_set_" ++ dec d ++ "/electronic_structure/") "execution_state.txt"
  | Root r => join (join r ("data_set_" ++ dec d ++ "/electronic_structure/")) "execution_state.txt"
  | Template f => f d
  end.
(** lines 210-215: the last line that is not empty; before the loop [last_state] is what the previous model left *)
Fixpoint last_state_of (reversed_lines : list string) (last_state : option string) : option string :=
  match reversed_lines with
  | [] => last_state
  | line :: l => if String.eqb line "" then last_state_of l last_state else Some (strip line)
  end.
(** one line of the log: the name, the number and the state, None if there is no file *)
Definition entry_ := (string * Z * option string)%type.
Fixpoint report (path : Z -> string) (fs : fsys string) (models : list (Z * (string * Z))) (last_state : option string) : list entry_ * res unit :=
  match models with
  | [] => ([], Ok tt)
  | (_, (name, d)) :: models' =>
      match fs (path d) with
      | None => let (l, r) := report path fs models' last_state in ((name, d, None) :: l, r)
      | Some text =>
          match last_state_of (rev (split (String "010"%char "") text)) last_state with
          | None => ([], Raise UnboundLocalError)
          | Some s => let (l, r) := report path fs models' (Some s) in ((name, d, Some s) :: l, r)
          end
      end
  end.
Definition pretty_print_job_status (w : where_) (fs : fsys string) : list entry_ * res unit := report (state_path w) fs number_dictionary None.

(** electronic_structure.py:1677-1686: the directory that is made and used; the number is not filled in *)
Definition wrapper_one_root (data_set_num : Z) : string := "/work/ngraymon/pimc/data_set_{:d}/electronic_structure/".

(** ** pimc.py:1043-1059: np.linalg has no function choleskys *)
Definition pos_sym_assert (float_tolerance : Q) (tensor : list (list Q)) : res unit :=
  if forallb (forallb (fun x => negb (Qle_bool x (- float_tolerance)))) tensor then Raise AttributeError else Raise AssertionError.

(** ** file_structure.py:204-217 *)
Definition verify_directories_exists (cwd : string) (root_is_dir : bool) (isdir_rel : string -> bool) (ds : dirs) (d : Z) (path_root : option string) : dirs * res unit :=
  match path_root with
  | None => (ds, Raise OtherException)
  | Some root =>
      match new_fs cwd root_is_dir ds root d 0 false with
      | Raise e => (ds, Raise e)
      | Ok (f, ds) => (if directories_exist isdir_rel then ds else make_directories ds f, Ok tt)
      end
  end.

(** ** julia_wrapper.py:286-297: the commands that are run and the python text that is executed; [out] is the output of a command *)
Definition prepare_julia (out : list string -> string) (version : string) : res (list (list string) * option string) :=
  do _ <- passert (existsb (String.eqb version) ["0.7.0"; "1.0.0"; "1.0.1"]);
  let asked := ["julia"; "-v"] in
  if contains "julia version" (out asked) then Ok ([asked], None)
  else
    let cmd := ["modulecmd"; "python"; "load"; "Julia/" ++ version] in
    Ok ([asked; cmd], Some (out cmd)).
