(** Model of /repo/examples/paper_1.5025058/submit_jobs_to_server.py:20-155,
    175-238: the calculations that are handed to the queue.

    Simplifications: the commands are recorded in the order in which they are
    started, the loops over sizes and temperatures become one list of pairs.  The
    files may change while the script runs: the file system seen by the k-th
    check is [world k] (one check sees one state).  Starting a command does not
    fail. *)
From Coq Require Import QArith.
From Verif Require Import Common PyStr_Model FileName_Model Json_Model FileStruct_Model Julia_Model.
Local Open Scope string_scope.
Local Open Scope nat_scope.

(** a double quote *)
Definition dq : string := String (ascii_of_nat 34) "".
(** submit_jobs_to_server.py:20-25 *)
Definition jl_import : string :=
  "import pibronic;" ++ "from pibronic.data import file_structure as fs;" ++ "from pibronic import julia_wrapper as jw;" ++ "from pibronic.constants import beta;".
(** the f-string of lines 74, 105, 192 and 224 *)
Definition fs_text (f : fstruct) : string :=
  "FS = fs.FileStructure(" ++ dq ++ path_root f ++ dq ++ ", " ++ dec (id_data f) ++ ", " ++ dec (id_rho f) ++ ");".

(** submit_jobs_to_server.py:51-56 with file_structure.py:219-221, 243-246 *)
Definition valid_hash_file (fs : fsys string) (f : fstruct) (path : string) : res bool :=
  match fs path with
  | None => Raise OSError
  | Some text =>
      do v <- loads text;
      match hash_vib f with
      | None => Raise AssertionError
      | Some h => do x <- sub v "hash_vib"; Ok (same_hash (Some x) (Some h))
      end
  end.
(** submit_jobs_to_server.py:59-65 *)
Definition temp_already_present (fs : fsys string) (path : string) (T : Q) : res bool :=
  match fs path with
  | None => Ok false
  | Some text => do v <- loads text; mem v (fmt2 T)
  end.
(** the condition of lines 85 and 115 *)
Definition already (fs : fsys string) (f : fstruct) (path : string) (T : Q) : res bool :=
  match fs path with
  | None => Ok false
  | Some _ =>
      do h <- valid_hash_file fs f path;
      if h then temp_already_present fs path T else Ok false
  end.

(** the code run by a job: lines 70-78 and 91 (sums over states), 100-109 and 122
    (Trotter), 221-228 and 235 (the sampling model); the fourth kind of
    calculation is not submitted by these scripts *)
Definition func_call (f : fstruct) (t : task) (T : Q) : res string :=
  match t with
  | Sos B =>
      py_format (jl_import ++ "b = beta({temperature:.2f});" ++ "BS = {BS:d};" ++ fs_text f ++ "FS.generate_model_hashes();" ++ "jw.prepare_julia();" ++
                 "pibronic.julia_wrapper.sos_of_coupled_model(FS, BS, b);")
                [("temperature:.2f", fmt2 T); ("BS:d", dec B)]
  | Trotter P B =>
      py_format (jl_import ++ "b = beta({temperature:.2f});" ++ "P = {nbeads:d};" ++ "BS = {BS:d};" ++ fs_text f ++ "FS.generate_model_hashes();" ++ "jw.prepare_julia();" ++
                 "pibronic.julia_wrapper.trotter_of_coupled_model(FS, P, BS, b);")
                [("temperature:.2f", fmt2 T); ("nbeads:d", dec P); ("BS:d", dec B)]
  | Sampling =>
      py_format (jl_import ++ "b = beta({temperature:.2f});" ++ fs_text f ++ "FS.generate_model_hashes();" ++ "jw.prepare_julia();" ++
                 "pibronic.julia_wrapper.analytic_of_sampling_model(FS, b);")
                [("temperature:.2f", fmt2 T)]
  | Original => Raise OtherException
  end.
(** the name of the job: lines 89, 120 and 234 *)
Definition job_name (f : fstruct) (t : task) (T : Q) : string :=
  match t with
  | Sos _ => "sos_D" ++ dec (id_data f) ++ "_T" ++ fmt2 T
  | Trotter P _ => "trotter_D" ++ dec (id_data f) ++ "_P" ++ dec P ++ "_T" ++ fmt2 T
  | Sampling => "analytic_D" ++ dec (id_data f) ++ "_T" ++ fmt2 T
  | Original => ""
  end.
(** lines 88-92, 119-123, 233-236; the method format acts on the whole text *)
Definition job_command (f : fstruct) (t : task) (T : Q) : res string :=
  do call <- func_call f t T;
  py_format ("srun" ++ " --job-name=" ++ job_name f t T ++ match t with Sampling => "" | _ => " --mem=20GB" end ++ " python3 -c '{:s}'") [(":s", call)].

(** the loops of lines 81-94 and 111-125: what was started, and how it ended *)
Fixpoint submit_loop (world : nat -> fsys string) (f : fstruct) (k : nat) (l : list (task * Q)) : list string * res unit :=
  match l with
  | [] => ([], Ok tt)
  | (t, T) :: l' =>
      match (do path <- target f t; already (world k) f path T) with
      | Raise e => ([], Raise e)
      | Ok true => submit_loop world f (S k) l'
      | Ok false =>
          match job_command f t T with
          | Raise e => ([], Raise e)
          | Ok c => let r := submit_loop world f (S k) l' in (c :: fst r, snd r)
          end
      end
  end.
(** submit_jobs_to_server.py:68-95 *)
Definition generate_sos_results (world : nat -> fsys string) (f : fstruct) (Ts : list Q) (Bs : list Z) : list string * res unit :=
  submit_loop world f 0 (flat_map (fun B => map (fun T => (Sos B, T)) Ts) Bs).
(** submit_jobs_to_server.py:98-127 *)
Definition generate_trotter_results (world : nat -> fsys string) (f : fstruct) (Ts : list Q) (Bs Ps : list Z) : list string * res unit :=
  submit_loop world f 0 (flat_map (fun B => flat_map (fun T => map (fun P => (Trotter P B, T)) Ps) Ts) Bs).

(** systems.py:14, 20-28 *)
Definition name_lst : list string := ["superimposed"; "displaced"; "elevated"; "jahnteller"].
Definition range6 (a : Z) : list Z := map (fun k => (a + Z.of_nat k)%Z) (seq 0 6).
Definition id_dict : list (string * list Z) :=
  combine name_lst (map range6 [11; 21; 31; 41]%Z).
Definition valid_ids : list Z := concat (map snd id_dict).
(** systems.py:79-88 *)
Definition assert_id_data_is_valid (d : Z) : res unit := passert (existsb (Z.eqb d) valid_ids).
(** systems.py:103-112 *)
Definition get_system_name (d : Z) : res string :=
  do _ <- assert_id_data_is_valid d;
  match filter (fun n => match dget String.eqb id_dict n with Some l => existsb (Z.eqb d) l | None => false end) name_lst with
  | n :: _ => Ok n
  | [] => Raise OtherException
  end.

(** submit_jobs_to_server.py:217-238; the first assertion concerns FS.id_data *)
Definition generate_sampling_analytical_results (f : fstruct) (Ts : list Q) : list string * res unit :=
  match assert_id_data_is_valid (id_data f) with
  | Raise e => ([], Raise e)
  | Ok _ =>
      fold_right (fun T r => match job_command f Sampling T with Raise e => ([], Raise e) | Ok c => (c :: fst r, snd r) end) ([], Ok tt) Ts
  end.

(** submit_jobs_to_server.py:130-141 and 144-155 with file_structure.py:61-138,
    231-240; [root] is the one given or chosen by context.choose_root_folder,
    [H] the hash of a file; the directories that are made are left out *)
Definition simple_wrapper (H : string -> string) (cwd : string) (root_is_dir : bool) (fs0 : fsys string) (root : string) (d : Z)
  (submit : fstruct -> list string * res unit) : list string * res unit :=
  match (do _ <- assert_id_data_is_valid d; do p <- new_fs cwd root_is_dir [] root d 0 false; Ok (fst p)) with
  | Raise e => ([], Raise e)
  | Ok f =>
      match generate_model_hashes H fs0 false f with
      | (_, Raise e) => ([], Raise e)
      | (f', Ok _) => submit f'
      end
  end.
Definition simple_sos_wrapper (H : string -> string) cwd root_is_dir (world : nat -> fsys string) root d (Bs : list Z) (Ts : list Q) :=
  simple_wrapper H cwd root_is_dir (world 0) root d (fun f => generate_sos_results world f Ts Bs).
Definition simple_trotter_wrapper (H : string -> string) cwd root_is_dir (world : nat -> fsys string) root d (Bs : list Z) (Ts : list Q) (Ps : list Z) :=
  simple_wrapper H cwd root_is_dir (world 0) root d (fun f => generate_trotter_results world f Ts Bs Ps).
