(** Model of /repo/examples/paper_1.5025058/setup_models.py:42-137 and of
    /repo/examples/artificial_systems/setup_models.py:20-150 with the functions
    choose_root_folder (context.py:20-36 of both directories): the preparation of
    the models and of their sampling distributions.

    Simplifications: the file systems hold models ([fs V], see ModelIO_Model);
    directories are not represented here but in Place_Model (the constructor of
    FileStructure and change_rho make those that are needed, C108), except that the
    constructor is told whether the root is one.  Printing, logging and sleeping
    are left out.  The names of the systems and the directory of the scripts do not
    contain characters that are special for glob. *)
From Coq Require Import Reals.
From Verif Require Import Common PyStr_Model FileName_Model Json_Model Arr_Model ModelIO_Model Create_Model Point_Model FileStruct_Model Submit_Model Submit2_Model.
Local Open Scope string_scope.
Local Open Scope nat_scope.

(** context.py:13, 20-36 (paper_1.5025058 and artificial_systems): the root on the
    servers, an exception elsewhere *)
Definition server_names : list string := ["nlogn"; "feynman"].
Definition paper_root : string := "/work/ngraymon/pimc/paper_2018/".
Definition art_root : string := "/work/ngraymon/pimc/artificial/".
Definition choose_root (server_root host : string) : res string :=
  if existsb (String.eqb host) server_names then Ok server_root else Raise OtherException.
(** the root that is given or chosen: setup_models.py:85-86 and 121-122 (paper), 126-127 (artificial) *)
Definition root_or_chosen (server_root host : string) (root : option string) : res string :=
  match root with Some r => Ok r | None => choose_root server_root host end.

(** one statement after the other *)
Definition andthen {V} (r : fs V * res unit) (k : fs V -> fs V * res unit) : fs V * res unit :=
  match r with
  | (f, Ok _) => k f
  | (f, Raise e) => (f, Raise e)
  end.

Section Paper.
  Context {V : Type}.
  Variable zero : V.
  Variable isz : V -> bool.
  Variable vint : V -> res Z.
  (** abspath(dirname(__file__)) *)
  Variable dir : string.

  (** setup_models.py:47-49 *)
  Definition paper_input (name : string) (d : Z) : string :=
    join (join dir "input_json") (name ++ "_" ++ dec (d mod 10) ++ ".json").
  (** copy_input_json_files_into_directories, setup_models.py:42-56 *)
  Definition paper_copy_input (f : fs V) (FS : fstruct) (name : string) : fs V * res unit :=
    andthen (copyfile f (paper_input name (id_data FS)) (path_vib_model FS)) (fun f1 =>
    create_basic_diagonal_model zero isz vint f1 (path_vib_model FS) (path_har_model FS) (path_rho_model FS)).

  (** setup_models.py:67-68: glob.glob(globPath); [names] are the files in the
      directory, in the order in which they are listed *)
  Definition alternate_files (names : list string) (name : string) (d : Z) : list string :=
    map (join (join dir "alternate_rhos"))
        (filter (glob_star (name ++ "_D" ++ dec (d mod 10) ++ "_R") ".json") names).
  (** setup_models.py:72 *)
  Definition alternate_id (file : string) : res Z :=
    do x <- between "_R" ".json" file; py_int_str x.
  (** copy_alternate_rhos_into_directories, setup_models.py:70-78 *)
  Fixpoint copy_alternates (f : fs V) (FS : fstruct) (files : list string) : fs V * res unit :=
    match files with
    | [] => (f, Ok tt)
    | file :: files' =>
        match alternate_id file with
        | Raise e => (f, Raise e)
        | Ok r =>
            let FS' := set_rho FS r in
            andthen (copyfile f file (path_rho_model FS')) (fun f1 => copy_alternates f1 FS' files')
        end
    end.

  (** prepare_paper_model, setup_models.py:81-102 *)
  Definition prepare_paper (cwd host : string) (root_is_dir : bool) (names : list string) (f : fs V) (name : string) (d : Z) (root : option string) : fs V * res unit :=
    match (do _ <- assert_id_data_is_valid d; do r <- root_or_chosen paper_root host root; do p <- new_fs cwd root_is_dir [] r d 0 false; Ok (fst p)) with
    | Raise e => (f, Raise e)
    | Ok FS => andthen (paper_copy_input f FS name) (fun f1 => copy_alternates f1 FS (alternate_files names name d))
    end.

  (** automate_prepare_model, setup_models.py:131-138: the models in order *)
  Fixpoint prepare_all (cwd host : string) (root_is_dir : bool) (names : list string) (f : fs V) (l : list (string * Z)) : fs V * res unit :=
    match l with
    | [] => (f, Ok tt)
    | (name, d) :: l' => andthen (prepare_paper cwd host root_is_dir names f name d None) (fun f1 => prepare_all cwd host root_is_dir names f1 l')
    end.
  Definition all_models : list (string * Z) :=
    flat_map (fun name => map (fun d => (name, d)) (match dget String.eqb id_dict name with Some l => l | None => [] end)) name_lst.
  Definition automate_paper (cwd host : string) (root_is_dir : bool) (names : list string) (f : fs V) : fs V * res unit :=
    prepare_all cwd host root_is_dir names f all_models.
End Paper.

Section Iterative.
  Variable vint : R -> res Z.
  Variable eigvalsh : nat -> (nat -> nat -> R) -> list R.
  (** what the job started by iterative_method_wrapper does to the files: it is
      given the root, the data set and the files; it may fail *)
  Variable job : string -> Z -> fs R -> fs R * res unit.

  (** iterative_method_wrapper(id_data=d), submit_jobs_to_server.py:158-162 and
      176-184: called without a root, it chooses one; [valid] is
      systems.assert_id_data_is_valid *)
  Definition run_iterative (valid : Z -> res unit) (server_root cwd host : string) (server_is_dir : bool) (d : Z) (f : fs R) : fs R * res unit :=
    match (do _ <- valid d; do r <- choose_root server_root host; do p <- new_fs cwd server_is_dir [] r d 0 false; Ok (fst p)) with
    | Raise e => (f, Raise e)
    | Ok FS => job (path_root FS) (id_data FS) f
    end.

  (** systems.py:34 (paper) *)
  Definition iterative_model_id_rho : Z := 11.
  (** setup_weight_corrected_iterative_model, setup_models.py:105-111 (paper) *)
  Definition setup_iterative (cwd host : string) (server_is_dir : bool) (f : fs R) (FS : fstruct) : fs R * res unit :=
    let FS' := set_rho FS iterative_model_id_rho in
    andthen (run_iterative assert_id_data_is_valid paper_root cwd host server_is_dir (id_data FS') f) (fun f1 =>
    andthen (recalculate vint eigvalsh f1 (path_vib_model FS') (path_iter_model FS')) (fun f2 =>
    copyfile f2 (path_iter_model FS') (path_rho_model FS'))).

  (** prepare_paper_model_plus_iterative_method, setup_models.py:114-128 *)
  Definition prepare_iterative (dir cwd host : string) (root_is_dir server_is_dir : bool) (names : list string) (f : fs R) (name : string) (d : Z) (root : option string) : fs R * res unit :=
    andthen (prepare_paper 0%R is_zero vint dir cwd host root_is_dir names f name d root) (fun f1 =>
    match (do r <- root_or_chosen paper_root host root; do p <- new_fs cwd root_is_dir [] r d 0 false; Ok (fst p)) with
    | Raise e => (f1, Raise e)
    | Ok FS => setup_iterative cwd host server_is_dir f1 FS
    end).

  (** model[VMK.E] = new_energies: np.array of a list of numbers, vibronic_model_io.py:708 *)
  Definition energies_array (es : list R) : pval R := PArr (mkArr [length es] es).
  (** setup_models.py:54-60 (artificial): the third sampling distribution *)
  Definition third (f : fs R) (FS : fstruct) : fs R * res unit :=
    andthen (copyfile f (path_iter_model FS) (path_rho_model FS)) (fun f1 =>
    match (do es <- single_point vint eigvalsh f1 (path_vib_model FS) (path_iter_model FS);
           do m <- load_new 0%R vint Diagonal f1 (path_rho_model FS);
           Ok (mset m (KV E_) (energies_array es))) with
    | Raise e => (f1, Raise e)
    | Ok m => save is_zero vint Diagonal f1 (path_rho_model FS) m
    end).

  (** setup_sampling_distributions, setup_models.py:20-69 (artificial) *)
  Definition art_sampling (cwd host : string) (server_is_dir : bool) (f : fs R) (FS : fstruct) : fs R * res unit :=
    let FS0 := set_rho FS 0 in
    andthen (create_basic_diagonal_model 0%R is_zero vint f (path_vib_model FS0) (path_har_model FS0) (path_rho_model FS0)) (fun f =>
    let FS1 := set_rho FS0 1 in
    andthen (remove_coupling 0%R is_zero vint f (path_orig_model FS1) (path_rho_model FS1)) (fun f =>
    let FS2 := set_rho FS1 2 in
    andthen (run_iterative art_assert_valid art_root cwd host server_is_dir (id_data FS2) f) (fun f =>
    andthen (copyfile f (path_iter_model FS2) (path_rho_model FS2)) (fun f =>
    let FS3 := set_rho FS2 3 in
    andthen (third f FS3) (fun f =>
    let FS4 := set_rho FS3 4 in
    andthen (copyfile f (path_iter_model FS4) (path_rho_model FS4)) (fun f =>
    recalculate vint eigvalsh f (path_vib_model FS4) (path_rho_model FS4))))))).

  (** the close test of np.allclose and the matrix made for a tuning parameter (in
      hundredths), vibronic_model_io.py:802-872 *)
  Variable close : R -> R -> bool.
  Variable new_matrix : Z -> Z -> res (arr R).
  (** unitary_transformation(FS), setup_models.py:72-84 (artificial) *)
  Definition art_unitary (f : fs R) (FS : fstruct) : fs R * res unit :=
    let fake := fun gen u => create_fake 0%R 1%R Rplus Rmult is_zero vint close gen f (path_vib_model FS) (path_orig_model FS) (path_ortho_mat FS) u in
    match f (path_ortho_mat FS) with
    | Some _ => fake (fun _ => Raise OtherException) (MStr "re-use")    (* the tuning parameter is not used *)
    | None => match art_tuning (id_data FS) with
              | Raise e => (f, Raise e)
              | Ok t => fake (new_matrix t) MNone
              end
    end.

  (** setup_models.py:106-112 (artificial) *)
  Definition art_input (dir name : string) : string := join (join dir "input_json") ("model_" ++ name ++ ".json").
  (** prepare_model, setup_models.py:118-147 (artificial) *)
  Definition art_prepare (dir cwd host : string) (root_is_dir server_is_dir : bool) (f : fs R) (name : string) (d : Z) (root : option string) : fs R * res unit :=
    match (do _ <- art_assert_valid d; do r <- root_or_chosen art_root host root; do p <- new_fs cwd root_is_dir [] r d 0 false; Ok (fst p)) with
    | Raise e => (f, Raise e)
    | Ok FS =>
        andthen (copyfile f (art_input dir name) (path_vib_model FS)) (fun f =>
        andthen (art_unitary f FS) (fun f =>
        art_sampling cwd host server_is_dir f FS))
    end.
End Iterative.
