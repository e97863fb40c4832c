(** Model of the directories that the preparation of the models uses:
    /repo/examples/paper_1.5025058/setup_models.py:42-138 and
    /repo/examples/artificial_systems/setup_models.py:20-150 with
    /repo/pibronic/data/file_structure.py:61-202.  The same functions as in Setup_Model, but a file
    is written only if its directory is there.

    Simplified: a call that writes to a directory that is not there fails before it writes
    anything.  The job of the iterative method makes and removes no directories. *)
From Coq Require Import Reals.
From Verif Require Import Common PyStr_Model FileName_Model Json_Model Arr_Model ModelIO_Model Create_Model Point_Model FileStruct_Model Submit_Model Submit2_Model Job_Model Setup_Model.
Local Open Scope string_scope.
Local Open Scope list_scope.
Local Open Scope nat_scope.

(** os.path.dirname of the path of a file, with the slash, is a directory *)
Definition has_directory (ds : dirs) (path : string) : bool := FileStruct_Model.isdir ds (fst (dir_base path)).
(** a call that writes the files [paths]: open(path, 'w') raises FileNotFoundError without the directory *)
Definition writing {V} (ds : dirs) (paths : list string) (f : fs V) (call : fs V * res unit) : fs V * res unit :=
  if forallb (has_directory ds) paths then call else (f, Raise OSError).
(** one statement after the other *)
Definition next {V} (x : fs V * dirs * res unit) (k : fs V -> dirs -> fs V * dirs * res unit) : fs V * dirs * res unit :=
  match x with
  | (f, ds, Ok _) => k f ds
  | (f, ds, Raise e) => (f, ds, Raise e)
  end.
Definition keep {V} (ds : dirs) (x : fs V * res unit) : fs V * dirs * res unit := (fst x, ds, snd x).

Section Paper.
  Context {V : Type}.
  Variable zero : V.
  Variable isz : V -> bool.
  Variable vint : V -> res Z.
  Variable dir : string.

  (** copy_input_json_files_into_directories, setup_models.py:42-56 *)
  Definition paper_copy_input_at (ds : dirs) (f : fs V) (FS : fstruct) (name : string) : fs V * res unit :=
    andthen (writing ds [path_vib_model FS] f (copyfile f (paper_input dir name (id_data FS)) (path_vib_model FS))) (fun f1 =>
    writing ds [path_har_model FS; path_rho_model FS] f1 (create_basic_diagonal_model zero isz vint f1 (path_vib_model FS) (path_har_model FS) (path_rho_model FS))).

  (** copy_alternate_rhos_into_directories, setup_models.py:70-78 *)
  Fixpoint copy_alternates_at (ds : dirs) (f : fs V) (FS : fstruct) (files : list string) : fs V * dirs * res unit :=
    match files with
    | [] => (f, ds, Ok tt)
    | file :: files' =>
        match alternate_id file with
        | Raise e => (f, ds, Raise e)
        | Ok r =>
            let (FS', ds1) := change_rho ds FS r in
            next (keep ds1 (writing ds1 [path_rho_model FS'] f (copyfile f file (path_rho_model FS')))) (fun f1 ds1 => copy_alternates_at ds1 f1 FS' files')
        end
    end.

  (** prepare_paper_model, setup_models.py:81-102 *)
  Definition prepare_paper_at (cwd host : string) (root_is_dir : bool) (names : list string) (ds : dirs) (f : fs V) (name : string) (d : Z) (root : option string) : fs V * dirs * res unit :=
    match (do _ <- assert_id_data_is_valid d; do r <- root_or_chosen paper_root host root; new_fs cwd root_is_dir ds r d 0 false) with
    | Raise e => (f, ds, Raise e)
    | Ok (FS, ds1) => next (keep ds1 (paper_copy_input_at ds1 f FS name)) (fun f1 ds1 => copy_alternates_at ds1 f1 FS (alternate_files dir names name d))
    end.

  (** automate_prepare_model, setup_models.py:131-138 *)
  Fixpoint prepare_all_at (cwd host : string) (root_is_dir : bool) (names : list string) (ds : dirs) (f : fs V) (l : list (string * Z)) : fs V * dirs * res unit :=
    match l with
    | [] => (f, ds, Ok tt)
    | (name, d) :: l' => next (prepare_paper_at cwd host root_is_dir names ds f name d None) (fun f1 ds1 => prepare_all_at cwd host root_is_dir names ds1 f1 l')
    end.
  Definition automate_paper_at (cwd host : string) (root_is_dir : bool) (names : list string) (ds : dirs) (f : fs V) : fs V * dirs * res unit :=
    prepare_all_at cwd host root_is_dir names ds f all_models.
End Paper.

Section Iterative.
  Variable vint : R -> res Z.
  Variable eigvalsh : nat -> (nat -> nat -> R) -> list R.
  Variable job : string -> Z -> fs R -> fs R * res unit.

  (** iterative_method_wrapper, submit_jobs_to_server.py:158-162 and 176-184 *)
  Definition run_iterative_at (valid : Z -> res unit) (server_root cwd host : string) (server_is_dir : bool) (d : Z) (ds : dirs) (f : fs R) : fs R * dirs * res unit :=
    match (do _ <- valid d; do r <- choose_root server_root host; new_fs cwd server_is_dir ds r d 0 false) with
    | Raise e => (f, ds, Raise e)
    | Ok (FS, ds1) => keep ds1 (job (path_root FS) (id_data FS) f)
    end.

  (** setup_weight_corrected_iterative_model, setup_models.py:105-111 (paper) *)
  Definition setup_iterative_at (cwd host : string) (server_is_dir : bool) (ds : dirs) (f : fs R) (FS : fstruct) : fs R * dirs * res unit :=
    let (FS', ds) := change_rho ds FS iterative_model_id_rho in
    next (run_iterative_at assert_id_data_is_valid paper_root cwd host server_is_dir (id_data FS') ds f) (fun f1 ds =>
    next (keep ds (writing ds [path_iter_model FS'] f1 (recalculate vint eigvalsh f1 (path_vib_model FS') (path_iter_model FS')))) (fun f2 ds =>
    keep ds (writing ds [path_rho_model FS'] f2 (copyfile f2 (path_iter_model FS') (path_rho_model FS'))))).

  (** prepare_paper_model_plus_iterative_method, setup_models.py:114-128 *)
  Definition prepare_iterative_at (dir cwd host : string) (root_is_dir server_is_dir : bool) (names : list string) (ds : dirs) (f : fs R) (name : string) (d : Z) (root : option string) : fs R * dirs * res unit :=
    next (prepare_paper_at 0%R is_zero vint dir cwd host root_is_dir names ds f name d root) (fun f1 ds =>
    match (do r <- root_or_chosen paper_root host root; new_fs cwd root_is_dir ds r d 0 false) with
    | Raise e => (f1, ds, Raise e)
    | Ok (FS, ds1) => setup_iterative_at cwd host server_is_dir ds1 f1 FS
    end).

  (** setup_sampling_distributions, setup_models.py:20-69 (artificial) *)
  Definition art_sampling_at (cwd host : string) (server_is_dir : bool) (ds : dirs) (f : fs R) (FS : fstruct) : fs R * dirs * res unit :=
    let (FS0, ds) := change_rho ds FS 0 in
    next (keep ds (writing ds [path_har_model FS0; path_rho_model FS0] f (create_basic_diagonal_model 0%R is_zero vint f (path_vib_model FS0) (path_har_model FS0) (path_rho_model FS0)))) (fun f ds =>
    let (FS1, ds) := change_rho ds FS0 1 in
    next (keep ds (writing ds [path_rho_model FS1] f (remove_coupling 0%R is_zero vint f (path_orig_model FS1) (path_rho_model FS1)))) (fun f ds =>
    let (FS2, ds) := change_rho ds FS1 2 in
    next (run_iterative_at art_assert_valid art_root cwd host server_is_dir (id_data FS2) ds f) (fun f ds =>
    next (keep ds (writing ds [path_rho_model FS2] f (copyfile f (path_iter_model FS2) (path_rho_model FS2)))) (fun f ds =>
    let (FS3, ds) := change_rho ds FS2 3 in
    next (keep ds (writing ds [path_rho_model FS3] f (third vint eigvalsh f FS3))) (fun f ds =>
    let (FS4, ds) := change_rho ds FS3 4 in
    next (keep ds (writing ds [path_rho_model FS4] f (copyfile f (path_iter_model FS4) (path_rho_model FS4)))) (fun f ds =>
    keep ds (writing ds [path_rho_model FS4] f (recalculate vint eigvalsh f (path_vib_model FS4) (path_rho_model FS4))))))))).

  Variable close : R -> R -> bool.
  Variable new_matrix : Z -> Z -> res (arr R).
  (** prepare_model, setup_models.py:118-147 (artificial); the transformation writes three files, vibronic_model_io.py:802-872 *)
  Definition art_prepare_at (dir cwd host : string) (root_is_dir server_is_dir : bool) (ds : dirs) (f : fs R) (name : string) (d : Z) (root : option string) : fs R * dirs * res unit :=
    match (do _ <- art_assert_valid d; do r <- root_or_chosen art_root host root; new_fs cwd root_is_dir ds r d 0 false) with
    | Raise e => (f, ds, Raise e)
    | Ok (FS, ds) =>
        next (keep ds (writing ds [path_vib_model FS] f (copyfile f (art_input dir name) (path_vib_model FS)))) (fun f ds =>
        next (keep ds (writing ds [path_orig_model FS; path_vib_model FS; path_ortho_mat FS] f (art_unitary vint close new_matrix f FS))) (fun f ds =>
        art_sampling_at cwd host server_is_dir ds f FS))
    end.
End Iterative.
