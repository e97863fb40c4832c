(** Model of /repo/pibronic/data/file_name.py and of the extract_* functions of
    /repo/pibronic/data/postprocessing.py.

    The name functions of file_name.py take strings; called without arguments
    they return a template that is formatted later with the parameter values.
    Both steps together give the name built here from the formatted values. *)
From Verif Require Import Common PyStr_Model.
Local Open Scope string_scope.

(** file_name.py:22-31 *)
Definition execution_output (D R P T J : string) : string :=
  "D" ++ D ++ "_R" ++ R ++ "_P" ++ P ++ "_T" ++ T ++ ".o" ++ J.

(** file_name.py:39-47 *)
Definition pimc (P T J : string) : string :=
  "P" ++ P ++ "_T" ++ T ++ "_J" ++ J ++ "_data_points.npz".

(** file_name.py:55-63 *)
Definition jackknife (P T X : string) : string :=
  "P" ++ P ++ "_T" ++ T ++ "_X" ++ X ++ "_thermo".

(** file_name.py:69-77 *)
Definition sos (B : string) : string := "sos_B" ++ B ++ ".json".

(** file_name.py:83-91 *)
Definition trotter (P B : string) : string := "trotter_P" ++ P ++ "_B" ++ B ++ ".json".

(** file_name.py:99-107, 115-123, 131-139 *)
Definition training_data_input (P T J : string) : string :=
  "P" ++ P ++ "_T" ++ T ++ "_J" ++ J ++ "_training_data_input.npz".
Definition training_data_g_output (P T J : string) : string :=
  "P" ++ P ++ "_T" ++ T ++ "_J" ++ J ++ "_training_data_g_output.npz".
Definition training_data_rho_output (P T J : string) : string :=
  "P" ++ P ++ "_T" ++ T ++ "_J" ++ J ++ "_training_data_rho_output.npz".

(** the templates with {P:d}, {T:.2f}, {J:d}, {X:d}, {B:d} filled in *)
Definition pimc_file (P : Z) (T : Q) (J : Z) : string := pimc (dec P) (fmt2 T) (dec J).
Definition thermo_file (P : Z) (T : Q) (X : Z) : string := jackknife (dec P) (fmt2 T) (dec X).
Definition sos_file (B : Z) : string := sos (dec B).
Definition trotter_file (P B : Z) : string := trotter (dec P) (dec B).

(** pimc/pimc.py:800-817 compute_path_to_file; [samples], [id_job] and
    [path_root] are the attributes of the BoxResult *)
Definition result_path (path_root : string) (samples : Z) (P : Z) (T : Q) (id_job : option Z) : res string :=
  if (samples =? 0)%Z then Raise AssertionError
  else match id_job with
       | Some j => Ok (join path_root (pimc_file P T j))
       | None => Ok (join path_root (pimc_file P T 0))
       end.

(** s.split(sep1)[1].split(sep2)[0] *)
Definition between (sep1 sep2 s : string) : res string :=
  do a <- item (split sep1 s) 1;
  item (split sep2 a) 0.

(** postprocessing.py:87-89: int() of a list *)
Definition extract_bead_trotter (path : string) : res Z :=
  do a <- item (split "trotter_P" path) 1;
  Raise TypeError.

(** postprocessing.py:103-105 *)
Definition extract_basis_sos (path : string) : res Z :=
  do s <- between "_B" ".json" path; py_int_str s.

(** postprocessing.py:118-120 and 160-162 (pimc and thermo files) *)
Definition extract_bead (path : string) : res Z :=
  do s <- between "P" "_T" path; py_int_str s.

(** postprocessing.py:131-133 *)
Definition extract_temperature_pimc (path : string) : res Q :=
  do s <- between "_T" "_J" path; py_float_str s.

(** postprocessing.py:147-149 *)
Definition extract_job_pimc (path : string) : res Z :=
  do s <- between "_J" "_data_" path; py_int_str s.

(** postprocessing.py:165-167 *)
Definition extract_temperature_thermo (path : string) : res Q :=
  do s <- between "_T" "_X" path; py_float_str s.

(** postprocessing.py:170-172 *)
Definition extract_sample_thermo (path : string) : res Z :=
  do s <- between "_X" "_thermo" path; py_int_str s.

(** sorted(set(map(f, l))) of integers; insertion into a sorted list without
    repetition (postprocessing.py:108-115, 123-128) *)
Fixpoint insert_uniq (z : Z) (l : list Z) : list Z :=
  match l with
  | [] => [z]
  | x :: l' => if (z <? x)%Z then z :: l else if (z =? x)%Z then l else x :: insert_uniq z l'
  end.
Definition sorted_set (l : list Z) : list Z := fold_right insert_uniq [] l.

Fixpoint map_res {A B} (f : A -> res B) (l : list A) : res (list B) :=
  match l with
  | [] => Ok []
  | a :: l' => do b <- f a; do r <- map_res f l'; Ok (b :: r)
  end.

(** postprocessing.py:123-128 *)
Definition extract_bead_list (paths : list string) : res (list Z) :=
  do l <- map_res extract_bead paths; Ok (sorted_set l).

(** postprocessing.py:108-115; the intersection of the two sets, sorted *)
Definition extract_sos_basis_list (list_vib list_rho : list string) : res (list Z) :=
  do c <- map_res extract_basis_sos list_vib;
  do s <- map_res extract_basis_sos list_rho;
  Ok (sorted_set (filter (fun z => existsb (Z.eqb z) s) c)).

(** fnmatch for a pattern with a single '*' between a literal prefix and a
    literal suffix, as used through glob at postprocessing.py:305-306 *)
Definition glob_star (pre suf name : string) : bool :=
  String.prefix pre name &&
  (String.length pre + String.length suf <=? String.length name)%nat &&
  String.eqb (String.substring (String.length name - String.length suf) (String.length suf) name) suf.

(** postprocessing.py:294-310, the file names in the results directory that
    match FS.template_pimc.format(P=P, T=T, J="*") *)
Definition select_pimc_files (P : Z) (T : Q) (names : list string) : list string :=
  filter (glob_star ("P" ++ dec P ++ "_T" ++ fmt2 T ++ "_J") "_data_points.npz") names.
