(** Model of the lists of files and parameters, /repo/pibronic/data/postprocessing.py:60-100, 152-157, 199-291.

    The listing of a directory is given by [ls].  The parameters of floats are rational numbers (see PyStr_Model). *)
From Coq Require Import QArith.
From Verif Require Import Common PyStr_Model FileName_Model FileStruct_Model Analysis_Model Plot_Model.
Local Open Scope string_scope.
Local Open Scope list_scope.
Local Open Scope nat_scope.

(** 60-63 retrive_sos_coupled_file_list, 66-69 retrive_sos_sampling_file_list: the parameter B is not used *)
Definition sos_file_list (dir : string) (names : list string) : list string :=
  map (fun name => (dir ++ name)%string) (filter (glob_parts ["sos_B"; ".json"]) names).
Definition retrive_sos_coupled_file_list (ls : string -> list string) (f : fstruct) (B : string) : list string := sos_file_list (path_vib_params f) (ls (path_vib_params f)).
Definition retrive_sos_sampling_file_list (ls : string -> list string) (f : fstruct) (B : string) : list string := sos_file_list (path_rho_params f) (ls (path_rho_params f)).
(** 72-80 retrive_all_file_paths *)
Definition retrive_all_file_paths (ls : string -> list string) (f : fstruct) : list string * list string * list string * list string :=
  let list_pimc := retrive_pimc_file_list (path_rho_results f) (ls (path_rho_results f)) in
  let list_jackknife := Plot_Model.retrive_jackknife_file_list (path_rho_results f) (ls (path_rho_results f)) in
  let list_sos_vib := retrive_sos_coupled_file_list ls f "*" in
  let list_sos_rho := retrive_sos_sampling_file_list ls f "*" in
  (list_pimc, list_jackknife, list_sos_vib, list_sos_rho).
(** 199-206 retrive_file_paths_for_jackknife *)
Definition retrive_file_paths_for_jackknife (ls : string -> list string) (f : fstruct) : list string * list string * list string :=
  let list_pimc := retrive_pimc_file_list (path_rho_results f) (ls (path_rho_results f)) in
  let list_sos_vib := retrive_sos_coupled_file_list ls f "*" in
  let list_sos_rho := retrive_sos_sampling_file_list ls f "*" in
  (list_pimc, list_sos_vib, list_sos_rho).

(** 92-100 extract_trotter_paramater_list: an integer can not be indexed *)
Definition extract_trotter_paramater_list (paths : list string) : res (list (Z * list Z)) :=
  for_res (fun d path => do n <- extract_bead_trotter path; Raise TypeError) paths [].
(** 152-157 extract_parameter_lists *)
Definition extract_parameter_lists (list_pimc list_vib list_rho : list string) : res (list Z * list Q * list Z) :=
  do bL <- extract_sos_basis_list list_vib list_rho;
  do pL <- extract_bead_list list_pimc;
  do tL <- extract_temperature_list list_pimc;
  Ok (pL, tL, bL).

(** list.sort() of integers *)
Fixpoint insert_z (z : Z) (l : list Z) : list Z :=
  match l with [] => [z] | x :: l' => if (z <=? x)%Z then z :: l else x :: insert_z z l' end.
Definition sort_z (l : list Z) : list Z := fold_right insert_z [] l.
(** 242-247, 284-289: each value once, then sorted *)
Definition once (l : list Z) : list Z := fold_left (fun acc p => if existsb (Z.eqb p) acc then acc else acc ++ [p]) l [].
(** the values of the dictionary, which has no entry samples in the second function *)
Record value_dict := mkValues { pimc_beads : list Z; basis_fxns : list Z; temperatures : list Q; samples : option (list Z) }.
(** 210-249 extract_pimc_parameters *)
Definition extract_pimc_parameters (list_pimc list_coupled list_sampling : list string) : res value_dict :=
  do bs <- extract_sos_basis_list list_coupled list_sampling;
  do ts <- map_res (fun path => do s <- between "_T" "_X" path; py_float_str s) list_pimc;
  do xs <- map_res (fun path => do s <- between "_X" "_thermo" path; py_int_str s) list_pimc;
  do ps <- map_res (fun path => do s <- between "/P" "_T" path; py_int_str s) list_pimc;
  Ok (mkValues (sort_z (once ps)) bs (fold_right insert_q [] ts) (Some (sorted_set xs))).
(** 252-291 extract_jackknife_parameters *)
Definition extract_jackknife_parameters (list_pimc list_coupled list_sampling : list string) : res value_dict :=
  do bs <- extract_sos_basis_list list_coupled list_sampling;
  do ts <- map_res (fun path => do s <- between "_T" "_J" path; py_float_str s) list_pimc;
  do ps <- map_res (fun path => do s <- between "results/P" "_T" path; py_int_str s) list_pimc;
  Ok (mkValues (sort_z (once ps)) bs (fold_right insert_q [] ts) None).
