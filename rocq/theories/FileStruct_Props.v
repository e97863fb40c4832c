(** C13, C14, C15, C54, C55, C56: the FileStructure object. *)
From Verif Require Import Common PyStr_Model PyStr_Proofs FileName_Model FileName_Proofs FileStruct_Model FileStruct_Proofs.
Local Open Scope string_scope.
Local Open Scope nat_scope.

(** ---- C14 ---- *)
(** the paths are the documented ones: <root>/data_set_D/rho_R/<part> *)
Theorem C14_rho_layout cwd root d r :
  rho_attrs (build_fs cwd root d r) = map (fun x => join root ("data_set_" ++ dec d ++ "/rho_" ++ dec r ++ "/" ++ x)) rho_parts.
Proof. exact (rho_layout cwd root d r). Qed.
Print Assumptions C14_rho_layout.

Theorem C14_vib_layout cwd root d r :
  vib_attrs (build_fs cwd root d r) = map (fun x => join root ("data_set_" ++ dec d ++ "/" ++ x)) vib_parts.
Proof. exact (vib_layout cwd root d r). Qed.
Print Assumptions C14_vib_layout.

(** no file at or below a rho path of (d, r) is at or below a rho path of another (d', r') *)
Theorem C14_rho_disjoint cwd cwd' root d r d' r' p p' s s' :
  In p (rho_attrs (build_fs cwd root d r)) -> In p' (rho_attrs (build_fs cwd' root d' r')) ->
  p ++ s = p' ++ s' -> d = d' /\ r = r'.
Proof. exact (rho_disjoint cwd cwd' root d r d' r' p p' s s'). Qed.
Print Assumptions C14_rho_disjoint.

Theorem C14_vib_disjoint cwd cwd' root d r d' r' p p' s s' :
  In p (vib_attrs (build_fs cwd root d r)) -> In p' (vib_attrs (build_fs cwd' root d' r')) ->
  p ++ s = p' ++ s' -> d = d'.
Proof. exact (vib_disjoint cwd cwd' root d r d' r' p p' s s'). Qed.
Print Assumptions C14_vib_disjoint.

Theorem C14_vib_rho_disjoint cwd cwd' root d r d' r' p p' s s' :
  In p (vib_attrs (build_fs cwd root d r)) -> In p' (rho_attrs (build_fs cwd' root d' r')) ->
  p ++ s <> p' ++ s'.
Proof. exact (vib_rho_disjoint cwd cwd' root d r d' r' p p' s s'). Qed.
Print Assumptions C14_vib_rho_disjoint.

Theorem C14_rho_directory cwd root d r d' r' s s' :
  path_rho (build_fs cwd root d r) ++ s = path_rho (build_fs cwd root d' r') ++ s' -> d = d' /\ r = r'.
Proof. exact (rho_dir_disjoint cwd root d r d' r' s s'). Qed.
Print Assumptions C14_rho_directory.

Theorem C14_es_directory cwd root d r d' r' s s' :
  path_es (build_fs cwd root d r) ++ s = path_es (build_fs cwd root d' r') ++ s' -> d = d'.
Proof. exact (es_dir_disjoint cwd root d r d' r' s s'). Qed.
Print Assumptions C14_es_directory.

Theorem C14_files_distinct cwd root d r : NoDup (file_attrs (build_fs cwd root d r)).
Proof. exact (files_distinct cwd root d r). Qed.
Print Assumptions C14_files_distinct.

Theorem C14_inside_root cwd root d r p :
  In p (rho_attrs (build_fs cwd root d r) ++ vib_attrs (build_fs cwd root d r))%list -> String.prefix root p = true.
Proof. exact (inside_root cwd root d r p). Qed.
Print Assumptions C14_inside_root.

Theorem C14_inside_absolute_root cwd root d r p :
  In p [path_data (build_fs cwd root d r); path_rho (build_fs cwd root d r); path_es (build_fs cwd root d r)] ->
  String.prefix (path_root (build_fs cwd root d r)) p = true.
Proof. exact (inside_abs_root cwd root d r p). Qed.
Print Assumptions C14_inside_absolute_root.

Example C14_example :
  let f := build_fs "/home/u" "/work/pimc" 11 2 in
  path_rho_results f = "/work/pimc/data_set_11/rho_2/results/" /\
  path_rho_model f = "/work/pimc/data_set_11/rho_2/parameters/sampling_model.json" /\
  path_vib_model f = "/work/pimc/data_set_11/parameters/coupled_model.json" /\
  path_es f = "/work/pimc/data_set_11/electronic_structure" /\
  t_pimc f = "/work/pimc/data_set_11/rho_2/results/P{P:d}_T{T:.2f}_J{J:s}_data_points.npz".
Proof. vm_compute. repeat split. Qed.

(** data set 1 / rho 11 and data set 11 / rho 1 *)
Example C14_example_digits :
  path_rho_model (build_fs "/" "/w" 1 11) <> path_rho_model (build_fs "/" "/w" 11 1).
Proof. vm_compute. discriminate. Qed.

(** the absolute root *)
Theorem C14_root_absolute cwd root d r : String.prefix "/" cwd = true -> String.prefix "/" (path_root (build_fs cwd root d r)) = true.
Proof. exact (abspath_absolute cwd root). Qed.
Print Assumptions C14_root_absolute.

Theorem C14_abspath_idempotent cwd cwd' p : String.prefix "/" cwd = true -> abspath cwd' (abspath cwd p) = abspath cwd p.
Proof. exact (abspath_idempotent cwd cwd' p). Qed.
Print Assumptions C14_abspath_idempotent.

Example C14_abspath_example :
  abspath "/home/u" "../x/./y//z/" = "/home/x/y/z" /\ abspath "/home/u" "/a/../../b" = "/b" /\ abspath "/home/u" "" = "/home/u".
Proof. vm_compute. auto. Qed.

(** ---- C15 ---- *)
(** after change_rho all paths below the rho directory, and the templates, are
    those of an object built for the new rho id and the absolute root *)
Theorem C15_change_rho_fresh cwd root d r0 r ds cwd' :
  rho_attrs (fst (change_rho ds (build_fs cwd root d r0) r)) = rho_attrs (build_fs cwd' (abspath cwd root) d r).
Proof. exact (change_rho_fresh cwd root d r0 r ds cwd'). Qed.
Print Assumptions C15_change_rho_fresh.

Theorem C15_change_rho_layout cwd root d r0 r ds :
  rho_attrs (fst (change_rho ds (build_fs cwd root d r0) r)) =
  map (fun x => join (abspath cwd root) ("data_set_" ++ dec d ++ "/rho_" ++ dec r ++ "/" ++ x)) rho_parts.
Proof. exact (change_rho_layout cwd root d r0 r ds). Qed.
Print Assumptions C15_change_rho_layout.

Theorem C15_change_rho_keeps ds f r :
  other_attrs (fst (change_rho ds f r)) = other_attrs f /\ id_data (fst (change_rho ds f r)) = id_data f /\
  id_rho (fst (change_rho ds f r)) = id_rho f /\ hash_vib (fst (change_rho ds f r)) = hash_vib f /\
  hash_rho (fst (change_rho ds f r)) = hash_rho f.
Proof. exact (change_rho_others ds f r). Qed.
Print Assumptions C15_change_rho_keeps.

Theorem C15_last_change_wins ds ds' f r r' :
  fst (change_rho ds' (fst (change_rho ds f r)) r') = fst (change_rho ds f r').
Proof. exact (change_rho_last ds ds' f r r'). Qed.
Print Assumptions C15_last_change_wins.

(** finding: path_rho and id_rho keep the old value *)
Theorem C15_path_rho_refuted cwd root d r0 r ds :
  r <> r0 ->
  path_rho (fst (change_rho ds (build_fs cwd root d r0) r)) <> path_rho (build_fs cwd root d r) /\
  id_rho (fst (change_rho ds (build_fs cwd root d r0) r)) <> id_rho (build_fs cwd root d r).
Proof. exact (change_rho_path_rho cwd root d r0 r ds). Qed.
Print Assumptions C15_path_rho_refuted.

(** finding: with a relative root the new paths are absolute ones *)
Theorem C15_relative_root_refuted cwd root d r0 r ds :
  String.prefix "/" cwd = true -> rel root ->
  path_rho_params (fst (change_rho ds (build_fs cwd root d r0) r)) <> path_rho_params (build_fs cwd root d r).
Proof. exact (change_rho_relative cwd root d r0 r ds). Qed.
Print Assumptions C15_relative_root_refuted.

(** finding: generate_model_hashes after change_rho keeps the hash of the old sampling model *)
Theorem C15_hash_refuted H fs ds f r :
  has_hashes f = true ->
  own_hashes (fst (generate_model_hashes H fs false (fst (change_rho ds f r)))) = own_hashes f.
Proof. exact (change_rho_hash H fs ds f r). Qed.
Print Assumptions C15_hash_refuted.

Example C15_example :
  let f := fst (change_rho [] (build_fs "/home/u" "/w" 3 0) 5) in
  path_rho_model f = "/w/data_set_3/rho_5/parameters/sampling_model.json" /\ path_rho f = "/w/data_set_3/rho_0/" /\
  path_rho_params (fst (change_rho [] (build_fs "/home/u" "x" 3 0) 5)) = "/home/u/x/data_set_3/rho_5/parameters/" /\
  path_rho_params (build_fs "/home/u" "x" 3 5) = "x/data_set_3/rho_5/parameters/".
Proof. vm_compute. repeat split. Qed.

(** ---- C13 ---- *)
(** hashes requested for the first time, or with force_flag, are those of the current files *)
Theorem C13_current_contents H fs f c c' force :
  has_hashes f = false \/ force = true ->
  fs (path_vib_model f) = Some c -> fs (path_rho_model f) = Some c' ->
  own_hashes (fst (generate_model_hashes H fs force f)) = (Some (H c), Some (H c')) /\
  snd (generate_model_hashes H fs force f) = Ok tt.
Proof. exact (generate_first H fs f c c' force). Qed.
Print Assumptions C13_current_contents.

Theorem C13_same_hash_iff_same_contents H fs fs' f f' cv cr cv' cr' :
  (forall a b, H a = H b -> a = b) ->
  has_hashes f = false -> has_hashes f' = false ->
  fs (path_vib_model f) = Some cv -> fs (path_rho_model f) = Some cr ->
  fs' (path_vib_model f') = Some cv' -> fs' (path_rho_model f') = Some cr' ->
  (own_hashes (fst (generate_model_hashes H fs false f)) = own_hashes (fst (generate_model_hashes H fs' false f')) <-> cv = cv' /\ cr = cr').
Proof. exact (hashes_agree H fs fs' f f' cv cr cv' cr'). Qed.
Print Assumptions C13_same_hash_iff_same_contents.

(** finding: once both hashes exist, no sequence of file changes, rho changes
    and requests without force_flag changes them *)
Theorem C13_stale_refuted H f ds fs ops :
  has_hashes f = true -> forallb no_force ops = true ->
  own_hashes (fst (fst (run_ops H (f, ds, fs) ops))) = own_hashes f.
Proof. exact (hashes_stale H f ds fs ops). Qed.
Print Assumptions C13_stale_refuted.

(** a missing file raises; with force_flag a missing sampling model leaves a
    new model hash next to an old sampling hash *)
Theorem C13_missing_file H fs f force :
  has_hashes f = false \/ force = true ->
  (fs (path_vib_model f) = None -> generate_model_hashes H fs force f = (f, Raise AssertionError)) /\
  (forall c, fs (path_vib_model f) = Some c -> fs (path_rho_model f) = None ->
     own_hashes (fst (generate_model_hashes H fs force f)) = (Some (H c), hash_rho f) /\
     snd (generate_model_hashes H fs force f) = Raise AssertionError).
Proof. exact (generate_missing H fs f force). Qed.
Print Assumptions C13_missing_file.

(** a result dictionary is accepted exactly when both of its hashes agree *)
Theorem C13_accepted_iff f d hv hr :
  hash_vib f = Some hv -> hash_rho f = Some hr ->
  (valid_vib_and_rho_hashes f d = Ok true <-> dget String.eqb d "hash_vib" = Some hv /\ dget String.eqb d "hash_rho" = Some hr).
Proof. exact (valid_hashes_iff f d hv hr). Qed.
Print Assumptions C13_accepted_iff.

Example C13_example :
  let f := build_fs "/" "/w" 1 0 in
  let fs := fs_write (fs_write (fun _ => None) (path_vib_model f) "model A") (path_rho_model f) "rho A" in
  let f1 := fst (generate_model_hashes (fun s => "#" ++ s) fs false f) in
  let fs2 := fs_write fs (path_vib_model f) "model B" in
  own_hashes f1 = (Some "#model A", Some "#rho A") /\
  own_hashes (fst (generate_model_hashes (fun s => "#" ++ s) fs2 false f1)) = (Some "#model A", Some "#rho A") /\
  own_hashes (fst (generate_model_hashes (fun s => "#" ++ s) fs2 true f1)) = (Some "#model B", Some "#rho A") /\
  valid_vib_and_rho_hashes f1 [("hash_vib", "#model A"); ("hash_rho", "#rho B")] = Ok false /\
  valid_vib_and_rho_hashes f [("hash_vib", "#model A")] = Raise AssertionError.
Proof. vm_compute. repeat split. Qed.

(** ---- C54 ---- *)
(** finding: directories_exist looks at the attribute names, so its answer does
    not depend on the object or on the directories it stands for: with all
    directories created it says no unless the current directory contains
    directories named path_data, path_es, ... *)
Theorem C54_directories_exist_refuted cwd root d r ds0 f ds isdir_rel :
  new_fs cwd true ds0 root d r false = Ok (f, ds) ->
  isdir_rel "path_data" = false ->
  Forall (fun p => In p ds) (dir_values f) /\ directories_exist isdir_rel = false.
Proof. exact (directories_exist_wrong cwd root d r ds0 f ds isdir_rel). Qed.
Print Assumptions C54_directories_exist_refuted.

Theorem C54_created cwd root d r ds0 f ds :
  new_fs cwd true ds0 root d r false = Ok (f, ds) ->
  f = build_fs cwd root d r /\ ds = (ds0 ++ dir_values f)%list.
Proof. exact (new_fs_dirs cwd root d r ds0 f ds). Qed.
Print Assumptions C54_created.

Example C54_example :
  new_fs "/" true [] "/w" 1 0 false = Ok (build_fs "/" "/w" 1 0, dir_values (build_fs "/" "/w" 1 0)) /\
  new_fs "/" false [] "/w" 1 0 false = Raise AssertionError /\
  directories_exist (fun _ => false) = false.
Proof. vm_compute. auto. Qed.

(** ---- C55 ---- *)
(** an object that created its directories: after any changes of rho, the four
    directories of the current rho exist *)
Theorem C55_rho_directories_exist cwd root d r0 f ds ds0 l r :
  String.prefix "/" cwd = true -> abspath cwd root = root ->
  new_fs cwd true ds0 root d r0 false = Ok (f, ds) ->
  let s := change_rho_all ds f l in
  let s' := change_rho (snd s) (fst s) r in
  Forall (fun p => isdir (snd s') p = true) (rho_dirs (fst s')).
Proof. exact (change_rho_dirs_exist cwd root d r0 f ds ds0 l r). Qed.
Print Assumptions C55_rho_directories_exist.

Example C55_example :
  let s := change_rho_all (dir_values (build_fs "/" "/w" 1 0)) (build_fs "/" "/w" 1 0) [4; 0; 7]%Z in
  abspath "/" "/w" = "/w" /\ rho_dirs (fst s) = ["/w/data_set_1/rho_7/parameters/"; "/w/data_set_1/rho_7/results/";
    "/w/data_set_1/rho_7/execution_output/"; "/w/data_set_1/rho_7/plots/"] /\
  forallb (isdir (snd s)) (rho_dirs (fst s)) = true.
Proof. vm_compute. auto. Qed.

(** finding: with no_makedir=True, going to another rho and back to the first
    one does not create the directories of the first one *)
Theorem C55_no_makedir_refuted :
  exists f ds, new_fs "/" true [] "/w" 1 0 true = Ok (f, ds) /\
    let s := change_rho_all ds f [1; 0]%Z in
    Forall (fun p => isdir (snd s) p = false) (rho_dirs (fst s)).
Proof. exact no_makedir_back. Qed.
Print Assumptions C55_no_makedir_refuted.

(** ---- C56 ---- *)
Theorem C56_written_file_matches_template cwd root d r s P T j p :
  no_brace root = true ->
  let f := build_fs cwd root d r in
  result_path (path_rho_results f) s P T j = Ok p ->
  py_format (t_pimc f) (pimc_args P T (dec (match j with Some x => x | None => 0%Z end))) = Ok p.
Proof. exact (written_file_matches cwd root d r s P T j p). Qed.
Print Assumptions C56_written_file_matches_template.

Theorem C56_templates dir P T X B J :
  no_brace dir = true ->
  py_format (dir ++ tpl_pimc) (pimc_args P T J) = Ok (dir ++ pimc (dec P) (fmt2 T) J) /\
  py_format (dir ++ tpl_jackknife) [("P:d", dec P); ("T:.2f", fmt2 T); ("X:d", dec X)] = Ok (dir ++ thermo_file P T X) /\
  py_format (dir ++ tpl_sos) [("B:d", dec B)] = Ok (dir ++ sos_file B) /\
  py_format (dir ++ tpl_trotter) [("P:d", dec P); ("B:d", dec B)] = Ok (dir ++ trotter_file P B).
Proof. exact (fun H => conj (format_pimc dir P T J H) (conj (format_jackknife dir P T X H) (conj (format_sos dir B H) (format_trotter dir P B H)))). Qed.
Print Assumptions C56_templates.

(** finding: a brace expression in the root directory makes every template unusable *)
Theorem C56_brace_refuted args a b s : no_brace a = true -> no_brace b = true -> dget String.eqb args b = None ->
  py_format (a ++ "{" ++ b ++ "}" ++ s) args = Raise KeyError.
Proof. exact (format_bad args a b s). Qed.
Print Assumptions C56_brace_refuted.

Example C56_example :
  py_format (t_pimc (build_fs "/" "/w" 1 0)) (pimc_args 12 (300 # 1) "*") = Ok "/w/data_set_1/rho_0/results/P12_T300.00_J*_data_points.npz" /\
  py_format (t_pimc (build_fs "/" "/w/{x}" 1 0)) (pimc_args 12 (300 # 1) "*") = Raise KeyError /\
  result_path (path_rho_results (build_fs "/" "/w" 1 0)) 100 12 (300 # 1) (Some 4%Z) = Ok "/w/data_set_1/rho_0/results/P12_T300.00_J4_data_points.npz".
Proof. vm_compute. auto. Qed.
