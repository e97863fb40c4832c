(** Model of /repo/pibronic/data/file_structure.py (FileStructure) and of the
    hash functions of /repo/pibronic/vibronic/vibronic_model_io.py:293-331.

    Simplifications: the object is a record; [hash_vib]/[hash_rho] are [None]
    while the attribute does not exist.  The digest (SHA-512) is an argument.
    Created directories are recorded as the list of paths given to os.makedirs;
    a directory exists if it is an ancestor of (or equal to) a created one. *)
From Verif Require Import Common PyStr_Model.
Local Open Scope string_scope.

(** posixpath.normpath / posixpath.abspath, used at file_structure.py:75 *)
Definition norm_step (slashes : nat) (acc : list string) (comp : string) : list string :=
  (* [acc] is new_comps in reverse order *)
  if String.eqb comp "" || String.eqb comp "." then acc
  else if negb (String.eqb comp "..")
          || ((slashes =? 0)%nat && match acc with [] => true | _ => false end)
          || match acc with c :: _ => String.eqb c ".." | [] => false end
       then comp :: acc
       else match acc with _ :: acc' => acc' | [] => [] end.
Definition initial_slashes (p : string) : nat :=
  if String.prefix "/" p
  then if String.prefix "//" p && negb (String.prefix "///" p) then 2 else 1
  else 0.
Fixpoint repeat_slash (n : nat) : string :=
  match n with O => "" | S n' => "/" ++ repeat_slash n' end.
Definition normpath (p : string) : string :=
  if String.eqb p "" then "."
  else
    let n := initial_slashes p in
    let comps := rev (fold_left (norm_step n) (split "/" p) []) in
    let q := repeat_slash n ++ String.concat "/" comps in
    if String.eqb q "" then "." else q.
Definition abspath (cwd p : string) : string :=
  normpath (if String.prefix "/" p then p else join cwd p).

(** file_structure.py:34-43 *)
Definition template_vib (d : Z) : string := "data_set_" ++ dec d ++ "/".
Definition template_rho (d r : Z) : string := template_vib d ++ "rho_" ++ dec r ++ "/".
Definition template_vib_params (d : Z) := template_vib d ++ "parameters/".
Definition template_vib_results (d : Z) := template_vib d ++ "results/".
Definition template_vib_output (d : Z) := template_vib d ++ "execution_output/".
Definition template_vib_plots (d : Z) := template_vib d ++ "plots/".
Definition template_rho_params (d r : Z) := template_rho d r ++ "parameters/".
Definition template_rho_results (d r : Z) := template_rho d r ++ "results/".
Definition template_rho_output (d r : Z) := template_rho d r ++ "execution_output/".
Definition template_rho_plots (d r : Z) := template_rho d r ++ "plots/".

(** file_structure.py:23-28 *)
Definition list_sub_dirs : list string := ["parameters/"; "results/"; "execution_output/"; "plots/"].

(** file_name.py:39-91 called with the default arguments, and pimc(J="{J:s}") *)
Definition tpl_pimc : string := "P{P:d}_T{T:.2f}_J{J:s}_data_points.npz".
Definition tpl_jackknife : string := "P{P:d}_T{T:.2f}_X{X:d}_thermo".
Definition tpl_sos : string := "sos_B{B:d}.json".
Definition tpl_trotter : string := "trotter_P{P:d}_B{B:d}.json".

Record fstruct := mkFS {
  id_data : Z;
  id_rho : Z;
  path_root : string;
  path_data : string;
  path_rho : string;
  path_es : string;
  path_vib_params : string;
  path_vib_results : string;
  path_vib_output : string;
  path_vib_plots : string;
  path_rho_params : string;
  path_rho_results : string;
  path_rho_output : string;
  path_rho_plots : string;
  t_pimc : string;
  t_jackknife : string;
  t_sos_rho : string;
  t_sos_vib : string;
  t_trotter_vib : string;
  path_vib_model : string;
  path_har_model : string;
  path_iter_model : string;
  path_iter_mat : string;
  path_rho_model : string;
  path_analytic_rho : string;
  path_analytic_vib : string;
  path_analytic_orig : string;
  path_orig_model : string;
  path_ortho_mat : string;
  hash_vib : option string;
  hash_rho : option string
}.

(** the attributes named in self.dir_list (file_structure.py:108), in the order
    of dir(self): names starting with path_ that exist at that point *)
Definition dir_names : list string :=
  ["path_data"; "path_es"; "path_rho"; "path_rho_output"; "path_rho_params"; "path_rho_plots";
   "path_rho_results"; "path_root"; "path_vib_output"; "path_vib_params"; "path_vib_plots"; "path_vib_results"].
Definition dir_values (f : fstruct) : list string :=
  [path_data f; path_es f; path_rho f; path_rho_output f; path_rho_params f; path_rho_plots f;
   path_rho_results f; path_root f; path_vib_output f; path_vib_params f; path_vib_plots f; path_vib_results f].

(** file_structure.py:61-132, the attributes (the assertions are in [new_fs]) *)
Definition build_fs (cwd root : string) (d r : Z) : fstruct :=
  let abs := abspath cwd root in
  let data := join abs (template_vib d) in
  let vp := join root (template_vib_params d) in
  let rp := join root (template_rho_params d r) in
  let rr := join root (template_rho_results d r) in
  {| id_data := d; id_rho := r;
     path_root := abs;
     path_data := data;
     path_rho := join abs (template_rho d r);
     path_es := join data "electronic_structure";
     path_vib_params := vp;
     path_vib_results := join root (template_vib_results d);
     path_vib_output := join root (template_vib_output d);
     path_vib_plots := join root (template_vib_plots d);
     path_rho_params := rp;
     path_rho_results := rr;
     path_rho_output := join root (template_rho_output d r);
     path_rho_plots := join root (template_rho_plots d r);
     t_pimc := rr ++ tpl_pimc;
     t_jackknife := rr ++ tpl_jackknife;
     t_sos_rho := rp ++ tpl_sos;
     t_sos_vib := vp ++ tpl_sos;
     t_trotter_vib := vp ++ tpl_trotter;
     path_vib_model := join vp "coupled_model.json";
     path_har_model := join vp "harmonic_model.json";
     path_iter_model := join vp "iterative_model.json";
     path_iter_mat := join vp "iterative_matrix.txt";
     path_rho_model := join rp "sampling_model.json";
     path_analytic_rho := join rp "analytic_results.json";
     path_analytic_vib := join vp "analytic_results.json";
     path_analytic_orig := join vp "original_analytic_results.json";
     path_orig_model := join vp "original_coupled_model.json";
     path_ortho_mat := join vp "orthogonal_matrix.npy";
     hash_vib := None; hash_rho := None |}.

(** created directories *)
Definition dirs := list string.
(** os.makedirs(p, exist_ok=True) *)
Definition makedirs (ds : dirs) (p : string) : dirs := (ds ++ [p])%list.
(** os.path.isdir for an absolute path ending in "/" *)
Definition isdir (ds : dirs) (p : string) : bool := existsb (String.prefix p) ds.

(** file_structure.py:146-154 *)
Definition make_directories (ds : dirs) (f : fstruct) : dirs := fold_left makedirs (dir_values f) ds.

(** file_structure.py:61-138; [root_is_dir] is the outcome of the two
    assertions of lines 73-74 *)
Definition new_fs (cwd : string) (root_is_dir : bool) (ds : dirs) (root : string) (d r : Z) (no_makedir : bool)
  : res (fstruct * dirs) :=
  do _ <- passert root_is_dir;
  let f := build_fs cwd root d r in
  Ok (f, if no_makedir then ds else make_directories ds f).

(** file_structure.py:140-144: os.path.isdir is applied to the attribute NAMES,
    which are relative paths; [isdir_rel] answers for names relative to the
    current directory *)
Definition directories_exist (isdir_rel : string -> bool) : bool := forallb isdir_rel dir_names.

(** file_structure.py:156-171 *)
Definition make_rho_directories (ds : dirs) (f : fstruct) (r : Z) : dirs :=
  if (r =? id_rho f)%Z then make_directories ds f
  else fold_left makedirs
         (map (fun x => join (join (path_root f) (template_rho (id_data f) r)) x) list_sub_dirs) ds.

(** file_structure.py:177-202, the attribute updates *)
Definition set_rho (f : fstruct) (r : Z) : fstruct :=
  let root := path_root f in
  let d := id_data f in
  let rp := join root (template_rho_params d r) in
  let rr := join root (template_rho_results d r) in
  {| id_data := id_data f; id_rho := id_rho f;
     path_root := path_root f;
     path_data := path_data f;
     path_rho := path_rho f;
     path_es := path_es f;
     path_vib_params := path_vib_params f;
     path_vib_results := path_vib_results f;
     path_vib_output := path_vib_output f;
     path_vib_plots := path_vib_plots f;
     path_rho_params := rp;
     path_rho_results := rr;
     path_rho_output := join root (template_rho_output d r);
     path_rho_plots := join root (template_rho_plots d r);
     t_pimc := rr ++ tpl_pimc;
     t_jackknife := rr ++ tpl_jackknife;
     t_sos_rho := rp ++ tpl_sos;
     t_sos_vib := t_sos_vib f;
     t_trotter_vib := t_trotter_vib f;
     path_vib_model := path_vib_model f;
     path_har_model := path_har_model f;
     path_iter_model := path_iter_model f;
     path_iter_mat := path_iter_mat f;
     path_rho_model := join rp "sampling_model.json";
     path_analytic_rho := join rp "analytic_results.json";
     path_analytic_vib := path_analytic_vib f;
     path_analytic_orig := path_analytic_orig f;
     path_orig_model := path_orig_model f;
     path_ortho_mat := path_ortho_mat f;
     hash_vib := hash_vib f; hash_rho := hash_rho f |}.

(** file_structure.py:173-202 *)
Definition change_rho (ds : dirs) (f : fstruct) (r : Z) : fstruct * dirs :=
  (set_rho f r, make_rho_directories ds f r).

(** ---- hashes ---- *)
Definition set_hash_vib (f : fstruct) (h : string) : fstruct :=
  {| id_data := id_data f; id_rho := id_rho f; path_root := path_root f; path_data := path_data f;
     path_rho := path_rho f; path_es := path_es f; path_vib_params := path_vib_params f;
     path_vib_results := path_vib_results f; path_vib_output := path_vib_output f; path_vib_plots := path_vib_plots f;
     path_rho_params := path_rho_params f; path_rho_results := path_rho_results f; path_rho_output := path_rho_output f;
     path_rho_plots := path_rho_plots f; t_pimc := t_pimc f; t_jackknife := t_jackknife f; t_sos_rho := t_sos_rho f;
     t_sos_vib := t_sos_vib f; t_trotter_vib := t_trotter_vib f; path_vib_model := path_vib_model f;
     path_har_model := path_har_model f; path_iter_model := path_iter_model f; path_iter_mat := path_iter_mat f;
     path_rho_model := path_rho_model f; path_analytic_rho := path_analytic_rho f; path_analytic_vib := path_analytic_vib f;
     path_analytic_orig := path_analytic_orig f; path_orig_model := path_orig_model f; path_ortho_mat := path_ortho_mat f;
     hash_vib := Some h; hash_rho := hash_rho f |}.
Definition set_hash_rho (f : fstruct) (h : string) : fstruct :=
  {| id_data := id_data f; id_rho := id_rho f; path_root := path_root f; path_data := path_data f;
     path_rho := path_rho f; path_es := path_es f; path_vib_params := path_vib_params f;
     path_vib_results := path_vib_results f; path_vib_output := path_vib_output f; path_vib_plots := path_vib_plots f;
     path_rho_params := path_rho_params f; path_rho_results := path_rho_results f; path_rho_output := path_rho_output f;
     path_rho_plots := path_rho_plots f; t_pimc := t_pimc f; t_jackknife := t_jackknife f; t_sos_rho := t_sos_rho f;
     t_sos_vib := t_sos_vib f; t_trotter_vib := t_trotter_vib f; path_vib_model := path_vib_model f;
     path_har_model := path_har_model f; path_iter_model := path_iter_model f; path_iter_mat := path_iter_mat f;
     path_rho_model := path_rho_model f; path_analytic_rho := path_analytic_rho f; path_analytic_vib := path_analytic_vib f;
     path_analytic_orig := path_analytic_orig f; path_orig_model := path_orig_model f; path_ortho_mat := path_ortho_mat f;
     hash_vib := hash_vib f; hash_rho := Some h |}.

(** vibronic_model_io.py:300-314 and 317-331 (called with a path) *)
Definition file_hash (H : string -> string) (fs : fsys string) (p : string) : res string :=
  match fs p with Some c => Ok (H c) | None => Raise AssertionError end.

Definition has_hashes (f : fstruct) : bool :=
  match hash_vib f, hash_rho f with Some _, Some _ => true | _, _ => false end.

(** file_structure.py:231-240; the object keeps a hash assigned before an
    exception, so the new object is returned together with the outcome *)
Definition generate_model_hashes (H : string -> string) (fs : fsys string) (force : bool) (f : fstruct) : fstruct * res unit :=
  if has_hashes f && negb force then (f, Ok tt)
  else match file_hash H fs (path_vib_model f) with
       | Raise e => (f, Raise e)
       | Ok hv =>
           let f' := set_hash_vib f hv in
           match file_hash H fs (path_rho_model f') with
           | Raise e => (f', Raise e)
           | Ok hr => (set_hash_rho f' hr, Ok tt)
           end
       end.

(** file_structure.py:242-253; [d] is the dictionary (a loaded result file) *)
Definition valid_hash (own : option string) (key : string) (d : list (string * string)) : res bool :=
  match own with
  | None => Raise AssertionError
  | Some h => match dget String.eqb d key with
              | Some x => Ok (String.eqb x h)
              | None => Raise KeyError
              end
  end.
Definition valid_vib_hash (f : fstruct) (d : list (string * string)) : res bool := valid_hash (hash_vib f) "hash_vib" d.
Definition valid_rho_hash (f : fstruct) (d : list (string * string)) : res bool := valid_hash (hash_rho f) "hash_rho" d.
Definition valid_vib_and_rho_hashes (f : fstruct) (d : list (string * string)) : res bool :=
  do b <- valid_rho_hash f d;
  if b then valid_vib_hash f d else Ok false.

(** ---- str.format with named fields ----
    [lookup] gives the formatted value for the text between two braces ("P:d");
    conversions, nesting and attribute access are not supported (never used).
    "{{" and "}}" are escapes. *)
Fixpoint py_format_go (lookup : string -> res string) (field : option string) (s : string) : res string :=
  match s with
  | EmptyString => match field with None => Ok "" | Some _ => Raise ValueError end
  | String c s' =>
      match field with
      | Some acc =>
          if Ascii.eqb c "}" then
            do v <- lookup acc;
            do r <- py_format_go lookup None s'; Ok (v ++ r)
          else if Ascii.eqb c "{" then
            (* "{{" gives a literal brace *)
            if String.eqb acc "" then do r <- py_format_go lookup None s'; Ok (String "{" r) else Raise ValueError
          else py_format_go lookup (Some (acc ++ String c "")) s'
      | None =>
          if Ascii.eqb c "{" then py_format_go lookup (Some "") s'
          else if Ascii.eqb c "}" then
            match s' with
            | String c' s'' => if Ascii.eqb c' "}" then do r <- py_format_go lookup None s''; Ok (String "}" r) else Raise ValueError
            | EmptyString => Raise ValueError
            end
          else do r <- py_format_go lookup None s'; Ok (String c r)
      end
  end.
Definition lookup_args (args : list (string * string)) (k : string) : res string :=
  match dget String.eqb args k with Some v => Ok v | None => Raise KeyError end.
Definition py_format (t : string) (args : list (string * string)) : res string := py_format_go (lookup_args args) None t.
