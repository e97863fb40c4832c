(** Model of the drivers of the statistical analysis, stats/stats.py:133-179
    (apply_parameter_restrictions, starmap_wrapper), 219-264
    (statistical_analysis_of_pimc) and 336-377 (jackknife_analysis_of_pimc), with
    retrive_pimc_file_list and the temperature list of data/postprocessing.py.
    The numerical analysis of one set of samples is a parameter here (it is the
    subject of Stats_Model).  [method is "basic"] is taken as string equality. *)
From Coq Require Import QArith Permutation.
From Verif Require Import Common PyStr_Model FileName_Model FileStruct_Model Json_Model Julia_Model Results_Model.
Local Open Scope string_scope.
Local Open Scope list_scope.

(** fnmatch with a pattern of literal parts separated by '*' *)
Fixpoint some_tail (p : string -> bool) (s : string) : bool :=
  p s || match s with String _ s' => some_tail p s' | EmptyString => false end.
Fixpoint glob_parts (parts : list string) (s : string) : bool :=
  match parts with
  | [] => String.eqb s ""
  | [p] => String.eqb s p
  | p :: rest => String.prefix p s && some_tail (glob_parts rest) (String.substring (String.length p) (String.length s - String.length p) s)
  end.
(** postprocessing.py:48-51 retrive_pimc_file_list; [names] lists the directory [dir] *)
Definition retrive_pimc_file_list (dir : string) (names : list string) : list string :=
  map (fun name => (dir ++ name)%string) (filter (glob_parts ["P"; "_T"; "_J"; "_data_points.npz"]) names).

(** sorted(set(l)) of floats, postprocessing.py:136-144 *)
Fixpoint insert_q (q : Q) (l : list Q) : list Q :=
  match l with
  | [] => [q]
  | x :: l' => match (q ?= x)%Q with Lt => q :: l | Eq => l | Gt => x :: insert_q q l' end
  end.
Definition extract_temperature_list (paths : list string) : res (list Q) :=
  do l <- map_res extract_temperature_pimc paths; Ok (fold_right insert_q [] l).

(** stats.py:133-144 returns before doing anything *)
Definition apply_parameter_restrictions {A} (args : A) : A := args.

(** stats.py:223-237, 340-354: the pairs (P, T) *)
Definition arg_list (dir : string) (names : list string) : res (list (Z * Q)) :=
  let list_pimc := retrive_pimc_file_list dir names in
  do Ps <- extract_bead_list list_pimc;
  do Ts <- extract_temperature_list list_pimc;
  let '(Ps, Ts) := apply_parameter_restrictions (Ps, Ts) in
  Ok (flat_map (fun P => map (fun T => (P, T)) Ts) Ps).

(** which of the two drivers *)
Inductive analysis := Statistical | Jackknife.
(** stats.py:240-245 and 356-359: the operation, None if the local variable stays unbound *)
Definition choose_operation (k : analysis) (method : string) : res (option string) :=
  if String.eqb method "basic" || String.eqb method "alpha" then Ok (Some method)
  else match k with Statistical => Raise OtherException | Jackknife => Ok None end.

Section Analysis.
  Variable set_order : list string -> list string.
  Variable divide : json -> json -> res json.
  (** basic_statistical_analysis, alpha_statistical_analysis, basic_jackknife_analysis, alpha_jackknife_analysis *)
  Variable operation : analysis -> string -> Q -> result -> list (string * json) -> res (list (string * json)).

  (** stats.py:148-179 starmap_wrapper: the file that is written and its text *)
  Definition starmap_wrapper (npz_files : files) (text_files : fsys string) (f : fstruct) (names : list string) (k : analysis) (method : string) (P : Z) (T : Q) : res (string * string) :=
    do r <- load_pimc_data set_order true npz_files (path_rho_results f) names P T (new_empty true 0);
    let '(rhoData, ok) := load_analytic_data divide text_files f T [] in
    do _ <- ok;
    do out <- operation k method T r rhoData;
    let out := dset String.eqb (dset String.eqb out "hash_vib" (hash_json (FileStruct_Model.hash_vib f))) "hash_rho" (hash_json (FileStruct_Model.hash_rho f)) in
    do _ <- passert (negb (is_0 (r_samples r)));
    do path <- py_format (t_jackknife f) [("P:d", dec P); ("T:.2f", fmt2 T); ("X:d", dec (Z.of_nat (count_value (r_samples r))))];
    Ok (path, dumps (JObj out)).

  (** the work handed to the pool, stats.py:219-264 and 336-377; [f] is the FileStructure after generate_model_hashes *)
  Definition pool_tasks (npz_files : files) (text_files : fsys string) (f : fstruct) (names : list string) (k : analysis) (method location : string) : res (list (res (string * string))) :=
    do args <- arg_list (path_rho_results f) names;
    do op <- choose_operation k method;
    if String.eqb location "local" then
      match op with
      | None => Raise UnboundLocalError
      | Some m => Ok (map (fun a => starmap_wrapper npz_files text_files f names k m (fst a) (snd a)) args)
      end
    else if String.eqb location "server" then Raise AssertionError
    else Raise OtherException.

  (** open(path, mode='w') and write, stats.py:178-179 *)
  Definition write_file (fs : fsys string) (w : string * string) : fsys string := fun p => if String.eqb p (fst w) then Some (snd w) else fs p.

  (** Pool.starmap, stats.py:248-251 and 362-365: the processes run in any order.
      If one raises, the exception is raised again after any number of the others
      has completed.  [done]: the completed writes, in the order of completion. *)
  Inductive pool_run : list (res (string * string)) -> list (string * string) -> res unit -> Prop :=
  | pool_ok ws done : Permutation ws done -> pool_run (map Ok ws) done (Ok tt)
  | pool_raise tasks e done rest : In (Raise e) tasks -> Permutation (flat_map (fun r => match r with Ok w => [w] | Raise _ => [] end) tasks) (done ++ rest) -> pool_run tasks done (Raise e).

  (** the whole driver: files before, files after, outcome *)
  Inductive analyse (H : string -> string) (npz_files : files) (f : fstruct) (names : list string) (k : analysis) (method location : string) (fs : fsys string) : fsys string -> res unit -> Prop :=
  | an_hash f' e : generate_model_hashes H fs false f = (f', Raise e) -> analyse H npz_files f names k method location fs fs (Raise e)
  | an_raise f' e : generate_model_hashes H fs false f = (f', Ok tt) -> pool_tasks npz_files fs f' names k method location = Raise e ->
      analyse H npz_files f names k method location fs fs (Raise e)
  | an_pool f' tasks done r : generate_model_hashes H fs false f = (f', Ok tt) -> pool_tasks npz_files fs f' names k method location = Ok tasks ->
      pool_run tasks done r -> analyse H npz_files f names k method location fs (fold_left write_file done fs) r.
End Analysis.
