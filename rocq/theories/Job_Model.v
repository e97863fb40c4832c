(** The life of a submitted job: the command line handed to the shell
    (/repo/pibronic/server/job_boss.py:181-193), the scheduler, the job scripts
    /repo/pibronic/server/nlogn_feynman/pimc_job.sh and
    /repo/pibronic/server/compute_canada/pimc_job.sh (cited as nlogn.sh and cc.sh), the sampling
    scripts /repo/pibronic/server/nlogn_feynman/pimc.py and
    /repo/pibronic/server/compute_canada/pimc.py (identical files, cited as script), and the file
    of results; and the other ways of starting the sampling program,
    /repo/pibronic/pimc/pimc.py:471-510, 703-712, 1465-1535.

    Simplified: the shell knows words, blanks and quotes; a character with another meaning gives
    [None].  The scheduler starts the script once, with the environment of --export.  The
    numerical work is an argument ([sampler], see Pimc_Model.v and Load_Model.v).  Directories
    created by mkdir and by FileStructure are assumed to exist ([isdir]). *)
From Coq Require Import QArith.
From Verif Require Import Common PyStr_Model FileName_Model Json_Model FileStruct_Model JobBoss_Model Results_Model.
Local Open Scope string_scope.
Local Open Scope nat_scope.

(** ---- the paths in the commands ---- *)
(** job_boss.py:32-34; [os_file] is os.__file__ *)
Definition get_path_to_python_executable (cwd os_file : string) : string := abspath cwd os_file.
(** job_boss.py:37-39; [file] is __file__ of job_boss.py *)
Definition get_path_of_job_boss_directory (cwd file : string) : string := abspath cwd file.

(** job_boss.py:212-268; the template of the command is the one of prepare_job_nlogn.  No entry of
    node_dict, 439-444, refers to this function. *)
Definition prepare_job_feynman (serialize : params -> res string) (python dir : string) (d : params) : res (params * string) :=
  prepare_job serialize python dir (fun name => name ++ "_J") "nlogn_feynman" (sbatch_nlogn dir) (pset d "hostname" (VStr "feynman")).

(** ---- the text of the parameters ---- *)
(** job_boss.py:205-209 with pimc.py:513-515; [repr] writes floats *)
Definition as_json (repr : Q -> string) (v : pv) : json :=
  match v with
  | VInt z => JInt z
  | VFloat q => JFloat (repr q)
  | VStr s => JStr s
  | VNone => JNull
  | VInts l => JArr (map JInt l)
  | VFloats l => JArr (map (fun q => JFloat (repr q)) l)
  end.
Definition serialize_params (repr : Q -> string) (d : params) : res string :=
  json_serialize (map (fun kv => (PStr (fst kv), as_json repr (snd kv))) d).

(** ---- the shell, job_boss.py:188 (shell=True) ---- *)
Inductive quoting := Bare | Single | Double.
(** characters of which the meaning outside quotes is not modelled: newline $ ` \ | & ; < > ( ) * ? [ # ~ ! { } *)
Definition special (c : ascii) : bool :=
  existsb (Nat.eqb (nat_of_ascii c)) [10; 36; 96; 92; 124; 38; 59; 60; 62; 40; 41; 42; 63; 91; 35; 126; 33; 123; 125].
Definition blank (c : ascii) : bool := (nat_of_ascii c =? 32) || (nat_of_ascii c =? 9).
Definition squote : ascii := ascii_of_nat 39.
Definition dquote : ascii := ascii_of_nat 34.
(** [word] is the word being read, [None] between two words *)
Fixpoint shell_go (q : quoting) (word : option string) (s : string) : option (list string) :=
  match s with
  | EmptyString => match q with
                   | Bare => Some (match word with Some w => [w] | None => [] end)
                   | _ => None
                   end
  | String c s' =>
      let w := match word with Some w => w | None => "" end in
      match q with
      | Bare =>
          if blank c then
            match word with
            | Some w => match shell_go Bare None s' with Some ws => Some (w :: ws) | None => None end
            | None => shell_go Bare None s'
            end
          else if Ascii.eqb c squote then shell_go Single (Some w) s'
          else if Ascii.eqb c dquote then shell_go Double (Some w) s'
          else if special c then None
          else shell_go Bare (Some (w ++ String c "")) s'
      | Single =>
          if Ascii.eqb c squote then shell_go Bare (Some w) s'
          else shell_go Single (Some (w ++ String c "")) s'
      | Double =>
          if Ascii.eqb c dquote then shell_go Bare (Some w) s'
          else if existsb (Nat.eqb (nat_of_ascii c)) [36; 96; 92] then None
          else shell_go Double (Some (w ++ String c "")) s'
      end
  end.
Definition shell_words (s : string) : option (list string) := shell_go Bare None s.

(** ---- sbatch ---- *)
(** the rest of a text after a prefix *)
Definition after (p s : string) : string := String.substring (String.length p) (String.length s - String.length p) s.
(** the options of job_boss.py:308-325: -m and -D have a value in the next word; the first word
    that is no option is the script *)
Fixpoint sbatch_args (ws : list string) (export : string) : option (string * string) :=
  match ws with
  | [] => None
  | w :: ws' =>
      if String.eqb w "-m" || String.eqb w "-D" then match ws' with _ :: ws'' => sbatch_args ws'' export | [] => None end
      else if String.prefix "--export=" w then sbatch_args ws' (after "--export=" w)
      else if String.prefix "-" w then sbatch_args ws' export
      else Some (export, w)
  end.
(** NAME=value *)
Definition variable (s : string) : string * string :=
  match split "=" s with
  | name :: _ => (name, after (name ++ "=") s)
  | [] => ("", "")
  end.
Definition environment (export : string) : list (string * string) := map variable (split "," export).
(** the scheduler accepts the command if the script is a file; the environment and the script *)
Definition accept (isfile : string -> bool) (cmd : string) : option (list (string * string) * string) :=
  match shell_words cmd with
  | Some ("sbatch" :: ws) =>
      match sbatch_args ws "" with
      | Some (export, script) => if isfile script then Some (environment export, script) else None
      | None => None
      end
  | _ => None
  end.
(** the answer of the scheduler that gives the next job the number [id] *)
Definition scheduler (isfile : string -> bool) (id : nat -> Z) (k : nat) (cmd : string) : option string :=
  match accept isfile cmd with Some _ => Some ("Submitted batch job " ++ dec (id k) ++ String newline "") | None => None end.

(** ---- the sampling script ---- *)
(** directories, texts of the model files, and files of results *)
Record world := { isdir : string -> bool; texts : fsys string; results : files }.

Section Script.
  Variable H : string -> string.                     (* SHA-512, file_structure.py:231-240 *)
  Variable cwd : string.
  Variable fval : string -> Q.                       (* the number a float text denotes *)
  Variable inv_kT : json -> res json.
  Variable divide : json -> json -> res json.
  (** preprocess of the data object and then rho, g, g+ and g- of sample i *)
  Variable sampler : boxdata -> res (nat -> fl * fl * fl * fl).
  (** constants.py:28 *)
  Definition constants_delta_beta : json := JFloat "0.0002".

  (** file_structure.py:61-138 and 231-240 as called at pimc.py:582-588 *)
  Definition model_files (w : world) (root d r : json) : res (string * string * string * string) :=
    match root, d, r with
    | JStr root, JInt d, JInt r =>
        do _ <- passert (isdir w root);
        match generate_model_hashes H (texts w) false (build_fs cwd root d r) with
        | (f, Ok _) => match FileStruct_Model.hash_vib f, FileStruct_Model.hash_rho f with
                       | Some hv, Some hr => Ok (FileStruct_Model.path_vib_model f, FileStruct_Model.path_rho_model f, hv, hr)
                       | _, _ => Raise AttributeError
                       end
        | (_, Raise e) => Raise e
        end
    | _, _, _ => Raise TypeError
    end.

  (** pimc.py:502-507 with 703-712: BoxDataPM.from_json_string; delta_beta is the constant unless the text
      holds a float, 576-579 *)
  Definition from_json_string_pm (w : world) (text : string) : res boxdata :=
    do b <- load_json_string inv_kT divide (model_files w) text;
    do params <- decode text;
    let db := match Json_Model.sub params "delta_beta" with Ok (JFloat t) => JFloat t | _ => constants_delta_beta end in
    Ok {| Json_Model.samples := Json_Model.samples b; Json_Model.blocks := Json_Model.blocks b; Json_Model.states := Json_Model.states b;
          Json_Model.beads := Json_Model.beads b; Json_Model.modes := Json_Model.modes b; Json_Model.temperature := Json_Model.temperature b;
          Json_Model.block_size := Json_Model.block_size b; Json_Model.delta_beta := db; Json_Model.id_data := Json_Model.id_data b;
          Json_Model.id_rho := Json_Model.id_rho b; Json_Model.beta := Json_Model.beta b; Json_Model.tau := Json_Model.tau b;
          Json_Model.path_vib_model := Json_Model.path_vib_model b; Json_Model.path_rho_model := Json_Model.path_rho_model b;
          Json_Model.hash_vib := Json_Model.hash_vib b; Json_Model.hash_rho := Json_Model.hash_rho b |}.

  (** pimc.py:496-500: from_json_string is called with the class as an extra argument *)
  Definition from_json_file (w : world) (path : string) : res boxdata :=
    match texts w path with None => Raise OSError | Some _ => Raise TypeError end.

  (** numbers used as sizes, as ids and as the temperature *)
  Definition json_nat (j : json) : res nat :=
    match j with JInt z => if (z <? 0)%Z then Raise ValueError else Ok (Z.to_nat z) | _ => Raise TypeError end.
  Definition json_int (j : json) : res Z := match j with JInt z => Ok z | _ => Raise ValueError end.
  Definition json_number (j : json) : res Q :=
    match j with JFloat t => Ok (fval t) | JInt z => Ok (inject_Z z) | _ => Raise ValueError end.

  (** the block loop with the samples of the sampler, pimc.py:1388-1462 *)
  Definition compute (pm : bool) (v : nat -> fl * fl * fl * fl) (bsize nblocks : nat) (root : string) (P : Z) (T : Q) (job : option Z)
      (r : result) : res (result * (string * npz)) :=
    Results_Model.block_compute nat unit (fun i => i) (fun _ => tt)
      (fun x => fst (fst (fst (v (snd x))))) (fun x => snd (fst (fst (v (snd x))))) (fun x => snd (fst (v (snd x)))) (fun x => snd (v (snd x)))
      pm bsize nblocks root P T job r.

  (** script:16-37; file_structure.py:57-59 from_boxdata; pimc.py:778-817 (the job id is a text, converted
      when the results are saved).  The file of results. *)
  Definition run_script (w : world) (argv : list string) : res (string * npz) :=
    do _ <- passert (length argv =? 4);
    do text <- item argv 1;
    do path_scratch <- item argv 2;
    do id_job <- item argv 3;
    do b <- from_json_string_pm w text;
    do v <- sampler b;
    let path_fixed := normpath (join path_scratch "../..") in
    do d <- json_int (Json_Model.id_data b);
    do r <- json_int (Json_Model.id_rho b);
    do _ <- passert (isdir w path_fixed);
    let FS := build_fs cwd path_fixed d r in
    do n <- json_nat (Json_Model.samples b);
    do bs <- json_nat (Json_Model.block_size b);
    do nb <- json_nat (Json_Model.blocks b);
    do P <- json_int (Json_Model.beads b);
    do T <- json_number (Json_Model.temperature b);
    let res0 := new_result true n (Some (Json_Model.hash_vib b)) (Some (Json_Model.hash_rho b)) in
    do out <- (match py_int_str id_job with
               | Ok j => compute true v bs nb (path_rho_results FS) P T (Some j) res0
               | Raise e => do _ <- compute true v bs nb (path_rho_results FS) P T None res0; Raise e
               end);
    Ok (snd out).

  (** ---- the job scripts ---- *)
  Variable isfile : string -> bool.
  Variable interpreter : string -> bool.             (* the file is a Python interpreter *)

  Definition getenv (env : list (string * string)) (k : string) : string :=
    match dget String.eqb env k with Some v => v | None => "" end.
  (** the words an unquoted variable becomes *)
  Definition fields (s : string) : list string :=
    filter (fun x => negb (String.eqb x "")) (split " " (replace_char newline " " (replace_char (ascii_of_nat 9) " " s))).
  (** a file of results is written *)
  Definition write_file (fs : files) (path : string) (z : npz) : files := fun p => if String.eqb p path then Some z else fs p.
  (** the directory part of a path, with its slash, and the rest *)
  Fixpoint dir_base (s : string) : string * string :=
    match s with
    | EmptyString => ("", "")
    | String c s' =>
        let (d, b) := dir_base s' in
        if String.eqb d "" then if Ascii.eqb c "/" then (String c "", b) else ("", String c b)
        else (String c d, b)
    end.
  Definition has_slash (s : string) : bool := contains "/" s.
  Definition hidden (s : string) : bool := String.prefix "." s.
  (** the file [name] of directory [dir] is one of those that match [pre]* *)
  Definition matched (fs : files) (dir pre name : string) : bool :=
    String.prefix pre name && negb (has_slash name) && negb (hidden name && String.eqb pre "") && negb (String.eqb name "")
    && present (fs (dir ++ name)).
  (** nlogn.sh:43: mv --force "${COPY_FROM}"* "${COPY_TO}"; moving a file onto itself does nothing *)
  Definition mv_all (fs : files) (from to : string) : files := fun p =>
    let (dir, pre) := dir_base from in
    if String.eqb dir to then fs p
    else if String.prefix to p && matched fs dir pre (after to p) then fs (dir ++ after to p)
    else if String.prefix dir p && matched fs dir pre (after dir p) then None
    else fs p.

  (** nlogn.sh:27 and cc.sh:28: the words given to Python *)
  Definition job_argv (env : list (string * string)) (id : string) : list string :=
    (fields (getenv env "SAMPLING_SCRIPT") ++ [getenv env "EXECUTION_PARAMETERS"] ++ fields (getenv env "SCRATCH_DIR") ++ fields id)%list.
  (** starting the sampling script: [program] is the first word of the command line *)
  Definition start (w : world) (program : string) (argv : list string) : res (string * npz) :=
    if interpreter program && match argv with s :: _ => isfile s | [] => false end then run_script w argv else Raise OSError.

  (** nlogn.sh:27-43: the outcome of Python does not stop the script *)
  Definition nlogn_sh (w : world) (env : list (string * string)) (id : string) : files * res (string * npz) :=
    let program := match fields (getenv env "PYTHON3_PATH") with p :: _ => p | [] => "" end in
    let out := start w program (job_argv env id) in
    let fs := match out with Ok (path, z) => write_file (results w) path z | Raise _ => results w end in
    (mv_all fs (getenv env "COPY_FROM") (getenv env "COPY_TO"), out).
  (** cc.sh:28-50: nothing is moved *)
  Definition cc_sh (w : world) (env : list (string * string)) (id : string) : files * res (string * npz) :=
    let out := start w "python3" (job_argv env id) in
    (match out with Ok (path, z) => write_file (results w) path z | Raise _ => results w end, out).

  (** the command is accepted and runs as job [id]; the files of results afterwards *)
  Definition run_command (w : world) (cmd : string) (id : Z) : option (files * res (string * npz)) :=
    match accept isfile cmd with
    | Some (env, script) =>
        if String.eqb (last_chars 26 script) "/nlogn_feynman/pimc_job.sh" then Some (nlogn_sh w env (dec id))
        else if String.eqb (last_chars 27 script) "/compute_canada/pimc_job.sh" then Some (cc_sh w env (dec id))
        else None
    | None => None
    end.
End Script.

(** ---- the wrappers of pimc.py ---- *)
(** pimc.py:1465-1497 simple_wrapper ([pm] false, 1000 beads) and 1500-1535 plus_minus_wrapper ([pm] true, 20
    beads); [v] is what preprocess and the samples give.  The hashes of the data object stay None. *)
Definition wrapper (pm : bool) (cwd : string) (root_is_dir : bool) (v : res (nat -> fl * fl * fl * fl)) (id_data id_rho : Z)
  : res (string * npz) :=
  let samples := 100 in
  let bsize := 100 in
  do _ <- passert root_is_dir;
  let FS := build_fs cwd "/work/ngraymon/pimc/" id_data id_rho in
  do v <- v;
  do out <- compute pm v bsize (samples / bsize) (path_rho_results FS) (if pm then 20%Z else 1000%Z) (300 # 1)%Q None
              (new_result pm samples None None);
  Ok (snd out).
