(** Model of /repo/pibronic/server/job_boss.py.

    The scheduler commands (scontrol, sinfo, sbatch) are arguments: what they
    print is arbitrary.  json_serialize (pimc/pimc.py:512-515) is the argument
    [serialize].  Logging, printing and sleeping are left out.  The class-level
    dictionary PimcSubmissionClass.param_dict is an explicit state. *)
From Verif Require Import Common PyStr_Model FileStruct_Model.
Local Open Scope string_scope.

(** values of the parameter dictionary *)
Inductive pv :=
| VInt (z : Z)
| VFloat (q : Q)
| VStr (s : string)
| VNone
| VInts (l : list Z)
| VFloats (l : list Q).
Definition params := list (string * pv).
Definition pget (d : params) (k : string) : option pv := dget String.eqb d k.
Definition pset (d : params) (k : string) (v : pv) : params := dset String.eqb d k v.
Definition pupdate (d e : params) : params := dupdate String.eqb d e.

(** d[k] *)
Definition pitem (d : params) (k : string) : res pv :=
  match pget d k with Some v => Ok v | None => Raise KeyError end.

(** job_boss.py:500-526 *)
Definition default_params : params :=
  [("temperature_list", VFloats [0 # 1]%Q);
   ("bead_list", VInts [0%Z]);
   ("number_of_samples", VInt 0);
   ("number_of_samples_overall", VInt 0);
   ("number_of_samples_per_job", VInt 0);
   ("number_of_blocks", VInt 0);
   ("number_of_states", VInt 0);
   ("number_of_modes", VInt 0);
   ("number_of_beads", VInt 0);
   ("path_scratch", VStr "");
   ("path_root", VStr "");
   ("path_data", VStr "");
   ("path_rho", VStr "");
   ("id_data", VInt 0);
   ("id_rho", VInt 0);
   ("partition", VNone);
   ("hostname", VNone);
   ("block_size", VInt 1000);
   ("memory_per_node", VInt 20);
   ("total_memory", VInt 20);
   ("cpus_per_task", VInt 4);
   ("cores_per_socket", VInt 4);
   ("wait_param", VStr "");
   ("script_name", VStr "pimc.py")].

(** job_boss.py:498 *)
Definition MAX_SAMPLES_PER_JOB : Z := 100000.

(** job_boss.py:59-68; [lines] is the output of scontrol split into lines *)
Fixpoint get_hostname (lines : list string) : res string :=
  match lines with
  | [] => Raise OtherException
  | l :: lines' =>
      if contains "ClusterName" l then do s <- item (split "=" l) 1; Ok (strip s)
      else get_hostname lines'
  end.

(** job_boss.py:446-459; s.replace("work", "scratch") *)
Definition py_replace (old new s : string) : string := String.concat new (split old s).
Definition prepare_paths (d : params) (f : fstruct) : params :=
  pupdate d
    [("path_scratch", VStr (py_replace "work" "scratch" (path_rho f)));
     ("path_root", VStr (path_root f));
     ("path_data", VStr (path_data f));
     ("path_rho", VStr (path_rho f));
     ("path_vib_model", VStr (path_vib_model f));
     ("path_rho_model", VStr (path_rho_model f))].

(** job_boss.py:461-472 (and 534-536): the class dictionary after __init__;
    [host] is the answer of get_hostname *)
Definition submission_init (d : params) (host : string) (input : option params) (f : fstruct) : params :=
  let d := pset d "hostname" (VStr host) in
  let d := match input with Some p => pupdate d p | None => d end in
  prepare_paths d f.

(** job_boss.py:538-570.  Result: the class dictionary (also changed when an
    exception is raised) and the number of jobs. *)
Definition setup_blocks_and_jobs (d : params) : params * res Z :=
  match pget d "number_of_samples", pget d "block_size" with
  | Some (VInt n), Some (VInt b) =>
      if negb (b <=? n)%Z then (d, Raise AssertionError)
      else if negb (b <=? MAX_SAMPLES_PER_JOB)%Z then (d, Raise AssertionError)
      else
        let per_job := Z.min n MAX_SAMPLES_PER_JOB in
        let d := pset d "number_of_samples_per_job" (VInt per_job) in
        let d := pset d "number_of_samples" (VInt per_job) in
        if (b =? 0)%Z then (d, Raise ZeroDivisionError)
        else
          let d := pset d "number_of_blocks" (VInt (per_job / b)) in
          match pget d "number_of_samples_overall" with
          | Some (VInt total) =>
              if (total =? 0)%Z
              then (pset d "number_of_samples_overall" (VInt n), Ok (Z.max 1 (n / MAX_SAMPLES_PER_JOB)))
              else (d, Ok (Z.max 1 (total / MAX_SAMPLES_PER_JOB)))
          | Some (VFloat q) =>
              (* float // int gives a float; n_jobs is then a float (or 1) *)
              (d, Raise OtherException)
          | Some _ => (d, Raise TypeError)
          | None => (d, Raise KeyError)
          end
  | Some _, Some _ => (d, Raise AssertionError)
  | _, _ => (d, Raise KeyError)
  end.

(** format(value, spec) for the specs used: "d", "s", ".2f" and "" *)
Definition render (v : pv) (spec : string) : res string :=
  if String.eqb spec "d" then
    match v with VInt z => Ok (dec z) | VFloat _ | VStr _ => Raise ValueError | _ => Raise TypeError end
  else if String.eqb spec "s" then
    match v with VStr s => Ok s | VInt _ | VFloat _ => Raise ValueError | _ => Raise TypeError end
  else if String.eqb spec ".2f" then
    match v with VFloat q => Ok (fmt2 q) | VInt z => Ok (fmt2 (z # 1)) | VStr _ => Raise ValueError | _ => Raise TypeError end
  else if String.eqb spec "" then
    match v with VStr s => Ok s | VInt z => Ok (dec z) | VNone => Ok "None" | _ => Raise OtherException (* repr of floats and lists: not modelled *) end
  else Raise ValueError.

(** a replacement field "name:spec" or "name" *)
Definition lookup_param (d : params) (field : string) : res string :=
  match split ":" field with
  | [name] => do v <- pitem d name; render v ""
  | [name; spec] => do v <- pitem d name; render v spec
  | _ => Raise ValueError
  end.

(** t.format( **d ) *)
Definition format_params (t : string) (d : params) : res string := py_format_go (lookup_param d) None t.

Section Commands.
  Variable serialize : params -> res string.   (* pimc/pimc.py:512-515 *)
  Variable python : string.                    (* job_boss.py:32-34 get_path_to_python_executable *)
  Variable dir : string.                       (* job_boss.py:37-39 get_path_of_job_boss_directory *)

  (** job_boss.py:219-223, 278-282, 331-335 *)
  Definition template_name : string := "D{id_data:d}_R{id_rho:d}_P{number_of_beads:d}_T{temperature:.2f}".

  (** job_boss.py:236-245, 295-304, 348-357 *)
  Definition export_template (sub : string) : string :=
    " --export=ROOT_DIR={path_rho:s},SCRATCH_DIR={path_scratch:s},COPY_FROM={copy_from:s},COPY_TO={copy_to:s},PYTHON3_PATH="
      ++ python ++ ",SAMPLING_SCRIPT=" ++ dir ++ "/" ++ sub ++ "/{script_name},EXECUTION_PARAMETERS='{execution_parameters:s}'".

  (** job_boss.py:308-325 *)
  Definition sbatch_nlogn : string :=
    "sbatch -m n --ntasks=1 --job-name={job_name:s} --partition={partition:s} -D {path_rho:}execution_output/ --output={path_rho:}execution_output/{job_name:s}.o%A --cpus-per-task={cpus_per_task:d} --cores-per-socket={cores_per_socket:d} --mem={memory_per_node:}G {wait_param:s} {export_options:s} "
      ++ dir ++ "/nlogn_feynman/pimc_job.sh".

  (** job_boss.py:361-380 *)
  Definition sbatch_compute_canada : string :=
    "sbatch -m n --ntasks=1 --job-name={job_name:s} -D {path_rho:}execution_output/ --output={path_rho:}execution_output/{job_name:s}.o%A --cpus-per-task={cpus_per_task:d} --cores-per-socket={cores_per_socket:d} --mem={memory_per_node:}G --account=rrg-pnroy {wait_param:s} {export_options:s} "
      ++ dir ++ "/compute_canada/pimc_job.sh".

  (** f"{d[k]:}" of a string entry *)
  Definition text_of (d : params) (k : string) : res string := do v <- pitem d k; render v "".

  (** job_boss.py:271-325 (nlogn) and 327-382 (Compute Canada); they differ in
      the copied file pattern, the script directory and the sbatch options.
      The dictionary is updated in place and returned. *)
  Definition prepare_job (from_suffix : string -> string) (sub sbatch : string) (d : params) : res (params * string) :=
    do name <- format_params template_name d;
    let d := pset d "job_name" (VStr name) in
    do scratch <- text_of d "path_scratch";
    do rho <- text_of d "path_rho";
    let d := pset d "copy_from" (VStr ("""" ++ scratch ++ "results/" ++ from_suffix name ++ """")) in
    let d := pset d "copy_to" (VStr ("""" ++ rho ++ "results/" ++ """")) in
    do js <- serialize d;
    let d := pset d "execution_parameters" (VStr js) in
    do ex <- format_params (export_template sub) d;
    let d := pset d "export_options" (VStr ex) in
    Ok (d, sbatch).

  (** job_boss.py:271-325 *)
  Definition prepare_job_nlogn (d : params) : res (params * string) :=
    prepare_job (fun _ => "") "nlogn_feynman" sbatch_nlogn (pset d "hostname" (VStr "nlogn")).
  (** job_boss.py:327-382, 385-402 *)
  Definition prepare_job_cc (host : string) (d : params) : res (params * string) :=
    prepare_job (fun name => name ++ "_J") "compute_canada" sbatch_compute_canada (pset d "hostname" (VStr host)).

  (** job_boss.py:439-444 node_dict, 474-484 verify_hostname_is_valid, 486-489 construct_job_command *)
  Definition construct_job_command (d : params) : res (params * string) :=
    do h <- pitem d "hostname";
    match h with
    | VStr host =>
        if String.eqb host "feynman" then prepare_job_nlogn d
        else if String.eqb host "nlogn" then prepare_job_nlogn d
        else if String.eqb host "graham" then prepare_job_cc "graham" d
        else if String.eqb host "orca" then prepare_job_cc "orca" d
        else Raise OtherException
    | _ => Raise OtherException
    end.

  (** job_boss.py:196-202; [partitions] is the output of sinfo *)
  Definition assert_partition_exists (partitions name : string) : res unit := passert (contains name partitions).

  (** job_boss.py:585-603: the parameters and the command for one (T, P) *)
  Definition job_for (host partitions : string) (d : params) (T : Q) (P : Z) : res (params * string) :=
    let d := pset d "number_of_beads" (VInt P) in
    let d := pset d "number_of_links" (VInt P) in
    let d := pset d "temperature" (VFloat T) in
    let d := pset d "hostname" (VStr host) in
    do part <- pitem d "partition";
    let d := if String.eqb host "feynman" || String.eqb host "nlogn"
             then match part with
                  | VNone => pset d "partition" (VStr (if String.eqb host "feynman" then "highmem" else "serial"))
                  | _ => d
                  end
             else d in
    let d := if String.eqb host "orca" || String.eqb host "graham" then pset d "partition" VNone else d in
    do part <- pitem d "partition";
    do _ <- match part with
            | VNone => Ok tt
            | VStr name => assert_partition_exists partitions name
            | _ => Raise TypeError
            end;
    construct_job_command d.

  (** job_boss.py:168-178; [out] is the captured text *)
  Definition extract_id_job (out : string) : res (option Z) :=
    if (21 <=? String.length out)%nat
    then do z <- py_int_str (String.substring 20 (String.length out - 20) out); Ok (Some z)
    else Ok None.

  (** job_boss.py:181-193.  [sbatch] is the scheduler: the answer to the k-th
      submitted command, [None] for a non-zero exit status.  The log of
      submitted commands is returned in order of submission. *)
  Definition submit_job (sbatch : nat -> string -> option string) (log : list string) (template : string) (d : params)
    : list string * res (option Z) :=
    match format_params template d with
    | Raise e => (log, Raise e)
    | Ok cmd =>
        let log' := (log ++ [cmd])%list in
        match sbatch (List.length log) cmd with
        | None => (log', Raise OtherException)
        | Some out => (log', extract_id_job out)
        end
    end.

  (** job_boss.py:605-610: for sample_index in range(0, n_jobs) *)
  Fixpoint submit_repeat (sbatch : nat -> string -> option string) (log : list string) (template : string) (d : params) (n : nat)
    : list string * res unit :=
    match n with
    | O => (log, Ok tt)
    | S n' => match submit_job sbatch log template d with
              | (log', Raise e) => (log', Raise e)
              | (log', Ok _) => submit_repeat sbatch log' template d n'
              end
    end.

  (** job_boss.py:580-610, the two nested loops over the pairs (T, P) *)
  Fixpoint submit_pairs (host partitions : string) (sbatch : nat -> string -> option string) (d : params) (n_jobs : nat)
      (pairs : list (Q * Z)) (log : list string) : list string * res unit :=
    match pairs with
    | [] => (log, Ok tt)
    | (T, P) :: rest =>
        match job_for host partitions d T P with
        | Raise e => (log, Raise e)
        | Ok (d', template) =>
            match submit_repeat sbatch log template d' n_jobs with
            | (log', Raise e) => (log', Raise e)
            | (log', Ok _) => submit_pairs host partitions sbatch d n_jobs rest log'
            end
        end
    end.

  (** job_boss.py:572-611: the class dictionary, the submitted commands and the outcome *)
  Definition submit_jobs (host partitions : string) (sbatch : nat -> string -> option string) (d : params)
    : params * list string * res unit :=
    match setup_blocks_and_jobs d with
    | (d', Raise e) => (d', [], Raise e)
    | (d', Ok n_jobs) =>
        match pget d' "temperature_list", pget d' "bead_list" with
        | Some (VFloats ts), Some (VInts ps) =>
            let r := submit_pairs host partitions sbatch d' (Z.to_nat n_jobs) (list_prod ts ps) [] in
            (d', fst r, snd r)
        | Some (VFloats []), Some _ => (d', [], Ok tt)
        | Some _, Some _ => (d', [], Raise TypeError)
        | _, _ => (d', [], Raise KeyError)
        end
    end.
End Commands.

(** ---- check_slurm_output ---- *)
(** the lines of a text file as produced by iterating over it: every line but
    possibly the last ends in a newline *)
Definition newline : ascii := "010"%char.
Fixpoint file_lines (s : string) : list string :=
  match s with
  | EmptyString => []
  | String c s' =>
      if Ascii.eqb c newline then String c EmptyString :: file_lines s'
      else match file_lines s' with
           | [] => [String c EmptyString]
           | l :: ls => String c l :: ls
           end
  end.

(** [x in file]: consumes lines up to and including the first one equal to x *)
Fixpoint in_file (x : string) (lines : list string) : bool * list string :=
  match lines with
  | [] => (false, [])
  | l :: ls => if String.eqb l x then (true, ls) else in_file x ls
  end.

(** what check_slurm_output logs *)
Inductive slurm_log := TooEarly | Undefined.

(** job_boss.py:149-164: the tests on the opened file, one after the other *)
Definition check_slurm_lines (lines : list string) : res slurm_log :=
  let (finished, rest) := in_file "Finished" lines in
  if negb finished then Ok TooEarly
  else let (segv, rest) := in_file "SIGSEGV" rest in
       if segv then Raise MemoryError
       else let (killed, rest) := in_file "Killed" rest in
            if killed then
              let (limit, _) := in_file "Exceeded step memory limit" rest in
              if limit then Raise MemoryError else Raise OtherException
            else Ok Undefined.
(** job_boss.py:142-165; [file] is the content of the slurm output file *)
Definition check_slurm_output (file : option string) : res slurm_log :=
  match file with
  | None => Raise OSError
  | Some text => check_slurm_lines (file_lines text)
  end.
