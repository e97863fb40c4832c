(** Model of the submission of the sampling of the examples,
    /repo/examples/paper_1.5025058/submit_jobs_to_server.py:241-321 and
    /repo/examples/artificial_systems/submit_jobs_to_server.py:272-356, with
    PimcSubmissionClass (JobBoss_Model), whose dictionary belongs to the class.

    Simplified: printing and logging are left out, the directories that are made too (C96, C97).
    [lines] is the answer of scontrol, the same for each call, [partitions] that of sinfo.
    Starting srun does not fail (the process is not waited for, line 46). *)
From Coq Require Import QArith.
From Verif Require Import Common PyStr_Model FileName_Model Json_Model FileStruct_Model Julia_Model JobBoss_Model Submit_Model Submit2_Model Setup_Model Survey_Model.
Local Open Scope string_scope.
Local Open Scope list_scope.
Local Open Scope nat_scope.

(** what is handed to the queue, in order *)
Inductive event := Srun (command : string) | Sbatch (command : string).
Definition is_sbatch (x : event) : bool := match x with Sbatch _ => true | Srun _ => false end.

(** the beads: lines 251 (paper) and 292 (artificial); the temperatures: 257 and 298; the samples: 265 and 307 *)
Definition beads (e : example) : list Z := match e with Paper => [50]%Z | Artificial => [50; 100; 150; 200; 300; 400; 500]%Z end.
Definition temperatures : list Q := [300 # 1]%Q.
Definition samples (e : example) : Z := match e with Paper => 10000%Z | Artificial => 100000%Z end.
(** constants.py:28 *)
Definition delta_beta : Q := (2 # 10000)%Q.

Section Campaign.
  Variable serialize : params -> res string.
  Variable python : string.
  Variable dir : string.
  (** vIO.extract_dimensions_of_model(FS=FS) *)
  Variable dims : fstruct -> res (Z * Z).
  Variable lines : list string.
  Variable partitions : string.
  (** the answer to the k-th sbatch command of the process *)
  Variable sbatch : nat -> string -> option string.

  (** lines 264-273 (paper) and 306-315 (artificial) *)
  Definition parameter_dictionary (e : example) (d r A N : Z) : params :=
    [("number_of_samples", VInt (samples e)); ("number_of_states", VInt A); ("number_of_modes", VInt N); ("bead_list", VInts (beads e));
     ("temperature_list", VFloats temperatures); ("delta_beta", VFloat delta_beta); ("id_data", VInt d); ("id_rho", VInt r)].

  (** lines 260 (paper) and 303 (artificial) *)
  Definition analytic (e : example) (f : fstruct) : list string * res unit :=
    match e with
    | Paper => generate_sampling_analytical_results f temperatures
    | Artificial => art_analytical_results f temperatures
    end.

  (** lines 276-278 (paper) and 318-320 (artificial): job_boss.py:464-475 and 572-611; [k] commands were submitted before *)
  Definition run_engine (cls : params) (k : nat) (f : fstruct) (p : params) : params * list event * res unit :=
    match get_hostname lines with
    | Raise x => (cls, [], Raise x)
    | Ok cluster =>
        let '(cls', cs, o) := submit_jobs serialize python dir cluster partitions (fun i => sbatch (k + i)) (submission_init cls cluster (Some p) f) in
        (cls', map Sbatch cs, o)
    end.

  (** simple_pimc_wrapper, lines 241-280 (paper) and 272-322 (artificial); [root] is the argument of this name *)
  Definition simple_pimc_wrapper (e : example) (cwd machine : string) (is_dir : bool) (root : option string) (d r : Z) (cls : params) (k : nat) : params * list event * res unit :=
    match (do _ <- (match e with Paper => assert_id_data_is_valid d | Artificial => art_assert_valid d end);
           do root <- root_or_chosen (ex_root e) machine root;
           do p <- new_fs cwd is_dir [] root d r false; Ok (fst p)) with
    | Raise x => (cls, [], Raise x)
    | Ok f =>
        match analytic e f with
        | (cs, Raise x) => (cls, map Srun cs, Raise x)
        | (cs, Ok _) =>
            match dims f with
            | Raise x => (cls, map Srun cs, Raise x)
            | Ok (A, N) =>
                let '(cls', es, o) := run_engine cls k f (parameter_dictionary e d r A N) in
                (cls', map Srun cs ++ es, o)
            end
        end
    end.

  (** the loops of lines 287-289 (paper) and 329-331 (artificial) *)
  Fixpoint submit_all (e : example) (cwd machine : string) (is_dir : bool) (l : list (Z * Z)) (cls : params) (k : nat) : params * list event * res unit :=
    match l with
    | [] => (cls, [], Ok tt)
    | (d, r) :: l' =>
        match simple_pimc_wrapper e cwd machine is_dir None d r cls k with
        | (cls', es, Raise x) => (cls', es, Raise x)
        | (cls', es, Ok _) =>
            let '(cls2, es2, o) := submit_all e cwd machine is_dir l' cls' (k + List.length (filter is_sbatch es)) in
            (cls2, es ++ es2, o)
        end
    end.
  (** automate_pimc_submission, lines 283-290 (paper) and 325-332 (artificial) *)
  Definition automate_pimc_submission (e : example) (cwd machine : string) (is_dir : bool) (name : string) (cls : params) (k : nat) : params * list event * res unit :=
    if existsb (String.eqb name) (ex_names e) then submit_all e cwd machine is_dir (survey_pairs e name) cls k else (cls, [], Raise AssertionError).
  (** main, lines 293-313 (paper) and 335-352 (artificial), in a new process *)
  Definition submission_main (e : example) (cwd machine : string) (is_dir : bool) : params * list event * res unit :=
    automate_pimc_submission e cwd machine is_dir (match e with Paper => "superimposed" | Artificial => nth 0 art_names "" end) default_params 0.
End Campaign.
