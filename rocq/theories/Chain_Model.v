(** Several jobs of one sampling distribution, submitted and run one after the other.
    Models /repo/pibronic/server/job_boss.py:581-610 (the command of each job) and
    /repo/pibronic/server/nlogn_feynman/pimc_job.sh:1-55, compute_canada/pimc_job.sh:1-56 (what each job does).
    Simplified: the jobs do not overlap; the random numbers of a job are part of its sampler. *)
From Coq Require Import QArith.
From Verif Require Import Common PyStr_Model Json_Model JobBoss_Model Results_Model Job_Model.

(** the arguments of one turn of the loops of job_boss.py:581-603, the numerical work of the job
    (pimc/pimc.py:1388-1440) and the number the scheduler gives it (job_boss.py:609-610) *)
Record job := {
  j_dict : params;
  j_T : Q;
  j_P : Z;
  j_sampler : boxdata -> res (nat -> fl * fl * fl * fl);
  j_id : Z }.

(** job_boss.py:581-608: the temperatures, the bead numbers and the repeated submissions, in this order *)
Definition turns (ts : list Q) (ps : list Z) (n_jobs : nat) : list (Q * Z) :=
  flat_map (fun T => flat_map (fun P => repeat (T, P) n_jobs) ps) ts.
(** job_boss.py:581-610: the jobs of one submission; [samplers] and [ids] go with the order of submission *)
Definition campaign (d : params) (ts : list Q) (ps : list Z) (n_jobs : nat)
    (samplers : nat -> boxdata -> res (nat -> fl * fl * fl * fl)) (ids : nat -> Z) : list job :=
  let l := turns ts ps n_jobs in
  map (fun x => {| j_dict := d; j_T := fst (snd x); j_P := snd (snd x); j_sampler := samplers (fst x); j_id := ids (fst x) |})
    (combine (seq 0 (length l)) l).

Section Chain.
  Variable H : string -> string.
  Variable cwd : string.
  Variable fval : string -> Q.
  Variable inv_kT : json -> res json.
  Variable divide : json -> json -> res json.
  Variable isfile interpreter : string -> bool.
  Variable repr : Q -> string.
  Variable python dir host partitions : string.

  (** job_boss.py:581-610: the job is submitted and runs; the files of results are changed, whether it fails or not *)
  Definition run_job (w : world) (j : job) : option world :=
    match job_for (serialize_params repr) python dir host partitions (j_dict j) (j_T j) (j_P j) with
    | Raise _ => None
    | Ok (d, template) =>
        match format_params template d with
        | Raise _ => None
        | Ok cmd =>
            match run_command H cwd fval inv_kT divide (j_sampler j) isfile interpreter w cmd (j_id j) with
            | None => None
            | Some (fs, _) => Some {| isdir := isdir w; texts := texts w; results := fs |}
            end
        end
    end.

  (** job_boss.py:581-610, one job after the other *)
  Fixpoint run_jobs (w : world) (jobs : list job) : option world :=
    match jobs with
    | [] => Some w
    | j :: rest => match run_job w j with None => None | Some w' => run_jobs w' rest end
    end.
End Chain.
