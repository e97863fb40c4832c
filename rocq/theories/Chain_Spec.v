(** Notions used to state the properties of several jobs run one after the other (Chain_Model.v). *)
From Coq Require Import QArith.
From Verif Require Import Common PyStr_Model Json_Model JobBoss_Model Results_Model JobBoss2_Proofs Job_Model Job_Spec Chain_Model.
Local Open Scope string_scope.
Local Open Scope nat_scope.

(** a job together with the values it computes: n samples are asked for in nb blocks of bs *)
Record ran := { x_job : job; x_v : nat -> fl * fl * fl * fl; x_n : nat; x_nb : nat; x_bs : nat }.

(** The job can be submitted from the host and computes these values *)
Definition ready_job (H : string -> string) (fval : string -> Q) (inv_kT : json -> res json) (divide : json -> json -> res json)
    (isfile interpreter : string -> bool) (repr : Q -> string) (python dir host partitions root sroot : string) (D R : Z) (cv cr : string) (w : world) (x : ran) : Prop :=
  exists wait script cpus cores mem A N be ta p,
    job_setting repr fval inv_kT divide w root sroot (j_dict (x_job x)) D R wait script cpus cores mem (j_P (x_job x)) (j_T (x_job x)) (x_n x) (x_nb x) (x_bs x) A N be ta cv cr /\
    j_sampler (x_job x) (job_object H repr (j_dict (x_job x)) root D R (j_P (x_job x)) (j_T (x_job x)) (x_n x) (x_nb x) (x_bs x) A N be ta cv cr) = Ok (x_v x) /\
    (path_text python /\ python <> "") /\ (path_text dir /\ String.prefix "/" dir = true) /\ pget (j_dict (x_job x)) "partition" = Some p /\
    (if String.eqb host "feynman" || String.eqb host "nlogn"
     then (p = VNone \/ exists s, p = VStr s /\ path_text s) /\ contains (partition_of host p) partitions = true
     else True) /\
    (if String.eqb host "feynman" || String.eqb host "nlogn"
     then isfile (dir ++ "/nlogn_feynman/pimc_job.sh") = true /\ isfile (dir ++ "/nlogn_feynman/" ++ script) = true /\ interpreter python = true
     else isfile (dir ++ "/compute_canada/pimc_job.sh") = true /\ isfile (dir ++ "/compute_canada/" ++ script) = true /\ interpreter "python3" = true).

(** an array of the file of the job: the values of the computed samples, then NaN *)
Definition values (f : fl * fl * fl * fl -> fl) (x : ran) : list fl :=
  (map (fun i => f (x_v x i)) (seq 0 (x_nb x * x_bs x)) ++ repeat NaN (x_n x - x_nb x * x_bs x))%list.

(** the entries of a directory that are files of results *)
Definition lists_results (fs : files) (dir : string) (names : list string) : Prop :=
  NoDup names /\ forall y, In y names <-> visible y /\ fs (dir ++ y) <> None.
