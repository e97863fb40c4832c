(** C37-C41, C57: splitting into jobs and submitting them. *)
From Verif Require Import Common PyStr_Model PyStr_Proofs FileStruct_Model FileStruct_Proofs JobBoss_Model JobBoss_Proofs JobBoss2_Proofs.
Local Open Scope nat_scope.
Local Open Scope string_scope.

(** ---- C37 ---- *)
Theorem C37_accepted d n b total :
  pget d "number_of_samples" = Some (VInt n) -> pget d "block_size" = Some (VInt b) -> pget d "number_of_samples_overall" = Some (VInt total) ->
  (exists j, snd (setup_blocks_and_jobs d) = Ok j) <-> (b <= n /\ b <= 100000 /\ b <> 0)%Z.
Proof. exact (setup_accepts d n b total). Qed.
Print Assumptions C37_accepted.

Theorem C37_rejected d n b total :
  pget d "number_of_samples" = Some (VInt n) -> pget d "block_size" = Some (VInt b) -> pget d "number_of_samples_overall" = Some (VInt total) ->
  snd (setup_blocks_and_jobs d) = Raise AssertionError <-> (n < b \/ 100000 < b)%Z.
Proof. exact (setup_rejects d n b total). Qed.
Print Assumptions C37_rejected.

(** never more than requested, the exact shortfall, and when there is none.
    [drawn] = jobs * (number_of_blocks * block_size), from the resulting dictionary *)
Theorem C37_drawn d n b j :
  pget d "number_of_samples" = Some (VInt n) -> pget d "block_size" = Some (VInt b) ->
  pget d "number_of_samples_overall" = Some (VInt 0) -> (0 < b)%Z ->
  snd (setup_blocks_and_jobs d) = Ok j ->
  let got := (j * (geti (fst (setup_blocks_and_jobs d)) "number_of_blocks" * geti (fst (setup_blocks_and_jobs d)) "block_size"))%Z in
  (0 < got <= n)%Z /\
  (n - got = (if n <=? 100000 then 0 else n mod 100000) + j * (Z.min n 100000 mod b))%Z /\
  (got = n <-> (n <= 100000 \/ n mod 100000 = 0) /\ (Z.min n 100000 mod b = 0))%Z.
Proof. exact (drawn_exact d n b j). Qed.
Print Assumptions C37_drawn.

(** all values written, for every value of number_of_samples_overall *)
Theorem C37_values d n b total j :
  pget d "number_of_samples" = Some (VInt n) -> pget d "block_size" = Some (VInt b) -> pget d "number_of_samples_overall" = Some (VInt total) ->
  snd (setup_blocks_and_jobs d) = Ok j ->
  let d' := fst (setup_blocks_and_jobs d) in
  geti d' "number_of_samples" = Z.min n 100000 /\ geti d' "number_of_samples_per_job" = Z.min n 100000 /\
  geti d' "number_of_blocks" = (Z.min n 100000 / b)%Z /\ geti d' "block_size" = b /\
  geti d' "number_of_samples_overall" = (if (total =? 0)%Z then n else total) /\
  j = Z.max 1 ((if (total =? 0)%Z then n else total) / 100000).
Proof. exact (fun H1 H2 H3 => setup_values d n b total H1 H2 H3 j). Qed.
Print Assumptions C37_values.

(** computing the plan again changes nothing *)
Theorem C37_again d n b total j :
  pget d "number_of_samples" = Some (VInt n) -> pget d "block_size" = Some (VInt b) -> pget d "number_of_samples_overall" = Some (VInt total) ->
  (0 < b)%Z -> snd (setup_blocks_and_jobs d) = Ok j ->
  snd (setup_blocks_and_jobs (fst (setup_blocks_and_jobs d))) = Ok j /\
  forall k, pget (fst (setup_blocks_and_jobs (fst (setup_blocks_and_jobs d)))) k = pget (fst (setup_blocks_and_jobs d)) k.
Proof. exact (fun H1 H2 H3 => setup_again d n b total H1 H2 H3 j). Qed.
Print Assumptions C37_again.

Definition samples_dict (n b total : Z) : params :=
  pset (pset (pset default_params "number_of_samples" (VInt n)) "block_size" (VInt b)) "number_of_samples_overall" (VInt total).

(** finding: with an explicit overall number the number of jobs is computed
    from the per-job maximum, not from the samples one job draws *)
Theorem C37_overall_refuted :
  exists n b total j, snd (setup_blocks_and_jobs (samples_dict n b total)) = Ok j /\ (0 < b)%Z /\ Z.divide b n /\ Z.divide n total /\
    (10 * drawn (fst (setup_blocks_and_jobs (samples_dict n b total))) j = total)%Z.
Proof.
  exists 10000%Z, 1000%Z, 500000%Z, 5%Z. split; [vm_compute; auto|]. split; [lia|].
  split; [exists 10%Z; lia|]. split; [exists 50%Z; lia|]. vm_compute. auto.
Qed.
Print Assumptions C37_overall_refuted.

(** finding: negative block sizes are accepted *)
Theorem C37_negative_refuted n b total :
  (b < 0)%Z -> (0 < n)%Z ->
  exists j, snd (setup_blocks_and_jobs (samples_dict n b total)) = Ok j /\
    (geti (fst (setup_blocks_and_jobs (samples_dict n b total))) "number_of_blocks" < 0)%Z.
Proof.
  intros Hb Hn. assert (exists j, snd (setup_blocks_and_jobs (samples_dict n b total)) = Ok j) as [j Hj].
  { apply (setup_accepts _ n b total); [reflexivity|reflexivity|reflexivity|lia]. }
  exists j. split; [exact Hj|].
  destruct (setup_values (samples_dict n b total) n b total eq_refl eq_refl eq_refl j Hj) as (_ & _ & -> & _).
  pose proof (Z.div_mod (Z.min n 100000) b ltac:(lia)); pose proof (Z.mod_neg_bound (Z.min n 100000) b ltac:(lia)); nia.
Qed.
Print Assumptions C37_negative_refuted.

Example C37_example :
  snd (setup_blocks_and_jobs (samples_dict 1000000 1000 0)) = Ok 10%Z /\
  drawn (fst (setup_blocks_and_jobs (samples_dict 1000000 1000 0))) 10 = 1000000%Z /\
  snd (setup_blocks_and_jobs (samples_dict 250000 300 0)) = Ok 2%Z /\
  drawn (fst (setup_blocks_and_jobs (samples_dict 250000 300 0))) 2 = 199800%Z /\
  snd (setup_blocks_and_jobs (samples_dict 100 1000 0)) = Raise AssertionError /\
  snd (setup_blocks_and_jobs (samples_dict 100 0 0)) = Raise ZeroDivisionError.
Proof. vm_compute. repeat split. Qed.

(** ---- C38 ---- *)
(** the submitted commands are, in order, n_jobs copies of the command of each
    pair: always a prefix of this list, and all of it when no error occurs *)
Theorem C38_submissions serialize python dir host partitions sbatch d d' n_jobs ts ps cmds :
  setup_blocks_and_jobs d = (d', Ok n_jobs) ->
  pget d' "temperature_list" = Some (VFloats ts) -> pget d' "bead_list" = Some (VInts ps) ->
  (forall T P, exists dj template, job_for serialize python dir host partitions d' T P = Ok (dj, template) /\ format_params template dj = Ok (cmds T P)) ->
  let '(d2, log, r) := submit_jobs serialize python dir host partitions sbatch d in
  let all := flat_map (fun T => flat_map (fun P => repeat (cmds T P) (Z.to_nat n_jobs)) ps) ts in
  d2 = d' /\ (exists rest, all = (log ++ rest)%list) /\ (r = Ok tt -> log = all) /\
  ((forall i cmd, exists out z, sbatch i cmd = Some out /\ extract_id_job out = Ok z) -> r = Ok tt).
Proof. exact (submit_log serialize python dir host partitions sbatch d d' n_jobs ts ps cmds). Qed.
Print Assumptions C38_submissions.

(** the command of a pair, in full; [dj] is the dictionary the job receives *)
Theorem C38_command_nlogn serialize python dir d D R scratch rho cpus cores mem wait script host partitions P T p :
  (forall d, exists js, serialize d = Ok js) -> no_brace python = true -> no_brace dir = true ->
  ready d D R scratch rho cpus cores mem wait script ->
  host = "feynman" \/ host = "nlogn" ->
  pget d "partition" = Some p -> (p = VNone \/ exists s, p = VStr s) ->
  contains (partition_of host p) partitions = true ->
  let name := "D" ++ dec D ++ "_R" ++ dec R ++ "_P" ++ dec P ++ "_T" ++ fmt2 T in
  exists dj js d' template, serialize dj = Ok js /\ job_dict d dj "nlogn" name P T /\
    pget dj "partition" = Some (VStr (partition_of host p)) /\
    job_for serialize python dir host partitions d T P = Ok (d', template) /\
    format_params template d' =
      Ok (sbatch_of (" --partition=" ++ partition_of host p) "" dir "nlogn_feynman" name rho cpus cores mem wait
            (export_of python dir "nlogn_feynman" rho scratch "" script js)).
Proof. exact (fun Hs Hp Hd Hr => job_nlogn serialize python dir Hs Hp Hd d D R scratch rho cpus cores mem wait script Hr host partitions P T p). Qed.
Print Assumptions C38_command_nlogn.

Theorem C38_command_compute_canada serialize python dir d D R scratch rho cpus cores mem wait script host partitions P T p :
  (forall d, exists js, serialize d = Ok js) -> no_brace python = true -> no_brace dir = true ->
  ready d D R scratch rho cpus cores mem wait script ->
  host = "orca" \/ host = "graham" ->
  pget d "partition" = Some p ->
  let name := "D" ++ dec D ++ "_R" ++ dec R ++ "_P" ++ dec P ++ "_T" ++ fmt2 T in
  exists dj js d' template, serialize dj = Ok js /\ job_dict d dj host name P T /\
    pget dj "partition" = Some VNone /\
    job_for serialize python dir host partitions d T P = Ok (d', template) /\
    format_params template d' =
      Ok (sbatch_of "" " --account=rrg-pnroy" dir "compute_canada" name rho cpus cores mem wait
            (export_of python dir "compute_canada" rho scratch (name ++ "_J") script js)).
Proof. exact (fun Hs Hp Hd Hr => job_cc serialize python dir Hs Hp Hd d D R scratch rho cpus cores mem wait script Hr host partitions P T p). Qed.
Print Assumptions C38_command_compute_canada.

(** an invalid plan or an unknown host: nothing at all is submitted *)
Theorem C38_nothing_submitted serialize python dir host partitions sbatch d e :
  snd (setup_blocks_and_jobs d) = Raise e ->
  submit_jobs serialize python dir host partitions sbatch d = (fst (setup_blocks_and_jobs d), [], Raise e).
Proof. exact (submit_nothing serialize python dir host partitions sbatch d e). Qed.
Print Assumptions C38_nothing_submitted.

Theorem C38_unknown_host serialize python dir host partitions sbatch d d' n ts ps p :
  ~ In host ["feynman"; "nlogn"; "graham"; "orca"] ->
  setup_blocks_and_jobs d = (d', Ok n) ->
  pget d' "temperature_list" = Some (VFloats ts) -> pget d' "bead_list" = Some (VInts ps) ->
  pget d' "partition" = Some p -> ts <> [] -> ps <> [] ->
  exists e, submit_jobs serialize python dir host partitions sbatch d = (d', [], Raise e).
Proof. exact (submit_unknown serialize python dir host partitions sbatch d d' n ts ps p). Qed.
Print Assumptions C38_unknown_host.

(** a two temperature, two bead example: four commands, one job each *)
Definition example_dict : params :=
  submission_init default_params "nlogn"
    (Some [("number_of_samples", VInt 200000); ("temperature_list", VFloats [300 # 1; 601 # 2]%Q); ("bead_list", VInts [12; 20]%Z); ("id_data", VInt 11)])
    (build_fs "/" "/work/x" 11 0).
Definition example_run :=
  submit_jobs (fun _ => Ok "{}") "py" "/jb" "nlogn" "serial highmem" (fun _ _ => Some ("Submitted batch job 77" ++ String newline "")) example_dict.
Example C38_example :
  snd example_run = Ok tt /\ List.length (snd (fst example_run)) = 8 /\
  nth 2 (snd (fst example_run)) "" =
   "sbatch -m n --ntasks=1 --job-name=D11_R0_P20_T300.00 --partition=serial -D /work/x/data_set_11/rho_0/execution_output/ --output=/work/x/data_set_11/rho_0/execution_output/D11_R0_P20_T300.00.o%A --cpus-per-task=4 --cores-per-socket=4 --mem=20G   --export=ROOT_DIR=/work/x/data_set_11/rho_0/,SCRATCH_DIR=/scratch/x/data_set_11/rho_0/,COPY_FROM=""/scratch/x/data_set_11/rho_0/results/"",COPY_TO=""/work/x/data_set_11/rho_0/results/"",PYTHON3_PATH=py,SAMPLING_SCRIPT=/jb/nlogn_feynman/pimc.py,EXECUTION_PARAMETERS='{}' /jb/nlogn_feynman/pimc_job.sh" /\
  map (fun c => contains "P12_T300.50" c) (snd (fst example_run)) = [false; false; false; false; true; true; false; false].
Proof. vm_compute. repeat split. Qed.

Example C38_ready_example : ready example_dict 11 0 "/scratch/x/data_set_11/rho_0/" "/work/x/data_set_11/rho_0/" 4 4 20 "" "pimc.py".
Proof. split; vm_compute; reflexivity. Qed.

(** ---- C39 ---- *)
(** the entry every object sees after any history: the last value written by
    any construction, of whichever object.  (The four bookkeeping entries are
    also written by the set-up, see C37_values.) *)
Theorem C39_last_writer d evs k :
  ~ In k ["number_of_samples_per_job"; "number_of_samples"; "number_of_blocks"; "number_of_samples_overall"] ->
  pget (run d evs) k = match last_write (flat_map writes evs) k with Some v => Some v | None => pget d k end.
Proof. exact (run_get d evs k). Qed.
Print Assumptions C39_last_writer.

(** a newly built object sees its own input *)
Theorem C39_own_input d host p f k v :
  last_write p k = Some v ->
  ~ In k ["path_scratch"; "path_root"; "path_data"; "path_rho"; "path_vib_model"; "path_rho_model"] ->
  pget (submission_init d host (Some p) f) k = Some v.
Proof. exact (own_input d host p f k v). Qed.
Print Assumptions C39_own_input.

(** finding: building a second object changes the parameters of the first one,
    for every parameter, value and later object *)
Theorem C39_earlier_changed_refuted d host1 host2 p1 p2 f1 f2 k v1 v2 :
  last_write p1 k = Some v1 -> last_write p2 k = Some v2 -> v1 <> v2 ->
  ~ In k ["path_scratch"; "path_root"; "path_data"; "path_rho"; "path_vib_model"; "path_rho_model"] ->
  pget (submission_init d host1 (Some p1) f1) k = Some v1 /\
  pget (submission_init (submission_init d host1 (Some p1) f1) host2 (Some p2) f2) k = Some v2.
Proof. exact (fun H1 H2 _ Hk => conj (own_input d host1 p1 f1 k v1 H1 Hk) (own_input _ host2 p2 f2 k v2 H2 Hk)). Qed.
Print Assumptions C39_earlier_changed_refuted.

(** finding: a later object inherits the overall number of samples of an
    earlier one: asked for 1000 samples it draws 5000 *)
Definition two_objects : params :=
  run default_params
    [EConstruct "nlogn" (Some [("number_of_samples", VInt 500000)]) (build_fs "/" "/w" 1 0); ESetup;
     EConstruct "nlogn" (Some [("number_of_samples", VInt 1000)]) (build_fs "/" "/w" 2 0)].
Theorem C39_inherited_refuted :
  snd (setup_blocks_and_jobs two_objects) = Ok 5%Z /\ drawn (fst (setup_blocks_and_jobs two_objects)) 5 = 5000%Z /\
  snd (setup_blocks_and_jobs (run default_params [EConstruct "nlogn" (Some [("number_of_samples", VInt 1000)]) (build_fs "/" "/w" 2 0)])) = Ok 1%Z.
Proof. vm_compute. auto. Qed.
Print Assumptions C39_inherited_refuted.

Example C39_example :
  pget two_objects "id_data" = Some (VInt 0) /\ pget two_objects "path_rho" = Some (VStr "/w/data_set_2/rho_0/") /\
  pget two_objects "path_scratch" = Some (VStr "/w/data_set_2/rho_0/") /\ pget two_objects "hostname" = Some (VStr "nlogn").
Proof. vm_compute. auto. Qed.

(** ---- C40 ---- *)
Theorem C40_job_id n w1 w2 :
  all_chars is_space w1 = true -> all_chars is_space w2 = true ->
  extract_id_job ("Submitted batch job " ++ w1 ++ dec n ++ w2) = Ok (Some n).
Proof. exact (extract_id_ok n w1 w2). Qed.
Print Assumptions C40_job_id.

Theorem C40_short out : String.length out < 21 -> extract_id_job out = Ok None.
Proof. exact (extract_id_short out). Qed.
Print Assumptions C40_short.

(** any other answer: only the text after the first 20 characters counts *)
Theorem C40_tail pre tail :
  String.length pre = 20 -> tail <> EmptyString ->
  extract_id_job (pre ++ tail) = match py_int_str tail with Ok z => Ok (Some z) | Raise e => Raise e end.
Proof. exact (extract_id_tail pre tail). Qed.
Print Assumptions C40_tail.

Example C40_example :
  extract_id_job ("Submitted batch job 123456" ++ String newline "") = Ok (Some 123456%Z) /\
  extract_id_job "" = Ok None /\
  extract_id_job "sbatch: error: Batch job submission failed" = Raise ValueError /\
  extract_id_job "sbatch: error: code 17" = Ok (Some 17%Z).
Proof. vm_compute. auto. Qed.

(** ---- C41 ---- *)
(** finding: whatever the file contains, no failure is reported *)
Theorem C41_never_raises_refuted text : exists l, check_slurm_output (Some text) = Ok l.
Proof. exact (check_never_raises text). Qed.
Print Assumptions C41_never_raises_refuted.

Example C41_example :
  let nl := String newline "" in
  check_slurm_output (Some ("Finished" ++ nl ++ "SIGSEGV" ++ nl)) = Ok TooEarly /\
  check_slurm_output (Some ("job" ++ nl ++ "Killed" ++ nl ++ "Exceeded step memory limit")) = Ok TooEarly /\
  check_slurm_output (Some ("SIGSEGV" ++ nl ++ "Finished")) = Ok Undefined /\
  check_slurm_output None = Raise OSError.
Proof. vm_compute. repeat split. Qed.

(** ---- C57 ---- *)
Theorem C57_hostname pre k v post :
  Forall (fun l => contains "ClusterName" l = false) pre ->
  contains "ClusterName" k = true ->
  all_chars (fun c => negb (Ascii.eqb c "=")) k = true -> all_chars (fun c => negb (Ascii.eqb c "=")) v = true ->
  get_hostname (pre ++ (k ++ "=" ++ v)%string :: post)%list = Ok (strip v).
Proof. exact (hostname_found pre k v post). Qed.
Print Assumptions C57_hostname.

Theorem C57_no_hostname lines :
  get_hostname lines = Raise OtherException <-> Forall (fun l => contains "ClusterName" l = false) lines.
Proof. exact (hostname_missing lines). Qed.
Print Assumptions C57_no_hostname.

Example C57_example :
  get_hostname ["Configuration data as of x"; "BatchStartTimeout = 10"; "ClusterName             = nlogn"; "ClusterName = y"] = Ok "nlogn" /\
  get_hostname ["Configuration data"] = Raise OtherException.
Proof. vm_compute. auto. Qed.
