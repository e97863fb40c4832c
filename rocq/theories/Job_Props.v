(** C98: the life of a submitted job. *)
From Coq Require Import QArith.
From Verif Require Import Common Common_Proofs PyStr_Model PyStr_Proofs FileName_Model FileName_Proofs Json_Model Json_Spec.
From Verif Require Import FileStruct_Model FileStruct_Proofs JobBoss_Model JobBoss_Proofs Results_Model Results_Proofs Job_Model Job_Spec.
From Verif Require Import JobBoss2_Proofs Job_Proofs Job2_Proofs Job3_Proofs Job4_Proofs Job5_Proofs.
Local Open Scope nat_scope.
Local Open Scope string_scope.

(** ---- the command line ---- *)
(** C98: the words of a command reach the job script as the seven variables, whatever the paths made of path characters *)
Theorem C98_environment isfile partition account python dir sub name rho scratch from script js wait cpus cores mem :
  (partition = "" \/ exists p, partition = " --partition=" ++ p /\ path_text p) -> (account = "" \/ account = " --account=rrg-pnroy") ->
  (wait = "" \/ wait = "--wait") ->
  path_text python -> path_text dir -> String.prefix "/" dir = true -> path_text sub -> path_text name -> path_text rho -> rho <> "" ->
  path_text scratch -> path_text from -> path_text script -> lacks "'" js -> lacks "," js ->
  accept isfile
    ("sbatch -m n --ntasks=1 --job-name=" ++ name ++ partition ++ " -D " ++ rho ++ "execution_output/ --output=" ++ rho ++ "execution_output/" ++ name
     ++ ".o%A --cpus-per-task=" ++ dec cpus ++ " --cores-per-socket=" ++ dec cores ++ " --mem=" ++ dec mem ++ "G" ++ account ++ " " ++ wait ++ " "
     ++ (" --export=ROOT_DIR=" ++ rho ++ ",SCRATCH_DIR=" ++ scratch ++ ",COPY_FROM=""" ++ scratch ++ "results/" ++ from ++ """,COPY_TO=""" ++ rho
         ++ "results/"",PYTHON3_PATH=" ++ python ++ ",SAMPLING_SCRIPT=" ++ dir ++ "/" ++ sub ++ "/" ++ script ++ ",EXECUTION_PARAMETERS='" ++ js ++ "'")
     ++ " " ++ dir ++ "/" ++ sub ++ "/pimc_job.sh") =
  if isfile (dir ++ "/" ++ sub ++ "/pimc_job.sh") then
    Some ([("ROOT_DIR", rho); ("SCRATCH_DIR", scratch); ("COPY_FROM", scratch ++ "results/" ++ from); ("COPY_TO", rho ++ "results/");
           ("PYTHON3_PATH", python); ("SAMPLING_SCRIPT", dir ++ "/" ++ sub ++ "/" ++ script); ("EXECUTION_PARAMETERS", js)],
          dir ++ "/" ++ sub ++ "/pimc_job.sh")
  else None.
Proof. intros. apply (accept_of partition account python dir sub name rho scratch from script js wait cpus cores mem); auto. Qed.
Print Assumptions C98_environment.

(** a comma inside the text of the parameters cuts it, a quote is lost: the conditions are needed *)
Theorem C98_comma_refuted : exists js env script,
  accept (fun _ => true) (" sbatch --export=SCRATCH_DIR=/s/,EXECUTION_PARAMETERS='" ++ js ++ "' /j/pimc_job.sh") = Some (env, script) /\
  dget String.eqb env "EXECUTION_PARAMETERS" <> Some js.
Proof. exists "{a,b}". do 2 eexists. split; [vm_compute; reflexivity|]. discriminate. Qed.
Example C98_shell_example : shell_words ("a 'b c'""d""e  f" ++ String (ascii_of_nat 9) "g ''") = Some ["a"; "b cde"; "f"; "g"; ""] /\
  shell_words "a $b" = None /\ shell_words "a 'b" = None /\ shell_words "a ""$b""" = None /\ shell_words "a '$b'" = Some ["a"; "$b"] /\ shell_words "a* b" = None.
Proof. vm_compute. repeat split. Qed.
(** the option words of sbatch *)
Example C98_sbatch_example : sbatch_args ["-m"; "n"; "--x"; "--export=A=1,B=x=y"; "-D"; "/d/"; "/s/j.sh"; "rest"] "" = Some ("A=1,B=x=y", "/s/j.sh") /\
  environment "A=1,B=x=y" = [("A", "1"); ("B", "x=y")] /\ sbatch_args ["--x"; "-D"] "" = None /\
  accept (fun _ => true) "sbatch /a" = Some ([("", "")], "/a") /\ accept (fun _ => true) "srun /a" = None /\ accept (fun _ => false) "sbatch /a" = None.
Proof. vm_compute. repeat split. Qed.

(** ---- what is on the scratch disk ---- *)
Theorem C98_scratch_paths cwd root sroot d r : normal_root root -> scratched root sroot ->
  path_rho (build_fs cwd root d r) = rho_dir root d r /\
  py_replace "work" "scratch" (path_rho (build_fs cwd root d r)) = rho_dir sroot d r /\
  normpath (join (rho_dir sroot d r) "../..") = sroot /\ path_rho_results (build_fs cwd sroot d r) = rho_dir sroot d r ++ "results/".
Proof.
  intros K S. assert (NS : normal_root sroot) by (eapply scratched_normal; eauto).
  assert (E : path_rho (build_fs cwd root d r) = rho_dir root d r).
  { cbn [build_fs path_rho]. rewrite normal_abs by auto. rewrite normal_join by (auto; reflexivity).
    unfold template_rho, template_vib, rho_dir. repeat rewrite append_assoc. reflexivity. }
  split; auto. split; [|split; [apply up_two; auto|apply rho_results_dir; auto]].
  rewrite E. apply scratched_replace, rho_dir_scratched. auto.
Qed.
Print Assumptions C98_scratch_paths.
Theorem C98_scratch_exists root : exists sroot, scratched root sroot /\ (forall t, scratched root t -> t = sroot) /\
  ((forall a b, root <> a ++ "work" ++ b) -> sroot = root).
Proof.
  destruct (scratched_exists root) as [s S]. exists s. split; auto. split; [intros t K; eapply scratched_unique; eauto|].
  clear -S. induction S as [|s t K IH|c s t Nw K IH]; intros X; auto.
  - destruct (X "" s). reflexivity.
  - f_equal. apply IH. intros a b ->. destruct (X (String c a) b). reflexivity.
Qed.
Print Assumptions C98_scratch_exists.
Example C98_scratch_example : scratched "/work/bwork/x" "/scratch/bscratch/x" /\ scratched "/wo/rk" "/wo/rk".
Proof.
  split.
  - apply scratched_slash. apply (scr_work "/bwork/x" "/bscratch/x"). apply scratched_slash. apply scr_other; [intros s' E; discriminate|].
    apply (scr_work "/x" "/x"). apply scratched_lacks, lacks_lit. reflexivity.
  - repeat (apply scr_other; [intros s' E; discriminate|]). constructor.
Qed.

(** ---- the submission as the code stands ---- *)
(** C98: get_path_of_job_boss_directory gives the file job_boss.py itself, so the job script named in the command would lie below
    a regular file; the scheduler refuses the first command and nothing runs *)
Theorem C98_submission_refuted repr fval inv_kT divide w root sroot d0 d D R wait script cpus cores mem P T n nb bs A N be ta cv cr
    cwd os_file file isfile ids host partitions njobs ts ps p :
  job_setting repr fval inv_kT divide w root sroot d D R wait script cpus cores mem P T n nb bs A N be ta cv cr ->
  normal_root os_file -> path_text os_file -> normal_root file -> path_text file ->
  (forall x, isfile (file ++ "/" ++ x) = false) ->
  setup_blocks_and_jobs d0 = (d, Ok njobs) -> (0 < njobs)%Z ->
  pget d "temperature_list" = Some (VFloats (T :: ts)) -> pget d "bead_list" = Some (VInts (P :: ps)) -> pget d "partition" = Some p ->
  (((host = "feynman" \/ host = "nlogn") /\ (p = VNone \/ exists s, p = VStr s /\ path_text s) /\ contains (partition_of host p) partitions = true)
   \/ host = "orca" \/ host = "graham") ->
  exists cmd, submit_jobs (serialize_params repr) (get_path_to_python_executable cwd os_file) (get_path_of_job_boss_directory cwd file)
                host partitions (scheduler isfile ids) d0 = (d, [cmd], Raise OtherException).
Proof.
  intros J O1 O2 F1 F2 NF Hs Hn Ht Hp Hpt Hh.
  unfold get_path_to_python_executable, get_path_of_job_boss_directory. rewrite !normal_abs by auto.
  assert (NE : forall r, normal_root r -> r <> "" /\ String.prefix "/" r = true).
  { intros r (l & _ & _ & ->). split; [discriminate|]. cbn. destruct (String.concat "/" l); reflexivity. }
  unfold submit_jobs. rewrite Hs, Ht, Hp. cbn [list_prod map app]. cbv zeta.
  assert (X : exists d' template cmd, job_for (serialize_params repr) os_file file host partitions d T P = Ok (d', template) /\ format_params template d' = Ok cmd /\ accept isfile cmd = None).
  { destruct Hh as [(Hh & Hpv & Hc)|Hh].
    - destruct (nlogn_command fval inv_kT divide isfile os_file file repr w root sroot d D R wait script cpus cores mem P T n nb bs A N be ta cv cr J (conj O2 (proj1 (NE _ O1))) (conj F2 (proj2 (NE _ F1))) host partitions p)
        as (dj & js & d' & template & cmd & _ & _ & _ & E1 & E2 & E3); auto.
      exists d', template, cmd. split; auto. split; auto. rewrite E3. change (file ++ "/nlogn_feynman/pimc_job.sh") with (file ++ "/" ++ "nlogn_feynman/pimc_job.sh"). rewrite NF. reflexivity.
    - destruct (cc_command fval inv_kT divide isfile os_file file repr w root sroot d D R wait script cpus cores mem P T n nb bs A N be ta cv cr J (conj O2 (proj1 (NE _ O1))) (conj F2 (proj2 (NE _ F1))) host partitions p)
        as (dj & js & d' & template & cmd & _ & _ & _ & E1 & E2 & E3); auto.
      exists d', template, cmd. split; auto. split; auto. rewrite E3. change (file ++ "/compute_canada/pimc_job.sh") with (file ++ "/" ++ "compute_canada/pimc_job.sh"). rewrite NF. reflexivity. }
  destruct X as (d' & template & cmd & E1 & E2 & E3). exists cmd. cbn [submit_pairs]. rewrite E1.
  destruct (Z.to_nat njobs) as [|m] eqn:Em; [lia|]. cbn [submit_repeat]. unfold submit_job. rewrite E2. unfold scheduler. rewrite E3. reflexivity.
Qed.
Print Assumptions C98_submission_refuted.

(** ---- with the directory of the scripts and an interpreter ---- *)
(** C98: nlogn and feynman: the results of the job are in the results directory below the root of the analysis, under the name the
    analysis looks for, with the hashes of the two models there; all other results of the scratch directory have been moved too *)
Theorem C98_results_nlogn H cwd fval inv_kT divide sampler isfile interpreter python dir repr w root sroot d D R wait script cpus cores mem
    P T n nb bs A N be ta cv cr v id host partitions p :
  job_setting repr fval inv_kT divide w root sroot d D R wait script cpus cores mem P T n nb bs A N be ta cv cr ->
  sampler (job_object H repr d root D R P T n nb bs A N be ta cv cr) = Ok v ->
  path_text python /\ python <> "" -> path_text dir /\ String.prefix "/" dir = true ->
  host = "feynman" \/ host = "nlogn" -> pget d "partition" = Some p ->
  (p = VNone \/ exists s, p = VStr s /\ path_text s) -> contains (partition_of host p) partitions = true ->
  isfile (dir ++ "/nlogn_feynman/pimc_job.sh") = true -> isfile (dir ++ "/nlogn_feynman/" ++ script) = true -> interpreter python = true ->
  exists d' template cmd fs, job_for (serialize_params repr) python dir host partitions d T P = Ok (d', template) /\ format_params template d' = Ok cmd /\
    run_command H cwd fval inv_kT divide sampler isfile interpreter w cmd id = Some (fs, Ok (result_file sroot D R P T id, job_results H v n nb bs cv cr)) /\
    fs (result_file root D R P T id) = Some (job_results H v n nb bs cv cr) /\
    (forall x, visible x -> x <> result_name P T id -> fs (rho_dir root D R ++ "results/" ++ x) =
       match results w (rho_dir sroot D R ++ "results/" ++ x) with Some y => Some y | None => results w (rho_dir root D R ++ "results/" ++ x) end) /\
    (sroot <> root -> forall x, visible x -> fs (rho_dir sroot D R ++ "results/" ++ x) = None) /\
    (forall q, (forall x, visible x -> q <> rho_dir sroot D R ++ "results/" ++ x /\ q <> rho_dir root D R ++ "results/" ++ x) -> fs q = results w q).
Proof.
  intros J Kv Kp Kd. apply (nlogn_results H cwd fval inv_kT divide sampler isfile interpreter python dir repr w root sroot d D R wait script cpus cores mem P T n nb bs A N be ta cv cr v id J Kv Kp Kd).
Qed.
Print Assumptions C98_results_nlogn.

(** C98: orca and graham: one file is written, below the scratch root; nothing is moved *)
Theorem C98_results_compute_canada H cwd fval inv_kT divide sampler isfile interpreter python dir repr w root sroot d D R wait script cpus cores mem
    P T n nb bs A N be ta cv cr v id host partitions p :
  job_setting repr fval inv_kT divide w root sroot d D R wait script cpus cores mem P T n nb bs A N be ta cv cr ->
  sampler (job_object H repr d root D R P T n nb bs A N be ta cv cr) = Ok v ->
  path_text python /\ python <> "" -> path_text dir /\ String.prefix "/" dir = true ->
  host = "orca" \/ host = "graham" -> pget d "partition" = Some p ->
  isfile (dir ++ "/compute_canada/pimc_job.sh") = true -> isfile (dir ++ "/compute_canada/" ++ script) = true -> interpreter "python3" = true ->
  exists d' template cmd fs, job_for (serialize_params repr) python dir host partitions d T P = Ok (d', template) /\ format_params template d' = Ok cmd /\
    run_command H cwd fval inv_kT divide sampler isfile interpreter w cmd id = Some (fs, Ok (result_file sroot D R P T id, job_results H v n nb bs cv cr)) /\
    forall q, fs q = if string_dec q (result_file sroot D R P T id) then Some (job_results H v n nb bs cv cr) else results w q.
Proof.
  intros J Kv Kp Kd. apply (cc_results H cwd fval inv_kT divide sampler isfile interpreter python dir repr w root sroot d D R wait script cpus cores mem P T n nb bs A N be ta cv cr v id J Kv Kp Kd).
Qed.
Print Assumptions C98_results_compute_canada.

(** C98: so a root with "work" in it never gets the results of a job on orca and graham *)
Theorem C98_left_behind_refuted root sroot D R P T id : scratched root sroot -> (exists a b, root = a ++ "work" ++ b) ->
  result_file sroot D R P T id <> result_file root D R P T id.
Proof.
  intros S (a & b & ->) E. unfold result_file in E. apply append_inj_r in E. unfold rho_dir in E. apply append_inj_r in E. subst sroot.
  assert (L : forall s t, scratched s t -> String.length s <= String.length t).
  { clear. induction 1; cbn in *; lia. }
  assert (G : forall s t, scratched s t -> forall a b, s = a ++ "work" ++ b -> String.length s < String.length t).
  { clear -L. induction 1 as [|s t K IH|c s t Nw K IH]; intros a b E.
    - destruct a; discriminate.
    - apply L in K. cbn. lia.
    - destruct a as [|x a]; [destruct (Nw b); exact E|]. injection E as _ E2. apply IH in E2. cbn. lia. }
  apply G with (a := a) (b := b) in S; auto. lia.
Qed.
Print Assumptions C98_left_behind_refuted.

(** C98: prepare_job_feynman (in no table of hosts): the pattern of the files to be moved begins with the job name, the file of
    results does not: it stays on the scratch disk *)
Theorem C98_feynman_refuted H cwd fval inv_kT divide sampler isfile interpreter python dir repr w root sroot d D R wait script cpus cores mem
    P T n nb bs A N be ta cv cr v id part :
  job_setting repr fval inv_kT divide w root sroot d D R wait script cpus cores mem P T n nb bs A N be ta cv cr ->
  sampler (job_object H repr d root D R P T n nb bs A N be ta cv cr) = Ok v ->
  path_text python /\ python <> "" -> path_text dir /\ String.prefix "/" dir = true ->
  pget d "number_of_beads" = Some (VInt P) -> pget d "number_of_links" = Some (VInt P) -> pget d "temperature" = Some (VFloat T) ->
  pget d "partition" = Some (VStr part) -> path_text part ->
  isfile (dir ++ "/nlogn_feynman/pimc_job.sh") = true -> isfile (dir ++ "/nlogn_feynman/" ++ script) = true -> interpreter python = true ->
  exists d' template cmd fs, prepare_job_feynman (serialize_params repr) python dir d = Ok (d', template) /\ format_params template d' = Ok cmd /\
    run_command H cwd fval inv_kT divide sampler isfile interpreter w cmd id = Some (fs, Ok (result_file sroot D R P T id, job_results H v n nb bs cv cr)) /\
    (sroot <> root -> fs (result_file root D R P T id) = results w (result_file root D R P T id) /\
                      fs (result_file sroot D R P T id) = Some (job_results H v n nb bs cv cr)).
Proof.
  intros J Kv Kp Kd. apply (feynman_results H cwd fval inv_kT divide sampler isfile interpreter python dir repr w root sroot d D R wait script cpus cores mem P T n nb bs A N be ta cv cr v id J Kv Kp Kd).
Qed.
Print Assumptions C98_feynman_refuted.

(** ---- failing jobs ---- *)
(** C98: nlogn.sh moves what is on the scratch disk also if Python fails; on compute canada nothing changes *)
Theorem C98_failed_job H cwd fval inv_kT divide sampler isfile interpreter w env id e :
  (start H cwd fval inv_kT divide sampler isfile interpreter w (match fields (getenv env "PYTHON3_PATH") with p :: _ => p | [] => "" end) (job_argv env id) = Raise e ->
   nlogn_sh H cwd fval inv_kT divide sampler isfile interpreter w env id = (mv_all (results w) (getenv env "COPY_FROM") (getenv env "COPY_TO"), Raise e)) /\
  (start H cwd fval inv_kT divide sampler isfile interpreter w "python3" (job_argv env id) = Raise e ->
   cc_sh H cwd fval inv_kT divide sampler isfile interpreter w env id = (results w, Raise e)).
Proof. unfold nlogn_sh, cc_sh. split; intros E; cbv zeta; rewrite E; reflexivity. Qed.
(** C98: the three arguments of the script *)
Theorem C98_arguments H cwd fval inv_kT divide sampler w argv : length argv <> 4 -> run_script H cwd fval inv_kT divide sampler w argv = Raise AssertionError.
Proof. intros K. unfold run_script. apply Nat.eqb_neq in K. rewrite K. reflexivity. Qed.
(** C98: the job number is read only when the results are saved: a text that is no number costs the whole computation *)
Theorem C98_job_number H cwd fval repr inv_kT divide sampler w root sroot d D R wait script cpus cores mem P T n nb bs A N be ta cv cr v dj js host name prog id e :
  job_setting repr fval inv_kT divide w root sroot d D R wait script cpus cores mem P T n nb bs A N be ta cv cr ->
  plain_dict dj -> job_dict d dj host name P T -> serialize_params repr dj = Ok js ->
  sampler (job_object H repr d root D R P T n nb bs A N be ta cv cr) = Ok v -> py_int_str id = Raise e ->
  run_script H cwd fval inv_kT divide sampler w [prog; js; rho_dir sroot D R; id] = Raise e.
Proof.
  intros J Kp Kd S Kv E. pose proof (object_ok H cwd fval inv_kT divide repr w root sroot d D R wait script cpus cores mem P T n nb bs A N be ta cv cr J dj js host name Kp Kd S) as O.
  destruct J as [[J1 J1'] J2 J3 J4 [J5 J5'] J6 J7 J8 J9 J10 J11 J12 J13 [J14 J14'] [J15 J15'] [J16 J16'] J17 J18 (J19 & J20 & J21)].
  assert (NS : normal_root sroot) by (eapply scratched_normal; eauto).
  unfold run_script. cbn [length Nat.eqb passert bind]. unfold item. cbn [nth_error bind]. rewrite O. cbn [bind]. rewrite Kv. cbn [bind].
  rewrite up_two by auto. unfold job_object. cbn [Json_Model.id_data Json_Model.id_rho json_int bind]. rewrite J16'. cbn [passert bind].
  cbn [Json_Model.samples Json_Model.block_size Json_Model.blocks Json_Model.beads Json_Model.temperature Json_Model.hash_vib Json_Model.hash_rho json_nat json_int json_number].
  assert (Z1 : forall m, (Z.of_nat m <? 0)%Z = false) by (intros; apply Z.ltb_ge; lia). rewrite !Z1. cbn [bind]. rewrite !Nat2Z.id, J5', E. cbv zeta.
  destruct (compute_values true v bs nb n (path_rho_results (build_fs cwd sroot D R)) P T None (H cv) (H cr) J19 J20 J21) as (r' & E').
  rewrite E'. reflexivity.
Qed.
Print Assumptions C98_job_number.

(** ---- the other entries ---- *)
(** C98: simple_wrapper and plus_minus_wrapper never save anything: the hashes are missing after the computation *)
Theorem C98_wrappers pm cwd root_is_dir v id_data id_rho : exists e,
  wrapper pm cwd root_is_dir v id_data id_rho = Raise e /\ (root_is_dir = true -> (forall f, v = Ok f -> e = AssertionError) /\ (forall x, v = Raise x -> e = x)).
Proof.
  unfold wrapper. destruct root_is_dir; cbn [passert bind]; [|eexists; split; [reflexivity|discriminate]].
  destruct v as [f|x]; cbn [bind]; [|eexists; split; [reflexivity|]; intros _; split; intros; congruence].
  exists AssertionError. split; [|intros _; split; congruence].
  unfold compute, block_compute. change (100 / 100) with 1.
  destruct (Results_Proofs.blocks_ok nat unit (fun i => i) (fun _ => tt)
      (fun x => fst (fst (fst (f (snd x))))) (fun x => snd (fst (fst (f (snd x))))) (fun x => snd (fst (f (snd x)))) (fun x => snd (f (snd x)))
      pm 100 1 0 0 (new_result pm 100 None None)) as (r' & E & S1 & S2 & S3 & C).
  { cbn. lia. }
  { unfold computed, new_result, initialize_arrays. cbn [Nat.mul Nat.add]. destruct pm; repeat split; reflexivity. }
  cbn [Nat.mul] in E. rewrite E. cbn [bind Nat.eqb]. unfold save_results. rewrite S1, S2, S3. cbn. destruct pm; reflexivity.
Qed.
Print Assumptions C98_wrappers.
(** C98: from_json_file gives an object for no file *)
Theorem C98_from_json_file w path : (forall b, from_json_file w path <> Ok b) /\ (from_json_file w path = Raise OSError <-> texts w path = None).
Proof. unfold from_json_file. destruct (texts w path); split; [intros b|split|intros b|split]; discriminate || reflexivity. Qed.
(** C98: a negative number of samples is refused *)
Theorem C98_negative H cwd fval inv_kT divide sampler w prog js scratch id b v D R z :
  from_json_string_pm H cwd inv_kT divide w js = Ok b -> sampler b = Ok v -> Json_Model.id_data b = JInt D -> Json_Model.id_rho b = JInt R ->
  isdir w (normpath (join scratch "../..")) = true -> Json_Model.samples b = JInt z -> (z < 0)%Z ->
  run_script H cwd fval inv_kT divide sampler w [prog; js; scratch; id] = Raise ValueError.
Proof.
  intros O Kv ED ER KD ES Z. unfold run_script. cbn [length Nat.eqb passert bind]. unfold item. cbn [nth_error bind]. rewrite O. cbn [bind]. rewrite Kv. cbn [bind].
  rewrite ED, ER. cbn [json_int bind]. rewrite KD. cbn [passert bind]. rewrite ES. cbn [json_nat]. apply Z.ltb_lt in Z. rewrite Z. reflexivity.
Qed.
Print Assumptions C98_negative.

(** ---- examples ---- *)
Definition ex_repr (q : Q) : string := if Qeq_bool q (300 # 1) then "300.0" else "0.5".
Definition ex_d0 : params :=
  submission_init default_params "nlogn"
    (Some [("id_data", VInt 11); ("number_of_samples", VInt 20); ("number_of_states", VInt 2); ("number_of_modes", VInt 3); ("temperature_list", VFloats [300 # 1]%Q);
           ("bead_list", VInts [12]%Z); ("block_size", VInt 5)])
    (build_fs "/" "/work/x" 11 0).
Definition ex_d : params := fst (setup_blocks_and_jobs ex_d0).
Definition ex_w : world := {|
  Job_Model.isdir := fun p => String.eqb p "/work/x" || String.eqb p "/scratch/x";
  texts := fun p => if String.eqb p "/work/x/data_set_11/parameters/coupled_model.json" then Some "V"
                    else if String.eqb p "/work/x/data_set_11/rho_0/parameters/sampling_model.json" then Some "R" else None;
  results := fun _ => None |}.
Definition ex_inv (t : json) : res json := Ok t.
Definition ex_div (a b : json) : res json := Ok (JInt 7).
Definition ex_v (i : nat) : fl * fl * fl * fl := (Num (inject_Z (Z.of_nat i)), Num 1, Num 2, Num 3)%Q.

Example C98_setting_example :
  job_setting ex_repr (fun _ => 300 # 1)%Q ex_inv ex_div ex_w "/work/x" "/scratch/x" ex_d 11 0 "" "pimc.py" 4 4 20 12 (300 # 1)%Q 20 4 5 2 3 (JFloat "300.0") (JInt 7) "V" "R".
Proof.
  split; try reflexivity; try (split; [|reflexivity]; reflexivity).
  - split; [|apply path_lit; reflexivity]. exists ["work"; "x"]. split; [discriminate|]. split; [|reflexivity].
    repeat constructor; try discriminate; apply lacks_lit; reflexivity.
  - apply scratched_slash. apply (scr_work "/x" "/x"). apply scratched_lacks, lacks_lit. reflexivity.
  - apply path_lit. reflexivity.
  - auto.
  - split; [|reflexivity]. intros q. unfold ex_repr. right. right. right. destruct (Qeq_bool q (300 # 1)).
    + exists "", "300", ".0", "". split; [reflexivity|]. split; [auto|]. split; [|split; [|split; [left; reflexivity|left; discriminate]]].
      * right. exists "3"%char, "00". split; [reflexivity|]. split; [cbn; lia|]. intros c [<-|[<-|[]]]; cbn; lia.
      * right. exists "0". split; [reflexivity|]. split; [discriminate|]. intros c [<-|[]]; cbn; lia.
    + exists "", "0", ".5", "". split; [reflexivity|]. split; [auto|]. split; [left; reflexivity|]. split; [|split; [left; reflexivity|left; discriminate]].
      right. exists "5". split; [reflexivity|]. split; [discriminate|]. intros c [<-|[]]; cbn; lia.
  - let l := eval vm_compute in ex_d in change ex_d with l. split.
    + cbn. repeat (constructor; [cbn; intuition discriminate|]). constructor.
    + intros k v X. cbn in X. repeat (destruct X as [X|X]; [injection X as <- <-; split; [apply plain_lit; reflexivity|]; cbn; try exact I; apply plain_lit; reflexivity|]). destruct X.
  - constructor; vm_compute; reflexivity.
  - cbn. lia.
Qed.
Example C98_run_example :
  let run := fun host =>
    do x <- job_for (serialize_params ex_repr) "/usr/bin/python3" "/lib/server" host "serial highmem" ex_d (300 # 1)%Q 12;
    do cmd <- format_params (snd x) (fst x);
    Ok (run_command (fun s => "h" ++ s) "/" (fun _ => 300 # 1)%Q ex_inv ex_div (fun _ => Ok ex_v) (fun p => String.prefix "/lib/server/" p) (fun _ => true) ex_w cmd 77) in
  match run "nlogn", run "graham" with
  | Ok (Some (fs, Ok (p, z))), Ok (Some (fs', _)) =>
      p = "/scratch/x/data_set_11/rho_0/results/P12_T300.00_J77_data_points.npz" /\
      fs "/work/x/data_set_11/rho_0/results/P12_T300.00_J77_data_points.npz" = Some z /\ fs p = None /\
      z_hash_vib z = Some "hV" /\ z_samples z = Some 20 /\ z_gm z = Some (repeat (Num 3) 20) /\
      fs' "/work/x/data_set_11/rho_0/results/P12_T300.00_J77_data_points.npz" = None /\ fs' p = Some z
  | _, _ => False
  end.
Proof. vm_compute. repeat split. Qed.
Example C98_refused_example :
  submit_jobs (serialize_params ex_repr) (get_path_to_python_executable "/" "/usr/lib/python3.6/os.py") (get_path_of_job_boss_directory "/" "/lib/server/job_boss.py")
    "nlogn" "serial highmem" (scheduler (fun p => String.eqb p "/lib/server/job_boss.py") (fun _ => 77%Z)) ex_d0 =
  (ex_d, [match snd (fst (submit_jobs (serialize_params ex_repr) "/usr/lib/python3.6/os.py" "/lib/server/job_boss.py" "nlogn" "serial highmem" (fun _ _ => None) ex_d0)) with c :: _ => c | [] => "" end], Raise OtherException).
Proof. vm_compute. reflexivity. Qed.
(** a dictionary with a negative number of samples *)
Example C98_negative_example :
  match job_for (serialize_params ex_repr) "/usr/bin/python3" "/lib/server" "nlogn" "serial highmem" (dset String.eqb ex_d "number_of_samples" (VInt (-20))) (300 # 1)%Q 12 with
  | Ok x =>
      match format_params (snd x) (fst x) with
      | Ok cmd =>
          match run_command (fun s => "h" ++ s) "/" (fun _ => 300 # 1)%Q ex_inv ex_div (fun _ => Ok ex_v) (fun p => String.prefix "/lib/server/" p) (fun _ => true) ex_w cmd 77 with
          | Some (_, r) => r = Raise ValueError
          | None => False
          end
      | Raise _ => False
      end
  | Raise _ => False
  end.
Proof. vm_compute. reflexivity. Qed.
Print Assumptions C98_from_json_file.
