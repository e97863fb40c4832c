From Verif Require Import Common Common_Proofs PyStr_Model PyStr_Proofs FileName_Model FileName_Proofs FileStruct_Model FileStruct_Proofs JobBoss_Model JobBoss_Proofs.
Local Open Scope nat_scope.
Local Open Scope string_scope.

(** ---- templates as lists of pieces ---- *)
Inductive piece := Lit (s : string) | Fld (field name spec : string).
Definition flat (p : piece) : string := match p with Lit s => s | Fld f _ _ => "{" ++ f ++ "}" end.
Fixpoint flats (ps : list piece) : string := match ps with [] => "" | p :: ps => flat p ++ flats ps end.
Definition piece_ok (p : piece) : Prop :=
  match p with
  | Lit s => no_brace s = true
  | Fld f n sp => no_brace f = true /\ (split ":" f = [n; sp] \/ (split ":" f = [n] /\ sp = ""))
  end.
Fixpoint expand (ps : list piece) (d : params) : res string :=
  match ps with
  | [] => Ok ""
  | Lit s :: ps => do r <- expand ps d; Ok (s ++ r)
  | Fld _ n sp :: ps => do v <- pitem d n; do t <- render v sp; do r <- expand ps d; Ok (t ++ r)
  end.

Lemma format_pieces ps d : Forall piece_ok ps -> format_params (flats ps) d = expand ps d.
Proof.
  unfold format_params. induction 1 as [|p ps Hp H IH]; auto. destruct p as [s|f n sp]; cbn [flats flat expand].
  - rewrite format_go_literal by auto. rewrite IH. auto.
  - rewrite !append_assoc. destruct Hp as [Hf Hs]. rewrite format_go_field by auto. rewrite IH.
    unfold lookup_param. destruct Hs as [-> | [-> ->]]; destruct (pitem d n); auto.
Qed.

(** what a job for (T, P) is to be submitted with; [js] is the serialised
    parameter dictionary *)
Definition job_name_of (D R P : Z) (T : Q) : string := "D" ++ dec D ++ "_R" ++ dec R ++ "_P" ++ dec P ++ "_T" ++ fmt2 T.
Definition export_of (python dir sub rho scratch from script js : string) : string :=
  " --export=ROOT_DIR=" ++ rho ++ ",SCRATCH_DIR=" ++ scratch ++ ",COPY_FROM=""" ++ scratch ++ "results/" ++ from ++ """,COPY_TO=""" ++ rho
   ++ "results/"",PYTHON3_PATH=" ++ python ++ ",SAMPLING_SCRIPT=" ++ dir ++ "/" ++ sub ++ "/" ++ script ++ ",EXECUTION_PARAMETERS='" ++ js ++ "'".
Definition sbatch_of (partition account dir sub name rho : string) (cpus cores mem : Z) (wait export : string) : string :=
  "sbatch -m n --ntasks=1 --job-name=" ++ name ++ partition ++ " -D " ++ rho ++ "execution_output/ --output=" ++ rho ++ "execution_output/" ++ name
   ++ ".o%A --cpus-per-task=" ++ dec cpus ++ " --cores-per-socket=" ++ dec cores ++ " --mem=" ++ dec mem ++ "G" ++ account ++ " " ++ wait ++ " "
   ++ export ++ " " ++ dir ++ "/" ++ sub ++ "/pimc_job.sh".

Definition p_name : list piece :=
  [Lit "D"; Fld "id_data:d" "id_data" "d"; Lit "_R"; Fld "id_rho:d" "id_rho" "d"; Lit "_P"; Fld "number_of_beads:d" "number_of_beads" "d"; Lit "_T"; Fld "temperature:.2f" "temperature" ".2f"].
Definition p_export (python dir sub : string) : list piece :=
  [Lit " --export=ROOT_DIR="; Fld "path_rho:s" "path_rho" "s"; Lit ",SCRATCH_DIR="; Fld "path_scratch:s" "path_scratch" "s";
   Lit ",COPY_FROM="; Fld "copy_from:s" "copy_from" "s"; Lit ",COPY_TO="; Fld "copy_to:s" "copy_to" "s";
   Lit ",PYTHON3_PATH="; Lit python; Lit ",SAMPLING_SCRIPT="; Lit dir; Lit "/"; Lit sub; Lit "/"; Fld "script_name" "script_name" "";
   Lit ",EXECUTION_PARAMETERS='"; Fld "execution_parameters:s" "execution_parameters" "s"; Lit "'"].
Definition p_sbatch (part : list piece) (account dir sub : string) : list piece :=
  (Lit "sbatch -m n --ntasks=1 --job-name=" :: Fld "job_name:s" "job_name" "s" :: part) ++
  [Lit " -D "; Fld "path_rho:" "path_rho" ""; Lit "execution_output/ --output="; Fld "path_rho:" "path_rho" "";
   Lit "execution_output/"; Fld "job_name:s" "job_name" "s"; Lit ".o%A --cpus-per-task="; Fld "cpus_per_task:d" "cpus_per_task" "d";
   Lit " --cores-per-socket="; Fld "cores_per_socket:d" "cores_per_socket" "d"; Lit " --mem="; Fld "memory_per_node:" "memory_per_node" "";
   Lit "G"; Lit account; Lit " "; Fld "wait_param:s" "wait_param" "s"; Lit " "; Fld "export_options:s" "export_options" "s";
   Lit " "; Lit dir; Lit ("/" ++ sub ++ "/pimc_job.sh")].


Ltac pieces := repeat (apply Forall_cons; [first [reflexivity | assumption | split; [reflexivity|first [left; reflexivity | right; split; reflexivity]]]|]); try apply Forall_nil.

Lemma name_expand d : format_params template_name d = expand p_name d.
Proof. change template_name with (flats p_name). apply format_pieces. unfold p_name. pieces. Qed.

Lemma export_expand python dir sub d : no_brace python = true -> no_brace dir = true -> no_brace sub = true ->
  format_params (export_template python dir sub) d = expand (p_export python dir sub) d.
Proof.
  intros H1 H2 H3. transitivity (format_params (flats (p_export python dir sub)) d).
  - f_equal.
  - apply format_pieces. unfold p_export. pieces.
Qed.

Lemma nlogn_expand dir d : no_brace dir = true ->
  format_params (sbatch_nlogn dir) d = expand (p_sbatch [Lit " --partition="; Fld "partition:s" "partition" "s"] "" dir "nlogn_feynman") d.
Proof.
  intros H. transitivity (format_params (flats (p_sbatch [Lit " --partition="; Fld "partition:s" "partition" "s"] "" dir "nlogn_feynman")) d).
  - f_equal; unfold sbatch_nlogn, p_sbatch; cbn [flats flat app]; rewrite append_nil_r; reflexivity.
  - apply format_pieces. unfold p_sbatch. cbn [app]. pieces.
Qed.

Lemma cc_expand dir d : no_brace dir = true ->
  format_params (sbatch_compute_canada dir) d = expand (p_sbatch [] " --account=rrg-pnroy" dir "compute_canada") d.
Proof.
  intros H. transitivity (format_params (flats (p_sbatch [] " --account=rrg-pnroy" dir "compute_canada")) d).
  - f_equal; unfold sbatch_compute_canada, p_sbatch; cbn [flats flat app]; rewrite append_nil_r; reflexivity.
  - apply format_pieces. unfold p_sbatch. cbn [app]. pieces.
Qed.

Ltac norm_str := cbn [String.append]; repeat (rewrite append_assoc; cbn [String.append]); rewrite ?append_nil_r.

Definition changed_keys : list string :=
  ["number_of_beads"; "number_of_links"; "temperature"; "hostname"; "partition"; "job_name"; "copy_from"; "copy_to"].

(** the entries the command templates need *)
Record ready (d : params) (D R : Z) (scratch rho : string) (cpus cores mem : Z) (wait script : string) : Prop := {
  r_D : pget d "id_data" = Some (VInt D);
  r_R : pget d "id_rho" = Some (VInt R);
  r_scratch : pget d "path_scratch" = Some (VStr scratch);
  r_rho : pget d "path_rho" = Some (VStr rho);
  r_cpus : pget d "cpus_per_task" = Some (VInt cpus);
  r_cores : pget d "cores_per_socket" = Some (VInt cores);
  r_mem : pget d "memory_per_node" = Some (VInt mem);
  r_wait : pget d "wait_param" = Some (VStr wait);
  r_script : pget d "script_name" = Some (VStr script) }.

(** the dictionary handed to the job *)
Definition job_dict (d dj : params) (host name : string) (P : Z) (T : Q) : Prop :=
  pget dj "number_of_beads" = Some (VInt P) /\ pget dj "number_of_links" = Some (VInt P) /\ pget dj "temperature" = Some (VFloat T) /\
  pget dj "hostname" = Some (VStr host) /\ pget dj "job_name" = Some (VStr name) /\
  (forall k, ~ In k changed_keys -> pget dj k = pget d k).

Section Jobs.
  Variables (serialize : params -> res string) (python dir : string).
  Hypothesis Hser : forall d, exists js, serialize d = Ok js.
  Hypothesis Hpy : no_brace python = true.
  Hypothesis Hdir : no_brace dir = true.
  Variables (d : params) (D R : Z) (scratch rho : string) (cpus cores mem : Z) (wait script : string).
  Hypothesis Hd : ready d D R scratch rho cpus cores mem wait script.

  Ltac look := rewrite ?pget_pset; cbn [String.eqb Ascii.eqb Bool.eqb].

  Lemma prepare_ok suffix sub sbatch d0 P T :
    no_brace sub = true ->
    ready d0 D R scratch rho cpus cores mem wait script ->
    pget d0 "number_of_beads" = Some (VInt P) -> pget d0 "temperature" = Some (VFloat T) ->
    let name := job_name_of D R P T in
    let dj := pset (pset (pset d0 "job_name" (VStr name)) "copy_from" (VStr ("""" ++ scratch ++ "results/" ++ suffix name ++ """")))
                 "copy_to" (VStr ("""" ++ rho ++ "results/" ++ """")) in
    exists js d', serialize dj = Ok js /\ prepare_job serialize python dir suffix sub sbatch d0 = Ok (d', sbatch) /\
      pget d' "job_name" = Some (VStr name) /\
      pget d' "export_options" = Some (VStr (export_of python dir sub rho scratch (suffix name) script js)) /\
      forall k, ~ In k ["job_name"; "copy_from"; "copy_to"; "execution_parameters"; "export_options"] -> pget d' k = pget d0 k.
  Proof.
    intros Hsub Hr HP HT name dj. destruct (Hser dj) as [js Hjs]. exists js.
    unfold prepare_job. rewrite name_expand. unfold p_name. cbn [expand]. unfold pitem.
    destruct Hr. rewrite r_D0, r_R0, HP, HT. cbn [bind render String.eqb Ascii.eqb Bool.eqb].
    assert (("D" ++ dec D ++ "_R" ++ dec R ++ "_P" ++ dec P ++ "_T" ++ fmt2 T ++ "") = name) as HN.
    { rewrite append_nil_r. reflexivity. }
    rewrite HN. unfold text_of, pitem. look. rewrite r_scratch0, r_rho0. cbn [bind render String.eqb Ascii.eqb Bool.eqb].
    fold dj. rewrite Hjs. cbn [bind]. rewrite export_expand by auto.
    unfold p_export. cbn [expand]. unfold pitem. look. unfold dj. look. rewrite r_scratch0, r_rho0, r_script0.
    cbn [bind render String.eqb Ascii.eqb Bool.eqb].
    eexists. split; [reflexivity|]. split; [reflexivity|]. look.
    split; [auto|]. split.
    - do 2 f_equal. unfold export_of. norm_str. reflexivity.
    - intros k Hk. cbn [In] in Hk. rewrite !pget_pset.
      destruct (String.eqb_spec k "export_options"); [subst; tauto|]. destruct (String.eqb_spec k "execution_parameters"); [subst; tauto|].
      destruct (String.eqb_spec k "copy_to"); [subst; tauto|]. destruct (String.eqb_spec k "copy_from"); [subst; tauto|].
      destruct (String.eqb_spec k "job_name"); [subst; tauto|]. auto.
  Qed.

  (** the partition a job is sent to *)
  Definition partition_of (host : string) (p : pv) : string :=
    match p with VStr s => s | _ => if String.eqb host "feynman" then "highmem" else "serial" end.

  Theorem job_nlogn host partitions P T p :
    host = "feynman" \/ host = "nlogn" ->
    pget d "partition" = Some p -> (p = VNone \/ exists s, p = VStr s) ->
    contains (partition_of host p) partitions = true ->
    let name := job_name_of D R P T in
    exists dj js d' template, serialize dj = Ok js /\ job_dict d dj "nlogn" name P T /\
      pget dj "partition" = Some (VStr (partition_of host p)) /\
      job_for serialize python dir host partitions d T P = Ok (d', template) /\
      format_params template d' =
        Ok (sbatch_of (" --partition=" ++ partition_of host p) "" dir "nlogn_feynman" name rho cpus cores mem wait
              (export_of python dir "nlogn_feynman" rho scratch "" script js)).
  Proof.
    intros Hh Hp Hpv Hc name. unfold job_for.
    set (d1 := pset (pset (pset (pset d "number_of_beads" (VInt P)) "number_of_links" (VInt P)) "temperature" (VFloat T)) "hostname" (VStr host)).
    assert (pget d1 "partition" = Some p) as Hp1 by (unfold d1; look; auto).
    unfold pitem at 1. rewrite Hp1. cbn [bind].
    set (d2 := if (host =? "feynman") || (host =? "nlogn") then _ else d1).
    assert (pget d2 "partition" = Some (VStr (partition_of host p)) /\ forall k, k <> "partition" -> pget d2 k = pget d1 k) as [Hp2 Hk2].
    { unfold d2. destruct Hh; subst host; cbn [String.eqb Ascii.eqb Bool.eqb orb];
        (destruct Hpv as [-> | [s ->]]; [|split; auto]); split; look; auto;
        intros k Hk; rewrite pget_pset; destruct (String.eqb_spec k "partition"); tauto. }
    assert ((host =? "orca") || (host =? "graham") = false) as -> by (destruct Hh; subst; reflexivity).
    unfold pitem. rewrite Hp2. cbn [bind]. unfold assert_partition_exists. rewrite Hc. cbn [passert bind].
    unfold construct_job_command, pitem. rewrite Hk2 by discriminate.
    assert (pget d1 "hostname" = Some (VStr host)) as -> by (unfold d1; look; auto). cbn [bind].
    set (d3 := pset d2 "hostname" (VStr "nlogn")).
    assert (ready d3 D R scratch rho cpus cores mem wait script) as Hr.
    { destruct Hd. split; unfold d3; look; rewrite Hk2 by discriminate; unfold d1; look; auto. }
    destruct (prepare_ok (fun _ => "") "nlogn_feynman" (sbatch_nlogn dir) d3 P T) as (js & d' & Hj & He & Hn & Hx & Hk); auto.
    { unfold d3. look. rewrite Hk2 by discriminate. unfold d1. look. auto. }
    { unfold d3. look. rewrite Hk2 by discriminate. unfold d1. look. auto. }
    cbv zeta in Hj. fold name in Hj, Hn, Hx.
    eexists _, js, d', (sbatch_nlogn dir). split; [exact Hj|].
    split; [|split; [|split]].
    - unfold job_dict. look. unfold d3. look. rewrite !Hk2 by discriminate. unfold d1. look.
      repeat split; auto. intros k Hkk. unfold changed_keys in Hkk. cbn [In] in Hkk. rewrite !pget_pset.
      destruct (String.eqb_spec k "copy_to"); [subst; tauto|]. destruct (String.eqb_spec k "copy_from"); [subst; tauto|].
      destruct (String.eqb_spec k "job_name"); [subst; tauto|]. destruct (String.eqb_spec k "hostname"); [subst; tauto|].
      rewrite Hk2 by (intros ->; tauto). unfold d1. rewrite !pget_pset.
      destruct (String.eqb_spec k "hostname"); [subst; tauto|]. destruct (String.eqb_spec k "temperature"); [subst; tauto|].
      destruct (String.eqb_spec k "number_of_links"); [subst; tauto|]. destruct (String.eqb_spec k "number_of_beads"); [subst; tauto|]. auto.
    - look. unfold d3. look. auto.
    - destruct Hh; subst host; exact He.
    - rewrite nlogn_expand by auto. unfold p_sbatch. cbn [app expand]. unfold pitem. rewrite Hn, Hx. destruct Hr.
      rewrite !Hk by (cbn [In]; intuition discriminate). rewrite r_rho0, r_cpus0, r_cores0, r_mem0, r_wait0.
      assert (pget d3 "partition" = Some (VStr (partition_of host p))) as -> by (unfold d3; look; auto).
      cbn [bind render String.eqb Ascii.eqb Bool.eqb]. unfold sbatch_of. norm_str. reflexivity.
  Qed.

  Theorem job_cc host partitions P T p :
    host = "orca" \/ host = "graham" ->
    pget d "partition" = Some p ->
    let name := job_name_of D R P T in
    exists dj js d' template, serialize dj = Ok js /\ job_dict d dj host name P T /\
      pget dj "partition" = Some VNone /\
      job_for serialize python dir host partitions d T P = Ok (d', template) /\
      format_params template d' =
        Ok (sbatch_of "" " --account=rrg-pnroy" dir "compute_canada" name rho cpus cores mem wait
              (export_of python dir "compute_canada" rho scratch (name ++ "_J") script js)).
  Proof.
    intros Hh Hp name. unfold job_for.
    set (d1 := pset (pset (pset (pset d "number_of_beads" (VInt P)) "number_of_links" (VInt P)) "temperature" (VFloat T)) "hostname" (VStr host)).
    assert (pget d1 "partition" = Some p) as Hp1 by (unfold d1; look; auto).
    unfold pitem at 1. rewrite Hp1. cbn [bind].
    assert ((host =? "feynman") || (host =? "nlogn") = false) as -> by (destruct Hh; subst; reflexivity).
    assert ((host =? "orca") || (host =? "graham") = true) as -> by (destruct Hh; subst; reflexivity).
    set (d2 := pset d1 "partition" VNone).
    assert (pget d2 "partition" = Some VNone /\ forall k, k <> "partition" -> pget d2 k = pget d1 k) as [Hp2 Hk2].
    { unfold d2. split; [look; auto|]. intros k Hk; rewrite pget_pset; destruct (String.eqb_spec k "partition"); tauto. }
    unfold pitem. rewrite Hp2. cbn [bind].
    unfold construct_job_command, pitem. rewrite Hk2 by discriminate.
    assert (pget d1 "hostname" = Some (VStr host)) as -> by (unfold d1; look; auto). cbn [bind].
    set (d3 := pset d2 "hostname" (VStr host)).
    assert (ready d3 D R scratch rho cpus cores mem wait script) as Hr.
    { destruct Hd. split; unfold d3; look; rewrite Hk2 by discriminate; unfold d1; look; auto. }
    destruct (prepare_ok (fun name => name ++ "_J") "compute_canada" (sbatch_compute_canada dir) d3 P T) as (js & d' & Hj & He & Hn & Hx & Hk); auto.
    { unfold d3. look. rewrite Hk2 by discriminate. unfold d1. look. auto. }
    { unfold d3. look. rewrite Hk2 by discriminate. unfold d1. look. auto. }
    cbv zeta in Hj. fold name in Hj, Hn, Hx.
    eexists _, js, d', (sbatch_compute_canada dir). split; [exact Hj|].
    split; [|split; [|split]].
    - unfold job_dict. look. unfold d3. look. rewrite !Hk2 by discriminate. unfold d1. look.
      repeat split; auto. intros k Hkk. unfold changed_keys in Hkk. cbn [In] in Hkk. rewrite !pget_pset.
      destruct (String.eqb_spec k "copy_to"); [subst; tauto|]. destruct (String.eqb_spec k "copy_from"); [subst; tauto|].
      destruct (String.eqb_spec k "job_name"); [subst; tauto|]. destruct (String.eqb_spec k "hostname"); [subst; tauto|].
      rewrite Hk2 by (intros ->; tauto). unfold d1. rewrite !pget_pset.
      destruct (String.eqb_spec k "hostname"); [subst; tauto|]. destruct (String.eqb_spec k "temperature"); [subst; tauto|].
      destruct (String.eqb_spec k "number_of_links"); [subst; tauto|]. destruct (String.eqb_spec k "number_of_beads"); [subst; tauto|]. auto.
    - look. unfold d3. look. auto.
    - destruct Hh; subst host; exact He.
    - rewrite cc_expand by auto. unfold p_sbatch. cbn [app expand]. unfold pitem. rewrite Hn, Hx. destruct Hr.
      rewrite !Hk by (cbn [In]; intuition discriminate). rewrite r_rho0, r_cpus0, r_cores0, r_mem0, r_wait0.
      cbn [bind render String.eqb Ascii.eqb Bool.eqb]. unfold sbatch_of. norm_str. reflexivity.
  Qed.
End Jobs.

(** ---- the loops ---- *)
Section Loop.
  Variables (serialize : params -> res string) (python dir host partitions : string).
  Variable sbatch : nat -> string -> option string.
  Local Open Scope list_scope.

  Lemma repeat_log d template cmd n log log' r :
    format_params template d = Ok cmd ->
    submit_repeat sbatch log template d n = (log', r) ->
    exists m, m <= n /\ log' = log ++ repeat cmd m /\ (r = Ok tt -> m = n).
  Proof.
    intros Hf. revert log. induction n as [|n IH]; intros log H; cbn [submit_repeat] in H.
    - inv H. exists 0. rewrite app_nil_r. auto.
    - unfold submit_job in H. rewrite Hf in H.
      destruct (sbatch (List.length log) cmd) as [out|].
      + destruct (extract_id_job out) as [z|e].
        * apply IH in H. destruct H as (m & Hm & -> & Hr). exists (S m). cbn [repeat]. rewrite <- app_assoc.
          split; [lia|]. split; [auto|]. intros HH. apply Hr in HH. lia.
        * inv H. exists 1. split; [lia|]. split; [auto|discriminate].
      + inv H. exists 1. split; [lia|]. split; [auto|discriminate].
  Qed.

  Definition accepts_all : Prop := forall i cmd, exists out z, sbatch i cmd = Some out /\ extract_id_job out = Ok z.

  Lemma repeat_accept d template cmd n log :
    accepts_all -> format_params template d = Ok cmd ->
    submit_repeat sbatch log template d n = (log ++ repeat cmd n, Ok tt).
  Proof.
    intros Ha Hf. revert log. induction n as [|n IH]; intros log; cbn [submit_repeat repeat].
    - rewrite app_nil_r. auto.
    - unfold submit_job. rewrite Hf. destruct (Ha (List.length log) cmd) as (out & z & -> & ->).
      rewrite IH, <- app_assoc. auto.
  Qed.

  (** [cmds T P] is the command for the pair *)
  Definition commands (d : params) (cmds : Q -> Z -> string) : Prop :=
    forall T P, exists d' template, job_for serialize python dir host partitions d T P = Ok (d', template) /\ format_params template d' = Ok (cmds T P).

  Definition expected (cmds : Q -> Z -> string) (n_jobs : nat) (pairs : list (Q * Z)) : list string :=
    flat_map (fun tp => repeat (cmds (fst tp) (snd tp)) n_jobs) pairs.

  Lemma prefix_repeat {A} (x : A) m n : m <= n -> exists rest, repeat x n = repeat x m ++ rest.
  Proof. intros H. exists (repeat x (n - m)). rewrite <- repeat_app. f_equal. lia. Qed.

  Lemma pairs_log d cmds n_jobs pairs log log' r :
    commands d cmds ->
    submit_pairs serialize python dir host partitions sbatch d n_jobs pairs log = (log', r) ->
    exists done rest, log' = log ++ done /\ expected cmds n_jobs pairs = done ++ rest /\ (r = Ok tt -> rest = []).
  Proof.
    intros Hc. revert log. induction pairs as [|[T P] pairs IH]; intros log H; cbn [submit_pairs] in H.
    - inv H. exists [], []. rewrite app_nil_r. auto.
    - destruct (Hc T P) as (d' & t & Hj & Hf). rewrite Hj in H.
      destruct (submit_repeat sbatch log t d' n_jobs) as [log1 r1] eqn:E.
      destruct (repeat_log _ _ _ _ _ _ _ Hf E) as (m & Hm & -> & Hr). unfold expected. cbn [flat_map fst snd].
      destruct r1 as [[]|e].
      + rewrite (Hr eq_refl) in H. apply IH in H. destruct H as (done & rest & -> & He & Hx).
        exists (repeat (cmds T P) n_jobs ++ done), rest. unfold expected in He. rewrite He, !app_assoc. auto.
      + inv H. destruct (prefix_repeat (cmds T P) m n_jobs Hm) as [rest Hrest]. rewrite Hrest.
        exists (repeat (cmds T P) m). eexists. rewrite <- app_assoc. split; [auto|]. split; [reflexivity|discriminate].
  Qed.

  Lemma pairs_accept d cmds n_jobs pairs log :
    accepts_all -> commands d cmds ->
    submit_pairs serialize python dir host partitions sbatch d n_jobs pairs log = (log ++ expected cmds n_jobs pairs, Ok tt).
  Proof.
    intros Ha Hc. revert log. induction pairs as [|[T P] pairs IH]; intros log; cbn [submit_pairs].
    - cbn. rewrite app_nil_r. auto.
    - destruct (Hc T P) as (d' & t & Hj & Hf). rewrite Hj. rewrite (repeat_accept d' t (cmds T P)) by auto. rewrite IH.
      unfold expected. cbn [flat_map fst snd]. rewrite app_assoc. auto.
  Qed.

  Theorem submit_log d d' n_jobs ts ps cmds :
    setup_blocks_and_jobs d = (d', Ok n_jobs) ->
    pget d' "temperature_list" = Some (VFloats ts) -> pget d' "bead_list" = Some (VInts ps) ->
    commands d' cmds ->
    let '(d2, log, r) := submit_jobs serialize python dir host partitions sbatch d in
    let all := flat_map (fun T => flat_map (fun P => repeat (cmds T P) (Z.to_nat n_jobs)) ps) ts in
    d2 = d' /\ (exists rest, all = log ++ rest) /\ (r = Ok tt -> log = all) /\ (accepts_all -> r = Ok tt).
  Proof.
    intros Hs Ht Hp Hc.
    assert (submit_jobs serialize python dir host partitions sbatch d =
      (let r := submit_pairs serialize python dir host partitions sbatch d' (Z.to_nat n_jobs) (list_prod ts ps) [] in (d', fst r, snd r))) as ->.
    { unfold submit_jobs. rewrite Hs, Ht, Hp. destruct ts; auto. }
    cbv zeta.
    destruct (submit_pairs _ _ _ _ _ _ d' (Z.to_nat n_jobs) (list_prod ts ps) []) as [log r] eqn:E. cbn [fst snd].
    assert (expected cmds (Z.to_nat n_jobs) (list_prod ts ps) = flat_map (fun T => flat_map (fun P => repeat (cmds T P) (Z.to_nat n_jobs)) ps) ts) as HE.
    { unfold expected. clear. induction ts as [|T ts IH]; auto. cbn [list_prod flat_map]. rewrite flat_map_app, IH. f_equal.
      clear. induction ps as [|P ps IH]; auto. cbn [map flat_map fst snd]. rewrite IH. auto. }
    rewrite <- HE.
    destruct (pairs_log _ _ _ _ _ _ _ Hc E) as (done & rest & Hlog & He & Hr). cbn [app] in Hlog. subst log.
    split; auto. split; [exists rest; auto|]. split.
    - intros HH. rewrite He, (Hr HH), app_nil_r. auto.
    - intros Ha. rewrite (pairs_accept _ cmds) in E by auto. inv E. auto.
  Qed.
End Loop.

(** an invalid block size: nothing is submitted *)
Lemma submit_nothing serialize python dir host partitions sbatch d e :
  snd (setup_blocks_and_jobs d) = Raise e ->
  submit_jobs serialize python dir host partitions sbatch d = (fst (setup_blocks_and_jobs d), [], Raise e).
Proof. unfold submit_jobs. destruct (setup_blocks_and_jobs d) as [d' [n|e']]; simpl; [discriminate|]. intros H. inv H. auto. Qed.

(** an unknown host: nothing is submitted *)
Lemma submit_unknown serialize python dir host partitions sbatch d d' n ts ps p :
  ~ In host ["feynman"; "nlogn"; "graham"; "orca"] ->
  setup_blocks_and_jobs d = (d', Ok n) ->
  pget d' "temperature_list" = Some (VFloats ts) -> pget d' "bead_list" = Some (VInts ps) ->
  pget d' "partition" = Some p -> ts <> [] -> ps <> [] ->
  exists e, submit_jobs serialize python dir host partitions sbatch d = (d', [], Raise e).
Proof.
  intros Hh Hs Ht Hp Hpt Hts Hps. unfold submit_jobs. rewrite Hs, Ht, Hp.
  destruct ts as [|T ts]; [tauto|]. destruct ps as [|P ps]; [tauto|]. cbn [list_prod map app].
  assert (exists e, job_for serialize python dir host partitions d' T P = Raise e) as [e He].
  { cbn [In] in Hh. unfold job_for.
    assert ((host =? "feynman") || (host =? "nlogn") = false) as ->.
    { destruct (String.eqb_spec host "feynman"); [subst; tauto|]. destruct (String.eqb_spec host "nlogn"); [subst; tauto|]. auto. }
    assert ((host =? "orca") || (host =? "graham") = false) as ->.
    { destruct (String.eqb_spec host "orca"); [subst; tauto|]. destruct (String.eqb_spec host "graham"); [subst; tauto|]. auto. }
    unfold pitem. rewrite !pget_pset. cbn [String.eqb Ascii.eqb Bool.eqb]. rewrite Hpt. cbn [bind].
    destruct (match p with VNone => _ | _ => _ end) as [u|e]; cbn [bind]; eauto.
    unfold construct_job_command, pitem. rewrite !pget_pset. cbn [String.eqb Ascii.eqb Bool.eqb bind].
    destruct (String.eqb_spec host "feynman"); [subst; tauto|]. destruct (String.eqb_spec host "nlogn"); [subst; tauto|].
    destruct (String.eqb_spec host "graham"); [subst; tauto|]. destruct (String.eqb_spec host "orca"); [subst; tauto|]. eauto. }
  cbn [submit_pairs]. rewrite He. cbn [fst snd]. eauto.
Qed.
