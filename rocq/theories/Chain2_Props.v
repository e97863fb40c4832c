(** C110, continued: the files of the analysis after a campaign, and the answers of the scheduler. *)
From Coq Require Import QArith Permutation.
From Verif Require Import Common Common_Proofs PyStr_Model PyStr_Proofs FileName_Model FileName_Proofs Json_Model Json_Spec.
From Verif Require Import FileStruct_Model FileStruct_Proofs JobBoss_Model JobBoss_Proofs Results_Proofs Job_Model Job_Spec Job4_Proofs Job5_Proofs Results_Model.
From Verif Require Job_Props.
From Verif Require Import Chain_Model Chain_Spec Chain_Proofs Chain_Props Julia_Model Analysis_Model Analysis_Proofs Analysis_Props.
Local Open Scope nat_scope.
Local Open Scope string_scope.

Lemma analysis_name_of x : Analysis_Proofs.name_of x = Results_Proofs.name_of x.
Proof. reflexivity. Qed.

(** C110: if the analysis of the results of a campaign succeeds, there is, for every temperature and bead number of the
    campaign, a file that names them and n_jobs * n samples, with the quantities computed from those samples and the hashes *)
Theorem C110_thermo H cwd fval inv_kT divide isfile interpreter repr python dir host partitions root sroot D R cv cr w
    d ts ps n_jobs samplers ids L n :
  In host ["feynman"; "nlogn"; "orca"; "graham"] ->
  map x_job L = campaign d ts ps n_jobs samplers ids -> (forall x, In x L -> x_n x = n) ->
  Forall (ready_job H fval inv_kT divide isfile interpreter repr python dir host partitions root sroot D R cv cr w) L ->
  Forall (fun T => (0 <= Qnum T)%Z) ts -> Forall (fun P => (0 <= P)%Z) ps -> (forall i j, ids i = ids j -> i = j) ->
  NoDup (map hundredths ts) -> NoDup ps -> 0 < n_jobs ->
  (forall x i q, In x L -> i < x_nb x * x_bs x -> fst (fst (fst (x_v x i))) = Num q -> ~ (q == 0)%Q) ->
  (forall y, visible y -> results w (rho_dir root D R ++ "results/" ++ y) = None /\ results w (rho_dir sroot D R ++ "results/" ++ y) = None) ->
  let home := if String.eqb host "feynman" || String.eqb host "nlogn" then root else sroot in
  exists w', run_jobs H cwd fval inv_kT divide isfile interpreter repr python dir host partitions w (campaign d ts ps n_jobs samplers ids) = Some w' /\
    forall set_order div op f hv hr names k m fs fs', let results_dir := rho_dir home D R ++ "results/" in
      set_list set_order -> lists_results (results w') results_dir names -> m = "basic" \/ m = "alpha" ->
      path_rho_results f = results_dir -> FileStruct_Model.hash_vib f = Some hv -> FileStruct_Model.hash_rho f = Some hr ->
      t_jackknife f = results_dir ++ "P{P:d}_T{T:.2f}_X{X:d}_thermo" -> no_brace results_dir = true ->
      all_chars (fun c => negb (Ascii.eqb c "P")) results_dir = true -> contains "_T" results_dir = false -> contains "_J" results_dir = false ->
      analyse set_order div op H (results w') f names k m "local" fs fs' (Ok tt) ->
      forall T P, In T ts -> In P ps -> exists t r a out o,
        (t == hundredths T # 100)%Q /\
        load_pimc_data set_order true (results w') results_dir names P T (new_empty true 0) = Ok r /\ count_value (r_samples r) = n_jobs * n /\
        load_analytic_data div fs f t [] = (a, Ok tt) /\ op k m t r a = Ok out /\
        fs' (results_dir ++ "P" ++ dec P ++ "_T" ++ fmt2 T ++ "_X" ++ dec (Z.of_nat (n_jobs * n)) ++ "_thermo") = Some (dumps (JObj o)) /\
        dget String.eqb o "hash_vib" = Some (JStr hv) /\ dget String.eqb o "hash_rho" = Some (JStr hr) /\
        (forall key, key <> "hash_vib" -> key <> "hash_rho" -> dget String.eqb o key = dget String.eqb out key).
Proof.
  intros Hh EL EN F FT FP IJ NT NP N0 NZ EM home.
  destruct (C110_campaign H cwd fval inv_kT divide isfile interpreter repr python dir host partitions root sroot D R cv cr w
    d ts ps n_jobs samplers ids L n Hh EL EN F FT IJ NT NP N0 NZ EM) as (w' & E & K). fold home in K.
  exists w'. split; [exact E|]. intros so div op f hv hr names k m fs fs' rd SO LN Mm Pf HV HR TJ NB CP CT CJ AN T P IT IP.
  assert (TP : map (fun x => (j_T (x_job x), j_P (x_job x))) L = turns ts ps n_jobs).
  { rewrite <- (map_map x_job (fun j => (j_T j, j_P j))), EL. apply campaign_turns. }
  assert (IN : forall x, In x L -> In (j_T (x_job x)) ts /\ In (j_P (x_job x)) ps).
  { intros x I. apply (in_map (fun x => (j_T (x_job x), j_P (x_job x)))) in I. rewrite TP in I. apply in_turns in I. exact I. }
  assert (FL : Forall (fun x => (0 <= Qnum (j_T (x_job x)))%Z) L).
  { apply Forall_forall. intros x I. rewrite Forall_forall in FT. apply FT, IN, I. }
  assert (NI : NoDup (map (fun x => j_id (x_job x)) L)) by (rewrite <- (map_map x_job j_id), EL; apply campaign_ids; exact IJ).
  assert (HX : exists x, In x L /\ j_T (x_job x) = T /\ j_P (x_job x) = P).
  { assert (I : In (T, P) (turns ts ps n_jobs)).
    { unfold turns. apply in_flat_map. exists T. split; [exact IT|]. apply in_flat_map. exists P. split; [exact IP|].
      destruct n_jobs; [lia|left; reflexivity]. }
    rewrite <- TP in I. apply in_map_iff in I. destruct I as (x & X & I). injection X as <- <-. exists x. auto. }
  assert (NE : L <> []) by (destruct HX as (x & I & _); intros ->; destruct I).
  assert (NH : normal_root home).
  { destruct L as [|x0 L0]; [contradiction|]. apply Forall_inv in F. destruct F as (wait & script & cpus & cores & mem & A & N & be & ta & p & J & _).
    destruct (js_root _ _ _ _ _ _ _ _ _ _ _ _ _ _ _ _ _ _ _ _ _ _ _ _ _ _ J) as [NR _].
    pose proof (js_scratch _ _ _ _ _ _ _ _ _ _ _ _ _ _ _ _ _ _ _ _ _ _ _ _ _ _ J) as SC. unfold home. destruct (_ || _); auto. eapply Job2_Proofs.scratched_normal; eauto. }
  destruct (C110_files H cwd fval inv_kT divide isfile interpreter repr python dir host partitions root sroot D R cv cr w L Hh NE F FL NI) as (w1 & E1 & _ & _ & F1 & F2 & _).
  rewrite EL in E1. assert (W : w1 = w') by congruence. subst w1. fold home in F1, F2.
  assert (RY : ready f hv hr names (map triple L)).
  { split; auto; try (rewrite Pf; assumption). split; try (rewrite Pf; assumption).
    - apply Forall_forall. intros y I. apply in_map_iff in I. destruct I as (x & <- & I). destruct (IN x I) as [I1 I2].
      rewrite Forall_forall in FT, FP. split; [apply FP; exact I2|apply FT; exact I1].
    - intros y I. apply in_map_iff in I. destruct I as (x & <- & I). rewrite analysis_name_of, triple_name. apply LN. split; [apply result_visible|].
      unfold rd. rewrite append_assoc. specialize (F1 x I). unfold result_file in F1. unfold rname. rewrite F1. discriminate.
    - intros a b c I. apply LN in I. destruct I as [V I].
      destruct (in_dec string_dec (pimc a b c) (map rname L)) as [J|J].
      + apply in_map_iff in J. destruct J as (x & X & J). exists (triple x). split; [apply in_map; exact J|]. rewrite analysis_name_of, triple_name. auto.
      + exfalso. apply I. unfold rd. rewrite append_assoc, F2; auto.
        * destruct (EM _ V) as [-> ->]. destruct (_ || _); reflexivity.
        * intros x Ix X. apply J. rewrite X. apply in_map_iff. exists x. auto. }
  destruct (C79_written so div op H (results w') f hv hr names (map triple L) k m fs fs' RY Mm AN) as [WR _].
  destruct HX as (x & Ix & Tx & Px). pose proof (in_map triple _ _ Ix) as I3. unfold triple at 1 in I3. rewrite Tx, Px in I3.
  destruct (WR _ _ _ _ _ _ I3 I3) as (t & path & text & Et & (r & a & out & o & S1 & S2 & S3 & S4 & S5 & S6 & S7 & S8) & Fw).
  assert (PT : (0 <= Qnum T)%Z) by (rewrite Forall_forall in FT; apply FT, IT).
  assert (ft : fmt2 t = fmt2 T) by (apply hundredths_fmt2; [eapply shown_nonneg; eauto|exact PT|apply shown_same; exact Et]).
  destruct (K so true T P names SO IT IP) as (r' & Er & Ct & _).
  { rewrite rho_results_dir by exact NH. exact LN. }
  rewrite rho_results_dir in Er by exact NH. fold rd in Er. rewrite Pf in S1, S4.
  assert (SL : load_pimc_data so true (results w') rd names P t (new_empty true 0) = load_pimc_data so true (results w') rd names P T (new_empty true 0)).
  { unfold load_pimc_data, select_pimc_files. rewrite ft. reflexivity. }
  rewrite SL, Er in S1. injection S1 as <-. rewrite Ct, ft in S4. subst path text.
  exists t, r', a, out, o. repeat (split; [assumption|]). assumption.
Qed.
Print Assumptions C110_thermo.

(** C110: a campaign whose jobs can be run is accepted as a whole, one command for every job, and submit_job reads the number
    the scheduler gave to the job *)
Theorem C110_accepted H cwd fval inv_kT divide isfile interpreter repr python dir host partitions w w' d ts ps n_jobs samplers ids :
  0 < n_jobs -> run_jobs H cwd fval inv_kT divide isfile interpreter repr python dir host partitions w (campaign d ts ps n_jobs samplers ids) = Some w' ->
  (exists log, submit_pairs (serialize_params repr) python dir host partitions (scheduler isfile ids) d n_jobs (list_prod ts ps) [] = (log, Ok tt) /\
     length log = length ts * length ps * n_jobs) /\
  (forall T P d' template log, In T ts -> In P ps -> job_for (serialize_params repr) python dir host partitions d T P = Ok (d', template) ->
     exists cmd, format_params template d' = Ok cmd /\ accept isfile cmd <> None /\
       submit_job (scheduler isfile ids) log template d' = ((log ++ [cmd])%list, Ok (Some (ids (length log))))).
Proof.
  intros N0 E.
  assert (G : forall L w0, run_jobs H cwd fval inv_kT divide isfile interpreter repr python dir host partitions w0 L = Some w' ->
    Forall (fun j => exists d' template cmd, job_for (serialize_params repr) python dir host partitions (j_dict j) (j_T j) (j_P j) = Ok (d', template) /\
      format_params template d' = Ok cmd /\ accept isfile cmd <> None) L).
  { induction L as [|j L IH]; intros w0 K; [constructor|]. cbn [run_jobs] in K. destruct (run_job _ _ _ _ _ _ _ _ _ _ _ _ w0 j) as [w1|] eqn:R1; [|discriminate].
    constructor; [|exact (IH _ K)]. unfold run_job in R1. destruct (job_for _ _ _ _ _ _ _ _) as [[d' t]|]; [|discriminate].
    destruct (format_params t d') as [cmd|] eqn:FM; [|discriminate]. exists d', t, cmd. repeat split; auto. intros A. unfold run_command in R1. rewrite A in R1. discriminate. }
  specialize (G _ _ E).
  assert (PJ : forall T P, In T ts -> In P ps -> exists d' template cmd, job_for (serialize_params repr) python dir host partitions d T P = Ok (d', template) /\
      format_params template d' = Ok cmd /\ accept isfile cmd <> None).
  { intros T P IT IP. assert (I : In (T, P) (turns ts ps n_jobs)).
    { unfold turns. apply in_flat_map. exists T. split; [exact IT|]. apply in_flat_map. exists P. split; [exact IP|]. destruct n_jobs; [lia|left; reflexivity]. }
    rewrite <- (campaign_turns d ts ps n_jobs samplers ids) in I. apply in_map_iff in I. destruct I as (j & X & I). injection X as <- <-.
    rewrite Forall_forall in G. specialize (G j I). assert (DJ : j_dict j = d).
    { unfold campaign in I. cbv zeta in I. apply in_map_iff in I. destruct I as (y & <- & _). reflexivity. }
    rewrite DJ in G. exact G. }
  assert (SJ : forall template d' cmd log, format_params template d' = Ok cmd -> accept isfile cmd <> None ->
      submit_job (scheduler isfile ids) log template d' = ((log ++ [cmd])%list, Ok (Some (ids (length log))))).
  { intros template d' cmd log FM A. unfold submit_job. rewrite FM. unfold scheduler. destruct (accept isfile cmd); [|destruct (A eq_refl)].
    f_equal. apply (extract_id_ok (ids (length log)) "" (String JobBoss_Model.newline "")); reflexivity. }
  assert (SR : forall template d' cmd, format_params template d' = Ok cmd -> accept isfile cmd <> None ->
      forall n log, submit_repeat (scheduler isfile ids) log template d' n = ((log ++ repeat cmd n)%list, Ok tt)).
  { intros template d' cmd FM A. induction n as [|n IH]; intros log; cbn [submit_repeat repeat]; [rewrite app_nil_r; reflexivity|].
    rewrite (SJ _ _ _ _ FM A), IH, <- app_assoc. reflexivity. }
  split.
  - assert (SP : forall pairs log, (forall tp, In tp pairs -> In (fst tp) ts /\ In (snd tp) ps) ->
      exists new, submit_pairs (serialize_params repr) python dir host partitions (scheduler isfile ids) d n_jobs pairs log = ((log ++ new)%list, Ok tt) /\ length new = length pairs * n_jobs).
    { induction pairs as [|[T P] rest IH]; intros log I; cbn [submit_pairs]; [exists []; rewrite app_nil_r; auto|].
      destruct (I (T, P)) as [IT IP]; [left; reflexivity|]. destruct (PJ T P IT IP) as (d' & t & cmd & E1 & E2 & E3). cbn [fst snd] in *. rewrite E1, (SR _ _ _ E2 E3).
      destruct (IH (log ++ repeat cmd n_jobs)%list) as (new & En & Ln); [intros tp K; apply I; right; exact K|].
      rewrite En. exists (repeat cmd n_jobs ++ new)%list. rewrite <- app_assoc. split; [reflexivity|]. rewrite app_length, repeat_length, Ln. reflexivity. }
    destruct (SP (list_prod ts ps) []) as (new & En & Ln).
    + intros [T P] I. apply in_prod_iff in I. exact I.
    + exists new. split; [exact En|]. rewrite Ln, prod_length. reflexivity.
  - intros T P d' t log IT IP J. destruct (PJ T P IT IP) as (d1 & t1 & cmd & E1 & E2 & E3). rewrite E1 in J. injection J as -> ->.
    exists cmd. split; [exact E2|]. split; [exact E3|]. apply SJ; assumption.
Qed.
Print Assumptions C110_accepted.

(** ---- an example: the analysis of the two jobs of [C110_example], with the pooled 40 samples ---- *)
Definition ex_fs := set_hash_rho (set_hash_vib (build_fs "/" "/work/x" 11 0) "hv") "hr".
Definition ex_exact (p : string) := if String.eqb p "/work/x/data_set_11/rho_0/parameters/analytic_results.json"
  then Some (dumps (JObj [("hash_vib", JStr "hv"); ("hash_rho", JStr "hr"); ("300.00", JObj [("Z_sampling", JInt 6); ("E_sampling", JInt 2); ("Cv_sampling", JInt 1); ("Z_sampling+beta", JInt 3); ("Z_sampling-beta", JInt 2)])])) else None.
Definition ex_listing := ["P12_T300.00_J77_data_points.npz"; "P12_T300.00_J78_data_points.npz"].
Definition ex_run := run_jobs (fun s => "h" ++ s) "/" (fun _ => 300 # 1)%Q Job_Props.ex_inv Job_Props.ex_div (fun p => String.prefix "/lib/server/" p) (fun _ => true) Job_Props.ex_repr
  "/usr/bin/python3" "/lib/server" "nlogn" "serial highmem" Job_Props.ex_w Chain_Props.ex_jobs.
Definition ex_thermo := dumps (JObj [("X", JInt 40); ("hash_vib", JStr "hv"); ("E", JInt 2); ("hash_rho", JStr "hr")]).
Lemma ex_tasks : match ex_run with
  | Some w' => pool_tasks (fun l => nodup string_dec l) ex_divide ex_operation (results w') ex_exact ex_fs ex_listing Jackknife "alpha" "local" =
                 Ok [Ok ("/work/x/data_set_11/rho_0/results/P12_T300.00_X40_thermo", ex_thermo)]
  | None => False
  end.
Proof. vm_compute. reflexivity. Qed.
Example C110_thermo_example : exists w', ex_run = Some w' /\
  let rd := rho_dir "/work/x" 11 0 ++ "results/" in
  lists_results (results w') rd ex_listing /\ path_rho_results ex_fs = rd /\ FileStruct_Model.hash_vib ex_fs = Some "hv" /\ FileStruct_Model.hash_rho ex_fs = Some "hr" /\
  t_jackknife ex_fs = rd ++ "P{P:d}_T{T:.2f}_X{X:d}_thermo" /\ no_brace rd = true /\
  all_chars (fun c => negb (Ascii.eqb c "P")) rd = true /\ contains "_T" rd = false /\ contains "_J" rd = false /\
  exists fs', analyse (fun l => nodup string_dec l) ex_divide ex_operation (fun s => "h" ++ s) (results w') ex_fs ex_listing Jackknife "alpha" "local" ex_exact fs' (Ok tt) /\
    fs' (rd ++ "P12_T300.00_X40_thermo") = Some ex_thermo.
Proof.
  pose proof ex_tasks as T. pose proof C110_listing_example as LE. change (forall w', ex_run = Some w' -> lists_results (results w') "/work/x/data_set_11/rho_0/results/" ex_listing) in LE.
  destruct ex_run as [w'|]; [|destruct T]. exists w'. split; [reflexivity|]. specialize (LE _ eq_refl).
  intros rd. replace rd with "/work/x/data_set_11/rho_0/results/" by (vm_compute; reflexivity). split; [exact LE|]. repeat (split; [vm_compute; reflexivity|]).
  eexists. split.
  - eapply an_pool with (done := [_]); [reflexivity|exact T|]. apply (pool_ok [_]). apply Permutation_refl.
  - reflexivity.
Qed.
(** the same two jobs are accepted *)
Example C110_accepted_example : exists log,
  submit_pairs (serialize_params Job_Props.ex_repr) "/usr/bin/python3" "/lib/server" "nlogn" "serial highmem"
    (scheduler (fun p => String.prefix "/lib/server/" p) (fun k => (77 + Z.of_nat k)%Z)) Job_Props.ex_d 2 (list_prod [(300 # 1)%Q] [12%Z]) [] = (log, Ok tt) /\ length log = 2.
Proof.
  destruct C110_thermo_example as (w' & E & _). unfold ex_run, Chain_Props.ex_jobs in E.
  destruct (C110_accepted _ _ _ _ _ _ _ _ _ _ _ _ _ _ _ _ _ _ _ _ (le_S _ _ (le_n 1)) E) as [K _]. exact K.
Qed.
