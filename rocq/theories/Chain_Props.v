(** C110: from the submission of several jobs to the samples the analysis works with. *)
From Coq Require Import QArith Permutation.
From Verif Require Import Common Common_Proofs PyStr_Model PyStr_Proofs FileName_Model FileName_Proofs Json_Model Json_Spec.
From Verif Require Import FileStruct_Model FileStruct_Proofs JobBoss_Model JobBoss_Proofs Results_Proofs Job_Model Job_Spec.
From Verif Require Import JobBoss2_Proofs Job_Proofs Job2_Proofs Job3_Proofs Job4_Proofs Job5_Proofs Results_Props Job_Props Results_Model Chain_Model Chain_Spec Chain_Proofs.
Local Open Scope nat_scope.
Local Open Scope string_scope.

(** C110: after the jobs every one of them has left its file where its host puts it, and the other files there are as before *)
Theorem C110_files H cwd fval inv_kT divide isfile interpreter repr python dir host partitions root sroot D R cv cr w L :
  In host ["feynman"; "nlogn"; "orca"; "graham"] -> L <> [] ->
  Forall (ready_job H fval inv_kT divide isfile interpreter repr python dir host partitions root sroot D R cv cr w) L ->
  Forall (fun x => (0 <= Qnum (j_T (x_job x)))%Z) L -> NoDup (map (fun x => j_id (x_job x)) L) ->
  let here := String.eqb host "feynman" || String.eqb host "nlogn" in
  let home := if here then root else sroot in
  exists w', run_jobs H cwd fval inv_kT divide isfile interpreter repr python dir host partitions w (map x_job L) = Some w' /\
    isdir w' = isdir w /\ texts w' = texts w /\
    (forall x, In x L -> results w' (result_file home D R (j_P (x_job x)) (j_T (x_job x)) (j_id (x_job x))) =
       Some (job_results H (x_v x) (x_n x) (x_nb x) (x_bs x) cv cr)) /\
    (forall y, visible y -> (forall x, In x L -> y <> result_name (j_P (x_job x)) (j_T (x_job x)) (j_id (x_job x))) ->
       results w' (rho_dir home D R ++ "results/" ++ y) =
         match results w (rho_dir sroot D R ++ "results/" ++ y) with
         | Some z => Some z
         | None => if here then results w (rho_dir root D R ++ "results/" ++ y) else None
         end) /\
    (here = false -> sroot <> root -> forall y, visible y ->
       results w' (rho_dir root D R ++ "results/" ++ y) = results w (rho_dir root D R ++ "results/" ++ y)).
Proof.
  intros Hh NE F FT ND here home.
  assert (C : class host here). { unfold class, here. destruct Hh as [<-|[<-|[<-|[<-|[]]]]]; cbn; auto. }
  destruct (chain H cwd fval inv_kT divide isfile interpreter repr python dir host partitions root sroot D R cv cr here L C w F (names_distinct L FT ND))
    as (w' & E & E1 & E2 & T1 & T2 & T3 & T4).
  exists w'. split; [exact E|]. split; [exact E1|]. split; [exact E2|]. split; [|split; [|exact T4]].
  - intros x I. unfold result_file. specialize (T3 NE (rname x) (result_visible _ _ _)). rewrite T1 in T3 by exact I. exact T3.
  - intros y V N. specialize (T3 NE y V). rewrite T2 in T3; [|exact V|].
    + unfold home, base, kept in *. rewrite T3. destruct here; [reflexivity|]. destruct (results w _); reflexivity.
    + intros I. apply in_map_iff in I. destruct I as (x & <- & I). apply (N x I). reflexivity.
Qed.
Print Assumptions C110_files.

Lemma filter_perm {A} (f : A -> bool) (a b : list A) : Permutation a b -> Permutation (filter f a) (filter f b).
Proof.
  induction 1 as [|x a b _ IH|x y a|a b c _ IH1 _ IH2]; cbn [filter].
  - constructor.
  - destruct (f x); auto.
  - destruct (f x), (f y); auto. constructor.
  - etransitivity; eauto.
Qed.

(** C110: the analysis of a bead number and temperature then works with the samples of all the jobs for them, every sample once *)
Theorem C110_analysis H cwd fval inv_kT divide isfile interpreter repr python dir host partitions root sroot D R cv cr w L :
  In host ["feynman"; "nlogn"; "orca"; "graham"] ->
  Forall (ready_job H fval inv_kT divide isfile interpreter repr python dir host partitions root sroot D R cv cr w) L ->
  Forall (fun x => (0 <= Qnum (j_T (x_job x)))%Z) L -> NoDup (map (fun x => j_id (x_job x)) L) ->
  (forall x i q, In x L -> i < x_nb x * x_bs x -> fst (fst (fst (x_v x i))) = Num q -> ~ (q == 0)%Q) ->
  (forall y, visible y -> results w (rho_dir root D R ++ "results/" ++ y) = None /\ results w (rho_dir sroot D R ++ "results/" ++ y) = None) ->
  let home := if String.eqb host "feynman" || String.eqb host "nlogn" then root else sroot in
  exists w', run_jobs H cwd fval inv_kT divide isfile interpreter repr python dir host partitions w (map x_job L) = Some w' /\
    forall set_order pm P T names,
      let results_dir := path_rho_results (build_fs cwd home D R) in
      let mine := filter (fun x => (P =? j_P (x_job x))%Z && (hundredths T =? hundredths (j_T (x_job x)))%Z) L in
      set_list set_order -> (0 <= Qnum T)%Z -> mine <> [] -> lists_results (results w') results_dir names ->
      exists order r, Permutation order mine /\
        load_pimc_data set_order pm (results w') results_dir names P T (new_empty pm 0) = Ok r /\
        count_value (r_samples r) = list_sum (map x_n mine) /\
        r_rho r = flat_map (values (fun v => fst (fst (fst v)))) order /\ r_g r = flat_map (values (fun v => snd (fst (fst v)))) order /\
        (pm = true -> r_gp r = flat_map (values (fun v => snd (fst v))) order /\ r_gm r = flat_map (values snd) order).
Proof.
  intros Hh F FT ND NZ EM home. destruct L as [|x0 L0].
  { exists w. split; [reflexivity|]. intros so pm P T names rd mine _ _ NM. destruct NM. reflexivity. }
  remember (x0 :: L0) as L eqn:EL. assert (NE : L <> []) by (subst; discriminate).
  assert (NH : normal_root home).
  { rewrite EL in F. apply Forall_inv in F. destruct F as (wait & script & cpus & cores & mem & A & N & be & ta & p & J & _).
    destruct (js_root _ _ _ _ _ _ _ _ _ _ _ _ _ _ _ _ _ _ _ _ _ _ _ _ _ _ J) as [NR _].
    pose proof (js_scratch _ _ _ _ _ _ _ _ _ _ _ _ _ _ _ _ _ _ _ _ _ _ _ _ _ _ J) as SC. unfold home. destruct (_ || _); auto. eapply scratched_normal; eauto. }
  assert (SZ : forall x, In x L -> x_nb x * x_bs x <= x_n x).
  { intros x I. rewrite Forall_forall in F. destruct (F x I) as (wait & script & cpus & cores & mem & A & N & be & ta & p & J & _).
    apply (js_sizes _ _ _ _ _ _ _ _ _ _ _ _ _ _ _ _ _ _ _ _ _ _ _ _ _ _ J). }
  destruct (C110_files H cwd fval inv_kT divide isfile interpreter repr python dir host partitions root sroot D R cv cr w L Hh NE F FT ND) as (w' & E & _ & _ & F1 & F2 & _).
  fold home in F1, F2. exists w'. split; [exact E|]. intros so pm P T names rd mine SO HT NM [NN LN]. unfold rd in *. rewrite rho_results_dir in * by exact NH.
  assert (NL : NoDup (map rname L)) by (apply names_distinct; auto).
  assert (PN : Permutation names (map rname L)).
  { apply NoDup_Permutation; auto. intros y. rewrite LN, append_assoc. split.
    - intros [V K]. destruct (in_dec string_dec y (map rname L)) as [I|I]; [exact I|]. exfalso. apply K. rewrite F2; auto.
      + destruct (EM y V) as [-> ->]. destruct (_ || _); reflexivity.
      + intros x Ix ->. apply I. apply in_map_iff. exists x. auto.
    - intros I. apply in_map_iff in I. destruct I as (x & <- & I). split; [apply result_visible|]. specialize (F1 x I). unfold result_file in F1. unfold rname. rewrite F1. discriminate. }
  apply Permutation_map_inv in PN. destruct PN as (L' & -> & PL).
  assert (IL : forall x, In x L' -> In x L) by (intros x; apply Permutation_in, Permutation_sym; exact PL).
  destruct (pool_jobs H cwd fval isfile interpreter repr D R cv cr so pm (results w') home L' P T SO) as (order & r & Po & Er & Ct & R1 & R2 & R3).
  - apply Forall_forall. intros x I. rewrite Forall_forall in FT. auto.
  - exact HT.
  - exact NN.
  - intros x I. specialize (F1 x (IL x I)). exact F1.
  - intros x I. apply SZ; auto.
  - intros x i q I. apply NZ; auto.
  - destruct mine as [|x m] eqn:EM'; [contradiction|]. assert (I : In x mine) by (rewrite EM'; left; reflexivity). apply filter_In in I.
    exists x. split; [|apply I]. apply (Permutation_in _ PL). apply I.
  - assert (PO : Permutation order mine). { etransitivity; [exact Po|]. apply filter_perm, Permutation_sym, PL. }
    exists order, r. split; [exact PO|]. split; [exact Er|]. split; [|auto].
    rewrite Ct. clear -PO. induction PO; cbn [map list_sum fold_right]; try lia. unfold list_sum in *. cbn [fold_right]. lia.
Qed.
Print Assumptions C110_analysis.

(** C110: on orca and graham the directory below the root that was asked for stays empty and the analysis of any point there fails *)
Theorem C110_left_behind_refuted H cwd fval inv_kT divide isfile interpreter repr python dir host partitions root sroot D R cv cr w L :
  host = "orca" \/ host = "graham" -> L <> [] -> sroot <> root ->
  Forall (ready_job H fval inv_kT divide isfile interpreter repr python dir host partitions root sroot D R cv cr w) L ->
  Forall (fun x => (0 <= Qnum (j_T (x_job x)))%Z) L -> NoDup (map (fun x => j_id (x_job x)) L) ->
  (forall y, visible y -> results w (rho_dir root D R ++ "results/" ++ y) = None) ->
  exists w', run_jobs H cwd fval inv_kT divide isfile interpreter repr python dir host partitions w (map x_job L) = Some w' /\
    forall set_order pm P T names, let results_dir := path_rho_results (build_fs cwd root D R) in
      (0 <= Qnum T)%Z -> lists_results (results w') results_dir names ->
      load_pimc_data set_order pm (results w') results_dir names P T (new_empty pm 0) = Raise AssertionError.
Proof.
  intros Hh NE Ne F FT ND EM.
  assert (NR : normal_root root).
  { destruct L as [|x L]; [contradiction|]. apply Forall_inv in F. destruct F as (wait & script & cpus & cores & mem & A & N & be & ta & p & J & _).
    apply (js_root _ _ _ _ _ _ _ _ _ _ _ _ _ _ _ _ _ _ _ _ _ _ _ _ _ _ J). }
  destruct (C110_files H cwd fval inv_kT divide isfile interpreter repr python dir host partitions root sroot D R cv cr w L) as (w' & E & _ & _ & _ & _ & F3); auto.
  { destruct Hh as [-> | ->]; cbn; auto. }
  exists w'. split; [exact E|]. intros so pm P T names rd HT [_ LN]. unfold rd in *. rewrite rho_results_dir in * by exact NR.
  assert (names = []) as ->.
  { destruct names as [|y l]; [reflexivity|]. exfalso. destruct (proj1 (LN y) (or_introl eq_refl)) as [V K]. apply K. rewrite append_assoc, F3; auto. destruct Hh as [-> | ->]; reflexivity. }
  apply (C58_no_file_fails so pm (results w') _ P T []); auto.
Qed.
Print Assumptions C110_left_behind_refuted.

(** ---- one submission ---- *)
(** C110: the commands given to the scheduler are those of the jobs of the campaign, in this order *)
Theorem C110_commands serialize python dir host partitions sbatch d ts ps n_jobs log samplers ids :
  submit_pairs serialize python dir host partitions sbatch d n_jobs (list_prod ts ps) [] = (log, Ok tt) ->
  Forall2 (fun cmd j => exists d' template, job_for serialize python dir host partitions (j_dict j) (j_T j) (j_P j) = Ok (d', template) /\
    format_params template d' = Ok cmd) log (campaign d ts ps n_jobs samplers ids) /\
  length log = length ts * length ps * n_jobs /\
  forall k j, nth_error (campaign d ts ps n_jobs samplers ids) k = Some j -> j_dict j = d /\ j_sampler j = samplers k /\ j_id j = ids k.
Proof.
  intros E.
  assert (ND : forall k j, nth_error (campaign d ts ps n_jobs samplers ids) k = Some j -> j_dict j = d /\ j_sampler j = samplers k /\ j_id j = ids k).
  { unfold campaign. cbv zeta. assert (G : forall (l : list (Q * Z)) m k j,
      nth_error (map (fun x => {| j_dict := d; j_T := fst (snd x); j_P := snd (snd x); j_sampler := samplers (fst x); j_id := ids (fst x) |}) (combine (seq m (length l)) l)) k = Some j ->
      j_dict j = d /\ j_sampler j = samplers (m + k) /\ j_id j = ids (m + k)).
    { induction l as [|x l IH]; intros m [|k] j X; try discriminate.
      - injection X as <-. rewrite Nat.add_0_r. repeat split.
      - rewrite <- Nat.add_succ_comm. apply IH. exact X. }
    intros k j X. apply (G _ 0 k j X). }
  assert (LC : length (campaign d ts ps n_jobs samplers ids) = length ts * length ps * n_jobs).
  { rewrite <- (map_length (fun j => (j_T j, j_P j))), campaign_turns, <- flat_prod, <- prod_length. generalize (list_prod ts ps).
    induction l as [|x l IH]; [reflexivity|]. cbn [flat_map length Nat.mul]. rewrite app_length, repeat_length, IH. reflexivity. }
  match goal with |- ?A /\ _ => enough (FF : A) by (split; [exact FF|split; [rewrite <- LC; clear -FF; induction FF; cbn [length]; congruence|exact ND]]) end. clear ND LC.
  set (Q0 := fun cmd (tp : Q * Z) => exists d' template, job_for serialize python dir host partitions d (fst tp) (snd tp) = Ok (d', template) /\ format_params template d' = Ok cmd).
  assert (RP : forall template d' tp, job_for serialize python dir host partitions d (fst tp) (snd tp) = Ok (d', template) ->
      forall n l l', submit_repeat sbatch l template d' n = (l', Ok tt) -> exists new, l' = (l ++ new)%list /\ Forall2 Q0 new (repeat tp n)).
  { intros template d' tp J. induction n as [|n IH]; intros l l' K; cbn [submit_repeat] in K.
    - injection K as <-. exists []. rewrite app_nil_r. split; [reflexivity|constructor].
    - unfold submit_job in K. destruct (format_params template d') as [cmd|] eqn:FM; [|discriminate].
      destruct (sbatch (length l) cmd) as [out|]; [|discriminate]. destruct (extract_id_job out); [|discriminate].
      destruct (IH _ _ K) as (new & -> & F). exists (cmd :: new). rewrite <- app_assoc. split; [reflexivity|]. constructor; [|exact F]. exists d', template. auto. }
  assert (SP : forall pairs l l', submit_pairs serialize python dir host partitions sbatch d n_jobs pairs l = (l', Ok tt) ->
      exists new, l' = (l ++ new)%list /\ Forall2 Q0 new (flat_map (fun tp => repeat tp n_jobs) pairs)).
  { induction pairs as [|[T P] rest IH]; intros l l' K; cbn [submit_pairs] in K.
    - injection K as <-. exists []. rewrite app_nil_r. split; [reflexivity|constructor].
    - destruct (job_for serialize python dir host partitions d T P) as [[d' template]|] eqn:J; [|discriminate].
      destruct (submit_repeat sbatch l template d' n_jobs) as [l1 [u|]] eqn:SR; [|discriminate]. destruct u.
      destruct (RP template d' (T, P) J _ _ _ SR) as (n1 & -> & F1). destruct (IH _ _ K) as (n2 & -> & F2).
      exists (n1 ++ n2)%list. rewrite app_assoc. split; [reflexivity|]. cbn [flat_map]. apply Forall2_app; assumption. }
  destruct (SP _ _ _ E) as (new & -> & F). clear E. cbn [app]. rewrite flat_prod in F. fold (turns ts ps n_jobs) in F.
  unfold campaign. cbv zeta. generalize 0%nat. revert F. generalize (turns ts ps n_jobs).
  intros l F. induction F as [|cmd tp a l K F IH]; intros k; [constructor|]. cbn [length seq combine map]. constructor; [exact K|apply IH].
Qed.
Print Assumptions C110_commands.

(** C110: a campaign leaves n_jobs * n samples for every temperature and bead number of its lists *)
Theorem C110_campaign H cwd fval inv_kT divide isfile interpreter repr python dir host partitions root sroot D R cv cr w
    d ts ps n_jobs samplers ids L n :
  In host ["feynman"; "nlogn"; "orca"; "graham"] ->
  map x_job L = campaign d ts ps n_jobs samplers ids -> (forall x, In x L -> x_n x = n) ->
  Forall (ready_job H fval inv_kT divide isfile interpreter repr python dir host partitions root sroot D R cv cr w) L ->
  Forall (fun T => (0 <= Qnum T)%Z) ts -> (forall i j, ids i = ids j -> i = j) ->
  NoDup (map hundredths ts) -> NoDup ps -> 0 < n_jobs ->
  (forall x i q, In x L -> i < x_nb x * x_bs x -> fst (fst (fst (x_v x i))) = Num q -> ~ (q == 0)%Q) ->
  (forall y, visible y -> results w (rho_dir root D R ++ "results/" ++ y) = None /\ results w (rho_dir sroot D R ++ "results/" ++ y) = None) ->
  let home := if String.eqb host "feynman" || String.eqb host "nlogn" then root else sroot in
  exists w', run_jobs H cwd fval inv_kT divide isfile interpreter repr python dir host partitions w (campaign d ts ps n_jobs samplers ids) = Some w' /\
    forall set_order pm T P names, let results_dir := path_rho_results (build_fs cwd home D R) in
      set_list set_order -> In T ts -> In P ps -> lists_results (results w') results_dir names ->
      exists r, load_pimc_data set_order pm (results w') results_dir names P T (new_empty pm 0) = Ok r /\
        count_value (r_samples r) = n_jobs * n /\ length (r_rho r) = n_jobs * n /\
        exists order, (forall x, In x order -> In x L /\ j_P (x_job x) = P /\ hundredths (j_T (x_job x)) = hundredths T) /\
          NoDup (map (fun x => j_id (x_job x)) order) /\ length order = n_jobs /\
          r_rho r = flat_map (values (fun v => fst (fst (fst v)))) order /\ r_g r = flat_map (values (fun v => snd (fst (fst v)))) order /\
          (pm = true -> r_gp r = flat_map (values (fun v => snd (fst v))) order /\ r_gm r = flat_map (values snd) order).
Proof.
  intros Hh EL EN F FT IJ NT NP N0 NZ EM home.
  assert (TP : map (fun x => (j_T (x_job x), j_P (x_job x))) L = turns ts ps n_jobs).
  { rewrite <- (map_map x_job (fun j => (j_T j, j_P j))), EL. apply campaign_turns. }
  assert (FL : Forall (fun x => (0 <= Qnum (j_T (x_job x)))%Z) L).
  { apply Forall_forall. intros x I. apply (in_map (fun x => (j_T (x_job x), j_P (x_job x)))) in I. rewrite TP in I. apply in_turns in I. rewrite Forall_forall in FT. apply FT, I. }
  assert (NI : NoDup (map (fun x => j_id (x_job x)) L)).
  { rewrite <- (map_map x_job j_id), EL. apply campaign_ids. exact IJ. }
  destruct (C110_analysis H cwd fval inv_kT divide isfile interpreter repr python dir host partitions root sroot D R cv cr w L Hh F FL NI NZ EM) as (w' & E & K).
  fold home in K. rewrite EL in E. exists w'. split; [exact E|]. intros so pm T P names rd SO IT IP LN.
  set (mine := filter (fun x => (P =? j_P (x_job x))%Z && (hundredths T =? hundredths (j_T (x_job x)))%Z) L).
  assert (LM : length mine = n_jobs).
  { unfold mine. rewrite <- (turns_count ts ps n_jobs T P NT NP IT IP), <- TP. clear. induction L as [|x l IH]; [reflexivity|]. cbn [map filter fst snd]. destruct (_ && _); cbn [length]; congruence. }
  assert (IM : forall x, In x mine -> In x L /\ j_P (x_job x) = P /\ hundredths (j_T (x_job x)) = hundredths T).
  { intros x I. apply filter_In in I. destruct I as [I B]. apply andb_prop in B. destruct B as [B1 B2]. apply Z.eqb_eq in B1, B2. auto. }
  destruct (K so pm P T names SO) as (order & r & Po & Er & Ct & R1 & R2 & R3).
  - rewrite Forall_forall in FT. apply FT, IT.
  - fold mine. intros X. rewrite X in LM. cbn in LM. lia.
  - exact LN.
  - fold mine in Po, Ct.
    assert (IO : forall x, In x order -> In x mine) by (intros x; apply Permutation_in; exact Po).
    assert (SU : forall l, (forall x, In x l -> In x L) -> list_sum (map x_n l) = length l * n).
    { induction l as [|x l IH]; intros I; [reflexivity|]. cbn [map length]. change (x_n x + list_sum (map x_n l) = n + length l * n).
      rewrite IH by (intros y Hy; apply I; right; exact Hy). rewrite (EN x) by (apply I; left; reflexivity). reflexivity. }
    exists r. split; [exact Er|]. split; [|split].
    + rewrite Ct, SU, LM; [reflexivity|]. intros x I. apply IM. exact I.
    + rewrite R1. assert (LO : length order = n_jobs) by (rewrite <- LM; apply Permutation_length; exact Po). rewrite <- LO.
      assert (IO' : forall x, In x order -> In x L) by (intros x I; apply IM, IO, I). clear -IO' EN F.
      induction order as [|x l IH]; [reflexivity|]. cbn [flat_map length Nat.mul]. rewrite app_length, IH by (intros y Hy; apply IO'; right; exact Hy).
      f_equal. unfold values. rewrite app_length, map_length, seq_length, repeat_length.
      assert (I : In x L) by (apply IO'; left; reflexivity). rewrite Forall_forall in F. destruct (F x I) as (wait & script & cpus & cores & mem & A & N & be & ta & p & J & _).
      destruct (js_sizes _ _ _ _ _ _ _ _ _ _ _ _ _ _ _ _ _ _ _ _ _ _ _ _ _ _ J) as (_ & _ & SZ). rewrite (EN x I) in *. lia.
    + exists order. split; [intros x I; apply IM, IO, I|]. split; [|split; [rewrite <- LM; apply Permutation_length; exact Po|auto]].
      apply (Permutation_NoDup (Permutation_map _ (Permutation_sym Po))). clear -NI. unfold mine. induction L as [|x l IH]; [constructor|].
      cbn [map] in NI. apply NoDup_cons_iff in NI. destruct NI as [N1 N2]. cbn [filter]. destruct (_ && _); [|auto]. cbn [map]. constructor; auto.
      intros I. apply N1. apply in_map_iff in I. destruct I as (y & Ey & I). apply filter_In in I. apply in_map_iff. exists y. tauto.
Qed.
Print Assumptions C110_campaign.

(** C110: a job that fails does not stop the next ones; a job that is not accepted does, whatever comes before it *)
Theorem C110_failed H cwd fval inv_kT divide isfile interpreter repr python dir host partitions w w1 before j rest :
  let run := run_jobs H cwd fval inv_kT divide isfile interpreter repr python dir host partitions in
  run w before = Some w1 ->
  (forall d' template cmd fs e, job_for (serialize_params repr) python dir host partitions (j_dict j) (j_T j) (j_P j) = Ok (d', template) ->
     format_params template d' = Ok cmd -> run_command H cwd fval inv_kT divide (j_sampler j) isfile interpreter w1 cmd (j_id j) = Some (fs, Raise e) ->
     run w (before ++ j :: rest)%list = run {| isdir := isdir w; texts := texts w; results := fs |} rest) /\
  (forall e, job_for (serialize_params repr) python dir host partitions (j_dict j) (j_T j) (j_P j) = Raise e -> run w (before ++ j :: rest)%list = None) /\
  (forall d' template e, job_for (serialize_params repr) python dir host partitions (j_dict j) (j_T j) (j_P j) = Ok (d', template) ->
     format_params template d' = Raise e -> run w (before ++ j :: rest)%list = None) /\
  (forall d' template cmd, job_for (serialize_params repr) python dir host partitions (j_dict j) (j_T j) (j_P j) = Ok (d', template) ->
     format_params template d' = Ok cmd -> accept isfile cmd = None -> run w (before ++ j :: rest)%list = None).
Proof.
  intros run E.
  assert (G : forall a w0, run w0 a = Some w1 -> isdir w1 = isdir w0 /\ texts w1 = texts w0 /\ forall b, run w0 (a ++ b)%list = run w1 b).
  { unfold run. induction a as [|x a IH]; intros w0 K; cbn [run_jobs app] in *; [injection K as ->; auto|].
    destruct (run_job H cwd fval inv_kT divide isfile interpreter repr python dir host partitions w0 x) as [w2|] eqn:E1; [|discriminate].
    destruct (IH _ K) as (K1 & K2 & K3). unfold run_job in E1. destruct (job_for _ _ _ _ _ _ _ _) as [[d' t]|]; [|discriminate].
    destruct (format_params t d'); [|discriminate]. destruct (run_command _ _ _ _ _ _ _ _ _ _ _) as [[fs o]|]; [|discriminate]. injection E1 as <-. auto. }
  destruct (G _ _ E) as (E1 & E2 & G3). rewrite G3. unfold run. cbn [run_jobs]. unfold run_job. repeat split.
  - intros d' t cmd fs e -> -> ->. rewrite E1, E2. reflexivity.
  - intros e ->. reflexivity.
  - intros d' t e -> ->. reflexivity.
  - intros d' t cmd -> -> A. unfold run_command. rewrite A. reflexivity.
Qed.
Print Assumptions C110_failed.

(** ---- an example: two jobs of 20 samples for one temperature and bead number ---- *)
Definition ex_values (k : nat) (i : nat) : fl * fl * fl * fl := (Num (inject_Z (Z.of_nat (i + 1))), Num (inject_Z (Z.of_nat k)), Num 2, Num 3)%Q.
Definition ex_jobs : list job := campaign ex_d [(300 # 1)%Q] [12%Z] 2 (fun k _ => Ok (ex_values k)) (fun k => (77 + Z.of_nat k)%Z).
Definition ex_ran : list ran :=
  map (fun kj => {| x_job := snd kj; x_v := ex_values (fst kj); x_n := 20; x_nb := 4; x_bs := 5 |}) (combine [0; 1] ex_jobs).
Lemma ex_ready host : In host ["feynman"; "nlogn"; "orca"; "graham"] ->
  Forall (ready_job (fun s => "h" ++ s) (fun _ => 300 # 1)%Q ex_inv ex_div (fun p => String.prefix "/lib/server/" p) (fun _ => true) ex_repr
    "/usr/bin/python3" "/lib/server" host "serial highmem" "/work/x" "/scratch/x" 11 0 "V" "R" ex_w) ex_ran.
Proof.
  intros Hh. apply Forall_forall. intros x I. assert (JX : j_dict (x_job x) = ex_d /\ j_T (x_job x) = (300 # 1)%Q /\ j_P (x_job x) = 12%Z /\ x_n x = 20 /\ x_nb x = 4 /\ x_bs x = 5 /\
    forall b, j_sampler (x_job x) b = Ok (x_v x)) by (destruct I as [<-|[<-|[]]]; repeat split).
  destruct JX as (E1 & E2 & E3 & E4 & E5 & E6 & E7).
  exists "", "pimc.py", 4%Z, 4%Z, 20%Z, 2%Z, 3%Z, (JFloat "300.0"), (JInt 7), VNone. rewrite E1, E2, E3, E4, E5, E6.
  split; [exact C98_setting_example|]. split; [apply E7|]. split; [split; [apply path_lit; reflexivity|discriminate]|].
  split; [split; [apply path_lit; reflexivity|reflexivity]|]. split; [reflexivity|].
  destruct Hh as [<-|[<-|[<-|[<-|[]]]]]; repeat split; auto.
Qed.
Example C110_example set_order pm names : set_list set_order ->
  exists w', run_jobs (fun s => "h" ++ s) "/" (fun _ => 300 # 1)%Q ex_inv ex_div (fun p => String.prefix "/lib/server/" p) (fun _ => true) ex_repr
      "/usr/bin/python3" "/lib/server" "nlogn" "serial highmem" ex_w ex_jobs = Some w' /\
    (lists_results (results w') "/work/x/data_set_11/rho_0/results/" names ->
     exists r, load_pimc_data set_order pm (results w') "/work/x/data_set_11/rho_0/results/" names 12 (300 # 1)%Q (new_empty pm 0) = Ok r /\
       count_value (r_samples r) = 40 /\ length (r_rho r) = 40).
Proof.
  intros SO.
  destruct (C110_campaign (fun s => "h" ++ s) "/" (fun _ => 300 # 1)%Q ex_inv ex_div (fun p => String.prefix "/lib/server/" p) (fun _ => true) ex_repr
      "/usr/bin/python3" "/lib/server" "nlogn" "serial highmem" "/work/x" "/scratch/x" 11 0 "V" "R" ex_w
      ex_d [(300 # 1)%Q] [12%Z] 2 (fun k _ => Ok (ex_values k)) (fun k => (77 + Z.of_nat k)%Z) ex_ran 20) as (w' & E & K).
  - cbn; auto.
  - reflexivity.
  - intros x [<-|[<-|[]]]; reflexivity.
  - apply ex_ready. cbn; auto.
  - repeat constructor. discriminate.
  - lia.
  - repeat constructor; intros [].
  - repeat constructor; intros [].
  - lia.
  - intros x i q I _ X. assert (X' : q = inject_Z (Z.of_nat (i + 1))) by (destruct I as [<-|[<-|[]]]; cbn [x_v] in X; unfold ex_values in X; cbn [fst] in X; congruence).
    subst q. unfold Qeq, inject_Z. cbn [Qnum Qden]. lia.
  - intros y _. split; reflexivity.
  - exists w'. split; [exact E|]. intros LN.
    destruct (K set_order pm (300 # 1)%Q 12%Z names SO) as (r & Er & Ct & Ln & _); [left; reflexivity|left; reflexivity|exact LN|].
    exists r. auto.
Qed.
(** the listing exists *)
Example C110_listing_example w' : run_jobs (fun s => "h" ++ s) "/" (fun _ => 300 # 1)%Q ex_inv ex_div (fun p => String.prefix "/lib/server/" p) (fun _ => true) ex_repr
      "/usr/bin/python3" "/lib/server" "nlogn" "serial highmem" ex_w ex_jobs = Some w' ->
  lists_results (results w') "/work/x/data_set_11/rho_0/results/" ["P12_T300.00_J77_data_points.npz"; "P12_T300.00_J78_data_points.npz"].
Proof.
  intros E.
  destruct (C110_files (fun s => "h" ++ s) "/" (fun _ => 300 # 1)%Q ex_inv ex_div (fun p => String.prefix "/lib/server/" p) (fun _ => true) ex_repr
      "/usr/bin/python3" "/lib/server" "nlogn" "serial highmem" "/work/x" "/scratch/x" 11 0 "V" "R" ex_w ex_ran) as (w1 & E1 & _ & _ & F1 & F2 & _).
  - cbn; auto.
  - discriminate.
  - apply ex_ready. cbn; auto.
  - repeat constructor; discriminate.
  - repeat constructor; cbn; intuition discriminate.
  - assert (W : Some w1 = Some w') by (rewrite <- E1; exact E). injection W as ->. split; [repeat constructor; cbn; intuition discriminate|].
    intros y. split.
    + intros [<-|[<-|[]]]; [split; [apply (result_visible 12 (300 # 1)%Q 77)|]|split; [apply (result_visible 12 (300 # 1)%Q 78)|]].
      * specialize (F1 _ (or_introl eq_refl)). intros X. assert (Y : Some (job_results (fun s => "h" ++ s) (ex_values 0) 20 4 5 "V" "R") = None) by (rewrite <- X; symmetry; exact F1). discriminate.
      * specialize (F1 _ (or_intror (or_introl eq_refl))). intros X. assert (Y : Some (job_results (fun s => "h" ++ s) (ex_values 1) 20 4 5 "V" "R") = None) by (rewrite <- X; symmetry; exact F1). discriminate.
    + intros [V NN]. destruct (string_dec y "P12_T300.00_J77_data_points.npz") as [->|N1]; [left; reflexivity|].
      destruct (string_dec y "P12_T300.00_J78_data_points.npz") as [->|N2]; [right; left; reflexivity|]. destruct NN.
      refine (F2 y V _). intros x [<-|[<-|[]]]; assumption.
Qed.
(** a job whose computation fails, and one for a partition that does not exist, between two others *)
Example C110_failed_example :
  let job part e id := {| j_dict := dset String.eqb ex_d "partition" part; j_T := (300 # 1)%Q; j_P := 12%Z;
                          j_sampler := fun _ => match e with Some x => Raise x | None => Ok (ex_values 0) end; j_id := id |} in
  let run := run_jobs (fun s => "h" ++ s) "/" (fun _ => 300 # 1)%Q ex_inv ex_div (fun p => String.prefix "/lib/server/" p) (fun _ => true) ex_repr
               "/usr/bin/python3" "/lib/server" "nlogn" "serial highmem" ex_w in
  match run [job VNone None 77%Z; job VNone (Some ValueError) 78%Z; job (VStr "highmem") None 79%Z] with
  | Some w => map (fun n => present (results w ("/work/x/data_set_11/rho_0/results/P12_T300.00_J" ++ n ++ "_data_points.npz"))) ["77"; "78"; "79"] = [true; false; true]
  | None => False
  end /\ run [job VNone None 77%Z; job (VStr "none") None 78%Z] = None.
Proof. split; [vm_compute; reflexivity|vm_compute; reflexivity]. Qed.
