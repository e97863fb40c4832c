From Coq Require Import QArith.
From Verif Require Import Common Common_Proofs PyStr_Model PyStr_Proofs FileName_Model FileName_Proofs Json_Model Json_Spec.
From Verif Require Import FileStruct_Model FileStruct_Proofs JobBoss_Model JobBoss_Proofs Results_Model Results_Proofs Job_Model Job_Spec.
From Verif Require Import JobBoss2_Proofs Job_Proofs Job2_Proofs Job3_Proofs Job4_Proofs.
Local Open Scope nat_scope.
Local Open Scope string_scope.

Lemma substring_all s : String.substring 0 (String.length s) s = s.
Proof. induction s as [|c s IH]; cbn; [reflexivity|]. rewrite IH. reflexivity. Qed.
Lemma substring_after a s : String.substring (String.length a) (String.length s) (a ++ s) = s.
Proof. induction a as [|c a IH]; cbn; [apply substring_all|exact IH]. Qed.
Lemma last_chars_app a b : last_chars (String.length b) (a ++ b) = b.
Proof.
  unfold last_chars. rewrite append_length. replace (String.length a + String.length b - String.length b) with (String.length a) by lia.
  replace (Nat.min (String.length b) (String.length a + String.length b)) with (String.length b) by lia. apply substring_after.
Qed.

(** ---- files ---- *)
Lemma visible_hidden name : visible name -> hidden name = false.
Proof.
  intros (_ & _ & K). unfold hidden. destruct (String.prefix "." name) eqn:E; auto. apply prefix_true in E. destruct E as [t ->]. destruct (K t). reflexivity.
Qed.
Lemma no_slash_has name : lacks "/" name -> has_slash name = false.
Proof.
  intros K. unfold has_slash. destruct (contains "/" name) eqn:E; auto. apply contains_spec in E. destruct E as (a & b & ->).
  apply lacks_app in K. destruct K as [_ K]. apply lacks_app in K. destruct K as [K _]. destruct K. cbn. auto.
Qed.
Lemma matched_visible fs dir name : visible name -> matched fs dir "" name = present (fs (dir ++ name)).
Proof.
  intros V. unfold matched. rewrite no_slash_has, visible_hidden by (auto; apply V). destruct V as (_ & N & _). apply String.eqb_neq in N. rewrite N.
  cbn. destruct name; reflexivity.
Qed.
Lemma matched_true fs dir name : matched fs dir "" name = true -> visible name.
Proof.
  unfold matched. rewrite !andb_true_iff, !negb_true_iff. intros ((((_ & A) & B) & C) & _). repeat split.
  - intros X. assert (has_slash name = true); [|congruence]. unfold has_slash. apply contains_spec. apply in_split in X. destruct X as (x & y & E).
    exists (string_of_list_ascii x), (string_of_list_ascii y). rewrite <- (string_of_list_ascii_of_string name), E. clear.
    induction x as [|c x IH]; cbn; [reflexivity|]. rewrite IH. reflexivity.
  - apply String.eqb_neq. auto.
  - intros s ->. cbn in B. destruct s; discriminate.
Qed.
Section Move.
  Variables (a b : string) (fs : files).
  Let sdir := a ++ "/".
  Let rdir := b ++ "/".
  Lemma base_sdir : dir_base sdir = (sdir, "").
  Proof. apply (dir_base_spec a ""). intros []. Qed.
  Lemma mv_same : sdir = rdir -> mv_all fs sdir rdir = fs.
  Proof. intros E. unfold mv_all. rewrite base_sdir. rewrite E, String.eqb_refl. reflexivity. Qed.
  Lemma dirs_differ x y : sdir <> rdir -> lacks "/" x -> lacks "/" y -> sdir ++ x <> rdir ++ y.
  Proof.
    intros N X Y E. apply N. unfold sdir, rdir in *. rewrite !append_assoc in E. apply (last_slash_unique a b x y X Y) in E. destruct E as [-> _]. reflexivity.
  Qed.
  Lemma mv_to name : sdir <> rdir -> visible name -> mv_all fs sdir rdir (rdir ++ name) = match fs (sdir ++ name) with Some z => Some z | None => fs (rdir ++ name) end.
  Proof.
    intros N V. unfold mv_all. rewrite base_sdir. apply String.eqb_neq in N. rewrite N. apply String.eqb_neq in N.
    rewrite prefix_self, after_app, matched_visible by auto. cbn [andb]. destruct (fs (sdir ++ name)) eqn:E; cbn [present]; [reflexivity|].
    destruct (String.prefix sdir (rdir ++ name) && _) eqn:F; auto. apply andb_true_iff in F. destruct F as [F G].
    apply prefix_true in F. destruct F as [t F]. rewrite F, after_app in G. apply matched_true in G. destruct (dirs_differ t name N); auto; [apply G|apply V].
  Qed.
  Lemma mv_from name : sdir <> rdir -> visible name -> mv_all fs sdir rdir (sdir ++ name) = None.
  Proof.
    intros N V. unfold mv_all. rewrite base_sdir. apply String.eqb_neq in N. rewrite N. apply String.eqb_neq in N.
    destruct (String.prefix rdir (sdir ++ name) && _) eqn:F.
    { apply andb_true_iff in F. destruct F as [F G].
      apply prefix_true in F. destruct F as [t F]. rewrite F, after_app in G. apply matched_true in G. destruct (dirs_differ name t N); auto; [apply V|apply G]. }
    rewrite prefix_self, after_app, matched_visible by auto. cbn [andb]. destruct (fs (sdir ++ name)) eqn:E; cbn [present]; auto.
  Qed.
  Lemma mv_rest p : (forall name, visible name -> p <> sdir ++ name /\ p <> rdir ++ name) -> mv_all fs sdir rdir p = fs p.
  Proof.
    intros K. unfold mv_all. rewrite base_sdir. destruct (String.eqb sdir rdir); auto.
    destruct (String.prefix rdir p && _) eqn:F.
    { apply andb_true_iff in F. destruct F as [F G]. apply prefix_true in F. destruct F as [t ->]. rewrite after_app in G. apply matched_true in G.
      destruct (K t G). congruence. }
    destruct (String.prefix sdir p && _) eqn:F2; auto.
    apply andb_true_iff in F2. destruct F2 as [F2 G]. apply prefix_true in F2. destruct F2 as [t ->]. rewrite after_app in G. apply matched_true in G.
    destruct (K t G). congruence.
  Qed.
End Move.
Lemma fmt2_no_slash T : lacks "/" (fmt2 T).
Proof.
  assert (X : forall q, (0 <= Qnum q)%Z -> lacks "/" (fmt_hundredths (hundredths q))).
  { clear. intros q K. unfold fmt_hundredths. rewrite !lacks_app. repeat split; try (apply dec_lacks; try reflexivity; discriminate); try (apply lacks_lit; reflexivity).
    apply lacks_lit. eapply all_chars_impl; [|apply two_digits_digits; apply Z.mod_pos_bound; lia]. intros c C. destruct (Ascii.eqb_spec c "/"); auto. subst. discriminate. }
  unfold fmt2. destruct (Z.ltb_spec (Qnum T) 0); [|apply X; auto].
  apply lacks_cons. split; [discriminate|]. apply X. cbn. lia.
Qed.
Lemma result_visible P T id : visible (result_name P T id).
Proof.
  repeat split; try (intros; discriminate). unfold result_name. rewrite !lacks_app. repeat split; try (apply dec_lacks; try reflexivity; discriminate); try apply fmt2_no_slash; apply lacks_lit; reflexivity.
Qed.

(** ---- a submitted job ---- *)
Section Submitted.
  Variables (H : string -> string) (cwd : string) (fval : string -> Q) (inv_kT : json -> res json) (divide : json -> json -> res json).
  Variable sampler : boxdata -> res (nat -> fl * fl * fl * fl).
  Variables (isfile interpreter : string -> bool) (python dir : string).
  Variables (repr : Q -> string) (w : world) (root sroot : string) (d : params) (D R : Z) (wait script : string) (cpus cores mem : Z)
    (P : Z) (T : Q) (n nb bs : nat) (A N : Z) (be ta : json) (cv cr : string) (v : nat -> fl * fl * fl * fl) (id : Z).
  Hypothesis J : job_setting repr fval inv_kT divide w root sroot d D R wait script cpus cores mem P T n nb bs A N be ta cv cr.
  Hypothesis Kv : sampler (job_object H repr d root D R P T n nb bs A N be ta cv cr) = Ok v.
  Hypothesis Kpy : path_text python /\ python <> "".
  Hypothesis Kdir : path_text dir /\ String.prefix "/" dir = true.
  Notation name := (job_name_of D R P T).
  Definition env_of (sub from js : string) : list (string * string) := [("ROOT_DIR", rho_dir root D R); ("SCRATCH_DIR", rho_dir sroot D R); ("COPY_FROM", rho_dir sroot D R ++ "results/" ++ from);
     ("COPY_TO", rho_dir root D R ++ "results/"); ("PYTHON3_PATH", python); ("SAMPLING_SCRIPT", dir ++ "/" ++ sub ++ "/" ++ script); ("EXECUTION_PARAMETERS", js)].

  Lemma brace_free s : path_text s -> no_brace s = true.
  Proof.
    intros K. unfold no_brace. apply all_iff. intros c C. apply K in C. clear -C. destruct c as [[] [] [] [] [] [] [] []]; vm_compute in *; auto; discriminate.
  Qed.
  Lemma rho_nonempty r : rho_dir r D R <> "".
  Proof. unfold rho_dir. destruct r; cbn; discriminate. Qed.

  Lemma nlogn_command host partitions p : host = "feynman" \/ host = "nlogn" -> pget d "partition" = Some p ->
    (p = VNone \/ exists s, p = VStr s /\ path_text s) -> contains (partition_of host p) partitions = true ->
    exists dj js d' template cmd, plain_dict dj /\ serialize_params repr dj = Ok js /\ job_dict d dj "nlogn" name P T /\
      job_for (serialize_params repr) python dir host partitions d T P = Ok (d', template) /\ format_params template d' = Ok cmd /\
      accept isfile cmd = if isfile (dir ++ "/nlogn_feynman/pimc_job.sh") then Some (env_of "nlogn_feynman" "" js, dir ++ "/nlogn_feynman/pimc_job.sh") else None.
  Proof.
    pose proof J as [[J1 J1'] J2 J3 J4 [J5 J5'] J6 J7 J8 J9 J10 J11 J12 J13 [J14 J14'] [J15 J15'] [J16 J16'] J17 J18 J19].
    intros Hh Hp Hpv Hc. destruct Kpy as [Kp Kp']. destruct Kdir as [Kd Kd'].
    assert (S1 : path_text (rho_dir root D R)) by (apply rho_dir_path; auto).
    assert (S2 : path_text (rho_dir sroot D R)) by (apply rho_dir_path; eapply scratched_path; eauto).
    destruct (job_nlogn_plain (serialize_params repr) python dir (serialize_total repr) (brace_free _ Kp) (brace_free _ Kd) d D R _ _ cpus cores mem wait script J7 J6 S2 S1 host partitions P T p)
      as (dj & js & d' & template & E1 & E2 & E3 & E4 & E5 & E6); auto.
    { destruct Hpv as [|(s & -> & _)]; eauto. }
    exists dj, js, d', template. eexists. split; [auto|]. split; [auto|]. split; [auto|]. split; [auto|]. split; [exact E6|].
    destruct (text_plain repr J5 dj js E1 E2) as [T1 T2].
    assert (Hpart : path_text (partition_of host p)).
    { destruct Hpv as [->|(s & -> & Ks)]; auto. cbn. destruct (host =? "feynman")%string; apply path_lit; reflexivity. }
    rewrite (accept_of (" --partition=" ++ partition_of host p) "" python dir "nlogn_feynman" name (rho_dir root D R) (rho_dir sroot D R) "" script js wait cpus cores mem); auto.
    - right. eauto.
    - apply path_lit. reflexivity.
    - apply name_path.
    - apply rho_nonempty.
    - apply path_lit. reflexivity.
  Qed.

  Lemma cc_command host partitions p : host = "orca" \/ host = "graham" -> pget d "partition" = Some p ->
    exists dj js d' template cmd, plain_dict dj /\ serialize_params repr dj = Ok js /\ job_dict d dj host name P T /\
      job_for (serialize_params repr) python dir host partitions d T P = Ok (d', template) /\ format_params template d' = Ok cmd /\
      accept isfile cmd = if isfile (dir ++ "/compute_canada/pimc_job.sh") then Some (env_of "compute_canada" (name ++ "_J") js, dir ++ "/compute_canada/pimc_job.sh") else None.
  Proof.
    pose proof J as [[J1 J1'] J2 J3 J4 [J5 J5'] J6 J7 J8 J9 J10 J11 J12 J13 [J14 J14'] [J15 J15'] [J16 J16'] J17 J18 J19].
    intros Hh Hp. destruct Kpy as [Kp Kp']. destruct Kdir as [Kd Kd'].
    assert (S1 : path_text (rho_dir root D R)) by (apply rho_dir_path; auto).
    assert (S2 : path_text (rho_dir sroot D R)) by (apply rho_dir_path; eapply scratched_path; eauto).
    destruct (job_cc_plain (serialize_params repr) python dir (serialize_total repr) (brace_free _ Kp) (brace_free _ Kd) d D R _ _ cpus cores mem wait script J7 J6 S2 S1 host partitions P T p)
      as (dj & js & d' & template & E1 & E2 & E3 & E4 & E5 & E6); auto.
    exists dj, js, d', template. eexists. split; [auto|]. split; [auto|]. split; [auto|]. split; [auto|]. split; [exact E6|].
    destruct (text_plain repr J5 dj js E1 E2) as [T1 T2].
    rewrite (accept_of "" " --account=rrg-pnroy" python dir "compute_canada" name (rho_dir root D R) (rho_dir sroot D R) (name ++ "_J") script js wait cpus cores mem); auto.
    - apply path_lit. reflexivity.
    - apply name_path.
    - apply rho_nonempty.
    - apply path_app. split; [apply name_path|apply path_lit; reflexivity].
  Qed.

  Lemma argv_ok sub from js : path_text sub -> job_argv (env_of sub from js) (dec id) = [dir ++ "/" ++ sub ++ "/" ++ script; js; rho_dir sroot D R; dec id].
  Proof.
    pose proof J as [[J1 J1'] J2 J3 J4 [J5 J5'] J6 J7 J8 J9 J10 J11 J12 J13 [J14 J14'] [J15 J15'] [J16 J16'] J17 J18 J19]. destruct Kdir as [Kd Kd'].
    intros S. unfold job_argv, getenv, env_of. cbn [dget String.eqb Ascii.eqb Bool.eqb fst snd].
    rewrite !fields_path; try reflexivity.
    - apply dec_path.
    - intros E. pose proof (py_int_dec id) as X. rewrite E in X. discriminate.
    - apply rho_dir_path. eapply scratched_path; eauto.
    - apply rho_nonempty.
    - rewrite !path_app. repeat split; auto; apply path_lit; reflexivity.
    - destruct dir; [discriminate|]. discriminate.
  Qed.

  Definition z := job_results H v n nb bs cv cr.

  Lemma started sub from dj js host prog : path_text sub -> plain_dict dj -> serialize_params repr dj = Ok js -> job_dict d dj host name P T ->
    isfile (dir ++ "/" ++ sub ++ "/" ++ script) = true -> interpreter prog = true ->
    start H cwd fval inv_kT divide sampler isfile interpreter w prog (job_argv (env_of sub from js) (dec id)) = Ok (result_file sroot D R P T id, z).
  Proof.
    intros S A1 A2 A3 F I1. rewrite argv_ok by auto. unfold start. rewrite I1, F. cbn [andb].
    eapply script_ok; eauto.
  Qed.

  Theorem nlogn_results host partitions p : host = "feynman" \/ host = "nlogn" -> pget d "partition" = Some p ->
    (p = VNone \/ exists s, p = VStr s /\ path_text s) -> contains (partition_of host p) partitions = true ->
    isfile (dir ++ "/nlogn_feynman/pimc_job.sh") = true -> isfile (dir ++ "/nlogn_feynman/" ++ script) = true -> interpreter python = true ->
    exists d' template cmd fs, job_for (serialize_params repr) python dir host partitions d T P = Ok (d', template) /\ format_params template d' = Ok cmd /\
      run_command H cwd fval inv_kT divide sampler isfile interpreter w cmd id = Some (fs, Ok (result_file sroot D R P T id, z)) /\
      fs (result_file root D R P T id) = Some z /\
      (forall x, visible x -> x <> result_name P T id -> fs (rho_dir root D R ++ "results/" ++ x) =
         match results w (rho_dir sroot D R ++ "results/" ++ x) with Some y => Some y | None => results w (rho_dir root D R ++ "results/" ++ x) end) /\
      (sroot <> root -> forall x, visible x -> fs (rho_dir sroot D R ++ "results/" ++ x) = None) /\
      (forall q, (forall x, visible x -> q <> rho_dir sroot D R ++ "results/" ++ x /\ q <> rho_dir root D R ++ "results/" ++ x) -> fs q = results w q).
  Proof.
    intros Hh Hp Hpv Hc F1 F2 I1.
    destruct (nlogn_command host partitions p Hh Hp Hpv Hc) as (dj & js & d' & template & cmd & A1 & A2 & A3 & A4 & A5 & A6).
    rewrite F1 in A6. exists d', template, cmd.
    set (fs0 := write_file (results w) (result_file sroot D R P T id) z).
    exists (mv_all fs0 (rho_dir sroot D R ++ "results/") (rho_dir root D R ++ "results/")).
    split; auto. split; auto.
    assert (SE : forall r, rho_dir r D R ++ "results/" = (rho_dir r D R ++ "results") ++ "/") by (intros; rewrite append_assoc; reflexivity).
    assert (SX : forall r x, rho_dir r D R ++ "results/" ++ x = (rho_dir r D R ++ "results/") ++ x) by (intros; rewrite append_assoc; reflexivity).
    assert (RF : forall r, result_file r D R P T id = (rho_dir r D R ++ "results/") ++ result_name P T id) by (intros; unfold result_file; rewrite append_assoc; reflexivity).
    assert (RU : forall r1 r2, rho_dir r1 D R ++ "results/" = rho_dir r2 D R ++ "results/" -> r1 = r2).
    { intros r1 r2 E. unfold rho_dir in E. rewrite !append_assoc in E. apply append_inj_r in E. auto. }
    assert (W : forall x, visible x -> x <> result_name P T id -> fs0 ((rho_dir sroot D R ++ "results/") ++ x) = results w ((rho_dir sroot D R ++ "results/") ++ x)).
    { intros x _ X. unfold fs0, write_file. rewrite RF. destruct (String.eqb_spec ((rho_dir sroot D R ++ "results/") ++ x) ((rho_dir sroot D R ++ "results/") ++ result_name P T id)) as [E|]; auto.
      apply append_inj_l in E. contradiction. }
    assert (WS : fs0 ((rho_dir sroot D R ++ "results/") ++ result_name P T id) = Some z).
    { unfold fs0, write_file. rewrite RF, String.eqb_refl. reflexivity. }
    assert (WR : sroot <> root -> forall x, visible x -> fs0 ((rho_dir root D R ++ "results/") ++ x) = results w ((rho_dir root D R ++ "results/") ++ x)).
    { intros X x V. unfold fs0, write_file. rewrite RF. destruct (String.eqb_spec ((rho_dir root D R ++ "results/") ++ x) ((rho_dir sroot D R ++ "results/") ++ result_name P T id)) as [E|]; auto.
      exfalso. symmetry in E. revert E. rewrite (SE sroot), (SE root). apply dirs_differ; [|apply result_visible|apply V]. rewrite <- !SE. intros E. apply RU in E. auto. }
    split; [|split; [|split; [|split]]].
    - unfold run_command. rewrite A6.
      change 26 with (String.length "/nlogn_feynman/pimc_job.sh"). rewrite last_chars_app. cbn [String.eqb Ascii.eqb Bool.eqb]. unfold nlogn_sh.
      assert (PP : getenv (env_of "nlogn_feynman" "" js) "PYTHON3_PATH" = python) by reflexivity.
      assert (CF : getenv (env_of "nlogn_feynman" "" js) "COPY_FROM" = rho_dir sroot D R ++ "results/") by (unfold getenv, env_of; cbn [dget String.eqb Ascii.eqb Bool.eqb]; reflexivity).
      assert (CT : getenv (env_of "nlogn_feynman" "" js) "COPY_TO" = rho_dir root D R ++ "results/") by reflexivity.
      rewrite PP, CF, CT. destruct Kpy as [Kp Kp']. rewrite fields_path by auto. cbv zeta.
      rewrite (started "nlogn_feynman" "" dj js "nlogn" python) by (auto; apply path_lit; reflexivity). reflexivity.
    - rewrite RF. destruct (string_dec sroot root) as [E|E].
      + rewrite E in *. rewrite (SE root), mv_same by reflexivity. rewrite <- SE. exact WS.
      + rewrite (SE root), (SE sroot), mv_to, <- !SE, WS; auto using result_visible. rewrite <- !SE. intros X. apply RU in X. auto.
    - intros x V X. rewrite !SX. destruct (string_dec sroot root) as [E|E].
      + rewrite E in *. rewrite (SE root) at 1 2. rewrite mv_same by reflexivity. rewrite W by auto. destruct (results w _); reflexivity.
      + rewrite (SE root) at 1 2. rewrite (SE sroot) at 1. rewrite mv_to, <- !SE, W, WR; auto. rewrite <- !SE. intros Y. apply RU in Y. auto.
    - intros E x V. rewrite !SX. rewrite (SE root), (SE sroot), mv_from; auto. rewrite <- !SE. intros Y. apply RU in Y. auto.
    - intros q K. rewrite (SE root), (SE sroot), mv_rest.
      + unfold fs0, write_file. destruct (String.eqb_spec q (result_file sroot D R P T id)) as [E|]; auto. destruct (K (result_name P T id) (result_visible _ _ _)) as [K1 _]. destruct K1. rewrite E. reflexivity.
      + intros x V. rewrite <- !SE, <- !SX. auto.
  Qed.

  Theorem cc_results host partitions p : host = "orca" \/ host = "graham" -> pget d "partition" = Some p ->
    isfile (dir ++ "/compute_canada/pimc_job.sh") = true -> isfile (dir ++ "/compute_canada/" ++ script) = true -> interpreter "python3" = true ->
    exists d' template cmd fs, job_for (serialize_params repr) python dir host partitions d T P = Ok (d', template) /\ format_params template d' = Ok cmd /\
      run_command H cwd fval inv_kT divide sampler isfile interpreter w cmd id = Some (fs, Ok (result_file sroot D R P T id, z)) /\
      forall q, fs q = if string_dec q (result_file sroot D R P T id) then Some z else results w q.
  Proof.
    intros Hh Hp F1 F2 I1.
    destruct (cc_command host partitions p Hh Hp) as (dj & js & d' & template & cmd & A1 & A2 & A3 & A4 & A5 & A6).
    rewrite F1 in A6. exists d', template, cmd.
    exists (write_file (results w) (result_file sroot D R P T id) z).
    split; auto. split; auto. split.
    - unfold run_command. rewrite A6.
      assert (L1 : last_chars 26 (dir ++ "/compute_canada/pimc_job.sh") = "compute_canada/pimc_job.sh").
      { change 26 with (String.length "compute_canada/pimc_job.sh"). change "/compute_canada/pimc_job.sh" with ("/" ++ "compute_canada/pimc_job.sh"). rewrite <- append_assoc. apply last_chars_app. }
      rewrite L1. change 27 with (String.length "/compute_canada/pimc_job.sh"). rewrite last_chars_app. cbn [String.eqb Ascii.eqb Bool.eqb]. unfold cc_sh.
      rewrite (started "compute_canada" (name ++ "_J") dj js host "python3") by (auto; apply path_lit; reflexivity). reflexivity.
    - intros q. unfold write_file. destruct (String.eqb_spec q (result_file sroot D R P T id)); destruct (string_dec q _); congruence.
  Qed.
End Submitted.

(** ---- prepare_job_feynman ---- *)
Lemma matched_pre fs dir c pre x : matched fs dir (String c pre) x = true -> lacks "/" x /\ exists t, x = String c t.
Proof.
  unfold matched. rewrite !andb_true_iff, !negb_true_iff. intros ((((A & B) & _) & _) & _). split.
  - intros X. assert (has_slash x = true); [|congruence]. unfold has_slash. apply contains_spec. apply in_split in X. destruct X as (a & y & E).
    exists (string_of_list_ascii a), (string_of_list_ascii y). rewrite <- (string_of_list_ascii_of_string x), E. clear.
    induction a as [|e a IH]; cbn; [reflexivity|]. rewrite IH. reflexivity.
  - apply prefix_true in A. destruct A as [t ->]. cbn. eauto.
Qed.
Lemma mv_pattern a b c pre fs name : lacks "/" (String c pre) -> lacks "/" name -> (forall t, name <> String c t) -> a <> b ->
  mv_all fs ((a ++ "/") ++ String c pre) (b ++ "/") ((b ++ "/") ++ name) = fs ((b ++ "/") ++ name) /\
  mv_all fs ((a ++ "/") ++ String c pre) (b ++ "/") ((a ++ "/") ++ name) = fs ((a ++ "/") ++ name).
Proof.
  intros K L M N. unfold mv_all. rewrite (append_assoc a "/"). change ("/" ++ String c pre) with (String "/" (String c pre)). rewrite dir_base_spec by auto.
  assert (E : String.eqb (a ++ "/") (b ++ "/") = false) by (apply String.eqb_neq; intros E; apply append_inj_r in E; auto). rewrite E.
  assert (X : forall x y, lacks "/" x -> lacks "/" y -> (a ++ "/") ++ x <> (b ++ "/") ++ y).
  { intros x y A B Y. rewrite !append_assoc in Y. apply (last_slash_unique a b x y A B) in Y. tauto. }
  split.
  - rewrite prefix_self, after_app. cbn [andb]. destruct (matched fs (a ++ "/") (String c pre) name) eqn:F; [apply matched_pre in F; destruct F as [_ (t & ->)]; destruct (M t); reflexivity|].
    destruct (String.prefix (a ++ "/") ((b ++ "/") ++ name) && _) eqn:G; auto. apply andb_true_iff in G. destruct G as [G G2]. apply prefix_true in G. destruct G as [t G].
    rewrite G, after_app in G2. apply matched_pre in G2. destruct (X t name); auto; apply G2.
  - destruct (String.prefix (b ++ "/") ((a ++ "/") ++ name) && _) eqn:G.
    { apply andb_true_iff in G. destruct G as [G G2]. apply prefix_true in G. destruct G as [t G]. rewrite G, after_app in G2. apply matched_pre in G2. destruct (X name t); auto; apply G2. }
    rewrite prefix_self, after_app. cbn [andb]. destruct (matched fs (a ++ "/") (String c pre) name) eqn:F; auto. apply matched_pre in F. destruct F as [_ (t & ->)]. destruct (M t). reflexivity.
Qed.

Section Feynman.
  Variables (H : string -> string) (cwd : string) (fval : string -> Q) (inv_kT : json -> res json) (divide : json -> json -> res json).
  Variable sampler : boxdata -> res (nat -> fl * fl * fl * fl).
  Variables (isfile interpreter : string -> bool) (python dir : string).
  Variables (repr : Q -> string) (w : world) (root sroot : string) (d : params) (D R : Z) (wait script : string) (cpus cores mem : Z)
    (P : Z) (T : Q) (n nb bs : nat) (A N : Z) (be ta : json) (cv cr : string) (v : nat -> fl * fl * fl * fl) (id : Z).
  Hypothesis J : job_setting repr fval inv_kT divide w root sroot d D R wait script cpus cores mem P T n nb bs A N be ta cv cr.
  Hypothesis Kv : sampler (job_object H repr d root D R P T n nb bs A N be ta cv cr) = Ok v.
  Hypothesis Kpy : path_text python /\ python <> "".
  Hypothesis Kdir : path_text dir /\ String.prefix "/" dir = true.
  Notation name := (job_name_of D R P T).

  Ltac look := rewrite ?pget_pset; cbn [String.eqb Ascii.eqb Bool.eqb].

  Lemma feynman_results part :
    pget d "number_of_beads" = Some (VInt P) -> pget d "number_of_links" = Some (VInt P) -> pget d "temperature" = Some (VFloat T) ->
    pget d "partition" = Some (VStr part) -> path_text part ->
    isfile (dir ++ "/nlogn_feynman/pimc_job.sh") = true -> isfile (dir ++ "/nlogn_feynman/" ++ script) = true -> interpreter python = true ->
    exists d' template cmd fs, prepare_job_feynman (serialize_params repr) python dir d = Ok (d', template) /\ format_params template d' = Ok cmd /\
      run_command H cwd fval inv_kT divide sampler isfile interpreter w cmd id = Some (fs, Ok (result_file sroot D R P T id, job_results H v n nb bs cv cr)) /\
      (sroot <> root -> fs (result_file root D R P T id) = results w (result_file root D R P T id) /\
                        fs (result_file sroot D R P T id) = Some (job_results H v n nb bs cv cr)).
  Proof.
    intros B1 B2 B3 B4 B5 F1 F2 I1.
    pose proof J as [[J1 J1'] J2 J3 J4 [J5 J5'] J6 J7 J8 J9 J10 J11 J12 J13 [J14 J14'] [J15 J15'] [J16 J16'] J17 J18 J19].
    destruct Kpy as [Kp Kp']. destruct Kdir as [Kd Kd'].
    assert (S1 : path_text (rho_dir root D R)) by (apply rho_dir_path; auto).
    assert (S2 : path_text (rho_dir sroot D R)) by (apply rho_dir_path; eapply scratched_path; eauto).
    set (d3 := pset d "hostname" (VStr "feynman")).
    assert (Hr : ready d3 D R (rho_dir sroot D R) (rho_dir root D R) cpus cores mem wait script) by (destruct J7; split; unfold d3; look; auto).
    destruct (prepare_ok (serialize_params repr) python dir (serialize_total repr) (brace_free _ Kp) (brace_free _ Kd) D R (rho_dir sroot D R) (rho_dir root D R) cpus cores mem wait script
      (fun name => name ++ "_J") "nlogn_feynman" (sbatch_nlogn dir) d3 P T) as (js & d' & Hj & He & Hn & Hx & Hk); auto; try (unfold d3; look; auto; fail).
    cbv zeta in Hj.
    set (dj := pset (pset (pset d3 "job_name" (VStr name)) "copy_from" (VStr ("""" ++ rho_dir sroot D R ++ "results/" ++ (name ++ "_J") ++ """")))
                 "copy_to" (VStr ("""" ++ rho_dir root D R ++ "results/" ++ """"))) in Hj.
    assert (Pl : forall s, path_text s -> plain_text s) by (intros; apply plain_path; auto).
    assert (Pd : plain_dict dj).
    { unfold dj, d3. repeat (apply plain_set; [apply plain_lit; reflexivity| |]); auto; rewrite ?plain_app; repeat split; first [apply plain_lit; reflexivity | apply plain_path; assumption | apply name_plain]. }
    assert (Jd : job_dict d dj "feynman" name P T).
    { unfold job_dict, dj, d3. look. repeat split; auto. intros k Hkk. unfold changed_keys in Hkk. cbn [In] in Hkk. rewrite !pget_pset.
      destruct (String.eqb_spec k "copy_to"); [subst; tauto|]. destruct (String.eqb_spec k "copy_from"); [subst; tauto|].
      destruct (String.eqb_spec k "job_name"); [subst; tauto|]. destruct (String.eqb_spec k "hostname"); [subst; tauto|]. auto. }
    destruct (text_plain repr J5 dj js Pd Hj) as [T1 T2].
    set (cmd := sbatch_of (" --partition=" ++ part) "" dir "nlogn_feynman" name (rho_dir root D R) cpus cores mem wait
              (export_of python dir "nlogn_feynman" (rho_dir root D R) (rho_dir sroot D R) (name ++ "_J") script js)).
    assert (Ec : format_params (sbatch_nlogn dir) d' = Ok cmd).
    { rewrite nlogn_expand by (apply brace_free; auto). unfold p_sbatch. cbn [app expand]. unfold pitem. rewrite Hn, Hx. destruct Hr as [q1 q2 q3 q4 q5 q6 q7 q8 q9].
      rewrite !Hk by (cbn [In]; intuition discriminate). rewrite q4, q5, q6, q7, q8.
      assert (pget d3 "partition" = Some (VStr part)) as -> by (unfold d3; look; auto).
      cbn [bind render String.eqb Ascii.eqb Bool.eqb]. unfold cmd, sbatch_of. norm_str. reflexivity. }
    assert (Ea := accept_of (" --partition=" ++ part) "" python dir "nlogn_feynman" name (rho_dir root D R) (rho_dir sroot D R) (name ++ "_J") script js wait cpus cores mem).
    specialize (Ea ltac:(right; eauto) ltac:(auto) J4 Kp Kd Kd' ltac:(apply path_lit; reflexivity) (name_path _ _ _ _) S1 (rho_nonempty D R root) S2 ltac:(apply path_app; split; [apply name_path|apply path_lit; reflexivity]) J3 T2 T1 isfile).
    change (dir ++ "/" ++ "nlogn_feynman" ++ "/pimc_job.sh") with (dir ++ "/nlogn_feynman/pimc_job.sh") in Ea. rewrite F1 in Ea. fold cmd in Ea.
    exists d', (sbatch_nlogn dir), cmd.
    set (z0 := job_results H v n nb bs cv cr).
    set (fs0 := write_file (results w) (result_file sroot D R P T id) z0).
    exists (mv_all fs0 (rho_dir sroot D R ++ "results/" ++ name ++ "_J") (rho_dir root D R ++ "results/")).
    split; [exact He|]. split; [exact Ec|]. split.
    - unfold run_command. rewrite Ea.
      change 26 with (String.length "/nlogn_feynman/pimc_job.sh"). rewrite last_chars_app. cbn [String.eqb Ascii.eqb Bool.eqb]. unfold nlogn_sh.
      change [("ROOT_DIR", rho_dir root D R); ("SCRATCH_DIR", rho_dir sroot D R); ("COPY_FROM", rho_dir sroot D R ++ "results/" ++ name ++ "_J"); ("COPY_TO", rho_dir root D R ++ "results/"); ("PYTHON3_PATH", python);
        ("SAMPLING_SCRIPT", dir ++ "/" ++ "nlogn_feynman" ++ "/" ++ script); ("EXECUTION_PARAMETERS", js)] with (env_of python dir root sroot D R script "nlogn_feynman" (name ++ "_J") js).
      assert (PP : getenv (env_of python dir root sroot D R script "nlogn_feynman" (name ++ "_J") js) "PYTHON3_PATH" = python) by reflexivity.
      assert (CF : getenv (env_of python dir root sroot D R script "nlogn_feynman" (name ++ "_J") js) "COPY_FROM" = rho_dir sroot D R ++ "results/" ++ name ++ "_J") by reflexivity.
      assert (CT : getenv (env_of python dir root sroot D R script "nlogn_feynman" (name ++ "_J") js) "COPY_TO" = rho_dir root D R ++ "results/") by reflexivity.
      rewrite PP, CF, CT. rewrite fields_path by auto. cbv zeta.
      rewrite (started H cwd fval inv_kT divide sampler isfile interpreter python dir repr w root sroot d D R wait script cpus cores mem P T n nb bs A N be ta cv cr v id J Kv (conj Kd Kd') "nlogn_feynman" (name ++ "_J") dj js "feynman" python) by (auto; apply path_lit; reflexivity).
      reflexivity.
    - intros NE.
      assert (SE : forall r, rho_dir r D R ++ "results/" = (rho_dir r D R ++ "results") ++ "/") by (intros; rewrite append_assoc; reflexivity).
      assert (RF : forall r, result_file r D R P T id = (rho_dir r D R ++ "results/") ++ result_name P T id) by (intros; unfold result_file; rewrite append_assoc; reflexivity).
      assert (RU : rho_dir sroot D R ++ "results" <> rho_dir root D R ++ "results").
      { intros E. unfold rho_dir in E. rewrite !append_assoc in E. apply append_inj_r in E. auto. }
      assert (CF : rho_dir sroot D R ++ "results/" ++ name ++ "_J" = ((rho_dir sroot D R ++ "results") ++ "/") ++ String "D" (dec D ++ "_R" ++ dec R ++ "_P" ++ dec P ++ "_T" ++ fmt2 T ++ "_J")).
      { unfold job_name_of. repeat rewrite append_assoc. cbn [String.append]. repeat rewrite append_assoc. reflexivity. }
      assert (LN : lacks "/" (String "D" (dec D ++ "_R" ++ dec R ++ "_P" ++ dec P ++ "_T" ++ fmt2 T ++ "_J"))).
      { apply lacks_cons. split; [discriminate|]. rewrite !lacks_app. repeat split; try (apply dec_lacks; try reflexivity; discriminate); try apply fmt2_no_slash; apply lacks_lit; reflexivity. }
      destruct (mv_pattern (rho_dir sroot D R ++ "results") (rho_dir root D R ++ "results") "D" _ fs0 (result_name P T id) LN (proj1 (result_visible P T id)) ltac:(intros t X; discriminate) RU) as [M1 M2].
      rewrite CF, !RF. rewrite (SE root), (SE sroot). rewrite M1, M2. rewrite <- !SE. split.
      + unfold fs0, write_file. rewrite RF. destruct (String.eqb_spec ((rho_dir root D R ++ "results/") ++ result_name P T id) ((rho_dir sroot D R ++ "results/") ++ result_name P T id)) as [E|]; auto.
        apply append_inj_r in E. rewrite !SE in E. apply append_inj_r in E. symmetry in E. contradiction.
      + unfold fs0, write_file. rewrite RF, String.eqb_refl. reflexivity.
  Qed.
End Feynman.
