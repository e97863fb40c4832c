(** C107: the submission of the sampling of the examples *)
From Coq Require Import QArith Sorted Lia.
From Verif Require Import Common Common_Proofs PyStr_Model PyStr_Proofs FileName_Model FileName_Proofs Json_Model FileStruct_Model FileStruct_Proofs Julia_Model JobBoss_Model JobBoss_Proofs JobBoss2_Proofs JobBoss_Props
  Job_Spec Job2_Proofs Submit_Model Submit_Spec Submit_Props Submit2_Model Submit2_Spec Submit2_Props Setup_Model Survey_Model Survey_Props Gallery_Proofs Campaign_Model.
Local Open Scope list_scope.
Local Open Scope nat_scope.
Local Open Scope string_scope.

(** the directory of an example without the last slash *)
Definition base_of (e : example) : string := match e with Paper => "/work/ngraymon/pimc/paper_2018" | Artificial => "/work/ngraymon/pimc/artificial" end.
Definition scratch_of (e : example) : string := match e with Paper => "/scratch/ngraymon/pimc/paper_2018" | Artificial => "/scratch/ngraymon/pimc/artificial" end.
(** one submission: an analytic calculation, or one sampling with P beads *)
Inductive step := Analytic (d r : Z) (function : string) | Sampling_run (d r P : Z).
Definition plan_of (e : example) (d r : Z) : list step :=
  match e with
  | Paper => [Analytic d r "analytic_of_sampling_model"; Sampling_run d r 50]
  | Artificial => [Analytic d r "analytic_of_coupled_model"; Analytic d r "analytic_of_sampling_model"; Sampling_run d r 50; Sampling_run d r 100;
                   Sampling_run d r 150; Sampling_run d r 200; Sampling_run d r 300; Sampling_run d r 400; Sampling_run d r 500]
  end.
Definition is_analytic (x : step) : bool := match x with Analytic _ _ _ => true | Sampling_run _ _ _ => false end.
(** the entries of the dictionary that a job gets *)
Definition entries (e : example) (partition : string) (d r P A N : Z) : list (string * pv) :=
  let rho := rho_dir (base_of e) d r in
  [("number_of_beads", VInt P); ("number_of_links", VInt P); ("temperature", VFloat (300 # 1));
   ("number_of_samples", VInt (match e with Paper => 10000 | Artificial => 100000 end)%Z);
   ("number_of_samples_overall", VInt (match e with Paper => 10000 | Artificial => 100000 end)%Z);
   ("number_of_blocks", VInt (match e with Paper => 10 | Artificial => 100 end)%Z); ("block_size", VInt 1000);
   ("number_of_states", VInt A); ("number_of_modes", VInt N); ("delta_beta", VFloat (2 # 10000)); ("id_data", VInt d); ("id_rho", VInt r);
   ("path_rho", VStr rho); ("path_scratch", VStr (rho_dir (scratch_of e) d r)); ("path_root", VStr (base_of e));
   ("path_vib_model", VStr (base_of e ++ "/data_set_" ++ dec d ++ "/parameters/coupled_model.json"));
   ("path_rho_model", VStr (rho ++ "parameters/sampling_model.json")); ("hostname", VStr "nlogn"); ("partition", VStr partition);
   ("job_name", VStr ("D" ++ dec d ++ "_R" ++ dec r ++ "_P" ++ dec P ++ "_T300.00"))].

Lemma text_cut n : forall s, (n <= String.length s)%nat -> exists a b, s = a ++ b /\ String.length a = n.
Proof.
  induction n as [|n IH]; intros s L; [exists "", s; auto|]. destruct s as [|c s]; [cbn in L; lia|]. destruct (IH s) as (a & b & -> & E); [cbn in L; lia|]. exists (String c a), b. cbn. auto.
Qed.

Section Campaign.
  Variable serialize : params -> res string.
  Variable python : string.
  Variable dir : string.
  Variable dims : fstruct -> res (Z * Z).
  Variable lines : list string.
  Variable partitions : string.
  Variable sbatch : nat -> string -> option string.
  Notation simple_pimc_wrapper := (simple_pimc_wrapper serialize python dir dims lines partitions sbatch).
  Notation submit_all := (submit_all serialize python dir dims lines partitions sbatch).
  Notation automate := (automate_pimc_submission serialize python dir dims lines partitions sbatch).
  Notation main := (submission_main serialize python dir dims lines partitions sbatch).

  (** the text of a submission; [AN] are the numbers of surfaces and modes *)
  Definition realises (e : example) (partition : string) (AN : Z -> Z -> Z * Z) (x : step) (v : event) : Prop :=
    match x with
    | Analytic d r function =>
        v = Srun ("srun --job-name=analytic_D" ++ dec d ++ (match e with Paper => "" | Artificial => if String.eqb function "analytic_of_sampling_model" then "_R" ++ dec r else "" end) ++ "_T300.00 python3 -c '" ++
          "import pibronic;from pibronic.data import file_structure as fs;from pibronic import julia_wrapper as jw;from pibronic.constants import beta;b = beta(300.00);" ++
          "FS = fs.FileStructure(" ++ quote ++ base_of e ++ quote ++ ", " ++ dec d ++ ", " ++ dec r ++ ");FS.generate_model_hashes();jw.prepare_julia();pibronic.julia_wrapper." ++ function ++ "(FS, b);'")
    | Sampling_run d r P =>
        exists dj js, serialize dj = Ok js /\ (forall k w, In (k, w) (entries e partition d r P (fst (AN d r)) (snd (AN d r))) -> pget dj k = Some w) /\
          let name := "D" ++ dec d ++ "_R" ++ dec r ++ "_P" ++ dec P ++ "_T300.00" in
          let rho := rho_dir (base_of e) d r in
          let scratch := rho_dir (scratch_of e) d r in
          v = Sbatch ("sbatch -m n --ntasks=1 --job-name=" ++ name ++ " --partition=" ++ partition ++ " -D " ++ rho ++ "execution_output/ --output=" ++ rho ++ "execution_output/" ++ name ++
            ".o%A --cpus-per-task=4 --cores-per-socket=4 --mem=20G   --export=ROOT_DIR=" ++ rho ++ ",SCRATCH_DIR=" ++ scratch ++ ",COPY_FROM=""" ++ scratch ++ "results/"",COPY_TO=""" ++ rho ++
            "results/"",PYTHON3_PATH=" ++ python ++ ",SAMPLING_SCRIPT=" ++ dir ++ "/nlogn_feynman/pimc.py,EXECUTION_PARAMETERS='" ++ js ++ "' " ++ dir ++ "/nlogn_feynman/pimc_job.sh")
    end.

  (** the dictionary of the class after a submission *)
  Definition class_after (e : example) (cluster : string) (f : fstruct) (d r A N : Z) : params :=
    [("temperature_list", VFloats [300 # 1]%Q); ("bead_list", VInts (beads e)); ("number_of_samples", VInt (samples e)); ("number_of_samples_overall", VInt (samples e));
     ("number_of_samples_per_job", VInt (samples e)); ("number_of_blocks", VInt (samples e / 1000)%Z); ("number_of_states", VInt A); ("number_of_modes", VInt N);
     ("number_of_beads", VInt 0); ("path_scratch", VStr (py_replace "work" "scratch" (path_rho f))); ("path_root", VStr (path_root f)); ("path_data", VStr (path_data f));
     ("path_rho", VStr (path_rho f)); ("id_data", VInt d); ("id_rho", VInt r); ("partition", VNone); ("hostname", VStr cluster); ("block_size", VInt 1000);
     ("memory_per_node", VInt 20); ("total_memory", VInt 20); ("cpus_per_task", VInt 4); ("cores_per_socket", VInt 4); ("wait_param", VStr ""); ("script_name", VStr "pimc.py");
     ("delta_beta", VFloat delta_beta); ("path_vib_model", VStr (FileStruct_Model.path_vib_model f)); ("path_rho_model", VStr (FileStruct_Model.path_rho_model f))].
  (** a new process, or one that has submitted for the same example before *)
  Definition used (e : example) (cls : params) : Prop := cls = default_params \/ exists cluster f d r A N, cls = class_after e cluster f d r A N.
  Lemma planned e cls cluster f d r A N : used e cls ->
    setup_blocks_and_jobs (submission_init cls cluster (Some (parameter_dictionary e d r A N)) f) = (class_after e cluster f d r A N, Ok 1%Z).
  Proof. intros [->|(c0 & f0 & d0 & r0 & A0 & N0 & ->)]; destruct e; reflexivity. Qed.

  Definition at_pair (e : example) (cwd : string) (d r : Z) : fstruct := build_fs cwd (root_of e) d r.
  Lemma root_abs e cwd : abspath cwd (root_of e) = base_of e. Proof. destruct e; reflexivity. Qed.
  Lemma base_ok e : no_brace (base_of e) = true. Proof. destruct e; reflexivity. Qed.
  Lemma rho_at e cwd d r : path_rho (at_pair e cwd d r) = rho_dir (base_of e) d r.
  Proof.
    unfold at_pair. cbn [build_fs path_rho]. rewrite root_abs. unfold rho_dir, template_rho, template_vib. rewrite join_rel by reflexivity. destruct e; cbn [ends_with_slash base_of]; rewrite !append_assoc; reflexivity.
  Qed.
  Lemma base_scratched e : scratched (base_of e) (scratch_of e).
  Proof.
    destruct e; cbn [base_of scratch_of]; apply scratched_slash.
    - apply (scr_work "/ngraymon/pimc/paper_2018" "/ngraymon/pimc/paper_2018"). repeat (apply scr_other; [intros s' E; discriminate|]). constructor.
    - apply (scr_work "/ngraymon/pimc/artificial" "/ngraymon/pimc/artificial"). repeat (apply scr_other; [intros s' E; discriminate|]). constructor.
  Qed.
  Lemma scratch_at e cwd d r : py_replace "work" "scratch" (path_rho (at_pair e cwd d r)) = rho_dir (scratch_of e) d r.
  Proof. rewrite rho_at. apply scratched_replace, rho_dir_scratched, base_scratched. Qed.

  Definition analytic_steps (e : example) (d r : Z) : list step := filter is_analytic (plan_of e d r).
  Definition valid (e : example) (d : Z) : Prop := (match e with Paper => assert_id_data_is_valid d | Artificial => art_assert_valid d end) = Ok tt.
  Lemma valid_pair e name d r : belongs e name d r -> valid e d.
  Proof.
    intros B. unfold valid. destruct e.
    - destruct B as (i & E & L & _). unfold assert_id_data_is_valid. rewrite id_digits; [reflexivity| |];
      (destruct i as [|[|[|[|i]]]]; [| | | |destruct i; discriminate]; cbn in L; pose proof (Z.div_mod d 10 ltac:(lia)); pose proof (Z.mod_pos_bound d 10 ltac:(lia)); lia).
    - destruct B as (i & E & L & _). unfold art_assert_valid. rewrite (proj2 (art_valid d)); [reflexivity|].
      destruct i as [|[|[|i]]]; [| | |destruct i; discriminate]; cbn in L; pose proof (Z.div_mod d 10 ltac:(lia)); pose proof (Z.mod_pos_bound d 10 ltac:(lia)); lia.
  Qed.

  Lemma analytic_ok e cwd d r part AN : valid e d ->
    exists cs, analytic e (at_pair e cwd d r) = (cs, Ok tt) /\ Forall2 (realises e part AN) (analytic_steps e d r) (map Srun cs).
  Proof.
    intros V. pose proof (base_ok e) as NB. assert (PR : path_root (at_pair e cwd d r) = base_of e) by apply root_abs. assert (ID : id_data (at_pair e cwd d r) = d) by reflexivity. assert (IR : id_rho (at_pair e cwd d r) = r) by reflexivity.
    unfold valid in V. destruct e; cbn [analytic].
    - unfold generate_sampling_analytical_results. rewrite ID, V. cbn [fold_right temperatures]. rewrite C95_text by (rewrite ?PR; auto; discriminate). rewrite PR, ID, IR. eexists. split; [reflexivity|].
      cbn [map fst]. constructor; [|constructor]. cbn [realises]. unfold job_text, job_code. change (fmt2 (300 # 1)) with "300.00". f_equal. norm_str. reflexivity.
    - unfold art_analytical_results. rewrite ID, V. cbn [each temperatures]. rewrite original_text by (rewrite PR; auto). cbn [fst snd]. rewrite sampling_text by (rewrite PR; auto). cbn [fst snd]. rewrite PR, ID, IR. eexists. split; [reflexivity|].
      cbn [map app analytic_steps filter plan_of is_analytic]. constructor; [|constructor; [|constructor]]; cbn [realises String.eqb Ascii.eqb Bool.eqb]; unfold analytic_text; change (fmt2 (300 # 1)) with "300.00"; f_equal; norm_str; reflexivity.
  Qed.

  Definition partition_at (cluster : string) : string := if String.eqb cluster "feynman" then "highmem" else "serial".
  (** the circumstances in which the jobs can be written down *)
  Definition usual (cluster : string) : Prop :=
    (forall d, exists js, serialize d = Ok js) /\ no_brace python = true /\ no_brace dir = true /\
    get_hostname lines = Ok cluster /\ (cluster = "nlogn" \/ cluster = "feynman") /\ contains (partition_at cluster) partitions = true.
  (** an answer of the queue that is accepted: short, or with an integer after 20 characters *)
  Definition accepted (out : string) : Prop := (String.length out <= 20)%nat \/ exists pre tail z, out = pre ++ tail /\ String.length pre = 20%nat /\ py_int_str tail = Ok z.
  Definition answered (i : nat) (c : string) : Prop := exists out, sbatch i c = Some out /\ accepted out.
  Definition answers : Prop := forall i c, answered i c.
  Lemma accepted_ok out : accepted out <-> exists z, extract_id_job out = Ok z.
  Proof.
    split.
    - intros [L|(pre & tail & z & -> & L & E)].
      + unfold extract_id_job. replace (21 <=? String.length out)%nat with false by (symmetry; apply Nat.leb_gt; lia). eauto.
      + rewrite (C40_tail pre tail L); [rewrite E; eauto|]. intros ->. discriminate.
    - intros [z E]. destruct (Nat.le_gt_cases (String.length out) 20) as [L|G]; [left; exact L|right]. destruct (text_cut 20 out ltac:(lia)) as (pre & tail & -> & L). exists pre, tail.
      rewrite (C40_tail pre tail L) in E; [|intros ->; rewrite append_nil_r in G; lia]. destruct (py_int_str tail) as [w|x]; [eauto|discriminate].
  Qed.

  (** the commands for the queue *)
  Definition asked (es : list event) : list string := flat_map (fun v => match v with Sbatch c => [c] | Srun _ => [] end) es.
  (** the first command whose answer is not accepted is the last one; [k] commands came before *)
  Definition queue (k : nat) (es : list event) (o : res unit) : Prop :=
    (o = Ok tt \/ asked es <> []) /\
    forall i c, nth_error (asked es) i = Some c -> (answered (k + i) c <-> o = Ok tt \/ (S i < List.length (asked es))%nat).
  Lemma asked_app es es2 : asked (es ++ es2) = (asked es ++ asked es2)%list.
  Proof. apply flat_map_app. Qed.
  Lemma asked_length es : List.length (asked es) = List.length (filter is_sbatch es).
  Proof. induction es as [|[c|c] es IH]; cbn; auto. Qed.
  Lemma asked_srun cs es : asked (map Srun cs ++ es) = asked es.
  Proof. rewrite asked_app. replace (asked (map Srun cs)) with (@nil string); [reflexivity|]. induction cs; cbn; auto. Qed.
  Lemma asked_sbatch cs : asked (map Sbatch cs) = cs.
  Proof. induction cs as [|c cs IH]; cbn; [reflexivity|]. f_equal. exact IH. Qed.
  Lemma queue_app k es es2 o : queue k es (Ok tt) -> queue (k + List.length (filter is_sbatch es)) es2 o -> queue k (es ++ es2) o.
  Proof.
    intros [_ Q1] [N2 Q2]. unfold queue. rewrite asked_app. split.
    - destruct N2 as [N2|N2]; [left; exact N2|right]. intros E. apply app_eq_nil in E. apply N2. tauto.
    - intros i c E. rewrite <- asked_length in Q2. destruct (Nat.lt_ge_cases i (List.length (asked es))) as [L|G].
      + rewrite nth_error_app1 in E by exact L. rewrite (Q1 i c E), app_length. split; [|intros _; left; reflexivity]. intros _. destruct N2 as [N2|N2]; [left; exact N2|right].
        destruct (asked es2); [contradiction|]. cbn. lia.
      + rewrite nth_error_app2 in E by exact G. specialize (Q2 _ _ E). replace (k + List.length (asked es) + (i - List.length (asked es)))%nat with (k + i)%nat in Q2 by lia. rewrite Q2, app_length.
        split; (intros [H|H]; [left; exact H|right; lia]).
  Qed.

  Lemma command_ok e cwd cluster d r A N AN P : usual cluster -> AN d r = (A, N) ->
    exists dj template c, job_for serialize python dir cluster partitions (class_after e cluster (at_pair e cwd d r) d r A N) (300 # 1) P = Ok (dj, template) /\
      format_params template dj = Ok c /\ realises e (partition_at cluster) AN (Sampling_run d r P) (Sbatch c).
  Proof.
    intros (S & PY & DI & HO & CL & PA) EA. set (f := at_pair e cwd d r). set (D := class_after e cluster f d r A N).
    assert (RD : ready D d r (rho_dir (scratch_of e) d r) (rho_dir (base_of e) d r) 4 4 20 "" "pimc.py").
    { constructor; try reflexivity; unfold D, class_after; cbn [pget dget String.eqb Ascii.eqb Bool.eqb]; unfold f; rewrite ?scratch_at, ?rho_at; reflexivity. }
    assert (CL' : cluster = "feynman" \/ cluster = "nlogn") by tauto.
    assert (PA' : contains (partition_of cluster VNone) partitions = true) by exact PA.
    destruct (C38_command_nlogn serialize python dir D d r _ _ 4%Z 4%Z 20%Z "" "pimc.py" cluster partitions P (300 # 1)%Q VNone S PY DI RD CL' eq_refl (or_introl eq_refl) PA') as (dj & js & d' & t & E1 & (J1 & J2 & J3 & J4 & J5 & J6) & E2 & E3 & E4).
    exists d', t. eexists. split; [exact E3|]. split; [exact E4|]. cbn [realises]. exists dj, js. split; [exact E1|]. rewrite EA. cbn [fst snd]. split.
    - assert (K : forall k w, pget D k = Some w -> ~ In k changed_keys -> pget dj k = Some w) by (intros k w X Y; rewrite J6 by exact Y; exact X).
      intros k w I. unfold entries in I. cbn [In] in I.
      repeat (destruct I as [I|I]; [injection I as <- <-; first [exact J1|exact J2|exact J3|exact J4|exact E2|exact J5|
        apply K; [unfold D, class_after; cbn [pget dget String.eqb Ascii.eqb Bool.eqb]; unfold f; rewrite ?scratch_at, ?rho_at; try (destruct e; reflexivity)|cbn; intuition discriminate]]|]); [..|destruct I].
      + do 2 f_equal. unfold at_pair. cbn [build_fs FileStruct_Model.path_vib_model]. change (template_vib_params d) with (("data_set_" ++ dec d ++ "/") ++ "parameters/").
        replace (("data_set_" ++ dec d ++ "/") ++ "parameters/") with (("data_set_" ++ dec d ++ "/parameters") ++ "/") by (rewrite !append_assoc; reflexivity).
        rewrite plots_join by (try (destruct e; reflexivity); cbn; discriminate). destruct e; cbn [root_of base_of]; rewrite !append_assoc; reflexivity.
      + do 2 f_equal. unfold at_pair. cbn [build_fs FileStruct_Model.path_rho_model]. change (template_rho_params d r) with ((("data_set_" ++ dec d ++ "/") ++ "rho_" ++ dec r ++ "/") ++ "parameters/").
        replace ((("data_set_" ++ dec d ++ "/") ++ "rho_" ++ dec r ++ "/") ++ "parameters/") with (("data_set_" ++ dec d ++ "/rho_" ++ dec r ++ "/parameters") ++ "/") by (rewrite !append_assoc; reflexivity).
        rewrite plots_join by (try (destruct e; reflexivity); cbn; discriminate). unfold rho_dir. destruct e; cbn [root_of base_of]; rewrite !append_assoc; reflexivity.
    - cbv zeta. f_equal. unfold sbatch_of, export_of. change (fmt2 (300 # 1)) with "300.00". unfold partition_of. fold (partition_at cluster). norm_str. reflexivity.
  Qed.

  Lemma engine_ok e cwd cluster d r A N AN cls k : usual cluster -> AN d r = (A, N) -> used e cls ->
    exists es o done rest, run_engine serialize python dir lines partitions sbatch cls k (at_pair e cwd d r) (parameter_dictionary e d r A N) = (class_after e cluster (at_pair e cwd d r) d r A N, es, o) /\
      map (Sampling_run d r) (beads e) = (done ++ rest)%list /\ Forall2 (realises e (partition_at cluster) AN) done es /\ (o = Ok tt -> rest = []) /\ (answers -> o = Ok tt) /\ queue k es o.
  Proof.
    intros U EA US. set (f := at_pair e cwd d r). set (D := class_after e cluster f d r A N).
    pose (cmds := fun (T : Q) (P : Z) => match job_for serialize python dir cluster partitions D T P with Ok (dj, t) => match format_params t dj with Ok c => c | _ => "" end | _ => "" end).
    assert (C : forall P, exists dj t, job_for serialize python dir cluster partitions D (300 # 1) P = Ok (dj, t) /\ format_params t dj = Ok (cmds (300 # 1)%Q P) /\ realises e (partition_at cluster) AN (Sampling_run d r P) (Sbatch (cmds (300 # 1)%Q P))).
    { intros P. destruct (command_ok e cwd cluster d r A N AN P U EA) as (dj & t & c & J1 & J2 & J3). exists dj, t. fold f D in J1. unfold cmds. rewrite J1, J2. auto. }
    unfold run_engine. pose proof U as (SER & PY & DI & HO & CL & PA). rewrite HO. pose proof (planned e cls cluster f d r A N US) as PL.
    assert (SJ : submit_jobs serialize python dir cluster partitions (fun i => sbatch (k + i)) (submission_init cls cluster (Some (parameter_dictionary e d r A N)) f) =
      (let x := submit_pairs serialize python dir cluster partitions (fun i => sbatch (k + i)) D 1 (map (fun P => (300 # 1, P)%Q) (beads e)) [] in (D, fst x, snd x))).
    { assert (G1 : pget D "temperature_list" = Some (VFloats [300 # 1]%Q)) by reflexivity. assert (G2 : pget D "bead_list" = Some (VInts (beads e))) by reflexivity.
      unfold submit_jobs. rewrite PL. fold D. rewrite G1, G2. cbn [list_prod]. rewrite app_nil_r. reflexivity. }
    rewrite SJ. cbv zeta. fold D.
    assert (L : forall ps log, exists dn rs o, submit_pairs serialize python dir cluster partitions (fun i => sbatch (k + i)) D 1 (map (fun P => (300 # 1, P)%Q) ps) log = ((log ++ map (cmds (300 # 1)%Q) dn)%list, o) /\ ps = (dn ++ rs)%list /\
      (o = Ok tt -> rs = []) /\ (answers -> o = Ok tt) /\ (o = Ok tt \/ dn <> []) /\
      forall i c, nth_error (map (cmds (300 # 1)%Q) dn) i = Some c -> (answered (k + (List.length log + i)) c <-> o = Ok tt \/ (S i < List.length dn)%nat)).
    { clear SJ PL. induction ps as [|P ps IH]; intros log.
      - exists [], [], (Ok tt). cbn. rewrite app_nil_r. do 5 (split; [solve [auto]|]). intros [|i] c E; discriminate.
      - cbn [map submit_pairs]. destruct (C P) as (dj & t & J1 & J2 & _). rewrite J1. cbn [submit_repeat]. unfold submit_job. rewrite J2.
        destruct (sbatch (k + List.length log) (cmds (300 # 1)%Q P)) as [out|] eqn:SB.
        + destruct (extract_id_job out) as [z|x] eqn:EX.
          * destruct (IH (log ++ [cmds (300 # 1)%Q P])%list) as (dn & rs & o & E & -> & O1 & O2 & O3 & O4). exists (P :: dn), rs, o. rewrite E, <- app_assoc. split; [reflexivity|]. split; [reflexivity|]. split; [exact O1|]. split; [exact O2|].
            split; [right; discriminate|]. intros ii c EI. destruct ii as [|i]; cbn [map nth_error List.length] in *.
            -- injection EI as <-. rewrite Nat.add_0_r. split; [|intros _; exists out; split; [exact SB|apply accepted_ok; eauto]]. intros _. destruct O3 as [O3|O3]; [left; exact O3|right]. destruct dn; [contradiction|cbn; lia].
            -- specialize (O4 i c EI). rewrite app_length in O4. cbn [List.length] in O4. replace (k + (List.length log + S i))%nat with (k + (List.length log + 1 + i))%nat by lia. rewrite O4. split; (intros [H|H]; [left; exact H|right; lia]).
          * exists [P], ps, (Raise x). split; [reflexivity|]. split; [reflexivity|]. split; [discriminate|]. split; [intros AA; destruct (AA (k + List.length log) (cmds (300 # 1)%Q P)) as (out' & X & Y); apply accepted_ok in Y; destruct Y as [z' Y]; congruence|].
            split; [right; discriminate|]. intros [|ii] c EI; [|destruct ii; discriminate]. cbn in EI. injection EI as <-. rewrite Nat.add_0_r. split; [intros (out' & X & Y); apply accepted_ok in Y; destruct Y as [z' Y]; congruence|intros [H|H]; [discriminate|cbn in H; lia]].
        + exists [P], ps, (Raise OtherException). split; [reflexivity|]. split; [reflexivity|]. split; [discriminate|]. split; [intros AA; destruct (AA (k + List.length log) (cmds (300 # 1)%Q P)) as (out' & X & Y); apply accepted_ok in Y; destruct Y as [z' Y]; congruence|].
          split; [right; discriminate|]. intros [|ii] c EI; [|destruct ii; discriminate]. cbn in EI. injection EI as <-. rewrite Nat.add_0_r. split; [intros (out' & X & Y); apply accepted_ok in Y; destruct Y as [z' Y]; congruence|intros [H|H]; [discriminate|cbn in H; lia]]. }
    destruct (L (beads e) []) as (dn & rs & o & E & B & O1 & O2 & O3 & O4). rewrite E. cbn [fst snd app].
    exists (map Sbatch (map (cmds (300 # 1)%Q) dn)), o, (map (Sampling_run d r) dn), (map (Sampling_run d r) rs). split; [reflexivity|]. split; [rewrite B, map_app; reflexivity|]. split; [|split; [|split]].
    - clear -C. induction dn as [|P dn IH]; [constructor|]. cbn [map]. constructor; [|exact IH]. destruct (C P) as (_ & _ & _ & _ & R). exact R.
    - intros OK. rewrite (O1 OK). reflexivity.
    - exact O2.
    - unfold queue. rewrite asked_sbatch, map_length. split; [|exact O4]. destruct O3 as [O3|O3]; [left; exact O3|right]. destruct dn; [contradiction|discriminate].
  Qed.

  Lemma plan_split e d r : plan_of e d r = (analytic_steps e d r ++ map (Sampling_run d r) (beads e))%list.
  Proof. destruct e; reflexivity. Qed.
  Lemma chosen e machine : machine = "nlogn" \/ machine = "feynman" -> root_or_chosen (ex_root e) machine None = Ok (root_of e).
  Proof. intros M. unfold root_or_chosen. apply host_ok. exact M. Qed.

  (** C107: one pair of data set and sampling model: the plan for it, or the part of it up to the first answer that is not accepted *)
  Theorem C107_pair e cwd machine cluster d r A N AN cls k : usual cluster -> AN d r = (A, N) -> used e cls -> valid e d -> machine = "nlogn" \/ machine = "feynman" ->
    dims (at_pair e cwd d r) = Ok (A, N) ->
    exists cls' es o done rest, simple_pimc_wrapper e cwd machine true None d r cls k = (cls', es, o) /\ used e cls' /\
      plan_of e d r = (done ++ rest)%list /\ Forall2 (realises e (partition_at cluster) AN) done es /\ (o = Ok tt -> rest = []) /\ (answers -> o = Ok tt) /\ queue k es o.
  Proof.
    intros U EA US V M D. unfold Campaign_Model.simple_pimc_wrapper. unfold valid in V. rewrite V. cbn [bind]. rewrite (chosen e machine M). cbn [bind]. unfold new_fs. cbn [passert bind fst].
    destruct (analytic_ok e cwd d r (partition_at cluster) AN V) as (cs & AE & AF). unfold at_pair in *. rewrite AE, D.
    destruct (engine_ok e cwd cluster d r A N AN cls k U EA US) as (es & o & dn & rs & E & P & F & O1 & O2 & QU). unfold at_pair in E. rewrite E.
    do 2 eexists. exists o, (analytic_steps e d r ++ dn)%list, rs. split; [reflexivity|]. split; [right; do 6 eexists; reflexivity|]. split; [rewrite plan_split, P, app_assoc; reflexivity|].
    split; [apply Forall2_app; assumption|]. split; [exact O1|]. split; [exact O2|]. unfold queue. rewrite asked_srun. exact QU.
  Qed.
  (** C107: without a readable model nothing is sampled, but the analytic calculations are started; without the root directory or for another
      data set nothing is started *)
  Theorem C107_no_model e cwd machine part AN d r cls k x : machine = "nlogn" \/ machine = "feynman" ->
    (valid e d -> dims (at_pair e cwd d r) = Raise x ->
      exists es, simple_pimc_wrapper e cwd machine true None d r cls k = (cls, es, Raise x) /\ Forall2 (realises e part AN) (filter is_analytic (plan_of e d r)) es) /\
    (valid e d -> simple_pimc_wrapper e cwd machine false None d r cls k = (cls, [], Raise AssertionError)) /\
    (forall is_dir root, ~ (1 <= d / 10 <= (match e with Paper => 4 | Artificial => 3 end) /\ 1 <= d mod 10 <= (match e with Paper => 6 | Artificial => 5 end))%Z ->
      simple_pimc_wrapper e cwd machine is_dir root d r cls k = (cls, [], Raise AssertionError)).
  Proof.
    intros M. unfold Campaign_Model.simple_pimc_wrapper, valid. split; [|split].
    - intros V D. pose proof V as V'. rewrite V. cbn [bind]. rewrite (chosen e machine M). cbn [bind]. unfold new_fs. cbn [passert bind fst].
      destruct (analytic_ok e cwd d r part AN V') as (cs & AE & AF). unfold at_pair in *. rewrite AE, D. eexists. split; [reflexivity|exact AF].
    - intros V. rewrite V. cbn [bind]. rewrite (chosen e machine M). reflexivity.
    - intros is_dir root NV. destruct e.
      + destruct (assert_id_data_is_valid d) as [[]|] eqn:V.
        * exfalso. apply NV. unfold assert_id_data_is_valid in V. destruct (existsb (Z.eqb d) valid_ids) eqn:X; [|discriminate]. apply existsb_exists in X. destruct X as (y & I & X). apply Z.eqb_eq in X. subst y.
          pose proof (Z.div_mod d 10 ltac:(lia)) as DM. pose proof (Z.mod_pos_bound d 10 ltac:(lia)) as MB. cbn in I. lia.
        * unfold assert_id_data_is_valid in V. destruct (existsb (Z.eqb d) valid_ids); [discriminate|]. injection V as <-. reflexivity.
      + destruct (art_assert_valid d) as [[]|] eqn:V.
        * exfalso. apply NV. unfold art_assert_valid in V. destruct (existsb (Z.eqb d) (concat (map snd art_ids))) eqn:X; [|discriminate]. apply art_valid in X. exact X.
        * unfold art_assert_valid in V. destruct (existsb (Z.eqb d) (concat (map snd art_ids))); [discriminate|]. injection V as <-. reflexivity.
  Qed.

  Lemma all_ok e cwd machine cluster AN : usual cluster -> machine = "nlogn" \/ machine = "feynman" -> forall l, (forall d r, In (d, r) l -> valid e d /\ dims (at_pair e cwd d r) = Ok (AN d r)) ->
    forall cls k, used e cls -> exists cls' es o done rest, submit_all e cwd machine true l cls k = (cls', es, o) /\ used e cls' /\
      flat_map (fun x => plan_of e (fst x) (snd x)) l = (done ++ rest)%list /\ Forall2 (realises e (partition_at cluster) AN) done es /\ (o = Ok tt -> rest = []) /\ (answers -> o = Ok tt) /\ queue k es o.
  Proof.
    intros U M. induction l as [|[d r] l IH]; intros W cls k US.
    - exists cls, [], (Ok tt), [], []. cbn. do 6 (split; [solve [auto]|]). split; [left; reflexivity|]. intros [|i] c E; discriminate.
    - destruct (W d r (or_introl eq_refl)) as [V D]. cbn [Campaign_Model.submit_all flat_map fst snd]. rewrite (surjective_pairing (AN d r)) in D.
      destruct (C107_pair e cwd machine cluster d r _ _ AN cls k U (surjective_pairing (AN d r)) US V M D) as (cls1 & es & o & dn & rs & E & U1 & P & F & O1 & O2 & QU). rewrite E. destruct o as [[]|x].
      + rewrite (O1 eq_refl), app_nil_r in P. destruct (IH (fun d' r' I => W d' r' (or_intror I)) cls1 (k + List.length (filter is_sbatch es)) U1) as (cls2 & es2 & o2 & dn2 & rs2 & E2 & U2 & P2 & F2 & O3 & O4 & QU2).
        rewrite E2. exists cls2, (es ++ es2)%list, o2, (dn ++ dn2)%list, rs2. split; [reflexivity|]. split; [exact U2|]. split; [rewrite P, P2, app_assoc; reflexivity|]. split; [apply Forall2_app; assumption|]. split; [exact O3|]. split; [exact O4|]. apply queue_app; assumption.
      + exists cls1, es, (Raise x), dn, (rs ++ flat_map (fun x => plan_of e (fst x) (snd x)) l)%list. split; [reflexivity|]. split; [exact U1|]. split; [rewrite P, app_assoc; reflexivity|]. split; [exact F|]. split; [discriminate|]. split; [intros AA; specialize (O2 AA); discriminate|exact QU].
  Qed.
  Lemma all_app e cwd machine is_dir l1 : forall l2 cls k cls1 es1, submit_all e cwd machine is_dir l1 cls k = (cls1, es1, Ok tt) ->
    submit_all e cwd machine is_dir (l1 ++ l2)%list cls k = (let '(cls2, es2, o) := submit_all e cwd machine is_dir l2 cls1 (k + List.length (filter is_sbatch es1)) in (cls2, (es1 ++ es2)%list, o)).
  Proof.
    induction l1 as [|[d r] l1 IH]; intros l2 cls k cls1 es1 E; cbn [Campaign_Model.submit_all app] in *.
    - injection E as <- <-. cbn [filter List.length]. rewrite Nat.add_0_r. destruct (submit_all e cwd machine is_dir l2 cls k) as [[c es] o]. reflexivity.
    - destruct (simple_pimc_wrapper e cwd machine is_dir None d r cls k) as [[c0 es0] [[]|x]] eqn:W; [|discriminate].
      destruct (submit_all e cwd machine is_dir l1 c0 (k + List.length (filter is_sbatch es0))) as [[c2 es2] o2] eqn:A. injection E as <- <- ->. rewrite (IH l2 _ _ _ _ A).
      rewrite filter_app, app_length, Nat.add_assoc. destruct (submit_all e cwd machine is_dir l2 c2 _) as [[c3 es3] o3]. rewrite app_assoc. reflexivity.
  Qed.

  Lemma sorted_same (l : list (Z * Z)) : forall l', StronglySorted before l -> StronglySorted before l' -> (forall x, In x l <-> In x l') -> l = l'.
  Proof.
    assert (irr : forall x, ~ before x x) by (intros [a b]; unfold before; cbn; lia). assert (asym : forall x y, before x y -> before y x -> False) by (intros [a b] [c d]; unfold before; cbn; lia).
    induction l as [|x l IH]; intros [|y l'] S S' I; [reflexivity|exfalso; apply (I y); left; reflexivity|exfalso; apply (I x); left; reflexivity|].
    apply StronglySorted_inv in S. destruct S as [S B]. apply StronglySorted_inv in S'. destruct S' as [S' B']. rewrite Forall_forall in B, B'.
    assert (E : x = y).
    { destruct (proj1 (I x) (or_introl eq_refl)) as [->|X]; [reflexivity|]. destruct (proj2 (I y) (or_introl eq_refl)) as [->|Y]; [reflexivity|]. exfalso. exact (asym _ _ (B _ Y) (B' _ X)). }
    subst y. f_equal. apply IH; auto. intros z. split; intros J.
    - destruct (proj1 (I z) (or_intror J)) as [<-|K]; [exfalso; exact (irr _ (B _ J))|exact K].
    - destruct (proj2 (I z) (or_intror J)) as [<-|K]; [exfalso; exact (irr _ (B' _ J))|exact K].
  Qed.
  (** the pairs of a system in order *)
  Definition ordered (e : example) (name : string) (l : list (Z * Z)) : Prop := StronglySorted before l /\ forall d r, In (d, r) l <-> belongs e name d r.
  (** C107: the submission of a system: what is started is the plan for its pairs in order, or the part of it up to the first answer of the
      queue that is not accepted.  This also holds after other systems were submitted in the same process *)
  Theorem C107_system e cwd machine cluster name AN cls k : In name (systems_of e) -> usual cluster -> used e cls -> machine = "nlogn" \/ machine = "feynman" ->
    (forall d r, belongs e name d r -> dims (at_pair e cwd d r) = Ok (AN d r)) ->
    exists l cls' es o done rest, ordered e name l /\ automate e cwd machine true name cls k = (cls', es, o) /\ used e cls' /\
      flat_map (fun x => plan_of e (fst x) (snd x)) l = (done ++ rest)%list /\ Forall2 (realises e (partition_at cluster) AN) done es /\ (o = Ok tt -> rest = []) /\ (answers -> o = Ok tt) /\ queue k es o.
  Proof.
    intros N U US M D. unfold automate_pimc_submission. apply name_ok in N. rewrite N. exists (survey_pairs e name).
    assert (O : ordered e name (survey_pairs e name)) by (split; [apply pairs_sorted|intros d r; apply pairs_in]).
    destruct (all_ok e cwd machine cluster AN U M (survey_pairs e name)) with (cls := cls) (k := k) as (cls' & es & o & dn & rs & R); [|exact US|].
    - intros d r I. apply pairs_in in I. split; [eapply valid_pair; exact I|apply D; exact I].
    - exists cls', es, o, dn, rs. split; [exact O|exact R].
  Qed.
  (** C107: a model that can not be read stops the submission at its pair *)
  Theorem C107_system_stops e cwd machine cluster name AN cls k l1 d r l2 x : In name (systems_of e) -> usual cluster -> used e cls -> machine = "nlogn" \/ machine = "feynman" -> answers ->
    ordered e name (l1 ++ (d, r) :: l2)%list -> (forall d' r', In (d', r') l1 -> dims (at_pair e cwd d' r') = Ok (AN d' r')) -> dims (at_pair e cwd d r) = Raise x ->
    exists cls' es, automate e cwd machine true name cls k = (cls', es, Raise x) /\
      Forall2 (realises e (partition_at cluster) AN) (flat_map (fun y => plan_of e (fst y) (snd y)) l1 ++ filter is_analytic (plan_of e d r))%list es.
  Proof.
    intros N U US M AA O D DX. unfold automate_pimc_submission. apply name_ok in N. rewrite N.
    assert (L : survey_pairs e name = (l1 ++ (d, r) :: l2)%list).
    { destruct O as [S I]. apply (sorted_same (survey_pairs e name) _ (pairs_sorted e name) S). intros [d' r']. rewrite pairs_in, I. tauto. }
    rewrite L. destruct O as [_ I].
    assert (W : forall d' r', In (d', r') l1 -> valid e d' /\ dims (at_pair e cwd d' r') = Ok (AN d' r')).
    { intros d' r' J. split; [|apply D; exact J]. eapply valid_pair. apply I. apply in_or_app. left. exact J. }
    destruct (all_ok e cwd machine cluster AN U M l1 W cls k US) as (cls1 & es1 & o & dn & rs & E & U1 & P & F & O1 & O2 & _).
    rewrite (O2 AA) in *. rewrite (O1 eq_refl), app_nil_r in P. rewrite (all_app e cwd machine true l1 _ cls k cls1 es1 E). cbn [Campaign_Model.submit_all].
    assert (V : valid e d) by (eapply valid_pair; apply I; apply in_or_app; right; left; reflexivity).
    destruct (proj1 (C107_no_model e cwd machine (partition_at cluster) AN d r cls1 (k + List.length (filter is_sbatch es1)) x M) V DX) as (es2 & E2 & F2). rewrite E2.
    exists cls1, (es1 ++ es2)%list. split; [reflexivity|]. rewrite P. apply Forall2_app; assumption.
  Qed.
  (** C107: what is refused, with nothing started *)
  Theorem C107_refused e cwd machine is_dir name cls k :
    (~ In name (systems_of e) -> automate e cwd machine is_dir name cls k = (cls, [], Raise AssertionError)) /\
    (In name (systems_of e) -> machine <> "nlogn" -> machine <> "feynman" -> automate e cwd machine is_dir name cls k = (cls, [], Raise OtherException)) /\
    (In name (systems_of e) -> machine = "nlogn" \/ machine = "feynman" -> automate e cwd machine false name cls k = (cls, [], Raise AssertionError)).
  Proof.
    unfold automate_pimc_submission. split; [|split].
    - intros N. destruct (existsb _ _) eqn:E; [apply name_ok in E; contradiction|reflexivity].
    - intros N A B. pose proof N as N'. apply name_ok in N. rewrite N. destruct (survey_pairs e name) as [|[d r] l] eqn:L.
      + exfalso. clear -N' L. destruct e; cbn [systems_of In] in N'; repeat (destruct N' as [<-|N']; [discriminate|]); exact N'.
      + cbn [Campaign_Model.submit_all]. unfold Campaign_Model.simple_pimc_wrapper. assert (V : valid e d) by (eapply valid_pair; apply pairs_in; rewrite L; left; reflexivity).
        unfold valid in V. rewrite V. cbn [bind]. unfold root_or_chosen. rewrite (host_bad _ _ A B). reflexivity.
    - intros N M. pose proof N as N'. apply name_ok in N. rewrite N. destruct (survey_pairs e name) as [|[d r] l] eqn:L.
      + exfalso. clear -N' L. destruct e; cbn [systems_of In] in N'; repeat (destruct N' as [<-|N']; [discriminate|]); exact N'.
      + cbn [Campaign_Model.submit_all]. assert (V : valid e d) by (eapply valid_pair; apply pairs_in; rewrite L; left; reflexivity).
        destruct (C107_no_model e cwd machine "" (fun _ _ => (0, 0)%Z) d r cls k OtherException M) as (_ & X & _). rewrite (X V). reflexivity.
  Qed.
  (** C107: the scripts themselves submit the first system only *)
  Theorem C107_main e cwd machine is_dir : main e cwd machine is_dir = automate e cwd machine is_dir (match e with Paper => "superimposed" | Artificial => "2x2" end) default_params 0 /\ used e default_params.
  Proof. split; [destruct e; reflexivity|left; reflexivity]. Qed.
  (** C107: on a cluster that is not known, or without the name of the cluster, nothing is sampled, but the analytic calculations of the first pair are started *)
  Theorem C107_cluster e cwd machine part AN d r A N cls k : valid e d -> machine = "nlogn" \/ machine = "feynman" -> dims (at_pair e cwd d r) = Ok (A, N) -> used e cls ->
    (forall cluster, get_hostname lines = Ok cluster -> ~ In cluster ["feynman"; "nlogn"; "graham"; "orca"]) ->
    exists cls' es x, simple_pimc_wrapper e cwd machine true None d r cls k = (cls', es, Raise x) /\ Forall2 (realises e part AN) (filter is_analytic (plan_of e d r)) es.
  Proof.
    intros V M D US NC. unfold Campaign_Model.simple_pimc_wrapper. pose proof V as V'. unfold valid in V. rewrite V. cbn [bind]. rewrite (chosen e machine M). cbn [bind]. unfold new_fs. cbn [passert bind fst].
    destruct (analytic_ok e cwd d r part AN V') as (cs & AE & AF). unfold at_pair in *. rewrite AE, D. unfold run_engine. destruct (get_hostname lines) as [c|x] eqn:G.
    - specialize (NC c eq_refl). pose proof (planned e cls c (build_fs cwd (root_of e) d r) d r A N US) as PL.
      destruct (C38_unknown_host serialize python dir c partitions (fun i => sbatch (k + i)) _ _ 1%Z [300 # 1]%Q (beads e) VNone NC PL eq_refl eq_refl eq_refl) as [x E]; [discriminate|destruct e; discriminate|].
      rewrite E. do 3 eexists. split; [reflexivity|]. cbn [map]. rewrite app_nil_r. exact AF.
    - do 3 eexists. split; [reflexivity|]. rewrite app_nil_r. exact AF.
  Qed.

  Lemma num_cut a b x c y t : is_int_char x = false -> is_int_char y = false -> dec a ++ String x c = dec b ++ String y t -> a = b /\ x = y /\ c = t.
  Proof. intros X Y E. apply (split_class is_int_char) in E; auto using dec_int_chars. destruct E as (E & E2 & E3). apply dec_inj in E. auto. Qed.
  (** C107: no text is submitted for two different steps *)
  Theorem C107_distinct e part AN d r d' r' x x' v : In x (plan_of e d r) -> In x' (plan_of e d' r') -> realises e part AN x v -> realises e part AN x' v -> x = x'.
  Proof.
    intros I I'.
    assert (K : forall d1 r1 y, In y (plan_of e d1 r1) -> match y with Analytic a b f => a = d1 /\ b = r1 /\ (f = "analytic_of_sampling_model" \/ e = Artificial /\ f = "analytic_of_coupled_model") | Sampling_run a b P => a = d1 /\ b = r1 end).
    { clear. intros d1 r1 y I. destruct e; cbn [plan_of In] in I; repeat (destruct I as [<-|I]; [auto 7|]); contradiction. }
    pose proof (K _ _ _ I) as K1. pose proof (K _ _ _ I') as K2. clear K I I'. destruct x as [a b f|a b P], x' as [a' b' f'|a' b' P']; cbn [realises]; intros R R'.
    - destruct K1 as (-> & -> & F), K2 as (-> & -> & F'). rewrite R in R'. clear R. injection R' as E. destruct F as [->|(-> & ->)], F' as [->|(E' & ->)]; try subst e.
      + destruct e; cbn in E.
        * apply num_cut in E; try reflexivity. destruct E as (<- & _ & E). injection E as E. apply append_inj_l in E. cbn in E. injection E as E. apply num_cut in E; try reflexivity. destruct E as (<- & _). reflexivity.
        * apply num_cut in E; try reflexivity. destruct E as (<- & _ & E). injection E as E. apply num_cut in E; try reflexivity. destruct E as (<- & _). reflexivity.
      + cbn in E. apply num_cut in E; try reflexivity. destruct E as (_ & _ & E). discriminate.
      + cbn in E. apply num_cut in E; try reflexivity. destruct E as (_ & _ & E). discriminate.
      + cbn in E. apply num_cut in E; try reflexivity. destruct E as (<- & _ & E). injection E as E. apply append_inj_l in E. cbn in E. injection E as E. apply num_cut in E; try reflexivity. destruct E as (<- & _). reflexivity.
    - destruct R' as (dj & js & _ & _ & R'). cbv zeta in R'. rewrite R in R'. discriminate.
    - destruct R as (dj & js & _ & _ & R). cbv zeta in R. rewrite R' in R. discriminate.
    - destruct K1 as (-> & ->), K2 as (-> & ->). destruct R as (dj & js & _ & _ & R). destruct R' as (dj' & js' & _ & _ & R'). cbv zeta in R, R'. rewrite R in R'. clear R. injection R' as E. rewrite !append_assoc in E. cbn in E.
      apply num_cut in E; try reflexivity. destruct E as (<- & _ & E). injection E as E. rewrite ?append_assoc in E. cbn in E. apply num_cut in E; try reflexivity. destruct E as (<- & _ & E). injection E as E. rewrite ?append_assoc in E. cbn in E. apply num_cut in E; try reflexivity. destruct E as (<- & _). reflexivity.
  Qed.
End Campaign.
Print Assumptions C107_pair.
Print Assumptions C107_no_model.
Print Assumptions C107_system.
Print Assumptions C107_system_stops.
Print Assumptions C107_refused.
Print Assumptions C107_main.
Print Assumptions C107_cluster.
Print Assumptions C107_distinct.

(** a queue that refuses the third command: the third pair of the system is the last for which something is submitted *)
Definition example_queue (i : nat) (c : string) : option string := if Nat.eqb i 2 then Some "sbatch: error: Batch job submission failed" else Some "Submitted batch job 77".
Definition example_submission (queue : nat -> string -> option string) (name : string) : params * list event * res unit :=
  automate_pimc_submission (fun _ => Ok "{}") "/usr/bin/python3" "/jb" (fun _ => Ok (2, 1)%Z) ["ClusterName = nlogn"] "serial highmem" queue Paper "/home" "nlogn" true name default_params 0.
Lemma example_usual : usual (fun _ => Ok "{}") "/usr/bin/python3" "/jb" ["ClusterName = nlogn"] "serial highmem" "nlogn".
Proof. split; [intros d; eauto|]. repeat split; auto. Qed.
Example C107_example : (exists l cls' es done rest x, ordered Paper "jahnteller" l /\ example_submission example_queue "jahnteller" = (cls', es, Raise x) /\
    flat_map (fun y => plan_of Paper (fst y) (snd y)) l = (done ++ rest)%list /\ Forall2 (realises (fun _ => Ok "{}") "/usr/bin/python3" "/jb" Paper "serial" (fun _ _ => (2, 1)%Z)) done es /\ List.length (asked es) = 3%nat /\ rest <> []) /\
  (exists cls' es, example_submission (fun _ _ => Some "Submitted batch job 77") "jahnteller" = (cls', es, Ok tt)).
Proof.
  assert (J : In "jahnteller" (systems_of Paper)) by (cbn; auto). split.
  - destruct (C107_system (fun _ => Ok "{}") "/usr/bin/python3" "/jb" (fun _ => Ok (2, 1)%Z) ["ClusterName = nlogn"] "serial highmem" example_queue Paper "/home" "nlogn" "nlogn" "jahnteller" (fun _ _ => (2, 1)%Z) default_params 0 J example_usual (or_introl eq_refl) (or_introl eq_refl) (fun _ _ _ => eq_refl))
      as (l & cls' & es & o & dn & rs & O & E & _ & P & F & O1 & _ & Q1 & Q2).
    assert (R : let '(_, es0, o0) := example_submission example_queue "jahnteller" in List.length (asked es0) = 3%nat /\ List.length es0 = 6%nat /\ o0 = Raise ValueError) by (lazy; auto).
    unfold example_submission in *. rewrite E in *. destruct R as (R1 & R2 & ->). exists l, cls', es, dn, rs, ValueError. split; [exact O|]. split; [reflexivity|]. split; [exact P|]. split; [exact F|]. split; [exact R1|].
    intros ->. rewrite app_nil_r in P. apply Forall2_length in F. rewrite R2, <- P in F.
    assert (L : l = survey_pairs Paper "jahnteller") by (destruct O as [S I]; apply sorted_same; [exact S|apply pairs_sorted|]; intros [d r]; rewrite pairs_in, I; tauto).
    rewrite L in F. discriminate.
  - destruct (C107_system (fun _ => Ok "{}") "/usr/bin/python3" "/jb" (fun _ => Ok (2, 1)%Z) ["ClusterName = nlogn"] "serial highmem" (fun _ _ => Some "Submitted batch job 77") Paper "/home" "nlogn" "nlogn" "jahnteller" (fun _ _ => (2, 1)%Z) default_params 0 J example_usual (or_introl eq_refl) (or_introl eq_refl) (fun _ _ _ => eq_refl))
      as (l & cls' & es & o & dn & rs & O & E & _ & P & F & O1 & O2 & _). exists cls', es. rewrite <- O2; [exact E|]. intros i c. exists "Submitted batch job 77". split; [reflexivity|]. right. exists "Submitted batch job ", "77", 77%Z. auto.
Qed.
