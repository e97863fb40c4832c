From Coq Require Import QArith.
From Verif Require Import Common Common_Proofs PyStr_Model PyStr_Proofs FileName_Model Json_Model FileStruct_Model FileStruct_Proofs JobBoss_Model Results_Model Job_Model Job_Spec.
From Verif Require Import JobBoss2_Proofs.
Local Open Scope string_scope.
Local Open Scope nat_scope.

(** ---- characters ---- *)
Lemma all_iff (p : ascii -> bool) s : all_chars p s = true <-> forall c, In c (list_ascii_of_string s) -> p c = true.
Proof.
  induction s as [|c s IH]; cbn [all_chars list_ascii_of_string In]; [intuition|].
  rewrite andb_true_iff, IH. split; [intros [A B] x [->|C]; auto|]. intros K. split; auto.
Qed.
Lemma lacks_iff x s : lacks x s <-> all_chars (fun c => negb (Ascii.eqb c x)) s = true.
Proof.
  rewrite all_iff. unfold lacks. split.
  - intros K c C. apply negb_true_iff, Ascii.eqb_neq. intros ->. auto.
  - intros K C. apply K in C. rewrite Ascii.eqb_refl in C. discriminate.
Qed.
Definition bare (c : ascii) : bool := negb (blank c) && negb (Ascii.eqb c squote) && negb (Ascii.eqb c dquote) && negb (special c).
Lemma path_bare c : path_char c = true -> bare c = true /\ Ascii.eqb c "," = false /\ Ascii.eqb c "=" = false /\ nat_of_ascii c <> 36 /\ nat_of_ascii c <> 96 /\ nat_of_ascii c <> 92.
Proof.
  destruct c as [[] [] [] [] [] [] [] []]; vm_compute; try discriminate; intros _; repeat split; discriminate.
Qed.
Lemma path_all s : path_text s -> all_chars bare s = true.
Proof. intros K. apply all_iff. intros c C. apply path_bare. auto. Qed.
Lemma path_no x s : path_text s -> path_char x = false -> lacks x s.
Proof. intros K X C. apply K in C. congruence. Qed.
Lemma path_app a b : path_text (a ++ b) <-> path_text a /\ path_text b.
Proof. unfold path_text. rewrite <- !all_iff, all_chars_app, andb_true_iff. tauto. Qed.
Lemma path_cons c b : path_text (String c b) <-> path_char c = true /\ path_text b.
Proof. unfold path_text. rewrite <- !all_iff. cbn [all_chars]. rewrite andb_true_iff. tauto. Qed.
Lemma path_lit s : all_chars path_char s = true -> path_text s.
Proof. intros K c C. exact (proj1 (all_iff path_char s) K c C). Qed.
Lemma is_digit_path c : is_digit c = true -> path_char c = true.
Proof. destruct c as [[] [] [] [] [] [] [] []]; vm_compute; auto; discriminate. Qed.
Lemma dec_path z : path_text (dec z).
Proof.
  destruct (Z_lt_le_dec z 0) as [L|L].
  - destruct z as [|p|p]; try lia. cbn [dec]. apply path_cons. split; [reflexivity|].
    apply path_lit. eapply all_chars_impl; [apply is_digit_path|]. change (dec_N (N.pos p)) with (dec (Z.pos p)). apply dec_digits. lia.
  - apply path_lit. eapply all_chars_impl; [apply is_digit_path|]. apply dec_digits. auto.
Qed.

(** ---- the shell ---- *)
Definition pre (w : string) (x : option (list string)) : option (list string) := match x with Some ws => Some (w :: ws) | None => None end.
Lemma go_bare w t s : all_chars bare t = true -> shell_go Bare (Some w) (t ++ s) = shell_go Bare (Some (w ++ t)) s.
Proof.
  revert w. induction t as [|c t IH]; intros w K; [rewrite append_nil_r; auto|].
  cbn [all_chars] in K. apply andb_true_iff in K. destruct K as [C K]. unfold bare in C. rewrite !andb_true_iff, !negb_true_iff in C.
  destruct C as [[[C1 C2] C3] C4]. cbn [String.append shell_go]. rewrite C1, C2, C3, C4, IH by auto. rewrite append_assoc. reflexivity.
Qed.
Lemma go_start t s : t <> "" -> all_chars bare t = true -> shell_go Bare None (t ++ s) = shell_go Bare (Some t) s.
Proof.
  intros N K. destruct t as [|c t]; [easy|]. 
  cbn [all_chars] in K. apply andb_true_iff in K. destruct K as [C K]. unfold bare in C. rewrite !andb_true_iff, !negb_true_iff in C.
  destruct C as [[[C1 C2] C3] C4]. cbn [String.append shell_go]. rewrite C1, C2, C3, C4, go_bare by auto. reflexivity.
Qed.
Lemma go_word t s : t <> "" -> all_chars bare t = true -> shell_go Bare None (t ++ " " ++ s) = pre t (shell_go Bare None s).
Proof. intros N K. rewrite go_start by auto. reflexivity. Qed.
Lemma go_end t : t <> "" -> all_chars bare t = true -> shell_go Bare None t = Some [t].
Proof. intros N K. rewrite <- (append_nil_r t) at 1. rewrite go_start by auto. reflexivity. Qed.
Lemma go_single w t s : lacks squote t -> shell_go Single (Some w) (t ++ String squote s) = shell_go Bare (Some (w ++ t)) s.
Proof.
  intros K. apply lacks_iff in K. revert w K. induction t as [|c t IH]; intros w K; [rewrite append_nil_r; reflexivity|].
  cbn [all_chars] in K. apply andb_true_iff in K. destruct K as [C K]. apply negb_true_iff in C.
  cbn [String.append shell_go]. rewrite C, IH by auto. rewrite append_assoc. reflexivity.
Qed.
Lemma go_double w t s : path_text t -> shell_go Double (Some w) (t ++ String dquote s) = shell_go Bare (Some (w ++ t)) s.
Proof.
  revert w. induction t as [|c t IH]; intros w K; [rewrite append_nil_r; reflexivity|].
  apply path_cons in K. destruct K as [C K]. apply path_bare in C. destruct C as (C & _ & _ & C4 & C5 & C6).
  unfold bare in C. rewrite !andb_true_iff, !negb_true_iff in C. destruct C as [[[C1 C2] C3] _].
  cbn [String.append shell_go existsb]. rewrite C3. apply Nat.eqb_neq in C4, C5, C6. rewrite C4, C5, C6. cbn [orb]. rewrite IH by auto. rewrite append_assoc. reflexivity.
Qed.
Lemma go_open_single w s : shell_go Bare (Some w) (String squote s) = shell_go Single (Some w) s.
Proof. reflexivity. Qed.
Lemma go_open_double w s : shell_go Bare (Some w) (String dquote s) = shell_go Double (Some w) s.
Proof. reflexivity. Qed.
Lemma go_blank w s : shell_go Bare (Some w) (" " ++ s) = pre w (shell_go Bare None s).
Proof. reflexivity. Qed.
Lemma go_blank0 s : shell_go Bare None (" " ++ s) = shell_go Bare None s.
Proof. reflexivity. Qed.

Lemma after_app p s : after p (p ++ s) = s.
Proof.
  unfold after. rewrite append_length. replace (String.length p + String.length s - String.length p) with (String.length s) by lia.
  induction p as [|c p IH]; cbn [String.length String.append]; [|apply IH].
  induction s as [|c s IH]; cbn; [reflexivity|]. rewrite IH. reflexivity.
Qed.

(** ---- the environment ---- *)
Lemma split_char x a b : lacks x a -> split (String x "") (a ++ String x b) = a :: split (String x "") b.
Proof. intros K. apply lacks_iff in K. apply (split_first (String x "") a b); [discriminate|]. apply no_start_char. auto. Qed.
Lemma split_lack x a : lacks x a -> split (String x "") a = [a].
Proof. intros K. apply lacks_iff in K. apply split_none; [discriminate|]. apply no_start_char. auto. Qed.
Lemma variable_of name v : lacks "=" name -> variable (name ++ "=" ++ v) = (name, v).
Proof.
  intros K. unfold variable. change (name ++ "=" ++ v) with (name ++ String "=" v). rewrite split_char by auto.
  f_equal. change (name ++ String "=" v) with (name ++ "=" ++ v). rewrite <- append_assoc. apply after_app.
Qed.
Lemma lacks_app x a b : lacks x (a ++ b) <-> lacks x a /\ lacks x b.
Proof. rewrite !lacks_iff, all_chars_app, andb_true_iff. tauto. Qed.
Lemma lacks_cons x c b : lacks x (String c b) <-> c <> x /\ lacks x b.
Proof. rewrite !lacks_iff. cbn [all_chars]. rewrite andb_true_iff, negb_true_iff, Ascii.eqb_neq. tauto. Qed.
Lemma lacks_lit x s : all_chars (fun c => negb (Ascii.eqb c x)) s = true -> lacks x s.
Proof. intros K. apply lacks_iff. auto. Qed.

Ltac lk := repeat (rewrite lacks_app); repeat split; try assumption; try (apply lacks_lit; reflexivity); try (apply path_no; [assumption|reflexivity]).

Section Command.
  Variables (partition account python dir sub name rho scratch from script js wait : string) (cpus cores mem : Z).
  Hypothesis Hpart : partition = "" \/ exists p, partition = " --partition=" ++ p /\ path_text p.
  Hypothesis Hacc : account = "" \/ account = " --account=rrg-pnroy".
  Hypothesis Hwait : wait = "" \/ wait = "--wait".
  Hypothesis Hpython : path_text python.
  Hypothesis Hdir : path_text dir.
  Hypothesis Hdir1 : String.prefix "/" dir = true.
  Hypothesis Hsub : path_text sub.
  Hypothesis Hname : path_text name.
  Hypothesis Hrho : path_text rho.
  Hypothesis Hrho1 : rho <> "".
  Hypothesis Hscratch : path_text scratch.
  Hypothesis Hfrom : path_text from.
  Hypothesis Hscript : path_text script.
  Hypothesis Hquote : lacks squote js.
  Hypothesis Hcomma : lacks "," js.

  Definition vars : string :=
    "ROOT_DIR=" ++ rho ++ ",SCRATCH_DIR=" ++ scratch ++ ",COPY_FROM=" ++ scratch ++ "results/" ++ from ++ ",COPY_TO=" ++ rho
    ++ "results/,PYTHON3_PATH=" ++ python ++ ",SAMPLING_SCRIPT=" ++ dir ++ "/" ++ sub ++ "/" ++ script ++ ",EXECUTION_PARAMETERS=" ++ js.
  Definition job_script : string := dir ++ "/" ++ sub ++ "/pimc_job.sh".

  Ltac bare_tac := repeat rewrite all_chars_app; repeat (apply andb_true_iff; split); try reflexivity; try (apply path_all; assumption); try (apply path_all; apply dec_path).

  Lemma export_words s : shell_go Bare None (export_of python dir sub rho scratch from script js ++ " " ++ s) = pre ("--export=" ++ vars) (shell_go Bare None s).
  Proof.
    unfold export_of.
    replace ((" --export=ROOT_DIR=" ++ rho ++ ",SCRATCH_DIR=" ++ scratch ++ ",COPY_FROM=""" ++ scratch ++ "results/" ++ from ++ """,COPY_TO=""" ++ rho
      ++ "results/"",PYTHON3_PATH=" ++ python ++ ",SAMPLING_SCRIPT=" ++ dir ++ "/" ++ sub ++ "/" ++ script ++ ",EXECUTION_PARAMETERS='" ++ js ++ "'") ++ " " ++ s)
     with (" " ++ ("--export=ROOT_DIR=" ++ rho ++ ",SCRATCH_DIR=" ++ scratch ++ ",COPY_FROM=") ++ String dquote ((scratch ++ "results/" ++ from) ++
        String dquote (",COPY_TO=" ++ String dquote ((rho ++ "results/") ++ String dquote ((",PYTHON3_PATH=" ++ python ++ ",SAMPLING_SCRIPT=" ++ dir ++ "/" ++ sub ++ "/" ++ script ++ ",EXECUTION_PARAMETERS=") ++ String squote (js ++ String squote (" " ++ s)))))))
     by (repeat rewrite !append_assoc; cbn [String.append]; reflexivity).
    rewrite go_blank0, go_start; [|discriminate|bare_tac].
    rewrite go_open_double, go_double by (rewrite !path_app; repeat split; auto; apply path_lit; reflexivity).
    rewrite go_bare by reflexivity.
    rewrite go_open_double, go_double by (rewrite !path_app; repeat split; auto; apply path_lit; reflexivity).
    rewrite go_bare by bare_tac.
    rewrite go_open_single, go_single by auto. rewrite go_blank. f_equal. unfold vars. repeat rewrite append_assoc. cbn [String.append]. reflexivity.
  Qed.

  Lemma command_words : exists opts,
    shell_words (sbatch_of partition account dir sub name rho cpus cores mem wait (export_of python dir sub rho scratch from script js)) =
      Some ("sbatch" :: opts) /\ sbatch_args opts "" = Some (vars, job_script).
  Proof.
    assert (NE : forall a b, a <> "" -> a ++ b <> "") by (intros [|] ? ?; cbn; congruence).
    assert (D0 : dir <> "") by (intros ->; discriminate).
    assert (E : sbatch_of partition account dir sub name rho cpus cores mem wait (export_of python dir sub rho scratch from script js) =
      "sbatch" ++ " " ++ "-m" ++ " " ++ "n" ++ " " ++ "--ntasks=1" ++ " " ++ ("--job-name=" ++ name) ++ partition ++ " " ++ "-D" ++ " " ++ (rho ++ "execution_output/") ++ " " ++
      ("--output=" ++ rho ++ "execution_output/" ++ name ++ ".o%A") ++ " " ++ ("--cpus-per-task=" ++ dec cpus) ++ " " ++ ("--cores-per-socket=" ++ dec cores) ++ " " ++
      ("--mem=" ++ dec mem ++ "G") ++ account ++ " " ++ wait ++ " " ++ export_of python dir sub rho scratch from script js ++ " " ++ job_script).
    { unfold sbatch_of, job_script. repeat rewrite append_assoc. cbn [String.append]. reflexivity. }
    unfold shell_words. rewrite E. clear E.
    assert (F : forall p s, path_text p -> shell_go Bare None (("--partition=" ++ p) ++ " " ++ s) = pre ("--partition=" ++ p) (shell_go Bare None s)).
    { intros p s K. apply go_word; [discriminate|]. bare_tac. }
    rewrite go_word, go_word, go_word, go_word by (discriminate || reflexivity).
    rewrite go_start; [|discriminate|bare_tac].
    assert (X : forall Q : option (list string) -> Prop, (forall more, (more = [] \/ exists p, more = ["--partition=" ++ p]) ->
       Q (match shell_go Bare None ("-D" ++ " " ++ (rho ++ "execution_output/") ++ " " ++
      ("--output=" ++ rho ++ "execution_output/" ++ name ++ ".o%A") ++ " " ++ ("--cpus-per-task=" ++ dec cpus) ++ " " ++ ("--cores-per-socket=" ++ dec cores) ++ " " ++
      ("--mem=" ++ dec mem ++ "G") ++ account ++ " " ++ wait ++ " " ++ export_of python dir sub rho scratch from script js ++ " " ++ job_script) with Some ws => Some (("--job-name=" ++ name)%string :: more ++ ws)%list | None => None end)) ->
       Q (shell_go Bare (Some ("--job-name=" ++ name)) (partition ++ " " ++ "-D" ++ " " ++ (rho ++ "execution_output/") ++ " " ++
      ("--output=" ++ rho ++ "execution_output/" ++ name ++ ".o%A") ++ " " ++ ("--cpus-per-task=" ++ dec cpus) ++ " " ++ ("--cores-per-socket=" ++ dec cores) ++ " " ++
      ("--mem=" ++ dec mem ++ "G") ++ account ++ " " ++ wait ++ " " ++ export_of python dir sub rho scratch from script js ++ " " ++ job_script))).
    { intros Q K. destruct Hpart as [->|(p & -> & Kp)].
      - cbn [String.append]. specialize (K [] (or_introl eq_refl)). exact K.
      - specialize (K ["--partition=" ++ p] (or_intror (ex_intro _ p eq_refl))).
        change (" --partition=" ++ p) with (" " ++ ("--partition=" ++ p)). rewrite (append_assoc " "), go_blank, F by auto.
        destruct (shell_go Bare None ("-D" ++ _)); exact K. }
    apply X. clear X. intros more Hmore.
    rewrite go_word by (discriminate || reflexivity).
    rewrite go_word by (try (apply NE; assumption); bare_tac).
    rewrite go_word by (discriminate || bare_tac).
    rewrite go_word by (discriminate || bare_tac).
    rewrite go_word by (discriminate || bare_tac).
    rewrite go_start by (discriminate || bare_tac).
    assert (Y : exists more2, (more2 = [] \/ more2 = ["--account=rrg-pnroy"]) /\
      shell_go Bare (Some ("--mem=" ++ dec mem ++ "G")) (account ++ " " ++ wait ++ " " ++ export_of python dir sub rho scratch from script js ++ " " ++ job_script) =
      match shell_go Bare None (wait ++ " " ++ export_of python dir sub rho scratch from script js ++ " " ++ job_script) with Some ws => Some (("--mem=" ++ dec mem ++ "G")%string :: more2 ++ ws)%list | None => None end).
    { destruct Hacc as [->| ->]; [exists []|exists ["--account=rrg-pnroy"]]; (split; [auto|]).
      - cbn [String.append]. reflexivity.
      - change (" --account=rrg-pnroy" ++ ?x) with (" " ++ "--account=rrg-pnroy" ++ x). rewrite go_blank, go_word by (discriminate || reflexivity).
        destruct (shell_go Bare None (wait ++ _)); reflexivity. }
    destruct Y as (more2 & Hmore2 & ->).
    assert (Z : exists more3, (more3 = [] \/ more3 = ["--wait"]) /\
      shell_go Bare None (wait ++ " " ++ export_of python dir sub rho scratch from script js ++ " " ++ job_script) = Some (more3 ++ [("--export=" ++ vars)%string; job_script])%list).
    { assert (K : shell_go Bare None (export_of python dir sub rho scratch from script js ++ " " ++ job_script) = Some [("--export=" ++ vars); job_script]).
      { rewrite export_words, go_end; [reflexivity| |unfold job_script; bare_tac]. unfold job_script. apply NE. auto. }
      destruct Hwait as [->| ->]; [exists []|exists ["--wait"]]; (split; [auto|]).
      - change ("" ++ ?x) with x. rewrite go_blank0. exact K.
      - rewrite go_word by (discriminate || reflexivity). rewrite K. reflexivity. }
    destruct Z as (more3 & Hmore3 & ->). cbn [pre].
    assert (J : String.prefix "/" job_script = true) by (apply prefix_app; auto).
    apply prefix_slash in J. destruct J as [jj J].
    eexists. split; [reflexivity|].
    destruct Hmore as [->|(p & ->)]; destruct Hmore2 as [->| ->]; destruct Hmore3 as [->| ->]; cbn [app];
      rewrite J; cbn [sbatch_args String.append String.eqb Ascii.eqb Bool.eqb orb String.prefix ascii_dec]; 
      cbn -[after vars]; (replace (after "--export=" _) with vars by (symmetry; apply (after_app "--export=" vars))); reflexivity.
  Qed.

  Lemma environment_of : environment vars =
    [("ROOT_DIR", rho); ("SCRATCH_DIR", scratch); ("COPY_FROM", scratch ++ "results/" ++ from); ("COPY_TO", rho ++ "results/");
     ("PYTHON3_PATH", python); ("SAMPLING_SCRIPT", dir ++ "/" ++ sub ++ "/" ++ script); ("EXECUTION_PARAMETERS", js)].
  Proof.
    unfold environment, vars.
    replace ("ROOT_DIR=" ++ rho ++ ",SCRATCH_DIR=" ++ scratch ++ ",COPY_FROM=" ++ scratch ++ "results/" ++ from ++ ",COPY_TO=" ++ rho
    ++ "results/,PYTHON3_PATH=" ++ python ++ ",SAMPLING_SCRIPT=" ++ dir ++ "/" ++ sub ++ "/" ++ script ++ ",EXECUTION_PARAMETERS=" ++ js)
    with (("ROOT_DIR=" ++ rho) ++ String "," (("SCRATCH_DIR=" ++ scratch) ++ String "," (("COPY_FROM=" ++ scratch ++ "results/" ++ from) ++ String ","
      (("COPY_TO=" ++ rho ++ "results/") ++ String "," (("PYTHON3_PATH=" ++ python) ++ String "," (("SAMPLING_SCRIPT=" ++ dir ++ "/" ++ sub ++ "/" ++ script) ++ String ","
      ("EXECUTION_PARAMETERS=" ++ js)))))))
    by (repeat rewrite append_assoc; cbn [String.append]; reflexivity).
    rewrite !split_char by lk. rewrite split_lack by lk.
    cbn [map].
    change ("ROOT_DIR=" ++ ?x) with ("ROOT_DIR" ++ "=" ++ x). change ("SCRATCH_DIR=" ++ ?x) with ("SCRATCH_DIR" ++ "=" ++ x).
    change ("COPY_FROM=" ++ ?x) with ("COPY_FROM" ++ "=" ++ x). change ("COPY_TO=" ++ ?x) with ("COPY_TO" ++ "=" ++ x).
    change ("PYTHON3_PATH=" ++ ?x) with ("PYTHON3_PATH" ++ "=" ++ x). change ("SAMPLING_SCRIPT=" ++ ?x) with ("SAMPLING_SCRIPT" ++ "=" ++ x).
    change ("EXECUTION_PARAMETERS=" ++ ?x) with ("EXECUTION_PARAMETERS" ++ "=" ++ x).
    rewrite !variable_of by (apply lacks_lit; reflexivity). reflexivity.
  Qed.

  Lemma accept_of isfile : accept isfile (sbatch_of partition account dir sub name rho cpus cores mem wait (export_of python dir sub rho scratch from script js)) =
    if isfile (dir ++ "/" ++ sub ++ "/pimc_job.sh") then
    Some ([("ROOT_DIR", rho); ("SCRATCH_DIR", scratch); ("COPY_FROM", scratch ++ "results/" ++ from); ("COPY_TO", rho ++ "results/");
     ("PYTHON3_PATH", python); ("SAMPLING_SCRIPT", dir ++ "/" ++ sub ++ "/" ++ script); ("EXECUTION_PARAMETERS", js)], dir ++ "/" ++ sub ++ "/pimc_job.sh")
    else None.
  Proof.
    destruct command_words as (opts & E & F). unfold accept. rewrite E, F, environment_of. reflexivity.
  Qed.
End Command.
