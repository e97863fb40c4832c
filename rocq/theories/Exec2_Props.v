(** Further theorems on the electronic structure workflow: the texts that are written, the
    defaults and the kinds of failure are fixed one by one. *)
From Verif Require Import Common PyStr_Model JobBoss_Model Exec_Model Exec_Spec Exec_Proofs.
Local Open Scope nat_scope.

(** C44: the line that is appended for each state, and the missing file *)
Theorem C44_recorded_text s text d lg :
  record_state (mkJob (Some s) text d lg) =
    (mkJob (Some s) (Some ((match text with None => "" | Some t => t end) ++
       (match s with OPT => "OPT" | NIP => "NIP" | VIB => "VIB" | IPEOMCC => "IPEOMCC" | PREPVIB => "PREPVIB" | VIBRON => "VIBRON" | FINISHED => "FINISHED" end) ++
       String (Ascii.ascii_of_nat 10) ""))%string d lg, Ok tt) /\
  record_state (mkJob None text d lg) = (mkJob None (Some (match text with None => "" | Some t => t end)%string) d lg, Raise AttributeError) /\
  (forall st, set_state_from_file (mkJob st None d lg) = (mkJob st None d lg, Raise OSError)).
Proof. split; [|split; reflexivity]. destruct s; reflexivity. Qed.
Print Assumptions C44_recorded_text.
Example C44_recorded_text_example d :
  jfile (fst (record_state (mkJob (Some IPEOMCC) (Some "VIB
") d []))) = Some "VIB
IPEOMCC
"%string.
Proof. reflexivity. Qed.

(** C45: the command line number selects the state with that number and nothing else is set up *)
Theorem C45_start z file params j : test_one (Some z) file params = Ok j <->
  exists s, jstate j = Some s /\ jfile j = file /\ jparams j = params /\ jlog j = [] /\
    match s with OPT => z = 1 | NIP => z = 2 | VIB => z = 3 | IPEOMCC => z = 4 | PREPVIB => z = 5 | VIBRON => z = 6 | FINISHED => z = 7 end%Z.
Proof.
  unfold test_one, new_job. split.
  - intros H. destruct (of_value z) as [s|] eqn:E; [|discriminate]. cbn in H. injection H as <-. exists s. repeat split.
    unfold of_value in E. destruct (find _ members) as [s'|] eqn:F; [|discriminate]. injection E as ->.
    apply find_some in F. destruct F as [_ F]. apply Z.eqb_eq in F. destruct s; cbn in F; lia.
  - intros (s & A & B & C & D & E). destruct j as [a b c l]. cbn in *. subst a b c l. destruct s; subst z; reflexivity.
Qed.
Print Assumptions C45_start.
Example C45_start_example : exists j, test_one (Some 4%Z) None [] = Ok j /\ jstate j = Some IPEOMCC.
Proof. eexists. split; reflexivity. Qed.

(** C68: the parameters before anything is read; and the key "nip" that the workflow reads and writes is not among them *)
Theorem C68_defaults k v : dget String.eqb default_parameters k = Some v <->
  (In k ["calculation"; "theory"; "basis"; "NIP"]%string /\ v = PNone) \/ (k = "DROPMO" /\ v = PText "")%string \/
  (k = "gridVibron"%string /\ v = PInt 3) \/ (In k ["ccConv"; "scfConv"; "estateTol"]%string /\ v = PInt 10).
Proof.
  unfold default_parameters. cbn [dget]. split.
  - repeat match goal with |- context [String.eqb ?a k] => destruct (String.eqb_spec a k) | |- context [String.eqb k ?a] => destruct (String.eqb_spec k a) end;
      subst; intros H; try discriminate H; injection H as <-; cbn; intuition auto.
  - cbn [In]. intros H. repeat match goal with H : _ \/ _ |- _ => destruct H | H : _ /\ _ |- _ => destruct H | H : False |- _ => destruct H end; subst; reflexivity.
Qed.
Print Assumptions C68_defaults.

(** C68: what happens to parameters that are missing, not set or not supported; basis, theory and calculation are tested in this order *)
Theorem C68_not_supported text j d k : read_parameters (jparams j) (file_lines text) = (d, Ok tt) ->
  let good k := match dget String.eqb d k with
                | Some (PText s) => In s (if String.eqb k "basis" then ["TZ2P"; "DZP"] else if String.eqb k "theory" then ["MBPT(2)"; "CCSD"; "CCSD(T)"] else ["IP"])%string
                | _ => False end in
  (k = "basis" \/ k = "theory" /\ good "basis" \/ k = "calculation" /\ good "basis" /\ good "theory")%string -> ~ good k ->
  parse_input_parameters (Some text) j =
    (mkJob (jstate j) (jfile j) d (jlog j), Raise (match dget String.eqb d k with None => KeyError | Some _ => AssertionError end)).
Proof.
  intros R good K G. unfold parse_input_parameters. unfold mbind at 1. rewrite R. unfold set_params.
  assert (P : forall k0 l, (forall s, In s (if String.eqb k0 "basis" then ["TZ2P"; "DZP"] else if String.eqb k0 "theory" then ["MBPT(2)"; "CCSD"; "CCSD(T)"] else ["IP"])%string <-> In s l) ->
     supported d k0 l = if match dget String.eqb d k0 with Some (PText s) => existsb (String.eqb s) l | _ => false end then Ok tt
                        else Raise (match dget String.eqb d k0 with None => KeyError | Some _ => AssertionError end)).
  { intros k0 l _. unfold supported. destruct (dget String.eqb d k0) as [[|s|z]|]; try reflexivity. }
  assert (Q : forall k0 l, (forall s, In s (if String.eqb k0 "basis" then ["TZ2P"; "DZP"] else if String.eqb k0 "theory" then ["MBPT(2)"; "CCSD"; "CCSD(T)"] else ["IP"])%string <-> In s l) ->
     (good k0 -> supported d k0 l = Ok tt) /\ (~ good k0 -> supported d k0 l = Raise (match dget String.eqb d k0 with None => KeyError | Some _ => AssertionError end))).
  { intros k0 l L. rewrite (P k0 l L). unfold good. destruct (dget String.eqb d k0) as [[|s|z]|]; try (split; [intros []|reflexivity]).
    destruct (existsb (String.eqb s) l) eqn:X.
    - split; [reflexivity|]. intros N. exfalso. apply N. apply L. apply existsb_exists in X. destruct X as (y & Y & E). apply String.eqb_eq in E. subst. auto.
    - split; [|reflexivity]. intros Y. apply L in Y. exfalso. assert (existsb (String.eqb s) l = true) by (apply existsb_exists; exists s; rewrite String.eqb_refl; auto). congruence. }
  destruct (Q "basis"%string basis_list (fun s => iff_refl _)) as [B1 B2].
  destruct (Q "theory"%string theory_list (fun s => iff_refl _)) as [T1 T2].
  destruct (Q "calculation"%string calculations_list (fun s => iff_refl _)) as [C1 C2].
  unfold mbind. cbn [jparams].
  destruct K as [->|[[-> K]|(-> & K1 & K2)]].
  - rewrite (B2 G). reflexivity.
  - rewrite (B1 K). cbn [jparams]. rewrite (T2 G). reflexivity.
  - rewrite (B1 K1). cbn [jparams]. rewrite (T1 K2). cbn [jparams]. rewrite (C2 G). reflexivity.
Qed.
Print Assumptions C68_not_supported.
Example C68_not_supported_example :
  snd (parse_input_parameters (Some "basis
TZ2P
theory
HF
"%string) (mkJob None None default_parameters [])) = Raise AssertionError /\
  snd (parse_input_parameters (Some ""%string) (mkJob None None [] [])) = Raise KeyError.
Proof. split; vm_compute; reflexivity. Qed.

(** C69: without a number of states the search fails before any calculation *)
Theorem C69_no_number w j : jstate j = Some IPEOMCC -> (forall z, dget String.eqb (jparams j) "nip" <> Some (PInt z)) ->
  forall fuel, verify_ip_states w (S fuel) j = Some (j, Raise (match dget String.eqb (jparams j) "nip" with None => KeyError | Some _ => TypeError end)).
Proof.
  intros S N fuel. cbn [verify_ip_states]. unfold ip_round, mbind at 1, ip_calc, in_state. rewrite S. cbn [stage_eqb value Z.eqb Pos.eqb].
  unfold mbind, get_nip. destruct (dget String.eqb (jparams j) "nip") as [[|s|z]|] eqn:E; try reflexivity. exfalso. eapply N. reflexivity.
Qed.
Print Assumptions C69_no_number.
Example C69_no_number_example w : verify_ip_states w 5 (mkJob (Some IPEOMCC) None default_parameters []) = Some (mkJob (Some IPEOMCC) None default_parameters [], Raise KeyError).
Proof. apply C69_no_number; [reflexivity|]. intros z. discriminate. Qed.

(** C70: of the names of job_boss that the workflow uses, submit_job, synchronize_with_job, check_acct_state and
    the path to python exist; the two in the parameters do not *)
Theorem C70_names : 
  Forall (fun x => job_boss_attribute x = Ok tt) ["submit_job"; "synchronize_with_job"; "check_acct_state"; "subprocess_run_wrapper"; "subprocess_submit_asynch_wrapper"]%string /\
  (forall x, job_boss_attribute x = Ok tt <-> In x
   ["subprocess"; "threading"; "socket"; "signal"; "time"; "sys"; "os"; "log"; "constants"; "pimc";
    "job_state_lock"; "job_almost_done_flag"; "get_path_to_python_executable"; "get_path_of_job_boss_directory";
    "subprocess_submit_asynch_wrapper"; "subprocess_run_wrapper"; "get_hostname"; "SIGUSR1_handle"; "check_acct_state";
    "check_running_state"; "synchronize_with_job"; "check_slurm_output"; "extract_id_job_from_output"; "submit_job";
    "assert_partition_exists"; "serialize_BoxData_dictionary"; "prepare_job_feynman"; "prepare_job_nlogn";
    "prepare_job_compute_canada"; "prepare_job_orca"; "prepare_job_graham"; "SubmissionClass"; "PimcSubmissionClass"]%string) /\
  (forall x, job_boss_attribute x = Ok tt \/ job_boss_attribute x = Raise AttributeError).
Proof.
  assert (G : forall x, job_boss_attribute x = Ok tt <-> In x job_boss_names).
  { intros x. unfold job_boss_attribute. destruct (existsb (String.eqb x) job_boss_names) eqn:E.
    - split; [|reflexivity]. intros _. apply existsb_exists in E. destruct E as (y & Y & E). apply String.eqb_eq in E. subst. auto.
    - split; [discriminate|]. intros H. exfalso. assert (existsb (String.eqb x) job_boss_names = true) by (apply existsb_exists; exists x; rewrite String.eqb_refl; auto). congruence. }
  split; [repeat constructor|]. split; [exact G|]. intros x. unfold job_boss_attribute. destruct (existsb _ _); auto.
Qed.
Print Assumptions C70_names.
