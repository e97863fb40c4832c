(** C109: the installation, the calls of the queue and the messages *)
From Verif Require Import Common Common_Proofs PyStr_Model PyStr_Proofs FileStruct_Model Install_Model.
Local Open Scope string_scope.
Local Open Scope nat_scope.

(** ---- versions of python ---- *)
(** a is at least b *)
Definition at_least (a b : Z * Z) : Prop := (fst b < fst a \/ fst b = fst a /\ snd b <= snd a)%Z.
Lemma ver_spec a b : ver_leb a b = true <-> at_least b a.
Proof. unfold ver_leb, at_least. rewrite orb_true_iff, andb_true_iff, Z.ltb_lt, Z.eqb_eq, Z.leb_le. tauto. Qed.
Lemma ver_not a b : ver_leb a b = false <-> ~ at_least b a.
Proof. rewrite <- ver_spec. destruct (ver_leb a b); split; congruence. Qed.
(** C109: from python 3.6 on, which is what the files can be read with, the output of a command is captured as text; only for 3.7
    do setup.py and job_boss.py ask for it in different ways *)
Theorem C109_capture v : at_least v (3, 6)%Z ->
  exists k k', setup_kwargs v = Ok k /\ wrapper_kwargs v = Some k' /\ (k = k' <-> v <> (3, 7)%Z) /\ (k' = CaptureOutput <-> at_least v (3, 7)%Z).
Proof.
  unfold setup_kwargs, wrapper_kwargs. destruct v as [a b].
  destruct (ver_leb (3, 7)%Z (a, b)) eqn:E7; destruct (ver_leb (3, 5)%Z (a, b)) eqn:E5; destruct (ver_leb (a, b) (3, 7)%Z) eqn:F; cbn [andb];
    rewrite ?ver_spec, ?ver_not in *; unfold at_least in *; cbn [fst snd] in *; intros H; try lia; do 2 eexists;
    (split; [reflexivity|]); (split; [reflexivity|]); split; split; intros K; try reflexivity; try discriminate; try lia;
    try (intros X; injection X; lia); try (exfalso; apply K; f_equal; lia).
Qed.

(** ---- the queue ---- *)
(** C109: the queue is asked with one command and its answer is given back *)
Theorem C109_queue v run id : at_least v (3, 6)%Z ->
  let asked := ["sacct"; "-n"; "-o"; "state"; "-j"; dec id] in let shown := ["scontrol"; "show"; "job"; dec id] in
  (forall out err, run asked = Some (out, err) -> check_acct_state v run id = Ok out) /\ (run asked = None -> check_acct_state v run id = Raise OSError) /\
  (forall out err, run shown = Some (out, err) -> check_running_state v run id = Ok (out, err)) /\ (run shown = None -> check_running_state v run id = Raise OSError).
Proof.
  intros H asked shown. unfold check_acct_state, check_running_state, subprocess_run_wrapper. fold asked shown.
  destruct (C109_capture v H) as (k & k' & _ & -> & _). repeat split; intros; rewrite H0; reflexivity.
Qed.
(** C109: two jobs are asked for with different commands *)
Theorem C109_queue_own v id id' : at_least v (3, 6)%Z -> id <> id' -> exists run, check_acct_state v run id <> check_acct_state v run id' /\ check_running_state v run id <> check_running_state v run id'.
Proof.
  intros H N. exists (fun cmd => Some (if String.eqb (last cmd "") (dec id) then ("a", "") else ("b", ""))).
  unfold check_acct_state, check_running_state, subprocess_run_wrapper. destruct (C109_capture v H) as (k & k' & _ & -> & _).
  cbn [last bind]. rewrite String.eqb_refl. destruct (String.eqb_spec (dec id') (dec id)) as [E|_]; [apply dec_inj in E; congruence|]. cbn. split; discriminate.
Qed.

(** ---- messages ---- *)
(** C109: as configured the messages about the flow are shown and those about locks are not; raising the level hides a message
    exactly if its own level is lower *)
Theorem C109_messages t msg :
  log_flow configured msg = [(25%Z, msg)] /\ log_lock configured msg = [] /\
  (log_flow t msg = [(25%Z, msg)] <-> (t <= 25)%Z) /\ (log_flow t msg = [] <-> (25 < t)%Z) /\ (log_lock t msg = [(5%Z, msg)] <-> (t <= 5)%Z) /\ (log_lock t msg = [] <-> (5 < t)%Z).
Proof.
  split; [reflexivity|]. split; [reflexivity|]. unfold log_flow, log_lock, isEnabledFor, FLOW, LOCK.
  destruct (Z.leb_spec t 25); destruct (Z.leb_spec t 5); repeat split; intros; try lia; try reflexivity; try discriminate.
Qed.

(** ---- the version of julia ---- *)
Lemma digits_after_snoc : forall s acc c v, all_chars is_digit s = true -> digits_after acc (s ++ String c "") = Some v -> is_digit c = true ->
  exists d w, digit c = Some d /\ (0 <= d <= 9)%Z /\ v = (10 * w + d)%Z.
Proof.
  assert (D : forall c, is_digit c = true -> exists d, digit c = Some d /\ (0 <= d <= 9)%Z).
  { intros c. unfold is_digit, digit. destruct ((48 <=? nat_of_ascii c) && (nat_of_ascii c <=? 57)) eqn:E; [|discriminate]. intros _. eexists. split; [reflexivity|].
    apply andb_true_iff in E. rewrite !Nat.leb_le in E. lia. }
  induction s as [|x s IH]; intros acc c v A E C.
  - destruct (D c C) as (d & Ed & B). cbn in E. rewrite Ed in E. injection E as <-. exists d, acc. auto.
  - cbn [all_chars] in A. apply andb_true_iff in A. destruct A as [A1 A2]. destruct (D x A1) as (d & Ed & _). cbn [String.append digits_after] in E. rewrite Ed in E. exact (IH _ _ _ A2 E C).
Qed.
Lemma split_last s : s <> "" -> exists a c, s = a ++ String c "".
Proof.
  induction s as [|x s IH]; [congruence|]. intros _. destruct s as [|y s]; [exists "", x; reflexivity|]. destruct IH as (a & c & E); [discriminate|]. exists (String x a), c. rewrite E. reflexivity.
Qed.
(** the last digit of a number *)
Lemma dec_last z : (0 <= z)%Z -> exists a c, dec z = a ++ String c "" /\ py_int_str (String c "") = Ok (z mod 10)%Z.
Proof.
  intros P. destruct (split_last (dec z) (dec_not_empty z)) as (a & c & E). exists a, c. split; [exact E|].
  pose proof (dec_digits z P) as A. rewrite E, all_chars_app in A. apply andb_true_iff in A. destruct A as [A1 A2]. cbn [all_chars] in A2. rewrite andb_true_r in A2.
  assert (V : digits (dec z) = Some z) by (rewrite dec_nonneg, digits_dec_N by exact P; f_equal; lia).
  assert (G : exists d w, digit c = Some d /\ (0 <= d <= 9)%Z /\ z = (10 * w + d)%Z).
  { rewrite E in V. destruct a as [|x a].
    - cbn [String.append digits] in V. destruct (digit c) as [d|] eqn:Dc; [|discriminate]. cbn in V. injection V as ->. exists z, 0%Z. split; [reflexivity|]. split; [|lia].
      unfold digit in Dc. destruct (_ && _) eqn:B; [|discriminate]. injection Dc as <-. apply andb_true_iff in B. rewrite !Nat.leb_le in B. lia.
    - cbn [String.append digits] in V. destruct (digit x) as [d|] eqn:Dx; [|discriminate]. cbn [all_chars] in A1. apply andb_true_iff in A1. destruct A1 as [_ A1].
      destruct (digits_after_snoc _ _ _ _ A1 V A2) as (d' & w & ? & ? & ?). exists d', w. auto. }
  destruct G as (d & w & Dc & B & ->). replace ((10 * w + d) mod 10)%Z with d by (rewrite Z.add_comm, Z.mul_comm, Z_mod_plus_full, Z.mod_small by lia; reflexivity).
  assert (I : py_int_str (String c "") = match digit c with Some d => Ok d | None => Raise ValueError end).
  { revert Dc. clear. destruct c as [[] [] [] [] [] [] [] []]; intros Dc; vm_compute in Dc; try discriminate Dc; reflexivity. }
  rewrite I, Dc. reflexivity.
Qed.
Lemma last_char_app a c : last_char (a ++ String c "") = Ok (String c "").
Proof. induction a as [|x a IH]; [reflexivity|]. cbn [String.append last_char]. destruct (a ++ String c "") eqn:E; [destruct a; discriminate|exact IH]. Qed.
(** C109: for version M.m the last digit of M is looked at, and m only if that digit is 0 *)
Theorem C109_version M m rest : (0 <= M)%Z -> (0 <= m)%Z ->
  version_accepted ("julia version " ++ dec M ++ "." ++ dec m ++ "." ++ rest) = Ok ((1 <=? M mod 10)%Z || (7 <=? m)%Z).
Proof.
  intros PM Pm. unfold version_accepted.
  assert (X : String.prefix "julia version" ("julia version " ++ dec M ++ "." ++ dec m ++ "." ++ rest) = true) by reflexivity. rewrite X.
  replace ("julia version " ++ dec M ++ "." ++ dec m ++ "." ++ rest) with (("julia version " ++ dec M) ++ "." ++ (dec m ++ "." ++ rest)) by apply append_assoc.
  assert (DM : forall z, (0 <= z)%Z -> all_chars (fun c => negb (Ascii.eqb c ".")) (dec z) = true) by (intros z Z; apply digits_no_char; [reflexivity|apply dec_digits; exact Z]).
  rewrite split_first; [|discriminate|apply no_start_char; rewrite all_chars_app, (DM M PM); reflexivity].
  rewrite split_first; [|discriminate|apply no_start_char; apply (DM m Pm)].
  unfold item. cbn [nth_error bind]. destruct (dec_last M PM) as (a & c & E & I). rewrite E, <- append_assoc, last_char_app. cbn [bind]. rewrite I. cbn [bind].
  destruct (Z.leb_spec 1 (M mod 10)); [reflexivity|]. cbn [orb]. rewrite py_int_dec. reflexivity.
Qed.
(** C109: so for the versions there are, 1.0 and 0.7 are the oldest that are accepted *)
Theorem C109_version_released M m rest : (0 <= M < 10)%Z -> (0 <= m)%Z ->
  (version_accepted ("julia version " ++ dec M ++ "." ++ dec m ++ "." ++ rest) = Ok true <-> (1 <= M)%Z \/ (7 <= m)%Z).
Proof.
  intros PM Pm. rewrite C109_version by lia. rewrite Z.mod_small by lia. destruct (Z.leb_spec 1 M); destruct (Z.leb_spec 7 m); cbn; split; intros; auto; try discriminate; lia.
Qed.
(** C109: but not for every version *)
Theorem C109_version_refuted : exists M m rest, (1 <= M)%Z /\ version_accepted ("julia version " ++ dec M ++ "." ++ dec m ++ "." ++ rest) = Ok false.
Proof. exists 10%Z, 0%Z, "0". split; [lia|reflexivity]. Qed.
Lemma prefix_split : forall p s, String.prefix p s = true -> exists t, s = p ++ t.
Proof.
  induction p as [|c p IH]; intros s E; [exists s; reflexivity|]. destruct s as [|x s]; [discriminate|]. cbn in E. destruct (ascii_dec c x) as [<-|]; [|discriminate].
  destruct (IH s E) as [t ->]. exists t. reflexivity.
Qed.
(** C109: every other text is no julia *)
Theorem C109_other out : (forall rest, out <> "julia version" ++ rest) -> version_accepted out = Ok false.
Proof.
  intros N. unfold version_accepted. destruct (String.prefix "julia version" out) eqn:E; [|reflexivity].
  exfalso. destruct (prefix_split _ _ E) as [t T]. exact (N t T).
Qed.

(** ---- the version of the package ---- *)
(** C109: the third number is shown unless it is 0, what follows never *)
Theorem C109_get_version a b c rest :
  get_version (PInt a :: PInt b :: PInt c :: rest) = Ok (if (c =? 0)%Z then dec a ++ "." ++ dec b else dec a ++ "." ++ dec b ++ "." ++ dec c) /\
  (forall s, get_version (PInt a :: PInt b :: PStr s :: rest) = Ok (dec a ++ "." ++ dec b ++ "." ++ s)) /\
  (forall l, length l < 3 -> get_version l = Raise IndexError).
Proof.
  unfold get_version. split; [|split].
  - unfold item. cbn [nth_error bind]. destruct (c =? 0)%Z; reflexivity.
  - reflexivity.
  - intros l L. unfold item. rewrite (proj2 (nth_error_None l 2)) by lia. reflexivity.
Qed.

(** ---- the script ---- *)
(** the answer of julia --version *)
Definition julia_says (m : machine) (out : string) : Prop := exists err, programs_of m ["julia"; "--version"] = Some (out, err).
Definition toolkit : list string :=
  ["julia"; "-e"; "using Pkg;Pkg.add(PackageSpec(url=" ++ String "034" ("https://github.com/ngraymon/VibronicToolkit.jl.git" ++ String "034" (", rev=" ++ String "034" ("integrated" ++ String "034" "));")))].
(** what setup() gets for a description *)
Definition described (text : string) : package := {| p_name := "pibronic"; p_version := "0.3"; p_requires := "~=3.5"; p_description := text |}.
Definition description (m : machine) (r : res string) : Prop :=
  match contents m (join (here m) "README.md") with
  | None => r = Raise OSError
  | Some text => match pandoc m with None => r = Ok text | Some convert => r = convert text end
  end.
Lemma read_description m : description m (read_md m "README.md").
Proof. unfold description, read_md. destruct (contents m _); [destruct (pandoc m)|]; reflexivity. Qed.
(** C109: with a julia that is accepted it is asked twice and the toolkit is installed twice; then the package is set up *)
Theorem C109_script m out err r : at_least (python m) (3, 6)%Z -> julia_says m out -> version_accepted out = Ok true -> programs_of m toolkit = Some err -> description m r ->
  setup_file m = ([["julia"; "--version"]; toolkit; ["julia"; "--version"]; toolkit], match r with Ok text => Ok (described text) | Raise e => Raise e end).
Proof.
  intros V [er J] A T D. destruct (C109_capture _ V) as (k & _ & K & _).
  assert (W : with_julia m = ([["julia"; "--version"]; toolkit], Ok tt)).
  { unfold with_julia, julia_is_installed, install_VibronicToolkit, run_unchecked. rewrite K, J. cbn [then_ fst snd]. rewrite A. cbn [then_]. change install_command with toolkit. rewrite T. reflexivity. }
  assert (R : r = read_md m "README.md").
  { pose proof (read_description m) as Q. unfold description in *. destruct (contents m _); [destruct (pandoc m)|]; congruence. }
  unfold setup_file. rewrite (proj2 (ver_spec _ _) V). unfold setup_script, setup_package. rewrite !W. cbn [then_ fst snd app]. rewrite <- R. destruct r; reflexivity.
Qed.
(** C109: with another julia nothing is installed with it and the package is set up all the same *)
Theorem C109_script_old m out r : at_least (python m) (3, 6)%Z -> julia_says m out -> version_accepted out = Ok false -> description m r ->
  setup_file m = ([["julia"; "--version"]; ["julia"; "--version"]], match r with Ok text => Ok (described text) | Raise e => Raise e end).
Proof.
  intros V [er J] A D. destruct (C109_capture _ V) as (k & _ & K & _).
  assert (W : with_julia m = ([["julia"; "--version"]], Ok tt)).
  { unfold with_julia, julia_is_installed. rewrite K, J. cbn [then_ fst snd]. rewrite A. reflexivity. }
  assert (R : r = read_md m "README.md").
  { pose proof (read_description m) as Q. unfold description in *. destruct (contents m _); [destruct (pandoc m)|]; congruence. }
  unfold setup_file. rewrite (proj2 (ver_spec _ _) V). unfold setup_script, setup_package. rewrite !W. cbn [then_ fst snd app]. rewrite <- R. destruct r; reflexivity.
Qed.
(** C109: without julia the package cannot be installed; and a julia whose answer cannot be read stops it as well *)
Theorem C109_without_julia_refuted m : at_least (python m) (3, 6)%Z ->
  (programs_of m ["julia"; "--version"] = None -> setup_file m = ([["julia"; "--version"]], Raise OSError)) /\
  (forall out e, julia_says m out -> version_accepted out = Raise e -> setup_file m = ([["julia"; "--version"]], Raise e)).
Proof.
  intros V. unfold setup_file. rewrite (proj2 (ver_spec _ _) V). unfold setup_script, with_julia, julia_is_installed. destruct (C109_capture _ V) as (k & _ & K & _). rewrite K. split.
  - intros J. rewrite J. reflexivity.
  - intros out e [er J] A. rewrite J. cbn [then_ fst snd]. rewrite A. reflexivity.
Qed.
(** C109: the package says it works from python 3.5 on, but with 3.5 and older ones it cannot be installed *)
Theorem C109_requires_refuted m : ~ at_least (python m) (3, 6)%Z -> setup_file m = ([], Raise OtherException).
Proof. intros V. unfold setup_file. rewrite (proj2 (ver_not _ _) V). reflexivity. Qed.
(** C109: the mode for developers differs from the other in one word *)
Theorem C109_development m : exists a b, fst (install_VibronicToolkit m) = [["julia"; "-e"; a ++ "add" ++ b]] /\
  fst (install_VibronicToolkit_in_development_mode m) = [["julia"; "-e"; a ++ "develop" ++ b]] /\
  (forall o, programs_of m ["julia"; "-e"; a ++ "develop" ++ b] = Some o -> snd (install_VibronicToolkit_in_development_mode m) = Ok tt) /\
  (programs_of m ["julia"; "-e"; a ++ "develop" ++ b] = None -> snd (install_VibronicToolkit_in_development_mode m) = Raise OSError).
Proof.
  exists "using Pkg;Pkg.", ("(PackageSpec(url=" ++ quote ++ "https://github.com/ngraymon/VibronicToolkit.jl.git" ++ quote ++ ", rev=" ++ quote ++ "integrated" ++ quote ++ "));").
  split; [reflexivity|]. split; [reflexivity|]. unfold install_VibronicToolkit_in_development_mode, run_unchecked. cbn [snd].
  split; [intros o E|intros E]; change develop_command with ["julia"; "-e"; "using Pkg;Pkg." ++ "develop" ++ "(PackageSpec(url=" ++ quote ++ "https://github.com/ngraymon/VibronicToolkit.jl.git" ++ quote ++ ", rev=" ++ quote ++ "integrated" ++ quote ++ "));"]; rewrite E; reflexivity.
Qed.

Print Assumptions C109_capture.
Print Assumptions C109_queue.
Print Assumptions C109_queue_own.
Print Assumptions C109_messages.
Print Assumptions C109_version.
Print Assumptions C109_version_released.
Print Assumptions C109_version_refuted.
Print Assumptions C109_other.
Print Assumptions C109_get_version.
Print Assumptions C109_script.
Print Assumptions C109_script_old.
Print Assumptions C109_without_julia_refuted.
Print Assumptions C109_requires_refuted.
Print Assumptions C109_development.

(** a machine with julia 1.0.1 and one with 0.6.4 *)
Definition ex_machine (out : string) : machine :=
  {| python := (3, 6)%Z; programs_of := fun cmd => match cmd with "julia" :: _ => Some (out, "") | _ => None end; here := "/src";
     contents := fun p => if String.eqb p "/src/README.md" then Some "# Pibronic" else None; pandoc := None |}.
Example C109_example :
  at_least (python (ex_machine "")) (3, 6)%Z /\ programs_of (ex_machine "x") toolkit = Some ("x", "") /\
  snd (setup_file (ex_machine ("julia version 1.0.1" ++ String "010" ""))) = Ok (described "# Pibronic") /\
  length (fst (setup_file (ex_machine ("julia version 1.0.1" ++ String "010" "")))) = 4 /\
  setup_file (ex_machine "julia version 0.6.4") = ([["julia"; "--version"]; ["julia"; "--version"]], Ok (described "# Pibronic")) /\
  snd (setup_file (ex_machine "julia version 1")) = Ok (described "# Pibronic") /\
  snd (setup_file (ex_machine "julia version x.1")) = Raise ValueError /\ snd (setup_file (ex_machine "julia version 0")) = Raise IndexError /\
  get_version VERSION = Ok "0.3" /\ check_acct_state (3, 6)%Z (fun _ => Some ("COMPLETED", "")) 12 = Ok "COMPLETED".
Proof. split; [left + right; cbn; lia|]. vm_compute. repeat split. Qed.
