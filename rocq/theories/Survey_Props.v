(** C100: the scripts that analyse all results of an example (examples/paper_1.5025058/analyze_results.py,
    examples/artificial_systems/analyze_results.py, stats/stats.py:380-396) *)
From Coq Require Import QArith Permutation Sorting.Sorted.
From Verif Require Import Common Common_Proofs PyStr_Model PyStr_Proofs FileName_Model FileName_Proofs FileStruct_Model FileStruct_Proofs Json_Model Julia_Model Julia3_Proofs Results_Model Results_Proofs Analysis_Model Analysis_Proofs Analysis_Props.
From Verif Require Import Submit_Model Submit2_Model Setup_Model Setup_Spec Setup_Proofs Survey_Model Survey_Spec Survey_Proofs Survey2_Proofs.
Local Open Scope string_scope.
Local Open Scope nat_scope.

(** ---- one sampling model ---- *)
(** C100: after the analyses of a sampling model every pair of bead number and temperature has the jackknife analysis with
    the method basic, and nothing else has changed there *)
Theorem C100_one so dv op H npz ls cwd root d r fs fs' :
  no_brace root = true ->
  methods_run so dv op H npz ls (build_fs cwd root d r) simple_wrapper_methods fs fs' (Ok tt) ->
  all_saved so dv op H npz ls cwd root Jackknife "basic" fs fs' d r /\ only_saved so dv op H npz ls cwd root Jackknife "basic" fs fs' d r /\
  forall p, ~ below root d r p -> fs' p = fs p.
Proof.
  intros N M. destruct (build_saved so dv op H npz ls cwd root N d r [(Statistical, "basic")] Jackknife "basic" fs fs') as [W O]; [repeat constructor|left; reflexivity|exact M|].
  split; [exact W|]. split; [exact O|]. intros p. eapply build_frame; eauto.
Qed.
Print Assumptions C100_one.
(** C100: of the four analyses of testing_execution only the last one is left *)
Theorem C100_testing so dv op H npz ls cwd root d r fs fs' :
  no_brace root = true ->
  methods_run so dv op H npz ls (build_fs cwd root d r) testing_methods fs fs' (Ok tt) ->
  all_saved so dv op H npz ls cwd root Jackknife "alpha" fs fs' d r /\ only_saved so dv op H npz ls cwd root Jackknife "alpha" fs fs' d r /\
  forall p, ~ below root d r p -> fs' p = fs p.
Proof.
  intros N M. destruct (build_saved so dv op H npz ls cwd root N d r [(Statistical, "basic"); (Statistical, "alpha"); (Jackknife, "basic")] Jackknife "alpha" fs fs') as [W O];
    [repeat constructor; (left; reflexivity) || (right; reflexivity)|right; reflexivity|exact M|].
  split; [exact W|]. split; [exact O|]. intros p. eapply build_frame; eauto.
Qed.
Print Assumptions C100_testing.
(** C100: each analysis of both scripts has to succeed: if one fails, so does the whole *)
Theorem C100_each so dv op H npz ls f ms1 k m ms2 fs fs' :
  methods_run so dv op H npz ls f (ms1 ++ (k, m) :: ms2)%list fs fs' (Ok tt) ->
  exists f1 fs1 fs2, analyse so dv op H npz f1 (ls (path_rho_results f1)) k m "local" fs1 fs2 (Ok tt) /\ path_rho_results f1 = path_rho_results f.
Proof.
  revert f fs. induction ms1 as [|[k1 m1] ms1 IH]; intros f fs M; cbn [app] in M; inversion M as [| |f0 k0 m0 l0 fs0 fs1 fs2 r A M']; subst.
  - exists f, fs, fs1. split; [exact A|reflexivity].
  - destruct (IH _ _ M') as (f1 & fs2 & fs3 & A' & E). exists f1, fs2, fs3. split; [exact A'|]. rewrite E.
    destruct (generate_model_hashes H fs false f) as [f' g] eqn:G. exact (proj1 (generate_paths H _ _ _ _ G)).
Qed.
Print Assumptions C100_each.

(** ---- the systems ---- *)
(** the data sets and sampling models of a system *)
Definition belongs (e : example) (name : string) (d r : Z) : Prop :=
  match e with
  | Paper => exists i, nth_error ["superimposed"; "displaced"; "elevated"; "jahnteller"] i = Some name /\ (10 * Z.of_nat i + 11 <= d <= 10 * Z.of_nat i + 16)%Z /\
      (r = 0 \/ r = 1 \/ r = 11 \/ (r = 2 /\ name = "jahnteller"))%Z
  | Artificial => exists i, nth_error ["2x2"; "4x6"; "7x12"] i = Some name /\ (10 * Z.of_nat i + 11 <= d <= 10 * Z.of_nat i + 15)%Z /\ (0 <= r <= 4)%Z
  end.
Definition root_of (e : example) : string := match e with Paper => "/work/ngraymon/pimc/paper_2018/" | Artificial => "/work/ngraymon/pimc/artificial/" end.
Definition systems_of (e : example) : list string := match e with Paper => ["superimposed"; "displaced"; "elevated"; "jahnteller"] | Artificial => ["2x2"; "4x6"; "7x12"] end.
Definition before (x y : Z * Z) : Prop := (fst x < fst y \/ fst x = fst y /\ snd x < snd y)%Z.

Lemma root_ok e : no_brace (root_of e) = true. Proof. destruct e; reflexivity. Qed.
Lemma in_pairs (ds rs : list Z) d r : In (d, r) (flat_map (fun d => map (fun r => (d, r)) rs) ds) <-> In d ds /\ In r rs.
Proof.
  rewrite in_flat_map. split.
  - intros (x & I & J). apply in_map_iff in J. destruct J as (y & E & J). injection E as -> ->. auto.
  - intros [I J]. exists d. split; [exact I|]. apply in_map_iff. eauto.
Qed.
Lemma in_one (x y : Z) : In x [y] <-> x = y. Proof. cbn. intuition. Qed.
Lemma in_more (x y z : Z) l : In x (y :: z :: l) <-> x = y \/ In x (z :: l). Proof. cbn. intuition. Qed.
Ltac explicit e n :=
  let p := eval vm_compute in (match dget String.eqb (ex_ids e) n with Some l => l | None => [] end) in
  let q := eval vm_compute in (ex_rhos e n) in
  change (survey_pairs e n) with (flat_map (fun d => map (fun r => (d, r)) q) p); rewrite in_pairs, ?in_more, ?in_one.
Lemma pairs_in e name d r : In (d, r) (survey_pairs e name) <-> belongs e name d r.
Proof.
  destruct (in_dec string_dec name (systems_of e)) as [I|I].
  - destruct e; cbn in I; repeat (destruct I as [I|I]; [subst name|]); try destruct I;
      match goal with |- In _ (survey_pairs ?e ?n) <-> _ => explicit e n end; (split;
      [intros [D R]; first [exists 0; split; [reflexivity|]; split; [cbn; lia|intuition]|exists 1; split; [reflexivity|]; split; [cbn; lia|intuition]
         |exists 2; split; [reflexivity|]; split; [cbn; lia|intuition]|exists 3; split; [reflexivity|]; split; [cbn; lia|intuition]]
      |intros (i & E & D & R); destruct i as [|[|[|[|i]]]]; cbn in E; try discriminate E; try (destruct i; discriminate E); cbn in D; split; [lia|intuition; try discriminate; lia]]).
  - split.
    + intros J. exfalso. unfold survey_pairs in J. destruct (dget String.eqb (ex_ids e) name) as [l|] eqn:E; [|destruct J].
      apply I. clear - E. destruct e; cbn in E;
        repeat match type of E with context [String.eqb ?a ?b] => destruct (String.eqb_spec a b) as [Q|Q]; [clear E; subst; cbn; tauto|clear Q] end; discriminate E.
    + intros B. exfalso. apply I. destruct e; destruct B as (i & E & _); apply nth_error_In in E; exact E.
Qed.

Lemma pairs_sorted e name : StronglySorted before (survey_pairs e name).
Proof.
  assert (G : forall l, (forall a b l1 l2 l3, l = (l1 ++ a :: l2 ++ b :: l3)%list -> before a b) -> StronglySorted before l).
  { induction l as [|a l IH]; intros K; constructor.
    - apply IH. intros x y l1 l2 l3 ->. exact (K x y (a :: l1) l2 l3 eq_refl).
    - apply Forall_forall. intros b I. apply in_split in I. destruct I as (l1 & l2 & ->). exact (K a b [] l1 l2 eq_refl). }
  destruct (in_dec string_dec name (systems_of e)) as [I|I].
  - clear G. destruct e; cbn in I; repeat (destruct I as [I|I]; [subst name|]); try destruct I;
      match goal with |- StronglySorted _ ?x => let l := eval vm_compute in x in change x with l end;
      repeat (apply SSorted_cons; [|repeat (apply Forall_cons; [unfold before; cbn; lia|]); apply Forall_nil]); apply SSorted_nil.
  - replace (survey_pairs e name) with (@nil (Z * Z)); [constructor|]. destruct (survey_pairs e name) as [|[d r] l] eqn:E; [reflexivity|].
    exfalso. assert (J : In (d, r) (survey_pairs e name)) by (rewrite E; left; reflexivity). apply pairs_in in J. apply I. destruct e; destruct J as (i & X & _); apply nth_error_In in X; exact X.
Qed.
Lemma sorted_split (l1 : list (Z * Z)) x l2 : StronglySorted before (l1 ++ x :: l2) ->
  (forall y, In y (l1 ++ x :: l2)%list -> before y x -> In y l1) /\ (forall y, In y (l1 ++ x :: l2)%list -> before x y -> ~ In y (l1 ++ [x])%list) /\ (forall y, In y l1 -> before y x).
Proof.
  intros S. assert (A : forall y, In y l1 -> before y x).
  { induction l1 as [|a l1 IH]; [intros ? []|]. cbn in S. inversion_clear S as [|? ? S' F]. rewrite Forall_forall in F. intros y [<-|I]; [apply F, in_app_iff; right; left; reflexivity|apply IH; auto]. }
  assert (B : forall y, In y l2 -> before x y).
  { clear A. induction l1 as [|a l1 IH]; cbn in S; inversion_clear S as [|? ? S' F]; [rewrite Forall_forall in F; exact F|apply IH; exact S']. }
  split; [|split; [|exact A]].
  - intros y I L. apply in_app_iff in I. destruct I as [I|[<-|I]]; [exact I| |]; exfalso; [unfold before in L; lia|]. specialize (B y I). unfold before in *. lia.
  - intros y I L J. apply in_app_iff in J. destruct J as [J|[<-|[]]]; [specialize (A y J)|]; unfold before in *; lia.
Qed.
Lemma sorted_nodup (l : list (Z * Z)) : StronglySorted before l -> NoDup l.
Proof.
  induction 1 as [|x l S IH F]; constructor; auto. intros I. rewrite Forall_forall in F. specialize (F x I). unfold before in F. lia.
Qed.
Lemma name_ok e name : existsb (String.eqb name) (ex_names e) = true <-> In name (systems_of e).
Proof. rewrite existsb_exists. split; [intros (x & I & E); apply String.eqb_eq in E; subst; destruct e; exact I|intros I; exists name; split; [destruct e; exact I|apply String.eqb_refl]]. Qed.
Lemma host_ok e host : host = "nlogn" \/ host = "feynman" -> choose_root (ex_root e) host = Ok (root_of e).
Proof. destruct e; intros [-> | ->]; reflexivity. Qed.
Lemma host_bad e host : host <> "nlogn" -> host <> "feynman" -> choose_root (ex_root e) host = Raise OtherException.
Proof. intros A B. unfold choose_root. cbn. apply String.eqb_neq in A, B. rewrite A, B. reflexivity. Qed.

(** C100: the script can always go on or stop; it stops at once for other names, hosts and without the root *)
Theorem C100_refused so dv op H npz ls e cwd host is_dir name fs :
  (exists fs' o, automate_run so dv op H npz ls e cwd host is_dir name fs fs' o) /\
  forall fs' o, ~ (In name (systems_of e) /\ (host = "nlogn" \/ host = "feynman") /\ is_dir = true) ->
    automate_run so dv op H npz ls e cwd host is_dir name fs fs' o ->
    fs' = fs /\ o = Raise (if in_dec string_dec name (systems_of e) then if in_dec string_dec host ["nlogn"; "feynman"] then AssertionError else OtherException else AssertionError).
Proof.
  split.
  - destruct (existsb (String.eqb name) (ex_names e)) eqn:N; [|do 2 eexists; apply ar_name; exact N].
    destruct (choose_root (ex_root e) host) as [root|x] eqn:R; [|do 2 eexists; eapply ar_host; eauto].
    destruct (survey_total so dv op H npz ls cwd root is_dir (survey_pairs e name) fs) as (fs' & o & S). do 2 eexists. eapply ar_run; eauto.
  - intros fs' o B A. destruct A as [N|x N R|root fs' o N R S].
    + destruct (in_dec string_dec name (systems_of e)) as [I|I]; [apply name_ok in I; congruence|auto].
    + apply name_ok in N. destruct (in_dec string_dec name (systems_of e)) as [I|I]; [|contradiction]. split; [reflexivity|].
      destruct (in_dec string_dec host ["nlogn"; "feynman"]) as [J|J]; [rewrite host_ok in R by (cbn in J; intuition); discriminate|].
      rewrite host_bad in R by (cbn in J; intuition). injection R as <-. reflexivity.
    + apply name_ok in N. destruct (in_dec string_dec name (systems_of e)) as [I|I]; [|contradiction].
      destruct (in_dec string_dec host ["nlogn"; "feynman"]) as [J|J]; [|rewrite host_bad in R by (cbn in J; intuition); discriminate].
      destruct is_dir; [exfalso; apply B; cbn in J; intuition|].
      destruct (survey_pairs e name) as [|[d r] l] eqn:E.
      { exfalso. destruct e; cbn in N; repeat (destruct N as [N|N]; [subst name; discriminate E|]); destruct N. }
      inversion S as [|? ? ? ? x X|? ? ? ? ? ? ? ? X|? ? ? ? ? ? ? ? X|? ? ? ? ? ? ? ? ? X]; subst; try discriminate X. injection X as <-. auto.
Qed.
Print Assumptions C100_refused.

Section Automate.
  Variable so : list string -> list string.
  Variable dv : json -> json -> res json.
  Variable op : analysis -> string -> Q -> result -> list (string * json) -> res (list (string * json)).
  Variable H : string -> string.
  Variable npz : files.
  Variable ls : string -> list string.
  (** the analysis of a sampling model is there and complete, the jackknife analysis with the method basic *)
  Definition complete (e : example) (cwd : string) (fs fs' : fsys string) (d r : Z) : Prop :=
    all_saved so dv op H npz ls cwd (root_of e) Jackknife "basic" fs fs' d r /\ only_saved so dv op H npz ls cwd (root_of e) Jackknife "basic" fs fs' d r.
End Automate.
Lemma automate_inv so dv op H npz ls e cwd host name fs fs' o : In name (systems_of e) -> host = "nlogn" \/ host = "feynman" ->
  automate_run so dv op H npz ls e cwd host true name fs fs' o <-> survey_run so dv op H npz ls cwd (root_of e) true (survey_pairs e name) fs fs' o.
Proof.
  intros I J. apply name_ok in I. pose proof (host_ok e host J) as R. split; [|intros S; eapply ar_run; eauto].
  intros A. destruct A as [N|x N R'|root fs' o N R' S]; [congruence|congruence|]. rewrite R in R'. injection R' as <-. exact S.
Qed.

(** C100: if the script succeeds every sampling model of the system that exists has been analysed, and nothing else is changed *)
Theorem C100_automate so dv op H npz ls e cwd host name fs fs' :
  automate_run so dv op H npz ls e cwd host true name fs fs' (Ok tt) ->
  (forall d r, belongs e name d r -> fs (rho_of (root_of e) d r) <> None -> complete so dv op H npz ls e cwd fs fs' d r) /\
  (forall p, (forall d r, belongs e name d r -> fs (rho_of (root_of e) d r) <> None -> ~ below (root_of e) d r p) -> fs' p = fs p).
Proof.
  intros A. assert (IJ : In name (systems_of e) /\ (host = "nlogn" \/ host = "feynman")).
  { inversion A as [| |root fs0 o N R S]; subst. apply name_ok in N. split; [exact N|]. destruct (string_dec host "nlogn") as [->|X]; [auto|]. destruct (string_dec host "feynman") as [->|Y]; [auto|].
    rewrite host_bad in R by auto. discriminate. }
  destruct IJ as [I J]. apply automate_inv in A; auto. split.
  - intros d r B R. apply pairs_in in B. destruct (survey_inv so dv op H npz ls cwd (root_of e) (root_ok e) _ _ _ _ (sorted_nodup _ (pairs_sorted e name)) A) as (l1 & l2 & E & D & ->).
    rewrite app_nil_r in E. rewrite E in B. apply D; auto.
  - intros p N. eapply survey_frame; [exact (root_ok e)|exact A|]. intros d r B. apply N. apply pairs_in. exact B.
Qed.
Print Assumptions C100_automate.
(** C100: if it fails, it fails at one sampling model; those before it have been analysed, those after it have not been touched *)
Theorem C100_failed so dv op H npz ls e cwd host name fs fs' x :
  In name (systems_of e) -> host = "nlogn" \/ host = "feynman" ->
  automate_run so dv op H npz ls e cwd host true name fs fs' (Raise x) ->
  exists d r, belongs e name d r /\ fs (rho_of (root_of e) d r) <> None /\
    (forall d' r', belongs e name d' r' -> before (d', r') (d, r) -> fs (rho_of (root_of e) d' r') <> None -> complete so dv op H npz ls e cwd fs fs' d' r') /\
    (forall p, (forall d' r', belongs e name d' r' -> before (d', r') (d, r) \/ (d', r') = (d, r) -> fs (rho_of (root_of e) d' r') <> None -> ~ below (root_of e) d' r' p) -> fs' p = fs p) /\
    exists fs1, (forall p, (forall d' r', belongs e name d' r' -> before (d', r') (d, r) -> ~ below (root_of e) d' r' p) -> fs1 p = fs p) /\
      methods_run so dv op H npz ls (build_fs cwd (root_of e) d r) [(Statistical, "basic"); (Jackknife, "basic")] fs1 fs' (Raise x).
Proof.
  intros I J A. apply automate_inv in A; auto. pose proof (pairs_sorted e name) as SO.
  destruct (survey_inv so dv op H npz ls cwd (root_of e) (root_ok e) _ _ _ _ (sorted_nodup _ SO) A) as (l1 & l2 & E & D & d & r & l3 & fs1 & -> & N & F & M).
  rewrite E in SO. destruct (sorted_split _ _ _ SO) as (S1 & S2 & S3).
  assert (IN : forall d' r', In (d', r') l1 <-> belongs e name d' r' /\ before (d', r') (d, r)).
  { intros d' r'. split; [intros K; split; [apply pairs_in; rewrite E; apply in_app_iff; auto|auto]|]. intros [B L]. apply pairs_in in B. rewrite E in B. apply S1; auto. }
  assert (FR : forall p, (forall d' r', belongs e name d' r' -> before (d', r') (d, r) -> fs (rho_of (root_of e) d' r') <> None -> ~ below (root_of e) d' r' p) -> fs1 p = fs p).
  { intros p B. apply F. intros d' r' K. apply IN in K. apply B; tauto. }
  assert (BE : belongs e name d r) by (apply pairs_in; rewrite E; apply in_app_iff; right; left; reflexivity).
  exists d, r. split; [exact BE|]. split; [exact N|]. split; [|split].
  - intros d' r' B L R. apply D; [apply IN; auto|exact R].
  - intros p B. rewrite (build_frame so dv op H npz ls cwd (root_of e) (root_ok e) d r _ _ _ _ p M); [apply FR; intros; apply B; auto|]. apply B; auto.
  - exists fs1. split; [|exact M]. intros p B. apply FR. intros d' r' K L _. apply B; auto.
Qed.
Print Assumptions C100_failed.
(** C100: a sampling model without the coupled model stops the script, and so does a sampling model that cannot be analysed *)
Theorem C100_no_coupled so dv op H npz ls e cwd host name fs fs' o d r :
  belongs e name d r -> fs (rho_of (root_of e) d r) <> None -> fs (vib_of (root_of e) d) = None ->
  automate_run so dv op H npz ls e cwd host true name fs fs' o -> o <> Ok tt.
Proof.
  intros B R V A ->. destruct (C100_automate _ _ _ _ _ _ _ _ _ _ _ _ A) as [C _]. destruct (C d r B R) as [(cv & cr & V' & _) _]. congruence.
Qed.
Print Assumptions C100_no_coupled.
(** C100: without sampling models there is nothing to do, whatever else is there *)
Theorem C100_nothing so dv op H npz ls e cwd host name fs fs' o :
  In name (systems_of e) -> host = "nlogn" \/ host = "feynman" ->
  (forall d r, belongs e name d r -> fs (rho_of (root_of e) d r) = None) ->
  (automate_run so dv op H npz ls e cwd host true name fs fs' o <-> fs' = fs /\ o = Ok tt).
Proof.
  intros I J N. rewrite automate_inv by auto.
  assert (G : forall l, (forall d r, In (d, r) l -> fs (rho_of (root_of e) d r) = None) -> survey_run so dv op H npz ls cwd (root_of e) true l fs fs' o <-> fs' = fs /\ o = Ok tt).
  { induction l as [|[d r] l IH]; intros K.
    - split; [intros S; inversion S; auto|intros [-> ->]; constructor].
    - assert (KR : fs (FileStruct_Model.path_rho_model (build_fs cwd (root_of e) d r)) = None) by (rewrite rho_model_path; apply K; left; reflexivity).
      rewrite <- IH by (intros; apply K; right; auto). split.
      + intros S. inversion S as [|? ? ? ? x X|? ? ? ? ? ? f ds X Y S'|? ? ? ? ? ? f ds X Y M|? ? ? ? ? ? ? f ds X Y M S']; subst; rewrite new_build in X; try discriminate X; injection X as <- <-; auto; contradiction.
      + intros S. eapply sr_skip; [reflexivity|exact KR|exact S]. }
  apply G. intros d r B. apply N. apply pairs_in. exact B.
Qed.
Print Assumptions C100_nothing.
(** C100: the processes of two systems have no file of results in common, and the models and the exact results are not changed *)
Theorem C100_processes e name name' d r d' r' p :
  belongs e name d r -> belongs e name' d' r' -> name <> name' -> below (root_of e) d r p ->
  ~ below (root_of e) d' r' p /\ p <> vib_of (root_of e) d' /\ p <> rho_of (root_of e) d' r' /\ p <> analytic_at (root_of e) d' r'.
Proof.
  intros B B' N BE. split; [|split; [|split]].
  - intros BE'. destruct (below_inj _ _ _ _ _ _ BE BE') as [<- <-]. apply N. destruct e; destruct B as (i & E & D & _), B' as (i' & E' & D' & _); assert (i = i') as <- by lia; congruence.
  - intros ->. exact (below_vib _ _ _ _ BE).
  - intros ->. exact (below_rho _ _ _ _ _ BE).
  - intros ->. exact (below_analytic _ _ _ _ _ BE).
Qed.
Print Assumptions C100_processes.
(** C100: the script of the statistics takes the data set from the command line and analyses sampling model 0 of the test
    directory *)
Theorem C100_main so dv op H npz ls cwd is_dir argv fs ds fs' o :
  main_run so dv op H npz ls cwd is_dir argv fs ds fs' o ->
  match argv with
  | [] | [_] => (ds, fs', o) = ([], fs, Raise IndexError)
  | _ :: a :: _ =>
      match py_int_str a with
      | Raise x => (ds, fs', o) = ([], fs, Raise x)
      | Ok d => if is_dir then
            ds = dir_values (build_fs cwd "/work/ngraymon/pimc/testing/" d 0) /\
            methods_run so dv op H npz ls (build_fs cwd "/work/ngraymon/pimc/testing/" d 0) [(Statistical, "basic"); (Statistical, "alpha"); (Jackknife, "basic"); (Jackknife, "alpha")] fs fs' o
          else (ds, fs', o) = ([], fs, Raise AssertionError)
      end
  end.
Proof.
  intros M. destruct argv as [|s [|a argv]].
  1,2: destruct M as [x E|d x E N|d f ds fs' o E N M]; cbn in E; try discriminate E; injection E as <-; reflexivity.
  destruct M as [x E|d x E N|d f ds fs' o E N M]; cbn in E; rewrite E; try reflexivity; destruct is_dir; cbn [new_fs passert bind] in N; try discriminate N.
  - injection N as <-. reflexivity.
  - injection N as <- <-. split; [|exact M]. unfold make_directories.
    assert (G : forall l ds, fold_left makedirs l ds = (ds ++ l)%list) by (induction l as [|y l IH]; intros z; cbn [fold_left]; [rewrite app_nil_r; reflexivity|rewrite IH; unfold makedirs; rewrite <- app_assoc; reflexivity]).
    rewrite G. reflexivity.
Qed.
Print Assumptions C100_main.

(** ---- an example ---- *)
Definition sx_H (s : string) : string := s.
Definition sx_op (k : analysis) (m : string) (T : Q) (r : result) (a : list (string * json)) : res (list (string * json)) :=
  Ok [("kind", JStr (match k with Statistical => "statistics" | Jackknife => "jackknife" end)); ("X", JInt (Z.of_nat (count_value (r_samples r))))].
Definition sx_l : list (Z * Q * Z) := [(12%Z, 300%Q, 0%Z); (12%Z, 300%Q, 1%Z); (20%Z, 300%Q, 0%Z)].
Definition sx_ls (dir : string) : list string := if String.eqb dir (results_at art_root 12 3) then map name_of sx_l else [].
Definition sx_fs (p : string) : option string :=
  if String.eqb p (vib_of art_root 12) then Some "v" else if String.eqb p (rho_of art_root 12 3) then Some "r"
  else if String.eqb p (analytic_at art_root 12 3) then Some (dumps (JObj [("hash_vib", JStr "v"); ("hash_rho", JStr "r");
    ("300.00", JObj [("Z_sampling", JInt 6); ("E_sampling", JInt 2); ("Cv_sampling", JInt 1); ("Z_sampling+beta", JInt 3); ("Z_sampling-beta", JInt 2)])]))
  else None.
Definition sx_so (l : list string) := nodup String.string_dec l.
Definition sx_text (kind : string) (X : Z) : string := dumps (JObj [("kind", JStr kind); ("X", JInt X); ("hash_vib", JStr "v"); ("hash_rho", JStr "r")]).
Definition sx_writes (kind : string) : list (string * string) :=
  [(results_at art_root 12 3 ++ "P12_T300.00_X4_thermo", sx_text kind 4); (results_at art_root 12 3 ++ "P20_T300.00_X2_thermo", sx_text kind 2)].
Definition sx_end : fsys string := fold_left write_file (sx_writes "jackknife") (fold_left write_file (sx_writes "statistics") sx_fs).
Lemma sx_methods : methods_run sx_so ex_divide sx_op sx_H ex_npz sx_ls (build_fs "/" art_root 12 3) simple_wrapper_methods sx_fs sx_end (Ok tt).
Proof.
  apply (mr_next _ _ _ _ _ _ _ Statistical "basic" _ _ (fold_left write_file (sx_writes "statistics") sx_fs)).
  - eapply an_pool with (f' := known "/" art_root 12 3 "v" "r") (tasks := map (@Ok _) (sx_writes "statistics")); [vm_compute; reflexivity|vm_compute; reflexivity|constructor; apply Permutation_refl].
  - apply (mr_next _ _ _ _ _ _ _ Jackknife "basic" _ _ sx_end); [|constructor].
    eapply an_pool with (f' := known "/" art_root 12 3 "v" "r") (tasks := map (@Ok _) (sx_writes "jackknife")); [vm_compute; reflexivity|vm_compute; reflexivity|constructor; apply Permutation_refl].
Qed.
Lemma sx_skip is_dir l : is_dir = true -> forall l2 fs fs' o, (forall d r, In (d, r) l -> fs (FileStruct_Model.path_rho_model (build_fs "/" art_root d r)) = None) ->
  survey_run sx_so ex_divide sx_op sx_H ex_npz sx_ls "/" art_root is_dir l2 fs fs' o ->
  survey_run sx_so ex_divide sx_op sx_H ex_npz sx_ls "/" art_root is_dir (l ++ l2) fs fs' o.
Proof.
  intros -> l2. induction l as [|[d r] l IH]; intros fs fs' o N S; [exact S|]. cbn [app]. eapply sr_skip; [reflexivity|apply N; left; reflexivity|]. apply IH; [|exact S]. intros; apply N; right; auto.
Qed.
(** only one sampling model is there; of two runs with 12 beads and one with 20 beads *)
Example C100_example :
  automate_run sx_so ex_divide sx_op sx_H ex_npz sx_ls Artificial "/" "nlogn" true "2x2" sx_fs sx_end (Ok tt) /\
  belongs Artificial "2x2" 12 3 /\ sx_fs (rho_of (root_of Artificial) 12 3) <> None /\
  results_dir (results_at art_root 12 3) (sx_ls (results_at art_root 12 3)) sx_l /\
  sx_end "/work/ngraymon/pimc/artificial/data_set_12/rho_3/results/P12_T300.00_X4_thermo" = Some (sx_text "jackknife" 4).
Proof.
  split; [|split; [|split; [|split]]].
  - eapply ar_run; [reflexivity|reflexivity|].
    let l := eval vm_compute in (survey_pairs Artificial "2x2") in change (survey_pairs Artificial "2x2") with l.
    match goal with |- survey_run _ _ _ _ _ _ _ _ _ ?l _ _ _ => change l with (firstn 8 l ++ skipn 8 l)%list end. cbn [firstn skipn].
    apply sx_skip; [reflexivity| |].
    { intros d r I. repeat (destruct I as [I|I]; [injection I as <- <-; vm_compute; reflexivity|]). destruct I. }
    eapply sr_next; [reflexivity|vm_compute; discriminate|exact sx_methods|].
    match goal with |- survey_run _ _ _ _ _ _ _ _ _ ?l _ _ _ => rewrite <- (app_nil_r l) end. apply sx_skip; [reflexivity| |constructor].
    intros d r I. repeat (destruct I as [I|I]; [injection I as <- <-; vm_compute; reflexivity|]). destruct I.
  - exists 0. split; [reflexivity|]. cbn. lia.
  - vm_compute. discriminate.
  - split; try reflexivity.
    + repeat constructor; cbn; lia.
    + intros x I. apply (in_map name_of) in I. exact I.
    + intros a b c I. change (sx_ls (results_at art_root 12 3)) with (map name_of sx_l) in I. apply in_map_iff in I. destruct I as (x & E & I). eauto.
  - vm_compute. reflexivity.
Qed.

(** C100: the analyses of both kinds are not kept: the statistical one is overwritten by the jackknife, under the same name *)
Theorem C100_both_refuted : exists so dv op H npz ls fs fs' P t path text,
  methods_run so dv op H npz ls (build_fs "/" art_root 12 3) simple_wrapper_methods fs fs' (Ok tt) /\
  saved_for so dv op npz fs (known "/" art_root 12 3 (H "v") (H "r")) (H "v") (H "r") (ls (results_at art_root 12 3)) Statistical "basic" P t path text /\
  forall p, fs' p <> Some text.
Proof.
  exists sx_so, ex_divide, sx_op, sx_H, ex_npz, sx_ls, sx_fs, sx_end, 12%Z, (300 # 1)%Q, (results_at art_root 12 3 ++ "P12_T300.00_X4_thermo"), (sx_text "statistics" 4).
  split; [exact sx_methods|]. split.
  - apply (analysed_saved sx_so ex_divide sx_op ex_npz sx_fs (known "/" art_root 12 3 "v" "r") "v" "r" _ Statistical "basic" 12 (300 # 1)%Q (results_at art_root 12 3 ++ "P12_T300.00_X4_thermo", sx_text "statistics" 4)); [reflexivity|reflexivity|].
    apply task_ok; vm_compute; reflexivity.
  - intros p. unfold sx_end, sx_writes. cbn [fold_left]. unfold write_file. cbn [fst snd]. unfold sx_fs.
    repeat match goal with |- context [String.eqb ?a ?b] => destruct (String.eqb a b) end; vm_compute; discriminate.
Qed.
Print Assumptions C100_both_refuted.
