From Coq Require Import QArith.
From Verif Require Import Common Common_Proofs PyStr_Model PyStr_Proofs FileName_Model FileName_Proofs Json_Model FileStruct_Model FileStruct_Proofs JobBoss_Model JobBoss_Proofs Job_Spec.
From Verif Require Import JobBoss2_Proofs Job_Proofs Job2_Proofs.
Local Open Scope nat_scope.
Local Open Scope string_scope.

(** ---- the dictionary of a job ---- *)
Lemma plain_lit s : all_chars (fun c => negb (Ascii.eqb c ",") && negb (Ascii.eqb c ";") && negb (Ascii.eqb c "'")) s = true -> plain_text s.
Proof.
  intros K. rewrite all_iff in K. repeat split; intros C; apply K in C; discriminate.
Qed.
Lemma plain_app a b : plain_text (a ++ b) <-> plain_text a /\ plain_text b.
Proof. unfold plain_text. rewrite !lacks_app. tauto. Qed.
Lemma plain_path s : path_text s -> plain_text s.
Proof. intros K. repeat split; apply path_no; auto. Qed.
Lemma fmt2_path q : path_text (fmt2 q).
Proof.
  assert (X : forall q, (0 <= Qnum q)%Z -> path_text (fmt_hundredths (hundredths q))).
  { clear. intros q K. unfold fmt_hundredths. rewrite !path_app. repeat split; try apply dec_path; try (apply path_lit; reflexivity).
    apply path_lit. eapply all_chars_impl; [apply is_digit_path|]. apply two_digits_digits. apply Z.mod_pos_bound. lia. }
  unfold fmt2. destruct (Z.ltb_spec (Qnum q) 0); [|apply X; auto].
  apply path_cons. split; [reflexivity|]. apply X. cbn. lia.
Qed.
Lemma name_path D R P T : path_text (job_name_of D R P T).
Proof. unfold job_name_of. rewrite !path_app. repeat split; try apply dec_path; try apply fmt2_path; apply path_lit; reflexivity. Qed.
Lemma name_plain D R P T : plain_text (job_name_of D R P T).
Proof. apply plain_path, name_path. Qed.
Lemma In_dset (d : params) k v k' v' : In (k', v') (pset d k v) -> In (k', v') d \/ (v' = v /\ (k' = k \/ exists u, In (k', u) d)).
Proof.
  induction d as [|[a b] d IH]; cbn.
  - intros [E|[]]. inv E. auto.
  - destruct (String.eqb k a) eqn:E; cbn; intros [K|K]; auto.
    + inv K. right. split; auto. right. eauto.
    + destruct IH as [|(-> & [->|(u & U)])]; auto. right. split; auto. right. eauto.
Qed.
Lemma plain_set d k v : plain_text k -> match v with VStr s => plain_text s | _ => True end -> plain_dict d -> plain_dict (pset d k v).
Proof.
  intros K V [N F]. split; [apply (dset_NoDup String.eqb); auto; intros; try apply String.eqb_eq; auto|]. intros k' v' I1. apply In_dset in I1.
  destruct I1 as [I1|(-> & [->|(u & U)])]; auto. split; auto. eapply F. eauto.
Qed.
Section Jobs.
  Variables (serialize : params -> res string) (python dir : string).
  Hypothesis Hser : forall d, exists js, serialize d = Ok js.
  Hypothesis Hpy : no_brace python = true.
  Hypothesis Hdir : no_brace dir = true.
  Variables (d : params) (D R : Z) (scratch rho : string) (cpus cores mem : Z) (wait script : string).
  Hypothesis Hd : ready d D R scratch rho cpus cores mem wait script.
  Hypothesis Hplain : plain_dict d.
  Hypothesis Hscr : path_text scratch.
  Hypothesis Hrho : path_text rho.

  Ltac plain := cbv beta iota; try exact I; rewrite ?plain_app; repeat split; first [apply plain_lit; reflexivity | apply plain_path; assumption | apply name_plain].

  Ltac look := rewrite ?pget_pset; cbn [String.eqb Ascii.eqb Bool.eqb].

  Lemma job_nlogn_plain host partitions P T p :
    host = "feynman" \/ host = "nlogn" ->
    pget d "partition" = Some p -> (p = VNone \/ exists s, p = VStr s) ->
    contains (partition_of host p) partitions = true ->
    let name := job_name_of D R P T in
    exists dj js d' template, plain_dict dj /\ serialize dj = Ok js /\ job_dict d dj "nlogn" name P T /\
      pget dj "partition" = Some (VStr (partition_of host p)) /\
      job_for serialize python dir host partitions d T P = Ok (d', template) /\
      format_params template d' =
        Ok (sbatch_of (" --partition=" ++ partition_of host p) "" dir "nlogn_feynman" name rho cpus cores mem wait
              (export_of python dir "nlogn_feynman" rho scratch "" script js)).
  Proof.
    intros Hh Hp Hpv Hc name. unfold job_for.
    set (d1 := pset (pset (pset (pset d "number_of_beads" (VInt P)) "number_of_links" (VInt P)) "temperature" (VFloat T)) "hostname" (VStr host)).
    assert (pget d1 "partition" = Some p) as Hp1 by (unfold d1; look; auto).
    unfold pitem at 1. rewrite Hp1. cbn [bind].
    set (d2 := if (host =? "feynman") || (host =? "nlogn") then _ else d1).
    assert (pget d2 "partition" = Some (VStr (partition_of host p)) /\ forall k, k <> "partition" -> pget d2 k = pget d1 k) as [Hp2 Hk2].
    { unfold d2. destruct Hh; subst host; cbn [String.eqb Ascii.eqb Bool.eqb orb];
        (destruct Hpv as [-> | [s ->]]; [|split; auto]); split; look; auto;
        intros k Hk; rewrite pget_pset; destruct (String.eqb_spec k "partition"); tauto. }
    assert ((host =? "orca") || (host =? "graham") = false) as -> by (destruct Hh; subst; reflexivity).
    unfold pitem. rewrite Hp2. cbn [bind]. unfold assert_partition_exists. rewrite Hc. cbn [passert bind].
    unfold construct_job_command, pitem. rewrite Hk2 by discriminate.
    assert (pget d1 "hostname" = Some (VStr host)) as -> by (unfold d1; look; auto). cbn [bind].
    set (d3 := pset d2 "hostname" (VStr "nlogn")).
    assert (ready d3 D R scratch rho cpus cores mem wait script) as Hr.
    { destruct Hd. split; unfold d3; look; rewrite Hk2 by discriminate; unfold d1; look; auto. }
    destruct (prepare_ok serialize python dir Hser Hpy Hdir D R scratch rho cpus cores mem wait script (fun _ => "") "nlogn_feynman" (sbatch_nlogn dir) d3 P T) as (js & d' & Hj & He & Hn & Hx & Hk); auto.
    { unfold d3. look. rewrite Hk2 by discriminate. unfold d1. look. auto. }
    { unfold d3. look. rewrite Hk2 by discriminate. unfold d1. look. auto. }
    cbv zeta in Hj. fold name in Hj, Hn, Hx.
    eexists _, js, d', (sbatch_nlogn dir). split; [|split; [exact Hj|]].
    { do 3 (apply plain_set; [plain|plain|]). unfold d3. apply plain_set; [apply plain_lit; reflexivity|apply plain_lit; reflexivity|]. unfold d2. assert (plain_dict d1) by (unfold d1; repeat (apply plain_set; [apply plain_lit; reflexivity| |]); try exact I; auto; destruct Hh; subst host; apply plain_lit; reflexivity). destruct (_ || _); auto. destruct p; auto. apply plain_set; auto; [apply plain_lit; reflexivity|]. destruct (host =? "feynman")%string; apply plain_lit; reflexivity. }
    split; [|split; [|split]].
    - unfold job_dict. look. unfold d3. look. rewrite !Hk2 by discriminate. unfold d1. look.
      repeat split; auto. intros k Hkk. unfold changed_keys in Hkk. cbn [In] in Hkk. rewrite !pget_pset.
      destruct (String.eqb_spec k "copy_to"); [subst; tauto|]. destruct (String.eqb_spec k "copy_from"); [subst; tauto|].
      destruct (String.eqb_spec k "job_name"); [subst; tauto|]. destruct (String.eqb_spec k "hostname"); [subst; tauto|].
      rewrite Hk2 by (intros ->; tauto). unfold d1. rewrite !pget_pset.
      destruct (String.eqb_spec k "hostname"); [subst; tauto|]. destruct (String.eqb_spec k "temperature"); [subst; tauto|].
      destruct (String.eqb_spec k "number_of_links"); [subst; tauto|]. destruct (String.eqb_spec k "number_of_beads"); [subst; tauto|]. auto.
    - look. unfold d3. look. auto.
    - destruct Hh; subst host; exact He.
    - rewrite nlogn_expand by auto. unfold p_sbatch. cbn [app expand]. unfold pitem. rewrite Hn, Hx. destruct Hr as [q1 q2 q3 q4 q5 q6 q7 q8 q9].
      rewrite !Hk by (cbn [In]; intuition discriminate). rewrite q4, q5, q6, q7, q8.
      assert (pget d3 "partition" = Some (VStr (partition_of host p))) as -> by (unfold d3; look; auto).
      cbn [bind render String.eqb Ascii.eqb Bool.eqb]. unfold sbatch_of. norm_str. reflexivity.
  Qed.

  Lemma job_cc_plain host partitions P T p :
    host = "orca" \/ host = "graham" ->
    pget d "partition" = Some p ->
    let name := job_name_of D R P T in
    exists dj js d' template, plain_dict dj /\ serialize dj = Ok js /\ job_dict d dj host name P T /\
      pget dj "partition" = Some VNone /\
      job_for serialize python dir host partitions d T P = Ok (d', template) /\
      format_params template d' =
        Ok (sbatch_of "" " --account=rrg-pnroy" dir "compute_canada" name rho cpus cores mem wait
              (export_of python dir "compute_canada" rho scratch (name ++ "_J") script js)).
  Proof.
    intros Hh Hp name. unfold job_for.
    set (d1 := pset (pset (pset (pset d "number_of_beads" (VInt P)) "number_of_links" (VInt P)) "temperature" (VFloat T)) "hostname" (VStr host)).
    assert (pget d1 "partition" = Some p) as Hp1 by (unfold d1; look; auto).
    unfold pitem at 1. rewrite Hp1. cbn [bind].
    assert ((host =? "feynman") || (host =? "nlogn") = false) as -> by (destruct Hh; subst; reflexivity).
    assert ((host =? "orca") || (host =? "graham") = true) as -> by (destruct Hh; subst; reflexivity).
    set (d2 := pset d1 "partition" VNone).
    assert (pget d2 "partition" = Some VNone /\ forall k, k <> "partition" -> pget d2 k = pget d1 k) as [Hp2 Hk2].
    { unfold d2. split; [look; auto|]. intros k Hk; rewrite pget_pset; destruct (String.eqb_spec k "partition"); tauto. }
    unfold pitem. rewrite Hp2. cbn [bind].
    unfold construct_job_command, pitem. rewrite Hk2 by discriminate.
    assert (pget d1 "hostname" = Some (VStr host)) as -> by (unfold d1; look; auto). cbn [bind].
    set (d3 := pset d2 "hostname" (VStr host)).
    assert (ready d3 D R scratch rho cpus cores mem wait script) as Hr.
    { destruct Hd. split; unfold d3; look; rewrite Hk2 by discriminate; unfold d1; look; auto. }
    destruct (prepare_ok serialize python dir Hser Hpy Hdir D R scratch rho cpus cores mem wait script (fun name => name ++ "_J") "compute_canada" (sbatch_compute_canada dir) d3 P T) as (js & d' & Hj & He & Hn & Hx & Hk); auto.
    { unfold d3. look. rewrite Hk2 by discriminate. unfold d1. look. auto. }
    { unfold d3. look. rewrite Hk2 by discriminate. unfold d1. look. auto. }
    cbv zeta in Hj. fold name in Hj, Hn, Hx.
    eexists _, js, d', (sbatch_compute_canada dir). split; [|split; [exact Hj|]].
    { do 3 (apply plain_set; [plain|plain|]). unfold d3, d2, d1. repeat (apply plain_set; [apply plain_lit; reflexivity| |]); try exact I; auto; destruct Hh; subst host; apply plain_lit; reflexivity. }
    split; [|split; [|split]].
    - unfold job_dict. look. unfold d3. look. rewrite !Hk2 by discriminate. unfold d1. look.
      repeat split; auto. intros k Hkk. unfold changed_keys in Hkk. cbn [In] in Hkk. rewrite !pget_pset.
      destruct (String.eqb_spec k "copy_to"); [subst; tauto|]. destruct (String.eqb_spec k "copy_from"); [subst; tauto|].
      destruct (String.eqb_spec k "job_name"); [subst; tauto|]. destruct (String.eqb_spec k "hostname"); [subst; tauto|].
      rewrite Hk2 by (intros ->; tauto). unfold d1. rewrite !pget_pset.
      destruct (String.eqb_spec k "hostname"); [subst; tauto|]. destruct (String.eqb_spec k "temperature"); [subst; tauto|].
      destruct (String.eqb_spec k "number_of_links"); [subst; tauto|]. destruct (String.eqb_spec k "number_of_beads"); [subst; tauto|]. auto.
    - look. unfold d3. look. auto.
    - destruct Hh; subst host; exact He.
    - rewrite cc_expand by auto. unfold p_sbatch. cbn [app expand]. unfold pitem. rewrite Hn, Hx. destruct Hr as [q1 q2 q3 q4 q5 q6 q7 q8 q9].
      rewrite !Hk by (cbn [In]; intuition discriminate). rewrite q4, q5, q6, q7, q8.
      cbn [bind render String.eqb Ascii.eqb Bool.eqb]. unfold sbatch_of. norm_str. reflexivity.
  Qed.
End Jobs.
