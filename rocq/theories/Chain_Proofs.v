(** Proofs about several jobs run one after the other (Chain_Model.v). *)
From Coq Require Import QArith Permutation.
From Verif Require Import Common Common_Proofs PyStr_Model PyStr_Proofs FileName_Model FileName_Proofs Json_Model Json_Spec.
From Verif Require Import FileStruct_Model FileStruct_Proofs JobBoss_Model JobBoss_Proofs Results_Model Results_Proofs Job_Model Job_Spec.
From Verif Require Import JobBoss2_Proofs Job_Proofs Job2_Proofs Job3_Proofs Job4_Proofs Job5_Proofs Results_Props Job_Props Results_Model Chain_Model Chain_Spec.
Local Open Scope nat_scope.
Local Open Scope string_scope.

Lemma setting_texts repr fval inv_kT divide w w' root sroot d D R wait script cpus cores mem P T n nb bs A N be ta cv cr :
  isdir w' = isdir w -> texts w' = texts w ->
  job_setting repr fval inv_kT divide w root sroot d D R wait script cpus cores mem P T n nb bs A N be ta cv cr ->
  job_setting repr fval inv_kT divide w' root sroot d D R wait script cpus cores mem P T n nb bs A N be ta cv cr.
Proof. intros E1 E2 []. split; rewrite ?E1, ?E2; auto. Qed.

Section Chain.
  Context (H : string -> string) (cwd : string) (fval : string -> Q) (inv_kT : json -> res json) (divide : json -> json -> res json).
  Context (isfile interpreter : string -> bool) (repr : Q -> string) (python dir host partitions root sroot : string) (D R : Z) (cv cr : string).
  Notation ready := (ready_job H fval inv_kT divide isfile interpreter repr python dir host partitions root sroot D R cv cr).
  Notation run1 := (run_job H cwd fval inv_kT divide isfile interpreter repr python dir host partitions).
  Notation runs := (run_jobs H cwd fval inv_kT divide isfile interpreter repr python dir host partitions).
  Notation at_root r x := (rho_dir r D R ++ "results/" ++ x).

  (** what the directory of the results will show, up to the jobs still to come *)
  Definition kept (b : bool) (w : world) (x : string) : option npz :=
    if b then match results w (at_root sroot x) with Some y => Some y | None => results w (at_root root x) end
    else results w (at_root sroot x).
  Definition base (b : bool) : string := if b then root else sroot.
  Definition class (b : bool) : Prop := if b then host = "feynman" \/ host = "nlogn" else host = "orca" \/ host = "graham".
  Definition written (x : ran) : npz := job_results H (x_v x) (x_n x) (x_nb x) (x_bs x) cv cr.
  Definition rname (x : ran) : string := result_name (j_P (x_job x)) (j_T (x_job x)) (j_id (x_job x)).

  Lemma step b w x : class b -> ready w x -> exists w', run1 w (x_job x) = Some w' /\ isdir w' = isdir w /\ texts w' = texts w /\
    (forall y, visible y -> results w' (at_root (base b) y) = if string_dec y (rname x) then Some (written x) else kept b w y) /\
    (forall y, visible y -> kept b w' y = results w' (at_root (base b) y)) /\
    (b = false -> sroot <> root -> forall y, visible y -> results w' (at_root root y) = results w (at_root root y)).
  Proof.
    intros C (wait & script & cpus & cores & mem & A & N & be & ta & p & J & Kv & Kp & Kd & Pp & Ok0 & I).
    pose proof (js_root _ _ _ _ _ _ _ _ _ _ _ _ _ _ _ _ _ _ _ _ _ _ _ _ _ _ J) as [NR _].
    pose proof (js_scratch _ _ _ _ _ _ _ _ _ _ _ _ _ _ _ _ _ _ _ _ _ _ _ _ _ _ J) as SC.
    destruct b; cbn [class base kept] in *.
    - assert (HC : orb (String.eqb host "feynman") (String.eqb host "nlogn") = true) by (destruct C as [-> | ->]; reflexivity).
      rewrite HC in Ok0, I. destruct Ok0 as [O1 O2]. destruct I as (I1 & I2 & I3).
      destruct (C98_results_nlogn H cwd fval inv_kT divide (j_sampler (x_job x)) isfile interpreter python dir repr w root sroot (j_dict (x_job x)) D R wait script cpus cores mem
        (j_P (x_job x)) (j_T (x_job x)) (x_n x) (x_nb x) (x_bs x) A N be ta cv cr (x_v x) (j_id (x_job x)) host partitions p J Kv Kp Kd C Pp O1 O2 I1 I2 I3)
        as (d' & t & cmd & fs & E1 & E2 & E3 & F1 & F2 & F3 & F4).
      exists {| isdir := isdir w; texts := texts w; results := fs |}. split; [unfold run_job; rewrite E1, E2, E3; reflexivity|]. repeat split; cbn [results].
      + intros y Vy. destruct (string_dec y (rname x)) as [->|Ne]; [exact F1|]. apply F2; auto.
      + intros y Vy. destruct (string_dec sroot root) as [->|Ne]; [destruct (fs (at_root root y)); reflexivity|]. rewrite F3 by auto. reflexivity.
      + discriminate.
    - assert (HC : orb (String.eqb host "feynman") (String.eqb host "nlogn") = false) by (destruct C as [-> | ->]; reflexivity).
      rewrite HC in Ok0, I. destruct I as (I1 & I2 & I3).
      destruct (C98_results_compute_canada H cwd fval inv_kT divide (j_sampler (x_job x)) isfile interpreter python dir repr w root sroot (j_dict (x_job x)) D R wait script cpus cores mem
        (j_P (x_job x)) (j_T (x_job x)) (x_n x) (x_nb x) (x_bs x) A N be ta cv cr (x_v x) (j_id (x_job x)) host partitions p J Kv Kp Kd C Pp I1 I2 I3)
        as (d' & t & cmd & fs & E1 & E2 & E3 & F).
      exists {| isdir := isdir w; texts := texts w; results := fs |}. split; [unfold run_job; rewrite E1, E2, E3; reflexivity|]. repeat split; cbn [results].
      + intros y Vy. rewrite F. unfold result_file. fold (rname x).
        destruct (string_dec (at_root sroot y) (at_root sroot (rname x))) as [E|Ne].
        * apply append_inj_l in E. apply append_inj_l in E. subst. destruct (string_dec (rname x) (rname x)); [reflexivity|contradiction].
        * destruct (string_dec y (rname x)) as [->|]; [destruct Ne; reflexivity|reflexivity].
      + intros _ Ne y Vy. rewrite F. destruct (string_dec (at_root root y) (result_file sroot D R (j_P (x_job x)) (j_T (x_job x)) (j_id (x_job x)))) as [E|]; [|reflexivity].
        exfalso. unfold result_file in E. fold (rname x) in E. apply Ne.
        assert (SE : forall r z, at_root r z = (rho_dir r D R ++ "results") ++ "/" ++ z) by (intros; rewrite append_assoc; reflexivity).
        rewrite !SE in E. apply last_slash_unique in E; [|apply Vy|apply result_visible]. destruct E as [E _].
        unfold rho_dir in E. rewrite !append_assoc in E. apply append_inj_r in E. auto.
  Qed.

  Lemma ready_same w w' x : isdir w' = isdir w -> texts w' = texts w -> ready w x -> ready w' x.
  Proof.
    intros E1 E2 (wait & script & cpus & cores & mem & A & N & be & ta & p & J & K). exists wait, script, cpus, cores, mem, A, N, be, ta, p.
    split; [eapply setting_texts; eauto|exact K].
  Qed.

  Lemma chain b L : class b -> forall w, Forall (ready w) L -> NoDup (map rname L) ->
    exists w', runs w (map x_job L) = Some w' /\ isdir w' = isdir w /\ texts w' = texts w /\
      (forall x, In x L -> kept b w' (rname x) = Some (written x)) /\
      (forall y, visible y -> ~ In y (map rname L) -> kept b w' y = kept b w y) /\
      (L <> [] -> forall y, visible y -> results w' (at_root (base b) y) = kept b w' y) /\
      (b = false -> sroot <> root -> forall y, visible y -> results w' (at_root root y) = results w (at_root root y)).
  Proof.
    intros C. induction L as [|x L IH]; intros w F ND.
    { exists w. repeat split; try reflexivity; contradiction. }
    apply Forall_cons_iff in F. destruct F as [Fx F]. cbn [map] in ND. apply NoDup_cons_iff in ND. destruct ND as [Nx ND].
    destruct (step b w x C Fx) as (w1 & E & E1 & E2 & S1 & S2 & S3).
    destruct (IH w1) as (w' & E' & E1' & E2' & T1 & T2 & T3 & T4); [|exact ND|].
    { eapply Forall_impl; [|exact F]. intros y. apply ready_same; auto. }
    exists w'. split; [cbn [map run_jobs]; rewrite E; exact E'|]. split; [congruence|]. split; [congruence|].
    assert (KX : kept b w1 (rname x) = Some (written x)).
    { rewrite S2, S1 by apply result_visible. destruct (string_dec (rname x) (rname x)); [reflexivity|contradiction]. }
    split; [|split; [|split]].
    - intros y [<-|I]; [|apply T1; exact I]. rewrite T2; auto. apply result_visible.
    - intros y V N. cbn [map In] in N. rewrite T2, S2, S1 by (auto; tauto). destruct (string_dec y (rname x)) as [->|]; [tauto|reflexivity].
    - intros _ y V. destruct L as [|z L]; [|apply T3; [discriminate|exact V]]. cbn [map run_jobs] in E'. injection E' as <-. symmetry. apply S2. exact V.
    - intros B Ne y V. rewrite T4, S3 by auto. reflexivity.
  Qed.

  Definition triple (x : ran) : Z * Q * Z := (j_P (x_job x), j_T (x_job x), j_id (x_job x)).
  Lemma triple_name x : name_of (triple x) = rname x.
  Proof. reflexivity. Qed.
  Lemma names_distinct L : Forall (fun x => (0 <= Qnum (j_T (x_job x)))%Z) L -> NoDup (map (fun x => j_id (x_job x)) L) -> NoDup (map rname L).
  Proof.
    intros F. induction L as [|x L IH]; intros ND; [constructor|]. cbn [map] in *. apply NoDup_cons_iff in ND. destruct ND as [N ND].
    apply Forall_cons_iff in F. destruct F as [Fx F]. constructor; auto. intros I. apply N. apply in_map_iff in I. destruct I as (y & E & I).
    apply in_map_iff. exists y. split; auto. rewrite Forall_forall in F. apply F in I.
    apply pimc_file_inj in E; auto. apply E.
  Qed.

  Lemma arr_written f sel fs p x : fs p = Some (written x) -> sel (written x) = Some (values f x) -> arr sel fs p = values f x.
  Proof. intros E1 E2. unfold arr. rewrite E1, E2. reflexivity. Qed.

  Section Pool.
    Variables (set_order : list string -> list string) (pm : bool) (fs : files) (base : string) (L : list ran) (P : Z) (T : Q).
    Hypothesis SO : set_list set_order.
    Hypothesis FT : Forall (fun x => (0 <= Qnum (j_T (x_job x)))%Z) L.
    Hypothesis HT : (0 <= Qnum T)%Z.
    Hypothesis ND : NoDup (map rname L).
    Hypothesis FW : forall x, In x L -> fs (at_root base (rname x)) = Some (written x).
    Hypothesis SZ : forall x, In x L -> x_nb x * x_bs x <= x_n x.
    Hypothesis NZ : forall x i q, In x L -> i < x_nb x * x_bs x -> fst (fst (fst (x_v x i))) = Num q -> ~ (q == 0)%Q.
    Let here (x : ran) : bool := (P =? j_P (x_job x))%Z && (hundredths T =? hundredths (j_T (x_job x)))%Z.

    Lemma pool_jobs : (exists x, In x L /\ here x = true) -> exists order r',
      Permutation order (filter here L) /\
      load_pimc_data set_order pm fs (rho_dir base D R ++ "results/") (map rname L) P T (new_empty pm 0) = Ok r' /\
      count_value (r_samples r') = list_sum (map x_n order) /\
      r_rho r' = flat_map (values (fun v => fst (fst (fst v)))) order /\ r_g r' = flat_map (values (fun v => snd (fst (fst v)))) order /\
      (pm = true -> r_gp r' = flat_map (values (fun v => snd (fst v))) order /\ r_gm r' = flat_map (values snd) order).
    Proof.
      intros EX. set (path := fun x => (rho_dir base D R ++ "results/") ++ rname x).
      assert (FP : forall x, In x L -> fs (path x) = Some (written x)) by (intros x I; unfold path; rewrite append_assoc; apply FW; exact I).
      assert (MM : map (fun x => ((rho_dir base D R ++ "results/") ++ name_of x)%string)
          (filter (fun x => (P =? fst (fst x))%Z && (hundredths T =? hundredths (snd (fst x)))%Z) (map triple L)) = map path (filter here L)).
      { clear. induction L as [|x l IH]; [reflexivity|]. cbn [map filter]. unfold here at 1. cbn [triple fst snd].
        destruct ((P =? j_P (x_job x))%Z && (hundredths T =? hundredths (j_T (x_job x)))%Z); cbn [map]; rewrite IH; reflexivity. }
      assert (LV : forall f x, In x L -> length (values f x) = x_n x).
      { intros f x I. unfold values. rewrite app_length, map_length, seq_length, repeat_length. apply SZ in I. lia. }
      assert (GD : forall x, In x L -> good pm fs (path x) = true) by (intros x I; unfold good; rewrite FP by auto; reflexivity).
      assert (SZE : forall x, In x L -> size fs (path x) = x_n x) by (intros x I; unfold size; rewrite FP by auto; reflexivity).
      assert (AR : forall x, In x L -> arr z_rho fs (path x) = values (fun v => fst (fst (fst v))) x /\ arr z_g fs (path x) = values (fun v => snd (fst (fst v))) x /\
          arr z_gp fs (path x) = values (fun v => snd (fst v)) x /\ arr z_gm fs (path x) = values snd x).
      { intros x I. repeat split; apply arr_written; auto. }
      destruct (C58_pools_matching_files set_order pm fs (rho_dir base D R ++ "results/") P T (map triple L) (new_empty pm 0) SO HT) as (order & r' & Pm & E & Ct & R1 & R2 & R3).
      - apply Forall_forall. intros y I. apply in_map_iff in I. destruct I as (x & <- & I). rewrite Forall_forall in FT. apply FT. exact I.
      - rewrite map_map. exact ND.
      - cbv zeta. rewrite MM. intros p I. apply in_map_iff in I. destruct I as (x & <- & I). apply filter_In in I. rewrite FP by tauto. discriminate.
      - cbv zeta. rewrite MM. destruct EX as (x & I & Hx). exists (path x). split; [|apply GD; auto]. apply in_map. apply filter_In. auto.
      - cbv zeta. rewrite MM. intros p I _. apply in_map_iff in I. destruct I as (x & <- & I). apply filter_In in I. destruct I as [I _].
        destruct (AR x I) as (A1 & A2 & A3 & A4). split.
        + unfold consistent. rewrite A1, A2, A3, A4, !LV, SZE by auto. auto.
        + unfold nonzero. rewrite A1. intros q K. unfold values in K. apply in_app_iff in K. destruct K as [K|K].
          * apply in_map_iff in K. destruct K as (i & K & Ii). apply in_seq in Ii. apply (NZ x i q I); [lia|exact K].
          * apply repeat_spec in K. discriminate.
      - cbv zeta in Pm. rewrite MM in Pm.
        assert (FG : filter (good pm fs) (map path (filter here L)) = map path (filter here L)).
        { clear -GD. assert (G : forall l, incl l L -> filter (good pm fs) (map path l) = map path l).
          { induction l as [|x l IH]; intros I; [reflexivity|]. cbn [map filter]. rewrite GD by (apply I; left; reflexivity). rewrite IH; [reflexivity|]. intros y K. apply I. right. exact K. }
          apply G. intros x K. apply filter_In in K. tauto. }
        rewrite FG in Pm. apply Permutation_map_inv in Pm. destruct Pm as (o & -> & Pm).
        exists o, r'. split; [apply Permutation_sym; exact Pm|].
        assert (IO : incl o L). { intros x K. apply (Permutation_in _ (Permutation_sym Pm)) in K. apply filter_In in K. tauto. }
        rewrite map_map in E. split; [exact E|]. unfold total, cat in *.
        assert (FM : forall sel f, (forall x, In x L -> arr sel fs (path x) = values f x) -> flat_map (arr sel fs) (map path o) = flat_map (values f) o).
        { intros sel f K. clear -K IO. induction o as [|x l IH]; [reflexivity|]. cbn [map flat_map]. rewrite K by (apply IO; left; reflexivity).
          rewrite IH; [reflexivity|]. intros y Hy. apply IO. right. exact Hy. }
        split; [|split; [|split]].
        + rewrite Ct, map_map. f_equal. apply map_ext_in. intros x K. apply SZE, IO, K.
        + rewrite R1. apply FM. intros x I. apply AR; exact I.
        + rewrite R2. apply FM. intros x I. apply AR; exact I.
        + intros Z. destruct (R3 Z) as [-> ->]. split; apply FM; intros x I; apply AR; exact I.
    Qed.
  End Pool.
End Chain.

(** ---- the jobs of one submission ---- *)
Lemma flat_prod ts ps n : flat_map (fun tp : Q * Z => repeat tp n) (list_prod ts ps) = turns ts ps n.
Proof.
  unfold turns. induction ts as [|T ts IH]; [reflexivity|]. cbn [list_prod flat_map]. rewrite flat_map_app, IH.
  assert (E : forall l, flat_map (fun tp : Q * Z => repeat tp n) (map (fun y => (T, y)) l) = flat_map (fun P => repeat (T, P) n) l).
  { induction l as [|P l IHp]; [reflexivity|]. cbn [map flat_map]. rewrite IHp. reflexivity. }
  rewrite E. reflexivity.
Qed.
Lemma campaign_turns d ts ps n samplers ids : map (fun j => (j_T j, j_P j)) (campaign d ts ps n samplers ids) = turns ts ps n.
Proof.
  unfold campaign. cbv zeta. rewrite map_map. cbn [j_T j_P]. generalize 0. induction (turns ts ps n) as [|[T P] l IH]; intros k; [reflexivity|].
  cbn [length seq combine map fst snd]. rewrite IH. reflexivity.
Qed.
Lemma campaign_ids d ts ps n samplers ids : (forall i j : nat, ids i = ids j -> i = j) -> NoDup (map j_id (campaign d ts ps n samplers ids)).
Proof.
  intros IJ. unfold campaign. cbv zeta. rewrite map_map. cbn [j_id].
  assert (E : forall (l : list (Q * Z)) k, map (fun x : nat * (Q * Z) => ids (fst x)) (combine (seq k (length l)) l) = map ids (seq k (length l))).
  { induction l as [|x l IH]; intros k; [reflexivity|]. cbn [length seq combine map fst]. rewrite IH. reflexivity. }
  rewrite E. apply FinFun.Injective_map_NoDup; [exact IJ|apply seq_NoDup].
Qed.
Lemma in_turns ts ps n T P : In (T, P) (turns ts ps n) -> In T ts /\ In P ps.
Proof.
  unfold turns. intros I. apply in_flat_map in I. destruct I as (T' & I1 & I). apply in_flat_map in I. destruct I as (P' & I2 & I).
  apply repeat_spec in I. injection I as -> ->. auto.
Qed.
Lemma filter_const {A} (f : A -> bool) x n : length (filter f (repeat x n)) = if f x then n else 0.
Proof. induction n as [|n IH]; cbn; [destruct (f x); reflexivity|]. destruct (f x); cbn; congruence. Qed.
Lemma turns_count ts ps n T P : NoDup (map hundredths ts) -> NoDup ps -> In T ts -> In P ps ->
  length (filter (fun tp => (P =? snd tp)%Z && (hundredths T =? hundredths (fst tp))%Z) (turns ts ps n)) = n.
Proof.
  intros NT NP IT IP. set (f := fun tp : Q * Z => (P =? snd tp)%Z && (hundredths T =? hundredths (fst tp))%Z).
  assert (LF : forall A (g : A -> list (Q * Z)) (l : list A), (forall a, In a l -> length (filter f (g a)) = 0) -> length (filter f (flat_map g l)) = 0).
  { intros A g l K. induction l as [|a l IH]; [reflexivity|]. cbn [flat_map]. rewrite filter_app, app_length, (K a), IH; auto; [|left; reflexivity]. intros b Hb. apply K. right. exact Hb. }
  assert (PS : forall T', length (filter f (flat_map (fun P' => repeat (T', P') n) ps)) = if (hundredths T =? hundredths T')%Z then n else 0).
  { intros T'. destruct (hundredths T =? hundredths T')%Z eqn:B.
    - clear NT IT. induction ps as [|p l IH]; [destruct IP|]. cbn [flat_map]. rewrite filter_app, app_length, filter_const. apply NoDup_cons_iff in NP. destruct NP as [N1 N2].
      unfold f at 1. cbn [fst snd]. rewrite B, andb_true_r. destruct (Z.eqb_spec P p) as [->|Ne].
      + rewrite LF; [lia|]. intros a Ha. rewrite filter_const. unfold f. cbn [fst snd]. destruct (Z.eqb_spec p a) as [->|]; [contradiction|reflexivity].
      + rewrite IH; auto. destruct IP; [congruence|assumption].
    - apply LF. intros a _. rewrite filter_const. unfold f. cbn [fst snd]. rewrite B, andb_false_r. reflexivity. }
  unfold turns. induction ts as [|t l IH]; [destruct IT|]. cbn [flat_map]. rewrite filter_app, app_length, PS. cbn [map] in NT. apply NoDup_cons_iff in NT. destruct NT as [N1 N2].
  destruct (Z.eqb_spec (hundredths T) (hundredths t)) as [E|Ne].
  - rewrite LF; [lia|]. intros t' I. rewrite PS. destruct (Z.eqb_spec (hundredths T) (hundredths t')) as [E'|]; [|reflexivity].
    destruct N1. rewrite <- E, E'. apply in_map. exact I.
  - rewrite IH; auto. destruct IT; [congruence|assumption].
Qed.
