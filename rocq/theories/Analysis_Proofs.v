From Coq Require Import QArith Permutation Sorting.Sorted.
From Verif Require Import Common Common_Proofs PyStr_Model PyStr_Proofs FileName_Model FileName_Proofs FileStruct_Model FileStruct_Proofs Json_Model Julia_Model Julia3_Proofs Results_Model Results_Proofs Analysis_Model.
Local Open Scope string_scope.
Local Open Scope nat_scope.
Local Open Scope list_scope.

(** ---- glob ---- *)
Lemma some_tail_spec p s : some_tail p s = true <-> exists x y, s = (x ++ y)%string /\ p y = true.
Proof.
  induction s as [|c s IH]; cbn.
  - rewrite orb_false_r. split; [intros H; exists "", ""; auto|]. intros (x & y & E & H). destruct x; [|discriminate]. cbn in E. subst. exact H.
  - rewrite orb_true_iff, IH. split.
    + intros [H|(x & y & -> & H)]; [exists "", (String c s)|exists (String c x), y]; auto.
    + intros ([|c' x] & y & E & H); cbn in E; [subst; auto|]. injection E as -> ->. right. eauto.
Qed.
Lemma glob_one p s : glob_parts [p] s = true <-> s = p.
Proof. cbn. apply String.eqb_eq. Qed.
Lemma glob_more p q r s : glob_parts (p :: q :: r) s = true <-> exists x y, s = (p ++ x ++ y)%string /\ glob_parts (q :: r) y = true.
Proof.
  change (glob_parts (p :: q :: r) s) with (String.prefix p s && some_tail (glob_parts (q :: r)) (String.substring (String.length p) (String.length s - String.length p) s)).
  rewrite andb_true_iff, prefix_true, some_tail_spec. split.
  - intros ((t & ->) & x & y & E & H). replace (String.length (p ++ t) - String.length p) with (String.length t) in E by (rewrite append_length; lia).
    rewrite substring_suffix in E. subst t. eauto.
  - intros (x & y & -> & H). split; [eauto|]. exists x, y. split; [|exact H].
    replace (String.length (p ++ x ++ y) - String.length p) with (String.length (x ++ y)) by (rewrite !append_length; lia). apply substring_suffix.
Qed.
Lemma glob_pimc s : glob_parts ["P"; "_T"; "_J"; "_data_points.npz"] s = true <-> exists a b c, s = pimc a b c.
Proof.
  rewrite glob_more. split.
  - intros (a & y & -> & H). apply glob_more in H. destruct H as (b & z & -> & H). apply glob_more in H. destruct H as (c & u & -> & H). apply glob_one in H. subst u. exists a, b, c. reflexivity.
  - intros (a & b & c & ->). exists a, ("_T" ++ b ++ "_J" ++ c ++ "_data_points.npz")%string. split; [reflexivity|]. apply glob_more. exists b, ("_J" ++ c ++ "_data_points.npz")%string. split; [reflexivity|].
    apply glob_more. exists c, "_data_points.npz". split; [reflexivity|]. apply glob_one. reflexivity.
Qed.

(** ---- sorted sets of temperatures ---- *)
Lemma insert_q_in q l x : In x (insert_q q l) -> x = q \/ In x l.
Proof.
  induction l as [|y l IH]; cbn; [intros [->|[]]; auto|]. destruct (q ?= y)%Q; cbn; [auto| |].
  - intros [->|[->|H]]; auto.
  - intros [->|H]; auto. apply IH in H. tauto.
Qed.
Lemma insert_q_old q l x : In x l -> In x (insert_q q l).
Proof. induction l as [|y l IH]; cbn; [tauto|]. destruct (q ?= y)%Q; cbn; intros [->|H]; auto. Qed.
Lemma insert_q_new q l : exists x, In x (insert_q q l) /\ (x == q)%Q.
Proof.
  induction l as [|y l IH]; cbn; [exists q; split; [auto|reflexivity]|]. destruct (q ?= y)%Q eqn:E; cbn.
  - exists y. split; auto. apply Qeq_alt in E. symmetry. exact E.
  - exists q. split; [auto|reflexivity].
  - destruct IH as (x & I & H). eauto.
Qed.
Lemma insert_q_sorted q l : StronglySorted Qlt l -> StronglySorted Qlt (insert_q q l).
Proof.
  induction l as [|y l IH]; cbn; intros S; [repeat constructor|]. inversion_clear S as [|? ? S' F]. destruct (q ?= y)%Q eqn:E.
  - constructor; auto.
  - apply Qlt_alt in E. constructor; [constructor; auto|]. constructor; auto. rewrite Forall_forall in *. intros z Z. apply F in Z. eapply Qlt_trans; eauto.
  - apply Qgt_alt in E. constructor; auto. rewrite Forall_forall in *. intros z Z. apply insert_q_in in Z. destruct Z as [->|Z]; auto.
Qed.
Lemma sorted_q l : StronglySorted Qlt (fold_right insert_q [] l) /\ (forall x, In x (fold_right insert_q [] l) -> In x l) /\
  forall x, In x l -> exists y, In y (fold_right insert_q [] l) /\ (y == x)%Q.
Proof.
  induction l as [|q l (S & A & B)]; cbn; [repeat split; [constructor|tauto|tauto]|]. split; [apply insert_q_sorted; auto|]. split.
  - intros x H. apply insert_q_in in H. destruct H as [->|H]; auto.
  - intros x [<-|H]; [apply insert_q_new|]. apply B in H. destruct H as (y & I & E). exists y. split; auto. apply insert_q_old. auto.
Qed.
Lemma sorted_q_unique l x y : StronglySorted Qlt l -> In x l -> In y l -> (x == y)%Q -> x = y.
Proof.
  induction 1 as [|z l S IH F]; cbn; [tauto|]. rewrite Forall_forall in F. intros [->|I] [->|J] E; auto.
  - apply F in J. rewrite E in J. destruct (Qlt_irrefl _ J).
  - apply F in I. rewrite E in I. destruct (Qlt_irrefl _ I).
Qed.

(** ---- the pairs ---- *)
Definition name_of (x : Z * Q * Z) : string := pimc_file (fst (fst x)) (snd (fst x)) (snd x).
(** the directory [dir] with the names [names] holds the results [l] (bead count, temperature, job) *)
Record results_dir (dir : string) (names : list string) (l : list (Z * Q * Z)) : Prop := {
  rd_P : all_chars (fun c => negb (Ascii.eqb c "P")) dir = true;
  rd_T : contains "_T" dir = false;
  rd_J : contains "_J" dir = false;
  rd_pos : Forall (fun x => (0 <= fst (fst x))%Z /\ (0 <= Qnum (snd (fst x)))%Z) l;
  rd_all : forall x, In x l -> In (name_of x) names;
  rd_only : forall a b c, In (pimc a b c) names -> exists x, In x l /\ pimc a b c = name_of x }.

Lemma choose_names (ns : list string) l : (forall n, In n ns -> exists x, In x l /\ n = name_of x) -> exists l', ns = map name_of l' /\ incl l' l.
Proof.
  induction ns as [|n ns IH]; intros H; [exists []; split; [reflexivity|intros x []]|].
  destruct (H n (or_introl eq_refl)) as (x & I & ->). destruct IH as (l' & -> & IL); [intros m M; apply H; right; exact M|].
  exists (x :: l'). split; [reflexivity|]. intros y [<-|Y]; auto.
Qed.
Lemma listing dir names l : results_dir dir names l ->
  exists l', retrive_pimc_file_list dir names = map (fun x => (dir ++ name_of x)%string) l' /\ incl l' l /\
    forall x, In x l -> exists x', In x' l' /\ name_of x' = name_of x.
Proof.
  intros [_ _ _ _ AL ON]. unfold retrive_pimc_file_list.
  destruct (choose_names (filter (glob_parts ["P"; "_T"; "_J"; "_data_points.npz"]) names) l) as (l' & E & IL).
  { intros n H. apply filter_In in H. destruct H as [I G]. apply glob_pimc in G. destruct G as (a & b & c & ->). apply ON. exact I. }
  exists l'. rewrite E, map_map. split; [reflexivity|]. split; [exact IL|]. intros x I. apply AL in I.
  assert (J : In (name_of x) (filter (glob_parts ["P"; "_T"; "_J"; "_data_points.npz"]) names)).
  { apply filter_In. split; [exact I|]. apply glob_pimc. eexists _, _, _. reflexivity. }
  rewrite E in J. apply in_map_iff in J. destruct J as (x' & N & I'). eauto.
Qed.
Lemma args_ok dir names l : results_dir dir names l ->
  exists Ps Ts, arg_list dir names = Ok (list_prod Ps Ts) /\ StronglySorted Z.lt Ps /\ StronglySorted Qlt Ts /\
    (forall P, In P Ps <-> exists T J, In (P, T, J) l) /\
    (forall t, In t Ts -> exists P T J, In (P, T, J) l /\ (t == hundredths T # 100)%Q) /\
    (forall P T J, In (P, T, J) l -> exists t, In t Ts /\ (t == hundredths T # 100)%Q).
Proof.
  intros RD. destruct (listing dir names l RD) as (l' & E & IL & CV). destruct RD as [DP DT DJ PS _ _]. rewrite Forall_forall in PS.
  unfold arg_list. rewrite E.
  destruct (extract_bead_list_ok dir l' DP) as (Ps & EP & SP & MP).
  { apply Forall_forall. intros x I. apply PS. auto. }
  assert (EP' : extract_bead_list (map (fun x => (dir ++ name_of x)%string) l') = Ok Ps) by exact EP. rewrite EP'. cbn [bind].
  assert (TL : exists ts, map_res extract_temperature_pimc (map (fun x => (dir ++ name_of x)%string) l') = Ok ts /\ Forall2 (fun x t => (t == hundredths (snd (fst x)) # 100)%Q) l' ts).
  { clear E EP EP' SP MP CV. induction l' as [|x l' IH]; [exists []; split; [reflexivity|constructor]|].
    destruct IH as (ts & E & F); [intros y Y; apply IL; right; exact Y|].
    destruct (extract_temperature_pimc_ok dir (fst (fst x)) (snd (fst x)) (snd x)) as (q & Q1 & Q2); [apply PS, IL; left; reflexivity|exact DT|].
    exists (q :: ts). split; [|constructor; auto]. cbn [map map_res]. unfold name_of at 1. rewrite Q1. cbn [bind]. rewrite E. reflexivity. }
  destruct TL as (ts & ET & FT). unfold extract_temperature_list. rewrite ET. cbn [bind apply_parameter_restrictions].
  destruct (sorted_q ts) as (SS & S1 & S2). exists Ps, (fold_right insert_q [] ts).
  split; [f_equal; clear; induction Ps as [|p ps IH]; cbn; [reflexivity|rewrite IH; reflexivity]|].
  split; [exact SP|]. split; [exact SS|]. split; [|split].
  - intros P. rewrite MP. split; intros (T & J & I); [exists T, J; auto|].
    destruct (CV _ I) as ([[P' T'] J'] & I' & N). unfold name_of in N. cbn in N. apply pimc_file_inj in N; [|apply (PS (P', T', J')), IL, I'|apply (PS (P, T, J)), I].
    destruct N as (-> & _). eauto.
  - intros t I. apply S1 in I. clear - FT I IL. induction FT as [|x t' l' ts H F IH]; [destruct I|]. destruct I as [->|I].
    + destruct x as [[P T] J]. exists P, T, J. split; [apply IL; left; reflexivity|exact H].
    + apply IH; [intros y Y; apply IL; right; exact Y|exact I].
  - intros P T J I. destruct (CV _ I) as ([[P' T'] J'] & I' & N). unfold name_of in N. cbn in N. apply pimc_file_inj in N; [|apply (PS (P', T', J')), IL, I'|apply (PS (P, T, J)), I].
    destruct N as (_ & HT & _). rewrite <- HT.
    assert (X : exists t, In t ts /\ (t == hundredths T' # 100)%Q).
    { clear - FT I'. induction FT as [|x t' l' ts H F IH]; [destruct I'|]. destruct I' as [->|I']; [exists t'; split; [left; reflexivity|exact H]|]. destruct (IH I') as (t & A & B). exists t. split; [right; exact A|exact B]. }
    destruct X as (t & It & Et). destruct (S2 t It) as (u & Iu & Eu). exists u. split; [exact Iu|]. rewrite Eu. exact Et.
Qed.

Lemma hundredths_exact h : hundredths (h # 100) = h.
Proof. unfold hundredths, round_even. cbn [Qnum Qden]. rewrite Z.div_mul, Z.mod_mul by lia. reflexivity. Qed.
Lemma shown_nonneg t T : (0 <= Qnum T)%Z -> (t == hundredths T # 100)%Q -> (0 <= Qnum t)%Z.
Proof. intros H E. pose proof (hundredths_nonneg _ H). unfold Qeq in E. cbn in E. nia. Qed.
Lemma shown_same t T : (t == hundredths T # 100)%Q -> hundredths t = hundredths T.
Proof. intros E. rewrite (hundredths_compat _ _ E). apply hundredths_exact. Qed.

(** no results for this pair *)
Lemma no_match dir names l P t : results_dir dir names l -> (0 <= Qnum t)%Z ->
  (forall T J, In (P, T, J) l -> hundredths T <> hundredths t) -> select_pimc_files P t names = [].
Proof.
  intros [_ _ _ PS _ ON] HT NO. rewrite Forall_forall in PS.
  destruct (select_pimc_files P t names) as [|n r] eqn:E; [reflexivity|]. exfalso.
  assert (I : In n (select_pimc_files P t names)) by (rewrite E; left; reflexivity).
  unfold select_pimc_files in I. apply filter_In in I. destruct I as [I G].
  assert (G' := G). unfold glob_star in G'. apply andb_true_iff in G'. destruct G' as [G' E3]. apply andb_true_iff in G'. destruct G' as [G1 G2].
  apply prefix_true in G1. destruct G1 as [s G1]. apply Nat.leb_le in G2. apply String.eqb_eq in E3.
  assert (SUF : exists mid, s = (mid ++ "_data_points.npz")%string).
  { set (pre := ("P" ++ dec P ++ "_T" ++ fmt2 t ++ "_J")%string) in *. set (suf := "_data_points.npz") in *. clear - G1 G2 E3. subst n. rewrite append_length in *.
    replace (String.length pre + String.length s - String.length suf) with (String.length pre + (String.length s - String.length suf)) in E3 by lia.
    assert (L : String.length suf <= String.length s) by lia. clear G2.
    assert (SK : forall a b k m, String.substring (String.length a + k) m (a ++ b) = String.substring k m b) by (induction a as [|c a IH]; cbn; auto).
    rewrite SK in E3. exists (String.substring 0 (String.length s - String.length suf) s).
    assert (SP : forall u k, k <= String.length u -> u = (String.substring 0 k u ++ String.substring k (String.length u - k) u)%string).
    { clear. induction u as [|c u IH]; intros [|k] H; cbn in *; auto; try lia.
      - f_equal. specialize (IH 0 (Nat.le_0_l _)). rewrite Nat.sub_0_r in IH. destruct u; [reflexivity|exact IH].
      - f_equal. apply IH. lia. }
    rewrite <- E3 at 2. replace (String.length suf) with (String.length s - (String.length s - String.length suf)) at 3 by lia. apply SP. lia. }
  destruct SUF as [mid ->].
  assert (NM : n = pimc (dec P) (fmt2 t) mid) by (rewrite G1; unfold pimc; rewrite !append_assoc; reflexivity).
  destruct (ON (dec P) (fmt2 t) mid) as ([[P' T'] J'] & IX & EX); [rewrite <- NM; exact I|].
  rewrite <- NM in EX. subst n. unfold name_of in EX. cbn [fst snd] in EX.
  destruct (select_pimc_files_spec P t P' T' J' HT (proj2 (PS _ IX))) as [[S1 _] _].
  destruct S1 as [-> HH]; [unfold select_pimc_files; cbn [filter]; rewrite <- EX, G; reflexivity|].
  apply (NO _ _ IX). symmetry. exact HH.
Qed.

Section Pool.
  Variable set_order : list string -> list string.
  Variable divide : json -> json -> res json.
  Variable operation : analysis -> string -> Q -> result -> list (string * json) -> res (list (string * json)).
  Variable npz_files : files.
  Variable fs : fsys string.
  Variable f : fstruct.
  Variable names : list string.
  Variable k : analysis.
  Hypothesis TJ : t_jackknife f = (path_rho_results f ++ tpl_jackknife)%string.
  Hypothesis NB : no_brace (path_rho_results f) = true.

  (** what is written for a pair *)
  Definition analysed (m : string) (P : Z) (T : Q) (w : string * string) : Prop :=
    exists r a out, load_pimc_data set_order true npz_files (path_rho_results f) names P T (new_empty true 0) = Ok r /\
      load_analytic_data divide fs f T [] = (a, Ok tt) /\ operation k m T r a = Ok out /\ r_samples r <> PyInt 0 /\
      fst w = (path_rho_results f ++ thermo_file P T (Z.of_nat (count_value (r_samples r))))%string /\
      snd w = dumps (JObj (dset String.eqb (dset String.eqb out "hash_vib" (hash_json (FileStruct_Model.hash_vib f))) "hash_rho" (hash_json (FileStruct_Model.hash_rho f)))).
  Notation task m P T := (starmap_wrapper set_order divide operation npz_files fs f names k m P T).

  Lemma task_ok m P T w : task m P T = Ok w <-> analysed m P T w.
  Proof.
    unfold starmap_wrapper, analysed. destruct (load_pimc_data _ _ _ _ _ _ _ _) as [r|e]; cbn [bind].
    2:{ split; [discriminate|]. intros (r & a & out & X & _). discriminate. }
    destruct (load_analytic_data divide fs f T []) as [a [[]|e]]; cbn [bind].
    2:{ split; [discriminate|]. intros (r' & a' & out & _ & X & _). discriminate. }
    destruct (operation k m T r a) as [out|e] eqn:EO; cbn [bind].
    2:{ split; [discriminate|]. intros (r' & a' & out & X1 & X2 & X3 & _). inversion X1; inversion X2; subst. congruence. }
    rewrite TJ, format_jackknife by exact NB. cbn [bind]. split.
    - intros E. destruct (is_0 (r_samples r)) eqn:I0; [discriminate|]. cbn [negb passert bind] in E. inversion E; subst w; clear E. exists r, a, out. repeat split; auto.
      intros X. rewrite X in I0. discriminate.
    - intros (r' & a' & out' & X1 & X2 & X3 & X4 & X5 & X6). inversion X1; inversion X2; subst r' a'. rewrite EO in X3. inversion X3; subst out'.
      assert (is_0 (r_samples r) = false) as -> by (destruct (r_samples r) as [[|n]|n]; try reflexivity; contradiction). cbn [negb passert bind]. destruct w as [w1 w2]. cbn [fst snd] in *. subst. reflexivity.
  Qed.
  Lemma task_fun m P T w w' : analysed m P T w -> analysed m P T w' -> w = w'.
  Proof. intros A B. apply task_ok in A, B. congruence. Qed.

  Lemma task_missing m l P t : results_dir (path_rho_results f) names l -> (0 <= Qnum t)%Z ->
    (forall T J, In (P, T, J) l -> hundredths T <> hundredths t) -> task m P t = Raise AssertionError.
  Proof. intros RD HT NO. unfold starmap_wrapper, load_pimc_data. rewrite (no_match _ _ _ _ _ RD HT NO). reflexivity. Qed.

  Variable l : list (Z * Q * Z).
  Hypothesis RD : results_dir (path_rho_results f) names l.

  Lemma distinct_paths m Ps Ts : StronglySorted Z.lt Ps -> StronglySorted Qlt Ts -> (forall t, In t Ts -> exists P T J, In (P, T, J) l /\ (t == hundredths T # 100)%Q) ->
    forall P t w P' t' w', In (P, t) (list_prod Ps Ts) -> In (P', t') (list_prod Ps Ts) -> analysed m P t w -> analysed m P' t' w' -> fst w = fst w' -> w = w'.
  Proof.
    intros SP ST HT P t w P' t' w' I I' (r & a & out & X1 & X2 & X3 & X4 & X5 & X6) (r' & a' & out' & Y1 & Y2 & Y3 & Y4 & Y5 & Y6) E.
    apply in_prod_iff in I, I'. destruct I as [_ It], I' as [_ It'].
    destruct (HT _ It) as (P1 & T1 & J1 & L1 & E1). destruct (HT _ It') as (P2 & T2 & J2 & L2 & E2).
    pose proof (rd_pos _ _ _ RD) as PS. rewrite Forall_forall in PS. pose proof (proj2 (PS _ L1)) as N1. pose proof (proj2 (PS _ L2)) as N2. cbn in N1, N2.
    rewrite X5, Y5 in E. apply append_inj_l in E. apply thermo_file_inj in E; [|exact (shown_nonneg _ _ N1 E1)|exact (shown_nonneg _ _ N2 E2)].
    destruct E as (<- & E & EX). rewrite (shown_same _ _ E1), (shown_same _ _ E2) in E.
    assert (t = t') as <- by (apply (sorted_q_unique Ts); auto; rewrite E1, E2, E; reflexivity).
    eapply task_fun; [exists r, a, out; repeat split; eauto|exists r', a', out'; repeat split; eauto].
  Qed.

  (** writes of distinct paths, in any order *)
  Lemma writes_in done g w : (forall w w', In w done -> In w' done -> fst w = fst w' -> w = w') -> In w done ->
    fold_left write_file done g (fst w) = Some (snd w).
  Proof.
    induction done as [|v done IH] using rev_ind; [intros _ []|]. intros U I. rewrite fold_left_app. cbn [fold_left]. unfold write_file at 1.
    destruct (String.eqb_spec (fst w) (fst v)) as [E|E].
    - rewrite (U w v); auto. apply in_app_iff. right. left. reflexivity.
    - apply IH; [intros; apply U; auto; apply in_app_iff; auto|]. apply in_app_iff in I. destruct I as [I|[->|[]]]; [exact I|congruence].
  Qed.
  Lemma writes_out done g p : (forall w, In w done -> fst w <> p) -> fold_left write_file done g p = g p.
  Proof.
    revert g. induction done as [|v done IH]; intros g N; cbn [fold_left]; [reflexivity|]. rewrite IH by (intros; apply N; right; auto).
    unfold write_file. destruct (String.eqb_spec p (fst v)) as [E|E]; [|reflexivity]. exfalso. apply (N v); [left; reflexivity|congruence].
  Qed.

  (** all tasks *)
  Definition tasks_of (m : string) (args : list (Z * Q)) := map (fun a => task m (fst a) (snd a)) args.

  Lemma pool_tasks_ok m Ps Ts done g : StronglySorted Z.lt Ps -> StronglySorted Qlt Ts -> (forall t, In t Ts -> exists P T J, In (P, T, J) l /\ (t == hundredths T # 100)%Q) ->
    pool_run (tasks_of m (list_prod Ps Ts)) done (Ok tt) ->
    (forall P t, In (P, t) (list_prod Ps Ts) -> exists w, analysed m P t w /\ fold_left write_file done g (fst w) = Some (snd w)) /\
    (forall p, (forall P t w, In (P, t) (list_prod Ps Ts) -> analysed m P t w -> fst w <> p) -> fold_left write_file done g p = g p).
  Proof.
    intros SP ST HT PR. inversion PR as [ws d PM EQ|]; subst.
    assert (IN : forall w, In w done <-> exists P t, In (P, t) (list_prod Ps Ts) /\ analysed m P t w).
    { intros w. split.
      - intros I. apply (Permutation_in _ (Permutation_sym PM)) in I. apply (in_map Ok) in I. rewrite EQ in I. unfold tasks_of in I. apply in_map_iff in I.
        destruct I as ([P t] & E & I). exists P, t. split; [exact I|]. apply task_ok. exact E.
      - intros (P & t & I & A). apply (Permutation_in _ PM). apply task_ok in A. apply (in_map (fun a => task m (fst a) (snd a))) in I. cbn [fst snd] in I. rewrite A in I.
        change (map (fun a : Z * Q => task m (fst a) (snd a)) (list_prod Ps Ts)) with (tasks_of m (list_prod Ps Ts)) in I. rewrite <- EQ in I. apply in_map_iff in I. destruct I as (w' & E & I). injection E as ->. exact I. }
    assert (U : forall w w', In w done -> In w' done -> fst w = fst w' -> w = w').
    { intros w w' I I'. apply IN in I, I'. destruct I as (P & t & I & A), I' as (P' & t' & I' & A'). exact (distinct_paths m Ps Ts SP ST HT _ _ _ _ _ _ I I' A A'). }
    split.
    - intros P t I. destruct (task m P t) as [w|e] eqn:E.
      + exists w. apply task_ok in E. split; [exact E|]. apply writes_in; [exact U|]. apply IN. eauto.
      + exfalso. apply (in_map (fun a => task m (fst a) (snd a))) in I. cbn [fst snd] in I. rewrite E in I.
        change (map (fun a : Z * Q => task m (fst a) (snd a)) (list_prod Ps Ts)) with (tasks_of m (list_prod Ps Ts)) in I. rewrite <- EQ in I. apply in_map_iff in I. destruct I as (w' & E' & _). discriminate.
    - intros p N. apply writes_out. intros w I. apply IN in I. destruct I as (P & t & I & A). eapply N; eauto.
  Qed.

  Lemma pool_tasks_raise m Ps Ts done g e : StronglySorted Z.lt Ps -> StronglySorted Qlt Ts -> (forall t, In t Ts -> exists P T J, In (P, T, J) l /\ (t == hundredths T # 100)%Q) ->
    pool_run (tasks_of m (list_prod Ps Ts)) done (Raise e) ->
    (exists P t, In (P, t) (list_prod Ps Ts) /\ task m P t = Raise e) /\
    (forall p, fold_left write_file done g p = g p \/ exists P t w, In (P, t) (list_prod Ps Ts) /\ analysed m P t w /\ fst w = p /\ fold_left write_file done g p = Some (snd w)).
  Proof.
    intros SP ST HT PR. inversion PR as [|tasks e' d rest I PM]; subst. split.
    - unfold tasks_of in I. apply in_map_iff in I. destruct I as ([P t] & E & I). eauto.
    - assert (IN : forall w, In w done -> exists P t, In (P, t) (list_prod Ps Ts) /\ analysed m P t w).
      { intros w J. assert (J' : In w (done ++ rest)) by (apply in_app_iff; auto). apply (Permutation_in _ (Permutation_sym PM)) in J'. apply in_flat_map in J'.
        destruct J' as ([w'|e'] & J1 & J2); [|destruct J2]. destruct J2 as [->|[]]. unfold tasks_of in J1. apply in_map_iff in J1. destruct J1 as ([P t] & E & J1). exists P, t. split; [exact J1|]. apply task_ok. exact E. }
      assert (U : forall w w', In w done -> In w' done -> fst w = fst w' -> w = w').
      { intros w w' J J'. apply IN in J, J'. destruct J as (P & t & J & A), J' as (P' & t' & J' & A'). exact (distinct_paths m Ps Ts SP ST HT _ _ _ _ _ _ J J' A A'). }
      intros p. destruct (in_dec string_dec p (map fst done)) as [Ip|Np].
      + apply in_map_iff in Ip. destruct Ip as (w & <- & Iw). right. destruct (IN w Iw) as (P & t & J & A). exists P, t, w. repeat split; auto. apply writes_in; auto.
      + left. apply writes_out. intros w Iw E. apply Np. rewrite <- E. apply in_map. exact Iw.
  Qed.
End Pool.
