(** C79: the drivers of the statistical analysis (stats/stats.py:148-179, 219-264,
    336-377) analyse the pairs (P, T) they should and write one file for each *)
From Coq Require Import QArith Permutation Sorting.Sorted.
From Verif Require Import Common Common_Proofs PyStr_Model PyStr_Proofs FileName_Model FileName_Proofs FileStruct_Model FileStruct_Proofs Json_Model Julia_Model Julia3_Proofs Results_Model Results_Proofs Analysis_Model Analysis_Proofs.
Local Open Scope string_scope.
Local Open Scope nat_scope.
Local Open Scope list_scope.

(** C79: the result files that are found are those called P*_T*_J*_data_points.npz *)
Theorem C79_listing dir names p :
  In p (retrive_pimc_file_list dir names) <->
  exists a b c, In ("P" ++ a ++ "_T" ++ b ++ "_J" ++ c ++ "_data_points.npz")%string names /\
    p = (dir ++ "P" ++ a ++ "_T" ++ b ++ "_J" ++ c ++ "_data_points.npz")%string.
Proof.
  unfold retrive_pimc_file_list. rewrite in_map_iff. split.
  - intros (n & <- & I). apply filter_In in I. destruct I as [I G]. apply glob_pimc in G. destruct G as (a & b & c & ->). exists a, b, c. split; [exact I|reflexivity].
  - intros (a & b & c & I & ->). eexists. split; [reflexivity|]. apply filter_In. split; [exact I|]. apply glob_pimc. exists a, b, c. reflexivity.
Qed.
Print Assumptions C79_listing.

(** C79: every bead count found is combined with every temperature found *)
Theorem C79_pairs dir names l : results_dir dir names l ->
  exists args, arg_list dir names = Ok args /\ NoDup args /\
    (forall P t, In (P, t) args -> (exists T J, In (P, T, J) l) /\ exists P' T J, In (P', T, J) l /\ (t == hundredths T # 100)%Q) /\
    (forall P T J P' T' J', In (P, T, J) l -> In (P', T', J') l -> exists t, In (P, t) args /\ (t == hundredths T' # 100)%Q).
Proof.
  intros RD. destruct (args_ok _ _ _ RD) as (Ps & Ts & E & SP & ST & HP & HT & HC). exists (list_prod Ps Ts). split; [exact E|]. split; [|split].
  - assert (NP : NoDup Ps). { clear - SP. induction SP as [|x l S IH F]; constructor; auto. intros I. rewrite Forall_forall in F. specialize (F x I). lia. }
    assert (NT : NoDup Ts). { clear - ST. induction ST as [|x l S IH F]; constructor; auto. intros I. rewrite Forall_forall in F. specialize (F x I). destruct (Qlt_irrefl _ F). }
    clear - NP NT. induction NP as [|p ps N NP IH]; cbn; [constructor|].
    assert (G : forall (a b : list (Z * Q)), NoDup a -> NoDup b -> (forall x, In x a -> ~ In x b) -> NoDup (a ++ b)).
    { clear. induction a as [|x a IH]; cbn; auto. intros b A B D. inversion_clear A. constructor; [|apply IH; auto]. rewrite in_app_iff. intros [I|I]; [auto|]. apply (D x); auto. }
    apply G; [|exact IH|].
    + clear - NT. induction NT as [|t ts M NT IH]; cbn; constructor; auto. rewrite in_map_iff. intros (u & X & I). injection X as ->. auto.
    + intros [a b] I J. apply in_map_iff in I. destruct I as (u & X & _). injection X as <- _. apply in_prod_iff in J. tauto.
  - intros P t I. apply in_prod_iff in I. destruct I as [I J]. split; [apply HP; exact I|apply HT; exact J].
  - intros P T J P' T' J' I I'. destruct (HC _ _ _ I') as (t & It & Et). exists t. split; [|exact Et]. apply in_prod_iff. split; [apply HP; eauto|exact It].
Qed.
Print Assumptions C79_pairs.

(** a FileStructure whose hashes are known, and its results *)
Record ready (f : fstruct) (hv hr : string) (names : list string) (l : list (Z * Q * Z)) : Prop := {
  rdy_hv : FileStruct_Model.hash_vib f = Some hv;
  rdy_hr : FileStruct_Model.hash_rho f = Some hr;
  rdy_dir : no_brace (path_rho_results f) = true;
  rdy_tpl : t_jackknife f = (path_rho_results f ++ "P{P:d}_T{T:.2f}_X{X:d}_thermo")%string;
  rdy_res : results_dir (path_rho_results f) names l }.

(** the pair (P, t): a bead count and a temperature that occur, as shown in the file names *)
Definition occurs (l : list (Z * Q * Z)) (P : Z) (t : Q) : Prop :=
  (exists T J, In (P, T, J) l) /\ exists P' T J, In (P', T, J) l /\ (t == hundredths T # 100)%Q.

Section Saved.
  Variable set_order : list string -> list string.
  Variable divide : json -> json -> res json.
  Variable operation : analysis -> string -> Q -> result -> list (string * json) -> res (list (string * json)).
  (** the file [path] with the text [text] is the analysis of the pair (P, t) *)
  Definition saved_for (npz_files : files) (fs : fsys string) (f : fstruct) (hv hr : string) (names : list string) (k : analysis) (m : string) (P : Z) (t : Q) (path text : string) : Prop :=
    exists r a out d,
      load_pimc_data set_order true npz_files (path_rho_results f) names P t (new_empty true 0) = Ok r /\
      load_analytic_data divide fs f t [] = (a, Ok tt) /\
      operation k m t r a = Ok out /\
      path = (path_rho_results f ++ "P" ++ dec P ++ "_T" ++ fmt2 t ++ "_X" ++ dec (Z.of_nat (count_value (r_samples r))) ++ "_thermo")%string /\
      text = dumps (JObj d) /\
      dget String.eqb d "hash_vib" = Some (JStr hv) /\ dget String.eqb d "hash_rho" = Some (JStr hr) /\
      (forall key, key <> "hash_vib" -> key <> "hash_rho" -> dget String.eqb d key = dget String.eqb out key).
End Saved.

Lemma analysed_saved so dv op npz fs f hv hr names k m P t w : FileStruct_Model.hash_vib f = Some hv -> FileStruct_Model.hash_rho f = Some hr ->
  analysed so dv op npz fs f names k m P t w -> saved_for so dv op npz fs f hv hr names k m P t (fst w) (snd w).
Proof.
  intros HV HR (r & a & out & X1 & X2 & X3 & X4 & X5 & X6). rewrite HV, HR in X6. do 4 eexists. split; [exact X1|]. split; [exact X2|]. split; [exact X3|].
  split; [rewrite X5; reflexivity|]. split; [exact X6|]. cbn [hash_json].
  split; [rewrite (dget_dset_other _ String.eqb_eq) by discriminate; apply (dget_dset_same _ String.eqb_eq)|]. split; [apply (dget_dset_same _ String.eqb_eq)|].
  intros key K1 K2. rewrite !(dget_dset_other _ String.eqb_eq) by auto. reflexivity.
Qed.

Lemma generate_ready H fs f hv hr : FileStruct_Model.hash_vib f = Some hv -> FileStruct_Model.hash_rho f = Some hr -> generate_model_hashes H fs false f = (f, Ok tt).
Proof. intros A B. apply generate_keeps. unfold has_hashes. rewrite A, B. reflexivity. Qed.

(** the tasks of a valid local analysis *)
Lemma tasks_local so dv op npz fs f hv hr names l k m : ready f hv hr names l -> m = "basic" \/ m = "alpha" ->
  exists Ps Ts, pool_tasks so dv op npz fs f names k m "local" = Ok (tasks_of so dv op npz fs f names k m (list_prod Ps Ts)) /\
    StronglySorted Z.lt Ps /\ StronglySorted Qlt Ts /\
    (forall P, In P Ps <-> exists T J, In (P, T, J) l) /\
    (forall t, In t Ts -> exists P T J, In (P, T, J) l /\ (t == hundredths T # 100)%Q) /\
    (forall P T J, In (P, T, J) l -> exists t, In t Ts /\ (t == hundredths T # 100)%Q).
Proof.
  intros [_ _ _ _ RD] M. destruct (args_ok _ _ _ RD) as (Ps & Ts & E & SP & ST & HP & HT & HC). exists Ps, Ts. split; [|auto].
  unfold pool_tasks. rewrite E. cbn [bind]. destruct M as [-> | ->]; reflexivity.
Qed.

Lemma analyse_inv so dv op H npz f names k m loc fs fs' r : analyse so dv op H npz f names k m loc fs fs' r ->
  (exists f' e, generate_model_hashes H fs false f = (f', Raise e) /\ fs' = fs /\ r = Raise e) \/
  (exists f' e, generate_model_hashes H fs false f = (f', Ok tt) /\ pool_tasks so dv op npz fs f' names k m loc = Raise e /\ fs' = fs /\ r = Raise e) \/
  (exists f' tasks done, generate_model_hashes H fs false f = (f', Ok tt) /\ pool_tasks so dv op npz fs f' names k m loc = Ok tasks /\
     pool_run tasks done r /\ fs' = fold_left write_file done fs).
Proof. intros A. destruct A; [left|right; left|right; right]; eauto 10. Qed.

(** C79: if the analysis succeeds, then for every bead count and every temperature
    that occur there is a file with the analysis of exactly the samples of that pair,
    with the hashes of the two models; nothing else is changed *)
Theorem C79_written so dv op H npz f hv hr names l k m fs fs' :
  ready f hv hr names l -> m = "basic" \/ m = "alpha" ->
  analyse so dv op H npz f names k m "local" fs fs' (Ok tt) ->
  (forall P T J P' T' J', In (P, T, J) l -> In (P', T', J') l ->
     exists t path text, (t == hundredths T' # 100)%Q /\ saved_for so dv op npz fs f hv hr names k m P t path text /\ fs' path = Some text) /\
  (forall p, fs' p = fs p \/ exists P t text, occurs l P t /\ saved_for so dv op npz fs f hv hr names k m P t p text /\ fs' p = Some text).
Proof.
  intros RY M A. destruct (tasks_local so dv op npz fs f hv hr names l k m RY M) as (Ps & Ts & ET & SP & ST & HP & HT & HC).
  destruct RY as [HV HR NB TJ RD]. inversion A as [| |f' tasks done r G TT PR]; subst.
  rewrite (generate_ready H fs f hv hr HV HR) in G. injection G as <-. rewrite ET in TT. injection TT as <-.
  destruct (pool_tasks_ok so dv op npz fs f names k TJ NB l RD m Ps Ts done fs SP ST HT PR) as [W O].
  split.
  - intros P T J P' T' J' I I'. destruct (HC _ _ _ I') as (t & It & Et). destruct (W P t) as (w & Aw & Fw); [apply in_prod_iff; split; [apply HP; eauto|exact It]|].
    exists t, (fst w), (snd w). split; [exact Et|]. split; [eapply analysed_saved; eauto|exact Fw].
  - intros p.
    assert (D : (forall P t w, In (P, t) (list_prod Ps Ts) -> analysed so dv op npz fs f names k m P t w -> fst w <> p) \/
                exists P t w, In (P, t) (list_prod Ps Ts) /\ analysed so dv op npz fs f names k m P t w /\ fst w = p).
    { clear - TJ NB. induction (list_prod Ps Ts) as [|[P t] ps IH]; [left; intros ? ? ? []|].
      destruct (starmap_wrapper so dv op npz fs f names k m P t) as [w|e] eqn:E.
      - apply (task_ok so dv op npz fs f names k TJ NB) in E. destruct (string_dec (fst w) p) as [D|D].
        + right. exists P, t, w. split; [left; reflexivity|auto].
        + destruct IH as [IH|(P' & t' & w' & I & B & C)].
          * left. intros P' t' w' [I|I] B; [|eapply IH; eauto]. injection I as <- <-. rewrite (task_fun so dv op npz fs f names k TJ NB _ _ _ _ _ B E). exact D.
          * right. exists P', t', w'. split; [right; exact I|auto].
      - destruct IH as [IH|(P' & t' & w' & I & B & C)].
        + left. intros P' t' w' [I|I] B; [|eapply IH; eauto]. injection I as <- <-. apply (task_ok so dv op npz fs f names k TJ NB) in B. congruence.
        + right. exists P', t', w'. split; [right; exact I|auto]. }
    destruct D as [D|(P & t & w & I & B & <-)]; [left; apply O; exact D|right].
    destruct (W P t I) as (w' & B' & F'). rewrite (task_fun so dv op npz fs f names k TJ NB _ _ _ _ _ B B'). exists P, t, (snd w'). split; [|split; [eapply analysed_saved; eauto|exact F']].
    apply in_prod_iff in I. destruct I as [I1 I2]. split; [apply HP; exact I1|apply HT; exact I2].
Qed.
Print Assumptions C79_written.

(** C79: if it fails, the files that have been changed are still correct analyses *)
Theorem C79_failed so dv op H npz f hv hr names l k m fs fs' e :
  ready f hv hr names l -> m = "basic" \/ m = "alpha" ->
  analyse so dv op H npz f names k m "local" fs fs' (Raise e) ->
  (exists P t, occurs l P t /\ forall path text, ~ analysed so dv op npz fs f names k m P t (path, text)) /\
  (forall p, fs' p = fs p \/ exists P t text, occurs l P t /\ saved_for so dv op npz fs f hv hr names k m P t p text /\ fs' p = Some text).
Proof.
  intros RY M A. destruct (tasks_local so dv op npz fs f hv hr names l k m RY M) as (Ps & Ts & ET & SP & ST & HP & HT & HC).
  destruct RY as [HV HR NB TJ RD].
  assert (OC : forall P t, In (P, t) (list_prod Ps Ts) -> occurs l P t).
  { intros P t I. apply in_prod_iff in I. destruct I as [I1 I2]. split; [apply HP; exact I1|apply HT; exact I2]. }
  destruct (analyse_inv _ _ _ _ _ _ _ _ _ _ _ _ _ A) as [(f' & e' & G & E1 & E2)|[(f' & e' & G & TT & E1 & E2)|(f' & tasks & done & G & TT & PR & E1)]]; rewrite (generate_ready H fs f hv hr HV HR) in G; try discriminate G; injection G as <-; rewrite ET in TT; try discriminate TT.
  subst fs'. injection TT as <-. destruct (pool_tasks_raise so dv op npz fs f names k TJ NB l RD m Ps Ts done fs e SP ST HT PR) as [(P & t & I & E) W]. split.
  - exists P, t. split; [auto|]. intros path text B. apply (task_ok so dv op npz fs f names k TJ NB) in B. congruence.
  - intros p. destruct (W p) as [E'|(P' & t' & w & I' & B & <- & F)]; [left; exact E'|right]. exists P', t', (snd w). split; [auto|]. split; [eapply analysed_saved; eauto|exact F].
Qed.
Print Assumptions C79_failed.

(** C79, finding: all bead counts are combined with all temperatures.  If one of the
    pairs has not been simulated the analysis always fails with an AssertionError
    or with the error of another pair *)
Theorem C79_grid_refuted so dv op H npz f hv hr names l k m fs P T P' T' J J' :
  ready f hv hr names l -> m = "basic" \/ m = "alpha" ->
  In (P, T, J) l -> In (P', T', J') l -> (forall T'' J'', In (P, T'', J'') l -> hundredths T'' <> hundredths T') ->
  (forall fs' r, analyse so dv op H npz f names k m "local" fs fs' r -> r <> Ok tt) /\
  (analyse so dv op H npz f names k m "local" fs fs (Raise AssertionError)).
Proof.
  intros RY M I I' NO. destruct (tasks_local so dv op npz fs f hv hr names l k m RY M) as (Ps & Ts & ET & SP & ST & HP & HT & HC).
  destruct RY as [HV HR NB TJ RD]. destruct (HC _ _ _ I') as (t & It & Et).
  assert (IN : In (P, t) (list_prod Ps Ts)) by (apply in_prod_iff; split; [apply HP; eauto|exact It]).
  pose proof (rd_pos _ _ _ RD) as PS. rewrite Forall_forall in PS. pose proof (proj2 (PS _ I')) as N. cbn in N.
  assert (TK : starmap_wrapper so dv op npz fs f names k m P t = Raise AssertionError).
  { apply (task_missing so dv op npz fs f names k m l); [exact RD|exact (shown_nonneg _ _ N Et)|]. intros T'' J'' I''. rewrite (shown_same _ _ Et). apply (NO _ _ I''). }
  assert (IR : In (Raise AssertionError) (tasks_of so dv op npz fs f names k m (list_prod Ps Ts))).
  { unfold tasks_of. apply in_map_iff. exists (P, t). split; [exact TK|exact IN]. }
  split.
  - intros fs' r A ->. inversion A as [| |f' tasks done r G TT PR]; subst.
    rewrite (generate_ready H fs f hv hr HV HR) in G. injection G as <-. rewrite ET in TT. injection TT as <-. inversion PR as [ws d PM EQ|]; subst.
    rewrite <- EQ in IR. apply in_map_iff in IR. destruct IR as (w & X & _). discriminate.
  - change fs with (fold_left write_file [] fs) at 2. apply (an_pool so dv op H npz f names k m "local" fs f _ _ _ (generate_ready H fs f hv hr HV HR) ET).
    eapply pool_raise with (rest := flat_map (fun r => match r with Ok w => [w] | Raise _ => [] end) _); [exact IR|]. apply Permutation_refl.
Qed.
Print Assumptions C79_grid_refuted.

(** C79: the order in which the processes finish does not matter *)
Theorem C79_order so dv op H npz f hv hr names l k m fs fs1 fs2 :
  ready f hv hr names l -> m = "basic" \/ m = "alpha" ->
  analyse so dv op H npz f names k m "local" fs fs1 (Ok tt) -> analyse so dv op H npz f names k m "local" fs fs2 (Ok tt) ->
  forall p, fs1 p = fs2 p.
Proof.
  intros RY M A1 A2 p. destruct (tasks_local so dv op npz fs f hv hr names l k m RY M) as (Ps & Ts & ET & SP & ST & HP & HT & HC).
  destruct RY as [HV HR NB TJ RD].
  inversion A1 as [| |f' tasks done r G TT PR1]; subst. rewrite (generate_ready H fs f hv hr HV HR) in G. injection G as <-. rewrite ET in TT. injection TT as <-.
  inversion A2 as [| |f' tasks done2 r G TT PR2]; subst. rewrite (generate_ready H fs f hv hr HV HR) in G. injection G as <-. rewrite ET in TT. injection TT as <-.
  destruct (pool_tasks_ok so dv op npz fs f names k TJ NB l RD m Ps Ts done fs SP ST HT PR1) as [W1 O1].
  destruct (pool_tasks_ok so dv op npz fs f names k TJ NB l RD m Ps Ts done2 fs SP ST HT PR2) as [W2 O2].
  inversion PR1 as [ws1 d1 PM1 EQ1|]; subst. 
  destruct (in_dec string_dec p (map fst done)) as [I|I].
  - apply in_map_iff in I. destruct I as (w & <- & Iw).
    assert (J : exists P t, In (P, t) (list_prod Ps Ts) /\ analysed so dv op npz fs f names k m P t w).
    { apply (Permutation_in _ (Permutation_sym PM1)) in Iw. apply (in_map Ok) in Iw. rewrite EQ1 in Iw. unfold tasks_of in Iw. apply in_map_iff in Iw. destruct Iw as ([P t] & E & J). exists P, t. split; [exact J|]. apply (task_ok so dv op npz fs f names k TJ NB). exact E. }
    destruct J as (P & t & J & B). destruct (W1 _ _ J) as (w1 & B1 & F1). destruct (W2 _ _ J) as (w2 & B2 & F2).
    rewrite (task_fun so dv op npz fs f names k TJ NB _ _ _ _ _ B1 B) in F1. rewrite (task_fun so dv op npz fs f names k TJ NB _ _ _ _ _ B2 B) in F2. congruence.
  - assert (N : forall P t w, In (P, t) (list_prod Ps Ts) -> analysed so dv op npz fs f names k m P t w -> fst w <> p).
    { intros P t w J B <-. apply I. apply in_map. apply (Permutation_in _ PM1). apply (task_ok so dv op npz fs f names k TJ NB) in B.
      assert (K : In (Ok w) (tasks_of so dv op npz fs f names k m (list_prod Ps Ts))) by (unfold tasks_of; apply in_map_iff; exists (P, t); auto).
      rewrite <- EQ1 in K. apply in_map_iff in K. destruct K as (w' & E & K). congruence. }
    rewrite (O1 p N), (O2 p N). reflexivity.
Qed.
Print Assumptions C79_order.

(** C79: it can succeed exactly if every pair can be analysed *)
Theorem C79_succeeds so dv op H npz f hv hr names l k m fs :
  ready f hv hr names l -> m = "basic" \/ m = "alpha" ->
  (exists fs', analyse so dv op H npz f names k m "local" fs fs' (Ok tt)) <->
  (exists args, arg_list (path_rho_results f) names = Ok args /\ forall P t, In (P, t) args -> exists path text, analysed so dv op npz fs f names k m P t (path, text)).
Proof.
  intros RY M. destruct (tasks_local so dv op npz fs f hv hr names l k m RY M) as (Ps & Ts & ET & SP & ST & HP & HT & HC).
  destruct (args_ok _ _ _ (rdy_res _ _ _ _ _ RY)) as (Ps' & Ts' & EA' & SP' & ST' & HP' & HT' & HC').
  assert (ET' : pool_tasks so dv op npz fs f names k m "local" = Ok (tasks_of so dv op npz fs f names k m (list_prod Ps' Ts'))) by (unfold pool_tasks; rewrite EA'; cbn [bind]; destruct M as [-> | ->]; reflexivity).
  destruct RY as [HV HR NB TJ RD]. split.
  - intros (fs' & A). exists (list_prod Ps' Ts'). split; [exact EA'|]. inversion A as [| |f' tasks done r G TT PR]; subst.
    rewrite (generate_ready H fs f hv hr HV HR) in G. injection G as <-. rewrite ET' in TT. injection TT as <-.
    destruct (pool_tasks_ok so dv op npz fs f names k TJ NB l RD m Ps' Ts' done fs SP' ST' HT' PR) as [W _].
    intros P t I. destruct (W _ _ I) as ([path text] & B & _). eauto.
  - intros (args & E & B). rewrite EA' in E. injection E as <-.
    assert (WS : exists ws, map Ok ws = tasks_of so dv op npz fs f names k m (list_prod Ps' Ts')).
    { clear - B TJ NB. induction (list_prod Ps' Ts') as [|[P t] ps IH]; [exists []; reflexivity|]. destruct IH as (ws & E); [intros; apply B; right; auto|].
      destruct (B P t) as (path & text & X); [left; reflexivity|]. apply (task_ok so dv op npz fs f names k TJ NB) in X. exists ((path, text) :: ws). cbn [map tasks_of fst snd]. rewrite X. f_equal. exact E. }
    destruct WS as (ws & EW). eexists. apply (an_pool so dv op H npz f names k m "local" fs f _ ws _ (generate_ready H fs f hv hr HV HR) ET'). rewrite <- EW. constructor. apply Permutation_refl.
Qed.
Print Assumptions C79_succeeds.

(** C79: without hashes in the FileStructure the hashes of the current model files are taken first *)
Theorem C79_hashes so dv op H npz f f' names k m loc fs fs' r :
  generate_model_hashes H fs false f = (f', Ok tt) ->
  (analyse so dv op H npz f names k m loc fs fs' r <-> analyse so dv op H npz f' names k m loc fs fs' r).
Proof.
  intros G. assert (G' : generate_model_hashes H fs false f' = (f', Ok tt)).
  { apply generate_keeps. unfold generate_model_hashes in G. destruct (has_hashes f) eqn:E; cbn [andb negb] in G; [injection G as <-; exact E|].
    destruct (file_hash H fs (FileStruct_Model.path_vib_model f)) as [hv|e]; [|discriminate]. destruct (file_hash H fs (FileStruct_Model.path_rho_model (set_hash_vib f hv))) as [hr|e]; [|discriminate]. injection G as <-. reflexivity. }
  split; intros A; destruct (analyse_inv _ _ _ _ _ _ _ _ _ _ _ _ _ A) as [(g & e & X & E1 & E2)|[(g & e & X & TT & E1 & E2)|(g & tasks & done & X & TT & PR & E1)]]; (rewrite G in X || rewrite G' in X); try discriminate X; injection X as <-; subst fs';
    [subst r; eapply an_raise; eauto|eapply an_pool; eauto|subst r; eapply an_raise; eauto|eapply an_pool; eauto].
Qed.
Print Assumptions C79_hashes.

(** C79: a missing model file stops it before anything is done *)
Theorem C79_no_model so dv op H npz f names k m loc fs fs' r :
  own_hashes f = (None, None) -> fs (FileStruct_Model.path_vib_model f) = None ->
  (analyse so dv op H npz f names k m loc fs fs' r <-> fs' = fs /\ r = Raise AssertionError).
Proof.
  intros HN N. assert (G : generate_model_hashes H fs false f = (f, Raise AssertionError)).
  { unfold generate_model_hashes, has_hashes, file_hash. unfold own_hashes in HN. injection HN as E1 E2. rewrite E1. cbn [andb]. rewrite N. reflexivity. }
  split.
  - intros A. destruct (analyse_inv _ _ _ _ _ _ _ _ _ _ _ _ _ A) as [(g & e & X & E1 & E2)|[(g & e & X & TT & E1 & E2)|(g & tasks & done & X & TT & PR & E1)]]; rewrite G in X; try discriminate X. injection X as <- <-. auto.
  - intros [-> ->]. eapply an_hash; eauto.
Qed.
Print Assumptions C79_no_model.

(** C79: an unknown method or location: nothing is written, and the two drivers raise
    different errors; the jackknife driver notices an unknown method only when it
    starts the pool *)
Theorem C79_refuses so dv op H npz f hv hr names l k m loc fs fs' r :
  ready f hv hr names l -> (m <> "basic" /\ m <> "alpha") \/ loc <> "local" ->
  (analyse so dv op H npz f names k m loc fs fs' r <->
   fs' = fs /\ r = Raise (match k with
                          | Statistical => if in_dec string_dec m ["basic"; "alpha"] then if string_dec loc "server" then AssertionError else OtherException else OtherException
                          | Jackknife => if string_dec loc "local" then UnboundLocalError else if string_dec loc "server" then AssertionError else OtherException
                          end)).
Proof.
  intros RY B. destruct (args_ok _ _ _ (rdy_res _ _ _ _ _ RY)) as (Ps & Ts & EA & _). destruct RY as [HV HR _ _ _].
  pose proof (generate_ready H fs f hv hr HV HR) as G.
  assert (PT : pool_tasks so dv op npz fs f names k m loc = Raise (match k with
                          | Statistical => if in_dec string_dec m ["basic"; "alpha"] then if string_dec loc "server" then AssertionError else OtherException else OtherException
                          | Jackknife => if string_dec loc "local" then UnboundLocalError else if string_dec loc "server" then AssertionError else OtherException
                          end)).
  { unfold pool_tasks. rewrite EA. cbn [bind]. unfold choose_operation.
    destruct (in_dec string_dec m ["basic"; "alpha"]) as [Im|Nm].
    - assert (L : loc <> "local") by (destruct B as [[B1 B2]|B]; [exfalso; cbn in Im; intuition congruence|exact B]).
      assert ((m =? "basic")%string || (m =? "alpha")%string = true) as -> by (cbn in Im; destruct Im as [<-|[<-|[]]]; reflexivity). cbn [bind].
      rewrite (proj2 (String.eqb_neq loc "local") L). destruct (string_dec loc "server") as [->|N]; [destruct k; [reflexivity|destruct (string_dec "server" "local"); [discriminate|reflexivity]]|].
      rewrite (proj2 (String.eqb_neq loc "server") N). destruct k; [reflexivity|]. destruct (string_dec loc "local"); [contradiction|reflexivity].
    - assert ((m =? "basic")%string || (m =? "alpha")%string = false) as -> by (cbn in Nm; apply orb_false_iff; split; apply String.eqb_neq; intros ->; tauto).
      destruct k; [reflexivity|]. cbn [bind]. destruct (String.eqb_spec loc "local") as [->|L]; [destruct (string_dec "local" "local"); [reflexivity|contradiction]|].
      destruct (string_dec loc "local"); [contradiction|]. destruct (String.eqb_spec loc "server") as [->|N]; [reflexivity|]. destruct (string_dec loc "server"); [contradiction|reflexivity]. }
  split.
  - intros A. destruct (analyse_inv _ _ _ _ _ _ _ _ _ _ _ _ _ A) as [(g & e & X & E1 & E2)|[(g & e & X & TT & E1 & E2)|(g & tasks & done & X & TT & PR & E1)]]; rewrite G in X; try discriminate X; injection X as <-; rewrite PT in TT; try discriminate TT. injection TT as <-. auto.
  - intros [-> ->]. eapply an_raise; eauto.
Qed.
Print Assumptions C79_refuses.

(** C79: without result files the analysis succeeds and writes nothing *)
Theorem C79_no_results so dv op H npz f hv hr names k m fs fs' r :
  FileStruct_Model.hash_vib f = Some hv -> FileStruct_Model.hash_rho f = Some hr -> m = "basic" \/ m = "alpha" ->
  (forall a b c, ~ In ("P" ++ a ++ "_T" ++ b ++ "_J" ++ c ++ "_data_points.npz")%string names) ->
  (analyse so dv op H npz f names k m "local" fs fs' r <-> fs' = fs /\ r = Ok tt).
Proof.
  intros HV HR M NO. assert (E : retrive_pimc_file_list (path_rho_results f) names = []).
  { destruct (retrive_pimc_file_list (path_rho_results f) names) as [|p ps] eqn:E; [reflexivity|]. exfalso.
    destruct (proj1 (C79_listing (path_rho_results f) names p)) as (a & b & c & I & _); [rewrite E; left; reflexivity|]. exact (NO a b c I). }
  assert (PT : pool_tasks so dv op npz fs f names k m "local" = Ok []) by (unfold pool_tasks, arg_list; rewrite E; destruct M as [-> | ->]; reflexivity).
  pose proof (generate_ready H fs f hv hr HV HR) as G. split.
  - intros A. destruct (analyse_inv _ _ _ _ _ _ _ _ _ _ _ _ _ A) as [(g & e & X & E1 & E2)|[(g & e & X & TT & E1 & E2)|(g & tasks & done & X & TT & PR & E1)]]; rewrite G in X; try discriminate X; injection X as <-; rewrite PT in TT; try discriminate TT. injection TT as <-.
    inversion PR as [ws d PM EQ|tasks e d rest I PM]; subst; [|destruct I]. symmetry in EQ. destruct ws; [|discriminate]. apply Permutation_nil in PM. subst. auto.
  - intros [-> ->]. change fs with (fold_left write_file [] fs) at 2. eapply an_pool; eauto. change (@nil (res (string * string))) with (map (@Ok (string * string)) []). constructor. constructor.
Qed.
Print Assumptions C79_no_results.

Definition ex_f := set_hash_rho (set_hash_vib (build_fs "/" "/w" 1 0) "hv") "hr".
Definition ex_l : list (Z * Q * Z) := [(20%Z, 300%Q, 0%Z); (12%Z, 300%Q, 0%Z); (12%Z, 300%Q, 1%Z)].
Definition ex_names := "P12_T300.00_X6_thermo" :: map name_of ex_l.
Definition ex_npz : files := fun _ => Some (Build_npz None None (Some 2) (Some [Num 1; Num 2]%Q) (Some [Num 1; Num 2]%Q) (Some [Num 1; Num 2]%Q) (Some [Num 1; Num 2]%Q)).
Definition ex_text (p : string) := if String.eqb p "/w/data_set_1/rho_0/parameters/analytic_results.json"
  then Some (dumps (JObj [("hash_vib", JStr "hv"); ("hash_rho", JStr "hr"); ("300.00", JObj [("Z_sampling", JInt 6); ("E_sampling", JInt 2); ("Cv_sampling", JInt 1); ("Z_sampling+beta", JInt 3); ("Z_sampling-beta", JInt 2)])])) else None.
Definition ex_divide x y := match x, y with JInt a, JInt b => Ok (JInt (a / b)) | _, _ => Raise TypeError end.
Definition ex_operation (k : analysis) (m : string) (T : Q) (r : result) (a : list (string * json)) : res (list (string * json)) :=
  Ok [("X", JInt (Z.of_nat (count_value (r_samples r)))); ("hash_vib", JNull); ("E", match dget String.eqb a "E" with Some j => j | None => JNull end)].
Example C79_example :
  ready ex_f "hv" "hr" ex_names ex_l /\
  pool_tasks (fun l => nodup String.string_dec l) ex_divide ex_operation ex_npz ex_text ex_f ex_names Jackknife "alpha" "local" =
    Ok [Ok ("/w/data_set_1/rho_0/results/P12_T300.00_X4_thermo", dumps (JObj [("X", JInt 4); ("hash_vib", JStr "hv"); ("E", JInt 2); ("hash_rho", JStr "hr")]));
        Ok ("/w/data_set_1/rho_0/results/P20_T300.00_X2_thermo", dumps (JObj [("X", JInt 2); ("hash_vib", JStr "hv"); ("E", JInt 2); ("hash_rho", JStr "hr")]))].
Proof.
  split; [|vm_compute; reflexivity]. split; try reflexivity. split; try reflexivity.
  - repeat constructor; cbn; lia.
  - intros x I. right. apply in_map. exact I.
  - intros a b c [I|I]; [exfalso; assert (G : glob_parts ["P"; "_T"; "_J"; "_data_points.npz"] "P12_T300.00_X6_thermo" = true) by (apply glob_pimc; eauto); discriminate G|]. apply in_map_iff in I. destruct I as (x & E & I). eauto.
Qed.
(** a grid that is not full: (12, 250 K) and (20, 300 K) have not been simulated *)
Example C79_grid_example :
  ready ex_f "hv" "hr" (map name_of [(12%Z, 300%Q, 0%Z); (20%Z, 250%Q, 0%Z)]) [(12%Z, 300%Q, 0%Z); (20%Z, 250%Q, 0%Z)] /\
  (forall T J, In (12%Z, T, J) [(12%Z, 300%Q, 0%Z); (20%Z, 250%Q, 0%Z)] -> hundredths T <> hundredths 250).
Proof.
  split.
  - split; try reflexivity. split; try reflexivity.
    + repeat constructor; cbn; lia.
    + intros x I. apply in_map. exact I.
    + intros a b c I. apply in_map_iff in I. destruct I as (x & E & I). eauto.
  - intros T J [E|[E|[]]]; inversion E; subst. vm_compute. discriminate.
Qed.
