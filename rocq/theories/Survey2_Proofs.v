(** Lemmas about the loop over the sampling models (C100) *)
From Coq Require Import QArith Permutation Sorting.Sorted.
From Verif Require Import Common Common_Proofs PyStr_Model PyStr_Proofs FileName_Model FileName_Proofs FileStruct_Model FileStruct_Proofs Json_Model Julia_Model Julia3_Proofs Results_Model Results_Proofs Analysis_Model Analysis_Proofs Analysis_Props.
From Verif Require Import Submit_Model Submit2_Model Setup_Model Setup_Spec Setup_Proofs Survey_Model Survey_Spec Survey_Proofs.
Local Open Scope string_scope.
Local Open Scope nat_scope.

(** ---- paths ---- *)
Lemma results_tail d r x : "data_set_" ++ dec d ++ "/rho_" ++ dec r ++ "/" ++ x = template_rho d r ++ x.
Proof. unfold template_rho, template_vib. rewrite !append_assoc. reflexivity. Qed.
Lemma results_join root d r x : results_at root d r ++ x = join root (template_rho d r ++ "results/" ++ x).
Proof.
  unfold results_at. change ("/results/") with ("/" ++ "results/"). rewrite results_tail. rewrite join_app by exact (rel_rho d r _). rewrite append_assoc. reflexivity.
Qed.
Lemma results_path cwd root d r : path_rho_results (build_fs cwd root d r) = results_at root d r.
Proof. unfold results_at. change ("/results/") with ("/" ++ "results/"). rewrite results_tail. reflexivity. Qed.
Lemma analytic_path cwd root d r : path_analytic_rho (build_fs cwd root d r) = analytic_at root d r.
Proof.
  unfold analytic_at. change ("/parameters/analytic_results.json") with ("/" ++ "parameters/analytic_results.json"). rewrite results_tail.
  cbn [build_fs path_analytic_rho]. unfold template_rho_params. change "parameters/" with ("parameters" ++ "/"). rewrite join_sub; [reflexivity|exact (rel_rho d r _)|discriminate].
Qed.
Lemma rho_model_path cwd root d r : FileStruct_Model.path_rho_model (build_fs cwd root d r) = rho_of root d r.
Proof. apply rho_path. Qed.
Lemma vib_model_path cwd root d r : FileStruct_Model.path_vib_model (build_fs cwd root d r) = vib_of root d.
Proof. apply (vib_path_of root d _ "c" "oupled_model.json"); [reflexivity|discriminate]. Qed.
Lemma below_inj root d r d' r' p : below root d r p -> below root d' r' p -> d = d' /\ r = r'.
Proof.
  intros [x ->] [y E]. rewrite !results_join in E. apply join_rel_inj in E; [|exact (rel_rho d r _)|exact (rel_rho d' r' _)]. apply template_rho_inj in E. tauto.
Qed.
Lemma below_rho root d r d' r' : ~ below root d r (rho_of root d' r').
Proof.
  intros [x E]. rewrite results_join in E. unfold rho_of in E. rewrite rho_tail in E. apply join_rel_inj in E; [|exact (rel_rho _ _ _)|exact (rel_rho _ _ _)].
  apply template_rho_inj in E. destruct E as (_ & _ & E). discriminate.
Qed.
Lemma below_analytic root d r d' r' : ~ below root d r (analytic_at root d' r').
Proof.
  intros [x E]. rewrite results_join in E. unfold analytic_at in E. change ("/parameters/analytic_results.json") with ("/" ++ "parameters/analytic_results.json") in E.
  rewrite results_tail in E. apply join_rel_inj in E; [|exact (rel_rho _ _ _)|exact (rel_rho _ _ _)].
  apply template_rho_inj in E. destruct E as (_ & _ & E). discriminate.
Qed.
Lemma below_vib root d r d' : ~ below root d r (vib_of root d').
Proof.
  intros [x E]. rewrite results_join in E. unfold vib_of in E. apply join_rel_inj in E; [|apply params_rel|exact (rel_rho _ _ _)].
  rewrite <- template_params in E. unfold template_rho in E. rewrite append_assoc in E. apply template_vib_inj in E. destruct E as [_ E]. discriminate.
Qed.
Lemma no_brace_app a b : no_brace (a ++ b) = no_brace a && no_brace b.
Proof. unfold no_brace. induction a as [|c a IH]; cbn; [reflexivity|]. rewrite IH. destruct (_ || _); reflexivity. Qed.
Lemma no_brace_dec z : no_brace (dec z) = true.
Proof.
  pose proof (dec_int_chars z) as D. unfold no_brace. induction (dec z) as [|c s IH]; [reflexivity|]. cbn in *. apply andb_true_iff in D. destruct D as [D1 D2].
  rewrite (IH D2), andb_true_r. destruct (Ascii.eqb_spec c "{") as [->|]; [discriminate|]. destruct (Ascii.eqb_spec c "}") as [->|]; [discriminate|]. reflexivity.
Qed.
Lemma results_no_brace root d r : no_brace root = true -> no_brace (results_at root d r) = true.
Proof.
  intros N. unfold results_at. rewrite join_rel by reflexivity. rewrite !no_brace_app, N, !no_brace_dec. destruct (ends_with_slash root); reflexivity.
Qed.

(** ---- one sampling model ---- *)
Section Loop.
  Variable so : list string -> list string.
  Variable dv : json -> json -> res json.
  Variable op : analysis -> string -> Q -> result -> list (string * json) -> res (list (string * json)).
  Variable H : string -> string.
  Variable npz : files.
  Variable ls : string -> list string.
  Variables (cwd root : string).
  Hypothesis NB : no_brace root = true.
  Notation methods_run := (methods_run so dv op H npz ls).
  Notation survey_run := (survey_run so dv op H npz ls cwd root true).
  Notation FS := (build_fs cwd root).

  Lemma build_frame d r ms fs fs' o p : methods_run (FS d r) ms fs fs' o -> ~ below root d r p -> fs' p = fs p.
  Proof.
    intros M N. eapply methods_frame; [..|exact M|].
    - reflexivity.
    - rewrite results_path. apply results_no_brace, NB.
    - intros x E. apply N. exists x. rewrite results_path in E. exact E.
  Qed.
  Lemma build_hash d r fs cv cr : fs (vib_of root d) = Some cv -> fs (rho_of root d r) = Some cr ->
    generate_model_hashes H fs false (FS d r) = (known cwd root d r (H cv) (H cr), Ok tt).
  Proof.
    intros E1 E2. unfold generate_model_hashes. change (has_hashes (FS d r)) with false. cbn [andb]. unfold file_hash. rewrite vib_model_path, E1. cbn zeta.
    change (FileStruct_Model.path_rho_model (set_hash_vib (FS d r) (H cv))) with (FileStruct_Model.path_rho_model (FS d r)). rewrite rho_model_path, E2. reflexivity.
  Qed.
  Lemma build_no_hash d r fs ms k m fs' o : fs (vib_of root d) = None \/ fs (rho_of root d r) = None -> methods_run (FS d r) ((k, m) :: ms) fs fs' o <-> fs' = fs /\ o = Raise AssertionError.
  Proof.
    intros N.
    assert (G : exists f', generate_model_hashes H fs false (FS d r) = (f', Raise AssertionError)).
    { unfold generate_model_hashes. change (has_hashes (FS d r)) with false. cbn [andb]. unfold file_hash. rewrite vib_model_path. destruct (fs (vib_of root d)) as [cv|]; [|eauto]. cbn zeta.
      change (FileStruct_Model.path_rho_model (set_hash_vib (FS d r) (H cv))) with (FileStruct_Model.path_rho_model (FS d r)). rewrite rho_model_path. destruct N as [N|N]; [discriminate|]. rewrite N. eauto. }
    destruct G as (f' & G). split.
    - intros M. inversion M as [|f0 k0 m0 l fs0 fs1 e A|f0 k0 m0 l fs0 fs1 fs2 r0 A M']; subst;
        destruct (analyse_inv _ _ _ _ _ _ _ _ _ _ _ _ _ A) as [(g & e' & X & E1 & E2)|[(g & e' & X & _)|(g & tasks & done & X & _)]]; rewrite G in X; try discriminate X; try discriminate E2.
      injection X as <- <-. auto.
    - intros [-> ->]. apply mr_stop. eapply an_hash. exact G.
  Qed.
  Lemma build_saved d r ms k m fs fs' : Forall method_ok ms -> method_ok (k, m) -> methods_run (FS d r) (ms ++ [(k, m)])%list fs fs' (Ok tt) ->
    all_saved so dv op H npz ls cwd root k m fs fs' d r /\ only_saved so dv op H npz ls cwd root k m fs fs' d r.
  Proof.
    intros F M R.
    assert (HD : exists k0 m0 ms0, (ms ++ [(k, m)])%list = (k0, m0) :: ms0) by (destruct ms as [|[k0 m0] ms]; eauto; do 3 eexists; reflexivity).
    destruct HD as (k0 & m0 & ms0 & EM).
    destruct (fs (vib_of root d)) as [cv|] eqn:EV. 2:{ rewrite EM in R. apply build_no_hash in R; [|auto]. destruct R. discriminate. }
    destruct (fs (rho_of root d r)) as [cr|] eqn:ER. 2:{ rewrite EM in R. apply build_no_hash in R; [|auto]. destruct R. discriminate. }
    apply (methods_hashed so dv op H npz ls _ _ _ _ _ _ (build_hash d r fs cv cr EV ER)) in R. set (f := known cwd root d r (H cv) (H cr)) in *.
    assert (PR : path_rho_results f = results_at root d r) by apply results_path.
    assert (AN : forall x, path_analytic_rho f <> (path_rho_results f ++ x)%string).
    { intros x E. rewrite PR in E. apply (below_analytic root d r d r). exists x. rewrite <- E. symmetry. apply analytic_path. }
    assert (RY : forall l, results_dir (results_at root d r) (ls (results_at root d r)) l -> ready f (H cv) (H cr) (ls (path_rho_results f)) l).
    { intros l RD. split; try reflexivity; rewrite PR; [apply results_no_brace, NB|exact RD]. }
    split; exists cv, cr; (split; [exact EV|split; [exact ER|]]); intros l RD; destruct (methods_saved so dv op H npz ls f _ _ l ms k m fs fs' (RY l RD) AN F M R) as [W O]; rewrite PR in W, O.
    - exact W.
    - intros p _. exact (O p).
  Qed.

  (** analyses depend only on the exact results *)
  Lemma saved_fs fs fs2 f hv hr names k m P t p x : fs (path_analytic_rho f) = fs2 (path_analytic_rho f) ->
    saved_for so dv op npz fs f hv hr names k m P t p x -> saved_for so dv op npz fs2 f hv hr names k m P t p x.
  Proof.
    intros E (r & a & out & d & X1 & X2 & X). exists r, a, out, d. split; [exact X1|]. split; [|exact X]. rewrite <- X2. unfold load_analytic_data, analytic_entry. rewrite E. reflexivity.
  Qed.
  Lemma saved_below fs d r hv hr names k m P t p x : saved_for so dv op npz fs (known cwd root d r hv hr) hv hr names k m P t p x -> below root d r p.
  Proof. intros (r0 & a & out & d0 & _ & _ & _ & E & _). rewrite E. change (path_rho_results (known cwd root d r hv hr)) with (path_rho_results (FS d r)). rewrite results_path. eexists. reflexivity. Qed.
  Lemma all_saved_fs k m fs fs1 fs' fs2 d r : fs (vib_of root d) = fs1 (vib_of root d) -> fs (rho_of root d r) = fs1 (rho_of root d r) -> fs (analytic_at root d r) = fs1 (analytic_at root d r) ->
    (forall p, below root d r p -> fs' p = fs2 p) -> all_saved so dv op H npz ls cwd root k m fs fs' d r -> all_saved so dv op H npz ls cwd root k m fs1 fs2 d r.
  Proof.
    intros E1 E2 E3 E4 (cv & cr & V & R & W). exists cv, cr. split; [congruence|]. split; [congruence|]. intros l RD P T J P' T' J' I I'.
    destruct (W l RD _ _ _ _ _ _ I I') as (t & p & x & Et & S & F). exists t, p, x. split; [exact Et|]. split.
    - eapply saved_fs; [|exact S]. change (path_analytic_rho (known cwd root d r (H cv) (H cr))) with (path_analytic_rho (FS d r)). rewrite analytic_path. exact E3.
    - rewrite <- E4; [exact F|]. eapply saved_below; eauto.
  Qed.
  Lemma only_saved_fs k m fs fs1 fs' fs2 d r : fs (vib_of root d) = fs1 (vib_of root d) -> fs (rho_of root d r) = fs1 (rho_of root d r) -> fs (analytic_at root d r) = fs1 (analytic_at root d r) ->
    (forall p, below root d r p -> fs p = fs1 p) ->
    (forall p, below root d r p -> fs' p = fs2 p) -> only_saved so dv op H npz ls cwd root k m fs fs' d r -> only_saved so dv op H npz ls cwd root k m fs1 fs2 d r.
  Proof.
    intros E1 E2 E3 E4 E5 (cv & cr & V & R & W). exists cv, cr. split; [congruence|]. split; [congruence|]. intros l RD p B.
    destruct (W l RD p B) as [E|(P & t & x & O & S & F)]; [left; rewrite <- E4, <- E5 by exact B; exact E|right]. exists P, t, x. split; [exact O|]. split; [|rewrite <- E5; auto].
    eapply saved_fs; [|exact S]. change (path_analytic_rho (known cwd root d r (H cv) (H cr))) with (path_analytic_rho (FS d r)). rewrite analytic_path. exact E3.
  Qed.

  (** ---- the loop ---- *)
  Notation done fs fs' d r := (all_saved so dv op H npz ls cwd root Jackknife "basic" fs fs' d r /\ only_saved so dv op H npz ls cwd root Jackknife "basic" fs fs' d r).
  Lemma new_build d r : new_fs cwd true [] root d r true = Ok (FS d r, []).
  Proof. reflexivity. Qed.
  Lemma survey_frame l fs fs' o : survey_run l fs fs' o -> forall p, (forall d r, In (d, r) l -> fs (rho_of root d r) <> None -> ~ below root d r p) -> fs' p = fs p.
  Proof.
    induction 1 as [fs|d r l fs e E|d r l fs fs' o f ds E N S IH|d r l fs fs' e f ds E N M|d r l fs fs1 fs' o f ds E N M S IH]; intros p NB'; auto;
      rewrite new_build in E; injection E as <- <-; rewrite rho_model_path in N.
    - apply IH. intros; apply NB'; [right|]; auto.
    - eapply build_frame; [exact M|]. apply NB'; [left; reflexivity|exact N].
    - rewrite IH; [eapply build_frame; [exact M|]; apply NB'; [left; reflexivity|exact N]|].
      intros d' r' I R. apply NB'; [right; exact I|]. intros X. apply R. rewrite <- X. eapply build_frame; [exact M|]. apply below_rho.
  Qed.

  Lemma survey_inv l fs fs' o : NoDup l -> survey_run l fs fs' o ->
    exists l1 l2, l = (l1 ++ l2)%list /\
      (forall d r, In (d, r) l1 -> fs (rho_of root d r) <> None -> done fs fs' d r) /\
      match o with
      | Ok _ => l2 = []
      | Raise e => exists d r l3 fs1, l2 = ((d, r) :: l3)%list /\ fs (rho_of root d r) <> None /\
          (forall p, (forall d r, In (d, r) l1 -> fs (rho_of root d r) <> None -> ~ below root d r p) -> fs1 p = fs p) /\
          methods_run (FS d r) simple_wrapper_methods fs1 fs' (Raise e)
      end.
  Proof.
    intros ND S. induction S as [fs|d r l fs e E|d r l fs fs' o f ds E N S IH|d r l fs fs' e f ds E N M|d r l fs fs1 fs' o f ds E N M S IH].
    - exists [], []. cbn. tauto.
    - rewrite new_build in E. discriminate.
    - rewrite new_build in E. injection E as <- <-. rewrite rho_model_path in N. inversion_clear ND as [|? ? ND1 ND2]. destruct (IH ND2) as (l1 & l2 & -> & D & X).
      exists ((d, r) :: l1), l2. split; [reflexivity|]. split.
      + intros d' r' [I|I] R; [injection I as <- <-; contradiction|]. apply D; auto.
      + destruct o as [u|e]; [exact X|]. destruct X as (d' & r' & l3 & fs1 & -> & R & A & M). exists d', r', l3, fs1. split; [reflexivity|]. split; [exact R|]. split; [|exact M].
        intros p NB'. apply A. intros; apply NB'; [right|]; auto.
    - rewrite new_build in E. injection E as <- <-. rewrite rho_model_path in N. exists [], ((d, r) :: l). split; [reflexivity|]. split; [intros ? ? []|].
      exists d, r, l, fs. split; [reflexivity|]. split; [exact N|]. split; [reflexivity|exact M].
    - rewrite new_build in E. injection E as <- <-. rewrite rho_model_path in N. inversion_clear ND as [|? ? ND1 ND2]. destruct (IH ND2) as (l1 & l2 & -> & D & X).
      assert (FR : forall p, ~ below root d r p -> fs1 p = fs p) by (intros p B; eapply build_frame; eauto).
      exists ((d, r) :: l1), l2. split; [reflexivity|]. split.
      + intros d' r' [I|I] R.
        * injection I as <- <-. assert (LAT : forall p, below root d r p -> fs' p = fs1 p).
          { intros p B. eapply survey_frame; [exact S|]. intros d' r' I _ B'. destruct (below_inj _ _ _ _ _ _ B B') as [<- <-]. contradiction. }
          destruct (build_saved d r [(Statistical, "basic")] Jackknife "basic" fs fs1) as [W O]; [repeat constructor|left; reflexivity|exact M|]. split.
          -- eapply all_saved_fs; [..|exact W]; auto. intros p B. symmetry. auto.
          -- eapply only_saved_fs; [..|exact O]; auto. intros p B. symmetry. auto.
        * assert (NE : (d', r') <> (d, r)) by (intros Y; injection Y as -> ->; apply ND1, in_app_iff; auto).
          assert (E1 : fs1 (vib_of root d') = fs (vib_of root d')) by (apply FR, below_vib).
          assert (E2 : fs1 (rho_of root d' r') = fs (rho_of root d' r')) by (apply FR, below_rho).
          assert (E3 : fs1 (analytic_at root d' r') = fs (analytic_at root d' r')) by (apply FR, below_analytic).
          destruct (D d' r' I) as [W O]; [rewrite E2; exact R|]. split.
          -- eapply all_saved_fs; [..|exact W]; auto.
          -- eapply only_saved_fs; [..|exact O]; auto. intros p B. apply FR. intros B'. apply NE. destruct (below_inj _ _ _ _ _ _ B B') as [-> ->]. reflexivity.
      + destruct o as [u|e]; [exact X|]. destruct X as (d' & r' & l3 & fs2 & -> & R & A & M'). exists d', r', l3, fs2. split; [reflexivity|].
        split; [rewrite <- (FR (rho_of root d' r')); [exact R|apply below_rho]|]. split; [|exact M'].
        intros p B. rewrite A; [apply FR; apply B; [left; reflexivity|exact N]|]. intros d2 r2 I2 R2. apply B; [right; exact I2|]. rewrite <- (FR (rho_of root d2 r2)); [exact R2|apply below_rho].
  Qed.

  (** ---- there always is an outcome ---- *)
  Lemma analyse_total f names k m loc fs : exists fs' o, analyse so dv op H npz f names k m loc fs fs' o.
  Proof.
    destruct (generate_model_hashes H fs false f) as [f' [[]|e]] eqn:G; [|exists fs, (Raise e); eapply an_hash; eauto].
    destruct (pool_tasks so dv op npz fs f' names k m loc) as [tasks|e] eqn:T; [|exists fs, (Raise e); eapply an_raise; eauto].
    assert (P : exists done o, pool_run tasks done o).
    { assert (D : (exists ws, tasks = map Ok ws) \/ exists e, In (Raise e) tasks).
      { clear. induction tasks as [|[w|e] tasks IH]; [left; exists []; reflexivity| |right; exists e; left; reflexivity].
        destruct IH as [(ws & ->)|(e & I)]; [left; exists (w :: ws); reflexivity|right; exists e; right; exact I]. }
      destruct D as [(ws & ->)|(e & I)]; [exists ws, (Ok tt); constructor; apply Permutation_refl|].
      exists [], (Raise e). eapply pool_raise; [exact I|]. apply Permutation_refl. }
    destruct P as (done & o & P). do 2 eexists. eapply an_pool; eauto.
  Qed.
  Lemma methods_total ms : forall f fs, exists fs' o, methods_run f ms fs fs' o.
  Proof.
    induction ms as [|[k m] ms IH]; intros f fs; [exists fs, (Ok tt); constructor|].
    destruct (analyse_total f (ls (path_rho_results f)) k m "local" fs) as (fs1 & [[]|e] & A); [|exists fs1, (Raise e); apply mr_stop; exact A].
    destruct (IH (fst (generate_model_hashes H fs false f)) fs1) as (fs2 & o & M). exists fs2, o. eapply mr_next; eauto.
  Qed.
  Lemma survey_total is_dir l : forall fs, exists fs' o, Survey_Model.survey_run so dv op H npz ls cwd root is_dir l fs fs' o.
  Proof.
    induction l as [|[d r] l IH]; intros fs; [exists fs, (Ok tt); constructor|].
    destruct is_dir; [|exists fs, (Raise AssertionError); apply sr_new; reflexivity].
    destruct (fs (FileStruct_Model.path_rho_model (FS d r))) as [c|] eqn:E.
    - destruct (methods_total simple_wrapper_methods (FS d r) fs) as (fs1 & [[]|e] & M).
      + destruct (IH fs1) as (fs' & o & S). exists fs', o. eapply sr_next; [reflexivity|congruence|exact M|exact S].
      + exists fs1, (Raise e). eapply sr_stop; [reflexivity|congruence|exact M].
    - destruct (IH fs) as (fs' & o & S). exists fs', o. eapply sr_skip; [reflexivity|exact E|exact S].
  Qed.
End Loop.
