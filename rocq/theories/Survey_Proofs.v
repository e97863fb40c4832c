(** Lemmas about the analyses that follow one another (C100) *)
From Coq Require Import QArith Permutation Sorting.Sorted.
From Verif Require Import Common Common_Proofs PyStr_Model PyStr_Proofs FileName_Model FileName_Proofs FileStruct_Model FileStruct_Proofs Json_Model Julia_Model Julia3_Proofs Results_Model Results_Proofs Analysis_Model Analysis_Proofs Analysis_Props.
From Verif Require Import Submit_Model Submit2_Model Setup_Model Survey_Model.
Local Open Scope string_scope.
Local Open Scope nat_scope.
Local Open Scope list_scope.

Section Methods.
  Variable so : list string -> list string.
  Variable dv : json -> json -> res json.
  Variable op : analysis -> string -> Q -> result -> list (string * json) -> res (list (string * json)).
  Variable H : string -> string.
  Variable npz : files.
  Variable ls : string -> list string.
  Notation analyse := (analyse so dv op H npz).
  Notation analysed := (analysed so dv op npz).
  Notation methods_run := (methods_run so dv op H npz ls).

  (** the hashes do not change paths *)
  Lemma generate_paths fs f f' r : generate_model_hashes H fs false f = (f', r) ->
    path_rho_results f' = path_rho_results f /\ t_jackknife f' = t_jackknife f /\ FileStruct_Model.path_vib_model f' = FileStruct_Model.path_vib_model f /\
    FileStruct_Model.path_rho_model f' = FileStruct_Model.path_rho_model f /\ path_analytic_rho f' = path_analytic_rho f.
  Proof.
    unfold generate_model_hashes. destruct (has_hashes f && negb false); [intros E; injection E as <- _; auto|].
    destruct (file_hash _ _ _) as [hv|e]; [|intros E; injection E as <- _; auto]. cbn zeta.
    destruct (file_hash _ _ _) as [hr|e]; intros E; injection E as <- _; auto 6.
  Qed.

  (** nothing outside the results directory changes *)
  Lemma analyse_frame f names k m loc fs fs' r p : t_jackknife f = (path_rho_results f ++ tpl_jackknife)%string -> no_brace (path_rho_results f) = true ->
    analyse f names k m loc fs fs' r -> (forall x, p <> (path_rho_results f ++ x)%string) -> fs' p = fs p.
  Proof.
    intros TJ NB A N. destruct (analyse_inv _ _ _ _ _ _ _ _ _ _ _ _ _ A) as [(f' & e & G & -> & _)|[(f' & e & G & _ & -> & _)|(f' & tasks & done & G & TT & PR & ->)]]; try reflexivity.
    destruct (generate_paths _ _ _ _ G) as (P1 & P2 & _ & _ & _). rewrite <- P1, <- P2 in TJ. rewrite <- P1 in NB, N.
    apply writes_out. intros w I <-.
    assert (J : In (Ok w) tasks).
    { destruct PR as [ws done PM|tasks e done rest I' PM].
      - apply in_map. apply (Permutation_in _ (Permutation_sym PM)). exact I.
      - assert (J : In w (done ++ rest)) by (apply in_app_iff; auto). apply (Permutation_in _ (Permutation_sym PM)) in J. apply in_flat_map in J. destruct J as ([w'|e'] & J1 & J2); [|destruct J2]. destruct J2 as [->|[]]. exact J1. }
    unfold pool_tasks in TT. destruct (arg_list _ _) as [args|]; [|discriminate]. cbn [bind] in TT. destruct (choose_operation _ _) as [o|]; [|discriminate]. cbn [bind] in TT.
    destruct (String.eqb loc "local"); [|destruct (String.eqb loc "server"); discriminate]. destruct o as [m'|]; [|discriminate]. injection TT as <-.
    apply in_map_iff in J. destruct J as ((P & t) & E & _). apply (task_ok so dv op npz fs f' names k TJ NB) in E. destruct E as (r' & a & out & _ & _ & _ & _ & E & _). exact (N _ E).
  Qed.
  Lemma methods_frame f ms fs fs' o p : t_jackknife f = (path_rho_results f ++ tpl_jackknife)%string -> no_brace (path_rho_results f) = true ->
    methods_run f ms fs fs' o -> (forall x, p <> (path_rho_results f ++ x)%string) -> fs' p = fs p.
  Proof.
    intros TJ NB M N. induction M as [f fs|f k m l fs fs' e A|f k m l fs fs1 fs2 r A M IH]; [reflexivity|eapply analyse_frame; eauto|].
    destruct (generate_model_hashes H fs false f) as [f' g] eqn:G. destruct (generate_paths _ _ _ _ G) as (P1 & P2 & _). cbn [fst] in *. rewrite P1, P2 in IH.
    rewrite IH by auto. eapply analyse_frame; eauto.
  Qed.

  (** what is written for a pair *)
  Lemma analysed_path fs fs2 f names k m k' m' P t w w' : analysed fs f names k m P t w -> analysed fs2 f names k' m' P t w' -> fst w = fst w'.
  Proof. intros (r & a & out & X1 & _ & _ & _ & X5 & _) (r' & a' & out' & Y1 & _ & _ & _ & Y5 & _). rewrite X1 in Y1. injection Y1 as <-. congruence. Qed.
  Lemma analysed_fs fs fs2 f names k m P t w : fs (path_analytic_rho f) = fs2 (path_analytic_rho f) -> analysed fs f names k m P t w -> analysed fs2 f names k m P t w.
  Proof.
    intros E (r & a & out & X1 & X2 & X3 & X4 & X5 & X6). exists r, a, out. split; [exact X1|]. split; [|auto].
    rewrite <- X2. unfold load_analytic_data, analytic_entry. rewrite E. reflexivity.
  Qed.

  Section Ready.
    Variable f : fstruct.
    Variables hv hr : string.
    Variable l : list (Z * Q * Z).
    Hypothesis RY : ready f hv hr (ls (path_rho_results f)) l.
    Hypothesis AN : forall x, path_analytic_rho f <> (path_rho_results f ++ x)%string.
    Variable Ps : list Z.
    Variable Ts : list Q.
    Hypothesis EA : arg_list (path_rho_results f) (ls (path_rho_results f)) = Ok (list_prod Ps Ts).
    Hypothesis SP : StronglySorted Z.lt Ps.
    Hypothesis SQ : StronglySorted Qlt Ts.
    Hypothesis HT : forall t, In t Ts -> exists P T J, In (P, T, J) l /\ (t == hundredths T # 100)%Q.
    Notation names := (ls (path_rho_results f)).
    Definition method_ok (km : analysis * string) : Prop := snd km = "basic" \/ snd km = "alpha".

    Lemma one_ok k m fs fs' : method_ok (k, m) -> analyse f names k m "local" fs fs' (Ok tt) ->
      (forall P t, In (P, t) (list_prod Ps Ts) -> exists w, analysed fs f names k m P t w /\ fs' (fst w) = Some (snd w)) /\
      (forall p, (forall P t w, In (P, t) (list_prod Ps Ts) -> analysed fs f names k m P t w -> fst w <> p) -> fs' p = fs p).
    Proof.
      intros M A. destruct RY as [HV HR NB TJ RD].
      destruct (analyse_inv _ _ _ _ _ _ _ _ _ _ _ _ _ A) as [(f' & e & G & _ & X)|[(f' & e & G & _ & _ & X)|(f' & tasks & done & G & TT & PR & ->)]]; try discriminate X.
      rewrite (generate_ready H fs f hv hr HV HR) in G. injection G as <-.
      assert (ET : pool_tasks so dv op npz fs f names k m "local" = Ok (tasks_of so dv op npz fs f names k m (list_prod Ps Ts))) by (unfold pool_tasks; rewrite EA; cbn [bind]; destruct M as [M|M]; cbn in M; subst m; reflexivity).
      rewrite ET in TT. injection TT as <-.
      exact (pool_tasks_ok so dv op npz fs f names k TJ NB l RD m Ps Ts done fs SP SQ HT PR).
    Qed.

    Lemma methods_ok ms fs fs' k m : Forall method_ok ms -> method_ok (k, m) -> methods_run f (ms ++ [(k, m)]) fs fs' (Ok tt) ->
      (forall P t, In (P, t) (list_prod Ps Ts) -> exists w, analysed fs f names k m P t w /\ fs' (fst w) = Some (snd w)) /\
      (forall p, (forall P t w, In (P, t) (list_prod Ps Ts) -> analysed fs f names k m P t w -> fst w <> p) -> fs' p = fs p).
    Proof.
      pose proof RY as RY'. destruct RY' as [HV HR NB TJ RD]. revert fs. induction ms as [|[k1 m1] ms IH]; intros fs F M R; cbn [app] in R; inversion R as [| |f0 k0 m0 l0 fs0 fs1 fs2 r A R' E1 E2 E3 E4 E5]; subst; clear R.
      - rewrite (generate_ready H fs f hv hr HV HR) in R'. cbn [fst] in R'. inversion R'; subst. apply one_ok; auto.
      - rewrite (generate_ready H fs f hv hr HV HR) in R'. cbn [fst] in R'. inversion_clear F as [|? ? M1 F'].
        destruct (one_ok _ _ _ _ M1 A) as [W1 O1]. destruct (IH fs1 F' M R') as [W O].
        assert (EQ : fs1 (path_analytic_rho f) = fs (path_analytic_rho f)) by (eapply analyse_frame; eauto). split.
        + intros P t I. destruct (W P t I) as (w & B & E). exists w. split; [|exact E]. eapply analysed_fs; [exact EQ|exact B].
        + intros p N. rewrite O.
          * apply O1. intros P t w I B. destruct (W P t I) as (w' & B' & _). rewrite (analysed_path _ _ _ _ _ _ _ _ _ _ _ _ B B'). apply (N P t); [exact I|]. eapply analysed_fs; [exact EQ|exact B'].
          * intros P t w I B. apply (N P t); [exact I|]. eapply analysed_fs; [exact EQ|exact B].
    Qed.
  End Ready.

  (** from the attributes of a FileStructure with hashes to the statement of C79 *)
  Lemma methods_saved f hv hr l ms k m fs fs' : ready f hv hr (ls (path_rho_results f)) l -> (forall x, path_analytic_rho f <> (path_rho_results f ++ x)%string) ->
    Forall method_ok ms -> method_ok (k, m) -> methods_run f (ms ++ [(k, m)]) fs fs' (Ok tt) ->
    (forall P T J P' T' J', In (P, T, J) l -> In (P', T', J') l ->
       exists t path text, (t == hundredths T' # 100)%Q /\ saved_for so dv op npz fs f hv hr (ls (path_rho_results f)) k m P t path text /\ fs' path = Some text) /\
    (forall p, fs' p = fs p \/ exists P t text, occurs l P t /\ saved_for so dv op npz fs f hv hr (ls (path_rho_results f)) k m P t p text /\ fs' p = Some text).
  Proof.
    intros RY AN F M R. pose proof RY as RY'. destruct RY' as [HV HR NB TJ RD]. destruct (args_ok _ _ _ RD) as (Ps & Ts & EA & SP & SQ & HP & HT & HC).
    destruct (methods_ok f hv hr l RY AN Ps Ts EA SP SQ HT ms fs fs' k m F M R) as [W O]. set (names := ls (path_rho_results f)) in *. split.
    - intros P T J P' T' J' I I'. destruct (HC _ _ _ I') as (t & It & Et). destruct (W P t) as (w & Aw & Fw); [apply in_prod_iff; split; [apply HP; eauto|exact It]|].
      exists t, (fst w), (snd w). split; [exact Et|]. split; [eapply analysed_saved; eauto|exact Fw].
    - intros p.
      assert (D : (forall P t w, In (P, t) (list_prod Ps Ts) -> analysed fs f names k m P t w -> fst w <> p) \/
                  exists P t w, In (P, t) (list_prod Ps Ts) /\ analysed fs f names k m P t w /\ fst w = p).
      { clear - TJ NB. induction (list_prod Ps Ts) as [|[P t] ps IH]; [left; intros ? ? ? []|].
        destruct (starmap_wrapper so dv op npz fs f names k m P t) as [w|e] eqn:E.
        - apply (task_ok so dv op npz fs f names k TJ NB) in E. destruct (string_dec (fst w) p) as [D|D].
          + right. exists P, t, w. split; [left; reflexivity|auto].
          + destruct IH as [IH|(P' & t' & w' & I & B & C)].
            * left. intros P' t' w' [I|I] B; [|eapply IH; eauto]. injection I as <- <-. rewrite (task_fun so dv op npz fs f names k TJ NB _ _ _ _ _ B E). exact D.
            * right. exists P', t', w'. split; [right; exact I|auto].
        - destruct IH as [IH|(P' & t' & w' & I & B & C)].
          + left. intros P' t' w' [I|I] B; [|eapply IH; eauto]. injection I as <- <-. apply (task_ok so dv op npz fs f names k TJ NB) in B. congruence.
          + right. exists P', t', w'. split; [right; exact I|auto]. }
      destruct D as [D|(P & t & w & I & B & <-)]; [left; apply O; exact D|right].
      destruct (W P t I) as (w' & B' & F'). rewrite (task_fun so dv op npz fs f names k TJ NB _ _ _ _ _ B B'). exists P, t, (snd w'). split; [|split; [eapply analysed_saved; eauto|exact F']].
      apply in_prod_iff in I. destruct I as [I1 I2]. split; [apply HP; exact I1|apply HT; exact I2].
  Qed.

  (** the hashes are taken by the first analysis *)
  Lemma generate_has fs f f' : generate_model_hashes H fs false f = (f', Ok tt) -> has_hashes f' = true.
  Proof.
    unfold generate_model_hashes. destruct (has_hashes f) eqn:E; cbn [andb negb]; [intros X; injection X as <-; exact E|].
    destruct (file_hash H fs _) as [hv|e]; [|discriminate]. cbn zeta. destruct (file_hash H fs _) as [hr|e]; [|discriminate]. intros X. injection X as <-. reflexivity.
  Qed.
  Lemma methods_hashed f f' ms fs fs' o : generate_model_hashes H fs false f = (f', Ok tt) -> (methods_run f ms fs fs' o <-> methods_run f' ms fs fs' o).
  Proof.
    intros G. pose proof (generate_keeps H fs f' (generate_has _ _ _ G)) as G'. destruct (generate_paths _ _ _ _ G) as (P1 & _).
    split; intros M; inversion M as [|f0 k m l fs0 fs1 e A|f0 k m l fs0 fs1 fs2 r A M']; subst; try constructor.
    - rewrite P1. apply (C79_hashes so dv op H npz f f' _ _ _ _ _ _ _ G). exact A.
    - eapply mr_next; [rewrite P1; apply (C79_hashes so dv op H npz f f' _ _ _ _ _ _ _ G); exact A|]. rewrite G'. rewrite G in M'. exact M'.
    - rewrite P1 in A. apply (C79_hashes so dv op H npz f f' _ _ _ _ _ _ _ G). exact A.
    - rewrite P1 in A. eapply mr_next; [apply (C79_hashes so dv op H npz f f' _ _ _ _ _ _ _ G); exact A|]. rewrite G. rewrite G' in M'. exact M'.
  Qed.
End Methods.
