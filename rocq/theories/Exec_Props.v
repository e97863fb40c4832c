(** C44, C45, C68, C69, C70: the electronic structure workflow. *)
From Coq Require Import Sorted.
From Verif Require Import Common Common_Proofs PyStr_Model PyStr_Proofs JobBoss_Model Exec_Model Exec_Spec Exec_Proofs Exec2_Proofs Exec3_Proofs Exec4_Proofs.
Local Open Scope nat_scope.

(** ** C44: resuming *)
(** C44: what a new object finds in the state file, for every text.  [L] are the lines that are not skipped. *)
Theorem C44_restored text d lg : let L := filter (fun l => negb (String.eqb l "" || String.eqb l nl)) (file_lines text) in
  let r := set_state_from_file (mkJob None (Some text) d lg) in
  (text = "" -> r = (mkJob (Some OPT) (Some text) d lg, Ok tt)) /\
  (text <> "" -> L = [] -> r = (mkJob None (Some text) d lg, Ok tt)) /\
  (forall x xs s, L = x :: xs -> (forall y, In y (x :: xs) -> exists t, t <> FINISHED /\ strip y = sname t) -> strip x = sname s ->
     r = (mkJob (Some (next s)) (Some text) d lg, Ok tt)) /\
  (forall a x b, L = a ++ x :: b -> (forall t, strip x <> sname t) -> (forall y, In y b -> exists t, t <> FINISHED /\ strip y = sname t) ->
     r = (mkJob (Some OPT) (Some text) d lg, Ok tt)) /\
  (forall a x b, L = a ++ x :: b -> strip x = sname FINISHED -> (forall y, In y b -> exists t, t <> FINISHED /\ strip y = sname t) ->
     snd r = Raise ValueError).
Proof.
  cbv zeta. change (fun l => negb (String.eqb l "" || String.eqb l nl)) with nonblank.
  assert (NE : forall x xs, filter nonblank (file_lines text) = x :: xs -> text <> ""%string) by (intros x xs H ->; discriminate).
  assert (SP : forall a x b, filter nonblank (file_lines text) = a ++ x :: b -> exists p q, file_lines text = p ++ x :: q /\ filter nonblank q = b /\ nonblank x = true).
  { generalize (file_lines text). clear. induction l as [|y l IH]; intros a x b H; [destruct a; discriminate|].
    cbn [filter] in H. destruct (nonblank y) eqn:N.
    - destruct a as [|a0 a]; cbn in H; injection H as H1 H2.
      + subst. exists [], l. auto.
      + destruct (IH _ _ _ H2) as (p & q & E & F). exists (y :: p), q. rewrite E. auto.
    - destruct (IH _ _ _ H) as (p & q & E & F). exists (y :: p), q. rewrite E. auto. }
  unfold set_state_from_file. cbn [jfile jstate]. split; [intros ->; reflexivity|]. split; [|split; [|split]].
  - intros T E. rewrite (proj2 (String.eqb_neq _ _) T). destruct (loop_all (rev (file_lines text)) None) as [A _].
    + intros x Hx N. exfalso. apply in_rev in Hx. assert (In x (filter nonblank (file_lines text))) as K.
      { apply filter_In. split; auto. apply nonblank_iff. auto. }
      rewrite E in K. destruct K.
    + rewrite A by (rewrite filter_rev, E; reflexivity). reflexivity.
  - intros x xs s E H S. rewrite (proj2 (String.eqb_neq _ _) (NE _ _ E)). destruct (loop_all (rev (file_lines text)) None) as [_ A].
    + intros y Hy N. apply H. rewrite <- E. apply filter_In. split; [apply in_rev; auto|apply nonblank_iff; auto].
    + rewrite (A (rev xs) x s); auto. rewrite filter_rev, E. reflexivity.
  - intros a x b E X H. destruct (SP _ _ _ E) as (p & q & F & Q & N).
    assert (T : text <> ""%string) by (intros ->; destruct p; discriminate). rewrite (proj2 (String.eqb_neq _ _) T).
    rewrite F, rev_app_distr. cbn [rev]. rewrite <- app_assoc. cbn [app].
    destruct (loop_app (rev q) (x :: rev p) None) as [st' ->].
    { intros y Hy Ny. apply H. rewrite <- Q. apply filter_In. split; [apply in_rev; auto|apply nonblank_iff; auto]. }
    rewrite loop_line by (apply nonblank_iff; auto). rewrite find_none by (intros t Ht; apply (X t); auto). reflexivity.
  - intros a x b E X H. destruct (SP _ _ _ E) as (p & q & F & Q & N).
    assert (T : text <> ""%string) by (intros ->; destruct p; discriminate). rewrite (proj2 (String.eqb_neq _ _) T).
    rewrite F, rev_app_distr. cbn [rev]. rewrite <- app_assoc. cbn [app].
    destruct (loop_app (rev q) (x :: rev p) None) as [st' ->].
    { intros y Hy Ny. apply H. rewrite <- Q. apply filter_In. split; [apply in_rev; auto|apply nonblank_iff; auto]. }
    rewrite loop_line by (apply nonblank_iff; auto). rewrite X, find_name. reflexivity.
Qed.
(** C44: for every history of sessions: the first recorded stage is OPT, a finished calculation cannot be opened again, an
    unfinished one is always resumed in NIP; so no stage is skipped, but every stage after OPT is repeated *)
Theorem C44_history d t : history d t ->
  t = "" \/
  exists m, t = lines (OPT :: m) /\
    ((exists k, OPT :: m = k ++ [FINISHED]) /\ snd (set_state_from_file (mkJob None (Some t) d [])) = Raise ValueError \/
     ~ In FINISHED m /\ set_state_from_file (mkJob None (Some t) d []) = (mkJob (Some NIP) (Some t) d [], Ok tt) /\
       (forall s, (exists k, OPT :: m = k ++ [s]) -> not_before NIP (next s))).
Proof.
  intros H. destruct (history_form d t H) as [->|(m & -> & C)]; [auto|]. right. exists m. split; auto. destruct C as [C|[k K]].
  - right. split; auto. rewrite restore_lines by (intros [K|K]; [discriminate|auto]). split; [reflexivity|].
    intros s _. unfold not_before. destruct s; cbn; lia.
  - left. split; [eauto|]. rewrite K, restore_finished. reflexivity.
Qed.
(** C44: resuming does not continue with the stage after the last recorded one *)
Theorem C44_resume_refuted : exists t s, history default_parameters t /\ (exists m, t = lines (m ++ [s])) /\
  forall j r, set_state_from_file (mkJob None (Some t) default_parameters []) = (j, r) -> jstate j <> Some (next s).
Proof.
  exists (lines [OPT; NIP]), NIP. split.
  - assert (K : lines [OPT; NIP] = text_of (jfile (Nat.iter 2 (fun j => fst (advance j)) (mkJob (Some OPT) (Some EmptyString) default_parameters [])))) by reflexivity.
    rewrite K. apply history_session with (t := EmptyString); [apply history_start|reflexivity].
  - split; [exists [OPT]; reflexivity|]. intros j r H. rewrite restore_lines in H by (intros [E|[E|[]]]; discriminate). inversion H. discriminate.
Qed.
Example C44_example :
  history default_parameters (lines [OPT; NIP; VIB; NIP; VIB; IPEOMCC; PREPVIB; VIBRON; FINISHED; FINISHED]).
Proof.
  assert (K : lines [OPT; NIP; VIB; NIP; VIB; IPEOMCC; PREPVIB; VIBRON; FINISHED; FINISHED] =
     text_of (jfile (Nat.iter 6 (fun j => fst (advance j)) (mkJob (Some NIP) (Some (lines [OPT; NIP; VIB])) default_parameters [])))) by reflexivity.
  rewrite K. apply history_session with (t := lines [OPT; NIP; VIB]); [|reflexivity].
  assert (K2 : lines [OPT; NIP; VIB] = text_of (jfile (Nat.iter 3 (fun j => fst (advance j)) (mkJob (Some OPT) (Some EmptyString) default_parameters [])))) by reflexivity.
  rewrite K2. apply history_session with (t := EmptyString); [apply history_start|reflexivity].
Qed.

(** ** C45: the order of the stages *)
(** C45: a run that starts in stage s.  Either nothing is done because it is finished; or all stages from s on are calculated, in
    order, recorded, and FINISHED recorded twice; or it raises in a stage s' that is not recorded, while all stages from s up to it
    are completed and recorded. *)
Theorem C45_run w fuel j0 j s text j' r :
  (run _ <- parse_input_parameters (w_file w); lift (w_zmat w)) j0 = (j, Ok tt) ->
  jstate j = Some s -> jfile j = Some text -> jlog j = [] ->
  calculate_vibronic_model w fuel j0 = Some (j', r) ->
  (r = Ok tt /\ s = FINISHED /\ j' = j) \/
  (r = Ok tt /\ s <> FINISHED /\ exists ips, jstate j' = Some FINISHED /\
     jfile j' = Some (text ++ lines (between s FINISHED ++ [FINISHED; FINISHED]))%string /\
     jlog j' = events ips (between s FINISHED) /\
     (forall t, In t (between s FINISHED) -> t <> IPEOMCC -> outcome w t 0 = Ok tt) /\ (forall z, In z ips -> w_ip w z = Ok tt) /\
     (In IPEOMCC (between s FINISHED) -> exists n k, w_parse_hf w = Ok n /\ ips = down n (S k))) \/
  (exists e, r = Raise e /\ s <> FINISHED /\ exists ips s' tail, not_before s s' /\ jstate j' = Some s' /\
     jfile j' = Some (text ++ lines (between s s'))%string /\ jlog j' = events ips (between s s') ++ tail /\
     (forall t, In t (between s s') -> t <> IPEOMCC -> outcome w t 0 = Ok tt) /\ (forall z, In z ips -> w_ip w z = Ok tt) /\
     (In IPEOMCC (between s s') -> ips <> []) /\
     (tail = [] \/ (s' <> IPEOMCC /\ tail = [Started s' None] /\ exists e, outcome w s' 0 = Raise e) \/
      (s' = IPEOMCC /\ exists n k, (forall i, i < k -> w_ip w (n - Z.of_nat i) = Ok tt) /\
         (tail = flat_map (fun z => did IPEOMCC (Some z)) (down n k) \/
          (tail = flat_map (fun z => did IPEOMCC (Some z)) (down n k) ++ [Started IPEOMCC (Some (n - Z.of_nat k)%Z)] /\
           exists e, w_ip w (n - Z.of_nat k) = Raise e))))).
Proof.
  intros P S F L H. destruct (whole_run w fuel j0 j s text j' r P S F L H) as [(e & A & B & C)|[A|(A & B & ips & C1 & C2 & C3 & C4 & C5)]].
  - right. right. exists e. split; auto. split; auto. destruct C as (ips & s' & tail & D1 & D2 & D3 & D4 & (D5 & D6 & D7) & D8).
    exists ips, s', tail. repeat (split; auto).
  - auto.
  - right. left. split; auto. split; auto. exists ips. destruct C4 as (C6 & C7 & C8). repeat (split; auto).
Qed.
(** C45: in every run the stages are started in order, and each at most once, except that the search for the number of states
    may calculate several times *)
Theorem C45_order w fuel j0 j s text j' r :
  (run _ <- parse_input_parameters (w_file w); lift (w_zmat w)) j0 = (j, Ok tt) ->
  jstate j = Some s -> jfile j = Some text -> jlog j = [] ->
  calculate_vibronic_model w fuel j0 = Some (j', r) ->
  StronglySorted (fun a b => pos a <= pos b) (jlog j') /\
  (forall t, t <> IPEOMCC -> starts t (jlog j') <= 1) /\
  (forall t n, In (Started t n) (jlog j') -> not_before s t).
Proof.
  intros P S F L H.
  assert (G : exists ips s' tail, not_before s s' /\ jlog j' = events ips (between s s') ++ tail /\
     (forall e, In e tail -> pos e = position order s') /\ (forall t, t <> IPEOMCC -> starts t tail <= 1) /\ (forall t, t <> IPEOMCC -> t <> s' -> starts t tail = 0)).
  { destruct (C45_run w fuel j0 j s text j' r P S F L H) as [(-> & -> & ->)|[(-> & B & ips & C1 & C2 & C3 & _)|(e & -> & B & ips & s' & tail & D1 & D2 & D3 & D4 & _ & _ & _ & D5)]].
    - exists [], FINISHED, []. rewrite L. repeat split; auto; try apply not_before_refl; intros ? [].
    - exists ips, FINISHED, []. rewrite C3, app_nil_r. repeat split; auto; try (intros ? []). unfold not_before. destruct s; cbn; lia.
    - exists ips, s', tail. split; auto. split; auto. destruct D5 as [->|[(E & -> & _)|(-> & n & k & _ & T)]].
      + repeat split; auto. intros ? [].
      + repeat split.
        * intros ev [<-|[]]. reflexivity.
        * intros t T. cbn. destruct (stage_eqb s' t); cbn; lia.
        * intros t T N. cbn. replace (stage_eqb s' t) with false; auto. symmetry. apply stage_eqb_false. congruence.
      + change (flat_map (fun z => did IPEOMCC (Some z)) (down n k)) with (did_ips (down n k)) in T.
        assert (PI : forall ev, In ev (did_ips (down n k)) -> pos ev = position order IPEOMCC).
        { intros ev Hev. apply in_flat_map in Hev. destruct Hev as (z & _ & [<-|[<-|[]]]); reflexivity. }
        assert (ST : forall t, t <> IPEOMCC -> starts t tail = 0).
        { intros t Ht. destruct T as [->|[-> _]]; [apply starts_ips; auto|]. rewrite starts_app, starts_ips by auto. cbn.
          destruct t; try reflexivity. congruence. }
        repeat split.
        * intros ev Hev. destruct T as [->|[-> _]]; auto. apply in_app_or in Hev. destruct Hev as [Hev|[<-|[]]]; auto.
        * intros t Ht. rewrite ST by auto. lia.
        * intros t Ht _. auto. }
  destruct G as (ips & s' & tail & N & E & G1 & G2 & G3). rewrite E. split; [|split].
  - apply events_tail_sorted. auto.
  - intros t T. rewrite starts_app. destruct (starts_events ips (between s s') t T (between_nodup s s')) as [A B].
    destruct (stage_eqb t s') eqn:Q.
    + apply stage_eqb_iff in Q. subst t. rewrite B by (apply not_in_between; auto). apply G2. auto.
    + apply stage_eqb_false in Q. rewrite G3 by auto. lia.
  - intros t n K. unfold not_before in *. apply in_app_or in K. destruct K as [K|K].
    + unfold events in K. apply in_flat_map in K. destruct K as (u & U & K).
      assert (position order s <= position order u).
      { clear - U. destruct s, s'; cbn in U; repeat (destruct U as [<-|U]; [cbn; lia|]); destruct U. }
      assert (t = u); [|subst; auto]. destruct u; try (destruct K as [K|[K|[]]]; congruence).
      apply in_flat_map in K. destruct K as (z & _ & [K|[K|[]]]); congruence.
    + apply G1 in K. unfold pos in K. rewrite K. auto.
Qed.
(** C45: a failure while reading parameters or geometry leaves everything as it was, apart from creating an empty state file *)
Theorem C45_nothing_done w fuel j0 j e :
  (run _ <- parse_input_parameters (w_file w); lift (w_zmat w)) j0 = (j, Raise e) ->
  calculate_vibronic_model w fuel j0 = Some (j, Raise e) /\ jlog j = jlog j0 /\
  (jfile j = jfile j0 \/ (jfile j0 = None /\ jfile j = Some "")).
Proof.
  intros P. split; [unfold calculate_vibronic_model; rewrite P; reflexivity|].
  destruct (parse_frame w j0 j _ P) as (A & B & _). split; auto.
  destruct (jfile j0) as [t|] eqn:F0, (jfile j) as [t'|] eqn:F; cbn in B; subst; auto.
  exfalso. clear A. (* a file that exists is not removed *)
  assert (K : forall m : method unit, m j0 = (j, Raise e) -> (forall x y r, m x = (y, r) -> jfile x <> None -> jfile y <> None) -> False).
  { intros m M H. apply (H _ _ _ M); congruence. }
  refine (K _ P _). clear. intros x y r H N.
  assert (B : forall (A B : Type) (m : method A) (f : A -> method B), (forall x y r, m x = (y, r) -> jfile x <> None -> jfile y <> None) ->
     (forall a x y r, f a x = (y, r) -> jfile x <> None -> jfile y <> None) -> forall x y r, mbind m f x = (y, r) -> jfile x <> None -> jfile y <> None).
  { intros A B m f M F x0 y0 r0 H0 N0. apply mbind_inv in H0. destruct H0 as [(e & H0 & _)|(a & j1 & H0 & H1)]; eauto. }
  revert x y r H N. apply B; [|intros a x y r H; inversion H; auto].
  unfold parse_input_parameters. apply B.
  { intros x y r H N. destruct (w_file w); [destruct (read_parameters _ _)|]; inversion H; subst; auto. }
  intros _. apply B; [intros x y r H; inversion H; auto|]. intros _. apply B; [intros x y r H; inversion H; auto|].
  intros _. apply B; [intros x y r H; inversion H; auto|]. intros _. apply B.
  { intros x y r H N. unfold create_state_file in H. inversion H. destruct (jfile x) eqn:E; [congruence|discriminate]. }
  intros _ x y r H N. destruct (jstate x); [inversion H; subst; auto|]. unfold set_state_from_file in H. destruct (jfile x) eqn:E; [|congruence].
  destruct (String.eqb s ""); [destruct (of_value min_value); inversion H; subst; cbn; congruence|].
  destruct (state_loop _ _). inversion H; subst. cbn. congruence.
Qed.
(** C45: the command line without a number starts in state 0, which does not exist *)
Theorem C45_default_start file params z :
  test_one None file params = Raise ValueError /\
  (test_one (Some z) file params = Raise ValueError <-> ~ (1 <= z <= 7)%Z).
Proof.
  split; [reflexivity|]. unfold test_one, new_job, of_value. split.
  - intros H R. assert (Z : (z = 1 \/ z = 2 \/ z = 3 \/ z = 4 \/ z = 5 \/ z = 6 \/ z = 7)%Z) by lia.
    destruct Z as [->|[->|[->|[->|[->|[->| ->]]]]]]; discriminate.
  - intros H. destruct (find _ members) as [s|] eqn:E; [|reflexivity]. apply find_some in E. destruct E as [_ E].
    apply Z.eqb_eq in E. exfalso. apply H. subst z. destruct s; cbn; lia.
Qed.
Definition demo_file : string := ("basis" ++ nl ++ "TZ2P" ++ nl ++ "# a comment" ++ nl ++ "theory" ++ nl ++ "CCSD" ++ nl ++ nl ++ "calculation" ++ nl ++ "IP" ++ nl)%string.
Definition demo_world (vibron : res unit) : world :=
  mkWorld (Some demo_file) (Ok tt) (Ok tt) (Ok tt) (Ok tt) (Ok 4%Z) (Ok tt) (fun _ => Ok tt) (fun z => Ok (z <=? 2)%Z) (Ok tt) (Ok tt) vibron (Ok tt).
Example C45_example :
  (exists j, (run _ <- parse_input_parameters (w_file (demo_world (Ok tt))); lift (w_zmat (demo_world (Ok tt)))) (mkJob None None default_parameters []) = (j, Ok tt) /\
     jstate j = Some OPT /\ jfile j = Some "" /\ jlog j = []) /\
  (exists j', calculate_vibronic_model (demo_world (Ok tt)) 3 (mkJob None None default_parameters []) = Some (j', Ok tt) /\
     jfile j' = Some (lines [OPT; NIP; VIB; IPEOMCC; PREPVIB; VIBRON; FINISHED; FINISHED]) /\
     jlog j' = did OPT None ++ did NIP None ++ did VIB None ++ did IPEOMCC (Some 4%Z) ++ did IPEOMCC (Some 3%Z) ++ did IPEOMCC (Some 2%Z) ++ did PREPVIB None ++ did VIBRON None) /\
  (exists j', calculate_vibronic_model (demo_world (Raise MemoryError)) 3 (mkJob (Some PREPVIB) None default_parameters []) = Some (j', Raise MemoryError) /\
     jfile j' = Some (lines [PREPVIB]) /\ jlog j' = did PREPVIB None ++ [Started VIBRON None]).
Proof. split; [eexists; split; [vm_compute; reflexivity|repeat split; reflexivity]|]. split; eexists; (split; [vm_compute; reflexivity|split; vm_compute; reflexivity]). Qed.

(** ** C68: the parameter file *)
(** C68: a well formed file sets exactly the parameters it lists, the last value of each counts *)
Theorem C68_accepted d ls es : reads ls es -> (forall h v, In (h, v) es -> dmem String.eqb d h = true) ->
  exists d', read_parameters d ls = (d', Ok tt) /\
    (forall k, ~ In k (map fst es) -> dget String.eqb d' k = dget String.eqb d k) /\
    (forall a k v b, es = a ++ (k, v) :: b -> ~ In k (map fst b) -> dget String.eqb d' k = Some (PText v)) /\
    (forall k, dmem String.eqb d' k = dmem String.eqb d k).
Proof.
  intros R M. assert (F : Forall (fun e => dmem String.eqb d (fst e) = true) es) by (apply Forall_forall; intros [h v] H; eapply M; eauto).
  exists (put d es). rewrite <- (app_nil_r ls), (read_ok ls es [] d R F). split; [reflexivity|].
  assert (O : forall es d k, ~ In k (map fst es) -> dget String.eqb (put d es) k = dget String.eqb d k).
  { clear. induction es as [|[h v] es IH]; intros d k H; [reflexivity|].
    change (put d ((h, v) :: es)) with (put (dset String.eqb d h (PText v)) es). rewrite IH by (intros K; apply H; right; auto).
    rewrite dget_dset. destruct (String.eqb_spec k h); auto. exfalso. apply H. left. auto. }
  split; [apply O|]. split.
  - intros a k v b -> H. unfold put. rewrite fold_left_app. cbn [fold_left fst snd]. fold (put d a).
    change (dget String.eqb (put (dset String.eqb (put d a) k (PText v)) b) k = Some (PText v)).
    rewrite O by auto. rewrite dget_dset, String.eqb_refl. reflexivity.
  - intros k. apply dmem_put. auto.
Qed.
(** C68: every other file is rejected, and what was read before the error stays *)
Theorem C68_rejected d ls : 
  (exists es, reads ls es /\ snd (read_parameters d ls) = Ok tt) \/
  (exists pre es h, ls = pre ++ [h] /\ reads pre es /\ strip h <> "" /\ String.prefix "#" h = false /\
     snd (read_parameters d ls) = Raise OtherException) \/
  (exists pre es h v rest, ls = pre ++ h :: v :: rest /\ reads pre es /\ strip h <> "" /\ String.prefix "#" h = false /\
     dmem String.eqb d (strip h) = false /\ snd (read_parameters d ls) = Raise ValueError /\
     fst (read_parameters d ls) = fst (read_parameters d pre)).
Proof.
  destruct (read_cases (S (length ls)) ls d) as (pre & rest & es & E & R & F & C); [lia|]. subst ls.
  rewrite (read_ok pre es rest d R F). destruct C as [->|[(h & -> & H1 & H2)|(h & v & r & -> & H1 & H2 & H3)]].
  - left. exists es. rewrite app_nil_r. auto.
  - right. left. exists pre, es, h. cbn [read_parameters]. rewrite (proj2 (header_iff h)) by auto. auto.
  - right. right. exists pre, es, h, v, r. cbn [read_parameters]. rewrite (proj2 (header_iff h)) by auto. rewrite (dmem_put es d _ F), H3.
    repeat (split; auto). rewrite <- (app_nil_r pre), (read_ok pre es [] d R F). reflexivity.
Qed.
(** C68: the dictionary belongs to the class: parameters given to one object are valid for the next *)
Theorem C68_shared d text1 j1 : parse_input_parameters (Some text1) (mkJob (Some OPT) None d []) = (j1, Ok tt) ->
  exists j2, parse_input_parameters (Some "") (mkJob (Some OPT) None (jparams j1) []) = (j2, Ok tt) /\ jparams j2 = jparams j1.
Proof.
  intros H. unfold parse_input_parameters in H. cbv beta in H.
  unfold mbind at 1 in H. cbn [jparams] in H. destruct (read_parameters d (file_lines text1)) as [d1 [[]|]] eqn:R; [|inversion H].
  unfold mbind in H. cbn [set_params jparams jstate jfile jlog] in H.
  destruct (supported d1 "basis" basis_list) as [[]|] eqn:S1; [|inversion H]. cbn [jparams] in H.
  destruct (supported d1 "theory" theory_list) as [[]|] eqn:S2; [|inversion H]. cbn [jparams] in H.
  destruct (supported d1 "calculation" calculations_list) as [[]|] eqn:S3; [|inversion H].
  assert (J : jparams j1 = d1) by (cbn in H; inversion H; subst; reflexivity). rewrite J.
  eexists. unfold parse_input_parameters, mbind. cbn [file_lines read_parameters set_params jparams jstate jfile jlog].
  rewrite S1. cbn [jparams]. rewrite S2. cbn [jparams]. rewrite S3. cbn. split; reflexivity.
Qed.
(** C68: only supported methods are accepted *)
Theorem C68_supported text j j' : parse_input_parameters text j = (j', Ok tt) ->
  (exists b, dget String.eqb (jparams j') "basis" = Some (PText b) /\ (b = "TZ2P" \/ b = "DZP")) /\
  (exists t, dget String.eqb (jparams j') "theory" = Some (PText t) /\ (t = "MBPT(2)" \/ t = "CCSD" \/ t = "CCSD(T)")) /\
  dget String.eqb (jparams j') "calculation" = Some (PText "IP").
Proof.
  intros H. unfold parse_input_parameters in H.
  apply mbind_inv in H. destruct H as [(e & _ & K)|([] & j1 & _ & H)]; [discriminate|].
  apply mbind_inv in H. destruct H as [(e & _ & K)|([] & j2 & H2 & H)]; [discriminate|].
  apply mbind_inv in H. destruct H as [(e & _ & K)|([] & j3 & H3 & H)]; [discriminate|].
  apply mbind_inv in H. destruct H as [(e & _ & K)|([] & j4 & H4 & H)]; [discriminate|].
  assert (j2 = j1) by congruence. assert (j3 = j2) by congruence. assert (j4 = j3) by congruence. subst j4 j3 j2.
  assert (S1 : supported (jparams j1) "basis" basis_list = Ok tt) by congruence.
  assert (S2 : supported (jparams j1) "theory" theory_list = Ok tt) by congruence.
  assert (S3 : supported (jparams j1) "calculation" calculations_list = Ok tt) by congruence. clear H2 H3 H4.
  assert (P : jparams j' = jparams j1).
  { apply mbind_inv in H. destruct H as [(e & _ & K)|([] & j5 & H5 & H)]; [discriminate|].
    assert (jparams j5 = jparams j1) by (unfold create_state_file in H5; inversion H5; destruct (jfile j1); reflexivity).
    destruct (jstate j5); [congruence|]. unfold set_state_from_file in H. destruct (jfile j5) as [t|]; [|discriminate].
    destruct (String.eqb t ""); [destruct (of_value min_value); inversion H; subst; auto|]. destruct (state_loop _ _). inversion H; subst. auto. }
  rewrite P. clear - S1 S2 S3.
  assert (Q : forall key l, supported (jparams j1) key l = Ok tt -> exists b, dget String.eqb (jparams j1) key = Some (PText b) /\ In b l).
  { intros key l H. unfold supported in H. destruct (dget String.eqb (jparams j1) key) as [[|b|]|]; try discriminate. exists b. split; auto.
    unfold passert in H. destruct (existsb (String.eqb b) l) eqn:E; [|discriminate]. apply existsb_exists in E. destruct E as (x & I & E).
    apply String.eqb_eq in E. subst. auto. }
  destruct (Q _ _ S1) as (b & B1 & B2), (Q _ _ S2) as (t & T1 & T2), (Q _ _ S3) as (c & C1 & C2).
  split; [exists b; split; auto; destruct B2 as [<-|[<-|[]]]; auto|]. split; [exists t; split; auto; destruct T2 as [<-|[<-|[<-|[]]]]; auto|].
  destruct C2 as [<-|[]]. exact C1.
Qed.
Example C68_example :
  reads (file_lines demo_file) [("basis", "TZ2P"); ("theory", "CCSD"); ("calculation", "IP")]%string /\
  snd (read_parameters default_parameters (file_lines demo_file)) = Ok tt /\
  snd (read_parameters default_parameters (file_lines ("basis" ++ nl)%string)) = Raise OtherException /\
  snd (read_parameters default_parameters (file_lines (" # note" ++ nl ++ nl)%string)) = Raise ValueError.
Proof.
  split; [|repeat split; reflexivity]. change (file_lines demo_file) with
    [("basis" ++ nl)%string; ("TZ2P" ++ nl)%string; ("# a comment" ++ nl)%string; ("theory" ++ nl)%string; ("CCSD" ++ nl)%string; nl; ("calculation" ++ nl)%string; ("IP" ++ nl)%string].
  change "basis"%string with (strip ("basis" ++ nl)). change "TZ2P"%string with (strip ("TZ2P" ++ nl)) at 2.
  change "theory"%string with (strip ("theory" ++ nl)) at 2. change "CCSD"%string with (strip ("CCSD" ++ nl)) at 2.
  change "calculation"%string with (strip ("calculation" ++ nl)) at 2. change "IP"%string with (strip ("IP" ++ nl)) at 2.
  apply reads_entry; [discriminate|reflexivity|]. apply reads_comment; [reflexivity|]. apply reads_entry; [discriminate|reflexivity|].
  apply reads_blank; [reflexivity|]. apply reads_entry; [discriminate|reflexivity|]. constructor.
Qed.

(** ** C69: the search for the number of states *)
(** C69: the largest number of states whose calculation is accepted is found, after trying all larger ones *)
Theorem C69_found w j n m : jstate j = Some IPEOMCC -> dget String.eqb (jparams j) "nip" = Some (PInt n) -> (0 < m <= n)%Z ->
  (forall z, (m <= z <= n)%Z -> w_ip w z = Ok tt) -> (forall z, (m < z <= n)%Z -> w_parse_ip w z = Ok false) -> w_parse_ip w m = Ok true ->
  exists j', verify_ip_states w (Z.to_nat (n - m + 1)) j = Some (j', Ok tt) /\
    dget String.eqb (jparams j') "nip" = Some (PInt m) /\ jstate j' = Some PREPVIB /\
    jlog j' = jlog j ++ flat_map (fun z => did IPEOMCC (Some z)) (down n (Z.to_nat (n - m + 1))).
Proof.
  intros S N M A B C. remember (Z.to_nat (n - m)) as k eqn:K. replace (Z.to_nat (n - m + 1)) with (Datatypes.S k) by lia.
  revert j n S N M A B K. induction k as [|k IH]; intros j n S N M A B K.
  - assert (n = m) by lia. subst n. cbn [verify_ip_states]. rewrite (round_ip w j m S N), A, C by lia. cbv zeta.
    destruct j as [st f d lg]. cbn [jstate] in S. subst st. unfold add_event. cbn [jstate jfile jparams jlog]. rewrite advance_next by discriminate.
    eexists. split; [reflexivity|]. split; [exact N|]. split; [reflexivity|]. cbn [jlog]. rewrite <- app_assoc. reflexivity.
  - cbn [verify_ip_states]. rewrite (round_ip w j n S N), A, B by lia. cbv zeta. destruct (Z.eqb_spec (n - 1) 0); [lia|].
    match goal with |- context [fst (set_nip (n - 1) ?x)] => set (j1 := x) end.
    destruct (IH (fst (set_nip (n - 1) j1)) (n - 1)%Z) as (j' & H & H2 & H3 & H4); try (intros; apply A; lia); try (intros; apply B; lia); try lia; auto.
    + apply set_nip_get.
    + exists j'. split; [exact H|]. split; auto. split; auto. rewrite H4. cbn [jlog set_nip fst set_params j1 add_event].
      cbn [down flat_map did app]. rewrite <- !app_assoc. reflexivity.
Qed.
(** C69: it ends after at most n rounds, with n = 0 states it is an error *)
Theorem C69_ends w j s n : jstate j = Some s -> dget String.eqb (jparams j) "nip" = Some (PInt n) -> (0 < n)%Z ->
  (exists j' r, verify_ip_states w (Z.to_nat n) j = Some (j', r)) /\
  ((forall z, (0 < z <= n)%Z -> w_ip w z = Ok tt /\ w_parse_ip w z = Ok false) ->
   exists j', verify_ip_states w (Z.to_nat n) j = Some (j', Raise OtherException) /\ dget String.eqb (jparams j') "nip" = Some (PInt 0) /\ jfile j' = jfile j).
Proof.
  intros S N P. split.
  - pose proof (search_ends w (Z.to_nat n - 1) j s S) as K. replace (Z.of_nat (Datatypes.S (Z.to_nat n - 1))) with n in K by lia.
    replace (Datatypes.S (Z.to_nat n - 1)) with (Z.to_nat n) in K by lia. destruct (verify_ip_states w (Z.to_nat n) j) as [[j' r]|]; [eauto|]. exfalso. apply K; auto.
  - intros A. remember (Z.to_nat n - 1) as k eqn:K. replace (Z.to_nat n) with (Datatypes.S k) by lia.
    revert j n S N P A K. induction k as [|k IH]; intros j n S N P A K; cbn [verify_ip_states]; (destruct (A n) as [A1 A2]; [lia|]).
    + assert (n = 1%Z) by lia. subst n. destruct (stage_eqb s IPEOMCC) eqn:E.
      * apply stage_eqb_iff in E. subst. rewrite (round_ip w j 1 S N), A1, A2. cbv zeta. cbn [Z.eqb Z.sub Z.add Z.opp Z.pos_sub].
        eexists. split; [reflexivity|]. split; [apply set_nip_get|reflexivity].
      * apply stage_eqb_false in E. rewrite (round_other w j s 1 S E N), A2. cbn [Z.eqb Z.sub Z.add Z.opp Z.pos_sub].
        eexists. split; [reflexivity|]. split; [apply set_nip_get|reflexivity].
    + destruct (stage_eqb s IPEOMCC) eqn:E.
      * apply stage_eqb_iff in E. subst. rewrite (round_ip w j n S N), A1, A2. cbv zeta. destruct (Z.eqb_spec (n - 1) 0); [lia|].
        match goal with |- context [fst (set_nip (n - 1) ?x)] => destruct (IH (fst (set_nip (n - 1) x)) (n - 1)%Z) as (j' & H & H2 & H3) end;
          try lia; auto; [apply set_nip_get|intros; apply A; lia|]. exists j'. auto.
      * apply stage_eqb_false in E. rewrite (round_other w j s n S E N), A2. destruct (Z.eqb_spec (n - 1) 0); [lia|].
        destruct (IH (fst (set_nip (n - 1) j)) (n - 1)%Z) as (j' & H & H2 & H3); try lia; auto; [apply set_nip_get|intros; apply A; lia|]. exists j'. auto.
Qed.
(** C69: from 0 (which the dialogue accepts) it never ends if nothing is accepted *)
Theorem C69_zero_forever w j s n : (n <= 0)%Z -> (forall z, (z <= n)%Z -> w_ip w z = Ok tt /\ w_parse_ip w z = Ok false) ->
  jstate j = Some s -> dget String.eqb (jparams j) "nip" = Some (PInt n) -> forall fuel, verify_ip_states w fuel j = None.
Proof. intros; eapply search_forever; eauto. Qed.
Example C69_example : exists j', verify_ip_states (demo_world (Ok tt)) 3 (mkJob (Some IPEOMCC) (Some "") [("nip", PInt 4)]%string [])= Some (j', Ok tt) /\ jparams j' = [("nip", PInt 2)]%string.
Proof. eexists. split; vm_compute; reflexivity. Qed.

(** ** C70: the calculations as they are written *)
(** C70: no calculation of the code can complete; so nothing is ever recorded, and only a finished workflow returns *)
Theorem C70_nothing_recorded w b1 b2 b3 b5 b4 t s1 s2 s3 s5 s4 fuel j0 j' r : jlog j0 = [] ->
  calculate_vibronic_model (real_world w b1 b2 b3 b5 b4 t s1 s2 s3 s5 s4) fuel j0 = Some (j', r) ->
  text_of (jfile j') = text_of (jfile j0) /\ (r = Ok tt -> jstate j' = Some FINISHED /\ jlog j' = []) /\
  (forall s n, ~ In (Completed s n) (jlog j')).
Proof.
  set (w' := real_world w b1 b2 b3 b5 b4 t s1 s2 s3 s5 s4). intros L H.
  assert (RC : forall b s a, exists e, real_calculation b s a = Raise e).
  { intros b s a. unfold real_calculation. destruct b as [[]|e]; cbn; eauto. }
  assert (NO : forall u z, exists e, outcome w' u z = Raise e).
  { intros u z. destruct u; cbn; auto; [|eauto]. unfold real_prepVibron. destruct t; cbn; eauto. }
  destruct ((run _ <- parse_input_parameters (w_file w'); lift (w_zmat w')) j0) as [j1 r1] eqn:P.
  destruct (parse_frame w' j0 j1 r1 P) as (F1 & F2 & F3 & _).
  destruct r1 as [[]|e].
  2:{ unfold calculate_vibronic_model in H. rewrite P in H. inversion H; subst. split; auto. split; [discriminate|]. rewrite F1, L. intros s n []. }
  destruct (F3 eq_refl) as [text FT]. destruct (jstate j1) as [s|] eqn:S.
  2:{ unfold calculate_vibronic_model in H. rewrite P, S in H. inversion H; subst. split; auto. split; [discriminate|]. rewrite F1, L. intros ? ? []. }
  assert (NB : forall s' ips, (forall t, In t (between s s') -> t <> IPEOMCC -> outcome w' t 0 = Ok tt) -> (forall z, In z ips -> w_ip w' z = Ok tt) ->
     (In IPEOMCC (between s s') -> ips <> []) -> between s s' = []).
  { intros s' ips A B C. destruct (between s s') as [|u l] eqn:E; auto. exfalso. destruct (stage_eqb u IPEOMCC) eqn:U.
    - apply stage_eqb_iff in U. subst u. destruct ips as [|z ips]; [apply C; auto; left; auto|].
      destruct (NO IPEOMCC z) as [e K]. cbn in K. assert (w_ip w' z = Ok tt) by (apply B; left; auto). cbn in H0. congruence.
    - apply stage_eqb_false in U. destruct (NO u 0%Z) as [e K]. rewrite (A u) in K; [discriminate|left; auto|auto]. }
  destruct (C45_run w' fuel j0 j1 s text j' r P S FT (eq_trans F1 L) H) as [(-> & -> & ->)|[(-> & B & ips & C1 & C2 & C3 & C4 & C5 & C6)|(e & -> & B & ips & s' & tail & D1 & D2 & D3 & D4 & D5 & D6 & D7 & D8)]].
  - split; auto. split; [intros _; split; [auto|congruence]|]. rewrite F1, L. intros ? ? [].
  - exfalso. assert (between s FINISHED = []) as E.
    { apply (NB FINISHED ips); auto. intros I. destruct (C6 I) as (n & k & _ & ->). discriminate. }
    destruct s; discriminate || congruence.
  - assert (E : between s s' = []) by (eapply NB; eauto). rewrite E in D3, D4. change (lines []) with EmptyString in D3. rewrite append_nil_r in D3.
    split; [rewrite D3, <- F2, FT; reflexivity|]. split; [discriminate|]. rewrite D4. cbn [events flat_map app].
    intros u n K. destruct D8 as [->|[(_ & -> & _)|(-> & m & k & K1 & T)]].
    + destruct K.
    + destruct K as [K|[]]. discriminate.
    + destruct k as [|k].
      * cbn [down flat_map app] in T. destruct T as [->|[-> _]]; [destruct K|destruct K as [K|[]]; discriminate].
      * destruct (NO IPEOMCC (m - Z.of_nat 0)%Z) as [e' K2]. cbn in K2. specialize (K1 0 ltac:(lia)). cbn in K1. congruence.
Qed.
(** C70: the reasons, one by one *)
Theorem C70_reasons b s a : job_boss_attribute "partition" = Raise AttributeError /\ job_boss_attribute "hostname" = Raise AttributeError /\
  (forall r, es_submit_job (Ok r) = Raise AttributeError) /\
  real_calculation (Ok tt) s a = Raise AttributeError /\ (forall e, real_calculation (Raise e) s a = Raise e) /\
  real_prepVibron (Ok b) = Raise AttributeError.
Proof. repeat split. Qed.
(** C70: waiting for a job accepts it exactly if it completed and no step failed *)
Theorem C70_wait sync acct : wait_on_results sync acct = Ok tt <->
  sync = Ok tt /\ (exists a b, acct = (a ++ "COMPLETED" ++ b)%string) /\ ~ (exists a b, acct = (a ++ "FAILED" ++ b)%string).
Proof.
  unfold wait_on_results. rewrite <- !contains_spec. destruct sync as [[]|e]; cbn [bind].
  - destruct (contains "FAILED" acct); [split; [discriminate|intros (_ & _ & K); exfalso; auto]|].
    destruct (contains "COMPLETED" acct); split; auto; try discriminate. intros (_ & K & _). discriminate.
  - split; [discriminate|]. intros (K & _). discriminate.
Qed.
Example C70_example : exists j',
  calculate_vibronic_model (real_world (demo_world (Ok tt)) (Ok tt) (Ok tt) (Ok tt) (Ok tt) (fun _ => Ok tt) (Ok "") (Ok (Some 1%Z, "", "")%string) (Ok (Some 1%Z, "", "")%string) (Ok (Some 1%Z, "", "")%string) (Ok (Some 1%Z, "", "")%string) (fun _ => Ok (Some 1%Z, "", "")%string))
    3 (mkJob None (Some (lines [OPT; NIP])) default_parameters []) = Some (j', Raise AttributeError) /\
  jfile j' = Some (lines [OPT; NIP]) /\ jlog j' = [Started NIP None].
Proof. eexists. split; [vm_compute; reflexivity|]. split; vm_compute; reflexivity. Qed.

Print Assumptions C44_restored.
Print Assumptions C44_history.
Print Assumptions C44_resume_refuted.
Print Assumptions C45_run.
Print Assumptions C45_order.
Print Assumptions C45_nothing_done.
Print Assumptions C45_default_start.
Print Assumptions C68_accepted.
Print Assumptions C68_rejected.
Print Assumptions C68_shared.
Print Assumptions C68_supported.
Print Assumptions C69_found.
Print Assumptions C69_ends.
Print Assumptions C69_zero_forever.
Print Assumptions C70_nothing_recorded.
Print Assumptions C70_reasons.
Print Assumptions C70_wait.
