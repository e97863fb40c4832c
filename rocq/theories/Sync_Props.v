(** C80: waiting for a submitted job by signals *)
From Verif Require Import Common Common_Proofs PyStr_Model Sync_Model.
Local Open Scope string_scope.
Local Open Scope list_scope.

Lemma run_app s l l' : run s (l ++ l') = match run s l with Some s' => run s' l' | None => None end.
Proof. revert s. induction l as [|e l IH]; intros s; cbn [run List.app]; [reflexivity|]. destruct (step s e); auto. Qed.
Lemma run_snoc s l e : run s (l ++ [e]) = match run s l with Some s' => step s' e | None => None end.
Proof. rewrite run_app. destruct (run s l) as [s'|]; [|reflexivity]. cbn [run]. destruct (step s' e); reflexivity. Qed.

(** every event of the execution, with the state in which it happens *)
Definition happens (s0 : state) (l : list event) (s : state) (e : event) : Prop :=
  exists l1 l2, l = l1 ++ e :: l2 /\ run s0 l1 = Some s.
Lemma happens_snoc s0 l x s e : happens s0 l s e -> happens s0 (l ++ [x]) s e.
Proof. intros (l1 & l2 & -> & R). exists l1, (l2 ++ [x]). rewrite <- app_assoc. auto. Qed.

(** a property of all states of an execution, step by step *)
Lemma run_ind (Q : list event -> state -> Prop) s0 :
  Q [] s0 -> (forall l s e s', run s0 l = Some s -> Q l s -> step s e = Some s' -> Q (l ++ [e]) s') ->
  forall l s, run s0 l = Some s -> Q l s.
Proof.
  intros B S. induction l as [|e l IH] using rev_ind; intros s R.
  - injection R as <-. exact B.
  - rewrite run_snoc in R. destruct (run s0 l) as [s1|] eqn:E; [|discriminate]. eapply S; eauto.
Qed.

Ltac events S :=
  match type of S with step ?s ?e = _ => let p := fresh "p" in let lk := fresh "lk" in let fl := fresh "fl" in let nt := fresh "nt" in let al := fresh "al" in let kd := fresh "kd" in destruct s as [p lk fl nt al kd]; destruct e;
  unfold step in S; cbn [at_ locked flag noted alarm killed] in *; destruct kd; try discriminate S; destruct p; try discriminate S end;
  unfold handle, move, lock in S; cbn [at_ locked flag noted alarm killed in_sigwait negb] in *;
  repeat match type of S with context [if ?x then _ else _] => let E := fresh "E" in destruct x eqn:E; try discriminate S end;
  injection S as <-; cbn [at_ locked flag noted alarm killed] in *.

(** C80: the lock is held exactly in the critical section; when the program has left it the lock is free again *)
Definition critical (p : place) : bool := match p with Check | Decided | Calling | Asleep | Leaving => true | _ => false end.
Lemma lock_inv f l s : run (start f) l = Some s -> locked s = critical (at_ s).
Proof.
  revert l s. apply (run_ind (fun _ s => locked s = critical (at_ s))); [reflexivity|].
  intros l s e s' _ I S. events S; cbn [critical] in *; try congruence; reflexivity.
Qed.
Theorem C80_lock f l s : run (start f) l = Some s ->
  (locked s = true <-> In (at_ s) [Check; Decided; Calling; Asleep; Leaving]).
Proof. intros R. rewrite (lock_inv f l s R). destruct (at_ s); cbn; intuition discriminate. Qed.
Print Assumptions C80_lock.

(** C80: a signal that arrives at any time, except during the start of sigwait itself, is
    not lost: whenever the program sleeps afterwards, the alarm will wake it up *)
Definition not_calling (s0 : state) (l : list event) : Prop := forall s, happens s0 l s Usr1 -> at_ s <> Calling.
Lemma not_calling_snoc s0 l e : not_calling s0 (l ++ [e]) -> not_calling s0 l /\ (forall s, run s0 l = Some s -> e = Usr1 -> at_ s <> Calling).
Proof.
  intros N. split.
  - intros s H. apply (N s). apply happens_snoc. exact H.
  - intros s R ->. apply (N s). exists l, []. auto.
Qed.
Lemma signal_inv f l s : run (start f) l = Some s -> not_calling (start f) l ->
  match at_ s with
  | Query | Enter | Check => In Usr1 l -> noted s = true \/ flag s = true
  | Decided => In Usr1 l -> noted s = true \/ alarm s = true \/ killed s = true
  | Calling | Asleep => noted s = false /\ (In Usr1 l -> alarm s = true \/ killed s = true)
  | _ => True
  end.
Proof.
  revert l s. apply (run_ind (fun l s => not_calling (start f) l -> match at_ s with
    | Query | Enter | Check => In Usr1 l -> noted s = true \/ flag s = true
    | Decided => In Usr1 l -> noted s = true \/ alarm s = true \/ killed s = true
    | Calling | Asleep => noted s = false /\ (In Usr1 l -> alarm s = true \/ killed s = true)
    | _ => True end)).
  - cbn. intros _ [].
  - intros l s e s' R I S N. apply not_calling_snoc in N. destruct N as [N C]. specialize (I N). specialize (C s R).
    assert (LK := lock_inv f l s R).
    assert (U : e <> Usr1 -> In Usr1 (l ++ [e]) -> In Usr1 l) by (intros X; rewrite in_app_iff; cbn; intuition).
    events S; cbn [critical] in *; try (specialize (U ltac:(discriminate))); try exact Logic.I; try (intros Y; apply U in Y; clear U; intuition (try congruence; discriminate));
      try (split; [congruence|]; intros Y; apply U in Y; clear U; intuition (try congruence; discriminate)); try (intros _; auto).
    all: try (exfalso; apply C; reflexivity); intuition congruence.
Qed.
Theorem C80_no_lost_signal f l s : run (start f) l = Some s -> not_calling (start f) l ->
  at_ s = Asleep -> In Usr1 l -> killed s = false -> alarm s = true.
Proof. intros R N A U K. pose proof (signal_inv f l s R N) as I. rewrite A in I. destruct I as [_ I]. destruct (I U); congruence. Qed.
Print Assumptions C80_no_lost_signal.

(** C80 is false without the exception: if the signal arrives during the start of sigwait
    the program sleeps until another signal comes *)
Theorem C80_lost_signal_refuted out : exists l s,
  run (start false) l = Some s /\ In Usr1 l /\ at_ s = Asleep /\ l = [Answer out ""; Main; Main; Main; Usr1; Main] /\
  (forall l' s', run s l' = Some s' -> ~ In Usr1 l' -> s' = s).
Proof.
  exists [Answer out ""; Main; Main; Main; Usr1; Main]. eexists. split; [reflexivity|]. split; [cbn; auto 10|]. split; [reflexivity|]. split; [reflexivity|].
  induction l' as [|e l' IH]; intros s' R N; [injection R as <-; reflexivity|]. destruct e; try discriminate R. destruct N. left. reflexivity.
Qed.
Print Assumptions C80_lost_signal_refuted.

(** C80: a second signal while it sleeps wakes the program up *)
Theorem C80_wakes s : at_ s = Asleep -> killed s = false ->
  (exists s', step s Usr1 = Some s' /\ at_ s' = Leaving /\ noted s' = noted s /\ flag s' = flag s) /\
  (alarm s = true -> exists s', step s Ring = Some s' /\ at_ s' = Leaving /\ killed s' = false /\ alarm s' = false) /\
  step s Main = None /\ step s Handler = None.
Proof.
  intros A K. unfold step. rewrite K, A. split; [eexists; repeat split; reflexivity|]. split.
  - intros ->. eexists. repeat split; reflexivity.
  - split; [reflexivity|]. cbn. rewrite andb_false_r. reflexivity.
Qed.
Print Assumptions C80_wakes.

(** C80, finding: one signal between taking the lock and reading the flag is enough to
    end the program: the handler starts the alarm, nobody waits for it any more, and
    SIGALRM has no handler *)
Theorem C80_killed_refuted f out : exists s,
  run (start f) [Answer out ""; Main; Usr1; Handler; Main; Main; Ring] = Some s /\ killed s = true /\ at_ s = Polling /\ forall e, step s e = None.
Proof. destruct f; (eexists; split; [reflexivity|]; split; [reflexivity|]; split; [reflexivity|]; intros []; reflexivity). Qed.
Print Assumptions C80_killed_refuted.

Lemma alarm_inv f l s : run (start f) l = Some s -> alarm s = true \/ killed s = true ->
  exists s2, happens (start f) l s2 Handler /\ In (at_ s2) [Check; Decided; Leaving].
Proof.
  revert l s. apply (run_ind (fun l s => alarm s = true \/ killed s = true -> exists s2, happens (start f) l s2 Handler /\ In (at_ s2) [Check; Decided; Leaving])).
  - cbn. intuition discriminate.
  - intros l s e s' R I S A.
    assert (LK := lock_inv f l s R).
    assert (D : (alarm s = true \/ killed s = true) \/ e = Handler /\ In (at_ s) [Check; Decided; Leaving]).
    { clear R I. events S; cbn [critical] in LK; try (left; intuition congruence); try (right; cbn; intuition congruence). all: rewrite andb_false_r in E; discriminate. }
    destruct D as [D|[-> D]].
    + destruct (I D) as (s2 & H2 & P2). exists s2. split; [apply happens_snoc; exact H2|exact P2].
    + exists s. split; [exists l, []; auto|exact D].
Qed.
(** C80: the program is ended that way only by an alarm that rings outside of sigwait, and
    an alarm is only ever started by a handler called in the critical section *)
Theorem C80_killed_only f l s : run (start f) l = Some s -> killed s = true ->
  (exists s1, happens (start f) l s1 Ring /\ at_ s1 <> Asleep) /\
  (exists s2, happens (start f) l s2 Handler /\ In (at_ s2) [Check; Decided; Leaving]).
Proof.
  intros R K. split; [|eapply alarm_inv; eauto]. revert R K. revert l s.
  apply (run_ind (fun l s => killed s = true -> exists s1, happens (start f) l s1 Ring /\ at_ s1 <> Asleep)); [discriminate|].
  intros l s e s' R I S K.
  assert (D : killed s = true \/ e = Ring /\ at_ s <> Asleep).
  { clear R I. events S; try (left; assumption); try (left; congruence); try (right; split; [reflexivity|discriminate]). }
  destruct D as [D|[-> D]].
  - destruct (I D) as (s1 & H1 & P1). exists s1. split; [apply happens_snoc; exact H1|exact P1].
  - exists s. split; [exists l, []; auto|exact D].
Qed.
Print Assumptions C80_killed_only.

(** C80, finding: the flag is never cleared.  Once the handler has been called no later
    synchronisation ever waits for the signal of its job *)
Theorem C80_flag_stays f l s : run (start f) l = Some s ->
  (flag s = true <-> f = true \/ In Handler l) /\
  (f = true -> at_ s <> Decided /\ at_ s <> Calling /\ at_ s <> Asleep).
Proof.
  revert l s. apply (run_ind (fun l s => (flag s = true <-> f = true \/ In Handler l) /\ (f = true -> at_ s <> Decided /\ at_ s <> Calling /\ at_ s <> Asleep))).
  - cbn. split; [tauto|]. intros _. repeat split; discriminate.
  - intros l s e s' R [I J] S. rewrite in_app_iff. cbn [In].
    assert (X : flag s' = true <-> flag s = true \/ e = Handler) by (clear R I J; events S; intuition congruence).
    split; [rewrite X, I; intuition|].
    intros F. specialize (J F). assert (FS : flag s = true) by (apply I; auto). clear R I X.
    events S; try (repeat split; discriminate); try exact J; try congruence; destruct J as (J1 & J2 & J3); exfalso; first [apply J1; reflexivity|apply J2; reflexivity|apply J3; reflexivity].
Qed.
Print Assumptions C80_flag_stays.

(** C80: if the synchronisation returns, Slurm has said COMPLETED; if it raises, Slurm has reported an error *)
Theorem C80_result f l s r : run (start f) l = Some s -> at_ s = Ended r ->
  exists s1 out err, happens (start f) l s1 (Answer out err) /\
    ((r = Ok tt /\ at_ s1 = Polling /\ contains "COMPLETED" out = true) \/
     (r = Raise OtherException /\ err <> "" /\ (at_ s1 = Query \/ at_ s1 = Polling /\ contains "COMPLETED" out = false))).
Proof.
  revert l s. apply (run_ind (fun l s => at_ s = Ended r -> exists s1 out err, happens (start f) l s1 (Answer out err) /\
    ((r = Ok tt /\ at_ s1 = Polling /\ contains "COMPLETED" out = true) \/
     (r = Raise OtherException /\ err <> "" /\ (at_ s1 = Query \/ at_ s1 = Polling /\ contains "COMPLETED" out = false))))); [discriminate|].
  intros l s e s' R I S E.
  assert (D : at_ s = Ended r \/ exists out err, e = Answer out err /\
    ((r = Ok tt /\ at_ s = Polling /\ contains "COMPLETED" out = true) \/
     (r = Raise OtherException /\ err <> "" /\ (at_ s = Query \/ at_ s = Polling /\ contains "COMPLETED" out = false)))).
  { clear R I. events S; try discriminate E; try (left; assumption); right; eexists _, _; (split; [reflexivity|]); injection E as <-;
      repeat match goal with H : String.eqb _ _ = false |- _ => apply String.eqb_neq in H end; auto 8. }
  destruct D as [D|(out & err & -> & D)].
  - destruct (I D) as (s1 & out & err & H1 & P1). exists s1, out, err. split; [apply happens_snoc; exact H1|exact P1].
  - exists s, out, err. split; [exists l, []; auto|exact D].
Qed.
Print Assumptions C80_result.

(** C80: a job that has failed, been cancelled or timed out never ends the loop as long as
    Slurm knows it *)
Theorem C80_polls_forever s answers : at_ s = Polling -> killed s = false ->
  (forall a, In a answers -> contains "COMPLETED" (fst a) = false /\ snd a = "") ->
  run s (map (fun a => Answer (fst a) (snd a)) answers) = Some s.
Proof.
  intros A K. induction answers as [|[o e] l IH]; intros H; [reflexivity|]. cbn [map run fst snd]. destruct (H (o, e) (or_introl eq_refl)) as [H1 H2]. cbn in H1, H2. subst e.
  unfold step. rewrite K, A, H1. cbn [String.eqb]. rewrite <- A. destruct s as [p lk fl nt al kd]. cbn in *. subst. apply IH. intros a I. apply H. right. exact I.
Qed.
Print Assumptions C80_polls_forever.

(** C80: once the signal has been sent the program can always reach the end without another one *)
Theorem C80_progress f l s : run (start f) l = Some s -> not_calling (start f) l -> killed s = false -> In Usr1 l ->
  exists l' s', run s l' = Some s' /\ ~ In Usr1 l' /\ exists r, at_ s' = Ended r.
Proof.
  intros R N K U. pose proof (signal_inv f l s R N) as I. pose proof (lock_inv f l s R) as LK.
  destruct s as [p lk fl nt al kd]. cbn [at_ locked flag noted alarm killed] in *. subst kd.
  destruct p; cbn [critical] in LK; subst lk.
  - destruct (I U) as [X|X]; subst.
    + exists [Answer "" ""; Handler; Main; Main; Main; Answer "COMPLETED" ""]. eexists. split; [reflexivity|]. split; [cbn; intuition discriminate|]. eexists. reflexivity.
    + exists [Answer "" ""; Main; Main; Main; Answer "COMPLETED" ""]. eexists. split; [reflexivity|]. split; [cbn; intuition discriminate|]. eexists. reflexivity.
  - destruct (I U) as [X|X]; subst.
    + exists [Handler; Main; Main; Main; Answer "COMPLETED" ""]. eexists. split; [reflexivity|]. split; [cbn; intuition discriminate|]. eexists. reflexivity.
    + exists [Main; Main; Main; Answer "COMPLETED" ""]. eexists. split; [reflexivity|]. split; [cbn; intuition discriminate|]. eexists. reflexivity.
  - destruct (I U) as [X|X]; subst.
    + exists [Handler; Main; Main; Answer "COMPLETED" ""]. eexists. split; [reflexivity|]. split; [cbn; intuition discriminate|]. eexists. reflexivity.
    + exists [Main; Main; Answer "COMPLETED" ""]. eexists. split; [reflexivity|]. split; [cbn; intuition discriminate|]. eexists. reflexivity.
  - destruct nt.
    + exists [Handler; Main; Main; Ring; Main; Answer "COMPLETED" ""]. eexists. split; [reflexivity|]. split; [cbn; intuition discriminate|]. eexists. reflexivity.
    + destruct (I U) as [X|[X|X]]; try discriminate. subst. exists [Main; Main; Ring; Main; Answer "COMPLETED" ""]. eexists. split; [reflexivity|]. split; [cbn; intuition discriminate|]. eexists. reflexivity.
  - destruct I as [_ I]. destruct (I U) as [X|X]; try discriminate. subst. exists [Main; Ring; Main; Answer "COMPLETED" ""]. eexists. split; [reflexivity|]. split; [cbn; intuition discriminate|]. eexists. reflexivity.
  - destruct I as [_ I]. destruct (I U) as [X|X]; try discriminate. subst. exists [Ring; Main; Answer "COMPLETED" ""]. eexists. split; [reflexivity|]. split; [cbn; intuition discriminate|]. eexists. reflexivity.
  - exists [Main; Answer "COMPLETED" ""]. eexists. split; [reflexivity|]. split; [cbn; intuition discriminate|]. eexists. reflexivity.
  - exists [Answer "COMPLETED" ""]. eexists. split; [reflexivity|]. split; [cbn; intuition discriminate|]. eexists. reflexivity.
  - exists []. eexists. split; [reflexivity|]. split; [cbn; tauto|]. eexists. reflexivity.
Qed.
Print Assumptions C80_progress.

(** C80: the whole wait succeeds exactly if the loop has ended well and the accounts say
    COMPLETED and not FAILED *)
Theorem C80_wait sync acct :
  (wait_on_results sync acct = Ok tt <-> sync = Ok tt /\ contains "COMPLETED" acct = true /\ contains "FAILED" acct = false) /\
  (forall e, wait_on_results sync acct = Raise e -> sync = Raise e \/ e = OtherException).
Proof.
  unfold wait_on_results. destruct sync as [[]|e0]; cbn [bind].
  - destruct (contains "FAILED" acct), (contains "COMPLETED" acct); cbn; (split; [intuition congruence|]); intros e E; try discriminate; injection E as <-; auto.
  - split; [intuition discriminate|]. intros e E. left. exact E.
Qed.
Print Assumptions C80_wait.

(** an undisturbed wait, and one in which the signal comes while the program decides to sleep *)
Example C80_example :
  (exists s, run (start false) [Answer "JobState=RUNNING" ""; Main; Main; Main; Main; Usr1; Main; Answer "JobState=COMPLETING" ""; Answer "JobState=COMPLETED" ""] = Some s /\
     at_ s = Ended (Ok tt) /\ flag s = false /\ locked s = false) /\
  (exists s, run (start false) [Answer "" ""; Main; Main; Usr1; Handler; Main; Main] = Some s /\ at_ s = Asleep /\ alarm s = true /\ killed s = false) /\
  not_calling (start false) [Answer "" ""; Main; Main; Usr1; Handler; Main; Main] /\
  wait_on_results (Ok tt) " COMPLETED" = Ok tt.
Proof.
  split; [eexists; repeat split; reflexivity|]. split; [eexists; repeat split; reflexivity|]. split; [|reflexivity].
  intros s (l1 & l2 & E & R). destruct l1 as [|e1 [|e2 [|e3 [|e4 [|e5 [|e6 [|e7 [|e8 l1]]]]]]]]; try discriminate E; injection E as; subst; try discriminate.
  cbn in R. injection R as <-. discriminate.
Qed.
