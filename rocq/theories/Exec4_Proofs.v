(** Consequences for histories of sessions and for the order of events. *)
From Coq Require Import Sorted.
From Verif Require Import Common Common_Proofs PyStr_Model PyStr_Proofs JobBoss_Model Exec_Model Exec_Spec Exec_Proofs Exec2_Proofs Exec3_Proofs.
Local Open Scope nat_scope.

Lemma strip_line s : strip (line s) = sname s.
Proof. destruct s; reflexivity. Qed.
Lemma line_nonblank s : nonblank (line s) = true.
Proof. destruct s; reflexivity. Qed.
Lemma filter_lines l : filter nonblank (map line l) = map line l.
Proof. induction l as [|s l IH]; [reflexivity|]. cbn [map filter]. rewrite line_nonblank, IH. reflexivity. Qed.
Lemma lines_nonempty s l : lines (s :: l) <> EmptyString.
Proof. rewrite lines_cons. destruct s; discriminate. Qed.

(** what is restored from a file of recorded stages *)
Lemma restore_lines s l d lg : ~ In FINISHED (s :: l) ->
  set_state_from_file (mkJob None (Some (lines (s :: l))) d lg) = (mkJob (Some (next s)) (Some (lines (s :: l))) d lg, Ok tt).
Proof.
  intros H. unfold set_state_from_file. cbn [jfile]. rewrite (proj2 (String.eqb_neq _ _) (lines_nonempty s l)).
  rewrite file_lines_lines. cbn [jstate].
  destruct (loop_all (rev (map line (s :: l))) None) as [_ A].
  { intros x Hx _. apply in_rev, in_map_iff in Hx. destruct Hx as (t & <- & Ht). exists t. rewrite strip_line. split; auto. intros ->. auto. }
  rewrite (A (rev (map line l)) (line s) s); auto; [|apply strip_line].
  rewrite filter_rev, filter_lines. reflexivity.
Qed.
Lemma restore_finished l d lg :
  set_state_from_file (mkJob None (Some (lines (l ++ [FINISHED]))) d lg) = (mkJob None (Some (lines (l ++ [FINISHED]))) d lg, Raise ValueError).
Proof.
  unfold set_state_from_file. cbn [jfile].
  assert (N : lines (l ++ [FINISHED]) <> EmptyString) by (destruct l; apply lines_nonempty).
  rewrite (proj2 (String.eqb_neq _ _) N), file_lines_lines. cbn [jstate].
  rewrite map_app, rev_app_distr. cbn [map rev app]. rewrite loop_line by (intros [E|E]; discriminate).
  rewrite strip_line, find_name. reflexivity.
Qed.

(** *** histories *)
Inductive history (d : pdict) : string -> Prop :=
| history_start : history d EmptyString
| history_session t j n : history d t -> set_state_from_file (mkJob None (Some t) d []) = (j, Ok tt) ->
    history d (text_of (jfile (Nat.iter n (fun j => fst (advance j)) j))).

Definition recorded (j : job) (l : list stage) : Prop :=
  jfile j = Some (lines l) /\ exists s, jstate j = Some s /\
  ((~ In FINISHED l /\ (l <> [] \/ s = OPT)) \/ (s = FINISHED /\ exists m, l = m ++ [FINISHED])) /\
  (l = [] \/ exists m, l = OPT :: m).
Lemma recorded_advance j l : recorded j l -> exists l', recorded (fst (advance j)) (l ++ l').
Proof.
  intros (F & s & S & C & H). destruct j as [st f d lg]. cbn [jfile jstate] in F, S. subst.
  destruct (stage_eqb s FINISHED) eqn:E.
  - apply stage_eqb_iff in E. subst s. rewrite advance_finished. exists [FINISHED; FINISHED]. split.
    + cbn [fst jfile text_of]. rewrite lines_app, !lines_cons. change (lines []) with EmptyString. rewrite append_nil_r. reflexivity.
    + exists FINISHED. split; [reflexivity|]. split.
      * right. split; auto. exists (l ++ [FINISHED]). rewrite <- app_assoc. reflexivity.
      * destruct H as [->|[m ->]]; [|right; eexists; reflexivity]. exfalso. destruct C as [[_ [C|C]]|[_ [m C]]]; try congruence. destruct m; discriminate.
  - apply stage_eqb_false in E. rewrite advance_next by auto. exists [s]. split.
    + cbn [fst jfile text_of]. rewrite lines_app, !lines_cons. change (lines []) with EmptyString. rewrite append_nil_r. reflexivity.
    + exists (next s). split; [reflexivity|]. destruct C as [[C1 C2]|[C1 _]]; [|congruence]. split.
      * left. split; [|left; destruct l; discriminate]. intros K. apply in_app_or in K. destruct K as [K|[K|[]]]; auto.
      * right. destruct H as [->|[m ->]]; [|eexists; reflexivity]. destruct C2 as [C2| ->]; [congruence|]. exists []. reflexivity.
Qed.
Lemma recorded_iter n j l : recorded j l -> exists l', recorded (Nat.iter n (fun j => fst (advance j)) j) (l ++ l').
Proof.
  intros R. induction n as [|n [l' IH]]; [exists []; rewrite app_nil_r; auto|].
  cbn [Nat.iter nat_rect]. destruct (recorded_advance _ _ IH) as [l'' R2]. exists (l' ++ l''). rewrite app_assoc. exact R2.
Qed.
Lemma history_form d t : history d t ->
  t = EmptyString \/ exists m, t = lines (OPT :: m) /\ (~ In FINISHED m \/ exists k, OPT :: m = k ++ [FINISHED]).
Proof.
  induction 1 as [|t j n H IH S]; auto.
  assert (R : exists l, recorded j l).
  { destruct IH as [->|(m & -> & C)].
    - exists []. unfold set_state_from_file in S. cbn in S. inversion S; subst. split; [reflexivity|]. exists OPT. split; auto.
    - destruct C as [C|[k K]].
      + rewrite restore_lines in S by (intros [K|K]; [discriminate|auto]). inversion S; subst. exists (OPT :: m). split; [reflexivity|].
        exists NIP. split; [reflexivity|]. split; [|right; eauto]. left. split; [|left; discriminate]. intros [K|K]; [discriminate|auto].
      + rewrite K, restore_finished in S. inversion S. }
  destruct R as [l R]. destruct (recorded_iter n j l R) as (l' & F & s & S' & C & D).
  rewrite F. cbn [text_of]. destruct D as [->|[m Hm]]; [left; reflexivity|]. right. exists m. rewrite Hm in *. split; [reflexivity|].
  destruct C as [[C _]|[_ C]]; auto. left. intros K. apply C. right. auto.
Qed.

(** *** order of events *)
Definition pos (e : event) : nat := position order (match e with Started s _ | Completed s _ => s end).
Definition ordered_events (l : list event) : Prop := StronglySorted (fun a b => pos a <= pos b) l.
Lemma sorted_app {A} (R : A -> A -> Prop) a b : StronglySorted R a -> StronglySorted R b -> (forall x y, In x a -> In y b -> R x y) -> StronglySorted R (a ++ b).
Proof.
  induction 1 as [|x a S IH F]; intros B C; [exact B|]. cbn. constructor.
  - apply IH; auto. intros; apply C; auto. right; auto.
  - apply Forall_app. split; auto. apply Forall_forall. intros. apply C; auto. left. auto.
Qed.
Lemma block_events ips t : (forall e, In e (events ips [t]) -> pos e = position order t).
Proof.
  intros e H. unfold events in H. cbn [flat_map] in H. rewrite app_nil_r in H.
  destruct t; try (destruct H as [<-|[<-|[]]]; reflexivity). apply in_flat_map in H. destruct H as (z & _ & [<-|[<-|[]]]); reflexivity.
Qed.
Lemma same_sorted n l : (forall e, In e l -> pos e = n) -> ordered_events l.
Proof.
  induction l as [|e l IH]; intros H; constructor.
  - apply IH. intros; apply H; right; auto.
  - apply Forall_forall. intros x Hx. rewrite (H e), (H x); auto; [right|left]; auto.
Qed.
Lemma events_sorted ips l : StronglySorted (fun a b => position order a < position order b) l -> ordered_events (events ips l).
Proof.
  induction 1 as [|t l S IH F]; [constructor|].
  change (t :: l) with ([t] ++ l). rewrite events_app. apply sorted_app; auto.
  - eapply same_sorted. apply block_events.
  - intros x y Hx Hy. rewrite (block_events ips t x Hx). unfold events in Hy. apply in_flat_map in Hy. destruct Hy as (u & Hu & Hy).
    rewrite Forall_forall in F. specialize (F u Hu). rewrite (block_events ips u y); [lia|]. unfold events. cbn [flat_map]. rewrite app_nil_r. exact Hy.
Qed.
Lemma between_sorted s s' : StronglySorted (fun a b => position order a < position order b) (between s s' ++ [s']).
Proof.
  assert (K : forall l, let f := map (position order) l in StronglySorted lt f -> StronglySorted (fun a b => position order a < position order b) l).
  { induction l as [|a l IH]; cbv zeta; cbn [map]; intros H; [constructor|]. apply StronglySorted_inv in H. destruct H as [H1 H2]. constructor; auto. apply Forall_forall. intros x Hx.
    rewrite Forall_forall in H2. apply H2. apply in_map. auto. }
  apply K. destruct s, s'; cbn; repeat (constructor; try lia).
Qed.
Lemma events_tail_sorted ips s s' tail : (forall e, In e tail -> pos e = position order s') -> ordered_events (events ips (between s s') ++ tail).
Proof.
  intros H. apply sorted_app.
  - apply events_sorted. pose proof (between_sorted s s') as B. revert B. generalize (between s s'). clear.
    induction l as [|a l IH]; cbn [app]; intros B; [constructor|]. apply StronglySorted_inv in B. destruct B as [H1 H2]. constructor; auto. apply Forall_app in H2. tauto.
  - eapply same_sorted. exact H.
  - intros x y Hx Hy. rewrite (H y Hy). unfold events in Hx. apply in_flat_map in Hx. destruct Hx as (u & Hu & Hx).
    rewrite (block_events ips u x); [|unfold events; cbn [flat_map]; rewrite app_nil_r; exact Hx].
    destruct s, s'; cbn in Hu; repeat (destruct Hu as [<-|Hu]; [cbn; lia|]); destruct Hu.
Qed.
(** starts of a stage *)
Definition starts (t : stage) (l : list event) : nat :=
  length (filter (fun e => match e with Started s _ => stage_eqb s t | Completed _ _ => false end) l).
Lemma starts_app t a b : starts t (a ++ b) = starts t a + starts t b.
Proof. unfold starts. rewrite filter_app, app_length. auto. Qed.
Lemma starts_ips t l : t <> IPEOMCC -> starts t (did_ips l) = 0.
Proof.
  intros H. induction l as [|z l IH]; [reflexivity|]. change (did_ips (z :: l)) with (did IPEOMCC (Some z) ++ did_ips l).
  rewrite starts_app, IH. destruct t; try reflexivity. congruence.
Qed.
Lemma starts_events ips l t : t <> IPEOMCC -> NoDup l -> starts t (events ips l) <= 1 /\ (~ In t l -> starts t (events ips l) = 0).
Proof.
  intros T N. induction N as [|u l U N [IH1 IH2]]; [split; auto|].
  change (u :: l) with ([u] ++ l). rewrite events_app, starts_app.
  assert (B : starts t (events ips [u]) = if stage_eqb u t then 1 else 0).
  { unfold events. cbn [flat_map]. rewrite app_nil_r. destruct u; try (destruct t; try reflexivity; congruence).
    change (flat_map (fun z => did IPEOMCC (Some z)) ips) with (did_ips ips). rewrite starts_ips by auto.
    replace (stage_eqb IPEOMCC t) with false; auto. symmetry. apply stage_eqb_false. congruence. }
  rewrite B. destruct (stage_eqb u t) eqn:E.
  - apply stage_eqb_iff in E. subst u. rewrite IH2 by auto. split; [lia|]. intros K. exfalso. apply K. left. auto.
  - apply stage_eqb_false in E. split; [lia|]. intros K. rewrite IH2; [lia|]. intros I. apply K. right. auto.
Qed.
Lemma between_nodup s s' : NoDup (between s s').
Proof. destruct s, s'; cbn; repeat (constructor; [cbn; intuition discriminate|]); constructor. Qed.
