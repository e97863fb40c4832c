(** Proofs about a whole run of the electronic structure workflow. *)
From Verif Require Import Common Common_Proofs PyStr_Model PyStr_Proofs JobBoss_Model Exec_Model Exec_Spec Exec_Proofs Exec2_Proofs.
Local Open Scope nat_scope.

Lemma mbind_inv {A B} (m : method A) (f : A -> method B) j j' r : mbind m f j = (j', r) ->
  (exists e, m j = (j', Raise e) /\ r = Raise e) \/ (exists a j1, m j = (j1, Ok a) /\ f a j1 = (j', r)).
Proof.
  unfold mbind. destruct (m j) as [j1 [a|e]]; intros H; [right; eauto|left].
  inversion H; subst. eauto.
Qed.

Section Whole.
Variable w : world.
(** what is left of a run that raised: the stages before s' are recorded, s' is not *)
Definition stopped (s : stage) (text : string) (j : job) : Prop :=
  exists ips s' tail, not_before s s' /\ jstate j = Some s' /\ jfile j = Some (text ++ lines (between s s'))%string /\
    jlog j = events ips (between s s') ++ tail /\ fine w (between s s') ips /\
    (tail = [] \/
     (s' <> IPEOMCC /\ tail = [Started s' None] /\ exists e, outcome w s' 0 = Raise e) \/
     (s' = IPEOMCC /\ exists n k, (forall i, i < k -> w_ip w (n - Z.of_nat i) = Ok tt) /\
        (tail = did_ips (down n k) \/
         (tail = did_ips (down n k) ++ [Started IPEOMCC (Some (n - Z.of_nat k)%Z)] /\ exists e, w_ip w (n - Z.of_nat k) = Raise e)))).

Lemma at_stopped s text ips s' j : At w s text ips s' j -> stopped s text j.
Proof. intros (A & B & C & D & E). exists ips, s', []. rewrite app_nil_r. repeat split; auto; apply E. Qed.
Lemma step_stopped t s text ips s' j j' e : t <> IPEOMCC -> At w s text ips s' j -> t = s' -> outcome w t 0 = Raise e ->
  jstate j' = Some s' -> jfile j' = jfile j -> jlog j' = jlog j ++ [Started s' None] -> stopped s text j'.
Proof.
  intros T (A & B & C & D & E) -> O S F L. exists ips, s', [Started s' None]. rewrite F, L, D. repeat split; auto; try apply E.
  right. left. eauto.
Qed.
Lemma at_same s text ips s' j j' : At w s text ips s' j -> jstate j' = jstate j -> jfile j' = jfile j -> jlog j' = jlog j -> At w s text ips s' j'.
Proof. intros (A & B & C & D & E) S F L. repeat split; try congruence; auto; try apply E. Qed.

(** before the search: the state is past the first three stages *)
Lemma first_part_run s text s0 j j' r : At w s text [] s0 j -> first_part w j = (j', r) ->
  (exists e, r = Raise e /\ stopped s text j') \/
  (r = Ok tt /\ exists s1 n, At w s text [] s1 j' /\ s1 = (match s0 with OPT | NIP | VIB => IPEOMCC | _ => s0 end) /\
     w_parse_hf w = Ok n /\ dget String.eqb (jparams j') "nip" = Some (PInt n)).
Proof.
  intros A H. unfold first_part in H.
  apply mbind_inv in H. destruct H as [(e & H & ->)|([] & j1 & H1 & H)].
  { apply (step_method w OPT _ s text [] s0) in H; auto; try discriminate. destruct H as [(K & _)|(e' & _ & T & O & X1 & X2 & X3)]; [discriminate|].
    left. exists e. split; auto. eapply (step_stopped OPT); eauto. discriminate. }
  apply (step_method w OPT _ s text [] s0) in H1; auto; try discriminate. destruct H1 as [(_ & A1 & P1)|(e' & K & _)]; [|discriminate].
  apply mbind_inv in H. destruct H as [(e & H & ->)|([] & j2 & H2 & H)].
  { unfold lift in H. inversion H; subst. left. exists e. split; auto. eapply at_stopped; eauto. }
  unfold lift in H2. assert (j2 = j1) by congruence. subst j2. clear H2.
  apply mbind_inv in H. destruct H as [(e & H & ->)|([] & j3 & H3 & H)].
  { eapply (step_method w NIP) in H; eauto; try discriminate. destruct H as [(K & _)|(e' & _ & T & O & X1 & X2 & X3)]; [discriminate|].
    left. exists e. split; auto. eapply (step_stopped NIP); eauto. discriminate. }
  eapply (step_method w NIP) in H3; eauto; try discriminate. destruct H3 as [(_ & A3 & P3)|(e' & K & _)]; [|discriminate].
  apply mbind_inv in H. destruct H as [(e & H & ->)|([] & j4 & H4 & H)].
  { unfold parse_hf, lift, mbind in H. destruct (w_parse_hf w); inversion H; subst. left. exists e. split; auto. eapply at_stopped; eauto. }
  assert (N : exists n, w_parse_hf w = Ok n /\ dget String.eqb (jparams j4) "nip" = Some (PInt n) /\ jstate j4 = jstate j3 /\ jfile j4 = jfile j3 /\ jlog j4 = jlog j3).
  { unfold parse_hf, lift, mbind in H4. destruct (w_parse_hf w) as [n|]; [|inversion H4]. exists n.
    assert (J : j4 = fst (set_nip n j3)) by (destruct (set_nip n j3); inversion H4; subst; auto). rewrite J, set_nip_get. auto. }
  destruct N as (n & N1 & N2 & N3 & N4 & N5).
  assert (A4 := at_same _ _ _ _ _ _ A3 N3 N4 N5). clear A3 A1 A.
  eapply (step_method w VIB) in H; eauto; try discriminate. destruct H as [(-> & A5 & P5)|(e & -> & T & O & X1 & X2 & X3)].
  - right. split; auto. eexists _, n. split; [exact A5|]. split; [destruct s0; reflexivity|]. split; auto. rewrite P5. auto.
  - left. exists e. split; auto. eapply (step_stopped VIB); eauto. discriminate.
Qed.

Lemma search_run fuel s text s1 n j j' r : At w s text [] s1 j -> (s1 = IPEOMCC \/ s1 = PREPVIB \/ s1 = VIBRON) ->
  dget String.eqb (jparams j) "nip" = Some (PInt n) -> verify_ip_states w fuel j = Some (j', r) ->
  (exists e, r = Raise e /\ stopped s text j') \/
  (r = Ok tt /\ exists s2 ips, At w s text ips s2 j' /\ s2 = (match s1 with IPEOMCC => PREPVIB | _ => s1 end) /\
     (s1 = IPEOMCC -> exists k, ips = down n (S k))).
Proof.
  intros A C N H. destruct (stage_eqb s1 IPEOMCC) eqn:E.
  - apply stage_eqb_iff in E. subst s1. destruct A as (A1 & A2 & A3 & A4 & A5 & A6 & _).
    destruct (search_ip w fuel j n j' r A2 N H) as (k & R1 & R2 & R3). cbv zeta in R3.
    assert (NI : ~ In IPEOMCC (between s IPEOMCC)) by (apply not_in_between; auto).
    destruct R3 as [(-> & B & C1 & D & E & F & G & _)|(e & -> & B & D & G)].
    + right. split; auto. exists PREPVIB, (down n (S k)). split; [|split; [reflexivity|eauto]].
      split; [apply (not_before_next s IPEOMCC); auto|]. split; auto. rewrite F, A3, G, A4.
      change PREPVIB with (next IPEOMCC). rewrite (between_next s IPEOMCC) by (auto; discriminate). cbn [text_of]. split.
      { rewrite lines_app, append_assoc, lines_cons. change (lines []) with EmptyString. rewrite append_nil_r. reflexivity. }
      split.
      { rewrite events_app. f_equal; [apply events_other; auto|]. unfold events. cbn [flat_map]. rewrite app_nil_r. reflexivity. }
      split.
      { intros t T1 T2. apply in_app_or in T1. destruct T1 as [T1|[<-|[]]]; [auto|congruence]. }
      split; [|cbn [down]; discriminate].
      { intros z Hz. rewrite down_snoc in Hz. apply in_app_or in Hz. destruct Hz as [Hz|[<-|[]]]; auto.
        clear - R1 Hz. assert (exists i, i < k /\ z = (n - Z.of_nat i)%Z) as (i & I1 & ->).
        { revert n Hz R1. induction k as [|k IH]; intros n Hz R1; [destruct Hz|]. destruct Hz as [<-|Hz]; [exists 0; split; lia|].
          destruct (IH (n - 1)%Z Hz) as (i & I1 & I2).
          - intros i Hi. replace (n - 1 - Z.of_nat i)%Z with (n - Z.of_nat (S i))%Z by lia. apply R1. lia.
          - exists (S i). split; lia. }
        apply R1. auto. }
    + left. exists e. split; auto.
      destruct G as [(_ & _ & _ & G)|[(_ & G1 & G)|(_ & G1 & _ & G)]].
      * exists [], IPEOMCC, (did_ips (down n k)). rewrite D, G, A4. repeat split; auto; try (intros ? []); try (intros K; exfalso; apply NI; exact K).
        right. right. split; auto. exists n, k. split; [intros; apply R1; auto|auto].
      * exists [], IPEOMCC, (did_ips (down n k) ++ [Started IPEOMCC (Some (n - Z.of_nat k)%Z)]). rewrite D, G, A4. repeat split; auto; try (intros ? []); try (intros K; exfalso; apply NI; exact K).
        right. right. split; auto. exists n, k. split; [intros; apply R1; auto|]. right. eauto.
      * exists [], IPEOMCC, (did_ips (down n (S k))). rewrite D, G, A4. repeat split; auto; try (intros ? []); try (intros K; exfalso; apply NI; exact K).
        right. right. split; auto. exists n, (S k). split; [|auto]. intros i Hi. destruct (Nat.eq_dec i k) as [->|]; auto. apply R1. lia.
  - apply stage_eqb_false in E. assert (X := A). destruct X as (_ & A2 & _).
    destruct (search_other w fuel j s1 n j' r A2 E N H) as (S1 & S2 & S3 & _).
    assert (A' : At w s text [] s1 j') by (eapply at_same; eauto; congruence).
    destruct r as [[]|e]; [right|left; exists e; split; auto; eapply at_stopped; eauto].
    split; auto. exists s1, []. split; auto. split; [destruct s1; congruence|congruence].
Qed.

Lemma last_part_run s text s2 ips j j' r : At w s text ips s2 j -> (s2 = PREPVIB \/ s2 = VIBRON) -> last_part w j = (j', r) ->
  (exists e, r = Raise e /\ stopped s text j') \/
  (r = Ok tt /\ jstate j' = Some FINISHED /\ jfile j' = Some (text ++ lines (between s FINISHED ++ [FINISHED; FINISHED]))%string /\
     jlog j' = events ips (between s FINISHED) /\ fine w (between s FINISHED) ips).
Proof.
  intros A C H. unfold last_part in H.
  apply mbind_inv in H. destruct H as [(e & H & ->)|([] & j1 & H1 & H)].
  { eapply (step_method w PREPVIB) in H; eauto; try discriminate. destruct H as [(K & _)|(e' & _ & T & O & X1 & X2 & X3)]; [discriminate|].
    left. exists e. split; auto. eapply (step_stopped PREPVIB); eauto. discriminate. }
  eapply (step_method w PREPVIB) in H1; eauto; try discriminate. destruct H1 as [(_ & A1 & P1)|(e' & K & _)]; [|discriminate].
  assert (A1' : At w s text ips VIBRON j1) by (destruct C; subst; exact A1). clear A A1.
  apply mbind_inv in H. destruct H as [(e & H & ->)|([] & j2 & H2 & H)].
  { unfold lift in H. inversion H; subst. left. exists e. split; auto. eapply at_stopped; eauto. }
  unfold lift in H2. assert (j2 = j1) by congruence. subst j2. clear H2.
  apply mbind_inv in H. destruct H as [(e & H & ->)|([] & j3 & H3 & H)].
  { eapply (step_method w VIBRON) in H; eauto; try discriminate. destruct H as [(K & _)|(e' & _ & T & O & X1 & X2 & X3)]; [discriminate|].
    left. exists e. split; auto. eapply (step_stopped VIBRON); eauto. discriminate. }
  eapply (step_method w VIBRON) in H3; eauto; try discriminate. destruct H3 as [(_ & A3 & P3)|(e' & K & _)]; [|discriminate].
  cbn [stage_eqb value Z.eqb Pos.eqb next] in A3.
  apply mbind_inv in H. destruct H as [(e & H & ->)|([] & j4 & H4 & H)].
  { unfold lift in H. inversion H; subst. left. exists e. split; auto. eapply at_stopped; eauto. }
  unfold lift in H4. assert (j4 = j3) by congruence. subst j4. clear H4.
  destruct A3 as (B1 & B2 & B3 & B4 & B5). destruct j3 as [st f d lg]. cbn [jstate jfile jlog] in B2, B3, B4. subst st f lg.
  rewrite advance_finished in H. inversion H; subst. right. split; auto. cbn [jstate jfile jlog]. split; auto. split; auto.
  cbn [text_of]. rewrite lines_app, append_assoc, !lines_cons. change (lines []) with EmptyString. rewrite append_nil_r. reflexivity.
Qed.

(** the whole run after reading parameters and geometry *)
Theorem whole_run fuel j0 j s text j' r :
  (run _ <- parse_input_parameters (w_file w); lift (w_zmat w)) j0 = (j, Ok tt) ->
  jstate j = Some s -> jfile j = Some text -> jlog j = [] ->
  calculate_vibronic_model w fuel j0 = Some (j', r) ->
  (exists e, r = Raise e /\ s <> FINISHED /\ stopped s text j') \/
  (r = Ok tt /\ s = FINISHED /\ j' = j) \/
  (r = Ok tt /\ s <> FINISHED /\ exists ips, jstate j' = Some FINISHED /\
     jfile j' = Some (text ++ lines (between s FINISHED ++ [FINISHED; FINISHED]))%string /\
     jlog j' = events ips (between s FINISHED) /\ fine w (between s FINISHED) ips /\
     (In IPEOMCC (between s FINISHED) -> exists n k, w_parse_hf w = Ok n /\ ips = down n (S k))).
Proof.
  intros P S F L H. unfold calculate_vibronic_model in H. rewrite P, S in H.
  destruct (stage_eqb s FINISHED) eqn:E.
  { apply stage_eqb_iff in E. subst s. change (value FINISHED <? max_value)%Z with false in H. cbv iota in H. inversion H; subst. auto. }
  apply stage_eqb_false in E.
  replace (value s <? max_value)%Z with true in H by (destruct s; try reflexivity; congruence).
  assert (A : At w s text [] s j).
  { split; [apply not_before_refl|]. rewrite between_self. split; auto. split; [rewrite F; change (lines []) with EmptyString; rewrite append_nil_r; auto|].
    split; auto. repeat split; intros; try discriminate; match goal with K : In _ [] |- _ => destruct K end. }
  destruct (first_part w j) as [j1 r1] eqn:H1.
  destruct (first_part_run s text s j j1 r1 A H1) as [(e & -> & R)|(-> & s1 & n & A1 & E1 & N1 & N2)].
  { inversion H; subst. left. eauto. }
  destruct (verify_ip_states w fuel j1) as [[j2 r2]|] eqn:H2; [|discriminate].
  destruct (search_run fuel s text s1 n j1 j2 r2 A1) as [(e & -> & R)|(-> & s2 & ips & A2 & E2 & K)]; auto.
  { destruct s; subst; auto; congruence. }
  { inversion H; subst. left. eauto. }
  destruct (last_part w j2) as [j3 r3] eqn:H3. inversion H; subst j3 r3; clear H.
  destruct (last_part_run s text s2 ips j2 j' r A2) as [(e & -> & R)|(-> & X1 & X2 & X3 & X4)]; auto.
  { subst s2 s1. destruct s; auto; congruence. }
  { left. eauto. }
  right. right. split; auto. split; auto. exists ips. repeat split; auto; try apply X4.
  intros I. assert (s1 = IPEOMCC) by (subst s1; destruct s; auto; cbn in I; exfalso; intuition discriminate).
  destruct (K H) as [k Hk]. exists n, k. auto.
Qed.
End Whole.

(** *** reading parameters does not calculate or record anything *)
Lemma parse_frame w j0 j r : (run _ <- parse_input_parameters (w_file w); lift (w_zmat w)) j0 = (j, r) ->
  jlog j = jlog j0 /\ text_of (jfile j) = text_of (jfile j0) /\ (r = Ok tt -> exists t, jfile j = Some t) /\
  (forall s, jstate j0 = Some s -> jstate j = Some s).
Proof.
  intros H.
  assert (Q : forall j1 r1, parse_input_parameters (w_file w) j0 = (j1, r1) -> jlog j1 = jlog j0 /\ text_of (jfile j1) = text_of (jfile j0) /\
     (r1 = Ok tt -> exists t, jfile j1 = Some t) /\ (forall s, jstate j0 = Some s -> jstate j1 = Some s)).
  { clear H. intros j1 r1 H. unfold parse_input_parameters in H.
    assert (B1 : forall j1 (r1 : res unit), (match w_file w with
                     | None => (j0, Raise OSError)
                     | Some text => let (d, r) := read_parameters (jparams j0) (file_lines text) in (set_params j0 d, r)
                     end) = (j1, r1) -> jlog j1 = jlog j0 /\ jfile j1 = jfile j0 /\ jstate j1 = jstate j0).
    { intros ? ? K. destruct (w_file w); [destruct (read_parameters _ _)|]; inversion K; subst; auto. }
    apply mbind_inv in H. destruct H as [(e & H & ->)|([] & j2 & H2 & H)].
    { apply B1 in H. destruct H as (-> & -> & ->). repeat split; auto. discriminate. }
    apply B1 in H2. destruct H2 as (Q1 & Q2 & Q3).
    do 3 (apply mbind_inv in H; destruct H as [(e & H & ->)|([] & jx & HH & H)];
      [inversion H; subst; repeat split; try congruence; discriminate|assert (jx = j2) by congruence; subst jx; clear HH]).
    apply mbind_inv in H. destruct H as [(e & H & ->)|([] & j3 & HC & H)]; [inversion H|].
    assert (C : jlog j3 = jlog j2 /\ (exists t, jfile j3 = Some t) /\ text_of (jfile j3) = text_of (jfile j2) /\ jstate j3 = jstate j2).
    { unfold create_state_file in HC. inversion HC; subst. destruct (jfile j2) eqn:FX; cbn; rewrite ?FX; eauto. }
    destruct C as (C1 & [t C2] & C3 & C4).
    destruct (jstate j3) as [s3|] eqn:S3.
    - inversion H; subst. split; [congruence|]. split; [congruence|]. split; [eauto|]. intros; congruence.
    - unfold set_state_from_file in H. rewrite C2 in H.
      assert (D : jlog j1 = jlog j3 /\ jfile j1 = jfile j3).
      { destruct (String.eqb t EmptyString).
        - destruct (of_value min_value); inversion H; subst; auto.
        - destruct (state_loop _ _); inversion H; subst; auto. }
      destruct D as [D1 D2]. split; [congruence|]. split; [congruence|]. split; [intros; exists t; congruence|]. intros; congruence. }
  apply mbind_inv in H. destruct H as [(e & H & ->)|([] & j2 & H2 & H)].
  - destruct (Q _ _ H) as (A & B & C & D). repeat split; auto; discriminate.
  - inversion H; subst. destruct (Q _ _ H2) as (A & B & C & D). repeat split; auto.
Qed.
