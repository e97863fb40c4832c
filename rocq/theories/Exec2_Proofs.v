(** Proofs about the order of the steps. *)
From Verif Require Import Common Common_Proofs PyStr_Model PyStr_Proofs JobBoss_Model Exec_Model Exec_Spec Exec_Proofs.
Local Open Scope nat_scope.

Lemma stage_eqb_iff a b : stage_eqb a b = true <-> a = b.
Proof. destruct a, b; cbn; split; intros; try congruence; discriminate. Qed.
Lemma stage_eqb_false a b : stage_eqb a b = false <-> a <> b.
Proof. destruct a, b; cbn; split; intros; try congruence; discriminate. Qed.
Lemma between_self s : between s s = [].
Proof. destruct s; reflexivity. Qed.
Lemma between_next s s' : not_before s s' -> s' <> FINISHED -> between s (next s') = between s s' ++ [s'].
Proof. unfold not_before. destruct s, s'; cbn; intros; try lia; try congruence; reflexivity. Qed.
Lemma not_before_refl s : not_before s s.
Proof. unfold not_before. lia. Qed.
Lemma not_before_next s s' : not_before s s' -> not_before s (next s').
Proof. unfold not_before. destruct s, s'; cbn; lia. Qed.
Lemma not_in_between s s' : not_before s s' -> ~ In s' (between s s').
Proof. unfold not_before. destruct s, s'; cbn; intros; try lia; intuition discriminate. Qed.

Section Run.
Variable w : world.
(** the calculations of the stages done were all successful *)
Definition fine (l : list stage) (ips : list Z) : Prop :=
  (forall t, In t l -> t <> IPEOMCC -> outcome w t 0 = Ok tt) /\ (forall z, In z ips -> w_ip w z = Ok tt) /\
  (In IPEOMCC l -> ips <> []).
(** between two steps *)
Definition At (s : stage) (text : string) (ips : list Z) (s' : stage) (j : job) : Prop :=
  not_before s s' /\ jstate j = Some s' /\ jfile j = Some (text ++ lines (between s s'))%string /\
  jlog j = events ips (between s s') /\ fine (between s s') ips.

Lemma events_app ips a b : events ips (a ++ b) = events ips a ++ events ips b.
Proof. unfold events. apply flat_map_app. Qed.
Lemma events_other ips ips' l : ~ In IPEOMCC l -> events ips l = events ips' l.
Proof.
  induction l as [|t l IH]; intros H; [reflexivity|]. cbn. fold (events ips l). fold (events ips' l). rewrite IH by (intros K; apply H; right; auto).
  destruct t; try reflexivity. exfalso. apply H. left. auto.
Qed.
(** one step that belongs to stage t *)
Lemma step_method t r s text ips s' j j' o : t <> IPEOMCC -> t <> FINISHED -> r = outcome w t 0 ->
  At s text ips s' j ->
  in_state t (run _ <- calculation t None r; advance) j = (j', o) ->
  (o = Ok tt /\ At s text ips (if stage_eqb t s' then next t else s') j' /\ jparams j' = jparams j) \/
  (exists e, o = Raise e /\ t = s' /\ r = Raise e /\ jstate j' = Some s' /\ jfile j' = jfile j /\ jlog j' = jlog j ++ [Started s' None]).
Proof.
  intros T1 T2 -> (N & S & F & L & G) H. unfold in_state in H. rewrite S in H.
  destruct (stage_eqb t s') eqn:E.
  - apply stage_eqb_iff in E. subst s'. unfold mbind, calculation in H.
    destruct (outcome w t 0) as [[]|e] eqn:O.
    + left. destruct j as [st f d lg]. cbn [jstate jfile jlog] in S, F, L. subst st f lg.
      unfold add_event in H. cbn [jstate jfile jparams jlog] in H. rewrite advance_next in H by auto. inversion H; subst; clear H.
      split; auto. split; [|reflexivity]. split; [apply not_before_next; auto|]. cbn [jstate jfile jlog text_of].
      rewrite between_next by auto. split; auto. split.
      { rewrite lines_app, append_assoc, lines_cons. change (lines []) with EmptyString. rewrite append_nil_r. reflexivity. }
      split.
      { rewrite events_app, <- app_assoc. f_equal. destruct t; try congruence; reflexivity. }
      { destruct G as (G1 & G2 & G3). split; [|split; auto].
        - intros u Hu. apply in_app_or in Hu. destruct Hu as [Hu|[<-|[]]]; auto.
        - intros Hu. apply in_app_or in Hu. destruct Hu as [Hu|[Hu|[]]]; [auto|congruence]. }
    + right. inversion H; subst. exists e. destruct j as [st fi d lg]; cbn [jstate jfile jlog add_event] in *. auto 10.
  - left. inversion H; subst. split; auto. split; auto. split; auto.
Qed.

(** *** the search for the number of states *)
Lemma get_nip_ok j n : dget String.eqb (jparams j) "nip" = Some (PInt n) -> get_nip j = (j, Ok n).
Proof. intros H. unfold get_nip. rewrite H. reflexivity. Qed.
Lemma set_nip_get j n : dget String.eqb (jparams (fst (set_nip n j))) "nip" = Some (PInt n).
Proof. unfold set_nip. cbn [fst jparams set_params]. rewrite dget_dset, String.eqb_refl. reflexivity. Qed.
Lemma down_snoc n k : down n (S k) = down n k ++ [(n - Z.of_nat k)%Z].
Proof.
  revert n. induction k as [|k IH]; intros n; [cbn; f_equal; lia|].
  change (down n (S (S k))) with (n :: down (n - 1) (S k)). rewrite IH.
  change (down n (S k)) with (n :: down (n - 1) k). cbn [app]. do 3 f_equal. lia.
Qed.

(** one round in state IPEOMCC *)
Lemma round_ip j n : jstate j = Some IPEOMCC -> dget String.eqb (jparams j) "nip" = Some (PInt n) ->
  ip_round w j =
  match w_ip w n with
  | Raise e => (add_event j (Started IPEOMCC (Some n)), Raise e)
  | Ok _ =>
      let j1 := add_event (add_event j (Started IPEOMCC (Some n))) (Completed IPEOMCC (Some n)) in
      match w_parse_ip w n with
      | Raise e => (j1, Raise e)
      | Ok true => match advance j1 with (j2, Ok _) => (j2, Ok true) | (j2, Raise e) => (j2, Raise e) end
      | Ok false => if Z.eqb (n - 1) 0 then (fst (set_nip (n - 1) j1), Raise OtherException) else (fst (set_nip (n - 1) j1), Ok false)
      end
  end.
Proof.
  intros S N. unfold ip_round, ip_calc, mbind, in_state. rewrite S. cbn [stage_eqb value Z.eqb Pos.eqb].
  rewrite (get_nip_ok j n N). unfold calculation. destruct (w_ip w n) as [[]|e]; [|reflexivity].
  rewrite (get_nip_ok _ n) by exact N. unfold lift. cbv zeta. destruct (w_parse_ip w n) as [[|]|e]; [| |reflexivity].
  - unfold ret. cbn [jstate add_event]. rewrite S. cbn [stage_eqb value Z.eqb Pos.eqb]. destruct (advance _) as [j2 [[]|e]]; reflexivity.
  - unfold set_nip, fail, ret. cbn [fst]. destruct (Z.eqb (n - 1) 0); reflexivity.
Qed.
(** one round in another state: nothing is calculated or recorded *)
Lemma round_other j s n : jstate j = Some s -> s <> IPEOMCC -> dget String.eqb (jparams j) "nip" = Some (PInt n) ->
  ip_round w j =
  match w_parse_ip w n with
  | Raise e => (j, Raise e)
  | Ok true => (j, Ok true)
  | Ok false => if Z.eqb (n - 1) 0 then (fst (set_nip (n - 1) j), Raise OtherException) else (fst (set_nip (n - 1) j), Ok false)
  end.
Proof.
  intros S T N. unfold ip_round, ip_calc, mbind, in_state. rewrite S.
  replace (stage_eqb IPEOMCC s) with false by (symmetry; apply stage_eqb_false; congruence).
  rewrite (get_nip_ok j n N). unfold lift. destruct (w_parse_ip w n) as [[|]|e]; [| |reflexivity].
  - rewrite S. replace (stage_eqb IPEOMCC s) with false by (symmetry; apply stage_eqb_false; congruence). reflexivity.
  - unfold set_nip, fail, ret. cbn [fst]. destruct (Z.eqb (n - 1) 0); reflexivity.
Qed.

Definition did_ips (l : list Z) : list event := flat_map (fun z => did IPEOMCC (Some z)) l.

(** the rounds in state IPEOMCC: after k rejections the loop ends *)
Definition search_result (n : Z) (j : job) (k : nat) (j' : job) (r : res unit) : Prop :=
  (forall i, i < k -> w_ip w (n - Z.of_nat i) = Ok tt /\ w_parse_ip w (n - Z.of_nat i) = Ok false) /\
  let m := (n - Z.of_nat k)%Z in
  (forall i, 0 < i -> i < k -> (n - Z.of_nat i <> 0)%Z) /\
  ((r = Ok tt /\ (k <> 0 -> m <> 0%Z) /\ w_ip w m = Ok tt /\ w_parse_ip w m = Ok true /\ jstate j' = Some PREPVIB /\
    jfile j' = Some (text_of (jfile j) ++ line IPEOMCC)%string /\ jlog j' = jlog j ++ did_ips (down n (S k)) /\
    dget String.eqb (jparams j') "nip" = Some (PInt m)) \/
   (exists e, r = Raise e /\ jstate j' = Some IPEOMCC /\ jfile j' = jfile j /\
      ((k <> 0 /\ m = 0%Z /\ e = OtherException /\ jlog j' = jlog j ++ did_ips (down n k)) \/
       ((k <> 0 -> m <> 0%Z) /\ w_ip w m = Raise e /\ jlog j' = jlog j ++ did_ips (down n k) ++ [Started IPEOMCC (Some m)]) \/
       ((k <> 0 -> m <> 0%Z) /\ w_ip w m = Ok tt /\ w_parse_ip w m = Raise e /\ jlog j' = jlog j ++ did_ips (down n (S k)))))).

Lemma search_ip fuel : forall j n j' r, jstate j = Some IPEOMCC -> dget String.eqb (jparams j) "nip" = Some (PInt n) ->
  verify_ip_states w fuel j = Some (j', r) -> exists k, search_result n j k j' r.
Proof.
  induction fuel as [|f IH]; intros j n j' r S N H; [discriminate|].
  cbn [verify_ip_states] in H. rewrite (round_ip j n S N) in H.
  destruct (w_ip w n) as [[]|e] eqn:I.
  2:{ inversion H; subst. exists 0. unfold search_result. cbv zeta. rewrite Z.sub_0_r. split; [intros; lia|]. split; [intros; lia|]. right. exists e. cbn [jstate jfile jlog jparams add_event]. rewrite S.
      repeat split; auto. right. left. auto. }
  cbv zeta in H. set (j1 := add_event (add_event j (Started IPEOMCC (Some n))) (Completed IPEOMCC (Some n))) in *.
  assert (L1 : jlog j1 = jlog j ++ did IPEOMCC (Some n)) by (cbn; rewrite <- app_assoc; reflexivity).
  destruct (w_parse_ip w n) as [[|]|e] eqn:P.
  - destruct j as [st fi d lg]. cbn [jstate] in S. subst st. unfold j1, add_event in H. cbn [jstate jfile jparams jlog] in H.
    rewrite advance_next in H by discriminate. inversion H; subst. exists 0. unfold search_result. cbv zeta. rewrite Z.sub_0_r.
    split; [intros; lia|]. split; [intros; lia|]. left. cbn [jstate jfile jlog jparams]. repeat split; auto; try (rewrite <- app_assoc; reflexivity).
  - destruct (Z.eqb_spec (n - 1) 0) as [Z0|Z0].
    + inversion H; subst. exists 1. unfold search_result. cbv zeta.
      split; [intros i Hi; assert (i = 0) by lia; subst; rewrite Z.sub_0_r; auto|]. split; [intros; lia|]. right. exists OtherException. cbn [jstate jfile jlog jparams fst set_nip set_params add_event j1]. rewrite S.
      repeat split; auto.
    + destruct (IH (fst (set_nip (n - 1) j1)) (n - 1)%Z j' r) as (k & R1 & R2 & R3); auto; [apply set_nip_get|].
      assert (SH : forall i, (n - 1 - Z.of_nat i = n - Z.of_nat (1 + i))%Z) by (intros; lia).
      exists (1 + k). unfold search_result. cbv zeta. split.
      { intros [|i] Hi; [rewrite Z.sub_0_r; auto|]. change (Datatypes.S i) with (1 + i). rewrite <- (SH i). apply R1. lia. }
      split.
      { intros [|i] Hi Hk; [lia|]. change (Datatypes.S i) with (1 + i). rewrite <- (SH i). destruct i as [|i]; [rewrite Z.sub_0_r; auto|]. apply R2; lia. }
      rewrite (SH k) in R3.
      assert (LG : jlog (fst (set_nip (n - 1) j1)) = jlog j ++ did IPEOMCC (Some n)) by exact L1.
      assert (FI : jfile (fst (set_nip (n - 1) j1)) = jfile j) by reflexivity.
      rewrite LG, FI in R3.
      assert (K0 : k = 0 -> (n - Z.of_nat (1 + k) <> 0)%Z) by (intros ->; lia).
      destruct R3 as [(A & B & C & D & E & F & G & G2)|(e & A & B & C & D)].
      * left. repeat split; auto. { intros _. destruct (Nat.eq_dec k 0); auto. } rewrite G. rewrite <- app_assoc. reflexivity.
      * right. exists e. repeat split; auto. destruct D as [(D & E & F & G)|[(D & E & G)|(D & E & F & G)]]; [left|right; left|right; right];
          repeat split; auto; try lia; try (intros _; destruct (Nat.eq_dec k 0); auto); rewrite G, <- app_assoc; reflexivity.
  - inversion H; subst. exists 0. unfold search_result. cbv zeta. rewrite Z.sub_0_r. split; [intros; lia|]. split; [intros; lia|]. right. exists e.
    repeat split; auto. right. right. repeat split; auto; try lia; exact L1.
Qed.
Lemma search_other fuel : forall j s n j' r, jstate j = Some s -> s <> IPEOMCC -> dget String.eqb (jparams j) "nip" = Some (PInt n) ->
  verify_ip_states w fuel j = Some (j', r) -> jstate j' = Some s /\ jfile j' = jfile j /\ jlog j' = jlog j /\
    exists m, dget String.eqb (jparams j') "nip" = Some (PInt m).
Proof.
  induction fuel as [|f IH]; intros j s n j' r S T N H; [discriminate|].
  cbn [verify_ip_states] in H. rewrite (round_other j s n S T N) in H.
  destruct (w_parse_ip w n) as [[|]|e].
  - inversion H; subst. eauto.
  - destruct (Z.eqb (n - 1) 0).
    + inversion H; subst. repeat split; auto. eexists. apply set_nip_get.
    + apply (IH _ s (n - 1)%Z) in H; auto. apply set_nip_get.
  - inversion H; subst. eauto.
Qed.
(** with fuel n the search ends if n is positive *)
Lemma search_ends n : forall j s, jstate j = Some s -> dget String.eqb (jparams j) "nip" = Some (PInt (Z.of_nat (S n))) ->
  verify_ip_states w (S n) j <> None.
Proof.
  induction n as [|n IH]; intros j s St N; remember (ip_round w j) as o eqn:O; symmetry in O;
    cbn [verify_ip_states]; rewrite O; destruct o as [j' [[|]|e]]; try discriminate.
  - exfalso. destruct (stage_eqb s IPEOMCC) eqn:E.
    + apply stage_eqb_iff in E. subst. rewrite (round_ip j _ St N) in O. destruct (w_ip w _) as [[]|]; [|discriminate].
      cbv zeta in O. destruct (w_parse_ip w _) as [[|]|]; try discriminate. destruct (advance _) as [? [|]]; discriminate.
    + apply stage_eqb_false in E. rewrite (round_other j s _ St E N) in O. destruct (w_parse_ip w _) as [[|]|]; discriminate.
  - assert (X : jstate j' = Some s /\ dget String.eqb (jparams j') "nip" = Some (PInt (Z.of_nat (S n)))).
    { destruct (stage_eqb s IPEOMCC) eqn:E.
      - apply stage_eqb_iff in E. subst. rewrite (round_ip j _ St N) in O. destruct (w_ip w _) as [[]|]; [|discriminate].
        cbv zeta in O. destruct (w_parse_ip w _) as [[|]|]; try discriminate.
        + destruct (advance _) as [? [|]]; discriminate.
        + destruct (Z.eqb _ 0); try discriminate; match type of O with (?a, _) = _ => assert (J : j' = a) by congruence end; rewrite J, set_nip_get; split; auto; do 2 f_equal; lia.
      - apply stage_eqb_false in E. rewrite (round_other j s _ St E N) in O. destruct (w_parse_ip w _) as [[|]|]; try discriminate.
        destruct (Z.eqb _ 0); try discriminate; match type of O with (?a, _) = _ => assert (J : j' = a) by congruence end; rewrite J, set_nip_get; split; auto; do 2 f_equal; lia. }
    destruct X as [X1 X2]. apply (IH j' s X1 X2).
Qed.
(** from 0 downwards nothing ends it *)
Lemma search_forever fuel : forall j s n, (n <= 0)%Z -> (forall z, (z <= n)%Z -> w_ip w z = Ok tt /\ w_parse_ip w z = Ok false) ->
  jstate j = Some s -> dget String.eqb (jparams j) "nip" = Some (PInt n) -> verify_ip_states w fuel j = None.
Proof.
  induction fuel as [|f IH]; intros j s n L A S N; [reflexivity|]. cbn [verify_ip_states].
  destruct (A n) as [A1 A2]; [lia|]. destruct (stage_eqb s IPEOMCC) eqn:E.
  - apply stage_eqb_iff in E. subst. rewrite (round_ip j n S N), A1, A2. cbv zeta. destruct (Z.eqb_spec (n - 1) 0); [lia|].
    apply (IH _ IPEOMCC (n - 1)%Z); try lia; auto; [intros; apply A; lia|apply set_nip_get].
  - apply stage_eqb_false in E. rewrite (round_other j s n S E N), A2. destruct (Z.eqb_spec (n - 1) 0); [lia|].
    apply (IH _ s (n - 1)%Z); try lia; auto; [intros; apply A; lia|apply set_nip_get].
Qed.
End Run.
