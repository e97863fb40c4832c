(** Proofs about Create_Model.v: a whole run of create_fake_coupled_model. *)
From Coq Require Import Ring_theory Ring.
From Verif Require Import Common Common_Proofs Arr_Model Arr_Proofs ModelIO_Model ModelIO_Spec ModelIO_Proofs ModelIO2_Proofs SameModel_Model SameModel_Proofs Create_Model Create_Spec Create_Proofs.
Local Open Scope nat_scope.

Section Run.
  Context {V : Type}.
  Variables (zero one : V) (add mul sub : V -> V -> V) (opp : V -> V).
  Variable isz : V -> bool.
  Variable vint : V -> res Z.
  Variable close : V -> V -> bool.
  Hypothesis RT : ring_theory zero one add mul sub opp eq.
  Hypothesis close_refl : forall x, close x x = true.
  Hypothesis isz_zero : forall x, isz x = true <-> x = zero.
  Notation getd := (getd zero).
  Notation conjugate := (conjugate zero add mul).
  Notation rotated := (rotated zero add mul).
  Notation create_fake := (create_fake zero one add mul isz vint close).
  Notation create_fake_trace := (create_fake_trace zero one add mul isz vint close).
  Notation prepare_fake := (prepare_fake zero one add mul vint close).
  Notation rotate_model := (rotate_model zero one add mul close).
  Notation obtain_matrix := (obtain_matrix zero one add mul close).

  Ltac inbs := repeat match goal with
    | H : inb (_ :: _) _ |- _ => inversion H; subst; clear H
    | H : Forall2 lt _ (_ :: _) |- _ => inversion H; subst; clear H
    | H : inb [] _ |- _ => inversion H; subst; clear H
    | H : Forall2 lt _ [] |- _ => inversion H; subst; clear H
    end.
  Ltac inb_solve := unfold inb; repeat (constructor; auto).

  (** ** Shapes *)
  Lemma valid_marr A N d m a : valid vint Coupled (Z.of_nat A) (Z.of_nat N) d -> dict_ok d -> In m surface_params -> has d (KV m) (PArr a) -> marr_ok A N m a.
  Proof.
    intros [_ Va] D Hm H. destruct (mode_axes m) as [n|] eqn:En.
    - destruct (Va m (PArr a) (repeat (Z.of_nat N) n ++ repeat (Z.of_nat A) (surface_axes Coupled m))) as (a0 & E0 & Sh); auto.
      { unfold spec_shape. rewrite En. auto. }
      injection E0 as <-. exists n. split; auto. split; [|eapply D; eauto].
      apply map_of_nat_inj. rewrite Sh, map_app, map_repeat_. f_equal. destruct m; try discriminate; auto. exfalso. cbn in Hm. intuition discriminate.
    - exfalso. destruct m; try discriminate; cbn in Hm; intuition discriminate.
  Qed.
  Lemma valid_has A N d m v : valid vint Coupled (Z.of_nat A) (Z.of_nat N) d -> In m surface_params -> has d (KV m) v -> exists a, v = PArr a.
  Proof.
    intros [_ Va] Hm H. destruct (spec_shape Coupled (Z.of_nat A) (Z.of_nat N) m) as [s|] eqn:Es.
    - destruct (Va m v s H Es) as (a & -> & _). eauto.
    - destruct m; try discriminate; cbn in Hm; exfalso; intuition discriminate.
  Qed.

  Lemma modes_iff A N d : dict_ok d -> valid vint Coupled (Z.of_nat A) (Z.of_nat N) d ->
    exists c, symmetric_in_modes zero vint close d = Ok c /\ (c = true <-> mode_close close d).
  Proof.
    intros D Va. unfold symmetric_in_modes.
    assert (verify vint Coupled d = Ok tt) as ->. { apply verify_spec; [apply D|]. eauto. }
    cbn [bind].
    assert (exists c, modes_check zero close d G2_ (swap 0 1) = Ok c /\ (c = true <-> forall a i j x y u v, has d (KV G2_) (PArr a) ->
       aget a [i; j; x; y] = Some u -> aget a [j; i; x; y] = Some v -> close u v = true)) as (c2 & -> & H2).
    { unfold modes_check. destruct (mget d (KV G2_)) as [v|] eqn:Eg.
      - apply mget_has in Eg; [|apply D]. destruct (valid_has A N d G2_ v Va) as [a ->]; auto. { cbn; tauto. }
        destruct (valid_marr A N d G2_ a Va D) as (n & Hn & Hs & Wa); auto. { cbn; tauto. } injection Hn as <-. cbn in Hs.
        rewrite Hs. cbn -[np_allclose transpose]. set (t := transpose zero _ a).
        assert (Ht : shape t = shape a /\ forall i j x y, inb (shape a) [i; j; x; y] -> aget t [i; j; x; y] = aget a [j; i; x; y]).
        { unfold t, transpose. rewrite Hs. cbn [map nth]. split; [reflexivity|]. intros i j x y Hi. rewrite aget_abuild by exact Hi. inbs. cbn.
          symmetry; apply aget_getd; auto; rewrite Hs; inb_solve. }
        destruct Ht as [Ts Tg]. destruct (allclose_iff close a t) as (c & -> & Hc); auto. { apply wf_abuild. }
        exists c. split; auto. rewrite Hc. split.
        + intros H a0 i j x y u v Ha0 Hu Hv. assert (PArr a0 = PArr a) as Eq by (eapply has_fun; [apply D| |]; eauto). injection Eq as ->.
          apply (H [i; j; x; y]); auto. rewrite Tg; auto. eapply aget_inb; eauto.
        + intros H idx u v Hu Hv. pose proof (aget_inb _ _ _ Hu) as Hi. pose proof Hi as Hi0. rewrite Hs in Hi. inbs. rewrite Tg in Hv by auto. eapply H; eauto.
      - exists true. split; auto. split; auto. intros _ a i j x y u v Ha. exfalso. apply mget_has in Ha; [congruence|apply D]. }
    cbn [bind].
    assert (exists c, modes_check zero close d G4_ (fun l => swap 2 3 (swap 0 1 l)) = Ok c /\ (c = true <-> forall a i j k l x y u v, has d (KV G4_) (PArr a) ->
       aget a [i; j; k; l; x; y] = Some u -> aget a [j; i; l; k; x; y] = Some v -> close u v = true)) as (c4 & E4 & H4).
    { unfold modes_check. destruct (mget d (KV G4_)) as [v|] eqn:Eg.
      - apply mget_has in Eg; [|apply D]. destruct (valid_has A N d G4_ v Va) as [a ->]; auto. { cbn; tauto. }
        destruct (valid_marr A N d G4_ a Va D) as (n & Hn & Hs & Wa); auto. { cbn; tauto. } injection Hn as <-. cbn in Hs.
        rewrite Hs. cbn -[np_allclose transpose]. set (t := transpose zero _ a).
        assert (Ht : shape t = shape a /\ forall i j k l x y, inb (shape a) [i; j; k; l; x; y] -> aget t [i; j; k; l; x; y] = aget a [j; i; l; k; x; y]).
        { unfold t, transpose. rewrite Hs. cbn [map nth]. split; [reflexivity|]. intros i j k l x y Hi. rewrite aget_abuild by exact Hi. inbs. cbn.
          symmetry; apply aget_getd; auto; rewrite Hs; inb_solve. }
        destruct Ht as [Ts Tg]. destruct (allclose_iff close a t) as (c & -> & Hc); auto. { apply wf_abuild. }
        exists c. split; auto. rewrite Hc. split.
        + intros H a0 i j k l x y u v Ha0 Hu Hv. assert (PArr a0 = PArr a) as Eq by (eapply has_fun; [apply D| |]; eauto). injection Eq as ->.
          apply (H [i; j; k; l; x; y]); auto. rewrite Tg; auto. eapply aget_inb; eauto.
        + intros H idx u v Hu Hv. pose proof (aget_inb _ _ _ Hu) as Hi. pose proof Hi as Hi0. rewrite Hs in Hi. inbs. rewrite Tg in Hv by auto. eapply H; eauto.
      - exists true. split; auto. split; auto. intros _ a i j k l x y u v Ha. exfalso. apply mget_has in Ha; [congruence|apply D]. }
    destruct c2.
    - exists c4. split; auto. unfold mode_close. rewrite H4. split; [intros H; split; auto; apply H2; auto|intros [_ H]; auto].
    - exists false. split; auto. split; [discriminate|]. intros [H _]. apply H2; auto.
  Qed.

  (** ** The transformed dictionary *)
  Record rot_dict (A : nat) (M : nat -> nat -> V) (d d1 : mdict V) : Prop := {
    rd_keys : map fst d1 = map fst d;
    rd_same : forall k, (forall m, In m surface_params -> k <> KV m) -> mget d1 k = mget d k;
    rd_upd : forall m, In m surface_params -> upd_ok zero add mul A M (mget d (KV m)) (mget d1 (KV m)) }.

  Lemma rotate_model_ok A N U M d : is_matrix A U M -> dict_ok d -> valid vint Coupled (Z.of_nat A) (Z.of_nat N) d ->
    exists d1, rotate_model U (Z.of_nat N) d = Ok d1 /\ rot_dict A M d d1.
  Proof.
    intros HU D Va. destruct (rotate_loop zero one add mul sub opp isz vint close RT close_refl A N U M key_list HU d) as (d1 & E & K & O & U').
    - unfold key_list. repeat constructor; cbn; intuition discriminate.
    - auto.
    - intros m v Hm Hg. apply mget_has in Hg; [|apply D]. destruct (valid_has A N d m v Va Hm Hg) as [a ->]. exists a. split; auto. eapply valid_marr; eauto.
    - exists d1. split; [exact E|]. split; auto.
  Qed.

  Section RotDict.
    Variables (A N : nat) (M : nat -> nat -> V) (d d1 : mdict V).
    Hypothesis (R : rot_dict A M d d1) (D : dict_ok d) (Va : valid vint Coupled (Z.of_nat A) (Z.of_nat N) d) (K : known_keys d) (S : serialisable d).

    Lemma rd_has m v : has d1 (KV m) v -> In m surface_params -> exists a a', has d (KV m) (PArr a) /\ v = PArr a' /\ rotated A M a a'.
    Proof.
      intros H Hm. apply mget_has in H; [|rewrite (rd_keys _ _ _ _ R); apply D].
      pose proof (rd_upd _ _ _ _ R m Hm) as Hu. rewrite H in Hu. destruct (mget d (KV m)) as [[| |a| |]|] eqn:E; cbn in Hu; try contradiction; try discriminate.
      destruct Hu as (a' & E' & Hr). injection E' as ->. exists a, a'. split; auto. apply mget_has; auto. apply D.
    Qed.
    Lemma rd_has_back m a : has d (KV m) (PArr a) -> In m surface_params -> exists a', has d1 (KV m) (PArr a') /\ rotated A M a a'.
    Proof.
      intros H Hm. apply mget_has in H; [|apply D].
      pose proof (rd_upd _ _ _ _ R m Hm) as Hu. rewrite H in Hu. cbn in Hu. destruct Hu as (a' & E & Hr). exists a'. split; auto.
      apply mget_has; auto. rewrite (rd_keys _ _ _ _ R); apply D.
    Qed.
    Lemma rd_other k v : (forall m, In m surface_params -> k <> KV m) -> (has d1 k v <-> has d k v).
    Proof.
      intros H. rewrite <- !mget_has; [|apply D|rewrite (rd_keys _ _ _ _ R); apply D]. rewrite (rd_same _ _ _ _ R k H). tauto.
    Qed.
    Lemma surf_dec m : In m surface_params \/ (forall m', In m' surface_params -> KV m <> KV m').
    Proof. destruct m; try (left; cbn; tauto); right; intros m' Hm' [= <-]; cbn in Hm'; intuition discriminate. Qed.
    Lemma rd_known : known_keys d1.
    Proof.
      intros k v H. apply (in_map fst) in H. cbn in H. rewrite (rd_keys _ _ _ _ R) in H. apply in_map_iff in H. destruct H as ([k0 v0] & E & H). cbn in E. subst. eapply K; eauto.
    Qed.
    Lemma rd_ok : dict_ok d1.
    Proof.
      split; [rewrite (rd_keys _ _ _ _ R); apply D|]. intros k a H. destruct (rd_known k _ H) as [m ->]. destruct (surf_dec m) as [Hm|Hm].
      - destruct (rd_has m _ H Hm) as (a0 & a' & _ & E & Hr). injection E as ->. apply Hr.
      - apply rd_other in H; auto. eapply D; eauto.
    Qed.
    Lemma rd_ser : serialisable d1.
    Proof.
      intros k v H. destruct (rd_known k _ H) as [m ->]. destruct (surf_dec m) as [Hm|Hm].
      - destruct (rd_has m _ H Hm) as (a0 & a' & _ & -> & Hr). discriminate.
      - apply rd_other in H; auto. eapply S; eauto.
    Qed.
    Lemma rd_valid : valid vint Coupled (Z.of_nat A) (Z.of_nat N) d1.
    Proof.
      destruct Va as [[(vN & HN & IN) (vA & HA & IA)] Vs]. split.
      - split; [exists vN|exists vA]; (split; [apply rd_other; auto|auto]); intros m Hm [= <-]; cbn in Hm; intuition discriminate.
      - intros m v s H Es. destruct (surf_dec m) as [Hm|Hm].
        + destruct (rd_has m _ H Hm) as (a0 & a' & H0 & -> & Hr). exists a'. split; auto. destruct (Vs m _ s H0 Es) as (x & Ex & Sh). injection Ex as <-.
          destruct Hr as (Hr & _). rewrite Hr. auto.
        + apply rd_other in H; auto. eapply Vs; eauto.
    Qed.
  End RotDict.

  Lemma reads_has (d : mdict V) m idx x a : dict_ok d -> reads zero d m idx x -> has d (KV m) (PArr a) -> aget a idx = Some x.
  Proof.
    intros D [a' v H E|H] Ha; [|exfalso; eapply H; eauto]. assert (PArr a = PArr a') as Eq by (eapply has_fun; [apply D| |]; eauto). congruence.
  Qed.
  Lemma reads_none (d : mdict V) m idx x : reads zero d m idx x -> (forall v, ~ has d (KV m) v) -> x = zero.
  Proof. intros [a' v H E|H] Hn; auto. exfalso. eapply Hn; eauto. Qed.
  Lemma all_zero a idx x : ~ some_nonzero isz a -> aget a idx = Some x -> x = zero.
  Proof.
    intros H E. apply isz_zero. destruct (isz x) eqn:Ez; auto. exfalso. apply H. exists x. split; auto.
    unfold aget in E. destruct (offset (shape a) idx); [|discriminate]. eapply nth_error_In; eauto.
  Qed.
  Lemma nonzero_dec (a : arr V) : some_nonzero isz a \/ ~ some_nonzero isz a.
  Proof. destruct (any_nonzero isz a) eqn:E; [left|right]; rewrite <- any_nonzero_spec, E; [auto|discriminate]. Qed.

  Lemma has_dec (d : mdict V) k : dict_ok d -> (exists v, has d k v) \/ (forall v, ~ has d k v).
  Proof.
    intros D. destruct (mget d k) as [v|] eqn:E.
    - left. exists v. apply mget_has; [apply D|auto].
    - right. intros v H. apply mget_has in H; [congruence|apply D].
  Qed.

  Lemma conjugated_saved A N M d d1 d' : rot_dict A M d d1 -> dict_ok d -> known_keys d -> serialisable d -> valid vint Coupled (Z.of_nat A) (Z.of_nat N) d ->
    dict_ok d' -> valid vint Coupled (Z.of_nat A) (Z.of_nat N) d' -> roundtrip zero isz (Z.of_nat A) d1 d' ->
    conjugated zero add mul A N M d d'.
  Proof.
    intros R D K S Va D' Va' RT'.
    assert (D1 : dict_ok d1) by (eapply rd_ok; eauto).
    assert (Hother : forall m v, In m [N_; A_; w_] -> (has d1 (KV m) v <-> has d (KV m) v)).
    { intros m v Hm. eapply rd_other; eauto. intros m' Hm' [= <-]. cbn in Hm, Hm'. intuition (subst; discriminate). }
    assert (Hdims : forall m v, In m [N_; A_] -> (has d' (KV m) v <-> has d (KV m) v)).
    { intros m v Hm. rewrite (RT' m v). assert (m <> E_) as HmE by (cbn in Hm; intuition (subst; discriminate)). split.
      - intros [[H _]|[H' _]]; [|contradiction]. apply Hother in H; auto. cbn in Hm |- *. tauto.
      - intros H. left. split; [apply Hother; auto; cbn in Hm |- *; tauto|]. intros a ->. exfalso.
        destruct Va as [[(vN & HN & IN) (vA & HA & IA)] _]. cbn in Hm. destruct Hm as [<-|[<-|[]]].
        + assert (PArr a = vN) as <- by (eapply has_fun; [apply D| |]; eauto). inversion IN.
        + assert (PArr a = vA) as <- by (eapply has_fun; [apply D| |]; eauto). inversion IA. }
    split; [intros v; apply Hdims; cbn; tauto|]. split; [intros v; apply Hdims; cbn; tauto|]. split.
    - intros idx x Hi.
      assert (Hw : forall a, has d (KV w_) (PArr a) -> exists x, aget a idx = Some x).
      { intros a Ha. destruct Va as [_ Vs]. destruct (Vs w_ _ _ Ha eq_refl) as (a0 & E0 & Sh). injection E0 as <-.
        apply aget_some; [eapply D; eauto|]. replace (shape a) with [N]; auto. symmetry. apply map_of_nat_inj. exact Sh. }
      assert (Hwv : forall v, has d (KV w_) v -> exists a, v = PArr a).
      { intros v Ha. destruct Va as [_ Vs]. destruct (Vs w_ _ _ Ha eq_refl) as (a0 & E0 & _). eauto. }
      assert (Hh : forall v, has d' (KV w_) v <-> has d (KV w_) v /\ forall a, v = PArr a -> some_nonzero isz a).
      { intros v. rewrite (RT' w_ v). rewrite Hother by (cbn; tauto). split; [intros [H|[H _]]; [auto|discriminate]|auto]. }
      destruct (has_dec d (KV w_) D) as [[v Hv]|Hv].
      + destruct (Hwv v Hv) as [a ->]. destruct (Hw a Hv) as [y Hy]. destruct (nonzero_dec a) as [Hn|Hn].
        * assert (has d' (KV w_) (PArr a)) as Hv' by (apply Hh; split; auto; intros ? [= <-]; auto). split; intros H.
          -- econstructor; eauto. eapply reads_has; [exact D'| |]; eauto.
          -- econstructor; eauto. eapply reads_has; [exact D| |]; eauto.
        * pose proof (all_zero a idx y Hn Hy) as ->.
          assert (forall v, ~ has d' (KV w_) v) as Hno.
          { intros v H. apply Hh in H. destruct H as [H1 H2]. assert (PArr a = v) as <- by (eapply has_fun; [apply D| |]; eauto). apply Hn. auto. }
          split; intros H.
          -- rewrite (reads_none d' w_ idx x H Hno). econstructor; eauto.
          -- assert (aget a idx = Some x) as E by (eapply reads_has; [exact D| |]; eauto). rewrite Hy in E. injection E as <-. constructor; auto.
      + assert (forall v, ~ has d' (KV w_) v) as Hno by (intros v H; apply Hh in H; apply (Hv v); tauto).
        split; intros H; [rewrite (reads_none d' w_ idx x H Hno)|rewrite (reads_none d w_ idx x H Hv)]; constructor; auto.
    - intros m n pre X b c Hm Hn Hp HX Hb Hc.
      assert (Hinb : forall a : arr V, marr_ok A N m a -> inb (shape a) (pre ++ [b; c]) /\ forall j k, j < A -> k < A -> inb (shape a) (pre ++ [j; k])).
      { intros a (n0 & E0 & Sh & _). rewrite Hn in E0. injection E0 as <-. rewrite Sh.
        assert (length pre = length (repeat N n)) as L by (apply (Forall2_length lt); auto).
        split; [|intros j k Hj Hk]; (apply inb_split; auto; split; auto; inb_solve). }
      assert (Hcase : (exists a', has d1 (KV m) (PArr a') /\ marr_ok A N m a' /\ aget a' (pre ++ [b; c]) = Some (conjugate A M X b c)) \/
                      ((forall v, ~ has d1 (KV m) v) /\ conjugate A M X b c = zero)).
      { destruct (has_dec d (KV m) D) as [[v Hv]|Hv].
        - left. destruct (valid_has A N d m v Va Hm Hv) as [a ->]. destruct (rd_has_back A M d d1 R D m a Hv Hm) as (a' & Ha' & Hr).
          pose proof (valid_marr A N d m a Va D Hm Hv) as Ma. exists a'. split; auto. destruct Hr as (Hr1 & Hr2 & Hr3).
          assert (marr_ok A N m a') as Ma' by (destruct Ma as (n0 & E0 & Sh & W); exists n0; split; auto; split; auto; congruence). split; auto.
          rewrite (aget_getd zero) by (auto; apply Hinb; auto). f_equal. rewrite Hr3 by (apply Hinb; auto).
          apply (conj_ext zero add mul). intros j k Hj Hk.
          assert (aget a (pre ++ [j; k]) = Some (X j k)) as E by (eapply reads_has; [exact D|apply HX; auto|auto]). unfold Create_Model.getd. rewrite E. auto.
        - right. split.
          + intros v H. destruct (rd_has A M d d1 R D m v H Hm) as (a & a' & H0 & _). eapply Hv; eauto.
          + rewrite (conj_ext zero add mul A M X (fun _ _ => zero)); [eapply conj_zero; eauto|]. intros j k Hj Hk. eapply reads_none; eauto. }
      destruct Hcase as [(a' & Ha' & Ma' & Eg)|[Hno Ez]].
      + destruct (nonzero_dec a') as [Hz|Hz].
        * econstructor; [apply RT'; left; split; [exact Ha'|intros a [= <-]; auto]|auto].
        * rewrite (all_zero _ _ _ Hz Eg). destruct (has_dec d' (KV m) D') as [[v Hv]|Hv]; [|constructor; auto].
          pose proof Hv as Hv0. apply RT' in Hv. destruct Hv as [[Hv Hv2]|(-> & _ & z & -> & Wz & Sz & Hzz)].
          -- exfalso. assert (PArr a' = v) as <- by (eapply has_fun; [apply D1| |]; eauto). apply Hz. auto.
          -- econstructor; [exact Hv0|]. rewrite Nat2Z.id in Sz. injection Hn as <-. inversion Hp; subst. cbn [app].
             destruct (aget_some z [b; c] Wz) as [y Hy]; [rewrite Sz; inb_solve|]. rewrite Hy. f_equal. apply Hzz.
             unfold aget in Hy. destruct (offset (shape z) [b; c]); [|discriminate]. eapply nth_error_In; eauto.
      + rewrite Ez. destruct (has_dec d' (KV m) D') as [[v Hv]|Hv]; [|constructor; auto].
        pose proof Hv as Hv0. apply RT' in Hv. destruct Hv as [[Hv Hv2]|(-> & _ & z & -> & Wz & Sz & Hzz)].
        * exfalso. eapply Hno; eauto.
        * econstructor; [exact Hv0|]. rewrite Nat2Z.id in Sz. injection Hn as <-. inversion Hp; subst. cbn [app].
          destruct (aget_some z [b; c] Wz) as [y Hy]; [rewrite Sz; inb_solve|]. rewrite Hy. f_equal. apply Hzz.
          unfold aget in Hy. destruct (offset (shape z) [b; c]); [|discriminate]. eapply nth_error_In; eauto.
  Qed.

  (** ** The run *)
  Lemma load_new_ext (f g : fs V) path k : f path = g path -> load_new zero vint k f path = load_new zero vint k g path.
  Proof. intros H. unfold load_new, load_raw, read_json. rewrite H. auto. Qed.

  Definition supplied (gen : Z -> res (arr V)) (f : fs V) (ortho : string) (A : nat) (M : nat -> nat -> V) (u : matrix_arg V) (Ua : arr V) : Prop :=
    (u = MNone /\ gen (Z.of_nat A) = Ok Ua) \/ (u = MStr "re-use" /\ f ortho = Some (CNpy Ua)) \/
    (u = MArr Ua /\ row_orthonormal zero one add mul A M).
  Lemma supplied_ok gen f ortho A M u Ua : supplied gen f ortho A M u Ua -> is_matrix A Ua M ->
    obtain_matrix (gen (Z.of_nat A)) f ortho (Z.of_nat A) u = Ok Ua.
  Proof.
    intros [[-> H]|[[-> H]|[-> H]]] HU.
    - exact H.
    - cbn. unfold np_load. rewrite H. auto.
    - eapply obtain_given; eauto.
  Qed.

  Lemma prepare_ok gen f vib ortho u d A N Ua M :
    (forall o, f vib = Some (CJson o) -> NoDup (map fst o)) -> load_new zero vint Coupled f vib = Ok d ->
    valid vint Coupled (Z.of_nat A) (Z.of_nat N) d -> surface_close close d -> mode_close close d ->
    obtain_matrix (gen (Z.of_nat A)) f ortho (Z.of_nat A) u = Ok Ua -> is_matrix A Ua M ->
    exists d1, prepare_fake gen f vib ortho u = Ok (d1, Ua) /\ rot_dict A M d d1.
  Proof.
    intros HND HL Va Hs Hm HO HU. destruct (load_new_inv _ _ _ _ _ _ HND HL) as (D & K & S & _).
    unfold prepare_fake.
    assert (exists c, f vib = Some c) as [c Hc].
    { unfold load_new, load_raw, read_json in HL. destruct (f vib); [eauto|discriminate]. }
    rewrite Hc. cbn [passert bind]. rewrite HL. cbn [bind].
    rewrite (proj2 (extract_dims_spec vint _ _ _ (proj1 D)) (proj1 Va)). cbn [bind fst snd]. rewrite HO. cbn [bind].
    destruct (surfaces_iff zero isz vint close A N d D Va K) as (c1 & -> & H1). rewrite (proj2 H1 Hs). cbn [bind passert].
    destruct (modes_iff A N d D Va) as (c2 & -> & H2). rewrite (proj2 H2 Hm). cbn [bind passert].
    destruct (rotate_model_ok A N Ua M d HU D Va) as (d1 & E & R). exists d1. split; auto.
    cbn [bind]. rewrite E. auto.
  Qed.

  Theorem fake_run gen f vib orig ortho u d A N Ua M :
    vib <> orig -> vib <> ortho -> orig <> ortho ->
    (forall o, f vib = Some (CJson o) -> NoDup (map fst o)) -> load_new zero vint Coupled f vib = Ok d ->
    valid vint Coupled (Z.of_nat A) (Z.of_nat N) d -> surface_close close d -> mode_close close d ->
    is_matrix A Ua M -> supplied gen f ortho A M u Ua ->
    exists f' d', create_fake gen f vib orig ortho u = (f', Ok tt) /\
      f' orig = f vib /\ f' ortho = Some (CNpy Ua) /\ (forall q, q <> vib -> q <> orig -> q <> ortho -> f' q = f q) /\
      load_new zero vint Coupled f' vib = Ok d' /\ dict_ok d' /\ known_keys d' /\ valid vint Coupled (Z.of_nat A) (Z.of_nat N) d' /\
      (forall o, f' vib = Some (CJson o) -> NoDup (map fst o)) /\
      conjugated zero add mul A N M d d'.
  Proof.
    intros N1 N2 N3 HND HL Va Hs Hm HU HS. destruct (load_new_inv _ _ _ _ _ _ HND HL) as (D & K & S & _).
    destruct (prepare_ok gen f vib ortho u d A N Ua M HND HL Va Hs Hm) as (d1 & E & R); auto. { eapply supplied_ok; eauto. }
    assert (exists c, f vib = Some c) as [c Hc].
    { unfold load_new, load_raw, read_json in HL. destruct (f vib); [eauto|discriminate]. }
    set (f1 := fs_write f orig c).
    assert (D1 : dict_ok d1) by (eapply rd_ok; eauto). assert (K1 : known_keys d1) by (eapply rd_known; eauto).
    assert (S1 : serialisable d1) by (eapply rd_ser; eauto). assert (V1 : valid vint Coupled (Z.of_nat A) (Z.of_nat N) d1) by (eapply rd_valid; eauto).
    destruct (save_load_coupled zero (isz := isz) (fun _ => zero) f1 vib D1 K1 S1 V1) as (f2 & d' & Es & Ho & El & D' & V' & K' & RT'). { left. lia. }
    exists (fs_write f2 ortho (CNpy Ua)), d'.
    assert (Hver : verify vint Coupled d1 = Ok tt) by (apply verify_spec; [apply D1|eauto]).
    assert (Esr : save_raw isz f1 vib d1 = (f2, Ok tt)) by (unfold save in Es; rewrite Hver in Es; auto).
    split.
    { unfold Create_Model.create_fake, Create_Model.create_fake_trace. rewrite E. unfold copy_trace, copyfile. rewrite Hc. destruct (String.eqb_spec vib orig); [contradiction|].
      cbn [then_ last]. fold f1. unfold save_trace. rewrite Hver, Esr. cbn [then_ last npsave_trace app]. reflexivity. }
    assert (HW : forall q x (g : fs V), fs_write g q x q = Some x) by (intros; unfold fs_write; rewrite String.eqb_refl; auto).
    assert (HWo : forall q p x (g : fs V), q <> p -> fs_write g p x q = g q) by (intros; unfold fs_write; destruct (String.eqb_spec q p); congruence).
    split. { rewrite HWo by auto. rewrite Ho by auto. unfold f1. rewrite HW. auto. }
    split. { apply HW. }
    split. { intros q H1 H2 H3. rewrite HWo, Ho by auto. unfold f1. apply HWo; auto. }
    split. { rewrite (load_new_ext _ f2); auto. }
    split; auto. split; auto. split; auto. split.
    - rewrite HWo by auto. unfold save_raw in Esr. destruct (dumps _) as [o|] eqn:Ed; [|discriminate]. injection Esr as <-.
      intros o0 H0. rewrite HW in H0. injection H0 as <-.
      destruct (known_kv K1) as [l ->]. rewrite enum_to_string_kv in Ed by (apply NoDup_kv; apply D1).
      rewrite (dumps_strip isz l) in Ed.
      + injection Ed as <-. rewrite map_map. cbn. rewrite <- (map_map fst vmk_value). apply FinFun.Injective_map_NoDup.
        * intros x y. apply vmk_value_inj.
        * apply enc_all_NoDup. apply NoDup_kv. apply D1.
      + intros m v Hin. apply (S1 (KV m) v). apply has_kv. auto.
    - eapply conjugated_saved; eauto.
  Qed.

  (** ** Crashes *)
  Theorem trace_recoverable gen f vib orig ortho u c s : vib <> orig -> orig <> ortho -> f vib = Some c ->
    In s (f :: fst (create_fake_trace gen f vib orig ortho u)) -> s vib = Some c \/ s orig = Some c.
  Proof.
    intros N1 N3 Hc [<-|Hin]; [auto|]. unfold Create_Model.create_fake_trace in Hin.
    destruct (prepare_fake gen f vib ortho u) as [[d1 Ua]|]; [|destruct Hin].
    unfold copy_trace, copyfile in Hin. rewrite Hc in Hin. destruct (String.eqb_spec vib orig); [contradiction|].
    cbn [then_ last] in Hin. set (f1 := fs_write f orig c) in *.
    assert (HW : forall q x (g : fs V), fs_write g q x q = Some x) by (intros; unfold fs_write; rewrite String.eqb_refl; auto).
    assert (HWo : forall q p x (g : fs V), q <> p -> fs_write g p x q = g q) by (intros; unfold fs_write; destruct (String.eqb_spec q p); congruence).
    unfold save_trace in Hin. destruct (verify vint Coupled d1).
    2:{ cbn in Hin. destruct Hin as [<-|[<-|[]]]; [left; rewrite HWo; auto|left; unfold f1; rewrite HWo; auto]. }
    assert (Hsr : forall f2 r, save_raw isz f1 vib d1 = (f2, r) -> f2 orig = Some c).
    { intros f2 r. unfold save_raw. destruct (dumps _); intros [= <- <-]; rewrite ?HWo; auto; apply HW. }
    destruct (save_raw isz f1 vib d1) as [f2 r] eqn:Esr. specialize (Hsr _ _ eq_refl).
    assert (Hin' : s = fs_write f orig CText \/ s = f1 \/ s = fs_write f1 vib CText \/ s = f2 \/ s = fs_write f2 ortho CText \/ s = fs_write f2 ortho (CNpy Ua)).
    { destruct r; cbn in Hin; intuition. }
    destruct Hin' as [->|[->|[->|[->|[->| ->]]]]].
    - left. rewrite HWo; auto.
    - left. unfold f1. rewrite HWo; auto.
    - right. rewrite HWo by auto. apply HW.
    - right. auto.
    - right. rewrite HWo; auto.
    - right. rewrite HWo; auto.
  Qed.

  (** a run that does not get as far as writing leaves every file as it was *)
  Theorem failed_early gen f vib orig ortho u e : prepare_fake gen f vib ortho u = Raise e ->
    create_fake gen f vib orig ortho u = (f, Raise e) /\ fst (create_fake_trace gen f vib orig ortho u) = [].
  Proof. intros H. unfold Create_Model.create_fake, Create_Model.create_fake_trace. rewrite H. auto. Qed.
End Run.
