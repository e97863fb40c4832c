(** Proofs about Create_Model.v: consequences for the transformed model, several
    runs, rejected inputs. *)
From Coq Require Import Ring_theory Ring.
From Verif Require Import Common Common_Proofs Arr_Model Arr_Proofs ModelIO_Model ModelIO_Spec ModelIO_Proofs ModelIO2_Proofs SameModel_Model SameModel_Proofs Create_Model Create_Spec Create_Proofs Create2_Proofs Create3_Proofs.
Local Open Scope nat_scope.

Section Conseq.
  Context {V : Type}.
  Variables (zero one : V) (add mul sub : V -> V -> V) (opp : V -> V).
  Variable isz : V -> bool.
  Variable vint : V -> res Z.
  Variable close : V -> V -> bool.
  Hypothesis RT : ring_theory zero one add mul sub opp eq.
  Hypothesis close_refl : forall x, close x x = true.
  Hypothesis isz_zero : forall x, isz x = true <-> x = zero.
  Notation getd := (getd zero).
  Notation conjugate := (conjugate zero add mul).
  Notation conjugated := (conjugated zero add mul).
  Notation reads := (reads zero).
  Notation create_fake := (create_fake zero one add mul isz vint close).
  Notation create_fake_trace := (create_fake_trace zero one add mul isz vint close).
  Notation prepare_fake := (prepare_fake zero one add mul vint close).
  Notation obtain_matrix := (obtain_matrix zero one add mul close).
  Notation load := (load_new zero vint Coupled).
  Notation bsum := (bsum zero add).

  Ltac inbs := repeat match goal with
    | H : inb (_ :: _) _ |- _ => inversion H; subst; clear H
    | H : Forall2 lt _ (_ :: _) |- _ => inversion H; subst; clear H
    | H : inb [] _ |- _ => inversion H; subst; clear H
    | H : Forall2 lt _ [] |- _ => inversion H; subst; clear H
    end.
  Ltac inb_solve := unfold inb; repeat (constructor; auto).

  Lemma reads_fun (d : mdict V) m idx x y : dict_ok d -> reads d m idx x -> reads d m idx y -> x = y.
  Proof.
    intros D H1 H2. destruct H1 as [a x Ha Hx|Hn], H2 as [b y Hb Hy|Hn']; auto.
    - assert (PArr a = PArr b) as E by (eapply has_fun; [apply D| |]; eauto). injection E as <-. congruence.
    - exfalso. eapply Hn'; eauto.
    - exfalso. eapply Hn; eauto.
  Qed.

  Lemma reads_matrix A N (d : mdict V) m n pre : dict_ok d -> valid vint Coupled (Z.of_nat A) (Z.of_nat N) d ->
    In m surface_params -> mode_axes m = Some n -> inb (repeat N n) pre ->
    exists X, forall j k, j < A -> k < A -> reads d m (pre ++ [j; k]) (X j k).
  Proof.
    intros D Va Hm Hn Hp. destruct (mget d (KV m)) as [v|] eqn:Eg.
    - apply mget_has in Eg; [|apply D]. destruct (valid_has zero vint A N d m v Va) as [a ->]; auto.
      destruct (valid_marr zero vint A N d m a Va D) as (n' & Hn' & Hs & Wa); auto. assert (n' = n) as -> by congruence.
      exists (fun j k => getd a (pre ++ [j; k])). intros j k Hj Hk. apply reads_arr with a; auto.
      apply get_getd; auto. rewrite Hs. apply inb_split; [apply (Forall2_length lt); auto|]. split; auto. inb_solve.
    - exists (fun _ _ => zero). intros j k _ _. apply reads_missing. intros v Hv. apply mget_has in Hv; [congruence|apply D].
  Qed.

  (** surface symmetry in terms of the numbers *)
  Definition sym_reads A N (d : mdict V) : Prop := forall m n pre b c x, In m surface_params -> mode_axes m = Some n -> inb (repeat N n) pre ->
    b < A -> c < A -> reads d m (pre ++ [b; c]) x -> reads d m (pre ++ [c; b]) x.
  Lemma symmetric_reads A N d : surface_symmetric d -> sym_reads A N d.
  Proof.
    intros H m n pre b c x Hm _ _ _ _ [a y Ha Hy|Hn].
    - apply reads_arr with a; auto. rewrite <- (H m a pre b c); auto.
    - apply reads_missing. auto.
  Qed.
  Lemma reads_symmetric A N d : dict_ok d -> valid vint Coupled (Z.of_nat A) (Z.of_nat N) d -> sym_reads A N d -> surface_symmetric d.
  Proof.
    intros D Va H m a pre i j Hm Ha. destruct (valid_marr zero vint A N d m a Va D) as (n & Hn & Hs & Wa); auto.
    destruct (Nat.eq_dec (length pre) n) as [L|L].
    2:{ rewrite !aget_none; auto; intros Hq; apply (Forall2_length lt) in Hq; rewrite Hs, !app_length, repeat_length in Hq; cbn in Hq; lia. }
    destruct (inb_dec (repeat N n) pre) as [Hp|Hp].
    2:{ rewrite !aget_none; auto; rewrite Hs; rewrite inb_split by (rewrite repeat_length; auto); tauto. }
    destruct (lt_dec i A) as [Hi|Hi]; [destruct (lt_dec j A) as [Hj|Hj]|].
    2,3: rewrite !aget_none; auto; rewrite Hs; rewrite inb_split by (rewrite repeat_length; auto); intros [_ Hq]; inbs; lia.
    assert (Hin : inb (shape a) (pre ++ [i; j])). { rewrite Hs. apply inb_split; [rewrite repeat_length; auto|]. split; auto. inb_solve. }
    destruct (aget_some a _ Wa Hin) as [x Hx]. rewrite Hx. assert (R : reads d m (pre ++ [i; j]) x) by (apply reads_arr with a; auto).
    apply (H m n pre i j x Hm Hn Hp Hi Hj) in R. destruct R as [b y Hb Hy|Hn'].
    - assert (PArr a = PArr b) as E by (eapply has_fun; [apply D| |]; eauto). injection E as <-. auto.
    - exfalso. eapply Hn'; eauto.
  Qed.

  Theorem conjugated_symmetric A N M d d' : dict_ok d -> valid vint Coupled (Z.of_nat A) (Z.of_nat N) d -> dict_ok d' -> valid vint Coupled (Z.of_nat A) (Z.of_nat N) d' ->
    conjugated A N M d d' -> surface_symmetric d -> surface_symmetric d'.
  Proof.
    intros D Va D' Va' HC HS. apply (reads_symmetric A N); auto. apply (symmetric_reads A N) in HS.
    intros m n pre b c x Hm Hn Hp Hb Hc R. destruct HC as (_ & _ & _ & HC).
    destruct (reads_matrix A N d m n pre) as [X HX]; auto.
    pose proof (HC m n pre X b c Hm Hn Hp HX Hb Hc) as R1. pose proof (HC m n pre X c b Hm Hn Hp HX Hc Hb) as R2.
    rewrite (reads_fun d' _ _ _ _ D' R R1). rewrite (conj_symmetric zero one add mul sub opp RT); auto.
    intros j k Hj Hk. eapply reads_fun; [apply D| |]; [apply HX; auto|]. eapply HS; eauto.
  Qed.

  (** mode symmetry in terms of the numbers *)
  Lemma reads_perm A N d m n pre pre' : dict_ok d -> valid vint Coupled (Z.of_nat A) (Z.of_nat N) d -> In m surface_params -> mode_axes m = Some n ->
    inb (repeat N n) pre -> inb (repeat N n) pre' ->
    (forall a x y, has d (KV m) (PArr a) -> aget a (pre ++ [x; y]) = aget a (pre' ++ [x; y])) ->
    exists X, (forall j k, j < A -> k < A -> reads d m (pre ++ [j; k]) (X j k)) /\ (forall j k, j < A -> k < A -> reads d m (pre' ++ [j; k]) (X j k)).
  Proof.
    intros D Va Hm Hn Hp Hp' H. destruct (reads_matrix A N d m n pre) as [X HX]; auto. exists X. split; auto.
    intros j k Hj Hk. destruct (HX j k Hj Hk) as [a y Ha Hy|Hno].
    - apply reads_arr with a; auto. rewrite <- H; auto.
    - apply reads_missing; auto.
  Qed.
  Lemma moved A N d d' M m n pre pre' a x y : dict_ok d -> valid vint Coupled (Z.of_nat A) (Z.of_nat N) d -> dict_ok d' -> valid vint Coupled (Z.of_nat A) (Z.of_nat N) d' ->
    conjugated A N M d d' -> In m surface_params -> mode_axes m = Some n -> length pre = n -> length pre' = n -> (inb (repeat N n) pre <-> inb (repeat N n) pre') ->
    (forall a x y, has d (KV m) (PArr a) -> aget a (pre ++ [x; y]) = aget a (pre' ++ [x; y])) ->
    has d' (KV m) (PArr a) -> aget a (pre ++ [x; y]) = aget a (pre' ++ [x; y]).
  Proof.
    intros D Va D' Va' (_ & _ & _ & HC) Hm Hn L L' Hpp H Ha.
    destruct (valid_marr zero vint A N d' m a Va' D') as (n' & Hn' & Hs & Wa); auto. assert (n' = n) as -> by congruence.
    assert (Hin : forall p, length p = n -> inb (shape a) (p ++ [x; y]) <-> inb (repeat N n) p /\ inb [A; A] [x; y]).
    { intros p Hp. rewrite Hs. apply inb_split. rewrite repeat_length. auto. }
    destruct (inb_dec (repeat N n) pre) as [Hp|Hp]. 2:{ rewrite !aget_none; auto; rewrite Hin by auto; tauto. }
    destruct (inb_dec [A; A] [x; y]) as [Hxy|Hxy]. 2:{ rewrite !aget_none; auto; rewrite Hin by auto; tauto. }
    destruct (reads_perm A N d m n pre pre') as (X & HX & HX'); auto. { apply Hpp; auto. }
    assert (x < A /\ y < A) as [Hx Hy] by (clear - Hxy; inbs; auto). pose proof (HC m n pre X x y Hm Hn Hp HX Hx Hy) as R1. pose proof (HC m n pre' X x y Hm Hn (proj1 Hpp Hp) HX' Hx Hy) as R2.
    inversion R1 as [b1 v1 Hb1 Hv1|Hn1]; subst; [|exfalso; eapply Hn1; eauto]. inversion R2 as [b2 v2 Hb2 Hv2|Hn2]; subst; [|exfalso; eapply Hn2; eauto].
    assert (PArr a = PArr b1) as E by (eapply has_fun; [apply D'| |]; eauto). injection E as <-.
    assert (PArr a = PArr b2) as E by (eapply has_fun; [apply D'| |]; eauto). injection E as <-. congruence.
  Qed.
  Theorem conjugated_modes A N M d d' : dict_ok d -> valid vint Coupled (Z.of_nat A) (Z.of_nat N) d -> dict_ok d' -> valid vint Coupled (Z.of_nat A) (Z.of_nat N) d' ->
    conjugated A N M d d' -> mode_symmetric d -> mode_symmetric d'.
  Proof.
    intros D Va D' Va' HC [H2 H4]. split.
    - intros a i j x y Ha. apply (moved A N d d' M G2_ 2 [i; j] [j; i] a x y); auto. { cbn; auto. } { cbn. split; intros; inbs; inb_solve. } { intros; apply H2; auto. }
    - intros a i j k l x y Ha. apply (moved A N d d' M G4_ 4 [i; j; k; l] [j; i; l; k] a x y); auto. { cbn; tauto. } { cbn. split; intros HH; inbs; inb_solve. } { intros; apply H4; auto. }
  Qed.

  (** ** Trace, back transformation, identity *)
  Theorem conjugated_trace A N M d d' m n pre X Y : conjugated A N M d d' -> dict_ok d' -> row_orthonormal zero one add mul A (mtr M) ->
    In m surface_params -> mode_axes m = Some n -> inb (repeat N n) pre ->
    (forall j k, j < A -> k < A -> reads d m (pre ++ [j; k]) (X j k)) -> (forall j, j < A -> reads d' m (pre ++ [j; j]) (Y j)) ->
    bsum A Y = bsum A (fun j => X j j).
  Proof.
    intros (_ & _ & _ & HC) D' HO Hm Hn Hp HX HY. rewrite <- (conj_trace zero one add mul sub opp RT A M X HO).
    apply bsum_ext. intros i Hi. eapply reads_fun; [exact D'|apply HY; auto|]. eapply HC; eauto.
  Qed.
  Theorem conjugated_back A N M d d' d2 : conjugated A N M d d' -> conjugated A N (mtr M) d' d2 -> row_orthonormal zero one add mul A (mtr M) ->
    dict_ok d -> valid vint Coupled (Z.of_nat A) (Z.of_nat N) d ->
    (forall v, has d2 (KV N_) v <-> has d (KV N_) v) /\ (forall v, has d2 (KV A_) v <-> has d (KV A_) v) /\
    (forall idx x, inb [N] idx -> (reads d2 w_ idx x <-> reads d w_ idx x)) /\
    (forall m n idx x, In m surface_params -> mode_axes m = Some n -> inb (repeat N n ++ [A; A]) idx -> reads d m idx x -> reads d2 m idx x).
  Proof.
    intros (N1 & A1 & w1 & H1) (N2 & A2 & w2 & H2) HO D Va. split; [intros; rewrite N2; auto|]. split; [intros; rewrite A2; auto|].
    split; [intros; rewrite w2; auto|]. intros m n idx x Hm Hn Hi R.
    assert (exists pre b c, idx = pre ++ [b; c] /\ inb (repeat N n) pre /\ b < A /\ c < A) as (pre & b & c & -> & Hp & Hb & Hc).
    { destruct (Forall2_app_inv_r _ _ Hi) as (p & q & Hp & Hq & ->). inbs. eauto 10. }
    destruct (reads_matrix A N d m n pre) as [X HX]; auto. rewrite (reads_fun d _ _ _ _ D R (HX b c Hb Hc)).
    rewrite <- (conj_back zero one add mul sub opp RT A M X b c HO Hb Hc). eapply H2; eauto.
  Qed.
  Theorem conjugated_identity A N M d d' : conjugated A N M d d' -> (forall i j, i < A -> j < A -> M i j = delta zero one i j) ->
    dict_ok d -> valid vint Coupled (Z.of_nat A) (Z.of_nat N) d ->
    forall m n idx x, In m surface_params -> mode_axes m = Some n -> inb (repeat N n ++ [A; A]) idx -> reads d m idx x -> reads d' m idx x.
  Proof.
    intros (_ & _ & _ & HC) HM D Va m n idx x Hm Hn Hi R.
    assert (exists pre b c, idx = pre ++ [b; c] /\ inb (repeat N n) pre /\ b < A /\ c < A) as (pre & b & c & -> & Hp & Hb & Hc).
    { destruct (Forall2_app_inv_r _ _ Hi) as (p & q & Hp & Hq & ->). inbs. eauto 10. }
    destruct (reads_matrix A N d m n pre) as [X HX]; auto. rewrite (reads_fun d _ _ _ _ D R (HX b c Hb Hc)).
    rewrite <- (conj_identity zero one add mul sub opp RT A X b c Hb Hc).
    replace (conjugate A (delta zero one) X b c) with (conjugate A M X b c); [eapply HC; eauto|].
    unfold Create_Spec.conjugate. apply bsum_ext. intros j Hj. apply bsum_ext. intros k Hk. rewrite !HM; auto.
  Qed.

  (** ** Two runs *)
  Theorem run_and_back gen f vib orig ortho d A N Ua Ub M :
    vib <> orig -> vib <> ortho -> orig <> ortho ->
    (forall o, f vib = Some (CJson o) -> NoDup (map fst o)) -> load f vib = Ok d ->
    valid vint Coupled (Z.of_nat A) (Z.of_nat N) d -> surface_symmetric d -> mode_symmetric d ->
    is_matrix A Ua M -> is_matrix A Ub (mtr M) -> orthogonal zero one add mul A M ->
    exists f1 f2 d2, create_fake gen f vib orig ortho (MArr Ua) = (f1, Ok tt) /\ create_fake gen f1 vib orig ortho (MArr Ub) = (f2, Ok tt) /\
      load f2 vib = Ok d2 /\
      (forall v, has d2 (KV N_) v <-> has d (KV N_) v) /\ (forall v, has d2 (KV A_) v <-> has d (KV A_) v) /\
      (forall idx x, inb [N] idx -> (reads d2 w_ idx x <-> reads d w_ idx x)) /\
      (forall m n idx x, In m surface_params -> mode_axes m = Some n -> inb (repeat N n ++ [A; A]) idx -> reads d m idx x -> reads d2 m idx x).
  Proof.
    intros N1 N2 N3 HND HL Va HS HM HU HUb [HO HO']. destruct (load_new_inv _ _ _ _ _ _ HND HL) as (D & _).
    destruct (fake_run zero one add mul sub opp isz vint close RT close_refl isz_zero gen f vib orig ortho (MArr Ua) d A N Ua M) as (f1 & d1 & E1 & _ & _ & _ & L1 & D1 & K1 & V1 & ND1 & C1); auto.
    { apply surface_close_refl; auto. } { apply mode_close_refl; auto. } { right. right. auto. }
    assert (S1 : surface_symmetric d1) by (eapply (conjugated_symmetric A N M d d1); eauto).
    assert (M1 : mode_symmetric d1) by (eapply (conjugated_modes A N M d d1); eauto).
    destruct (fake_run zero one add mul sub opp isz vint close RT close_refl isz_zero gen f1 vib orig ortho (MArr Ub) d1 A N Ub (mtr M)) as (f2 & d2 & E2 & _ & _ & _ & L2 & D2 & K2 & V2 & _ & C2); auto.
    { apply surface_close_refl; auto. } { apply mode_close_refl; auto. } { right. right. auto. }
    exists f1, f2, d2. split; auto. split; auto. split; auto. eapply conjugated_back; eauto.
  Qed.

  (** ** Files *)
  Theorem others_untouched gen f vib orig ortho u s q : In s (fst (create_fake_trace gen f vib orig ortho u)) ->
    q <> vib -> q <> orig -> q <> ortho -> s q = f q.
  Proof.
    intros Hin Q1 Q2 Q3. unfold Create_Model.create_fake_trace in Hin.
    destruct (prepare_fake gen f vib ortho u) as [[d1 Ua]|]; [|destruct Hin].
    assert (HWo : forall p x (g : fs V), q <> p -> fs_write g p x q = g q) by (intros; unfold fs_write; destruct (String.eqb_spec q p); congruence).
    unfold copy_trace, copyfile in Hin. destruct (f vib) as [c|]; [|destruct Hin]. destruct (String.eqb vib orig); [destruct Hin|].
    cbn [then_ last] in Hin. set (f1 := fs_write f orig c) in *.
    assert (H1 : f1 q = f q) by (apply HWo; auto).
    unfold save_trace in Hin. destruct (verify vint Coupled d1).
    2:{ cbn in Hin. destruct Hin as [<-|[<-|[]]]; auto. }
    assert (Hsr : forall f2 r, save_raw isz f1 vib d1 = (f2, r) -> f2 q = f q).
    { intros f2 r. unfold save_raw. destruct (dumps _); intros [= <- <-]; rewrite ?HWo; auto. }
    destruct (save_raw isz f1 vib d1) as [f2 r] eqn:Esr. specialize (Hsr _ _ eq_refl).
    assert (Hin' : s = fs_write f orig CText \/ s = f1 \/ s = fs_write f1 vib CText \/ s = f2 \/ s = fs_write f2 ortho CText \/ s = fs_write f2 ortho (CNpy Ua)).
    { destruct r; cbn in Hin; intuition. }
    destruct Hin' as [->|[->|[->|[->|[->| ->]]]]]; rewrite ?HWo; auto.
  Qed.

  Theorem success_backs_up gen f vib orig ortho u f' : vib <> orig -> orig <> ortho ->
    create_fake gen f vib orig ortho u = (f', Ok tt) -> f' orig = f vib /\ exists Ua, f' ortho = Some (CNpy Ua).
  Proof.
    intros N1 N3 H. unfold Create_Model.create_fake, Create_Model.create_fake_trace in H.
    destruct (prepare_fake gen f vib ortho u) as [[d1 Ua]|]; [|discriminate].
    assert (HW : forall q x (g : fs V), fs_write g q x q = Some x) by (intros; unfold fs_write; rewrite String.eqb_refl; auto).
    assert (HWo : forall q p x (g : fs V), q <> p -> fs_write g p x q = g q) by (intros; unfold fs_write; destruct (String.eqb_spec q p); congruence).
    unfold copy_trace, copyfile in H. destruct (f vib) as [c|]; [|discriminate]. destruct (String.eqb vib orig); [discriminate|].
    cbn [then_ last] in H. set (f1 := fs_write f orig c) in *.
    unfold save_trace in H. destruct (verify vint Coupled d1); [|discriminate].
    destruct (save_raw isz f1 vib d1) as [f2 r] eqn:Esr. destruct r; [|discriminate].
    cbn [then_ last npsave_trace app] in H. injection H as <-. split; [|exists Ua; apply HW].
    rewrite HWo by auto. unfold save_raw in Esr. destruct (dumps _); [|discriminate]. injection Esr as <-. rewrite !HWo by auto. apply HW.
  Qed.

  (** ** Rejected inputs *)
  Theorem not_orthonormal_rejected gen f vib orig ortho d A N Ua M i j :
    (forall o, f vib = Some (CJson o) -> NoDup (map fst o)) -> load f vib = Ok d ->
    valid vint Coupled (Z.of_nat A) (Z.of_nat N) d -> is_matrix A Ua M -> i < A -> j < A ->
    close (bsum A (fun k => mul (M i k) (M j k))) (delta zero one i j) = false ->
    create_fake gen f vib orig ortho (MArr Ua) = (f, Raise AssertionError) /\ fst (create_fake_trace gen f vib orig ortho (MArr Ua)) = [].
  Proof.
    intros HND HL Va HU Hi Hj Hc. destruct (load_new_inv _ _ _ _ _ _ HND HL) as (D & K & _ & _).
    apply failed_early. unfold Create_Model.prepare_fake.
    assert (exists c, f vib = Some c) as [c Hcc].
    { unfold load_new, load_raw, read_json in HL. destruct (f vib); [eauto|discriminate]. }
    rewrite Hcc. cbn [passert bind]. rewrite HL. cbn [bind]. rewrite (proj2 (extract_dims_spec vint _ _ _ (proj1 D)) (proj1 Va)). cbn [bind fst snd].
    unfold Create_Model.obtain_matrix.
    destruct (dot_ok zero one add mul sub opp RT A Ua (transpose zero [1; 0] Ua) M (mtr M) HU (transpose_ok zero A Ua M HU)) as (r & -> & Hr). cbn [bind].
    rewrite eye_ok. cbn [bind]. set (e := abuild [A; A] _). pose proof Hr as (S1 & W1 & R1).
    destruct (allclose_iff close r e) as (b & -> & Hb); auto. { apply wf_abuild. }
    destruct b; [|reflexivity]. exfalso. assert (close (bsum A (fun k => mul (M i k) (mtr M k j))) (delta zero one i j) = true); [|unfold mtr in *; congruence].
    apply (proj1 Hb eq_refl [i; j]). { apply R1; auto. } unfold e. rewrite aget_abuild by inb_solve. reflexivity.
  Qed.
  Theorem asymmetric_rejected gen f vib orig ortho u d A N :
    (forall o, f vib = Some (CJson o) -> NoDup (map fst o)) -> load f vib = Ok d ->
    valid vint Coupled (Z.of_nat A) (Z.of_nat N) d -> ~ surface_close close d \/ ~ mode_close close d ->
    exists e, create_fake gen f vib orig ortho u = (f, Raise e) /\ fst (create_fake_trace gen f vib orig ortho u) = [].
  Proof.
    intros HND HL Va Hb. destruct (load_new_inv _ _ _ _ _ _ HND HL) as (D & K & S & _).
    enough (exists e, prepare_fake gen f vib ortho u = Raise e) as [e He] by (exists e; apply failed_early; auto).
    unfold Create_Model.prepare_fake. destruct (f vib); [|eexists; reflexivity]. cbn [passert bind]. rewrite HL. cbn [bind].
    rewrite (proj2 (extract_dims_spec vint _ _ _ (proj1 D)) (proj1 Va)). cbn [bind fst snd].
    destruct (obtain_matrix (gen (Z.of_nat A)) f ortho (Z.of_nat A) u) as [Ua|e] eqn:HO; [|exists e; reflexivity].
    cbn [bind]. destruct (surfaces_iff zero isz vint close A N d D Va K) as (c1 & -> & H1). cbn [bind].
    destruct (modes_iff zero vint close A N d D Va) as (c2 & E2 & H2).
    destruct c1; [|exists AssertionError; reflexivity]. cbn [passert bind]. rewrite E2. cbn [bind].
    destruct c2; [|exists AssertionError; reflexivity]. exfalso. destruct Hb as [Hx|Hx]; apply Hx; [apply H1|apply H2]; auto.
  Qed.
End Conseq.
