(** C06: comparison of models. *)
From Coq Require Import QArith Qabs.
From Verif Require Import Common Common_Proofs Arr_Model Arr_Proofs ModelIO_Model ModelIO_Spec ModelIO_Proofs SameModel_Model SameModel_Proofs ModelIO_Props.
Local Open Scope nat_scope.

(** the parameter numbers of two dictionaries agree within tolerance, an absent
    parameter counting as zeros *)
Definition numbers_agree (k : kind) (A N : Z) (d1 d2 : mdict num) : Prop :=
  forall m s idx x y, spec_shape k A N m = Some s -> inb (map Z.to_nat s) idx ->
    reads n_zero d1 m idx x -> reads n_zero d2 m idx y -> agree x y.
(** no parameter contains NaN *)
Definition no_nan (d : mdict num) : Prop := forall m a, has d (KV m) (PArr a) -> ~ In NaN (data a).

Lemma spec_params k A N m s : spec_shape k A N m = Some s -> In m params.
Proof. destruct m; cbn; intros; try discriminate; auto 10. Qed.
Lemma zeros_shape k A N m s : spec_shape k A N m = Some s -> shape (zeros k A N m) = map Z.to_nat s.
Proof. intros E. unfold zeros. rewrite E. reflexivity. Qed.
Lemma params_spec k A N m : In m params -> exists s, spec_shape k A N m = Some s.
Proof. intros H. cbn in H. intuition (subst m; unfold spec_shape; simpl; eauto). Qed.
Lemma agree_values k A N d1 d2 : (0 <= A)%Z -> (0 <= N)%Z -> dict_ok d1 -> dict_ok d2 -> valid n_int k A N d1 -> valid n_int k A N d2 ->
  (forall m idx x y, In m params -> aget (value_of k A N d1 m) idx = Some x -> aget (value_of k A N d2 m) idx = Some y -> agree x y)
  <-> numbers_agree k A N d1 d2.
Proof.
  intros HA HN D1 D2 V1 V2. split.
  - intros H m s idx x y Hs Hi H1 H2. pose proof (spec_params _ _ _ _ _ Hs) as Hm. rewrite <- (zeros_shape _ _ _ _ _ Hs) in Hi.
    apply (H m idx); auto; apply value_reads; auto.
  - intros H m idx x y Hm H1 H2. destruct (params_spec k A N m Hm) as [s Hs].
    destruct (reads_value k A N d1 m idx x) as [R1 Hi]; auto. destruct (reads_value k A N d2 m idx y) as [R2 _]; auto.
    rewrite (zeros_shape _ _ _ _ _ Hs) in Hi. eapply H; eauto.
Qed.

(** For two valid models (dimensions given as integers, fewer than 100000) the
    comparison never raises; it answers True exactly when the dimensions are the
    same and all numbers agree.  Unknown keys of the second model are ignored. *)
Theorem C06_same_model_iff k A1 N1 A2 N2 d1 d2 :
  (0 <= A1)%Z -> (0 <= N1)%Z -> (0 <= A2 < 100000)%Z -> (0 <= N2 < 100000)%Z ->
  dict_ok d1 -> dict_ok d2 -> known_keys d1 ->
  valid n_int k A1 N1 d1 -> valid n_int k A2 N2 d2 -> int_dims d1 A1 N1 -> int_dims d2 A2 N2 ->
  exists b, same_model k d1 d2 = Ok b /\ (b = true <-> A1 = A2 /\ N1 = N2 /\ numbers_agree k A1 N1 d1 d2).
Proof.
  intros HA HN HA2 HN2 D1 D2 K1 V1 V2 I1 I2. rewrite (start k A1 N1 A2 N2) by auto. rewrite (std_of_known k A1 N1 d1 K1).
  destruct (std_loop k A1 N1 A2 N2 d1 d2) as (b & E & Hb); auto. exists b. split; auto. rewrite Hb.
  split; intros (<- & <- & H); (split; [|split]); auto; apply (agree_values k A1 N1 d1 d2); auto.
Qed.
Print Assumptions C06_same_model_iff.

(** Models of different dimensions are never called equal. *)
Theorem C06_dimensions_differ k A1 N1 A2 N2 d1 d2 :
  (0 <= A1)%Z -> (0 <= N1)%Z -> (0 <= A2 < 100000)%Z -> (0 <= N2 < 100000)%Z ->
  dict_ok d1 -> dict_ok d2 -> known_keys d1 ->
  valid n_int k A1 N1 d1 -> valid n_int k A2 N2 d2 -> int_dims d1 A1 N1 -> int_dims d2 A2 N2 ->
  A1 <> A2 \/ N1 <> N2 -> same_model k d1 d2 = Ok false.
Proof.
  intros. destruct (C06_same_model_iff k A1 N1 A2 N2 d1 d2) as (b & -> & Hb); auto. destruct b; [|reflexivity].
  exfalso. destruct (proj1 Hb eq_refl) as (? & ? & _). intuition.
Qed.
Print Assumptions C06_dimensions_differ.

Lemma agree_refl q : agree (Num q) (Num q).
Proof.
  exists q, q. split; [|split]; auto. apply Qle_trans with 0%Q.
  - rewrite Qabs_wd with (y := 0%Q) by ring. discriminate.
  - rewrite <- (Qplus_0_l 0) at 1. apply Qplus_le_compat; [discriminate|]. apply Qmult_le_0_compat; [discriminate|apply Qabs_nonneg].
Qed.
Lemma aget_In {V} (a : arr V) idx x : aget a idx = Some x -> In x (data a).
Proof. unfold aget. destruct (offset (shape a) idx); [|discriminate]. apply nth_error_In. Qed.

(** Reflexive exactly for models without NaN. *)
Theorem C06_reflexive k A N d : (0 <= A < 100000)%Z -> (0 <= N < 100000)%Z -> dict_ok d -> known_keys d -> valid n_int k A N d -> int_dims d A N ->
  (same_model k d d = Ok true <-> no_nan d) /\ (~ no_nan d -> same_model k d d = Ok false).
Proof.
  intros HA HN D K V I. destruct (C06_same_model_iff k A N A N d d) as (b & E & Hb); auto; try tauto.
  assert (numbers_agree k A N d d <-> no_nan d) as HH.
  { split.
    - intros H m a Ha Hin. apply In_nth_error in Hin. destruct Hin as [i Hi].
      assert (Hw : wf_arr a) by (destruct D as [_ D]; eapply D; eauto).
      destruct V as [V0 V]. destruct (spec_shape k A N m) as [s|] eqn:Es.
      + destruct (V m _ s Ha Es) as (a' & E' & Hs). injection E' as <-.
        destruct (offset_surj (shape a) i) as [idx Hidx].
        { rewrite <- Hw. apply nth_error_Some. congruence. }
        assert (aget a idx = Some NaN) as Hg by (unfold aget; rewrite Hidx; auto).
        destruct (H m s idx NaN NaN Es) as (p & q & Hp & _); [|econstructor; eauto|econstructor; eauto|discriminate].
        rewrite <- Hs, map_map. rewrite (map_ext _ (fun x => x)), map_id by (intros; apply Nat2Z.id). apply offset_inb. eauto.
      + destruct m; try discriminate.
        * destruct I as [I1 I2]. assert (PArr a = PInt N) by (eapply has_fun; [apply D|exact Ha|exact I1]). discriminate.
        * destruct I as [I1 I2]. assert (PArr a = PInt A) by (eapply has_fun; [apply D|exact Ha|exact I2]). discriminate.
    - intros H m s idx x y Es Hi R1 R2. destruct R1 as [a v Ha Hg|Hno]; destruct R2 as [a' v' Ha' Hg'|Hno'].
      + assert (PArr a = PArr a') as Eq by (eapply has_fun; [apply D|exact Ha|exact Ha']). injection Eq as <-.
        rewrite Hg in Hg'. injection Hg' as <-. destruct v as [q|]; [apply agree_refl|]. exfalso. eapply (H m a Ha). eapply aget_In; eauto.
      + exfalso. eapply Hno'; eauto.
      + exfalso. eapply Hno; eauto.
      + apply agree_refl. }
  rewrite E. split.
  - split; intros H.
    + injection H as ->. apply HH. apply Hb. reflexivity.
    + f_equal. apply Hb. split; [|split]; auto. apply HH; auto.
  - intros H. f_equal. destruct b; [|reflexivity]. exfalso. apply H, HH, Hb. reflexivity.
Qed.
Print Assumptions C06_reflexive.

(** A saved and loaded copy compares equal to the original. *)
Lemma num_eq_agree x y : num_eq n_isz x y -> x <> NaN -> agree x y.
Proof.
  intros [<-|[H1 H2]] Hn; destruct x as [p|]; try congruence; [apply agree_refl|]. destruct y as [q|]; [|discriminate].
  simpl in *. apply Qeq_bool_iff in H1, H2. exists p, q. split; [|split]; auto.
  rewrite (Qabs_wd (p - q) 0) by (rewrite H1, H2; ring). rewrite (Qabs_wd q 0) by auto. discriminate.
Qed.
Lemma reads_not_nan d m idx x : no_nan d -> reads n_zero d m idx x -> x <> NaN.
Proof. intros H [a v Ha Hg|_]; [|discriminate]. intros ->. eapply H; eauto using aget_In. Qed.
Theorem C06_saved_copy_equal f path d A N f' d' :
  (0 <= A < 100000)%Z -> (0 <= N < 100000)%Z -> dict_ok d -> known_keys d -> serialisable d -> valid n_int Coupled A N d -> int_dims d A N -> no_nan d ->
  save n_isz n_int Coupled f path d = (f', Ok tt) -> load_new n_zero n_int Coupled f' path = Ok d' ->
  same_model Coupled d d' = Ok true /\ same_model Coupled d' d = Ok true.
Proof.
  intros HA HN D K S V I Hnn Hs Hl.
  destruct (C01_coupled_save_load num n_zero n_isz n_int f path d A N D K S V (or_introl (proj1 HA))) as (f1 & d1 & E1 & _ & E2 & D' & V' & K' & RT).
  rewrite Hs in E1. injection E1 as <-. rewrite Hl in E2. injection E2 as <-.
  destruct (C01_same_numbers num n_zero n_isz n_int A N d d' eq_refl D D' V RT) as (SN & SA & SV).
  assert (I' : int_dims d' A N) by (split; [apply SN, I|apply SA, I]).
  assert (Hp : forall m s, spec_shape Coupled A N m = Some s -> In m [E_; w_; G1_; G2_; G3_; G4_]) by (intros m s; apply spec_params).
  assert (Hsym : forall x y, num_eq n_isz x y -> num_eq n_isz y x) by (intros x y [<-|[? ?]]; [left|right]; auto).
  split.
  - destruct (C06_same_model_iff Coupled A N A N d d') as (b & -> & Hb); auto; try tauto. f_equal. apply Hb. split; [|split]; auto.
    intros m s idx x y Es Hi R1 R2. apply num_eq_agree; eauto using reads_not_nan.
  - destruct (C06_same_model_iff Coupled A N A N d' d) as (b & -> & Hb); auto; try tauto. f_equal. apply Hb. split; [|split]; auto.
    intros m s idx x y Es Hi R1 R2. pose proof (SV m idx y x (Hp m s Es) R2 R1) as He. apply num_eq_agree; auto.
    pose proof (reads_not_nan d m idx y Hnn R2) as Hy. intros ->. destruct He as [->|[_ He]]; [auto|discriminate].
Qed.
Print Assumptions C06_saved_copy_equal.

(** The same for a diagonal model, if it has a non-zero energy (otherwise C02
    says that it cannot be loaded). *)
Lemma all_zero_isz (a : arr num) idx x : ~ some_nonzero n_isz a -> aget a idx = Some x -> n_isz x = true.
Proof. intros H E. destruct (n_isz x) eqn:Z; auto. exfalso. apply H. exists x. split; auto. eapply aget_In; eauto. Qed.
Theorem C06_saved_diagonal_copy_equal f path d A N f' d' a0 :
  (0 <= A < 100000)%Z -> (0 <= N < 100000)%Z -> dict_ok d -> known_keys d -> serialisable d -> valid n_int Diagonal A N d -> int_dims d A N -> no_nan d ->
  has d (KV E_) (PArr a0) -> some_nonzero n_isz a0 ->
  save n_isz n_int Diagonal f path d = (f', Ok tt) -> load_new n_zero n_int Diagonal f' path = Ok d' ->
  same_model Diagonal d d' = Ok true /\ same_model Diagonal d' d = Ok true.
Proof.
  intros HA HN D K S V I Hnn Ha0 Hz Hs Hl.
  destruct (C02_diagonal_save_load num n_zero n_isz n_int f path d A N D K S V) as (f1 & E1 & _ & E2 & _).
  rewrite Hs in E1. injection E1 as <-. destruct E2 as (d1 & E2 & D' & V' & K' & RT); [eauto|]. rewrite Hl in E2. injection E2 as <-.
  assert (I' : int_dims d' A N) by (destruct I; split; apply RT; (split; [auto|discriminate])).
  assert (SV : forall m s idx x y, spec_shape Diagonal A N m = Some s -> inb (map Z.to_nat s) idx -> reads n_zero d m idx x -> reads n_zero d' m idx y -> num_eq n_isz x y).
  { intros m s idx x y Es Hi R1 R2. destruct R2 as [a v Ha Hg|Hno].
    - apply RT in Ha. destruct Ha as [Ha _]. left. destruct R1 as [a1 v1 Ha1 Hg1|Hno1].
      + assert (PArr a = PArr a1) as Eq by (eapply has_fun; [apply D|exact Ha|exact Ha1]). injection Eq as <-. congruence.
      + exfalso. eapply Hno1; eauto.
    - destruct R1 as [a1 v1 Ha1 Hg1|Hno1]; [|left; reflexivity]. right. split; [|reflexivity].
      eapply all_zero_isz; eauto. intros Hnz. apply (Hno (PArr a1)). apply RT. split; auto. intros a' [= <-]. auto. }
  split.
  - destruct (C06_same_model_iff Diagonal A N A N d d') as (b & -> & Hb); auto; try tauto. f_equal. apply Hb. split; [|split]; auto.
    intros m s idx x y Es Hi R1 R2. apply num_eq_agree; eauto using reads_not_nan.
  - destruct (C06_same_model_iff Diagonal A N A N d' d) as (b & -> & Hb); auto; try tauto. f_equal. apply Hb. split; [|split]; auto.
    intros m s idx x y Es Hi R1 R2. pose proof (SV m s idx y x Es Hi R2 R1) as He.
    assert (Hsym : num_eq n_isz x y) by (destruct He as [->|[? ?]]; [left|right]; auto). apply num_eq_agree; auto.
    pose proof (reads_not_nan d m idx y Hnn R2) as Hy. intros ->. destruct He as [->|[_ He]]; [auto|discriminate].
Qed.
Print Assumptions C06_saved_diagonal_copy_equal.

(** An unknown key: comparing in one direction ignores it, in the other raises
    KeyError; so the comparison is not symmetric. *)
Theorem C06_unknown_key_refuted k A N d s v : (0 <= A < 100000)%Z -> (0 <= N < 100000)%Z -> dict_ok d -> known_keys d -> valid n_int k A N d -> int_dims d A N -> no_nan d ->
  (forall a, v = PArr a -> wf_arr a) ->
  same_model k d (d ++ [(KS s, v)]) = Ok true /\ same_model k (d ++ [(KS s, v)]) d = Raise KeyError.
Proof.
  intros HA HN D K V I Hnn Hv. set (d2 := d ++ [(KS s, v)]).
  assert (Hnk : ~ In (KS s) (map fst d)).
  { intros H. apply in_map_iff in H. destruct H as ([k0 v0] & E & Hin). simpl in E. subst k0. destruct (K _ _ Hin) as [m Hm]. discriminate. }
  assert (D2 : dict_ok d2).
  { destruct D as [D1 D2]. split.
    - unfold d2. rewrite map_app. simpl. clear - D1 Hnk. induction d as [|[k0 v0] d IH]; simpl in *.
      + repeat constructor; auto.
      + inv D1. constructor; [|apply IH; auto]. rewrite in_app_iff. simpl. intuition.
    - intros k0 a H. unfold d2, has in H. apply in_app_iff in H. destruct H as [H|[H|[]]]; [eapply D2; eauto|]. inv H. auto. }
  assert (Hh : forall m x, has d2 (KV m) x <-> has d (KV m) x).
  { intros m x. unfold d2, has. rewrite in_app_iff. simpl. intuition; try discriminate. }
  assert (V2 : valid n_int k A N d2).
  { destruct V as [[V1 V2] V3]. split.
    - destruct V1 as (x & Hx & Hi), V2 as (y & Hy & Hj). split; [exists x|exists y]; (split; [apply Hh|]); auto.
    - intros m x sh H. apply Hh in H. eauto. }
  assert (I2 : int_dims d2 A N) by (destruct I; split; apply Hh; auto).
  assert (HR : forall m idx x, reads n_zero d2 m idx x -> reads n_zero d m idx x).
  { intros m idx x [a y Ha Hg|Hno]; [econstructor; [apply Hh|]; eauto|constructor]. intros y Hy. apply (Hno y). apply Hh; auto. }
  assert (NA : numbers_agree k A N d d).
  { destruct (C06_same_model_iff k A N A N d d) as (b & E & Hb); auto; try tauto.
    destruct (C06_reflexive k A N d) as [[_ H] _]; auto. rewrite (H Hnn) in E. injection E as <-. apply Hb; auto. }
  split.
  - destruct (C06_same_model_iff k A N A N d d2) as (b & -> & Hb); auto; try tauto. f_equal. apply Hb. split; [|split]; auto.
    intros m sh idx x y Es Hi R1 R2. eapply NA; eauto.
  - rewrite (start k A N A N d2 d) by tauto.
    assert (dkeys (dupdate key_eqb (tmpl k A N) d2) = std_keys ++ [KS s]) as ->.
    { unfold d2. rewrite update_app. unfold dkeys. simpl dupdate at 1. unfold dupdate at 1. cbn [fold_left fst snd].
      rewrite dset_fresh; [rewrite map_app; exact (f_equal (fun l => l ++ [KS s]) (std_of_known k A N d K))|apply key_eqb_eq|].
      pose proof (std_of_known k A N d K) as E. unfold dkeys, dupdate in E. rewrite E. unfold std_keys. rewrite in_map_iff. intros (m & Hm & _). discriminate. }
    rewrite same_loop_app.
    + cbn [same_loop]. unfold mitem. destruct (mget (dupdate key_eqb (tmpl k A N) d2) (KS s)) as [v0|] eqn:E.
      * cbn [bind]. unfold mget at 1. rewrite dget_update by apply D. rewrite (proj2 (dget_None key_eqb key_eqb_eq d (KS s))) by auto. reflexivity.
      * reflexivity.
    + destruct (std_loop k A N A N d2 d) as (b & E & Hb); auto; try tauto. rewrite E. f_equal. apply Hb. split; [|split]; auto.
      apply agree_values; auto; try tauto. intros m sh idx x y Es Hi R1 R2. eapply NA; eauto.
Qed.
Print Assumptions C06_unknown_key_refuted.

(** Not symmetric either because the tolerance is relative to the second model. *)
Definition m_ex (e : Q) : mdict num :=
  [(KV N_, PInt 1); (KV A_, PInt 1); (KV E_, PArr (mkArr [1; 1] [Num e])); (KV w_, PArr (mkArr [1] [Num (1 # 3)]))].
Theorem C06_not_symmetric_refuted : exists d1 d2, same_model Coupled d1 d2 = Ok true /\ same_model Coupled d2 d1 = Ok false.
Proof. exists (m_ex 1), (m_ex (1 + (1 # 100000) + (1 # 100000000) + (1 # 20000000000))%Q). split; vm_compute; reflexivity. Qed.
Print Assumptions C06_not_symmetric_refuted.
(** ... and not transitive. *)
Theorem C06_not_transitive_refuted : exists d1 d2 d3,
  same_model Coupled d1 d2 = Ok true /\ same_model Coupled d2 d3 = Ok true /\ same_model Coupled d1 d3 = Ok false.
Proof. exists (m_ex 1), (m_ex (100001 # 100000)), (m_ex (100002 # 100000)). repeat split; vm_compute; reflexivity. Qed.
Print Assumptions C06_not_transitive_refuted.
(** The bound 100000 is sharp: with no surfaces the sizes n and n + 1 are called equal. *)
Theorem C06_large_dimensions_refuted n : (100000 <= n)%Z ->
  same_model Coupled [(KV N_, PInt n); (KV A_, PInt 0)] [(KV N_, PInt (n + 1)); (KV A_, PInt 0)] = Ok true.
Proof.
  intros Hn.
  assert (D : forall z, dict_ok (V := num) [(KV N_, PInt z); (KV A_, PInt 0)]).
  { intros z. split; [repeat constructor; simpl; intuition; discriminate|]. intros k a [H|[H|[]]]; discriminate. }
  assert (V : forall z, valid n_int Coupled 0 z [(KV N_, PInt z); (KV A_, PInt 0)]).
  { intros z. split; [split; eexists; split; [left; reflexivity|constructor|right; left; reflexivity|constructor]|].
    intros m v s [H|[H|[]]]; inv H; discriminate. }
  rewrite (start Coupled 0 n 0 (n + 1)) by (auto; lia).
  assert (E1 : forall z, dupdate key_eqb (tmpl Coupled 0 n) [(KV N_, PInt z); (KV A_, PInt 0)] = (KV N_, PInt z) :: tl (tmpl Coupled 0 n)) by reflexivity.
  rewrite !E1. cbn [tl tmpl dkeys map params fst].
  cbn [same_loop mitem mget dget key_eqb vmk_eqb bind].
  assert (allclose (PInt n) (PInt (n + 1)) = Ok true) as ->.
  { unfold allclose. cbn [as_array bind shape]. unfold bshape, pad. simpl bzip. cbn [indices forallb]. unfold bget. simpl aget. rewrite andb_true_r. f_equal.
    apply isclose_agree. exists (inject_Z n), (inject_Z (n + 1)). split; [|split]; auto.
    unfold Qle, Qminus, Qplus, Qmult, Qabs, Qopp, inject_Z. cbn [Qnum Qden].
    change (Z.pos (100000000 * (100000 * 1))) with 10000000000000%Z. change (Z.pos (100000 * 1)) with 100000%Z. change (Z.pos (1 * 1)) with 1%Z. lia. }
  cbn [bind]. rewrite allclose_int by lia. cbn [bind Z.eqb].
  assert (HZ : forall m, allclose (PArr (zeros Coupled 0 n m)) (PArr (zeros Coupled 0 n m)) = Ok true).
  { intros m. destruct (allclose_same (zeros Coupled 0 n m) (zeros Coupled 0 n m) eq_refl) as (c & -> & Hc). f_equal.
    assert (wf_arr (zeros Coupled 0 n m)) by (unfold zeros; destruct (spec_shape _ _ _ _); apply wf_afull). apply Hc; auto.
    intros idx x y Hx Hy. rewrite Hx in Hy. injection Hy as <-. apply aget_In in Hx.
    assert (x = n_zero) as -> by (unfold zeros in Hx; destruct (spec_shape _ _ _ _); eapply afull_data; eauto). apply agree_refl. }
  rewrite !HZ. cbn [bind]. repeat (rewrite HZ; cbn [bind]). reflexivity.
Qed.
Print Assumptions C06_large_dimensions_refuted.

Example C06_example :
  dict_ok (m_ex 1) /\ known_keys (m_ex 1) /\ valid n_int Coupled 1 1 (m_ex 1) /\ int_dims (m_ex 1) 1 1 /\ no_nan (m_ex 1)
  /\ same_model Coupled (m_ex 1) (m_ex (1000001 # 1000000)) = Ok true
  /\ same_model Coupled (m_ex 0) [(KV N_, PInt 1); (KV A_, PInt 1); (KV w_, PArr (mkArr [1] [Num (1 # 3)]))] = Ok true
  /\ same_model Coupled (m_ex 1) [(KV N_, PInt 1); (KV A_, PInt 1); (KV w_, PArr (mkArr [1] [Num (1 # 3)]))] = Ok false
  /\ same_model Diagonal [(KV N_, PInt 1); (KV A_, PInt 1); (KV E_, PArr (mkArr [1] [NaN]))] [(KV N_, PInt 1); (KV A_, PInt 1); (KV E_, PArr (mkArr [1] [NaN]))] = Ok false.
Proof.
  split; [|split; [|split; [|split; [|split]]]].
  - split; [repeat constructor; simpl; intuition; discriminate|]. intros k a H. cbn in H. destruct H as [H|[H|[H|[H|[]]]]]; inv H; reflexivity.
  - intros k v H. cbn in H. destruct H as [H|[H|[H|[H|[]]]]]; inv H; eauto.
  - split; [split; eexists; split; [left; reflexivity|constructor|right; left; reflexivity|constructor]|].
    intros m v s H E. cbn in H. destruct H as [H|[H|[H|[H|[]]]]]; inv H; try discriminate; injection E as <-; eexists; split; reflexivity.
  - split; [left|right; left]; reflexivity.
  - intros m a H G. cbn in H. destruct H as [H|[H|[H|[H|[]]]]]; inv H; cbn in G; destruct G as [G|[]]; discriminate.
  - repeat split; vm_compute; reflexivity.
Qed.
