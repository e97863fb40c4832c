(** Proofs about the comparison of models. *)
From Coq Require Import QArith Qabs.
From Verif Require Import Common Common_Proofs Arr_Model Arr_Proofs ModelIO_Model ModelIO_Spec ModelIO_Proofs SameModel_Model.
Local Open Scope nat_scope.

(** two numbers agree within the tolerances of np.isclose; NaN never does *)
Definition agree (x y : num) : Prop :=
  exists p q, x = Num p /\ y = Num q /\ (Qabs (p - q) <= (1 # 100000000) + (1 # 100000) * Qabs q)%Q.
Definition int_dims (d : mdict num) (A N : Z) : Prop := has d (KV N_) (PInt N) /\ has d (KV A_) (PInt A).
(** the six parameters *)
Definition params : list vmk := [E_; w_; G1_; G2_; G3_; G4_].

(** ** Dictionaries *)
Section Upd.
  Context {V : Type}.
  Notation upd := (dupdate (V := pval V) key_eqb).
  Lemma dget_update (d t : mdict V) k : NoDup (map fst d) ->
    dget key_eqb (upd t d) k = match dget key_eqb d k with Some v => Some v | None => dget key_eqb t k end.
  Proof.
    unfold dupdate. revert t. induction d as [|[k0 v0] d IH]; simpl; intros t H; [reflexivity|]. inv H. rewrite IH by auto.
    destruct (key_eqb k k0) eqn:E.
    - apply key_eqb_eq in E. subst k0. rewrite (proj2 (dget_None key_eqb key_eqb_eq d k)) by auto.
      apply dget_dset_same, key_eqb_eq.
    - rewrite dget_dset_other; [reflexivity|apply key_eqb_eq|]. intros ->. rewrite (proj2 (key_eqb_eq k0 k0) eq_refl) in E. discriminate.
  Qed.
  Lemma dset_keys_in (d : mdict V) k v : In k (map fst d) -> map fst (dset key_eqb d k v) = map fst d.
  Proof.
    induction d as [|[k0 v0] d IH]; simpl; [easy|]. intros H. destruct (key_eqb k k0) eqn:E; simpl; [reflexivity|].
    f_equal. apply IH. destruct H; auto. subst. rewrite (proj2 (key_eqb_eq k k) eq_refl) in E. discriminate.
  Qed.
  Lemma update_keys (d t : mdict V) : (forall k, In k (map fst d) -> In k (map fst t)) -> map fst (upd t d) = map fst t.
  Proof.
    unfold dupdate. revert t. induction d as [|[k0 v0] d IH]; simpl; intros t H; [reflexivity|].
    rewrite IH; [apply dset_keys_in; auto|]. intros k Hk. rewrite dset_keys_in by auto. auto.
  Qed.
  Lemma update_app (t d e : mdict V) : upd t (d ++ e) = upd (upd t d) e.
  Proof. apply fold_left_app. Qed.
End Upd.

(** ** np.allclose *)
Lemma isclose_agree x y : isclose x y = true <-> agree x y.
Proof.
  unfold agree. destruct x as [p|], y as [q|]; simpl; (split; [|intros (a & b & E1 & E2 & H); try discriminate]); try discriminate.
  - intros H. exists p, q. split; [|split]; auto. apply Qle_bool_iff; auto.
  - injection E1 as <-. injection E2 as <-. apply Qle_bool_iff; auto.
Qed.
Lemma isclose_int a b : (0 <= b < 100000)%Z -> isclose (n_of_int a) (n_of_int b) = (a =? b)%Z.
Proof.
  intros Hb.
  assert (HQ : forall u, (Qabs (inject_Z a - inject_Z b) <= (1 # 100000000) + (1 # 100000) * Qabs (inject_Z b))%Q <->
     (Z.abs (a - b) * 10000000000000 <= 100000 + 100000000 * b + u - u)%Z).
  { intros u. unfold Qle, Qminus, Qplus, Qmult, Qabs, Qopp, inject_Z. cbn [Qnum Qden]. rewrite !Z.mul_1_r.
    replace (Z.abs b) with b by lia. replace (a + - b)%Z with (a - b)%Z by lia.
    change (Z.pos (100000000 * (100000 * 1))) with 10000000000000%Z. change (Z.pos (100000 * 1)) with 100000%Z. change (Z.pos (1 * 1)) with 1%Z. lia. }
  unfold isclose, n_of_int. specialize (HQ 0%Z). rewrite <- Qle_bool_iff in HQ.
  destruct (Z.eqb_spec a b) as [->|Hne].
  - apply HQ. lia.
  - apply not_true_is_false. rewrite HQ. lia.
Qed.
Lemma bzip_same s : bzip s s = Some s.
Proof. induction s as [|x s IH]; simpl; [reflexivity|]. rewrite Nat.eqb_refl. simpl. rewrite IH. destruct (x =? 1); reflexivity. Qed.
Lemma bshape_same s : bshape s s = Some s.
Proof. unfold bshape, pad. rewrite Nat.max_id, Nat.sub_diag. apply bzip_same. Qed.
Lemma bget_same {V} (a : arr V) idx : inb (shape a) idx -> bget a idx = aget a idx.
Proof.
  intros H. unfold bget. assert (length idx = length (shape a)) as ->. { clear - H. induction H; simpl; auto. }
  rewrite Nat.sub_diag. simpl. rewrite bc_index_same; auto.
Qed.
Lemma allclose_same a b : shape b = shape a -> exists c, allclose (PArr a) (PArr b) = Ok c /\
  (wf_arr a -> wf_arr b -> (c = true <-> forall idx x y, aget a idx = Some x -> aget b idx = Some y -> agree x y)).
Proof.
  intros Hs. unfold allclose. cbn [as_array bind]. rewrite Hs, bshape_same. eexists. split; [reflexivity|]. intros Ha Hb. rewrite forallb_forall. split.
  - intros H idx x y Hx Hy. pose proof (aget_inb _ _ _ Hx) as Hi. specialize (H idx (proj2 (indices_in _ _) Hi)).
    rewrite !bget_same, Hx, Hy in H by congruence. apply isclose_agree; auto.
  - intros H idx Hi. apply indices_in in Hi. rewrite !bget_same by congruence.
    destruct (aget_some a idx Ha Hi) as [x Hx]. rewrite <- Hs in Hi. destruct (aget_some b idx Hb Hi) as [y Hy].
    rewrite Hx, Hy. apply isclose_agree. eauto.
Qed.
Lemma allclose_int a b : (0 <= b < 100000)%Z -> allclose (PInt a) (PInt b) = Ok (a =? b)%Z.
Proof.
  intros H. unfold allclose. cbn [as_array bind shape bshape]. unfold bshape, pad. simpl bzip. cbn [indices forallb]. unfold bget. simpl aget.
  rewrite andb_true_r. f_equal. apply isclose_int; auto.
Qed.

Lemma same_loop_app new1 new2 ks k rest : same_loop new1 new2 ks = Ok true -> same_loop new1 new2 (ks ++ k :: rest) = same_loop new1 new2 (k :: rest).
Proof.
  induction ks as [|k0 ks IH]; intros H; [reflexivity|]. cbn [same_loop app] in *.
  destruct (mitem new1 k0); [|discriminate]. cbn [bind] in *. destruct (mitem new2 k0); [|discriminate]. cbn [bind] in *.
  destruct (allclose a a0) as [[]|]; try discriminate. cbn [bind] in *. rewrite IH; auto.
Qed.

Definition zeros (k : kind) (A N : Z) (m : vmk) : arr num :=
  match spec_shape k A N m with Some s => afull (map Z.to_nat s) n_zero | None => afull [] n_zero end.
Lemma template_ok k A N : (0 <= A)%Z -> (0 <= N)%Z ->
  zeros_template n_zero k A N = Ok ((KV N_, PInt N) :: (KV A_, PInt A) :: map (fun m => (KV m, PArr (zeros k A N m))) params).
Proof.
  intros HA HN. unfold zeros_template.
  assert (HZ : forall m s, spec_shape k A N m = Some s -> np_zeros n_zero s = Ok (zeros k A N m)).
  { intros m s E. unfold zeros. rewrite E. apply np_zeros_ok. unfold spec_shape in E. destruct (mode_axes m); [|discriminate]. injection E as <-.
    apply Forall_app. split; apply Forall_forall; intros z Hz; apply repeat_spec in Hz; subst; auto. }
  unfold params. cbn [map]. rewrite !model_shape_spec.
  assert (HS : forall m, In m params -> exists s, spec_shape k A N m = Some s) by (intros m Hm; cbn in Hm; intuition (subst m; unfold spec_shape; simpl; eauto)).
  destruct (HS E_) as [s1 E1]; [cbn; auto|]. rewrite E1, (HZ _ _ E1). cbn [bind].
  destruct (HS w_) as [s2 E2]; [cbn; auto|]. rewrite E2, (HZ _ _ E2). cbn [bind].
  destruct (HS G1_) as [s3 E3]; [cbn; auto|]. rewrite E3, (HZ _ _ E3). cbn [bind].
  destruct (HS G2_) as [s4 E4]; [cbn; auto 8|]. rewrite E4, (HZ _ _ E4). cbn [bind].
  destruct (HS G3_) as [s5 E5]; [cbn; auto 8|]. rewrite E5, (HZ _ _ E5). cbn [bind].
  destruct (HS G4_) as [s6 E6]; [cbn; auto 8|]. rewrite E6, (HZ _ _ E6). cbn [bind]. reflexivity.
Qed.

(** the value compared for parameter [m] *)
Definition value_of (k : kind) (A N : Z) (d : mdict num) (m : vmk) : arr num :=
  match mget d (KV m) with Some (PArr a) => a | _ => zeros k A N m end.
Definition tmpl (k : kind) (A N : Z) : mdict num :=
  (KV N_, PInt N) :: (KV A_, PInt A) :: map (fun m => (KV m, PArr (zeros k A N m))) params.

Lemma shape_zeros k A N m : (0 <= A)%Z -> (0 <= N)%Z -> In m params -> Some (map Z.of_nat (shape (zeros k A N m))) = spec_shape k A N m.
Proof.
  intros HA HN Hm. unfold zeros. destruct (spec_shape k A N m) as [s|] eqn:E.
  - simpl. f_equal. rewrite map_map. rewrite <- (map_id s) at 2. apply map_ext_in. intros z Hz. apply Z2Nat.id.
    unfold spec_shape in E. destruct (mode_axes m); [|discriminate]. injection E as <-. apply in_app_iff in Hz. destruct Hz as [Hz|Hz]; apply repeat_spec in Hz; subst; auto.
  - exfalso. cbn in Hm. intuition (subst m; discriminate).
Qed.
Lemma map_of_nat_inj s t : map Z.of_nat s = map Z.of_nat t -> s = t.
Proof. revert t. induction s as [|x s IH]; destruct t; simpl; intros H; try discriminate; [reflexivity|]. inv H. f_equal; auto. lia. Qed.

Section Same.
  Variables (k : kind) (A N A2 N2 : Z) (d1 d2 : mdict num).
  Hypothesis (HA : (0 <= A)%Z) (HN : (0 <= N)%Z) (HA2 : (0 <= A2 < 100000)%Z) (HN2 : (0 <= N2 < 100000)%Z).
  Hypothesis (D1 : dict_ok d1) (D2 : dict_ok d2) (V1 : valid n_int k A N d1) (V2 : valid n_int k A2 N2 d2).
  Hypothesis (I1 : int_dims d1 A N) (I2 : int_dims d2 A2 N2).

  Lemma val_arr d a n m : dict_ok d -> valid n_int k a n d -> (0 <= a)%Z -> (0 <= n)%Z -> In m params ->
    mget (dupdate key_eqb (tmpl k A N) d) (KV m) = Some (PArr (value_of k A N d m)).
  Proof.
    clear D1 D2 V1 V2 I1 I2 HA2 HN2.
    intros [Hd Hw] [_ Hv] Ha Hn Hm. unfold mget. rewrite dget_update by auto. unfold value_of, mget.
    destruct (dget key_eqb d (KV m)) as [v|] eqn:E.
    - assert (has d (KV m) v) as Hh by (apply (dget_In key_eqb key_eqb_eq) in E; exact E).
      destruct (spec_shape k a n m) as [s|] eqn:Es.
      + destruct (Hv m v s Hh Es) as (x & -> & _). reflexivity.
      + exfalso. cbn in Hm. intuition (subst m; discriminate).
    - cbn in Hm. intuition (subst m; reflexivity).
  Qed.
  Lemma val_shape d m : dict_ok d -> valid n_int k A N d -> In m params -> shape (value_of k A N d m) = shape (zeros k A N m).
  Proof.
    clear D1 D2 V1 V2 I1 I2 HA2 HN2.
    intros [Hd Hw] [_ Hv] Hm. unfold value_of, mget. destruct (dget key_eqb d (KV m)) as [v|] eqn:E; [|reflexivity].
    assert (has d (KV m) v) as Hh by (apply (dget_In key_eqb key_eqb_eq) in E; exact E).
    pose proof (shape_zeros k A N m HA HN Hm) as Hz. destruct (Hv m v _ Hh (eq_sym Hz)) as (x & -> & Hx). apply map_of_nat_inj; auto.
  Qed.
  Lemma val_wf d m : dict_ok d -> wf_arr (value_of k A N d m).
  Proof.
    clear D1 D2 V1 V2 I1 I2 HA2 HN2.
    intros [Hd Hw]. unfold value_of, mget. destruct (dget key_eqb d (KV m)) as [v|] eqn:E; [|unfold zeros; destruct (spec_shape _ _ _ _); apply wf_afull].
    destruct v; try (unfold zeros; destruct (spec_shape _ _ _ _); apply wf_afull). apply (dget_In key_eqb key_eqb_eq) in E. eapply Hw; exact E.
  Qed.
  Lemma val_int d a n : dict_ok d -> int_dims d a n ->
    mget (dupdate key_eqb (tmpl k A N) d) (KV N_) = Some (PInt n) /\ mget (dupdate key_eqb (tmpl k A N) d) (KV A_) = Some (PInt a).
  Proof.
    clear D1 D2 V1 V2 I1 I2 HA2 HN2.
    intros [Hd _] [H1 H2]. unfold mget. rewrite !dget_update by auto.
    apply (In_dget key_eqb key_eqb_eq) in H1, H2; auto. rewrite H1, H2. auto.
  Qed.

  Lemma start : same_model k d1 d2 = same_loop (dupdate key_eqb (tmpl k A N) d1) (dupdate key_eqb (tmpl k A N) d2) (dkeys (dupdate key_eqb (tmpl k A N) d1)).
  Proof.
    unfold same_model. rewrite (proj2 (verify_spec n_int k d1 (proj1 D1))) by eauto. rewrite (proj2 (verify_spec n_int k d2 (proj1 D2))) by eauto. cbn [bind].
    rewrite (proj2 (extract_dims_spec n_int d1 A N (proj1 D1))) by apply V1. cbn [bind fst snd]. rewrite !Z.eqb_refl. simpl negb. cbn [orb].
    rewrite template_ok by auto. reflexivity.
  Qed.

  (** the eight standard keys *)
  Definition std_keys : list key := map KV (N_ :: A_ :: params).
  Lemma std_loop : exists b, same_loop (dupdate key_eqb (tmpl k A N) d1) (dupdate key_eqb (tmpl k A N) d2) std_keys = Ok b /\
    (b = true <-> A = A2 /\ N = N2 /\ forall m idx x y, In m params -> aget (value_of k A N d1 m) idx = Some x -> aget (value_of k A N d2 m) idx = Some y -> agree x y).
  Proof.
    destruct (val_int d1 A N D1 I1) as [E1 E2]. destruct (val_int d2 A2 N2 D2 I2) as [E3 E4].
    unfold std_keys. cbn [map same_loop]. unfold mitem. rewrite E1, E3. cbn [bind]. rewrite allclose_int by auto. cbn [bind].
    destruct (Z.eqb_spec N N2) as [<-|Hne]; [|exists false; split; auto; intuition congruence].
    rewrite E2, E4. cbn [bind]. rewrite allclose_int by auto. cbn [bind].
    destruct (Z.eqb_spec A A2) as [<-|Hne]; [|exists false; split; auto; intuition congruence].
    assert (HC : forall m, In m params -> exists c, allclose (PArr (value_of k A N d1 m)) (PArr (value_of k A N d2 m)) = Ok c /\
       (c = true <-> forall idx x y, aget (value_of k A N d1 m) idx = Some x -> aget (value_of k A N d2 m) idx = Some y -> agree x y)).
    { intros m Hm. destruct (allclose_same (value_of k A N d1 m) (value_of k A N d2 m)) as (c & E & Hc); [rewrite !val_shape; auto|].
      exists c. split; auto. apply Hc; apply val_wf; auto. }
    assert (HG : forall ms, (forall m, In m ms -> In m params) ->
       exists b, same_loop (dupdate key_eqb (tmpl k A N) d1) (dupdate key_eqb (tmpl k A N) d2) (map KV ms) = Ok b /\
       (b = true <-> forall m idx x y, In m ms -> aget (value_of k A N d1 m) idx = Some x -> aget (value_of k A N d2 m) idx = Some y -> agree x y)).
    { induction ms as [|m ms IH]; intros Hms; [exists true; split; [reflexivity|]; split; auto; intros _ m0 ? ? ? []|].
      destruct (HC m) as (c & Ec & Hc); [apply Hms; left; auto|]. destruct IH as (b & Eb & Hb); [intros; apply Hms; right; auto|].
      cbn [map same_loop]. unfold mitem.
      rewrite (val_arr d1 A N m D1 V1 HA HN) by (apply Hms; left; auto). rewrite (val_arr d2 A N m D2 V2 HA HN) by (apply Hms; left; auto). cbn [bind].
      rewrite Ec. cbn [bind]. destruct c.
      - exists b. split; auto. rewrite Hb. split.
        + intros H m0 idx x y [<-|Hin]; [apply (proj1 Hc eq_refl)|apply H; auto].
        + intros H m0 idx x y Hin. apply H. right; auto.
      - exists false. split; auto. split; [discriminate|]. intros H. apply Hc. intros idx x y. apply H. left; auto. }
    destruct (HG params) as (b & Eb & Hb); [auto|]. cbn [map params] in Eb. exists b. split; [exact Eb|]. rewrite Hb. intuition.
  Qed.
  Lemma std_of_known : known_keys d1 -> dkeys (dupdate key_eqb (tmpl k A N) d1) = std_keys.
  Proof.
    intros H. unfold dkeys. rewrite update_keys; [reflexivity|]. intros k0 Hk. apply in_map_iff in Hk. destruct Hk as ([k1 v1] & <- & Hin).
    destruct (H k1 v1 Hin) as [m ->]. simpl. destruct m; auto 10.
  Qed.
  Lemma value_reads m idx x : In m params -> dict_ok d1 -> inb (shape (zeros k A N m)) idx -> reads n_zero d1 m idx x -> aget (value_of k A N d1 m) idx = Some x.
  Proof.
    intros Hm [Hd Hw] Hi Hr. unfold value_of. destruct Hr as [a v Hh Ha|Hno].
    - apply (In_dget key_eqb key_eqb_eq) in Hh; auto. unfold mget. rewrite Hh. auto.
    - unfold mget. destruct (dget key_eqb d1 (KV m)) eqn:E; [exfalso; eapply Hno; apply (dget_In key_eqb key_eqb_eq); exact E|].
      unfold zeros in *. destruct (spec_shape k A N m); apply aget_abuild; auto.
  Qed.
End Same.

Lemma reads_value k A N d m idx x : valid n_int k A N d -> (0 <= A)%Z -> (0 <= N)%Z -> dict_ok d -> In m params ->
  aget (value_of k A N d m) idx = Some x -> reads n_zero d m idx x /\ inb (shape (zeros k A N m)) idx.
Proof.
  intros Hv HA HN [Hd Hw] Hm E. split.
  - unfold value_of, mget in E. destruct (dget key_eqb d (KV m)) as [v|] eqn:F.
    + assert (has d (KV m) v) as Hh by (apply (dget_In key_eqb key_eqb_eq); exact F).
      destruct Hv as [_ Hv]. destruct (Hv m v _ Hh (eq_sym (shape_zeros k A N m HA HN Hm))) as (a & -> & _). econstructor; eauto.
    + assert (x = n_zero) as ->.
      { unfold zeros in E. destruct (spec_shape k A N m); pose proof (aget_inb _ _ _ E) as Hi; unfold afull in *; simpl shape in Hi; rewrite aget_abuild in E by auto; congruence. }
      constructor. intros v Hh. apply (In_dget key_eqb key_eqb_eq) in Hh; auto. congruence.
  - rewrite <- (val_shape k A N HA HN d m (conj Hd Hw) Hv Hm). eapply aget_inb; eauto.
Qed.
