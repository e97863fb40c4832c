(** Folding, weights, the ring of beads, and what follows from the values. *)
From Coq Require Import Reals Lra FunctionalExtensionality.
From Verif Require Import Common Common_Proofs Pimc_Model Pimc_Spec Pimc_Proofs Pimc2_Proofs Pimc3_Proofs.
Local Open Scope R_scope.

(** ** Completing the square *)
Lemma square N omega lin E q : (forall n, (n < N)%nat -> 0 < omega n) ->
  E + Sum N (fun n => omega n * q n ^ 2) / 2 + Sum N (fun n => lin n * q n)
  = (E + lowering N omega lin) + Sum N (fun n => omega n * (q n - minimum omega lin n) ^ 2) / 2.
Proof.
  intros Hw. unfold lowering. rewrite !Sum_rsum.
  assert (rsum N (fun n => omega n * (q n - minimum omega lin n) ^ 2)
          = rsum N (fun n => omega n * q n ^ 2) + 2 * rsum N (fun n => lin n * q n) + rsum N (fun n => lin n ^ 2 / omega n)) as ->.
  { rewrite <- rsum_scal, <- !rsum_plus. apply rsum_ext. intros n Hn. unfold minimum. pose proof (Hw n Hn). field. lra. }
  lra.
Qed.

(** ** The ring matrix *)
Lemma dv_length P : (3 <= P)%nat -> length (defining_vector P) = P.
Proof. intros H. unfold defining_vector. rewrite !app_length, repeat_length. simpl. lia. Qed.
Lemma dv_nth P k : (3 <= P)%nat -> (k < P)%nat -> nth k (defining_vector P) 0 = if ((k =? 1) || (k =? P - 1))%nat then 1 else 0.
Proof.
  intros HP Hk. unfold defining_vector. destruct k as [|[|k]]; cbn [app nth Nat.eqb orb].
  - destruct (P - 1)%nat eqn:E; [lia|reflexivity].
  - reflexivity.
  - change (match (P - 1)%nat with 0%nat => false | S m' => match m' with 0%nat => false | S m'0 => (k =? m'0)%nat end end) with (S (S k) =? P - 1)%nat.
    destruct (Nat.eqb_spec (S (S k)) (P - 1)) as [E|E].
    + rewrite app_nth2; rewrite repeat_length; [|lia]. replace (k - (P - 3))%nat with 0%nat by lia. reflexivity.
    + rewrite app_nth1 by (rewrite repeat_length; lia). rewrite nth_repeat. reflexivity.
Qed.
Lemma circulant_ring P i j : (3 <= P)%nat -> (i < P)%nat -> (j < P)%nat -> circulant (defining_vector P) i j = ring_matrix P i j.
Proof.
  intros HP Hi Hj. unfold circulant. rewrite dv_length by auto. rewrite dv_nth; auto; [|apply Nat.mod_upper_bound; lia].
  unfold ring_matrix, next.
  assert (((i + (P - j)) mod P)%nat = if (i <? j)%nat then (i + (P - j))%nat else (i - j)%nat) as ->.
  { destruct (Nat.ltb_spec i j); [apply Nat.mod_small; lia|].
    replace (i + (P - j))%nat with ((i - j) + 1 * P)%nat by lia. rewrite Nat.mod_add by lia. apply Nat.mod_small; lia. }
  destruct (Nat.ltb_spec i j);
    destruct (Nat.eqb_spec (i + 1) P); destruct (Nat.eqb_spec (j + 1) P);
    repeat match goal with |- context [(?a =? ?b)%nat] => destruct (Nat.eqb_spec a b) end; simpl; try lia; reflexivity.
Qed.
Lemma ring_form P (v w : nat -> R) : (3 <= P)%nat ->
  rsum P (fun i => rsum P (fun j => v i * ring_matrix P i j * w j)) = rsum P (fun i => v i * w (next P i)) + rsum P (fun i => w i * v (next P i)).
Proof.
  intros HP.
  rewrite (rsum_ext P _ (fun i => rsum P (fun j => v i * (if (j =? next P i)%nat then 1 else 0) * w j) + rsum P (fun j => v i * (if (i =? next P j)%nat then 1 else 0) * w j))).
  2:{ intros i Hi. rewrite <- rsum_plus. apply rsum_ext. intros j Hj. unfold ring_matrix.
      destruct (Nat.eqb_spec j (next P i)) as [E1|]; destruct (Nat.eqb_spec i (next P j)) as [E2|]; simpl; try lra.
      exfalso. subst j. revert E2. unfold next. destruct (Nat.eqb_spec (i + 1) P);
        match goal with |- context [(?a =? P)%nat] => destruct (Nat.eqb_spec a P) end; lia. }
  rewrite rsum_plus. f_equal.
  - apply rsum_ext. intros i Hi. rewrite (rsum_single P (next P i)); [rewrite Nat.eqb_refl; lra|apply next_lt; auto|].
    intros j _ Hne. destruct (Nat.eqb_spec j (next P i)); [congruence|lra].
  - rewrite rsum_swap. apply rsum_ext. intros j Hj. rewrite (rsum_single P (next P j)); [rewrite Nat.eqb_refl; lra|apply next_lt; auto|].
    intros i _ Hne. destruct (Nat.eqb_spec i (next P j)); [congruence|lra].
Qed.
Lemma rsum_sq_pos P v : (exists i, (i < P)%nat /\ v i <> 0) -> 0 < rsum P (fun i => v i * v i).
Proof.
  intros [i [Hi Hv]]. assert (0 < v i * v i) by (apply Rlt_0_sqr in Hv; exact Hv).
  eapply Rlt_le_trans; [exact H|].
  replace (v i * v i) with (rsum P (fun k => if (k =? i)%nat then v k * v k else 0)).
  - apply rsum_le. intros k _. destruct (k =? i)%nat; [lra|]. apply Rle_0_sqr.
  - rewrite (rsum_single P i); auto; [rewrite Nat.eqb_refl; auto|]. intros k _ Hk. destruct (Nat.eqb_spec k i); [congruence|reflexivity].
Qed.
Lemma ring_eigenvalue P lam v : (3 <= P)%nat -> (exists i, (i < P)%nat /\ v i <> 0) ->
  (forall i, (i < P)%nat -> rsum P (fun j => ring_matrix P i j * v j) = lam * v i) -> -2 <= lam <= 2.
Proof.
  intros HP Hv Heig. pose proof (rsum_sq_pos P v Hv) as Hpos. set (s := rsum P (fun i => v i * v i)) in *.
  assert (lam * s = 2 * rsum P (fun i => v i * v (next P i))) as E.
  { transitivity (rsum P (fun i => rsum P (fun j => v i * ring_matrix P i j * v j))).
    - unfold s. rewrite <- rsum_scal. apply rsum_ext. intros i Hi.
      rewrite (rsum_ext P _ (fun j => v i * (ring_matrix P i j * v j))) by (intros; lra).
      rewrite rsum_scal, Heig by auto. lra.
    - rewrite ring_form by auto. lra. }
  assert (rsum P (fun i => v (next P i) * v (next P i)) = s) as E2 by (apply (rsum_next P (fun i => v i * v i))).
  assert (2 * rsum P (fun i => v i * v (next P i)) <= 2 * s).
  { replace (2 * s) with (s + rsum P (fun i => v (next P i) * v (next P i))) by lra. unfold s. rewrite <- rsum_plus, <- rsum_scal.
    apply rsum_le. intros i _. pose proof (Rle_0_sqr (v i - v (next P i))) as H. unfold Rsqr in H. lra. }
  assert (- (2 * s) <= 2 * rsum P (fun i => v i * v (next P i))).
  { assert (0 <= rsum P (fun i => v i * v i + v (next P i) * v (next P i) + 2 * (v i * v (next P i)))).
    { rewrite <- (rsum_0 P). apply rsum_le. intros i _. pose proof (Rle_0_sqr (v i + v (next P i))) as H'. unfold Rsqr in H'. lra. }
    rewrite !rsum_plus, rsum_scal, E2 in H0. fold s in H0. lra. }
  split; apply Rmult_le_reg_r with s; lra.
Qed.
Lemma eigen_equation A x l q : eigenbasis A x (l, q) -> forall i k, (i < A)%nat -> (k < A)%nat -> rsum A (fun j => x i j * q j k) = l k * q i k.
Proof.
  intros [HX [_ HC]] i k Hi Hk.
  rewrite (rsum_ext A _ (fun j => rsum A (fun u => q i u * l u * (q j u * q j k)))).
  2:{ intros j Hj. rewrite HX, Sum_rsum by auto. rewrite <- rsum_scal_r. apply rsum_ext. intros; lra. }
  rewrite rsum_swap, (rsum_single A k); auto.
  - rewrite rsum_scal. rewrite <- (Sum_rsum A (fun j => q j k * q j k)), HC by auto. unfold one. rewrite Nat.eqb_refl. lra.
  - intros u Hu Hne. rewrite rsum_scal. rewrite <- (Sum_rsum A (fun j => q j u * q j k)), HC by auto. unfold one.
    destruct (Nat.eqb_spec u k); [congruence|lra].
Qed.
Lemma eigenvector_nonzero A x l q k : eigenbasis A x (l, q) -> (k < A)%nat -> exists i, (i < A)%nat /\ q i k <> 0.
Proof.
  intros [_ [_ HC]] Hk. pose proof (HC k k Hk Hk) as H. rewrite Sum_rsum in H. unfold one in H. rewrite Nat.eqb_refl in H.
  assert (Hdec : (exists i, (i < A)%nat /\ q i k <> 0) \/ forall i, (i < A)%nat -> q i k = 0).
  { clear. induction A as [|A IH]; [right; intros; lia|]. destruct IH as [[i [Hi Hq]]|IH]; [left; exists i; split; auto|].
    destruct (Req_EM_T (q A k) 0) as [E|E]; [right|left; exists A; split; auto].
    intros i Hi. destruct (Nat.eq_dec i A) as [->|]; auto. apply IH; lia. }
  destruct Hdec as [|Hz]; auto. rewrite rsum_zero in H; [lra|]. intros i Hi. rewrite Hz by auto. lra.
Qed.
Lemma ring_eigenbasis_bound P lam U : (3 <= P)%nat -> eigenbasis P (ring_matrix P) (lam, U) -> forall k, (k < P)%nat -> -2 <= lam k <= 2.
Proof.
  intros HP H k Hk. apply (ring_eigenvalue P (lam k) (fun i => U i k)); auto.
  - eapply eigenvector_nonzero; eauto.
  - intros i Hi. apply (eigen_equation _ _ _ _ H); auto.
Qed.

Lemma icov_pos tau w lam : 0 < tau -> 0 < w -> -2 <= lam <= 2 -> 0 < 2 * / tanh (1 * tau * w) - / sinh (1 * tau * w) * lam.
Proof.
  intros Ht Hw Hl. rewrite Rmult_1_l. assert (Hx : 0 < tau * w) by (apply Rmult_lt_0_compat; auto).
  rewrite inv_tanh by auto. pose proof (sinh_pos _ Hx). pose proof (cosh_gt_1 _ Hx).
  replace (2 * (cosh (tau * w) / sinh (tau * w)) - / sinh (tau * w) * lam) with ((2 * cosh (tau * w) - lam) / sinh (tau * w)) by (field; lra).
  apply Rdiv_lt_0_compat; lra.
Qed.

(** ** Weights *)
Section Weights.
  Variables (beta tau : R) (rm : rho_model) (er : arr1).
  Hypothesis Hb : 0 < beta.
  Hypothesis Hr : r_energy rm = Some er.
  Hypothesis Hw : forall n, (n < r_modes rm)%nat -> 0 < r_omega rm n.
  Definition bolt (a : nat) : R := exp (- beta * (er a + lowering (r_modes rm) (r_omega rm) (fun n => r_linear rm n a))).
  Lemma weight_value a : (0 < r_states rm)%nat ->
    r_state_weight (fst (rho_precompute beta tau rm)) a = bolt a / rsum (r_states rm) bolt.
  Proof.
    intros HA. unfold rho_precompute. cbn [fst]. proj. unfold r_energy_at. proj. rewrite Hr.
    set (D := rprod (r_modes rm) (fun n => sinh (beta * r_omega rm n / 2))).
    assert (HD : 0 < D). { apply rprod_pos. intros n Hn. apply sinh_pos. apply Rdiv_lt_0_compat; [|lra]. apply Rmult_lt_0_compat; auto. }
    assert (Hf : forall b, exp (- beta * (er b + - / 2 * rsum (r_modes rm) (fun n => r_linear rm n b * r_linear rm n b / r_omega rm n))) = bolt b).
    { intros b. unfold bolt. rewrite <- (lowering_rsum (r_modes rm) (r_omega rm) (fun n => r_linear rm n b)). reflexivity. }
    rewrite Hf. rewrite (rsum_ext (r_states rm) _ (fun b => bolt b * / D)) by (intros; rewrite Hf; reflexivity).
    rewrite rsum_scal_r. assert (0 < rsum (r_states rm) bolt) by (apply rsum_pos; auto; intros; apply exp_pos).
    field. split; lra.
  Qed.
End Weights.

Lemma exp_pow x n : exp x ^ n = exp (INR n * x).
Proof.
  induction n; [simpl; rewrite Rmult_0_l, exp_0; reflexivity|].
  rewrite S_INR. cbn [pow]. rewrite IHn, <- exp_plus. apply (f_equal exp). lra.
Qed.

(** ** The sampled mixture is rho(R) *)
Section Mixture.
  Variables (P : nat) (beta : R) (rm : rho_model) (er lam : arr1) (U : arr2).
  Let A := r_states rm.
  Let N := r_modes rm.
  Let tau := beta / INR P.
  Hypothesis HP : (3 <= P)%nat.
  Hypothesis HA : (0 < A)%nat.
  Hypothesis Hb : 0 < beta.
  Hypothesis Hr : r_energy rm = Some er.
  Hypothesis Hw : forall n, (n < N)%nat -> 0 < r_omega rm n.
  Hypothesis HU : eigenbasis P (ring_matrix P) (lam, U).

  Lemma mix_tau : 0 < tau.
  Proof. apply Rdiv_lt_0_compat; auto. apply lt_0_INR. lia. Qed.

  Definition icov (n k : nat) : R := 2 * (cosh (tau * r_omega rm n) / sinh (tau * r_omega rm n)) - / sinh (tau * r_omega rm n) * lam k.
  Lemma icov_positive n k : (n < N)%nat -> (k < P)%nat -> 0 < icov n k.
  Proof.
    intros Hn Hk. unfold icov. assert (0 < tau * r_omega rm n) by (apply Rmult_lt_0_compat; auto using mix_tau).
    rewrite <- inv_tanh by auto. rewrite <- (Rmult_1_l tau). apply icov_pos; auto using mix_tau.
    eapply ring_eigenbasis_bound; eauto.
  Qed.

  (** the quadratic form in the eigenbasis *)
  Lemma norm_collective q : rsum P (fun p => q p * q p) = rsum P (fun k => rsum P (fun p => U p k * q p) * rsum P (fun p => U p k * q p)).
  Proof.
    destruct HU as [_ [HR _]]. symmetry.
    rewrite (rsum_ext P _ (fun k => rsum P (fun p => rsum P (fun p' => q p * q p' * (U p k * U p' k))))).
    2:{ intros k Hk. rewrite <- rsum_scal_r. apply rsum_ext. intros p Hp. rewrite <- rsum_scal. apply rsum_ext. intros; lra. }
    rewrite rsum_swap. apply rsum_ext. intros p Hp. rewrite rsum_swap. rewrite (rsum_single P p); auto.
    - rewrite rsum_scal. rewrite <- (Sum_rsum P (fun k => U p k * U p k)), HR by auto. unfold one. rewrite Nat.eqb_refl. lra.
    - intros p' Hp' Hne. rewrite rsum_scal. rewrite <- (Sum_rsum P (fun k => U p k * U p' k)), HR by auto. unfold one.
      destruct (Nat.eqb_spec p p'); [congruence|lra].
  Qed.
  Lemma form_collective q : 2 * rsum P (fun p => q p * q (next P p)) = rsum P (fun k => lam k * (rsum P (fun p => U p k * q p) * rsum P (fun p => U p k * q p))).
  Proof.
    destruct HU as [HX _]. transitivity (rsum P (fun i => rsum P (fun j => q i * ring_matrix P i j * q j))).
    { rewrite ring_form by auto. lra. }
    rewrite (rsum_ext P _ (fun i => rsum P (fun k => rsum P (fun j => lam k * (U i k * q i) * (U j k * q j))))).
    2:{ intros i Hi. rewrite rsum_swap. apply rsum_ext. intros j Hj. rewrite HX, Sum_rsum by auto.
        rewrite <- rsum_scal, <- rsum_scal_r. apply rsum_ext. intros; lra. }
    rewrite rsum_swap. apply rsum_ext. intros k Hk. rewrite <- rsum_scal_r, <- rsum_scal. apply rsum_ext. intros i Hi.
    rewrite <- rsum_scal, <- rsum_scal. apply rsum_ext. intros; lra.
  Qed.

  Definition coll (lin : arr1) (x : arr2) (n k : nat) : R := rsum P (fun p => U p k * (x p n - minimum (r_omega rm) lin n)).
  Lemma ring_gaussian E lin x :
    ring P N (r_omega rm) E lin tau x
    = exp (- beta * (E + lowering N (r_omega rm) lin)) * sqrt (rprod N (fun n => 1 / sinh (tau * r_omega rm n))) ^ P
      * exp (- (rsum N (fun n => rsum P (fun k => icov n k * (coll lin x n k * coll lin x n k))) / 2)).
  Proof.
    unfold ring, propagator. rewrite Prod_rprod.
    rewrite !rprod_mult, rprod_const, rprod_exp, rprod_const. f_equal; [f_equal|].
    - rewrite exp_pow. apply (f_equal exp). unfold tau. assert (INR P <> 0) by (apply not_0_INR; lia). field; auto.
    - rewrite Prod_rprod. reflexivity.
    - rewrite (rsum_ext P _ (fun p => - / 2 * rsum N (fun n =>
         cosh (tau * r_omega rm n) / sinh (tau * r_omega rm n) * ((x p n - minimum (r_omega rm) lin n) * (x p n - minimum (r_omega rm) lin n) + (x (next P p) n - minimum (r_omega rm) lin n) * (x (next P p) n - minimum (r_omega rm) lin n))
         - 2 * / sinh (tau * r_omega rm n) * ((x p n - minimum (r_omega rm) lin n) * (x (next P p) n - minimum (r_omega rm) lin n))))).
      2:{ intros p Hp. rewrite Sum_rsum.
          match goal with |- - (?a / 2) = - / 2 * ?b => replace b with a; [lra|] end.
          apply rsum_ext. intros n Hn. unfold Rdiv. lra. }
      rewrite rsum_scal. apply (f_equal exp).
      match goal with |- - / 2 * ?a = - (?b / 2) => replace b with a; [lra|] end.
      rewrite rsum_swap. apply rsum_ext. intros n Hn.
      set (q := fun p => x p n - minimum (r_omega rm) lin n).
      set (ct := cosh (tau * r_omega rm n) / sinh (tau * r_omega rm n)). set (cs := / sinh (tau * r_omega rm n)).
      transitivity (2 * ct * rsum P (fun p => q p * q p) - cs * (2 * rsum P (fun p => q p * q (next P p)))).
      + replace (2 * ct * rsum P (fun p => q p * q p)) with (ct * rsum P (fun p => q p * q p) + ct * rsum P (fun p => q (next P p) * q (next P p))).
        * rewrite <- !rsum_scal, <- rsum_plus, <- rsum_minus. apply rsum_ext. intros p Hp. unfold q. lra.
        * rewrite (rsum_next P (fun p => q p * q p)). lra.
      + rewrite norm_collective, form_collective, <- !rsum_scal, <- rsum_minus. apply rsum_ext. intros k Hk.
        change (icov n k) with (2 * ct - cs * lam k). change (coll lin x n k) with (rsum P (fun p => U p k * q p)).
        generalize (rsum P (fun p => U p k * q p)). intros s. ring.
  Qed.

  Definition dens (lin : arr1) (x : arr2) : R :=
    rprod N (fun n => rprod P (fun k => normal_density (sqrt (1 / icov n k)) (coll lin x n k))).
  Definition znorm : R := rprod N (fun n => rprod P (fun k => sqrt (1 / icov n k) * sqrt (2 * PI))).
  Lemma rprod_rprod_exp f : rprod N (fun n => rprod P (fun k => exp (f n k))) = exp (rsum N (fun n => rsum P (fun k => f n k))).
  Proof. rewrite <- rprod_exp. apply rprod_ext. intros n _. apply rprod_exp. Qed.
  Lemma dens_value lin x : dens lin x = / znorm * exp (- (rsum N (fun n => rsum P (fun k => icov n k * (coll lin x n k * coll lin x n k))) / 2)).
  Proof.
    unfold dens, znorm, normal_density.
    rewrite <- rprod_inv. rewrite (rprod_ext N (fun i => / _) (fun n => rprod P (fun k => / (sqrt (1 / icov n k) * sqrt (2 * PI))))).
    2:{ intros n _. rewrite rprod_inv. reflexivity. }
    rewrite (rprod_ext N _ (fun n => rprod P (fun k => / (sqrt (1 / icov n k) * sqrt (2 * PI))) * rprod P (fun k => exp (- (coll lin x n k ^ 2 / (2 * sqrt (1 / icov n k) ^ 2)))))).
    2:{ intros n _. rewrite rprod_mult. reflexivity. }
    rewrite rprod_mult, rprod_rprod_exp. f_equal. apply (f_equal exp).
    replace (- (rsum N (fun n => rsum P (fun k => icov n k * (coll lin x n k * coll lin x n k))) / 2))
      with (- / 2 * rsum N (fun n => rsum P (fun k => icov n k * (coll lin x n k * coll lin x n k)))) by lra.
    rewrite <- rsum_scal. apply rsum_ext. intros n Hn. rewrite <- rsum_scal. apply rsum_ext. intros k Hk.
    pose proof (icov_positive n k Hn Hk) as Hi.
    assert (Hs : sqrt (1 / icov n k) ^ 2 = 1 / icov n k).
    { simpl. rewrite Rmult_1_r. apply sqrt_sqrt. apply Rlt_le, Rdiv_lt_0_compat; lra. }
    rewrite Hs. field. lra.
  Qed.
  Lemma znorm_pos : 0 < znorm.
  Proof.
    apply rprod_pos. intros n Hn. apply rprod_pos. intros k Hk. pose proof (icov_positive n k Hn Hk).
    apply Rmult_lt_0_compat; apply sqrt_lt_R0; [apply Rdiv_lt_0_compat; lra|]. pose proof PI_RGT_0. lra.
  Qed.
  Definition mixK : R := znorm * sqrt (rprod N (fun n => 1 / sinh (tau * r_omega rm n))) ^ P * rsum A (bolt beta rm er).
  Lemma mixK_pos : 0 < mixK.
  Proof.
    unfold mixK. apply Rmult_lt_0_compat; [apply Rmult_lt_0_compat; [apply znorm_pos|]|].
    - apply pow_lt, sqrt_lt_R0, rprod_pos. intros n Hn. apply Rdiv_lt_0_compat; [lra|]. apply sinh_pos, Rmult_lt_0_compat; auto using mix_tau.
    - apply rsum_pos; auto. intros; apply exp_pos.
  Qed.
  Lemma mixture x :
    rho_of A P N (r_omega rm) er (r_linear rm) tau x
    = mixK * rsum A (fun a => r_state_weight (fst (rho_precompute beta tau rm)) a * dens (fun n => r_linear rm n a) x).
  Proof.
    unfold rho_of. rewrite Sum_rsum, <- rsum_scal. apply rsum_ext. intros a Ha.
    rewrite (weight_value beta tau rm er) by auto. fold A. rewrite ring_gaussian, dens_value. unfold mixK, bolt. fold N.
    pose proof znorm_pos. assert (0 < rsum A (bolt beta rm er)) by (apply rsum_pos; auto; intros; apply exp_pos).
    unfold bolt in *. fold N in H0. field. lra.
  Qed.
  Lemma model_sd a n k : standard_deviation (snd (rho_precompute beta tau rm)) lam a n k
     = sqrt (1 / (2 * / tanh (1 * tau * r_omega rm n) - / sinh (1 * tau * r_omega rm n) * lam k)).
  Proof. reflexivity. Qed.
  Lemma model_sd_icov a n k : (n < N)%nat -> standard_deviation (snd (rho_precompute beta tau rm)) lam a n k = sqrt (1 / icov n k).
  Proof.
    intros Hn. rewrite model_sd. rewrite Rmult_1_l, inv_tanh by (apply Rmult_lt_0_compat; auto using mix_tau). reflexivity.
  Qed.
End Mixture.
