(** Limits of the finite-difference estimators as delta_beta tends to 0. *)
From Coq Require Import List Reals Lra Lia.
From Verif Require Import Stats_Model Stats_Proofs.
Import ListNotations.
Local Open Scope R_scope.

(** F h tends to L as h tends to 0, h <> 0 *)
Definition tends (F : R -> R) (L : R) : Prop :=
  forall eps, 0 < eps -> exists d, 0 < d /\ forall h, h <> 0 -> Rabs h < d -> Rabs (F h - L) < eps.

Lemma tends_const c : tends (fun _ => c) c.
Proof. intros e He. exists 1. split; [lra|]. intros. rewrite Rminus_diag_eq, Rabs_R0; auto. Qed.
Lemma tends_ext d F F' L : 0 < d -> (forall h, h <> 0 -> Rabs h < d -> F h = F' h) -> tends F L -> tends F' L.
Proof.
  intros Hd H HF e He. destruct (HF e He) as (d1 & H1 & H2). exists (Rmin d d1). split; [apply Rmin_pos; auto|].
  intros h Hh Hm. pose proof (Rmin_l d d1). pose proof (Rmin_r d d1). rewrite <- H by (auto; lra). apply H2; auto; lra.
Qed.
Lemma tends_limit F L : tends F L <-> limit1_in F (fun h => h <> 0) L 0.
Proof.
  unfold tends, limit1_in, limit_in, dist, R_met, R_dist. cbn. split; intros H e He; destruct (H e He) as (d & H1 & H2); exists d; split; auto.
  - intros x [Hx Hd]. apply H2; auto. rewrite Rminus_0_r in Hd. auto.
  - intros x Hx Hd. apply H2. split; auto. rewrite Rminus_0_r. auto.
Qed.
Lemma tends_plus F G' a b : tends F a -> tends G' b -> tends (fun h => F h + G' h) (a + b).
Proof. rewrite !tends_limit. intros. apply limit_plus; auto. Qed.
Lemma tends_mul F G' a b : tends F a -> tends G' b -> tends (fun h => F h * G' h) (a * b).
Proof. rewrite !tends_limit. intros. apply limit_mul; auto. Qed.
Lemma tends_opp F a : tends F a -> tends (fun h => - F h) (- a).
Proof. rewrite !tends_limit. intros. apply limit_Ropp; auto. Qed.
Lemma tends_unique F a b : tends F a -> tends F b -> a = b.
Proof.
  intros HA HB. destruct (Req_dec a b) as [|N]; auto. exfalso.
  assert (0 < Rabs (a - b)) as P by (apply Rabs_pos_lt; lra).
  destruct (HA (Rabs (a - b) / 2)) as (d1 & P1 & H1); [lra|]. destruct (HB (Rabs (a - b) / 2)) as (d2 & P2 & H2); [lra|].
  set (h := Rmin d1 d2 / 2). assert (0 < h) by (unfold h; pose proof (Rmin_pos _ _ P1 P2); lra).
  assert (Rabs h < d1 /\ Rabs h < d2) as [L1 L2].
  { rewrite Rabs_right by lra. unfold h in *. pose proof (Rmin_l d1 d2). pose proof (Rmin_r d1 d2). lra. }
  specialize (H1 h ltac:(lra) L1). specialize (H2 h ltac:(lra) L2).
  assert (Rabs (a - b) <= Rabs (F h - a) + Rabs (F h - b)); [|lra].
  replace (a - b) with ((F h - b) - (F h - a)) by ring. unfold Rminus at 1. rewrite Rplus_comm. eapply Rle_trans; [apply Rabs_triang|]. rewrite Rabs_Ropp. lra.
Qed.

Lemma sd1_limit f b f1 : derivable_pt_lim f b f1 -> tends (sd1 f b) (f1 / f b).
Proof.
  intros H. unfold sd1, Rdiv. apply (tends_mul (fun h => (f (b + h) - f (b - h)) * / (2 * h)) (fun _ => / f b)); [|apply tends_const].
  intros e He. destruct (H e He) as (d & Hd). exists d. split; [apply cond_pos|]. intros h Hh Hm.
  pose proof (Hd h Hh Hm) as A. assert (- h <> 0) as Hh' by lra. pose proof (Hd (- h) Hh') as B. rewrite Rabs_Ropp in B. specialize (B Hm).
  replace ((f (b + h) - f (b - h)) * / (2 * h) - f1) with (/ 2 * ((f (b + h) - f b) / h - f1) + / 2 * ((f (b + - h) - f b) / - h - f1)).
  2:{ unfold Rminus at 5. replace (b + - h) with (b - h) by ring. field. auto. }
  eapply Rle_lt_trans; [apply Rabs_triang|]. rewrite !Rabs_mult, (Rabs_right (/ 2)) by lra. lra.
Qed.

Section Second.
  Variables (f f1 : R -> R) (b f2 d0 : R).
  Hypothesis Hd0 : 0 < d0.
  Hypothesis Hf : forall x, Rabs (x - b) < d0 -> derivable_pt_lim f x (f1 x).
  Hypothesis Hf1 : derivable_pt_lim f1 b f2.

  Let psi t := f (b + t) + f (b - t) - 2 * f b - f2 * t ^ 2.
  Let psi' t := f1 (b + t) - f1 (b - t) - 2 * f2 * t.

  Lemma psi_deriv t : Rabs t < d0 -> derivable_pt_lim psi t (psi' t).
  Proof.
    intros Ht. unfold psi, psi'.
    assert (derivable_pt_lim (fun t => f (b + t)) t (f1 (b + t))) as A.
    { replace (f1 (b + t)) with (f1 (b + t) * (0 + 1)) by ring. apply (derivable_pt_lim_comp (fun t => b + t) f).
      - apply derivable_pt_lim_plus; [apply derivable_pt_lim_const|apply derivable_pt_lim_id].
      - apply Hf. replace (b + t - b) with t by ring. auto. }
    assert (derivable_pt_lim (fun t => f (b - t)) t (- f1 (b - t))) as B.
    { replace (- f1 (b - t)) with (f1 (b - t) * (0 - 1)) by ring. apply (derivable_pt_lim_comp (fun t => b - t) f).
      - apply derivable_pt_lim_minus; [apply derivable_pt_lim_const|apply derivable_pt_lim_id].
      - apply Hf. replace (b - t - b) with (- t) by ring. rewrite Rabs_Ropp. auto. }
    assert (derivable_pt_lim (fun t => f2 * t ^ 2) t (f2 * (INR 2 * t ^ 1))) as C.
    { apply derivable_pt_lim_scal. apply derivable_pt_lim_pow. }
    replace (f1 (b + t) - f1 (b - t) - 2 * f2 * t) with (((f1 (b + t) + - f1 (b - t)) - 0) - f2 * (INR 2 * t ^ 1)) by (simpl; ring).
    apply (derivable_pt_lim_minus (fun t => f (b + t) + f (b - t) - 2 * f b)); auto.
    apply (derivable_pt_lim_minus (fun t => f (b + t) + f (b - t)) (fun _ => 2 * f b)); [|apply derivable_pt_lim_const].
    apply (derivable_pt_lim_plus (fun t => f (b + t)) (fun t => f (b - t))); auto.
  Qed.

  Lemma psi_small e : 0 < e -> exists d, 0 < d /\ forall h, 0 < h -> h < d -> Rabs (psi h) <= 2 * e * h * h.
  Proof.
    intros He. destruct (Hf1 e He) as (d & Hd). exists (Rmin d0 d). split; [apply Rmin_pos; auto; apply cond_pos|].
    intros h Hh Hm. pose proof (Rmin_l d0 d). pose proof (Rmin_r d0 d).
    destruct (MVT_cor2 psi psi' 0 h Hh) as (c & E & Hc).
    { intros c Hc. apply psi_deriv. rewrite Rabs_right; lra. }
    assert (psi 0 = 0) as P0 by (unfold psi; rewrite Rplus_0_r, Rminus_0_r; ring).
    rewrite P0, !Rminus_0_r in E. rewrite E, Rabs_mult, (Rabs_right h) by lra.
    apply Rmult_le_compat_r; [lra|].
    assert (forall k, Rabs k = c -> k <> 0 -> Rabs (f1 (b + k) - f1 b - f2 * k) <= e * c) as A.
    { intros k Hk Hk0. specialize (Hd k Hk0). rewrite Hk in Hd. specialize (Hd ltac:(lra)).
      replace (f1 (b + k) - f1 b - f2 * k) with (((f1 (b + k) - f1 b) / k - f2) * k) by (field; auto).
      rewrite Rabs_mult, Hk. apply Rmult_le_compat_r; lra. }
    unfold psi'. replace (f1 (b + c) - f1 (b - c) - 2 * f2 * c) with ((f1 (b + c) - f1 b - f2 * c) + - (f1 (b + - c) - f1 b - f2 * - c)).
    2:{ replace (b + - c) with (b - c) by ring. ring. }
    eapply Rle_trans; [apply Rabs_triang|]. rewrite Rabs_Ropp.
    assert (Rabs (f1 (b + c) - f1 b - f2 * c) <= e * c) by (apply A; [apply Rabs_right|]; lra).
    assert (Rabs (f1 (b + - c) - f1 b - f2 * - c) <= e * c) by (apply A; [rewrite Rabs_Ropp; apply Rabs_right|]; lra).
    assert (e * c <= e * h) by (apply Rmult_le_compat_l; lra). lra.
  Qed.

  Lemma sd2_limit : tends (sd2 f b) (f2 / f b).
  Proof.
    unfold sd2, Rdiv. apply (tends_mul (fun h => (f (b + h) - 2 * f b + f (b - h)) * / h ^ 2) (fun _ => / f b)); [|apply tends_const].
    intros e He. destruct (psi_small (e / 4)) as (d & Hd & Hs); [lra|]. exists d. split; auto. intros h Hh Hm.
    assert (Rabs (psi h) <= 2 * (e / 4) * Rabs h * Rabs h) as A.
    { destruct (Rle_dec 0 h) as [P|N].
      - rewrite (Rabs_right h) in * by lra. apply Hs; lra.
      - rewrite (Rabs_left h) in * by lra. replace (psi h) with (psi (- h)); [apply Hs; lra|].
        unfold psi. replace (b + - h) with (b - h) by ring. replace (b - - h) with (b + h) by ring. ring. }
    replace ((f (b + h) - 2 * f b + f (b - h)) * / h ^ 2 - f2) with (psi h * / (h * h)) by (unfold psi; field; auto).
    assert (0 < h * h) as HH by nra.
    rewrite Rabs_mult, (Rabs_right (/ (h * h))) by (apply Rle_ge, Rlt_le, Rinv_0_lt_compat; auto).
    replace (Rabs h * Rabs h) with (h * h) in A by (rewrite <- Rabs_mult; symmetry; apply Rabs_right; lra).
    apply Rmult_lt_reg_r with (h * h); auto. rewrite Rmult_assoc, Rinv_l, Rmult_1_r by lra.
    assert (Rabs h * Rabs h = h * h) as HA by (rewrite <- Rabs_mult; apply Rabs_right; lra).
    assert (2 * (e / 4) * Rabs h * Rabs h = e / 2 * (h * h)) by (rewrite !Rmult_assoc, HA; field).
    assert (0 < e * (h * h)) by (apply Rmult_lt_0_compat; auto). lra.
  Qed.
End Second.

Section Double.
  Variables (Z Z1 Zr Zr1 : R -> R) (b Z2 Zr2 d0 T : R).
  Hypothesis Hd0 : 0 < d0.
  Hypothesis HZ : forall x, Rabs (x - b) < d0 -> derivable_pt_lim Z x (Z1 x) /\ derivable_pt_lim Zr x (Zr1 x) /\ 0 < Zr x.
  Hypothesis HZ2 : derivable_pt_lim Z1 b Z2.
  Hypothesis HZr2 : derivable_pt_lim Zr1 b Zr2.
  Hypothesis HZb : Z b <> 0.
  Variable l : R -> list point.
  Hypothesis Hl : forall db, exact_samples Z Zr b db (l db).

  Let a db := analytic_of Zr b db (- (Zr1 b / Zr b)) ((Zr2 / Zr b - (Zr1 b / Zr b) ^ 2) / (boltzman * T ^ 2)).

  Lemma at_b : derivable_pt_lim Z b (Z1 b) /\ derivable_pt_lim Zr b (Zr1 b) /\ 0 < Zr b.
  Proof. apply HZ. rewrite Rminus_diag_eq, Rabs_R0; auto. Qed.

  Lemma near h : Rabs h < d0 -> 0 < Zr (b + h) /\ 0 < Zr (b - h).
  Proof.
    intros H. split; apply HZ; [replace (b + h - b) with h by ring; auto|]. replace (b - h - b) with (- h) by ring. rewrite Rabs_Ropp. auto.
  Qed.

  Let D x := Z x / Zr x.
  Let D1 x := (Z1 x * Zr x - Zr1 x * Z x) / Rsqr (Zr x).
  Let D2 := ((Z2 * Zr b - Zr2 * Z b) * Rsqr (Zr b) - (Z1 b * Zr b - Zr1 b * Z b) * (2 * Zr1 b * Zr b)) / Rsqr (Rsqr (Zr b)).

  Lemma D_deriv x : Rabs (x - b) < d0 -> derivable_pt_lim D x (D1 x).
  Proof. intros H. destruct (HZ x H) as (A & B & C). apply derivable_pt_lim_div; auto. lra. Qed.

  Lemma D1_deriv : derivable_pt_lim D1 b D2.
  Proof.
    destruct at_b as (A & B & C).
    assert (derivable_pt_lim (fun x => Z1 x * Zr x - Zr1 x * Z x) b (Z2 * Zr b - Zr2 * Z b)) as N.
    { replace (Z2 * Zr b - Zr2 * Z b) with ((Z2 * Zr b + Z1 b * Zr1 b) - (Zr2 * Z b + Zr1 b * Z1 b)) by ring.
      apply (derivable_pt_lim_minus (fun x => Z1 x * Zr x) (fun x => Zr1 x * Z x));
        apply (derivable_pt_lim_mult); auto. }
    assert (derivable_pt_lim (fun x => Rsqr (Zr x)) b (2 * Zr1 b * Zr b)) as M.
    { replace (2 * Zr1 b * Zr b) with (Zr1 b * Zr b + Zr b * Zr1 b) by ring. apply (derivable_pt_lim_mult Zr Zr); auto. }
    unfold D1, D2. replace ((Z1 b * Zr b - Zr1 b * Z b) * (2 * Zr1 b * Zr b)) with ((2 * Zr1 b * Zr b) * (Z1 b * Zr b - Zr1 b * Z b)) by ring.
    apply (derivable_pt_lim_div (fun x => Z1 x * Zr x - Zr1 x * Z x) (fun x => Rsqr (Zr x))); auto.
    apply Rgt_not_eq, Rsqr_pos_lt. lra.
  Qed.

  Lemma D_ratios : D1 b / D b = Z1 b / Z b - Zr1 b / Zr b /\
    D2 / D b - (D1 b / D b) ^ 2 = (Z2 / Z b - (Z1 b / Z b) ^ 2) - (Zr2 / Zr b - (Zr1 b / Zr b) ^ 2).
  Proof. destruct at_b as (_ & _ & C). unfold D, D1, D2, Rsqr. split; field; split; auto; lra. Qed.

  Lemma tends_div F c k L : tends F L -> tends (fun h => F h / c + k) (L / c + k).
  Proof. intros H. apply (tends_plus (fun h => F h / c) (fun _ => k)); [|apply tends_const]. apply (tends_mul F (fun _ => / c)); auto. apply tends_const. Qed.
  Lemma tends_cumulant F1 F2 L1 L2 : tends F1 L1 -> tends F2 L2 -> tends (fun h => F2 h - F1 h ^ 2) (L2 - L1 ^ 2).
  Proof.
    intros H1 H2. apply (tends_plus F2 (fun h => - F1 h ^ 2)); auto. apply (tends_opp (fun h => F1 h ^ 2)).
    replace (L1 ^ 2) with (L1 * L1) by ring. apply (tends_ext 1 (fun h => F1 h * F1 h)); [lra|intros; ring|]. apply tends_mul; auto.
  Qed.

  Theorem alpha_limit :
    tends (fun db => e_E (alpha_with db T (length (l db)) (arrays (l db)) (a db))) (- (Z1 b / Z b)) /\
    tends (fun db => e_Cv (alpha_with db T (length (l db)) (arrays (l db)) (a db))) ((Z2 / Z b - (Z1 b / Z b) ^ 2) / (boltzman * T ^ 2)).
  Proof.
    destruct at_b as (A & B & C). destruct D_ratios as [R1 R2].
    assert (forall h, h <> 0 -> Rabs h < d0 -> let e := alpha_with h T (length (l h)) (arrays (l h)) (a h) in
       e_E e = - sd1 D b h + - (Zr1 b / Zr b) /\ e_Cv e = (sd2 D b h - sd1 D b h ^ 2) / (boltzman * T ^ 2) + (Zr2 / Zr b - (Zr1 b / Zr b) ^ 2) / (boltzman * T ^ 2)) as X.
    { intros h H1 H2. destruct (near h H2). apply exact_alpha; auto; lra. }
    assert (tends (sd1 D b) (D1 b / D b)) as T1 by (apply sd1_limit, D_deriv; rewrite Rminus_diag_eq, Rabs_R0; auto).
    assert (tends (sd2 D b) (D2 / D b)) as T2 by (apply (sd2_limit D D1 b D2 d0); auto using D_deriv, D1_deriv).
    split.
    - apply (tends_ext d0 (fun h => - sd1 D b h + - (Zr1 b / Zr b))); auto.
      { intros h H1 H2. symmetry. apply X; auto. }
      replace (- (Z1 b / Z b)) with (- (D1 b / D b) + - (Zr1 b / Zr b)) by (rewrite R1; ring).
      apply (tends_plus (fun h => - sd1 D b h) (fun _ => - (Zr1 b / Zr b))); [apply tends_opp; auto|apply tends_const].
    - apply (tends_ext d0 (fun h => (sd2 D b h - sd1 D b h ^ 2) / (boltzman * T ^ 2) + (Zr2 / Zr b - (Zr1 b / Zr b) ^ 2) / (boltzman * T ^ 2))); auto.
      { intros h H1 H2. symmetry. apply X; auto. }
      replace ((Z2 / Z b - (Z1 b / Z b) ^ 2) / (boltzman * T ^ 2)) with
        ((D2 / D b - (D1 b / D b) ^ 2) / (boltzman * T ^ 2) + (Zr2 / Zr b - (Zr1 b / Zr b) ^ 2) / (boltzman * T ^ 2)) by (rewrite R2; unfold Rdiv; ring).
      apply (tends_div (fun h => sd2 D b h - sd1 D b h ^ 2)). apply tends_cumulant; auto.
  Qed.

  Theorem basic_limit :
    tends (fun db => e_E (basic_with db T (length (l db)) (arrays (l db)) (a db))) (- (Z1 b / Z b) + - (Zr1 b / Zr b)) /\
    tends (fun db => e_Cv (basic_with db T (length (l db)) (arrays (l db)) (a db)))
      ((Z2 / Z b - (Z1 b / Z b) ^ 2) / (boltzman * T ^ 2) + (Zr2 / Zr b - (Zr1 b / Zr b) ^ 2) / (boltzman * T ^ 2)).
  Proof.
    destruct at_b as (A & B & C).
    assert (forall h, h <> 0 -> Rabs h < d0 -> let e := basic_with h T (length (l h)) (arrays (l h)) (a h) in
       e_E e = - sd1 Z b h + - (Zr1 b / Zr b) /\ e_Cv e = (sd2 Z b h - sd1 Z b h ^ 2) / (boltzman * T ^ 2) + (Zr2 / Zr b - (Zr1 b / Zr b) ^ 2) / (boltzman * T ^ 2)) as X.
    { intros h H1 H2. apply exact_basic; auto; lra. }
    assert (tends (sd1 Z b) (Z1 b / Z b)) as T1 by (apply sd1_limit; auto).
    assert (tends (sd2 Z b) (Z2 / Z b)) as T2 by (apply (sd2_limit Z Z1 b Z2 d0); auto; intros; apply HZ; auto).
    split.
    - apply (tends_ext d0 (fun h => - sd1 Z b h + - (Zr1 b / Zr b))); auto.
      { intros h H1 H2. symmetry. apply X; auto. }
      apply (tends_plus (fun h => - sd1 Z b h) (fun _ => - (Zr1 b / Zr b))); [apply tends_opp; auto|apply tends_const].
    - apply (tends_ext d0 (fun h => (sd2 Z b h - sd1 Z b h ^ 2) / (boltzman * T ^ 2) + (Zr2 / Zr b - (Zr1 b / Zr b) ^ 2) / (boltzman * T ^ 2))); auto.
      { intros h H1 H2. symmetry. apply X; auto. }
      apply (tends_div (fun h => sd2 Z b h - sd1 Z b h ^ 2)). apply tends_cumulant; auto.
  Qed.
End Double.

(** sampling from the model itself: the difference estimator has no error *)
Theorem alpha_self Zr b T E Cv l :
  exact_samples Zr Zr b delta_beta l -> Zr b <> 0 -> Zr (b + delta_beta) <> 0 -> Zr (b - delta_beta) <> 0 ->
  let e := alpha_statistical_analysis T (length l) (arrays l) (analytic_of Zr b delta_beta E Cv) in
  e_Z e = 1 /\ e_E e = E /\ e_Cv e = Cv.
Proof.
  intros H H0 H1 H2. pose proof delta_beta_pos. cbv zeta. change (alpha_statistical_analysis T) with (alpha_with delta_beta T).
  destruct (exact_alpha Zr Zr b delta_beta T E Cv l) as [E1 E2]; auto; try lra.
  assert (forall x, x <> 0 -> x / x = 1) as DD by (intros; field; auto).
  split; [|split].
  - unfold alpha_with. rewrite alpha_terms. unfold estimate_basic_properties, basic_estimate_Z, basic_estimate_E, basic_estimate_Cv. cbn. rewrite (proj1 H). field. auto.
  - rewrite E1. unfold sd1. rewrite !DD by auto. unfold Rdiv. ring.
  - rewrite E2. unfold sd1, sd2. rewrite !DD by auto. unfold Rdiv. ring.
Qed.
