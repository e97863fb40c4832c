(** Mismatched numbers of surfaces, training data, bounds after scaling. *)
From Coq Require Import Reals Lra FunctionalExtensionality.
From Verif Require Import Common Common_Proofs Pimc_Model Pimc_Spec Pimc_Proofs Pimc2_Proofs Pimc3_Proofs Pimc4_Proofs Pimc5_Proofs.
Local Open Scope R_scope.

Lemma build_o_index d c om ss shift : ss = b_states d \/ ss = b_rho_states d -> (t_states c < b_states d)%nat ->
  build_o_matrix d c om ss shift = Raise IndexError.
Proof.
  intros Hss Ht. unfold build_o_matrix.
  assert (negb (ss =? b_states d)%nat && negb (ss =? b_rho_states d)%nat = false) as ->.
  { destruct Hss as [->| ->]; rewrite Nat.eqb_refl; simpl; auto. apply andb_false_r. }
  destruct (Nat.ltb_spec (t_states c) (b_states d)); [reflexivity|lia].
Qed.
Lemma blocks_too_few eigh P beta db vm rm u U draws : prepare_pm P beta db vm rm = Ok u -> (r_states rm < v_states vm)%nat -> draws <> [] ->
  blocks_pm eigh u U draws (new_box P beta vm rm) omats0 = Raise IndexError.
Proof.
  intros Hu Hlt Hd. unfold prepare_pm in Hu. destruct (circulant_matrix P); [|discriminate].
  apply (f_equal (fun o => match o with Ok a => a | Raise _ => u end)) in Hu. cbn [bind] in Hu.
  destruct draws as [|[cc s] rest]; [congruence|]. cbn [blocks_pm].
  unfold evaluate_pm. rewrite build_o_index; [reflexivity| |]; rewrite <- Hu; cbn; auto.
Qed.

(** strictly fewer terms *)
Lemma rho_of_less A B P N omega E lin tau x : (A < B)%nat -> 0 < tau -> (forall n, (n < N)%nat -> 0 < omega n) ->
  rho_of A P N omega E lin tau x < rho_of B P N omega E lin tau x.
Proof.
  intros HAB Ht Hw. unfold rho_of. rewrite !Sum_rsum. induction HAB as [|B HAB IH]; simpl.
  - assert (0 < ring P N omega (E A) (fun n => lin n A) tau x); [|lra].
    unfold ring. rewrite Prod_rprod. apply rprod_pos. intros p _. apply propagator_pos; auto.
  - assert (0 < ring P N omega (E B) (fun n => lin n B) tau x); [|lra].
    unfold ring. rewrite Prod_rprod. apply rprod_pos. intros p _. apply propagator_pos; auto.
Qed.

(** ** Bounds of the scaled entries *)
Lemma oval_pos N P c q shift p a : 0 < t_prefactor c a -> 0 < oval N P c q shift p a.
Proof. intros H. apply Rmult_lt_0_compat; [apply exp_pos|auto]. Qed.
Lemma prefactor_pos T N omega e dl tau a : 0 < tau -> (forall n, (n < N)%nat -> 0 < omega n) -> 0 < t_prefactor (temperature_dependent T N omega e dl tau) a.
Proof.
  intros Ht Hw. cbn [t_prefactor temperature_dependent]. apply Rmult_lt_0_compat; [apply exp_pos|]. apply sqrt_lt_R0, rprod_pos. intros n Hn.
  apply Rinv_0_lt_compat, sinh_pos. rewrite Rmult_1_l. apply Rmult_lt_0_compat; auto.
Qed.
Lemma clean_bound A T P om v s : (0 < A)%nat -> clean A T P om -> (forall p a, (p < P)%nat -> (a < A)%nat -> om p a a = v p a / s p) ->
  (forall p a, (p < P)%nat -> (a < A)%nat -> 0 < v p a <= s p) ->
  forall p a b, (p < P)%nat -> (a < T)%nat -> (b < T)%nat -> 0 <= om p a b <= 1.
Proof.
  intros HA Hc Hv Hb p a b Hp Ha Hbb. destruct (Nat.eq_dec a b) as [->|Hne].
  - destruct (le_lt_dec A b).
    + rewrite Hc by auto. lra.
    + rewrite Hv by auto. destruct (Hb p b Hp l). split.
      * apply Rlt_le, Rdiv_lt_0_compat; lra.
      * apply Rmult_le_reg_r with (s p); [lra|]. unfold Rdiv. rewrite Rmult_assoc, Rinv_l by lra. lra.
  - rewrite Hc by auto. lra.
Qed.
Lemma evaluate_pm_bounds eigh u d w d' w' y : shapes_ok u d -> clean_w d w ->
  (forall a, 0 < t_prefactor (u_crho u) a) -> (forall a, 0 < t_prefactor (u_cvib u) a) ->
  evaluate_pm eigh u d w = Ok (d', w', y) ->
  (forall p a b, (p < b_beads d)%nat -> (a < b_rho_states d)%nat -> (b < b_rho_states d)%nat -> 0 <= o_rho w' p a b <= 1)
  /\ (forall p a b, (p < b_beads d)%nat -> (a < b_states d)%nat -> (b < b_states d)%nat -> 0 <= o_vib w' p a b <= 1)
  /\ (forall p, (p < b_beads d)%nat -> exists a, (a < b_states d)%nat /\ (o_rho w' p a a = 1 \/ o_vib w' p a a = 1)).
Proof.
  intros Hs Hw Hr Hv E. pose proof (evaluate_pm_check eigh u d w _ Hs Hw E) as Hck.
  destruct (evaluate_pm_ok eigh u d w Hs Hw Hck) as (w1 & Hw1 & E1 & V1). rewrite E in E1. injection E1 as _ -> _.
  pose proof Hs as (HA & HP & _). destruct Hw1 as (K1 & K2 & _).
  assert (B1 : forall p a, (a < b_states d)%nat -> 0 < v_rho u d p a <= s12 u d p).
  { intros p a Ha. split; [apply oval_pos; auto|]. unfold s12. eapply Rle_trans; [|apply Rmax_l].
    apply (top_ge _ _ (v_rho u d p)); lia. }
  assert (B2 : forall p a, (a < b_states d)%nat -> 0 < v_of u (u_cvib u) d p a <= s12 u d p).
  { intros p a Ha. split; [apply oval_pos; auto|]. unfold s12. eapply Rle_trans; [|apply Rmax_r].
    apply (top_ge _ _ (v_of u (u_cvib u) d p)); lia. }
  split; [|split].
  - apply (clean_bound (b_states d) _ _ _ (v_rho u d) (s12 u d)); auto; [lia|]. intros p a Hp Ha. apply V1; auto.
  - apply (clean_bound (b_states d) _ _ _ (v_of u (u_cvib u) d) (s12 u d)); auto; [lia|]. intros p a Hp Ha. apply V1; auto.
  - intros p Hp.
    assert (Hpos : 0 < s12 u d p). { destruct (B1 p 0%nat); [lia|lra]. }
    assert (s12 u d p = top (b_states d) (b_rho_states d) (v_rho u d p) \/ s12 u d p = top (b_states d) (b_states d) (v_of u (u_cvib u) d p)) as [Es|Es].
    { unfold s12, Rmax. destruct (Rle_dec _ _); auto. }
    + destruct (top_in (b_states d) (b_rho_states d) (v_rho u d p)) as [E0|(a & Ha & _ & Ea)]; [lia|lra|].
      exists a. split; auto. left. destruct (V1 p a Hp Ha) as [-> _]. rewrite Es, Ea. field. rewrite <- Ea, <- Es. lra.
    + destruct (top_in (b_states d) (b_states d) (v_of u (u_cvib u) d p)) as [E0|(a & Ha & _ & Ea)]; [lia|lra|].
      exists a. split; auto. right. destruct (V1 p a Hp Ha) as [_ ->]. rewrite Es, Ea. field. rewrite <- Ea, <- Es. lra.
Qed.

(** scaling by any factors *)
Lemma denominator_scale P c s om : build_denominator P c (scale_o_matrix s om) = build_denominator P c om / rprod P s.
Proof.
  unfold build_denominator, scale_o_matrix, Rdiv at 2. rewrite <- rsum_scal_r. apply rsum_ext. intros a _. apply rprod_div.
Qed.
Lemma numerator_scale d e s om : build_numerator d e (scale_o_matrix s om) = build_numerator d e om / rprod (b_beads d) s.
Proof.
  unfold build_numerator, Rdiv at 1. rewrite <- rsum_scal_r. apply rsum_ext. intros a Ha. cbv beta.
  rewrite !numerator_mprod by auto.
  rewrite (mprod_ext _ _ _ (fun p i j => matmul (b_states d) (m_matrix (b_states d) (b_tau d) (e p)) (om p) i j / s p)) by
    (auto; intros p Hp i j Hi Hj; unfold matmul, scale_o_matrix, Rdiv; rewrite <- rsum_scal_r; apply rsum_ext; intros; lra).
  rewrite (mprod_scale _ _ _ s a a) by auto. reflexivity.
Qed.

(** ** Training data *)
Lemma build_o_other d q' c om ss shift : ss <> b_states d ->
  match build_o_matrix (with_q d q' (b_qtemp d)) c om ss shift with Ok (_, o) => Ok o | Raise e => Raise e end
  = match build_o_matrix d c om ss shift with Ok (_, o) => Ok o | Raise e => Raise e end.
Proof.
  intros Hne. unfold build_o_matrix. cbv beta iota zeta delta [with_q b_states b_rho_states b_modes b_beads b_q b_qtemp].
  destruct d as [x1 x2 x3 x4 x5 x6 x7]. cbn [b_states] in Hne. destruct (Nat.eqb_spec ss x1); [contradiction|].
  destruct (negb false && negb (ss =? x2)%nat); [reflexivity|]. destruct (t_states c <? x1)%nat; [reflexivity|].
  match goal with |- context [passert ?b] => destruct b end; reflexivity.
Qed.
Section Raw.
  Variables (eigh : arr2 -> arr1 * arr2) (P : nat) (beta : R) (vm : vib_model) (rm : rho_model) (er : arr1).
  Let A := v_states vm.
  Let N := v_modes vm.
  Let tau := beta / INR P.
  Hypothesis HP : (3 <= P)%nat.
  Hypothesis HA : (0 < A)%nat.
  Hypothesis Hbeta : 0 < beta.
  Hypothesis Hwv : forall n, (n < N)%nat -> 0 < v_omega vm n.

  Lemma raw_g_value u x d0 w y :
    prepare P beta vm rm = Ok u -> clean A A P (o_vib w) ->
    (forall a n, (a < A)%nat -> (n < N)%nat -> minimum (v_omega vm) (fun n => v_linear vm n a a) n = d0 n) ->
    eigh_ok_at P vm eigh (fun p n => x n p - d0 n) ->
    raw_g eigh u x (new_box P beta vm rm) w = Ok y ->
    is_g A P N (v_omega vm) (v_energy vm) (v_linear vm) (v_quadratic vm) tau tau (fun p n => x n p - d0 n) y.
  Proof.
    intros Hu Hc Hd0 He Hy. rewrite (prepare_ok P beta 0 vm rm) in Hu by auto. injection Hu as <-.
    unfold raw_g in Hy. set (d1 := raw_coordinates (u_vib (u_plain P beta 0 vm rm)) x (new_box P beta vm rm)) in Hy.
    set (u := u_plain P beta 0 vm rm) in *.
    destruct (build_o_ok d1 (u_cvib u) (o_vib w) (v_states (u_vib u)) (v_state_shift (u_vib u))) as (om & E & K & V); auto.
    rewrite E in Hy. cbn [bind] in Hy. unfold diagonalize_coupling_matrix in Hy.
    destruct (check_coupling_symmetric d1 (u_vib u)) as [t0|e0]; [|discriminate]. cbn [bind] in Hy. injection Hy as <-.
    set (x' := fun p n => x n p - d0 n).
    set (d2 := with_q d1 (b_q d1) (fun a n p => x' p n)).
    assert (Hat : at_path P beta vm rm d2 x').
    { unfold at_path. do 5 (split; [reflexivity|]). split; [|reflexivity].
      intros a n p Ha Hn Hp. cbn [b_q d2 d1 with_q raw_coordinates]. unfold x'.
      rewrite <- (Hd0 a n Ha Hn). unfold u, u_plain, u_pm. proj. rewrite (proj2 (Nat.ltb_lt a (v_states vm)) Ha). unfold minimum, Rdiv. lra. }
    rewrite (numerator_value A A P d1 _ om (v_of u (u_cvib u) d1)); auto.
    2:{ intros p a Hp Ha. rewrite V by auto. rewrite own_q. reflexivity. }
    exists (ms eigh u d2). split.
    - intros p Hp. eapply (ms_value P beta 0 vm rm); eauto.
    - rewrite gval_trace. apply gval_ext; [intros; apply meq_refl|]. intros p a Hp Ha.
      change (v_of u (u_cvib u) d1 p a) with (v_of u (u_cvib u) d2 p a).
      apply (v_of_value P beta 0 vm rm Hwv u d2 x'); auto. apply Rdiv_lt_0_compat; auto. apply lt_0_INR; lia.
  Qed.

  Lemma raw_rho_const u x x' w : prepare P beta vm rm = Ok u -> (A < r_states rm)%nat ->
    raw_rho u x (new_box P beta vm rm) w = raw_rho u x' (new_box P beta vm rm) w.
  Proof.
    intros Hu Hlt. rewrite (prepare_ok P beta 0 vm rm) in Hu by auto. injection Hu as <-. unfold raw_rho.
    assert (Hne : r_states (u_rho (u_plain P beta 0 vm rm)) <> b_states (new_box P beta vm rm)) by (cbn; unfold A in Hlt; lia).
    pose proof (build_o_other (new_box P beta vm rm) (fun a n p => x n p - v_state_shift (u_vib (u_plain P beta 0 vm rm)) a n)
      (u_crho (u_plain P beta 0 vm rm)) (o_rho w) _ (r_state_shift (u_rho (u_plain P beta 0 vm rm))) Hne) as E1.
    pose proof (build_o_other (new_box P beta vm rm) (fun a n p => x' n p - v_state_shift (u_vib (u_plain P beta 0 vm rm)) a n)
      (u_crho (u_plain P beta 0 vm rm)) (o_rho w) _ (r_state_shift (u_rho (u_plain P beta 0 vm rm))) Hne) as E2.
    rewrite <- E2 in E1. clear E2. unfold raw_coordinates.
    destruct (build_o_matrix (with_q _ (fun a n p => x n p - _) _) _ _ _ _) as [[d1 o1]|e1] eqn:F1;
      destruct (build_o_matrix (with_q _ (fun a n p => x' n p - _) _) _ _ _ _) as [[d2 o2]|e2] eqn:F2; try discriminate; cbn [bind].
    - injection E1 as ->. apply build_o_any in F1. apply build_o_any in F2. subst. reflexivity.
    - injection E1 as ->. reflexivity.
  Qed.
End Raw.

Lemma rsum_pos_one n f : (forall i, (i < n)%nat -> 0 <= f i) -> (exists i, (i < n)%nat /\ 0 < f i) -> 0 < rsum n f.
Proof.
  intros H0 [i [Hi H]]. eapply Rlt_le_trans; [exact H|].
  replace (f i) with (rsum n (fun k => if (k =? i)%nat then f k else 0)).
  - apply rsum_le. intros k Hk. destruct (k =? i)%nat; [lra|auto].
  - rewrite (rsum_single n i); auto; [rewrite Nat.eqb_refl; auto|]. intros k _ Hne. destruct (Nat.eqb_spec k i); [congruence|auto].
Qed.
(** a path displaced from the minimum has a smaller weight than the path at the minimum *)
Lemma ring_displaced P N omega E lin tau d0 : (0 < P)%nat -> 0 < tau -> (forall n, (n < N)%nat -> 0 < omega n) ->
  (forall n, (n < N)%nat -> d0 n = minimum omega lin n) -> (exists n, (n < N)%nat /\ d0 n <> 0) ->
  ring P N omega E lin tau (fun _ n => d0 n - d0 n) < ring P N omega E lin tau (fun _ n => d0 n).
Proof.
  intros HP Ht Hw Hd [n0 [Hn0 Hne]]. unfold ring. rewrite !Prod_rprod, !rprod_const.
  assert (forall x y n, 0 < x -> x < y -> (0 < n)%nat -> x ^ n < y ^ n) as Hpow.
  { intros x y n Hx Hxy Hn. induction n as [|n IH]; [lia|]. destruct n; [simpl; lra|].
    change (x * x ^ S n < y * y ^ S n). apply Rmult_gt_0_lt_compat; [apply pow_lt; auto|lra|auto|apply IH; lia]. }
  apply Hpow; auto; [apply propagator_pos; auto|].
  unfold propagator. apply Rmult_lt_compat_l.
  - apply Rmult_lt_0_compat; [apply exp_pos|]. apply sqrt_lt_R0. rewrite Prod_rprod. apply rprod_pos. intros n Hn.
    apply Rdiv_lt_0_compat; [lra|]. apply sinh_pos, Rmult_lt_0_compat; auto.
  - apply exp_increasing. rewrite !Sum_rsum.
    rewrite (rsum_zero N (fun n => _ * ((d0 n - _) ^ 2 + _) - _)).
    2:{ intros n Hn. rewrite Hd by auto. unfold Rdiv. ring. }
    match goal with |- - (?s / 2) < - (0 / 2) => assert (0 < s); [|lra] end.
    assert (Hf : forall n, (n < N)%nat -> cosh (tau * omega n) / sinh (tau * omega n) * ((d0 n - d0 n - minimum omega lin n) ^ 2 + (d0 n - d0 n - minimum omega lin n) ^ 2)
        - 2 * (d0 n - d0 n - minimum omega lin n) * (d0 n - d0 n - minimum omega lin n) / sinh (tau * omega n)
      = 2 * (d0 n * d0 n) * ((cosh (tau * omega n) - 1) / sinh (tau * omega n))).
    { intros n Hn. rewrite Hd by auto. assert (0 < sinh (tau * omega n)) by (apply sinh_pos, Rmult_lt_0_compat; auto). field. lra. }
    assert (Hc : forall n, (n < N)%nat -> 0 < (cosh (tau * omega n) - 1) / sinh (tau * omega n)).
    { intros n Hn. assert (0 < tau * omega n) by (apply Rmult_lt_0_compat; auto).
      apply Rdiv_lt_0_compat; [pose proof (cosh_gt_1 _ H); lra|apply sinh_pos; auto]. }
    apply rsum_pos_one.
    + intros n Hn. rewrite Hf by auto. pose proof (Hc n Hn). apply Rmult_le_pos; [|lra]. pose proof (Rle_0_sqr (d0 n)) as Hq. unfold Rsqr in Hq. lra.
    + exists n0. split; auto. rewrite Hf by auto. pose proof (Hc n0 Hn0). apply Rmult_lt_0_compat; [|lra]. pose proof (Rlt_0_sqr _ Hne) as Hq. unfold Rsqr in Hq. lra.
Qed.

(** ** Blocks do not depend on what was computed before *)
Section Concat.
  Variable eigh : arr2 -> arr1 * arr2.
  Variable u : setup.
  Definition sized (d d' : box) : Prop :=
    b_states d' = b_states d /\ b_rho_states d' = b_rho_states d /\ b_modes d' = b_modes d /\ b_beads d' = b_beads d /\ b_tau d' = b_tau d.
  Lemma evaluate_same d d' w w' r : sized d d' -> b_q d' = b_q d ->
    (forall a n p, (a < b_states d)%nat -> b_qtemp d' a n p = b_qtemp d a n p) ->
    shapes_ok u d -> clean_w d w -> clean_w d' w' -> evaluate_pm eigh u d w = Ok r ->
    exists w1, clean_w d' w1 /\ evaluate_pm eigh u d' w' = Ok (d', w1, snd r).
  Proof.
    intros (S1 & S2 & S3 & S4 & S5) Hq Hqt Hs Hc Hc' E.
    assert (Hs' : shapes_ok u d') by (unfold shapes_ok in *; rewrite S1, S2, S4; exact Hs).
    pose proof (evaluate_pm_check _ _ _ _ _ Hs Hc E) as Hck.
    assert (Hck' : check_coupling_symmetric d' (u_vib u) = Ok tt).
    { rewrite <- Hck. unfold check_coupling_symmetric, coupling_matrix. rewrite S1, S3, S4, Hq. reflexivity. }
    destruct (evaluate_pm_ok eigh u d w Hs Hc Hck) as (w1 & _ & E1 & _).
    destruct (evaluate_pm_ok eigh u d' w' Hs' Hc' Hck') as (w2 & K2 & E2 & _).
    rewrite E in E1. injection E1 as ->. exists w2. split; auto. rewrite E2. cbn [snd].
    assert (Hr : forall p a, (a < b_states d)%nat -> v_rho u d' p a = v_rho u d p a).
    { intros p a Ha. unfold v_rho, oval, used_q. rewrite S1, S2, S3, S4, Hq. destruct (b_rho_states d =? b_states d)%nat; [reflexivity|].
      f_equal. apply (f_equal exp). f_equal. apply rsum_ext. intros n _. rewrite !Hqt by auto. reflexivity. }
    assert (Hv : forall c, v_of u c d' = v_of u c d).
    { intros c. unfold v_of. rewrite S3, S4, Hq. reflexivity. }
    assert (Hs12 : forall p, s12 u d' p = s12 u d p).
    { intros p. unfold s12. rewrite S1, S2, Hv. f_equal. apply top_ext. intros a Ha. apply Hr; auto. }
    assert (Hp : rprod (b_beads d) (s12 u d') = rprod (b_beads d) (s12 u d)) by (apply rprod_ext; auto).
    assert (Hy : y_rho u d' = y_rho u d).
    { unfold y_rho. rewrite S1, S4, Hp. f_equal. apply rsum_ext. intros a Ha. apply rprod_ext. intros p _. apply Hr; auto. }
    assert (Hg : forall c, y_g eigh u c d' = y_g eigh u c d).
    { intros c. unfold y_g. rewrite S1, S4, Hp, Hv. f_equal. unfold ms, coupling_matrix. rewrite S1, S3, S5, Hq. reflexivity. }
    rewrite Hy, !Hg. reflexivity.
  Qed.
  Lemma blocks_restart U l d w d' w' ys : sized d d' -> shapes_ok u d -> clean_w d w -> clean_w d' w' ->
    blocks_pm eigh u U l d w = Ok ys -> blocks_pm eigh u U l d' w' = Ok ys.
  Proof.
    revert d w d' w' ys. induction l as [|[cc s] l IH]; intros d w d' w' ys Hsz Hs Hc Hc' H; [exact H|].
    pose proof Hsz as (S1 & S2 & S3 & S4 & S5).
    cbn [blocks_pm] in *. set (t := transform_sampled_coordinates U cc _ d) in *. set (t' := transform_sampled_coordinates U cc _ d').
    destruct (evaluate_pm eigh u t w) as [[[d1 w1] y]|e] eqn:E; [|discriminate]. cbn [bind] in H.
    assert (Ht : sized t t') by exact Hsz.
    assert (Hst : shapes_ok u t) by exact Hs. assert (Hct : clean_w t w) by exact Hc. assert (Hct' : clean_w t' w') by exact Hc'.
    assert (HQ : b_q t' = b_q t).
    { unfold t, t', transform_sampled_coordinates, with_q. cbn [b_q]. rewrite S4. reflexivity. }
    assert (HT : forall a n p, (a < b_states t)%nat -> b_qtemp t' a n p = b_qtemp t a n p).
    { intros a n p Ha. unfold t, t', transform_sampled_coordinates, with_q. cbn [b_qtemp]. rewrite S2, S4.
      destruct (Nat.ltb_spec a (b_rho_states d)) as [|Hge]; [reflexivity|]. exfalso. destruct Hs as ((_ & Hle) & _). cbn in Ha. lia. }
    destruct (evaluate_same t t' w w' _ Ht HQ HT Hst Hct Hct' E) as (w2 & K2 & E2).
    rewrite E2. cbn [bind snd].
    destruct (evaluate_pm_ok eigh u t w Hst Hct (evaluate_pm_check _ _ _ _ _ Hst Hct E)) as (w3 & K3 & E3 & _).
    rewrite E in E3. injection E3 as -> -> _.
    destruct (blocks_pm eigh u U l t w3) as [ys0|e] eqn:E4; [|discriminate]. cbn [bind] in H. injection H as <-.
    rewrite (IH t w3 t' w2 ys0); auto.
  Qed.
  Lemma blocks_app U l1 l2 d w ys1 ys2 : shapes_ok u d -> clean_w d w ->
    blocks_pm eigh u U l1 d w = Ok ys1 -> blocks_pm eigh u U l2 d w = Ok ys2 -> blocks_pm eigh u U (l1 ++ l2) d w = Ok (ys1 ++ ys2).
  Proof.
    revert d w ys1. induction l1 as [|[cc s] l1 IH]; intros d w ys1 Hs Hc H1 H2.
    - cbn in H1. injection H1 as <-. exact H2.
    - cbn [blocks_pm app] in *. set (t := transform_sampled_coordinates U cc _ d) in *.
      destruct (evaluate_pm eigh u t w) as [[[d1 w1] y]|e] eqn:E; [|discriminate]. cbn [bind] in *.
      assert (Hst : shapes_ok u t) by exact Hs. assert (Hct : clean_w t w) by exact Hc.
      destruct (evaluate_pm_ok eigh u t w Hst Hct (evaluate_pm_check _ _ _ _ _ Hst Hct E)) as (w3 & K3 & E3 & _).
      rewrite E in E3. injection E3 as -> -> _.
      destruct (blocks_pm eigh u U l1 t w3) as [ys0|e] eqn:E4; [|discriminate]. cbn [bind] in H1. injection H1 as <-.
      rewrite (IH t w3 ys0); auto.
      apply (blocks_restart U l2 d w t w3 ys2); auto. unfold sized. repeat split.
  Qed.
End Concat.
