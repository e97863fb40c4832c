(** Rotation of the beads, choice of eigenvectors, uncoupled models, one
    surface, mismatched numbers of surfaces, training data. *)
From Coq Require Import Reals Lra FunctionalExtensionality.
From Verif Require Import Common Common_Proofs Pimc_Model Pimc_Spec Pimc_Proofs Pimc2_Proofs Pimc3_Proofs Pimc4_Proofs.
Local Open Scope R_scope.

(** ** Rotation *)
Lemma mod_next P p k : (0 < P)%nat -> next P ((p + k) mod P) = ((p + S k) mod P)%nat.
Proof.
  intros HP. rewrite <- next_mod by (apply Nat.mod_upper_bound; lia).
  rewrite Nat.add_mod_idemp_l by lia. f_equal. lia.
Qed.
Lemma rprod_rot P k : forall f, rprod P (fun p => f ((p + k) mod P)%nat) = rprod P f.
Proof.
  destruct P as [|P']; [reflexivity|]. set (P := S P'). induction k as [|k IH]; intros f.
  - apply rprod_ext. intros p Hp. rewrite Nat.add_0_r, Nat.mod_small; auto.
  - rewrite <- (rprod_next P f), <- (IH (fun p => f (next P p))). apply rprod_ext. intros p _.
    rewrite mod_next by (unfold P; lia). reflexivity.
Qed.
Lemma tr_mprod_rot A P k : forall f, tr A (mprod A P (fun p => f ((p + k) mod P)%nat)) = tr A (mprod A P f).
Proof.
  destruct P as [|P']; [reflexivity|]. set (P := S P'). induction k as [|k IH]; intros f.
  - apply tr_meq, mprod_ext. intros p Hp. rewrite Nat.add_0_r, Nat.mod_small; auto. apply meq_refl.
  - rewrite <- (tr_mprod_next A P f), <- (IH (fun p => f (next P p))). apply tr_meq, mprod_ext. intros p _.
    rewrite mod_next by (unfold P; lia). apply meq_refl.
Qed.
Lemma gval_rot A P k M v : gval A P (fun p => M ((p + k) mod P)%nat) (fun p => v ((p + k) mod P)%nat) = gval A P M v.
Proof. unfold gval. apply (tr_mprod_rot A P k (fun p => matmul A (M p) (fun i j => v p i * one i j))). Qed.

Definition rotated (k : nat) (d : box) : box :=
  with_q d (fun a n p => b_q d a n ((p + k) mod b_beads d)%nat) (fun a n p => b_qtemp d a n ((p + k) mod b_beads d)%nat).

Lemma oval_rot N P c q shift k p a : (0 < P)%nat ->
  oval N P c (fun a n p => q a n ((p + k) mod P)%nat) shift p a = oval N P c q shift ((p + k) mod P)%nat a.
Proof.
  intros HP. unfold oval.
  assert ((((p + 1) mod P + k) mod P)%nat = (((p + k) mod P + 1) mod P)%nat) as E.
  { rewrite !Nat.add_mod_idemp_l by lia. f_equal. lia. }
  rewrite E. reflexivity.
Qed.

Section Rotate.
  Variable eigh : arr2 -> arr1 * arr2.
  Variable u : setup.
  Lemma shapes_rot k d : shapes_ok u d -> shapes_ok u (rotated k d).
  Proof. intros H; exact H. Qed.
  Lemma check_rot k d : (0 < b_beads d)%nat -> check_coupling_symmetric d (u_vib u) = Ok tt -> check_coupling_symmetric (rotated k d) (u_vib u) = Ok tt.
  Proof.
    intros HP H. unfold check_coupling_symmetric in *.
    match type of H with passert ?b = _ => destruct b eqn:E; [|discriminate] end.
    match goal with |- passert ?b = _ => assert (b = true) as ->; [|reflexivity] end.
    rewrite all_below_true in E. apply all_below_true. intros p Hp.
    apply (E ((p + k) mod b_beads d)%nat). apply Nat.mod_upper_bound. lia.
  Qed.
  Lemma v_of_rot k d c p a : (0 < b_beads d)%nat -> v_of u c (rotated k d) p a = v_of u c d ((p + k) mod b_beads d)%nat a.
  Proof. intros HP. unfold v_of. apply oval_rot; auto. Qed.
  Lemma v_rho_rot k d p a : (0 < b_beads d)%nat -> v_rho u (rotated k d) p a = v_rho u d ((p + k) mod b_beads d)%nat a.
  Proof.
    intros HP. unfold v_rho, used_q, rotated. cbn [b_states b_rho_states with_q b_modes b_beads b_q b_qtemp].
    destruct (b_rho_states d =? b_states d)%nat; apply oval_rot; auto.
  Qed.
  Lemma s12_rot k d p : (0 < b_beads d)%nat -> s12 u (rotated k d) p = s12 u d ((p + k) mod b_beads d)%nat.
  Proof.
    intros HP. unfold s12. f_equal; apply top_ext; intros a Ha; [apply v_rho_rot|apply v_of_rot]; auto.
  Qed.
  Lemma y_rho_rot k d : (0 < b_beads d)%nat -> y_rho u (rotated k d) = y_rho u d.
  Proof.
    intros HP. unfold y_rho. f_equal.
    - apply rsum_ext. intros a Ha. rewrite <- (rprod_rot (b_beads d) k (fun p => v_rho u d p a)). apply rprod_ext. intros p _. apply v_rho_rot; auto.
    - rewrite <- (rprod_rot (b_beads d) k (s12 u d)). apply rprod_ext. intros p _. apply s12_rot; auto.
  Qed.
  Lemma y_g_rot k c d : (0 < b_beads d)%nat -> y_g eigh u c (rotated k d) = y_g eigh u c d.
  Proof.
    intros HP. unfold y_g. f_equal.
    - rewrite <- (gval_rot (b_states d) (b_beads d) k (ms eigh u d) (v_of u c d)). apply gval_ext.
      + intros p _. apply meq_refl.
      + intros p a _ _. apply v_of_rot; auto.
    - rewrite <- (rprod_rot (b_beads d) k (s12 u d)). apply rprod_ext. intros p _. apply s12_rot; auto.
  Qed.

  (** states of the cached O matrices reached by the loop *)
  Inductive reachable (d0 : box) : omats -> Prop :=
  | reach_start : reachable d0 omats0
  | reach_block w q qt d' w' y : reachable d0 w -> evaluate_pm eigh u (with_q d0 q qt) w = Ok (d', w', y) -> reachable d0 w'.

  Lemma evaluate_pm_check d w r : shapes_ok u d -> clean_w d w -> evaluate_pm eigh u d w = Ok r -> check_coupling_symmetric d (u_vib u) = Ok tt.
  Proof.
    intros Hs (C1 & C2 & C3 & C4) H. pose proof Hs as (HA & HP & T1 & T2 & T3 & T4 & T5 & T6).
    destruct (build_o_ok d (u_crho u) (o_rho w) (r_states (u_rho u)) (r_state_shift (u_rho u))) as (om1 & E1 & K1 & V1);
      [right; congruence|lia|rewrite T1; auto|].
    destruct (build_o_ok d (u_cvib u) (o_vib w) (v_states (u_vib u)) (v_state_shift (u_vib u))) as (om2 & E2 & K2 & V2);
      [left; congruence|lia|rewrite T4; auto|].
    unfold evaluate_pm in H. rewrite E1 in H. cbn [bind] in H. rewrite E2 in H. cbn [bind] in H.
    unfold diagonalize_coupling_matrix in H. unfold check_coupling_symmetric in *.
    match goal with |- passert ?b = _ => destruct b; [reflexivity|discriminate] end.
  Qed.
  Lemma reachable_clean d0 w : shapes_ok u d0 -> reachable d0 w -> clean_w d0 w.
  Proof.
    intros Hs H. induction H as [|w q qt d' w' y _ IH E].
    - repeat split; apply zero_clean.
    - assert (Hs' : shapes_ok u (with_q d0 q qt)) by exact Hs.
      assert (Hc' : clean_w (with_q d0 q qt) w) by exact IH.
      pose proof (evaluate_pm_check _ _ _ Hs' Hc' E) as Hck.
      destruct (evaluate_pm_ok eigh u _ w Hs' Hc' Hck) as (w2 & Hw2 & E2 & _). rewrite E in E2. injection E2 as _ -> _. exact Hw2.
  Qed.
  Lemma evaluate_rot k d w w1 y : shapes_ok u d -> clean_w d w -> evaluate_pm eigh u d w = Ok (d, w1, y) ->
    exists w2, evaluate_pm eigh u (rotated k d) w = Ok (rotated k d, w2, y).
  Proof.
    intros Hs Hw E. pose proof (evaluate_pm_check _ _ _ Hs Hw E) as Hck. pose proof Hs as (_ & HP & _).
    destruct (evaluate_pm_ok eigh u d w Hs Hw Hck) as (wa & _ & Ea & _).
    destruct (evaluate_pm_ok eigh u (rotated k d) w (shapes_rot k d Hs) Hw (check_rot k d HP Hck)) as (wb & _ & Eb & _).
    rewrite E in Ea. injection Ea as _ ->. exists wb. rewrite Eb.
    rewrite y_rho_rot, !y_g_rot by auto. reflexivity.
  Qed.
  (** the values of a block do not depend on the state left by earlier blocks *)
  Lemma evaluate_history d w w' r : shapes_ok u d -> clean_w d w -> clean_w d w' -> evaluate_pm eigh u d w = Ok r ->
    exists w1, evaluate_pm eigh u d w' = Ok (d, w1, snd r).
  Proof.
    intros Hs Hw Hw' E. pose proof (evaluate_pm_check _ _ _ Hs Hw E) as Hck.
    destruct (evaluate_pm_ok eigh u d w Hs Hw Hck) as (wa & _ & Ea & _).
    destruct (evaluate_pm_ok eigh u d w' Hs Hw' Hck) as (wb & _ & Eb & _).
    rewrite E in Ea. injection Ea as ->. exists wb. exact Eb.
  Qed.
End Rotate.

(** ** Choice of the eigenvectors *)
Lemma m_matrix_indep A tau V V' e e' : meq A V V' -> eigenbasis A V e -> eigenbasis A V' e' -> meq A (m_matrix A tau e) (m_matrix A tau e').
Proof.
  intros H H1 H2. apply (mexp_unique A (fun i j => - tau * V i j)).
  - apply m_matrix_mexp; auto.
  - eapply mexp_ext; [|apply m_matrix_mexp, H2]. intros i j Hi Hj. rewrite H by auto. reflexivity.
Qed.
Lemma numerator_ext A P mm mm' om : (forall p, (p < P)%nat -> meq A (mm p) (mm' p)) -> meq A (numerator A P mm om) (numerator A P mm' om).
Proof.
  induction P; intros H; [apply meq_refl|]. cbn [numerator]. apply matmul_meq; [|apply meq_refl]. apply matmul_meq; auto.
Qed.
Lemma build_numerator_indep d e e' om V :
  (forall p, (p < b_beads d)%nat -> eigenbasis (b_states d) (V p) (e p) /\ eigenbasis (b_states d) (V p) (e' p)) ->
  build_numerator d e om = build_numerator d e' om.
Proof.
  intros H. unfold build_numerator.
  match goal with |- rsum _ (fun a => ?f a a) = rsum _ (fun a => ?g a a) => change (tr (b_states d) f = tr (b_states d) g) end.
  apply tr_meq, numerator_ext. intros p Hp. destruct (H p Hp). eapply m_matrix_indep; [apply meq_refl| |]; eauto.
Qed.

(** ** g(R) is a function *)
Lemma is_g_unique A P N omega E lin quad tV tO x y y' :
  is_g A P N omega E lin quad tV tO x y -> is_g A P N omega E lin quad tV tO x y' -> y = y'.
Proof.
  intros (M & H1 & ->) (M' & H2 & ->). rewrite !gval_trace. apply gval_ext; auto.
  intros p Hp. eapply mexp_unique; [apply H1|apply H2]; auto.
Qed.
Lemma is_g_uncoupled A P N omega E lin quad tV tO x y :
  (forall p b c, (p < P)%nat -> (b < A)%nat -> (c < A)%nat -> coupling N E lin quad (x p) b c = 0) ->
  is_g A P N omega E lin quad tV tO x y <-> y = rho_of A P N omega (fun a => E a a) (fun n a => lin n a a) tO x.
Proof.
  intros H0.
  assert (Hval : forall M, (forall p, (p < P)%nat -> is_mexp A (fun i j => - tV * coupling N E lin quad (x p) i j) (M p)) ->
    trace A (chain A P M (fun p a => propagator N omega (E a a) (fun n => lin n a a) tO (x p) (x (next P p)))) = rho_of A P N omega (fun a => E a a) (fun n a => lin n a a) tO x).
  { intros M HM. rewrite gval_trace, gval_one.
    - unfold rho_of, ring. rewrite Sum_rsum. apply rsum_ext. intros a _. rewrite Prod_rprod. reflexivity.
    - intros p Hp. eapply mexp_unique; [apply HM; auto|]. apply mexp_zero. intros i j Hi Hj. rewrite H0 by auto. lra. }
  split.
  - intros (M & HM & ->). apply Hval; auto.
  - intros ->. exists (fun _ => one). split.
    + intros p Hp. apply mexp_zero. intros i j Hi Hj. rewrite H0 by auto. lra.
    + symmetry. apply Hval. intros p Hp. apply mexp_zero. intros i j Hi Hj. rewrite H0 by auto. lra.
Qed.
Lemma rho_of_pos A P N omega E lin tau x : (0 < A)%nat -> 0 < tau -> (forall n, (n < N)%nat -> 0 < omega n) -> 0 < rho_of A P N omega E lin tau x.
Proof.
  intros HA Ht Hw. unfold rho_of. rewrite Sum_rsum. apply rsum_pos; auto. intros a _. unfold ring. rewrite Prod_rprod.
  apply rprod_pos. intros p _. apply propagator_pos; auto.
Qed.
Lemma rho_of_ext A P N omega omega' E E' lin lin' tau x : (forall n, (n < N)%nat -> omega n = omega' n) -> (forall a, (a < A)%nat -> E a = E' a) ->
  (forall n a, (n < N)%nat -> (a < A)%nat -> lin n a = lin' n a) ->
  rho_of A P N omega E lin tau x = rho_of A P N omega' E' lin' tau x.
Proof.
  intros H1 H2 H3. unfold rho_of. rewrite !Sum_rsum. apply rsum_ext. intros a Ha. unfold ring. rewrite !Prod_rprod. apply rprod_ext. intros p _.
  assert (forall n, (n < N)%nat -> minimum omega (fun n => lin n a) n = minimum omega' (fun n => lin' n a) n) as Hm.
  { intros n Hn. unfold minimum. rewrite H1, H3; auto. }
  assert (lowering N omega (fun n => lin n a) = lowering N omega' (fun n => lin' n a)) as Hl.
  { unfold lowering. rewrite !Sum_rsum. f_equal. f_equal. apply rsum_ext. intros n Hn. rewrite H1, H3; auto. }
  unfold propagator. rewrite !Sum_rsum, !Prod_rprod, H2, Hl by auto. f_equal; [f_equal|].
  - apply (f_equal sqrt), rprod_ext. intros n Hn. rewrite H1; auto.
  - apply (f_equal exp). apply (f_equal (fun z => - (z / 2))), rsum_ext. intros n Hn. rewrite H1, Hm by auto. reflexivity.
Qed.

(** one surface *)
Lemma mexp_one x m : is_mexp 1 x m -> m 0%nat 0%nat = exp (x 0%nat 0%nat).
Proof.
  intros H.
  assert (eigenbasis 1 x ((fun _ => x 0%nat 0%nat), one)) as He.
  { unfold eigenbasis. repeat split; intros i j Hi Hj; replace i with 0%nat by lia; replace j with 0%nat by lia; rewrite ?Sum_rsum; simpl; unfold one; simpl; lra. }
  pose proof (m_matrix_mexp 1 (-1) x _ He) as Hm.
  assert (meq 1 (fun i j => - -1 * x i j) x) as Hx by (intros i j _ _; lra).
  pose proof (mexp_ext _ _ _ _ Hx Hm) as Hm'.
  rewrite (mexp_unique _ _ _ _ H Hm' 0%nat 0%nat ltac:(lia) ltac:(lia)). unfold m_matrix. simpl. unfold one; simpl.
  match goal with |- _ = ?r => replace r with (1 * r) by lra end. rewrite Rplus_0_l, Rmult_1_r. f_equal. apply (f_equal exp). lra.
Qed.
Lemma mprod_one P f : mprod 1 P f 0%nat 0%nat = rprod P (fun p => f p 0%nat 0%nat).
Proof. induction P; [reflexivity|]. simpl. unfold matmul; simpl. rewrite IHP. lra. Qed.
Lemma is_g_one P N omega E lin quad tV tO x y : is_g 1 P N omega E lin quad tV tO x y ->
  y = exp (- tV * rsum P (fun p => coupling N E lin quad (x p) 0 0)) * ring P N omega (E 0%nat 0%nat) (fun n => lin n 0%nat 0%nat) tO x.
Proof.
  intros (M & HM & ->). rewrite gval_trace. unfold gval, tr. simpl rsum at 1. rewrite mprod_one. unfold ring. rewrite Prod_rprod, <- rsum_scal, <- rprod_exp, <- rprod_mult, Rplus_0_l.
  apply rprod_ext. intros p Hp. unfold matmul. simpl. unfold one. simpl. rewrite (mexp_one _ _ (HM p Hp)). lra.
Qed.
Lemma is_g_one_ex P N omega E lin quad tV tO x : exists y, is_g 1 P N omega E lin quad tV tO x y.
Proof.
  eexists. exists (fun p => m_matrix 1 tV ((fun _ => coupling N E lin quad (x p) 0 0), one)). split; [|reflexivity].
  intros p Hp. apply m_matrix_mexp. unfold eigenbasis. repeat split; intros i j Hi Hj; replace i with 0%nat by lia; replace j with 0%nat by lia; rewrite ?Sum_rsum; simpl; unfold one; simpl; lra.
Qed.
