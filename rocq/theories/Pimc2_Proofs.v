(** The O matrices and the loop bodies. *)
From Coq Require Import Reals Lra FunctionalExtensionality.
From Verif Require Import Common Common_Proofs Pimc_Model Pimc_Spec Pimc_Proofs.
Local Open Scope R_scope.

(** value of the diagonal O matrix entry of surface [a] at bead [p] *)
Definition oval (N P : nat) (c : tdc) (q : arr3) (shift : arr2) (p a : nat) : R :=
  exp (- / 2 * rsum N (fun n =>
     t_coth c a n * ((q a n p - shift a n) * (q a n p - shift a n)
                     + (q a n ((p + 1) mod P)%nat - shift a n) * (q a n ((p + 1) mod P)%nat - shift a n))
     - 2 * t_csch c a n * (q a n p - shift a n) * (q a n ((p + 1) mod P)%nat - shift a n))) * t_prefactor c a.

Definition clean (A T P : nat) (om : arr3) : Prop :=
  forall p a b, (p < P)%nat -> (a < T)%nat -> (b < T)%nat -> a <> b \/ (A <= a)%nat -> om p a b = 0.

Definition used_q (d : box) (ss : nat) : arr3 := if (ss =? b_states d)%nat then b_q d else b_qtemp d.

Lemma with_q_id d q qt : (forall a n p, q a n p = b_q d a n p) -> (forall a n p, qt a n p = b_qtemp d a n p) -> with_q d q qt = d.
Proof.
  intros H1 H2. destruct d as [x1 x2 x3 x4 x5 x6 x7]. unfold with_q. simpl in *.
  replace q with x6 by (repeat (apply functional_extensionality; intro); auto).
  replace qt with x7 by (repeat (apply functional_extensionality; intro); auto). reflexivity.
Qed.

Lemma build_o_any d c om ss shift d' om' : build_o_matrix d c om ss shift = Ok (d', om') -> d' = d.
Proof.
  unfold build_o_matrix. destruct (negb _ && negb _); [discriminate|].
  destruct (t_states c <? b_states d)%nat; [discriminate|].
  match goal with |- context [passert ?b] => destruct b end; simpl; [|discriminate].
  intros H; injection H as Hd _. rewrite <- Hd. destruct (ss =? b_states d)%nat;
    match goal with |- with_q (with_q d _ _) ?q ?qt = d => change (with_q d q qt = d) end;
    apply with_q_id; intros; unfold with_q; simpl; lra.
Qed.

Lemma build_o_ok d c om ss shift :
  ss = b_states d \/ ss = b_rho_states d -> (b_states d <= t_states c)%nat ->
  clean (b_states d) (t_states c) (b_beads d) om ->
  exists om', build_o_matrix d c om ss shift = Ok (d, om')
  /\ clean (b_states d) (t_states c) (b_beads d) om'
  /\ (forall p a, (a < b_states d)%nat -> om' p a a = oval (b_modes d) (b_beads d) c (used_q d ss) shift p a).
Proof.
  intros Hss Ht Hc. destruct (build_o_matrix d c om ss shift) as [[d' om']|e] eqn:E.
  - exists om'. pose proof (build_o_any _ _ _ _ _ _ _ E) as ->. split; auto.
    unfold build_o_matrix in E. destruct (negb _ && negb _); [discriminate|].
    destruct (t_states c <? b_states d)%nat; [discriminate|].
    match type of E with context [passert ?b] => destruct b end; simpl in E; [|discriminate].
    injection E as _ <-. split.
    + intros p a b Hp Ha Hb Hab. destruct (Nat.eqb_spec a b) as [->|Hne]; simpl.
      * destruct Hab as [H|H]; [congruence|]. destruct (Nat.ltb_spec b (b_states d)); [lia|]. rewrite Hc; auto. lra.
      * rewrite Hc; auto. lra.
    + intros p a Ha. rewrite Nat.eqb_refl. destruct (Nat.ltb_spec a (b_states d)); [|lia]. simpl.
      unfold oval, used_q, roll. destruct (ss =? b_states d)%nat; reflexivity.
  - exfalso. unfold build_o_matrix in E.
    assert (negb (ss =? b_states d)%nat && negb (ss =? b_rho_states d)%nat = false) as Hs.
    { destruct Hss as [->| ->]; rewrite Nat.eqb_refl; simpl; auto. apply andb_false_r. }
    rewrite Hs in E. destruct (Nat.ltb_spec (t_states c) (b_states d)); [lia|].
    match type of E with context [passert ?b] => assert (b = true) as Hb end.
    { apply all_below_true. intros a Ha. apply all_below_true. intros b Hb.
      destruct (Nat.eqb_spec a b) as [->|Hne]; [reflexivity|]. apply all_below_true. intros p Hp. simpl.
      unfold is_zero. destruct (Req_EM_T _ _) as [_|n]; [reflexivity|]. exfalso; apply n. apply Hc; auto. }
    rewrite Hb in E. discriminate.
Qed.

Lemma scale_clean A T P s om : clean A T P om -> clean A T P (scale_o_matrix s om).
Proof. intros H p a b Hp Ha Hb Hab. unfold scale_o_matrix. rewrite H; auto. unfold Rdiv; lra. Qed.
Lemma zero_clean A T P : clean A T P zero3.
Proof. intros p a b _ _ _ _. reflexivity. Qed.

(** scaling factor of a bead from the diagonal values *)
Definition diag_of (A : nat) (v : nat -> R) (a b : nat) : R := if ((a =? b) && (a <? A))%nat then v a else 0.
Definition top (A T : nat) (v : nat -> R) : R := rmax T (fun a => rmax T (fun b => diag_of A v a b)).
Lemma top_ext A T v v' : (forall a, (a < A)%nat -> v a = v' a) -> top A T v = top A T v'.
Proof.
  intros H. unfold top. apply rmax_ext. intros a _. apply rmax_ext. intros b _. unfold diag_of.
  destruct (Nat.ltb_spec a A); destruct (a =? b)%nat; simpl; auto.
Qed.
Lemma scaling_top A c P om v p : clean A (t_states c) P om -> (p < P)%nat -> (forall a, (a < A)%nat -> om p a a = v a) ->
  omatrix_scaling c om p = top A (t_states c) v.
Proof.
  intros Hc Hp Hv. unfold omatrix_scaling, top. apply rmax_ext. intros a Ha. apply rmax_ext. intros b Hb.
  unfold diag_of. destruct (Nat.eqb_spec a b) as [->|Hne]; simpl.
  - destruct (Nat.ltb_spec b A); [auto|]. apply Hc; auto.
  - apply Hc; auto.
Qed.
Lemma top_ge A T v a : (a < A)%nat -> (A <= T)%nat -> v a <= top A T v.
Proof.
  intros Ha HT. unfold top.
  apply Rle_trans with (rmax T (fun b => diag_of A v a b)).
  - replace (v a) with (diag_of A v a a). { apply (rmax_ge T (fun b => diag_of A v a b)). lia. }
    unfold diag_of. rewrite Nat.eqb_refl. destruct (Nat.ltb_spec a A); [reflexivity|lia].
  - apply (rmax_ge T (fun a => rmax T (fun b => diag_of A v a b))). lia.
Qed.
Lemma top_in A T v : (0 < T)%nat -> top A T v = 0 \/ exists a, (a < A)%nat /\ (a < T)%nat /\ top A T v = v a.
Proof.
  intros HT. unfold top. destruct (rmax_in T (fun a => rmax T (fun b => diag_of A v a b)) HT) as [a [Ha Ea]].
  destruct (rmax_in T (fun b => diag_of A v a b) HT) as [b [Hb Eb]]. rewrite Ea, Eb. unfold diag_of.
  destruct (Nat.ltb_spec a A); destruct (Nat.eqb_spec a b); simpl; auto. right; exists a; auto.
Qed.
Lemma top_pos A T v : (0 < A)%nat -> (A <= T)%nat -> (forall a, (a < A)%nat -> 0 < v a) -> 0 < top A T v.
Proof. intros HA HT H. pose proof (top_ge A T v 0%nat HA HT). pose proof (H 0%nat HA). lra. Qed.

Lemma denominator_value A P c om v : clean A (t_states c) P om -> (0 < P)%nat -> (A <= t_states c)%nat ->
  (forall p a, (p < P)%nat -> (a < A)%nat -> om p a a = v p a) ->
  build_denominator P c om = rsum A (fun a => rprod P (fun p => v p a)).
Proof.
  intros Hc HP HA Hv. unfold build_denominator. rewrite (rsum_cut _ A).
  - apply rsum_ext. intros a Ha. apply rprod_ext. auto.
  - auto.
  - intros a Ha. apply (rprod_zero _ 0%nat); auto. apply Hc; lia.
Qed.

Definition gval (A P : nat) (M : nat -> arr2) (v : nat -> nat -> R) : R :=
  tr A (mprod A P (fun p => matmul A (M p) (fun i j => v p i * one i j))).
Lemma gval_ext A P M M' v v' : (forall p, (p < P)%nat -> meq A (M p) (M' p)) -> (forall p a, (p < P)%nat -> (a < A)%nat -> v p a = v' p a) ->
  gval A P M v = gval A P M' v'.
Proof.
  intros HM Hv. apply tr_meq, mprod_ext. intros p Hp. apply matmul_meq; [apply HM; auto|].
  intros i j Hi Hj. rewrite Hv; auto.
Qed.
Lemma gval_scale A P M v s : gval A P M (fun p a => v p a / s p) = gval A P M v / rprod P s.
Proof.
  unfold gval. etransitivity; [apply tr_meq, (mprod_ext A P _ (fun p i j => matmul A (M p) (fun i j => v p i * one i j) i j / s p))|].
  - intros p Hp i j Hi Hj. unfold matmul, Rdiv. rewrite <- rsum_scal_r. apply rsum_ext. intros k _. lra.
  - rewrite (tr_meq A _ _ (mprod_scale A P _ s)). unfold tr, Rdiv. rewrite rsum_scal_r. reflexivity.
Qed.
Lemma gval_trace A P M v : trace A (chain A P M v) = gval A P M v.
Proof. rewrite trace_tr. apply tr_meq, chain_mprod. Qed.
Lemma gval_one A P M v : (forall p, (p < P)%nat -> meq A (M p) one) -> gval A P M v = rsum A (fun a => rprod P (fun p => v p a)).
Proof.
  intros HM. unfold gval. rewrite (tr_meq A _ (fun i j => rprod P (fun p => v p i) * one i j)).
  - apply rsum_ext. intros a Ha. unfold one. rewrite Nat.eqb_refl. lra.
  - eapply meq_trans; [|apply mprod_diag]. apply mprod_ext. intros p Hp.
    eapply meq_trans; [apply matmul_meq; [apply HM; auto|apply meq_refl]|]. apply (matmul_id_l A (fun i j => v p i * one i j)).
Qed.
Lemma numerator_value A T P d eig om v : A = b_states d -> P = b_beads d -> (A <= T)%nat -> clean A T P om ->
  (forall p a, (p < P)%nat -> (a < A)%nat -> om p a a = v p a) ->
  build_numerator d eig om = gval A P (fun p => m_matrix A (b_tau d) (eig p)) v.
Proof.
  intros -> -> HA Hc Hv. unfold build_numerator.
  change (rsum (b_states d) (fun a => ?f a a)) with (tr (b_states d) f).
  etransitivity; [apply tr_meq, numerator_mprod|]. apply tr_meq, mprod_ext. intros p Hp.
  apply matmul_meq; [apply meq_refl|]. intros i j Hi Hj. unfold one. destruct (Nat.eqb_spec i j) as [->|Hne].
  - rewrite Hv; auto. lra.
  - rewrite Hc; auto; [lra|lia|lia].
Qed.

(** ** The loop bodies *)
Section Evaluate.
  Variable eigh : arr2 -> arr1 * arr2.
  Variable u : setup.

  Definition shapes_ok (d : box) : Prop :=
    (0 < b_states d <= b_rho_states d)%nat /\ (0 < b_beads d)%nat
    /\ t_states (u_crho u) = b_rho_states d /\ r_states (u_rho u) = b_rho_states d
    /\ v_states (u_vib u) = b_states d
    /\ t_states (u_cvib u) = b_states d /\ t_states (u_cplus u) = b_states d /\ t_states (u_cminus u) = b_states d.
  Definition clean_w (d : box) (w : omats) : Prop :=
    clean (b_states d) (b_rho_states d) (b_beads d) (o_rho w)
    /\ clean (b_states d) (b_states d) (b_beads d) (o_vib w)
    /\ clean (b_states d) (b_states d) (b_beads d) (o_plus w)
    /\ clean (b_states d) (b_states d) (b_beads d) (o_minus w).

  Definition v_rho (d : box) := oval (b_modes d) (b_beads d) (u_crho u) (used_q d (b_rho_states d)) (r_state_shift (u_rho u)).
  Definition v_of (c : tdc) (d : box) := oval (b_modes d) (b_beads d) c (b_q d) (v_state_shift (u_vib u)).
  Definition s12 (d : box) (p : nat) : R :=
    Rmax (top (b_states d) (b_rho_states d) (v_rho d p)) (top (b_states d) (b_states d) (v_of (u_cvib u) d p)).
  Definition ms (d : box) (p : nat) : arr2 := m_matrix (b_states d) (b_tau d) (eigh (coupling_matrix d (u_vib u) p)).
  Definition y_rho (d : box) : R := rsum (b_states d) (fun a => rprod (b_beads d) (fun p => v_rho d p a)) / rprod (b_beads d) (s12 d).
  Definition y_g (c : tdc) (d : box) : R := gval (b_states d) (b_beads d) (ms d) (v_of c d) / rprod (b_beads d) (s12 d).

  Lemma own_q d : used_q d (b_states d) = b_q d.
  Proof. unfold used_q. rewrite Nat.eqb_refl. reflexivity. Qed.

  Lemma denominator_y d om S : shapes_ok d -> clean (b_states d) (b_rho_states d) (b_beads d) om ->
    (forall p a, (a < b_states d)%nat -> om p a a = v_rho d p a) ->
    (forall p, (p < b_beads d)%nat -> S p = s12 d p) ->
    build_denominator (b_beads d) (u_crho u) (scale_o_matrix S om) = y_rho d.
  Proof.
    intros (HA & HP & Ht & _) Hc Hv HS.
    rewrite (denominator_value (b_states d) _ _ _ (fun p a => v_rho d p a / s12 d p)); auto.
    - unfold y_rho, Rdiv. rewrite <- rsum_scal_r. apply rsum_ext. intros a Ha.
      rewrite <- (rprod_inv _ (s12 d)), <- rprod_mult. reflexivity.
    - rewrite Ht. apply scale_clean; auto.
    - lia.
    - intros p a Hp Ha. unfold scale_o_matrix. rewrite Hv, HS by auto. reflexivity.
  Qed.
  Lemma numerator_y d c om S : clean (b_states d) (b_states d) (b_beads d) om ->
    (forall p a, (a < b_states d)%nat -> om p a a = v_of c d p a) ->
    (forall p, (p < b_beads d)%nat -> S p = s12 d p) ->
    build_numerator d (fun p => eigh (coupling_matrix d (u_vib u) p)) (scale_o_matrix S om) = y_g c d.
  Proof.
    intros Hc Hv HS.
    rewrite (numerator_value (b_states d) (b_states d) (b_beads d) d _ _ (fun p a => v_of c d p a / s12 d p)); auto.
    - apply gval_scale.
    - apply scale_clean; auto.
    - intros p a Hp Ha. unfold scale_o_matrix. rewrite Hv, HS by auto. reflexivity.
  Qed.

  Lemma evaluate_pm_ok d w : shapes_ok d -> clean_w d w -> check_coupling_symmetric d (u_vib u) = Ok tt ->
    exists w', clean_w d w' /\
      evaluate_pm eigh u d w = Ok (d, w', (y_rho d, y_g (u_cvib u) d, y_g (u_cplus u) d, y_g (u_cminus u) d))
      /\ (forall p a, (p < b_beads d)%nat -> (a < b_states d)%nat ->
            o_rho w' p a a = v_rho d p a / s12 d p /\ o_vib w' p a a = v_of (u_cvib u) d p a / s12 d p).
  Proof.
    intros Hs Hw Hsym. pose proof Hs as (HA & HP & T1 & T2 & T3 & T4 & T5 & T6). destruct Hw as (C1 & C2 & C3 & C4).
    destruct (build_o_ok d (u_crho u) (o_rho w) (r_states (u_rho u)) (r_state_shift (u_rho u))) as (om1 & E1 & K1 & V1);
      [right; congruence|lia|rewrite T1; auto|].
    destruct (build_o_ok d (u_cvib u) (o_vib w) (v_states (u_vib u)) (v_state_shift (u_vib u))) as (om2 & E2 & K2 & V2);
      [left; congruence|lia|rewrite T4; auto|].
    destruct (build_o_ok d (u_cplus u) (o_plus w) (v_states (u_vib u)) (v_state_shift (u_vib u))) as (om3 & E3 & K3 & V3);
      [left; congruence|lia|rewrite T5; auto|].
    destruct (build_o_ok d (u_cminus u) (o_minus w) (v_states (u_vib u)) (v_state_shift (u_vib u))) as (om4 & E4 & K4 & V4);
      [left; congruence|lia|rewrite T6; auto|].
    rewrite T1 in K1. rewrite T4 in K2. rewrite T5 in K3. rewrite T6 in K4.
    rewrite T2 in V1. rewrite T3, own_q in V2, V3, V4.
    assert (forall p, (p < b_beads d)%nat -> build_scaling_factors (u_crho u) (u_cvib u) om1 om2 p = s12 d p) as HS.
    { intros p Hp. unfold build_scaling_factors, s12.
      rewrite (scaling_top (b_states d) (u_crho u) (b_beads d) om1 (v_rho d p)); [|rewrite T1; exact K1|exact Hp|exact (V1 p)].
      rewrite (scaling_top (b_states d) (u_cvib u) (b_beads d) om2 (v_of (u_cvib u) d p)); [|rewrite T4; exact K2|exact Hp|exact (V2 p)].
      rewrite T1, T4. reflexivity. }
    eexists. split; [|split]; cycle 1.
    - unfold evaluate_pm. rewrite E1. cbn [bind]. rewrite E2. cbn [bind].
      unfold diagonalize_coupling_matrix. rewrite Hsym. cbn [bind]. rewrite E3. cbn [bind]. rewrite E4. cbn [bind].
      rewrite denominator_y by auto.
      rewrite (numerator_y d (u_cvib u) om2), (numerator_y d (u_cplus u) om3), (numerator_y d (u_cminus u) om4) by auto.
      reflexivity.
    - intros p a Hp Ha. simpl. unfold scale_o_matrix. rewrite HS by auto. rewrite V1, V2 by auto. split; reflexivity.
    - unfold clean_w; simpl. do 3 (split; [apply scale_clean; auto|]). apply scale_clean; auto.
  Qed.

  Lemma evaluate_ok d w : shapes_ok d -> clean_w d w -> check_coupling_symmetric d (u_vib u) = Ok tt ->
    exists w', clean_w d w' /\ evaluate eigh u d w = Ok (d, w', (y_rho d, y_g (u_cvib u) d)).
  Proof.
    intros Hs Hw Hsym. pose proof Hs as (HA & HP & T1 & T2 & T3 & T4 & T5 & T6). destruct Hw as (C1 & C2 & C3 & C4).
    destruct (build_o_ok d (u_crho u) (o_rho w) (r_states (u_rho u)) (r_state_shift (u_rho u))) as (om1 & E1 & K1 & V1);
      [right; congruence|lia|rewrite T1; auto|].
    destruct (build_o_ok d (u_cvib u) (o_vib w) (v_states (u_vib u)) (v_state_shift (u_vib u))) as (om2 & E2 & K2 & V2);
      [left; congruence|lia|rewrite T4; auto|].
    rewrite T1 in K1. rewrite T4 in K2. rewrite T2 in V1. rewrite T3, own_q in V2.
    assert (forall p, (p < b_beads d)%nat -> build_scaling_factors (u_crho u) (u_cvib u) om1 om2 p = s12 d p) as HS.
    { intros p Hp. unfold build_scaling_factors, s12.
      rewrite (scaling_top (b_states d) (u_crho u) (b_beads d) om1 (v_rho d p)); [|rewrite T1; exact K1|exact Hp|exact (V1 p)].
      rewrite (scaling_top (b_states d) (u_cvib u) (b_beads d) om2 (v_of (u_cvib u) d p)); [|rewrite T4; exact K2|exact Hp|exact (V2 p)].
      rewrite T1, T4. reflexivity. }
    eexists. split; cycle 1.
    - unfold evaluate. rewrite E1. cbn [bind]. rewrite E2. cbn [bind].
      unfold diagonalize_coupling_matrix. rewrite Hsym. cbn [bind].
      rewrite denominator_y by auto. rewrite (numerator_y d (u_cvib u) om2) by auto. reflexivity.
    - unfold clean_w; simpl. do 2 (split; [apply scale_clean; auto|]). auto.
  Qed.
End Evaluate.
