(** The exponential of a skew-symmetric matrix is orthogonal. *)
From Coq Require Import Reals Lra.
From Coquelicot Require Import Series PSeries Hierarchy ElemFct.
From Verif Require Import Common Sequences_Spec.
Local Open Scope R_scope.

Lemma total_ext n f g : (forall k, (k < n)%nat -> f k = g k) -> total n f = total n g.
Proof. induction n; intros H; cbn; auto. rewrite IHn by auto. rewrite H by auto. auto. Qed.
Lemma total_plus n f g : total n (fun k => f k + g k) = total n f + total n g.
Proof. induction n; cbn; [ring|]. rewrite IHn. ring. Qed.
Lemma total_scal n c f : total n (fun k => c * f k) = c * total n f.
Proof. induction n; cbn; [ring|]. rewrite IHn. ring. Qed.
Lemma total_scal_r n c f : total n (fun k => f k * c) = total n f * c.
Proof. induction n; cbn; [ring|]. rewrite IHn. ring. Qed.
Lemma total_zero n : total n (fun _ => 0) = 0.
Proof. induction n; cbn; auto. rewrite IHn. ring. Qed.
Lemma total_swap n m f : total n (fun k => total m (fun l => f k l)) = total m (fun l => total n (fun k => f k l)).
Proof.
  induction n; cbn; [symmetry; apply total_zero|]. rewrite IHn, <- total_plus. reflexivity.
Qed.
Lemma total_le n f g : (forall k, (k < n)%nat -> f k <= g k) -> total n f <= total n g.
Proof. induction n; intros H; cbn; [lra|]. assert (total n f <= total n g) by auto. specialize (H n (Nat.lt_succ_diag_r n)). lra. Qed.
Lemma total_abs n f : Rabs (total n f) <= total n (fun k => Rabs (f k)).
Proof. induction n; cbn; [rewrite Rabs_R0; lra|]. pose proof (Rabs_triang (total n f) (f n)). lra. Qed.
Lemma total_nonneg n f : (forall k, (k < n)%nat -> 0 <= f k) -> 0 <= total n f.
Proof. intros H. rewrite <- (total_zero n). apply total_le; auto. Qed.
Lemma total_one n f k : (forall l, (l < n)%nat -> 0 <= f l) -> (k < n)%nat -> f k <= total n f.
Proof.
  induction n; intros H K; [lia|]. cbn. destruct (Nat.eq_dec k n) as [->|N].
  - assert (0 <= total n f) by (apply total_nonneg; auto). lra.
  - assert (f k <= total n f) by (apply IHn; auto; lia). specialize (H n (Nat.lt_succ_diag_r n)). lra.
Qed.
Lemma total_delta_l n i f : (i < n)%nat -> total n (fun k => (if (i =? k)%nat then 1 else 0) * f k) = f i.
Proof.
  induction n; intros H; [lia|]. cbn [total]. destruct (Nat.eq_dec i n) as [->|N].
  - rewrite Nat.eqb_refl. rewrite (total_ext _ _ (fun _ => 0)); [rewrite total_zero; ring|].
    intros k K. destruct (Nat.eqb_spec n k); [lia|ring].
  - rewrite IHn by lia. destruct (Nat.eqb_spec i n); [lia|ring].
Qed.
Lemma total_delta_r n j f : (j < n)%nat -> total n (fun k => f k * (if (k =? j)%nat then 1 else 0)) = f j.
Proof.
  intros H. rewrite <- (total_delta_l n j f H). apply total_ext. intros k K. rewrite (Nat.eqb_sym k j). ring.
Qed.

(** ** powers *)
Lemma power_add n a k m i j : (i < n)%nat -> (j < n)%nat ->
  total n (fun l => power n a k i l * power n a m l j) = power n a (k + m) i j.
Proof.
  revert i. induction k as [|k IH]; intros i I J.
  - cbn [power Nat.add]. apply (total_delta_l n i (fun l => power n a m l j)); auto.
  - cbn [power Nat.add].
    rewrite (total_ext n _ (fun l => total n (fun p => a i p * power n a k p l * power n a m l j))).
    2:{ intros l L. rewrite <- total_scal_r. auto. }
    rewrite total_swap. apply total_ext. intros p P. rewrite <- (IH p P J), <- total_scal.
    apply total_ext. intros l L. ring.
Qed.
Lemma power_one n a i j : (i < n)%nat -> (j < n)%nat -> power n a 1 i j = a i j.
Proof. intros I J. cbn [power]. rewrite (total_delta_r n j (fun l => a i l)); auto. Qed.
Lemma power_succ_r n a k i j : (i < n)%nat -> (j < n)%nat -> power n a (S k) i j = total n (fun l => power n a k i l * a l j).
Proof.
  intros I J. rewrite <- Nat.add_1_r, <- power_add by auto. apply total_ext. intros l L. rewrite power_one; auto.
Qed.
Lemma power_opp n a b k i j : (forall i j, (i < n)%nat -> (j < n)%nat -> b i j = - a i j) -> (i < n)%nat -> (j < n)%nat ->
  power n b k i j = (-1) ^ k * power n a k i j.
Proof.
  intros H. revert i j. induction k as [|k IH]; intros i j I J; [cbn; ring|].
  cbn [power pow]. rewrite <- total_scal. apply total_ext. intros l L. rewrite H, IH by auto. ring.
Qed.
Lemma power_tr n a b k i j : (forall i j, (i < n)%nat -> (j < n)%nat -> b i j = a j i) -> (i < n)%nat -> (j < n)%nat ->
  power n b k i j = power n a k j i.
Proof.
  intros H. revert i j. induction k as [|k IH]; intros i j I J; [cbn; rewrite Nat.eqb_sym; auto|].
  rewrite (power_succ_r n a) by auto. cbn [power]. apply total_ext. intros l L. rewrite H, IH by auto. ring.
Qed.
Definition bound (n : nat) (a : rmat) : R := total n (fun i => total n (fun j => Rabs (a i j))).
Lemma bound_nonneg n a : 0 <= bound n a.
Proof. apply total_nonneg. intros. apply total_nonneg. intros. apply Rabs_pos. Qed.
Lemma power_bound n a k i j : (i < n)%nat -> (j < n)%nat -> Rabs (power n a k i j) <= bound n a ^ k.
Proof.
  revert i. induction k as [|k IH]; intros i I J.
  - cbn [power pow]. destruct (i =? j)%nat; [rewrite Rabs_R1|rewrite Rabs_R0]; lra.
  - cbn [power pow]. eapply Rle_trans; [apply total_abs|].
    apply Rle_trans with (total n (fun l => Rabs (a i l) * bound n a ^ k)).
    + apply total_le. intros l L. rewrite Rabs_mult. apply Rmult_le_compat_l; [apply Rabs_pos|auto].
    + rewrite total_scal_r. apply Rmult_le_compat_r; [apply pow_le, bound_nonneg|].
      apply (total_one n (fun i => total n (fun j => Rabs (a i j)))); auto. intros. apply total_nonneg. intros. apply Rabs_pos.
Qed.

(** ** series *)
Definition term (n : nat) (a : rmat) (i j k : nat) : R := power n a k i j / INR (fact k).
Lemma fact_pos k : 0 < INR (fact k).
Proof. apply INR_fact_lt_0. Qed.
Lemma term_abs n a i j : (i < n)%nat -> (j < n)%nat -> ex_series (fun k => Rabs (term n a i j k)).
Proof.
  intros I J. apply (@ex_series_le R_AbsRing R_CompleteNormedModule (fun k => Rabs (term n a i j k)) (fun k => / INR (fact k) * bound n a ^ k)).
  - intros k. unfold norm. cbn. unfold abs. cbn. rewrite Rabs_Rabsolu. unfold term, Rdiv. rewrite Rabs_mult, Rmult_comm.
    rewrite (Rabs_pos_eq (/ _)) by (left; apply Rinv_0_lt_compat, fact_pos).
    apply Rmult_le_compat_l; [left; apply Rinv_0_lt_compat, fact_pos|]. apply power_bound; auto.
  - exists (exp (bound n a)). pose proof (is_exp_Reals (bound n a)) as H. unfold is_pseries in H.
    eapply is_series_ext; [|exact H]. intros k. cbn. unfold scal. cbn. unfold mult. cbn. rewrite pow_n_pow. ring.
Qed.
Lemma term_series n a i j : (i < n)%nat -> (j < n)%nat -> is_series (term n a i j) (Series (term n a i j)).
Proof. intros I J. apply Series_correct, ex_series_Rabs, term_abs; auto. Qed.

Theorem exponential_exists n a : is_exponential n a (fun i j => Series (term n a i j)).
Proof. intros i j I J. apply is_series_Reals. apply term_series; auto. Qed.
Lemma exponential_series n a e i j : is_exponential n a e -> (i < n)%nat -> (j < n)%nat -> is_series (term n a i j) (e i j).
Proof. intros H I J. apply is_series_Reals. apply H; auto. Qed.
Theorem exponential_unique n a e e' i j : is_exponential n a e -> is_exponential n a e' -> (i < n)%nat -> (j < n)%nat -> e i j = e' i j.
Proof.
  intros H H' I J. apply (exponential_series _ _ _ i j) in H; auto. apply (exponential_series _ _ _ i j) in H'; auto.
  apply is_series_unique in H. apply is_series_unique in H'. congruence.
Qed.

Lemma is_series_total n (f : nat -> nat -> R) (g : nat -> R) : (forall l, (l < n)%nat -> is_series (f l) (g l)) ->
  is_series (fun k => total n (fun l => f l k)) (total n g).
Proof.
  induction n; intros H; cbn [total].
  - apply is_series_Reals. intros eps E. exists 0%nat. intros m _. unfold R_dist.
    replace (sum_f_R0 (fun _ => 0) m) with 0; [rewrite Rminus_0_r, Rabs_R0; auto|].
    induction m; cbn; auto. rewrite <- IHm. ring.
  - apply (is_series_plus (fun k => total n (fun l => f l k)) (f n)); auto.
Qed.
Lemma sum_total n (f : nat -> nat -> R) N : sum_f_R0 (fun k => total n (fun l => f l k)) N = total n (fun l => sum_f_R0 (f l) N).
Proof. induction N; cbn; auto. rewrite IHN, <- total_plus. auto. Qed.

Lemma series_single d : is_series (fun N => match N with O => d | S _ => 0 end) d.
Proof.
  apply is_series_Reals. intros eps E. exists 0%nat. intros m _. unfold R_dist.
  assert (G : forall m, sum_f_R0 (fun N => match N with O => d | S _ => 0 end) m = d).
  { clear m. intros m. induction m as [|m IH]; cbn [sum_f_R0]; auto. rewrite IH. ring. }
  rewrite G. unfold Rminus. rewrite Rplus_opp_r, Rabs_R0. auto.
Qed.

Lemma inverse_terms n a b i j N : (forall i j, (i < n)%nat -> (j < n)%nat -> b i j = - a i j) -> (i < n)%nat -> (j < n)%nat ->
  total n (fun l => sum_f_R0 (fun k => term n a i l k * term n b l j (N - k)) N) =
  match N with O => (if (i =? j)%nat then 1 else 0) | S _ => 0 end.
Proof.
  intros H I J.
  rewrite <- (sum_total n (fun l k => term n a i l k * term n b l j (N - k))).
  assert (E : sum_f_R0 (fun k => total n (fun l => term n a i l k * term n b l j (N - k))) N =
              sum_f_R0 (fun k => power n a N i j / INR (fact N) * (C N k * 1 ^ k * (-1) ^ (N - k))) N).
  { apply sum_eq. intros k K. unfold term.
    rewrite (total_ext n _ (fun l => (/ INR (fact k) * / INR (fact (N - k)) * (-1) ^ (N - k)) * (power n a k i l * power n a (N - k) l j))).
    2:{ intros l L. rewrite (power_opp n a b) by auto. unfold Rdiv. ring. }
    rewrite total_scal, power_add by auto. replace (k + (N - k))%nat with N by lia.
    unfold C. rewrite pow1. unfold Rdiv. rewrite Rinv_mult. field. repeat split; apply not_eq_sym, Rlt_not_eq, fact_pos. }
  rewrite E. rewrite <- scal_sum || rewrite (sum_eq _ (fun k => (C N k * 1 ^ k * (-1) ^ (N - k)) * (power n a N i j / INR (fact N)))) by (intros; ring).
  rewrite <- ?scal_sum.
  rewrite <- (binomial 1 (-1) N). replace (1 + -1) with 0 by ring.
  destruct N as [|N]; [cbn; field|]. rewrite pow_i by lia. ring.
Qed.

Theorem exponential_inverse n a b e f : is_exponential n a e -> is_exponential n b f ->
  (forall i j, (i < n)%nat -> (j < n)%nat -> b i j = - a i j) ->
  forall i j, (i < n)%nat -> (j < n)%nat -> total n (fun l => e i l * f l j) = (if (i =? j)%nat then 1 else 0).
Proof.
  intros HE HF H i j I J.
  assert (S1 : is_series (fun N => total n (fun l => sum_f_R0 (fun k => term n a i l k * term n b l j (N - k)) N)) (total n (fun l => e i l * f l j))).
  { apply (is_series_total n (fun l N => sum_f_R0 (fun k => term n a i l k * term n b l j (N - k)) N) (fun l => e i l * f l j)). intros l L.
    apply is_series_mult; auto using term_abs; eapply exponential_series; eauto. }
  pose proof (series_single (if (i =? j)%nat then 1 else 0)) as S2.
  apply (is_series_ext _ (fun N => match N with O => (if (i =? j)%nat then 1 else 0) | S _ => 0 end)) in S1;
    [|intros N; apply (inverse_terms n a b i j N); auto].
  apply is_series_unique in S1. apply is_series_unique in S2. etransitivity; [symmetry; exact S1|exact S2].
Qed.
Lemma exponential_tr n a b e : is_exponential n a e -> (forall i j, (i < n)%nat -> (j < n)%nat -> b i j = a j i) ->
  is_exponential n b (fun i j => e j i).
Proof.
  intros HE H i j I J. pose proof (HE j i J I) as K. intros eps E. destruct (K eps E) as [M HM]. exists M. intros m Hm.
  replace (sum_f_R0 _ m) with (sum_f_R0 (fun k => power n a k j i / INR (fact k)) m); auto.
  apply sum_eq. intros k _. rewrite (power_tr n a b) by auto. reflexivity.
Qed.
Theorem skew_orthogonal n a e : is_exponential n a e -> skew n a -> orthogonal n e.
Proof.
  intros HE S i j I J.
  rewrite <- (exponential_inverse n a (fun i j => a j i) e (fun i j => e j i) HE) with (i := i) (j := j); auto.
  apply (exponential_tr n a); auto.
Qed.
