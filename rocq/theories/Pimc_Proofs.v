(** Lemmas about the numerical core. *)
From Coq Require Import Reals Lra FunctionalExtensionality.
From Verif Require Import Common Common_Proofs Pimc_Model Pimc_Spec.
Local Open Scope R_scope.

(** ** Finite sums and products *)
Lemma rsum_ext n f g : (forall i, (i < n)%nat -> f i = g i) -> rsum n f = rsum n g.
Proof. induction n; simpl; intros H; auto. rewrite IHn, H; auto. Qed.
Lemma rprod_ext n f g : (forall i, (i < n)%nat -> f i = g i) -> rprod n f = rprod n g.
Proof. induction n; simpl; intros H; auto. rewrite IHn, H; auto. Qed.
Lemma fold_plus_app l1 l2 : fold_right Rplus 0 (l1 ++ l2) = fold_right Rplus 0 l1 + fold_right Rplus 0 l2.
Proof. induction l1; simpl; [lra|]. rewrite IHl1; lra. Qed.
Lemma fold_mult_app l1 l2 : fold_right Rmult 1 (l1 ++ l2) = fold_right Rmult 1 l1 * fold_right Rmult 1 l2.
Proof. induction l1; simpl; [lra|]. rewrite IHl1; lra. Qed.
Lemma Sum_rsum n f : Sum n f = rsum n f.
Proof.
  unfold Sum. induction n; [reflexivity|].
  rewrite seq_S, map_app, fold_plus_app, IHn. simpl. lra.
Qed.
Lemma Prod_rprod n f : Prod n f = rprod n f.
Proof.
  unfold Prod. induction n; [reflexivity|].
  rewrite seq_S, map_app, fold_mult_app, IHn. simpl. lra.
Qed.
Lemma rsum_0 n : rsum n (fun _ => 0) = 0.
Proof. induction n; simpl; lra. Qed.
Lemma rsum_zero n f : (forall i, (i < n)%nat -> f i = 0) -> rsum n f = 0.
Proof. intros H. rewrite (rsum_ext n f (fun _ => 0)); auto. apply rsum_0. Qed.
Lemma rsum_plus n f g : rsum n (fun i => f i + g i) = rsum n f + rsum n g.
Proof. induction n; simpl; [lra|]. rewrite IHn; lra. Qed.
Lemma rsum_minus n f g : rsum n (fun i => f i - g i) = rsum n f - rsum n g.
Proof. induction n; simpl; [lra|]. rewrite IHn; lra. Qed.
Lemma rsum_scal n c f : rsum n (fun i => c * f i) = c * rsum n f.
Proof. induction n; simpl; [lra|]. rewrite IHn; lra. Qed.
Lemma rsum_scal_r n c f : rsum n (fun i => f i * c) = rsum n f * c.
Proof. induction n; simpl; [lra|]. rewrite IHn; lra. Qed.
Lemma rsum_swap n m f : rsum n (fun i => rsum m (fun j => f i j)) = rsum m (fun j => rsum n (fun i => f i j)).
Proof.
  induction n; simpl; [symmetry; apply rsum_0|].
  rewrite IHn, <- rsum_plus. reflexivity.
Qed.
Lemma rsum_le n f g : (forall i, (i < n)%nat -> f i <= g i) -> rsum n f <= rsum n g.
Proof. induction n; simpl; intros H; [lra|]. pose proof (H n ltac:(lia)). pose proof (IHn ltac:(auto)). lra. Qed.
Lemma rsum_pos n f : (0 < n)%nat -> (forall i, (i < n)%nat -> 0 < f i) -> 0 < rsum n f.
Proof.
  induction n; intros Hn H; [lia|]. simpl. pose proof (H n ltac:(lia)).
  destruct n; [simpl; lra|]. pose proof (IHn ltac:(lia) ltac:(auto)). lra.
Qed.
Lemma rsum_single n k f : (k < n)%nat -> (forall i, (i < n)%nat -> i <> k -> f i = 0) -> rsum n f = f k.
Proof.
  induction n; intros Hk H; [lia|]. simpl. destruct (Nat.eq_dec k n) as [->|Hne].
  - rewrite rsum_zero; [lra|]. intros; apply H; lia.
  - rewrite IHn; [|lia|auto]. rewrite (H n); lia || lra.
Qed.
Lemma rsum_cut n m f : (m <= n)%nat -> (forall i, (m <= i < n)%nat -> f i = 0) -> rsum n f = rsum m f.
Proof.
  induction n; intros Hm H. { replace m with 0%nat by lia. reflexivity. }
  destruct (Nat.eq_dec m (S n)) as [->|]; [reflexivity|]. simpl.
  rewrite IHn, (H n); [lra|lia|lia|]. intros; apply H; lia.
Qed.
Lemma rsum_shift n f : rsum (S n) f = f 0%nat + rsum n (fun i => f (S i)).
Proof. induction n; [simpl; lra|]. change (rsum (S (S n)) f) with (rsum (S n) f + f (S n)). rewrite IHn. simpl. lra. Qed.
Lemma rprod_shift n f : rprod (S n) f = f 0%nat * rprod n (fun i => f (S i)).
Proof. induction n; [simpl; lra|]. change (rprod (S (S n)) f) with (rprod (S n) f * f (S n)). rewrite IHn. simpl. lra. Qed.
Lemma rprod_mult n f g : rprod n (fun i => f i * g i) = rprod n f * rprod n g.
Proof. induction n; simpl; [lra|]. rewrite IHn; lra. Qed.
Lemma rprod_div n f g : rprod n (fun i => f i / g i) = rprod n f / rprod n g.
Proof. induction n; simpl; [lra|]. rewrite IHn. unfold Rdiv. rewrite Rinv_mult. lra. Qed.
Lemma rprod_pos n f : (forall i, (i < n)%nat -> 0 < f i) -> 0 < rprod n f.
Proof. induction n; simpl; intros H; [lra|]. apply Rmult_lt_0_compat; auto. Qed.
Lemma rprod_zero n k f : (k < n)%nat -> f k = 0 -> rprod n f = 0.
Proof.
  induction n; intros Hk H; [lia|]. simpl. destruct (Nat.eq_dec k n) as [->|]; [rewrite H; lra|].
  rewrite IHn; [lra|lia|auto].
Qed.
Lemma rprod_const n c : rprod n (fun _ => c) = c ^ n.
Proof. induction n; simpl; [lra|]. rewrite IHn; lra. Qed.
Lemma rprod_exp n f : rprod n (fun i => exp (f i)) = exp (rsum n f).
Proof. induction n; simpl; [rewrite exp_0; lra|]. rewrite IHn, exp_plus; lra. Qed.
Lemma rprod_inv n f : rprod n (fun i => / f i) = / rprod n f.
Proof. induction n; simpl; [rewrite Rinv_1; auto|]. rewrite IHn, Rinv_mult; lra. Qed.

(** sums and products around the ring *)
Lemma next_mod P p : (p < P)%nat -> ((p + 1) mod P)%nat = next P p.
Proof.
  intros H. unfold next. destruct (Nat.eqb_spec (p + 1) P) as [<-|Hne].
  - apply Nat.mod_same; lia.
  - apply Nat.mod_small; lia.
Qed.
Lemma next_lt P p : (p < P)%nat -> (next P p < P)%nat.
Proof. intros H. unfold next. destruct (Nat.eqb_spec (p + 1) P); lia. Qed.
Lemma rsum_next P f : rsum P (fun p => f (next P p)) = rsum P f.
Proof.
  destruct P; [reflexivity|]. rewrite (rsum_shift P f).
  change (rsum (S P) (fun p => f (next (S P) p))) with (rsum P (fun p => f (next (S P) p)) + f (next (S P) P)).
  rewrite (rsum_ext P _ (fun i => f (S i))).
  - unfold next. rewrite Nat.add_1_r, Nat.eqb_refl. lra.
  - intros i Hi. unfold next. destruct (Nat.eqb_spec (i + 1) (S P)); [lia|]. f_equal; lia.
Qed.
Lemma rprod_next P f : rprod P (fun p => f (next P p)) = rprod P f.
Proof.
  destruct P; [reflexivity|]. rewrite (rprod_shift P f).
  change (rprod (S P) (fun p => f (next (S P) p))) with (rprod P (fun p => f (next (S P) p)) * f (next (S P) P)).
  rewrite (rprod_ext P _ (fun i => f (S i))).
  - unfold next. rewrite Nat.add_1_r, Nat.eqb_refl. lra.
  - intros i Hi. unfold next. destruct (Nat.eqb_spec (i + 1) (S P)); [lia|]. f_equal; lia.
Qed.

(** ** Maxima *)
Lemma rmax_ge n f i : (i < n)%nat -> f i <= rmax n f.
Proof.
  induction n; intros Hi; [lia|]. destruct n.
  - simpl. replace i with 0%nat by lia. lra.
  - change (rmax (S (S n)) f) with (Rmax (rmax (S n) f) (f (S n))).
    destruct (Nat.eq_dec i (S n)) as [->|]; [apply Rmax_r|].
    eapply Rle_trans; [apply IHn; lia|apply Rmax_l].
Qed.
Lemma rmax_ext n f g : (forall i, (i < n)%nat -> f i = g i) -> rmax n f = rmax n g.
Proof.
  induction n; intros H; [reflexivity|]. destruct n; [simpl; auto|].
  change (rmax (S (S n)) f) with (Rmax (rmax (S n) f) (f (S n))).
  change (rmax (S (S n)) g) with (Rmax (rmax (S n) g) (g (S n))).
  rewrite IHn, H; auto.
Qed.
Lemma rmax_in n f : (0 < n)%nat -> exists i, (i < n)%nat /\ rmax n f = f i.
Proof.
  induction n; intros H; [lia|]. destruct n.
  - exists 0%nat; split; [lia|reflexivity].
  - change (rmax (S (S n)) f) with (Rmax (rmax (S n) f) (f (S n))).
    destruct IHn as [i [Hi E]]; [lia|]. unfold Rmax. destruct (Rle_dec _ _).
    + exists (S n); split; [lia|reflexivity].
    + exists i; split; [lia|auto].
Qed.

(** ** Boolean loops *)
Lemma all_below_true n f : all_below n f = true <-> forall i, (i < n)%nat -> f i = true.
Proof.
  unfold all_below. rewrite forallb_forall. split; intros H i Hi.
  - apply H, in_seq. lia.
  - apply in_seq in Hi. apply H. lia.
Qed.

(** ** Hyperbolic functions *)
Lemma sinh_pos x : 0 < x -> 0 < sinh x.
Proof. intros H. unfold sinh. pose proof (exp_increasing (- x) x ltac:(lra)). lra. Qed.
Lemma cosh_pos x : 0 < cosh x.
Proof. unfold cosh. pose proof (exp_pos x). pose proof (exp_pos (- x)). lra. Qed.
Lemma cosh_gt_1 x : 0 < x -> 1 < cosh x.
Proof.
  intros H. unfold cosh. rewrite exp_Ropp.
  pose proof (exp_increasing 0 x H) as Hx. rewrite exp_0 in Hx. set (e := exp x) in *.
  assert (e + / e - 2 = (e - 1) * (e - 1) / e) by (field; lra).
  assert (0 < (e - 1) * (e - 1) / e).
  { apply Rdiv_lt_0_compat; [apply Rmult_lt_0_compat|]; lra. }
  lra.
Qed.
Lemma inv_tanh x : 0 < x -> / tanh x = cosh x / sinh x.
Proof. intros H. unfold tanh. pose proof (sinh_pos x H). pose proof (cosh_pos x). field. lra. Qed.

(** ** Matrices: equality of the first [A] rows and columns *)
Definition meq (A : nat) (x y : arr2) : Prop := forall i j, (i < A)%nat -> (j < A)%nat -> x i j = y i j.
Lemma meq_refl A x : meq A x x. Proof. intros i j _ _; reflexivity. Qed.
Lemma meq_sym A x y : meq A x y -> meq A y x. Proof. intros H i j Hi Hj; symmetry; auto. Qed.
Lemma meq_trans A x y z : meq A x y -> meq A y z -> meq A x z.
Proof. intros H1 H2 i j Hi Hj; rewrite H1; auto. Qed.
Lemma matmul_meq A x x' y y' : meq A x x' -> meq A y y' -> meq A (matmul A x y) (matmul A x' y').
Proof. intros H1 H2 i j Hi Hj. apply rsum_ext. intros k Hk. rewrite H1, H2; auto. Qed.
Lemma matmul_assoc A x y z i j : matmul A (matmul A x y) z i j = matmul A x (matmul A y z) i j.
Proof.
  unfold matmul. rewrite (rsum_ext A _ (fun k => rsum A (fun l => x i l * y l k * z k j))).
  2:{ intros k _. rewrite <- rsum_scal_r. reflexivity. }
  rewrite rsum_swap. apply rsum_ext. intros l _. rewrite <- rsum_scal. apply rsum_ext. intros; lra.
Qed.
Lemma matmul_id_l A x : meq A (matmul A identity x) x.
Proof.
  intros i j Hi Hj. unfold matmul, identity.
  rewrite (rsum_single A i); [rewrite Nat.eqb_refl; lra|auto|].
  intros k _ Hk. destruct (Nat.eqb_spec i k); [congruence|lra].
Qed.
Lemma matmul_id_r A x : meq A (matmul A x identity) x.
Proof.
  intros i j Hi Hj. unfold matmul, identity.
  rewrite (rsum_single A j); [rewrite Nat.eqb_refl; lra|auto|].
  intros k _ Hk. destruct (Nat.eqb_spec k j); [congruence|lra].
Qed.
Lemma times_matmul A x y i j : times A x y i j = matmul A x y i j.
Proof. unfold times, matmul. apply Sum_rsum. Qed.

Definition tr (A : nat) (x : arr2) : R := rsum A (fun i => x i i).
Lemma tr_meq A x y : meq A x y -> tr A x = tr A y.
Proof. intros H. apply rsum_ext. intros; auto. Qed.
Lemma tr_comm A x y : tr A (matmul A x y) = tr A (matmul A y x).
Proof.
  unfold tr, matmul. rewrite rsum_swap. apply rsum_ext. intros i _. apply rsum_ext. intros; lra.
Qed.
Lemma trace_tr A x : trace A x = tr A x.
Proof. apply Sum_rsum. Qed.

(** products of a sequence of matrices *)
Fixpoint mprod (A n : nat) (f : nat -> arr2) : arr2 :=
  match n with O => identity | S m => matmul A (mprod A m f) (f m) end.
Lemma mprod_ext A n f g : (forall p, (p < n)%nat -> meq A (f p) (g p)) -> meq A (mprod A n f) (mprod A n g).
Proof. induction n; intros H; simpl; [apply meq_refl|]. apply matmul_meq; auto. Qed.
Lemma mprod_shift A n f : meq A (mprod A (S n) f) (matmul A (f 0%nat) (mprod A n (fun p => f (S p)))).
Proof.
  induction n.
  - simpl. eapply meq_trans; [apply matmul_id_l|apply meq_sym, matmul_id_r].
  - change (mprod A (S (S n)) f) with (matmul A (mprod A (S n) f) (f (S n))).
    eapply meq_trans; [apply matmul_meq; [apply IHn|apply meq_refl]|].
    intros i j Hi Hj. rewrite matmul_assoc. reflexivity.
Qed.
Lemma numerator_mprod A P mm om : meq A (numerator A P mm om) (mprod A P (fun p => matmul A (mm p) (om p))).
Proof.
  induction P; simpl; [apply meq_refl|]. intros i j Hi Hj. rewrite matmul_assoc.
  apply matmul_meq; auto. apply meq_refl.
Qed.
Lemma tr_mprod_next A P f : tr A (mprod A P (fun p => f (next P p))) = tr A (mprod A P f).
Proof.
  destruct P; [reflexivity|].
  rewrite (tr_meq A (mprod A (S P) f) _ (mprod_shift A P f)), tr_comm.
  change (mprod A (S P) (fun p => f (next (S P) p))) with (matmul A (mprod A P (fun p => f (next (S P) p))) (f (next (S P) P))).
  apply tr_meq, matmul_meq.
  - apply mprod_ext. intros p Hp. unfold next. destruct (Nat.eqb_spec (p + 1) (S P)); [lia|].
    rewrite Nat.add_1_r. apply meq_refl.
  - unfold next. rewrite Nat.add_1_r, Nat.eqb_refl. apply meq_refl.
Qed.
Lemma fold_right_seq_S {X} (f : nat -> X -> X) n s x : fold_right f x (seq (S s) n) = fold_right (fun p => f (S p)) x (seq s n).
Proof. revert s; induction n; intros s; simpl; [reflexivity|]. rewrite IHn. reflexivity. Qed.
Lemma chain_mprod A P m d : meq A (chain A P m d) (mprod A P (fun p => matmul A (m p) (fun i j => d p i * one i j))).
Proof.
  unfold chain. revert m d; induction P; intros m d; [apply meq_refl|].
  eapply meq_trans; [|apply meq_sym, mprod_shift]. cbn [seq fold_right].
  rewrite fold_right_seq_S. intros i j Hi Hj. rewrite times_matmul, matmul_assoc.
  apply matmul_meq; auto using meq_refl. intros i' j' Hi' Hj'. rewrite times_matmul.
  apply matmul_meq; [apply meq_refl|apply (IHP (fun p => m (S p)) (fun p => d (S p)))|auto|auto].
Qed.
Lemma mprod_scale A P f s : meq A (mprod A P (fun p i j => f p i j / s p)) (fun i j => mprod A P f i j / rprod P s).
Proof.
  induction P; simpl; [intros i j _ _; lra|]. intros i j Hi Hj. unfold matmul at 1.
  rewrite (rsum_ext A _ (fun k => mprod A P f i k * f P k j * (/ rprod P s * / s P))).
  - rewrite rsum_scal_r. unfold Rdiv. rewrite Rinv_mult. reflexivity.
  - intros k Hk. rewrite IHP by auto. unfold Rdiv. lra.
Qed.
Lemma mprod_diag A P d : meq A (mprod A P (fun p i j => d p i * one i j)) (fun i j => rprod P (fun p => d p i) * one i j).
Proof.
  induction P; simpl; [intros i j _ _; unfold one, identity; lra|]. intros i j Hi Hj. unfold matmul.
  rewrite (rsum_single A i); [|auto|].
  - rewrite IHP by auto. unfold one. rewrite Nat.eqb_refl. lra.
  - intros k Hk Hne. rewrite IHP by auto. unfold one. destruct (Nat.eqb_spec i k); [congruence|lra].
Qed.

(** ** The exponential of a matrix from an eigenbasis *)
Lemma Un_cv_ext (f g : nat -> R) l : (forall n, f n = g n) -> Un_cv f l -> Un_cv g l.
Proof. intros H Hf e He. destruct (Hf e He) as [n0 Hn]. exists n0. intros n Hle. rewrite <- H. auto. Qed.
Lemma infinite_sum_scal f l c : infinite_sum f l -> infinite_sum (fun k => c * f k) (c * l).
Proof.
  intros H. apply (Un_cv_ext (fun n => c * sum_f_R0 f n)).
  - intros n. induction n; simpl; [lra|]. rewrite <- IHn. lra.
  - apply (CV_mult (fun _ => c) (sum_f_R0 f) c l); [|exact H].
    intros e He. exists 0%nat. intros. unfold R_dist. rewrite Rminus_diag_eq, Rabs_R0; auto.
Qed.
Lemma infinite_sum_plus f g l m : infinite_sum f l -> infinite_sum g m -> infinite_sum (fun k => f k + g k) (l + m).
Proof.
  intros Hf Hg. apply (Un_cv_ext (fun n => sum_f_R0 f n + sum_f_R0 g n)).
  - intros n. induction n; simpl; [lra|]. rewrite <- IHn. lra.
  - apply CV_plus; assumption.
Qed.
Lemma infinite_sum_ext f g l : (forall k, f k = g k) -> infinite_sum f l -> infinite_sum g l.
Proof.
  intros H Hf. apply (Un_cv_ext (sum_f_R0 f)); [|exact Hf].
  intros n. induction n; simpl; [apply H|]. rewrite IHn, H; reflexivity.
Qed.
Lemma infinite_sum_rsum A (f : nat -> nat -> R) l : (forall i, (i < A)%nat -> infinite_sum (f i) (l i)) ->
  infinite_sum (fun k => rsum A (fun i => f i k)) (rsum A l).
Proof.
  induction A; intros H; simpl.
  - intros e He. exists 0%nat. intros n _. unfold R_dist.
    replace (sum_f_R0 (fun _ => 0) n) with 0 by (induction n; simpl; lra).
    rewrite Rminus_diag_eq, Rabs_R0; auto.
  - apply infinite_sum_plus; auto.
Qed.
Lemma infinite_sum_unique f l m : infinite_sum f l -> infinite_sum f m -> l = m.
Proof. intros H1 H2. exact (UL_sequence _ _ _ H1 H2). Qed.
Lemma exp_series x : infinite_sum (fun k => x ^ k / INR (fact k)) (exp x).
Proof.
  unfold exp. destruct (exist_exp x) as [l Hl]. simpl. unfold exp_in in Hl.
  eapply infinite_sum_ext; [|exact Hl]. intros k. simpl. unfold Rdiv. lra.
Qed.

Lemma power_eigen A x l q c : eigenbasis A x (l, q) ->
  forall m, meq A (power A (fun i j => c * x i j) m) (fun i j => rsum A (fun k => q i k * (c * l k) ^ m * q j k)).
Proof.
  intros [HX [HR HC]] m. induction m as [|m IH]; intros i j Hi Hj; cbn [power].
  - rewrite <- HR, Sum_rsum by auto. apply rsum_ext. intros k _. simpl; lra.
  - rewrite times_matmul. unfold matmul.
    rewrite (rsum_ext A _ (fun k => rsum A (fun u => rsum A (fun v => (q i u * (c * l u) * (c * l v) ^ m * q j v) * (q k u * q k v))))).
    2:{ intros k Hk. rewrite IH, HX, Sum_rsum by auto. rewrite Rmult_assoc, <- rsum_scal_r, <- rsum_scal.
        apply rsum_ext. intros u _. rewrite <- Rmult_assoc, <- rsum_scal. apply rsum_ext. intros v _. lra. }
    rewrite rsum_swap. apply rsum_ext. intros u Hu. rewrite rsum_swap.
    rewrite (rsum_single A u); auto.
    + rewrite rsum_scal. rewrite <- (Sum_rsum A (fun k => q k u * q k u)), HC by auto. unfold one. rewrite Nat.eqb_refl. simpl. lra.
    + intros v Hv Hne. rewrite rsum_scal. rewrite <- (Sum_rsum A (fun k => q k u * q k v)), HC by auto. unfold one.
      destruct (Nat.eqb_spec u v); [congruence|lra].
Qed.

Lemma m_matrix_mexp A tau x lq : eigenbasis A x lq -> is_mexp A (fun i j => - tau * x i j) (m_matrix A tau lq).
Proof.
  destruct lq as [l q]. intros H i j Hi Hj. unfold m_matrix. simpl fst; simpl snd.
  eapply infinite_sum_ext; [|apply (infinite_sum_rsum A (fun u k => q i u * ((- tau * l u) ^ k / INR (fact k)) * q j u))].
  - intros k. cbv beta. rewrite (power_eigen A x l q (- tau) H k i j) by auto.
    unfold Rdiv. rewrite <- rsum_scal_r. apply rsum_ext. intros u _. lra.
  - intros u Hu.
    eapply infinite_sum_ext; [|rewrite Rmult_assoc, (Rmult_comm (exp _)), <- Rmult_assoc; apply infinite_sum_scal, exp_series].
    intros k. simpl. lra.
Qed.
Lemma mexp_unique A x m m' : is_mexp A x m -> is_mexp A x m' -> meq A m m'.
Proof. intros H1 H2 i j Hi Hj. eapply infinite_sum_unique; [apply H1|apply H2]; auto. Qed.
Lemma power_meq A x y k : meq A x y -> meq A (power A x k) (power A y k).
Proof.
  intros H. induction k; cbn [power]; [apply meq_refl|]. intros i j Hi Hj. rewrite !times_matmul.
  apply matmul_meq; auto.
Qed.
Lemma mexp_ext A x y m : meq A x y -> is_mexp A x m -> is_mexp A y m.
Proof.
  intros H Hm i j Hi Hj. eapply infinite_sum_ext; [|apply Hm; auto]. intros k. cbv beta.
  rewrite (power_meq A x y k H i j); auto.
Qed.
Lemma mexp_zero A x : (forall i j, (i < A)%nat -> (j < A)%nat -> x i j = 0) -> is_mexp A x one.
Proof.
  intros H i j Hi Hj. apply (infinite_sum_ext (fun k => one i j * (0 ^ k / INR (fact k)))).
  - intros k. destruct k; [simpl; lra|]. cbn [power]. rewrite times_matmul. unfold matmul.
    rewrite rsum_zero; [rewrite pow_i by lia; lra|]. intros u Hu. rewrite H by auto. lra.
  - pose proof (infinite_sum_scal _ _ (one i j) (exp_series 0)) as E. rewrite exp_0, Rmult_1_r in E. exact E.
Qed.
