(** Proofs about the completion of imported coupling arrays *)
From Coq Require Import QArith Qabs Qfield Lqa FinFun.
From Verif Require Import Common Common_Proofs ModelIO_Model ModelOp_Model.
Local Open Scope string_scope.
Local Open Scope nat_scope.
Local Open Scope list_scope.

Lemma step_other t c d m a b : (a, b) <> (c, d) -> complete_step t (c, d) m a b = t m a b.
Proof.
  intros N. unfold complete_step, add_block. destruct (Nat.eqb_spec a c); destruct (Nat.eqb_spec b d); subst; cbn [andb]; try reflexivity. congruence.
Qed.
Lemma fold_other l t m a b : ~ In (a, b) l -> fold_left complete_step l t m a b = t m a b.
Proof.
  revert t. induction l as [|[c d] l IH]; intros t N; cbn [fold_left]; auto. rewrite IH by (intros H; apply N; right; auto).
  apply step_other. intros E. apply N. left. congruence.
Qed.
(** [x] with the lower triangle of the modes added *)
Definition lowered (t : coup) (a b : nat) (m : list nat) : Q := (t m a b + lower_transposed (fun m => t m a b) m)%Q.
Lemma step_self t a b m : complete_step t (a, b) m a b = (lowered t a b m + (if a =? b then lowered t a b m else t m b a))%Q.
Proof.
  unfold complete_step, add_block, lowered. rewrite !Nat.eqb_refl. cbn [andb]. destruct (Nat.eqb_spec a b) as [->|N].
  - rewrite !Nat.eqb_refl. reflexivity.
  - destruct (Nat.eqb_spec b a); [congruence|]. reflexivity.
Qed.
Lemma lowered_ext t u a b m : (forall m, t m a b = u m a b) -> lowered t a b m = lowered u a b m.
Proof. intros H. unfold lowered, lower_transposed. rewrite H. destruct m as [|i [|j m]]; auto. rewrite H. auto. Qed.

Lemma seq_split n a : a < n -> seq 0 n = seq 0 a ++ a :: seq (S a) (n - a - 1).
Proof. intros H. replace n with (a + S (n - a - 1)) at 1 by lia. rewrite seq_app. cbn. reflexivity. Qed.
Lemma list_prod_app {A B} (l l' : list A) (k : list B) : list_prod (l ++ l') k = list_prod l k ++ list_prod l' k.
Proof. induction l; cbn [app list_prod]; auto. rewrite IHl, app_assoc. auto. Qed.
Lemma nodup_app {A} (l k : list A) : NoDup l -> NoDup k -> (forall x, In x l -> In x k -> False) -> NoDup (l ++ k).
Proof.
  intros ND NK D. induction l as [|x l IH]; cbn [app]; auto. inversion_clear ND. constructor.
  - rewrite in_app_iff. intros [I|I]; [auto|]. apply (D x); [left|]; auto.
  - apply IH; auto. intros y I. apply D. right. auto.
Qed.
Lemma prod_nodup (l k : list nat) : NoDup l -> NoDup k -> NoDup (list_prod l k).
Proof.
  intros ND NK. induction l as [|x l IH]; cbn [list_prod]; [constructor|]. inversion_clear ND.
  apply nodup_app; auto.
  - apply Injective_map_NoDup; auto. intros u v Q. congruence.
  - intros [u v] I1 I2. apply in_map_iff in I1. destruct I1 as (y & Q & _). inv Q. apply in_prod_iff in I2. tauto.
Qed.
Lemma pairs_nodup A : NoDup (pairs A).
Proof. apply prod_nodup; apply seq_NoDup. Qed.
Lemma pairs_split A a b : a < A -> b < A ->
  exists l2, pairs A = (list_prod (seq 0 a) (seq 0 A) ++ map (pair a) (seq 0 b)) ++ (a, b) :: l2 /\ ~ In (a, b) l2.
Proof.
  intros Ha Hb. unfold pairs. exists (map (pair a) (seq (S b) (A - b - 1)) ++ list_prod (seq (S a) (A - a - 1)) (seq 0 A)). split.
  - rewrite (seq_split A a Ha) at 1. rewrite list_prod_app. cbn [list_prod].
    rewrite <- app_assoc. f_equal.
    assert (E : forall l, map (fun y : nat => (a, y)) l = map (pair a) l) by reflexivity. rewrite E.
    rewrite (seq_split A b Hb) at 1. rewrite map_app. cbn [map]. rewrite <- !app_assoc. cbn [app]. reflexivity.
  - rewrite in_app_iff, in_map_iff, in_prod_iff, !in_seq. intros [(y & E & I)|[I _]].
    + inv E. apply in_seq in I. lia.
    + lia.
Qed.
Lemma before A a b : a < A -> b < A -> a <> b -> In (b, a) (list_prod (seq 0 a) (seq 0 A) ++ map (pair a) (seq 0 b)) <-> b < a.
Proof.
  intros Ha Hb N. rewrite in_app_iff, in_prod_iff, in_map_iff, !in_seq. split.
  - intros [[H _]|(y & E & _)]; [lia|]. inv E. congruence.
  - intros H. left. lia.
Qed.
Lemma loop_diag A t m a : a < A -> fold_left complete_step (pairs A) t m a a = (lowered t a a m + lowered t a a m)%Q.
Proof.
  intros Ha. destruct (pairs_split A a a Ha Ha) as (l2 & E & N2). rewrite E, fold_left_app. cbn [fold_left]. rewrite fold_other by auto.
  rewrite step_self, Nat.eqb_refl.
  assert (X : forall m, fold_left complete_step (list_prod (seq 0 a) (seq 0 A) ++ map (pair a) (seq 0 a)) t m a a = t m a a).
  { intros m'. apply fold_other. rewrite in_app_iff, in_prod_iff, in_map_iff, !in_seq. intros [[H _]|(y & E' & I)]; [lia|].
    inv E'. apply in_seq in I. lia. }
  rewrite (lowered_ext _ t) by auto. reflexivity.
Qed.
Lemma loop_upper A t m a b : a < b -> b < A -> fold_left complete_step (pairs A) t m a b = (lowered t a b m + t m b a)%Q.
Proof.
  intros Hab Hb. assert (Ha : a < A) by lia. destruct (pairs_split A a b Ha Hb) as (l2 & E & N2). rewrite E, fold_left_app. cbn [fold_left].
  rewrite fold_other by auto. rewrite step_self. destruct (Nat.eqb_spec a b); [lia|].
  assert (X : forall m, fold_left complete_step (list_prod (seq 0 a) (seq 0 A) ++ map (pair a) (seq 0 b)) t m a b = t m a b).
  { intros m'. apply fold_other. rewrite in_app_iff, in_prod_iff, in_map_iff, !in_seq. intros [[H _]|(y & E' & I)]; [lia|].
    inv E'. apply in_seq in I. lia. }
  rewrite (lowered_ext _ t) by auto. f_equal. apply fold_other. rewrite before by lia. lia.
Qed.
Lemma loop_lower A t m a b : b < a -> a < A -> fold_left complete_step (pairs A) t m a b = (lowered t a b m + (lowered t b a m + t m a b))%Q.
Proof.
  intros Hab Ha. assert (Hb : b < A) by lia. destruct (pairs_split A a b Ha Hb) as (l2 & E & N2). rewrite E, fold_left_app. cbn [fold_left].
  rewrite fold_other by auto. rewrite step_self. destruct (Nat.eqb_spec a b); [lia|].
  assert (X : forall m, fold_left complete_step (list_prod (seq 0 a) (seq 0 A) ++ map (pair a) (seq 0 b)) t m a b = t m a b).
  { intros m'. apply fold_other. rewrite in_app_iff, in_prod_iff, in_map_iff, !in_seq. intros [[H _]|(y & E' & I)]; [lia|].
    inv E'. apply in_seq in I. lia. }
  rewrite (lowered_ext _ t) by auto. f_equal.
  rewrite <- (loop_upper A t m b a Hab Ha).
  assert (Z : ~ In (b, a) ((a, b) :: l2)).
  {
    assert (ND : NoDup (pairs A)).
    { apply pairs_nodup. }
    rewrite E in ND. intros I. apply (proj2 (before A a b Ha Hb n)) in Hab. apply in_split in Hab. destruct Hab as (u & v & Q). rewrite Q in ND.
    rewrite <- app_assoc in ND. cbn [app] in ND. apply NoDup_remove_2 in ND. apply ND. rewrite !in_app_iff. auto. }
  rewrite E, (fold_left_app _ _ ((a, b) :: l2)). rewrite (fold_other ((a, b) :: l2)) by auto. reflexivity.
Qed.
Lemma halve_fold (f : nat -> nat) l t m a b : NoDup l ->
  fold_left (fun t a => halve_block t a (f a)) l t m a b = (if existsb (Nat.eqb a) l && (b =? f a) then t m a b / 2 else t m a b)%Q.
Proof.
  revert t. induction l as [|x l IH]; intros t ND; cbn [fold_left existsb andb]; auto. inv ND. rewrite IH by auto. unfold halve_block.
  destruct (Nat.eqb_spec a x) as [->|N]; cbn [orb andb].
  - replace (existsb (Nat.eqb x) l) with false; cbn [andb]; auto.
    symmetry. apply not_true_iff_false. rewrite existsb_exists. intros (y & I & E). apply Nat.eqb_eq in E. subst. auto.
  - reflexivity.
Qed.
Lemma existsb_seq A a : existsb (Nat.eqb a) (seq 0 A) = (a <? A).
Proof.
  apply eq_true_iff_eq. rewrite existsb_exists, Nat.ltb_lt. split.
  - intros (y & I & E). apply Nat.eqb_eq in E. subst. apply in_seq in I. lia.
  - intros H. exists a. rewrite in_seq, Nat.eqb_refl. split; auto. lia.
Qed.
Lemma higher_loop A t m a b : a < A ->
  complete_higher A t m a b = (if b =? A - 1 then fold_left complete_step (pairs A) t m a b / 2 else fold_left complete_step (pairs A) t m a b)%Q.
Proof.
  intros Ha. unfold complete_higher. cbv zeta. rewrite (halve_fold (fun _ => A - 1)) by apply seq_NoDup.
  rewrite existsb_seq, (proj2 (Nat.ltb_lt a A) Ha). reflexivity.
Qed.
Lemma linear_value A t m a b : a < A -> (complete_linear A t m a b == if a =? b then t m a a else t m a b + t m b a)%Q.
Proof.
  intros Ha. unfold complete_linear. rewrite (halve_fold (fun a => a)) by apply seq_NoDup. rewrite existsb_seq, (proj2 (Nat.ltb_lt a A) Ha). cbn [andb].
  rewrite (Nat.eqb_sym b a). destruct (Nat.eqb_spec a b) as [->|N]; [|reflexivity]. field.
Qed.
Lemma higher_value A t m a b : a < A -> b < A ->
  (complete_higher A t m a b ==
    (if b =? A - 1 then 1 # 2 else 1) *
    (if a =? b then 2 * lowered t a a m else if a <? b then lowered t a b m + t m b a else lowered t a b m + lowered t b a m + t m a b))%Q.
Proof.
  intros Ha Hb. rewrite higher_loop by auto.
  assert (E : (fold_left complete_step (pairs A) t m a b == if a =? b then 2 * lowered t a a m else if a <? b then lowered t a b m + t m b a else lowered t a b m + lowered t b a m + t m a b)%Q).
  { destruct (Nat.eqb_spec a b) as [->|N].
    - rewrite loop_diag by auto. ring.
    - destruct (Nat.ltb_spec a b).
      + rewrite loop_upper by auto. reflexivity.
      + rewrite loop_lower by (auto; lia). ring. }
  destruct (b =? A - 1); rewrite E; field.
Qed.

(** ---- checks ---- *)
Lemma in_pairs A a b : In (a, b) (pairs A) <-> a < A /\ b < A.
Proof. unfold pairs. rewrite in_prod_iff, !in_seq. lia. Qed.
Lemma in_tuples N k m : In m (tuples N k) <-> length m = k /\ Forall (fun i => i < N) m.
Proof.
  revert m. induction k as [|k IH]; intros m; cbn [tuples].
  - split.
    + intros [<-|[]]. auto.
    + intros [H _]. destruct m; [left; auto|discriminate].
  - rewrite in_flat_map. split.
    + intros (i & I & H). apply in_map_iff in H. destruct H as (m' & <- & H). apply IH in H. apply in_seq in I. destruct H. split; [cbn; lia|].
      constructor; auto. lia.
    + intros [L F]. destruct m as [|i m]; [discriminate|]. inv F. exists i. rewrite in_seq. split; [lia|]. apply in_map. apply IH. split; auto.
Qed.
Lemma all_entries_spec N A k f : all_entries N A k f = true <->
  forall m a b, length m = k -> Forall (fun i => i < N) m -> a < A -> b < A -> f m a b = true.
Proof.
  unfold all_entries. rewrite forallb_forall. split.
  - intros H m a b L F Ha Hb. specialize (H m (proj2 (in_tuples N k m) (conj L F))). rewrite forallb_forall in H.
    apply (H (a, b)). apply in_pairs. auto.
  - intros H m Hm. apply in_tuples in Hm. destruct Hm. apply forallb_forall. intros [a b] I. apply in_pairs in I. apply H; tauto.
Qed.
Lemma close_Qeq x y x' y' : (x == x')%Q -> (y == y')%Q -> close x y = close x' y'.
Proof. intros E F. unfold close. apply eq_true_iff_eq. rewrite !Qle_bool_iff. rewrite E, F. reflexivity. Qed.
Lemma close_refl x : close x x = true.
Proof.
  unfold close. apply Qle_bool_iff. setoid_replace (x - x)%Q with 0%Q by ring. rewrite Qabs_pos by lra.
  pose proof (Qabs_nonneg x). lra.
Qed.
Lemma close_eq x y : (x == y)%Q -> close x y = true.
Proof. intros E. rewrite <- (close_refl y). apply close_Qeq; auto. reflexivity. Qed.
