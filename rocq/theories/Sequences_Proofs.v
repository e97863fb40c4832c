(** Proofs about the tables of scaling parameters. *)
From Coq Require Import Reals QArith Qabs Lqa Lia.
From Verif Require Import Common Common_Proofs Sequences_Model Sequences_Spec.
Local Open Scope nat_scope.

Lemma isclose_near a b : isclose a b = true <-> near a b.
Proof. apply Qle_bool_iff. Qed.
Lemma isclose_far a b : isclose a b = false <-> ~ near a b.
Proof. rewrite <- isclose_near. destruct (isclose a b); split; congruence. Qed.
Lemma Qlt_bool_iff a b : Qlt_bool a b = true <-> (a < b)%Q.
Proof.
  unfold Qlt_bool. rewrite negb_true_iff. split.
  - intros H. apply Qnot_le_lt. intros K. apply Qle_bool_iff in K. congruence.
  - intros H. destruct (Qle_bool b a) eqn:E; auto. apply Qle_bool_iff in E. exfalso. lra.
Qed.
Lemma Qlt_bool_false a b : Qlt_bool a b = false <-> (b <= a)%Q.
Proof.
  unfold Qlt_bool. rewrite negb_false_iff. apply Qle_bool_iff.
Qed.
Lemma near_iff a d : (0 <= d)%Q -> (near a d <-> (d - (1 # 100000000) - (1 # 100000) * d <= a <= d + (1 # 100000000) + (1 # 100000) * d)%Q).
Proof.
  intros D. unfold near. rewrite (Qabs_pos d D). rewrite Qabs_Qle_condition. split; intros [A B]; split; lra.
Qed.

Lemma py_index_last {A} (l : list A) : py_index l (-1) = match nth_error l (length l - 1) with Some a => Ok a | None => Raise IndexError end.
Proof.
  unfold py_index. cbv zeta. cbn [Z.ltb Z.compare].
  destruct (Z.ltb_spec (-1 + Z.of_nat (length l)) 0).
  - destruct l; [reflexivity|cbn [length] in H; lia].
  - replace (Z.to_nat (-1 + Z.of_nat (length l))) with (length l - 1) by lia. auto.
Qed.
Lemma py_index_nat {A} (l : list A) k : py_index l (Z.of_nat k) = match nth_error l k with Some a => Ok a | None => Raise IndexError end.
Proof.
  unfold py_index. cbv zeta. destruct (Z.ltb_spec (Z.of_nat k) 0); [lia|]. destruct (Z.ltb_spec (Z.of_nat k) 0); [lia|].
  rewrite Nat2Z.id. auto.
Qed.

(** rows that the search passes *)
Definition passed (d : Q) (s : Q * Q) : Prop := ~ near (fst s) d /\ (fst s <= d)%Q.
Lemma passed_dec d s : {passed d s} + {near (fst s) d} + {~ near (fst s) d /\ (d < fst s)%Q}.
Proof.
  destruct (isclose (fst s) d) eqn:E; [left; right; apply isclose_near; auto|]. apply isclose_far in E.
  destruct (Qlt_bool d (fst s)) eqn:F; [right; split; auto; apply Qlt_bool_iff; auto|].
  left. left. split; auto. apply Qlt_bool_false. auto.
Qed.
Lemma search_skip sequence d idx a rows : Forall (passed d) a -> search sequence d idx (a ++ rows) = search sequence d (idx + length a) rows.
Proof.
  intros H. revert idx. induction H as [|s a [N L] H IH]; intros idx; cbn [app length]; [f_equal; lia|].
  cbn [search]. rewrite (proj2 (isclose_far _ _) N), (proj2 (Qlt_bool_false _ _) L), IH. f_equal. lia.
Qed.
Lemma search_near sequence d a s b : Forall (passed d) a -> near (fst s) d -> search sequence d 0 (a ++ s :: b) = Ok (mkPair (snd s) (fst s)).
Proof. intros A N. rewrite search_skip by auto. cbn [search]. rewrite (proj2 (isclose_near _ _) N). auto. Qed.
Lemma search_above sequence d a s b : Forall (passed d) a -> ~ near (fst s) d -> (d < fst s)%Q ->
  search sequence d 0 (a ++ s :: b) = do p <- py_index sequence (Z.of_nat (length a) - 1); Ok (mkPair (snd p) (fst p)).
Proof.
  intros A N L. rewrite search_skip by auto. cbn [search]. rewrite (proj2 (isclose_far _ _) N), (proj2 (Qlt_bool_iff _ _) L).
  cbn [Nat.add]. auto.
Qed.
Lemma search_none sequence d rows : Forall (passed d) rows -> search sequence d 0 rows = Raise OtherException.
Proof. intros H. rewrite <- (app_nil_r rows), search_skip by auto. auto. Qed.

Lemma first_stop d rows : Forall (passed d) rows \/
  exists a s b, rows = a ++ s :: b /\ Forall (passed d) a /\ (near (fst s) d \/ (~ near (fst s) d /\ (d < fst s)%Q)).
Proof.
  induction rows as [|s rows IH]; auto. destruct (passed_dec d s) as [[P|P]|P].
  - destruct IH as [IH|(a & s' & b & -> & A & B)]; auto. right. exists (s :: a), s', b. auto.
  - right. exists [], s, rows. auto.
  - right. exists [], s, rows. auto.
Qed.

Lemma Qeq_bool_neq' a b : ~ (a == b)%Q -> Qeq_bool a b = false.
Proof. intros H. destruct (Qeq_bool a b) eqn:E; auto. apply Qeq_bool_eq in E. tauto. Qed.
Lemma select_inside sequence t last : (0 < t)%Q -> (t < 1)%Q -> nth_error sequence (length sequence - 1) = Some last ->
  select_pair sequence t = search sequence (fst last * t) 0 sequence.
Proof.
  intros A B L. unfold select_pair.
  rewrite (proj2 (Qle_bool_iff 0 t)) by lra. rewrite (proj2 (Qle_bool_iff t 1)) by lra. cbn [andb passert bind].
  rewrite py_index_last, L. cbn [bind]. cbv zeta.
  rewrite !Qeq_bool_neq' by lra. reflexivity.
Qed.

Lemma increasing_last sequence last r i : increasing sequence -> nth_error sequence (length sequence - 1) = Some last ->
  nth_error sequence i = Some r -> (fst r <= fst last)%Q.
Proof.
  intros I L H. assert (i < length sequence) by (apply nth_error_Some; congruence).
  destruct (Nat.eq_dec i (length sequence - 1)) as [->|N]; [assert (r = last) by congruence; subst; lra|].
  apply Qlt_le_weak. apply (I i (length sequence - 1) r last); auto. lia.
Qed.

(** the row found, in an increasing table starting at 0 or below *)
Definition found (sequence : list (Q * Q)) (d : Q) (k : nat) (r : Q * Q) : Prop :=
  nth_error sequence k = Some r /\
  ((near (fst r) d /\ forall i s, i < k -> nth_error sequence i = Some s -> passed d s) \/
   (forall i s, i <= k -> nth_error sequence i = Some s -> passed d s) /\
   exists n, nth_error sequence (S k) = Some n /\ ~ near (fst n) d /\ (d < fst n)%Q).
Lemma Forall_nth {A} (P : A -> Prop) l i x : Forall P l -> nth_error l i = Some x -> P x.
Proof. intros F H. apply nth_error_In in H. rewrite Forall_forall in F. auto. Qed.
Lemma search_found sequence t first last : increasing sequence -> nth_error sequence 0 = Some first ->
  nth_error sequence (length sequence - 1) = Some last -> (0 < t)%Q -> (t < 1)%Q -> (fst first <= 0)%Q -> (0 < fst last)%Q ->
  exists k r, select_pair sequence t = Ok (mkPair (snd r) (fst r)) /\ found sequence (fst last * t) k r.
Proof.
  intros I HF HL T1 T2 F M. rewrite (select_inside _ _ last) by auto. set (d := (fst last * t)%Q).
  assert (D0 : (0 < d)%Q) by (apply Qmult_lt_0_compat; auto).
  assert (D1 : (d < fst last)%Q) by (unfold d; rewrite <- (Qmult_1_r (fst last)) at 2; apply Qmult_lt_l; auto).
  destruct (first_stop d sequence) as [P|(a & s & b & E & A & [N|[N L]])].
  - exfalso. destruct (Forall_nth _ _ _ _ P HL) as [_ X]. lra.
  - exists (length a), s. rewrite E at 2. rewrite search_near by auto. split; auto.
    split; [rewrite E, nth_error_app2, Nat.sub_diag by lia; auto|]. left. split; auto.
    intros i x Hi Hx. rewrite E, nth_error_app1 in Hx by auto. eapply Forall_nth; eauto.
  - assert (G : search sequence d 0 sequence = do p <- py_index sequence (Z.of_nat (length a) - 1); Ok (mkPair (snd p) (fst p))).
    { rewrite E at 2. apply search_above; auto. }
    rewrite G. clear G.
    destruct a as [|x a].
    { exfalso. rewrite E in HF. cbn in HF. inv HF. lra. }
    replace (Z.of_nat (length (x :: a)) - 1)%Z with (Z.of_nat (length a)) by (cbn [length]; lia).
    rewrite py_index_nat. destruct (nth_error sequence (length a)) as [r|] eqn:HR.
    2:{ exfalso. apply nth_error_None in HR. rewrite E, app_length in HR. cbn in HR. lia. }
    exists (length a), r. split; auto. split; auto. right. split.
    + intros i y Hi Hy. rewrite E, nth_error_app1 in Hy by (cbn [length]; lia). eapply Forall_nth; eauto.
    + exists s. split; auto. rewrite E, nth_error_app2 by (cbn [length]; lia). cbn [length]. rewrite Nat.sub_diag. auto.
Qed.
Lemma found_mono sequence d1 d2 k1 r1 k2 r2 : increasing sequence -> (0 <= d1)%Q -> (d1 <= d2)%Q ->
  found sequence d1 k1 r1 -> found sequence d2 k2 r2 -> (fst r1 <= fst r2)%Q.
Proof.
  intros I D0 D [H1 F1] [H2 F2].
  destruct (Nat.le_gt_cases k1 k2) as [K|K].
  { destruct (Nat.eq_dec k1 k2) as [->|N]; [assert (r1 = r2) by congruence; subst; lra|].
    apply Qlt_le_weak, (I k1 k2); auto. lia. }
  exfalso.
  assert (P2 : passed d1 r2).
  { destruct F1 as [[_ F1]|[F1 _]]; apply (F1 k2); auto. lia. }
  assert (L2 : (fst r2 < d2 - (1 # 100000000) - (1 # 100000) * d2)%Q).
  { destruct P2 as [N L]. rewrite near_iff in N by auto.
    destruct (Qlt_le_dec (fst r2) (d2 - (1 # 100000000) - (1 # 100000) * d2)); auto. exfalso. apply N. split; lra. }
  destruct F2 as [[N2 _]|[_ (n & Hn & Nn & Ln)]].
  { rewrite near_iff in N2 by lra. lra. }
  assert (NN : (fst n <= fst r1)%Q).
  { destruct (Nat.eq_dec (S k2) k1) as [E|E]; [subst; assert (n = r1) by congruence; subst; lra|].
    apply Qlt_le_weak, (I (S k2) k1); auto. lia. }
  destruct F1 as [[N1 _]|[F1 _]].
  - rewrite near_iff in N1 by auto. apply Nn. rewrite near_iff by lra. split; lra.
  - destruct (F1 k1 r1 (Nat.le_refl _) H1) as [_ L1]. lra.
Qed.
