(** C49, C50, C65, C66, C67: tables of scaling parameters and orthonormal matrices. *)
From Coq Require Import Reals QArith Qabs Qreals Lra Lqa Lia.
From Verif Require Import Common Common_Proofs Sequences_Model Sequences_Spec Sequences_Proofs Sequences2_Proofs Expm_Proofs.
Local Open Scope nat_scope.
Ltac rlra := Coq.micromega.Lra.lra.
Ltac rnra := Coq.micromega.Lra.nra.

(** ** C49: select_pair *)
(** C49: the tuning parameter must be in [0, 1], the table must not be empty *)
Theorem C49_rejects sequence t :
  (~ (0 <= t <= 1)%Q -> select_pair sequence t = Raise AssertionError) /\
  ((0 <= t <= 1)%Q -> select_pair [] t = Raise IndexError).
Proof.
  split.
  - intros H. unfold select_pair. destruct (Qle_bool 0 t && Qle_bool t 1) eqn:E; auto.
    apply andb_true_iff in E. rewrite !Qle_bool_iff in E. tauto.
  - intros [A B]. unfold select_pair. rewrite (proj2 (Qle_bool_iff _ _) A), (proj2 (Qle_bool_iff _ _) B). reflexivity.
Qed.
(** C49: the ends of the range *)
Theorem C49_ends sequence last t : nth_error sequence (length sequence - 1) = Some last ->
  ((t == 0)%Q -> select_pair sequence t = Ok (mkPair 0 0)) /\
  ((t == 1)%Q -> select_pair sequence t = Ok (mkPair (snd last) (fst last))).
Proof.
  intros L. unfold select_pair. rewrite py_index_last, L.
  split; intros H; rewrite (proj2 (Qle_bool_iff 0 t)), (proj2 (Qle_bool_iff t 1)) by lra; cbn [andb passert bind].
  - rewrite (Qeq_eq_bool _ _ H). reflexivity.
  - rewrite Qeq_bool_neq' by lra. rewrite (Qeq_eq_bool _ _ H). reflexivity.
Qed.
(** C49: inside the range, the first row that is near the desired value or above it decides *)
Theorem C49_select sequence last t : nth_error sequence (length sequence - 1) = Some last -> (0 < t)%Q -> (t < 1)%Q ->
  let d := (fst last * t)%Q in
  (forall k r, nth_error sequence k = Some r -> (forall i s, i < k -> nth_error sequence i = Some s -> ~ near (fst s) d /\ (fst s <= d)%Q) ->
     (near (fst r) d -> select_pair sequence t = Ok (mkPair (snd r) (fst r))) /\
     (~ near (fst r) d -> (d < fst r)%Q ->
        forall p, nth_error sequence (if k =? 0 then length sequence - 1 else k - 1) = Some p ->
        select_pair sequence t = Ok (mkPair (snd p) (fst p)))) /\
  ((forall s, In s sequence -> ~ near (fst s) d /\ (fst s <= d)%Q) -> select_pair sequence t = Raise OtherException).
Proof.
  intros L A B d. rewrite (select_inside _ _ last) by auto. fold d. split.
  - intros k r Hk Hp.
    destruct (nth_error_split _ _ Hk) as (a & b & E & Ha).
    assert (P : Forall (passed d) a).
    { apply Forall_forall. intros s Hs. apply In_nth_error in Hs. destruct Hs as [i Hi].
      assert (i < length a) by (apply nth_error_Some; congruence).
      apply (Hp i s); [lia|]. rewrite E, nth_error_app1; auto. }
    split.
    + intros N. rewrite E at 2. apply search_near; auto.
    + intros N G p Hpk. rewrite E at 2. rewrite search_above by auto. rewrite Ha.
      destruct (Nat.eqb_spec k 0) as [->|K].
      * change (Z.of_nat 0 - 1)%Z with (-1)%Z. rewrite py_index_last, Hpk. auto.
      * replace (Z.of_nat k - 1)%Z with (Z.of_nat (k - 1)) by lia. rewrite py_index_nat, Hpk. auto.
  - intros H. apply search_none. apply Forall_forall. auto.
Qed.
(** C49: in an increasing table starting at 0 the row found is near the desired value, or the last one below it *)
Theorem C49_bracket sequence first last t :
  increasing sequence -> nth_error sequence 0 = Some first -> nth_error sequence (length sequence - 1) = Some last ->
  (fst first <= 0)%Q -> (0 < fst last)%Q -> (0 < t)%Q -> (t < 1)%Q ->
  exists k r, nth_error sequence k = Some r /\ select_pair sequence t = Ok (mkPair (snd r) (fst r)) /\
    (near (fst r) (fst last * t) \/
     ((fst r <= fst last * t)%Q /\ exists n, nth_error sequence (S k) = Some n /\ (fst last * t < fst n)%Q)).
Proof.
  intros I F L F0 L0 T0 T1. destruct (search_found sequence t first last) as (k & r & S & Hr & H); auto.
  exists k, r. split; auto. split; auto. destruct H as [[N _]|[P (n & Hn & _ & G)]]; auto.
  right. split; [apply (P k r); auto|eauto].
Qed.
(** C49: a larger tuning parameter never gives a smaller distance *)
Theorem C49_monotone sequence first last t1 t2 :
  increasing sequence -> nth_error sequence 0 = Some first -> nth_error sequence (length sequence - 1) = Some last ->
  (fst first == 0)%Q -> (0 < fst last)%Q -> (0 <= t1)%Q -> (t1 <= t2)%Q -> (t2 <= 1)%Q ->
  exists p1 p2, select_pair sequence t1 = Ok p1 /\ select_pair sequence t2 = Ok p2 /\ (py p1 <= py p2)%Q.
Proof.
  intros I F L F0 L0 T0 T T1.
  assert (C : forall t, (0 <= t)%Q -> (t <= 1)%Q ->
     ((t == 0)%Q /\ select_pair sequence t = Ok (mkPair 0 0)) \/ ((t == 1)%Q /\ select_pair sequence t = Ok (mkPair (snd last) (fst last))) \/
     ((0 < t)%Q /\ (t < 1)%Q /\ exists k r, select_pair sequence t = Ok (mkPair (snd r) (fst r)) /\ found sequence (fst last * t) k r)).
  { intros t A B. destruct (C49_ends sequence last t L) as [E0 E1].
    destruct (Qeq_dec t 0); [left; auto|]. destruct (Qeq_dec t 1); [right; left; auto|]. right. right.
    assert (0 < t)%Q by (apply Qnot_le_lt; intros K; apply n; lra).
    assert (t < 1)%Q by (apply Qnot_le_lt; intros K; apply n0; lra).
    split; auto. split; auto. apply (search_found sequence t first last); auto. lra. }
  assert (POS : forall d k r, found sequence d k r -> (0 <= fst r)%Q /\ (fst r <= fst last)%Q).
  { intros d k r [Hk _]. split; [|eapply increasing_last; eauto]. destruct k as [|k]; [rewrite F in Hk; inv Hk; lra|].
    assert (fst first < fst r)%Q by (apply (I 0 (S k)); auto; lia). lra. }
  destruct (C t1) as [[E1 S1]|[[E1 S1]|(A1 & B1 & k1 & r1 & S1 & F1)]]; try lra;
  destruct (C t2) as [[E2 S2]|[[E2 S2]|(A2 & B2 & k2 & r2 & S2 & F2)]]; try lra;
  eexists _, _; (split; [exact S1|split; [exact S2|]]); cbn [py]; try lra.
  - apply (POS _ _ _ F2).
  - apply (POS _ _ _ F1).
  - refine (found_mono sequence _ _ k1 r1 k2 r2 I _ _ F1 F2).
    + apply Qmult_le_0_compat; lra.
    + rewrite !(Qmult_comm (fst last)). apply Qmult_le_compat_r; lra.
Qed.
(** C49: a desired value below the first row is answered with the last row *)
Theorem C49_wraps sequence first last t :
  nth_error sequence 0 = Some first -> nth_error sequence (length sequence - 1) = Some last ->
  (0 < t)%Q -> (t < 1)%Q -> ~ near (fst first) (fst last * t) -> (fst last * t < fst first)%Q ->
  select_pair sequence t = Ok (mkPair (snd last) (fst last)).
Proof.
  intros F L A B N G. destruct (C49_select sequence last t L A B) as [H _].
  apply (H 0 first F ltac:(intros; lia)); auto.
Qed.
Theorem C49_nearest_refuted :
  exists sequence t p, increasing sequence /\ (0 < t)%Q /\ (t < 1)%Q /\ select_pair sequence t = Ok p /\
    exists last r, nth_error sequence (length sequence - 1) = Some last /\ In r sequence /\
      (Qabs (fst r - fst last * t) < Qabs (py p - fst last * t))%Q /\ (py p == fst last)%Q.
Proof.
  exists [(1, 5); (2, 6); (4, 7)]%Q, (1 # 8), (mkPair 7 4). split.
  { intros i j r s L Hi Hj. do 3 (destruct i as [|i]; [do 4 (destruct j as [|j]; [cbn in *; try lia; try (inv Hi; inv Hj; cbn; lra); try discriminate|]); destruct j; discriminate|]).
    destruct i; discriminate. }
  split; [lra|]. split; [lra|]. split; [reflexivity|]. exists (4, 7)%Q, (1, 5)%Q. split; auto. split; [left; auto|]. split; reflexivity.
Qed.
Definition table : list (Q * Q) := [(0, 0); (1 # 2, 1 # 10); (1, 2 # 10); (2, 3 # 10)]%Q.
Lemma table_increasing : increasing table.
Proof.
  intros i j r s L Hi Hj. do 4 (destruct i as [|i]; [do 5 (destruct j as [|j]; [cbn in *; try lia; try (inv Hi; inv Hj; cbn; lra); try discriminate|]); destruct j; discriminate|]).
  destruct i; discriminate.
Qed.
Example C49_example :
  increasing table /\ select_pair table (1 # 2) = Ok (mkPair (2 # 10) 1) /\
  select_pair table (7 # 10) = Ok (mkPair (2 # 10) 1) /\ select_pair table (1 # 10) = Ok (mkPair 0 0) /\
  select_pair table 1 = Ok (mkPair (3 # 10) 2) /\ select_pair table (11 # 10) = Raise AssertionError.
Proof. split; [apply table_increasing|]. repeat split; reflexivity. Qed.

(** ** C50: the matrices *)
(** C50: the generator has ones above and minus ones below its zero diagonal *)
Theorem C50_generator order :
  ((order <= 0)%Z -> build_SKSM_and_identity order = Raise AssertionError) /\
  ((0 < order)%Z -> exists s one, build_SKSM_and_identity order = Ok (s, one) /\
     (forall i j, i < j -> s i j = 1%R /\ s j i = (-1)%R) /\ (forall i, s i i = 0%R) /\
     (forall n, skew n s) /\ (forall i j, one i j = if i =? j then 1%R else 0%R)).
Proof.
  unfold build_SKSM_and_identity. split; intros H.
  - destruct (Z.ltb_spec 0 order); [lia|]. reflexivity.
  - destruct (Z.ltb_spec 0 order); [|lia]. cbn [passert bind]. cbv zeta. eexists _, _. split; [reflexivity|].
    unfold tr, tri, eye. split; [|split; [|split]].
    + intros i j L. destruct (Nat.leb_spec i j), (Nat.leb_spec j i); try lia. split; rlra.
    + intros i. rlra.
    + intros n i j I J. rlra.
    + auto.
Qed.
(** C50: the tuning parameter is restricted to [0, 1]; 0 gives the identity *)
Theorem C50_restricted expm tables order t :
  (~ (0 <= t <= 1)%Q -> create_orthonormal expm tables order t = Raise AssertionError) /\
  ((order <= 0)%Z -> create_orthonormal expm tables order t = Raise AssertionError) /\
  ((t == 0)%Q -> (0 < order)%Z -> exists m, create_orthonormal expm tables order t = Ok m /\
     forall i j, m i j = if i =? j then 1%R else 0%R).
Proof.
  unfold create_orthonormal. split; [|split].
  - intros H. destruct (Qle_bool 0 t && Qle_bool t 1) eqn:E; auto.
    apply andb_true_iff in E. rewrite !Qle_bool_iff in E. tauto.
  - intros H. destruct (Qle_bool 0 t && Qle_bool t 1); auto. cbn [passert bind].
    rewrite (proj1 (C50_generator order) H). reflexivity.
  - intros T O. rewrite (proj2 (Qle_bool_iff 0 t)), (proj2 (Qle_bool_iff t 1)) by lra. cbn [andb passert bind].
    destruct (proj2 (C50_generator order) O) as (s & one & -> & _ & _ & _ & H). cbn [bind].
    rewrite (Qeq_eq_bool _ _ T). eauto.
Qed.
(** C50: the exponential of every multiple of the generator exists and is orthogonal *)
Theorem C50_exponential order s one x : build_SKSM_and_identity order = Ok (s, one) ->
  (exists e, is_exponential (Z.to_nat order) (fun i j => (x * s i j)%R) e) /\
  forall e, is_exponential (Z.to_nat order) (fun i j => (x * s i j)%R) e -> orthogonal (Z.to_nat order) e.
Proof.
  intros H. split; [eexists; apply exponential_exists|].
  intros e E. apply (skew_orthogonal _ _ _ E). intros i j I J.
  destruct (Z_le_gt_dec order 0) as [O|O]; [rewrite (proj1 (C50_generator order) O) in H; discriminate|].
  destruct (proj2 (C50_generator order) ltac:(lia)) as (s' & one' & E' & _ & _ & S & _). rewrite E' in H. inv H.
  rewrite (S (Z.to_nat order) i j I J). ring.
Qed.
Lemma rsum_total n f : rsum n f = total n f.
Proof. induction n; cbn; congruence. Qed.
(** C50: with an exact exponential the matrix is returned, it is the exponential of the selected multiple, and it is orthogonal *)
Theorem C50_orthogonal expm tables order t sequence p s one :
  (forall n a, is_exponential n a (expm n a)) ->
  build_SKSM_and_identity order = Ok (s, one) -> (0 < t <= 1)%Q -> tables order = Some sequence -> select_pair sequence t = Ok p ->
  exists m, create_orthonormal expm tables order t = Ok m /\ orthogonal (Z.to_nat order) m /\
    is_exponential (Z.to_nat order) (fun i j => (Q2R (px p) * s i j)%R) m.
Proof.
  intros E B T S P. unfold create_orthonormal.
  rewrite (proj2 (Qle_bool_iff 0 t)), (proj2 (Qle_bool_iff t 1)) by lra. cbn [andb passert bind]. rewrite B. cbn [bind].
  rewrite Qeq_bool_neq' by lra. rewrite S. cbn [bind]. rewrite P. cbn [bind]. cbv zeta.
  set (m := expm (Z.to_nat order) (scale (Q2R (px p)) s)).
  assert (M : is_exponential (Z.to_nat order) (fun i j => (Q2R (px p) * s i j)%R) m) by apply E.
  assert (O : orthogonal (Z.to_nat order) m) by (eapply C50_exponential; eauto).
  assert (A : allclose (Z.to_nat order) (dot (Z.to_nat order) m (tr m)) eye = true).
  { apply forallb_forall. intros i I. apply forallb_forall. intros j J. apply in_seq in I, J.
    unfold dot, tr, eye. rewrite rsum_total, (O i j) by lia. unfold Rleb. destruct (Rle_dec _ _) as [|N]; auto. exfalso. apply N.
    rewrite Rminus_eq_0, Rabs_R0. pose proof (Rabs_pos (if i =? j then 1 else 0)). rlra. }
  rewrite A. cbn [passert bind]. eauto.
Qed.
(** C50: whatever the exponential, a matrix that is returned passes the test of orthonormality *)
Theorem C50_checked expm tables order t m : create_orthonormal expm tables order t = Ok m ->
  forall i j, i < Z.to_nat order -> j < Z.to_nat order ->
  (Rabs (total (Z.to_nat order) (fun k => m i k * m j k)%R - (if i =? j then 1 else 0)) <= / 100000000 + / 100000)%R.
Proof.
  unfold create_orthonormal. intros H i j I J.
  apply bind_ok in H. destruct H as (_ & _ & H). apply bind_ok in H. destruct H as ([s one] & B & H).
  destruct (Qeq_bool t 0).
  - destruct (Z_le_gt_dec order 0) as [O|O]; [rewrite (proj1 (C50_generator order) O) in B; discriminate|].
    destruct (proj2 (C50_generator order) ltac:(lia)) as (s' & one' & E' & _ & _ & _ & S). rewrite E' in B. inv B. inv H.
    assert (T : total (Z.to_nat order) (fun k => m i k * m j k)%R = if i =? j then 1%R else 0%R).
    { rewrite (total_ext _ _ (fun k => (if i =? k then 1 else 0) * m j k)%R) by (intros; rewrite S; auto).
      rewrite (total_delta_l _ i (fun k => m j k)) by auto. rewrite S, Nat.eqb_sym. auto. }
    rewrite T, Rminus_eq_0, Rabs_R0. rlra.
  - apply bind_ok in H. destruct H as (sequence & _ & H). apply bind_ok in H. destruct H as (p & _ & H). cbv zeta in H.
    apply bind_ok in H. destruct H as (u & A & H). inv H.
    unfold passert in A. destruct (allclose _ _ _) eqn:C; [|discriminate].
    unfold allclose in C. rewrite forallb_forall in C. specialize (C i). rewrite in_seq in C.
    specialize (C ltac:(lia)). rewrite forallb_forall in C. specialize (C j). rewrite in_seq in C. specialize (C ltac:(lia)).
    unfold Rleb in C. destruct (Rle_dec _ _) as [L|]; [|discriminate]. unfold dot, tr, eye in L. rewrite rsum_total in L.
    eapply Rle_trans; [exact L|]. destruct (i =? j); [rewrite Rabs_R1|rewrite Rabs_R0]; rlra.
Qed.
Example C50_example :
  let expm := fun n a i j => Coquelicot.Series.Series (term n a i j) in
  (forall n a, is_exponential n a (expm n a)) /\
  (exists s one, build_SKSM_and_identity 3 = Ok (s, one)) /\ select_pair table (1 # 2) = Ok (mkPair (2 # 10) 1) /\
  exists m, create_orthonormal expm (fun _ => Some table) 3 (1 # 2) = Ok m /\ orthogonal 3 m.
Proof.
  cbv zeta. split; [intros; apply exponential_exists|]. split; [eexists _, _; reflexivity|]. split; [reflexivity|].
  destruct (proj2 (C50_generator 3) ltac:(lia)) as (s & one & B & _).
  destruct (C50_orthogonal (fun n a i j => Coquelicot.Series.Series (term n a i j)) (fun _ => Some table) 3 (1 # 2) table (mkPair (2 # 10) 1) s one)
    as (m & E & O & _); auto.
  - intros. apply exponential_exists.
  - split; lra.
  - exists m. auto.
Qed.

(** ** C65: the largest possible distance *)
Theorem C65_distance n e : orthogonal n e ->
  distance2 n e = (2 * INR n - 2 * total n (fun i => e i i))%R /\ (0 <= distance2 n e <= 4 * INR n)%R.
Proof.
  intros O.
  assert (R1 : forall i, i < n -> total n (fun j => e i j * e i j)%R = 1%R).
  { intros i I. rewrite (O i i I I), Nat.eqb_refl. auto. }
  assert (D : distance2 n e = total n (fun i => 2 - 2 * e i i)%R).
  { unfold distance2. apply total_ext. intros i I.
    rewrite (total_ext n _ (fun j => e i j * e i j + ((if i =? j then 1 else 0) * (-2 * e i j) + (if i =? j then 1 else 0) * 1))%R).
    2:{ intros j J. destruct (i =? j); ring. }
    rewrite total_plus, R1, total_plus by auto.
    rewrite (total_delta_l n i (fun j => -2 * e i j)%R), (total_delta_l n i (fun _ => 1%R)) by auto. ring. }
  assert (K : forall m (f : nat -> R), total m (fun i => 2 - 2 * f i)%R = (2 * INR m - 2 * total m f)%R).
  { induction m; intros f; [cbn; ring|]. cbn [total]. rewrite IHm, S_INR. ring. }
  split; [rewrite D; apply K|]. split.
  - unfold distance2. apply total_nonneg. intros. apply total_nonneg. intros. apply Rle_0_sqr.
  - rewrite D. assert (B : forall i, i < n -> (-1 <= e i i)%R).
    { intros i I. assert (e i i * e i i <= 1)%R.
      { rewrite <- (R1 i I). apply (total_one n (fun j => e i j * e i j)%R); auto. intros. apply Rle_0_sqr. }
      rnra. }
    apply Rle_trans with (total n (fun _ => 4)%R); [apply total_le; intros i I; specialize (B i I); rlra|].
    clear. induction n; [cbn; rlra|]. cbn [total]. rewrite S_INR. rlra.
Qed.
(** C65: so the norm of the difference from the identity is at most 2 sqrt(n), for any multiple of the generator *)
Theorem C65_norm order s one x e : build_SKSM_and_identity order = Ok (s, one) ->
  is_exponential (Z.to_nat order) (fun i j => (x * s i j)%R) e ->
  (sqrt (distance2 (Z.to_nat order) e) <= 2 * sqrt (INR (Z.to_nat order)))%R.
Proof.
  intros B E. destruct (C65_distance _ _ (proj2 (C50_exponential order s one x B) e E)) as [_ [A C]].
  replace 2%R with (sqrt 4) by (rewrite <- (sqrt_square 2) by rlra; f_equal; ring).
  rewrite <- sqrt_mult by (try rlra; apply pos_INR). apply sqrt_le_1; auto. pose proof (pos_INR (Z.to_nat order)). rlra.
Qed.
Example C65_example : orthogonal 2 (fun i j => if i =? j then (-1)%R else 0%R) /\
  distance2 2 (fun i j => if i =? j then (-1)%R else 0%R) = 8%R.
Proof.
  split.
  - intros i j I J. destruct i as [|[|]], j as [|[|]]; try lia; cbn; ring.
  - unfold distance2. cbn. ring.
Qed.

(** ** C66: turning points *)
(** C66: the rows inside the saved pairs are those at which the distance is at least as large as ever before *)
Theorem C66_records scan pairs : ordered scan ->
  generate_x_pairs (list_of_turning_points scan) = Ok pairs ->
  prune pairs (map (fun p => (snd p, fst p)) scan) = map (fun p => (snd p, fst p)) (records 0 scan).
Proof. apply pruned_records. Qed.
(** C66: so the distances increase along the saved sequence *)
Theorem C66_increasing scan pairs : ordered scan ->
  generate_x_pairs (list_of_turning_points scan) = Ok pairs ->
  forall i j r s, i < j -> nth_error (prune pairs (map (fun p => (snd p, fst p)) scan)) i = Some r ->
    nth_error (prune pairs (map (fun p => (snd p, fst p)) scan)) j = Some s -> (fst r <= fst s)%Q /\ (snd r < snd s)%Q.
Proof.
  intros O G. rewrite (C66_records scan pairs) by auto. clear G.
  assert (H : forall l m, (forall i j p q, i < j -> nth_error l i = Some p -> nth_error l j = Some q -> (fst p < fst q)%Q) ->
     Forall (fun p => m <= snd p)%Q (records m l) /\ incl (records m l) l /\
     forall i j r s, i < j -> nth_error (records m l) i = Some r -> nth_error (records m l) j = Some s -> (snd r <= snd s)%Q /\ (fst r < fst s)%Q).
  { clear. induction l as [|[x y] l IH]; intros m L; cbn [records].
    - repeat split; auto; try (intros ? []); destruct i; discriminate.
    - assert (L' : forall i j p q, i < j -> nth_error l i = Some p -> nth_error l j = Some q -> (fst p < fst q)%Q).
      { intros i j p q Lt Hi Hj. apply (L (S i) (S j)); auto. lia. }
      destruct (Qle_bool m y) eqn:C.
      + apply Qle_bool_iff in C. destruct (IH y L') as (A & B & D). split; [|split].
        * constructor; auto. eapply Forall_impl; [|exact A]. cbn. intros. lra.
        * intros p [<-|Hp]; [left; auto|right; auto].
        * intros [|i] [|j] r s Lt Hi Hj; cbn in Hi, Hj; try lia.
          { inv Hi. apply nth_error_In in Hj. split.
            - rewrite Forall_forall in A. apply (A s Hj).
            - apply B in Hj. apply In_nth_error in Hj. destruct Hj as [k Hk]. apply (L 0 (S k)); auto. lia. }
          { apply (D i j); auto. lia. }
      + assert (y < m)%Q by (apply Qnot_le_lt; intros K; apply Qle_bool_iff in K; congruence).
        destruct (IH m L') as (A & B & D). split; auto. split; auto. intros p Hp. right. auto. }
  destruct O as [O1 O2]. destruct (H scan 0%Q O1) as (_ & _ & D).
  intros i j r s L Hi Hj. rewrite nth_error_map in Hi, Hj.
  destruct (nth_error (records 0 scan) i) as [p|] eqn:Ei; [|discriminate]. destruct (nth_error (records 0 scan) j) as [q|] eqn:Ej; [|discriminate].
  inv Hi. inv Hj. cbn. apply (D i j p q); auto.
Qed.
(** C66: the pairs are saved exactly if the scan ends below an earlier value; otherwise it is an IndexError *)
Theorem C66_exist scan : ordered scan ->
  ((exists pairs, generate_x_pairs (list_of_turning_points scan) = Ok pairs) <->
   exists P p, scan = P ++ [p] /\ exists q, In q P /\ (snd p < snd q)%Q).
Proof. apply pairs_exist. Qed.
(** C66: the first turning point is the last one of a rising beginning *)
Theorem C66_first scan :
  (forall y x, find_first_turn_around_point scan = Ok (y, x) <->
     exists a p b, scan = a ++ (x, y) :: p :: b /\ (snd p < y)%Q /\
       forall i r s, nth_error (a ++ [(x, y)]) i = Some r -> nth_error (a ++ [(x, y)]) (S i) = Some s -> (snd r <= snd s)%Q) /\
  (find_first_turn_around_point scan = Raise AssertionError <->
     forall i r s, nth_error scan i = Some r -> nth_error scan (S i) = Some s -> (snd r <= snd s)%Q).
Proof.
  unfold find_first_turn_around_point.
  assert (H : forall l x0 y0,
    (forall y x, first_turn_around (Some (y0, x0)) l = Ok (y, x) <->
       exists a p b, (x0, y0) :: l = a ++ (x, y) :: p :: b /\ (snd p < y)%Q /\
         forall i r s, nth_error (a ++ [(x, y)]) i = Some r -> nth_error (a ++ [(x, y)]) (S i) = Some s -> (snd r <= snd s)%Q) /\
    (first_turn_around (Some (y0, x0)) l = Raise AssertionError <->
       forall i r s, nth_error ((x0, y0) :: l) i = Some r -> nth_error ((x0, y0) :: l) (S i) = Some s -> (snd r <= snd s)%Q)).
  { clear. induction l as [|[x1 y1] l IH]; intros x0 y0; cbn [first_turn_around].
    - split.
      + intros y x. split; [discriminate|]. intros (a & p & b & E & _). destruct a as [|? [|? a]]; discriminate.
      + split; auto. intros _ [|i] r s Hr Hs; cbn in Hs; [discriminate|]. destruct i; discriminate.
    - destruct (Qlt_bool y1 y0) eqn:C.
      + apply Qlt_bool_iff in C. split.
        * intros y x. split.
          { intros E. inv E. exists [], (x1, y1), l. split; auto. split; auto. intros [|i] r s Hr Hs; cbn in Hs; [discriminate|destruct i; discriminate]. }
          { intros (a & p & b & E & Lp & M). destruct a as [|a0 a]; [cbn in E; inv E; auto|].
            exfalso. destruct a as [|a1 a]; cbn in E.
            - inv E. specialize (M 0 (x0, y0) (x, y) eq_refl eq_refl). cbn in M. lra.
            - inv E. specialize (M 0 (x0, y0) (x1, y1) eq_refl eq_refl). cbn in M. lra. }
        * split; [discriminate|]. intros M. specialize (M 0 (x0, y0) (x1, y1) eq_refl eq_refl). cbn in M. lra.
      + apply Qlt_bool_false in C. destruct (IH x1 y1) as [I1 I2]. split.
        * intros y x. rewrite I1. split.
          { intros (a & p & b & E & Lp & M). exists ((x0, y0) :: a), p, b. rewrite E. split; auto. split; auto.
            intros [|i] r s Hr Hs; cbn in Hr, Hs; [|apply (M i r s); auto].
            inv Hr. destruct a as [|a0 a]; cbn in E, Hs; inv E; inv Hs; auto. }
          { intros (a & p & b & E & Lp & M). destruct a as [|a0 a]; [cbn in E; inv E; cbn in Lp; lra|].
            cbn in E. inv E. exists a, p, b. split; auto. split; auto. intros i r s Hr Hs. apply (M (S i) r s); auto. }
        * rewrite I2. split.
          { intros M [|i] r s Hr Hs; [cbn in Hr, Hs; inv Hr; inv Hs; auto|]. apply (M i r s); auto. }
          { intros M i r s Hr Hs. apply (M (S i) r s); auto. } }
  destruct scan as [|[x0 y0] l].
  - split.
    + intros y x. split; [discriminate|]. intros (a & p & b & E & _). destruct a; discriminate.
    + split; auto. intros _ i r s Hr. destruct i; discriminate.
  - cbn [first_turn_around]. apply H.
Qed.
Definition scan_demo : list (Q * Q) := [(0, 0); (1, 2); (2, 3); (3, 1); (4, 2); (5, 3); (6, 5); (7, 4)]%Q.
Example C66_example :
  ordered scan_demo /\ list_of_turning_points scan_demo = [mkPair 2 3; mkPair 5 3; mkPair 6 5]%Q /\
  generate_x_pairs (list_of_turning_points scan_demo) = Ok [(0, 2); (5, 6)]%Q /\
  records 0 scan_demo = [(0, 0); (1, 2); (2, 3); (5, 3); (6, 5)]%Q /\ find_first_turn_around_point scan_demo = Ok (3, 2)%Q /\
  generate_x_pairs (list_of_turning_points (scan_demo ++ [(8, 9)]%Q)) = Raise IndexError.
Proof.
  split; [|repeat split; reflexivity]. split.
  - intros i j p q L Hi Hj.
    assert (E : forall k r, nth_error scan_demo k = Some r -> (fst r == inject_Z (Z.of_nat k))%Q).
    { intros k r. do 8 (destruct k as [|k]; [intros H; inv H; reflexivity|]). intros H. destruct k; discriminate. }
    rewrite (E i p Hi), (E j q Hj). rewrite <- Zlt_Qlt. lia.
  - intros p Hp. cbn in Hp. repeat destruct Hp as [<-|Hp]; cbn; try (split; lra).
Qed.

(** ** C67: generating a table *)
(** C67: on success the table has at least 50 rows, each the distance at a grid point inside a saved pair, and the grid ends
    at a point whose distance is at most the wanted one *)
Theorem C67_success dist best_y grid linspace step old files :
  generate_full_monotonic_sequence dist best_y grid linspace step old = (files, Ok tt) ->
  exists pairs rows b, files = mkSaved (Some pairs) (Some rows) /\ 50 <= length rows /\ (dist b <= best_y)%Q /\
    generate_x_pairs (list_of_turning_points (map (fun x => (x, dist x)) grid)) = Ok pairs /\
    forall y x, In (y, x) rows -> y = dist x /\ In x (linspace b) /\ exists r, In r pairs /\ (fst r <= x <= snd r)%Q.
Proof.
  unfold generate_full_monotonic_sequence. cbv zeta.
  destruct (generate_x_pairs _) as [pairs|e] eqn:G; [|discriminate].
  match goal with |- context [match ?X with Ok _ => _ | Raise _ => _ end] => destruct X as [rows|e] eqn:E end; intros H; inv H.
  apply bind_ok in E. destruct E as (m & _ & E). apply bind_ok in E. destruct E as (b & B & E). cbv zeta in E.
  apply bind_ok in E. destruct E as (u & C & E). inv E.
  exists pairs, (prune pairs (map (fun x => (dist x, x)) (linspace b))), b. split; auto.
  unfold check_minimum_length_of_sequence, passert in C. destruct (Nat.leb_spec minimum_length_of_sequence (length (prune pairs (map (fun x => (dist x, x)) (linspace b))))) as [L|]; [|discriminate].
  split; auto. split; [|split; auto].
  - revert B. generalize (linspace (px m)). clear. induction l as [|x l IH]; cbn [best_x]; [discriminate|].
    destruct (Qlt_bool best_y (dist x)); auto. intros H. apply bind_ok in H. destruct H as (u & A & H). inv H.
    unfold passert in A. destruct (Qle_bool (dist (x - step (px m))%Q) best_y) eqn:K; [|discriminate]. apply Qle_bool_iff; auto.
  - intros y x Hx. unfold prune in Hx. apply in_flat_map in Hx. destruct Hx as (r & Hr & Hx). apply filter_In in Hx.
    destruct Hx as [Hx F]. apply in_map_iff in Hx. destruct Hx as (x' & E & Hx). inv E. split; auto. split; auto.
    exists r. split; auto. cbn in F. apply andb_true_iff in F. rewrite !Qle_bool_iff in F. auto.
Qed.
(** C67: a failure leaves the old table in place, and without turning points nothing is written at all *)
Theorem C67_failure dist best_y grid linspace step old files e :
  generate_full_monotonic_sequence dist best_y grid linspace step old = (files, Raise e) ->
  data_file files = data_file old /\
  (files = old \/ exists pairs, pairs_file files = Some pairs /\
     generate_x_pairs (list_of_turning_points (map (fun x => (x, dist x)) grid)) = Ok pairs).
Proof.
  unfold generate_full_monotonic_sequence. cbv zeta.
  destruct (generate_x_pairs _) as [pairs|e'] eqn:G; [|intros H; inv H; auto].
  match goal with |- context [match ?X with Ok _ => _ | Raise _ => _ end] => destruct X as [rows|e'] eqn:E end; intros H; inv H.
  cbn. split; auto. right. eauto.
Qed.
(** C67: the table need not be increasing: between the points of the coarse scan the distance is not looked at *)
Definition dip_dist (x : Q) : Q := if Qeq_bool x (1 # 100) then (1 # 1000) else if Qle_bool x 1 then x else (2 - x)%Q.
Definition dip_linspace (b : Q) : list Q := map (fun k => (inject_Z (Z.of_nat k) * (1 # 200))%Q) (seq 0 201).
Theorem C67_increasing_refuted :
  exists dist best_y grid linspace step files rows i r s,
    generate_full_monotonic_sequence dist best_y grid linspace step (mkSaved None None) = (files, Ok tt) /\
    data_file files = Some rows /\ nth_error rows i = Some r /\ nth_error rows (S i) = Some s /\ (fst s < fst r)%Q.
Proof.
  exists dip_dist, (1 # 2), [0; 1; 3 # 2]%Q, dip_linspace, (fun _ => 1 # 200).
  eexists _, _, 1, _, _. split; [vm_compute; reflexivity|]. split; [reflexivity|]. split; [vm_compute; reflexivity|]. split; [vm_compute; reflexivity|].
  vm_compute. reflexivity.
Qed.
Example C67_example : exists files,
  generate_full_monotonic_sequence (fun x => if Qle_bool x 1 then x else (2 - x)%Q) (1 # 2) [0; 1; 3 # 2]%Q dip_linspace (fun _ => 1 # 200) (mkSaved None None) = (files, Ok tt) /\
  pairs_file files = Some [(0, 1)]%Q.
Proof. eexists. split; [vm_compute; reflexivity|reflexivity]. Qed.

Print Assumptions C49_rejects.
Print Assumptions C49_ends.
Print Assumptions C49_select.
Print Assumptions C49_bracket.
Print Assumptions C49_monotone.
Print Assumptions C49_wraps.
Print Assumptions C49_nearest_refuted.
Print Assumptions C50_generator.
Print Assumptions C50_restricted.
Print Assumptions C50_exponential.
Print Assumptions C50_orthogonal.
Print Assumptions C50_checked.
Print Assumptions C65_distance.
Print Assumptions C65_norm.
Print Assumptions C66_records.
Print Assumptions C66_increasing.
Print Assumptions C66_exist.
Print Assumptions C66_first.
Print Assumptions C67_success.
Print Assumptions C67_failure.
Print Assumptions C67_increasing_refuted.
