(** C50, C67, continued: the test of orthonormality and the end of the table, exactly. *)
From Coq Require Import Reals QArith Qabs Qreals Lra Lqa Lia.
From Verif Require Import Common Common_Proofs Sequences_Model Sequences_Spec Sequences_Proofs Sequences2_Proofs Expm_Proofs Sequences_Props.
Local Open Scope nat_scope.

(** C50: a matrix is returned exactly if every element of m m^T is within 1e-8 of zero off the diagonal
    and within 1e-8 + 1e-5 of one on it; otherwise the assertion fails *)
Theorem C50_tolerance expm tables order t sequence p s one :
  (0 < order)%Z -> (0 < t <= 1)%Q -> build_SKSM_and_identity order = Ok (s, one) ->
  tables order = Some sequence -> select_pair sequence t = Ok p ->
  let n := Z.to_nat order in
  let m := expm n (fun i j => (Q2R (px p) * s i j)%R) in
  let good := forall i j, i < n -> j < n ->
    (Rabs (total n (fun k => m i k * m j k) - (if i =? j then 1 else 0)) <= if i =? j then / 100000000 + / 100000 else / 100000000)%R in
  (good -> create_orthonormal expm tables order t = Ok m) /\ (~ good -> create_orthonormal expm tables order t = Raise AssertionError).
Proof.
  intros O T B TB SP n m good. unfold create_orthonormal. rewrite B, TB. cbn [bind].
  rewrite (proj2 (Qle_bool_iff 0 t)) by lra. rewrite (proj2 (Qle_bool_iff t 1)) by lra. cbn [andb passert bind].
  assert (N : Qeq_bool t 0 = false) by (apply not_true_is_false; rewrite Qeq_bool_iff; lra). rewrite N, SP. cbn [bind]. fold n. unfold scale. fold m.
  assert (K : allclose n (dot n m (tr m)) eye = true <-> good).
  { unfold allclose, good. rewrite forallb_forall. split.
    - intros H i j I J. specialize (H i). rewrite in_seq in H. specialize (H ltac:(lia)). rewrite forallb_forall in H. specialize (H j). rewrite in_seq in H. specialize (H ltac:(lia)).
      unfold Rleb in H. destruct (Rle_dec _ _) as [L|]; [|discriminate]. unfold dot, tr, eye in L. rewrite rsum_total in L.
      destruct (i =? j); [rewrite Rabs_R1 in L|rewrite Rabs_R0 in L]; eapply Rle_trans; try exact L; apply Req_le; field.
    - intros H i I. apply in_seq in I. apply forallb_forall. intros j J. apply in_seq in J. specialize (H i j ltac:(lia) ltac:(lia)).
      unfold Rleb. destruct (Rle_dec _ _) as [L|L]; [reflexivity|]. exfalso. apply L. unfold dot, tr, eye. rewrite rsum_total.
      destruct (i =? j); [rewrite Rabs_R1|rewrite Rabs_R0]; eapply Rle_trans; try exact H; apply Req_le; field. }
  split; intros H.
  - apply K in H. rewrite H. reflexivity.
  - destruct (allclose n (dot n m (tr m)) eye) eqn:E; [exfalso; apply H, K; reflexivity|reflexivity].
Qed.
Print Assumptions C50_tolerance.

(** C67: everything that is written, on success.  The search for the end of the table runs over the samples up to the last turning
    point; the table ends one step before the first sample that is too far away. *)
Theorem C67_exact dist best_y grid linspace step old pairs rows :
  generate_full_monotonic_sequence dist best_y grid linspace step old = (mkSaved (Some pairs) (Some rows), Ok tt) <->
  exists points last near x far, 
    list_of_turning_points (map (fun x => (x, dist x)) grid) = points ++ [last] /\
    generate_x_pairs (points ++ [last]) = Ok pairs /\
    linspace (px last) = near ++ x :: far /\ (forall z, In z near -> (dist z <= best_y)%Q) /\ (best_y < dist x)%Q /\
    (dist (x - step (px last)) <= best_y)%Q /\
    rows = flat_map (fun r => map (fun z => (dist z, z)) (filter (fun z => Qle_bool (fst r) z && Qle_bool z (snd r)) (linspace (x - step (px last))%Q))) pairs /\
    50 <= length rows.
Proof.
  assert (P : forall pairs l, prune pairs (map (fun x => (dist x, x)) l) =
    flat_map (fun r => map (fun z => (dist z, z)) (filter (fun z => Qle_bool (fst r) z && Qle_bool z (snd r)) l)) pairs).
  { intros ps l. unfold prune. apply flat_map_ext. intros r. induction l as [|z l IH]; [reflexivity|]. cbn [map filter snd]. destruct (Qle_bool (fst r) z && Qle_bool z (snd r)); cbn [map]; rewrite IH; reflexivity. }
  assert (B : forall st l b, best_x dist best_y st l = Ok b <-> exists near x far, l = near ++ x :: far /\ (forall z, In z near -> (dist z <= best_y)%Q) /\ (best_y < dist x)%Q /\ (dist (x - st) <= best_y)%Q /\ b = (x - st)%Q).
  { intros st. induction l as [|z l IH]; intros b; cbn [best_x].
    - split; [discriminate|]. intros ([|? ?] & x & far & E & _); discriminate.
    - destruct (Qlt_bool best_y (dist z)) eqn:L.
      + apply Qlt_bool_iff in L. split.
        * intros H. destruct (Qle_bool (dist (z - st)%Q) best_y) eqn:K; [|discriminate]. cbn in H. injection H as <-. exists [], z, l. apply Qle_bool_iff in K. repeat split; auto. intros ? [].
        * intros (near & x & far & E & H1 & H2 & H3 & ->). destruct near as [|w near]; cbn in E; injection E as -> E.
          -- rewrite (proj2 (Qle_bool_iff _ _) H3). reflexivity.
          -- exfalso. specialize (H1 w (or_introl eq_refl)). lra.
      + apply Qlt_bool_false in L. rewrite IH. split.
        * intros (near & x & far & -> & H1 & H2 & H3 & ->). exists (z :: near), x, far. repeat split; auto. intros w [<-|W]; auto.
        * intros (near & x & far & E & H1 & H2 & H3 & ->). destruct near as [|w near]; cbn in E; injection E as -> E; [lra|]. exists near, x, far. repeat split; auto. intros v V. apply H1. right; auto. }
  assert (last_index : forall (k : list pair) b, py_index (k ++ [b]) (-1) = Ok b).
  { intros k b. rewrite py_index_last, app_length. cbn [length]. replace (length k + 1 - 1) with (length k) by lia. rewrite nth_error_app2, Nat.sub_diag by lia. reflexivity. }
  assert (I : forall (l : list pair) a, py_index l (-1) = Ok a <-> exists k, l = k ++ [a]).
  { intros l a. split.
    - intros H. destruct (exists_last (l := l)) as (k & b & ->); [intros ->; discriminate|]. exists k. f_equal. f_equal.
      rewrite last_index in H. congruence.
    - intros [k ->]. apply last_index. }
  unfold generate_full_monotonic_sequence. cbv zeta. set (pts := list_of_turning_points _). split.
  - destruct (generate_x_pairs pts) as [ps|] eqn:G; [|discriminate].
    destruct (py_index pts (-1)) as [lp|] eqn:X; cbn [bind]; [|intros H; inversion H].
    destruct (best_x dist best_y (step (px lp)) (linspace (px lp))) as [b|] eqn:Y; cbn [bind]; [|intros H; inversion H].
    unfold check_minimum_length_of_sequence, passert. destruct (Nat.leb_spec minimum_length_of_sequence (length (prune ps (map (fun x => (dist x, x)) (linspace b))))) as [L|L]; cbn [bind]; [|intros H; inversion H].
    intros H. injection H as <- <-. apply I in X. destruct X as [k X]. apply B in Y. destruct Y as (near & x & far & E & H1 & H2 & H3 & ->).
    exists k, lp, near, x, far. rewrite <- P. rewrite <- X. repeat split; auto.
  - intros (points & lp & near & x & far & E & G & L & H1 & H2 & H3 & R & N). rewrite E, G. rewrite (proj2 (I (points ++ [lp]) lp)) by eauto. cbn [bind].
    rewrite (proj2 (B (step (px lp)) (linspace (px lp)) (x - step (px lp))%Q)) by eauto 10. cbn [bind]. rewrite P, <- R.
    unfold check_minimum_length_of_sequence, passert. destruct (Nat.leb_spec minimum_length_of_sequence (length rows)) as [K|K]; [reflexivity|].
    unfold minimum_length_of_sequence in K. lia.
Qed.
Print Assumptions C67_exact.
(** C67: without a turning point, and with an even number of them, nothing is written *)
Theorem C67_no_pairs dist best_y grid linspace step old : let points := list_of_turning_points (map (fun x => (x, dist x)) grid) in
  Nat.even (length points) = true -> generate_full_monotonic_sequence dist best_y grid linspace step old = (old, Raise IndexError).
Proof.
  cbv zeta. unfold generate_full_monotonic_sequence. cbv zeta. intros H. set (pts := list_of_turning_points _) in *.
  assert (K : generate_x_pairs pts = Raise IndexError); [|rewrite K; reflexivity].
  assert (X : forall n l, length l <= n -> Nat.odd (length l) = true -> x_pairs_from l = Raise IndexError).
  { clear. induction n as [|n IH]; intros [|a [|b l]] L O; try discriminate; try reflexivity; cbn [length] in L; [lia|]. cbn [x_pairs_from]. rewrite (IH l); [reflexivity|lia|]. exact O. }
  destruct pts as [|a l]; [reflexivity|]. cbn [generate_x_pairs]. rewrite (X (length l) l); [reflexivity|lia|]. cbn [length] in H. rewrite <- Nat.even_succ. exact H.
Qed.
Print Assumptions C67_no_pairs.
Example C67_no_pairs_example : generate_full_monotonic_sequence (fun x => x) 1 [0; 1; 2]%Q (fun _ => []) (fun _ => 1%Q) (mkSaved None None) = (mkSaved None None, Raise IndexError).
Proof. apply C67_no_pairs. reflexivity. Qed.
