(** Proofs about file navigation. *)
From Verif Require Import Common Common_Proofs FileSearch_Model FileSearch_Spec.

Lemma starts_with_iff sub l : starts_with sub l = true <-> exists b, l = (sub ++ b)%list.
Proof.
  revert l. induction sub as [|x sub IH]; intros [|y l]; cbn.
  - split; eauto.
  - split; eauto.
  - split; [discriminate|intros [b H]; discriminate].
  - rewrite andb_true_iff, Ascii.eqb_eq, IH. split.
    + intros [-> [b ->]]. eauto.
    + intros [b H]. inv H. eauto.
Qed.
Lemma match_at_iff sub d p : p <= length d -> (match_at sub d p = true <-> occurs_at sub d p).
Proof.
  intros L. unfold match_at, occurs_at. rewrite starts_with_iff. split.
  - intros [b H]. exists (firstn p d), b. split; [rewrite <- H; symmetry; apply firstn_skipn|apply firstn_length_le; auto].
  - intros (a & b & -> & <-). exists b. rewrite skipn_app, skipn_all, Nat.sub_diag. reflexivity.
Qed.
Lemma occurs_length sub d p : occurs_at sub d p -> p + length sub <= length d.
Proof. intros (a & b & -> & <-). rewrite !app_length. lia. Qed.

Lemma find_sorted (f : nat -> bool) s n :
  match List.find f (seq s n) with
  | Some p => s <= p < s + n /\ f p = true /\ forall q, s <= q < p -> f q = false
  | None => forall q, s <= q < s + n -> f q = false
  end.
Proof.
  revert s. induction n as [|n IH]; intros s; cbn; [intros; lia|].
  destruct (f s) eqn:E; [split; [lia|split; auto; intros; lia]|].
  specialize (IH (S s)). destruct (List.find f (seq (S s) n)) as [p|].
  - destruct IH as (A & B & C). repeat split; auto; try lia. intros q Q. destruct (Nat.eq_dec q s); [subst; auto|apply C; lia].
  - intros q Q. destruct (Nat.eq_dec q s); [subst; auto|apply IH; lia].
Qed.
Lemma find_rev_sorted (f : nat -> bool) s n :
  match List.find f (rev (seq s n)) with
  | Some p => s <= p < s + n /\ f p = true /\ forall q, p < q < s + n -> f q = false
  | None => forall q, s <= q < s + n -> f q = false
  end.
Proof.
  induction n as [|n IH]; [cbn; intros; lia|].
  rewrite seq_S, rev_app_distr. cbn [rev app List.find].
  destruct (f (s + n)) eqn:E; [split; [lia|split; auto; intros; lia]|].
  destruct (List.find f (rev (seq s n))) as [p|].
  - destruct IH as (A & B & C). repeat split; auto; try lia. intros q Q. destruct (Nat.eq_dec q (s + n)); [subst; auto|apply C; lia].
  - intros q Q. destruct (Nat.eq_dec q (s + n)); [subst; auto|apply IH; lia].
Qed.

Lemma clamp_nat m i : clamp (msize m) (Z.of_nat i) = Nat.min i (length (data m)).
Proof.
  unfold clamp, msize. cbv zeta. destruct (Z.ltb_spec (Z.of_nat i) 0); [lia|].
  destruct (Z.ltb_spec (Z.of_nat i) 0); [lia|]. destruct (Z.ltb_spec (Z.of_nat (length (data m))) (Z.of_nat i)); lia.
Qed.

(** the searches, between natural bounds *)
Lemma mfind_spec m sub s e : s <= length (data m) \/ sub <> [] -> let r := mfind m sub (Z.of_nat s) (Z.of_nat e) in
  (r = (-1)%Z /\ (forall q, s <= q -> q + length sub <= e -> ~ occurs_at sub (data m) q)) \/
  (exists p, r = Z.of_nat p /\ s <= p /\ p + length sub <= e /\ occurs_at sub (data m) p /\
             forall q, s <= q < p -> ~ occurs_at sub (data m) q).
Proof.
  intros G. cbv zeta. unfold mfind, first_match, candidates. cbv zeta. rewrite !clamp_nat.
  assert (G' : s <= length (data m) \/ 0 < length sub) by (destruct G as [G|G]; auto; destruct sub; [congruence|cbn; lia]).
  set (L := length (data m)) in *. set (k := length sub) in *. clear G.
  pose proof (find_sorted (match_at sub (data m)) (Nat.min s L) (Nat.min e L + 1 - (Nat.min s L + k))) as F.
  destruct (List.find _ _) as [p|].
  - right. exists p. destruct F as (A & B & C).
    assert (O : occurs_at sub (data m) p) by (apply match_at_iff; auto; unfold L in *; lia).
    pose proof (occurs_length _ _ _ O) as OL. fold L k in OL.
    destruct (Nat.le_gt_cases s L).
    + repeat split; auto; try lia. intros q Q K. apply match_at_iff in K; [|unfold L in *; lia]. rewrite C in K; [discriminate|lia].
    + exfalso. lia.
  - left. split; auto. intros q Q1 Q2 K. pose proof (occurs_length _ _ _ K) as OL. fold L k in OL.
    apply match_at_iff in K; [|unfold L in *; lia]. rewrite F in K; [discriminate|lia].
Qed.

Lemma mrfind_spec m sub s e : s <= length (data m) \/ sub <> [] -> let r := mrfind m sub (Z.of_nat s) (Z.of_nat e) in
  (r = (-1)%Z /\ (forall q, s <= q -> q + length sub <= e -> ~ occurs_at sub (data m) q)) \/
  (exists p, r = Z.of_nat p /\ s <= p /\ p + length sub <= e /\ occurs_at sub (data m) p /\
             forall q, p < q -> q + length sub <= e -> ~ occurs_at sub (data m) q).
Proof.
  intros G. cbv zeta. unfold mrfind, first_match, candidates. cbv zeta. rewrite !clamp_nat.
  assert (G' : s <= length (data m) \/ 0 < length sub) by (destruct G as [G|G]; auto; destruct sub; [congruence|cbn; lia]).
  set (L := length (data m)) in *. set (k := length sub) in *. clear G.
  pose proof (find_rev_sorted (match_at sub (data m)) (Nat.min s L) (Nat.min e L + 1 - (Nat.min s L + k))) as F.
  destruct (List.find _ _) as [p|].
  - right. exists p. destruct F as (A & B & C).
    assert (O : occurs_at sub (data m) p) by (apply match_at_iff; auto; unfold L in *; lia).
    pose proof (occurs_length _ _ _ O) as OL. fold L k in OL.
    destruct (Nat.le_gt_cases s L).
    + repeat split; auto; try lia. intros q Q1 Q2 K. pose proof (occurs_length _ _ _ K) as OK. fold L k in OK.
      apply match_at_iff in K; [|unfold L in *; lia]. rewrite C in K; [discriminate|lia].
    + exfalso. lia.
  - left. split; auto. intros q Q1 Q2 K. pose proof (occurs_length _ _ _ K) as OL. fold L k in OL.
    apply match_at_iff in K; [|unfold L in *; lia]. rewrite F in K; [discriminate|lia].
Qed.

(** ** newlines *)
Lemma newline_iff d i : occurs_at newline d i <-> newline_at d i.
Proof.
  unfold newline_at. split.
  - intros (a & b & -> & <-). rewrite nth_error_app2 by lia. rewrite Nat.sub_diag. reflexivity.
  - intros H. apply nth_error_split in H. destruct H as (a & b & -> & <-). exists a, b. auto.
Qed.
Lemma skip_twice {A} a b (l : list A) : skipn a (skipn b l) = skipn (b + a) l.
Proof. revert l. induction b as [|b IH]; intros [|x l]; cbn; auto. destruct a; auto. Qed.
Lemma piece_app d i j k : i <= j -> j <= k -> piece d i k = (piece d i j ++ piece d j k)%list.
Proof.
  intros A B. unfold piece. replace (k - i) with ((j - i) + (k - j)) by lia.
  rewrite <- (firstn_skipn (j - i) (firstn (j - i + (k - j)) (skipn i d))).
  rewrite firstn_firstn, Nat.min_l by lia. f_equal.
  rewrite skipn_firstn_comm, skip_twice.
  replace (j - i + (k - j) - (j - i)) with (k - j) by lia. f_equal. f_equal. lia.
Qed.
Lemma newlines_app a b : newlines (a ++ b) = newlines a + newlines b.
Proof. apply count_occ_app. Qed.
Lemma piece_one d i : newline_at d i -> piece d i (S i) = [ascii_of_nat 10].
Proof.
  intros H. apply nth_error_split in H. destruct H as (a & b & -> & <-).
  unfold piece. replace (S (length a) - length a) with 1 by lia.
  rewrite skipn_app, skipn_all, Nat.sub_diag. reflexivity.
Qed.
Lemma piece_none d i j : (forall q, i <= q < j -> ~ newline_at d q) -> newlines (piece d i j) = 0.
Proof.
  intros H. apply count_occ_not_In. intros K. apply In_nth_error in K. destruct K as [n K].
  assert (n < length (piece d i j)) by (apply nth_error_Some; congruence).
  assert (length (piece d i j) <= j - i) by (unfold piece; apply firstn_le_length).
  apply (H (i + n)); [lia|]. unfold newline_at. unfold piece in K.
  rewrite <- (firstn_skipn i d). destruct (Nat.le_gt_cases i (length d)).
  - rewrite nth_error_app2; rewrite firstn_length_le by auto; [|lia].
    replace (i + n - i) with n by lia. rewrite <- K.
    rewrite <- (firstn_skipn (j - i) (skipn i d)) at 1. rewrite nth_error_app1; auto.
  - exfalso. unfold piece in H0. rewrite skipn_all2, firstn_nil in H0 by lia. cbn in H0. lia.
Qed.

Lemma piece_end d i : piece d i (length d) = skipn i d.
Proof. unfold piece. rewrite firstn_all2; auto. rewrite skipn_length. lia. Qed.
Lemma piece_start d i : piece d 0 i = firstn i d.
Proof. unfold piece. rewrite Nat.sub_0_r. reflexivity. Qed.
Lemma piece_empty d i : piece d i i = [].
Proof. unfold piece. rewrite Nat.sub_diag. reflexivity. Qed.
Lemma newline_bound d i : newline_at d i -> i < length d.
Proof. intros H. apply nth_error_Some. unfold newline_at in H. congruence. Qed.

Lemma forward_ok m n s : exists r, skip_forward_lines m n (Z.of_nat s) = Z.of_nat r /\ s <= r /\
  (r = s \/ newline_at (data m) r) /\ newlines (piece (data m) (S s) (S r)) = Nat.min n (newlines (skipn (S s) (data m))).
Proof.
  revert s. induction n as [|n IH]; intros s.
  - exists s. rewrite piece_empty. repeat split; auto.
  - cbn [skip_forward_lines]. replace (Z.of_nat s + 1)%Z with (Z.of_nat (S s)) by lia.
    pose proof (mfind_spec m newline (S s) (length (data m)) ltac:(right; discriminate)) as F. cbv zeta in F.
    fold (msize m) in F. destruct F as [[E F]|(p & E & A & B & O & F)].
    + rewrite E. cbn [Z.eqb]. exists s. rewrite piece_empty. repeat split; auto.
      rewrite <- piece_end, piece_none; [rewrite Nat.min_0_r; auto|].
      intros q Q K. apply (F q); [lia|cbn; lia|apply newline_iff; auto].
    + rewrite E. destruct (Z.eqb_spec (Z.of_nat p) (-1)); [lia|].
      apply newline_iff in O. destruct (IH p) as (r & R1 & R2 & R3 & R4). exists r. split; auto. split; [lia|].
      pose proof (newline_bound _ _ O) as PB.
      assert (N1 : newlines (piece (data m) (S s) (S p)) = 1).
      { rewrite (piece_app _ _ p) by lia. rewrite newlines_app, piece_one by auto.
        rewrite piece_none; [reflexivity|]. intros q Q K. apply (F q); [lia|apply newline_iff; auto]. }
      split.
      * destruct R3 as [->|R3]; auto.
      * rewrite (piece_app _ _ (S p)) by lia. rewrite <- (piece_end _ (S s)), (piece_app _ _ (S p) (length _)) by lia.
        rewrite !newlines_app, N1, R4, piece_end. lia.
Qed.
Lemma back_ok m n s : exists r, skip_back_lines m n (Z.of_nat s) = Z.of_nat r /\ r <= s /\
  (r = s \/ newline_at (data m) r) /\ newlines (piece (data m) r s) = Nat.min n (newlines (firstn s (data m))).
Proof.
  revert s. induction n as [|n IH]; intros s.
  - exists s. rewrite piece_empty. repeat split; auto.
  - cbn [skip_back_lines].
    pose proof (mrfind_spec m newline 0 s ltac:(right; discriminate)) as F. cbv zeta in F. cbn [Z.of_nat] in F.
    destruct F as [[E F]|(p & E & A & B & O & F)].
    + rewrite E. cbn [Z.ltb Z.compare]. exists s. rewrite piece_empty. repeat split; auto.
      rewrite <- piece_start, piece_none; [rewrite Nat.min_0_r; auto|].
      intros q Q K. apply (F q); [lia|cbn; lia|apply newline_iff; auto].
    + rewrite E. destruct (Z.ltb_spec (Z.of_nat p) 0); [lia|]. cbn [length newline] in B.
      apply newline_iff in O. destruct (IH p) as (r & R1 & R2 & R3 & R4). exists r. split; auto. split; [lia|].
      assert (N1 : newlines (piece (data m) p s) = 1).
      { rewrite (piece_app _ _ (S p)) by lia. rewrite newlines_app, piece_one by auto.
        rewrite piece_none; [reflexivity|]. intros q Q K. apply (F q); [lia|cbn; lia|apply newline_iff; auto]. }
      split.
      * destruct R3 as [->|R3]; auto.
      * rewrite (piece_app _ _ p) by lia. rewrite <- piece_start, (piece_app _ 0 p) by lia.
        rewrite !newlines_app, N1, R4, piece_start. lia.
Qed.

Lemma readline_ok m : pos m <= length (data m) ->
  data (readline m) = data m /\ pos m <= pos (readline m) <= length (data m) /\
  ((newlines (skipn (pos m) (data m)) = 0 /\ pos (readline m) = length (data m)) \/
   (pos m < pos (readline m) /\ newline_at (data m) (pos (readline m) - 1) /\ newlines (piece (data m) (pos m) (pos (readline m))) = 1)).
Proof.
  intros L. unfold readline. cbv zeta.
  pose proof (mfind_spec m newline (pos m) (length (data m)) (or_introl L)) as F. cbv zeta in F. fold (msize m) in F.
  destruct F as [[E F]|(p & E & A & B & O & F)]; rewrite E.
  - cbn. split; auto. split; auto. left. split; auto.
    rewrite <- piece_end, piece_none; auto. intros q Q K. apply (F q); [lia|cbn; lia|apply newline_iff; auto].
  - destruct (Z.ltb_spec (Z.of_nat p) 0); [lia|]. cbn [data pos]. rewrite Nat2Z.id. apply newline_iff in O.
    cbn [length newline] in B. split; auto. split; [lia|]. right. split; [lia|].
    replace (S p - 1) with p by lia. split; auto.
    rewrite (piece_app _ _ p) by lia. rewrite newlines_app, piece_one by auto.
    rewrite piece_none; [reflexivity|]. intros q Q K. apply (F q); [lia|apply newline_iff; auto].
Qed.
Lemma readlines_ok m n : pos m <= length (data m) ->
  let r := pos (readlines m n) in
  data (readlines m n) = data m /\ pos m <= r <= length (data m) /\
  (n = 0 -> r = pos m) /\
  newlines (piece (data m) (pos m) r) = Nat.min n (newlines (skipn (pos m) (data m))) /\
  (0 < n <= newlines (skipn (pos m) (data m)) -> pos m < r /\ newline_at (data m) (r - 1)) /\
  (newlines (skipn (pos m) (data m)) < n -> r = length (data m)).
Proof.
  revert m. induction n as [|n IH]; intros m L; cbv zeta.
  - cbn [readlines]. rewrite piece_empty. repeat split; auto; try lia.
  - cbn [readlines]. destruct (readline_ok m L) as (D & B & C).
    specialize (IH (readline m)). cbv zeta in IH. rewrite D in IH. specialize (IH ltac:(lia)).
    destruct IH as (I1 & I2 & I3 & I4 & I5 & I6).
    set (q := pos (readline m)) in *. set (r := pos (readlines (readline m) n)) in *.
    split; auto. split; [lia|]. split; [discriminate|].
    destruct C as [[C1 C2]|(C1 & C2 & C3)].
    + assert (r = length (data m)) as -> by lia. rewrite piece_end, C1. repeat split; auto; lia.
    + assert (E : newlines (skipn (pos m) (data m)) = 1 + newlines (skipn q (data m))).
      { rewrite <- !piece_end, (piece_app _ (pos m) q) by lia. rewrite newlines_app, C3. auto. }
      rewrite (piece_app _ _ q) by lia. rewrite newlines_app, C3, I4, E. repeat split; try lia.
      * destruct n as [|n]; [rewrite I3 by auto; auto|]. apply I5. lia.
Qed.
