(** C46: navigation in output files. *)
From Verif Require Import Common Common_Proofs FileSearch_Model FileSearch_Spec FileSearch_Proofs.

(** C46: the first occurrence at or after the current position, or an exception *)
Theorem C46_find m target : pos m <= length (data m) ->
  (forall z, find_string_in_file m target = Ok z <->
     exists p, z = Z.of_nat p /\ pos m <= p /\ occurs_at target (data m) p /\
               forall q, pos m <= q -> occurs_at target (data m) q -> p <= q) /\
  (find_string_in_file m target = Raise OtherException <-> forall q, pos m <= q -> ~ occurs_at target (data m) q).
Proof.
  intros L. unfold find_string_in_file. cbv zeta.
  pose proof (mfind_spec m target (pos m) (length (data m)) (or_introl L)) as F. cbv zeta in F. fold (msize m) in F.
  destruct F as [[E F]|(p & E & A & B & O & F)]; rewrite E.
  - assert (N : forall q, pos m <= q -> ~ occurs_at target (data m) q).
    { intros q Q K. apply (F q); auto. apply occurs_length; auto. }
    cbn [Z.eqb]. split; [|tauto]. intros z. split; [discriminate|]. intros (p & _ & A & O & _). destruct (N p A O).
  - destruct (Z.eqb_spec (Z.of_nat p) (-1)); [lia|]. split.
    + intros z. split.
      * intros H. inv H. exists p. repeat split; auto. intros q Q K. destruct (Nat.le_gt_cases p q); auto. destruct (F q); auto.
      * intros (p' & -> & A' & O' & M). f_equal. f_equal. apply Nat.le_antisymm; [|apply M; auto].
        destruct (Nat.le_gt_cases p p'); auto. destruct (F p'); auto.
    + split; [discriminate|]. intros N. destruct (N p A O).
Qed.
(** C46: the last occurrence *)
Theorem C46_rfind m target : pos m <= length (data m) ->
  (forall z, rfind_string_in_file m target = Ok z <->
     exists p, z = Z.of_nat p /\ pos m <= p /\ occurs_at target (data m) p /\
               forall q, occurs_at target (data m) q -> q <= p) /\
  (rfind_string_in_file m target = Raise OtherException <-> forall q, pos m <= q -> ~ occurs_at target (data m) q).
Proof.
  intros L. unfold rfind_string_in_file. cbv zeta.
  pose proof (mrfind_spec m target (pos m) (length (data m)) (or_introl L)) as F. cbv zeta in F. fold (msize m) in F.
  destruct F as [[E F]|(p & E & A & B & O & F)]; rewrite E.
  - assert (N : forall q, pos m <= q -> ~ occurs_at target (data m) q).
    { intros q Q K. apply (F q); auto. apply occurs_length; auto. }
    cbn [Z.eqb]. split; [|tauto]. intros z. split; [discriminate|]. intros (p & _ & A & O & _). destruct (N p A O).
  - assert (F' : forall q, p < q -> ~ occurs_at target (data m) q).
    { intros q Q K. apply (F q); auto. apply occurs_length; auto. }
    destruct (Z.eqb_spec (Z.of_nat p) (-1)); [lia|]. split.
    + intros z. split.
      * intros H. inv H. exists p. repeat split; auto. intros q K. destruct (Nat.le_gt_cases q p); auto. destruct (F' q); auto.
      * intros (p' & -> & A' & O' & M). f_equal. f_equal. apply Nat.le_antisymm; [apply M; auto|].
        destruct (Nat.le_gt_cases p' p); auto. destruct (F' p'); auto.
    + split; [discriminate|]. intros N. destruct (N p A O).
Qed.

(** C46: forward by min(n, available) newlines, to a newline *)
Theorem C46_forward m n s : exists r, skip_forward_lines m n (Z.of_nat s) = Z.of_nat r /\ s <= r /\
  (r = s \/ newline_at (data m) r) /\
  newlines (piece (data m) (S s) (S r)) = Nat.min n (newlines (skipn (S s) (data m))).
Proof. apply forward_ok. Qed.
(** C46: and backward *)
Theorem C46_back m n s : exists r, skip_back_lines m n (Z.of_nat s) = Z.of_nat r /\ r <= s /\
  (r = s \/ newline_at (data m) r) /\
  newlines (piece (data m) r s) = Nat.min n (newlines (firstn s (data m))).
Proof. apply back_ok. Qed.
(** C46: going forward and back leads to the start *)
Theorem C46_there_and_back m n s : newline_at (data m) s -> n <= newlines (skipn (S s) (data m)) ->
  skip_back_lines m n (skip_forward_lines m n (Z.of_nat s)) = Z.of_nat s.
Proof.
  intros NL A. destruct (forward_ok m n s) as (r & -> & B & C & D). rewrite Nat.min_l in D by auto.
  destruct (back_ok m n r) as (q & -> & E & F & G).
  assert (H : newlines (piece (data m) s r) = n).
  { destruct C as [->|C]; [rewrite piece_empty in *; auto|].
    destruct (Nat.eq_dec r s) as [->|N]; [rewrite piece_empty in *; auto|].
    rewrite (piece_app _ (S s) r) in D by lia. rewrite newlines_app, piece_one in D by auto.
    rewrite (piece_app _ s (S s) r) by lia. rewrite newlines_app, piece_one by auto. cbn in D |- *. lia. }
  destruct (Nat.le_gt_cases q s) as [Q|Q].
  - rewrite Nat.min_l in G.
    2:{ rewrite <- piece_start, (piece_app _ 0 s) by lia. rewrite newlines_app. lia. }
    destruct (Nat.eq_dec q s) as [->|N]; auto. exfalso.
    destruct F as [->|F]; [lia|].
    rewrite (piece_app _ q (S q)), newlines_app, (piece_one _ q F), (piece_app _ (S q) s), newlines_app, H in G by lia. cbn in G. lia.
  - exfalso. rewrite Nat.min_l in G.
    2:{ rewrite <- piece_start, (piece_app _ 0 s) by lia. rewrite newlines_app. lia. }
    rewrite (piece_app _ s (S s) r), newlines_app, (piece_one _ s NL), (piece_app _ (S s) q r), newlines_app, G in H by lia. cbn in H. lia.
Qed.
(** C46: readlines moves behind the n-th newline, or to the end of the file *)
Theorem C46_readlines m n : pos m <= length (data m) ->
  let r := pos (readlines m n) in
  data (readlines m n) = data m /\ pos m <= r <= length (data m) /\
  (n = 0 -> r = pos m) /\
  newlines (piece (data m) (pos m) r) = Nat.min n (newlines (skipn (pos m) (data m))) /\
  (0 < n <= newlines (skipn (pos m) (data m)) -> pos m < r /\ newline_at (data m) (r - 1)) /\
  (newlines (skipn (pos m) (data m)) < n -> r = length (data m)).
Proof. apply readlines_ok. Qed.

Definition file : mmap := mkMap (list_ascii_of_string ("ab" ++ String (ascii_of_nat 10) ("abc" ++ String (ascii_of_nat 10) (String (ascii_of_nat 10) "cab")))) 0.
Example C46_example :
  find_string_in_file file (list_ascii_of_string "ab") = Ok 0%Z /\
  find_string_in_file (readlines file 1) (list_ascii_of_string "ab") = Ok 3%Z /\
  rfind_string_in_file file (list_ascii_of_string "ab") = Ok 9%Z /\
  find_string_in_file file (list_ascii_of_string "abd") = Raise OtherException /\
  skip_forward_lines file 2 2 = 7%Z /\ skip_back_lines file 2 7 = 2%Z /\ skip_forward_lines file 5 0 = 7%Z /\
  skip_back_lines file 1 2 = 2%Z /\ pos (readlines file 2) = 7 /\ pos (readlines file 5) = 11 /\
  newline_at (data file) 2 /\ newlines (skipn 3 (data file)) = 2.
Proof. repeat split; reflexivity. Qed.

Print Assumptions C46_find.
Print Assumptions C46_rfind.
Print Assumptions C46_forward.
Print Assumptions C46_back.
Print Assumptions C46_there_and_back.
Print Assumptions C46_readlines.
