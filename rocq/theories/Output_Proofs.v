From Coq Require Import Lia.
From Verif Require Import Common Common_Proofs PyStr_Model PyStr_Proofs Json_Spec Json_Proofs FileSearch_Spec FileSearch_Model FileSearch_Proofs Output_Model.
Local Open Scope string_scope.
Local Open Scope nat_scope.
Local Open Scope list_scope.

(** ** occurrences *)
Lemma occurs_skip sub a b p : occurs_at sub b p -> occurs_at sub (a ++ b) (length a + p).
Proof. intros (x & y & -> & <-). exists (a ++ x), y. rewrite app_length, <- app_assoc. split; reflexivity. Qed.
Lemma occurs_unskip sub a b p : length a <= p -> occurs_at sub (a ++ b) p -> occurs_at sub b (p - length a).
Proof.
  intros L (x & y & E & P). exists (skipn (length a) x), y. split.
  - apply (f_equal (skipn (length a))) in E. rewrite skipn_app, skipn_all, Nat.sub_diag in E. cbn [skipn app] in E. rewrite E. rewrite skipn_app. replace (length a - length x) with 0 by lia. reflexivity.
  - rewrite skipn_length. lia.
Qed.
Lemma newlines_zero d : newlines d = 0 <-> forall i, ~ newline_at d i.
Proof.
  unfold newlines, newline_at. rewrite <- count_occ_not_In. split.
  - intros N i E. apply N. apply nth_error_In in E. exact E.
  - intros N I. apply In_nth_error in I. destruct I as [i E]. exact (N i E).
Qed.
Lemma nth_skip {A} (d : list A) i k : nth_error (skipn i d) k = nth_error d (i + k).
Proof. revert d. induction i as [|i IH]; intros [|x d]; cbn; auto. destruct k; reflexivity. Qed.
Lemma nth_first {A} (d : list A) n k : k < n -> nth_error (firstn n d) k = nth_error d k.
Proof. revert d k. induction n as [|n IH]; intros [|x d] [|k] L; cbn; auto; try lia. apply IH. lia. Qed.
Lemma newline_in_piece d i j q : i <= q < j -> newline_at d q -> newlines (piece d i j) <> 0.
Proof.
  intros L N Z. rewrite newlines_zero in Z. apply (Z (q - i)). unfold newline_at in *. unfold piece. rewrite nth_first by lia. rewrite nth_skip. replace (i + (q - i)) with q by lia. exact N.
Qed.
Lemma msg_no_newline sub d p q : newlines sub = 0 -> occurs_at sub d p -> newline_at d q -> q < p \/ p + length sub <= q.
Proof.
  intros Z (x & y & -> & <-) N. destruct (le_lt_dec (length x) q) as [L|L]; [|left; exact L]. right. destruct (le_lt_dec (length x + length sub) q) as [M|M]; [exact M|].
  exfalso. rewrite newlines_zero in Z. apply (Z (q - length x)). unfold newline_at in *. rewrite nth_error_app2 in N by lia. rewrite nth_error_app1 in N by lia. exact N.
Qed.
Lemma newlines_first d p : newlines (firstn p d) <> 0 <-> exists q, q < p /\ newline_at d q.
Proof.
  rewrite <- piece_start. split.
  - intros N. destruct (in_dec ascii_dec (ascii_of_nat 10) (piece d 0 p)) as [I|I].
    + apply In_nth_error in I. destruct I as [i E]. rewrite piece_start in E. assert (X : nth_error (firstn p d) i <> None) by congruence. apply nth_error_Some in X. rewrite firstn_length in X.
      exists i. split; [lia|]. unfold newline_at. rewrite <- E. symmetry. apply nth_first. lia.
    + exfalso. apply N. unfold newlines. apply count_occ_not_In. exact I.
  - intros (q & L & Q). apply (newline_in_piece d 0 p q); [lia|exact Q].
Qed.

(** ** the last message *)
Lemma message_spec msg d : d <> [] -> 2 <= length msg -> newlines msg = 0 ->
  exists b, ends_with_message msg d = Ok b /\
    (b = true <-> exists p, occurs_at msg d p /\ newlines (firstn p d) <> 0 /\ newlines (piece d p (length d - 1)) <= 9).
Proof.
  intros D L Z. unfold ends_with_message, open_map. destruct d as [|c d']; [congruence|]. set (d := c :: d') in *. cbn [bind]. cbv zeta.
  assert (SZ : msize (mkMap d 0) = Z.of_nat (length d)) by reflexivity. rewrite SZ. assert (LD : 1 <= length d) by (cbn; lia).
  replace (Z.of_nat (length d) - 1)%Z with (Z.of_nat (length d - 1)) by lia.
  destruct (back_ok (mkMap d 0) 10 (length d - 1)) as (r & -> & R1 & R2 & R3). cbn [data] in *.
  pose proof (mfind_spec (mkMap d 0) msg r (length d) ltac:(right; intros ->; cbn in L; lia)) as F. cbv zeta in F. cbn [data] in F.
  eexists. split; [reflexivity|].
  assert (K : forall p, occurs_at msg d p -> (r <= p <-> newlines (firstn p d) <> 0 /\ newlines (piece d p (length d - 1)) <= 9)).
  { intros p O. pose proof (occurs_length _ _ _ O) as OL. rewrite newlines_first. split.
    - intros RP. destruct R2 as [->|R2]; [lia|]. destruct (msg_no_newline _ _ _ _ Z O R2) as [Q|Q]; [|lia]. split; [exists r; split; assumption|].
      assert (E : newlines (piece d r (length d - 1)) = newlines (piece d r p) + newlines (piece d p (length d - 1))) by (rewrite (piece_app d r p) by lia; apply newlines_app).
      pose proof (newline_in_piece d r p r ltac:(lia) R2). lia.
    - intros [(q & Q1 & Q2) N9]. destruct (le_lt_dec r p) as [RP|RP]; [exact RP|exfalso].
      destruct R2 as [->|R2].
      + rewrite piece_empty in R3. change (newlines []) with 0 in R3. assert (X : newlines (firstn (length d - 1) d) = 0) by lia. apply (proj2 (newlines_first d (length d - 1))); [exists q; split; [lia|exact Q2]|exact X].
      + assert (PN : newlines (piece d p (length d - 1)) = newlines (piece d p r) + newlines (piece d r (length d - 1))) by (rewrite (piece_app d p r) by lia; apply newlines_app).
        assert (FN : newlines (firstn (length d - 1) d) = newlines (firstn p d) + newlines (piece d p (length d - 1))).
        { rewrite <- !piece_start. rewrite (piece_app d 0 p) by lia. apply newlines_app. }
        assert (P1 : newlines (firstn p d) <> 0) by (apply newlines_first; exists q; split; assumption). lia. }
  destruct F as [[-> F]|(p & -> & A & B & O & F)].
  - change ((-1 =? -1)%Z) with true. cbn [negb]. split; [discriminate|]. intros (p & O & H). exfalso. pose proof (occurs_length _ _ _ O). apply (F p); [apply (K p O); exact H|lia|exact O].
  - destruct (Z.eqb_spec (Z.of_nat p) (-1)); [lia|]. cbn [negb]. split; [|reflexivity]. intros _. exists p. split; [exact O|]. apply (K p O). exact A.
Qed.

Lemma firstn_last {A} (d : list A) s x : nth_error d s = Some x -> firstn (S s) d = firstn s d ++ [x].
Proof. revert d. induction s as [|s IH]; intros [|y d] E; cbn in E; try discriminate; [injection E as ->; reflexivity|]. cbn [firstn app]. f_equal. apply IH. exact E. Qed.

(** ** the removal of what precedes the effective Hamiltonian *)
(** [pre] is what comes before the line of the first occurrence of [target] in [d] *)
Definition lines_before (target d pre d' : list ascii) : Prop :=
  d = pre ++ d' /\ (pre = [] \/ exists a, pre = a ++ [ascii_of_nat 10]) /\
  exists q, occurs_at target d' q /\ newlines (firstn q d') = 0 /\ forall p, occurs_at target d p -> length pre + q <= p.
Lemma remove_spec target d : d <> [] -> target <> [] ->
  match remove_extra_heff target d with
  | Raise e => e = OtherException /\ forall p, ~ occurs_at target d p
  | Ok d' => exists pre, lines_before target d pre d'
  end.
Proof.
  intros D T. unfold remove_extra_heff, open_map. destruct d as [|c d0]; [congruence|]. set (d := c :: d0) in *. cbn [bind]. unfold find_string_in_file. cbn [pos]. cbv zeta.
  pose proof (mfind_spec (mkMap d 0) target 0 (length d) ltac:(right; exact T)) as F. cbv zeta in F. cbn [data] in F. change (msize (mkMap d 0)) with (Z.of_nat (length d)).
  destruct F as [[-> F]|(p & -> & _ & B & O & F)].
  - change ((-1 =? -1)%Z) with true. cbn [bind]. split; [reflexivity|]. intros p O. pose proof (occurs_length _ _ _ O). apply (F p); [lia|lia|exact O].
  - destruct (Z.eqb_spec (Z.of_nat p) (-1)); [lia|]. cbn [bind].
    pose proof (mrfind_spec (mkMap d 0) newline 0 p ltac:(right; discriminate)) as G. cbv zeta in G. cbn [data Z.of_nat] in G.
    assert (K : exists s, Z.to_nat (mrfind (mkMap d 0) newline 0 (Z.of_nat p) + 1) = s /\ s <= p /\ (s = 0 \/ newline_at d (s - 1)) /\ (forall q, s <= q < p -> ~ newline_at d q)).
    { destruct G as [[-> G]|(r & -> & _ & RB & RO & G)].
      - exists 0. split; [reflexivity|]. split; [lia|]. split; [left; reflexivity|]. intros q Q NQ. apply (G q); [lia|cbn; lia|apply newline_iff; exact NQ].
      - cbn [length newline] in RB. exists (S r). split; [lia|]. split; [lia|]. split; [right; replace (S r - 1) with r by lia; apply newline_iff; exact RO|].
        intros q Q NQ. apply (G q); [lia|cbn; lia|apply newline_iff; exact NQ]. }
    destruct K as (s & -> & S1 & S2 & S3). pose proof (occurs_length _ _ _ O) as OL.
    assert (E : mresize (mmove d 0 s (length d - s)) (length d - s) = skipn s d).
    { unfold mresize, mmove. cbn [firstn app Nat.add]. assert (X : firstn (length d - s) (skipn s d) = skipn s d) by (apply firstn_all2; rewrite skipn_length; lia). rewrite X.
      rewrite firstn_app. rewrite skipn_length. replace (length d - s - (length d - s)) with 0 by lia. cbn [firstn]. rewrite app_nil_r. exact X. }
    rewrite E. exists (firstn s d). split; [symmetry; apply firstn_skipn|]. split.
    + destruct S2 as [->|S2]; [left; reflexivity|]. destruct s as [|s]; [left; reflexivity|]. right. exists (firstn s d). cbn [Nat.sub] in S2. rewrite Nat.sub_0_r in S2. apply firstn_last. exact S2.
    + exists (p - s). assert (LF : length (firstn s d) = s) by (rewrite firstn_length; lia). split; [|split].
      * rewrite <- LF at 2. apply occurs_unskip; [lia|]. rewrite firstn_skipn. exact O.
      * apply newlines_zero. intros i NI. unfold newline_at in NI. assert (i < p - s). { assert (X : nth_error (firstn (p - s) (skipn s d)) i <> None) by congruence. apply nth_error_Some in X. rewrite firstn_length in X. lia. }
        apply (S3 (s + i)); [lia|]. unfold newline_at. rewrite nth_first in NI by lia. rewrite nth_skip in NI. exact NI.
      * intros p' O'. rewrite LF. destruct (le_lt_dec (s + (p - s)) p') as [X|X]; [exact X|]. exfalso. apply (F p'); [lia|exact O'].
Qed.
Lemma lines_before_unique target d pre d' pre2 d2 : lines_before target d pre d' -> lines_before target d pre2 d2 -> d' = d2.
Proof.
  intros (E & P & q & Q1 & Q2 & Q3) (E2 & P2 & q2 & R1 & R2 & R3).
  assert (A : length pre + q = length pre2 + q2).
  { apply Nat.le_antisymm; [apply Q3; rewrite E2; apply occurs_skip; exact R1|apply R3; rewrite E; apply occurs_skip; exact Q1]. }
  assert (L : forall pre d' q pre2 d2 q2, d = pre ++ d' -> newlines (firstn q d') = 0 -> d = pre2 ++ d2 -> (pre2 = [] \/ exists a, pre2 = a ++ [ascii_of_nat 10]) -> length pre + q = length pre2 + q2 -> length pre2 <= length pre).
  { clear. intros pre d' q pre2 d2 q2 E Z E2 [->|[a ->]] L; [cbn; lia|]. rewrite app_length in *. cbn [length] in *. destruct (le_lt_dec (length a + 1) (length pre)) as [X|X]; [exact X|exfalso].
    apply (proj1 (newlines_zero _) Z (length a - length pre)). unfold newline_at. rewrite nth_first by lia.
    assert (N : nth_error d (length a) = Some (ascii_of_nat 10)). { rewrite E2, <- app_assoc, nth_error_app2 by lia. rewrite Nat.sub_diag. reflexivity. }
    rewrite E, nth_error_app2 in N by lia. exact N. }
  assert (LE : length pre = length pre2).
  { apply Nat.le_antisymm; [apply (L pre2 d2 q2 pre d' q); auto|apply (L pre d' q pre2 d2 q2); auto]. }
  rewrite E in E2. clear - E2 LE. revert pre2 E2 LE. induction pre as [|x pre IH]; intros [|y pre2] E LE; cbn in *; try lia; [exact E|]. injection E as _ E. eapply IH; [exact E|lia].
Qed.
Lemma lines_before_again target d pre d' : lines_before target d pre d' -> lines_before target d' [] d'.
Proof.
  intros (E & P & q & Q1 & Q2 & Q3). split; [reflexivity|]. split; [left; reflexivity|]. exists q. split; [exact Q1|]. split; [exact Q2|]. intros p O. cbn [length Nat.add]. assert (X : length pre + q <= length pre + p) by (apply Q3; rewrite E; apply occurs_skip; exact O). lia.
Qed.

(** ** the text of a number *)
Fixpoint nb (u : Decimal.uint) : nat :=
  match u with
  | Decimal.Nil => 0
  | Decimal.D0 l | Decimal.D1 l | Decimal.D2 l | Decimal.D3 l | Decimal.D4 l | Decimal.D5 l | Decimal.D6 l | Decimal.D7 l | Decimal.D8 l | Decimal.D9 l => S (nb l)
  end.
Lemma nb_length u : String.length (NilEmpty.string_of_uint u) = nb u.
Proof. induction u; cbn; congruence. Qed.
Lemma valZ_bounds u acc : (0 <= acc)%Z -> (acc * 10 ^ Z.of_nat (nb u) <= valZ u acc < (acc + 1) * 10 ^ Z.of_nat (nb u))%Z.
Proof.
  revert acc. induction u; intros acc A; cbn [nb valZ]; [change (10 ^ Z.of_nat 0)%Z with 1%Z; lia|..];
    rewrite Nat2Z.inj_succ, Z.pow_succ_r by lia;
    match goal with |- context [valZ u ?a] => specialize (IHu a ltac:(lia)) end;
    assert (0 < 10 ^ Z.of_nat (nb u))%Z by (apply Z.pow_pos_nonneg; lia); nia.
Qed.
Lemma dec_length n : let L := Z.of_nat (String.length (dec_N n)) in (0 < L /\ Z.of_N n < 10 ^ L /\ (n = 0%N /\ L = 1 \/ 10 ^ (L - 1) <= Z.of_N n))%Z.
Proof.
  cbv zeta. pose proof (digits_dec_N n) as D. pose proof (int_text_dec_N n) as I. unfold dec_N in *. rewrite nb_length. rewrite digits_uint in D by apply to_uint_not_nil. injection D as D.
  pose proof (to_uint_not_nil n) as NN. remember (N.to_uint n) as u. clear Hequ.
  assert (B := valZ_bounds u 0 ltac:(lia)). rewrite D in B. split; [destruct u; cbn; lia || congruence|]. split; [lia|].
  destruct I as [I|(c & d & I & C & _)].
  - left. assert (E : u = Decimal.D0 Decimal.Nil). { destruct u; cbn in I; try discriminate; try congruence. injection I as I. destruct u; try discriminate. reflexivity. }
    subst u. cbn in D. split; [lia|reflexivity].
  - right. destruct u; try congruence; cbn in I; injection I as I1 I2; subst c; cbn in C; try lia; cbn [valZ nb] in *;
      match goal with H : valZ u ?a = _ |- _ => pose proof (valZ_bounds u a ltac:(lia)) as B2; rewrite H in B2 end;
      rewrite Nat2Z.inj_succ; replace (Z.succ (Z.of_nat (nb u)) - 1)%Z with (Z.of_nat (nb u)) by lia; assert (0 < 10 ^ Z.of_nat (nb u))%Z by (apply Z.pow_pos_nonneg; lia); nia.
Qed.

(** ** thousands separators *)
Lemma commas_length l k : k <= 3 -> length (with_commas l k) = length l + (length l + k - 1) / 3.
Proof.
  revert k. induction l as [|c l IH]; intros k K; cbn [with_commas length]; [rewrite Nat.add_0_l, Nat.div_small by lia; reflexivity|].
  destruct (Nat.eqb_spec k 3) as [->|N]; cbn [length]; rewrite IH by lia.
  - replace (S (length l) + 3 - 1) with (length l + 1 - 1 + 1 * 3) by lia. rewrite Nat.div_add by lia. lia.
  - replace (S (length l) + k - 1) with (length l + S k - 1) by lia. lia.
Qed.
Lemma commas_filter l k : ~ In ","%char l -> filter (fun c => negb (Ascii.eqb c ","%char)) (with_commas l k) = l.
Proof.
  revert k. induction l as [|c l IH]; intros k N; cbn [with_commas]; [reflexivity|]. assert (C : Ascii.eqb c ","%char = false) by (apply Ascii.eqb_neq; intros ->; apply N; left; reflexivity).
  destruct (k =? 3); cbn [filter]; [change (Ascii.eqb ","%char ","%char) with true; cbn [negb]|]; rewrite C; cbn [negb]; rewrite IH by (intros I; apply N; right; exact I); reflexivity.
Qed.
Lemma commas_at l k i : k <= 3 -> ~ In ","%char l -> i < length (with_commas l k) -> (nth_error (with_commas l k) i = Some ","%char <-> (i + k) mod 4 = 3).
Proof.
  revert k i. induction l as [|c l IH]; intros k i K N L; [cbn in L; lia|]. cbn [with_commas] in *. assert (C : c <> ","%char) by (intros ->; apply N; left; reflexivity).
  assert (N' : ~ In ","%char l) by (intros I; apply N; right; exact I).
  destruct (Nat.eqb_spec k 3) as [->|NE].
  - destruct i as [|[|i]]; cbn [nth_error length] in *.
    + split; reflexivity.
    + split; [intros E; injection E as E; contradiction|]. change ((1 + 3) mod 4) with 0. discriminate.
    + rewrite IH by (assumption || lia). replace (S (S i) + 3) with ((i + 1) + 1 * 4) by lia. rewrite Nat.mod_add by lia. reflexivity.
  - destruct i as [|i]; cbn [nth_error length] in *.
    + split; [intros E; injection E as E; contradiction|]. intros E. rewrite Nat.mod_small in E by lia. lia.
    + rewrite IH by (assumption || lia). replace (S i + k) with (i + S k) by lia. reflexivity.
Qed.
Lemma dec_no_comma n : ~ In ","%char (bytes (dec_N n)).
Proof.
  intros I. pose proof (dec_N_digits n) as D. unfold bytes in I. revert D I. generalize (dec_N n). intros s. induction s as [|c s IH]; cbn; [tauto|]. rewrite andb_true_iff. intros [C S] [->|I]; [discriminate|exact (IH S I)].
Qed.
Lemma filter_rev {A} (f : A -> bool) l : filter f (rev l) = rev (filter f l).
Proof. induction l as [|x l IH]; cbn [rev filter]; [reflexivity|]. rewrite filter_app, IH. cbn [filter]. destruct (f x); cbn [rev]; [reflexivity|apply app_nil_r]. Qed.
Lemma bytes_length s : length (bytes s) = String.length s.
Proof. unfold bytes. induction s; cbn; congruence. Qed.
Lemma grouped_filter n : filter (fun c => negb (Ascii.eqb c ","%char)) (grouped n) = bytes (dec_N n).
Proof. unfold grouped. rewrite filter_rev, commas_filter, rev_involutive; [reflexivity|]. intros I. apply in_rev in I. exact (dec_no_comma n I). Qed.
Lemma grouped_at n i : i < length (grouped n) -> (nth_error (rev (grouped n)) i = Some ","%char <-> i mod 4 = 3).
Proof.
  unfold grouped. rewrite rev_length, rev_involutive. intros L. rewrite commas_at; [rewrite Nat.add_0_r; reflexivity|lia| |exact L]. intros I. apply in_rev in I. exact (dec_no_comma n I).
Qed.
Lemma grouped_length n : length (grouped n) = String.length (dec_N n) + (String.length (dec_N n) - 1) / 3.
Proof. unfold grouped. rewrite rev_length, commas_length by lia. rewrite rev_length, bytes_length, Nat.add_0_r. reflexivity. Qed.
Lemma grouped_6 n : length (grouped n) <= 6 <-> (n <= 99999)%N.
Proof.
  rewrite grouped_length. destruct (dec_length n) as (L0 & L1 & L2). set (L := String.length (dec_N n)) in *. split.
  - intros H. assert (L <= 5). { destruct (le_lt_dec L 5) as [X|X]; [exact X|]. assert (1 <= (L - 1) / 3) by (apply Nat.div_le_lower_bound; lia). lia. }
    assert (10 ^ Z.of_nat L <= 100000)%Z by (change 100000%Z with (10 ^ 5)%Z; apply Z.pow_le_mono_r; lia). lia.
  - intros H. assert (L <= 5). { destruct (le_lt_dec L 5) as [X|X]; [exact X|]. destruct L2 as [[-> L2]|L2]; [lia|]. assert (100000 <= 10 ^ (Z.of_nat L - 1))%Z by (change 100000%Z with (10 ^ 5)%Z; apply Z.pow_le_mono_r; lia). lia. }
    assert ((L - 1) / 3 < 2) by (apply Nat.div_lt_upper_bound; lia). lia.
Qed.
Lemma grouped_5 n : length (grouped n) <= 5 <-> (n <= 9999)%N.
Proof.
  rewrite grouped_length. destruct (dec_length n) as (L0 & L1 & L2). set (L := String.length (dec_N n)) in *. split.
  - intros H. assert (L <= 4). { destruct (le_lt_dec L 4) as [X|X]; [exact X|]. assert (1 <= (L - 1) / 3) by (apply Nat.div_le_lower_bound; lia). lia. }
    assert (10 ^ Z.of_nat L <= 10000)%Z by (change 10000%Z with (10 ^ 4)%Z; apply Z.pow_le_mono_r; lia). lia.
  - intros H. assert (L <= 4). { destruct (le_lt_dec L 4) as [X|X]; [exact X|]. destruct L2 as [[-> L2]|L2]; [lia|]. assert (10000 <= 10 ^ (Z.of_nat L - 1))%Z by (change 10000%Z with (10 ^ 4)%Z; apply Z.pow_le_mono_r; lia). lia. }
    assert ((L - 1) / 3 < 2) by (apply Nat.div_lt_upper_bound; lia). lia.
Qed.

(** ** files *)
Lemma put_same fs n d : put fs n d n = Some d.
Proof. unfold put. rewrite String.eqb_refl. reflexivity. Qed.
Lemma put_other fs n d n' : n' <> n -> put fs n d n' = fs n'.
Proof. intros N. unfold put. destruct (String.eqb_spec n' n); [congruence|reflexivity]. Qed.
