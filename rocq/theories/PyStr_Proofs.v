From Coq Require Import DecimalN Qabs.
From Verif Require Import Common Common_Proofs PyStr_Model.
Local Open Scope nat_scope.

(** all characters of [s] satisfy [p] *)
Fixpoint all_chars (p : ascii -> bool) (s : string) : bool :=
  match s with EmptyString => true | String c s' => p c && all_chars p s' end.

Definition is_digit (c : ascii) : bool := match digit c with Some _ => true | None => false end.

Lemma append_nil_r s : (s ++ "")%string = s.
Proof. induction s; simpl; congruence. Qed.

Lemma append_assoc a b c : ((a ++ b) ++ c)%string = (a ++ (b ++ c))%string.
Proof. induction a; simpl; congruence. Qed.

Lemma append_inj_l a b c : (a ++ b)%string = (a ++ c)%string -> b = c.
Proof. induction a; simpl; intros H; auto. inv H. auto. Qed.

Lemma append_length a b : String.length (a ++ b) = String.length a + String.length b.
Proof. induction a; simpl; auto. Qed.

Lemma append_inj_r a b c : (a ++ c)%string = (b ++ c)%string -> a = b.
Proof.
  revert b. induction a as [|x a IH]; destruct b as [|y b]; simpl; intros H; auto.
  - apply (f_equal String.length) in H. simpl in H. rewrite append_length in H. lia.
  - apply (f_equal String.length) in H. simpl in H. rewrite append_length in H. lia.
  - inv H. f_equal. auto.
Qed.

Lemma all_chars_app p a b : all_chars p (a ++ b) = all_chars p a && all_chars p b.
Proof. induction a; simpl; auto. rewrite IHa. apply andb_assoc. Qed.

Lemma all_chars_impl (p q : ascii -> bool) s :
  (forall c, p c = true -> q c = true) -> all_chars p s = true -> all_chars q s = true.
Proof. intros H. induction s; simpl; auto. rewrite !andb_true_iff. intuition. Qed.

(** a string splits uniquely at the first character outside a class *)
Lemma split_class p a b c d x y :
  all_chars p a = true -> all_chars p b = true -> p x = false -> p y = false ->
  (a ++ String x c)%string = (b ++ String y d)%string -> a = b /\ x = y /\ c = d.
Proof.
  revert b. induction a as [|u a IH]; destruct b as [|v b]; simpl; intros Ha Hb Hx Hy H.
  - inv H. auto.
  - inv H. apply andb_true_iff in Hb. destruct Hb; congruence.
  - inv H. apply andb_true_iff in Ha. destruct Ha; congruence.
  - apply andb_true_iff in Ha, Hb. destruct Ha, Hb. inv H.
    destruct (IH b) as (-> & -> & ->); auto.
Qed.


(** ---- decimal numbers ---- *)
Fixpoint valZ (u : Decimal.uint) (acc : Z) : Z :=
  match u with
  | Decimal.Nil => acc
  | Decimal.D0 l => valZ l (10 * acc + 0)
  | Decimal.D1 l => valZ l (10 * acc + 1)
  | Decimal.D2 l => valZ l (10 * acc + 2)
  | Decimal.D3 l => valZ l (10 * acc + 3)
  | Decimal.D4 l => valZ l (10 * acc + 4)
  | Decimal.D5 l => valZ l (10 * acc + 5)
  | Decimal.D6 l => valZ l (10 * acc + 6)
  | Decimal.D7 l => valZ l (10 * acc + 7)
  | Decimal.D8 l => valZ l (10 * acc + 8)
  | Decimal.D9 l => valZ l (10 * acc + 9)
  end%Z.

Lemma valZ_acc u p : valZ u (Zpos p) = Zpos (Pos.of_uint_acc u p).
Proof.
  revert p. induction u; intros p; cbn [valZ Pos.of_uint_acc]; auto; rewrite <- IHu; f_equal;
    match goal with |- context [Pos.mul ?t p] => change t with 10%positive end; lia.
Qed.


Lemma valZ_0 u : valZ u 0 = Z.of_N (Pos.of_uint u).
Proof.
  induction u; simpl; auto;
    match goal with |- valZ _ (Zpos ?p) = _ => rewrite valZ_acc; auto end.
Qed.

Lemma digits_after_uint u acc : digits_after acc (NilEmpty.string_of_uint u) = Some (valZ u acc).
Proof. revert acc. induction u; intros acc; simpl; auto; rewrite IHu; do 2 f_equal; lia. Qed.

Lemma digits_uint u : u <> Decimal.Nil -> digits (NilEmpty.string_of_uint u) = Some (valZ u 0).
Proof. intros H. destruct u; simpl; try congruence; rewrite digits_after_uint; do 2 f_equal. Qed.

Lemma to_uint_not_nil n : N.to_uint n <> Decimal.Nil.
Proof.
  intros H. destruct n as [|p]; [discriminate|].
  simpl in H. apply (DecimalPos.Unsigned.to_uint_nonnil p). exact H.
Qed.

Lemma digits_dec_N n : digits (dec_N n) = Some (Z.of_N n).
Proof.
  unfold dec_N. rewrite digits_uint by apply to_uint_not_nil. f_equal.
  rewrite valZ_0. f_equal. apply Unsigned.of_to.
Qed.

Lemma uint_digits u : all_chars is_digit (NilEmpty.string_of_uint u) = true.
Proof. induction u; simpl; auto. Qed.

Lemma dec_N_digits n : all_chars is_digit (dec_N n) = true.
Proof. apply uint_digits. Qed.

Lemma dec_N_not_empty n : dec_N n <> EmptyString.
Proof. intros H. pose proof (digits_dec_N n) as D. rewrite H in D. discriminate. Qed.

Lemma dec_N_inj m n : dec_N m = dec_N n -> m = n.
Proof.
  intros H. pose proof (digits_dec_N m) as D. rewrite H, digits_dec_N in D. inv D. lia.
Qed.

Lemma dec_nonneg z : (0 <= z)%Z -> dec z = dec_N (Z.to_N z).
Proof. destruct z; intros H; auto. lia. Qed.

Lemma dec_digits z : (0 <= z)%Z -> all_chars is_digit (dec z) = true.
Proof. intros H. rewrite dec_nonneg by auto. apply dec_N_digits. Qed.

Lemma dec_not_empty z : dec z <> EmptyString.
Proof.
  destruct z; simpl; try discriminate. apply dec_N_not_empty.
Qed.

Lemma digit_not_minus c : is_digit c = true -> c <> "-"%char.
Proof. intros H ->. discriminate. Qed.

Lemma first_digit s c t : all_chars is_digit s = true -> s = String c t -> is_digit c = true.
Proof. intros H ->. simpl in H. apply andb_true_iff in H. tauto. Qed.

Lemma dec_inj a b : dec a = dec b -> a = b.
Proof.
  assert (forall p, exists c t, dec_N (Npos p) = String c t /\ c <> "-"%char) as F.
  { intros p. destruct (dec_N (Npos p)) as [|c t] eqn:E; [exfalso; eapply dec_N_not_empty; eauto|].
    exists c, t. split; auto. apply digit_not_minus. eapply first_digit; [apply (dec_N_digits (Npos p))|eauto]. }
  intros H. destruct (Z_lt_le_dec a 0), (Z_lt_le_dec b 0).
  - destruct a, b; try lia. simpl in H. injection H as H. apply dec_N_inj in H. congruence.
  - destruct a; try lia. simpl in H. destruct b; try lia; [discriminate|].
    destruct (F p0) as (c & t & E & Hc). simpl in H. rewrite E in H. congruence.
  - destruct b; try lia. simpl in H. destruct a; try lia; [discriminate|].
    destruct (F p0) as (c & t & E & Hc). simpl in H. rewrite E in H. congruence.
  - rewrite !dec_nonneg in H by auto. apply dec_N_inj in H. lia.
Qed.

(** ---- strip ---- *)
Lemma lstrip_id s c t : s = String c t -> is_space c = false -> lstrip s = s.
Proof. intros -> H. simpl. rewrite H. auto. Qed.

Lemma rstrip_id s : all_chars (fun c => negb (is_space c)) s = true -> rstrip s = s.
Proof.
  induction s as [|c s IH]; simpl; auto. intros H. apply andb_true_iff in H. destruct H as [Hc H].
  rewrite IH by auto. apply negb_true_iff in Hc. rewrite Hc. destruct s; auto.
Qed.

Lemma rstrip_spaces w : all_chars is_space w = true -> rstrip w = EmptyString.
Proof. induction w; simpl; auto. intros H. apply andb_true_iff in H. destruct H as [H1 H2]. rewrite IHw, H1; auto. Qed.

Lemma rstrip_app s w : all_chars is_space w = true -> rstrip (s ++ w) = rstrip s.
Proof. intros H. induction s; simpl; [apply rstrip_spaces; auto|]. rewrite IHs. auto. Qed.

Lemma lstrip_app w s : all_chars is_space w = true -> lstrip (w ++ s) = lstrip s.
Proof. induction w; simpl; auto. intros H. apply andb_true_iff in H. destruct H as [-> H]. auto. Qed.

Lemma digit_not_space c : is_digit c = true -> is_space c = false.
Proof.
  unfold is_digit, digit, is_space. cbv zeta. intros H.
  destruct ((48 <=? nat_of_ascii c) && (nat_of_ascii c <=? 57)) eqn:E; [|discriminate].
  apply andb_true_iff in E. destruct E as [E1 E2]. apply Nat.leb_le in E1, E2.
  apply orb_false_iff. split; apply andb_false_iff; right; apply Nat.leb_gt; lia.
Qed.

Lemma dec_nospace z : all_chars (fun c => negb (is_space c)) (dec z) = true.
Proof.
  assert (forall n, all_chars (fun c => negb (is_space c)) (dec_N n) = true) as H.
  { intros n. eapply all_chars_impl; [|apply dec_N_digits]. intros c Hc. rewrite digit_not_space; auto. }
  destruct z; simpl; auto.
Qed.

Lemma strip_pad w1 s w2 :
  all_chars is_space w1 = true -> all_chars is_space w2 = true -> s <> EmptyString ->
  all_chars (fun c => negb (is_space c)) s = true -> strip (w1 ++ s ++ w2) = s.
Proof.
  intros H1 H2 Hs Hn. unfold strip. rewrite lstrip_app by auto.
  destruct s as [|c s]; [congruence|]. simpl in Hn. apply andb_true_iff in Hn. destruct Hn as [Hc Hn].
  apply negb_true_iff in Hc.
  rewrite (lstrip_id (String c s ++ w2) c (s ++ w2)) by auto. rewrite rstrip_app by auto.
  apply rstrip_id. simpl. rewrite Hc, Hn. auto.
Qed.

Lemma strip_id s : all_chars (fun c => negb (is_space c)) s = true -> strip s = s.
Proof.
  intros H. unfold strip. destruct s as [|c s]; auto.
  rewrite (lstrip_id _ c s); auto; [apply rstrip_id; auto|].
  simpl in H. apply andb_true_iff in H. destruct H as [H _]. apply negb_true_iff in H. auto.
Qed.

(** int() of a decimal number with surrounding white space *)
Lemma signed_digit {A} (neg : A -> A) p c t : is_digit c = true ->
  signed neg p (String c t) = match p (String c t) with Some a => Ok a | None => Raise ValueError end.
Proof.
  intros H. unfold signed. destruct (Ascii.eqb_spec c "-"); [subst; discriminate|].
  destruct (Ascii.eqb_spec c "+"); [subst; discriminate|]. auto.
Qed.

Lemma py_int_dec_pad w1 z w2 :
  all_chars is_space w1 = true -> all_chars is_space w2 = true ->
  py_int_str (w1 ++ dec z ++ w2) = Ok z.
Proof.
  intros H1 H2. unfold py_int_str. rewrite strip_pad; auto using dec_not_empty, dec_nospace.
  destruct (Z_lt_le_dec z 0) as [L|L].
  - destruct z; try lia. unfold signed, dec. rewrite Ascii.eqb_refl, digits_dec_N. auto.
  - pose proof (dec_digits z L) as D. rewrite dec_nonneg in * by auto.
    destruct (dec_N (Z.to_N z)) as [|c t] eqn:E; [exfalso; eapply dec_N_not_empty; eauto|].
    rewrite signed_digit by (eapply first_digit; [exact D|reflexivity]).
    rewrite <- E, digits_dec_N. f_equal. lia.
Qed.

Lemma py_int_dec z : py_int_str (dec z) = Ok z.
Proof. rewrite <- (append_nil_r (dec z)). apply (py_int_dec_pad "" z ""); auto. Qed.

(** ---- split ---- *)
Lemma prefix_app p s t : String.prefix p s = true -> String.prefix p (s ++ t) = true.
Proof.
  revert s. induction p as [|c p IH]; destruct s as [|d s]; simpl; auto; try discriminate.
  - destruct t; auto.
  - destruct (ascii_dec c d); auto.
Qed.

Lemma prefix_self p t : String.prefix p (p ++ t) = true.
Proof. induction p as [|c p IH]; simpl; [destruct t; auto|]. destruct (ascii_dec c c); congruence. Qed.

Lemma prefix_true p s : String.prefix p s = true <-> exists t, s = (p ++ t)%string.
Proof.
  split; [|intros [t ->]; apply prefix_self].
  revert s. induction p as [|c p IH]; intros s H; [exists s; auto|].
  destruct s as [|d s]; simpl in H; try discriminate. destruct (ascii_dec c d); [|discriminate].
  subst. destruct (IH _ H) as [t ->]. exists t. auto.
Qed.

Lemma prefix_first c p d s : String.prefix (String c p) (String d s) = true -> c = d.
Proof. simpl. destruct (ascii_dec c d); congruence. Qed.

Lemma split_go_skip sep a s : split_go sep (String.length a) (a ++ s) = split_go sep 0 s.
Proof. induction a; simpl; auto. Qed.

(** no occurrence of [sep] in [a ++ rest] starts inside [a] *)
Inductive no_start (sep rest : string) : string -> Prop :=
| ns_nil : no_start sep rest EmptyString
| ns_cons c a : String.prefix sep (String c a ++ rest) = false -> no_start sep rest a -> no_start sep rest (String c a).

Lemma split_first sep a b :
  sep <> EmptyString -> no_start sep (sep ++ b) a -> split sep (a ++ sep ++ b) = a :: split sep b.
Proof.
  intros Hs H. unfold split. induction H as [|c a H1 H2 IH].
  - simpl. destruct sep as [|x sep]; [congruence|]. simpl.
    destruct (ascii_dec x x); [|congruence]. rewrite prefix_self, Nat.sub_0_r, split_go_skip. auto.
  - cbn [String.append split_go] in *. rewrite H1, IH. auto.
Qed.

Lemma split_none sep a : sep <> EmptyString -> no_start sep "" a -> split sep a = [a].
Proof.
  intros Hs H. unfold split. induction H as [|c a H1 H2 IH]; auto.
  cbn [String.append split_go] in *. rewrite append_nil_r in H1. rewrite H1, IH. auto.
Qed.

(** the first character of the separator does not occur *)
Lemma no_start_char x sep rest a :
  all_chars (fun c => negb (Ascii.eqb c x)) a = true -> no_start (String x sep) rest a.
Proof.
  induction a as [|c a IH]; simpl; intros H; constructor.
  - apply andb_true_iff in H. destruct H as [H _]. apply negb_true_iff, Ascii.eqb_neq in H.
    destruct (String.prefix _ _) eqn:E; auto. apply prefix_first in E. congruence.
  - apply IH. apply andb_true_iff in H. tauto.
Qed.

(** two-character separator with distinct characters, not contained in [a] *)
Lemma no_start_two x y rest a b :
  x <> y -> contains (String x (String y "")) a = false ->
  match rest with String r _ => r <> y | EmptyString => True end ->
  all_chars (fun c => negb (Ascii.eqb c x)) b = true ->
  match b with String r _ => r <> y | EmptyString => True end ->
  no_start (String x (String y "")) rest (a ++ b).
Proof.
  intros Hxy HC HR HB HBy. induction a as [|c a IH].
  - simpl. apply no_start_char; auto.
  - cbn [contains] in HC. apply orb_false_iff in HC. destruct HC as [HC1 HC2].
    cbn [String.append]. constructor; [|apply IH; auto].
    apply not_true_iff_false. intros E. apply not_true_iff_false in HC1. apply HC1. clear HC1.
    apply prefix_true in E. destruct E as [t E]. cbn [String.append] in E. injection E as -> E.
    destruct a as [|d a].
    + exfalso. simpl in E. destruct b as [|r b]; simpl in E.
      * destruct rest; [discriminate|]. congruence.
      * congruence.
    + cbn [String.append] in E. injection E as -> E. apply prefix_true. exists a. auto.
Qed.

Lemma digits_no_char x a : is_digit x = false -> all_chars is_digit a = true -> all_chars (fun c => negb (Ascii.eqb c x)) a = true.
Proof.
  intros Hx. apply all_chars_impl. intros c Hc. apply negb_true_iff, Ascii.eqb_neq. intros ->. congruence.
Qed.


Lemma split_go_not_nil sep k s : split_go sep k s <> [].
Proof.
  revert k. induction s as [|c s IH]; intros k; cbn [split_go]; [discriminate|].
  destruct k; auto. destruct (String.prefix sep (String c s)); [discriminate|].
  destruct (split_go sep 0 s); discriminate.
Qed.

Lemma split_not_nil sep s : split sep s <> [].
Proof. apply split_go_not_nil. Qed.

(** ---- two-decimal floats ---- *)
Lemma two_digits_digits z : (0 <= z)%Z -> all_chars is_digit (two_digits z) = true.
Proof. intros H. unfold two_digits. destruct (z <? 10)%Z; simpl; rewrite dec_digits; auto. Qed.

Definition two_digits_check (n : nat) : bool :=
  match two_digits (Z.of_nat n) with
  | String a (String b "") =>
      match digit a, digit b with Some u, Some v => Z.eqb (Z.of_nat n) (10 * u + v) | _, _ => false end
  | _ => false
  end.

Lemma two_digits_check_all : forallb two_digits_check (seq 0 100) = true.
Proof. vm_compute. reflexivity. Qed.

Lemma two_digits_cases z : (0 <= z < 100)%Z ->
  exists a b, two_digits z = String a (String b "") /\ exists u v, digit a = Some u /\ digit b = Some v /\ z = (10 * u + v)%Z.
Proof.
  intros H. assert (two_digits_check (Z.to_nat z) = true) as C.
  { pose proof two_digits_check_all as F. rewrite forallb_forall in F. apply F. apply in_seq. lia. }
  unfold two_digits_check in C. rewrite Z2Nat.id in C by lia.
  destruct (two_digits z) as [|a [|b [|]]]; try discriminate.
  destruct (digit a) as [u|] eqn:Ea; try discriminate. destruct (digit b) as [v|] eqn:Eb; try discriminate.
  apply Z.eqb_eq in C. exists a, b. split; auto. exists u, v. auto.
Qed.

Lemma two_digits_inj a b : (0 <= a < 100)%Z -> (0 <= b < 100)%Z -> two_digits a = two_digits b -> a = b.
Proof.
  intros Ha Hb H. destruct (two_digits_cases a Ha) as (x & y & Ex & u & v & Hu & Hv & ->).
  destruct (two_digits_cases b Hb) as (x' & y' & Ex' & u' & v' & Hu' & Hv' & ->). congruence.
Qed.

Lemma fmt_hundredths_inj a b : (0 <= a)%Z -> (0 <= b)%Z -> fmt_hundredths a = fmt_hundredths b -> a = b.
Proof.
  intros Ha Hb H. unfold fmt_hundredths in H.
  apply (split_class is_digit) in H; auto; try (apply dec_digits; apply Z.div_pos; lia).
  destruct H as (H1 & _ & H2). apply dec_inj in H1.
  apply two_digits_inj in H2; try (apply Z.mod_pos_bound; lia).
  rewrite (Z.div_mod a 100), (Z.div_mod b 100) by lia. congruence.
Qed.

Definition is_float_char (c : ascii) : bool := is_digit c || Ascii.eqb c ".".

Lemma fmt_hundredths_chars h : (0 <= h)%Z -> all_chars is_float_char (fmt_hundredths h) = true.
Proof.
  intros H. unfold fmt_hundredths. rewrite all_chars_app. simpl.
  assert (forall s, all_chars is_digit s = true -> all_chars is_float_char s = true) as I.
  { intros s. apply all_chars_impl. intros c Hc. unfold is_float_char. rewrite Hc. auto. }
  rewrite !I; auto. apply two_digits_digits. apply Z.mod_pos_bound. lia. apply dec_digits. apply Z.div_pos; lia.
Qed.

Lemma py_float_fmt h : (0 <= h)%Z -> exists q, py_float_str (fmt_hundredths h) = Ok q /\ (q == h # 100)%Q.
Proof.
  intros H. unfold py_float_str. rewrite strip_id.
  2:{ eapply all_chars_impl; [|apply fmt_hundredths_chars; auto]. intros c Hc. unfold is_float_char in Hc.
      apply orb_true_iff in Hc. destruct Hc as [Hc|Hc]; [rewrite digit_not_space; auto|].
      apply Ascii.eqb_eq in Hc. subst. auto. }
  assert (unsigned_float (fmt_hundredths h) = Some (Qmake (10 * (10 * (h / 100) + (h mod 100) / 10) + (h mod 100) mod 10) 100)) as U.
  { unfold unsigned_float, fmt_hundredths.
    destruct (two_digits_cases (h mod 100)) as (x & y & Exy & u & v & Hu & Hv & Huv); [apply Z.mod_pos_bound; lia|].
    assert (D0 : forall c d, digit c = Some d -> (0 <= d <= 9)%Z).
    { intros c d. unfold digit. destruct ((48 <=? nat_of_ascii c) && (nat_of_ascii c <=? 57)) eqn:E; [|discriminate].
      intros HE. inv HE. apply andb_true_iff in E. destruct E as [E1 E2]. apply Nat.leb_le in E1, E2. lia. }
    pose proof (D0 _ _ Hu). pose proof (D0 _ _ Hv).
    change (split "." (dec (h / 100) ++ "." ++ two_digits (h mod 100)))
      with (split (String "." "") (dec (h / 100) ++ (String "." "") ++ two_digits (h mod 100))).
    rewrite split_first; [|discriminate|].
    2:{ apply no_start_char, digits_no_char; auto. apply dec_digits, Z.div_pos; lia. }
    rewrite split_none; [|discriminate|].
    2:{ apply no_start_char, digits_no_char; auto. apply two_digits_digits, Z.mod_pos_bound; lia. }
    rewrite dec_nonneg by (apply Z.div_pos; lia). rewrite digits_dec_N, Z2N.id by (apply Z.div_pos; lia).
    rewrite Exy. cbn [frac_digits]. rewrite Hu, Hv, Huv.
    change (10 * (10 * 1))%positive with 100%positive.
    assert ((10 * u + v) / 10 = u)%Z as -> by (symmetry; apply Z.div_unique with v; lia).
    assert ((10 * u + v) mod 10 = v)%Z as -> by (symmetry; apply Z.mod_unique with u; lia). auto. }
  assert (E : (10 * (10 * (h / 100) + (h mod 100) / 10) + (h mod 100) mod 10 = h)%Z).
  { pose proof (Z.div_mod h 100 ltac:(lia)). pose proof (Z.div_mod (h mod 100) 10 ltac:(lia)). lia. }
  rewrite E in U.
  assert (exists c t, fmt_hundredths h = String c t /\ is_digit c = true) as (c & t & Ec & Hc).
  { unfold fmt_hundredths. destruct (dec (h / 100)) as [|c t] eqn:ED; [exfalso; eapply dec_not_empty; eauto|].
    simpl. do 2 eexists; split; [reflexivity|]. eapply first_digit; [|exact ED]. apply dec_digits, Z.div_pos; lia. }
  exists (h # 100)%Q. split; [|reflexivity]. rewrite Ec in *.
  rewrite signed_digit by auto. rewrite U. auto.
Qed.

Lemma round_even_bounds q : (2 * Zpos (Qden q) * round_even q <= 2 * Qnum q + Zpos (Qden q))%Z /\
                            (2 * Qnum q <= 2 * Zpos (Qden q) * round_even q + Zpos (Qden q))%Z.
Proof.
  destruct q as [n d]. unfold round_even. simpl Qnum. simpl Qden.
  pose proof (Z.div_mod n (Zpos d) ltac:(lia)) as E. pose proof (Z.mod_pos_bound n (Zpos d) ltac:(lia)) as B.
  set (f := (n / Zpos d)%Z) in *. set (r := (n mod Zpos d)%Z) in *.
  destruct (Z.ltb_spec (2 * r) (Zpos d)); [nia|]. destruct (Z.ltb_spec (Zpos d) (2 * r)); [nia|].
  destruct (Z.even f); nia.
Qed.

Lemma round_even_nonneg q : (0 <= Qnum q)%Z -> (0 <= round_even q)%Z.
Proof. intros H. pose proof (round_even_bounds q). nia. Qed.

Lemma hundredths_nonneg q : (0 <= Qnum q)%Z -> (0 <= hundredths q)%Z.
Proof. intros H. apply round_even_nonneg. simpl. lia. Qed.

(** |t - shown| <= 1/200 *)
Lemma hundredths_error q : (Qabs.Qabs (q - (hundredths q # 100)) <= 1 # 200)%Q.
Proof.
  destruct q as [n d]. unfold hundredths. cbn [Qnum Qden].
  pose proof (round_even_bounds (n * 100 # d)) as [H1 H2]. cbn [Qnum Qden] in H1, H2.
  set (r := round_even _) in *.
  apply Qabs.Qabs_Qle_condition. unfold Qle, Qminus, Qplus, Qopp. cbn [Qnum Qden].
  rewrite !Pos2Z.inj_mul. split; nia.
Qed.

(** ---- join ---- *)
Lemma join_rel a b : String.prefix "/" b = false -> join a b = (a ++ (if ends_with_slash a then "" else "/") ++ b)%string.
Proof. intros H. unfold join. rewrite H. destruct (ends_with_slash a); auto. Qed.

Lemma join_inj a b c : String.prefix "/" b = false -> String.prefix "/" c = false -> join a b = join a c -> b = c.
Proof. intros Hb Hc H. rewrite !join_rel in H by auto. apply append_inj_l in H. apply append_inj_l in H. auto. Qed.

Lemma contains_spec p s : contains p s = true <-> exists a b, s = (a ++ p ++ b)%string.
Proof.
  split.
  - induction s as [|c s IH]; simpl; intros H.
    + rewrite orb_false_r in H. destruct p; [|discriminate]. exists "", "". auto.
    + apply orb_true_iff in H. destruct H as [H|H].
      * apply (prefix_true p (String c s)) in H. destruct H as [t ->]. exists "", t. auto.
      * destruct (IH H) as (a & b & ->). exists (String c a), b. auto.
  - intros (a & b & ->). induction a as [|c a IH].
    + simpl. destruct (p ++ b)%string as [|x t] eqn:E.
      * destruct p; [auto|discriminate].
      * cbn [contains]. rewrite <- E. rewrite prefix_self. auto.
    + cbn [String.append contains]. rewrite IH, orb_true_r. auto.
Qed.
