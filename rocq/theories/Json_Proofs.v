(** Proofs about the JSON writer and reader. *)
From Verif Require Import Common Common_Proofs PyStr_Model PyStr_Proofs Json_Model Json_Spec.
From Coq Require Import DecimalN DecimalFacts.
Local Open Scope string_scope.
Local Open Scope nat_scope.

Lemma json_ind' (P : json -> Prop) :
  P JNull -> (forall b, P (JBool b)) -> (forall z, P (JInt z)) -> (forall t, P (JFloat t)) -> (forall s, P (JStr s)) ->
  (forall l, Forall P l -> P (JArr l)) -> (forall l, Forall (fun kv => P (snd kv)) l -> P (JObj l)) -> forall v, P v.
Proof.
  intros H0 H1 H2 H3 H4 H5 H6. fix IH 1. intros [ |b|z|t|s|l|l]; [exact H0|apply H1|apply H2|apply H3|apply H4| | ].
  - apply H5. induction l as [|x l IHl]; constructor; [exact (IH x)|exact IHl].
  - apply H6. induction l as [|[k x] l IHl]; constructor; [exact (IH x)|exact IHl].
Qed.

Lemma every_arr str flt keys l : every str flt keys (JArr l) <-> Forall (every str flt keys) l.
Proof.
  cbn. induction l as [|x l IH]; split; intros H; auto.
  - destruct H as [A B]. constructor; tauto.
  - inv H. split; auto. tauto.
Qed.
Lemma every_obj str flt keys l :
  every str flt keys (JObj l) <-> keys (map fst l) /\ Forall (fun kv => str (fst kv) /\ every str flt keys (snd kv)) l.
Proof.
  cbn. assert (E : forall l, (fix all (l : list (string * json)) := match l with [] => True | (k, x) :: l' => str k /\ every str flt keys x /\ all l' end) l
            <-> Forall (fun kv => str (fst kv) /\ every str flt keys (snd kv)) l).
  { clear l. induction l as [|[k x] l IH]; split; intros H; auto.
    - destruct H as (A & B & D). constructor; auto. tauto.
    - inv H. cbn in *. tauto. }
  rewrite E. tauto.
Qed.

(** ** characters *)
Lemma isdig_digit c : isdig c = true <-> 48 <= nat_of_ascii c <= 57.
Proof. unfold isdig. rewrite andb_true_iff, !Nat.leb_le. tauto. Qed.
Lemma eqb_code c d : Ascii.eqb c d = (nat_of_ascii c =? nat_of_ascii d).
Proof.
  destruct (Ascii.eqb_spec c d) as [->|N]; symmetry; [apply Nat.eqb_refl|].
  apply Nat.eqb_neq. intros E. apply N. rewrite <- (ascii_nat_embedding c), <- (ascii_nat_embedding d). congruence.
Qed.
Lemma dig_chars d : digit_chars d -> all_chars isdig d = true.
Proof.
  unfold digit_chars, chars. induction d as [|c d IH]; cbn; auto. intros H.
  rewrite (proj2 (isdig_digit c)) by auto. cbn. auto.
Qed.

Definition starts (p : ascii -> bool) (s : string) : bool := match s with String c _ => p c | EmptyString => false end.
Lemma starts_app p a b : a <> "" -> starts p (a ++ b) = starts p a.
Proof. destruct a; cbn; congruence. Qed.

Lemma take_digits_app d r : all_chars isdig d = true -> starts isdig r = false -> take_digits (d ++ r) = (d, r).
Proof.
  induction d as [|c d IH]; cbn; intros H S.
  - destruct r as [|x r]; auto. cbn in *. rewrite S. auto.
  - apply andb_true_iff in H. destruct H as [A B]. rewrite A, IH; auto.
Qed.

Lemma skip_ws_id s : starts ws s = false -> skip_ws s = s.
Proof. destruct s; cbn; auto. intros ->. auto. Qed.
Lemma eat_no c s : starts (fun d => Ascii.eqb d c) s = false -> eat c s = None.
Proof. destruct s; cbn; auto. intros ->. auto. Qed.

(** ** strings *)
Lemma scan_plain c s : nat_of_ascii c <> 34 -> 32 <= nat_of_ascii c -> nat_of_ascii c <> 92 ->
  scan_string (String c s) = do r <- scan_string s; Ok (String c (fst r), snd r).
Proof.
  intros A B D. cbn [scan_string]. cbv zeta.
  apply Nat.eqb_neq in A, D. apply Nat.ltb_ge in B. rewrite A, B, D. reflexivity.
Qed.
Lemma hex_back k : k < 16 -> hex_value (hex_digit k) = Some k.
Proof. intros H. do 16 (destruct k as [|k]; [reflexivity|]). lia. Qed.
Lemma scan_u a b s : a < 16 -> b < 16 ->
  scan_string ("\u00" ++ String (hex_digit a) (String (hex_digit b) s)) =
  do r <- scan_string s; Ok (String (ascii_of_nat (a * 16 + b)) (fst r), snd r).
Proof.
  intros A B. cbn [append scan_string]. cbv zeta.
  change (nat_of_ascii "\") with 92. change (nat_of_ascii "u") with 117. cbn [Nat.eqb Nat.ltb Nat.leb].
  change (hex_value "0") with (Some 0). rewrite (hex_back a A), (hex_back b B). reflexivity.
Qed.
Lemma escape_step c s : scan_string (escape_char c ++ s) = do r <- scan_string s; Ok (String c (fst r), snd r).
Proof.
  pose proof (ascii_nat_embedding c) as E. unfold escape_char. cbv zeta.
  destruct (Nat.eqb_spec (nat_of_ascii c) 34) as [H|N1].
  { rewrite <- E, H. reflexivity. }
  destruct (Nat.eqb_spec (nat_of_ascii c) 92) as [H|N2].
  { rewrite <- E, H. reflexivity. }
  destruct (Nat.eqb_spec (nat_of_ascii c) 10) as [H|_].
  { rewrite <- E, H. reflexivity. }
  destruct (Nat.eqb_spec (nat_of_ascii c) 13) as [H|_].
  { rewrite <- E, H. reflexivity. }
  destruct (Nat.eqb_spec (nat_of_ascii c) 9) as [H|_].
  { rewrite <- E, H. reflexivity. }
  destruct (Nat.eqb_spec (nat_of_ascii c) 12) as [H|_].
  { rewrite <- E, H. reflexivity. }
  destruct (Nat.eqb_spec (nat_of_ascii c) 8) as [H|_].
  { rewrite <- E, H. reflexivity. }
  destruct (Nat.leb_spec 32 (nat_of_ascii c)) as [H|H]; [destruct (Nat.leb_spec (nat_of_ascii c) 126)|].
  - cbn [andb append]. apply scan_plain; auto.
  - cbn [andb]. pose proof (nat_ascii_bounded c) as B.
    etransitivity; [apply (scan_u (nat_of_ascii c / 16) (nat_of_ascii c mod 16) s); [apply Nat.div_lt_upper_bound; lia|apply Nat.mod_upper_bound; lia]|].
    rewrite (Nat.mul_comm (_ / 16)), <- Nat.div_mod, E by lia. reflexivity.
  - cbn [andb]. pose proof (nat_ascii_bounded c) as B.
    etransitivity; [apply (scan_u (nat_of_ascii c / 16) (nat_of_ascii c mod 16) s); [apply Nat.div_lt_upper_bound; lia|apply Nat.mod_upper_bound; lia]|].
    rewrite (Nat.mul_comm (_ / 16)), <- Nat.div_mod, E by lia. reflexivity.
Qed.
Lemma escape_scan s r : scan_string (escape s ++ quote ++ r) = Ok (s, r).
Proof.
  induction s as [|c s IH]; [reflexivity|].
  cbn [escape]. rewrite append_assoc, escape_step, IH. reflexivity.
Qed.

(** ** numbers *)
Definition is_e (c : ascii) : bool := Ascii.eqb c "e" || Ascii.eqb c "E".
Definition is_dot (c : ascii) : bool := Ascii.eqb c ".".
Definition num_char (c : ascii) : bool := isdig c || is_dot c || is_e c.

Lemma scan_frac_app fp r : frac_text fp -> starts isdig r = false -> (fp = "" -> starts is_dot r = false) ->
  scan_frac (fp ++ r) = (fp, r).
Proof.
  intros [->|(d & -> & N & D)] S O; unfold scan_frac.
  - cbn [append]. rewrite eat_no; auto.
  - cbn [append eat]. rewrite Ascii.eqb_refl, take_digits_app by auto using dig_chars.
    rewrite (proj2 (String.eqb_neq d "") N). reflexivity.
Qed.
Lemma scan_exp_app ep r : exp_text ep -> starts isdig r = false -> (ep = "" -> starts is_e r = false) ->
  scan_exp (ep ++ r) = (ep, r).
Proof.
  intros [->|(e & g & d & -> & E & G & N & D)] S O.
  - cbn [append]. specialize (O eq_refl). destruct r as [|c r]; auto. cbn in O |- *. unfold is_e in O. rewrite O. auto.
  - rewrite !append_assoc.
    assert (K : Ascii.eqb "e" "e" || Ascii.eqb "e" "E" = true) by reflexivity.
    assert (H : forall c, Ascii.eqb c "e" || Ascii.eqb c "E" = true ->
                scan_exp (String c (g ++ d ++ r)) = (String c (g ++ d), r)).
    { intros c Hc. cbn [scan_exp]. rewrite Hc.
      destruct G as [->|[->| ->]]; cbn [append].
      - destruct d as [|x d]; [congruence|]. cbn [append].
        assert (Hx : isdig x = true) by (apply isdig_digit, D; cbn; auto).
        replace (Ascii.eqb x "+" || Ascii.eqb x "-") with false
          by (symmetry; clear - Hx; rewrite !eqb_code; apply isdig_digit in Hx; cbn [nat_of_ascii];
              apply orb_false_iff; split; apply Nat.eqb_neq; cbn; lia).
        change (String x (d ++ r)) with (String x d ++ r).
        rewrite take_digits_app by auto using dig_chars. reflexivity.
      - cbn -[take_digits append]. rewrite take_digits_app by auto using dig_chars.
        rewrite (proj2 (String.eqb_neq d "") N). reflexivity.
      - cbn -[take_digits append]. rewrite take_digits_app by auto using dig_chars.
        rewrite (proj2 (String.eqb_neq d "") N). reflexivity. }
    destruct E as [-> | ->]; apply H; reflexivity.
Qed.
Lemma scan_int_app ip r : int_text ip -> starts isdig r = false -> scan_int (ip ++ r) = Some (ip, r).
Proof.
  intros [->|(c & d & -> & C & D)] S; [reflexivity|].
  cbn [append scan_int]. rewrite eqb_code. change (nat_of_ascii "0") with 48.
  rewrite (proj2 (Nat.eqb_neq _ _)) by lia. rewrite (proj2 (isdig_digit c)) by lia.
  rewrite take_digits_app; auto using dig_chars.
Qed.
Lemma starts_false (p q : ascii -> bool) s : (forall c, p c = true -> q c = true) -> starts q s = false -> starts p s = false.
Proof. destruct s as [|c s]; cbn; auto. intros H Q. destruct (p c) eqn:E; auto. apply H in E. congruence. Qed.
Lemma num_char_dig c : isdig c = true -> num_char c = true. Proof. unfold num_char. intros ->. auto. Qed.
Lemma num_char_dot c : is_dot c = true -> num_char c = true. Proof. unfold num_char. intros ->. rewrite orb_true_r. auto. Qed.
Lemma num_char_e c : is_e c = true -> num_char c = true. Proof. unfold num_char. intros ->. rewrite orb_true_r. auto. Qed.

Lemma frac_starts fp r : frac_text fp -> starts isdig r = false -> starts isdig (fp ++ r) = false.
Proof. intros [->|(d & -> & _)] H; auto. Qed.
Lemma exp_starts ep r : exp_text ep -> starts isdig r = false -> starts isdig (ep ++ r) = false.
Proof. intros [->|(e & g & d & -> & [-> | ->] & _)] H; auto. Qed.
Lemma exp_starts_dot ep r : exp_text ep -> starts is_dot r = false -> starts is_dot (ep ++ r) = false.
Proof. intros [->|(e & g & d & -> & [-> | ->] & _)] H; auto. Qed.

Lemma int_first ip r : int_text ip -> starts isdig (ip ++ r) = true.
Proof. intros [->|(c & d & -> & C & D)]; auto. cbn. apply isdig_digit. lia. Qed.
Lemma dig_not c d : isdig c = true -> isdig d = false -> Ascii.eqb c d = false.
Proof. intros A B. destruct (Ascii.eqb_spec c d); auto. congruence. Qed.
Lemma dig_literal s : starts isdig s = true -> scan_literal literals s = None.
Proof.
  destruct s as [|c s]; cbn [starts]; intros H; [discriminate|].
  cbn [literals scan_literal after].
  rewrite !(Ascii.eqb_sym _ c), !(dig_not c _ H) by reflexivity. reflexivity.
Qed.
Lemma minus_literal s : starts isdig s = true -> scan_literal literals ("-" ++ s) = None.
Proof.
  destruct s as [|c s]; cbn [starts]; intros H; [discriminate|].
  cbn [append literals scan_literal after].
  change (Ascii.eqb "n" "-") with false. change (Ascii.eqb "t" "-") with false. change (Ascii.eqb "f" "-") with false.
  change (Ascii.eqb "N" "-") with false. change (Ascii.eqb "I" "-") with false. change (Ascii.eqb "-" "-") with true.
  cbv iota.
  rewrite !(Ascii.eqb_sym _ c), !(dig_not c _ H) by reflexivity. reflexivity.
Qed.

Lemma scan_number_app sg ip fp ep r : (sg = "" \/ sg = "-") -> int_text ip -> frac_text fp -> exp_text ep ->
  starts num_char r = false ->
  scan_number (sg ++ ip ++ fp ++ ep ++ r) =
  if String.eqb fp "" && String.eqb ep ""
  then match py_int_str (sg ++ ip) with Ok z => Some (JInt z, r) | Raise _ => None end
  else Some (JFloat (sg ++ ip ++ fp ++ ep), r).
Proof.
  intros SG I F E R. unfold scan_number.
  assert (RD : starts isdig r = false) by (eapply starts_false; [apply num_char_dig|auto]).
  assert (RO : starts is_dot r = false) by (eapply starts_false; [apply num_char_dot|auto]).
  assert (RE : starts is_e r = false) by (eapply starts_false; [apply num_char_e|auto]).
  replace (match eat "-" (sg ++ ip ++ fp ++ ep ++ r) with Some r0 => ("-", r0) | None => ("", sg ++ ip ++ fp ++ ep ++ r) end)
    with (sg, ip ++ fp ++ ep ++ r).
  2:{ destruct SG as [-> | ->]; [|reflexivity]. cbn [append].
      rewrite eat_no; auto.
      pose proof (int_first ip (fp ++ ep ++ r) I) as S. destruct (ip ++ fp ++ ep ++ r); cbn in *; auto.
      apply dig_not; auto. }
  rewrite scan_int_app by (auto using frac_starts, exp_starts).
  rewrite scan_frac_app by (auto using exp_starts, exp_starts_dot).
  rewrite scan_exp_app by auto. reflexivity.
Qed.

Lemma uint_no_zero u : match u with Decimal.Nil | Decimal.D0 _ => False | _ => True end -> int_text (NilEmpty.string_of_uint u).
Proof.
  assert (G : forall u, digit_chars (NilEmpty.string_of_uint u)).
  { clear u. intros u c. unfold chars. induction u; cbn; intros H; [tauto| | | | | | | | | |]; destruct H as [<-|H]; auto; cbn; lia. }
  destruct u; cbn; intros H; try tauto; right; eexists _, _; (split; [reflexivity|]); (split; [cbn; lia|apply G]).
Qed.
Lemma int_text_dec_N n : int_text (dec_N n).
Proof.
  unfold dec_N. pose proof (Unsigned.to_of (N.to_uint n)) as H. rewrite Unsigned.of_to in H. rewrite H.
  unfold Decimal.unorm. pose proof (DecimalFacts.nzhead_nonzero (N.to_uint n)) as K.
  destruct (Decimal.nzhead (N.to_uint n)) eqn:E; try (apply uint_no_zero; exact I).
  - left. reflexivity.
  - exfalso. apply (K u). auto.
Qed.
