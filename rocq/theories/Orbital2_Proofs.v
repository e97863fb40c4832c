From Coq Require Import QArith Lia Lqa.
From Verif Require Import Common Common_Proofs PyStr_Model PyStr_Proofs FileName_Model ModelOp_Spec ModelOp2_Proofs ModelOp_Model ModelOp3_Proofs Json_Spec Julia_Spec Julia_Proofs Auto_Spec Auto_Proofs Auto_Proofs2 FileSearch_Spec FileSearch_Model FileSearch_Proofs Zmat_Spec Zmat_Proofs Zmat_Props Orbital_Model Orbital_Spec Orbital_Proofs.
Local Open Scope string_scope.
Local Open Scope nat_scope.

(** ** the dialog *)
Lemma lower_y c : Ascii.eqb "y" (lower_char c) = Ascii.eqb c "y" || Ascii.eqb c "Y".
Proof. destruct c as [[] [] [] [] [] [] [] []]; reflexivity. Qed.
Lemma yes_iff s : contains "y" (lower s) = true <-> yes s.
Proof.
  unfold yes, chars. induction s as [|c s IH]; [cbn; intuition discriminate|]. cbn [lower contains String.prefix list_ascii_of_string In].
  pose proof (lower_y c) as L. destruct (ascii_dec "y" (lower_char c)) as [E|E].
  - rewrite <- E in L at 1. rewrite Ascii.eqb_refl in L. symmetry in L. apply orb_true_iff in L. replace (String.prefix "" (lower s)) with true by (destruct (lower s); reflexivity). cbn [orb]. split; [intros _|reflexivity]. destruct L as [L|L]; apply Ascii.eqb_eq in L; auto.
  - apply Ascii.eqb_neq in E. rewrite E in L. symmetry in L. apply orb_false_iff in L. destruct L as [L1 L2]. apply Ascii.eqb_neq in L1, L2. cbn [orb]. rewrite IH. intuition congruence.
Qed.
Lemma get_integer_iff input z more : get_integer input = Ok (z, more) <->
  exists bad s, input = (bad ++ s :: more)%list /\ Forall (fun x => forall z, ~ number x z) bad /\ number s z.
Proof.
  revert z more. induction input as [|s input IH]; intros z more; cbn [get_integer].
  - split; [discriminate|]. intros (bad & s & E & _). destruct bad; discriminate.
  - assert (D : (exists k, number s k) \/ (forall k, ~ number s k)).
    { unfold number. destruct (py_int_str s) as [k|e]; [|right; intros k [E _]; discriminate]. destruct (Z.le_gt_cases 0 k) as [L|L]; [left; eauto|right; intros k' [[= ->] L']; lia]. }
    destruct D as [[k D]|D].
    + pose proof D as [P L]. rewrite P. apply Z.leb_le in L. rewrite L. split.
      * intros [= <- <-]. exists [], s. auto.
      * intros (bad & s' & E & F & N). destruct bad as [|b bad]; [injection E as <- <-; destruct N as [N _]; congruence|]. injection E as <- _. inv F. destruct (H1 k D).
    + assert (G : match py_int_str s with Ok z => if (0 <=? z)%Z then Ok (z, input) else get_integer input | Raise _ => get_integer input end = get_integer input).
      { destruct (py_int_str s) as [k|e] eqn:P; [|reflexivity]. destruct (Z.leb_spec 0 k) as [L|L]; [|reflexivity]. destruct (D k). split; assumption. }
      rewrite G, IH. split.
      * intros (bad & s' & -> & F & N). exists (s :: bad), s'. auto.
      * intros (bad & s' & E & F & N). destruct bad as [|b bad]; [injection E as <- <-; destruct (D z N)|]. injection E as <- ->. inv F. eauto.
Qed.
Lemma get_integer_fails input e : get_integer input = Raise e -> e = OtherException.
Proof. induction input as [|s input IH]; cbn [get_integer]; [congruence|]. destruct (py_int_str s) as [k|x]; [destruct (0 <=? k)%Z; [discriminate|]|]; exact IH. Qed.
Lemma ask_again_iff n : forall g v input k rest, length input <= n -> (ask_again n g v input = Ok (k, rest) <-> if v then k = g /\ rest = input else talk None input k rest).
Proof.
  induction n as [|n IH]; intros g v input k rest L; cbn [ask_again]; destruct v; try (split; [intros [= -> ->]; auto|intros [-> ->]; reflexivity]).
  - split; [discriminate|]. intros T. inv T. rewrite app_length in L. cbn in L. lia.
  - split.
    + destruct (get_integer input) as [[z more]|e] eqn:G; cbn [bind]; [|discriminate]. cbn [fst snd]. apply get_integer_iff in G. destruct G as (bad & s & -> & F & N). destruct more as [|a more]; cbn [get_yes_no bind]; [discriminate|]. cbn [fst snd]. rewrite IH by (rewrite app_length in L; cbn in L; lia).
      intros A. apply (t_number bad s (a :: more) z); [exact F|exact N|]. destruct (contains "y" (lower a)) eqn:Y; [destruct A as [-> ->]; apply t_yes; apply yes_iff; exact Y|apply t_no; [intros X; apply yes_iff in X; congruence|exact A]].
    + intros T. inv T. assert (G : get_integer (bad ++ s :: more) = Ok (g0, more)) by (apply get_integer_iff; eauto). rewrite G. cbn [bind fst snd]. inv H1; cbn [get_yes_no bind fst snd]; (rewrite IH by (rewrite app_length in L; cbn in L; lia)).
      * match goal with Y : yes _ |- _ => apply yes_iff in Y; rewrite Y end. auto.
      * match goal with Y : ~ yes ?x |- _ => assert (E : contains "y" (lower x) = false) by (destruct (contains "y" (lower x)) eqn:E; [destruct Y; apply yes_iff; exact E|reflexivity]) end. rewrite E. assumption.
Qed.
Lemma ask_again_fails n : forall g v input e, ask_again n g v input = Raise e -> e = OtherException.
Proof.
  induction n as [|n IH]; intros g v input e; cbn [ask_again]; destruct v; try discriminate; [congruence|]. destruct (get_integer input) as [[z more]|x] eqn:G; cbn [bind]; [|intros [= <-]; eapply get_integer_fails; exact G].
  cbn [fst snd]. destruct more as [|a more]; cbn [get_yes_no bind]; [congruence|]. apply IH.
Qed.
Lemma ask_iff g input k rest : ask g input = Ok (k, rest) <-> talk (proposal g) input k rest.
Proof.
  unfold ask, proposal. destruct (Z.eq_dec g (-1)) as [->|N].
  - change (-1 =? -1)%Z with true. cbn iota. apply (ask_again_iff (length input) (-1)%Z false). lia.
  - apply Z.eqb_neq in N. rewrite N. destruct input as [|s more]; cbn [get_yes_no bind]; [split; [discriminate|intros T; inv T]|]. cbn [fst snd]. rewrite ask_again_iff by (cbn; lia). destruct (contains "y" (lower s)) eqn:Y.
    + split; [intros [-> ->]; apply t_yes; apply yes_iff; exact Y|]. intros T. inv T; [auto|]. exfalso. apply yes_iff in Y. tauto.
    + split; [intros T; apply t_no; [intros X; apply yes_iff in X; congruence|exact T]|]. intros T. inv T; [match goal with Y : yes _ |- _ => apply yes_iff in Y end; congruence|assumption].
Qed.
Lemma ask_fails g input e : ask g input = Raise e -> e = OtherException.
Proof.
  unfold ask. destruct (g =? -1)%Z; [apply ask_again_fails|]. destruct input as [|s more]; cbn [get_yes_no bind]; [congruence|apply ask_again_fails].
Qed.

(** ** the last digit *)
Lemma digits_after_last s c : all_chars is_digit s = true -> forall acc d, digit c = Some d -> exists v, digits_after acc (s ++ String c "") = Some (10 * v + d)%Z.
Proof.
  induction s as [|x s IH]; intros A acc d C; cbn [String.append digits_after].
  - rewrite C. eauto.
  - cbn [all_chars] in A. apply andb_true_iff in A. destruct A as [A1 A2]. unfold is_digit in A1. destruct (digit x) as [dx|] eqn:X; [|discriminate]. apply IH; assumption.
Qed.
Lemma digit_range c d : digit c = Some d -> (0 <= d <= 9)%Z.
Proof. unfold digit. cbv zeta. destruct (_ && _) eqn:E; [|discriminate]. intros [= <-]. apply andb_true_iff in E. rewrite !Nat.leb_le in E. lia. Qed.
Lemma digit_text c d : digit c = Some d -> py_int_str (String c "") = Ok d.
Proof.
  intros D. pose proof D as D2. unfold digit in D. cbv zeta in D. destruct (_ && _) eqn:E in D; [|discriminate]. apply andb_true_iff in E. rewrite !Nat.leb_le in E. unfold py_int_str.
  assert (S : is_space c = false) by (apply not_blank; unfold blank; cbv zeta; lia). assert (T : strip (String c "") = String c ""). { unfold strip. cbn. rewrite S. cbn. rewrite S. reflexivity. }
  rewrite T. unfold signed. cbv zeta. destruct (Ascii.eqb_spec c "-") as [->|_]; [cbn in E; lia|]. destruct (Ascii.eqb_spec c "+") as [->|_]; [cbn in E; lia|]. cbn [digits digits_after]. rewrite D2. reflexivity.
Qed.
Lemma dec_last k : (0 <= k)%Z -> exists u c, dec k = u ++ String c "" /\ digit c = Some (k mod 10)%Z.
Proof.
  intros K. pose proof (dec_digits k K) as A. rewrite dec_nonneg in * by exact K. pose proof (digits_dec_N (Z.to_N k)) as V. rewrite Z2N.id in V by exact K. destruct (last_cases (dec_N (Z.to_N k))) as [E|(u & c & E)]; [destruct (dec_N_not_empty _ E)|].
  exists u, c. split; [exact E|]. rewrite E in *. rewrite all_chars_app, andb_true_iff in A. destruct A as [A1 A2]. cbn [all_chars] in A2. rewrite andb_true_r in A2. unfold is_digit in A2. destruct (digit c) as [d|] eqn:C; [|discriminate]. f_equal. pose proof (digit_range _ _ C) as R.
  destruct u as [|x u].
  - cbn [String.append digits digits_after] in V. rewrite C in V. injection V as <-. rewrite Z.mod_small; lia.
  - cbn [String.append digits] in V. cbn [all_chars] in A1. apply andb_true_iff in A1. destruct A1 as [A0 A1]. unfold is_digit in A0. destruct (digit x) as [dx|]; [|discriminate]. destruct (digits_after_last u c A1 dx d C) as [v E2]. rewrite E2 in V. assert (V2 : (10 * v + d = k)%Z) by congruence. rewrite <- V2. replace (10 * v + d)%Z with (d + v * 10)%Z by lia. rewrite Z.mod_add by lia. rewrite Z.mod_small; lia.
Qed.
Lemma last_char_app s c : last_char (s ++ String c "") = Some c.
Proof. unfold last_char. change (la (s ++ String c "")) with (chars (s ++ String c "")). rewrite chars_app, rev_app_distr. reflexivity. Qed.
Lemma number_of_text k : (0 <= k)%Z -> dropmo_number (dropmo_text k) = Ok (k mod 10)%Z.
Proof.
  intros K. unfold dropmo_text. destruct (Z.eqb_spec k 1) as [->|N1]; [reflexivity|]. destruct (Z.ltb_spec 1 k) as [L|L].
  - destruct (dec_last k K) as (u & c & -> & D). unfold dropmo_number. rewrite <- append_assoc, last_char_app. apply digit_text. exact D.
  - replace k with 0%Z by lia. reflexivity.
Qed.

(** ** words *)
Lemma worded_sound s ws : worded s ws -> words s = ws.
Proof.
  induction 1 as [b B|b w B W|b w c s ws B W C S IH].
  - apply blanks_iff in B. rewrite <- (append_nil_r b). rewrite words_spaces by exact B. reflexivity.
  - rewrite words_spaces by (apply blanks_iff; exact B). apply words_end. apply plain_is_word. exact W.
  - rewrite words_spaces by (apply blanks_iff; exact B). rewrite words_word by (try apply plain_is_word; try apply blank_iff; assumption). rewrite IH. reflexivity.
Qed.
Lemma words_lstrip s : words (lstrip s) = words s.
Proof. induction s as [|c s IH]; [reflexivity|]. cbn [lstrip]. destruct (is_space c) eqn:S; [|reflexivity]. rewrite IH. cbn [words]. rewrite S. reflexivity. Qed.
Lemma words_blank_end s c : is_space c = true -> words (s ++ String c "") = words s.
Proof.
  intros C. induction s as [|x s IH]; [cbn; rewrite C; reflexivity|]. cbn [String.append words]. destruct (is_space x) eqn:X; [exact IH|].
  destruct s as [|d s]; [cbn; rewrite C; reflexivity|]. cbn [String.append] in *. rewrite IH. reflexivity.
Qed.
Lemma words_rstrip s : words (rstrip s) = words s.
Proof.
  remember (String.length s) as n eqn:L. revert s L. induction n as [|n IH]; intros s L; [destruct s; [reflexivity|discriminate]|].
  destruct (last_cases s) as [->|(u & c & ->)]; [reflexivity|]. rewrite append_length in L. cbn in L. destruct (is_space c) eqn:C.
  - rewrite words_blank_end by exact C. rewrite rstrip_app by (cbn; rewrite C; reflexivity). apply IH. lia.
  - rewrite rstrip_last by exact C. reflexivity.
Qed.
Lemma lstrip_in s c : In c (chars (lstrip s)) -> In c (chars s).
Proof. induction s as [|x s IH]; [auto|]. cbn [lstrip]. destruct (is_space x); [intros I; right; apply IH; exact I|auto]. Qed.
Lemma rstrip_in s c : In c (chars (rstrip s)) -> In c (chars s).
Proof.
  remember (String.length s) as n eqn:L. revert s L. induction n as [|n IH]; intros s L; [destruct s; [auto|discriminate]|].
  destruct (last_cases s) as [->|(u & x & ->)]; [auto|]. rewrite append_length in L. cbn in L. destruct (is_space x) eqn:C.
  - rewrite rstrip_app by (cbn; rewrite C; reflexivity). intros I. rewrite chars_app, in_app_iff. left. apply (IH u); [lia|exact I].
  - rewrite rstrip_last by exact C. auto.
Qed.
Lemma lstrip_words_app r t : words r <> [] -> lstrip (r ++ t) = lstrip r ++ t.
Proof. induction r as [|c r IH]; intros N; [destruct (N eq_refl)|]. cbn [String.append lstrip words] in *. destruct (is_space c); [apply IH; exact N|reflexivity]. Qed.
(** ** the lines of a text without what surrounds it *)
Lemma splitlines_last_line l z : Forall unbroken l -> unbroken z -> z <> "" -> splitlines (file_text l ++ z) = (l ++ [z])%list.
Proof.
  intros F U N. induction F as [|x l Ux F IH]; cbn [file_text app].
  - cbn [String.append]. rewrite splitlines_last by (apply unbroken_iff; exact U). destruct z; congruence.
  - rewrite append_assoc. cbn [String.append]. rewrite splitlines_cons by (apply unbroken_iff; exact Ux). rewrite IH. reflexivity.
Qed.
Lemma stripped_lines rows pad : Forall unbroken rows -> blanks pad -> (exists r rs, rows = r :: rs /\ words r <> []) -> (exists rs r, rows = (rs ++ [r])%list /\ words r <> []) ->
  exists lines, splitlines (strip (String NL (file_text rows ++ pad))) = lines /\ map words lines = map words rows.
Proof.
  intros U B (r & rs & -> & N) (rs' & z & E & NZ). inv U.
  assert (S1 : lstrip (String NL (file_text (r :: rs) ++ pad)) = file_text (lstrip r :: rs) ++ pad).
  { change (String NL (file_text (r :: rs) ++ pad)) with (String NL "" ++ (file_text (r :: rs) ++ pad)). rewrite lstrip_app by reflexivity. cbn [file_text]. rewrite append_assoc, lstrip_words_app by exact N. rewrite append_assoc. reflexivity. }
  assert (X : exists l z', (lstrip r :: rs)%list = (l ++ [z'])%list /\ words z' <> [] /\ Forall unbroken l /\ unbroken z' /\ map words (l ++ [z'])%list = map words (r :: rs)).
  { assert (UR : unbroken (lstrip r)) by (intros c I; apply H1; apply lstrip_in; exact I). destruct rs' as [|y rs'].
    - cbn [app] in E. injection E as -> ->. exists [], (lstrip z). split; [reflexivity|]. rewrite words_lstrip. split; [exact NZ|]. split; [constructor|]. split; [exact UR|]. cbn [app map]. rewrite words_lstrip. reflexivity.
    - cbn [app] in E. injection E as <- ->. exists (lstrip r :: rs'), z. split; [reflexivity|]. apply Forall_app in H2. destruct H2 as [F1 F2]. inv F2. split; [exact NZ|]. split; [constructor; assumption|]. split; [assumption|]. cbn [app map]. rewrite words_lstrip. reflexivity. }
  destruct X as (l & z' & E2 & N2 & F2 & U2 & M). exists (l ++ [rstrip z'])%list. unfold strip. rewrite S1, E2. split.
  - replace (file_text (l ++ [z'])%list ++ pad) with ((file_text l ++ z') ++ (String NL pad)) by (rewrite file_text_app; cbn [file_text]; rewrite !append_assoc; reflexivity).
    rewrite rstrip_app by (cbn; apply blanks_iff; exact B). rewrite rstrip_append. pose proof (words_rstrip z') as W. destruct (rstrip z') as [|c u] eqn:R; [destruct N2; rewrite <- W; reflexivity|]. apply splitlines_last_line; [exact F2| |discriminate].
    intros x I. apply U2. apply rstrip_in. rewrite R. exact I.
  - rewrite <- M, !map_app. cbn [map]. rewrite words_rstrip. reflexivity.
Qed.
(** ** the table in the file *)
Lemma mfind_nl a x y : free NL x -> let d := la (a ++ x ++ String NL y) in forall p, mfind (mkMap d p) newline (Z.of_nat (String.length a)) (msize (mkMap d p)) = Z.of_nat (String.length (a ++ x)).
Proof.
  intros F d p. pose proof (mfind_spec (mkMap d p) newline (String.length a) (length d)) as K. cbv zeta in K. cbn [data] in K.
  assert (LD : length d = String.length a + String.length x + 1 + String.length y) by (unfold d; rewrite la_length, !append_length; cbn; lia).
  specialize (K ltac:(left; lia)). change (msize (mkMap d p)) with (Z.of_nat (length d)).
  assert (O : occurs_at newline d (String.length (a ++ x))). { exists (la (a ++ x)), (la y). split; [|apply la_length]. unfold d. rewrite !la_app, <- app_assoc. reflexivity. }
  destruct K as [[E K]|(q & E & Q1 & Q2 & Q3 & Q4)]; rewrite E.
  - exfalso. apply (K (String.length (a ++ x))); [rewrite append_length; lia|rewrite append_length; cbn; lia|exact O].
  - f_equal. destruct (Nat.lt_trichotomy q (String.length (a ++ x))) as [L|[L|L]]; [|exact L|].
    + exfalso. apply newline_iff in Q3. unfold newline_at, d in Q3. rewrite la_app, nth_error_app2 in Q3 by (rewrite la_length; lia). rewrite la_app, nth_error_app1 in Q3 by (rewrite !la_length; rewrite append_length in L; lia). apply nth_error_In in Q3. exact (F Q3).
    + exfalso. apply (Q4 (String.length (a ++ x))); [rewrite append_length in *; lia|exact O].
Qed.
Lemma skip_step a x y n p : free NL x -> let m := mkMap (la (a ++ x ++ String NL y)) p in
  skip_forward_lines m (S n) (Z.of_nat (String.length a) - 1) = skip_forward_lines m n (Z.of_nat (String.length (a ++ x ++ NL1)) - 1).
Proof.
  intros F m. cbn [skip_forward_lines]. replace (Z.of_nat (String.length a) - 1 + 1)%Z with (Z.of_nat (String.length a)) by lia. unfold m. rewrite mfind_nl by exact F.
  destruct (Z.eqb_spec (Z.of_nat (String.length (a ++ x))) (-1)) as [E|_]; [lia|]. f_equal. rewrite !append_length. cbn. lia.
Qed.
Definition heading_text : string := "ORBITAL EIGENVALUES (ALPHA)".
Definition plus_text : string := "+++++++++++++++++++++++++++++++++++++++++++".
Definition table_start (pre h0 h1 h2 h3 : string) : string := pre ++ heading_text ++ h0 ++ NL1 ++ h1 ++ NL1 ++ h2 ++ NL1 ++ h3 ++ NL1.
Lemma skip_headers pre h0 h1 h2 h3 rest p : free NL h0 -> free NL h1 -> free NL h2 -> free NL h3 ->
  skip_forward_lines (mkMap (la (table_start pre h0 h1 h2 h3 ++ rest)) p) 4 (Z.of_nat (String.length pre)) = (Z.of_nat (String.length (table_start pre h0 h1 h2 h3)) - 1)%Z.
Proof.
  intros F0 F1 F2 F3. replace (Z.of_nat (String.length pre)) with (Z.of_nat (String.length (pre ++ "O")) - 1)%Z by (rewrite append_length; cbn; lia).
  assert (FH : free NL "RBITAL EIGENVALUES (ALPHA)") by (intros I; vm_compute in I; repeat destruct I as [I|I]; (discriminate || exact I)).
  unfold table_start, heading_text.
  pose proof (skip_step (pre ++ "O") ("RBITAL EIGENVALUES (ALPHA)" ++ h0) (h1 ++ NL1 ++ h2 ++ NL1 ++ h3 ++ NL1 ++ rest) 3 p ltac:(rewrite free_app_iff; split; assumption)) as S1.
  pose proof (skip_step (pre ++ "ORBITAL EIGENVALUES (ALPHA)" ++ h0 ++ NL1) h1 (h2 ++ NL1 ++ h3 ++ NL1 ++ rest) 2 p F1) as S2.
  pose proof (skip_step (pre ++ "ORBITAL EIGENVALUES (ALPHA)" ++ h0 ++ NL1 ++ h1 ++ NL1) h2 (h3 ++ NL1 ++ rest) 1 p F2) as S3.
  pose proof (skip_step (pre ++ "ORBITAL EIGENVALUES (ALPHA)" ++ h0 ++ NL1 ++ h1 ++ NL1 ++ h2 ++ NL1) h3 rest 0 p F3) as S4.
  cbv zeta in S1, S2, S3, S4. unfold NL1, nl in *.
  repeat (progress (rewrite ?append_assoc in S1; cbn [String.append] in S1)). repeat (progress (rewrite ?append_assoc in S2; cbn [String.append] in S2)). repeat (progress (rewrite ?append_assoc in S3; cbn [String.append] in S3)). repeat (progress (rewrite ?append_assoc in S4; cbn [String.append] in S4)).
  repeat (progress (rewrite ?append_assoc; cbn [String.append])).
  rewrite S1, S2, S3, S4. reflexivity.
Qed.
Lemma lines_of text begin_ end_ : first_place heading_text text begin_ -> first_place plus_text text end_ ->
  orbital_lines (la text) = let past := skip_forward_lines (mkMap (la text) begin_) 4 (Z.of_nat begin_) in
    Ok (splitlines (strip (string_of_list_ascii (mread (mkMap (la text) (Z.to_nat past)) (Z.of_nat end_ - past))))).
Proof.
  intros B E. unfold orbital_lines. assert (N : exists c t, la text = c :: t). { destruct B as [(u & v & -> & _) _]. destruct u as [|c u]; cbn; eauto. }
  destruct N as (c & t & N). rewrite N, <- N. change target_begin with (la heading_text). change target_end with (la plus_text). rewrite (find_first _ _ _ B), (find_first _ _ _ E). cbn [bind]. rewrite Nat2Z.id. reflexivity.
Qed.
Lemma skipn_la a b : skipn (String.length a) (la (a ++ b)) = la b.
Proof. rewrite la_app, <- (la_length a), skipn_app, skipn_all, Nat.sub_diag. reflexivity. Qed.
Lemma firstn_la a b : firstn (String.length a) (la (a ++ b)) = la a.
Proof. rewrite la_app, <- (la_length a), firstn_app, firstn_all, Nat.sub_diag. apply app_nil_r. Qed.
Lemma start_split pre h0 h1 h2 h3 : exists st, table_start pre h0 h1 h2 h3 = st ++ NL1.
Proof. exists (pre ++ heading_text ++ h0 ++ NL1 ++ h1 ++ NL1 ++ h2 ++ NL1 ++ h3). unfold table_start. rewrite !append_assoc. reflexivity. Qed.
Lemma table_lines pre h0 h1 h2 h3 rest p : free NL h0 -> free NL h1 -> free NL h2 -> free NL h3 ->
  let text := table_start pre h0 h1 h2 h3 ++ rest in
  first_place heading_text text (String.length pre) -> first_place plus_text text p ->
  orbital_lines (la text) = Ok (splitlines (strip (if p <? String.length (table_start pre h0 h1 h2 h3) - 1 then String NL rest
                                                   else string_of_list_ascii (firstn (S p - String.length (table_start pre h0 h1 h2 h3)) (la (String NL rest)))))).
Proof.
  intros F0 F1 F2 F3 text B E. rewrite (lines_of text _ _ B E). cbv zeta. pose proof (skip_headers pre h0 h1 h2 h3 rest (String.length pre) F0 F1 F2 F3) as SK. fold text in SK. rewrite SK.
  destruct (start_split pre h0 h1 h2 h3) as [st SS]. set (L := String.length (table_start pre h0 h1 h2 h3)) in *. assert (LS : L = S (String.length st)) by (unfold L; rewrite SS, append_length; cbn; lia).
  do 3 f_equal. unfold mread. cbn [pos data]. replace (Z.to_nat (Z.of_nat L - 1)) with (String.length st) by lia. unfold text. rewrite SS, append_assoc, skipn_la. change (NL1 ++ rest) with (String NL rest).
  destruct (Z.ltb_spec (Z.of_nat p - (Z.of_nat L - 1)) 0) as [Q|Q], (Nat.ltb_spec p (L - 1)) as [Q2|Q2]; try lia.
  - apply string_of_list_ascii_of_string.
  - do 2 f_equal. lia.
Qed.
Lemma table_rows pre h0 h1 h2 h3 rows pad post : free NL h0 -> free NL h1 -> free NL h2 -> free NL h3 -> 
  let text := table_start pre h0 h1 h2 h3 ++ file_text rows ++ pad ++ plus_text ++ post in
  first_place heading_text text (String.length pre) -> first_place plus_text text (String.length (table_start pre h0 h1 h2 h3 ++ file_text rows ++ pad)) ->
  Forall unbroken rows -> blanks pad -> (exists r rs, rows = r :: rs /\ words r <> []) -> (exists rs r, rows = (rs ++ [r])%list /\ words r <> []) ->
  exists lines, orbital_lines (la text) = Ok lines /\ map words lines = map words rows.
Proof.
  intros F0 F1 F2 F3 text B E U P R1 R2. destruct (stripped_lines rows pad U P R1 R2) as (lines & SL & M). exists lines. split; [|exact M].
  pose proof (table_lines pre h0 h1 h2 h3 (file_text rows ++ pad ++ plus_text ++ post) _ F0 F1 F2 F3 B E) as T. fold text in T. rewrite T. rewrite <- SL. do 2 f_equal.
  rewrite !append_length. destruct (start_split pre h0 h1 h2 h3) as [st ST]. assert (LS : String.length (table_start pre h0 h1 h2 h3) = S (String.length st)) by (rewrite ST, append_length; cbn; lia). rewrite LS.
  destruct (Nat.ltb_spec (S (String.length st) + (String.length (file_text rows) + String.length pad)) (S (String.length st) - 1)) as [Q|Q]; [lia|]. f_equal.
  replace (S (S (String.length st) + (String.length (file_text rows) + String.length pad)) - S (String.length st)) with (String.length (String NL (file_text rows ++ pad))) by (cbn [String.length]; rewrite append_length; lia).
  replace (String NL (file_text rows ++ pad ++ plus_text ++ post)) with (String NL (file_text rows ++ pad) ++ (plus_text ++ post)) by (cbn [String.append]; rewrite append_assoc; reflexivity).
  rewrite firstn_la. apply string_of_list_ascii_of_string.
Qed.
(** the end mark stands in front of the table: everything up to the end of the file is read *)
Lemma table_rows_late pre h0 h1 h2 h3 rows pad p : free NL h0 -> free NL h1 -> free NL h2 -> free NL h3 -> 
  let text := table_start pre h0 h1 h2 h3 ++ file_text rows ++ pad in
  first_place heading_text text (String.length pre) -> first_place plus_text text p -> S p < String.length (table_start pre h0 h1 h2 h3) ->
  Forall unbroken rows -> blanks pad -> (exists r rs, rows = r :: rs /\ words r <> []) -> (exists rs r, rows = (rs ++ [r])%list /\ words r <> []) ->
  exists lines, orbital_lines (la text) = Ok lines /\ map words lines = map words rows.
Proof.
  intros F0 F1 F2 F3 text B E L U P R1 R2. destruct (stripped_lines rows pad U P R1 R2) as (lines & SL & M). exists lines. split; [|exact M].
  pose proof (table_lines pre h0 h1 h2 h3 (file_text rows ++ pad) _ F0 F1 F2 F3 B E) as T. fold text in T. rewrite T, <- SL. do 2 f_equal. destruct (Nat.ltb_spec p (String.length (table_start pre h0 h1 h2 h3) - 1)); [reflexivity|lia].
Qed.
Section Energies.
  Variable py_float : string -> res Q.
  Local Notation row_energy := (row_energy py_float).
  Local Notation bad_row := (bad_row py_float).
  Lemma energies_words lines rows : map words lines = map words rows -> energies py_float lines = energies py_float rows.
  Proof.
    unfold energies. revert rows. induction lines as [|x lines IH]; intros [|y rows] M; try discriminate; [reflexivity|]. cbn [map] in M. injection M as M1 M2. cbn [map_res]. rewrite M1, (IH rows M2). reflexivity.
  Qed.
  Lemma energies_ok rows ev : Forall2 row_energy rows ev -> energies py_float rows = Ok ev.
  Proof.
    unfold energies. induction 1 as [|row e rows ev (ws & w & W & N & P) F IH]; [reflexivity|]. cbn [map_res]. rewrite (worded_sound _ _ W). assert (I : item ws 3 = Ok w) by (unfold item; rewrite N; reflexivity). rewrite I. cbn [bind]. rewrite P. cbn [bind]. rewrite IH. reflexivity.
  Qed.
  Lemma energies_bad rows : Exists bad_row rows -> exists e, energies py_float rows = Raise e.
  Proof.
    unfold energies. induction 1 as [row rows (ws & W & N)|row rows X [e IH]]; cbn [map_res].
    - rewrite (worded_sound _ _ W). unfold item. destruct (nth_error ws 3) as [w|]; cbn [bind]; [|eauto]. destruct (N w eq_refl) as [e ->]. cbn [bind]. eauto.
    - destruct (item (words row) 3) as [w|e1]; cbn [bind]; [|eauto]. destruct (py_float w) as [q|e2]; cbn [bind]; [|eauto]. rewrite IH. cbn [bind]. eauto.
  Qed.
End Energies.
Lemma row_words row ws : worded row ws -> ws <> [] -> words row <> [].
Proof. intros W N. rewrite (worded_sound _ _ W). exact N. Qed.
