(** C87, C88: the choice of the orbitals *)
From Coq Require Import QArith Lia Lqa.
From Verif Require Import Common Common_Proofs PyStr_Model PyStr_Proofs FileName_Model ModelOp_Spec ModelOp2_Proofs ModelOp_Model ModelOp3_Proofs Json_Spec Julia_Spec Julia_Proofs Auto_Spec Auto_Proofs Auto_Proofs2 FileSearch_Model Zmat_Spec Zmat_Proofs Zmat_Props Orbital_Model Orbital_Spec Orbital_Proofs Orbital2_Proofs.
Local Open Scope string_scope.
Local Open Scope nat_scope.

Lemma ratios_gap_bound ev i r : gap ev i r -> S i < length ev.
Proof. intros (a & b & _ & E & _). apply nth_error_Some. congruence. Qed.
Lemma first_gap_unique ev r i j : first_gap ev r i -> first_gap ev r j -> i = j.
Proof.
  assert (H : forall i j, first_gap ev r i -> first_gap ev r j -> ~ i < j).
  { intros x y [(s & G & N & L1 & L2) _] [_ F] L. destruct (F x s L G) as [E|[E|E]]; tauto. }
  intros A B. pose proof (H i j A B). pose proof (H j i B A). lia.
Qed.
Lemma first_gap_alike ev r r' j : alike r r' -> first_gap ev r j -> first_gap ev r' j.
Proof.
  intros A [(s & G & N & L1 & L2) F]. pose proof (alike_sym _ _ A) as A'. assert (SS : forall s, alike s s) by (intros []; cbn; auto; lra). split.
  - exists s. repeat split; auto; intros L; [apply L1|apply L2]; eapply larger_alike; try exact L; auto.
  - intros i t I T. destruct (F i t I T) as [E|[E|E]]; [auto|right; left|right; right]; eapply larger_alike; try exact E; auto.
Qed.
Lemma widest_alike ev lo r r' : widest ev lo r -> widest ev lo r' -> alike r r'.
Proof.
  intros (N & (i & I & G) & W) (N' & (i' & I' & G') & W'). apply alike_iff; [exact N|exact N'|]. split; [exact (W' i r I G)|exact (W i' r' I' G')].
Qed.

(** ** the guess of DROPMO: the first of the widest gaps *)
Theorem C87_guess ev : 2 <= length ev -> ~ gap ev 0 NotANumber ->
  exists r j, widest ev 0 r /\ first_gap ev r j /\ S j < length ev /\ guess_dropmo ev = Z.of_nat (S j).
Proof.
  intros L N. destruct (max_from ev 0 L N) as (m & E & W). cbn [skipn] in E. pose proof W as (NN & (i & _ & G) & _).
  destruct (index_some same_or_equal (ratios ev) m) as [j J].
  - apply gap_alike in G. destruct G as (s & S & A). exists s. split; [eapply nth_error_In; exact S|]. rewrite same_equal by exact NN. apply equal_iff. split; [intros ->; destruct m; cbn in A; tauto|apply alike_sym; exact A].
  - exists m, j. pose proof (proj1 (first_gap_index same_or_equal ev m j NN (same_equal m NN)) J) as F. split; [exact W|]. split; [exact F|]. split; [destruct F as [(s & S & _) _]; exact (ratios_gap_bound _ _ _ S)|].
    unfold guess_dropmo. rewrite E. cbn [bind]. rewrite J. lia.
Qed.
Theorem C87_guess_unique ev r j r' j' : widest ev 0 r -> first_gap ev r j -> widest ev 0 r' -> first_gap ev r' j' -> j = j'.
Proof. intros W F W' F'. apply (first_gap_unique ev r'); [|exact F']. eapply first_gap_alike; [|exact F]. eapply widest_alike; eassumption. Qed.
Theorem C87_no_guess ev : (length ev < 2 -> guess_dropmo ev = (-1)%Z) /\ (gap ev 0 NotANumber -> guess_dropmo ev = 1%Z).
Proof.
  split.
  - intros L. unfold guess_dropmo. assert (E : ratios ev = []) by (destruct (ratios ev) eqn:R; [reflexivity|apply (f_equal (@length _)) in R; rewrite ratios_length in R; cbn in R; lia]). rewrite E. reflexivity.
  - intros G. apply gap_alike in G. destruct G as (s & S & A). destruct s; cbn in A; try tauto. unfold guess_dropmo. destruct (ratios ev) as [|x l]; [discriminate|]. injection S as ->. cbn [py_max bind]. rewrite max_nan. reflexivity.
Qed.
(** ** the user decides *)
Theorem C87_dialog g input : (forall k rest, ask g input = Ok (k, rest) <-> talk (proposal g) input k rest) /\
  ((forall k rest, ~ talk (proposal g) input k rest) -> ask g input = Raise OtherException).
Proof.
  split; [intros k rest; apply ask_iff|]. intros N. destruct (ask g input) as [[k rest]|e] eqn:A; [apply ask_iff in A; destruct (N _ _ A)|]. f_equal. eapply ask_fails. exact A.
Qed.
Theorem C87_agreed g input k rest : talk (proposal g) input k rest -> k = g \/ exists s, In s input /\ number s k.
Proof.
  assert (H : forall p, talk p input k rest -> p = Some k \/ exists s, In s input /\ number s k).
  { induction 1 as [k s more Y|g' s more k rest Y T IH|bad s more g' k rest F N T IH]; [auto| |].
    - right. destruct IH as [E|(x & X1 & X2)]; [discriminate|]. exists x. split; [right; exact X1|exact X2].
    - right. destruct IH as [[= ->]|(x & X1 & X2)]; [exists s; split; [apply in_app_iff; right; left; reflexivity|exact N]|exists x; split; [apply in_app_iff; right; right; exact X1|exact X2]]. }
  intros T. destruct (H _ T) as [E|E]; [|auto]. unfold proposal in E. destruct (Z.eq_dec g (-1)); [discriminate|]. injection E as ->. auto.
Qed.
Theorem C87_text k : (0 <= k)%Z -> dropmo_text k = if (k =? 0)%Z then "" else if (k =? 1)%Z then "DROPMO=1" else "DROPMO=1-" ++ dec k.
Proof.
  intros K. unfold dropmo_text. destruct (Z.eqb_spec k 1) as [->|N1]; [reflexivity|]. destruct (Z.ltb_spec 1 k), (Z.eqb_spec k 0); try reflexivity; lia.
Qed.
(** ** the table *)
Lemma table_read text pre start rows pad post : table text pre start rows pad post -> closed text start rows pad post ->
  exists lines, orbital_lines (la text) = Ok lines /\ map words lines = map words rows.
Proof.
  intros [T (h0 & h1 & h2 & h3 & S & F) B U [(r & rs & ws & R1 & W1 & N1) (rs' & r' & ws' & R2 & W2 & N2)] P] C.
  assert (G : free nl h0 /\ free nl h1 /\ free nl h2 /\ free nl h3) by (rewrite !Forall_cons_iff in F; tauto). destruct G as (G0 & G1 & G2 & G3).
  assert (O1 : exists r0 rs0, rows = r0 :: rs0 /\ words r0 <> []) by (exists r, rs; split; [assumption|exact (row_words _ _ W1 N1)]). assert (O2 : exists rs0 r0, rows = (rs0 ++ [r0])%list /\ words r0 <> []) by (exists rs', r'; split; [assumption|exact (row_words _ _ W2 N2)]).
  destruct C as [[[more ->] C]|[-> (p & L & C)]].
  - pose proof (table_rows pre h0 h1 h2 h3 rows pad more G0 G1 G2 G3) as X. cbv zeta in X. unfold table_start, heading_text, plus_text in X. fold orbital_heading plus_line in X. rewrite <- S, <- T in X. exact (X B C U P O1 O2).
  - rewrite append_nil_r in T. pose proof (table_rows_late pre h0 h1 h2 h3 rows pad p G0 G1 G2 G3) as X. cbv zeta in X. unfold table_start, heading_text, plus_text in X. fold orbital_heading plus_line in X. rewrite <- S, <- T in X. exact (X B C L U P O1 O2).
Qed.
Lemma nan_dec ev i : gap ev i NotANumber \/ ~ gap ev i NotANumber.
Proof.
  destruct (nth_error (ratios ev) i) as [x|] eqn:R; [|right; intros G; apply gap_alike in G; destruct G as (s & G & _); congruence].
  destruct x; try (right; intros G; apply gap_alike in G; destruct G as (s & G & K); rewrite R in G; injection G as <-; exact K). left. apply gap_ratio. exact R.
Qed.
Lemma guess_is ev : dropmo_guess ev (guess_dropmo ev).
Proof.
  unfold dropmo_guess. destruct (C87_no_guess ev) as [A B]. destruct (le_lt_dec 2 (length ev)) as [L|L]; [|left; auto].
  right. destruct (nan_dec ev 0) as [D|D]; [left; auto|]. right. destruct (C87_guess ev L D) as (r & j & W & F & _ & E). eauto 8.
Qed.
Lemma guess_only ev g g' : dropmo_guess ev g -> dropmo_guess ev g' -> g = g'.
Proof.
  assert (NB : forall i, gap ev i NotANumber -> 2 <= length ev) by (intros i G; apply ratios_gap_bound in G; lia).
  intros [[A ->]|[[A ->]|(A & N & r & j & W & F & ->)]] [[B ->]|[[B ->]|(B & N' & r' & j' & W' & F' & ->)]]; try reflexivity; try tauto; try (try apply NB in A; try apply NB in B; lia).
  rewrite (C87_guess_unique ev r j r' j' W F W' F'). reflexivity.
Qed.
Lemma keyword_is k s : (0 <= k)%Z -> dropmo_keyword k s <-> dropmo_text k = s.
Proof.
  intros K. rewrite C87_text by exact K. unfold dropmo_keyword. destruct (Z.eqb_spec k 0), (Z.eqb_spec k 1); split; try (intros [[? ->]|[[? ->]|[? ->]]]; try reflexivity; lia); intros <-; auto; right; right; split; [lia|reflexivity].
Qed.
Lemma talk_nonneg p input k rest : talk p input k rest -> (forall g, p = Some g -> (0 <= g)%Z) -> (0 <= k)%Z.
Proof.
  induction 1 as [k s more Y|g s more k rest Y T IH|bad s more g k rest F N T IH]; intros P; [apply P; reflexivity|apply IH; discriminate|]. apply IH. intros x [= <-]. destruct N as [_ N]. exact N.
Qed.
Lemma guess_nonneg ev g : dropmo_guess ev g -> forall x, proposal g = Some x -> (0 <= x)%Z.
Proof.
  intros G x. unfold proposal. destruct (Z.eq_dec g (-1)); [discriminate|]. intros [= <-]. destruct G as [[_ ->]|[[_ ->]|(_ & _ & r & j & _ & _ & ->)]]; lia.
Qed.
(** ** the whole choice of DROPMO *)
Theorem C87_estimate py_float text pre start rows pad post ev g input :
  table text pre start rows pad post -> closed text start rows pad post -> Forall2 (row_energy py_float) rows ev -> dropmo_guess ev g ->
  (forall s rest, estimate_dropmo py_float (la text) input = Ok (s, rest) <-> exists k, talk (proposal g) input k rest /\ dropmo_keyword k s) /\
  (forall e, estimate_dropmo py_float (la text) input = Raise e <-> e = OtherException /\ forall k rest, ~ talk (proposal g) input k rest).
Proof.
  intros T C F G. destruct (table_read _ _ _ _ _ _ T C) as (lines & E & M).
  assert (R : estimate_dropmo py_float (la text) input = do r <- ask g input; Ok (dropmo_text (fst r), snd r)).
  { unfold estimate_dropmo. rewrite E. cbn [bind]. rewrite (energies_words _ _ _ M), (energies_ok _ _ _ F). rewrite (guess_only ev g _ G (guess_is ev)). reflexivity. }
  rewrite R. pose proof (ask_iff g input) as A. pose proof (ask_fails g input) as Z. split.
  - intros s rest. split.
    + destruct (ask g input) as [[k r]|e]; cbn [bind]; [|discriminate]. intros [= <- <-]. cbn [fst snd]. assert (TK : talk (proposal g) input k r) by (apply A; reflexivity). exists k. split; [exact TK|]. apply keyword_is; [|reflexivity]. exact (talk_nonneg _ _ _ _ TK (guess_nonneg ev g G)).
    + intros (k & TK & K). pose proof (talk_nonneg _ _ _ _ TK (guess_nonneg ev g G)) as NN. apply A in TK. rewrite TK. cbn [bind fst snd]. apply keyword_is in K; [|exact NN]. rewrite K. reflexivity.
  - intros e. split.
    + destruct (ask g input) as [[k r]|e']; cbn [bind]; [discriminate|]. intros [= <-]. split; [apply (Z e' eq_refl)|]. intros k r TK. apply A in TK. discriminate.
    + intros [-> N]. destruct (ask g input) as [[k r]|e']; cbn [bind]; [destruct (N k r); apply A; reflexivity|]. rewrite (Z e' eq_refl). reflexivity.
Qed.
(** finding: one malformed row ends the run with an UnboundLocalError, the question is never asked *)
Theorem C87_malformed py_float text pre start rows pad post input :
  table text pre start rows pad post -> closed text start rows pad post -> Exists (bad_row py_float) rows ->
  estimate_dropmo py_float (la text) input = Raise UnboundLocalError.
Proof.
  intros T C X. destruct (table_read _ _ _ _ _ _ T C) as (lines & E & M). destruct (energies_bad _ _ X) as [e B].
  unfold estimate_dropmo. rewrite E. cbn [bind]. rewrite (energies_words _ _ _ M), B. reflexivity.
Qed.
(** without the heading or without the mark there is no table; an empty file cannot be mapped *)
Theorem C87_missing py_float text input :
  (text = "" -> estimate_dropmo py_float (la text) input = Raise ValueError) /\
  (text <> "" -> (forall u v, text <> u ++ orbital_heading ++ v) \/ (forall u v, text <> u ++ plus_line ++ v) ->
   estimate_dropmo py_float (la text) input = Raise OtherException).
Proof.
  split; [intros ->; reflexivity|]. intros N H. unfold estimate_dropmo, orbital_lines. assert (C : exists c t, la text = c :: t) by (destruct text; [congruence|cbn; eauto]). destruct C as (c & t & C). rewrite C, <- C.
  assert (LK : forall h, (forall u v, text <> u ++ h ++ v) -> find_string_in_file (mkMap (la text) 0) (la h) = Raise OtherException).
  { intros h L. apply find_none. intros (u & v & E). exact (L u v E). }
  change target_begin with (la orbital_heading). change target_end with (la plus_line). destruct H as [H|H]; rewrite (LK _ H); [reflexivity|].
  unfold find_string_in_file at 1. cbv zeta. destruct (_ =? -1)%Z; reflexivity.
Qed.
(** ** the number of states *)
Lemma nip_is py_float lines ev k : energies py_float lines = Ok ev -> exists g, nip_guess ev k g /\ guess_nip py_float lines (Z.of_nat k) = (g, ev).
Proof.
  intros E. unfold guess_nip, nip_guess. rewrite E. replace (Z.to_nat (Z.of_nat k + 1)) with (k + 1) by lia. destruct (le_lt_dec (k + 3) (length ev)) as [L|L].
  - destruct (Z.leb_spec (Z.of_nat (length ev)) (Z.of_nat k)) as [B|_]; [lia|]. destruct (nan_dec ev (k + 1)) as [D|D].
    + exists (-1)%Z. split; [auto|]. apply gap_alike in D. destruct D as (s & D & A). destruct s; cbn in A; try tauto. rewrite ratios_skip. destruct (skipn (k + 1) (ratios ev)) as [|x l] eqn:SK.
      { assert (LL : nth_error (ratios ev) (k + 1) <> None) by congruence. apply nth_error_Some in LL. apply (f_equal (@length _)) in SK. rewrite skipn_length in SK. cbn in SK. lia. }
      assert (X : x = NotANumber). { rewrite <- (firstn_skipn (k + 1) (ratios ev)), SK in D. rewrite nth_error_app2 in D by apply firstn_le_length. rewrite firstn_length_le in D by (rewrite ratios_length; lia). rewrite Nat.sub_diag in D. injection D as ->. reflexivity. }
      subst x. cbn [py_max]. rewrite max_nan. cbn [bind]. rewrite index_none; [reflexivity|]. intros []; reflexivity.
    + destruct (max_from ev (k + 1) ltac:(lia) D) as (m & EM & W). rewrite EM. cbn [bind]. pose proof W as (NN & (i & _ & G) & _).
      destruct (index_some equal (ratios ev) m) as [j J].
      { apply gap_alike in G. destruct G as (s & S & A). exists s. split; [eapply nth_error_In; exact S|]. apply equal_iff. split; [intros ->; destruct m; cbn in A; tauto|apply alike_sym; exact A]. }
      pose proof (proj1 (first_gap_index equal ev m j NN (fun y => eq_refl)) J) as F. rewrite J. cbn [bind]. exists (Z.of_nat (length ev - S j)). split; [right; right; split; [exact L|]; split; [exact D|]; exists m, j; auto|].
      rewrite ratios_length. destruct F as [(s & S & _) _]. apply ratios_gap_bound in S. f_equal. lia.
  - exists (-1)%Z. split; [auto|]. destruct (Z.of_nat (length ev) <=? Z.of_nat k)%Z; [reflexivity|]. rewrite ratios_skip. rewrite skipn_all2 by (rewrite ratios_length; lia). reflexivity.
Qed.
Lemma nip_only ev k g g' : nip_guess ev k g -> nip_guess ev k g' -> g = g'.
Proof.
  intros [[A ->]|[[A ->]|(A & N & r & j & W & F & ->)]] [[B ->]|[[B ->]|(B & N' & r' & j' & W' & F' & ->)]]; try reflexivity; try tauto; try lia.
  assert (E : j = j') by (apply (first_gap_unique ev r'); [|exact F']; eapply first_gap_alike; [|exact F]; eapply widest_alike; eassumption). rewrite E. reflexivity.
Qed.
(** [s] as a keyword: the number of dropped orbitals is taken from its last character *)
Definition last_digit (s : string) (k : nat) : Prop := (s = "" /\ k = 0) \/ exists u, k < 10 /\ s = u ++ dec (Z.of_nat k).
Lemma last_digit_number s k : last_digit s k -> dropmo_number s = Ok (Z.of_nat k).
Proof.
  intros [[-> ->]|(u & L & ->)]; [reflexivity|]. do 10 (destruct k as [|k]; [unfold dropmo_number; match goal with |- context [dec ?z] => let v := eval vm_compute in (dec z) in change (dec z) with v end; rewrite last_char_app; reflexivity|]). lia.
Qed.
Theorem C88_estimate py_float text pre start rows pad post ev dropmo k g input :
  table text pre start rows pad post -> closed text start rows pad post -> Forall2 (row_energy py_float) rows ev -> last_digit dropmo k -> nip_guess ev k g ->
  (forall n rest, estimate_nip py_float dropmo (la text) input = Ok (n, rest) <-> talk (proposal g) input n rest) /\
  (forall e, estimate_nip py_float dropmo (la text) input = Raise e <-> e = OtherException /\ forall n rest, ~ talk (proposal g) input n rest).
Proof.
  intros T C F D G. destruct (table_read _ _ _ _ _ _ T C) as (lines & E & M).
  assert (R : estimate_nip py_float dropmo (la text) input = ask g input).
  { unfold estimate_nip. rewrite E. cbn [bind]. rewrite (last_digit_number _ _ D). cbn [bind]. destruct (nip_is py_float lines ev k) as (g' & G' & ->); [rewrite (energies_words _ _ _ M); apply energies_ok; exact F|]. rewrite (nip_only ev k g g' G G'). reflexivity. }
  rewrite R. split; [intros n rest; apply ask_iff|]. intros e. pose proof (ask_iff g input) as A. pose proof (ask_fails g input) as Z. split.
  - intros X. split; [exact (Z e X)|]. intros n rest TK. apply A in TK. congruence.
  - intros [-> N]. destruct (ask g input) as [[n r]|e'] eqn:X; [destruct (N n r); apply A; reflexivity|]. rewrite (Z e' eq_refl). reflexivity.
Qed.
(** there is always exactly one guess *)
Theorem C88_guess ev k : exists! g, nip_guess ev k g.
Proof.
  set (e := fun s : string => Ok 0%Q : res Q). 
  assert (X : exists g, nip_guess ev k g).
  { unfold nip_guess. destruct (le_lt_dec (k + 3) (length ev)) as [L|L]; [|eauto]. destruct (nan_dec ev (k + 1)) as [D|D]; [eauto|]. destruct (max_from ev (k + 1) ltac:(lia) D) as (m & _ & W). pose proof W as (NN & (i & _ & G) & _).
    destruct (index_some equal (ratios ev) m) as [j J].
    { apply gap_alike in G. destruct G as (s & S & A). exists s. split; [eapply nth_error_In; exact S|]. apply equal_iff. split; [intros ->; destruct m; cbn in A; tauto|apply alike_sym; exact A]. }
    pose proof (proj1 (first_gap_index equal ev m j NN (fun y => eq_refl)) J) as F. eexists. right. right. split; [exact L|]. split; [exact D|]. eauto. }
  destruct X as [g G]. exists g. split; [exact G|]. intros g' G'. exact (nip_only ev k g g' G G').
Qed.
(** malformed rows: here the user is asked *)
Theorem C88_malformed py_float text pre start rows pad post dropmo k input :
  table text pre start rows pad post -> closed text start rows pad post -> Exists (bad_row py_float) rows -> last_digit dropmo k ->
  forall n rest, estimate_nip py_float dropmo (la text) input = Ok (n, rest) <-> talk None input n rest.
Proof.
  intros T C X D n rest. destruct (table_read _ _ _ _ _ _ T C) as (lines & E & M). destruct (energies_bad _ _ X) as [e B].
  unfold estimate_nip. rewrite E. cbn [bind]. rewrite (last_digit_number _ _ D). cbn [bind]. unfold guess_nip. rewrite (energies_words _ _ _ M), B. exact (ask_iff (-1) input n rest).
Qed.
(** the last character of the keyword must be a digit *)
Theorem C88_not_a_number py_float text pre start rows pad post u c input :
  table text pre start rows pad post -> closed text start rows pad post -> ~ In c (chars "0123456789") ->
  estimate_nip py_float (u ++ String c "") (la text) input = Raise ValueError.
Proof.
  intros T C N. destruct (table_read _ _ _ _ _ _ T C) as (lines & E & M). unfold estimate_nip. rewrite E. cbn [bind]. unfold dropmo_number. rewrite last_char_app.
  assert (X : py_int_str (String c "") = Raise ValueError) by (destruct c as [[] [] [] [] [] [] [] []]; try reflexivity; exfalso; apply N; cbn; tauto). rewrite X. reflexivity.
Qed.
Theorem C88_missing py_float text dropmo input :
  (text = "" -> estimate_nip py_float dropmo (la text) input = Raise ValueError) /\
  (text <> "" -> (forall u v, text <> u ++ orbital_heading ++ v) \/ (forall u v, text <> u ++ plus_line ++ v) ->
   estimate_nip py_float dropmo (la text) input = Raise OtherException).
Proof.
  pose proof (C87_missing py_float text input) as M. unfold estimate_dropmo in M. unfold estimate_nip. destruct M as [M1 M2]. split.
  - intros ->. reflexivity.
  - intros N H. specialize (M2 N H). destruct (orbital_lines (la text)) as [lines|e] eqn:O; cbn [bind] in *; [|congruence]. exfalso.
    clear M1 M2. unfold orbital_lines in O. assert (C : exists c t, la text = c :: t) by (destruct text; [congruence|cbn; eauto]). destruct C as (c & t & C). rewrite C, <- C in O.
    change target_begin with (la orbital_heading) in O. change target_end with (la plus_line) in O.
    destruct H as [H|H].
    + rewrite find_none in O by (intros (u & v & E); exact (H u v E)). discriminate.
    + rewrite (find_none plus_line) in O by (intros (u & v & E); exact (H u v E)). destruct (find_string_in_file _ (la orbital_heading)); discriminate.
Qed.
(** the keyword of k dropped orbitals is read back as the last digit of k *)
Theorem C88_keyword k s : (0 <= k)%Z -> dropmo_keyword k s -> forall n, last_digit s n <-> Z.of_nat n = (k mod 10)%Z.
Proof.
  intros K W n. apply keyword_is in W; [|exact K]. pose proof (number_of_text k K) as N. rewrite W in N. split.
  - intros L. apply last_digit_number in L. congruence.
  - intros E. destruct (Z.eq_dec k 0) as [->|K0]; [left; cbn in E; split; [rewrite <- W; reflexivity|lia]|]. right. pose proof (Z.mod_pos_bound k 10 ltac:(lia)) as MB.
    assert (DL : exists u, dec k = u ++ dec (Z.of_nat n)).
    { destruct (dec_last k K) as (u & c & EQ & DG). rewrite <- E in DG. destruct (dec_last (Z.of_nat n) ltac:(lia)) as (u' & c' & EQ' & DG'). rewrite E in DG', DG. rewrite Z.mod_mod in DG' by lia. exists u. rewrite EQ. f_equal.
      assert (NL : n < 10) by lia. clear - DG DG' EQ' NL E. rewrite <- E in DG. clear E DG' EQ' u' c'. destruct c as [[] [] [] [] [] [] [] []]; vm_compute in DG; try discriminate; do 10 (destruct n as [|n]; [reflexivity || (exfalso; vm_compute in DG; discriminate)|]); lia. }
    destruct DL as [u DL]. rewrite <- W, C87_text by exact K. destruct (Z.eqb_spec k 0); [contradiction|]. destruct (Z.eqb_spec k 1) as [->|K1].
    + exists "DROPMO=". replace n with 1 by (cbn in E; lia). split; [lia|reflexivity].
    + exists ("DROPMO=1-" ++ u). split; [lia|]. rewrite DL. reflexivity.
Qed.
(** findings: with ten or more dropped orbitals the count is wrong; the gap after the dropped orbitals is not
    considered; and a gap among the dropped orbitals may be taken *)
Definition energies_of (l : list Z) : list Q := map inject_Z l.
Theorem C88_dropped_refuted : ~ forall k s n, (0 <= k)%Z -> dropmo_keyword k s -> last_digit s n -> Z.of_nat n = k.
Proof.
  intros H. specialize (H 12%Z "DROPMO=1-12" 2 ltac:(lia)). enough (Z.of_nat 2 = 12)%Z by discriminate. apply H; [right; right; split; [lia|reflexivity]|]. right. exists "DROPMO=1-1". split; [lia|reflexivity].
Qed.
Lemma ex_nan ev i : (match nth_error (ratios ev) i with Some NotANumber => false | _ => true end) = true -> ~ gap ev i NotANumber.
Proof. intros E G. apply gap_alike in G. destruct G as (s & G & A). rewrite G in E. destruct s; cbn in A; tauto || discriminate. Qed.
Lemma ex_widest ev lo m : lo + 2 <= length ev -> (match nth_error (ratios ev) lo with Some NotANumber => false | _ => true end) = true -> py_max (ratios (skipn lo ev)) = Ok m -> widest ev lo m.
Proof. intros L N E. destruct (max_from ev lo L (ex_nan _ _ N)) as (m' & E' & W). congruence. Qed.
Lemma ex_first_gap ev m j : m <> NotANumber -> index_by equal (ratios ev) m = Ok j -> first_gap ev m j.
Proof. intros N E. exact (proj1 (first_gap_index equal ev m j N (fun y => eq_refl)) E). Qed.
(** the gap between the first and the second of the remaining orbitals is the widest one, it is ignored *)
Definition ex_ev : list Q := energies_of [-40; -20; -4; -2; -1]%Z.
Lemma ex_nip : nip_guess ex_ev 1 4%Z.
Proof.
  right. right. split; [cbn; lia|]. split; [apply ex_nan; reflexivity|]. eexists _, 0. split; [apply ex_widest; [cbn; lia|reflexivity|vm_compute; reflexivity]|]. split; [apply ex_first_gap; [discriminate|vm_compute; reflexivity]|reflexivity].
Qed.
Theorem C88_gap_refuted : ~ forall ev k g, nip_guess ev k g -> k + 3 <= length ev -> ~ gap ev k NotANumber ->
  exists r j, widest ev k r /\ first_gap ev r j /\ g = Z.of_nat (length ev - S j).
Proof.
  intros H. destruct (H ex_ev 1 4%Z ex_nip ltac:(cbn; lia) ltac:(apply ex_nan; reflexivity)) as (r & j & W & F & E).
  assert (W' : widest ex_ev 1 (divide (-20 # 1) (-4 # 1))) by (apply ex_widest; [cbn; lia|reflexivity|vm_compute; reflexivity]).
  assert (F' : first_gap ex_ev (divide (-20 # 1) (-4 # 1)) 1) by (apply ex_first_gap; [discriminate|vm_compute; reflexivity]).
  assert (J : j = 1) by (apply (first_gap_unique ex_ev (divide (-20 # 1) (-4 # 1))); [|exact F']; eapply first_gap_alike; [|exact F]; eapply widest_alike; eassumption). subst j. discriminate.
Qed.
(** a gap among the dropped orbitals is taken: there are only three orbitals left, four states are proposed *)
Theorem C88_count_refuted : ~ forall ev k g, nip_guess ev k g -> k <= length ev -> (g <= Z.of_nat (length ev - k))%Z.
Proof.
  intros H. specialize (H (energies_of [-16; -8; -4; -2; -1]%Z) 2 4%Z). enough (4 <= 3)%Z by lia. apply H; [|cbn; lia].
  right. right. split; [cbn; lia|]. split; [apply ex_nan; reflexivity|]. eexists _, 0. split; [apply ex_widest; [cbn; lia|reflexivity|vm_compute; reflexivity]|]. split; [apply ex_first_gap; [discriminate|vm_compute; reflexivity]|reflexivity].
Qed.
(** when the gap is found after the dropped ones the count is right *)
Theorem C88_count ev k g : nip_guess ev k g -> g <> (-1)%Z -> exists r j, widest ev (k + 1) r /\ first_gap ev r j /\ (g = Z.of_nat (length ev) - Z.of_nat j - 1)%Z /\ (1 <= g < Z.of_nat (length ev))%Z /\
  (k < j -> (g < Z.of_nat (length ev) - Z.of_nat k - 1)%Z).
Proof.
  intros [[_ ->]|[[_ ->]|(L & N & r & j & W & F & ->)]] X; try congruence. exists r, j. split; [exact W|]. split; [exact F|]. destruct F as [(s & S & _) _]. apply ratios_gap_bound in S. lia.
Qed.

(** ** Examples *)
Definition ex_float (s : string) : res Q :=
  if String.eqb s "-559.9" then Ok (-5599 # 10) else if String.eqb s "-36.4" then Ok (-364 # 10) else if String.eqb s "-19.2" then Ok (-192 # 10) else if String.eqb s "-13.0" then Ok (-13 # 1) else Raise ValueError.
Definition ex_rows : list string := ["    1     1         -20.5        -559.9     A1        A1 (1)";
  "    2     2          -1.3         -36.4     A1        A1 (1)"; "    3     8          -0.7         -19.2     B1        B1 (3)"; "    4     3          -0.5         -13.0     A1        A1 (1)"].
Definition ex_start : string := "SCF has converged." ++ NL1 ++ orbital_heading ++ "  ( 5A1 )" ++ NL1 ++ "" ++ NL1 ++ " MO # E(hartree) E(eV) FULLSYM COMPSYM" ++ NL1 ++ "----  -----" ++ NL1.
Definition ex_pad : string := "       ".
Definition ex_more : string := NL1 ++ "    5     9     0.1     3.9   A1  A1 (1)" ++ NL1.
Definition ex_orb : string := ex_start ++ file_text ex_rows ++ ex_pad ++ plus_line ++ ex_more.
Lemma chars_cons c s : chars (String c s) = c :: chars s.
Proof. reflexivity. Qed.
Lemma blanks_cons c b : blank c -> blanks b -> blanks (String c b).
Proof. intros C B x. rewrite chars_cons. intros [<-|I]; auto. Qed.
Lemma worded_blank c s ws : blank c -> worded s ws -> worded (String c s) ws.
Proof.
  intros C W. inv W.
  - apply wd_nil. apply blanks_cons; assumption.
  - apply (wd_last (String c b)); [apply blanks_cons; assumption|assumption].
  - apply (wd_cons (String c b) w); try assumption. apply blanks_cons; assumption.
Qed.
Lemma word_head w : plain_word w -> exists c u, w = String c u /\ ~ blank c.
Proof. intros [N F]. destruct w as [|c u]; [congruence|]. exists c, u. split; [reflexivity|]. apply F. left. reflexivity. Qed.
Lemma worded_tail c s ws : blank c -> worded (String c s) ws -> worded s ws.
Proof.
  intros C W. remember (String c s) as t eqn:T. destruct W as [b B|b w B W|b w d r ws B W D R].
  - subst b. apply wd_nil. intros x I. apply B. right. exact I.
  - destruct (word_head w W) as (x & u & -> & X). destruct b as [|y b]; injection T as -> <-; [contradiction|]. apply wd_last; [intros z I; apply B; right; exact I|exact W].
  - destruct (word_head w W) as (x & u & -> & X). destruct b as [|y b]; injection T as -> <-; [contradiction|]. apply (wd_cons b (String x u)); try assumption. intros z I; apply B; right; exact I.
Qed.
Lemma plain_cons c w : ~ blank c -> (forall x, In x (chars w) -> ~ blank x) -> plain_word (String c w).
Proof. intros C W. split; [discriminate|]. intros x. rewrite chars_cons. intros [<-|I]; auto. Qed.
Lemma is_space_not c : is_space c = false -> ~ blank c.
Proof. intros E B. apply blank_iff in B. congruence. Qed.
Lemma nil_blanks : blanks "".
Proof. intros x []. Qed.
Lemma worded_words_of s : worded s (words s).
Proof.
  induction s as [|c s IH]; [apply wd_nil; exact nil_blanks|]. cbn [words]. destruct (is_space c) eqn:C; [apply worded_blank; [apply blank_iff; exact C|exact IH]|]. apply is_space_not in C.
  destruct s as [|d s]; [apply (wd_last "" (String c "")); [exact nil_blanks|apply plain_cons; [exact C|intros x []]]|]. destruct (is_space d) eqn:D.
  - apply blank_iff in D. apply (wd_cons "" (String c "") d s); [exact nil_blanks|apply plain_cons; [exact C|intros x []]|exact D|]. apply (worded_tail d); assumption.
  - apply is_space_not in D. remember (String d s) as t eqn:T. destruct IH as [b B|b w B W|b w x r ws B W X R].
    + subst b. exfalso. apply D. apply B. left. reflexivity.
    + destruct b as [|y b]; [|injection T as -> _; exfalso; apply D; apply B; left; reflexivity]. destruct W as [_ W]. apply (wd_last "" (String c w)); [exact nil_blanks|]. apply plain_cons; assumption.
    + destruct b as [|y b]; [|injection T as -> _; exfalso; apply D; apply B; left; reflexivity]. destruct W as [_ W]. apply (wd_cons "" (String c w)); [exact nil_blanks| |exact X|exact R]. apply plain_cons; assumption.
Qed.
Lemma ex_worded s ws : words s = ws -> worded s ws.
Proof. intros <-. apply worded_words_of. Qed.
Lemma ex_place c m pre post : all_chars (fun x => negb (Ascii.eqb x c)) pre = true -> first_place (String c m) (pre ++ String c m ++ post) (String.length pre).
Proof.
  intros F. split; [eauto|]. intros u v E. refine (ex_first c m pre post _ u v E). intros I. rewrite all_chars_iff in F. specialize (F _ I). rewrite Ascii.eqb_refl in F. discriminate.
Qed.
Lemma ex_unbroken s : all_chars (fun c => negb (line_end c)) s = true -> unbroken s.
Proof. intros H. apply unbroken_iff. exact H. Qed.
Lemma ex_table : table ex_orb ("SCF has converged." ++ NL1) ex_start ex_rows ex_pad (plus_line ++ ex_more).
Proof.
  split; [reflexivity|eexists _, _, _, _; split; [reflexivity|apply ex_free; reflexivity]|refine (ex_place "O" "RBITAL EIGENVALUES (ALPHA)" ("SCF has converged." ++ NL1) ("  ( 5A1 )" ++ NL1 ++ "" ++ NL1 ++ " MO # E(hartree) E(eV) FULLSYM COMPSYM" ++ NL1 ++ "----  -----" ++ NL1 ++ file_text ex_rows ++ ex_pad ++ plus_line ++ ex_more) eq_refl)| | |apply blanks_iff; reflexivity].
  - do 4 (apply Forall_cons; [apply ex_unbroken; reflexivity|]). apply Forall_nil.
  - split; [eexists _, _, _|eexists (firstn 3 ex_rows), _, _]; (split; [reflexivity|]; split; [apply ex_worded; reflexivity|discriminate]).
Qed.
Lemma ex_closed : closed ex_orb ex_start ex_rows ex_pad (plus_line ++ ex_more).
Proof.
  left. split; [exists ex_more; reflexivity|]. pose proof (ex_place "+" "++++++++++++++++++++++++++++++++++++++++++" (ex_start ++ file_text ex_rows ++ ex_pad) ex_more eq_refl) as P. exact P.
Qed.
Definition ex_orb_ev : list Q := [-5599 # 10; -364 # 10; -192 # 10; -13 # 1].
Lemma ex_energies : Forall2 (row_energy ex_float) ex_rows ex_orb_ev.
Proof. repeat (apply Forall2_cons; [eexists _, _; split; [apply ex_worded; reflexivity|split; reflexivity]|]). apply Forall2_nil. Qed.
Lemma ex_guess : dropmo_guess ex_orb_ev 1.
Proof. exact (guess_is ex_orb_ev). Qed.
(** the user declines the proposed value 1, mistypes the next one and then chooses 2 *)
Example C87_estimate_ex : estimate_dropmo ex_float (la ex_orb) ["no"; "two"; "-2"; " 2 "; "Yes"; "more"] = Ok ("DROPMO=1-2", ["more"]).
Proof.
  apply (proj1 (C87_estimate ex_float _ _ _ _ _ _ _ 1%Z ["no"; "two"; "-2"; " 2 "; "Yes"; "more"] ex_table ex_closed ex_energies ex_guess)). exists 2%Z. split; [|right; right; split; [lia|reflexivity]].
  apply t_no; [intros [I|I]; cbn in I; decompose [or] I; (discriminate || assumption)|]. apply (t_number ["two"; "-2"] " 2 " ["Yes"; "more"] 2%Z).
  - apply Forall_cons; [intros z [E _]; vm_compute in E; discriminate|]. apply Forall_cons; [|apply Forall_nil]. intros z [E P]. vm_compute in E. injection E as <-. lia.
  - split; [reflexivity|lia].
  - apply t_yes. right. left. reflexivity.
Qed.
Example C87_guess_ex : guess_dropmo ex_orb_ev = 1%Z /\ ~ gap ex_orb_ev 0 NotANumber /\ 2 <= length ex_orb_ev.
Proof. split; [reflexivity|]. split; [apply ex_nan; reflexivity|cbn; lia]. Qed.
Example C87_no_guess_ex : guess_dropmo [1%Q] = (-1)%Z /\ guess_dropmo [0; 0; -8; -1]%Q = 1%Z /\ gap [0; 0; -8; -1]%Q 0 NotANumber.
Proof.
  split; [apply C87_no_guess; cbn; lia|]. assert (G : gap [0; 0; -8; -1]%Q 0 NotANumber) by (exists 0%Q, 0%Q; split; [reflexivity|split; [reflexivity|apply q_nan; reflexivity]]). split; [exact (proj2 (C87_no_guess _) G)|exact G].
Qed.
Example C87_guess_unique_ex : widest ex_orb_ev 0 (divide (-5599 # 10) (-364 # 10)) /\ first_gap ex_orb_ev (divide (-5599 # 10) (-364 # 10)) 0.
Proof. split; [apply ex_widest; [cbn; lia|reflexivity|vm_compute; reflexivity]|apply ex_first_gap; [discriminate|vm_compute; reflexivity]]. Qed.
Example C87_dialog_ex : ask (-1) ["x"; "5"; "n"; "7"; "ok, y"] = Ok (7%Z, []) /\ ask 4 ["no"; "5"] = Raise OtherException.
Proof.
  split; [|reflexivity]. apply (proj1 (C87_dialog (-1) _)). apply (t_number ["x"] "5" ["n"; "7"; "ok, y"] 5%Z).
  - apply Forall_cons; [intros z [E _]; vm_compute in E; discriminate|apply Forall_nil].
  - split; [reflexivity|lia].
  - apply t_no; [intros [I|I]; cbn in I; decompose [or] I; (discriminate || assumption)|]. apply (t_number [] "7" ["ok, y"] 7%Z); [apply Forall_nil|split; [reflexivity|lia]|]. apply t_yes. left. cbn. tauto.
Qed.
Example C87_agreed_ex : talk (proposal 3) ["sorry"; "other"] 3 ["other"].
Proof. change (proposal 3) with (Some 3%Z). apply t_yes. left. cbn. tauto. Qed.
Example C87_text_ex : dropmo_text 0 = "" /\ dropmo_text 1 = "DROPMO=1" /\ dropmo_text 14 = "DROPMO=1-14".
Proof. rewrite !C87_text by lia. split; [reflexivity|]. split; reflexivity. Qed.
(** one of the rows is too short *)
Definition ex_bad_rows : list string := ["    1     1         -20.5        -559.9     A1        A1 (1)"; "    2     2  "].
Definition ex_bad : string := ex_start ++ file_text ex_bad_rows ++ ex_pad ++ plus_line ++ ex_more.
Lemma ex_bad_table : table ex_bad ("SCF has converged." ++ NL1) ex_start ex_bad_rows ex_pad (plus_line ++ ex_more).
Proof.
  split; [reflexivity|eexists _, _, _, _; split; [reflexivity|apply ex_free; reflexivity]|refine (ex_place "O" "RBITAL EIGENVALUES (ALPHA)" ("SCF has converged." ++ NL1) ("  ( 5A1 )" ++ NL1 ++ "" ++ NL1 ++ " MO # E(hartree) E(eV) FULLSYM COMPSYM" ++ NL1 ++ "----  -----" ++ NL1 ++ file_text ex_bad_rows ++ ex_pad ++ plus_line ++ ex_more) eq_refl)| | |apply blanks_iff; reflexivity].
  - do 2 (apply Forall_cons; [apply ex_unbroken; reflexivity|]). apply Forall_nil.
  - split; [eexists _, _, _|eexists (firstn 1 ex_bad_rows), _, _]; (split; [reflexivity|]; split; [apply ex_worded; reflexivity|discriminate]).
Qed.
Lemma ex_bad_closed : closed ex_bad ex_start ex_bad_rows ex_pad (plus_line ++ ex_more).
Proof.
  left. split; [exists ex_more; reflexivity|]. pose proof (ex_place "+" "++++++++++++++++++++++++++++++++++++++++++" (ex_start ++ file_text ex_bad_rows ++ ex_pad) ex_more eq_refl) as P. exact P.
Qed.
Lemma ex_bad_row : Exists (bad_row ex_float) ex_bad_rows.
Proof. apply Exists_cons_tl, Exists_cons_hd. exists ["2"; "2"]. split; [apply ex_worded; reflexivity|]. intros w [=]. Qed.
Example C87_malformed_ex : estimate_dropmo ex_float (la ex_bad) ["2"; "y"] = Raise UnboundLocalError.
Proof. exact (C87_malformed ex_float _ _ _ _ _ _ ["2"; "y"] ex_bad_table ex_bad_closed ex_bad_row). Qed.
Example C88_malformed_ex : estimate_nip ex_float "DROPMO=1" (la ex_bad) ["2"; "y"] = Ok (2%Z, []).
Proof.
  apply (C88_malformed ex_float _ _ _ _ _ _ "DROPMO=1" 1 ["2"; "y"] ex_bad_table ex_bad_closed ex_bad_row); [right; exists "DROPMO="; split; [lia|reflexivity]|].
  apply (t_number [] "2" ["y"] 2%Z); [apply Forall_nil|split; [reflexivity|lia]|]. apply t_yes. left. cbn. tauto.
Qed.
(** the mark stands before the table as well: the lines after the table are taken as energies *)
Definition ex_late : string := plus_line ++ NL1 ++ ex_orb.
Definition ex_late_rows : list string := (ex_rows ++ [(ex_pad ++ plus_line)%string; "    5     9     0.1     3.9   A1  A1 (1)"])%list.
Lemma ex_late_table : table ex_late (plus_line ++ NL1 ++ "SCF has converged." ++ NL1) (plus_line ++ NL1 ++ ex_start) ex_late_rows "" "".
Proof.
  split; [reflexivity|eexists _, _, _, _; split; [reflexivity|apply ex_free; reflexivity]|refine (ex_place "O" "RBITAL EIGENVALUES (ALPHA)" (plus_line ++ NL1 ++ "SCF has converged." ++ NL1) ("  ( 5A1 )" ++ NL1 ++ "" ++ NL1 ++ " MO # E(hartree) E(eV) FULLSYM COMPSYM" ++ NL1 ++ "----  -----" ++ NL1 ++ file_text ex_rows ++ ex_pad ++ plus_line ++ ex_more) eq_refl)| | |apply blanks_iff; reflexivity].
  - do 6 (apply Forall_cons; [apply ex_unbroken; reflexivity|]). apply Forall_nil.
  - split; [eexists _, _, _|eexists (firstn 5 ex_late_rows), _, _]; (split; [reflexivity|]; split; [apply ex_worded; reflexivity|discriminate]).
Qed.
Lemma ex_late_closed : closed ex_late (plus_line ++ NL1 ++ ex_start) ex_late_rows "" "".
Proof. right. split; [reflexivity|]. exists 0. split; [cbn; lia|]. exact (ex_place "+" "++++++++++++++++++++++++++++++++++++++++++" "" (NL1 ++ ex_orb) eq_refl). Qed.
Example C87_late_ex : estimate_dropmo ex_float (la ex_late) ["y"] = Raise UnboundLocalError.
Proof.
  apply (C87_malformed ex_float _ _ _ _ _ _ ["y"] ex_late_table ex_late_closed). do 4 apply Exists_cons_tl. apply Exists_cons_hd. exists [plus_line]. split; [apply ex_worded; reflexivity|]. intros w [=].
Qed.
Example C87_missing_ex : estimate_dropmo ex_float (la "no table") ["y"] = Raise OtherException /\ forall u v, "no table" <> u ++ orbital_heading ++ v.
Proof.
  assert (N : forall u v, "no table" <> u ++ orbital_heading ++ v) by (intros u v E; apply (f_equal String.length) in E; rewrite !append_length in E; cbn in E; lia).
  split; [|exact N]. apply (proj2 (C87_missing ex_float "no table" ["y"])); [discriminate|left; exact N].
Qed.
Example C88_estimate_ex : estimate_nip ex_float "DROPMO=1" (la ex_orb) ["y"] = Ok (1%Z, []).
Proof.
  apply (proj1 (C88_estimate ex_float _ _ _ _ _ _ _ "DROPMO=1" 1 1%Z ["y"] ex_table ex_closed ex_energies ltac:(right; exists "DROPMO="; split; [lia|reflexivity])
    ltac:(right; right; split; [cbn; lia|]; split; [apply ex_nan; reflexivity|]; eexists _, 2; split; [apply ex_widest; [cbn; lia|reflexivity|vm_compute; reflexivity]|]; split; [apply ex_first_gap; [discriminate|vm_compute; reflexivity]|reflexivity]))).
  apply t_yes. left. cbn. tauto.
Qed.
Example C88_not_a_number_ex : estimate_nip ex_float "DROPMO=1-" (la ex_orb) ["y"] = Raise ValueError /\ estimate_nip ex_float "DROPMO=1" (la "no table") ["y"] = Raise OtherException.
Proof.
  split; [apply (C88_not_a_number ex_float _ _ _ _ _ _ "DROPMO=1" "-" ["y"] ex_table ex_closed); intros I; cbn in I; decompose [or] I; (discriminate || assumption)|].
  apply (proj2 (C88_missing ex_float "no table" "DROPMO=1" ["y"])); [discriminate|left; exact (proj2 C87_missing_ex)].
Qed.
Example C88_count_ex : nip_guess ex_ev 1 4 /\ 4%Z <> (-1)%Z.
Proof. split; [exact ex_nip|discriminate]. Qed.
Example C88_keyword_ex : dropmo_keyword 3 "DROPMO=1-3" /\ last_digit "DROPMO=1-3" 3.
Proof. assert (K : dropmo_keyword 3 "DROPMO=1-3") by (right; right; split; [lia|reflexivity]). split; [exact K|]. apply (C88_keyword 3 _ ltac:(lia) K). reflexivity. Qed.

Print Assumptions C87_guess.
Print Assumptions C87_guess_unique.
Print Assumptions C87_no_guess.
Print Assumptions C87_dialog.
Print Assumptions C87_agreed.
Print Assumptions C87_text.
Print Assumptions C87_estimate.
Print Assumptions C87_malformed.
Print Assumptions C87_missing.
Print Assumptions C88_estimate.
Print Assumptions C88_guess.
Print Assumptions C88_malformed.
Print Assumptions C88_keyword.
Print Assumptions C88_dropped_refuted.
Print Assumptions C88_gap_refuted.
Print Assumptions C88_count_refuted.
Print Assumptions C88_count.
Print Assumptions C88_not_a_number.
Print Assumptions C88_missing.
