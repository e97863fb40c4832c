(** C82-C84: the output files of the electronic structure calculations
    (vibronic/electronic_structure.py:295-321, 1096-1296). *)
From Coq Require Import Lia.
From Verif Require Import Common Common_Proofs PyStr_Model PyStr_Proofs FileSearch_Spec FileSearch_Model FileSearch_Proofs Output_Model Output_Proofs.
Local Open Scope string_scope.
Local Open Scope nat_scope.

(** ** C82: when is a calculation taken to be complete *)
(** [msg] occurs after the first line of [d] and no more than nine line ends, not counting one at the very end, follow *)
Definition near_the_end (msg d : list ascii) : Prop :=
  exists p, occurs_at msg d p /\ (exists q, q < p /\ newline_at d q) /\ newlines (piece d p (length d - 1)) <= 9.
Definition text (s : string) : list ascii := list_ascii_of_string s.
Lemma near_iff msg d : near_the_end msg d <-> exists p, occurs_at msg d p /\ newlines (firstn p d) <> 0 /\ newlines (piece d p (length d - 1)) <= 9.
Proof. unfold near_the_end. split; intros (p & O & N & L); exists p; (split; [exact O|split; [|exact L]]); apply newlines_first; exact N. Qed.

Theorem C82_aces2 slurm d : d <> [] ->
  (near_the_end (text "The ACES2 program has completed successfully in") d -> verify_aces2_completed slurm d = Ok tt) /\
  (~ near_the_end (text "The ACES2 program has completed successfully in") d ->
     verify_aces2_completed slurm d = match slurm with Ok _ => Raise OtherException | Raise e => Raise e end).
Proof.
  intros D. unfold verify_aces2_completed. destruct (message_spec aces2_message d D ltac:(cbn; lia) ltac:(reflexivity)) as (b & -> & B). cbn [bind]. rewrite near_iff. split; intros H.
  - rewrite (proj2 B H). reflexivity.
  - destruct b; [exfalso; apply H; apply B; reflexivity|]. destruct slurm as [[]|]; reflexivity.
Qed.
Theorem C82_vibron d : d <> [] ->
  (near_the_end (text "All done in main_vibron") d -> parse_vibron_output (Some d) = Ok tt) /\
  (~ near_the_end (text "All done in main_vibron") d -> parse_vibron_output (Some d) = Raise OtherException).
Proof.
  intros D. unfold parse_vibron_output. destruct (message_spec vibron_message d D ltac:(cbn; lia) ltac:(reflexivity)) as (b & -> & B). cbn [bind]. rewrite near_iff. split; intros H.
  - rewrite (proj2 B H). reflexivity.
  - destruct b; [exfalso; apply H; apply B; reflexivity|]. reflexivity.
Qed.
(** no file without the message is accepted, and none at all if it does not exist or is empty *)
Theorem C82_sound slurm d :
  (verify_aces2_completed slurm d = Ok tt -> exists p, occurs_at (text "The ACES2 program has completed successfully in") d p) /\
  (parse_vibron_output (Some d) = Ok tt -> exists p, occurs_at (text "All done in main_vibron") d p) /\
  parse_vibron_output None = Raise OSError /\ parse_vibron_output (Some []) = Raise ValueError /\ verify_aces2_completed slurm [] = Raise ValueError.
Proof.
  split; [|split; [|repeat split; reflexivity]].
  - intros E. destruct d as [|c d']; [discriminate|]. set (d := c :: d') in *. unfold verify_aces2_completed in E.
    destruct (message_spec aces2_message d ltac:(discriminate) ltac:(cbn; lia) ltac:(reflexivity)) as (b & X & B). rewrite X in E. cbn [bind] in E. destruct b; [|destruct slurm as [[]|]; discriminate].
    destruct (proj1 B eq_refl) as (p & O & _). exists p. exact O.
  - intros E. destruct d as [|c d']; [discriminate|]. set (d := c :: d') in *. unfold parse_vibron_output in E.
    destruct (message_spec vibron_message d ltac:(discriminate) ltac:(cbn; lia) ltac:(reflexivity)) as (b & X & B). rewrite X in E. cbn [bind] in E. destruct b; [|discriminate].
    destruct (proj1 B eq_refl) as (p & O & _). exists p. exact O.
Qed.
(** finding: the message on the first line of a file is not seen, however short the file is *)
Theorem C82_first_line_refuted : ~ (forall d, d <> [] -> (exists p, occurs_at (text "All done in main_vibron") d p) -> newlines d <= 9 -> parse_vibron_output (Some d) = Ok tt).
Proof.
  intros H. specialize (H (text "All done in main_vibron") ltac:(discriminate) ltac:(exists 0; exists [], []; split; reflexivity) ltac:(vm_compute; lia)). vm_compute in H. discriminate.
Qed.
Definition ex_end : list ascii := (text "VIBRON" ++ [ascii_of_nat 10] ++ text "  All done in main_vibron " ++ [ascii_of_nat 10] ++ text "time 3 s" ++ [ascii_of_nat 10])%list.
Example C82_ex : near_the_end (text "All done in main_vibron") ex_end /\ parse_vibron_output (Some ex_end) = Ok tt /\ parse_vibron_output (Some (ex_end ++ repeat (ascii_of_nat 10) 10)%list) = Raise OtherException.
Proof.
  split; [|split; reflexivity]. exists 9. split; [exists (text "VIBRON" ++ [ascii_of_nat 10] ++ text "  ")%list, (text " " ++ [ascii_of_nat 10] ++ text "time 3 s" ++ [ascii_of_nat 10])%list; split; reflexivity|].
  split; [exists 6; split; [lia|reflexivity]|vm_compute; lia].
Qed.

(** ** C83: the blocks before the effective Hamiltonian are removed *)
Theorem C83_remove target d d' : target <> [] ->
  (remove_extra_heff target d = Ok d' <-> exists pre, lines_before target d pre d').
Proof.
  intros T. split.
  - intros E. destruct d as [|c d0]; [discriminate|]. pose proof (remove_spec target (c :: d0) ltac:(discriminate) T) as S. rewrite E in S. exact S.
  - intros (pre & L). destruct d as [|c d0].
    + exfalso. destruct L as (E & _ & q & (a & b & Q & _) & _). symmetry in E. apply app_eq_nil in E. destruct E as [_ ->]. destruct a; [|discriminate]. destruct target; [congruence|discriminate].
    + pose proof (remove_spec target (c :: d0) ltac:(discriminate) T) as S. destruct (remove_extra_heff target (c :: d0)) as [d2|e].
      * destruct S as (pre2 & S). f_equal. eapply lines_before_unique; eassumption.
      * exfalso. destruct S as [_ S]. destruct L as (E & _ & q & Q & _). apply (S (length pre + q)). rewrite E. apply occurs_skip. exact Q.
Qed.
Theorem C83_absent target d : target <> [] -> d <> [] -> (remove_extra_heff target d = Raise OtherException <-> forall p, ~ occurs_at target d p).
Proof.
  intros T D. pose proof (remove_spec target d D T) as S. destruct (remove_extra_heff target d) as [d2|e].
  - split; [discriminate|]. intros N. exfalso. destruct S as (pre & E & _ & q & Q & _). apply (N (length pre + q)). rewrite E. apply occurs_skip. exact Q.
  - destruct S as [-> S]. split; [intros _; exact S|reflexivity].
Qed.
(** doing it twice changes nothing more *)
Theorem C83_twice target d d' : target <> [] -> remove_extra_heff target d = Ok d' -> remove_extra_heff target d' = Ok d'.
Proof. intros T E. apply C83_remove in E; [|exact T]. destruct E as (pre & E). apply C83_remove; [exact T|]. exists []. eapply lines_before_again. exact E. Qed.
Definition ex_heff : list ascii := (text "HEFF_0" ++ [ascii_of_nat 10] ++ text " 1.0 2.0" ++ [ascii_of_nat 10] ++ text " HEFF_IP2 2" ++ [ascii_of_nat 10] ++ text " 3.0" ++ [ascii_of_nat 10])%list.
Example C83_ex : remove_extra_heff (text "HEFF_IP2") ex_heff = Ok (text " HEFF_IP2 2" ++ [ascii_of_nat 10] ++ text " 3.0" ++ [ascii_of_nat 10])%list /\
  remove_extra_heff (text "HEFF_IP3") ex_heff = Raise OtherException /\ remove_extra_heff (text "HEFF_IP2") [] = Raise ValueError.
Proof. repeat split; reflexivity. Qed.

(** ** C84: the number of states is written into the input of VIBRON *)
(** the text of [nip]: right-aligned in six columns, digits in groups of three *)
Definition is_nip_text (nip : Z) (s : list ascii) : Prop := exists k sg g,
  s = (repeat " "%char k ++ sg ++ g)%list /\ sg = (if (nip <? 0)%Z then ["-"%char] else []) /\
  filter (fun c => negb (Ascii.eqb c ","%char)) g = text (NilEmpty.string_of_uint (N.to_uint (Z.to_N (Z.abs nip)))) /\
  (forall i, i < length g -> (nth_error (rev g) i = Some ","%char <-> i mod 4 = 3)) /\
  6 <= length s /\ (k <> 0 -> length s = 6).
Lemma nip_text_is nip : is_nip_text nip (nip_text nip).
Proof.
  unfold nip_text, is_nip_text. destruct (Z.ltb_spec nip 0) as [N|N].
  - set (g := grouped (Z.to_N (- nip))). exists (6 - length ("-"%char :: g)), ["-"%char], g. rewrite Z.abs_neq by lia. split; [reflexivity|]. split; [reflexivity|]. split; [apply grouped_filter|]. split; [apply grouped_at|].
    rewrite app_length, repeat_length. cbn [length app]. lia.
  - set (g := grouped (Z.to_N nip)). exists (6 - length g), [], g. rewrite Z.abs_eq by lia. split; [reflexivity|]. split; [reflexivity|]. split; [apply grouped_filter|]. split; [apply grouped_at|].
    rewrite app_length, repeat_length. lia.
Qed.
Lemma nip_text_six nip : length (nip_text nip) = 6 <-> (-9999 <= nip <= 99999)%Z.
Proof.
  unfold nip_text. destruct (Z.ltb_spec nip 0) as [N|N]; rewrite app_length, repeat_length; cbn [length].
  - pose proof (grouped_5 (Z.to_N (- nip))). lia.
  - pose proof (grouped_6 (Z.to_N nip)). lia.
Qed.
(** [a] is what precedes the first "xxx" *)
Theorem C84_written nip a b : (forall p, occurs_at (text "xxx") (a ++ text "xxx" ++ b)%list p -> length a <= p) ->
  exists s, is_nip_text nip s /\
    ((-9999 <= nip <= 99999)%Z -> 3 <= length b -> length s = 6 /\ add_nip nip (a ++ text "xxx" ++ b)%list = ((a ++ s ++ skipn 3 b)%list, Ok tt)) /\
    (~ (-9999 <= nip <= 99999)%Z -> length s <= 3 + length b -> add_nip nip (a ++ text "xxx" ++ b)%list = ((a ++ s ++ skipn (length s - 3) b)%list, Raise AssertionError)) /\
    (3 + length b < length s -> add_nip nip (a ++ text "xxx" ++ b)%list = ((a ++ text "xxx" ++ b)%list, Raise ValueError)).
Proof.
  intros F. exists (nip_text nip). split; [apply nip_text_is|]. pose proof (nip_text_six nip) as S. set (s := nip_text nip) in *. set (d := (a ++ text "xxx" ++ b)%list) in *.
  assert (LD : length d = length a + 3 + length b) by (unfold d; rewrite !app_length; cbn; lia).
  assert (E : add_nip nip d = match mwrite d (length a) s with Raise e => (d, Raise e) | Ok d' => (d', passert (length s =? 6)) end).
  { unfold add_nip. assert (O : open_map d = Ok (mkMap d 0)). { unfold open_map. destruct d; [cbn in LD; lia|reflexivity]. } rewrite O. unfold find_string_in_file. cbn [pos]. cbv zeta.
    pose proof (mfind_spec (mkMap d 0) (bytes "xxx") 0 (length d) ltac:(right; discriminate)) as G. cbv zeta in G. cbn [data] in G. change (msize (mkMap d 0)) with (Z.of_nat (length d)).
    assert (OA : occurs_at (bytes "xxx") d (length a)) by (exists a, b; split; reflexivity).
    destruct G as [[-> G]|(p & -> & _ & B & OP & G)]; [exfalso; apply (G (length a)); [lia|cbn; lia|exact OA]|].
    assert (P : p = length a). { apply Nat.le_antisymm; [|apply F; exact OP]. destruct (le_lt_dec p (length a)) as [X|X]; [exact X|]. exfalso. apply (G (length a)); [lia|exact OA]. }
    subst p. destruct (Z.eqb_spec (Z.of_nat (length a)) (-1)); [lia|]. rewrite Nat2Z.id. reflexivity. }
  assert (S6 : 6 <= length s) by (destruct (nip_text_is nip) as (? & ? & ? & _ & _ & _ & _ & X & _); exact X).
  assert (FA : firstn (length a) d = a) by (unfold d; rewrite firstn_app, Nat.sub_diag, firstn_all, firstn_O, app_nil_r; reflexivity).
  assert (SA : skipn (length a + length s) d = skipn (length s - 3) b).
  { unfold d. rewrite !skipn_app. rewrite skipn_all2 by lia. replace (length a + length s - length a) with (length s) by lia. rewrite (skipn_all2 (text "xxx")) by (change (length (text "xxx")) with 3; lia). reflexivity. }
  assert (OKW : length s <= 3 + length b -> mwrite d (length a) s = Ok (a ++ s ++ skipn (length s - 3) b)%list).
  { intros L. unfold mwrite. destruct (Nat.ltb_spec (length d) (length a + length s)); [lia|]. rewrite FA, SA. reflexivity. }
  split; [|split].
  - intros R B. apply S in R. split; [exact R|]. rewrite E, OKW by lia. rewrite R. reflexivity.
  - intros R B. rewrite E, OKW by exact B. destruct (Nat.eqb_spec (length s) 6) as [X|X]; [exfalso; apply R; apply S; exact X|reflexivity].
  - intros B. rewrite E. unfold mwrite. destruct (Nat.ltb_spec (length d) (length a + length s)); [reflexivity|lia].
Qed.
Theorem C84_absent nip d : (forall p, ~ occurs_at (text "xxx") d p) -> add_nip nip d = (d, Raise (match d with [] => ValueError | _ => OtherException end)).
Proof.
  intros N. destruct d as [|c d0]; [reflexivity|]. set (d := c :: d0) in *. unfold add_nip. cbn [open_map d]. fold d. unfold find_string_in_file. cbn [pos]. cbv zeta.
  pose proof (mfind_spec (mkMap d 0) (bytes "xxx") 0 (length d) ltac:(right; discriminate)) as G. cbv zeta in G. cbn [data] in G. change (msize (mkMap d 0)) with (Z.of_nat (length d)).
  destruct G as [[-> G]|(p & -> & _ & B & OP & G)]; [reflexivity|]. exfalso. exact (N p OP).
Qed.
(** finding: not only the three characters xxx are replaced (the comment in line 1200 says so): three more are lost *)
Theorem C84_only_xxx_refuted : ~ (forall nip a b, (forall p, occurs_at (text "xxx") (a ++ text "xxx" ++ b)%list p -> length a <= p) ->
  snd (add_nip nip (a ++ text "xxx" ++ b)%list) = Ok tt -> exists s, fst (add_nip nip (a ++ text "xxx" ++ b)%list) = (a ++ s ++ b)%list).
Proof.
  intros H. destruct (H 7%Z (text "nip=") (text " end")) as (s & E).
  - intros p (x & y & D & L). rewrite <- L. vm_compute in D. destruct x as [|? [|? [|? [|? x]]]]; try discriminate D. vm_compute. lia.
  - reflexivity.
  - vm_compute in E. destruct s as [|? [|? [|? s]]]; try discriminate E. apply (f_equal (@length ascii)) in E as L. cbn in L. rewrite app_length in L. cbn in L. destruct s; [discriminate E|cbn in L; lia].
Qed.
Example C84_ex : add_nip 12345 (text "nip=xxx    " ++ [ascii_of_nat 10])%list = ((text "nip=12,345 " ++ [ascii_of_nat 10])%list, Ok tt) /\
  add_nip 3 (text "nip=xxx") = (text "nip=xxx", Raise ValueError) /\
  add_nip 123456 (text "nip=xxx     ") = (text "nip=123,456 ", Raise AssertionError).
Proof. repeat split; reflexivity. Qed.

(** ** C84: the three files for VIBRON *)
Section Prep.
  Variable name : string.
  Notation sp := (name ++ "_prepvib.pntheff").
  Notation sc := (name ++ "_prepvib.vibronic_coupling").
  Notation si := (name ++ "_prepvib.vibron_input").
  Notation di := (name ++ "_vibron.in").
  Lemma last_char x y s u : (s ++ String x "")%string = (u ++ String y "")%string -> x = y.
  Proof.
    revert u. induction s as [|k s IH]; intros [|k' u] E; cbn in E; injection E; intros; subst; try reflexivity; try (destruct s; discriminate); try (destruct u; discriminate). eapply IH. eassumption.
  Qed.
  Lemma differ x y s u v : x <> y -> (name ++ s ++ String x "")%string <> (u ++ String y "")%string /\ (name ++ s ++ String x "")%string <> (name ++ v ++ String y "")%string.
  Proof. intros N. split; intros E; apply N; rewrite <- ?append_assoc in E; exact (last_char _ _ _ _ E). Qed.
  Lemma sp_dp : sp <> "PNTHEFF". Proof. exact (proj1 (differ "f" "F" "_prepvib.pnthef" "PNTHEF" "" ltac:(discriminate))). Qed.
  Lemma sc_dp : sc <> "PNTHEFF". Proof. exact (proj1 (differ "g" "F" "_prepvib.vibronic_couplin" "PNTHEF" "" ltac:(discriminate))). Qed.
  Lemma si_dp : si <> "PNTHEFF". Proof. exact (proj1 (differ "t" "F" "_prepvib.vibron_inpu" "PNTHEF" "" ltac:(discriminate))). Qed.
  Lemma di_dp : di <> "PNTHEFF". Proof. exact (proj1 (differ "n" "F" "_vibron.i" "PNTHEF" "" ltac:(discriminate))). Qed.
  Lemma sc_dc : sc <> "cp.auto". Proof. exact (proj1 (differ "g" "o" "_prepvib.vibronic_couplin" "cp.aut" "" ltac:(discriminate))). Qed.
  Lemma si_dc : si <> "cp.auto". Proof. exact (proj1 (differ "t" "o" "_prepvib.vibron_inpu" "cp.aut" "" ltac:(discriminate))). Qed.
  Lemma di_dc : di <> "cp.auto". Proof. exact (proj1 (differ "n" "o" "_vibron.i" "cp.aut" "" ltac:(discriminate))). Qed.
  Lemma si_di : si <> di. Proof. exact (proj2 (differ "t" "n" "_prepvib.vibron_inpu" "" "_vibron.i" ltac:(discriminate))). Qed.

  Lemma copying_ok fs a b d : fs a = Some d -> a <> b -> copying fs a b = (put fs b d, Ok tt).
  Proof. intros E N. unfold copying, copy_output_file. rewrite E. apply String.eqb_neq in N. rewrite N. reflexivity. Qed.
  Lemma remove_in_ok fs n d d' : fs n = Some d -> remove_extra_heff heff_target d = Ok d' -> remove_in fs n = (put fs n d', Ok tt).
  Proof. intros E R. unfold remove_in. rewrite E, R. reflexivity. Qed.

  (** the three input files of VIBRON; everything else stays as it is *)
  Theorem C84_prep fs nip dp dc dd pre1 rp pre2 rc new r : fs sp = Some dp -> fs sc = Some dc -> fs si = Some dd ->
    lines_before (text "HEFF_IP2") dp pre1 rp -> lines_before (text "HEFF_IP2") dc pre2 rc -> add_nip nip dd = (new, r) ->
    exists fs', parse_prepVibron_output name nip fs = (fs', r) /\ fs' "PNTHEFF" = Some rp /\ fs' "cp.auto" = Some rc /\ fs' di = Some new /\
      forall x, x <> "PNTHEFF" -> x <> "cp.auto" -> x <> di -> fs' x = fs x.
  Proof.
    intros P C I LP LC N. pose proof sp_dp. pose proof sc_dp. pose proof si_dp. pose proof di_dp. pose proof sc_dc. pose proof si_dc. pose proof di_dc. pose proof si_di.
    assert (RP : remove_extra_heff heff_target dp = Ok rp) by (apply C83_remove; [discriminate|exists pre1; exact LP]).
    assert (RC : remove_extra_heff heff_target dc = Ok rc) by (apply C83_remove; [discriminate|exists pre2; exact LC]).
    unfold parse_prepVibron_output. rewrite (copying_ok _ _ _ _ P) by assumption. cbn [then_]. erewrite remove_in_ok by (apply put_same || exact RP). cbn [then_].
    erewrite copying_ok; [|rewrite !put_other by assumption; exact C|assumption]. cbn [then_]. erewrite remove_in_ok by (apply put_same || exact RC). cbn [then_].
    erewrite copying_ok; [|rewrite !put_other by assumption; exact I|assumption]. cbn [then_]. unfold nip_in. rewrite put_same, N. cbn [fst snd]. eexists. split; [reflexivity|].
    split; [rewrite !(put_other _ di) by auto; rewrite !(put_other _ "cp.auto") by discriminate; apply put_same|]. split; [rewrite !(put_other _ di) by auto; apply put_same|]. split; [apply put_same|].
    intros x X1 X2 X3. rewrite !put_other by assumption. reflexivity.
  Qed.
  (** the outputs of the previous calculation are never touched, whatever happens *)
  Theorem C84_prep_frame fs nip x : x <> "PNTHEFF" -> x <> "cp.auto" -> x <> di -> fst (parse_prepVibron_output name nip fs) x = fs x.
  Proof.
    intros X1 X2 X3.
    assert (CP : forall fs a b, x <> b -> fst (copying fs a b) x = fs x).
    { intros fs0 a b N. unfold copying, copy_output_file. destruct (fs0 a) as [d|]; [|reflexivity]. destruct (String.eqb a b); [reflexivity|]. apply put_other. exact N. }
    assert (RM : forall fs n, x <> n -> fst (remove_in fs n) x = fs x).
    { intros fs0 n N. unfold remove_in. destruct (fs0 n) as [d|]; [|reflexivity]. destruct (remove_extra_heff heff_target d); [|reflexivity]. apply put_other. exact N. }
    assert (NI : forall fs n, x <> n -> fst (nip_in nip fs n) x = fs x).
    { intros fs0 n N. unfold nip_in. destruct (fs0 n) as [d|]; [|reflexivity]. apply put_other. exact N. }
    assert (TH : forall p q y, fst p x = y -> (forall fs, fs x = y -> fst (q fs) x = y) -> fst (then_ p q) x = y).
    { intros [f [u|e]] q y E Q; cbn [then_ fst] in *; [apply Q; exact E|exact E]. }
    unfold parse_prepVibron_output. apply TH; [apply CP; exact X1|]. intros f1 E1. apply TH; [rewrite RM by exact X1; exact E1|]. intros f2 E2. apply TH; [rewrite CP by exact X2; exact E2|].
    intros f3 E3. apply TH; [rewrite RM by exact X2; exact E3|]. intros f4 E4. apply TH; [rewrite CP by exact X3; exact E4|]. intros f5 E5. rewrite NI by exact X3. exact E5.
  Qed.
  (** without an effective Hamiltonian in the first output the preparation stops; PNTHEFF is then an unfiltered copy *)
  Theorem C84_prep_fails fs nip :
    (fs sp = None -> parse_prepVibron_output name nip fs = (fs, Raise OSError)) /\
    (forall dp, fs sp = Some dp -> dp <> [] -> (forall p, ~ occurs_at (text "HEFF_IP2") dp p) ->
       exists fs', parse_prepVibron_output name nip fs = (fs', Raise OtherException) /\ fs' "PNTHEFF" = Some dp /\ forall x, x <> "PNTHEFF" -> fs' x = fs x).
  Proof.
    split.
    - intros E. unfold parse_prepVibron_output, copying at 1, copy_output_file. rewrite E. reflexivity.
    - intros dp E D N. unfold parse_prepVibron_output. rewrite (copying_ok _ _ _ _ E) by exact sp_dp. cbn [then_]. unfold remove_in at 1. rewrite put_same.
      rewrite (proj2 (C83_absent heff_target dp ltac:(discriminate) D) N). cbn [then_]. eexists. split; [reflexivity|]. split; [apply put_same|]. intros x X. apply put_other. exact X.
  Qed.
End Prep.
Definition ex_files : files := fun n =>
  if String.eqb n "h2o_prepvib.pntheff" then Some ex_heff else if String.eqb n "h2o_prepvib.vibronic_coupling" then Some ex_heff
  else if String.eqb n "h2o_prepvib.vibron_input" then Some (text "nip=xxx    ") else None.
Example C84_prep_ex : exists fs', parse_prepVibron_output "h2o" 5 ex_files = (fs', Ok tt) /\
  fs' "h2o_vibron.in" = Some (text "nip=     5 ") /\ fs' "cp.auto" = fs' "PNTHEFF" /\ fs' "PNTHEFF" = Some (text " HEFF_IP2 2" ++ [ascii_of_nat 10] ++ text " 3.0" ++ [ascii_of_nat 10])%list.
Proof.
  assert (L : exists pre, lines_before (text "HEFF_IP2") ex_heff pre (text " HEFF_IP2 2" ++ [ascii_of_nat 10] ++ text " 3.0" ++ [ascii_of_nat 10])%list) by (apply C83_remove; [discriminate|reflexivity]).
  destruct L as (pre & L). destruct (C84_prep "h2o" ex_files 5 ex_heff ex_heff (text "nip=xxx    ") pre _ pre _ _ _ eq_refl eq_refl eq_refl L L eq_refl) as (fs' & E & A & B & C & _).
  exists fs'. split; [exact E|]. split; [exact C|]. split; [congruence|exact A].
Qed.
Example C84_prep_fails_ex : exists fs', parse_prepVibron_output "h2o" 5 (put ex_files "h2o_prepvib.pntheff" (text "HEFF_0")) = (fs', Raise OtherException) /\ fs' "PNTHEFF" = Some (text "HEFF_0").
Proof.
  destruct (proj2 (C84_prep_fails "h2o" (put ex_files "h2o_prepvib.pntheff" (text "HEFF_0")) 5) (text "HEFF_0") eq_refl ltac:(discriminate)) as (fs' & E & A & _).
  - apply C83_absent; [discriminate|discriminate|reflexivity].
  - exists fs'. split; assumption.
Qed.
Print Assumptions C82_aces2.
Print Assumptions C82_vibron.
Print Assumptions C82_sound.
Print Assumptions C82_first_line_refuted.
Print Assumptions C83_remove.
Print Assumptions C83_absent.
Print Assumptions C83_twice.
Print Assumptions C84_written.
Print Assumptions C84_absent.
Print Assumptions C84_only_xxx_refuted.
Print Assumptions C84_prep.
Print Assumptions C84_prep_frame.
Print Assumptions C84_prep_fails.
