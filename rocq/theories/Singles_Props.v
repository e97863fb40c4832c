(** C89: the check of the percentage of singles *)
From Coq Require Import QArith Lia.
From Verif Require Import Common Common_Proofs PyStr_Model PyStr_Proofs FileName_Model FileSearch_Model FileSearch_Spec FileSearch_Proofs FileSearch_Props ModelOp_Spec ModelOp_Model ModelOp2_Proofs Exec_Model Json_Spec Julia_Spec Auto_Spec Auto_Proofs Auto_Proofs2 Zmat_Model Zmat_Spec Zmat_Proofs Zmat_Props Orbital_Spec Orbital2_Proofs Orbital_Props Singles_Model.
Local Open Scope string_scope.
Local Open Scope nat_scope.

Definition singles_heading : string := "Summary of ionization-potential eom-cc calculation".
Lemma newlines_free s : free nl s -> newlines (la s) = 0.
Proof. intros F. unfold newlines. apply count_occ_not_In. exact F. Qed.
Lemma newlines_some s : ~ free nl s -> 0 < newlines (la s).
Proof. intros F. unfold newlines. apply count_occ_In. destruct (in_dec ascii_dec nl (la s)) as [I|I]; [exact I|destruct (F I)]. Qed.
Lemma skip_to pre c m post n k : c <> nl -> free nl m -> let d := la (pre ++ String c m ++ post) in
  exists r, skip_forward_lines (mkMap d k) (S n) (Z.of_nat (String.length pre)) = Z.of_nat r /\
    ((free nl post /\ r = String.length pre) \/ (~ free nl post /\ exists a y, pre ++ String c m ++ post = a ++ String nl y /\ r = String.length a)).
Proof.
  intros C M d. destruct (forward_ok (mkMap d k) (S n) (String.length pre)) as (r & E & L & N & K). cbn [data] in *. exists r. split; [exact E|].
  assert (SK : skipn (S (String.length pre)) d = la (m ++ post)). { unfold d. replace (pre ++ String c m ++ post) with ((pre ++ String c "") ++ m ++ post) by (rewrite append_assoc; reflexivity). replace (S (String.length pre)) with (String.length (pre ++ String c "")) by (rewrite append_length; cbn; lia). apply skipn_la. }
  rewrite SK in K. rewrite la_app, newlines_app, (newlines_free m M), Nat.add_0_l in K.
  destruct (in_dec ascii_dec nl (la post)) as [I|I].
  - right. split; [intros F; exact (F I)|]. assert (P : 0 < newlines (la post)) by (apply newlines_some; intros F; exact (F I)).
    destruct N as [->|N]; [rewrite piece_empty in K; change (newlines []) with 0 in K; lia|]. unfold newline_at in N. apply nth_error_split in N. destruct N as (l1 & l2 & S & LN). exists (string_of_list_ascii l1), (string_of_list_ascii l2). split.
    + apply la_inj. fold d. rewrite S, la_app. cbn [list_ascii_of_string]. rewrite !list_ascii_of_string_of_list_ascii. reflexivity.
    + rewrite <- la_length, list_ascii_of_string_of_list_ascii. auto.
  - left. split; [exact I|]. rewrite (newlines_free post I), Nat.min_0_r in K. destruct N as [->|N]; [reflexivity|]. destruct (Nat.eq_dec r (String.length pre)) as [->|NE]; [reflexivity|]. exfalso.
    rewrite (piece_app _ _ r) in K by lia. rewrite newlines_app, (piece_one _ _ N) in K. change (newlines [ascii_of_nat 10]) with 1 in K. lia.
Qed.
Section Check.
  Variable py_float : string -> res Q.
  Variable cutoff : Q.
  Lemma heading_place text pre post : first_place singles_heading text (String.length pre) -> text = pre ++ singles_heading ++ post ->
    forall n, parse_ip_output py_float cutoff n (Some text) =
      match percent_loop n (mkMap (la text) (Z.to_nat (skip_forward_lines (mkMap (la text) (String.length pre)) 5 (Z.of_nat (String.length pre))))) [] with None => None | Some lines => Some (judge py_float cutoff lines) end.
  Proof.
    intros F E n. unfold parse_ip_output. destruct (la text) as [|c t] eqn:D.
    - exfalso. apply (f_equal (@length _)) in D. rewrite la_length, E, !append_length in D. cbn in D. lia.
    - rewrite <- D. change singles_target with (la singles_heading). rewrite (find_first _ _ _ F). cbv zeta. rewrite Nat2Z.id. reflexivity.
  Qed.
  (** if a line ends after the heading, the answer is yes; the table is not read *)
  Theorem C89_always_yes text pre post n : first_place singles_heading text (String.length pre) -> text = pre ++ singles_heading ++ post ->
    In nl (chars post) -> parse_ip_output py_float cutoff (S n) (Some text) = Some (Ok true).
  Proof.
    intros F E I. rewrite (heading_place _ _ _ F E).
    assert (M : free nl "ummary of ionization-potential eom-cc calculation") by (intros K; vm_compute in K; repeat destruct K as [K|K]; (discriminate || exact K)).
    destruct (skip_to pre "S" _ post 4 (String.length pre) ltac:(discriminate) M) as (r & R & [[FR _]|(_ & a & y & S & ->)]); [destruct (FR I)|].
    change (String "S" "ummary of ionization-potential eom-cc calculation") with singles_heading in *. rewrite E, R, Nat2Z.id, S. cbn [percent_loop].
    pose proof (take_line_at a "" y ltac:(intros [])) as T. cbn [String.append] in T. change (String NL y) with (String nl y) in T. rewrite T. cbn. reflexivity.
  Qed.
  (** if the file ends in the line of the heading: the answer is yes with dashes in this line, else the loop never ends *)
  Theorem C89_last_line text pre post n : first_place singles_heading text (String.length pre) -> text = pre ++ singles_heading ++ post -> ~ In nl (chars post) ->
    (occurs "--------" (singles_heading ++ post) -> parse_ip_output py_float cutoff (S n) (Some text) = Some (Ok true)) /\
    (~ occurs "--------" (singles_heading ++ post) -> parse_ip_output py_float cutoff n (Some text) = None).
  Proof.
    intros F E I.
    assert (M : free nl "ummary of ionization-potential eom-cc calculation") by (intros K; vm_compute in K; repeat destruct K as [K|K]; (discriminate || exact K)).
    assert (FR : free NL (singles_heading ++ post)).
    { apply free_app_iff. split; [|exact I]. intros [K|K]; [discriminate|exact (M K)]. }
    destruct (skip_to pre "S" _ post 4 (String.length pre) ltac:(discriminate) M) as (r & R & [[_ ->]|(B & _)]); [|destruct (B I)].
    change (String "S" "ummary of ionization-potential eom-cc calculation") with singles_heading in R.
    assert (NE : String.eqb (singles_heading ++ post) newline_s = false) by reflexivity.
    pose proof (take_line_end pre (singles_heading ++ post) FR) as T.
    assert (T0 : take_line (mkMap (la (pre ++ singles_heading ++ post)) (String.length (pre ++ singles_heading ++ post))) = ("", mkMap (la (pre ++ singles_heading ++ post)) (String.length (pre ++ singles_heading ++ post)))).
    { pose proof (take_line_end (pre ++ singles_heading ++ post) "" ltac:(intros [])) as T0. rewrite append_nil_r in T0. exact T0. }
    assert (W : forall k ls, percent_loop k (mkMap (la (pre ++ singles_heading ++ post)) (String.length (pre ++ singles_heading ++ post))) ls = None).
    { induction k as [|k IH]; intros ls; [reflexivity|]. cbn [percent_loop]. rewrite T0. change (String.eqb "" newline_s || contains "--------" "") with false. apply IH. }
    split.
    - intros O. rewrite (heading_place _ _ _ F E), E, R, Nat2Z.id. cbn [percent_loop]. rewrite T, NE. apply contains_spec in O. rewrite O. reflexivity.
    - intros O. rewrite (heading_place _ _ _ F E), E, R, Nat2Z.id. destruct n as [|n]; [reflexivity|]. cbn [percent_loop]. rewrite T, NE.
      destruct (contains "--------" (singles_heading ++ post)) eqn:C; [apply contains_spec in C; destruct (O C)|]. cbn [orb]. rewrite W. reflexivity.
  Qed.
  Theorem C89_missing n : parse_ip_output py_float cutoff n None = Some (Raise OSError) /\ parse_ip_output py_float cutoff n (Some "") = Some (Raise ValueError) /\
    forall text, text <> "" -> ~ occurs singles_heading text -> parse_ip_output py_float cutoff n (Some text) = Some (Raise OtherException).
  Proof.
    split; [reflexivity|]. split; [reflexivity|]. intros text N O. unfold parse_ip_output. destruct (la text) as [|c t] eqn:D; [destruct text; [congruence|discriminate]|]. rewrite <- D.
    change singles_target with (la singles_heading). rewrite find_none; [reflexivity|]. intros (u & v & E). apply O. exists u, v. exact E.
  Qed.
  Lemma first_exists h text : occurs h text -> exists pre post, text = pre ++ h ++ post /\ first_place h text (String.length pre).
  Proof.
    intros (u & v & E). destruct (C46_find (mkMap (la text) 0) (la h) ltac:(cbn; lia)) as [F1 F2]. cbn [data pos] in *.
    assert (OC : forall a b, text = a ++ h ++ b -> occurs_at (la h) (la text) (String.length a)) by (intros a b ->; exists (la a), (la b); rewrite !la_app, la_length; auto).
    destruct (find_string_in_file (mkMap (la text) 0) (la h)) as [z|e] eqn:R.
    - destruct (proj1 (F1 z) eq_refl) as (p & -> & _ & (x & y & D & L) & M). exists (string_of_list_ascii x), (string_of_list_ascii y).
      assert (T : text = string_of_list_ascii x ++ h ++ string_of_list_ascii y) by (apply la_inj; rewrite !la_app, !list_ascii_of_string_of_list_ascii; exact D).
      assert (LX : String.length (string_of_list_ascii x) = p) by (rewrite <- la_length, list_ascii_of_string_of_list_ascii; exact L). split; [exact T|]. split; [eauto|]. intros a b EE. rewrite LX. apply M; [lia|]. exact (OC a b EE).
    - exfalso. assert (X : @Raise Z e = Raise OtherException) by (unfold find_string_in_file in R; cbv zeta in R; destruct (_ =? -1)%Z in R; congruence). apply (proj1 F2 X (String.length u)); [lia|]. exact (OC u v E).
  Qed.
  (** no file gives the answer no *)
  Theorem C89_never_no n file : parse_ip_output py_float cutoff n file <> Some (Ok false).
  Proof.
    destruct file as [text|]; [|discriminate]. destruct (C89_missing n) as (_ & M2 & M3). destruct (string_dec text "") as [->|N]; [rewrite M2; discriminate|].
    destruct (contains singles_heading text) eqn:C.
    - apply contains_spec in C. destruct (first_exists singles_heading text C) as (pre & post & E & F). destruct n as [|n]; [rewrite (heading_place _ _ _ F E); discriminate|].
      destruct (in_dec ascii_dec nl (chars post)) as [I|I]; [rewrite (C89_always_yes _ _ _ _ F E I); discriminate|].
      destruct (contains "--------" (singles_heading ++ post)) eqn:O.
      + apply contains_spec in O. rewrite (proj1 (C89_last_line _ _ _ n F E I) O). discriminate.
      + rewrite (proj2 (C89_last_line _ _ _ (S n) F E I)); [discriminate|]. apply ex_not_occurs. exact O.
    - rewrite (M3 text N (ex_not_occurs _ _ C)). discriminate.
  Qed.
  (** what is computed from a table once it is read: whether the fifth words of all rows are above the cutoff *)
  Theorem C89_judge lines percents : Forall2 (fun row p => exists ws w, worded row ws /\ nth_error ws 4 = Some w /\ py_float w = Ok p) lines percents ->
    exists b, judge py_float cutoff lines = Ok b /\ (b = true <-> Forall (fun p => cutoff < p)%Q percents).
  Proof.
    intros F. unfold judge. eexists. split.
    - replace (map_res _ lines) with (Ok percents : res (list Q)); [reflexivity|]. induction F as [|row p lines percents (ws & w & W & N & P) F IH]; [reflexivity|]. cbn [map_res]. rewrite (worded_sound _ _ W). assert (I : item ws 4 = Ok w) by (unfold item; rewrite N; reflexivity). rewrite I. cbn [bind]. rewrite P. cbn [bind]. rewrite <- IH. reflexivity.
    - rewrite negb_true_iff. clear F. induction percents as [|p percents IH]; [split; [constructor|reflexivity]|]. cbn [existsb]. rewrite orb_false_iff, IH, Forall_cons_iff.
      assert (Q : Qle_bool p cutoff = false <-> (cutoff < p)%Q) by (rewrite <- not_true_iff_false, Qle_bool_iff; split; [apply Qnot_le_lt|apply Qlt_not_le]). rewrite Q. reflexivity.
  Qed.
  Theorem C89_judge_fails lines row ws : In row lines -> worded row ws -> (nth_error ws 4 = None \/ exists w e, nth_error ws 4 = Some w /\ py_float w = Raise e) ->
    exists e, judge py_float cutoff lines = Raise e.
  Proof.
    intros I W B. unfold judge. enough (X : exists e, map_res (fun x => do w <- item (words x) 4; py_float w) lines = Raise e) by (destruct X as [e ->]; cbn [bind]; eauto).
    induction lines as [|x lines IH]; [destruct I|]. cbn [map_res]. destruct I as [->|I].
    - rewrite (worded_sound _ _ W). destruct B as [B|(w & e & B & P)].
      + assert (IT : item ws 4 = Raise IndexError) by (unfold item; rewrite B; reflexivity). rewrite IT. cbn [bind]. eauto.
      + assert (IT : item ws 4 = Ok w) by (unfold item; rewrite B; reflexivity). rewrite IT. cbn [bind]. rewrite P. cbn [bind]. eauto.
    - destruct (item (words x) 4) as [w|e]; cbn [bind]; [|eauto]. destruct (py_float w) as [q|e]; cbn [bind]; [|eauto]. destruct (IH I) as [e ->]. cbn [bind]. eauto.
  Qed.
End Check.
Lemma advance_frame j : jparams (fst (advance j)) = jparams j /\ jlog (fst (advance j)) = jlog j.
Proof. unfold advance, create_state_file, record_state, mbind. destruct j as [[s|] [f|] p l]; try (destruct s); cbn; auto. Qed.
(** the search for the number of states: it is never reduced, and at most one calculation is run *)
Theorem C89_nip_kept py_float cutoff w fuel j :
  (forall z, exists n file, parse_ip_output py_float cutoff n file = Some (w_parse_ip w z)) ->
  exists j' r, verify_ip_states w (S fuel) j = Some (j', r) /\ jparams j' = jparams j /\
    (r = Ok tt -> exists k, dget String.eqb (jparams j) "nip" = Some (PInt k) /\ w_parse_ip w k = Ok true) /\
    exists ev, jlog j' = (jlog j ++ ev)%list /\ (ev = [] \/ exists k, ev = [Started IPEOMCC (Some k)] \/ ev = [Started IPEOMCC (Some k); Completed IPEOMCC (Some k)]).
Proof.
  intros H. assert (N : forall z, w_parse_ip w z <> Ok false). { intros z E. destruct (H z) as (n & file & F). rewrite E in F. exact (C89_never_no _ _ _ _ F). } clear H.
  cbn [verify_ip_states]. unfold ip_round, mbind.
  assert (C : exists j1 r1, ip_calc w j = (j1, r1) /\ jparams j1 = jparams j /\ exists ev, jlog j1 = (jlog j ++ ev)%list /\ (ev = [] \/ exists k, ev = [Started IPEOMCC (Some k)] \/ ev = [Started IPEOMCC (Some k); Completed IPEOMCC (Some k)])).
  { unfold ip_calc, in_state, mbind, get_nip, calculation. destruct (jstate j) as [s|]; [|exists j, (Ok tt); split; [reflexivity|]; split; [reflexivity|]; exists []; rewrite app_nil_r; auto].
    destruct (stage_eqb IPEOMCC s); [|exists j, (Ok tt); split; [reflexivity|]; split; [reflexivity|]; exists []; rewrite app_nil_r; auto].
    destruct (dget String.eqb (jparams j) "nip") as [[| |z]|]; try (eexists j, _; split; [reflexivity|]; split; [reflexivity|]; exists []; rewrite app_nil_r; auto).
    destruct (w_ip w z) as [[]|e]; eexists _, _; (split; [reflexivity|]); (split; [reflexivity|]); cbn; rewrite <- ?app_assoc; eexists; (split; [reflexivity|]); right; exists z; auto. }
  destruct C as (j1 & r1 & -> & P1 & ev & L1 & EV). destruct r1 as [[]|e]; [|exists j1, (Raise e); split; [reflexivity|]; split; [exact P1|]; split; [discriminate|eauto]].
  unfold get_nip. rewrite P1. destruct (dget String.eqb (jparams j) "nip") as [[| |z]|] eqn:G; cbn [lift]; try (eexists j1, _; split; [reflexivity|]; split; [exact P1|]; split; [discriminate|eauto]).
  unfold lift. specialize (N z). destruct (w_parse_ip w z) as [[]|e] eqn:W; [|congruence|eexists j1, _; split; [reflexivity|]; split; [exact P1|]; split; [discriminate|eauto]].
  destruct (advance_frame j1) as [A1 A2]. unfold in_state. destruct (jstate j1) as [s|]; [destruct (stage_eqb IPEOMCC s)|]; try (unfold ret; exists j1, (Ok tt); split; [reflexivity|]; split; [exact P1|]; split; [eauto|eauto]).
  destruct (advance j1) as [j2 [[]|e]]; cbn [fst] in *; unfold ret; eexists j2, _; (split; [reflexivity|]); (split; [congruence|]); (split; [eauto; discriminate|]); rewrite A2; eauto.
Qed.
(** finding: a state with too few singles is not noticed, whatever the cutoff *)
Definition singles_file (pre h0 h1 h2 h3 h4 : string) (rows : list string) (rest : string) : string :=
  pre ++ singles_heading ++ h0 ++ NL1 ++ h1 ++ NL1 ++ h2 ++ NL1 ++ h3 ++ NL1 ++ h4 ++ NL1 ++ file_text rows ++ rest.
Definition ex_rows : list string := ["  1  1  12.38  0.45  93.10  ok"; "  1  2  19.95  0.73  41.25  ok"].
Definition ex_file : string := singles_file ("@lanczos" ++ NL1) "" "" "----" " Sym root IP a.u. singles" "" ex_rows ("-------------------------" ++ NL1).
Definition ex_percent (s : string) : res Q := if String.eqb s "93.10" then Ok (9310 # 100) else if String.eqb s "41.25" then Ok (4125 # 100) else Raise ValueError.
Definition ex_tail : string := NL1 ++ "" ++ NL1 ++ "----" ++ NL1 ++ " Sym root IP a.u. singles" ++ NL1 ++ "" ++ NL1 ++ file_text ex_rows ++ "-------------------------" ++ NL1.
Lemma ex_heading : first_place singles_heading ex_file (String.length ("@lanczos" ++ NL1)).
Proof. exact (ex_place "S" "ummary of ionization-potential eom-cc calculation" ("@lanczos" ++ NL1) ex_tail eq_refl). Qed.
Theorem C89_low_refuted : ~ forall py_float cutoff pre h0 h1 h2 h3 h4 rows rest row ws w p,
  first_place singles_heading (singles_file pre h0 h1 h2 h3 h4 rows rest) (String.length pre) -> Forall (free nl) [h0; h1; h2; h3; h4] -> Forall (free nl) rows ->
  In row rows -> worded row ws -> nth_error ws 4 = Some w -> py_float w = Ok p -> (p <= cutoff)%Q ->
  exists n, parse_ip_output py_float cutoff n (Some (singles_file pre h0 h1 h2 h3 h4 rows rest)) = Some (Ok false).
Proof.
  intros H. destruct (H ex_percent (85 # 1) ("@lanczos" ++ NL1) "" "" "----" " Sym root IP a.u. singles" "" ex_rows ("-------------------------" ++ NL1) "  1  2  19.95  0.73  41.25  ok" ["1"; "2"; "19.95"; "0.73"; "41.25"; "ok"] "41.25" (4125 # 100)) as [n N].
  - exact ex_heading.
  - apply ex_free. reflexivity.
  - apply ex_free. reflexivity.
  - right. left. reflexivity.
  - apply ex_worded. reflexivity.
  - reflexivity.
  - reflexivity.
  - discriminate.
  - exact (C89_never_no _ _ _ _ N).
Qed.
Example C89_always_yes_ex : parse_ip_output ex_percent (85 # 1) 1 (Some ex_file) = Some (Ok true) /\ judge ex_percent (85 # 1) ex_rows = Ok false.
Proof.
  split; [|vm_compute; reflexivity]. apply (C89_always_yes ex_percent (85 # 1) ex_file ("@lanczos" ++ NL1) ex_tail 0 ex_heading eq_refl). left. reflexivity.
Qed.
Example C89_last_line_ex : (forall n, parse_ip_output ex_percent (85 # 1) n (Some ("x" ++ singles_heading ++ " (")) = None) /\ parse_ip_output ex_percent (85 # 1) 1 (Some ("x" ++ singles_heading ++ " --------")) = Some (Ok true).
Proof.
  assert (P : forall t, first_place singles_heading ("x" ++ singles_heading ++ t) 1) by (intros t; exact (ex_place "S" "ummary of ionization-potential eom-cc calculation" "x" t eq_refl)).
  split.
  - intros n. apply (C89_last_line ex_percent (85 # 1) _ "x" " (" n (P _) eq_refl); [intros I; cbn in I; decompose [or] I; (discriminate || assumption)|apply ex_not_occurs; reflexivity].
  - apply (C89_last_line ex_percent (85 # 1) _ "x" " --------" 0 (P _) eq_refl); [intros I; cbn in I; decompose [or] I; (discriminate || assumption)|]. exists (singles_heading ++ " "), "". reflexivity.
Qed.
Example C89_missing_ex : parse_ip_output ex_percent (85 # 1) 7 (Some "no summary") = Some (Raise OtherException).
Proof. apply C89_missing; [discriminate|apply ex_not_occurs; reflexivity]. Qed.
Example C89_judge_ex : exists b, judge ex_percent (40 # 1) ex_rows = Ok b /\ (b = true <-> Forall (fun p => (40 # 1) < p)%Q [9310 # 100; 4125 # 100]).
Proof. apply C89_judge. repeat (apply Forall2_cons; [eexists _, _; split; [apply ex_worded; reflexivity|split; reflexivity]|]). apply Forall2_nil. Qed.
Example C89_judge_fails_ex : exists e, judge ex_percent (40 # 1) ["1 1 1.0 2.0 93.10"; "1 2 3"] = Raise e.
Proof. apply (C89_judge_fails ex_percent (40 # 1) _ "1 2 3" ["1"; "2"; "3"]); [right; left; reflexivity|apply ex_worded; reflexivity|left; reflexivity]. Qed.
(** five states, all outputs complete: five they remain *)
Definition ex_world : world := mkWorld (Some "") (Ok tt) (Ok tt) (Ok tt) (Ok tt) (Ok 5%Z) (Ok tt) (fun _ => Ok tt) (fun _ => Ok true) (Ok tt) (Ok tt) (Ok tt) (Ok tt).
Example C89_nip_kept_ex : exists j' r, verify_ip_states ex_world 1 (mkJob (Some IPEOMCC) (Some "") [("nip", PInt 5)]%string []) = Some (j', r) /\ jparams j' = [("nip", PInt 5)]%string.
Proof.
  destruct (C89_nip_kept ex_percent (85 # 1) ex_world 0 (mkJob (Some IPEOMCC) (Some "") [("nip", PInt 5)]%string [])) as (j' & r & E & P & _); [|eauto].
  intros z. exists 1, (Some ex_file). exact (proj1 C89_always_yes_ex).
Qed.
Print Assumptions C89_always_yes.
Print Assumptions C89_last_line.
Print Assumptions C89_missing.
Print Assumptions C89_never_no.
Print Assumptions C89_judge.
Print Assumptions C89_judge_fails.
Print Assumptions C89_nip_kept.
Print Assumptions C89_low_refuted.
