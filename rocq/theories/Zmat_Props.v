(** C85, C86: geometries *)
From Coq Require Import Lia.
From Verif Require Import Common Common_Proofs PyStr_Model PyStr_Proofs ModelOp_Spec ModelOp2_Proofs Json_Spec Julia_Spec Julia_Proofs ModelOp_Model ModelOp3_Proofs Julia_Spec Auto_Spec Auto_Proofs Auto_Proofs2 FileSearch_Spec FileSearch_Model FileSearch_Proofs Zmat_Model Zmat_Spec Zmat_Proofs.
Local Open Scope string_scope.
Local Open Scope nat_scope.

Lemma dset_keys (d : list (string * string)) k v : map fst (dset String.eqb d k v) = (map fst d ++ (if in_dec string_dec k (map fst d) then [] else [k]))%list.
Proof.
  induction d as [|[k' v'] d IH]; [reflexivity|]. cbn [dset]. destruct (String.eqb_spec k k') as [->|N].
  - cbn [map fst]. destruct (in_dec string_dec k' (k' :: map fst d)) as [_|N]; [rewrite app_nil_r; reflexivity|exfalso; apply N; left; reflexivity].
  - cbn [map fst app]. rewrite IH. do 2 f_equal. destruct (in_dec string_dec k (map fst d)) as [I|I], (in_dec string_dec k (k' :: map fst d)) as [J|J]; try reflexivity; exfalso; [apply J; right; exact I|destruct J as [->|J]; [congruence|exact (I J)]].
Qed.
Lemma dupdate_keys (l d : list (string * string)) : exists more, map fst (dupdate String.eqb d l) = (map fst d ++ more)%list /\ forall k, In k more -> ~ In k (map fst d).
Proof.
  revert d. induction l as [|[k v] l IH]; intros d.
  - exists []. rewrite app_nil_r. split; [reflexivity|intros k []].
  - change (dupdate String.eqb d ((k, v) :: l)) with (dupdate String.eqb (dset String.eqb d k v) l). destruct (IH (dset String.eqb d k v)) as (more & E & M). rewrite dset_keys in E, M. rewrite E. rewrite <- app_assoc. eexists. split; [reflexivity|].
    intros x I. apply in_app_iff in I. destruct I as [I|I].
    + destruct (in_dec string_dec k (map fst d)); [destruct I|]. destruct I as [<-|[]]. assumption.
    + intros J. apply (M x I). apply in_app_iff. left. exact J.
Qed.
Lemma dupdate_updated (old kvs : list (string * string)) : NoDup (map fst old) -> updated old kvs (dupdate String.eqb old kvs).
Proof.
  intros N. pose proof (dupdate_nodup kvs old N) as N2. split; [|split; [exact N2|apply dupdate_keys]]. intros k v.
  rewrite <- (dget_iff String.eqb String.eqb_eq _ k v N2), dupdate_get, <- (dget_iff String.eqb String.eqb_eq _ k v N). reflexivity.
Qed.

(** ** the constructor *)
Theorem C85_init_internal rel lines kvs tail : rel_text rel -> lines <> [] -> Forall2 (fun x kv => coord_line x (fst kv) (snd kv)) lines kvs ->
  tail = "" \/ tail = NL1 \/ (exists more, tail = NL1 ++ NL1 ++ more) ->
  exists coord, zmat_init (rel ++ NL1 ++ NL1 ++ lines_text lines ++ tail) = Ok (Internal (rel ++ NL1) coord) /\ updated [] kvs coord /\ (NoDup (map fst kvs) -> coord = kvs).
Proof.
  intros R N F T. exists (dupdate String.eqb [] kvs). split; [apply init_internal; assumption|]. split; [apply dupdate_updated; constructor|]. intros D. apply (dupdate_fresh kvs []). exact D.
Qed.
Theorem C85_init_bad_line rel lines tail : rel_text rel -> Forall (fun x => unbroken x /\ x <> "") lines -> In "="%char (chars (rel ++ lines_text lines ++ tail)) ->
  tail = "" \/ tail = NL1 \/ (exists more, tail = NL1 ++ NL1 ++ more) -> (exists x, In x lines /\ count_occ ascii_dec (chars x) "="%char <> 1) ->
  zmat_init (rel ++ NL1 ++ NL1 ++ lines_text lines ++ tail) = Raise ValueError.
Proof.
  intros R F I T (x & X & C). assert (N : lines <> []) by (destruct lines; [destruct X|discriminate]). unfold zmat_init. cbv zeta. change newline_s with NL1. rewrite contains_char.
  - destruct (blocks rel lines tail R N F T) as (b1 & bs & -> & S). unfold item. cbn [nth_error bind]. rewrite S, dict_of_some_bad; [reflexivity|]. apply Exists_exists. exists x. split; [exact X|]. apply pair_bad. exact C.
  - rewrite !chars_app, !in_app_iff in *. tauto.
Qed.
(** a text without "=" is taken to be cartesian, a text with one is not *)
Theorem C85_init_kind text : (free "=" text -> zmat_init text = Ok (Cartesian (text ++ NL1 ++ NL1))) /\ (~ free "=" text -> forall c, zmat_init text <> Ok (Cartesian c)) /\
  (~ free "=" text -> ~ occurs (NL1 ++ NL1) (text ++ NL1) -> zmat_init text = Raise IndexError).
Proof.
  assert (K : ~ free "=" text -> contains "=" (text ++ NL1) = true). { intros N. apply contains_char. rewrite chars_app, in_app_iff. left. destruct (in_dec ascii_dec "="%char (chars text)) as [I|I]; [exact I|destruct (N I)]. }
  split; [|split].
  - intros F. unfold zmat_init. cbv zeta. change newline_s with NL1. rewrite contains_char_not; [rewrite append_assoc; reflexivity|]. intros I. rewrite chars_app, in_app_iff in I. destruct I as [I|[I|[]]]; [exact (F I)|discriminate].
  - intros N c. unfold zmat_init. cbv zeta. change newline_s with NL1. rewrite (K N). destruct (item _ 0); cbn [bind]; [|discriminate]. destruct (item _ 1); cbn [bind]; [|discriminate]. destruct (dict_of _); discriminate.
  - intros N B. unfold zmat_init. cbv zeta. change newline_s with NL1. rewrite (K N), split_no_blank by exact B. reflexivity.
Qed.
(** ** get *)
Theorem C85_get i coord : zmat_get true (Internal i coord) = i ++ NL1 ++ file_text (map (fun kv => fst kv ++ "=" ++ snd kv) coord) ++ NL1.
Proof. apply get_internal. Qed.
(** the stars are removed from the relations only *)
Theorem C85_get_stars i coord : exists i', zmat_get false (Internal i coord) = zmat_get true (Internal i' coord) /\ chars i' = filter (fun c => if ascii_dec c "*" then false else true) (chars i).
Proof. exists (star_free i). rewrite !get_internal. split; [reflexivity|]. unfold star_free, chars. apply list_ascii_of_string_of_list_ascii. Qed.
Theorem C85_get_cartesian opt c : zmat_get opt (Cartesian c) = c.
Proof. reflexivity. Qed.
Theorem C85_round_trip rel coord : rel_text rel -> coord <> [] -> NoDup (map fst coord) -> Forall (fun kv => item_text (fst kv) /\ item_text (snd kv)) coord ->
  zmat_init (zmat_get true (Internal (rel ++ NL1) coord)) = Ok (Internal (rel ++ NL1) coord).
Proof. apply round_trip. Qed.
(** ** set *)
Theorem C85_set_internal i coord new_ : NoDup (map fst coord) -> exists coord', set_internal i coord new_ = Internal i coord' /\ updated coord new_ coord'.
Proof. intros N. eexists. split; [reflexivity|]. apply dupdate_updated. exact N. Qed.
Theorem C85_set_cartesian old new_ : old <> [] -> new_ <> [] -> Forall (free nl) old -> Forall (free nl) new_ ->
  (forall kept replaced, full_lines old = (kept ++ replaced)%list -> length replaced = length (full_lines new_) ->
   set_cartesian (lines_text old) (lines_text new_) = Ok (Cartesian (lines_text (kept ++ full_lines new_)%list ++ NL1 ++ NL1))) /\
  (length (full_lines old) < length (full_lines new_) -> set_cartesian (lines_text old) (lines_text new_) = Raise OtherException).
Proof.
  intros N1 N2 F1 F2. pose proof (set_cartesian_ok old new_ N1 N2 F1 F2) as E. change (filter full old) with (full_lines old) in E. change (filter full new_) with (full_lines new_) in E. split.
  - intros kept replaced O L. rewrite E, O, app_length. destruct (Nat.ltb_spec (length kept + length replaced) (length (full_lines new_))); [lia|].
    replace (length kept + length replaced - length (full_lines new_)) with (length kept) by lia. rewrite firstn_app, firstn_all, Nat.sub_diag, firstn_O, app_nil_r. reflexivity.
  - intros L. rewrite E. destruct (Nat.ltb_spec (length (full_lines old)) (length (full_lines new_))); [reflexivity|lia].
Qed.

(** ** the output of the optimisation *)
Definition heading (z : zmat) : string := match z with Internal _ _ => "Summary of optimized internal coordinates" | Cartesian _ => "Summary of optimized Cartesian coordinates (Ang)" end.
Definition convergence : string := "Frequencies of the updated Hessian at convergence".
Lemma first_found pre h post : first_after pre h post -> find_string_in_file (mkMap (la (pre ++ h ++ post)) 0) (la h) = Ok (Z.of_nat (String.length pre)).
Proof. intros F. apply find_first. split; [exists pre, post; auto|exact F]. Qed.
Lemma nonempty_text_la h pre post : h <> "" -> exists c d, la (pre ++ h ++ post) = c :: d.
Proof. intros N. destruct pre as [|c pre]; [|cbn; eauto]. destruct h as [|c h]; [congruence|cbn; eauto]. Qed.
Lemma lines_read h pre h1 h2 rest n : h <> "" -> free NL h -> free NL h1 -> free NL h2 -> first_after pre h (h1 ++ NL1 ++ h2 ++ NL1 ++ rest) ->
  geometry_lines h n (la (pre ++ h ++ h1 ++ NL1 ++ h2 ++ NL1 ++ rest)) =
  Ok (loop n (mkMap (la ((pre ++ h ++ h1 ++ NL1 ++ h2 ++ NL1) ++ rest)) (String.length (pre ++ h ++ h1 ++ NL1 ++ h2 ++ NL1))) []).
Proof.
  intros N Fh F1 F2 O. unfold geometry_lines. destruct (nonempty_text_la h pre (h1 ++ NL1 ++ h2 ++ NL1 ++ rest) N) as (c & d & E). rewrite E, <- E. rewrite first_found by exact O. cbn [bind]. rewrite Nat2Z.id.
  pose proof (readlines_at 2 pre [h ++ h1; h2] rest eq_refl) as R.
  assert (Q : pre ++ file_text [h ++ h1; h2] ++ rest = pre ++ h ++ h1 ++ NL1 ++ h2 ++ NL1 ++ rest) by (unfold NL1; cbn [file_text]; repeat (progress (rewrite ?append_assoc; cbn [String.append])); reflexivity).
  rewrite Q in R. rewrite R; [|repeat constructor; apply free_all; [rewrite free_app_iff; split; assumption|assumption]].
  do 2 f_equal. f_equal; [f_equal|f_equal]; unfold NL1; cbn [file_text]; repeat (progress (rewrite ?append_assoc; cbn [String.append])); reflexivity.
Qed.
Lemma heading_free z : heading z <> "" /\ free NL (heading z).
Proof. destruct z; (split; [discriminate|intros I; vm_compute in I; repeat destruct I as [I|I]; (discriminate || exact I)]). Qed.

(** what follows the lines of the geometry: an empty line, or the file ends with the other heading *)
Definition ends (rest : string) : Prop := (exists more, rest = NL1 ++ more) \/ rest = convergence.
Lemma loop_ends ys rest n a : Forall (free NL) ys -> ~ In "" ys -> ends rest -> length ys < n ->
  loop n (mkMap (la (a ++ file_text ys ++ rest)) (String.length a)) [] = Some (map ended ys).
Proof. intros F N [[more ->]| ->] L; [apply (loop_found ys more n a [])|apply (loop_last ys n a [])]; assumption. Qed.

Theorem C86_internal i coord pre h1 h2 ys kvs rest n : free nl h1 -> free nl h2 -> NoDup (map fst coord) ->
  first_after pre "Summary of optimized internal coordinates" (h1 ++ NL1 ++ h2 ++ NL1 ++ file_text ys ++ rest) ->
  Forall2 (fun x kv => coord_line x (fst kv) (snd kv)) ys kvs -> ends rest -> length ys < n ->
  exists coord', parse_opt_output n (Internal i coord) (Some (la (pre ++ "Summary of optimized internal coordinates" ++ h1 ++ NL1 ++ h2 ++ NL1 ++ file_text ys ++ rest))) = Ok (Some (Internal i coord')) /\
    updated coord kvs coord'.
Proof.
  intros F1 F2 D O C E L. unfold parse_opt_output. change internal_heading with "Summary of optimized internal coordinates". rewrite lines_read by (try assumption; apply (heading_free (Internal "" []))). cbn [bind].
  pose proof (coords_lines _ _ C) as CL. rewrite loop_ends; try assumption.
  - rewrite (dict_of_coords_nl _ _ C : dict_of (map ended ys) = _). cbn [bind]. eexists. split; [reflexivity|]. 
    assert (N0 : NoDup (map fst (@nil (string * string)))) by constructor. pose proof (dupdate_nodup kvs [] N0) as N1. pose proof (dupdate_updated [] kvs N0) as [U _]. destruct (dupdate_updated coord (dupdate String.eqb [] kvs) D) as (V & N2 & K). split; [|split; assumption].
    intros k v. rewrite V. assert (LV : forall v, last_value (dupdate String.eqb [] kvs) k v <-> last_value kvs k v).
    { intros w. split.
      - intros (a & b & Q & _). destruct (proj1 (U k w)) as [X|[_ []]]; [rewrite Q; apply in_app_iff; right; left; reflexivity|exact X].
      - intros X. destruct (in_split _ _ (proj2 (U k w) (or_introl X))) as (a & b & Q). exists a, b. split; [exact Q|]. rewrite Q, map_app in N1. cbn in N1. apply NoDup_remove_2 in N1. intros I. apply N1. apply in_app_iff. right. exact I. }
    rewrite LV. assert (KS : In k (map fst (dupdate String.eqb [] kvs)) <-> In k (map fst kvs)).
    { split; intros I.
      - apply in_map_iff in I. destruct I as ([k' w] & <- & I). apply U in I. destruct I as [(a & b & -> & _)|[_ []]]. rewrite map_app, in_app_iff. right. left. reflexivity.
      - assert (X : exists w, last_value kvs k w). { clear - I. induction kvs as [|[k' w] kvs IH]; [destruct I|]. destruct (in_dec string_dec k (map fst kvs)) as [J|J].
          + destruct (IH J) as (w' & a & b & -> & M). exists w', ((k', w) :: a), b. auto.
          + destruct I as [E|I]; [|destruct (J I)]. cbn in E. subst k'. exists w, [], kvs. auto. }
        destruct X as [w X]. apply in_map_iff. exists (k, w). split; [reflexivity|]. apply U. left. exact X. }
    rewrite KS. reflexivity.
  - eapply Forall_impl; [|exact CL]. intros x [U _]. apply unbroken_free. exact U.
  - intros I. rewrite Forall_forall in CL. apply (CL _ I). reflexivity.
Qed.
Theorem C86_internal_bad i coord pre h1 h2 ys rest n : free nl h1 -> free nl h2 ->
  first_after pre "Summary of optimized internal coordinates" (h1 ++ NL1 ++ h2 ++ NL1 ++ file_text ys ++ rest) ->
  Forall (free nl) ys -> ~ In "" ys -> (exists y, In y ys /\ count_occ ascii_dec (chars y) "="%char <> 1) -> ends rest -> length ys < n ->
  parse_opt_output n (Internal i coord) (Some (la (pre ++ "Summary of optimized internal coordinates" ++ h1 ++ NL1 ++ h2 ++ NL1 ++ file_text ys ++ rest))) = Raise ValueError.
Proof.
  intros F1 F2 O F N (y & Y & C) E L. unfold parse_opt_output. change internal_heading with "Summary of optimized internal coordinates". rewrite lines_read by (try assumption; apply (heading_free (Internal "" []))). cbn [bind].
  rewrite loop_ends by assumption. rewrite dict_of_some_bad; [reflexivity|]. apply Exists_exists. exists (ended y). split; [apply in_map; exact Y|]. apply pair_bad. unfold ended. rewrite chars_app, count_occ_app. cbn. rewrite Nat.add_0_r. exact C.
Qed.
(** ** cartesian *)
Lemma plain_is_word w : plain_word w -> word w.
Proof. intros [N P]. split; [exact N|]. apply all_chars_iff. intros c I. apply negb_true_iff. apply not_blank. apply P. exact I. Qed.
Lemma worded_words y ws : worded y ws -> words (ended y) = ws.
Proof.
  unfold ended. induction 1 as [b B|b w B W|b w c s ws B W C S IH].
  - rewrite words_spaces by (apply blanks_iff; exact B). reflexivity.
  - rewrite append_assoc, words_spaces by (apply blanks_iff; exact B). apply words_sep_end; [apply plain_is_word; exact W|reflexivity].
  - rewrite !append_assoc, words_spaces by (apply blanks_iff; exact B). cbn [String.append]. rewrite words_word by (try apply plain_is_word; try apply blank_iff; assumption). rewrite IH. reflexivity.
Qed.
Lemma worded_free y ws : worded y ws -> free nl (atom_line ws).
Proof.
  assert (P : Forall plain_word ws -> free nl (atom_line ws)).
  { unfold atom_line. induction 1 as [|w ws W F IH]; [intros []|]. cbn [map]. assert (X : free nl (w ++ " ")).
    - rewrite free_app_iff. split; [intros I; apply (proj2 W _ I); unfold blank; cbn; lia|intros [I|[]]; discriminate].
    - destruct ws as [|w2 ws]; [exact X|]. cbn [map String.concat] in *. rewrite free_app_iff. split; [exact X|exact IH]. }
  intros W. apply P. clear P. induction W as [b B|b w B W|b w c s ws B W C S IH]; [apply Forall_nil|apply Forall_cons; [exact W|apply Forall_nil]|apply Forall_cons; [exact W|exact IH]].
Qed.
Lemma concat_lines ls : String.concat "" (map (fun x => x ++ NL1) ls) = file_text ls.
Proof. induction ls as [|x ls IH]; [reflexivity|]. cbn [map file_text]. destruct ls as [|y ls]; [reflexivity|]. cbn [map String.concat] in *. rewrite IH. rewrite append_assoc. reflexivity. Qed.
Lemma text_of_rows ys wss : Forall2 worded ys wss -> cartesian_text (map ended ys) = lines_text (map atom_line wss ++ [""; ""])%list.
Proof.
  intros F. unfold cartesian_text. assert (E : map (fun line => String.concat "" (map (fun item => item ++ " ") (words line)) ++ newline_s) (map ended ys) = map (fun x => x ++ NL1) (map atom_line wss)).
  { induction F as [|y ws ys wss W F IH]; [reflexivity|]. cbn [map]. rewrite IH, (worded_words _ _ W). reflexivity. }
  rewrite E, concat_lines. generalize (map atom_line wss). intros rows. clear. unfold lines_text. induction rows as [|x rows IH]; [reflexivity|]. cbn [app file_text]. destruct (rows ++ [""; ""])%list as [|z l] eqn:Q; [destruct rows; discriminate|]. cbn [String.concat] in *. rewrite <- IH. rewrite !append_assoc. reflexivity.
Qed.
Theorem C86_cartesian old pre h1 h2 ys wss rest n : old <> [] -> Forall (free nl) old -> free nl h1 -> free nl h2 ->
  first_after pre "Summary of optimized Cartesian coordinates (Ang)" (h1 ++ NL1 ++ h2 ++ NL1 ++ file_text ys ++ rest) ->
  Forall (free nl) ys -> ~ In "" ys -> Forall2 worded ys wss -> ends rest -> length ys < n ->
  let text := pre ++ "Summary of optimized Cartesian coordinates (Ang)" ++ h1 ++ NL1 ++ h2 ++ NL1 ++ file_text ys ++ rest in
  let atoms := full_lines (map atom_line wss) in
  (forall kept replaced, full_lines old = (kept ++ replaced)%list -> length replaced = length atoms ->
   parse_opt_output n (Cartesian (lines_text old)) (Some (la text)) = Ok (Some (Cartesian (lines_text (kept ++ atoms)%list ++ NL1 ++ NL1)))) /\
  (length (full_lines old) < length atoms -> parse_opt_output n (Cartesian (lines_text old)) (Some (la text)) = Raise OtherException).
Proof.
  intros N0 F0 F1 F2 O F N W E L text atoms. unfold parse_opt_output, text. change cartesian_heading with "Summary of optimized Cartesian coordinates (Ang)". rewrite lines_read by (try assumption; apply (heading_free (Cartesian ""))). cbn [bind].
  rewrite loop_ends by assumption. rewrite (text_of_rows _ _ W). assert (FA : full_lines (map atom_line wss ++ [""; ""])%list = atoms). { unfold full_lines, atoms. rewrite filter_app. cbn. apply app_nil_r. }
  destruct (C85_set_cartesian old (map atom_line wss ++ [""; ""])%list) as [S1 S2]; try assumption.
  - destruct wss; discriminate.
  - apply Forall_app. split; [|repeat constructor; intros []]. clear - W. induction W as [|y ws ys wss X W IH]; constructor; [exact (worded_free _ _ X)|exact IH].
  - rewrite FA in S1, S2. split; [intros kept replaced A B; rewrite (S1 _ _ A B); reflexivity|intros A; rewrite (S2 A); reflexivity].
Qed.
(** ** no end *)
Theorem C86_never z pre h1 h2 ys t n : free nl h1 -> free nl h2 -> first_after pre (heading z) (h1 ++ NL1 ++ h2 ++ NL1 ++ file_text ys ++ t) ->
  Forall (free nl) ys -> ~ In "" ys -> free nl t -> t <> convergence ->
  parse_opt_output n z (Some (la (pre ++ heading z ++ h1 ++ NL1 ++ h2 ++ NL1 ++ file_text ys ++ t))) = Ok None.
Proof.
  intros F1 F2 O F N T C. destruct (heading_free z) as [H1 H2]. unfold parse_opt_output. destruct z as [i coord|c]; cbn [heading] in *; [change internal_heading with "Summary of optimized internal coordinates"|change cartesian_heading with "Summary of optimized Cartesian coordinates (Ang)"]; rewrite lines_read by assumption; cbn [bind]; rewrite loop_never by assumption; reflexivity.
Qed.
Theorem C86_missing n z : parse_opt_output n z None = Raise OSError /\ parse_opt_output n z (Some []) = Raise ValueError /\
  forall text, text <> "" -> ~ occurs (heading z) text -> parse_opt_output n z (Some (la text)) = Raise OtherException.
Proof.
  split; [reflexivity|]. split; [destruct z; reflexivity|]. intros text N L. assert (G : geometry_lines (heading z) n (la text) = Raise OtherException).
  { unfold geometry_lines. destruct text as [|c text]; [congruence|]. change (la (String c text)) with (c :: la text) at 1. cbn iota beta. rewrite find_none by exact L. reflexivity. }
  unfold parse_opt_output. destruct z; cbn [heading] in G; [change internal_heading with "Summary of optimized internal coordinates"|change cartesian_heading with "Summary of optimized Cartesian coordinates (Ang)"]; rewrite G; reflexivity.
Qed.

(** ** examples *)
Definition ex_rel : string := "H2O" ++ NL1 ++ "O" ++ NL1 ++ "H 1 R*" ++ NL1 ++ "H 1 R* 2 A*".
Lemma ex_not_occurs p s : contains p s = false -> ~ occurs p s.
Proof. intros C (a & b & E). assert (contains p s = true) by (apply contains_spec; eauto). congruence. Qed.
Lemma ex_rel_text : rel_text ex_rel.
Proof. apply ex_not_occurs. reflexivity. Qed.
Lemma item_ok s : all_chars (fun c => negb (Ascii.eqb c "=") && negb (is_space c)) s = true -> all_chars (fun c => negb (line_end c)) s = true -> item_text s.
Proof.
  intros A U. assert (B : forall c, In c (chars s) -> c <> "="%char /\ ~ blank c).
  { intros c I. rewrite all_chars_iff in A. specialize (A c I). rewrite andb_true_iff, !negb_true_iff in A. destruct A as [A1 A2]. split; [intros ->; discriminate|]. intros X. apply blank_iff in X. congruence. }
  split; [intros I; apply (proj1 (B _ I)); reflexivity|]. split; [apply unbroken_iff; exact U|]. split.
  - intros c u ->. apply B. left. reflexivity.
  - intros c u ->. apply B. rewrite chars_app, in_app_iff. right. left. reflexivity.
Qed.
Lemma pads l : forallb (fun p => all_chars (fun c => is_space c && negb (line_end c)) p) l = true -> Forall (fun p => blanks p /\ unbroken p) l.
Proof.
  rewrite forallb_forall. intros H. apply Forall_forall. intros p I. specialize (H p I). rewrite all_chars_iff in H. split.
  - intros c C. apply blank_iff. specialize (H c C). apply andb_true_iff in H. apply H.
  - apply unbroken_iff. unfold one_line. rewrite all_chars_iff. intros c C. specialize (H c C). apply andb_true_iff in H. apply H.
Qed.
Lemma ex_coords : Forall2 (fun x kv => coord_line x (fst kv) (snd kv)) ["R =0.96"; " A= 104.5 "] [("R", "0.96"); ("A", "104.5")].
Proof.
  constructor; [exists "", " ", "", ""|constructor; [exists " ", "", " ", " "|constructor]]; (split; [reflexivity|]; split; [apply item_ok; reflexivity|]; split; [apply item_ok; reflexivity|apply pads; reflexivity]).
Qed.
Example C85_init_internal_ex : exists coord, zmat_init (ex_rel ++ NL1 ++ NL1 ++ lines_text ["R =0.96"; " A= 104.5 "] ++ NL1) = Ok (Internal (ex_rel ++ NL1) coord) /\ coord = [("R", "0.96"); ("A", "104.5")].
Proof.
  destruct (C85_init_internal ex_rel ["R =0.96"; " A= 104.5 "] [("R", "0.96"); ("A", "104.5")] NL1 ex_rel_text) as (coord & E & _ & N); [discriminate|exact ex_coords|auto|].
  exists coord. split; [exact E|]. apply N. cbn. repeat constructor; cbn; intuition discriminate.
Qed.
Example C85_init_bad_line_ex : zmat_init (ex_rel ++ NL1 ++ NL1 ++ lines_text ["R=0.96"; "A=104.5=x"] ++ "") = Raise ValueError.
Proof.
  apply C85_init_bad_line; [exact ex_rel_text| |vm_compute; tauto|auto|exists "A=104.5=x"; split; [right; left; reflexivity|vm_compute; discriminate]].
  constructor; [|constructor; [|constructor]]; (split; [apply unbroken_iff; reflexivity|discriminate]).
Qed.
Example C85_init_kind_ex : zmat_init ("water" ++ NL1 ++ "O 0 0 0") = Ok (Cartesian (("water" ++ NL1 ++ "O 0 0 0") ++ NL1 ++ NL1)) /\ zmat_init ("water, charge=0" ++ NL1 ++ "O 0 0 0") = Raise IndexError.
Proof.
  split; [apply (proj1 (C85_init_kind _)); vm_compute; intuition discriminate|]. apply (proj2 (proj2 (C85_init_kind _))); [intros F; apply F; vm_compute; tauto|apply ex_not_occurs; reflexivity].
Qed.
Example C85_get_stars_ex : zmat_get false (Internal ("H 1 R*" ++ NL1) [("R", "1*")]) = "H 1 R" ++ NL1 ++ NL1 ++ "R=1*" ++ NL1 ++ NL1.
Proof. reflexivity. Qed.
Example C85_round_trip_ex : zmat_init (zmat_get true (Internal (ex_rel ++ NL1) [("R", "0.96"); ("A", "104.5")])) = Ok (Internal (ex_rel ++ NL1) [("R", "0.96"); ("A", "104.5")]).
Proof.
  apply C85_round_trip; [exact ex_rel_text|discriminate|cbn; repeat constructor; cbn; intuition discriminate|]. constructor; [|constructor; [|constructor]]; (split; apply item_ok; reflexivity).
Qed.
Example C85_set_internal_ex : set_internal "x" [("R", "1"); ("A", "2")] [("A", "3"); ("A", "4")] = Internal "x" [("R", "1"); ("A", "4")] /\ NoDup (map fst [("R", "1"); ("A", "2")]).
Proof. split; [reflexivity|]. cbn. repeat constructor; cbn; intuition discriminate. Qed.
Lemma ex_free l : forallb (fun s => all_chars (fun c => negb (Ascii.eqb c nl)) s) l = true -> Forall (free nl) l.
Proof.
  rewrite forallb_forall. intros H. apply Forall_forall. intros s I J. specialize (H s I). rewrite all_chars_iff in H. specialize (H _ J). rewrite Ascii.eqb_refl in H. discriminate.
Qed.
Example C85_set_cartesian_ex : set_cartesian (lines_text ["water"; "O 0 0 0"; "H 1 0 0"; ""; ""]) (lines_text ["O 0 0 0.1 "; "H 1 0 0.2 "; ""]) = Ok (Cartesian (lines_text ["water"; "O 0 0 0.1 "; "H 1 0 0.2 "] ++ NL1 ++ NL1)).
Proof.
  apply (proj1 (C85_set_cartesian ["water"; "O 0 0 0"; "H 1 0 0"; ""; ""] ["O 0 0 0.1 "; "H 1 0 0.2 "; ""] ltac:(discriminate) ltac:(discriminate) ltac:(apply ex_free; reflexivity) ltac:(apply ex_free; reflexivity)) ["water"] ["O 0 0 0"; "H 1 0 0"]); reflexivity.
Qed.
Lemma ex_first c m pre post : free c pre -> first_after pre (String c m) post.
Proof. intros F a b E. destruct (occurrence_after c m pre _ a b (free_all _ _ F) E) as (u & -> & _). rewrite append_length. lia. Qed.
Example C86_internal_ex : exists coord', parse_opt_output 3 (Internal "i" [("R", "1"); ("Q", "5")]) (Some (la ("text " ++ NL1 ++ "Summary of optimized internal coordinates" ++ " x" ++ NL1 ++ "---" ++ NL1 ++ file_text ["R =0.96"; " A= 104.5 "] ++ NL1 ++ "more"))) = Ok (Some (Internal "i" coord')) /\
  updated [("R", "1"); ("Q", "5")] [("R", "0.96"); ("A", "104.5")] coord'.
Proof.
  apply (C86_internal "i" [("R", "1"); ("Q", "5")] ("text " ++ NL1) " x" "---" ["R =0.96"; " A= 104.5 "]); [vm_compute; intuition discriminate|vm_compute; intuition discriminate|cbn; repeat constructor; cbn; intuition discriminate|apply ex_first; vm_compute; intuition discriminate|exact ex_coords|left; eexists; reflexivity|cbn; lia].
Qed.
Example C86_internal_bad_ex : parse_opt_output 3 (Internal "i" []) (Some (la ("" ++ "Summary of optimized internal coordinates" ++ "" ++ NL1 ++ "---" ++ NL1 ++ file_text ["R 0.96"] ++ convergence))) = Raise ValueError.
Proof.
  apply (C86_internal_bad "i" [] "" "" "---" ["R 0.96"]); [intros []|vm_compute; intuition discriminate|apply ex_first; intros []|apply ex_free; reflexivity|cbn; intuition discriminate|exists "R 0.96"; split; [left; reflexivity|vm_compute; discriminate]|right; reflexivity|cbn; lia].
Qed.
Example C86_cartesian_ex : parse_opt_output 3 (Cartesian (lines_text ["water"; "O 0 0 0"; "H 1 0 0"; ""; ""])) (Some (la ("" ++ "Summary of optimized Cartesian coordinates (Ang)" ++ "" ++ NL1 ++ "---" ++ NL1 ++ file_text ["O  0 0"; " H 1"] ++ NL1 ++ ""))) = Ok (Some (Cartesian (lines_text ["water"; "O 0 0 "; "H 1 "] ++ NL1 ++ NL1))).
Proof.
  refine (proj1 (C86_cartesian ["water"; "O 0 0 0"; "H 1 0 0"; ""; ""] "" "" "---" ["O  0 0"; " H 1"] [["O"; "0"; "0"]; ["H"; "1"]] (NL1 ++ "") 3 _ _ _ _ _ _ _ _ _ _) ["water"] ["O 0 0 0"; "H 1 0 0"] eq_refl eq_refl);
    [discriminate|apply ex_free; reflexivity|intros []|vm_compute; intuition discriminate|apply ex_first; intros []|apply ex_free; reflexivity|cbn; intuition discriminate| |left; exists ""; reflexivity|cbn; lia].
  assert (B0 : blanks "") by (intros c []). assert (B1 : blanks " ") by (apply blanks_iff; reflexivity). assert (SP : blank " ") by (apply blank_iff; reflexivity).
  assert (W : forall w, w <> "" -> all_chars (fun c => negb (is_space c)) w = true -> plain_word w). { intros w N A. split; [exact N|]. intros c I X. rewrite all_chars_iff in A. specialize (A c I). apply blank_iff in X. rewrite X in A. discriminate. }
  constructor; [|constructor; [|constructor]].
  - apply (wd_cons "" "O" " " " 0 0"); [exact B0|apply W; [discriminate|reflexivity]|exact SP|]. apply (wd_cons " " "0" " " "0"); [exact B1|apply W; [discriminate|reflexivity]|exact SP|]. apply (wd_last "" "0"); [exact B0|apply W; [discriminate|reflexivity]].
  - apply (wd_cons " " "H" " " "1"); [exact B1|apply W; [discriminate|reflexivity]|exact SP|]. apply (wd_last "" "1"); [exact B0|apply W; [discriminate|reflexivity]].
Qed.
Example C86_never_ex n : parse_opt_output n (Cartesian "water") (Some (la ("" ++ "Summary of optimized Cartesian coordinates (Ang)" ++ "" ++ NL1 ++ "---" ++ NL1 ++ file_text ["O 0 0 0"; convergence] ++ "more"))) = Ok None.
Proof.
  apply (C86_never (Cartesian "water") "" "" "---" ["O 0 0 0"; convergence] "more"); [intros []|vm_compute; intuition discriminate|apply ex_first; intros []|apply ex_free; reflexivity|cbn; intuition discriminate|vm_compute; intuition discriminate|discriminate].
Qed.
Example C86_missing_ex : parse_opt_output 5 (Cartesian "water") (Some (la "nothing")) = Raise OtherException.
Proof. apply C86_missing; [discriminate|apply ex_not_occurs; reflexivity]. Qed.
Print Assumptions C85_init_internal.
Print Assumptions C85_init_bad_line.
Print Assumptions C85_init_kind.
Print Assumptions C85_get.
Print Assumptions C85_get_stars.
Print Assumptions C85_get_cartesian.
Print Assumptions C85_round_trip.
Print Assumptions C85_set_internal.
Print Assumptions C85_set_cartesian.
Print Assumptions C86_internal.
Print Assumptions C86_internal_bad.
Print Assumptions C86_cartesian.
Print Assumptions C86_never.
Print Assumptions C86_missing.
