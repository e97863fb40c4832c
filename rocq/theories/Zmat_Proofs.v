From Coq Require Import Lia.
From Verif Require Import Common Common_Proofs PyStr_Model PyStr_Proofs ModelOp_Spec ModelOp2_Proofs Json_Spec Julia_Spec Julia_Proofs ModelOp_Model ModelOp_Spec ModelOp3_Proofs Julia_Spec Auto_Spec Auto_Proofs Auto_Proofs2 FileSearch_Spec FileSearch_Model FileSearch_Proofs Zmat_Model Zmat_Spec.
Local Open Scope string_scope.
Local Open Scope nat_scope.

(** ** characters *)
Lemma all_chars_iff (p : ascii -> bool) s : all_chars p s = true <-> forall c, In c (chars s) -> p c = true.
Proof.
  unfold chars. induction s as [|c s IH]; cbn [all_chars list_ascii_of_string].
  - split; [intros _ c []|reflexivity].
  - rewrite andb_true_iff, IH. split; [intros [C S] x [<-|I]; auto|intros H; split; [apply H; left; reflexivity|intros x I; apply H; right; exact I]].
Qed.
Lemma unbroken_iff s : unbroken s <-> one_line s.
Proof.
  unfold unbroken, one_line. rewrite all_chars_iff. split; intros H c I; specialize (H c I); unfold line_end in *; cbv zeta in *; rewrite ?negb_true_iff, ?orb_false_iff, ?andb_false_iff, ?Nat.leb_gt in *; lia.
Qed.
Lemma chars_app a b : chars (a ++ b) = (chars a ++ chars b)%list.
Proof. unfold chars. induction a; cbn; congruence. Qed.
Lemma free_app_iff c a b : free c (a ++ b) <-> free c a /\ free c b.
Proof. unfold free. rewrite chars_app, in_app_iff. tauto. Qed.
Lemma unbroken_app a b : unbroken (a ++ b) <-> unbroken a /\ unbroken b.
Proof. rewrite !unbroken_iff. unfold one_line. rewrite all_chars_app, andb_true_iff. reflexivity. Qed.
Lemma blanks_free c s : ~ blank c -> blanks s -> free c s.
Proof. intros N B I. apply N. apply B. exact I. Qed.
Lemma blanks_app a b : blanks (a ++ b) <-> blanks a /\ blanks b.
Proof. rewrite <- !blanks_iff, all_chars_app, andb_true_iff. reflexivity. Qed.
Lemma not_blank c : ~ blank c -> is_space c = false.
Proof. intros N. destruct (is_space c) eqn:E; [exfalso; apply N; apply blank_iff; exact E|reflexivity]. Qed.

Lemma last_cases s : s = "" \/ exists u c, s = u ++ String c "".
Proof.
  induction s as [|x s [->|(u & c & ->)]]; [left; reflexivity|right; exists "", x; reflexivity|right; exists (String x u), c; reflexivity].
Qed.
Lemma strip_blanks s : blanks s -> strip s = "".
Proof. intros B. apply blanks_iff in B. unfold strip. assert (E : lstrip s = ""). { clear - B. induction s as [|c s IH]; [reflexivity|]. cbn in *. apply andb_true_iff in B. destruct B as [-> B]. apply IH. exact B. } rewrite E. reflexivity. Qed.
Lemma strip_trimmed p1 s p2 : blanks p1 -> blanks p2 -> trimmed s -> strip (p1 ++ s ++ p2) = s.
Proof.
  intros B1 B2 [T1 T2]. destruct s as [|c u].
  - apply strip_blanks. apply blanks_app. split; assumption.
  - unfold strip. rewrite lstrip_app by (apply blanks_iff; exact B1). rewrite (lstrip_id (String c u ++ p2) c (u ++ p2)) by (reflexivity || (apply not_blank; apply (T1 c u); reflexivity)).
    rewrite rstrip_app by (apply blanks_iff; exact B2). destruct (last_cases (String c u)) as [E|(v & x & E)]; [discriminate|]. rewrite E. apply rstrip_last. apply not_blank. apply (T2 x v). exact E.
Qed.
(** ** lines of coordinates *)
Lemma eq_not_blank : ~ blank "=".
Proof. unfold blank. cbn. lia. Qed.
Lemma pair_ok p1 k p2 p3 v p4 : free "=" k -> trimmed k -> free "=" v -> trimmed v -> blanks p1 -> blanks p2 -> blanks p3 -> blanks p4 ->
  pair_of (p1 ++ k ++ p2 ++ "=" ++ p3 ++ v ++ p4) = Ok (k, v).
Proof.
  intros K1 K3 V1 V3 B1 B2 B3 B4. unfold pair_of.
  replace (p1 ++ k ++ p2 ++ "=" ++ p3 ++ v ++ p4) with ((p1 ++ k ++ p2) ++ String "=" (p3 ++ v ++ p4)) by (rewrite !append_assoc; reflexivity).
  rewrite split_char_more by (rewrite !free_app_iff; repeat split; try assumption; apply blanks_free; auto using eq_not_blank).
  rewrite split_char by (rewrite !free_app_iff; repeat split; try assumption; apply blanks_free; auto using eq_not_blank).
  cbn [map]. rewrite !strip_trimmed by assumption. reflexivity.
Qed.
Lemma coord_pair x k v : coord_line x k v -> pair_of x = Ok (k, v).
Proof.
  intros (p1 & p2 & p3 & p4 & -> & (K1 & K2 & K3) & (V1 & V2 & V3) & P). inv P. inv H2. inv H4. inv H5. destruct H1 as [B1 _], H3 as [B2 _], H2 as [B3 _], H4 as [B4 _]. apply pair_ok; assumption.
Qed.
Lemma blanks_nl : blanks (String NL "").
Proof. apply blanks_iff. reflexivity. Qed.
Lemma coord_pair_nl x k v : coord_line x k v -> pair_of (x ++ String NL "") = Ok (k, v).
Proof.
  intros (p1 & p2 & p3 & p4 & -> & (K1 & K2 & K3) & (V1 & V2 & V3) & P). inv P. inv H2. inv H4. inv H5. destruct H1 as [B1 _], H3 as [B2 _], H2 as [B3 _], H4 as [B4 _]. 
  replace ((p1 ++ k ++ p2 ++ "=" ++ p3 ++ v ++ p4) ++ String NL "") with (p1 ++ k ++ p2 ++ "=" ++ p3 ++ v ++ (p4 ++ String NL "")) by (rewrite !append_assoc; reflexivity).
  apply pair_ok; try assumption. apply blanks_app. split; [exact B4|exact blanks_nl].
Qed.
Notation body := (fun d x => do kv <- pair_of x; Ok (dset String.eqb d (fst kv) (snd kv))).
Lemma dict_of_pairs lines kvs d : Forall2 (fun x kv => pair_of x = Ok kv) lines kvs -> for_res body lines d = Ok (dupdate String.eqb d kvs).
Proof.
  intros F. revert d. induction F as [|x [k v] lines kvs C F IH]; intros d; cbn [for_res]; [reflexivity|]. rewrite C. cbn [bind fst snd]. rewrite IH. reflexivity.
Qed.
Lemma dict_of_coords lines kvs : Forall2 (fun x kv => coord_line x (fst kv) (snd kv)) lines kvs -> dict_of lines = Ok (dupdate String.eqb [] kvs).
Proof. intros F. apply dict_of_pairs. induction F as [|x [k v] lines kvs C F IH]; constructor; [apply coord_pair; exact C|exact IH]. Qed.
Lemma dict_of_coords_nl lines kvs : Forall2 (fun x kv => coord_line x (fst kv) (snd kv)) lines kvs -> dict_of (map (fun x => x ++ String NL "") lines) = Ok (dupdate String.eqb [] kvs).
Proof. intros F. apply dict_of_pairs. induction F as [|x [k v] lines kvs C F IH]; cbn [map]; constructor; [apply coord_pair_nl; exact C|exact IH]. Qed.
(** a line without "=" or with several *)
Lemma split_some (c : ascii) s : In c (chars s) -> exists a b, s = a ++ String c b /\ free c a.
Proof.
  unfold chars. induction s as [|x s IH]; intros I; [destruct I|]. destruct (ascii_dec x c) as [->|N].
  - exists "", s. split; [reflexivity|intros []].
  - destruct I as [E|I]; [congruence|]. destruct (IH I) as (a & b & -> & F). exists (String x a), b. split; [reflexivity|]. intros [E|J]; [congruence|exact (F J)].
Qed.
Lemma split_len c s : length (split (String c "") s) = S (count_occ ascii_dec (chars s) c).
Proof.
  remember (String.length s) as n eqn:L. assert (LE : String.length s <= n) by lia. clear L. revert s LE. induction n as [|n IH]; intros s LE.
  - destruct s; [reflexivity|cbn in LE; lia].
  - destruct (in_dec ascii_dec c (chars s)) as [I|I].
    + destruct (split_some c s I) as (a & b & -> & F). rewrite split_char_more by exact F. cbn [length]. rewrite IH by (rewrite append_length in LE; cbn in LE; lia).
      rewrite chars_app, count_occ_app. unfold free in F. rewrite (proj1 (count_occ_not_In ascii_dec _ _) F). change (chars (String c b)) with (c :: chars b). rewrite count_occ_cons_eq by reflexivity. reflexivity.
    + rewrite split_char by exact I. cbn. f_equal. symmetry. apply count_occ_not_In. exact I.
Qed.
Lemma pair_bad x : count_occ ascii_dec (chars x) "="%char <> 1 -> pair_of x = Raise ValueError.
Proof.
  intros N. unfold pair_of. pose proof (split_len "=" x) as L. destruct (split "=" x) as [|a [|b [|c l]]] eqn:E; try reflexivity. rewrite ?E in L. cbn [length] in L. lia.
Qed.
Lemma dict_of_some_bad lines : Exists (fun x => pair_of x = Raise ValueError) lines -> dict_of lines = Raise ValueError.
Proof.
  intros H. unfold dict_of. generalize (@nil (string * string)) at 1. induction lines as [|y l IH]; intros d; [inv H|]. cbn [for_res].
  destruct (pair_of y) as [kv|e] eqn:P.
  - cbn [bind]. apply IH. inv H; [congruence|assumption].
  - cbn [bind]. unfold pair_of in P. destruct (map strip (split "=" y)) as [|? [|? [|? ?]]]; congruence.
Qed.
Lemma coord_unbroken x k v : coord_line x k v -> unbroken x /\ x <> "" /\ In "="%char (chars x).
Proof.
  intros (p1 & p2 & p3 & p4 & -> & (K1 & K2 & K3) & (V1 & V2 & V3) & P). inv P. inv H2. inv H4. inv H5. destruct H1 as [_ B1], H3 as [_ B2], H2 as [_ B3], H4 as [_ B4]. split; [|split].
  - rewrite !unbroken_app. intuition (auto; apply unbroken_iff; reflexivity).
  - intros E. apply (f_equal String.length) in E. rewrite !append_length in E. cbn in E. lia.
  - rewrite !chars_app, !in_app_iff. right; right; right. left. left. reflexivity.
Qed.
(** ** the two blocks *)
Lemma NN : blank_line = String NL "" ++ String NL "". Proof. reflexivity. Qed.
Lemma split_blank rel rest : rel_text rel -> split blank_line (rel ++ blank_line ++ rest) = rel :: split blank_line rest.
Proof.
  intros R. apply split_first; [discriminate|]. rewrite NN. apply no_start_init. apply contains_not. exact R.
Qed.
Lemma split_no_blank s : ~ occurs (NL1 ++ NL1) s -> split blank_line s = [s].
Proof.
  intros R. apply split_none; [discriminate|]. induction s as [|c s IH]; constructor.
  - destruct (String.prefix blank_line (String c s ++ "")) eqn:P; [exfalso|reflexivity]. apply R. exists "". apply prefix_true in P.
    destruct P as [b P]. exists b. rewrite append_nil_r in P. exact P.
  - apply IH. intros (a & b & E). apply R. exists (String c a), b. rewrite E. reflexivity.
Qed.
Lemma unbroken_free s : unbroken s -> free NL s.
Proof. intros U I. destruct (U _ I) as [A _]. apply A. cbn. lia. Qed.
Lemma lines_no_blank lines : Forall (fun x => unbroken x /\ x <> "") lines -> ~ occurs (NL1 ++ NL1) (file_text lines).
Proof.
  intros F (a & b & E). revert a E. induction F as [|x lines [U NE] F IH]; intros a E; cbn [file_text] in E.
  - destruct a; discriminate.
  - destruct (occurrence_after NL NL1 x _ a b (free_all _ _ (unbroken_free _ U)) E) as (u & -> & E2). destruct u as [|c u].
    + cbn in E2. injection E2 as E2. destruct F as [|y l [U2 NE2] F]; [discriminate|]. cbn [file_text] in E2. destruct y as [|c y]; [congruence|]. cbn in E2. injection E2 as -> _. apply (unbroken_free _ U2). left. reflexivity.
    + cbn [String.append] in E2. injection E2 as <- E2. exact (IH _ E2).
Qed.
Lemma joined_text lines : lines <> [] -> lines_text lines ++ NL1 = file_text lines.
Proof.
  unfold lines_text. induction lines as [|x lines IH]; intros N; [congruence|]. destruct lines as [|y l]; [reflexivity|]. cbn [String.concat file_text] in *. rewrite !append_assoc. rewrite IH by discriminate. reflexivity.
Qed.
Lemma splitlines_file lines : Forall unbroken lines -> splitlines (file_text lines) = lines.
Proof. induction 1 as [|x lines U F IH]; [reflexivity|]. cbn [file_text]. rewrite splitlines_cons by (apply unbroken_iff; exact U). rewrite IH. reflexivity. Qed.
Lemma splitlines_joined lines : Forall (fun x => unbroken x /\ x <> "") lines -> splitlines (lines_text lines) = lines.
Proof.
  unfold lines_text. induction 1 as [|x lines [U NE] F IH]; [reflexivity|]. destruct lines as [|y l].
  - cbn. rewrite splitlines_last by (apply unbroken_iff; exact U). destruct x; congruence.
  - cbn [String.concat] in *. change (x ++ String nl "" ++ ?t) with (x ++ String NL t). rewrite splitlines_cons by (apply unbroken_iff; exact U). rewrite IH. reflexivity.
Qed.
Lemma blocks rel lines tail : rel_text rel -> lines <> [] -> Forall (fun x => unbroken x /\ x <> "") lines -> tail = "" \/ tail = NL1 \/ (exists more, tail = NL1 ++ NL1 ++ more) ->
  exists b1 bs, split blank_line ((rel ++ NL1 ++ NL1 ++ lines_text lines ++ tail) ++ NL1) = rel :: b1 :: bs /\ splitlines b1 = lines.
Proof.
  intros R N F T. replace ((rel ++ NL1 ++ NL1 ++ lines_text lines ++ tail) ++ NL1) with (rel ++ blank_line ++ (lines_text lines ++ tail ++ NL1)) by (rewrite !append_assoc; reflexivity).
  rewrite split_blank by exact R. assert (R2 : rel_text (lines_text lines)). { unfold rel_text. rewrite joined_text by exact N. apply lines_no_blank. exact F. }
  assert (G : forall rest, exists b1 bs, rel :: split blank_line (lines_text lines ++ blank_line ++ rest) = rel :: b1 :: bs /\ splitlines b1 = lines).
  { intros rest. rewrite split_blank by exact R2. do 2 eexists. split; [reflexivity|]. apply splitlines_joined. exact F. }
  destruct T as [->|[->|[more ->]]].
  - cbn [String.append]. rewrite joined_text by exact N. rewrite split_no_blank by (apply lines_no_blank; exact F). do 2 eexists. split; [reflexivity|]. apply splitlines_file. eapply Forall_impl; [|exact F]. cbn. tauto.
  - apply (G "").
  - apply (G (more ++ NL1)).
Qed.
Lemma contains_char c s : In c (chars s) -> contains (String c "") s = true.
Proof. intros I. apply contains_spec. destruct (split_some c s I) as (a & b & -> & _). exists a, b. reflexivity. Qed.
Lemma contains_char_not c s : free c s -> contains (String c "") s = false.
Proof. intros F. apply contains_not. intros (a & b & ->). apply F. rewrite chars_app, in_app_iff. right. left. reflexivity. Qed.
Lemma coords_lines lines (kvs : list (string * string)) : Forall2 (fun x kv => coord_line x (fst kv) (snd kv)) lines kvs -> Forall (fun x => unbroken x /\ x <> "") lines.
Proof. induction 1 as [|x kv lines kvs C F IH]; constructor; [|exact IH]. destruct (coord_unbroken _ _ _ C) as (A & B & _). auto. Qed.
Lemma init_internal rel lines kvs tail : rel_text rel -> lines <> [] -> Forall2 (fun x kv => coord_line x (fst kv) (snd kv)) lines kvs ->
  tail = "" \/ tail = NL1 \/ (exists more, tail = NL1 ++ NL1 ++ more) ->
  zmat_init (rel ++ NL1 ++ NL1 ++ lines_text lines ++ tail) = Ok (Internal (rel ++ NL1) (dupdate String.eqb [] kvs)).
Proof.
  intros R N F T. unfold zmat_init. cbv zeta. change newline_s with NL1. rewrite contains_char.
  - destruct (blocks rel lines tail R N (coords_lines _ _ F) T) as (b1 & bs & -> & S). unfold item. cbn [nth_error bind]. rewrite S, (dict_of_coords _ _ F). reflexivity.
  - destruct F as [|x kv lines kvs C F]; [congruence|]. destruct (coord_unbroken _ _ _ C) as (_ & _ & I). rewrite !chars_app, !in_app_iff. left. right; right; right. left. unfold lines_text. destruct lines; [exact I|]. cbn [String.concat]. rewrite chars_app, in_app_iff. left. exact I.
Qed.
(** ** get *)
Definition star_free (s : string) : string := string_of_list_ascii (filter (fun c => if ascii_dec c "*" then false else true) (chars s)).
Lemma stars s : without_stars s = star_free s.
Proof.
  unfold without_stars, star_free, chars. induction s as [|c s IH]; [reflexivity|]. cbn [list_ascii_of_string filter]. destruct (ascii_dec c "*") as [->|N].
  - change (String "*" s) with ("*" ++ s). rewrite (remove_hit "*" "" s). exact IH.
  - cbn [string_of_list_ascii]. rewrite <- IH. change (String c s) with (String c "" ++ s). rewrite (remove_free "*" "" (String c "") s); [reflexivity|]. cbn. unfold nofree. apply Ascii.eqb_neq in N. rewrite N. reflexivity.
Qed.
Definition pair_text (kv : string * string) : string := fst kv ++ "=" ++ snd kv.
Lemma get_fold coord s : fold_left (fun s kv => s ++ fst kv ++ "=" ++ snd kv ++ newline_s) coord s = s ++ file_text (map pair_text coord).
Proof.
  revert s. induction coord as [|kv coord IH]; intros s; cbn [fold_left map file_text]; [rewrite append_nil_r; reflexivity|]. rewrite IH. unfold pair_text. rewrite !append_assoc. reflexivity.
Qed.
Lemma get_internal opt i coord : zmat_get opt (Internal i coord) = (if opt then i else star_free i) ++ NL1 ++ file_text (map pair_text coord) ++ NL1.
Proof.
  unfold zmat_get. cbv zeta. rewrite get_fold. destruct opt; [rewrite !append_assoc; reflexivity|]. rewrite stars.
  replace (star_free (i ++ newline_s)) with (star_free i ++ newline_s); [rewrite !append_assoc; reflexivity|].
  unfold star_free. rewrite chars_app, filter_app. generalize (filter (fun c => if ascii_dec c "*" then false else true) (chars i)). intros l. induction l as [|c l IH]; cbn; [reflexivity|]. f_equal. exact IH.
Qed.
Lemma pair_coord kv : item_text (fst kv) -> item_text (snd kv) -> coord_line (pair_text kv) (fst kv) (snd kv).
Proof.
  intros K V. exists "", "", "", "". split; [unfold pair_text; cbn [String.append]; rewrite append_nil_r; reflexivity|]. split; [exact K|]. split; [exact V|]. assert (Z : blanks "" /\ unbroken "") by (split; intros c []). exact (Forall_cons _ Z (Forall_cons _ Z (Forall_cons _ Z (Forall_cons _ Z (Forall_nil _))))).
Qed.
Lemma dupdate_fresh (l acc : list (string * string)) : NoDup (map fst (acc ++ l)%list) -> dupdate String.eqb acc l = (acc ++ l)%list.
Proof.
  revert acc. induction l as [|[k v] l IH]; intros acc N; [rewrite app_nil_r; reflexivity|]. change (dupdate String.eqb acc ((k, v) :: l)) with (dupdate String.eqb (dset String.eqb acc k v) l). rewrite (dset_fresh String.eqb String.eqb_eq).
  - rewrite IH; [rewrite <- app_assoc; reflexivity|]. rewrite <- app_assoc. exact N.
  - rewrite map_app in N. cbn in N. apply NoDup_remove_2 in N. intros I. apply N. apply in_app_iff. left. exact I.
Qed.
Lemma round_trip rel coord : rel_text rel -> coord <> [] -> NoDup (map fst coord) -> Forall (fun kv => item_text (fst kv) /\ item_text (snd kv)) coord ->
  zmat_init (zmat_get true (Internal (rel ++ NL1) coord)) = Ok (Internal (rel ++ NL1) coord).
Proof.
  intros R N D F. rewrite get_internal. assert (M : map pair_text coord <> []) by (destruct coord; [congruence|discriminate]).
  rewrite <- joined_text by exact M. replace ((rel ++ NL1) ++ NL1 ++ (lines_text (map pair_text coord) ++ NL1) ++ NL1) with (rel ++ NL1 ++ NL1 ++ lines_text (map pair_text coord) ++ (NL1 ++ NL1 ++ "")) by (rewrite !append_assoc; reflexivity).
  rewrite (init_internal rel (map pair_text coord) coord).
  - rewrite dupdate_fresh by exact D. reflexivity.
  - exact R.
  - exact M.
  - induction F as [|kv coord [K V] F IH]; constructor; [apply pair_coord; assumption|]. destruct coord; [constructor|]. apply IH; [discriminate|inv D; assumption|discriminate].
  - right; right. exists "". reflexivity.
Qed.
(** ** cartesian coordinates *)
Definition full (s : string) : bool := negb (String.eqb s "").
Lemma nonempty_text ls : ls <> [] -> Forall (free nl) ls -> nonempty_lines (lines_text ls) = filter full ls.
Proof. intros N F. unfold nonempty_lines. rewrite (Julia_Proofs.split_lines ls N F : split newline_s (lines_text ls) = ls). reflexivity. Qed.
Lemma put_at_here {A} (l1 : list A) y l2 x : put_at (l1 ++ y :: l2)%list (length l1) x = (l1 ++ x :: l2)%list.
Proof. induction l1 as [|z l1 IH]; cbn; [reflexivity|]. f_equal. exact IH. Qed.
Lemma put_all (new_ : list string) : forall diff pre done old2, length pre = diff -> length old2 = length new_ ->
  fold_left (fun o i => put_at o (i + diff) (nth i (done ++ new_)%list "")) (seq (length done) (length new_)) (pre ++ done ++ old2)%list = (pre ++ done ++ new_)%list.
Proof.
  induction new_ as [|x new_ IH]; intros diff pre done old2 P L; cbn [length seq fold_left].
  - destruct old2; [reflexivity|discriminate].
  - destruct old2 as [|y old2]; [discriminate|]. rewrite app_nth2, Nat.sub_diag by lia. cbn [nth].
    replace (put_at (pre ++ done ++ y :: old2)%list (length done + diff) x) with (pre ++ (done ++ [x]) ++ old2)%list.
    + specialize (IH diff pre (done ++ [x])%list old2 P ltac:(cbn in L; lia)). rewrite app_length in IH. cbn [length] in IH. rewrite Nat.add_1_r in IH. rewrite <- !app_assoc in *. exact IH.
    + rewrite (app_assoc pre done). replace (length done + diff) with (length (pre ++ done)%list) by (rewrite app_length; lia). rewrite put_at_here. rewrite <- !app_assoc. reflexivity.
Qed.
Lemma set_cartesian_ok old new_ : old <> [] -> new_ <> [] -> Forall (free nl) old -> Forall (free nl) new_ ->
  set_cartesian (lines_text old) (lines_text new_) =
  if length (filter full old) <? length (filter full new_) then Raise OtherException
  else Ok (Cartesian (lines_text (firstn (length (filter full old) - length (filter full new_)) (filter full old) ++ filter full new_)%list ++ NL1 ++ NL1)).
Proof.
  intros N1 N2 F1 F2. unfold set_cartesian. cbv zeta. rewrite !nonempty_text by assumption. generalize (filter full old) (filter full new_). clear. intros old new_.
  destruct (length old <? length new_) eqn:L; [reflexivity|]. apply Nat.ltb_ge in L. destruct (Nat.eqb_spec (length old - length new_) 0) as [E|E].
  - rewrite E. reflexivity.
  - do 2 f_equal. change (lines_text ?l) with (String.concat newline_s l). change (NL1 ++ NL1) with blank_line. do 2 f_equal.
    pose proof (put_all new_ (length old - length new_) (firstn (length old - length new_) old) [] (skipn (length old - length new_) old)) as P. cbn [app length] in P. rewrite firstn_skipn in P. apply P.
    + apply firstn_length_le. lia.
    + rewrite skipn_length. lia.
Qed.
(** ** reading the optimised geometry *)
Lemma take_line_at a x y : free NL x -> take_line (mkMap (la (a ++ x ++ String NL y)) (String.length a)) = (x ++ NL1, mkMap (la (a ++ x ++ String NL y)) (String.length (a ++ x ++ NL1))).
Proof.
  intros F. unfold take_line. rewrite readline_at by (apply free_all; exact F). cbn [pos data]. f_equal.
  rewrite !append_length. replace (String.length a + (String.length x + String.length (String NL "")) - String.length a) with (String.length (x ++ NL1)) by (rewrite append_length; cbn; lia).
  rewrite la_app. rewrite <- (la_length a) at 1. rewrite skipn_app, skipn_all, Nat.sub_diag. cbn [skipn app].
  replace (x ++ String NL y) with ((x ++ NL1) ++ y) by (rewrite append_assoc; reflexivity). rewrite la_app, <- (la_length (x ++ NL1)), firstn_app, firstn_all, Nat.sub_diag, firstn_O, app_nil_r. apply string_of_list_ascii_of_string.
Qed.
Lemma readline_end a t : free NL t -> readline (mkMap (la (a ++ t)) (String.length a)) = mkMap (la (a ++ t)) (String.length (a ++ t)).
Proof.
  intros F. pose proof (readline_ok (mkMap (la (a ++ t)) (String.length a))) as K. cbn [data pos] in K. rewrite !la_length in K. rewrite append_length in K at 1. specialize (K ltac:(lia)).
  destruct K as (D & B & [[_ P]|(P1 & P2 & P3)]).
  - destruct (readline (mkMap (la (a ++ t)) (String.length a))) as [d q]. cbn [data pos] in *. subst d q. reflexivity.
  - exfalso. set (q := pos (readline (mkMap (la (a ++ t)) (String.length a)))) in *. unfold newline_at in P2. rewrite la_app, nth_error_app2 in P2 by (rewrite la_length; lia). apply nth_error_In in P2. apply F. exact P2.
Qed.
Lemma take_line_end a t : free NL t -> take_line (mkMap (la (a ++ t)) (String.length a)) = (t, mkMap (la (a ++ t)) (String.length (a ++ t))).
Proof.
  intros F. unfold take_line. rewrite readline_end by exact F. cbn [pos data]. f_equal. rewrite la_app. rewrite <- (la_length a) at 2. rewrite skipn_app, skipn_all, Nat.sub_diag. cbn [skipn app].
  rewrite firstn_all2 by (rewrite la_length, append_length; lia). apply string_of_list_ascii_of_string.
Qed.
Lemma ended_not_heading x : String.eqb (x ++ NL1) last_heading = false.
Proof.
  apply String.eqb_neq. intros E. apply (f_equal (fun s => In NL (chars s))) in E. rewrite chars_app in E. assert (I : In NL (chars last_heading)) by (rewrite <- E; apply in_app_iff; right; left; reflexivity). vm_compute in I. repeat destruct I as [I|I]; try discriminate. exact I.
Qed.
Lemma ended_blank x : String.eqb (x ++ NL1) newline_s = String.eqb x "".
Proof.
  destruct x as [|c x]; [reflexivity|]. apply String.eqb_neq. intros E. apply (f_equal String.length) in E. rewrite append_length in E. cbn in E. lia.
Qed.
Lemma loop_lines ys : Forall (free NL) ys -> ~ In "" ys -> forall n a rest acc,
  loop (length ys + n) (mkMap (la (a ++ file_text ys ++ rest)) (String.length a)) acc =
  loop n (mkMap (la (a ++ file_text ys ++ rest)) (String.length (a ++ file_text ys))) (acc ++ map ended ys)%list.
Proof.
  intros F. induction F as [|y ys Fy F IH]; intros N n a rest acc.
  - cbn [length file_text map plus]. rewrite app_nil_r, append_nil_r. reflexivity.
  - cbn [length plus loop file_text]. rewrite (append_assoc y). cbn [String.append]. rewrite take_line_at by exact Fy. rewrite ended_not_heading, ended_blank, orb_false_r.
    assert (E : String.eqb y "" = false) by (apply String.eqb_neq; intros ->; apply N; left; reflexivity). rewrite E.
    replace (a ++ y ++ String NL (file_text ys ++ rest)) with ((a ++ y ++ NL1) ++ file_text ys ++ rest) by (rewrite !append_assoc; reflexivity). rewrite IH by (intros I; apply N; right; exact I).
    f_equal; [|cbn [map]; rewrite <- app_assoc; reflexivity]. f_equal; rewrite !append_assoc; reflexivity.
Qed.
Lemma loop_short ys : Forall (free NL) ys -> ~ In "" ys -> forall n a rest acc, n <= length ys ->
  loop n (mkMap (la (a ++ file_text ys ++ rest)) (String.length a)) acc = None.
Proof.
  intros F. induction F as [|y ys Fy F IH]; intros N n a rest acc L; [cbn in L; replace n with 0 by lia; reflexivity|]. destruct n as [|n]; [reflexivity|]. cbn [loop file_text]. rewrite (append_assoc y). cbn [String.append]. rewrite take_line_at by exact Fy. rewrite ended_not_heading, ended_blank, orb_false_r.
  assert (E : String.eqb y "" = false) by (apply String.eqb_neq; intros ->; apply N; left; reflexivity). rewrite E.
  replace (a ++ y ++ String NL (file_text ys ++ rest)) with ((a ++ y ++ NL1) ++ file_text ys ++ rest) by (rewrite !append_assoc; reflexivity). apply IH; [intros I; apply N; right; exact I|cbn in L; lia].
Qed.
Lemma loop_at_end n d acc : loop n (mkMap (la d) (String.length d)) acc = None.
Proof.
  revert acc. induction n as [|n IH]; intros acc; [reflexivity|]. cbn [loop]. pose proof (take_line_end d "" ltac:(intros [])) as E. rewrite append_nil_r in E. rewrite E. cbn [String.eqb orb]. apply IH.
Qed.
Lemma loop_found ys rest n a acc : Forall (free NL) ys -> ~ In "" ys -> length ys < n ->
  loop n (mkMap (la (a ++ file_text ys ++ String NL rest)) (String.length a)) acc = Some (acc ++ map ended ys)%list.
Proof.
  intros F N L. replace n with (length ys + S (n - length ys - 1)) by lia. rewrite loop_lines by assumption. cbn [loop].
  pose proof (take_line_at (a ++ file_text ys) "" rest ltac:(intros [])) as E. rewrite append_assoc in E. cbn [String.append] in E. rewrite E. reflexivity.
Qed.
Lemma loop_last ys n a acc : Forall (free NL) ys -> ~ In "" ys -> length ys < n ->
  loop n (mkMap (la (a ++ file_text ys ++ last_heading)) (String.length a)) acc = Some (acc ++ map ended ys)%list.
Proof.
  intros F N L. replace n with (length ys + S (n - length ys - 1)) by lia. rewrite loop_lines by assumption. cbn [loop].
  pose proof (take_line_end (a ++ file_text ys) last_heading) as E. rewrite append_assoc in E. rewrite E; [|intros I; vm_compute in I; repeat destruct I as [I|I]; (discriminate || exact I)]. reflexivity.
Qed.
Lemma loop_never ys t n a acc : Forall (free NL) ys -> ~ In "" ys -> free NL t -> t <> last_heading ->
  loop n (mkMap (la (a ++ file_text ys ++ t)) (String.length a)) acc = None.
Proof.
  intros F N T H. destruct (Nat.le_gt_cases n (length ys)) as [L|L]; [apply loop_short; assumption|].
  replace n with (length ys + S (n - length ys - 1)) by lia. rewrite loop_lines by assumption. cbn [loop].
  pose proof (take_line_end (a ++ file_text ys) t T) as E. rewrite append_assoc in E. rewrite E. replace (String.eqb t newline_s || String.eqb t last_heading) with false; [apply loop_at_end|].
  symmetry. apply orb_false_iff. split; apply String.eqb_neq; [intros ->; apply T; left; reflexivity|exact H].
Qed.
