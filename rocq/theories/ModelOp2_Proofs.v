(** Proofs about the text of .op files: finding the parts *)
From Coq Require Import QArith.
From Verif Require Import Common Common_Proofs PyStr_Model PyStr_Proofs FileSearch_Model FileSearch_Spec FileSearch_Proofs FileSearch_Props ModelOp_Model ModelOp_Spec.
Local Open Scope nat_scope.
Local Open Scope list_scope.
Local Open Scope string_scope.

Notation NL := ("010"%char).
Notation la := list_ascii_of_string.
Definition nofree (x c : ascii) : bool := negb (Ascii.eqb c x).
Notation free x s := (all_chars (nofree x) s = true).

Lemma la_app a b : la (a ++ b) = (la a ++ la b)%list.
Proof. induction a; cbn; congruence. Qed.
Lemma la_length s : length (la s) = String.length s.
Proof. induction s; cbn; congruence. Qed.
Lemma la_inj a b : la a = la b -> a = b.
Proof. intros H. rewrite <- (string_of_list_ascii_of_string a), H. apply string_of_list_ascii_of_string. Qed.

(** ** occurrences *)
Lemma free_cons x c s : free x (String c s) <-> c <> x /\ free x s.
Proof. cbn. unfold nofree at 1. rewrite andb_true_iff, negb_true_iff, Ascii.eqb_neq. tauto. Qed.
Lemma free_app x a b : free x (a ++ b) <-> free x a /\ free x b.
Proof. rewrite all_chars_app, andb_true_iff. tauto. Qed.
(** a word without newline in front of a newline *)
Lemma prefix_before_newline b : free NL b -> forall v x rest, b ++ v = x ++ String NL rest -> exists v1, x = b ++ v1.
Proof.
  induction b as [|c b IH]; intros F v x rest E.
  - exists x. auto.
  - apply free_cons in F. destruct F as [F1 F2]. destruct x as [|d x]; cbn in E; injection E as -> E.
    + congruence.
    + destruct (IH F2 _ _ _ E) as [v1 ->]. exists v1. auto.
Qed.
Lemma occurrence_split b : free NL b -> b <> "" -> forall x u v rest, x ++ String NL rest = u ++ b ++ v ->
  (exists v1, x = u ++ b ++ v1) \/ (exists u', u = x ++ String NL u' /\ rest = u' ++ b ++ v).
Proof.
  intros F NE. induction x as [|c x IH]; intros u v rest E.
  - destruct u as [|d u].
    + destruct b as [|d b]; [congruence|]. cbn in E. injection E as <- E. apply free_cons in F. tauto.
    + cbn in E. injection E as <- E. right. exists u. auto.
  - destruct u as [|d u].
    + left. cbn [String.append] in E. symmetry in E. change (String c (x ++ String NL rest)) with (String c x ++ String NL rest) in E.
      destruct (prefix_before_newline b F _ _ _ E) as [v1 ->]. exists v1. auto.
    + cbn in E. injection E as <- E. destruct (IH _ _ _ E) as [[v1 ->]|(u' & -> & ->)]; [left|right]; eexists; cbn; eauto.
Qed.
(** in front of characters other than the first one of the marker *)
Lemma occurrence_after c m : forall x s u v, free c x -> x ++ s = u ++ String c m ++ v -> exists u', u = x ++ u' /\ s = u' ++ String c m ++ v.
Proof.
  induction x as [|d x IH]; intros s u v F E.
  - exists u. auto.
  - apply free_cons in F. destruct F as [F1 F2]. destruct u as [|e u]; cbn in E; injection E as <- E; [congruence|].
    destruct (IH _ _ _ F2 E) as (u' & -> & ->). exists u'. auto.
Qed.
Definition lacks (b s : string) : Prop := ~ exists u v, s = u ++ b ++ v.
Lemma lacks_contains b s : lacks b s <-> contains b s = false.
Proof. unfold lacks. rewrite <- contains_spec, not_true_iff_false. tauto. Qed.

(** the first occurrence of a marker *)
Definition first_at (b text : string) (p : nat) : Prop :=
  (exists u v, text = u ++ b ++ v /\ String.length u = p) /\ forall u v, text = u ++ b ++ v -> p <= String.length u.
Lemma first_at_lines c m pre hx hy post : free NL (String c m) -> free c hx ->
  Forall (lacks (String c m)) pre ->
  first_at (String c m) (file_text pre ++ hx ++ String c m ++ hy ++ post) (String.length (file_text pre ++ hx)).
Proof.
  intros F H L. split.
  - exists (file_text pre ++ hx), (hy ++ post). rewrite !append_assoc. auto.
  - induction L as [|x pre L1 L2 IH]; intros u v E.
    + cbn [file_text String.append] in *. destruct (occurrence_after _ _ _ _ _ _ H E) as (u' & -> & _). rewrite append_length. lia.
    + cbn [file_text] in *. rewrite append_assoc in E. cbn [String.append] in E.
      destruct (occurrence_split _ F ltac:(discriminate) _ _ _ _ E) as [[v1 K]|(u' & -> & E')].
      * exfalso. apply L1. eauto.
      * specialize (IH _ _ E'). repeat (rewrite ?append_length in *; cbn [String.length] in *). lia.
Qed.
Lemma find_first b text p : first_at b text p -> find_string_in_file (mkMap (la text) 0) (la b) = Ok (Z.of_nat p).
Proof.
  intros [(u & v & -> & <-) M].
  apply (proj1 (C46_find (mkMap (la (u ++ b ++ v)) 0) (la b) ltac:(cbn; lia))). exists (String.length u).
  split; auto. split; [cbn; lia|]. cbn [data pos]. split.
  - exists (la u), (la v). rewrite !la_app, la_length. auto.
  - intros q _ (x & y & E & <-).
    assert (X : u ++ b ++ v = string_of_list_ascii x ++ b ++ string_of_list_ascii y).
    { apply la_inj. rewrite E, !la_app, !list_ascii_of_string_of_list_ascii. auto. }
    apply M in X. rewrite <- (la_length (string_of_list_ascii x)), list_ascii_of_string_of_list_ascii in X. auto.
Qed.
Lemma find_none b text : lacks b text -> find_string_in_file (mkMap (la text) 0) (la b) = Raise OtherException.
Proof.
  intros L. apply (proj2 (C46_find (mkMap (la text) 0) (la b) ltac:(cbn; lia))). cbn [data pos].
  intros q _ (x & y & E & _). apply L. exists (string_of_list_ascii x), (string_of_list_ascii y).
  apply la_inj. rewrite E, !la_app, !list_ascii_of_string_of_list_ascii. auto.
Qed.

(** ** reading lines *)
Lemma newline_not_in x a q : free NL x -> q < String.length x -> ~ occurs_at newline (la (x ++ a)) q.
Proof.
  intros F Q (u & v & E & <-). revert u E Q. induction x as [|c x IH]; intros u E Q; [cbn in Q; lia|].
  apply free_cons in F. destruct F as [F1 F2]. destruct u as [|d u]; cbn in E.
  - injection E as E _. apply F1. rewrite E. reflexivity.
  - injection E as _ E. apply (IH F2 u E). cbn in Q. lia.
Qed.
Lemma readline_at a x y : free NL x ->
  readline (mkMap (la (a ++ x ++ String NL y)) (String.length a)) =
  mkMap (la (a ++ x ++ String NL y)) (String.length (a ++ x ++ String NL "")).
Proof.
  intros F. unfold readline. cbn [data pos]. f_equal. set (d := la (a ++ x ++ String NL y)).
  set (m := mkMap d (String.length a)).
  assert (LD : length d = String.length a + String.length x + 1 + String.length y).
  { unfold d. rewrite la_length, !append_length. cbn. lia. }
  pose proof (mfind_spec m newline (String.length a) (length d) ltac:(left; cbn; lia)) as K. cbv zeta in K. cbn [data] in K.
  replace (msize m) with (Z.of_nat (length d)) by reflexivity.
  assert (O : occurs_at newline d (String.length a + String.length x)).
  { exists (la (a ++ x)), (la y). split; [|rewrite la_length, append_length; auto].
    unfold d. rewrite !la_app. cbn. rewrite <- app_assoc. reflexivity. }
  assert (NO : forall q, String.length a <= q < String.length a + String.length x -> ~ occurs_at newline d q).
  { intros q Q (u & v & E & <-). apply (newline_not_in x (String NL y) (length u - String.length a) F ltac:(lia)).
    exists (skipn (String.length a) u), v. split; [|rewrite skipn_length; auto].
    unfold d in E. apply (f_equal (skipn (String.length a))) in E. rewrite skipn_app in E.
    replace (String.length a - length u) with 0 in E by lia. cbn [skipn] in E. rewrite <- E.
    rewrite (la_app a), skipn_app, <- (la_length a), skipn_all, Nat.sub_diag. reflexivity. }
  destruct K as [[E K]|(p & E & P1 & P2 & P3 & P4)]; rewrite E.
  - exfalso. apply (K (String.length a + String.length x)); auto; cbn; lia.
  - destruct (Z.ltb_spec (Z.of_nat p) 0); [lia|]. rewrite Nat2Z.id, !append_length. cbn [String.length].
    assert (p = String.length a + String.length x); [|lia].
    destruct (Nat.lt_trichotomy p (String.length a + String.length x)) as [L|[->|L]]; auto.
    + exfalso. apply (NO p); auto.
    + exfalso. apply (P4 (String.length a + String.length x)); auto. lia.
Qed.
Lemma readlines_at n : forall a lines y, length lines = n -> Forall (fun x => free NL x) lines ->
  readlines (mkMap (la (a ++ file_text lines ++ y)) (String.length a)) n =
  mkMap (la (a ++ file_text lines ++ y)) (String.length (a ++ file_text lines)).
Proof.
  induction n as [|n IH]; intros a lines y L F.
  - destruct lines; [|discriminate]. cbn. rewrite append_nil_r. auto.
  - destruct lines as [|x lines]; [discriminate|]. inv F. cbn [readlines file_text]. rewrite !append_assoc.
    cbn [String.append]. rewrite readline_at by auto.
    specialize (IH (a ++ x ++ String NL "") lines y ltac:(cbn in L; lia) H2).
    rewrite !append_assoc in IH. cbn [String.append] in IH. rewrite IH. auto.
Qed.

(** ** a part of the file *)
Lemma file_text_app a b : file_text (a ++ b)%list = file_text a ++ file_text b.
Proof. induction a as [|x a IH]; cbn; auto. rewrite IH, append_assoc. auto. Qed.
Lemma section_found c m c' m' pre hx hy sk body ex ey post :
  let b := String c m in let e := String c' m' in
  free NL b -> free NL e -> free c hx -> free c' ex -> free NL hy ->
  Forall (lacks b) pre -> Forall (lacks e) (pre ++ (hx ++ b ++ hy)%string :: sk ++ body)%list ->
  Forall (fun x => free NL x) sk ->
  section_text (file_text (pre ++ (hx ++ b ++ hy)%string :: sk ++ body ++ (ex ++ e ++ ey)%string :: post)%list) b e (S (length sk)) =
  Ok (file_text body ++ ex).
Proof.
  intros b e Fb Fe Fhx Fex Fhy Lb Le Fsk. unfold section_text.
  set (text := file_text (pre ++ (hx ++ b ++ hy)%string :: sk ++ body ++ (ex ++ e ++ ey)%string :: post)%list).
  assert (T1 : text = file_text pre ++ hx ++ b ++ hy ++ String NL (file_text (sk ++ body ++ (ex ++ e ++ ey)%string :: post)%list)).
  { unfold text. rewrite file_text_app. cbn [file_text]. rewrite !append_assoc. auto. }
  assert (T2 : text = file_text (pre ++ (hx ++ b ++ hy)%string :: sk ++ body)%list ++ ex ++ e ++ ey ++ String NL (file_text post)).
  { unfold text. rewrite !file_text_app. cbn [file_text]. rewrite !file_text_app. cbn [file_text]. repeat (rewrite ?append_assoc; cbn [String.append]). auto. }
  rewrite (find_first b text (String.length (file_text pre ++ hx))).
  2:{ rewrite T1. apply first_at_lines; auto. }
  cbn [bind].
  rewrite (find_first e text (String.length (file_text (pre ++ (hx ++ b ++ hy)%string :: sk ++ body)%list ++ ex))).
  2:{ rewrite T2. apply first_at_lines; auto. }
  cbn [bind]. rewrite Nat2Z.id.
  set (rest := file_text body ++ ex ++ e ++ ey ++ String NL (file_text post)).
  assert (T3 : text = (file_text pre ++ hx) ++ file_text ((b ++ hy) :: sk) ++ rest).
  { rewrite T1. unfold rest. cbn [file_text]. rewrite !file_text_app. cbn [file_text]. repeat (rewrite ?append_assoc; cbn [String.append]). auto. }
  rewrite T3. rewrite readlines_at.
  2:{ cbn. auto. }
  2:{ constructor; auto. apply free_app. auto. }
  cbn [pos]. unfold mread. cbn [pos data].
  set (a := (file_text pre ++ hx) ++ file_text ((b ++ hy) :: sk)).
  assert (Len : String.length (file_text (pre ++ (hx ++ b ++ hy)%string :: sk ++ body)%list ++ ex) = String.length a + String.length (file_text body ++ ex)).
  { unfold a. rewrite file_text_app. cbn [file_text]. rewrite file_text_app, !append_assoc. repeat (rewrite ?append_length; cbn [String.length]). lia. }
  rewrite Len. destruct (Z.ltb_spec (Z.of_nat (String.length a + String.length (file_text body ++ ex)) - Z.of_nat (String.length a)) 0); [lia|].
  replace (Z.to_nat _) with (String.length (file_text body ++ ex)) by lia.
  rewrite <- append_assoc. fold a. rewrite la_app, skipn_app, <- (la_length a), skipn_all, Nat.sub_diag. cbn [skipn List.app].
  unfold rest. rewrite <- append_assoc, la_app, firstn_app, <- la_length, firstn_all, Nat.sub_diag. cbn [firstn]. rewrite app_nil_r.
  rewrite string_of_list_ascii_of_string. auto.
Qed.
Lemma section_missing text b e k : lacks b text \/ lacks e text -> section_text text b e k = Raise OtherException.
Proof.
  intros L. unfold section_text. destruct (contains b text) eqn:C.
  - destruct L as [L|L]; [apply lacks_contains in L; congruence|].
    destruct (find_string_in_file (mkMap (la text) 0) (la b)) as [z|x] eqn:F.
    + cbn [bind]. rewrite find_none by auto. auto.
    + exfalso. unfold find_string_in_file in F. cbv zeta in F.
      pose proof (proj2 (C46_find (mkMap (la text) 0) (la b) ltac:(cbn; lia))) as K.
      assert (x = OtherException) by (destruct (_ =? _)%Z; congruence). subst x.
      apply contains_spec in C. destruct C as (u & v & E). apply (proj1 K F (length (la u))); [cbn; lia|].
      exists (la u), (la v). cbn. rewrite E, !la_app. auto.
  - rewrite find_none by (apply lacks_contains; auto). auto.
Qed.
