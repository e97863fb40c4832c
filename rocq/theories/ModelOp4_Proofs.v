(** Proofs about the text of .op files: whole files *)
From Coq Require Import QArith.
From Verif Require Import Common Common_Proofs PyStr_Model PyStr_Proofs ModelOp_Model ModelOp_Spec ModelOp2_Proofs ModelOp3_Proofs.
Local Open Scope nat_scope.
Local Open Scope list_scope.
Local Open Scope string_scope.

(** ** classes of characters *)
Lemma all_ascii (f : ascii -> bool) : forallb f (map ascii_of_nat (seq 0 256)) = true -> forall c, f c = true.
Proof.
  intros H c. rewrite forallb_forall in H. apply H. apply in_map_iff. exists (nat_of_ascii c).
  split; [apply ascii_nat_embedding|]. apply in_seq. pose proof (nat_ascii_bounded c). lia.
Qed.
Definition name_char (c : ascii) : bool := is_digit c || existsb (Ascii.eqb c) ["w"; "E"; "H"; "s"; "_"; "C"; "B"; "A"; "v"]%char.
Definition harmless (c : ascii) : bool :=
  negb (is_space c) && negb (line_end c) && nofree "#" c && nofree "=" c && nofree "," c && nofree "n" c && plain c.
Lemma name_harmless c : name_char c = true -> harmless c = true.
Proof. intros H. pose proof (all_ascii (fun c => implb (name_char c) (harmless c)) ltac:(vm_compute; reflexivity) c) as K. cbv beta in K. rewrite H in K. auto. Qed.
Lemma numeral_harmless c : numeral c = true -> harmless c = true.
Proof. intros H. pose proof (all_ascii (fun c => implb (numeral c) (harmless c)) ltac:(vm_compute; reflexivity) c) as K. cbv beta in K. rewrite H in K. auto. Qed.
Lemma plain_line c : plain c = true -> negb (line_end c) = true.
Proof. intros H. pose proof (all_ascii (fun c => implb (plain c) (negb (line_end c))) ltac:(vm_compute; reflexivity) c) as K. cbv beta in K. rewrite H in K. auto. Qed.
Lemma plain_nl c : plain c = true -> nofree NL c = true.
Proof. intros H. pose proof (all_ascii (fun c => implb (plain c) (nofree NL c)) ltac:(vm_compute; reflexivity) c) as K. cbv beta in K. rewrite H in K. auto. Qed.
Lemma blank_facts c : blank c = true -> is_space c && plain c && nofree "n" c = true.
Proof. intros H. pose proof (all_ascii (fun c => implb (blank c) (is_space c && plain c && nofree "n" c)) ltac:(vm_compute; reflexivity) c) as K. cbv beta in K. rewrite H in K. auto. Qed.
Lemma hash_plain c : hash c = true -> plain c = true.
Proof. intros H. pose proof (all_ascii (fun c => implb (hash c) (plain c)) ltac:(vm_compute; reflexivity) c) as K. cbv beta in K. rewrite H in K. auto. Qed.
Lemma after_plain c : after_title c = true -> plain c = true.
Proof. intros H. pose proof (all_ascii (fun c => implb (after_title c) (plain c)) ltac:(vm_compute; reflexivity) c) as K. cbv beta in K. rewrite H in K. auto. Qed.

Lemma harmless_facts s : all_chars harmless s = true ->
  all_chars (fun c => negb (is_space c)) s = true /\ one_line s /\ free "#" s /\ free "=" s /\ free "," s /\ free "n" s /\ all_chars plain s = true.
Proof.
  intros H. unfold one_line. repeat split; (eapply all_chars_impl; [|exact H]); unfold harmless; intros c C; rewrite !andb_true_iff in C; tauto.
Qed.
Lemma plain_one_line s : all_chars plain s = true -> one_line s.
Proof. apply all_chars_impl, plain_line. Qed.
Lemma plain_free s : all_chars plain s = true -> free NL s.
Proof. apply all_chars_impl, plain_nl. Qed.
Lemma blank_spaces s : all_chars blank s = true -> spaces s /\ all_chars plain s = true /\ free "n" s.
Proof.
  intros H. unfold spaces. repeat split; (eapply all_chars_impl; [|exact H]); intros c C; apply blank_facts in C; rewrite !andb_true_iff in C; tauto.
Qed.

(** ** rows *)
Definition named {X} (name : X -> string) : Prop := forall x, name x <> "" /\ all_chars name_char (name x) = true.
Lemma nr_digits i : all_chars is_digit (nr i) = true.
Proof. apply two_digits_digits. lia. Qed.
Lemma digits_name s : all_chars is_digit s = true -> all_chars name_char s = true.
Proof. apply all_chars_impl. intros c H. unfold name_char. rewrite H. auto. Qed.
Ltac name_tac := rewrite ?all_chars_app, ?(digits_name _ (nr_digits _)); reflexivity.
Lemma named_w : named name_w. Proof. intros x. split; [discriminate|]. unfold name_w. name_tac. Qed.
Lemma named_E : named name_E. Proof. intros x. split; [discriminate|]. unfold name_E. name_tac. Qed.
Lemma named_one c k : all_chars name_char (String c k) = true -> named (name_one (String c k)).
Proof. intros H [[a b] j]. split; [discriminate|]. unfold name_one. rewrite !all_chars_app, ?(digits_name _ (nr_digits _)), H. reflexivity. Qed.
Lemma named_two c k : all_chars name_char (String c k) = true -> named (name_two (String c k)).
Proof. intros H [[[a b] i] j]. split; [discriminate|]. unfold name_two. rewrite !all_chars_app, ?(digits_name _ (nr_digits _)), H. reflexivity. Qed.
Lemma named_quartic : named name_quartic.
Proof. intros [e|e]; apply named_two; reflexivity. Qed.

Lemma harmless_entry s : s <> "" -> all_chars harmless s = true -> entry_name s.
Proof. intros N H. apply harmless_facts in H. unfold entry_name, word. tauto. Qed.
Lemma show_reads {X} (name : X -> string) (l : list (dline X)) d : named name -> Forall dline_ok l -> is_nothing d ->
  reads (map (show name) l ++ [d])%list (map (fun '(x, v) => (name x, v)) (rows l)).
Proof.
  intros NM F D. induction F as [|y l H1 H2 IH].
  - cbn. apply reads_nothing; auto. constructor.
  - destruct y as [|c|x v b1 b2 b3 b4]; cbn [map List.app rows].
    + apply reads_nothing; auto. left. auto.
    + apply reads_nothing; auto. right. split; [eexists; reflexivity|]. apply plain_one_line. apply H1.
    + apply reads_entry; auto. destruct H1 as (V1 & V2 & (B1 & B1') & (B2 & B2') & (B3 & B3') & B4).
      destruct (NM x) as [N1 N2].
      pose proof (all_chars_impl _ _ _ name_harmless N2) as N3. pose proof (all_chars_impl _ _ _ numeral_harmless V2) as V3.
      exists b1, b2, b3, b4. cbn [fst snd show]. split; [reflexivity|].
      split; [apply harmless_entry; auto|]. split; [apply harmless_entry; auto|].
      apply harmless_facts in N3. apply harmless_facts in V3.
      apply blank_spaces in B1', B2', B3', B4. do 7 (split; [tauto|]).
      apply plain_one_line. rewrite !all_chars_app. rewrite !andb_true_iff. repeat split; try tauto; reflexivity.
Qed.

(** ** markers *)
Lemma no_n_lacks m s : contains "n" m = true -> free "n" s -> lacks m s.
Proof.
  intros C F (u & v & ->). rewrite !free_app in F. apply contains_spec in C. destruct C as (x & y & ->).
  rewrite !free_app in F. destruct F as (_ & (_ & F & _) & _). discriminate.
Qed.
Lemma markers_n m : In m markers -> contains "n" m = true.
Proof. intros I. assert (H : forallb (contains "n") markers = true) by (vm_compute; reflexivity). rewrite forallb_forall in H. auto. Qed.
Lemma show_clean {X} (name : X -> string) (y : dline X) : named name -> dline_ok y -> clean (show name y).
Proof.
  intros NM H. destruct y as [|c|x v b1 b2 b3 b4].
  - split; [reflexivity|]. intros m I. apply (no_n_lacks m "" (markers_n m I)). reflexivity.
  - exact H.
  - destruct H as (V1 & V2 & (B1 & B1') & (B2 & B2') & (B3 & B3') & B4). destruct (NM x) as [N1 N2].
    pose proof (all_chars_impl _ _ _ name_harmless N2) as N3. pose proof (all_chars_impl _ _ _ numeral_harmless V2) as V3.
    apply harmless_facts in N3. apply harmless_facts in V3. apply blank_spaces in B1', B2', B3', B4. split.
    + cbn [show]. rewrite !all_chars_app. rewrite !andb_true_iff. repeat split; try tauto; reflexivity.
    + intros m I. apply no_n_lacks; [apply markers_n; auto|]. cbn [show]. rewrite !free_app. repeat split; try tauto; reflexivity.
Qed.
Lemma occurrence_before z : forall b after w v, free z after -> b ++ after = w ++ String z v -> exists v', b = w ++ String z v'.
Proof.
  induction b as [|c b IH]; intros after w v F E.
  - exfalso. cbn in E. subst after. apply free_app in F. destruct F as [_ F]. apply free_cons in F. tauto.
  - destruct w as [|d w]; cbn in E; injection E as -> E.
    + exists b. auto.
    + destruct (IH _ _ _ F E) as [v' ->]. exists v'. auto.
Qed.
Lemma title_lacks t m b : title_ok t -> In m markers -> lacks m b -> lacks m (title_line t b).
Proof.
  intros (_ & T1 & T2) I L (u & v & E). unfold title_line in E.
  assert (K : exists c m1 m2 z, m = String c m1 /\ m = m2 ++ String z "" /\ hash c = false /\ after_title z = false).
  { clear - I. repeat destruct I as [<-|I]; try contradiction.
    - exists "F"%char. eexists. exists "Frequencie". eexists. repeat split; reflexivity.
    - exists "Z"%char. eexists. exists "Zeropoint energ". eexists. repeat split; reflexivity.
    - exists "E"%char. eexists. exists "Electronic Hamitonia". eexists. repeat split; reflexivity.
    - exists "E"%char. eexists. exists "Electronic transition moment". eexists. repeat split; reflexivity.
    - exists "L"%char. eexists. exists "Linear Coupling Constant". eexists. repeat split; reflexivity.
    - exists "D"%char. eexists. exists "Diagonal Quadratic Coupling Constant". eexists. repeat split; reflexivity.
    - exists "C"%char. eexists. exists "Cubic Coupling Constant". eexists. repeat split; reflexivity.
    - exists "Q"%char. eexists. exists "Quartic Coupling Constant". eexists. repeat split; reflexivity.
    - exists "B"%char. eexists. exists "Bi-Cubic Constant". eexists. repeat split; reflexivity.
    - exists "B"%char. eexists. exists "Bi-Quartic Constant". eexists. repeat split; reflexivity.
    - exists "e"%char. eexists. exists "end-parameter-sectio". eexists. repeat split; reflexivity. }
  destruct K as (c & m1 & m2 & z & M1 & M2 & C & Z).
  assert (FX : forall f x s, f x = false -> all_chars f s = true -> free x s).
  { intros f x s H A. eapply all_chars_impl; [|exact A]. intros d K. unfold nofree. apply negb_true_iff, Ascii.eqb_neq. intros ->. congruence. }
  rewrite M1 in E. destruct (occurrence_after c m1 _ _ _ _ (FX hash c _ C T1) E) as (u' & _ & E'). rewrite <- M1, M2 in E'.
  rewrite append_assoc, <- append_assoc in E'. cbn [String.append] in E'.
  destruct (occurrence_before z _ _ _ _ (FX after_title z _ Z T2) E') as [v' B].
  apply L. exists u', v'. rewrite B, M2, !append_assoc. reflexivity.
Qed.
Lemma markers_apart m b : In m markers -> In b markers -> m <> b -> lacks m b.
Proof.
  intros I J N. apply lacks_contains.
  assert (H : forallb (fun m => forallb (fun b => String.eqb m b || negb (contains m b)) markers) markers = true) by (vm_compute; reflexivity).
  rewrite forallb_forall in H. specialize (H m I). rewrite forallb_forall in H. specialize (H b J).
  apply orb_true_iff in H. destruct H as [H|H]; [apply String.eqb_eq in H; congruence|]. apply negb_true_iff in H. auto.
Qed.

(** ** the parts *)
Lemma forall_show {X} (name : X -> string) l : named name -> Forall dline_ok l -> Forall clean (map (show name) l).
Proof. intros N F. apply Forall_map. eapply Forall_impl; [|exact F]. intros y. apply show_clean. auto. Qed.
Lemma parts_facts d : doc_ok d -> Forall (fun p => title_ok (fst (fst p)) /\ (snd (fst p) <> "end-parameter-section" -> Forall clean (snd p))) (parts d).
Proof.
  intros OK. pose proof (ok_free d OK) as F. rewrite !Forall_app in F. destruct F as (_ & Fz & Ft & F).
  pose proof (ok_titles d OK) as T.
  repeat match goal with H : Forall _ (_ :: _) |- _ => inversion H; clear H; subst end.
  unfold parts.
  do 11 (lazymatch goal with |- Forall clean _ => idtac | _ => apply Forall_cons; [cbn [fst snd]; split; [assumption|intros NE]|] end); [..|constructor].
  - apply Forall_cons; auto. apply forall_show; [apply named_w|apply OK].
  - auto.
  - do 2 (apply Forall_cons; auto). apply forall_show; [apply named_E|apply OK].
  - auto.
  - apply Forall_cons; auto. apply forall_show; [apply named_one; reflexivity|apply OK].
  - apply Forall_cons; auto. apply forall_show; [apply named_two; reflexivity|apply OK].
  - apply Forall_cons; auto. apply forall_show; [apply named_one; reflexivity|apply OK].
  - apply Forall_cons; auto. apply forall_show; [apply named_one; reflexivity|apply OK].
  - apply Forall_cons; auto. apply forall_show; [apply named_two; reflexivity|apply OK].
  - apply Forall_cons; auto. apply forall_show; [apply named_quartic|apply OK].
  - congruence.
Qed.
Lemma flat_lacks m ps : In m markers ->
  Forall (fun p => title_ok (fst (fst p)) /\ In (snd (fst p)) markers /\ snd (fst p) <> m /\ Forall clean (snd p)) ps ->
  Forall (lacks m) (flat_map part_lines ps).
Proof.
  intros I F. induction F as [|[[t b] l] ps (T & J & N & C) F IH]; cbn [flat_map part_lines fst snd] in *; [constructor|].
  constructor.
  - apply title_lacks; auto. apply markers_apart; auto.
  - apply Forall_app. split; auto. eapply Forall_impl; [|exact C]. intros s [_ S]. apply S. auto.
Qed.
Lemma clean_lacks m l : In m markers -> Forall clean l -> Forall (lacks m) l.
Proof. intros I. apply Forall_impl. intros s [_ S]. apply S. auto. Qed.
Lemma nodup_markers : NoDup markers.
Proof. repeat constructor; cbn; intuition discriminate. Qed.
Lemma part_section d ps1 t1 b sk body t2 e l2 ps2 k : doc_ok d ->
  parts d = (ps1 ++ (t1, b, sk ++ body)%list :: (t2, e, l2) :: ps2)%list -> k = S (length sk) ->
  section_text (op_text d) b e k = Ok (file_text body ++ t_before t2) /\ is_nothing (t_before t2).
Proof.
  intros OK P ->. pose proof (parts_facts d OK) as F.
  assert (M : map (fun p => snd (fst p)) (parts d) = markers) by reflexivity.
  rewrite P in F, M. rewrite map_app in M. cbn [map fst snd] in M.
  apply Forall_app in F. destruct F as [F1 F]. inversion F as [|? ? [T1 C1] F']; subst. inversion F' as [|? ? [T2 _] F'']; subst. cbn [fst snd] in *.
  pose proof nodup_markers as ND. rewrite <- M in ND.
  assert (In b markers) as IB by (rewrite <- M; apply in_app_iff; cbn; auto).
  assert (In e markers) as IE by (rewrite <- M; apply in_app_iff; cbn; auto).
  pose proof (NoDup_remove_2 _ _ _ ND) as NB. rewrite in_app_iff in NB. cbn in NB.
  pose proof (NoDup_remove_2 (map (fun p => snd (fst p)) ps1 ++ [b])%list (map (fun p => snd (fst p)) ps2) e) as NE.
  rewrite <- app_assoc in NE. specialize (NE ND). rewrite !in_app_iff in NE. cbn in NE.
  assert (FM : forall m, In m markers -> ~ In m (map (fun p => snd (fst p)) ps1) ->
     (forall x, In x (map (fun p => snd (fst p)) ps1) -> x <> "end-parameter-section") ->
     Forall (fun p => title_ok (fst (fst p)) /\ In (snd (fst p)) markers /\ snd (fst p) <> m /\ Forall clean (snd p)) ps1).
  { intros m I NI NN. apply Forall_forall. intros p Ip. rewrite Forall_forall in F1. destruct (F1 p Ip) as [G1 G2].
    assert (In (snd (fst p)) (map (fun p => snd (fst p)) ps1)) as IM by (apply (in_map (fun p => snd (fst p))); auto).
    split; auto. split; [rewrite <- M; apply in_app_iff; auto|]. split; [congruence|]. apply G2. apply NN. auto. }
  (* "end-parameter-section" is the last marker *)
  assert (LAST : forall x, In x (map (fun p => snd (fst p)) ps1 ++ [b])%list -> x <> "end-parameter-section").
  { intros x I ->. assert (L : exists q, markers = (q ++ ["end-parameter-section"])%list /\ ~ In "end-parameter-section" q).
    { exists (removelast markers). split; [reflexivity|]. cbn. intuition discriminate. }
    destruct L as (q & Q1 & Q2). apply Q2.
    assert (Q : exists r x, (map (fun p => snd (fst p)) ps1 ++ [b] ++ e :: map (fun p => snd (fst p)) ps2 = (map (fun p => snd (fst p)) ps1 ++ [b] ++ r) ++ [x])%list).
    { destruct (exists_last (l := e :: map (fun p => snd (fst p)) ps2)) as (r & y & R); [discriminate|]. exists r, y. rewrite R. rewrite <- !app_assoc. reflexivity. }
    destruct Q as (r & y & Q). cbn [List.app] in Q. rewrite M, Q1 in Q. apply app_inj_tail in Q. destruct Q as [-> _].
    rewrite in_app_iff in *. cbn in I |- *. tauto. }
  assert (LB : b <> "end-parameter-section") by (apply LAST, in_app_iff; cbn; auto).
  assert (LP : forall x, In x (map (fun p => snd (fst p)) ps1) -> x <> "end-parameter-section") by (intros x I; apply LAST, in_app_iff; auto).
  specialize (C1 LB). apply Forall_app in C1. destruct C1 as [C1 C2].
  pose proof (ok_free d OK) as FR. rewrite Forall_app in FR. destruct FR as [FR _].
  destruct T1 as (T1a & T1b & T1c), T2 as (T2a & T2b & T2c).
  split.
  - unfold op_text. rewrite P, flat_map_app. cbn [flat_map part_lines].
    assert (HC : forall m, In m markers -> exists c m', m = String c m' /\ hash c = false /\ free NL m).
    { clear. intros m I. repeat destruct I as [<-|I]; try contradiction; eexists; eexists; split; try reflexivity; split; reflexivity. }
    destruct (HC b IB) as (c & m & EB & HB & NLB). destruct (HC e IE) as (c' & m' & EE & HE & NLE).
    assert (FX : forall x s, hash x = false -> all_chars hash s = true -> free x s).
    { intros x s H A. eapply all_chars_impl; [|exact A]. intros y K. unfold nofree. apply negb_true_iff, Ascii.eqb_neq. intros ->. congruence. }
    pose proof (section_found c m c' m' (d_pre d ++ flat_map part_lines ps1)%list (t_before t1) (t_after t1) sk body (t_before t2) (t_after t2) (l2 ++ flat_map part_lines ps2)%list) as SF.
    cbv zeta in SF. rewrite <- EB, <- EE in SF. fold (title_line t1 b) in SF. fold (title_line t2 e) in SF.
    replace (d_pre d ++ flat_map part_lines ps1 ++ (title_line t1 b :: sk ++ body) ++ (title_line t2 e :: l2) ++ flat_map part_lines ps2)%list
      with ((d_pre d ++ flat_map part_lines ps1) ++ title_line t1 b :: sk ++ body ++ title_line t2 e :: l2 ++ flat_map part_lines ps2)%list
      by (rewrite <- !app_assoc; cbn [List.app]; rewrite <- !app_assoc; reflexivity).
    assert (B1 : forall m, In m markers -> ~ In m (map (fun p => snd (fst p)) ps1) -> Forall (lacks m) (d_pre d ++ flat_map part_lines ps1)%list).
    { intros x I NI. apply Forall_app. split; [apply clean_lacks; auto|]. apply flat_lacks; auto. }
    apply SF; auto.
    + apply plain_free. eapply all_chars_impl; [apply after_plain|auto].
    + apply Forall_app. split; [apply B1; auto|]. constructor; [|apply Forall_app; split; apply clean_lacks; auto].
      apply title_lacks; auto; [split; auto|]. apply markers_apart; auto.
    + eapply Forall_impl; [|exact C1]. intros s [S _]. apply plain_free. auto.
  - destruct T2a as [->|[s E]]; [left; auto|]. right. split; [eauto|]. apply plain_one_line. eapply all_chars_impl; [apply hash_plain|auto].
Qed.

(** ** names *)
Lemma digits_nr i : digits (nr i) = Some (Z.of_nat i + 1)%Z.
Proof.
  unfold nr. destruct (Nat.lt_ge_cases i 9) as [L|L].
  - do 9 (destruct i as [|i]; [vm_compute; reflexivity|]). lia.
  - unfold two_digits. destruct (Z.ltb_spec (Z.of_nat i + 1) 10); [lia|]. rewrite dec_nonneg by lia. rewrite digits_dec_N. f_equal. lia.
Qed.
Lemma drop_prefix_app p s : drop_prefix p (p ++ s) = Some s.
Proof. induction p as [|c p IH]; auto. cbn. rewrite Ascii.eqb_refl. auto. Qed.
Definition no_digit (s : string) : Prop := match s with EmptyString => True | String c _ => is_digit c = false end.
Lemma span_digits_app d s : all_chars is_digit d = true -> no_digit s -> span_digits (d ++ s) = (d, s).
Proof.
  induction d as [|c d IH]; intros D N.
  - destruct s as [|c s]; auto. cbn in *. unfold is_digit in N. destruct (digit c); [discriminate|auto].
  - cbn in D. apply andb_true_iff in D. destruct D as [D1 D2]. cbn [String.append span_digits]. unfold is_digit in D1.
    destruct (digit c); [|discriminate]. rewrite IH; auto.
Qed.
Lemma parse_step lit rest i s : no_digit s ->
  parse_name (lit :: rest) (lit ++ nr i ++ s) = match parse_name rest s with Some zs => Some ((Z.of_nat i + 1)%Z :: zs) | None => None end.
Proof.
  intros N. cbn [parse_name]. rewrite drop_prefix_app, span_digits_app by (auto using nr_digits). rewrite digits_nr. auto.
Qed.
Lemma parse_last lit i : parse_name [lit] (lit ++ nr i) = Some [(Z.of_nat i + 1)%Z].
Proof. rewrite <- (append_nil_r (nr i)). rewrite parse_step by exact I. reflexivity. Qed.
Lemma parse_one k a b j : parse_name [k ++ "_s"; "_s"; "_v"] (name_one k (a, b, j)) = Some [Z.of_nat a + 1; Z.of_nat b + 1; Z.of_nat j + 1]%Z.
Proof.
  unfold name_one. rewrite <- (append_assoc k "_s"). rewrite parse_step by reflexivity. rewrite (parse_step "_s") by reflexivity.
  rewrite parse_last. reflexivity.
Qed.
Lemma parse_two k a b i j : parse_name [k ++ "_s"; "s"; "_v"; "v"] (name_two k (a, b, i, j)) =
  Some [Z.of_nat a + 1; Z.of_nat b + 1; Z.of_nat i + 1; Z.of_nat j + 1]%Z.
Proof.
  unfold name_two. rewrite <- (append_assoc k "_s"). rewrite parse_step by reflexivity. rewrite (parse_step "s") by reflexivity.
  rewrite (parse_step "_v") by reflexivity. rewrite parse_last. reflexivity.
Qed.
Lemma norm_in n i : i < n -> norm_index n (Z.of_nat i + 1 - 1) = Ok i.
Proof.
  intros L. unfold norm_index. cbv zeta. destruct (Z.ltb_spec (Z.of_nat i + 1 - 1) 0); [lia|].
  destruct (Z.leb_spec 0 (Z.of_nat i + 1 - 1)); [|lia]. destruct (Z.ltb_spec (Z.of_nat i + 1 - 1) (Z.of_nat n)); [|lia]. cbn. f_equal. lia.
Qed.
Lemma norms_in n l : Forall (fun i => i < n) l -> norm_indices n (map (fun j => j - 1)%Z (map (fun i => Z.of_nat i + 1)%Z l)) = Ok l.
Proof. induction 1 as [|i l L F IH]; auto. cbn [map norm_indices]. rewrite norm_in by auto. cbn [bind]. rewrite IH. auto. Qed.

(** ** storing entries *)
Definition latest (es : list entry) (t : coup) : coup := fun m a b =>
  match find (entry_for m a b) (rev es) with
  | Some (_, _, _, q) => q
  | None => t m a b
  end.
Lemma find_app' {X} (f : X -> bool) l l' : find f (l ++ l')%list = match find f l with Some x => Some x | None => find f l' end.
Proof. induction l as [|x l IH]; cbn; auto. destruct (f x); auto. Qed.
Lemma latest_cons m a b q (es : list entry) t : forall m' a' b', latest ((m, a, b, q) :: es) t m' a' b' = latest es (set_entry t m a b q) m' a' b'.
Proof.
  intros m' a' b'. unfold latest. cbn [rev]. unfold entry in *. rewrite find_app'.
  destruct (@find (list nat * nat * nat * Q) (entry_for m' a' b') (rev es)) as [[[[? ?] ?] ?]|]; auto. cbn [find entry_for]. unfold set_entry.
  destruct (_ && _ && _); auto.
Qed.
Lemma latest_app es es' t : forall m a b, latest (es ++ es')%list t m a b = latest es' (latest es t) m a b.
Proof. intros m a b. unfold latest. rewrite rev_app_distr, find_app'. destruct (find (entry_for m a b) (rev es')); auto. Qed.
Lemma latest_ext es t t' : (forall m a b, t m a b = t' m a b) -> forall m a b, latest es t m a b = latest es t' m a b.
Proof. intros H m a b. unfold latest. destruct (find (entry_for m a b) (rev es)); auto. Qed.

Section Read.
  Variable py_float : string -> res Q.
  Variable num : string -> Q.

  Definition stores (N A : nat) (lits : list string) (pl : place) (name v : string) (e : entry) : Prop :=
    let '(m, a, b, q) := e in forall t, store py_float N A lits pl t [name; v] = Ok (set_entry t m a b q).
  Lemma store_ok N A lits pl name v m a b r : parse_name lits name = Some r ->
    pl r = Some (map (fun i => Z.of_nat i + 1)%Z m, Z.of_nat a + 1, Z.of_nat b + 1)%Z ->
    Forall (fun i => i < N) m -> a < A -> b < A -> py_float v = Ok (num v) -> stores N A lits pl name v (m, a, b, num v).
  Proof.
    intros P PL F HA HB V t. unfold store. cbn [item nth_error bind]. rewrite P, PL, norms_in by auto. cbn [bind].
    rewrite !norm_in by auto. cbn [bind]. rewrite V. reflexivity.
  Qed.
  Lemma store_all_ok {X} N A lits pl (name : X -> string) (ent : X * string -> entry) rs :
    (forall r, In r rs -> stores N A lits pl (name (fst r)) (snd r) (ent r)) ->
    forall t, exists t', store_all py_float N A lits pl t (map (fun nv => [fst nv; snd nv]) (map (fun '(x, v) => (name x, v)) rs)) = Ok t' /\
      forall m a b, t' m a b = latest (map ent rs) t m a b.
  Proof.
    induction rs as [|[x v] rs IH]; intros H t.
    - exists t. split; auto.
    - cbn [map fst snd store_all]. pose proof (H (x, v) ltac:(left; auto)) as S. cbn [fst snd] in S.
      destruct (ent (x, v)) as [[[m a] b] q]. unfold stores in S. rewrite S. cbn [bind].
      destruct (IH ltac:(intros r I; apply H; right; auto) (set_entry t m a b q)) as (t' & E & V).
      exists t'. split; auto. intros m' a' b'. rewrite V, latest_cons. auto.
  Qed.
  Lemma store_only_ok {X} pre N A lits pl (name : X -> string) (ent : X * string -> option entry) rs :
    (forall r, In r rs -> match ent r with Some e => String.prefix pre (name (fst r)) = true /\ stores N A lits pl (name (fst r)) (snd r) e
                          | None => String.prefix pre (name (fst r)) = false end) ->
    forall t, exists t', store_only py_float pre N A lits pl t (map (fun nv => [fst nv; snd nv]) (map (fun '(x, v) => (name x, v)) rs)) = Ok t' /\
      forall m a b, t' m a b = latest (flat_map (fun r => match ent r with Some e => [e] | None => [] end) rs) t m a b.
  Proof.
    induction rs as [|[x v] rs IH]; intros H t.
    - exists t. split; auto.
    - cbn [map fst snd store_only flat_map]. pose proof (H (x, v) ltac:(left; auto)) as S. cbn [fst snd] in S. cbn [item nth_error bind].
      specialize (IH ltac:(intros r I; apply H; right; auto)).
      destruct (ent (x, v)) as [[[[m a] b] q]|].
      + destruct S as [-> S]. unfold stores in S. rewrite S. cbn [bind]. destruct (IH (set_entry t m a b q)) as (t' & E & V).
        exists t'. split; auto. intros m' a' b'. rewrite V. cbn [List.app]. rewrite latest_cons. auto.
      + rewrite S. apply IH.
  Qed.

  Lemma numbered_ok (name : Z -> string) (nm : nat -> string) (rs : list (nat * string)) : (forall i, name (Z.of_nat i + 1)%Z = nm i) ->
    (forall v, In v (map snd rs) -> py_float v = Ok (num v)) ->
    forall lines k, map words lines = map (fun nv => [fst nv; "="; snd nv; ","; "ev"]) (map (fun '(x, v) => (nm x, v)) rs) ->
    map fst rs = seq k (length rs) -> numbered_lines py_float name (Z.of_nat k + 1) lines = Ok (map num (map snd rs)).
  Proof.
    intros NM. induction rs as [|[x v] rs IH]; intros V lines k E SQ.
    - destruct lines; [auto|discriminate].
    - destruct lines as [|line lines]; [discriminate|]. cbn [map fst snd length seq] in *. injection E as E1 E2. injection SQ as -> SQ.
      cbn [numbered_lines]. unfold numbered_line. rewrite E1. cbn [item nth_error bind]. rewrite NM, String.eqb_refl. cbn [passert bind last_item rev List.app].
      cbn [item nth_error bind]. rewrite (V v) by (left; auto). cbn [String.eqb Ascii.eqb Bool.eqb bind passert]. 
      replace (Z.of_nat k + 1 + 1)%Z with (Z.of_nat (S k) + 1)%Z by lia.
      rewrite (IH ltac:(intros u U; apply V; right; auto) lines (S k) E2 SQ). reflexivity.
  Qed.

  Lemma coupling_ok {X} (ls : list (dline X)) (nm : X -> string) N A lits pl (ent : X * string -> entry) ex t :
    named nm -> Forall dline_ok ls -> is_nothing ex ->
    (forall r, In r (rows ls) -> stores N A lits pl (nm (fst r)) (snd r) (ent r)) ->
    exists t', store_all py_float N A lits pl t (split_lines (file_text (map (show nm) ls) ++ ex)) = Ok t' /\
      forall m a b, t' m a b = latest (map ent (rows ls)) t m a b.
  Proof.
    intros NM F D S. rewrite (coupling_lines _ _ _ (show_reads nm ls ex NM F D)). apply store_all_ok. auto.
  Qed.
  Lemma stores_one k N A (a b j : nat) v m (pl : place) : a < A -> b < A -> py_float v = Ok (num v) ->
    pl [Z.of_nat a + 1; Z.of_nat b + 1; Z.of_nat j + 1]%Z = Some (map (fun i => Z.of_nat i + 1)%Z m, Z.of_nat a + 1, Z.of_nat b + 1)%Z ->
    Forall (fun i => i < N) m ->
    stores N A [k ++ "_s"; "_s"; "_v"] pl (name_one k (a, b, j)) v (m, a, b, num v).
  Proof. intros HA HB V PL F. eapply store_ok; eauto. apply parse_one. Qed.
  Lemma stores_two k N A (a b i j : nat) v m (pl : place) : a < A -> b < A -> py_float v = Ok (num v) ->
    pl [Z.of_nat a + 1; Z.of_nat b + 1; Z.of_nat i + 1; Z.of_nat j + 1]%Z = Some (map (fun i => Z.of_nat i + 1)%Z m, Z.of_nat a + 1, Z.of_nat b + 1)%Z ->
    Forall (fun i => i < N) m ->
    stores N A [k ++ "_s"; "s"; "_v"; "v"] pl (name_two k (a, b, i, j)) v (m, a, b, num v).
  Proof. intros HA HB V PL F. eapply store_ok; eauto. apply parse_two. Qed.

  Lemma file_text_nonempty l x l' : file_text (l ++ x :: l')%list <> "".
  Proof. destruct l as [|y l]; cbn; [destruct x|destruct y]; discriminate. Qed.

  Lemma read_ok d : doc_ok d -> (forall v, In v (numerals d) -> py_float v = Ok (num v)) ->
    exists l, read_listing py_float (Some (op_text d)) = Ok l /\
      l_w l = map num (map snd (rows (d_w d))) /\ l_E l = map num (map snd (rows (d_E d))) /\
      (forall m a b, l_1 l m a b = listed (entries_1 num d) m a b) /\
      (forall m a b, l_2 l m a b = listed (entries_2 num d) m a b) /\
      (forall m a b, l_3 l m a b = listed (entries_3 num d) m a b) /\
      (forall m a b, l_4 l m a b = listed (entries_4 num d) m a b).
  Proof.
    intros OK V.
    pose proof (part_section d (firstn 0 (parts d)) (h_w d) "Frequencies" [u_w d] _ (h_z d) "Zeropoint energy" _ (skipn 2 (parts d)) 2 OK eq_refl eq_refl) as (Sw & Nw).
    pose proof (part_section d (firstn 2 (parts d)) (h_E d) "Electronic Hamitonian" [u_E d; u_E' d] _ (h_t d) "Electronic transition moments" _ (skipn 4 (parts d)) 3 OK eq_refl eq_refl) as (SE & NE).
    pose proof (part_section d (firstn 4 (parts d)) (h_1 d) "Linear Coupling Constants" [u_1 d] _ (h_2 d) "Diagonal Quadratic Coupling Constants" _ (skipn 6 (parts d)) 2 OK eq_refl eq_refl) as (S1 & N1).
    pose proof (part_section d (firstn 5 (parts d)) (h_2 d) "Diagonal Quadratic Coupling Constants" [u_2 d] _ (h_3 d) "Cubic Coupling Constants" _ (skipn 7 (parts d)) 2 OK eq_refl eq_refl) as (S2 & N2).
    pose proof (part_section d (firstn 6 (parts d)) (h_3 d) "Cubic Coupling Constants" [u_3 d] _ (h_4 d) "Quartic Coupling Constants" _ (skipn 8 (parts d)) 2 OK eq_refl eq_refl) as (S3 & N3).
    pose proof (part_section d (firstn 7 (parts d)) (h_4 d) "Quartic Coupling Constants" [u_4 d] _ (h_b3 d) "Bi-Cubic Constants" _ (skipn 9 (parts d)) 2 OK eq_refl eq_refl) as (S4 & N4).
    pose proof (part_section d (firstn 8 (parts d)) (h_b3 d) "Bi-Cubic Constants" [u_b3 d] _ (h_b4 d) "Bi-Quartic Constants" _ (skipn 10 (parts d)) 2 OK eq_refl eq_refl) as (Sb3 & Nb3).
    pose proof (part_section d (firstn 9 (parts d)) (h_b4 d) "Bi-Quartic Constants" [u_b4 d] _ (h_end d) "end-parameter-section" _ (skipn 11 (parts d)) 2 OK eq_refl eq_refl) as (Sb4 & Nb4).
    assert (NEQ : op_text d <> "") by apply file_text_nonempty.
    assert (VI : forall f, incl f (numerals d) -> forall v, In v f -> py_float v = Ok (num v)) by (intros f I v J; apply V, I; auto).
    assert (Rw : extract_normal_mode_frequencies py_float (op_text d) = Ok (map num (map snd (rows (d_w d))))).
    { unfold extract_normal_mode_frequencies. rewrite Sw. cbn [bind].
      apply (numbered_ok frequency_name name_w (rows (d_w d))) with (k := 0).
      - reflexivity.
      - apply VI. intros v I. unfold numerals. rewrite !in_app_iff. auto.
      - apply numbered_kept, show_reads; auto; [apply named_w|apply OK].
      - apply OK. }
    assert (RE : extract_energies py_float (op_text d) = Ok (map num (map snd (rows (d_E d))))).
    { unfold extract_energies. rewrite SE. cbn [bind].
      apply (numbered_ok energy_name name_E (rows (d_E d))) with (k := 0).
      - reflexivity.
      - apply VI. intros v I. unfold numerals. rewrite !in_app_iff. auto.
      - apply numbered_kept, show_reads; auto; [apply named_E|apply OK].
      - apply OK. }
    set (N := n_modes d). set (A := n_surfaces d).
    assert (LN : length (map num (map snd (rows (d_w d)))) = N) by (rewrite !map_length; auto).
    assert (LA : length (map num (map snd (rows (d_E d)))) = A) by (rewrite !map_length; auto).
    (* linear *)
    destruct (coupling_ok (d_1 d) (name_one "C1") N A lits_C1 place_C1 (fun '(a, b, j, v) => ([j], a, b, num v)) (t_before (h_2 d)) zeros) as (t1 & R1 & V1); auto.
    { apply named_one. reflexivity. } { apply OK. }
    { intros [[[a b] j] v] I. pose proof (range_1 d OK) as R. rewrite Forall_forall in R. specialize (R _ I). cbn in R.
      apply (stores_one "C1"); try tauto; auto; [|repeat constructor; tauto].
      apply V. unfold numerals. rewrite !in_app_iff. apply (in_map snd) in I. cbn in I. tauto. }
    destruct (coupling_ok (d_2 d) (name_two "C2") N A lits_C2 place_C2 (fun '(a, b, i, j, v) => ([i; j], a, b, num v)) (t_before (h_3 d)) zeros) as (t2 & R2 & V2); auto.
    { apply named_two. reflexivity. } { apply OK. }
    { intros [[[[a b] i] j] v] I. pose proof (range_2 d OK) as R. rewrite Forall_forall in R. specialize (R _ I). cbn in R.
      apply (stores_two "C2"); try tauto; auto; [|repeat constructor; tauto].
      apply V. unfold numerals. rewrite !in_app_iff. apply (in_map snd) in I. cbn in I. tauto. }
    destruct (coupling_ok (d_3 d) (name_one "C3") N A lits_C3 place_C3 (fun '(a, b, j, v) => ([j; j; j], a, b, num v)) (t_before (h_4 d)) zeros) as (t3 & R3 & V3); auto.
    { apply named_one. reflexivity. } { apply OK. }
    { intros [[[a b] j] v] I. pose proof (range_3 d OK) as R. rewrite Forall_forall in R. specialize (R _ I). cbn in R.
      apply (stores_one "C3"); try tauto; auto; [|repeat constructor; tauto].
      apply V. unfold numerals. rewrite !in_app_iff. apply (in_map snd) in I. cbn in I. tauto. }
    destruct (coupling_ok (d_4 d) (name_one "C4") N A lits_C4 place_C4 (fun '(a, b, j, v) => ([j; j; j; j], a, b, num v)) (t_before (h_b3 d)) zeros) as (t4 & R4 & V4); auto.
    { apply named_one. reflexivity. } { apply OK. }
    { intros [[[a b] j] v] I. pose proof (range_4 d OK) as R. rewrite Forall_forall in R. specialize (R _ I). cbn in R.
      apply (stores_one "C4"); try tauto; auto; [|repeat constructor; tauto].
      apply V. unfold numerals. rewrite !in_app_iff. apply (in_map snd) in I. cbn in I. tauto. }
    destruct (coupling_ok (d_b3 d) (name_two "B3") N A lits_B3 place_B3 (fun '(a, b, i, j, v) => ([i; j; j], a, b, num v)) (t_before (h_b4 d)) t3) as (t3' & R3' & V3'); auto.
    { apply named_two. reflexivity. } { apply OK. }
    { intros [[[[a b] i] j] v] I. pose proof (range_b3 d OK) as R. rewrite Forall_forall in R. specialize (R _ I). cbn in R.
      apply (stores_two "B3"); try tauto; auto; [|repeat constructor; tauto].
      apply V. unfold numerals. rewrite !in_app_iff. apply (in_map snd) in I. cbn in I. tauto. }
    pose proof (coupling_lines _ _ _ (show_reads name_quartic (d_b4 d) _ named_quartic (ok_b4 d OK) Nb4)) as LB4.
    destruct (store_only_ok "B4" N A lits_B4 place_B4 name_quartic
      (fun '(q, v) => match q with B4 (a, b, i, j) => Some ([i; j; j; j], a, b, num v) | A4 _ => None end) (rows (d_b4 d))) with (t := t4) as (t5 & R5 & V5).
    { intros [[[[[a b] i] j]|[[[a b] i] j]] v] I; cbn [fst snd]; [|reflexivity]. pose proof (range_b4 d OK) as R. rewrite Forall_forall in R. specialize (R _ I). cbn in R.
      split; [apply (prefix_self "B4")|].
      apply (stores_two "B4"); try tauto; auto; [|repeat constructor; tauto].
      apply V. unfold numerals. rewrite !in_app_iff. apply (in_map snd) in I. cbn in I. tauto. }
    destruct (store_only_ok "A4" N A lits_A4 place_A4 name_quartic
      (fun '(q, v) => match q with A4 (a, b, i, j) => Some ([i; i; j; j], a, b, num v) | B4 _ => None end) (rows (d_b4 d))) with (t := t5) as (t6 & R6 & V6).
    { intros [[[[[a b] i] j]|[[[a b] i] j]] v] I; cbn [fst snd]; [reflexivity|]. pose proof (range_b4 d OK) as R. rewrite Forall_forall in R. specialize (R _ I). cbn in R.
      split; [apply (prefix_self "A4")|].
      apply (stores_two "A4"); try tauto; auto; [|repeat constructor; tauto].
      apply V. unfold numerals. rewrite !in_app_iff. apply (in_map snd) in I. cbn in I. tauto. }
    exists (mkListing (map num (map snd (rows (d_w d)))) (map num (map snd (rows (d_E d)))) t1 t2 t3' t6). split.
    - assert (U : forall text, text <> "" -> read_listing py_float (Some text) =
        do w <- extract_normal_mode_frequencies py_float text;
        do e <- extract_energies py_float text;
        do c1 <- extract_linear_couplings py_float text (length w) (length e) zeros;
        do c2 <- extract_quadratic_couplings py_float text (length w) (length e) zeros;
        do c3 <- extract_cubic_couplings py_float text (length w) (length e) zeros;
        do c4 <- extract_quartic_couplings py_float text (length w) (length e) zeros;
        do c3' <- extract_bicubic_couplings py_float text (length w) (length e) c3;
        do c4' <- extract_biquartic_couplings py_float text (length w) (length e) c4;
        Ok (mkListing w e c1 c2 c3' c4')).
      { intros text NT. destruct text; [congruence|reflexivity]. }
      rewrite U by auto. rewrite Rw, RE. cbn [bind]. rewrite LN, LA.
      unfold extract_linear_couplings. rewrite S1. cbn [bind]. rewrite R1. cbn [bind].
      unfold extract_quadratic_couplings, optional_section. rewrite S2, R2. cbn [bind].
      unfold extract_cubic_couplings, optional_section. rewrite S3, R3. cbn [bind].
      unfold extract_quartic_couplings, optional_section. rewrite S4, R4. cbn [bind].
      unfold extract_bicubic_couplings, optional_section. rewrite Sb3, R3'. cbn [bind].
      unfold extract_biquartic_couplings, optional_section. rewrite Sb4, LB4, R5. cbn [bind]. rewrite R6. reflexivity.
    - cbn [l_w l_E l_1 l_2 l_3 l_4]. split; auto. split; auto.
      assert (LZ : forall es m a b, latest es zeros m a b = listed es m a b) by reflexivity.
      split; [intros m a b; rewrite V1, LZ; auto|]. split; [intros m a b; rewrite V2, LZ; auto|]. split.
      + intros m a b. rewrite V3'. rewrite (latest_ext _ _ _ V3), <- latest_app, LZ. auto.
      + intros m a b. rewrite V6, (latest_ext _ _ _ V5). rewrite <- latest_app.
        rewrite (latest_ext _ _ _ V4), <- latest_app, LZ. unfold entries_4. f_equal. f_equal. f_equal.
        * apply flat_map_ext. intros [[[[[x y] i] j]|[[[x y] i] j]] v]; reflexivity.
        * apply flat_map_ext. intros [[[[[x y] i] j]|[[[x y] i] j]] v]; reflexivity.
  Qed.
End Read.
