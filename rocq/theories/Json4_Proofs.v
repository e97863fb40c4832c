(** Which characters a serialised dictionary contains; loading one. *)
From Verif Require Import Common Common_Proofs PyStr_Model PyStr_Proofs Json_Model Json_Spec Json_Proofs Json2_Proofs Json3_Proofs.
Local Open Scope string_scope.
Local Open Scope nat_scope.

(** the characters the writer produces on its own *)
Definition own (c : ascii) : bool :=
  existsb (Ascii.eqb c) (list_ascii_of_string (quote ++ "\0123456789abcdefABCDEFInNrtlsuyi[]{}:;.+-")).
Definition printable (c : ascii) : bool := (32 <=? nat_of_ascii c) && (nat_of_ascii c <=? 126).

Lemma chars_app a b : chars (a ++ b) = (chars a ++ chars b)%list.
Proof. unfold chars. induction a; cbn; auto. f_equal. auto. Qed.
Lemma own_printable c : own c = true -> printable c = true.
Proof.
  unfold own. rewrite existsb_exists. intros (x & H & E). apply Ascii.eqb_eq in E. subst c.
  cbn in H. repeat destruct H as [<-|H]; try reflexivity. destruct H.
Qed.
Lemma isdig_own c : isdig c = true -> own c = true.
Proof. destruct c as [[] [] [] [] [] [] [] []]; intros H; try reflexivity; vm_compute in H; discriminate. Qed.
Lemma digits_own d c : digit_chars d -> In c (chars d) -> own c = true.
Proof. intros D H. apply isdig_own, isdig_digit, D, H. Qed.
Lemma int_own ip c : int_text ip -> In c (chars ip) -> own c = true.
Proof.
  intros [->|(x & d & -> & X & D)]; cbn; intros [<-|H]; try tauto; try reflexivity.
  - apply isdig_own, isdig_digit. lia.
  - eapply digits_own; eauto.
Qed.
Ltac concrete H := cbn in H; repeat destruct H as [<-|H]; try reflexivity; try (destruct H; fail).
Lemma sign_own sg c : sg = "" \/ sg = "-" -> In c (chars sg) -> own c = true.
Proof. intros [-> | ->] H; concrete H. Qed.
Lemma dec_own z c : In c (chars (dec z)) -> own c = true.
Proof.
  destruct (dec_parts z) as (sg & ip & -> & S & I). rewrite chars_app, in_app_iff. intros [H|H]; eauto using sign_own, int_own.
Qed.
Lemma float_own t c : float_text t -> In c (chars t) -> own c = true.
Proof.
  intros [->|[->|[->|(sg & ip & fp & ep & -> & SG & I & F & E & _)]]]; try (intros H; concrete H; fail).
  rewrite !chars_app, !in_app_iff. intros [H|[H|[H|H]]]; eauto using sign_own, int_own.
  - destruct F as [->|(d & -> & _ & D)]; [destruct H|]. rewrite chars_app, in_app_iff in H. destruct H as [H|H]; [concrete H|eauto using digits_own].
  - destruct E as [->|(e & g & d & -> & E & G & _ & D)]; [destruct H|]. rewrite !chars_app, !in_app_iff in H.
    destruct H as [H|[H|H]]; [destruct E as [-> | ->]; concrete H|destruct G as [->|[-> | ->]]; concrete H|eauto using digits_own].
Qed.

Lemma hex_own k : k < 16 -> own (hex_digit k) = true.
Proof. intros H. do 16 (destruct k as [|k]; [reflexivity|]). lia. Qed.
Lemma escape_own x c : In c (chars (escape_char x)) -> own c = true \/ (c = x /\ printable c = true).
Proof.
  unfold escape_char. cbv zeta. pose proof (nat_ascii_bounded x) as B.
  destruct (nat_of_ascii x =? 34) eqn:E1.
  { intros H. left. apply Nat.eqb_eq in E1. rewrite <- (ascii_nat_embedding x), E1 in H. concrete H. }
  repeat match goal with |- In c (chars (if ?b =? ?k then ?t else _)) -> _ => destruct (b =? k); [intros H; left; concrete H|] end.
  destruct ((32 <=? nat_of_ascii x) && (nat_of_ascii x <=? 126)) eqn:E.
  - intros [<-|[]]. right. split; auto.
  - rewrite chars_app, in_app_iff. intros [H|[<-|[<-|[]]]]; left; [concrete H| |];
      apply hex_own; [apply Nat.div_lt_upper_bound; lia|apply Nat.mod_upper_bound; lia].
Qed.
Lemma escape_keep c : printable c = true -> own c = false -> chars (escape_char c) = [c].
Proof.
  intros P O. unfold escape_char. cbv zeta. unfold printable in P. rewrite P.
  assert (A : forall k, own (ascii_of_nat k) = true -> (nat_of_ascii c =? k) = false).
  { intros k K. apply Nat.eqb_neq. intros E. rewrite <- E, ascii_nat_embedding in K. congruence. }
  rewrite (A 34), (A 92) by reflexivity.
  apply andb_true_iff in P. destruct P as [P _]. apply Nat.leb_le in P.
  repeat match goal with |- context [nat_of_ascii c =? ?k] => replace (nat_of_ascii c =? k) with false by (symmetry; apply Nat.eqb_neq; lia) end.
  reflexivity.
Qed.
Lemma escape_in s c : printable c = true -> own c = false -> (In c (chars (escape s)) <-> In c (chars s)).
Proof.
  intros P O. induction s as [|x s IH]; [reflexivity|].
  cbn [escape]. rewrite chars_app, in_app_iff, IH. change (chars (String x s)) with (x :: chars s). cbn [In].
  split; intros [H|H]; auto.
  - apply escape_own in H. destruct H as [H|[-> _]]; auto. congruence.
  - subst. left. rewrite escape_keep by auto. left. auto.
Qed.
Lemma escape_print s c : In c (chars (escape s)) -> printable c = true.
Proof.
  induction s as [|x s IH]; [intros []|]. cbn [escape]. rewrite chars_app, in_app_iff. intros [H|H]; auto.
  apply escape_own in H. destruct H as [H|[_ H]]; auto using own_printable.
Qed.
Lemma write_str_in s c : printable c = true -> own c = false -> (In c (chars (write_str s)) <-> In c (chars s)).
Proof.
  intros P O. unfold write_str. rewrite !chars_app, !in_app_iff, escape_in by auto.
  assert (~ In c (chars quote)) by (intros [<-|[]]; discriminate). tauto.
Qed.

Lemma concat_in l c : own c = false -> (In c (chars (String.concat ";" l)) <-> exists x, In x l /\ In c (chars x)).
Proof.
  intros O. induction l as [|x l IH]; [cbn; split; [tauto|intros (? & [] & _)]|].
  destruct l as [|y l]; [cbn; split; eauto; intros (? & [<-|[]] & ?); auto|].
  rewrite concat_cons, !chars_app, !in_app_iff, IH. cbn [In].
  split.
  - intros [H|[[<-|[]]|(z & A & B)]]; eauto. discriminate.
  - intros (z & [<-|A] & B); eauto.
Qed.
Lemma concat_sub l c : In c (chars (String.concat ";" l)) -> own c = true \/ exists x, In x l /\ In c (chars x).
Proof.
  intros H. destruct (own c) eqn:E; auto. right. apply concat_in; auto.
Qed.
Lemma some_arr str l : some str (JArr l) <-> Exists (some str) l.
Proof.
  cbn. induction l as [|x l IH]; split; intros H; [destruct H|inversion H| |].
  - destruct H; auto. right. tauto.
  - inversion H; subst; tauto.
Qed.
Lemma some_obj str l : some str (JObj l) <-> Exists (fun kv => str (fst kv) \/ some str (snd kv)) l.
Proof.
  cbn. induction l as [|[k x] l IH]; split; intros H; [destruct H|inversion H| |].
  - destruct H as [H|[H|H]]; [left; auto|left; auto|right; tauto].
  - inversion H; subst; cbn in *; tauto.
Qed.

Theorem char_iff c v : printable c = true -> own c = false -> valid v ->
  (In c (chars (write ";" ":" v)) <-> some (fun s => In c (chars s)) v).
Proof.
  intros P O. assert (X : forall s, (forall d, In d (chars s) -> own d = true) -> ~ In c (chars s)).
  { intros s H K. apply H in K. congruence. }
  induction v as [ |b|z|t|s|l IH|l IH] using json_ind'; intros V; cbn [write].
  - cbn [some]. assert (~ In c (chars "null")) by (apply X; intros d H; concrete H). tauto.
  - cbn [some]. assert (~ In c (chars (if b then "true" else "false"))) by (apply X; intros d H; destruct b; concrete H).
    destruct b; tauto.
  - cbn [some]. pose proof (X _ (fun d => dec_own z d)). tauto.
  - cbn [some]. pose proof (X _ (fun d => float_own t d V)). tauto.
  - apply write_str_in; auto.
  - apply every_arr in V. rewrite some_arr, !chars_app, !in_app_iff, concat_in by auto.
    assert (~ In c (chars "[")) by (apply X; intros d H; concrete H).
    assert (~ In c (chars "]")) by (apply X; intros d H1; concrete H1).
    rewrite Exists_exists. rewrite Forall_forall in *. split.
    + intros [?|[(x & A & B)|?]]; try tauto. apply in_map_iff in A. destruct A as (y & <- & A). exists y. split; auto.
      apply IH; auto. apply V; auto.
    + intros (y & A & B). right. left. exists (write ";" ":" y). split; [apply in_map; auto|]. apply IH; auto. apply V; auto.
  - apply every_obj in V. destruct V as [_ V]. rewrite some_obj, !chars_app, !in_app_iff, concat_in by auto.
    assert (~ In c (chars "{")) by (apply X; intros d H; concrete H).
    assert (~ In c (chars "}")) by (apply X; intros d H1; concrete H1).
    assert (~ In c (chars ":")) by (apply X; intros d H2; concrete H2).
    rewrite Exists_exists. rewrite Forall_forall in *. split.
    + intros [?|[(x & A & B)|?]]; try tauto. apply in_map_iff in A. destruct A as (y & <- & A). exists y. split; auto.
      rewrite !chars_app, !in_app_iff, write_str_in in B by auto. destruct B as [B|[B|B]]; [auto|tauto|].
      right. apply IH; auto. apply V; auto.
    + intros (y & A & B). right. left. eexists. split; [apply in_map; exact A|].
      rewrite !chars_app, !in_app_iff, write_str_in by auto. destruct B as [B|B]; [auto|]. right. right. apply IH; auto. apply V; auto.
Qed.
Theorem write_printable c v : valid v -> In c (chars (write ";" ":" v)) -> printable c = true.
Proof.
  induction v as [ |b|z|t|s|l IH|l IH] using json_ind'; intros V; cbn [write].
  - intros H. concrete H.
  - intros H. destruct b; concrete H.
  - intros H. apply own_printable. eapply dec_own; eauto.
  - intros H. apply own_printable. eapply float_own; eauto.
  - unfold write_str. rewrite !chars_app, !in_app_iff. intros [H|[H|H]]; [concrete H|eapply escape_print; eauto|concrete H].
  - apply every_arr in V. rewrite !chars_app, !in_app_iff. intros [H|[H|H]]; [concrete H| |concrete H].
    apply concat_sub in H. destruct H as [H|(x & A & B)]; auto using own_printable.
    apply in_map_iff in A. destruct A as (y & <- & A). rewrite Forall_forall in *. apply (IH y); auto. apply V; auto.
  - apply every_obj in V. destruct V as [_ V]. rewrite !chars_app, !in_app_iff. intros [H|[H|H]]; [concrete H| |concrete H].
    apply concat_sub in H. destruct H as [H|(x & A & B)]; auto using own_printable.
    apply in_map_iff in A. destruct A as (y & <- & A). rewrite Forall_forall in *.
    unfold write_str in B. rewrite !chars_app, !in_app_iff in B. destruct B as [[B|[B|B]]|[B|B]].
    + concrete B. + eapply escape_print; eauto. + concrete B. + concrete B. + apply (IH y); auto. apply V; auto.
Qed.

Lemma str_keys_text l : str_keys (map (fun kv => (PStr (fst kv), snd kv)) l) = Ok l.
Proof. induction l as [|[k x] l IH]; cbn; auto. rewrite IH. reflexivity. Qed.
Lemma str_keys_enum l : (exists k v, In (PEnum k, v) l) -> str_keys l = Raise TypeError.
Proof.
  induction l as [|[[k|k] x] l IH]; cbn; intros (k0 & v0 & H); [destruct H| |auto].
  destruct H as [H|H]; [discriminate|]. rewrite IH by eauto. reflexivity.
Qed.
Lemma sub_in l k v : NoDup (map fst l) -> In (k, v) l -> sub (JObj l) k = Ok v.
Proof. intros N H. cbn. rewrite (In_dget String.eqb String.eqb_eq l k v N H). auto. Qed.
Lemma sub_missing l k : ~ In k (map fst l) -> sub (JObj l) k = Raise KeyError.
Proof. intros H. cbn. apply (dget_None String.eqb String.eqb_eq) in H. rewrite H. auto. Qed.
Lemma mem_in l k v : In (k, v) l -> mem (JObj l) k = Ok true.
Proof.
  intros H. cbn. f_equal. apply (dmem_In String.eqb String.eqb_eq). apply in_map_iff. exists (k, v). auto.
Qed.
Lemma mem_missing l k : ~ In k (map fst l) -> mem (JObj l) k = Ok false.
Proof.
  intros H. cbn. f_equal. destruct (dmem String.eqb l k) eqn:E; auto. apply (dmem_In String.eqb String.eqb_eq) in E. tauto.
Qed.
