(** The semicolon as separator. *)
From Verif Require Import Common Common_Proofs PyStr_Model PyStr_Proofs Json_Model Json_Spec Json_Proofs Json2_Proofs.
Local Open Scope string_scope.
Local Open Scope nat_scope.

Notation rep := (replace_char ";" ",").
Lemma rep_app a b : rep (a ++ b) = rep a ++ rep b.
Proof. induction a as [|c a IH]; cbn [append replace_char]; auto. rewrite IH. destruct (Ascii.eqb c ";"); auto. Qed.
Lemma rep_id s : all_chars (fun c => negb (Ascii.eqb c ";")) s = true -> rep s = s.
Proof.
  induction s as [|c s IH]; cbn; auto. rewrite andb_true_iff. intros [A B]. rewrite IH by auto.
  destruct (Ascii.eqb c ";"); auto. discriminate.
Qed.
Lemma rep_digits d : digit_chars d -> rep d = d.
Proof.
  intros H. apply rep_id. apply (all_chars_impl isdig); auto using dig_chars.
  intros c D. rewrite (dig_not c ";"); auto.
Qed.
Lemma rep_int ip : int_text ip -> rep ip = ip.
Proof.
  intros [->|(c & d & -> & C & D)]; auto. apply (rep_digits (String c d)). intros x [<-|H]; auto. lia.
Qed.
Lemma rep_dec z : rep (dec z) = dec z.
Proof.
  destruct (dec_parts z) as (sg & ip & -> & [-> | ->] & I); rewrite rep_app, (rep_int ip) by auto; auto.
Qed.
Lemma rep_float t : float_text t -> rep t = t.
Proof.
  intros [->|[->|[->|(sg & ip & fp & ep & -> & SG & I & F & E & _)]]]; auto.
  assert (A : rep sg = sg) by (destruct SG as [-> | ->]; reflexivity).
  assert (B : rep fp = fp).
  { destruct F as [->|(d & -> & _ & D)]; [reflexivity|]. rewrite rep_app, (rep_digits d) by auto. reflexivity. }
  assert (C : rep ep = ep).
  { destruct E as [->|(e & g & d & -> & E & G & _ & D)]; [reflexivity|]. rewrite !rep_app, (rep_digits d) by auto.
    destruct E as [-> | ->]; destruct G as [->|[-> | ->]]; reflexivity. }
  rewrite !rep_app, (rep_int ip), A, B, C by auto. reflexivity.
Qed.

Lemma hex_not_semi k : k < 16 -> Ascii.eqb (hex_digit k) ";" = false.
Proof. intros H. do 16 (destruct k as [|k]; [reflexivity|]). lia. Qed.
Lemma rep_escape_char c : rep (escape_char c) = escape_char (if Ascii.eqb c ";" then ","%char else c).
Proof.
  destruct (Ascii.eqb_spec c ";") as [->|N]; [reflexivity|].
  apply rep_id. unfold escape_char. cbv zeta. pose proof (nat_ascii_bounded c) as B.
  assert (P : Ascii.eqb c ";" = false) by (apply Ascii.eqb_neq; auto).
  repeat match goal with |- context [if ?b then _ else _] => destruct b end; try reflexivity; cbn [append all_chars];
    rewrite ?P, ?hex_not_semi; try reflexivity; [apply Nat.mod_upper_bound; lia|apply Nat.div_lt_upper_bound; lia].
Qed.
Lemma rep_escape s : rep (escape s) = escape (rep s).
Proof.
  induction s as [|c s IH]; auto. cbn [escape replace_char]. rewrite rep_app, IH, rep_escape_char.
  destruct (Ascii.eqb c ";"); reflexivity.
Qed.
Lemma rep_write_str s : rep (write_str s) = write_str (rep s).
Proof. unfold write_str. rewrite !rep_app, rep_escape. reflexivity. Qed.

Lemma rep_concat l : rep (String.concat ";" l) = String.concat "," (map rep l).
Proof.
  induction l as [|x l IH]; auto. destruct l as [|y l]; auto.
  cbn [map]. rewrite !concat_cons, !rep_app, IH. reflexivity.
Qed.
Lemma rep_write v : valid v -> rep (write ";" ":" v) = w (on_texts rep v).
Proof.
  induction v as [ |b|z|t|s|l IH|l IH] using json_ind'; intros V; cbn [write on_texts]; auto.
  - destruct b; reflexivity.
  - apply rep_dec.
  - apply rep_float; auto.
  - apply rep_write_str.
  - apply every_arr in V. rewrite !rep_app, rep_concat. change (rep "[") with "[". change (rep "]") with "]". f_equal. f_equal. f_equal.
    rewrite !map_map. apply map_ext_in. intros x H. rewrite Forall_forall in IH, V. apply IH; auto. apply V; auto.
  - apply every_obj in V. destruct V as [_ V]. rewrite !rep_app, rep_concat. change (rep "{") with "{". change (rep "}") with "}". f_equal. f_equal. f_equal.
    rewrite !map_map. apply map_ext_in. intros [k x] H. rewrite Forall_forall in IH, V. cbn [fst snd].
    rewrite !rep_app, rep_write_str. change (rep ":") with ":". f_equal. f_equal. apply (IH (k, x)); auto. apply (V (k, x)); auto.
Qed.

Lemma concat_length f g (l : list json) : (forall x, In x l -> g x <= String.length (f x)) ->
  list_sum (map (fun x => S (g x)) l) <= S (String.length (String.concat "," (map f l))).
Proof.
  induction l as [|x l IH]; intros H; [cbn; lia|].
  cbn [map list_sum fold_right]. change (fold_right Nat.add 0 (map (fun x => S (g x)) l)) with (list_sum (map (fun x => S (g x)) l)).
  destruct l as [|y l].
  - cbn. specialize (H x (or_introl eq_refl)). lia.
  - cbn [map]. rewrite concat_cons, !append_length. specialize (IH (fun z Hz => H z (or_intror Hz))).
    cbn [map] in IH. pose proof (H x (or_introl eq_refl)). cbn [String.length] in *. lia.
Qed.
Lemma concat_length' f g (l : list (string * json)) : (forall x, In x l -> g x <= String.length (f x)) ->
  list_sum (map (fun x => S (g x)) l) <= S (String.length (String.concat "," (map f l))).
Proof.
  induction l as [|x l IH]; intros H; [cbn; lia|].
  cbn [map list_sum fold_right]. change (fold_right Nat.add 0 (map (fun x => S (g x)) l)) with (list_sum (map (fun x => S (g x)) l)).
  destruct l as [|y l].
  - cbn. specialize (H x (or_introl eq_refl)). lia.
  - cbn [map]. rewrite concat_cons, !append_length. specialize (IH (fun z Hz => H z (or_intror Hz))).
    cbn [map] in IH. pose proof (H x (or_introl eq_refl)). cbn [String.length] in *. lia.
Qed.
Lemma size_length v : valid v -> size v <= String.length (w v).
Proof.
  induction v as [ |b|z|t|s|l IH|l IH] using json_ind'; intros V; try (cbn; lia).
  - destruct b; cbn; lia.
  - cbn [write size]. pose proof (dec_not_empty z). destruct (dec z); [congruence|cbn; lia].
  - pose proof (first_good (JFloat t) "" V) as F. rewrite append_nil_r in F.
    cbn [write size] in *. destruct t; [discriminate|cbn; lia].
  - apply every_arr in V. cbn [write size]. rewrite !append_length. cbn [String.length].
    pose proof (concat_length w size l) as C. rewrite Forall_forall in IH, V.
    specialize (C (fun x H => IH x H (V x H))). lia.
  - apply every_obj in V. destruct V as [_ V]. cbn [write size]. rewrite !append_length. cbn [String.length].
    pose proof (concat_length' member (fun kv => size (snd kv)) l) as C. rewrite Forall_forall in IH, V.
    assert (D : forall x : string * json, In x l -> size (snd x) <= String.length (member x)).
    { intros x H. rewrite !append_length. specialize (IH x H (proj2 (V x H))). lia. }
    specialize (C D). lia.
Qed.

Lemma valid_on_texts f v : valid v -> valid (on_texts f v).
Proof.
  unfold valid. induction v as [ |b|z|t|s|l IH|l IH] using json_ind'; intros V; auto.
  - cbn [on_texts]. apply every_arr. apply every_arr in V. rewrite Forall_forall in *.
    intros x H. apply in_map_iff in H. destruct H as (y & <- & H). auto.
  - cbn [on_texts]. apply every_obj. apply every_obj in V. destruct V as [_ V]. split; auto. rewrite Forall_forall in *.
    intros x H. apply in_map_iff in H. destruct H as (y & <- & H). cbn. split; auto. apply IH; auto. apply V; auto.
Qed.

Theorem decode_write v : valid v -> decode (write ";" ":" v) = Ok (merged (on_texts rep v)).
Proof.
  intros V. unfold decode, loads. rewrite rep_write by auto. pose proof (valid_on_texts rep v V) as V'.
  set (u := on_texts rep v) in *. pose proof (size_length u V') as S.
  pose proof (parse_write u V' (Datatypes.S (String.length (w u))) "" ltac:(lia) eq_refl) as P.
  pose proof (first_good u "" V') as G. rewrite append_nil_r in P, G.
  rewrite skip_ws_id by (apply good_ws; auto). rewrite P. reflexivity.
Qed.

Lemma fold_oset_fresh l acc : NoDup (map fst (acc ++ l)%list) ->
  fold_left (fun a kv => oset a (fst kv) (snd kv)) l acc = (acc ++ l)%list.
Proof.
  revert acc. induction l as [|[k x] l IH]; intros acc H; cbn [fold_left]; [rewrite app_nil_r; auto|].
  cbn [fst snd]. unfold oset at 2. rewrite dset_fresh.
  - rewrite IH; rewrite <- app_assoc; auto.
  - apply String.eqb_eq.
  - rewrite map_app in H. cbn in H. apply NoDup_remove_2 in H. rewrite in_app_iff in H. tauto.
Qed.
Lemma merged_distinct v : distinct v -> merged v = v.
Proof.
  unfold distinct. induction v as [ |b|z|t|s|l IH|l IH] using json_ind'; intros V; auto.
  - cbn [merged]. f_equal. apply every_arr in V. rewrite <- (map_id l) at 2. apply map_ext_in. intros x H.
    rewrite Forall_forall in *. auto.
  - cbn [merged]. f_equal. apply every_obj in V. destruct V as [K V].
    assert (E : map (fun kv => (fst kv, merged (snd kv))) l = l).
    { rewrite <- (map_id l) at 2. apply map_ext_in. intros [k x] H. rewrite Forall_forall in *. cbn. f_equal.
      apply (IH (k, x)); auto. apply (V (k, x)); auto. }
    rewrite E, fold_oset_fresh; auto.
Qed.
Lemma on_texts_id f v : every (fun s => f s = s) (fun _ => True) (fun _ => True) v -> on_texts f v = v.
Proof.
  induction v as [ |b|z|t|s|l IH|l IH] using json_ind'; intros V; auto.
  - cbn in *. congruence.
  - cbn [on_texts]. f_equal. apply every_arr in V. rewrite <- (map_id l) at 2. apply map_ext_in. intros x H.
    rewrite Forall_forall in *. auto.
  - cbn [on_texts]. f_equal. apply every_obj in V. destruct V as [_ V].
    rewrite <- (map_id l) at 2. apply map_ext_in. intros [k x] H. rewrite Forall_forall in *. cbn. f_equal.
    + apply (V (k, x)); auto.
    + apply (IH (k, x)); auto. apply (V (k, x)); auto.
Qed.
Lemma every_impl (s1 s2 f1 f2 : string -> Prop) (k1 k2 : list string -> Prop) v :
  (forall s, s1 s -> s2 s) -> (forall s, f1 s -> f2 s) -> (forall s, k1 s -> k2 s) -> every s1 f1 k1 v -> every s2 f2 k2 v.
Proof.
  intros A B D. induction v as [ |b|z|t|s|l IH|l IH] using json_ind'; intros V; auto.
  - cbn in *. auto.
  - cbn in *. auto.
  - apply every_arr. apply every_arr in V. rewrite Forall_forall in *. auto.
  - apply every_obj. apply every_obj in V. destruct V as [K V]. split; auto. rewrite Forall_forall in *.
    intros x H. destruct (V x H). split; auto.
Qed.
Lemma rep_without s : ~ In ";"%char (chars s) -> rep s = s.
Proof.
  intros H. apply rep_id. unfold chars in H. induction s as [|c s IH]; auto. cbn in *.
  destruct (Ascii.eqb_spec c ";") as [->|N]; [tauto|]. apply IH. tauto.
Qed.
Lemma rep_replaced s : replaced ";" "," s (rep s).
Proof.
  unfold replaced, chars. induction s as [|c s IH]; cbn [replace_char list_ascii_of_string]; [constructor|].
  destruct (Ascii.eqb_spec c ";"); cbn [list_ascii_of_string]; constructor; auto.
Qed.
Lemma replaced_unique a b s t u : replaced a b s t -> replaced a b s u -> t = u.
Proof.
  unfold replaced, chars. revert t u. induction s as [|c s IH]; intros [|x t] [|y u] A B; cbn in A, B; inversion A; inversion B; subst; auto.
  f_equal; [|apply IH; auto].
  repeat match goal with H : _ \/ _ |- _ => destruct H end; intuition congruence.
Qed.

Theorem roundtrip v : valid v -> distinct v -> without ";" v -> decode (write ";" ":" v) = Ok v.
Proof.
  intros V D W. rewrite decode_write by auto. f_equal. rewrite on_texts_id; [apply merged_distinct; auto|].
  eapply every_impl; [apply rep_without| | |exact W]; auto.
Qed.
