(** C42, C43: passing execution parameters as text. *)
From Verif Require Import Common Common_Proofs PyStr_Model PyStr_Proofs Json_Model Json_Spec Json_Proofs Json2_Proofs Json3_Proofs Json4_Proofs.
Local Open Scope string_scope.
Local Open Scope nat_scope.

(** a dictionary whose keys are text *)
Definition text_keys (l : list (string * json)) : list (pkey * json) := map (fun kv => (PStr (fst kv), snd kv)) l.

Lemma serialize_text l : json_serialize (text_keys l) = Ok (write ";" ":" (JObj l)).
Proof. unfold json_serialize, text_keys. rewrite str_keys_text. reflexivity. Qed.

(** C42: a dictionary of parameters, with no text containing a semicolon, is read back unchanged *)
Theorem C42_roundtrip l :
  valid (JObj l) -> distinct (JObj l) -> without ";" (JObj l) ->
  exists text, json_serialize (text_keys l) = Ok text /\ decode text = Ok (JObj l).
Proof. intros V D W. eexists. split; [apply serialize_text|]. apply roundtrip; auto. Qed.

(** C42: in general, every semicolon inside a text becomes a comma *)
Theorem C42_exact f l :
  (forall s, replaced ";" "," s (f s)) ->
  valid (JObj l) -> distinct (on_texts f (JObj l)) ->
  exists text, json_serialize (text_keys l) = Ok text /\ decode text = Ok (on_texts f (JObj l)).
Proof.
  intros F V D. eexists. split; [apply serialize_text|]. rewrite decode_write by auto.
  assert (E : forall v, on_texts (replace_char ";" ",") v = on_texts f v).
  { intros v. induction v as [ |b|z|t|s|l' IH|l' IH] using json_ind'; cbn [on_texts]; auto.
    - f_equal. eapply replaced_unique; [apply rep_replaced|auto].
    - f_equal. apply map_ext_in. intros x H. rewrite Forall_forall in IH. auto.
    - f_equal. apply map_ext_in. intros x H. rewrite Forall_forall in IH. f_equal; auto.
      eapply replaced_unique; [apply rep_replaced|auto]. }
  rewrite E, merged_distinct; auto.
Qed.

(** C42: so a dictionary with a semicolon in some text is changed *)
Theorem C42_semicolon l text :
  valid (JObj l) -> json_serialize (text_keys l) = Ok text -> decode text = Ok (JObj l) -> without ";" (JObj l).
Proof.
  intros V S D. rewrite serialize_text in S. assert (E0 : text = write ";" ":" (JObj l)) by congruence. clear S. subst text. rewrite decode_write in D by auto.
  assert (W : forall s, ~ In ";"%char (chars (replace_char ";" "," s))).
  { intros s. unfold chars. induction s as [|c s IH]; cbn; [tauto|]. destruct (Ascii.eqb_spec c ";") as [->|N]; intros [H|H]; auto; discriminate. }
  assert (T : forall v, without ";" (on_texts (replace_char ";" ",") v)).
  { unfold without. intros v. induction v as [ |b|z|t|s|l' IH|l' IH] using json_ind'; cbn [on_texts]; try exact I.
    - apply W.
    - apply every_arr. rewrite Forall_forall in *. intros x H. apply in_map_iff in H. destruct H as (y & <- & H). auto.
    - apply every_obj. split; auto. rewrite Forall_forall in *. intros x H. apply in_map_iff in H. destruct H as (y & <- & H).
      split; [apply W|]. apply IH; auto. }
  assert (M : forall v, without ";" v -> without ";" (merged v)).
  { unfold without. intros v. induction v as [ |b|z|t|s|l' IH|l' IH] using json_ind'; auto.
    - cbn [merged]. intros H. apply every_arr in H. apply every_arr. rewrite Forall_forall in *.
      intros x K. apply in_map_iff in K. destruct K as (y & <- & K). auto.
    - cbn [merged]. intros H. apply every_obj in H. destruct H as [_ H]. apply every_obj. split; auto.
      set (P := fun kv : string * json => ~ In ";"%char (chars (fst kv)) /\ every (fun s => ~ In ";"%char (chars s)) (fun _ => True) (fun _ => True) (snd kv)) in *.
      change (Forall P (fold_left (fun a kv => oset a (fst kv) (snd kv)) (map (fun kv => (fst kv, merged (snd kv))) l') [])).
      assert (Q : Forall P (map (fun kv => (fst kv, merged (snd kv))) l')).
      { rewrite Forall_forall in *. intros x K. apply in_map_iff in K. destruct K as (y & <- & K). destruct (H y K).
        split; auto. apply IH; auto. }
      assert (G : forall l2 acc, Forall P l2 -> Forall P acc -> Forall P (fold_left (fun a kv => oset a (fst kv) (snd kv)) l2 acc)).
      { clear. induction l2 as [|[k x] l2 IH]; intros acc A B; auto. inv A. cbn [fold_left]. apply IH; auto.
        clear - H1 B. unfold oset. cbn [fst snd]. induction B as [|[k' x'] acc B1 B2 IHB]; cbn.
        - constructor; auto.
        - destruct (String.eqb_spec k k'); constructor; auto. destruct H1, B1. subst. split; auto. }
      apply G; auto. }
  assert (D' : JObj l = merged (on_texts (replace_char ";" ",") (JObj l))) by congruence.
  rewrite D'. apply M, T.
Qed.
Theorem C42_semicolon_refuted :
  exists l text, valid (JObj l) /\ distinct (JObj l) /\ json_serialize (text_keys l) = Ok text /\
                 exists l', decode text = Ok (JObj l') /\ l' <> l.
Proof.
  exists [("path_root", JStr "/work/a;b/")]. eexists. split; [|split; [|split; [reflexivity|]]].
  - cbn. auto.
  - cbn. repeat constructor; auto.
  - eexists. split; [reflexivity|]. discriminate.
Qed.

(** C42: two keys that differ only in semicolons and commas collapse; the last value remains *)
Theorem C42_collision k1 k2 k v1 v2 :
  replaced ";" "," k1 k -> replaced ";" "," k2 k -> valid v1 -> valid v2 -> distinct v2 -> without ";" v2 ->
  exists text, json_serialize (text_keys [(k1, v1); (k2, v2)]) = Ok text /\ decode text = Ok (JObj [(k, v2)]).
Proof.
  intros K1 K2 V1 V2 D2 W2. eexists. split; [apply serialize_text|]. rewrite decode_write by (cbn; auto 6).
  cbn [on_texts map merged fold_left fst snd].
  rewrite (replaced_unique _ _ _ _ _ (rep_replaced k1) K1), (replaced_unique _ _ _ _ _ (rep_replaced k2) K2).
  rewrite (on_texts_id _ v2), (merged_distinct v2); auto.
  - unfold oset. cbn. rewrite String.eqb_refl. reflexivity.
  - eapply every_impl; [apply rep_without| | |exact W2]; auto.
Qed.

(** C42: the text contains a comma exactly if some key or value does (a comma would split the list of
    environment variables), a quote likewise, and otherwise printable characters only *)
Theorem C42_comma l text :
  valid (JObj l) -> json_serialize (text_keys l) = Ok text ->
  (In ","%char (chars text) <-> some (fun s => In ","%char (chars s)) (JObj l)) /\
  (In "'"%char (chars text) <-> some (fun s => In "'"%char (chars s)) (JObj l)) /\
  (In " "%char (chars text) <-> some (fun s => In " "%char (chars s)) (JObj l)) /\
  forall c, In c (chars text) -> 32 <= nat_of_ascii c <= 126.
Proof.
  intros V S. rewrite serialize_text in S. assert (E0 : text = write ";" ":" (JObj l)) by congruence. clear S. subst text. repeat split; try (apply char_iff; auto); try (intros; apply (char_iff _ (JObj l)); auto).
  - apply write_printable in H; auto. unfold printable in H. apply andb_true_iff in H. rewrite !Nat.leb_le in H. tauto.
  - apply write_printable in H; auto. unfold printable in H. apply andb_true_iff in H. rewrite !Nat.leb_le in H. tauto.
Qed.

(** C42: the object that is filled from the text *)
Theorem C42_fields inv_kT divide files l text x nb a p n t bs d r root be ta db pv pr hv hr :
  valid (JObj l) -> distinct (JObj l) -> without ";" (JObj l) -> json_serialize (text_keys l) = Ok text ->
  In ("number_of_samples", x) l -> In ("number_of_blocks", nb) l -> In ("number_of_states", a) l ->
  In ("number_of_beads", p) l -> In ("number_of_modes", n) l -> In ("temperature", t) l -> In ("block_size", bs) l ->
  In ("id_data", d) l -> In ("id_rho", r) l -> In ("path_root", root) l ->
  (In ("beta", be) l \/ (~ In "beta" (map fst l) /\ inv_kT t = Ok be)) ->
  (In ("tau", ta) l \/ (~ In "tau" (map fst l) /\ divide be p = Ok ta)) ->
  ((exists s, db = JFloat s /\ In ("delta_beta", db) l) \/
   ((forall s, ~ In ("delta_beta", JFloat s) l) /\ db = JFloat "0.0")) ->
  files root d r = Ok (pv, pr, hv, hr) ->
  load_json_string inv_kT divide files text = Ok
    {| samples := x; blocks := nb; states := a; beads := p; modes := n; temperature := t; block_size := bs;
       delta_beta := db; id_data := d; id_rho := r; beta := be; tau := ta;
       path_vib_model := pv; path_rho_model := pr; hash_vib := hv; hash_rho := hr |}.
Proof.
  intros V D W S H1 H2 H3 H4 H5 H6 H7 H8 H9 HR HB HT HD HF. rewrite serialize_text in S. assert (E0 : text = write ";" ":" (JObj l)) by congruence. clear S. subst text.
  unfold load_json_string. rewrite roundtrip by auto.
  assert (N : NoDup (map fst l)) by (apply every_obj in D; tauto).
  cbn [bind sep_value].
  rewrite (sub_in l _ x), (sub_in l _ nb), (sub_in l _ a), (sub_in l _ p), (sub_in l _ n), (sub_in l _ t),
    (sub_in l _ bs), (sub_in l _ d), (sub_in l _ r) by auto.
  cbn [bind].
  assert (EB : (do hb <- mem (JObj l) "beta"; if hb then sub (JObj l) "beta" else inv_kT t) = Ok be).
  { destruct HB as [HB|[HB HB']]; [rewrite (mem_in l _ be), (sub_in l _ be) by auto; auto|].
    rewrite mem_missing by auto. auto. }
  assert (ET : (do hb <- mem (JObj l) "tau"; if hb then sub (JObj l) "tau" else divide be p) = Ok ta).
  { destruct HT as [HT|[HT HT']]; [rewrite (mem_in l _ ta), (sub_in l _ ta) by auto; auto|].
    rewrite mem_missing by auto. auto. }
  apply bind_ok in EB. destruct EB as (hb & -> & EB). cbn [bind]. rewrite EB. cbn [bind].
  apply bind_ok in ET. destruct ET as (ht & -> & ET). cbn [bind]. rewrite ET. cbn [bind].
  assert (ED : (do hd <- mem (JObj l) "delta_beta";
                if hd then do v <- sub (JObj l) "delta_beta"; Ok (match v with JFloat _ => v | _ => class_delta_beta end)
                else Ok class_delta_beta) = Ok db).
  { destruct HD as [(s & -> & HD)|[HD ->]]; [rewrite (mem_in l _ (JFloat s)), (sub_in l _ (JFloat s)) by auto; auto|].
    destruct (in_dec string_dec "delta_beta" (map fst l)) as [M|M].
    - apply in_map_iff in M. destruct M as ([k v] & E & M). cbn in E. subst k.
      rewrite (mem_in l _ v), (sub_in l _ v) by auto. cbn [bind]. destruct v; auto. destruct (HD _ M).
    - rewrite mem_missing by auto. auto. }
  apply bind_ok in ED. destruct ED as (hd & -> & ED). cbn [bind]. rewrite ED. cbn [bind].
  rewrite (sub_in l _ root) by auto. cbn [bind]. rewrite HF. reflexivity.
Qed.
(** C42: a missing parameter is reported *)
Theorem C42_missing inv_kT divide files l text k :
  valid (JObj l) -> distinct (JObj l) -> without ";" (JObj l) -> json_serialize (text_keys l) = Ok text ->
  In k ["number_of_samples"; "number_of_blocks"; "number_of_states"; "number_of_beads"; "number_of_modes";
        "temperature"; "block_size"; "id_data"; "id_rho"] ->
  ~ In k (map fst l) -> load_json_string inv_kT divide files text = Raise KeyError.
Proof.
  intros V D W S K M. rewrite serialize_text in S. assert (E0 : text = write ";" ":" (JObj l)) by congruence. clear S. subst text.
  unfold load_json_string. rewrite roundtrip by auto. cbn [bind].
  assert (C : forall k', (exists v, sub (JObj l) k' = Ok v) \/ sub (JObj l) k' = Raise KeyError).
  { intros k'. cbn. destruct (dget String.eqb l k'); eauto. }
  apply sub_missing in M.
  cbn [sep_value]. cbn [In] in K.
  destruct (C "number_of_samples") as [[v1 E1]|E1]; rewrite E1; cbn [bind]; auto.
  destruct (C "number_of_blocks") as [[v2 E2]|E2]; rewrite E2; cbn [bind]; auto.
  destruct (C "number_of_states") as [[v3 E3]|E3]; rewrite E3; cbn [bind]; auto.
  destruct (C "number_of_beads") as [[v4 E4]|E4]; rewrite E4; cbn [bind]; auto.
  destruct (C "number_of_modes") as [[v5 E5]|E5]; rewrite E5; cbn [bind]; auto.
  destruct (C "temperature") as [[v6 E6]|E6]; rewrite E6; cbn [bind]; auto.
  destruct (C "block_size") as [[v7 E7]|E7]; rewrite E7; cbn [bind]; auto.
  destruct (C "id_data") as [[v8 E8]|E8]; rewrite E8; cbn [bind]; auto.
  destruct (C "id_rho") as [[v9 E9]|E9]; rewrite E9; cbn [bind]; auto.
  exfalso. repeat destruct K as [<-|K]; try congruence.
Qed.

(** the hypotheses of the theorems above are met *)
Definition demo : list (string * json) :=
  [("number_of_samples", JInt 1000); ("number_of_blocks", JInt 10); ("number_of_states", JInt 2);
   ("number_of_beads", JInt 12); ("number_of_modes", JInt 3); ("temperature", JFloat "300.0"); ("block_size", JInt 100);
   ("delta_beta", JFloat "0.0002"); ("id_data", JInt 11); ("id_rho", JInt 0); ("path_root", JStr "/work/ngr, ymon/");
   ("hostname", JStr "compute_canada"); ("extra", JArr [JNull; JBool true; JFloat "-1.5e-07"; JObj []])].
Definition demo_files (root d r : json) : res (string * string * string * string) :=
  match root with JStr s => Ok (s ++ "vib.json", s ++ "rho.json", "h1", "h2") | _ => Raise TypeError end.
Definition demo_text : string := match json_serialize (text_keys demo) with Ok s => s | Raise _ => "" end.
Example C42_example :
  valid (JObj demo) /\ distinct (JObj demo) /\ without ";" (JObj demo) /\
  json_serialize (text_keys demo) = Ok demo_text /\ decode demo_text = Ok (JObj demo) /\ In ","%char (chars demo_text) /\
  load_json_string (fun _ => Ok (JFloat "38.68")) (fun _ _ => Ok (JFloat "3.22")) demo_files demo_text =
  Ok {| samples := JInt 1000; blocks := JInt 10; states := JInt 2; beads := JInt 12; modes := JInt 3;
        temperature := JFloat "300.0"; block_size := JInt 100; delta_beta := JFloat "0.0002"; id_data := JInt 11;
        id_rho := JInt 0; beta := JFloat "38.68"; tau := JFloat "3.22";
        path_vib_model := "/work/ngr, ymon/vib.json"; path_rho_model := "/work/ngr, ymon/rho.json";
        hash_vib := "h1"; hash_rho := "h2" |}.
Proof.
  assert (F : forall ip d, int_text ip -> d <> "" -> digit_chars d -> float_text (ip ++ "." ++ d)).
  { intros ip d I N D. right. right. right. exists "", ip, ("." ++ d), "". rewrite append_nil_r.
    split; [reflexivity|]. split; [auto|]. split; [auto|]. split; [right; eauto|]. split; [left; auto|left; discriminate]. }
  assert (D : forall d, all_chars isdig d = true -> digit_chars d).
  { intros d. unfold digit_chars, chars. induction d as [|c d IH]; cbn; [tauto|]. rewrite andb_true_iff.
    intros [A B] x [<-|H]; auto. apply isdig_digit; auto. }
  assert (I : int_text "300") by (right; exists "3"%char, "00"; split; [reflexivity|split; [cbn; lia|apply D; reflexivity]]).
  assert (Z0 : int_text "0") by (left; reflexivity).
  assert (F1 : float_text "300.0") by (apply (F "300" "0"); [auto|discriminate|apply D; reflexivity]).
  assert (F2 : float_text "0.0002") by (apply (F "0" "0002"); [auto|discriminate|apply D; reflexivity]).
  assert (F3 : float_text "-1.5e-07").
  { right. right. right. exists "-", "1", ".5", "e-07". split; [reflexivity|]. split; [auto|]. split.
    { right. exists "1"%char, "". split; [reflexivity|]. split; [cbn; lia|]. intros c []. }
    split; [right; exists "5"; split; [reflexivity|]; split; [discriminate|apply D; reflexivity]|].
    split; [right; exists "e", "-", "07"; split; [reflexivity|]; split; [auto|]; split; [auto|]; split; [discriminate|apply D; reflexivity]|].
    left. discriminate. }
  split; [unfold valid; cbn; tauto|]. split.
  { unfold distinct. apply every_obj. split; [|cbn; repeat constructor; auto].
    cbn. repeat (constructor; [cbn; intuition discriminate|]). constructor. }
  split; [unfold without; cbn; intuition discriminate|].
  split; [reflexivity|]. split; [vm_compute; reflexivity|]. split; [vm_compute; tauto|]. vm_compute. reflexivity.
Qed.

(** C43: without arguments, encode_self never returns *)
Theorem C43_encode_self b : encode_self b = Raise TypeError.
Proof. unfold encode_self, json_serialize. rewrite str_keys_enum; [reflexivity|]. cbn. eauto. Qed.
(** C43: nor does it for any dictionary with an enum member among its keys *)
Theorem C43_enum_key params k v : In (PEnum k, v) params -> encode_params params = Raise TypeError.
Proof. intros H. unfold encode_params, json_serialize. rewrite str_keys_enum by eauto. reflexivity. Qed.
(** C43: it succeeds exactly for text keys, and then the loaded object is the one described by C42_fields *)
Theorem C43_text_keys params :
  (exists text, encode_params params = Ok text) <-> (exists l, params = text_keys l).
Proof.
  split.
  - intros [text H]. unfold encode_params, json_serialize in H. apply bind_ok in H. destruct H as (l & H & _). exists l.
    revert l H. induction params as [|[[k|k] x] ps IH]; cbn; intros l H; try discriminate.
    + inv H. reflexivity.
    + apply bind_ok in H. destruct H as (r & E & H). inv H. cbn. f_equal. apply IH. auto.
  - intros [l ->]. exists (write ";" ":" (JObj l)). apply serialize_text.
Qed.
Example C43_example :
  encode_params (text_keys [("number_of_beads", JInt 12); ("a", JBool false)]) =
    Ok ("{" ++ quote ++ "number_of_beads" ++ quote ++ ":12;" ++ quote ++ "a" ++ quote ++ ":false}") /\
  encode_params [(PStr "number_of_beads", JInt 12); (PEnum "tau", JInt 1)] = Raise TypeError.
Proof. split; reflexivity. Qed.

Print Assumptions C42_roundtrip.
Print Assumptions C42_exact.
Print Assumptions C42_semicolon.
Print Assumptions C42_semicolon_refuted.
Print Assumptions C42_collision.
Print Assumptions C42_comma.
Print Assumptions C42_fields.
Print Assumptions C42_missing.
Print Assumptions C43_encode_self.
Print Assumptions C43_enum_key.
Print Assumptions C43_text_keys.
