From Coq Require Import Sorting.Sorted.
From Verif Require Import Common Common_Proofs PyStr_Model PyStr_Proofs FileName_Model.
Local Open Scope string_scope.
Local Open Scope nat_scope.

(** characters of "{:d}" *)
Definition is_int_char (c : ascii) : bool := is_digit c || Ascii.eqb c "-".
(** characters of "{:d}" and "{:.2f}" *)
Definition is_num_char (c : ascii) : bool := is_digit c || Ascii.eqb c "-" || Ascii.eqb c ".".

Lemma dec_int_chars z : all_chars is_int_char (dec z) = true.
Proof.
  assert (forall n, all_chars is_int_char (dec_N n) = true) as H.
  { intros n. eapply all_chars_impl; [|apply dec_N_digits]. intros c Hc. unfold is_int_char. rewrite Hc. auto. }
  destruct z; simpl; auto.
Qed.

Lemma int_num_chars s : all_chars is_int_char s = true -> all_chars is_num_char s = true.
Proof. apply all_chars_impl. unfold is_int_char, is_num_char. intros c ->. auto. Qed.

Lemma dec_num_chars z : all_chars is_num_char (dec z) = true.
Proof. apply int_num_chars, dec_int_chars. Qed.

Lemma fmt2_chars T : all_chars is_num_char (fmt2 T) = true.
Proof.
  assert (forall h, (0 <= h)%Z -> all_chars is_num_char (fmt_hundredths h) = true) as H.
  { intros h Hh. eapply all_chars_impl; [|apply fmt_hundredths_chars; auto].
    unfold is_float_char, is_num_char. intros c. destruct (is_digit c), (Ascii.eqb c "-"); auto. }
  unfold fmt2. destruct (Z.ltb_spec (Qnum T) 0).
  - simpl. apply H. apply hundredths_nonneg. destruct T; simpl in *; lia.
  - apply H, hundredths_nonneg; auto.
Qed.

Lemma num_no_char x s : is_num_char x = false -> all_chars is_num_char s = true -> all_chars (fun c => negb (Ascii.eqb c x)) s = true.
Proof. intros Hx. apply all_chars_impl. intros c Hc. apply negb_true_iff, Ascii.eqb_neq. intros ->. congruence. Qed.

Lemma fmt2_inj T T' : (0 <= Qnum T)%Z -> (0 <= Qnum T')%Z -> fmt2 T = fmt2 T' -> hundredths T = hundredths T'.
Proof.
  intros H H'. unfold fmt2. destruct (Z.ltb_spec (Qnum T) 0); [lia|]. destruct (Z.ltb_spec (Qnum T') 0); [lia|].
  apply fmt_hundredths_inj; apply hundredths_nonneg; auto.
Qed.

Lemma hundredths_fmt2 T T' : (0 <= Qnum T)%Z -> (0 <= Qnum T')%Z -> hundredths T = hundredths T' -> fmt2 T = fmt2 T'.
Proof.
  intros H H' E. unfold fmt2. destruct (Z.ltb_spec (Qnum T) 0); [lia|]. destruct (Z.ltb_spec (Qnum T') 0); [lia|]. congruence.
Qed.

Lemma hundredths_close T T' : hundredths T = hundredths T' -> (Qabs.Qabs (T - T') <= 1 # 100)%Q.
Proof.
  intros E. pose proof (hundredths_error T) as H1. pose proof (hundredths_error T') as H2. rewrite E in H1.
  setoid_replace (T - T')%Q with ((T - (hundredths T' # 100)) - (T' - (hundredths T' # 100)))%Q by ring.
  eapply Qle_trans; [apply Qabs.Qabs_triangle|]. rewrite Qabs.Qabs_opp.
  eapply Qle_trans; [apply Qplus_le_compat; eassumption|]. discriminate.
Qed.

(** the common part of the names that start with P..._T... *)
Lemma ptx_inj P T a b P' T' a' b' :
  all_chars is_num_char P = true -> all_chars is_num_char P' = true ->
  all_chars is_num_char T = true -> all_chars is_num_char T' = true ->
  is_num_char a = false -> is_num_char a' = false ->
  ("P" ++ P ++ "_T" ++ T ++ String a b)%string = ("P" ++ P' ++ "_T" ++ T' ++ String a' b')%string ->
  P = P' /\ T = T' /\ a = a' /\ b = b'.
Proof.
  intros HP HP' HT HT' Ha Ha' H. simpl in H. injection H as H.
  apply (split_class is_num_char) in H; auto. destruct H as (-> & _ & H). injection H as H.
  apply (split_class is_num_char) in H; auto.
Qed.

Theorem pimc_file_inj P T J P' T' J' :
  (0 <= Qnum T)%Z -> (0 <= Qnum T')%Z ->
  (pimc_file P T J = pimc_file P' T' J' <-> P = P' /\ hundredths T = hundredths T' /\ J = J').
Proof.
  intros HT HT'. split.
  - unfold pimc_file, pimc. intros H.
    apply ptx_inj in H; auto using dec_num_chars, fmt2_chars. destruct H as (HP & HTT & _ & H).
    injection H as H. apply append_inj_r in H. apply dec_inj in HP, H. apply fmt2_inj in HTT; auto.
  - intros (-> & H & ->). unfold pimc_file. rewrite (hundredths_fmt2 T T'); auto.
Qed.

Theorem thermo_file_inj P T X P' T' X' :
  (0 <= Qnum T)%Z -> (0 <= Qnum T')%Z ->
  (thermo_file P T X = thermo_file P' T' X' <-> P = P' /\ hundredths T = hundredths T' /\ X = X').
Proof.
  intros HT HT'. split.
  - unfold thermo_file, jackknife. intros H.
    apply ptx_inj in H; auto using dec_num_chars, fmt2_chars. destruct H as (HP & HTT & _ & H).
    injection H as H. apply append_inj_r in H. apply dec_inj in HP, H. apply fmt2_inj in HTT; auto.
  - intros (-> & H & ->). unfold thermo_file. rewrite (hundredths_fmt2 T T'); auto.
Qed.

Theorem sos_file_inj B B' : sos_file B = sos_file B' -> B = B'.
Proof. unfold sos_file, sos. intros H. apply append_inj_l in H. apply append_inj_r in H. apply dec_inj; auto. Qed.

Theorem trotter_file_inj P B P' B' : trotter_file P B = trotter_file P' B' -> P = P' /\ B = B'.
Proof.
  unfold trotter_file, trotter. intros H. apply append_inj_l in H.
  apply (split_class is_num_char) in H; auto using dec_num_chars. destruct H as (H1 & _ & H2).
  injection H2 as H2. apply append_inj_r in H2. apply dec_inj in H1, H2. auto.
Qed.

(** files of different kinds never collide *)
Theorem kinds_disjoint P T J P' T' X B P2 B2 :
  pimc_file P T J <> thermo_file P' T' X /\ pimc_file P T J <> sos_file B /\ pimc_file P T J <> trotter_file P2 B2 /\
  thermo_file P' T' X <> sos_file B /\ thermo_file P' T' X <> trotter_file P2 B2 /\ sos_file B <> trotter_file P2 B2.
Proof.
  split; [|repeat split; discriminate].
  unfold pimc_file, pimc, thermo_file, jackknife. intros H.
  apply ptx_inj in H; auto using dec_num_chars, fmt2_chars. destruct H as (_ & _ & _ & H). discriminate.
Qed.

Theorem result_path_inj root s s' P P' T T' j j' p :
  (0 <= Qnum T)%Z -> (0 <= Qnum T')%Z ->
  result_path root s P T j = Ok p -> result_path root s' P' T' j' = Ok p ->
  P = P' /\ hundredths T = hundredths T' /\
  match j with Some x => x | None => 0%Z end = match j' with Some x => x | None => 0%Z end.
Proof.
  intros HT HT'. unfold result_path. destruct (s =? 0)%Z, (s' =? 0)%Z; try discriminate.
  assert (forall P T J, String.prefix "/" (pimc_file P T J) = false) as NP by reflexivity.
  destruct j, j'; intros H1 H2; injection H1 as <-; injection H2 as H2; apply join_inj in H2; auto;
    apply pimc_file_inj in H2; auto; intuition.
Qed.

(** ---- extraction ---- *)
(** the directory part of a path must not contain the separators *)
Lemma extract_bead_ok dir P rest T :
  (0 <= P)%Z -> all_chars (fun c => negb (Ascii.eqb c "P")) dir = true ->
  all_chars is_num_char T = true ->
  extract_bead (dir ++ "P" ++ dec P ++ "_T" ++ T ++ rest) = Ok P.
Proof.
  intros HP HD HT. unfold extract_bead, between.
  change "P" with (String "P" "") at 2. rewrite split_first; [|discriminate|apply no_start_char; auto].
  destruct (split "P" (dec P ++ "_T" ++ T ++ rest)) as [|h t] eqn:E; [exfalso; eapply split_not_nil; eauto|].
  cbn [item nth_error bind].
  assert (exists r, h = (dec P ++ "_T" ++ r)%string) as [r ->].
  { (* the first piece is at least dec P ++ "_T" because these contain no "P" *)
    clear -E. assert (forall a s h t, all_chars (fun c => negb (Ascii.eqb c "P")) a = true ->
      split "P" (a ++ s) = h :: t -> exists r, h = (a ++ r)%string) as L.
    { induction a as [|c a IH]; intros s h0 t0 Ha H; [exists h0; auto|].
      simpl in Ha. apply andb_true_iff in Ha. destruct Ha as [Hc Ha]. apply negb_true_iff, Ascii.eqb_neq in Hc.
      unfold split in H. cbn [String.append split_go] in H.
      destruct (String.prefix "P" (String c (a ++ s))) eqn:EP; [apply prefix_first in EP; congruence|].
      destruct (split_go "P" 0 (a ++ s)) as [|h1 t1] eqn:ES; [exfalso; eapply (split_not_nil "P"); eauto|].
      inv H. destruct (IH s h1 t0 Ha ES) as [r ->]. exists r. auto. }
    rewrite <- append_assoc in E. apply L in E.
    - destruct E as [r ->]. exists r. rewrite append_assoc. auto.
    - rewrite all_chars_app, (num_no_char "P") by auto using dec_num_chars. auto. }
  rewrite split_first; [|discriminate|].
  2:{ apply no_start_char, num_no_char; auto using dec_num_chars. }
  cbn [item nth_error]. apply py_int_dec.
Qed.

Lemma between_ok sep1 sep2 a x b :
  sep1 <> EmptyString -> sep2 <> EmptyString ->
  no_start sep1 (sep1 ++ x ++ sep2 ++ b) a ->
  (exists r, item (split sep1 (x ++ sep2 ++ b)) 0 = Ok (x ++ sep2 ++ r)%string /\ no_start sep2 (sep2 ++ r) x) ->
  between sep1 sep2 (a ++ sep1 ++ x ++ sep2 ++ b) = Ok x.
Proof.
  intros H1 H2 Ha (r & Hr & Hx). unfold between. rewrite split_first by auto.
  destruct (split sep1 (x ++ sep2 ++ b)) as [|h t]; [discriminate|]. cbn [item nth_error bind] in *.
  injection Hr as ->. rewrite split_first by auto. auto.
Qed.

Lemma split_none_item sep s : sep <> EmptyString -> no_start sep "" s -> item (split sep s) 0 = Ok s.
Proof. intros H1 H2. rewrite split_none by auto. auto. Qed.

Lemma no_start_app sep rest a b : no_start sep (b ++ rest) a -> no_start sep rest b -> no_start sep rest (a ++ b).
Proof.
  intros H Hb. induction H as [|c a H1 H2 IH]; simpl; auto. constructor; auto.
  cbn [String.append] in *. rewrite append_assoc. auto.
Qed.

(** a two-character separator "_c" is not started inside number characters or
    inside a fixed tail without "_c" *)
Definition us2 (c : ascii) : string := String "_" (String c "").

Lemma us2_dir c dir rest :
  c <> "_"%char -> c <> "P"%char -> contains (us2 c) dir = false ->
  match rest with String r _ => r = "P"%char | EmptyString => False end ->
  no_start (us2 c) rest dir.
Proof.
  intros Hc Hp HC HR. rewrite <- (append_nil_r dir). apply no_start_two; auto.
  destruct rest; auto. congruence.
Qed.

Lemma extract_temperature_pimc_ok dir P T J :
  (0 <= Qnum T)%Z -> contains "_T" dir = false ->
  exists q, extract_temperature_pimc (dir ++ pimc_file P T J) = Ok q /\ (q == hundredths T # 100)%Q.
Proof.
  intros HT HD. unfold extract_temperature_pimc, pimc_file, pimc.
  replace (dir ++ "P" ++ dec P ++ "_T" ++ fmt2 T ++ "_J" ++ dec J ++ "_data_points.npz")%string
    with ((dir ++ "P" ++ dec P) ++ "_T" ++ fmt2 T ++ "_J" ++ dec J ++ "_data_points.npz")%string
    by (rewrite !append_assoc; auto).
  rewrite between_ok.
  - cbn [bind]. unfold fmt2. destruct (Z.ltb_spec (Qnum T) 0); [lia|].
    apply py_float_fmt, hundredths_nonneg; auto.
  - discriminate.
  - discriminate.
  - apply no_start_app.
    + apply (us2_dir "T"); auto; try reflexivity; discriminate.
    + apply (no_start_char "_" "T"). simpl. apply num_no_char; auto using dec_num_chars.
  - exists (dec J ++ "_data_points.npz")%string. split.
    + apply split_none_item; [discriminate|].
      apply no_start_app; [apply (no_start_char "_" "T"), num_no_char; auto using fmt2_chars|].
      apply (no_start_app _ _ "_J").
      { constructor; [simpl|constructor; [reflexivity|constructor]]. reflexivity. }
      apply no_start_app; [apply (no_start_char "_" "T"), num_no_char; auto using dec_num_chars|].
      repeat (constructor; [reflexivity|]). constructor.
    + apply (no_start_char "_" "J"), num_no_char; auto using fmt2_chars.
Qed.

Lemma extract_job_pimc_ok dir P T J :
  contains "_J" dir = false -> extract_job_pimc (dir ++ pimc_file P T J) = Ok J.
Proof.
  intros HD. unfold extract_job_pimc, pimc_file, pimc.
  replace (dir ++ "P" ++ dec P ++ "_T" ++ fmt2 T ++ "_J" ++ dec J ++ "_data_points.npz")%string
    with ((dir ++ "P" ++ dec P ++ "_T" ++ fmt2 T) ++ "_J" ++ dec J ++ "_data_" ++ "points.npz")%string
    by (rewrite !append_assoc; auto).
  rewrite between_ok.
  - cbn [bind]. apply py_int_dec.
  - discriminate.
  - discriminate.
  - apply no_start_app; [apply (us2_dir "J"); auto; try reflexivity; discriminate|].
    apply (no_start_app _ _ "P"); [constructor; [reflexivity|constructor]|].
    apply no_start_app; [apply (no_start_char "_" "J"), num_no_char; auto using dec_num_chars|].
    apply (no_start_app _ _ "_T"); [constructor; [reflexivity|constructor; [reflexivity|constructor]]|].
    apply (no_start_char "_" "J"), num_no_char; auto using fmt2_chars.
  - exists "points.npz". split.
    + apply split_none_item; [discriminate|].
      apply no_start_app; [apply (no_start_char "_" "J"), num_no_char; auto using dec_num_chars|].
      repeat (constructor; [reflexivity|]). constructor.
    + apply (no_start_char "_" "data_"), num_no_char; auto using dec_num_chars.
Qed.

Lemma extract_temperature_thermo_ok dir P T X :
  (0 <= Qnum T)%Z -> contains "_T" dir = false ->
  exists q, extract_temperature_thermo (dir ++ thermo_file P T X) = Ok q /\ (q == hundredths T # 100)%Q.
Proof.
  intros HT HD. unfold extract_temperature_thermo, thermo_file, jackknife.
  replace (dir ++ "P" ++ dec P ++ "_T" ++ fmt2 T ++ "_X" ++ dec X ++ "_thermo")%string
    with ((dir ++ "P" ++ dec P) ++ "_T" ++ fmt2 T ++ "_X" ++ dec X ++ "_thermo")%string
    by (rewrite !append_assoc; auto).
  rewrite between_ok.
  - cbn [bind]. unfold fmt2. destruct (Z.ltb_spec (Qnum T) 0); [lia|].
    apply py_float_fmt, hundredths_nonneg; auto.
  - discriminate.
  - discriminate.
  - apply no_start_app.
    + apply (us2_dir "T"); auto; try reflexivity; discriminate.
    + apply (no_start_char "_" "T"). simpl. apply num_no_char; auto using dec_num_chars.
  - exists (dec X ++ "_thermo")%string. split.
    + apply split_none_item; [discriminate|].
      apply no_start_app; [apply (no_start_char "_" "T"), num_no_char; auto using fmt2_chars|].
      apply (no_start_app _ _ "_X").
      { constructor; [reflexivity|constructor; [reflexivity|constructor]]. }
      apply no_start_app; [apply (no_start_char "_" "T"), num_no_char; auto using dec_num_chars|].
      repeat (constructor; [reflexivity|]). constructor.
    + apply (no_start_char "_" "X"), num_no_char; auto using fmt2_chars.
Qed.

Lemma extract_sample_thermo_ok dir P T X :
  contains "_X" dir = false -> extract_sample_thermo (dir ++ thermo_file P T X) = Ok X.
Proof.
  intros HD. unfold extract_sample_thermo, thermo_file, jackknife.
  replace (dir ++ "P" ++ dec P ++ "_T" ++ fmt2 T ++ "_X" ++ dec X ++ "_thermo")%string
    with ((dir ++ "P" ++ dec P ++ "_T" ++ fmt2 T) ++ "_X" ++ dec X ++ "_thermo" ++ "")%string
    by (rewrite !append_assoc; auto).
  rewrite between_ok.
  - cbn [bind]. apply py_int_dec.
  - discriminate.
  - discriminate.
  - apply no_start_app; [apply (us2_dir "X"); auto; try reflexivity; discriminate|].
    apply (no_start_app _ _ "P"); [constructor; [reflexivity|constructor]|].
    apply no_start_app; [apply (no_start_char "_" "X"), num_no_char; auto using dec_num_chars|].
    apply (no_start_app _ _ "_T"); [constructor; [reflexivity|constructor; [reflexivity|constructor]]|].
    apply (no_start_char "_" "X"), num_no_char; auto using fmt2_chars.
  - exists "". split.
    + apply split_none_item; [discriminate|].
      apply no_start_app; [apply (no_start_char "_" "X"), num_no_char; auto using dec_num_chars|].
      repeat (constructor; [reflexivity|]). constructor.
    + apply (no_start_char "_" "thermo"), num_no_char; auto using dec_num_chars.
Qed.

Lemma extract_basis_sos_ok dir B :
  contains "_B" dir = false -> extract_basis_sos (dir ++ sos_file B) = Ok B.
Proof.
  intros HD. unfold extract_basis_sos, sos_file, sos.
  replace (dir ++ "sos_B" ++ dec B ++ ".json")%string
    with ((dir ++ "sos") ++ "_B" ++ dec B ++ ".json" ++ "")%string
    by (rewrite !append_assoc; auto).
  rewrite between_ok.
  - cbn [bind]. apply py_int_dec.
  - discriminate.
  - discriminate.
  - apply no_start_two; auto; discriminate.
  - exists "". split.
    + apply split_none_item; [discriminate|].
      apply no_start_app; [apply (no_start_char "_" "B"), num_no_char; auto using dec_num_chars|].
      repeat (constructor; [reflexivity|]). constructor.
    + apply (no_start_char "." "json"). eapply all_chars_impl; [|apply dec_int_chars].
      intros c Hc. apply negb_true_iff, Ascii.eqb_neq. intros ->. discriminate.
Qed.

Theorem extract_pimc dir P T J :
  (0 <= P)%Z -> (0 <= Qnum T)%Z ->
  all_chars (fun c => negb (Ascii.eqb c "P")) dir = true ->
  contains "_T" dir = false -> contains "_J" dir = false ->
  extract_bead (dir ++ pimc_file P T J) = Ok P /\
  (exists q, extract_temperature_pimc (dir ++ pimc_file P T J) = Ok q /\ (q == hundredths T # 100)%Q) /\
  extract_job_pimc (dir ++ pimc_file P T J) = Ok J.
Proof.
  intros HP HT H1 H2 H3. split; [|split].
  - apply extract_bead_ok; auto using fmt2_chars.
  - apply extract_temperature_pimc_ok; auto.
  - apply extract_job_pimc_ok; auto.
Qed.

Theorem extract_thermo dir P T X :
  (0 <= P)%Z -> (0 <= Qnum T)%Z ->
  all_chars (fun c => negb (Ascii.eqb c "P")) dir = true ->
  contains "_T" dir = false -> contains "_X" dir = false ->
  extract_bead (dir ++ thermo_file P T X) = Ok P /\
  (exists q, extract_temperature_thermo (dir ++ thermo_file P T X) = Ok q /\ (q == hundredths T # 100)%Q) /\
  extract_sample_thermo (dir ++ thermo_file P T X) = Ok X.
Proof.
  intros HP HT H1 H2 H3. split; [|split].
  - apply extract_bead_ok; auto using fmt2_chars.
  - apply extract_temperature_thermo_ok; auto.
  - apply extract_sample_thermo_ok; auto.
Qed.

(** a capital P followed by something that is not a number in the directory:
    the extraction fails *)
Theorem extract_bead_dir_P d1 d2 name :
  all_chars (fun c => negb (Ascii.eqb c "P")) d1 = true ->
  all_chars (fun c => negb (Ascii.eqb c "P")) d2 = true ->
  match d2 with String c _ => is_digit c = false /\ is_space c = false /\ c <> "+"%char /\ c <> "-"%char | EmptyString => False end ->
  contains "_T" d2 = false ->
  extract_bead (d1 ++ "P" ++ d2 ++ "/P" ++ name) = Raise ValueError.
Proof.
  intros H1 H2 H3 H4. unfold extract_bead, between.
  change ("P" ++ d2 ++ "/P" ++ name)%string with ((String "P" "") ++ d2 ++ "/P" ++ name)%string.
  rewrite split_first; [|discriminate|apply no_start_char; auto].
  replace (d2 ++ "/P" ++ name)%string with ((d2 ++ "/") ++ "P" ++ name)%string by (rewrite append_assoc; auto).
  rewrite split_first; [|discriminate|apply no_start_char; rewrite all_chars_app, H2; auto].
  cbn [item nth_error bind].
  rewrite split_none; [|discriminate|apply no_start_two; auto; discriminate].
  cbn [item nth_error bind].
  destruct d2 as [|c d2]; [easy|]. destruct H3 as (Hd & Hs & Hp & Hm).
  unfold py_int_str, strip. cbn [String.append lstrip]. rewrite Hs.
  assert (exists t, rstrip (String c (d2 ++ "/")) = String c t) as [t ->].
  { simpl. rewrite Hs. destruct (rstrip (d2 ++ "/")); eauto. }
  unfold signed. destruct (Ascii.eqb_spec c "-"); [congruence|]. destruct (Ascii.eqb_spec c "+"); [congruence|].
  unfold digits. unfold is_digit in Hd. destruct (digit c); [discriminate|auto].
Qed.

Theorem extract_trotter_fails dir P B :
  extract_bead_trotter (dir ++ trotter_file P B) = Raise TypeError.
Proof.
  unfold extract_bead_trotter, item.
  assert (forall sep a b, sep <> EmptyString -> exists x y r, split sep (a ++ sep ++ b) = x :: y :: r) as L.
  { intros sep a b Hs. unfold split.
    assert (Lk : forall k, k <= String.length a -> exists x y r, split_go sep k (a ++ sep ++ b) = x :: y :: r).
    { induction a as [|c a IH]; intros k Hk.
      - simpl in Hk. replace k with 0 by lia. change ("" ++ sep ++ b)%string with (sep ++ b)%string.
        pose proof (split_first sep "" b Hs ltac:(constructor)) as E. unfold split in E. simpl String.append in E.
        rewrite E. destruct (split_go sep 0 b) eqn:E0; [exfalso; eapply (split_not_nil sep b); eauto|]. eauto.
      - destruct k; cbn [String.append split_go].
        + destruct (String.prefix sep (String c (a ++ sep ++ b))).
          * destruct (split_go sep (String.length sep - 1) (a ++ sep ++ b)) eqn:E0; [|eauto].
            exfalso; eapply split_go_not_nil; eauto.
          * destruct (IH 0 ltac:(lia)) as (x & y & r & ->). eauto.
        + simpl in Hk. apply IH. lia. }
    apply Lk. lia. }
  unfold trotter_file, trotter. destruct (L "trotter_P" dir (dec P ++ "_B" ++ dec B ++ ".json")%string ltac:(discriminate)) as (x & y & r & ->).
  reflexivity.
Qed.

(** ---- sorted sets ---- *)
Lemma insert_uniq_In z l x : In x (insert_uniq z l) <-> x = z \/ In x l.
Proof.
  induction l as [|y l IH]; simpl; [intuition|]. destruct (Z.ltb_spec z y); simpl; [intuition|].
  destruct (Z.eqb_spec z y); simpl; [subst; intuition|]. rewrite IH. intuition.
Qed.

Lemma insert_uniq_sorted z l : StronglySorted Z.lt l -> StronglySorted Z.lt (insert_uniq z l).
Proof.
  induction l as [|y l IH]; simpl; intros H; [repeat constructor|]. inv H.
  destruct (Z.ltb_spec z y).
  - constructor; [constructor; auto|]. constructor; auto. eapply Forall_impl; [|eassumption]. simpl. lia.
  - destruct (Z.eqb_spec z y); [subst; constructor; auto|]. constructor; auto.
    apply Forall_forall. intros x Hx. apply insert_uniq_In in Hx. destruct Hx as [->|Hx]; [lia|].
    rewrite Forall_forall in H3. auto.
Qed.

Lemma sorted_set_spec l : StronglySorted Z.lt (sorted_set l) /\ forall x, In x (sorted_set l) <-> In x l.
Proof.
  induction l as [|z l [IH1 IH2]]; simpl; [split; [constructor|tauto]|]. split.
  - apply insert_uniq_sorted; auto.
  - intros x. rewrite insert_uniq_In, IH2. intuition.
Qed.

Lemma map_res_spec {A B} (f : A -> res B) l r : map_res f l = Ok r <-> Forall2 (fun a b => f a = Ok b) l r.
Proof.
  split.
  - revert r. induction l as [|a l IH]; simpl; intros r H; [inv H; constructor|].
    destruct (f a) eqn:E; try discriminate. simpl in H. destruct (map_res f l); try discriminate. simpl in H. inv H.
    constructor; auto.
  - intros H. induction H as [|a b l r H1 H2 IH]; auto. simpl. rewrite H1. simpl. rewrite IH. auto.
Qed.

(** the bead list of a directory of PIMC results *)
Theorem extract_bead_list_ok dir (l : list (Z * Q * Z)) :
  all_chars (fun c => negb (Ascii.eqb c "P")) dir = true ->
  Forall (fun x => (0 <= fst (fst x))%Z) l ->
  exists r, extract_bead_list (map (fun x => (dir ++ pimc_file (fst (fst x)) (snd (fst x)) (snd x))%string) l) = Ok r /\
    StronglySorted Z.lt r /\ forall P, In P r <-> exists T J, In (P, T, J) l.
Proof.
  intros HD HF. unfold extract_bead_list.
  rewrite (proj2 (map_res_spec extract_bead _ (map (fun x => fst (fst x)) l))).
  - simpl. eexists; split; [reflexivity|]. destruct (sorted_set_spec (map (fun x => fst (fst x)) l)) as [S I].
    split; auto. intros P. rewrite I, in_map_iff. split.
    + intros ([[P' T] J] & <- & H). simpl. eauto.
    + intros (T & J & H). exists (P, T, J). auto.
  - induction HF as [|[[P T] J] l HP HF IH]; simpl; constructor; auto.
    apply extract_bead_ok; auto using fmt2_chars.
Qed.

(** ---- glob ---- *)
Lemma substring_suffix a b : String.substring (String.length a) (String.length b) (a ++ b) = b.
Proof.
  induction a as [|c a IH]; simpl; auto. induction b; simpl; auto. rewrite IHb. auto.
Qed.

Lemma glob_star_ok pre suf mid : glob_star pre suf (pre ++ mid ++ suf) = true.
Proof.
  unfold glob_star. rewrite prefix_self. rewrite !append_length. simpl.
  assert (String.length pre + String.length suf <=? String.length pre + (String.length mid + String.length suf) = true) as ->
    by (apply Nat.leb_le; lia).
  replace (String.length pre + (String.length mid + String.length suf) - String.length suf) with (String.length (pre ++ mid))
    by (rewrite append_length; lia).
  rewrite <- append_assoc, substring_suffix. apply String.eqb_refl.
Qed.

Theorem select_pimc_files_spec P T P' T' J' :
  (0 <= Qnum T)%Z -> (0 <= Qnum T')%Z ->
  (select_pimc_files P T [pimc_file P' T' J'] = [pimc_file P' T' J'] <-> P = P' /\ hundredths T = hundredths T') /\
  (select_pimc_files P T [pimc_file P' T' J'] = [] <-> ~ (P = P' /\ hundredths T = hundredths T')).
Proof.
  intros HT HT'. unfold select_pimc_files. cbn [filter].
  destruct (glob_star _ _ _) eqn:E.
  - assert (P = P' /\ hundredths T = hundredths T') as H.
    { unfold glob_star in E. apply andb_true_iff in E. destruct E as [E _]. apply andb_true_iff in E. destruct E as [E _].
      apply prefix_true in E. destruct E as [t E]. unfold pimc_file, pimc in E. rewrite !append_assoc in E.
      symmetry in E. apply ptx_inj in E; auto using dec_num_chars, fmt2_chars.
      destruct E as (E1 & E2 & _). apply dec_inj in E1. apply fmt2_inj in E2; auto. }
    split; split; auto; try discriminate. tauto.
  - assert (~ (P = P' /\ hundredths T = hundredths T')) as H.
    { intros [-> Hh]. unfold pimc_file, pimc in E. rewrite (hundredths_fmt2 T T') in E by auto.
      replace ("P" ++ dec P' ++ "_T" ++ fmt2 T' ++ "_J" ++ dec J' ++ "_data_points.npz")%string
        with (("P" ++ dec P' ++ "_T" ++ fmt2 T' ++ "_J") ++ dec J' ++ "_data_points.npz")%string in E
        by (rewrite !append_assoc; auto).
      rewrite glob_star_ok in E. discriminate. }
    split; split; auto; try discriminate. tauto.
Qed.

Theorem select_pimc_files_map P T (l : list (Z * Q * Z)) :
  (0 <= Qnum T)%Z -> Forall (fun x => (0 <= Qnum (snd (fst x)))%Z) l ->
  select_pimc_files P T (map (fun x => pimc_file (fst (fst x)) (snd (fst x)) (snd x)) l) =
  map (fun x => pimc_file (fst (fst x)) (snd (fst x)) (snd x))
    (filter (fun x => (P =? fst (fst x))%Z && (hundredths T =? hundredths (snd (fst x)))%Z) l).
Proof.
  intros HT HF. induction HF as [|[[P' T'] J'] l H HF IH]; auto. cbn [map filter fst snd] in *.
  destruct (select_pimc_files_spec P T P' T' J' HT H) as [S1 S2]. unfold select_pimc_files in *. cbn [filter] in *.
  rewrite IH. destruct (glob_star _ _ (pimc_file P' T' J')).
  - destruct S1 as [S1 _]. destruct (S1 eq_refl) as [-> ->]. rewrite !Z.eqb_refl. auto.
  - destruct S2 as [S2 _]. specialize (S2 eq_refl).
    destruct (Z.eqb_spec P P'); destruct (Z.eqb_spec (hundredths T) (hundredths T')); auto. exfalso; auto.
Qed.

(** the scheduler's output file and the training data files *)
Definition output_file D R P T J := execution_output (dec D) (dec R) (dec P) (fmt2 T) (dec J).
Definition training_files P T J := [training_data_input (dec P) (fmt2 T) (dec J);
  training_data_g_output (dec P) (fmt2 T) (dec J); training_data_rho_output (dec P) (fmt2 T) (dec J)].

(** [s] followed by a tail from a fixed set starting with a non-number character *)
Lemma training_disjoint P T J P' T' J' i k :
  (0 <= Qnum T)%Z -> (0 <= Qnum T')%Z -> i < 3 -> k < 3 ->
  nth i (training_files P T J) "" = nth k (training_files P' T' J') "" ->
  i = k /\ P = P' /\ hundredths T = hundredths T' /\ J = J'.
Proof.
  intros HT HT' Hi Hk. unfold training_files.
  assert (forall s s', ("P" ++ dec P ++ "_T" ++ fmt2 T ++ "_J" ++ dec J ++ String "_" s)%string =
      ("P" ++ dec P' ++ "_T" ++ fmt2 T' ++ "_J" ++ dec J' ++ String "_" s')%string ->
      s = s' /\ P = P' /\ hundredths T = hundredths T' /\ J = J') as L.
  { intros s s' H. apply ptx_inj in H; auto using dec_num_chars, fmt2_chars. destruct H as (H1 & H2 & _ & H).
    injection H as H. apply (split_class is_num_char) in H; auto using dec_num_chars. destruct H as (H3 & _ & ->).
    apply dec_inj in H1, H3. apply fmt2_inj in H2; auto. }
  destruct i as [|[|[|]]], k as [|[|[|]]]; try lia; cbn [nth]; intros H; apply L in H; destruct H; try discriminate; auto.
Qed.

Lemma training_not_pimc P T J P' T' J' i :
  i < 3 -> nth i (training_files P T J) "" <> pimc_file P' T' J'.
Proof.
  intros Hi H. unfold training_files, pimc_file, pimc in H.
  destruct i as [|[|[|]]]; try lia; cbn [nth] in H; apply ptx_inj in H; auto using dec_num_chars, fmt2_chars;
    destruct H as (_ & _ & _ & H); injection H as H; apply (split_class is_num_char) in H; auto using dec_num_chars;
    destruct H as (_ & _ & H); discriminate.
Qed.

Theorem output_file_inj D R P T J D' R' P' T' J' :
  (0 <= Qnum T)%Z -> (0 <= Qnum T')%Z ->
  output_file D R P T J = output_file D' R' P' T' J' ->
  D = D' /\ R = R' /\ P = P' /\ hundredths T = hundredths T' /\ J = J'.
Proof.
  intros HT HT' H. unfold output_file, execution_output in H. injection H as H.
  apply (split_class is_num_char) in H; auto using dec_num_chars. destruct H as (H1 & _ & H). injection H as H.
  apply (split_class is_num_char) in H; auto using dec_num_chars. destruct H as (H2 & _ & H). injection H as H.
  apply (split_class is_num_char) in H; auto using dec_num_chars. destruct H as (H3 & _ & H). injection H as H.
  assert (L : forall a b x y, all_chars is_num_char a = true -> all_chars is_num_char b = true ->
    (a ++ ".o" ++ dec x)%string = (b ++ ".o" ++ dec y)%string -> a = b /\ x = y).
  { clear. intros a b x y Ha Hb H.
    assert (forall a b, all_chars is_num_char a = true -> all_chars is_num_char b = true ->
       (a ++ String "o" (dec x))%string = (b ++ String "o" (dec y))%string -> a = b /\ dec x = dec y) as K.
    { intros a0 b0 A B E. apply (split_class is_num_char) in E; auto. tauto. }
    assert (a ++ "." = b ++ "." /\ dec x = dec y)%string as [E1 E2].
    { apply K; try (rewrite all_chars_app, ?Ha, ?Hb; auto). rewrite !append_assoc. exact H. }
    apply append_inj_r in E1. apply dec_inj in E2. auto. }
  apply L in H; auto using fmt2_chars. destruct H as [H4 ->].
  apply dec_inj in H1, H2, H3. apply fmt2_inj in H4; auto.
Qed.

Lemma result_path_ok root s P T j :
  s <> 0%Z -> ends_with_slash root = true ->
  result_path root s P T j =
    Ok (root ++ "P" ++ dec P ++ "_T" ++ fmt2 T ++ "_J" ++ dec (match j with Some x => x | None => 0%Z end) ++ "_data_points.npz")%string.
Proof.
  intros Hs HR. unfold result_path. destruct (Z.eqb_spec s 0); [easy|].
  destruct j; unfold join; cbn [String.prefix]; rewrite HR; simpl; destruct root; try discriminate; reflexivity.
Qed.

Lemma select_other_kinds P T P' T' X B P2 B2 n :
  In n [thermo_file P' T' X; sos_file B; trotter_file P2 B2] -> select_pimc_files P T [n] = [].
Proof.
  intros H. unfold select_pimc_files. cbn [filter]. destruct (glob_star _ _ n) eqn:E; auto.
  unfold glob_star in E. apply andb_true_iff in E. destruct E as [E _]. apply andb_true_iff in E. destruct E as [E _].
  apply prefix_true in E. destruct E as [t E]. rewrite !append_assoc in E.
  simpl in H. destruct H as [<-|[<-|[<-|[]]]]; try discriminate.
  unfold thermo_file, jackknife in E. apply ptx_inj in E; auto using dec_num_chars, fmt2_chars.
  destruct E as (_ & _ & _ & E). discriminate.
Qed.
