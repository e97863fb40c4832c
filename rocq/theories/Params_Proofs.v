(** Proofs about the lists of parameters *)
From Coq Require Import QArith Sorting.Sorted Lia.
From Verif Require Import Common Common_Proofs PyStr_Model PyStr_Proofs FileName_Model FileName_Proofs Analysis_Model Analysis_Proofs Plot_Spec Plot_Proofs Params_Model.
Local Open Scope string_scope.
Local Open Scope list_scope.
Local Open Scope nat_scope.

Lemma insert_z_In z l x : In x (insert_z z l) <-> x = z \/ In x l.
Proof. induction l as [|y l IH]; cbn [insert_z]; [cbn; intuition|]. destruct (z <=? y)%Z; cbn [In]; [intuition|]. rewrite IH. intuition. Qed.
Lemma sort_z_In l x : In x (sort_z l) <-> In x l.
Proof. induction l as [|y l IH]; [reflexivity|]. cbn [sort_z fold_right]. rewrite insert_z_In. fold (sort_z l). rewrite IH. cbn. intuition. Qed.
Lemma insert_z_sorted z l : ~ In z l -> StronglySorted Z.lt l -> StronglySorted Z.lt (insert_z z l).
Proof.
  intros N H. induction H as [|y l H IH F]; [repeat constructor|]. cbn [insert_z]. destruct (Z.leb_spec z y).
  - constructor; [constructor; auto|]. assert (z <> y) by (intros ->; apply N; left; reflexivity). constructor; [lia|]. rewrite Forall_forall in *. intros x I. specialize (F x I). lia.
  - constructor; [apply IH; intros I; apply N; right; exact I|]. rewrite Forall_forall in *. intros x I. apply insert_z_In in I. destruct I as [->|I]; [lia|auto].
Qed.
Lemma sort_z_sorted l : NoDup l -> StronglySorted Z.lt (sort_z l).
Proof. induction 1 as [|y l N H IH]; [constructor|]. cbn [sort_z fold_right]. apply insert_z_sorted; [rewrite sort_z_In; exact N|exact IH]. Qed.
Lemma once_spec l : NoDup (once l) /\ forall x, In x (once l) <-> In x l.
Proof.
  assert (G : forall acc, NoDup acc -> NoDup (fold_left (fun acc p => if existsb (Z.eqb p) acc then acc else acc ++ [p]) l acc) /\
    forall x, In x (fold_left (fun acc p => if existsb (Z.eqb p) acc then acc else acc ++ [p]) l acc) <-> In x acc \/ In x l).
  { induction l as [|p l IH]; intros acc N; [cbn; intuition|]. cbn [fold_left]. destruct (existsb (Z.eqb p) acc) eqn:E.
    - destruct (IH acc N) as [A B]. split; [exact A|]. intros x. rewrite B. apply existsb_exists in E. destruct E as (y & Y & E). apply Z.eqb_eq in E. subst y. cbn. intuition. subst. auto.
    - destruct (IH (acc ++ [p])) as [A B].
      + assert (NI : ~ In p acc) by (intros I; assert (X : existsb (Z.eqb p) acc = true) by (apply existsb_exists; exists p; split; [exact I|apply Z.eqb_refl]); congruence).
        clear - N NI. induction N as [|y acc M N IH]; [repeat constructor; intros []|]. cbn. constructor; [rewrite in_app_iff; cbn; intros [I|[->|[]]]; [auto|apply NI; left; reflexivity]|apply IH; intros I; apply NI; right; exact I].
      + split; [exact A|]. intros x. rewrite B, in_app_iff. cbn. intuition. }
  destruct (G [] (NoDup_nil _)) as [A B]. split; [exact A|]. intros x. unfold once. rewrite B. cbn. intuition.
Qed.
Lemma beads_spec l : increasing_Z (sort_z (once l)) /\ forall x, In x (sort_z (once l)) <-> In x l.
Proof. destruct (once_spec l) as [A B]. split; [apply sorted_increasing_Z, sort_z_sorted; exact A|]. intros x. rewrite sort_z_In. apply B. Qed.

(** [r] lists the temperatures of [l] as shown *)
Definition shown (l : list entry) (r : list Q) : Prop :=
  increasing_Q r /\ (forall q, In q r -> exists x, In x l /\ (q == hundredths (snd (fst x)) # 100)%Q) /\ (forall x, In x l -> exists q, In q r /\ (q == hundredths (snd (fst x)) # 100)%Q).
Lemma temps_ok (f : string -> res Q) (path : entry -> string) l :
  (forall x, In x l -> exists q, f (path x) = Ok q /\ (q == hundredths (snd (fst x)) # 100)%Q) ->
  exists ts, map_res f (map path l) = Ok ts /\ shown l (fold_right insert_q [] ts).
Proof.
  intros H. assert (M : exists ts, map_res f (map path l) = Ok ts /\ Forall2 (fun x q => (q == hundredths (snd (fst x)) # 100)%Q) l ts).
  { induction l as [|x l IH]; [exists []; split; [reflexivity|constructor]|]. destruct IH as (ts & E & K); [intros y I; apply H; right; exact I|]. destruct (H x (or_introl eq_refl)) as (q & Q1 & Q2).
    exists (q :: ts). split; [|constructor; auto]. cbn [map map_res]. rewrite Q1, E. reflexivity. }
  destruct M as (ts & E & K). exists ts. split; [exact E|]. destruct (sorted_q ts) as (ST & T1 & T2). split; [apply sorted_increasing_Q; exact ST|]. split.
  - intros q I. apply T1 in I. clear - K I. induction K as [|x q' l ts E K IH]; [destruct I|]. destruct I as [<-|I]; [exists x; split; [left; auto|exact E]|]. destruct (IH I) as (y & Y & E'). exists y. split; [right; auto|exact E'].
  - intros x I. assert (Q : exists q, In q ts /\ (q == hundredths (snd (fst x)) # 100)%Q).
    { clear - K I. induction K as [|y q l ts E K IH]; [destruct I|]. destruct I as [->|I]; [exists q; split; [left; auto|exact E]|]. destruct (IH I) as (q' & Y & E'). exists q'. split; [right; auto|exact E']. }
    destruct Q as (q & Q1 & Q2). destruct (T2 q Q1) as (y & Y & E'). exists y. split; [exact Y|]. rewrite E'. exact Q2.
Qed.
Lemma ints_ok (f : string -> res Z) (path : entry -> string) (v : entry -> Z) l : (forall x, In x l -> f (path x) = Ok (v x)) -> map_res f (map path l) = Ok (map v l).
Proof. intros H. induction l as [|x l IH]; [reflexivity|]. cbn [map map_res]. rewrite (H x (or_introl eq_refl)), IH; [reflexivity|]. intros y I. apply H. right. exact I. Qed.

(** beads after "/P" *)
Lemma dec_no_char x z : is_num_char x = false -> all_chars (fun c => negb (Ascii.eqb c x)) (dec z) = true.
Proof. intros H. apply num_no_char; auto using dec_num_chars. Qed.
Lemma fmt_no_char x T : is_num_char x = false -> all_chars (fun c => negb (Ascii.eqb c x)) (fmt2 T) = true.
Proof. intros H. apply num_no_char; auto using fmt2_chars. Qed.
Lemma bead_slash d P T X : contains "/P" d = false -> (do s <- between "/P" "_T" ((d ++ "/") ++ thermo_file P T X); py_int_str s) = Ok P.
Proof.
  intros HD. unfold thermo_file, jackknife. replace ((d ++ "/") ++ "P" ++ dec P ++ "_T" ++ fmt2 T ++ "_X" ++ dec X ++ "_thermo")%string with (d ++ "/P" ++ dec P ++ "_T" ++ fmt2 T ++ "_X" ++ dec X ++ "_thermo")%string by (rewrite !append_assoc; auto).
  rewrite between_ok.
  - cbn [bind]. apply py_int_dec.
  - discriminate.
  - discriminate.
  - rewrite <- (append_nil_r d) at 1. apply no_start_two; auto; discriminate.
  - exists (fmt2 T ++ "_X" ++ dec X ++ "_thermo")%string. split; [|apply (no_start_char "_" "T"), dec_no_char; reflexivity].
    apply split_none_item; [discriminate|]. apply (no_start_char "/" "P"). rewrite !all_chars_app, !dec_no_char, fmt_no_char by reflexivity. reflexivity.
Qed.
Lemma no_start_results d rest : contains "results/P" d = false -> no_start "results/P" ("results/P" ++ rest) d.
Proof.
  induction d as [|c d IH]; intros H; [constructor|]. cbn [contains] in H. apply orb_false_iff in H. destruct H as [H1 H2]. constructor; [|apply IH; exact H2].
  apply not_true_iff_false. intros E. apply prefix_true in E. destruct E as [t E]. apply not_true_iff_false in H1. apply H1. apply prefix_true.
  destruct d as [|c1 d]; [cbn in E; discriminate|]. destruct d as [|c2 d]; [cbn in E; discriminate|]. destruct d as [|c3 d]; [cbn in E; discriminate|].
  destruct d as [|c4 d]; [cbn in E; discriminate|]. destruct d as [|c5 d]; [cbn in E; discriminate|]. destruct d as [|c6 d]; [cbn in E; discriminate|].
  destruct d as [|c7 d]; [cbn in E; discriminate|]. destruct d as [|c8 d]; [cbn in E; discriminate|].
  cbn in E. injection E as -> -> -> -> -> -> -> -> -> E. exists d. reflexivity.
Qed.
Lemma bead_results d P T J : contains "results/P" d = false -> (do s <- between "results/P" "_T" ((d ++ "results/") ++ pimc_file P T J); py_int_str s) = Ok P.
Proof.
  intros HD. unfold pimc_file, pimc. replace ((d ++ "results/") ++ "P" ++ dec P ++ "_T" ++ fmt2 T ++ "_J" ++ dec J ++ "_data_points.npz")%string with (d ++ "results/P" ++ dec P ++ "_T" ++ fmt2 T ++ "_J" ++ dec J ++ "_data_points.npz")%string by (rewrite !append_assoc; auto).
  rewrite between_ok.
  - cbn [bind]. apply py_int_dec.
  - discriminate.
  - discriminate.
  - apply no_start_results. exact HD.
  - exists (fmt2 T ++ "_J" ++ dec J ++ "_data_points.npz")%string. split; [|apply (no_start_char "_" "T"), dec_no_char; reflexivity].
    apply split_none_item; [discriminate|]. apply (no_start_char "r" "esults/P"). rewrite !all_chars_app, !dec_no_char, fmt_no_char by reflexivity. reflexivity.
Qed.
Lemma no_contains p s : (forall a b, s <> (a ++ p ++ b)%string) -> contains p s = false.
Proof. intros H. destruct (contains p s) eqn:K; [|reflexivity]. apply contains_spec in K. destruct K as (a & b & E). destruct (H a b E). Qed.

(** names of pimc files have no "_X": float() of the rest fails *)
Lemma no_dot_split x s t : all_chars (fun c => negb (Ascii.eqb c ".")) x = true -> all_chars (fun c => negb (Ascii.eqb c ".")) s = true -> all_chars (fun c => negb (Ascii.eqb c ".")) t = true ->
  unsigned_float (x ++ "." ++ s ++ "." ++ t) = None.
Proof.
  intros A B C. unfold unsigned_float. rewrite (split_first "."), (split_first "."), (split_none "."); try discriminate; try (apply (no_start_char "." ""); assumption). reflexivity.
Qed.
Lemma float_pimc T J : (0 <= Qnum T)%Z -> py_float_str (fmt2 T ++ "_J" ++ dec J ++ "_data_points.npz") = Raise ValueError.
Proof.
  intros HT. unfold py_float_str. rewrite strip_id.
  2:{ rewrite !all_chars_app, dec_nospace. rewrite (all_chars_impl is_num_char (fun c => negb (is_space c))); [reflexivity| |apply fmt2_chars].
      intros c. destruct (ascii_dec c " "); [subst; discriminate|]. unfold is_num_char, is_space. destruct c as [[] [] [] [] [] [] [] []]; cbn; auto. }
  unfold fmt2. destruct (Z.ltb_spec (Qnum T) 0); [lia|]. unfold fmt_hundredths.
  pose proof (hundredths_nonneg T HT) as HN. set (h := hundredths T) in *.
  assert (D : (0 <= h / 100)%Z) by (apply Z.div_pos; lia). assert (M : (0 <= h mod 100)%Z) by (apply Z.mod_pos_bound; lia).
  pose proof (dec_digits _ D) as DD. destruct (dec (h / 100)) as [|c r] eqn:E; [destruct (dec_not_empty _ E)|].
  assert (U : unsigned_float ((String c r ++ "." ++ two_digits (h mod 100)) ++ "_J" ++ dec J ++ "_data_points.npz") = None).
  { replace ((String c r ++ "." ++ two_digits (h mod 100)) ++ "_J" ++ dec J ++ "_data_points.npz")%string with (String c r ++ "." ++ (two_digits (h mod 100) ++ "_J" ++ dec J ++ "_data_points") ++ "." ++ "npz")%string by (rewrite !append_assoc; reflexivity).
    apply no_dot_split; [apply digits_no_char; [reflexivity|exact DD]| |reflexivity]. rewrite !all_chars_app, (digits_no_char "." (two_digits _)); [|reflexivity|apply two_digits_digits; exact M]. cbn [all_chars].
    assert (X : all_chars (fun c => negb (Ascii.eqb c ".")) (dec J) = true) by (eapply all_chars_impl; [|apply dec_int_chars]; intros k Hk; apply negb_true_iff, Ascii.eqb_neq; intros ->; discriminate). rewrite X. reflexivity. }
  cbn [String.append] in U |- *. rewrite signed_digit; [cbn [String.append] in U; rewrite U; reflexivity|]. cbn in DD. apply andb_true_iff in DD. exact (proj1 DD).
Qed.
Lemma temp_of_pimc dir P T J : (0 <= Qnum T)%Z -> contains "_T" dir = false -> (do s <- between "_T" "_X" (dir ++ pimc_file P T J); py_float_str s) = Raise ValueError.
Proof.
  intros HT HD. unfold pimc_file, pimc, between.
  replace (dir ++ "P" ++ dec P ++ "_T" ++ fmt2 T ++ "_J" ++ dec J ++ "_data_points.npz")%string
    with ((dir ++ "P" ++ dec P) ++ "_T" ++ fmt2 T ++ "_J" ++ dec J ++ "_data_points.npz")%string
    by (rewrite !append_assoc; auto).
  rewrite split_first; [|discriminate|].
  2:{ apply no_start_app; [apply (us2_dir "T"); auto; try reflexivity; discriminate|]. apply (no_start_char "_" "T"). simpl. apply num_no_char; auto using dec_num_chars. }
  rewrite split_none; [|discriminate|].
  2:{ apply no_start_app; [apply (no_start_char "_" "T"), fmt_no_char; reflexivity|]. apply (no_start_app _ _ "_J").
      { constructor; [simpl|constructor; [reflexivity|constructor]]. reflexivity. }
      apply no_start_app; [apply (no_start_char "_" "T"), dec_no_char; reflexivity|]. repeat (constructor; [reflexivity|]). constructor. }
  cbn [item nth_error bind]. rewrite split_none_item; [|discriminate|].
  2:{ apply no_start_app; [apply (no_start_char "_" "X"), fmt_no_char; reflexivity|]. apply (no_start_app _ _ "_J").
      { constructor; [simpl|constructor; [reflexivity|constructor]]. reflexivity. }
      apply no_start_app; [apply (no_start_char "_" "X"), dec_no_char; reflexivity|]. repeat (constructor; [reflexivity|]). constructor. }
  cbn [bind]. apply float_pimc. exact HT.
Qed.
