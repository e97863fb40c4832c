(** Further theorems on job submission: C38, C39, C41; slices and saving: C16, C19, C21. *)
From Coq Require Import QArith.
From Verif Require Import Common Common_Proofs PyStr_Model PyStr_Proofs FileName_Model FileStruct_Model FileStruct_Proofs JobBoss_Model JobBoss_Proofs Results_Model.
Local Open Scope string_scope.
Local Open Scope list_scope.
Local Open Scope nat_scope.

(** C38: the lists of temperatures and beads must be lists; nothing is submitted otherwise *)
Theorem C38_lists serialize python dir host partitions sbatch d d' n : setup_blocks_and_jobs d = (d', Ok n) ->
  (pget d' "temperature_list" = None \/ pget d' "bead_list" = None ->
     submit_jobs serialize python dir host partitions sbatch d = (d', [], Raise KeyError)) /\
  (forall t b, pget d' "temperature_list" = Some t -> (forall l, t <> VFloats l) -> pget d' "bead_list" = Some b ->
     submit_jobs serialize python dir host partitions sbatch d = (d', [], Raise TypeError)) /\
  (forall T ts b, pget d' "temperature_list" = Some (VFloats (T :: ts)) -> pget d' "bead_list" = Some b -> (forall l, b <> VInts l) ->
     submit_jobs serialize python dir host partitions sbatch d = (d', [], Raise TypeError)) /\
  (forall b, pget d' "temperature_list" = Some (VFloats []) -> pget d' "bead_list" = Some b ->
     submit_jobs serialize python dir host partitions sbatch d = (d', [], Ok tt)).
Proof.
  intros S. unfold submit_jobs. rewrite S. split; [|split; [|split]].
  - intros [->| ->]; [reflexivity|]. destruct (pget d' "temperature_list") as [[| | | | |[|]]|]; reflexivity.
  - intros t b -> N ->. destruct t; try reflexivity. exfalso. eapply N. reflexivity.
  - intros T ts b -> -> N. destruct b; try reflexivity. exfalso. eapply N. reflexivity.
  - intros b -> ->. destruct b; reflexivity.
Qed.
(** C38: what can be put into a template *)
Theorem C38_fields d name spec : all_chars (fun c => negb (Ascii.eqb c ":")) name = true -> all_chars (fun c => negb (Ascii.eqb c ":")) spec = true ->
  (pget d name = None -> lookup_param d (name ++ ":" ++ spec)%string = Raise KeyError /\ lookup_param d name = Raise KeyError) /\
  (forall v, pget d name = Some v -> lookup_param d (name ++ ":" ++ spec)%string = render v spec /\ lookup_param d name = render v "") /\
  (forall more, lookup_param d (name ++ ":" ++ spec ++ ":" ++ more)%string = Raise ValueError).
Proof.
  intros N S.
  assert (E1 : split ":" name = [name]) by (apply split_none; [discriminate|apply no_start_char; auto]).
  assert (E2 : forall t, split ":" (name ++ ":" ++ t)%string = name :: split ":" t) by (intros t; apply split_first; [discriminate|apply no_start_char; auto]).
  assert (E3 : split ":" spec = [spec]) by (apply split_none; [discriminate|apply no_start_char; auto]).
  assert (E4 : forall t, split ":" (spec ++ ":" ++ t)%string = spec :: split ":" t) by (intros t; apply split_first; [discriminate|apply no_start_char; auto]).
  unfold lookup_param, pitem. split; [|split].
  - intros E. rewrite E2, E3, E1, E. split; reflexivity.
  - intros v E. rewrite E2, E3, E1, E. split; reflexivity.
  - intros more. rewrite E2, E4. destruct (split ":" more) eqn:E; [exfalso; apply (split_not_nil ":" more); auto|reflexivity].
Qed.
Theorem C38_render v :
  (forall s, render v "d" = Ok s <-> exists z, v = VInt z /\ s = dec z) /\
  (forall s, render v "s" = Ok s <-> v = VStr s) /\
  (forall s, render v ".2f" = Ok s <-> (exists q, v = VFloat q /\ s = fmt2 q) \/ (exists z, v = VInt z /\ s = fmt2 (z # 1))) /\
  (v = VNone -> render v "d" = Raise TypeError /\ render v "s" = Raise TypeError /\ render v ".2f" = Raise TypeError /\ render v "" = Ok "None") /\
  (forall l, v = VInts l -> render v "d" = Raise TypeError /\ render v "s" = Raise TypeError /\ render v ".2f" = Raise TypeError) /\
  (forall l, v = VFloats l -> render v "d" = Raise TypeError /\ render v "s" = Raise TypeError /\ render v ".2f" = Raise TypeError) /\
  (forall s, v = VStr s -> render v "d" = Raise ValueError /\ render v ".2f" = Raise ValueError /\ render v "" = Ok s) /\
  (forall z, v = VInt z -> render v "s" = Raise ValueError /\ render v "" = Ok (dec z)) /\
  (forall q, v = VFloat q -> render v "d" = Raise ValueError /\ render v "s" = Raise ValueError).
Proof.
  repeat split; intros; subst; try reflexivity;
  repeat match goal with
  | H : render ?x _ = Ok _ |- _ => destruct x; cbn in H; try discriminate; inversion H; subst; clear H
  | H : exists _, _ |- _ => destruct H
  | H : _ /\ _ |- _ => destruct H
  | H : _ \/ _ |- _ => destruct H
  end; subst; eauto.
Qed.
Example C38_fields_example : format_params "P{number_of_beads:d}_{job_name:s}_{T:.2f}" [("number_of_beads", VInt 12); ("job_name", VStr "x"); ("T", VInt 300)] = Ok "P12_x_300.00"
  /\ format_params "{number_of_beads:s}" [("number_of_beads", VInt 12)] = Raise ValueError /\ format_params "{a:b:c}" [("a", VNone)] = Raise ValueError.
Proof. repeat split. Qed.

(** C39: the values a class starts with *)
Theorem C39_defaults k v : pget default_params k = Some v <->
  (In k ["number_of_samples"; "number_of_samples_overall"; "number_of_samples_per_job"; "number_of_blocks"; "number_of_states"; "number_of_modes"; "number_of_beads"; "id_data"; "id_rho"] /\ v = VInt 0) \/
  (In k ["path_scratch"; "path_root"; "path_data"; "path_rho"; "wait_param"] /\ v = VStr "") \/
  (In k ["partition"; "hostname"] /\ v = VNone) \/
  (In k ["memory_per_node"; "total_memory"] /\ v = VInt 20) \/ (In k ["cpus_per_task"; "cores_per_socket"] /\ v = VInt 4) \/
  (k = "block_size" /\ v = VInt 1000) \/ (k = "script_name" /\ v = VStr "pimc.py") \/
  (k = "temperature_list" /\ v = VFloats [0 # 1]%Q) \/ (k = "bead_list" /\ v = VInts [0%Z]).
Proof.
  split.
  - unfold pget, default_params. cbn [dget].
    repeat match goal with |- context [String.eqb ?a ?b] => destruct (String.eqb_spec a b) as [E|E]; [subst; intros H; injection H as <-; cbn; tauto|clear E] end.
    discriminate.
  - intros H. repeat (destruct H as [H|H]); destruct H as [H ->]; first [subst k; reflexivity|cbn [In] in H; repeat (destruct H as [<-|H]; [reflexivity|]); destruct H].
Qed.
Example C39_defaults_example : pget default_params "hostname" = Some VNone.
Proof. apply C39_defaults. cbn. tauto. Qed.

(** C41: the file only counts as finished if its last line is "Finished" without a line end *)
Theorem C41_outcome text : check_slurm_output (Some text) = Ok Undefined <-> exists a, text = (a ++ "Finished")%string /\ (a = "" \/ exists b, a = (b ++ String newline "")%string).
Proof.
  assert (C : forall l, fst (in_file "Finished" l) = true <-> In "Finished" l).
  { induction l as [|x l IH]; cbn; [split; [discriminate|tauto]|]. destruct (String.eqb_spec x "Finished").
    - split; auto.
    - rewrite IH. split; [auto|intros [?|?]; [congruence|auto]]. }
  assert (O : check_slurm_output (Some text) = Ok Undefined <-> In "Finished" (file_lines text)).
  { rewrite <- C. unfold check_slurm_output, check_slurm_lines. destruct (in_file "Finished" (file_lines text)) as [b rest] eqn:E. destruct b; cbn [negb fst].
    - apply in_file_last in E; [|reflexivity]. subst. cbn. tauto.
    - split; discriminate. }
  rewrite O. clear C O.
  assert (L : forall x s, all_chars (fun c => negb (Ascii.eqb c newline)) x = true -> x <> "" ->
    (In x (file_lines s) <-> exists a, s = (a ++ x)%string /\ (a = "" \/ exists b, a = (b ++ String newline "")%string))); [|apply L; [reflexivity|discriminate]].
  assert (F : forall x, all_chars (fun c => negb (Ascii.eqb c newline)) x = true -> x <> "" -> file_lines x = [x]).
  { induction x as [|c x IH]; intros H N; [congruence|]. cbn in H. apply andb_true_iff in H. destruct H as [H1 H2]. apply negb_true_iff in H1.
    cbn [file_lines]. rewrite H1. destruct x as [|c' x]; [reflexivity|]. rewrite IH by (auto; discriminate). reflexivity. }
  assert (A : forall b s, file_lines (b ++ String newline s) = (file_lines (b ++ String newline "") ++ file_lines s)%list).
  { induction b as [|c b IH]; intros s; cbn [String.append file_lines].
    - reflexivity.
    - destruct (Ascii.eqb c newline); [rewrite IH; reflexivity|]. rewrite IH. destruct (file_lines (b ++ String newline "")) eqn:E; [|reflexivity].
      exfalso. destruct b; cbn in E; [discriminate|]. destruct (Ascii.eqb a newline); [discriminate|]. destruct (file_lines _); discriminate. }
  intros x s H N. split.
  - intros I. apply in_split in I. destruct I as (l1 & l2 & E).
    destruct l2 as [|y l2]; [|exfalso; destruct (file_lines_nl s x (y :: l2) l1 E ltac:(discriminate)) as [l' ->]; rewrite all_chars_app in H; apply andb_true_iff in H; destruct H; discriminate].
    assert (J : forall t, String.concat "" (file_lines t) = t).
    { clear. assert (CC : forall x l, String.concat "" (x :: l) = (x ++ String.concat "" l)%string) by (intros x [|y l]; cbn; [rewrite append_nil_r|]; reflexivity).
      induction t as [|c t IH]; [reflexivity|]. cbn [file_lines]. destruct (Ascii.eqb c newline).
      - rewrite CC, IH. reflexivity.
      - destruct (file_lines t) as [|l ls] eqn:E; [destruct t as [|c' t]; [reflexivity|exfalso; cbn in E; destruct (Ascii.eqb c' newline); [discriminate|destruct (file_lines t); discriminate]]|].
        rewrite CC in *. cbn. rewrite IH. reflexivity. }
    assert (CA : forall l y, String.concat "" (l ++ [y]) = (String.concat "" l ++ y)%string).
    { clear. assert (CC : forall x l, String.concat "" (x :: l) = (x ++ String.concat "" l)%string) by (intros x [|y l]; cbn; [rewrite append_nil_r|]; reflexivity).
      induction l as [|z l IH]; intros y; [reflexivity|]. change ((z :: l) ++ [y]) with (z :: (l ++ [y])). rewrite !CC, IH, append_assoc. reflexivity. }
    exists (String.concat "" l1). split; [rewrite <- CA, <- E; auto|]. destruct l1 as [|z l1] using rev_ind; [left; reflexivity|right].
    rewrite <- app_assoc in E. cbn [app] in E. destruct (file_lines_nl s z [x] l1 E ltac:(discriminate)) as [l' ->].
    exists (String.concat "" l1 ++ l')%string. rewrite CA, append_assoc. reflexivity.
  - intros (a & -> & [->|[b ->]]); [cbn; rewrite F by auto; left; auto|].
    rewrite append_assoc. cbn [String.append]. rewrite A. apply in_or_app. right. rewrite F by auto. left. auto.
Qed.
(** C41: even if the lines had no line ends: a search that fails has read the whole file, so only the first test after "Finished" can succeed *)
Theorem C41_tests_in_sequence a b : ~ In "Finished" a ->
  check_slurm_lines a = Ok TooEarly /\
  (In "SIGSEGV" b -> check_slurm_lines (a ++ "Finished" :: b) = Raise MemoryError) /\
  (~ In "SIGSEGV" b -> check_slurm_lines (a ++ "Finished" :: b) = Ok Undefined).
Proof.
  intros N.
  assert (F : forall x l, ~ In x l -> in_file x l = (false, [])).
  { induction l as [|y l IH]; intros H; [reflexivity|]. cbn. destruct (String.eqb_spec y x); [exfalso; apply H; left; auto|apply IH; intros K; apply H; right; auto]. }
  assert (G : forall x l r, ~ In x l -> in_file x (l ++ x :: r) = (true, r)).
  { induction l as [|y l IH]; intros r H; cbn; [rewrite String.eqb_refl; reflexivity|]. destruct (String.eqb_spec y x); [exfalso; apply H; left; auto|apply IH; intros K; apply H; right; auto]. }
  unfold check_slurm_lines. split; [rewrite F by auto; reflexivity|]. rewrite G by auto. cbn [negb]. split; intros S.
  - assert (E : exists r, in_file "SIGSEGV" b = (true, r)).
    { clear - S. induction b as [|y b IH]; [destruct S|]. cbn. destruct (String.eqb_spec y "SIGSEGV"); [eauto|]. apply IH. destruct S; [congruence|auto]. }
    destruct E as [r ->]. reflexivity.
  - rewrite F by auto. reflexivity.
Qed.
Example C41_sequence_example : check_slurm_lines ["x"; "Finished"; "y"; "SIGSEGV"] = Raise MemoryError /\ check_slurm_lines ["Finished"; "Killed"; "Exceeded step memory limit"] = Ok Undefined
  /\ check_slurm_output (Some (String.append "a" (String newline "Finished"))) = Ok Undefined.
Proof. repeat split. Qed.

(** C16: the number of beads is never read from the name of a trotter file *)
Theorem C16_trotter_always_fails path :
  (contains "trotter_P" path = true -> extract_bead_trotter path = Raise TypeError) /\
  (contains "trotter_P" path = false -> extract_bead_trotter path = Raise IndexError).
Proof.
  assert (G : forall k s, (exists a b, split_go "trotter_P" k s = [a] /\ b = tt) \/ exists a b l, split_go "trotter_P" k s = a :: b :: l).
  { intros k s. destruct (split_go "trotter_P" k s) as [|a [|b l]] eqn:E; [exfalso; eapply split_go_not_nil; eauto|left; eauto|right; eauto]. }
  assert (C : forall s, contains "trotter_P" s = false -> split_go "trotter_P" 0 s = [s]).
  { induction s as [|c s IH]; intros H; [reflexivity|]. cbn [contains] in H. apply orb_false_iff in H. destruct H as [H1 H2].
    cbn [split_go]. rewrite H1. rewrite IH by auto. reflexivity. }
  assert (D : forall s, contains "trotter_P" s = true -> exists a b l, split_go "trotter_P" 0 s = a :: b :: l).
  { induction s as [|c s IH]; intros H; [discriminate|]. cbn [split_go]. destruct (String.prefix "trotter_P" (String c s)) eqn:E.
    - destruct (G 8 s) as [(a & b & E' & _)|(a & b & l & E')]; cbn [String.length Nat.sub]; rewrite E'; eauto.
    - cbn [contains] in H. rewrite E in H. destruct (IH H) as (a & b & l & ->). cbn. eauto. }
  unfold extract_bead_trotter, split. split; intros H.
  - destruct (D _ H) as (a & b & l & ->). reflexivity.
  - rewrite C by auto. reflexivity.
Qed.
Example C16_trotter_fails_example : extract_bead_trotter "/d/sos_B10.json" = Raise IndexError.
Proof. apply C16_trotter_always_fails. reflexivity. Qed.

Lemma nth_error_skipn_add {A} n : forall (l : list A) i, nth_error (skipn n l) i = nth_error l (n + i).
Proof. induction n as [|n IH]; intros l i; [reflexivity|]. destruct l as [|x l]; [destruct i; reflexivity|]. cbn. apply IH. Qed.
Lemma nth_error_firstn_below {A} n : forall (l : list A) i, i < n -> nth_error (firstn n l) i = nth_error l i.
Proof. induction n as [|n IH]; intros l i H; [lia|]. destruct l as [|x l]; [destruct i; reflexivity|]. destruct i; cbn; [reflexivity|apply IH; lia]. Qed.
(** C19: assignment to a slice, clipped at the end; one element is broadcast *)
Theorem C19_slice t s n src : let w := Nat.min (s + n) (length t) - Nat.min s (length t) in
  ((exists r, assign_slice t s n src = Ok r) <-> length src = w \/ length src = 1) /\
  (~ (length src = w \/ length src = 1) -> assign_slice t s n src = Raise ValueError) /\
  forall r, assign_slice t s n src = Ok r -> length r = length t /\
    forall i, nth_error r i = if (s <=? i) && (i <? s + w) then nth_error src (if length src =? w then i - s else 0) else nth_error t i.
Proof.
  intros w. unfold assign_slice. fold w.
  assert (K : forall m, length m = w -> length (firstn s t ++ m ++ skipn (s + w) t) = length t /\
     forall i, nth_error (firstn s t ++ m ++ skipn (s + w) t) i = if (s <=? i) && (i <? s + w) then nth_error m (i - s) else nth_error t i).
  { intros m Hm. split; [rewrite !app_length, firstn_length, skipn_length, Hm; unfold w; lia|]. intros i.
    destruct (Nat.leb_spec s i) as [A|A]; cbn [andb].
    - destruct (Nat.ltb_spec i (s + w)) as [B|B].
      + assert (s <= length t) by (unfold w in B; lia). rewrite nth_error_app2 by (rewrite firstn_length; lia). rewrite firstn_length, Nat.min_l by lia.
        rewrite nth_error_app1 by lia. reflexivity.
      + destruct (Nat.le_gt_cases s (length t)).
        * rewrite nth_error_app2 by (rewrite firstn_length; lia). rewrite firstn_length, Nat.min_l by lia.
          rewrite nth_error_app2 by lia. rewrite Hm. rewrite nth_error_skipn_add. f_equal. lia.
        * assert (w = 0) by (unfold w; lia). transitivity (@None fl); [|symmetry]; apply nth_error_None; [|lia].
          rewrite !app_length, firstn_length, skipn_length. lia.
    - assert (i < length (firstn s t) \/ length t <= i) as [C|C] by (rewrite firstn_length; lia).
      + rewrite nth_error_app1 by auto. apply nth_error_firstn_below. lia.
      + transitivity (@None fl); [|symmetry]; apply nth_error_None; [|lia]. rewrite !app_length, firstn_length, skipn_length, Hm. unfold w. lia. }
  destruct (Nat.eqb_spec (length src) w) as [E|E].
  - split; [split; [auto|eauto]|]. split; [tauto|]. intros r H. injection H as <-. apply K. auto.
  - destruct src as [|x [|y l]].
    + split; [split; [intros [r H]; discriminate|intros [H|H]; [congruence|discriminate]]|]. split; [reflexivity|]. discriminate.
    + split; [split; [auto|eauto]|]. split; [cbn; tauto|]. intros r H. injection H as <-. destruct (K (repeat x w) (repeat_length x w)) as [K1 K2]. split; auto.
      intros i. rewrite K2. destruct (Nat.leb_spec s i); cbn [andb]; auto. destruct (Nat.ltb_spec i (s + w)); auto.
      change (nth_error [x] 0) with (Some x). rewrite (nth_error_nth' _ x) by (rewrite repeat_length; lia). rewrite nth_repeat. reflexivity.
    + split; [split; [intros [r H]; discriminate|intros [H|H]; [congruence|discriminate]]|]. split; [reflexivity|]. discriminate.
Qed.
Example C19_slice_example : assign_slice [NaN; NaN; NaN; NaN] 1 2 [Num 1] = Ok [NaN; Num 1; Num 1; NaN]%Q.
Proof. reflexivity. Qed.

(** C21: what is not saved raises AssertionError *)
Theorem C21_save_fails pm root P T job r : r_samples r = PyInt 0 \/ r_hash_vib r = None \/ r_hash_rho r = None ->
  save_results pm root P T job r = Raise AssertionError.
Proof.
  unfold save_results. intros [->|[->| ->]]; [reflexivity| |]; destruct (is_0 (r_samples r)); auto. destruct (r_hash_vib r); reflexivity.
Qed.
Example C21_save_fails_example : save_results true "/d" 4 (300 # 1) None (new_empty true 5) = Raise AssertionError.
Proof. apply C21_save_fails. auto. Qed.

Print Assumptions C38_lists.
Print Assumptions C38_fields.
Print Assumptions C38_render.
Print Assumptions C39_defaults.
Print Assumptions C41_outcome.
Print Assumptions C41_tests_in_sequence.
Print Assumptions C16_trotter_always_fails.
Print Assumptions C19_slice.
Print Assumptions C21_save_fails.
