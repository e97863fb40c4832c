(** Proofs about the text of .op files: the lines of a part *)
From Coq Require Import QArith.
From Verif Require Import Common Common_Proofs PyStr_Model PyStr_Proofs ModelOp_Model ModelOp_Spec ModelOp2_Proofs.
Local Open Scope nat_scope.
Local Open Scope list_scope.
Local Open Scope string_scope.

(** ** s.replace(p, '') *)
Definition remove_go (p : string) (k : nat) (s : string) : string := String.concat "" (split_go p k s).
Lemma concat_cons c h t : String.concat "" (String c h :: t) = String c (String.concat "" (h :: t)).
Proof. destruct t; reflexivity. Qed.
Lemma remove_go_0 p c s : remove_go p 0 (String c s) =
  if String.prefix p (String c s) then remove_go p (String.length p - 1) s else String c (remove_go p 0 s).
Proof.
  unfold remove_go. cbn [split_go]. destruct (String.prefix p (String c s)).
  - pose proof (split_go_not_nil p (String.length p - 1) s). destruct (split_go p (String.length p - 1) s); [congruence|reflexivity].
  - pose proof (split_go_not_nil p 0 s). destruct (split_go p 0 s); [congruence|]. apply concat_cons.
Qed.
Lemma remove_hit c p s : remove (String c p) (String c p ++ s) = remove (String c p) s.
Proof.
  change (remove (String c p)) with (remove_go (String c p) 0). cbn [String.append]. rewrite remove_go_0.
  rewrite (prefix_self (String c p) s : String.prefix _ (String c (p ++ s)) = true).
  unfold remove_go. cbn [String.length]. rewrite Nat.sub_succ, Nat.sub_0_r, split_go_skip. auto.
Qed.
Lemma remove_free c p a s : free c a -> remove (String c p) (a ++ s) = a ++ remove (String c p) s.
Proof.
  change (remove (String c p)) with (remove_go (String c p) 0). induction a as [|d a IH]; intros F; auto.
  apply free_cons in F. destruct F as [F1 F2]. cbn [String.append]. rewrite remove_go_0.
  destruct (String.prefix _ _) eqn:E; [apply prefix_first in E; congruence|]. rewrite IH; auto.
Qed.
Lemma remove_free_all c p a : free c a -> remove (String c p) a = a.
Proof. intros F. rewrite <- (append_nil_r a) at 1. rewrite remove_free by auto. apply append_nil_r. Qed.
Lemma remove_newline c p : free NL (String c p) -> forall n x y, String.length x <= n ->
  remove (String c p) (x ++ String NL y) = remove (String c p) x ++ String NL (remove (String c p) y).
Proof.
  intros F. induction n as [|n IH]; intros x y L.
  - destruct x; [|cbn in L; lia]. cbn [String.append].
    change (remove (String c p)) with (remove_go (String c p) 0). rewrite remove_go_0.
    destruct (String.prefix _ _) eqn:E; [|auto]. apply prefix_first in E. apply free_cons in F. tauto.
  - destruct x as [|d x].
    + apply (IH "" y). cbn. lia.
    + destruct (String.prefix (String c p) (String d x ++ String NL y)) eqn:E.
      * apply prefix_true in E. destruct E as [t E]. symmetry in E.
        destruct (prefix_before_newline _ F _ _ _ E) as [x' X]. rewrite X, append_assoc, !remove_hit.
        apply IH. apply (f_equal String.length) in X. rewrite append_length in X. cbn [String.length] in *. lia.
      * assert (E' : String.prefix (String c p) (String d x) = false).
        { destruct (String.prefix (String c p) (String d x)) eqn:K; auto. apply (prefix_app _ _ (String NL y)) in K. congruence. }
        change (remove (String c p)) with (remove_go (String c p) 0) in *. cbn [String.append] in *.
        rewrite remove_go_0, E, remove_go_0, E', IH; auto. cbn in L. lia.
Qed.
Lemma remove_lines c p lines d : free NL (String c p) ->
  remove (String c p) (file_text lines ++ d) = file_text (map (remove (String c p)) lines) ++ remove (String c p) d.
Proof.
  intros F. induction lines as [|x lines IH]; auto. cbn [file_text map]. rewrite append_assoc. cbn [String.append].
  rewrite (remove_newline c p F _ x _ (le_n _)), IH, append_assoc. auto.
Qed.

(** ** s.splitlines() *)
Definition one_line (s : string) : Prop := all_chars (fun c => negb (line_end c)) s = true.
Lemma one_line_cons c s : one_line (String c s) <-> line_end c = false /\ one_line s.
Proof. unfold one_line. cbn. rewrite andb_true_iff, negb_true_iff. tauto. Qed.
Lemma splitlines_cons x y : one_line x -> splitlines (x ++ String NL y) = x :: splitlines y.
Proof.
  induction x as [|c x IH]; intros O.
  - cbn [String.append splitlines]. change (line_end NL) with true. cbn iota. destruct y as [|d y]; auto.
  - apply one_line_cons in O. destruct O as [O1 O2]. cbn [String.append splitlines]. rewrite O1, IH; auto.
Qed.
Lemma splitlines_last x : one_line x -> splitlines x = match x with EmptyString => [] | _ => [x] end.
Proof.
  induction x as [|c x IH]; intros O; auto.
  apply one_line_cons in O. destruct O as [O1 O2]. cbn [splitlines]. rewrite O1, IH by auto. destruct x; auto.
Qed.
Definition keep (line : string) : bool := negb (contains "#" line) && negb (String.eqb line "").
Lemma kept_lines_eq lines d : Forall one_line lines -> one_line d -> kept_lines (file_text lines ++ d) = filter keep (lines ++ [d])%list.
Proof.
  intros F O. unfold kept_lines. fold keep. induction F as [|x lines F1 F2 IH].
  - cbn [file_text String.append List.app]. rewrite splitlines_last by auto. destruct d; auto.
  - cbn [file_text List.app]. rewrite append_assoc. cbn [String.append]. rewrite splitlines_cons by auto.
    cbn [filter]. change (splitlines (file_text lines ++ d)) with (splitlines (file_text lines ++ d)%string). rewrite IH. auto.
Qed.

(** ** s.strip() *)
Lemma rstrip_append a b : rstrip (a ++ b) = match rstrip b with EmptyString => rstrip a | r => a ++ r end.
Proof.
  induction a as [|c a IH]; cbn [String.append].
  - destruct (rstrip b); auto.
  - cbn [rstrip]. rewrite IH. destruct (rstrip b) as [|d r]; auto.
    destruct (a ++ String d r) eqn:E; auto. destruct a; discriminate.
Qed.
Lemma rstrip_part s : exists t, s = rstrip s ++ t.
Proof.
  induction s as [|c s [t IH]]; [exists ""; auto|]. cbn [rstrip]. destruct (rstrip s) eqn:E.
  - destruct (is_space c); [exists (String c s); auto|exists s; auto].
  - exists t. cbn. f_equal. auto.
Qed.
Lemma one_line_app a b : one_line (a ++ b) <-> one_line a /\ one_line b.
Proof. unfold one_line. rewrite all_chars_app, andb_true_iff. tauto. Qed.
Lemma rstrip_one_line s : one_line s -> one_line (rstrip s).
Proof. destruct (rstrip_part s) as [t E]. rewrite E at 1. rewrite one_line_app. tauto. Qed.

(** ** lines of a part: an entry has a name and a number *)
Definition spaces (b : string) : Prop := all_chars is_space b = true.
Definition word (s : string) : Prop := s <> "" /\ all_chars (fun c => negb (is_space c)) s = true.
Definition entry_name (s : string) : Prop := word s /\ free "#" s /\ free "=" s /\ free "," s.
Definition is_entry (x : string) (nv : string * string) : Prop :=
  exists b1 b2 b3 b4, x = fst nv ++ b1 ++ "=" ++ b2 ++ snd nv ++ b3 ++ ", ev" ++ b4 /\
    entry_name (fst nv) /\ entry_name (snd nv) /\ spaces b1 /\ spaces b2 /\ spaces b3 /\ spaces b4 /\ b1 <> "" /\ b2 <> "" /\ b3 <> "" /\ one_line x.
Definition is_nothing (x : string) : Prop := x = "" \/ (exists s, x = String "#" s) /\ one_line x.
(** the lines and their entries *)
Inductive reads : list string -> list (string * string) -> Prop :=
| reads_nil : reads [] []
| reads_nothing x l e : is_nothing x -> reads l e -> reads (x :: l) e
| reads_entry x l nv e : is_entry x nv -> reads l e -> reads (x :: l) (nv :: e).

Lemma is_space_nl : is_space NL = true. Proof. reflexivity. Qed.
Lemma reads_one_line l e : reads l e -> Forall one_line l.
Proof.
  induction 1 as [|x l e N R IH|x l nv e N R IH]; constructor; auto.
  - destruct N as [->|[_ N]]; [reflexivity|auto].
  - destruct N as (? & ? & ? & ? & _ & _ & _ & _ & _ & _ & _ & _ & _ & _ & N). auto.
Qed.
Lemma word_first s : word s -> exists c t, s = String c t /\ is_space c = false.
Proof.
  intros [N W]. destruct s as [|c t]; [congruence|]. cbn in W. apply andb_true_iff in W. destruct W as [W _].
  apply negb_true_iff in W. eauto.
Qed.
(** lstrip drops empty lines *)
Lemma lstrip_reads l d e : reads (l ++ [d])%list e ->
  exists l' d', lstrip (file_text l ++ d) = file_text l' ++ d' /\ reads (l' ++ [d'])%list e.
Proof.
  revert e. induction l as [|x l IH]; intros e R.
  - cbn [file_text String.append]. cbn [List.app] in R. exists [], d. split; [|auto]. cbn [file_text String.append].
    inv R.
    + destruct H1 as [->|[[s ->] _]]; auto.
    + destruct H1 as (b1 & b2 & b3 & b4 & -> & (W & _) & _). destruct (word_first _ W) as (c & t & -> & S).
      cbn. rewrite S. auto.
  - cbn [List.app] in R. cbn [file_text]. rewrite append_assoc. cbn [String.append].
    assert (X : forall c t, x = String c t -> is_space c = false ->
       exists l' d', lstrip (x ++ String NL (file_text l ++ d)) = file_text l' ++ d' /\ reads (l' ++ [d'])%list e).
    { intros c t -> S. exists (String c t :: l), d. split; [|auto]. cbn [String.append lstrip]. rewrite S.
      cbn [file_text]. rewrite append_assoc. auto. }
    inv R.
    + destruct H1 as [->|[[s E] _]].
      * cbn [String.append lstrip]. rewrite is_space_nl. auto.
      * eapply X; eauto.
    + destruct H1 as (b1 & b2 & b3 & b4 & E & (W & _) & _). destruct (word_first _ W) as (c & t & W' & S).
      rewrite W' in E. cbn [String.append] in E. eapply X; eauto.
Qed.
Lemma entry_rstrip x nv : is_entry x nv -> is_entry (rstrip x) nv.
Proof.
  intros (b1 & b2 & b3 & b4 & -> & N1 & N2 & S1 & S2 & S3 & S4 & B1 & B2 & B3 & O).
  exists b1, b2, b3, "". 
  assert (E : rstrip (fst nv ++ b1 ++ "=" ++ b2 ++ snd nv ++ b3 ++ ", ev" ++ b4) = fst nv ++ b1 ++ "=" ++ b2 ++ snd nv ++ b3 ++ ", ev" ++ "").
  { replace (fst nv ++ b1 ++ "=" ++ b2 ++ snd nv ++ b3 ++ ", ev" ++ b4) with ((fst nv ++ b1 ++ "=" ++ b2 ++ snd nv ++ b3 ++ ", ev") ++ b4)
      by (rewrite !append_assoc; reflexivity).
    rewrite rstrip_app by auto.
    replace (fst nv ++ b1 ++ "=" ++ b2 ++ snd nv ++ b3 ++ ", ev") with ((fst nv ++ b1 ++ "=" ++ b2 ++ snd nv ++ b3) ++ ", ev")
      by (rewrite !append_assoc; reflexivity).
    rewrite rstrip_append. change (rstrip ", ev") with ", ev". cbn iota. rewrite !append_assoc. reflexivity. }
  rewrite E. split; auto. do 5 (split; [auto|]). split; [reflexivity|]. do 3 (split; [auto|]).
  rewrite <- E. apply rstrip_one_line. auto.
Qed.
Lemma nothing_rstrip x : is_nothing x -> is_nothing (rstrip x).
Proof.
  intros [->|[[s ->] O]]; [left; auto|]. right. split; [|apply rstrip_one_line; auto].
  cbn [rstrip]. change (is_space "#") with false. cbn iota. destruct (rstrip s); eauto.
Qed.
Lemma rstrip_reads l d e : reads (l ++ [d])%list e ->
  exists l' d', rstrip (file_text l ++ d) = file_text l' ++ d' /\ reads (l' ++ [d'])%list e.
Proof.
  revert e. induction l as [|x l IH]; intros e R.
  - exists [], (rstrip d). split; [auto|]. cbn [List.app] in *. inv R.
    + apply reads_nothing; auto. apply nothing_rstrip. auto.
    + apply reads_entry; auto. apply entry_rstrip. auto.
  - cbn [file_text]. rewrite append_assoc. cbn [String.append]. cbn [List.app] in R.
    assert (T : exists e', reads (l ++ [d])%list e' /\ (is_nothing x /\ e = e' \/ exists nv, is_entry x nv /\ e = nv :: e')).
    { inv R; eexists; (split; [eassumption|]); eauto. }
    destruct T as (e' & R' & C). destruct (IH _ R') as (l' & d' & E & R'').
    rewrite rstrip_append. change (String NL (file_text l ++ d)) with (String NL "" ++ (file_text l ++ d)). rewrite (rstrip_append (String NL "")), E.
    destruct (file_text l' ++ d') as [|c t] eqn:K.
    + assert (l' = []) as ->. { destruct l' as [|y l']; auto. cbn [file_text] in K. destruct y; discriminate. }
      cbn in K. subst d'. exists [], (rstrip x). split; [reflexivity|]. cbn [List.app] in *.
      assert (e' = []) as ->.
      { inv R''; [inv H3; auto|]. destruct H1 as (? & ? & ? & ? & K & ((NE & _) & _) & _). destruct (fst nv); [congruence|discriminate]. }
      destruct C as [[C ->]|(nv & C & ->)].
      * apply reads_nothing; [apply nothing_rstrip; auto|constructor].
      * apply reads_entry; [apply entry_rstrip; auto|constructor].
    + exists (x :: l'), d'. split; [|destruct C as [[C ->]|(nv & C & ->)]; [apply reads_nothing|apply reads_entry]; auto].
      cbn [file_text]. rewrite append_assoc. cbn [String.append]. rewrite K. reflexivity.
Qed.
Lemma strip_reads l d e : reads (l ++ [d])%list e ->
  exists l' d', strip (file_text l ++ d) = file_text l' ++ d' /\ reads (l' ++ [d'])%list e.
Proof.
  intros R. destruct (lstrip_reads _ _ _ R) as (l1 & d1 & E1 & R1). destruct (rstrip_reads _ _ _ R1) as (l2 & d2 & E2 & R2).
  exists l2, d2. split; auto. unfold strip. rewrite E1. auto.
Qed.

(** ** s.split() *)
Lemma words_spaces b s : spaces b -> words (b ++ s) = words s.
Proof. unfold spaces. induction b as [|c b IH]; intros S; auto. cbn in S. apply andb_true_iff in S. destruct S as [S1 S2]. cbn. rewrite S1. auto. Qed.
Lemma words_end w : word w -> words w = [w].
Proof.
  intros [N W]. induction w as [|c w IH]; [congruence|]. cbn in W. apply andb_true_iff in W. destruct W as [W1 W2]. apply negb_true_iff in W1.
  cbn [words]. rewrite W1. destruct w as [|d w]; auto. cbn in W2. apply andb_true_iff in W2. destruct W2 as [W2 W3]. apply negb_true_iff in W2.
  rewrite W2. rewrite IH; auto; [discriminate|]. cbn. rewrite W2, W3. auto.
Qed.
Lemma words_word w c s : word w -> is_space c = true -> words (w ++ String c s) = w :: words s.
Proof.
  intros [N W] S. induction w as [|d w IH]; [congruence|]. cbn in W. apply andb_true_iff in W. destruct W as [W1 W2]. apply negb_true_iff in W1.
  cbn [String.append words]. rewrite W1. destruct w as [|e w].
  - cbn [String.append]. rewrite S. cbn [words]. rewrite S. auto.
  - cbn [String.append]. pose proof W2 as W3. cbn in W3. apply andb_true_iff in W3. destruct W3 as [W3 _]. apply negb_true_iff in W3. rewrite W3.
    change (String e (w ++ String c s)) with (String e w ++ String c s). rewrite IH; auto. discriminate.
Qed.
Lemma words_sep w b s : word w -> spaces b -> b <> "" -> words (w ++ b ++ s) = w :: words s.
Proof.
  intros W S N. destruct b as [|c b]; [congruence|]. unfold spaces in S. cbn in S. apply andb_true_iff in S. destruct S as [S1 S2].
  cbn [String.append]. rewrite words_word by auto. rewrite words_spaces; auto.
Qed.
Lemma words_sep_end w b : word w -> spaces b -> words (w ++ b) = [w].
Proof.
  intros W S. destruct b as [|c b].
  - rewrite append_nil_r. apply words_end. auto.
  - rewrite <- (append_nil_r (String c b)). rewrite words_sep; auto. discriminate.
Qed.

Lemma contains_hash_free s : free "#" s -> contains "#" s = false.
Proof.
  intros F. apply lacks_contains. intros (u & v & E).
  destruct (occurrence_after "#" "" s "" u v F) as (u' & _ & K); [rewrite append_nil_r; auto|]. destruct u'; discriminate.
Qed.
Lemma keep_hash s : keep (String "#" s) = false.
Proof. unfold keep. cbn [contains]. rewrite (prefix_self "#" s : String.prefix "#" (String "#" s) = true). reflexivity. Qed.
Lemma spaces_free x b : is_space x = false -> spaces b -> free x b.
Proof.
  intros X S. eapply all_chars_impl; [|exact S]. intros c C. unfold nofree. apply negb_true_iff, Ascii.eqb_neq. intros ->. congruence.
Qed.

(** ** the lines of frequencies and energies *)
Lemma numbered_kept l d e : reads (l ++ [d])%list e ->
  map words (kept_lines (strip (file_text l ++ d))) = map (fun nv => [fst nv; "="; snd nv; ","; "ev"]) e.
Proof.
  intros R. destruct (strip_reads _ _ _ R) as (l' & d' & E & R'). rewrite E. clear l d R E.
  pose proof (reads_one_line _ _ R') as O. apply Forall_app in O. destruct O as [O1 O2]. inv O2.
  rewrite kept_lines_eq by auto. clear O1 H1 H2. induction R' as [|x l e N R IH|x l nv e N R IH]; auto; cbn [filter map].
  - assert (keep x = false) as ->; auto. destruct N as [->|[[s ->] _]]; [reflexivity|apply keep_hash].
  - destruct N as (b1 & b2 & b3 & b4 & -> & (W1 & H1 & _) & (W2 & H2 & _) & S1 & S2 & S3 & S4 & B1 & B2 & B3 & O).
    assert (keep (fst nv ++ b1 ++ "=" ++ b2 ++ snd nv ++ b3 ++ ", ev" ++ b4) = true) as ->.
    { unfold keep. rewrite contains_hash_free.
      - cbn [negb andb]. apply negb_true_iff, String.eqb_neq. destruct W1 as [W1 _]. destruct (fst nv); [congruence|discriminate].
      - rewrite !free_app. repeat split; auto; apply spaces_free; auto. }
    cbn [map]. rewrite IH. f_equal. rewrite words_sep by auto. f_equal. rewrite (words_sep "=") by (auto; split; first [discriminate|reflexivity]). f_equal.
    rewrite words_sep by auto. f_equal. change (", ev" ++ b4) with ("," ++ " " ++ "ev" ++ b4).
    rewrite (words_sep ",") by (first [reflexivity|discriminate|split; first [discriminate|reflexivity]]). f_equal.
    apply words_sep_end; auto. split; [discriminate|reflexivity].
Qed.

(** ** the lines of couplings *)
Lemma remove_chars f p s : forall k, all_chars f s = true -> all_chars f (remove_go p k s) = true.
Proof.
  induction s as [|c s IH]; intros k A; auto. cbn in A. apply andb_true_iff in A. destruct A as [A1 A2]. destruct k as [|k].
  - rewrite remove_go_0. destruct (String.prefix p (String c s)); [auto|]. cbn. rewrite A1, IH; auto.
  - unfold remove_go. cbn [split_go]. apply IH. auto.
Qed.
Definition stripped (x : string) : string := remove ", ev" (remove "=" x).
Lemma stripped_one_line x : one_line x -> one_line (stripped x).
Proof. intros O. apply (remove_chars _ _ _ 0). apply (remove_chars _ _ _ 0). auto. Qed.
Lemma stripped_hash s : exists t, stripped (String "#" s) = String "#" t.
Proof.
  unfold stripped. change (String "#" s) with ("#" ++ s). rewrite (remove_free "=" "") by reflexivity.
  rewrite (remove_free "," " ev") by reflexivity. eexists. reflexivity.
Qed.
Lemma stripped_entry n b1 b2 v b3 b4 : entry_name n -> entry_name v -> spaces b1 -> spaces b2 -> spaces b3 -> spaces b4 ->
  stripped (n ++ b1 ++ "=" ++ b2 ++ v ++ b3 ++ ", ev" ++ b4) = n ++ b1 ++ b2 ++ v ++ b3 ++ b4.
Proof.
  intros (_ & _ & E1 & C1) (_ & _ & E2 & C2) S1 S2 S3 S4. unfold stripped.
  rewrite (remove_free "=" "") by auto. rewrite (remove_free "=" "") by (apply spaces_free; auto).
  rewrite (remove_hit "=" ""). rewrite (remove_free_all "=" "").
  2:{ rewrite !free_app. repeat split; auto; apply spaces_free; auto. }
  do 5 (rewrite (remove_free "," " ev") by (first [assumption|apply spaces_free; auto])). do 5 f_equal.
  rewrite remove_hit. apply remove_free_all. apply spaces_free; auto.
Qed.
Lemma coupling_lines l d e : reads (l ++ [d])%list e ->
  split_lines (file_text l ++ d) = map (fun nv => [fst nv; snd nv]) e.
Proof.
  intros R. unfold split_lines. destruct (strip_reads _ _ _ R) as (l' & d' & E & R'). rewrite E. clear l d R E.
  pose proof (reads_one_line _ _ R') as O. apply Forall_app in O. destruct O as [O1 O2]. inv O2. clear H2.
  rewrite (remove_lines "=" "") by reflexivity. rewrite (remove_lines "," " ev") by reflexivity. rewrite map_map. fold stripped.
  change (remove ", ev" (remove "=" d')) with (stripped d'). change (fun x => remove ", ev" (remove "=" x)) with stripped.
  rewrite kept_lines_eq.
  2:{ apply Forall_map. eapply Forall_impl; [|exact O1]. apply stripped_one_line. }
  2:{ apply stripped_one_line. auto. }
  replace (map stripped l' ++ [stripped d'])%list with (map stripped (l' ++ [d'])%list) by (rewrite map_app; reflexivity).
  clear O1 H1. induction R' as [|x l e N R IH|x l nv e N R IH]; auto; cbn [filter map].
  - assert (keep (stripped x) = false) as ->; auto. destruct N as [->|[[s ->] _]]; [reflexivity|].
    destruct (stripped_hash s) as [t ->]. apply keep_hash.
  - destruct N as (b1 & b2 & b3 & b4 & -> & N1 & N2 & S1 & S2 & S3 & S4 & B1 & B2 & B3 & O).
    rewrite stripped_entry by auto. destruct N1 as (W1 & H1 & _), N2 as (W2 & H2 & _).
    assert (keep (fst nv ++ b1 ++ b2 ++ snd nv ++ b3 ++ b4) = true) as ->.
    { unfold keep. rewrite contains_hash_free.
      - cbn [negb andb]. apply negb_true_iff, String.eqb_neq. destruct W1 as [W1 _]. destruct (fst nv); [congruence|discriminate].
      - rewrite !free_app. repeat split; auto; apply spaces_free; auto. }
    cbn [map]. rewrite IH. f_equal. rewrite words_sep by auto. f_equal. rewrite words_spaces by auto.
    rewrite words_sep by auto. f_equal. rewrite <- (append_nil_r b4). rewrite words_spaces by auto. reflexivity.
Qed.
