From Coq Require Import QArith Qabs Lia.
From Verif Require Import Common Common_Proofs PyStr_Model PyStr_Proofs Json_Spec Julia_Spec Julia_Proofs Auto_Model Auto_Spec Auto_Proofs.
Local Open Scope string_scope.
Local Open Scope nat_scope.

Lemma blank_iff c : is_space c = true <-> blank c.
Proof. unfold is_space, blank. rewrite orb_true_iff, !andb_true_iff, !Nat.leb_le. reflexivity. Qed.
Lemma blanks_iff s : all_chars is_space s = true <-> blanks s.
Proof.
  unfold blanks, chars. induction s as [|c s IH]; cbn [all_chars list_ascii_of_string].
  - split; [intros _ c []|reflexivity].
  - rewrite andb_true_iff, IH, blank_iff. split.
    + intros [B S] x [<-|I]; [exact B|apply S; exact I].
    + intros H. split; [apply H; left; reflexivity|intros x I; apply H; right; exact I].
Qed.
Lemma prefix_spaces p s w : all_chars (fun c => negb (is_space c)) p = true -> all_chars is_space w = true -> String.prefix p (s ++ w) = String.prefix p s.
Proof.
  revert s. induction p as [|c p IH]; intros s P W; [destruct s, w; reflexivity|]. cbn [all_chars] in P. apply andb_true_iff in P. destruct P as [C P]. apply negb_true_iff in C. destruct s as [|x s].
  - cbn [String.append]. destruct w as [|x w]; [reflexivity|]. cbn [all_chars] in W. apply andb_true_iff in W. destruct W as [X W]. cbn. destruct (ascii_dec c x); [congruence|reflexivity].
  - cbn [String.append String.prefix]. destruct (ascii_dec c x); [|reflexivity]. apply IH; assumption.
Qed.
Lemma contains_spaces p s w : p <> "" -> all_chars (fun c => negb (is_space c)) p = true -> all_chars is_space w = true -> contains p (s ++ w) = contains p s.
Proof.
  intros NE P W. induction s as [|c s IH].
  - cbn [String.append]. assert (G : forall w, all_chars is_space w = true -> contains p w = false).
    { induction w0 as [|x u IH]; intros U; cbn [contains]; destruct p as [|c p]; try congruence; [reflexivity|].
      cbn [all_chars] in U, P. apply andb_true_iff in U, P. destruct U as [X U], P as [C _]. apply negb_true_iff in C. rewrite (IH U), orb_false_r. cbn. destruct (ascii_dec c x); [congruence|reflexivity]. }
    rewrite (G w W). symmetry. apply (G ""). reflexivity.
  - cbn [String.append contains]. rewrite IH. f_equal. apply (prefix_spaces p (String c s) w P W).
Qed.
Lemma rstrip_spaces_part s : exists u, s = rstrip s ++ u /\ all_chars is_space u = true.
Proof.
  induction s as [|c s (u & E & U)]; [exists ""; split; reflexivity|]. cbn [rstrip]. destruct (rstrip s) as [|x r] eqn:R.
  - destruct (is_space c) eqn:C; [exists (String c s)|exists s]; (split; [reflexivity|]); cbn [String.append] in E; subst u; [cbn; rewrite C, U|]; [reflexivity|exact U].
  - exists u. split; [cbn; f_equal; exact E|exact U].
Qed.
Lemma contains_strip p s : p <> "" -> all_chars (fun c => negb (is_space c)) p = true -> contains p (strip s) = contains p s.
Proof.
  intros NE P. unfold strip. transitivity (contains p (lstrip s)).
  - destruct (rstrip_spaces_part (lstrip s)) as (u & E & U). rewrite E at 2. symmetry. apply contains_spaces; assumption.
  - induction s as [|c s IH]; [reflexivity|]. cbn [lstrip]. destruct (is_space c) eqn:C; [|reflexivity]. rewrite IH. cbn [contains]. destruct p as [|x p]; [congruence|]. cbn [all_chars] in P. apply andb_true_iff in P. destruct P as [X P]. apply negb_true_iff in X.
    cbn [String.prefix]. destruct (ascii_dec x c); [congruence|reflexivity].
Qed.
Lemma lstrip_last s c w : is_space c = false -> exists s', lstrip (s ++ String c w) = s' ++ String c w.
Proof.
  intros C. induction s as [|x s (s' & IH)]; cbn [String.append lstrip]; [rewrite C; exists ""; reflexivity|]. destruct (is_space x); [exists s'; exact IH|exists (String x s); reflexivity].
Qed.
Lemma rstrip_last s c : is_space c = false -> rstrip (s ++ String c "") = s ++ String c "".
Proof.
  intros C. induction s as [|x s IH]; cbn [String.append rstrip]; [rewrite C; reflexivity|]. rewrite IH. destruct s; reflexivity.
Qed.
Lemma kept_blank s : blanks s -> kept s = false.
Proof.
  intros B. apply blanks_iff in B. unfold kept, strip. enough (E : lstrip s = "") by (rewrite E; reflexivity). induction s as [|c s IH]; [reflexivity|]. cbn [all_chars] in B. apply andb_true_iff in B. destruct B as [C B]. cbn. rewrite C. apply IH. exact B.
Qed.
Lemma kept_dash s : occurs "--------" s -> kept s = false.
Proof.
  intros O. unfold kept. rewrite contains_strip by (discriminate || reflexivity). apply contains_spec in O. rewrite O. apply andb_false_r.
Qed.
Lemma kept_line s c u : ~ blank c -> blanks u -> ~ occurs "--------" (s ++ String c "") -> kept (s ++ String c u) = true /\ rstrip (s ++ String c u) = s ++ String c "".
Proof.
  intros C U N. apply blanks_iff in U. assert (C' : is_space c = false) by (destruct (is_space c) eqn:X; [exfalso; apply C; apply blank_iff; exact X|reflexivity]).
  replace (s ++ String c u) with ((s ++ String c "") ++ u) by (rewrite append_assoc; reflexivity). split.
  - unfold kept. rewrite contains_strip by (discriminate || reflexivity). rewrite contains_spaces by (discriminate || reflexivity || exact U). rewrite (contains_not _ _ N).
    unfold strip. rewrite append_assoc. cbn [String.append]. destruct (lstrip_last s c u C') as (s' & ->). replace (s' ++ String c u) with ((s' ++ String c "") ++ u) by (rewrite append_assoc; reflexivity).
    rewrite rstrip_app by exact U. rewrite rstrip_last by exact C'. rewrite append_length. cbn [String.length]. rewrite Nat.add_1_r. reflexivity.
  - rewrite rstrip_app by exact U. apply rstrip_last. exact C'.
Qed.
Lemma sifted_lines ls ds : sifted ls ds -> map rstrip (filter kept ls) = ds.
Proof.
  induction 1; cbn [filter map]; [reflexivity|rewrite kept_blank by assumption; assumption|rewrite kept_dash by assumption; assumption|].
  destruct (kept_line s c w H H0 H1) as [-> E]. cbn [map]. rewrite E. f_equal. assumption.
Qed.
Lemma lines_of_text ls ds : ls <> [] -> Forall (free nl) ls -> sifted ls ds -> lines_of (lines_text ls) = ds.
Proof. intros N F S. unfold lines_of. change Auto_Model.newline with Julia_Model.newline. rewrite split_lines by assumption. apply sifted_lines. exact S. Qed.
Lemma for_fail {I A} (l1 l2 : list I) i (body : I -> A -> reader A) (chunk : I -> list string) (f : I -> A -> A) a c rest e :
  (forall i a, In i l1 -> reads (body i a) (chunk i) (f i a)) -> (forall a rest, body i a (c ++ rest)%list = Raise e) ->
  for_lines (l1 ++ i :: l2)%list body a (flat_map chunk l1 ++ c ++ rest)%list = Raise e.
Proof.
  revert a. induction l1 as [|j l1 IH]; intros a H F; cbn [app flat_map for_lines].
  - unfold rbind. rewrite F. reflexivity.
  - rewrite <- app_assoc. erewrite step by (apply H; left; reflexivity). apply IH; [|exact F]. intros k b K. apply H. right. exact K.
Qed.
Lemma line_cases s : blanks s \/ exists a c u, s = a ++ String c u /\ ~ blank c /\ blanks u.
Proof.
  induction s as [|x s [B|(a & c & u & E & C & U)]].
  - left. intros c [].
  - destruct (is_space x) eqn:X.
    + left. apply blanks_iff. cbn. rewrite X. apply blanks_iff. exact B.
    + right. exists "", x, s. repeat split; [|exact B]. intros Y. apply blank_iff in Y. congruence.
  - right. exists (String x a), c, u. repeat split; [|exact C|exact U]. cbn. rewrite E. reflexivity.
Qed.
(** every file holds lines *)
Lemma sifted_total ls : sifted ls (map rstrip (filter kept ls)).
Proof.
  induction ls as [|s ls IH]; [constructor|]. destruct (line_cases s) as [B|(a & c & u & -> & C & U)].
  - cbn [filter]. rewrite kept_blank by exact B. apply s_blank; assumption.
  - destruct (contains "--------" (a ++ String c "")) eqn:D.
    + assert (O : occurs "--------" (a ++ String c u)).
      { apply contains_spec in D. destruct D as (x & y & D). exists x, (y ++ u). replace (a ++ String c u) with ((a ++ String c "") ++ u) by (rewrite append_assoc; reflexivity). rewrite D, !append_assoc. reflexivity. }
      cbn [filter]. rewrite kept_dash by exact O. apply s_dash; assumption.
    + assert (O : ~ occurs "--------" (a ++ String c "")) by (intros O; apply contains_spec in O; congruence).
      destruct (kept_line a c u C U O) as [K E]. cbn [filter]. rewrite K. cbn [map]. rewrite E. apply s_line; assumption.
Qed.
