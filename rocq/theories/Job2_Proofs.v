From Coq Require Import QArith.
From Verif Require Import Common Common_Proofs PyStr_Model PyStr_Proofs FileName_Model Json_Model FileStruct_Model FileStruct_Proofs JobBoss_Model Results_Model Job_Model Job_Spec.
From Verif Require Import JobBoss2_Proofs Job_Proofs.
Local Open Scope string_scope.
Local Open Scope nat_scope.

(** ---- work and scratch ---- *)
Lemma concat_cons sep a l : l <> [] -> String.concat sep (a :: l) = a ++ sep ++ String.concat sep l.
Proof. destruct l; [easy|]. reflexivity. Qed.
Lemma concat_head sep c a l : String.concat sep (String c a :: l) = String c (String.concat sep (a :: l)).
Proof. destruct l; reflexivity. Qed.
Lemma not_work_prefix s : (forall s', s <> "work" ++ s') <-> String.prefix "work" s = false.
Proof.
  split.
  - intros K. destruct (String.prefix "work" s) eqn:E; auto. apply prefix_true in E. destruct E as [t ->]. destruct (K t). reflexivity.
  - intros K s' ->. rewrite prefix_self in K. discriminate.
Qed.
Lemma scratched_replace s t : scratched s t -> py_replace "work" "scratch" s = t.
Proof.
  unfold py_replace. induction 1 as [|s t K IH|c s t N K IH].
  - reflexivity.
  - change ("work" ++ s) with ("" ++ "work" ++ s). rewrite split_first by (discriminate || constructor).
    rewrite concat_cons by apply split_not_nil. rewrite IH. reflexivity.
  - apply not_work_prefix in N. unfold split in *. cbn [split_go]. rewrite N.
    destruct (split_go "work" 0 s) as [|h l] eqn:E; [destruct (split_go_not_nil _ _ _ E)|]. rewrite concat_head, IH. reflexivity.
Qed.
Lemma scratched_exists s : exists t, scratched s t.
Proof.
  assert (K : forall n s, String.length s <= n -> exists t, scratched s t).
  { clear s. induction n as [|n IH]; intros s L.
    - destruct s; [exists ""; constructor|cbn in L; lia].
    - destruct s as [|c s]; [exists ""; constructor|].
      destruct (String.prefix "work" (String c s)) eqn:E.
      + apply prefix_true in E. destruct E as [u E]. rewrite E in *. rewrite append_length in L. cbn [String.length] in L.
        destruct (IH u) as [t K]; [lia|]. exists ("scratch" ++ t). constructor. auto.
      + cbn in L. destruct (IH s) as [t K]; [lia|]. exists (String c t). constructor; auto. apply not_work_prefix. auto. }
  eapply K. reflexivity.
Qed.
Lemma scratched_unique s t t' : scratched s t -> scratched s t' -> t = t'.
Proof. intros A B. apply scratched_replace in A, B. congruence. Qed.
Lemma prefix_before x p a b : lacks x p -> String.prefix p (a ++ String x b) = true -> String.prefix p a = true.
Proof.
  revert a. induction p as [|c p IH]; intros a L K; [destruct a; reflexivity|]. apply lacks_cons in L. destruct L as [C L].
  destruct a as [|y a]; cbn [String.append String.prefix] in *; destruct (ascii_dec c _); try discriminate; [easy|eauto].
Qed.
Lemma work_slash a b : String.prefix "work" (a ++ String "/" b) = true -> String.prefix "work" a = true.
Proof. apply prefix_before, lacks_lit. reflexivity. Qed.
Lemma scratched_app s t b b' : scratched s t -> scratched (String "/" b) (String "/" b') -> scratched (s ++ String "/" b) (t ++ String "/" b').
Proof.
  intros K B. induction K as [|s t K IH|c s t N K IH]; auto.
  - rewrite !append_assoc. constructor. auto.
  - cbn [String.append]. constructor; auto. apply not_work_prefix. apply not_work_prefix in N.
    destruct (String.prefix "work" (String c (s ++ String "/" b))) eqn:E; auto. apply (work_slash (String c s)) in E. congruence.
Qed.
Lemma scratched_lacks s : lacks "w" s -> scratched s s.
Proof.
  intros K. apply lacks_iff in K. induction s as [|c s IH]; [constructor|]. cbn [all_chars] in K. apply andb_true_iff in K. destruct K as [C K].
  constructor; auto. apply negb_true_iff, Ascii.eqb_neq in C. intros s' E. cbn in E. congruence.
Qed.
Lemma scratched_slash b b' : scratched b b' -> scratched (String "/" b) (String "/" b').
Proof. intros K. constructor; auto. intros s' E. discriminate. Qed.
Lemma scratched_all (p : ascii -> bool) s t : all_chars p "scratch" = true -> scratched s t -> all_chars p s = true -> all_chars p t = true.
Proof.
  intros Q. induction 1 as [|s t K IH|c s t N K IH]; auto.
  - rewrite !all_chars_app, !andb_true_iff. tauto.
  - cbn [all_chars]. rewrite !andb_true_iff. tauto.
Qed.
Lemma scratched_lack x s t : all_chars (fun c => negb (Ascii.eqb c x)) "scratch" = true -> scratched s t -> lacks x s -> lacks x t.
Proof. intros A B. rewrite !lacks_iff. apply scratched_all; auto. Qed.
Lemma scratched_path s t : scratched s t -> path_text s -> path_text t.
Proof. intros K. unfold path_text. rewrite <- !all_iff. apply scratched_all; auto. Qed.
Lemma scratched_component c c' : scratched c c' -> component c -> component c'.
Proof.
  intros K (A & B & C & D). repeat split.
  - intros ->. inversion K; subst; auto.
  - intros ->. inversion K; subst. apply B. match goal with H : scratched _ "" |- _ => inversion H; subst end. reflexivity.
  - intros ->. inversion K as [| |? ? ? ? K2]; subst. inversion K2 as [| |? ? ? ? K3]; subst. inversion K3; subst. apply C. reflexivity.
  - eapply scratched_lack; eauto.
Qed.
Lemma component_no_slash l : Forall component l -> Forall no_slash l.
Proof. intros K. eapply Forall_impl; [|exact K]. intros c (_ & _ & _ & D). apply lacks_iff. auto. Qed.
Lemma scratched_concat l : l <> [] -> exists l', length l' = length l /\ Forall2 scratched l l' /\ scratched (String.concat "/" l) (String.concat "/" l').
Proof.
  induction l as [|a l IH]; [easy|]. intros _. destruct (scratched_exists a) as [a' A]. destruct l as [|b l].
  - exists [a']. repeat split; auto.
  - destruct IH as (l' & L & F & K); [discriminate|]. exists (a' :: l'). split; [cbn in *; congruence|]. split; [constructor; auto|].
    rewrite (concat_cons "/" a), (concat_cons "/" a') by (destruct l'; discriminate). apply scratched_app; auto. apply scratched_slash. auto.
Qed.
Lemma scratched_normal root sroot : scratched root sroot -> normal_root root -> normal_root sroot.
Proof.
  intros K (l & N & F & ->). destruct (scratched_concat l N) as (l' & L & F2 & S).
  exists l'. split; [destruct l; destruct l'; cbn in *; congruence|]. split.
  - clear - F F2. induction F2; inversion F; subst; constructor; auto. eapply scratched_component; eauto.
  - eapply scratched_unique; [exact K|]. apply scratched_slash. auto.
Qed.

(** ---- the directories ---- *)
Lemma dec_lacks x z : path_char x = true -> is_digit x = false -> x <> "-"%char -> lacks x (dec z).
Proof.
  intros _ D M. apply lacks_iff.
  assert (Q : forall n, (0 <= n)%Z -> all_chars (fun c => negb (Ascii.eqb c x)) (dec n) = true).
  { intros n L. eapply all_chars_impl; [|apply dec_digits; eauto]. intros c C. apply negb_true_iff, Ascii.eqb_neq. intros ->. cbv beta in *. congruence. }
  destruct (Z_lt_le_dec z 0) as [L|L]; auto. destruct z as [|p|p]; try lia. change (dec (Z.neg p)) with (String "-" (dec (Z.pos p))). cbn [all_chars].
  rewrite (Q (Z.pos p)) by lia. rewrite andb_true_r. apply negb_true_iff, Ascii.eqb_neq. congruence.
Qed.
Lemma rho_dir_scratched root sroot d r : scratched root sroot -> scratched (rho_dir root d r) (rho_dir sroot d r).
Proof.
  intros K. unfold rho_dir. apply scratched_app; auto. apply scratched_lacks.
  pose proof (dec_lacks "w" d eq_refl eq_refl ltac:(discriminate)). pose proof (dec_lacks "w" r eq_refl eq_refl ltac:(discriminate)).
  change (lacks "w" ("/data_set_" ++ dec d ++ "/rho_" ++ dec r ++ "/")). rewrite !lacks_app. repeat split; auto; apply lacks_lit; reflexivity.
Qed.
Lemma normal_normpath l : l <> [] -> Forall component l -> forall l2,  Forall no_slash l2 ->
  normpath ("/" ++ String.concat "/" (l ++ l2)%list) = "/" ++ String.concat "/" (rev (fold_left (norm_step 1) l2 (rev l))).
Proof.
  intros N F l2 S.
  assert (S1 : Forall no_slash l) by (apply component_no_slash; auto).
  unfold normpath. cbn [String.append String.eqb].
  change (String "/" (String.concat "/" (l ++ l2))) with (repeat_slash 1 ++ String.concat "/" (l ++ l2)%list).
  assert (I1 : initial_slashes (repeat_slash 1 ++ String.concat "/" (l ++ l2)%list) = 1).
  { unfold initial_slashes. cbn [repeat_slash String.append]. destruct l as [|a l]; [easy|]. inversion F as [|? ? (A & B & C & D) F']; subst.
    destruct a as [|x a]; [easy|]. cbn [app]. rewrite concat_head. apply lacks_cons in D.
    cbn [String.prefix]. destruct (ascii_dec "/" "/"); [|easy]. destruct (ascii_dec "/" x) as [E|]; [destruct D; congruence|]. reflexivity. }
  rewrite I1. cbv zeta. rewrite (split_slashes 1), fold_left_app, fold_norm_empty, split_concat, fold_left_app; [|apply Forall_app; auto|destruct l; [easy|discriminate]].
  rewrite norm_fold_id; [reflexivity|].
  assert (X : forall m, Forall component m -> ok_rev 1 m).
  { clear. induction m as [|c m IH]; intros K; [exact I|]. inversion K as [|? ? (A & B & C & D) K']; subst. cbn. repeat split; auto; contradiction. }
  apply X, Forall_rev. auto.
Qed.
Lemma concat_app sep a b : a <> [] -> b <> [] -> String.concat sep (a ++ b)%list = String.concat sep a ++ sep ++ String.concat sep b.
Proof.
  intros A B. induction a as [|x a IH]; [easy|]. destruct a as [|y a].
  - cbn [app]. rewrite concat_cons by auto. reflexivity.
  - cbn [app] in *. rewrite !(concat_cons sep x) by discriminate. rewrite IH by discriminate. rewrite !append_assoc. reflexivity.
Qed.
Lemma normal_fixed root : normal_root root -> normpath root = root.
Proof.
  intros (l & N & F & ->). pose proof (normal_normpath l N F [] (Forall_nil _)) as K. rewrite app_nil_r in K. rewrite K. cbn [fold_left]. rewrite rev_involutive. reflexivity.
Qed.
Lemma normal_abs cwd root : normal_root root -> abspath cwd root = root.
Proof.
  intros K. unfold abspath. assert (E : String.prefix "/" root = true) by (destruct K as (l & _ & _ & ->); destruct (String.concat "/" l); reflexivity).
  rewrite E. apply normal_fixed. auto.
Qed.

Lemma data_component d : component ("data_set_" ++ dec d).
Proof.
  repeat split; try discriminate. apply lacks_app. split; [apply lacks_lit; reflexivity|]. apply dec_lacks; try reflexivity. discriminate.
Qed.
Lemma rho_component d : component ("rho_" ++ dec d).
Proof.
  repeat split; try discriminate. apply lacks_app. split; [apply lacks_lit; reflexivity|]. apply dec_lacks; try reflexivity. discriminate.
Qed.
Lemma up_two root d r : normal_root root -> normpath (join (rho_dir root d r) "../..") = root.
Proof.
  intros (l & N & F & ->).
  assert (E : join (rho_dir ("/" ++ String.concat "/" l) d r) "../.." = "/" ++ String.concat "/" (l ++ [("data_set_" ++ dec d)%string; ("rho_" ++ dec r)%string; ".."; ".."])%list).
  { unfold rho_dir. replace (("/" ++ String.concat "/" l) ++ "/data_set_" ++ dec d ++ "/rho_" ++ dec r ++ "/") with (("/" ++ String.concat "/" l ++ "/data_set_" ++ dec d ++ "/rho_" ++ dec r) ++ "/")
      by (repeat rewrite append_assoc; reflexivity).
    rewrite join_slash by (cbn; discriminate). rewrite concat_app by (auto; discriminate). cbn [String.concat]. repeat rewrite append_assoc. reflexivity. }
  rewrite E, normal_normpath; auto.
  - cbn [fold_left]. pose proof (data_component d) as (A1 & A2 & A3 & _). pose proof (rho_component r) as (B1 & B2 & B3 & _).
    assert (X : forall acc c, c <> "" -> c <> "." -> c <> ".." -> norm_step 1 acc c = c :: acc).
    { intros acc c P1 P2 P3. unfold norm_step. apply String.eqb_neq in P1, P2, P3. rewrite P1, P2, P3. reflexivity. }
    rewrite (X _ ("data_set_" ++ dec d)), (X _ ("rho_" ++ dec r)) by auto.
    assert (Y : forall c acc, c <> ".." -> norm_step 1 (c :: acc) ".." = acc).
    { intros c acc P. unfold norm_step. apply String.eqb_neq in P. rewrite P. reflexivity. }
    rewrite !Y by auto. rewrite rev_involutive. reflexivity.
  - repeat constructor; try (apply lacks_iff; apply data_component); try (apply lacks_iff; apply rho_component); reflexivity.
Qed.
