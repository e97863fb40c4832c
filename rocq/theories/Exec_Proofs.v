(** Proofs about the states of the electronic structure workflow and their file. *)
From Verif Require Import Common Common_Proofs PyStr_Model PyStr_Proofs JobBoss_Model Exec_Model Exec_Spec.
Local Open Scope nat_scope.

Definition text_of (f : option string) : string := match f with None => EmptyString | Some t => t end.
Definition next (s : stage) : stage :=
  match s with OPT => NIP | NIP => VIB | VIB => IPEOMCC | IPEOMCC => PREPVIB | PREPVIB => VIBRON | VIBRON => FINISHED | FINISHED => FINISHED end.

Lemma advance_next s f d log : s <> FINISHED ->
  advance (mkJob (Some s) f d log) = (mkJob (Some (next s)) (Some (text_of f ++ line s)%string) d log, Ok tt).
Proof. intros H. destruct f; destruct s; try congruence; reflexivity. Qed.
Lemma advance_finished f d log :
  advance (mkJob (Some FINISHED) f d log) = (mkJob (Some FINISHED) (Some (text_of f ++ line FINISHED ++ line FINISHED)%string) d log, Ok tt).
Proof. destruct f; cbn; unfold set_file; cbn; rewrite ?append_assoc; reflexivity. Qed.

(** *** lines of a file *)
Lemma file_lines_app a b : all_chars (fun c => negb (Ascii.eqb c newline)) a = true ->
  file_lines (a ++ nl ++ b)%string = (a ++ nl)%string :: file_lines b.
Proof.
  induction a as [|c a IH]; intros H.
  - reflexivity.
  - cbn in H. apply andb_true_iff in H. destruct H as [C H]. change (String c a ++ nl ++ b)%string with (String c (a ++ nl ++ b)).
    cbn [file_lines]. apply negb_true_iff in C. rewrite C, IH by auto. reflexivity.
Qed.
Lemma sname_plain s : all_chars (fun c => negb (Ascii.eqb c newline)) (sname s) = true.
Proof. destruct s; reflexivity. Qed.
Lemma file_lines_line s b : file_lines (line s ++ b)%string = line s :: file_lines b.
Proof. unfold line. rewrite append_assoc. apply file_lines_app, sname_plain. Qed.
Lemma lines_cons s l : lines (s :: l) = (line s ++ lines l)%string.
Proof. unfold lines. destruct l; cbn [map String.concat]; [rewrite append_nil_r|]; reflexivity. Qed.
Lemma lines_app l m : lines (l ++ m) = (lines l ++ lines m)%string.
Proof. induction l as [|s l IH]; [reflexivity|]. cbn [app]. rewrite !lines_cons, IH, append_assoc. auto. Qed.
Lemma file_lines_lines l : file_lines (lines l) = map line l.
Proof. induction l as [|s l IH]; [reflexivity|]. rewrite lines_cons, file_lines_line, IH. reflexivity. Qed.

(** *** the loop over the reversed lines *)
Lemma find_name s : find (fun m => String.eqb (sname m) (sname s)) members = Some s.
Proof. destruct s; reflexivity. Qed.
Lemma find_none x : (forall s, sname s <> x) -> find (fun m => String.eqb (sname m) x) members = None.
Proof.
  intros H. unfold members. cbn [find].
  repeat match goal with |- context [String.eqb (sname ?m) x] => rewrite (proj2 (String.eqb_neq _ _) (H m)) end. reflexivity.
Qed.
Lemma next_value s : s <> FINISHED -> of_value (value s + 1) = Ok (next s).
Proof. destruct s; intros; try congruence; reflexivity. Qed.

Definition nonblank (l : string) : bool := negb (String.eqb l EmptyString || String.eqb l nl).
Lemma nonblank_iff l : nonblank l = true <-> ~ skipped l.
Proof.
  unfold nonblank, skipped. rewrite negb_true_iff, orb_false_iff, !String.eqb_neq. tauto.
Qed.
Lemma loop_skip l rest st : skipped l -> state_loop (l :: rest) st = state_loop rest st.
Proof. intros [->| ->]; reflexivity. Qed.
Lemma loop_line l rest st : ~ skipped l ->
  state_loop (l :: rest) st =
  match find (fun m => String.eqb (sname m) (strip l)) members with
  | Some m => match of_value (value m + 1) with Ok s => state_loop rest (Some s) | Raise e => (st, Raise e) end
  | None => (Some OPT, Ok tt)
  end.
Proof.
  intros H. cbn [state_loop]. apply nonblank_iff in H. unfold nonblank in H. apply negb_true_iff in H. rewrite H. reflexivity.
Qed.
(** all lines are stages other than the last: the state follows the last line looked at *)
Lemma loop_all l st : (forall x, In x l -> ~ skipped x -> exists s, s <> FINISHED /\ strip x = sname s) ->
  (filter nonblank l = [] -> state_loop l st = (st, Ok tt)) /\
  (forall xs x s, filter nonblank l = xs ++ [x] -> strip x = sname s -> state_loop l st = (Some (next s), Ok tt)).
Proof.
  revert st. induction l as [|x l IH]; intros st H.
  - split; [reflexivity|]. intros [|] ? ? E; discriminate.
  - cbn [filter]. destruct (nonblank x) eqn:N.
    + split; [discriminate|]. intros xs y s E Y.
      apply nonblank_iff in N. rewrite loop_line by auto. destruct (H x) as (t & F & T); auto; [left; auto|].
      rewrite T, find_name, next_value by auto.
      destruct (IH (Some (next t))) as [I1 I2]; [intros; apply H; auto; right; auto|].
      destruct xs as [|x' xs]; cbn [app] in E.
      * injection E as E1 E2. subst y. rewrite I1 by auto. assert (sname t = sname s) by congruence.
        assert (t = s) by (destruct t, s; auto; discriminate). subst. auto.
      * injection E as E1 E2. apply (I2 xs y); auto.
    + rewrite loop_skip; [apply IH; intros; apply H; auto; right; auto|].
      unfold nonblank in N. apply negb_false_iff, orb_true_iff in N. rewrite !String.eqb_eq in N. exact N.
Qed.
Lemma loop_app a b st : (forall x, In x a -> ~ skipped x -> exists s, s <> FINISHED /\ strip x = sname s) ->
  exists st', state_loop (a ++ b) st = state_loop b st'.
Proof.
  revert st. induction a as [|x a IH]; intros st H; [exists st; reflexivity|].
  assert (H' : forall y, In y a -> ~ skipped y -> exists s, s <> FINISHED /\ strip y = sname s) by (intros; apply H; auto; right; auto).
  destruct (nonblank x) eqn:N.
  - apply nonblank_iff in N. cbn [app]. rewrite loop_line by auto. destruct (H x) as (s & F & E); auto; [left; auto|].
    rewrite E, find_name, next_value by auto. apply IH; auto.
  - cbn [app]. rewrite loop_skip; [apply IH; auto|].
    unfold nonblank in N. apply negb_false_iff, orb_true_iff in N. rewrite !String.eqb_eq in N. exact N.
Qed.
Lemma filter_rev {A} (f : A -> bool) l : filter f (rev l) = rev (filter f l).
Proof.
  induction l as [|x l IH]; [reflexivity|]. cbn [rev filter]. rewrite filter_app, IH. cbn [filter].
  destruct (f x); cbn [rev]; [|rewrite app_nil_r]; reflexivity.
Qed.

(** *** reading parameters *)
Lemma strip_hash l : String.prefix "#" l = true -> strip l <> EmptyString.
Proof.
  destruct l as [|c l]; [discriminate|]. intros H. apply prefix_first in H. subst c. unfold strip. cbn [lstrip is_space].
  replace (is_space "#") with false by reflexivity. cbn [rstrip]. destruct (rstrip l); discriminate.
Qed.
Lemma header_iff l : xorb (negb (String.eqb (strip l) EmptyString)) (String.prefix "#" l) = true <->
  strip l <> EmptyString /\ String.prefix "#" l = false.
Proof.
  destruct (String.prefix "#" l) eqn:P.
  - pose proof (strip_hash l P) as S. rewrite (proj2 (String.eqb_neq _ _) S). cbn. split; [discriminate|]. intros [_ E]; discriminate.
  - destruct (String.eqb_spec (strip l) EmptyString); cbn; split; try tauto; discriminate.
Qed.
Lemma header_false l : xorb (negb (String.eqb (strip l) EmptyString)) (String.prefix "#" l) = false <->
  strip l = EmptyString \/ String.prefix "#" l = true.
Proof.
  destruct (String.prefix "#" l) eqn:P.
  - pose proof (strip_hash l P) as S. rewrite (proj2 (String.eqb_neq _ _) S). cbn. tauto.
  - destruct (String.eqb_spec (strip l) EmptyString); cbn; split; auto; try discriminate. intros [E|E]; congruence.
Qed.
Definition put (d : pdict) (es : list (string * string)) : pdict :=
  fold_left (fun d e => dset String.eqb d (fst e) (PText (snd e))) es d.
Lemma dget_dset {V} (d : list (string * V)) k v x : dget String.eqb (dset String.eqb d k v) x = if String.eqb x k then Some v else dget String.eqb d x.
Proof.
  induction d as [|[k' v'] d IH]; cbn.
  - destruct (String.eqb x k); auto.
  - destruct (String.eqb_spec k k') as [->|N]; cbn; destruct (String.eqb_spec x k'); auto.
    + subst. destruct (String.eqb_spec k' k); congruence.
Qed.
Lemma dmem_dset {V} (d : list (string * V)) k v x : dmem String.eqb d k = true -> dmem String.eqb (dset String.eqb d k v) x = dmem String.eqb d x.
Proof. unfold dmem. intros H. rewrite dget_dset. destruct (String.eqb_spec x k); subst; auto. Qed.
Lemma dmem_put es d x : Forall (fun e => dmem String.eqb d (fst e) = true) es -> dmem String.eqb (put d es) x = dmem String.eqb d x.
Proof.
  revert d. induction es as [|[k v] es IH]; intros d H; [reflexivity|]. inversion H; subst. change (put d ((k, v) :: es)) with (put (dset String.eqb d k (PText v)) es). rewrite IH.
  - apply dmem_dset. auto.
  - eapply Forall_impl; [|eassumption]. cbn. intros. rewrite dmem_dset; auto.
Qed.
(** reading what is well formed *)
Lemma read_ok ls es rest d : reads ls es -> Forall (fun e => dmem String.eqb d (fst e) = true) es ->
  read_parameters d (ls ++ rest) = read_parameters (put d es) rest.
Proof.
  intros R. revert d. induction R as [|l ls es P R IH|l ls es P R IH|h v ls es P Q R IH]; intros d H.
  - reflexivity.
  - cbn [app read_parameters]. rewrite (proj2 (header_false l)) by auto. auto.
  - cbn [app read_parameters]. rewrite (proj2 (header_false l)) by auto. auto.
  - inversion H; subst. cbn [app read_parameters]. rewrite (proj2 (header_iff h)) by auto. cbn [fst] in *. rewrite H2.
    rewrite IH; [reflexivity|]. eapply Forall_impl; [|eassumption]. cbn. intros. rewrite dmem_dset; auto.
Qed.
Lemma read_cases n : forall ls (d : pdict), length ls < n ->
  exists pre rest es, ls = pre ++ rest /\ reads pre es /\ Forall (fun e => dmem String.eqb d (fst e) = true) es /\
   (rest = [] \/ (exists h, rest = [h] /\ strip h <> EmptyString /\ String.prefix "#" h = false) \/
    (exists h v r, rest = h :: v :: r /\ strip h <> EmptyString /\ String.prefix "#" h = false /\ dmem String.eqb d (strip h) = false)).
Proof.
  induction n as [|n IH]; intros ls d L; [lia|]. destruct ls as [|l ls].
  - exists [], [], []. repeat split; auto. constructor.
  - destruct (xorb (negb (String.eqb (strip l) EmptyString)) (String.prefix "#" l)) eqn:X.
    + apply header_iff in X. destruct X as [X1 X2]. destruct ls as [|v ls].
      * exists [], [l], []. repeat split; auto; [constructor|]. right. left. exists l. auto.
      * destruct (dmem String.eqb d (strip l)) eqn:M.
        -- destruct (IH ls d) as (pre & rest & es & E & R & F & C); [cbn in L; lia|].
           exists (l :: v :: pre), rest, ((strip l, strip v) :: es). split; [cbn; congruence|]. split; [apply reads_entry; auto|]. split; auto.
        -- exists [], (l :: v :: ls), []. repeat split; auto; [constructor|]. right. right. exists l, v, ls. auto.
    + destruct (IH ls d) as (pre & rest & es & E & R & F & C); [cbn in L; lia|].
      exists (l :: pre), rest, es. split; [cbn; congruence|]. split; auto.
      apply header_false in X. destruct X; [apply reads_blank|apply reads_comment]; auto.
Qed.
