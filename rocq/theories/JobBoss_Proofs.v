From Verif Require Import Common Common_Proofs PyStr_Model PyStr_Proofs FileName_Model FileName_Proofs FileStruct_Model FileStruct_Proofs JobBoss_Model.
Local Open Scope string_scope.
Local Open Scope nat_scope.
Local Open Scope list_scope.

(** ---- dictionaries ---- *)
Lemma pget_pset d k k' v : pget (pset d k v) k' = if String.eqb k' k then Some v else pget d k'.
Proof.
  unfold pget, pset. induction d as [|[a x] d IH]; simpl.
  - auto.
  - destruct (String.eqb_spec k a); simpl.
    + subst. destruct (String.eqb_spec k' a); auto.
    + destruct (String.eqb_spec k' a).
      * subst. destruct (String.eqb_spec a k); [congruence|auto].
      * apply IH.
Qed.

(** the last assignment to [k] in a list of assignments *)
Fixpoint last_write (l : params) (k : string) : option pv :=
  match l with
  | [] => None
  | (k', v) :: l' => match last_write l' k with
                     | Some w => Some w
                     | None => if String.eqb k k' then Some v else None
                     end
  end.
Definition or_else (a b : option pv) : option pv := match a with Some v => Some v | None => b end.

Lemma last_write_app l1 l2 k : last_write (l1 ++ l2) k = or_else (last_write l2 k) (last_write l1 k).
Proof.
  induction l1 as [|[a x] l1 IH]; simpl; [destruct (last_write l2 k); auto|].
  rewrite IH. destruct (last_write l2 k); simpl; auto.
Qed.

Lemma pget_pupdate d e k : pget (pupdate d e) k = or_else (last_write e k) (pget d k).
Proof.
  unfold pupdate, dupdate. revert d. induction e as [|[a x] e IH]; intros d; simpl; auto.
  rewrite IH. fold (pset d a x). rewrite pget_pset. destruct (last_write e k); simpl; auto.
  destruct (String.eqb k a); auto.
Qed.

(** ---- C39: histories of submission objects ---- *)
Definition path_writes (f : fstruct) : params :=
  [("path_scratch", VStr (py_replace "work" "scratch" (path_rho f))); ("path_root", VStr (path_root f));
   ("path_data", VStr (path_data f)); ("path_rho", VStr (path_rho f)); ("path_vib_model", VStr (path_vib_model f));
   ("path_rho_model", VStr (path_rho_model f))].
Inductive event := EConstruct (host : string) (input : option params) (f : fstruct) | ESetup.
Definition step (d : params) (e : event) : params :=
  match e with
  | EConstruct host input f => submission_init d host input f
  | ESetup => fst (setup_blocks_and_jobs d)
  end.
Definition run (d : params) (evs : list event) : params := fold_left step evs d.
Definition writes (e : event) : params :=
  match e with
  | EConstruct host input f => ("hostname", VStr host) :: match input with Some p => p | None => [] end ++ path_writes f
  | ESetup => []
  end.
Definition setup_keys : list string := ["number_of_samples_per_job"; "number_of_samples"; "number_of_blocks"; "number_of_samples_overall"].

Lemma or_else_assoc a b c : or_else (or_else a b) c = or_else a (or_else b c).
Proof. destruct a; auto. Qed.

Lemma init_get d host input f k :
  pget (submission_init d host input f) k = or_else (last_write (writes (EConstruct host input f)) k) (pget d k).
Proof.
  unfold submission_init, prepare_paths, writes. rewrite pget_pupdate. fold (path_writes f).
  change (("hostname", VStr host) :: match input with Some p => p | None => [] end ++ path_writes f)
    with ([("hostname", VStr host)] ++ (match input with Some p => p | None => [] end ++ path_writes f)).
  rewrite !last_write_app, !or_else_assoc. f_equal.
  assert (pget (pset d "hostname" (VStr host)) k = or_else (last_write [("hostname", VStr host)] k) (pget d k)) as HH.
  { rewrite pget_pset. cbn [last_write]. destruct (String.eqb k "hostname"); auto. }
  destruct input as [p|].
  - rewrite pget_pupdate, HH. auto.
  - rewrite HH. auto.
Qed.

Lemma setup_get d k : ~ In k setup_keys -> pget (fst (setup_blocks_and_jobs d)) k = pget d k.
Proof.
  intros H.
  assert (forall d' k', In k' setup_keys -> forall v, pget (pset d' k' v) k = pget d' k) as L.
  { intros d' k' Hk v. rewrite pget_pset. destruct (String.eqb_spec k k'); auto. subst. tauto. }
  unfold setup_blocks_and_jobs.
  repeat first [rewrite L by (unfold setup_keys; simpl; tauto) | match goal with |- context [match ?x with _ => _ end] => destruct x end | progress cbn [fst] | reflexivity].
Qed.

Theorem run_get d evs k :
  ~ In k setup_keys -> pget (run d evs) k = or_else (last_write (flat_map writes evs) k) (pget d k).
Proof.
  intros Hk. revert d. unfold run. induction evs as [|e evs IH]; intros d; auto.
  cbn [fold_left flat_map]. rewrite IH, last_write_app, or_else_assoc. f_equal.
  destruct e; cbn [step].
  - apply init_get.
  - rewrite setup_get by auto. auto.
Qed.

(** a newly built object sees its own input *)
Theorem own_input d host p f k v :
  last_write p k = Some v -> ~ In k (map fst (path_writes f)) -> pget (submission_init d host (Some p) f) k = Some v.
Proof.
  intros H Hk. rewrite init_get. cbn [writes].
  change (("hostname", VStr host) :: p ++ path_writes f) with ([("hostname", VStr host)] ++ (p ++ path_writes f)).
  rewrite !last_write_app, H.
  assert (forall l, ~ In k (map fst l) -> last_write l k = None) as L.
  { clear. induction l as [|[a x] l IH]; simpl; auto. intros H. rewrite IH by tauto.
    destruct (String.eqb_spec k a); auto. subst. tauto. }
  rewrite L by auto. auto.
Qed.

(** ---- C37 ---- *)
Definition geti (d : params) (k : string) : Z := match pget d k with Some (VInt z) => z | _ => 0%Z end.

(** what the jobs of one (T, P) pair draw together: every job computes
    number_of_blocks blocks of block_size samples *)
Definition drawn (d : params) (jobs : Z) : Z := (jobs * (geti d "number_of_blocks" * geti d "block_size"))%Z.

Section Setup.
  Variables (d : params) (n b total : Z).
  Hypothesis Hn : pget d "number_of_samples" = Some (VInt n).
  Hypothesis Hb : pget d "block_size" = Some (VInt b).
  Hypothesis Ht : pget d "number_of_samples_overall" = Some (VInt total).

  Lemma setup_accepts : (exists j, snd (setup_blocks_and_jobs d) = Ok j) <-> (b <= n /\ b <= 100000 /\ b <> 0)%Z.
  Proof.
    unfold setup_blocks_and_jobs, MAX_SAMPLES_PER_JOB. rewrite Hn, Hb.
    destruct (Z.leb_spec b n); cbn [negb]; [|split; [intros [j H0]; discriminate|lia]].
    destruct (Z.leb_spec b 100000); cbn [negb]; [|split; [intros [j H1]; discriminate|lia]].
    destruct (Z.eqb_spec b 0); [split; [intros [j H1]; discriminate|lia]|].
    rewrite !pget_pset. cbn [String.eqb Ascii.eqb Bool.eqb]. rewrite Ht.
    destruct (total =? 0)%Z; split; intros; [lia|eexists; reflexivity|lia|eexists; reflexivity].
  Qed.

  Lemma setup_rejects : snd (setup_blocks_and_jobs d) = Raise AssertionError <-> (n < b \/ 100000 < b)%Z.
  Proof.
    unfold setup_blocks_and_jobs, MAX_SAMPLES_PER_JOB. rewrite Hn, Hb.
    destruct (Z.leb_spec b n); cbn [negb]; [|split; [lia|auto]].
    destruct (Z.leb_spec b 100000); cbn [negb]; [|split; [lia|auto]].
    destruct (Z.eqb_spec b 0); [split; [discriminate|lia]|].
    rewrite !pget_pset. cbn [String.eqb Ascii.eqb Bool.eqb]. rewrite Ht.
    destruct (total =? 0)%Z; split; try discriminate; lia.
  Qed.

  Lemma setup_values j :
    snd (setup_blocks_and_jobs d) = Ok j ->
    let d' := fst (setup_blocks_and_jobs d) in
    geti d' "number_of_samples" = Z.min n 100000 /\ geti d' "number_of_samples_per_job" = Z.min n 100000 /\
    geti d' "number_of_blocks" = (Z.min n 100000 / b)%Z /\ geti d' "block_size" = b /\
    geti d' "number_of_samples_overall" = (if (total =? 0)%Z then n else total) /\
    j = Z.max 1 ((if (total =? 0)%Z then n else total) / 100000).
  Proof.
    unfold setup_blocks_and_jobs, MAX_SAMPLES_PER_JOB. rewrite Hn, Hb.
    destruct (Z.leb_spec b n); cbn [negb]; [|discriminate].
    destruct (Z.leb_spec b 100000); cbn [negb]; [|discriminate].
    destruct (Z.eqb_spec b 0); [discriminate|].
    rewrite !pget_pset. cbn [String.eqb Ascii.eqb Bool.eqb]. rewrite Ht. unfold geti.
    destruct (total =? 0)%Z; cbn [fst snd]; intros HH; injection HH as <-;
      rewrite !pget_pset; cbn [String.eqb Ascii.eqb Bool.eqb]; rewrite ?Hb, ?Ht; auto 10.
  Qed.

  Lemma setup_drawn j :
    snd (setup_blocks_and_jobs d) = Ok j ->
    drawn (fst (setup_blocks_and_jobs d)) j =
      (Z.max 1 ((if total =? 0 then n else total) / 100000) * (Z.min n 100000 - Z.min n 100000 mod b))%Z.
  Proof.
    intros H. assert (b <> 0)%Z as Hb0 by (apply setup_accepts; eauto).
    apply setup_values in H. cbv zeta in H. destruct H as (_ & _ & H3 & H4 & _ & ->).
    unfold drawn. rewrite H3, H4. f_equal. pose proof (Z.div_mod (Z.min n 100000) b Hb0). lia.
  Qed.

  (** the plan is the same when computed again *)
  Lemma setup_again j :
    (0 < b)%Z -> snd (setup_blocks_and_jobs d) = Ok j ->
    snd (setup_blocks_and_jobs (fst (setup_blocks_and_jobs d))) = Ok j /\
    forall k, pget (fst (setup_blocks_and_jobs (fst (setup_blocks_and_jobs d)))) k = pget (fst (setup_blocks_and_jobs d)) k.
  Proof.
    intros Hb0. unfold setup_blocks_and_jobs at 1. unfold MAX_SAMPLES_PER_JOB. rewrite Hn, Hb.
    destruct (Z.leb_spec b n); cbn [negb]; [|discriminate].
    destruct (Z.leb_spec b 100000); cbn [negb]; [|discriminate].
    destruct (Z.eqb_spec b 0); [discriminate|]. intros HH.
    assert (pget (fst (setup_blocks_and_jobs d)) "number_of_samples" = Some (VInt (Z.min n 100000)) /\
            pget (fst (setup_blocks_and_jobs d)) "block_size" = Some (VInt b) /\
            pget (fst (setup_blocks_and_jobs d)) "number_of_samples_per_job" = Some (VInt (Z.min n 100000)) /\
            pget (fst (setup_blocks_and_jobs d)) "number_of_blocks" = Some (VInt (Z.min n 100000 / b)) /\
            pget (fst (setup_blocks_and_jobs d)) "number_of_samples_overall" = Some (VInt (if total =? 0 then n else total)%Z) /\
            j = Z.max 1 ((if total =? 0 then n else total) / 100000)%Z) as (E1 & E2 & E3 & E4 & E5 & ->).
    { revert HH. unfold setup_blocks_and_jobs, MAX_SAMPLES_PER_JOB. rewrite Hn, Hb.
      destruct (Z.leb_spec b n); [|lia]. destruct (Z.leb_spec b 100000); [|lia]. destruct (Z.eqb_spec b 0); [lia|]. cbn [negb].
      rewrite !pget_pset. cbn [String.eqb Ascii.eqb Bool.eqb]. rewrite Ht.
      destruct (total =? 0)%Z; cbn [fst snd]; intros HH; injection HH as <-;
      rewrite !pget_pset; cbn [String.eqb Ascii.eqb Bool.eqb]; rewrite ?Hb, ?Ht; auto 10. }
    set (d' := fst (setup_blocks_and_jobs d)) in *.
    unfold setup_blocks_and_jobs, MAX_SAMPLES_PER_JOB. rewrite E1, E2.
    destruct (Z.leb_spec b (Z.min n 100000)); [|lia]. destruct (Z.leb_spec b 100000); [|lia]. destruct (Z.eqb_spec b 0); [lia|]. cbn [negb].
    rewrite !pget_pset. cbn [String.eqb Ascii.eqb Bool.eqb]. rewrite E5.
    assert ((if total =? 0 then n else total) <> 0)%Z as HT.
    { destruct (Z.eqb_spec total 0); lia. }
    destruct (Z.eqb_spec (if (total =? 0)%Z then n else total) 0); [tauto|]. cbn [fst snd]. split; auto.
    intros k. rewrite !pget_pset. rewrite Z.min_l by lia.
    destruct (String.eqb_spec k "number_of_blocks"); [subst; auto|].
    destruct (String.eqb_spec k "number_of_samples"); [subst; auto|].
    destruct (String.eqb_spec k "number_of_samples_per_job"); [subst; auto|]. auto.
  Qed.
End Setup.

(** without a separately given overall number *)
Theorem drawn_exact d n b j :
  pget d "number_of_samples" = Some (VInt n) -> pget d "block_size" = Some (VInt b) ->
  pget d "number_of_samples_overall" = Some (VInt 0) -> (0 < b)%Z ->
  snd (setup_blocks_and_jobs d) = Ok j ->
  let got := drawn (fst (setup_blocks_and_jobs d)) j in
  (0 < got <= n)%Z /\
  (n - got = (if n <=? 100000 then 0 else n mod 100000) + j * (Z.min n 100000 mod b))%Z /\
  (got = n <-> (n <= 100000 \/ n mod 100000 = 0) /\ (Z.min n 100000 mod b = 0))%Z.
Proof.
  intros Hn Hb Ht Hb0 H got.
  assert (b <= n /\ b <= 100000 /\ b <> 0)%Z as (A1 & A2 & A3) by (apply (setup_accepts d n b 0); eauto).
  pose proof (setup_drawn d n b 0 Hn Hb Ht j H) as HD.
  destruct (setup_values d n b 0 Hn Hb Ht j H) as (_ & _ & _ & _ & _ & Hj).
  cbn [Z.eqb] in HD, Hj. subst got. rewrite HD. clear HD.
  pose proof (Z.mod_pos_bound (Z.min n 100000) b Hb0) as HM.
  set (r := (Z.min n 100000 mod b)%Z) in *.
  pose proof (Z.div_mod n 100000 ltac:(lia)) as HN. pose proof (Z.mod_pos_bound n 100000 ltac:(lia)) as HR.
  assert (0 <= n / 100000)%Z as HQ by (apply Z.div_pos; lia).
  destruct (Z.leb_spec n 100000) as [L|L].
  - assert (j = 1)%Z as ->.
    { rewrite Hj. assert (n / 100000 <= 1)%Z; [|lia]. apply Z.div_le_upper_bound; lia. }
    rewrite <- Hj. rewrite (Z.min_l n) by lia. assert (r < n)%Z by lia. lia.
  - assert (1 <= n / 100000)%Z by (apply Z.div_le_lower_bound; lia).
    assert (Z.max 1 (n / 100000) = n / 100000)%Z as E by lia. rewrite E in *. subst j.
    rewrite (Z.min_r n) by lia. set (q := (n / 100000)%Z) in *. set (m := (n mod 100000)%Z) in *.
    assert (0 <= q * r)%Z by nia. assert (r < 100000)%Z by lia. split; [split; nia|]. split; [nia|].
    split; [intros EE|intros [[?|?] ?]; nia]. assert (m + q * r = 0)%Z by nia. assert (m = 0)%Z by lia. assert (q * r = 0)%Z by lia.
    split; [auto|]. nia.
Qed.


Theorem extract_id_ok n w1 w2 :
  all_chars is_space w1 = true -> all_chars is_space w2 = true ->
  extract_id_job ("Submitted batch job " ++ w1 ++ dec n ++ w2)%string = Ok (Some n).
Proof.
  intros H1 H2. unfold extract_id_job. rewrite append_length. cbn [String.length].
  assert (1 <= String.length (w1 ++ dec n ++ w2)%string) as HL.
  { rewrite !append_length. assert (String.length (dec n) <> 0); [|lia].
    intros E. apply (dec_not_empty n). destruct (dec n); [auto|discriminate]. }
  destruct (Nat.leb_spec 21 (20 + String.length (w1 ++ dec n ++ w2)%string)); [|lia].
  replace (20 + String.length (w1 ++ dec n ++ w2)%string - 20) with (String.length (w1 ++ dec n ++ w2)%string) by lia.
  change 20 with (String.length "Submitted batch job "). rewrite substring_suffix.
  rewrite py_int_dec_pad by auto. auto.
Qed.

Theorem extract_id_short out : String.length out < 21 -> extract_id_job out = Ok None.
Proof. intros H. unfold extract_id_job. destruct (Nat.leb_spec 21 (String.length out)); [lia|auto]. Qed.

(** only the text after the first 20 characters matters *)
Theorem extract_id_tail pre tail :
  String.length pre = 20 -> tail <> EmptyString ->
  extract_id_job (pre ++ tail)%string = match py_int_str tail with Ok z => Ok (Some z) | Raise e => Raise e end.
Proof.
  intros Hp Ht. unfold extract_id_job. rewrite append_length, Hp.
  assert (1 <= String.length tail) by (destruct tail; simpl; [easy|lia]).
  destruct (Nat.leb_spec 21 (20 + String.length tail)); [|lia].
  replace (20 + String.length tail - 20) with (String.length tail) by lia.
  rewrite <- Hp at 1. rewrite substring_suffix. destruct (py_int_str tail); auto.
Qed.

(** ---- C41 ---- *)
Lemma file_lines_nl s : forall l r a, file_lines s = a ++ l :: r -> r <> [] -> exists l', l = (l' ++ String newline "")%string.
Proof.
  induction s as [|c s IH]; intros l r a H Hr; [destruct a; discriminate|].
  cbn [file_lines] in H. destruct (Ascii.eqb_spec c newline).
  - destruct a; injection H as H1 H2.
    + exists "". subst. auto.
    + eapply IH; eauto.
  - destruct (file_lines s) as [|m ms] eqn:E.
    + destruct a as [|? [|]]; injection H as H1 H2; try discriminate. congruence.
    + destruct a; injection H as H1 H2.
      * subst. destruct (IH m r []) as [l' ->]; auto. exists (String c l'). auto.
      * subst. eapply (IH l r (m :: a)); eauto.
Qed.

Lemma in_file_last s x : all_chars (fun c => negb (Ascii.eqb c newline)) x = true ->
  forall rest, in_file x (file_lines s) = (true, rest) -> rest = [].
Proof.
  intros Hx rest.
  assert (forall l a rest, file_lines s = a ++ l -> in_file x l = (true, rest) -> rest = []) as L.
  { induction l as [|m l IH]; intros a rest0 E H; [discriminate|]. cbn [in_file] in H.
    destruct (String.eqb_spec m x).
    - injection H as <-. destruct l as [|m' l]; auto. exfalso.
      destruct (file_lines_nl s m (m' :: l) a E ltac:(discriminate)) as [l' El]. subst m. subst x.
      rewrite all_chars_app in Hx. apply andb_true_iff in Hx. destruct Hx as [_ Hx]. discriminate.
    - eapply (IH (a ++ [m])); eauto. rewrite <- app_assoc. auto. }
  apply (L _ []). auto.
Qed.

Theorem check_never_raises text : exists l, check_slurm_output (Some text) = Ok l.
Proof.
  unfold check_slurm_output, check_slurm_lines. destruct (in_file "Finished" (file_lines text)) as [b rest] eqn:E.
  destruct b; cbn [negb]; eauto. apply in_file_last in E; [|reflexivity]. subst. cbn. eauto.
Qed.

(** ---- get_hostname ---- *)
Theorem hostname_found pre k v post :
  Forall (fun l => contains "ClusterName" l = false) pre ->
  contains "ClusterName" k = true ->
  all_chars (fun c => negb (Ascii.eqb c "=")) k = true -> all_chars (fun c => negb (Ascii.eqb c "=")) v = true ->
  get_hostname (pre ++ (k ++ "=" ++ v)%string :: post) = Ok (strip v).
Proof.
  intros Hp Hc Hk Hv. induction Hp as [|l pre Hl Hp IH].
  - cbn [app get_hostname].
    assert (contains "ClusterName" (k ++ "=" ++ v)%string = true) as ->.
    { apply contains_spec in Hc. apply contains_spec. destruct Hc as (a & c & ->). exists a, (c ++ "=" ++ v)%string.
      rewrite !append_assoc. auto. }
    rewrite split_first; [|discriminate|apply no_start_char; auto].
    rewrite split_none; [|discriminate|apply no_start_char; auto]. reflexivity.
  - cbn [app get_hostname]. rewrite Hl. auto.
Qed.

Theorem hostname_missing lines :
  get_hostname lines = Raise OtherException <-> Forall (fun l => contains "ClusterName" l = false) lines.
Proof.
  induction lines as [|l lines IH]; cbn [get_hostname]; [split; auto|].
  destruct (contains "ClusterName" l) eqn:E.
  - split; [|intros H; inv H; congruence].
    destruct (split "=" l) as [|a [|b r]]; simpl; discriminate.
  - rewrite IH. split; intros H; [constructor; auto|inv H; auto].
Qed.
