(** Proofs about the cache of results. *)
From Coq Require Import QArith.
From Verif Require Import Common Common_Proofs PyStr_Model PyStr_Proofs Json_Model Json_Spec Json_Proofs Json5_Proofs FileStruct_Model FileStruct_Proofs Julia_Model Julia_Spec.
Local Open Scope string_scope.
Local Open Scope nat_scope.

Lemma get_dset {V} (d : list (string * V)) k v x : dget String.eqb (dset String.eqb d k v) x = if String.eqb x k then Some v else dget String.eqb d x.
Proof.
  destruct (String.eqb_spec x k) as [->|N].
  - apply dget_dset_same, String.eqb_eq.
  - apply dget_dset_other; auto. apply String.eqb_eq.
Qed.
Lemma nodup_dset {V} (d : list (string * V)) k v : NoDup (map fst d) -> NoDup (map fst (dset String.eqb d k v)).
Proof. apply dset_NoDup, String.eqb_eq. Qed.

Lemma same_hash_spec v h : same_hash v h = true <-> v = Some (hash_value h).
Proof.
  destruct v as [v|], h as [h|]; cbn; try (split; congruence).
  - destruct v; try (split; congruence). destruct (String.eqb_spec s h); split; congruence.
  - destruct v; split; congruence.
Qed.
Lemma hash_json_value h : hash_json h = hash_value h. Proof. destruct h; reflexivity. Qed.

(** ---- validation ---- *)
Lemma dmem_get {V} (d : list (string * V)) k : dmem String.eqb d k = match dget String.eqb d k with Some _ => true | None => false end.
Proof. reflexivity. Qed.

Definition carries_b (t : task) (d : list (string * json)) (f : fstruct) : bool :=
  same_hash (dget String.eqb d "hash_vib") (hash_vib f) &&
  match t with Sampling => same_hash (dget String.eqb d "hash_rho") (hash_rho f) | _ => true end.
Lemma carries_b_spec t d f : carries_b t d f = true <-> carries t d f.
Proof.
  unfold carries_b, carries, get. rewrite andb_true_iff, same_hash_spec.
  destruct t; rewrite ?same_hash_spec; intuition congruence.
Qed.
Lemma same_dmem d k h : same_hash (dget String.eqb d k) h = true -> dmem String.eqb d k = true.
Proof. rewrite dmem_get. destruct (dget String.eqb d k); auto. Qed.
Lemma validate_eq t d f : validate t d f =
  let kept := if carries_b t d f then d else [] in
  match t with
  | Sampling => dset String.eqb (dset String.eqb kept "hash_vib" (hash_value (hash_vib f))) "hash_rho" (hash_value (hash_rho f))
  | _ => dset String.eqb kept "hash_vib" (hash_value (hash_vib f))
  end.
Proof.
  unfold carries_b. pose proof (same_dmem d "hash_vib" (hash_vib f)). pose proof (same_dmem d "hash_rho" (hash_rho f)).
  destruct t; cbn [validate]; unfold validate_rho, validate_model; rewrite !hash_json_value;
    destruct (same_hash (dget String.eqb d "hash_vib") (hash_vib f)) eqn:E1; rewrite ?andb_false_r, ?andb_true_r, ?andb_false_l; cbn [andb]; try reflexivity;
    try (rewrite H by auto; cbn [andb]; try reflexivity).
  destruct (same_hash (dget String.eqb d "hash_rho") (hash_rho f)) eqn:E2; [rewrite H0 by auto; reflexivity|].
  rewrite andb_false_r. reflexivity.
Qed.
Lemma validate_get t d f k :
  dget String.eqb (validate t d f) k =
  if String.eqb k "hash_vib" then Some (hash_value (hash_vib f))
  else if match t with Sampling => String.eqb k "hash_rho" | _ => false end then Some (hash_value (hash_rho f))
  else if carries_b t d f then dget String.eqb d k else None.
Proof.
  rewrite validate_eq. cbv zeta. destruct (carries_b t d f); destruct t; rewrite !get_dset;
    destruct (String.eqb_spec k "hash_vib") as [->|N1]; cbn [String.eqb]; try reflexivity.
Qed.
Lemma validate_carries t d f : carries_b t (validate t d f) f = true.
Proof.
  apply carries_b_spec. unfold carries, get. rewrite !validate_get. cbn [String.eqb]. split; auto. intros ->. reflexivity.
Qed.
Lemma validate_nodup t d f : NoDup (map fst d) -> NoDup (map fst (validate t d f)).
Proof.
  intros N. rewrite validate_eq. cbv zeta. assert (M : NoDup (map fst (if carries_b t d f then d else []))) by (destruct (carries_b t d f); auto; constructor).
  destruct t; repeat apply nodup_dset; auto.
Qed.

(** ---- the key of a temperature ---- *)
Lemma fmt2_dot q : exists a b, fmt2 q = a ++ "." ++ b.
Proof.
  unfold fmt2, fmt_hundredths. destruct (Qnum q <? 0)%Z; [|eauto].
  exists (String "-" (dec (hundredths (- q) / 100))), (two_digits (hundredths (- q) mod 100)). reflexivity.
Qed.
Lemma key_not_hash b : key_of b <> "hash_vib" /\ key_of b <> "hash_rho".
Proof.
  unfold key_of. destruct (fmt2_dot (extract_T_from_beta b)) as (x & y & ->).
  split; intros E; assert (I : contains "." (x ++ "." ++ y) = true) by (apply contains_spec; eauto); rewrite E in I; discriminate.
Qed.

(** ---- results ---- *)
Section Float.
  Variable py_float : string -> res string.
  Lemma renamed_keys keys out temp : renamed py_float keys out = Ok temp -> NoDup (map fst keys) ->
    NoDup (map fst temp) /\ (forall k, In k (map fst temp) -> In k (map fst keys)).
  Proof.
    revert temp. induction keys as [|[new old] keys IH]; intros temp H N; cbn in H.
    - inv H. split; [constructor|intros k []].
    - inv N. destruct (dget String.eqb out old).
      + bdestr H. bdestr H. inv H. destruct (IH _ E0 H3) as [A B]. cbn. split.
        * constructor; auto.
        * intros k [->|I]; auto.
      + destruct (IH _ H H3) as [A B]. split; auto. intros k I. right. auto.
  Qed.
  Lemma renamed_get keys out temp : renamed py_float keys out = Ok temp -> NoDup (map fst keys) ->
    forall new old, In (new, old) keys ->
      match dget String.eqb out old with
      | None => dget String.eqb temp new = None
      | Some text => exists x, py_float text = Ok x /\ dget String.eqb temp new = Some (JFloat x)
      end.
  Proof.
    revert temp. induction keys as [|[n0 o0] keys IH]; intros temp H N new old I; cbn in H; [destruct I|].
    inv N. destruct I as [I|I].
    - inv I. destruct (dget String.eqb out old) eqn:G.
      + bdestr H. bdestr H. inv H. exists x. split; auto. cbn. rewrite String.eqb_refl. auto.
      + apply dget_None; [apply String.eqb_eq|]. intros C. apply (proj2 (renamed_keys _ _ _ H H3)) in C. auto.
    - assert (new <> n0) by (intros ->; apply H2, in_map_iff; exists (n0, old); auto).
      destruct (dget String.eqb out o0).
      + bdestr H. bdestr H. inv H. specialize (IH _ E0 H3 new old I). cbn. apply String.eqb_neq in H0. rewrite H0. auto.
      + apply (IH _ H H3 new old I).
  Qed.
  Lemma renamed_fail keys out e : renamed py_float keys out = Raise e ->
    exists new old text, In (new, old) keys /\ dget String.eqb out old = Some text /\ py_float text = Raise e.
  Proof.
    induction keys as [|[n0 o0] keys IH]; cbn; [discriminate|].
    destruct (dget String.eqb out o0) as [text|] eqn:G.
    - destruct (py_float text) as [x|e'] eqn:F; cbn.
      + destruct (renamed py_float keys out) eqn:R; cbn; [discriminate|]. intros X. inv X.
        destruct (IH eq_refl) as (a & b & c & I & J). exists a, b, c. cbn; auto.
      + intros X. inv X. exists n0, o0, text. cbn; auto.
    - intros X. destruct (IH X) as (a & b & c & I & J). exists a, b, c. cbn; auto.
  Qed.
  Lemma renamed_valid keys out temp : renamed py_float keys out = Ok temp -> (forall s x, py_float s = Ok x -> float_text x) ->
    Forall (fun kv => exists x, snd kv = JFloat x /\ float_text x) temp.
  Proof.
    intros H F. revert temp H. induction keys as [|[n0 o0] keys IH]; intros temp H; cbn in H.
    - inv H. constructor.
    - destruct (dget String.eqb out o0); auto. bdestr H. bdestr H. inv H. constructor; [cbn; eauto|auto].
  Qed.
End Float.
Lemma keyDict_nodup : NoDup (map fst keyDict).
Proof. cbn. repeat constructor; cbn; intuition discriminate. Qed.

(** ---- the output of the program ---- *)
Lemma free_all c s : free c s -> all_chars (fun x => negb (Ascii.eqb x c)) s = true.
Proof.
  unfold free, chars. induction s as [|x s IH]; cbn; auto. intros H. apply andb_true_iff. split; [|tauto].
  apply negb_true_iff, Ascii.eqb_neq. tauto.
Qed.
Lemma split_char c s : free c s -> split (String c "") s = [s].
Proof. intros F. apply split_none; [discriminate|]. apply no_start_char, free_all; auto. Qed.
Lemma split_char_more c a b : free c a -> split (String c "") (a ++ String c b) = a :: split (String c "") b.
Proof.
  intros F. change (String c b) with (String c "" ++ b). apply split_first; [discriminate|]. apply no_start_char, free_all; auto.
Qed.
Lemma split_lines l : l <> [] -> Forall (free nl) l -> split newline (lines_text l) = l.
Proof.
  change newline with (String nl ""). unfold lines_text. induction l as [|x l IH]; intros N F; [congruence|].
  inv F. destruct l as [|y l]; [apply split_char; auto|].
  change (String.concat (String nl "") (x :: y :: l)) with (x ++ String nl "" ++ String.concat (String nl "") (y :: l)).
  change (String nl "" ++ String.concat (String nl "") (y :: l)) with (String nl (String.concat (String nl "") (y :: l))).
  rewrite split_char_more by auto. f_equal. apply IH; auto. congruence.
Qed.
Lemma line_list_lines l : Forall (free nl) l -> line_list (lines_text l) = filter (fun s => negb (String.eqb s "")) l.
Proof.
  intros F. destruct l as [|x l]; [reflexivity|]. unfold line_list. rewrite split_lines; auto. congruence.
Qed.
Lemma free_app c a b : free c (a ++ b) <-> free c a /\ free c b.
Proof.
  unfold free, chars. induction a as [|x a IH]; cbn; [tauto|]. intuition.
Qed.
Lemma contains_colon s : contains ":" s = false <-> free ":" s.
Proof.
  split.
  - intros H I. unfold chars in I. assert (contains ":" s = true); [|congruence]. clear H. induction s as [|x s IH]; cbn in *; [tauto|].
    destruct I as [->|I]; [destruct s; reflexivity|]. rewrite IH by auto. apply orb_true_r.
  - intros F. apply not_true_iff_false. intros C. apply contains_spec in C. destruct C as (a & b & ->).
    apply free_app in F. destruct F as [_ F]. apply free_app in F. destruct F as [F _]. apply F. cbn. auto.
Qed.
Lemma split_line k v : free ":" k -> split ":" (k ++ ":" ++ v) = k :: split ":" v.
Proof. intros F. exact (split_char_more ":" k v F). Qed.

Lemma dict_of_ok l acc : Forall (fun kv => free ":" (fst kv) /\ free ":" (snd kv)) l ->
  dict_of (map (fun kv => [fst kv; snd kv]) l) acc = Ok (dupdate String.eqb acc l).
Proof.
  revert acc. induction l as [|[k v] l IH]; intros acc F; [reflexivity|]. inv F. cbn [map dict_of fst snd]. rewrite IH by auto. reflexivity.
Qed.
Lemma dupdate_nodup {V} (l acc : list (string * V)) : NoDup (map fst acc) -> NoDup (map fst (dupdate String.eqb acc l)).
Proof. revert acc. induction l as [|[k v] l IH]; intros acc N; cbn; auto. apply IH, nodup_dset; auto. Qed.
Lemma dupdate_get (l acc : list (string * string)) k v :
  dget String.eqb (dupdate String.eqb acc l) k = Some v <->
  (exists a b, l = (a ++ (k, v) :: b)%list /\ ~ In k (map fst b)) \/ (~ In k (map fst l) /\ dget String.eqb acc k = Some v).
Proof.
  revert acc. induction l as [|[k0 v0] l IH]; intros acc.
  - cbn. split; [auto|]. intros [(a & b & E & _)|[_ H]]; auto. destruct a; discriminate.
  - change (dupdate String.eqb acc ((k0, v0) :: l)) with (dupdate String.eqb (dset String.eqb acc k0 v0) l). rewrite IH. clear IH. cbn [map fst].
    rewrite get_dset. split.
    + intros [(a & b & -> & N)|[N H]].
      * left. exists ((k0, v0) :: a), b. auto.
      * destruct (String.eqb_spec k k0) as [->|D].
        -- inv H. left. exists [], l. auto.
        -- right. split; auto. cbn. intros [?|?]; auto.
    + intros [(a & b & E & N)|[N H]].
      * destruct a as [|x a]; cbn in E; inv E.
        -- right. split; auto. rewrite String.eqb_refl. auto.
        -- left. eauto.
      * right. split; [cbn in N; tauto|]. destruct (String.eqb_spec k k0) as [->|D]; auto. cbn in N. tauto.
Qed.
