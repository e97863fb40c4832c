(** Properties C47, C48, C71-C75: the cache of results of the external program. *)
From Coq Require Import QArith.
From Verif Require Import Common Common_Proofs PyStr_Model PyStr_Proofs Json_Model Json_Spec Json_Proofs Json5_Proofs Json6_Proofs FileStruct_Model FileStruct_Proofs Julia_Model Julia_Spec Julia_Proofs Julia2_Proofs Julia3_Proofs.
Local Open Scope string_scope.
Local Open Scope nat_scope.

(** ** C71: the output of the program *)
Lemma lines_of raw : exists l, raw = lines_text l /\ Forall (free nl) l /\ l <> [].
Proof.
  induction raw as [|c raw (l & -> & F & N)]; [exists [""]; split; [reflexivity|]; split; [constructor; [intros []|constructor]|discriminate]|].
  destruct l as [|x l]; [congruence|]. inv F. destruct (Ascii.eqb_spec c nl) as [->|D].
  - exists ("" :: x :: l). split; [reflexivity|]. split; [|discriminate]. constructor; [intros []|]. auto.
  - exists (String c x :: l). split; [destruct l; reflexivity|]. split; [|discriminate]. constructor; auto.
    unfold free, chars in *. cbn. intros [E|E]; auto.
Qed.
(** C71: every text is made of lines *)
Theorem C71_lines raw : exists l, raw = lines_text l /\ Forall (free nl) l.
Proof. destruct (lines_of raw) as (l & E & F & _). eauto. Qed.

Lemma dict_long l acc : (exists x, In x l /\ length x <> 2) -> dict_of l acc = Raise ValueError.
Proof.
  revert acc. induction l as [|x l IH]; intros acc (y & I & L); [destruct I|].
  destruct x as [|a [|b [|c x]]]; try reflexivity. cbn. apply IH. destruct I as [<-|I]; [cbn in L; lia|eauto].
Qed.
Lemma split_count c s : length (split (String c "") s) = 2 <-> exists k v, s = k ++ String c v /\ free c k /\ free c v.
Proof.
  assert (D : free c s \/ exists k v, s = k ++ String c v /\ free c k).
  { induction s as [|x s [F|(k & v & -> & F)]].
    - left. intros [].
    - destruct (Ascii.eqb_spec x c) as [->|N]; [right; exists "", s; split; auto; intros []|]. left. intros [E|E]; auto.
    - destruct (Ascii.eqb_spec x c) as [->|N]; [right; exists "", (k ++ String c v); split; auto; intros []|].
      right. exists (String x k), v. split; auto. intros [E|E]; auto. }
  destruct D as [F|(k & v & -> & F)].
  - rewrite split_char by auto. cbn. split; [lia|]. intros (k & v & -> & _ & _). exfalso. apply free_app in F. destruct F as [_ F]. apply F. cbn. auto.
  - rewrite split_char_more by auto. cbn [length]. split.
    + intros L. exists k, v. split; auto. split; auto. intros I. revert L. clear F. 
      assert (E : exists k' v', v = k' ++ String c v' /\ free c k').
      { unfold chars in I. clear k. induction v as [|x v IH]; [destruct I|]. cbn in I. destruct (Ascii.eqb_spec x c) as [->|N].
        - exists "", v. split; auto. intros [].
        - destruct I as [E|I]; [congruence|]. destruct (IH I) as (k' & v' & -> & F). exists (String x k'), v'. split; auto. intros [E|E]; auto. }
      destruct E as (k' & v' & -> & F). rewrite split_char_more by auto. cbn [length].
      pose proof (split_not_nil (String c "") v'). destruct (split (String c "") v'); [congruence|]. cbn. lia.
    + intros (k' & v' & E & F1 & F2). assert (v = v').
      { revert k' E F1. clear - F. induction k as [|x k IH]; intros [|y k'] E F1; cbn in E.
        - congruence.
        - injection E as -> E. exfalso. apply F1. cbn. auto.
        - injection E as -> E. exfalso. apply F. cbn. auto.
        - injection E as -> E. apply (IH (fun C => F (or_intror C)) k' E (fun C => F1 (or_intror C))). }
      subst v'. rewrite split_char by auto. reflexivity.
Qed.
(** C71: the non-empty lines must have the form name:value with one colon; the
    last line of a name counts *)
Theorem C71_parse l : Forall (free nl) l ->
  ((exists s, In s l /\ s <> "" /\ free ":" s) -> parse_output (lines_text l) = Raise AssertionError) /\
  ((forall s, In s l -> s <> "" -> ~ free ":" s) -> (exists s, In s l /\ exists a b c, s = a ++ ":" ++ b ++ ":" ++ c) ->
     parse_output (lines_text l) = Raise ValueError) /\
  ((forall s, In s l -> s <> "" -> exists k v, s = k ++ ":" ++ v /\ free ":" k /\ free ":" v) ->
     exists d, parse_output (lines_text l) = Ok d /\ NoDup (map fst d) /\
       forall k v, get d k = Some v <-> free ":" k /\ free ":" v /\ last_line (filter (fun s => negb (String.eqb s "")) l) k v).
Proof.
  intros F. unfold parse_output. cbv zeta. rewrite line_list_lines by auto. set (ne := filter (fun s => negb (String.eqb s "")) l).
  assert (NE : forall s, In s ne <-> In s l /\ s <> "").
  { intros s. unfold ne. rewrite filter_In, negb_true_iff, String.eqb_neq. tauto. }
  split; [|split].
  - intros (s & I & N & X). assert (B : forallb (contains ":") ne = false).
    { apply not_true_iff_false. rewrite forallb_forall. intros A. specialize (A s (proj2 (NE s) (conj I N))).
      apply contains_colon in X. congruence. }
    rewrite B. reflexivity.
  - intros A (s & I & a & b & c & E). assert (B : forallb (contains ":") ne = true).
    { apply forallb_forall. intros x X. apply NE in X. destruct X as [X Y]. apply not_false_iff_true. rewrite contains_colon. auto. }
    rewrite B. cbn [passert bind]. apply dict_long. exists (split ":" s). split.
    + apply in_map, NE. split; auto. subst s. destruct a; discriminate.
    + rewrite split_count. intros (k & v & E' & F1 & F2). subst s.
      assert (G : forall k', free ":" k' -> forall z, a ++ ":" ++ z = k' ++ String ":" v -> exists z', k' ++ String ":" z' = a ++ ":" ++ z /\ (z' = z \/ exists u, z' = u ++ ":" ++ z)).
      { clear. induction a as [|x a IH]; intros [|y k'] F z E; cbn in E.
        - exists z. auto.
        - injection E as <- E. exfalso. apply F. cbn. auto.
        - injection E as -> E. exists (a ++ ":" ++ z). split; auto. right. eauto.
        - injection E as -> E. destruct (IH k' (fun C => F (or_intror C)) z E) as (z' & P & Q). exists z'. split; auto. cbn. rewrite P. reflexivity. }
      destruct (G k F1 _ E') as (z' & P & Q). rewrite E' in P. apply append_inj_l in P. assert (z' = v) by congruence. subst z'.
      destruct Q as [Q|[u Q]]; subst v.
      * apply free_app in F2. destruct F2 as [_ F2]. apply F2. cbn. auto.
      * apply free_app in F2. destruct F2 as [_ F2]. apply F2. cbn. auto.
  - intros A.
    assert (K : exists kvs, ne = map (fun kv => fst kv ++ ":" ++ snd kv) kvs /\ Forall (fun kv => free ":" (fst kv) /\ free ":" (snd kv)) kvs).
    { assert (A' : forall s, In s ne -> exists k v, s = k ++ ":" ++ v /\ free ":" k /\ free ":" v) by (intros s I; apply NE in I; apply A; tauto).
      clear - A'. induction ne as [|s m IH]; [exists []; auto|].
      destruct IH as (kvs & -> & FK). { intros x I. apply A'. right. auto. }
      destruct (A' s (or_introl eq_refl)) as (k & v & -> & F1 & F2). exists ((k, v) :: kvs). auto. }
    destruct K as (kvs & K & FK). rewrite K.
    assert (B : forallb (contains ":") (map (fun kv => fst kv ++ ":" ++ snd kv) kvs) = true).
    { apply forallb_forall. intros x I. apply in_map_iff in I. destruct I as ([k v] & <- & _). apply contains_spec. cbn. eauto. }
    rewrite B. cbn [passert bind]. rewrite map_map.
    assert (S : map (fun kv => split ":" (fst kv ++ ":" ++ snd kv)) kvs = map (fun kv => [fst kv; snd kv]) kvs).
    { apply map_ext_in. intros [k v] I. rewrite Forall_forall in FK. destruct (FK _ I) as [F1 F2]. cbn [fst snd] in *.
      rewrite split_line by auto. f_equal. apply split_char; auto. }
    rewrite S, dict_of_ok by auto. eexists. split; [reflexivity|]. split; [apply dupdate_nodup; constructor|].
    intros k v. unfold get. rewrite dupdate_get. unfold last_line. split.
    + intros [(a & b & -> & N)|[_ X]]; [|discriminate]. apply Forall_app in FK. destruct FK as [_ FK]. inv FK. destruct H1 as [F1 F2]. cbn in F1, F2.
      split; auto. split; auto. exists (map (fun kv => fst kv ++ ":" ++ snd kv) a), (map (fun kv => fst kv ++ ":" ++ snd kv) b).
      split; [rewrite map_app; reflexivity|]. intros v' I. apply N. apply in_map_iff in I. destruct I as ([k1 v1] & E & I). cbn in E.
      rewrite Forall_forall in H2. destruct (H2 _ I) as [G1 _]. cbn in G1.
      assert (k1 = k).
      { clear - E G1 F1. revert k E F1. induction k1 as [|x k1 IH]; intros [|y k] E F1; cbn in E; auto.
        - injection E as <- E. exfalso. apply F1. cbn. auto.
        - injection E as -> E. exfalso. apply G1. cbn. auto.
        - injection E as -> E. f_equal. apply (IH (fun C => G1 (or_intror C)) k E (fun C => F1 (or_intror C))). }
      subst k1. apply in_map_iff. exists (k, v1). auto.
    + intros (F1 & F2 & a & b & E & N). left.
      assert (E2 : exists ka kb, kvs = (ka ++ (k, v) :: kb)%list /\ b = map (fun kv => fst kv ++ ":" ++ snd kv) kb).
      { clear N K B S NE A. revert a E FK. induction kvs as [|[k1 v1] kvs IH]; intros a E FK; [destruct a; discriminate|]. inv FK. cbn in H1.
        destruct a as [|x a]; cbn [map app] in E; injection E as E1 E2.
        - exists [], kvs. split; auto. cbn [app]. f_equal.
          assert (Q : [k1; v1] = [k; v]). { transitivity (split ":" (k1 ++ ":" ++ v1)); [|replace (k1 ++ ":" ++ v1) with (k ++ ":" ++ v) by (symmetry; exact E1)];
            rewrite split_line by tauto; rewrite (split_char ":") by tauto; reflexivity. }
          congruence.
        - destruct (IH a E2 H2) as (ka & kb & -> & ->). exists ((k1, v1) :: ka), kb. auto. }
      destruct E2 as (ka & kb & -> & ->). exists ka, kb. split; auto. intros I. apply in_map_iff in I. destruct I as ([k1 v1] & E1 & I). cbn in E1. subst k1.
      apply (N v1). apply in_map_iff. exists (k, v1). auto.
Qed.
Print Assumptions C71_parse.
Example C71_parse_example :
  parse_output (lines_text ["Z_sos: 1.5"; ""; "beta: 2.0"; "Z_sos: 2.5"; ""]) = Ok [("Z_sos", " 2.5"); ("beta", " 2.0")] /\
  parse_output (lines_text ["Z_sos: 1.5"; "time: 10:15"]) = Raise ValueError /\
  parse_output (lines_text ["Z_sos: 1.5"; "WARNING"; "a:b:c"]) = Raise AssertionError /\
  parse_output "" = Ok [].
Proof. vm_compute. auto. Qed.

(** ** C47 *)
Lemma kept_eq : kept_names = keyDict. Proof. reflexivity. Qed.
Lemma results_of_renamed py_float names temp : renamed py_float keyDict names = Ok temp -> results_of py_float names temp.
Proof.
  intros R. destruct (renamed_keys _ _ _ _ R keyDict_nodup) as [N K]. split; auto. intros new v. unfold get. rewrite kept_eq. split.
  - intros G. assert (I : In new (map fst keyDict)).
    { apply K. apply (dget_In String.eqb String.eqb_eq) in G. apply in_map_iff. exists (new, v). auto. }
    apply in_map_iff in I. destruct I as ([n old] & E & I). cbn [fst] in E. subst n.
    pose proof (renamed_get _ _ _ _ R keyDict_nodup new old I) as X. destruct (dget String.eqb names old) as [text|] eqn:GO; [|congruence].
    destruct X as (x & F & GT). exists old, text, x. repeat split; auto. congruence.
  - intros (old & text & x & I & G & F & ->). pose proof (renamed_get _ _ _ _ R keyDict_nodup new old I) as X. rewrite G in X.
    destruct X as (x' & F' & GT). congruence.
Qed.

(** C47: one run.  It succeeds exactly if the command can be made, the old file
    holds nothing or a dictionary, and the program was not killed, printed at
    least one line in the right form and only numbers under the known names *)
Theorem C47_succeeds py_float bin fs f t b bt out err :
  (exists fs', base_func py_float bin fs f t b bt out err = (fs', Ok tt)) <->
  exists dst cmd d names, target f t = Ok dst /\ command bin f t bt = Ok cmd /\ stored fs dst d /\
    ~ (exists x y, err = x ++ "Killed" ++ y) /\ parse_output out = Ok names /\ names <> [] /\
    (forall new old text, In (new, old) kept_names -> get names old = Some text -> exists x, py_float text = Ok x).
Proof.
  split.
  - intros [fs' E]. apply base_result in E. destruct E as (dst & cmd & d & names & temp & T & C & S & K & P & N & R).
    exists dst, cmd, d, names. apply killed_spec in K. repeat (split; auto). intros new old text I G. rewrite kept_eq in I.
    pose proof (renamed_get _ _ _ _ R keyDict_nodup new old I) as X. unfold get in G. rewrite G in X. destruct X as (x & X & _). eauto.
  - intros (dst & cmd & d & names & T & C & S & K & P & N & A). apply killed_spec in K.
    destruct (renamed py_float keyDict names) as [temp|e] eqn:R.
    + eexists. eapply base_ok; eauto.
    + apply renamed_fail in R. destruct R as (new & old & text & I & G & X). destruct (A new old text I G) as [x Y]. congruence.
Qed.
Print Assumptions C47_succeeds.

(** C47: a run that does not succeed changes no file *)
Theorem C47_failed py_float bin fs f t b bt out err fs' e :
  base_func py_float bin fs f t b bt out err = (fs', Raise e) -> forall p, fs' p = fs p.
Proof.
  unfold base_func. match goal with |- context [match ?x with Ok _ => _ | Raise _ => _ end] => destruct x as [[dst text]|e'] end; intros X; inv X; auto.
Qed.
(** C47: a run that succeeds changes one file; it then carries the hashes, has the
    new results under the temperature, the other entries are kept if the old file
    carried the same hashes, and dropped otherwise *)
Theorem C47_run py_float bin fs f t b bt out err fs' dst d :
  (forall s x, py_float s = Ok x -> float_text x) ->
  base_func py_float bin fs f t b bt out err = (fs', Ok tt) -> target f t = Ok dst -> stored fs dst d ->
  (forall p, p <> dst -> fs' p = fs p) /\
  exists d' names temp, stored fs' dst d' /\ carries t d' f /\
    parse_output out = Ok names /\ results_of py_float names temp /\ get d' (key_of b) = Some (JObj temp) /\
    forall k, k <> key_of b -> ~ In k (hash_names t) ->
      (carries t d f -> get d' k = get d k) /\ (~ carries t d f -> get d' k = None).
Proof.
  intros FT E T S. destruct (base_result _ _ _ _ _ _ _ _ _ _ E) as (dst' & cmd & d0 & names & temp & T' & C & S' & K & P & N & R).
  assert (dst' = dst) by congruence. subst dst'.
  assert (d0 = d) by (apply stored_old in S; apply stored_old in S'; congruence). subst d0.
  rewrite (base_ok py_float bin fs f t b bt out err dst cmd d names temp T C S K P N R) in E.
  assert (W : valid (JObj d) /\ distinct (JObj d)).
  { destruct S as [[_ ->]|(text & _ & [[_ ->]|[_ L]])]; [cbn; repeat constructor| |eapply loads_wf; eauto]. split; [|apply distinct_obj]; cbn; repeat constructor; intros ? ? []. }
  destruct W as [V D]. destruct (merged_wf py_float t d f b temp names FT R V D) as [V' D'].
  destruct (merged_get t d f b temp) as (G1 & G2 & G3).
  set (d' := validate t (dset String.eqb (validate t d f) (key_of b) (JObj temp)) f) in *.
  assert (E' : fs' = fs_write fs dst (dumps (JObj d'))) by congruence. subst fs'. split.
  - intros p NP. unfold fs_write. apply String.eqb_neq in NP. rewrite NP. reflexivity.
  - exists d', names, temp. split; [|split; [exact G1|]; split; [exact P|]; split; [apply results_of_renamed; exact R|]; split; [exact G2|exact G3]].
    right. exists (dumps (JObj d')). unfold fs_write. rewrite String.eqb_refl. split; auto. right.
    split; [unfold dumps; cbn [write]; rewrite !append_length; cbn [String.length]; lia|]. apply loads_dumps; auto.
Qed.
Print Assumptions C47_run.

(** C47: the entry of a run at the temperature T is stored under T with two
    decimals *)
Theorem C47_key T : ~ (T == 0)%Q -> key_of (beta_of_T T) = fmt2 T.
Proof. apply key_of_T. Qed.
(** finding: two temperatures that agree to two decimals share one entry; the
    later run replaces the earlier one *)
Theorem C47_key_refuted : exists T1 T2, ~ (T1 == T2)%Q /\ key_of (beta_of_T T1) = key_of (beta_of_T T2).
Proof. exists (300001 # 1000)%Q, (300002 # 1000)%Q. split; [discriminate|]. vm_compute. reflexivity. Qed.

(** C47: hashes taken with generate_model_hashes(force_new_hash=True) are those of
    the present files *)
Theorem C47_fresh H fs f f' : generate_model_hashes H fs true f = (f', Ok tt) -> exists cv cr, fresh H fs f' cv cr.
Proof.
  unfold generate_model_hashes. rewrite andb_false_r. unfold file_hash.
  destruct (fs (path_vib_model f)) as [cv|] eqn:E1; [|intros X; inv X].
  change (path_rho_model (set_hash_vib f (H cv))) with (path_rho_model f). destruct (fs (path_rho_model f)) as [cr|] eqn:E2; intros X; inv X.
  exists cv, cr. repeat split; auto.
Qed.

(** C47: all histories of any number of processes and changes of files.  If every
    process that writes [dst] was started with the hashes of the model files of
    that moment, the file always carries the hashes of one coupled model (and one
    sampling model), and every entry was computed for just these models *)
Theorem C47_history py_float H w0 dst is_rho evs text :
  (forall s x, py_float s = Ok x -> float_text x) -> (forall a b, H a = H b -> a = b) ->
  (forall i, procs w0 i = None) -> files w0 dst = None ->
  disciplined py_float H w0 dst is_rho evs ->
  files (run py_float w0 evs) dst = Some text ->
  exists d cv cr, loads text = Ok (JObj d) /\ get d "hash_vib" = Some (JStr (H cv)) /\
    (is_rho = true -> get d "hash_rho" = Some (JStr (H cr))) /\
    forall k v, get d k = Some v -> k <> "hash_vib" -> (is_rho = true -> k <> "hash_rho") ->
      exists pre f t, computed py_float evs dst k v pre f t /\
        files (run py_float w0 pre) (path_vib_model f) = Some cv /\
        (is_rho = true -> t = Sampling /\ files (run py_float w0 pre) (path_rho_model f) = Some cr) /\
        (is_rho = false -> (exists B, t = Sos B) \/ (exists P B, t = Trotter P B)).
Proof.
  intros FT INJ NP NF D E.
  assert (P : proper py_float H w0 dst is_rho evs).
  { destruct D as [A B]. split; auto. intros pre i f t b post E1 E2. destruct (B _ _ _ _ _ _ E1 E2) as (N & K & X). split; auto. split; auto.
    destruct is_rho; [subst t; reflexivity|]. destruct t; cbn; congruence. }
  destruct (invariant py_float FT H w0 dst is_rho NP NF evs P) as [[I|(d & cv & cr & I & EN)] _]; [congruence|].
  destruct (entries_wf _ _ _ _ _ _ _ _ _ EN) as [V W]. exists d, cv, cr.
  split; [assert (text = dumps (JObj d)) by congruence; subst text; apply loads_dumps; auto|].
  destruct EN as (N & A & B & C). split; auto. split; auto.
  intros k v G N1 N2. destruct (C k v G N1 N2) as (_ & _ & pre & f & t & cv' & cr' & X & NO & K & (F1 & F2 & F3 & F4) & E1 & E2).
  apply INJ in E1. subst cv'. exists pre, f, t. split; auto. split; auto. split.
  - intros ->. specialize (E2 eq_refl). apply INJ in E2. subst cr'. destruct t; try discriminate K. auto.
  - intros ->. destruct t; cbn in K; try congruence; eauto.
Qed.
Print Assumptions C47_history.

Definition ex_float (s : string) : res string :=
  if String.eqb s " 1.5" then Ok "1.5" else if String.eqb s " 2.5" then Ok "2.5" else Raise ValueError.
Lemma ex_float_text s x : ex_float s = Ok x -> float_text x.
Proof.
  assert (D : forall c t, 49 <= nat_of_ascii c <= 57 -> digit_chars t -> int_text (String c t)) by (intros c t C T; right; eauto).
  assert (Q : frac_text ".5") by (right; exists "5"; split; [reflexivity|]; split; [discriminate|]; intros c [<-|[]]; cbn; lia).
  assert (E0 : digit_chars "") by (intros c []).
  unfold ex_float. destruct (String.eqb s " 1.5"); [|destruct (String.eqb s " 2.5"); [|discriminate]]; intros E; inv E; right; right; right.
  - exists "", "1", ".5", "". split; [reflexivity|]. split; auto. split; [apply D; auto; cbn; lia|]. split; auto. split; [left; reflexivity|]. left. discriminate.
  - exists "", "2", ".5", "". split; [reflexivity|]. split; auto. split; [apply D; auto; cbn; lia|]. split; auto. split; [left; reflexivity|]. left. discriminate.
Qed.
Definition ex_w0 : world :=
  mkWorld (fun p => if String.eqb p "/w/data_set_1/parameters/coupled_model.json" then Some "V1"
                    else if String.eqb p "/w/data_set_1/rho_0/parameters/sampling_model.json" then Some "R1"
                    else if String.eqb p "/w/data_set_1/parameters/original_coupled_model.json" then Some "O1" else None) (fun _ => None).
Definition ex_f (v r : string) : fstruct := set_hash_rho (set_hash_vib (build_fs "/" "/w" 1 0) v) r.
Example C47_history_example :
  let evs := [Start 1 (ex_f "V1" "R1") Sampling (beta_of_T 300); Finish 1 "Z_analytical: 1.5" "";
              Start 2 (ex_f "V1" "R1") Sampling (beta_of_T 400);
              Edit "/w/data_set_1/rho_0/parameters/sampling_model.json" (Some "R2");
              Finish 2 "Z_analytical: 2.5" ""] in
  let w := run ex_float ex_w0 evs in
  (forall s x, ex_float s = Ok x -> float_text x) /\
  disciplined ex_float (fun s => s) ex_w0 "/w/data_set_1/rho_0/parameters/analytic_results.json" true evs /\
  (do v <- loads (match files w "/w/data_set_1/rho_0/parameters/analytic_results.json" with Some x => x | None => "" end); Ok v) =
    Ok (JObj [("hash_vib", JStr "V1"); ("hash_rho", JStr "R1"); ("300.00", JObj [("Z_rho", JFloat "1.5")]); ("400.00", JObj [("Z_rho", JFloat "2.5")])]) /\
  let w2 := run ex_float w [Start 3 (ex_f "V1" "R2") Sampling (beta_of_T 350); Finish 3 "Z_analytical: 2.5" ""] in
  (do v <- loads (match files w2 "/w/data_set_1/rho_0/parameters/analytic_results.json" with Some x => x | None => "" end); Ok v) =
    Ok (JObj [("hash_vib", JStr "V1"); ("hash_rho", JStr "R2"); ("350.00", JObj [("Z_rho", JFloat "2.5")])]).
Proof.
  cbv zeta. split; [|split; [|split; vm_compute; reflexivity]].
  - exact ex_float_text.
  - split.
    + intros p c I. cbn in I. repeat destruct I as [I|I]; try discriminate; try tauto. inv I. discriminate.
    + intros pre i f t b post E _.
      destruct pre as [|e1 pre]; [injection E as <- <- <- <- _; split; [discriminate|split; [reflexivity|exists "V1", "R1"; vm_compute; auto]]|].
      injection E as <- E. destruct pre as [|e2 pre]; [discriminate|]. injection E as <- E.
      destruct pre as [|e3 pre]; [injection E as <- <- <- <- _; split; [discriminate|split; [reflexivity|exists "V1", "R1"; vm_compute; auto]]|].
      injection E as <- E. destruct pre as [|e4 pre]; [discriminate|]. injection E as <- E. destruct pre as [|e5 pre]; [discriminate|]. injection E as <- E. destruct pre; discriminate.
Qed.

(** finding: the results for the original model are kept under the hash of the
    coupled model: after a change of the original model the file mixes results of
    both *)
Theorem C47_original_refuted :
  exists evs f dst k1 k2 v1 v2 d pre1 pre2,
    let W l := files (run ex_float ex_w0 l) in
    target f Original = Ok dst /\ (exists cv cr, fresh (fun s => s) (W pre1) f cv cr /\ fresh (fun s => s) (W pre2) f cv cr) /\
    stored (W evs) dst d /\ get d k1 = Some v1 /\ get d k2 = Some v2 /\
    computed ex_float evs dst k1 v1 pre1 f Original /\ W pre1 (source f Original) = Some "O1" /\
    computed ex_float evs dst k2 v2 pre2 f Original /\ W pre2 (source f Original) = Some "O2".
Proof.
  exists [Start 1 (ex_f "V1" "R1") Original (beta_of_T 300); Finish 1 "Z_analytical: 1.5" "";
          Edit "/w/data_set_1/parameters/original_coupled_model.json" (Some "O2");
          Start 2 (ex_f "V1" "R1") Original (beta_of_T 400); Finish 2 "Z_analytical: 2.5" ""],
         (ex_f "V1" "R1"), "/w/data_set_1/parameters/original_analytic_results.json", "300.00", "400.00",
         (JObj [("Z_rho", JFloat "1.5")]), (JObj [("Z_rho", JFloat "2.5")]),
         [("hash_vib", JStr "V1"); ("300.00", JObj [("Z_rho", JFloat "1.5")]); ("400.00", JObj [("Z_rho", JFloat "2.5")])],
         [], [Start 1 (ex_f "V1" "R1") Original (beta_of_T 300); Finish 1 "Z_analytical: 1.5" "";
          Edit "/w/data_set_1/parameters/original_coupled_model.json" (Some "O2")].
  cbv zeta. split; [reflexivity|]. split; [exists "V1", "R1"; vm_compute; auto 10|].
  split. { right. eexists. split; [vm_compute; reflexivity|]. right. split; [vm_compute; lia|]. vm_compute. reflexivity. }
  split; [reflexivity|]. split; [reflexivity|]. split; [|split; [vm_compute; reflexivity|split; [|vm_compute; reflexivity]]].
  - exists 1, (beta_of_T 300), [], "Z_analytical: 1.5", "". eexists. exists [("Z_analytical", " 1.5")], [("Z_rho", JFloat "1.5")]. repeat split; auto; vm_compute; reflexivity.
  - exists 2, (beta_of_T 400), [], "Z_analytical: 2.5", "", [], [("Z_analytical", " 2.5")], [("Z_rho", JFloat "2.5")]. repeat split; auto; vm_compute; reflexivity.
Qed.
(** finding: hashes taken before a change of the model label the results of the
    changed model with the old hash *)
Theorem C47_stale_refuted :
  exists evs f dst k v d pre,
    let W l := files (run ex_float ex_w0 l) in
    (exists cv cr, fresh (fun s => s) (W []) f cv cr) /\ stored (W evs) dst d /\ get d k = Some v /\ get d "hash_vib" = Some (JStr "V1") /\
    computed ex_float evs dst k v pre f (Sos 20) /\ W pre (source f (Sos 20)) = Some "V2".
Proof.
  exists [Edit "/w/data_set_1/parameters/coupled_model.json" (Some "V2"); Start 1 (ex_f "V1" "R1") (Sos 20) (beta_of_T 300); Finish 1 "Z_sos: 1.5" ""],
         (ex_f "V1" "R1"), "/w/data_set_1/parameters/sos_B20.json", "300.00", (JObj [("Z_sos", JFloat "1.5")]),
         [("hash_vib", JStr "V1"); ("300.00", JObj [("Z_sos", JFloat "1.5")])],
         [Edit "/w/data_set_1/parameters/coupled_model.json" (Some "V2")].
  cbv zeta. split; [exists "V1", "R1"; vm_compute; auto 10|].
  split. { right. eexists. split; [vm_compute; reflexivity|]. right. split; [vm_compute; lia|]. vm_compute. reflexivity. }
  split; [reflexivity|]. split; [reflexivity|]. split; [|vm_compute; reflexivity].
  exists 1, (beta_of_T 300), [], "Z_sos: 1.5", "", [], [("Z_sos", " 1.5")], [("Z_sos", JFloat "1.5")]. repeat split; auto; vm_compute; reflexivity.
Qed.
(** finding: of two processes that run at the same time and write the same file,
    the results of the one that ends first are lost *)
Theorem C47_lost_update py_float w f t b1 b2 dst d n1 n2 t1 t2 o1 o2 :
  (forall s x, py_float s = Ok x -> float_text x) ->
  target f t = Ok dst -> stored (files w) dst d -> get d (key_of b1) = None -> key_of b1 <> key_of b2 ->
  parse_output o1 = Ok n1 -> n1 <> [] -> renamed py_float keyDict n1 = Ok t1 ->
  parse_output o2 = Ok n2 -> n2 <> [] -> renamed py_float keyDict n2 = Ok t2 ->
  exists d1 d', stored (files (run py_float w [Start 1 f t b1; Start 2 f t b2; Finish 1 o1 ""])) dst d1 /\ get d1 (key_of b1) = Some (JObj t1) /\
    stored (files (run py_float w [Start 1 f t b1; Start 2 f t b2; Finish 1 o1 ""; Finish 2 o2 ""])) dst d' /\
    get d' (key_of b1) = None /\ get d' (key_of b2) = Some (JObj t2).
Proof.
  intros FT T S G0 NK P1 N1 R1 P2 N2 R2.
  assert (W : valid (JObj d) /\ distinct (JObj d)).
  { destruct S as [[_ ->]|(text & _ & [[_ ->]|[_ L]])]; [cbn; repeat constructor| |eapply loads_wf; eauto]. split; [|apply distinct_obj]; cbn; repeat constructor; intros ? ? []. }
  destruct W as [V D].
  assert (B : begin_run (files w) f t dst = Ok (validate t d f)) by (apply stored_old in S; unfold begin_run; rewrite S; reflexivity).
  assert (EN : forall o n temp b, parse_output o = Ok n -> n <> [] -> renamed py_float keyDict n = Ok temp ->
     end_run py_float f t b (validate t d f) o "" = Ok (dumps (JObj (validate t (dset String.eqb (validate t d f) (key_of b) (JObj temp)) f)))).
  { intros o n temp b P N R. unfold end_run, compute. change (contains "Killed" "") with false. cbv iota. rewrite P. cbn [bind].
    destruct n as [|n0 n]; [congruence|]. unfold convert_keys. rewrite R. reflexivity. }
  set (pr b := mkProc f t b dst (validate t d f)).
  assert (SS : forall w' i b, files w' = files w -> step py_float w' (Start i f t b) = mkWorld (files w) (set_proc (procs w') i (Some (pr b)))).
  { intros w' i b E. cbn [step]. rewrite T, E. cbn [bind]. rewrite B. reflexivity. }
  assert (SF : forall w' i b o n temp, procs w' i = Some (pr b) -> parse_output o = Ok n -> n <> [] -> renamed py_float keyDict n = Ok temp ->
     step py_float w' (Finish i o "") = mkWorld (set_file (files w') dst (Some (dumps (JObj (validate t (dset String.eqb (validate t d f) (key_of b) (JObj temp)) f))))) (set_proc (procs w') i None)).
  { intros w' i b o n temp E P N R. cbn [step]. rewrite E. cbn [pr p_fs p_task p_beta p_dict p_dst]. rewrite (EN o n temp b) by auto. reflexivity. }
  assert (ST : forall fs' b temp n, renamed py_float keyDict n = Ok temp ->
    stored (set_file fs' dst (Some (dumps (JObj (validate t (dset String.eqb (validate t d f) (key_of b) (JObj temp)) f))))) dst
           (validate t (dset String.eqb (validate t d f) (key_of b) (JObj temp)) f)).
  { intros fs' b temp n R. right. eexists. unfold set_file. rewrite String.eqb_refl. split; [reflexivity|]. right.
    split; [unfold dumps; cbn [write]; rewrite !append_length; cbn [String.length]; lia|].
    destruct (merged_wf py_float t d f b temp n FT R V D) as [V' D']. apply loads_dumps; auto. }
  cbn [run fold_left]. rewrite (SS w) by auto. rewrite SS by auto.
  rewrite (SF _ 1 b1 o1 n1 t1) by auto. rewrite (SF _ 2 b2 o2 n2 t2) by auto. cbn [files procs].
  eexists; eexists. split; [eapply ST; eauto|]. split; [apply (merged_get t d f b1 t1)|].
  split; [eapply ST; eauto|]. destruct (merged_get t d f b2 t2) as (_ & G2 & G3). split; [|exact G2].
  assert (NH : ~ In (key_of b1) (hash_names t)). { destruct (key_not_hash b1). destruct t; cbn; intuition congruence. }
  destruct (G3 _ NK NH) as [X Y]. destruct (carries_b t d f) eqn:CB.
  - apply carries_b_spec in CB. rewrite (X CB). exact G0.
  - apply Y. intros C. apply carries_b_spec in C. congruence.
Qed.
Print Assumptions C47_lost_update.
Example C47_lost_update_example :
  renamed ex_float keyDict [("Z_sos", " 1.5")] = Ok [("Z_sos", JFloat "1.5")] /\ key_of (beta_of_T 300) <> key_of (beta_of_T 400) /\
  files (run ex_float ex_w0 [Start 1 (ex_f "V1" "R1") (Sos 20) (beta_of_T 300); Start 2 (ex_f "V1" "R1") (Sos 20) (beta_of_T 400); Finish 1 "Z_sos: 1.5" ""; Finish 2 "Z_sos: 2.5" ""])
    "/w/data_set_1/parameters/sos_B20.json" = Some (dumps (JObj [("hash_vib", JStr "V1"); ("400.00", JObj [("Z_sos", JFloat "2.5")])])).
Proof. split; [reflexivity|]. split; [vm_compute; discriminate|]. vm_compute. reflexivity. Qed.
