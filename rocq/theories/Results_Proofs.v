From Coq Require Import QArith Permutation.
From Verif Require Import Common Common_Proofs PyStr_Model PyStr_Proofs FileName_Model FileName_Proofs FileStruct_Model Results_Model.
Local Open Scope string_scope.
Local Open Scope list_scope.
Local Open Scope nat_scope.

(** ---- what the files hold, independently of the loader ---- *)
Definition arr (sel : npz -> option (list fl)) (fs : files) (p : string) : list fl :=
  match fs p with Some z => match sel z with Some l => l | None => [] end | None => [] end.
Definition size (fs : files) (p : string) : nat :=
  match fs p with Some z => match z_samples z with Some n => n | None => 0 end | None => 0 end.
Definition cat (sel : npz -> option (list fl)) (fs : files) (ps : list string) : list fl := flat_map (arr sel fs) ps.
Definition total (fs : files) (ps : list string) : nat := list_sum (map (size fs) ps).
(** has every required key *)
Definition complete (pm : bool) (z : npz) : bool :=
  match z_samples z, z_rho z, z_g z, z_gp z, z_gm z with
  | Some _, Some _, Some _, Some _, Some _ => true
  | Some _, Some _, Some _, _, _ => negb pm
  | _, _, _, _, _ => false
  end.
Definition good (pm : bool) (fs : files) (p : string) : bool :=
  match fs p with Some z => complete pm z | None => false end.
(** the arrays have as many entries as the file says *)
Definition consistent (pm : bool) (fs : files) (p : string) : Prop :=
  length (arr z_rho fs p) = size fs p /\ length (arr z_g fs p) = size fs p /\
  (pm = true -> length (arr z_gp fs p) = size fs p /\ length (arr z_gm fs p) = size fs p).
Definition nonzero (fs : files) (p : string) : Prop := forall q, In (Num q) (arr z_rho fs p) -> ~ (q == 0)%Q.
(** list(set(l)): every element once, in any order *)
Definition set_list (set_order : list string -> list string) : Prop :=
  forall l, NoDup (set_order l) /\ forall p, In p (set_order l) <-> In p l.

Lemma complete_keys pm z : keys_present pm z = complete pm z.
Proof. unfold keys_present, complete. destruct pm, (z_samples z), (z_rho z), (z_g z), (z_gp z), (z_gm z); auto. Qed.

Lemma nonzero_existsb fs p : nonzero fs p <-> existsb is_zero (arr z_rho fs p) = false.
Proof.
  unfold nonzero. split.
  - intros H. destruct (existsb is_zero (arr z_rho fs p)) eqn:E; auto. apply existsb_exists in E. destruct E as ([|q] & Hx & E); [discriminate|].
    exfalso. apply (H q Hx). apply Qeq_bool_iff, E.
  - intros H q Hq E. assert (existsb is_zero (arr z_rho fs p) = true); [|congruence]. apply existsb_exists. exists (Num q). split; auto. apply Qeq_bool_iff, E.
Qed.

Lemma good_file pm fs p : good pm fs p = true ->
  exists z, fs p = Some z /\ z_samples z = Some (size fs p) /\ z_rho z = Some (arr z_rho fs p) /\ z_g z = Some (arr z_g fs p) /\
    (pm = true -> z_gp z = Some (arr z_gp fs p) /\ z_gm z = Some (arr z_gm fs p)).
Proof.
  unfold good, size, arr. destruct (fs p) as [z|]; [|discriminate]. rewrite <- complete_keys. unfold keys_present. intros H. exists z.
  destruct (z_samples z), (z_rho z), (z_g z); simpl in H; try discriminate. do 4 (split; auto).
  intros ->. simpl in H. destruct (z_gp z), (z_gm z); try discriminate. auto.
Qed.

Lemma cat_app sel fs a b : cat sel fs (a ++ b) = cat sel fs a ++ cat sel fs b.
Proof. apply flat_map_app. Qed.
Lemma total_app fs a b : total fs (a ++ b) = total fs a + total fs b.
Proof. unfold total. rewrite map_app, list_sum_app. auto. Qed.
Lemma cat_length sel fs ps : (forall p, In p ps -> length (arr sel fs p) = size fs p) -> length (cat sel fs ps) = total fs ps.
Proof.
  induction ps as [|p ps IH]; intros H; auto. unfold cat, total in *. cbn [flat_map map list_sum]. rewrite app_length, IH.
  - rewrite H by (left; auto). auto.
  - intros q Hq. apply H. right. auto.
Qed.


Lemma assign_fits pre src rest n start len :
  length pre = start -> length src = len -> n = len + rest ->
  assign_slice (pre ++ nans n) start len src = Ok (pre ++ src ++ nans rest).
Proof.
  intros Hp Hs ->. unfold assign_slice, nans. rewrite app_length, repeat_length, Hp.
  replace (Nat.min (start + len) (start + (len + rest)) - Nat.min start (start + (len + rest))) with len by lia.
  rewrite Hs, Nat.eqb_refl. f_equal. f_equal.
  - rewrite firstn_app, Hp, Nat.sub_diag. cbn [firstn]. rewrite app_nil_r, <- Hp. apply firstn_all.
  - f_equal. rewrite skipn_app. rewrite (skipn_all2 pre) by lia. rewrite Hp. cbn [app].
    replace (start + len - start) with len by lia. rewrite repeat_app, skipn_app, repeat_length, Nat.sub_diag.
    rewrite skipn_all2 by (rewrite repeat_length; lia). auto.
Qed.

Lemma assign_mismatch target start len src :
  length src <> Nat.min (start + len) (length target) - Nat.min start (length target) -> length src <> 1 ->
  assign_slice target start len src = Raise ValueError.
Proof.
  intros H1 H2. unfold assign_slice. destruct (Nat.eqb_spec (length src) (Nat.min (start + len) (length target) - Nat.min start (length target))); [tauto|].
  destruct src as [|x [|y s]]; auto. simpl in H2. lia.
Qed.

(** ---- the first pass ---- *)
Lemma scan_spec pm fs paths : forall n bad,
  (forall p, In p paths -> fs p <> None) ->
  scan pm fs paths n bad =
    Ok (if existsb (good pm fs) paths then NpInt (count_value n + total fs (filter (good pm fs) paths)) else n,
        bad ++ filter (fun p => negb (good pm fs p)) paths).
Proof.
  induction paths as [|p ps IH]; intros n bad H; cbn [scan].
  - cbn. rewrite app_nil_r. auto.
  - unfold np_load. destruct (fs p) as [z|] eqn:E; [|exfalso; apply (H p); [left|]; auto]. cbn [bind].
    assert (good pm fs p = keys_present pm z) as Hg by (unfold good; rewrite E, complete_keys; auto).
    cbn [existsb filter]. rewrite Hg. destruct (keys_present pm z) eqn:K; cbn [negb orb].
    + destruct (good_file pm fs p) as (z' & E' & Hn & _); [congruence|]. rewrite E in E'. inv E'. rewrite Hn. cbn [entry bind].
      rewrite IH by (intros; apply H; right; auto). cbn [count_value]. unfold total. cbn [map list_sum fold_right].
      fold (list_sum (map (size fs) (filter (good pm fs) ps))).
      destruct (existsb (good pm fs) ps) eqn:X.
      * rewrite Nat.add_assoc. auto.
      * assert (filter (good pm fs) ps = []) as ->.
        { clear -X. induction ps; auto. simpl in *. apply orb_false_iff in X. destruct X as [-> X]. auto. }
        cbn. rewrite Nat.add_0_r. auto.
    + rewrite IH by (intros; apply H; right; auto). rewrite <- app_assoc. auto.
Qed.

Lemma scan_missing pm fs paths : forall n bad, (exists p, In p paths /\ fs p = None) -> scan pm fs paths n bad = Raise OSError.
Proof.
  induction paths as [|p ps IH]; intros n bad (q & Hq & Hf); [destruct Hq|]. cbn [scan]. unfold np_load.
  destruct (fs p) as [z|] eqn:E; cbn [bind]; auto.
  assert (exists q, In q ps /\ fs q = None) as Hx.
  { exists q. destruct Hq as [->|]; [congruence|auto]. }
  destruct (keys_present pm z) eqn:K; [|auto].
  unfold keys_present in K. destruct (z_samples z); [|discriminate]. cbn [entry bind]. auto.
Qed.

Lemma mem_In p l : mem p l = true <-> In p l.
Proof.
  unfold mem. rewrite existsb_exists. split.
  - intros (x & Hx & E). apply String.eqb_eq in E. subst. auto.
  - intros H. exists p. split; auto. apply String.eqb_refl.
Qed.

Lemma filter_not_bad pm fs paths :
  filter (fun p => negb (mem p (filter (fun p => negb (good pm fs p)) paths))) paths = filter (good pm fs) paths.
Proof.
  apply filter_ext_in. intros p Hp. destruct (good pm fs p) eqn:E.
  - destruct (mem p _) eqn:M; auto. apply mem_In, filter_In in M. rewrite E in M. destruct M; discriminate.
  - assert (mem p (filter (fun p => negb (good pm fs p)) paths) = true) as ->; auto.
    apply mem_In, filter_In. rewrite E. auto.
Qed.

(** ---- the second pass ---- *)
(** a selector of the arrays of a result, with the entry it comes from *)
Definition filled (pm : bool) (fs : files) (ps : list string) (rest : nat) (r : result) : Prop :=
  r_rho r = cat z_rho fs ps ++ nans rest /\ r_g r = cat z_g fs ps ++ nans rest /\
  (if pm then r_gp r = cat z_gp fs ps ++ nans rest /\ r_gm r = cat z_gm fs ps ++ nans rest else r_gp r = [] /\ r_gm r = []).

Lemma existsb_firstn {A} (f : A -> bool) l n : existsb f l = false -> existsb f (firstn n l) = false.
Proof.
  revert n. induction l as [|a l IH]; intros [|n]; auto. cbn. intros H. apply orb_false_iff in H. destruct H as [-> H]. simpl. auto.
Qed.

(** one file that fits entirely *)
Lemma fill_step pm fs p ps done desired rest r :
  good pm fs p = true -> consistent pm fs p -> nonzero fs p ->
  (forall q, In q done -> consistent pm fs q) ->
  total fs done < desired -> size fs p <= desired ->
  filled pm fs done (size fs p + rest) r ->
  exists r', r_samples r' = r_samples r /\ r_hash_vib r' = r_hash_vib r /\ r_hash_rho r' = r_hash_rho r /\ filled pm fs (done ++ [p]) rest r' /\
    fill pm fs (p :: ps) desired (total fs done) r = fill pm fs ps desired (total fs (done ++ [p])) r'.
Proof.
  intros Hg (C1 & C2 & C3) Hz Hd Hs Hp (F1 & F2 & F3). destruct (good_file pm fs p Hg) as (z & E & E1 & E2 & E3 & E4).
  cbn [fill]. destruct (Nat.leb_spec desired (total fs done)); [lia|]. unfold np_load. rewrite E. cbn [bind].
  rewrite E1. cbn [entry bind]. rewrite E2. cbn [entry bind]. rewrite (Nat.min_l (size fs p)) by lia.
  rewrite (existsb_firstn is_zero) by (apply nonzero_existsb; exact Hz). rewrite E3. cbn [entry bind].
  rewrite !(firstn_all2 (n := size fs p)) by lia.
  assert (forall sel, (forall q, In q done -> length (arr sel fs q) = size fs q) -> length (arr sel fs p) = size fs p ->
    assign_slice (cat sel fs done ++ nans (size fs p + rest)) (total fs done) (size fs p) (arr sel fs p) = Ok (cat sel fs (done ++ [p]) ++ nans rest)) as A.
  { intros sel H1 H2. rewrite (assign_fits _ _ rest) by (auto using cat_length).
    rewrite cat_app, <- app_assoc. unfold cat at 3. cbn [flat_map]. rewrite app_nil_r. auto. }
  rewrite F1, F2. rewrite A by (try apply C2; intros; apply Hd; auto). cbn [bind].
  rewrite A by (try apply C1; intros; apply Hd; auto). cbn [bind].
  assert (total fs (done ++ [p]) = total fs done + size fs p) as ET.
  { rewrite total_app. unfold total at 2. cbn. lia. }
  destruct pm.
  - destruct F3 as [F3 F4]. destruct (E4 eq_refl) as [E5 E6]. destruct (C3 eq_refl) as [C5 C6]. rewrite E5, E6. cbn [entry bind].
    rewrite !(firstn_all2 (n := size fs p)) by lia. rewrite F3, F4. rewrite A by (try apply C5; intros; apply Hd; auto). cbn [bind].
    rewrite A by (try apply C6; intros; apply Hd; auto). cbn [bind].
    rewrite ET. eexists. split; [|split; [|split; [|split; [|reflexivity]]]]; auto. unfold filled. cbn. auto.
  - cbn [bind]. rewrite ET. eexists. split; [|split; [|split; [|split; [|reflexivity]]]]; auto. unfold filled. cbn. auto.
Qed.

Definition usable (pm : bool) (fs : files) (p : string) : Prop := good pm fs p = true /\ consistent pm fs p /\ nonzero fs p.

(** all remaining files fit *)
Lemma fill_all pm fs ps : forall done desired rest r,
  (forall q, In q (done ++ ps) -> usable pm fs q) ->
  total fs (done ++ ps) <= desired -> filled pm fs done (total fs ps + rest) r ->
  exists r', r_samples r' = r_samples r /\ r_hash_vib r' = r_hash_vib r /\ r_hash_rho r' = r_hash_rho r /\ filled pm fs (done ++ ps) rest r' /\
    fill pm fs ps desired (total fs done) r = Ok r'.
Proof.
  induction ps as [|p ps IH]; intros done desired rest r Hu Ht Hf.
  - exists r. rewrite app_nil_r. cbn in Hf. auto.
  - assert (total fs (p :: ps) = size fs p + total fs ps) as EP by reflexivity.
    assert (done ++ p :: ps = (done ++ [p]) ++ ps) as EA by (rewrite <- app_assoc; auto).
    rewrite total_app, EP in Ht.
    destruct (Nat.le_gt_cases desired (total fs done)) as [L|L].
    + (* only empty files remain *)
      assert (total fs (p :: ps) = 0) as Z by lia.
      assert (forall sel, (forall q, In q (p :: ps) -> length (arr sel fs q) = size fs q) -> cat sel fs (p :: ps) = []) as CZ.
      { intros sel H. apply length_zero_iff_nil. rewrite cat_length; auto. }
      exists r. do 3 (split; [reflexivity|]). split.
      * destruct Hf as (F1 & F2 & F3). rewrite Z in *. cbn [Nat.add] in *.
        assert (forall q, In q (p :: ps) -> consistent pm fs q) as HC.
        { intros q Hq. apply Hu. apply in_app_iff. auto. }
        unfold filled. rewrite !cat_app. rewrite (CZ z_rho), (CZ z_g) by (intros q Hq; apply (HC q Hq)). rewrite !app_nil_r. split; auto. split; auto.
        destruct pm; auto. rewrite (CZ z_gp), (CZ z_gm) by (intros q Hq; apply (HC q Hq); auto). rewrite !app_nil_r. auto.
      * cbn [fill]. destruct (Nat.leb_spec desired (total fs done)); [auto|lia].
    + assert (usable pm fs p) as (U1 & U2 & U3) by (apply Hu; apply in_app_iff; right; left; auto).
      destruct (fill_step pm fs p ps done desired (total fs ps + rest) r) as (r1 & S1 & S2 & S3 & S4 & S5); auto; try lia.
      { intros q Hq. apply Hu. apply in_app_iff. auto. }
      { rewrite Nat.add_assoc. rewrite EP in Hf. auto. }
      destruct (IH (done ++ [p]) desired rest r1) as (r2 & T1 & T2 & T3 & T4 & T5); auto.
      { rewrite <- EA. auto. }
      { rewrite <- EA, total_app, EP. lia. }
      exists r2. rewrite S5, EA. repeat split; try congruence; try apply T4.
Qed.

(** a zero in rho of a file that is read *)
Lemma fill_zero pm fs ps : forall done desired rest r,
  (forall q, In q (done ++ ps) -> good pm fs q = true /\ consistent pm fs q) -> (forall q, In q done -> nonzero fs q) ->
  (exists q, In q ps /\ ~ nonzero fs q) ->
  total fs (done ++ ps) <= desired -> filled pm fs done (total fs ps + rest) r ->
  fill pm fs ps desired (total fs done) r = Raise AssertionError.
Proof.
  induction ps as [|p ps IH]; intros done desired rest r Hu Hn (q & Hq & Hz) Ht Hf; [destruct Hq|].
  assert (total fs (p :: ps) = size fs p + total fs ps) as EP by reflexivity.
  assert (done ++ p :: ps = (done ++ [p]) ++ ps) as EA by (rewrite <- app_assoc; auto).
  rewrite total_app, EP in Ht.
  assert (forall s, In s (p :: ps) -> good pm fs s = true /\ consistent pm fs s) as HC.
  { intros s Hs. apply Hu. apply in_app_iff. auto. }
  assert (0 < size fs q) as Hpos.
  { destruct (HC q Hq) as (_ & C1 & _). destruct (size fs q) eqn:E; [|lia]. exfalso. apply Hz. apply nonzero_existsb.
    apply length_zero_iff_nil in C1. rewrite C1. auto. }
  assert (forall l, In q l -> size fs q <= total fs l) as HLE.
  { induction l as [|x l IHl]; [intros []|]. intros [->|H]; unfold total in *; cbn; [lia|]. specialize (IHl H). unfold list_sum in *. lia. }
  pose proof (HLE _ Hq) as HL. rewrite EP in HL.
  destruct (existsb is_zero (arr z_rho fs p)) eqn:Z.
  - destruct (HC p (or_introl eq_refl)) as [G (C1 & C2 & _)]. destruct (good_file pm fs p G) as (z & E & E1 & E2 & _).
    cbn [fill]. destruct (Nat.leb_spec desired (total fs done)); [lia|]. unfold np_load. rewrite E. cbn [bind].
    rewrite E1. cbn [entry bind]. rewrite E2. cbn [entry bind]. rewrite (Nat.min_l (size fs p)) by lia.
    rewrite (firstn_all2 (n := size fs p)) by lia. rewrite Z. auto.
  - assert (q <> p) as Hqp by (intros ->; apply Hz, nonzero_existsb; exact Z).
    destruct (HC p (or_introl eq_refl)) as [G C]. apply nonzero_existsb in Z.
    destruct (fill_step pm fs p ps done desired (total fs ps + rest) r) as (r1 & S1 & S2 & S3 & S4 & S5); auto; try lia.
    { intros s Hs. apply Hu. apply in_app_iff. auto. }
    { rewrite Nat.add_assoc. rewrite EP in Hf. auto. }
    rewrite S5. apply (IH (done ++ [p]) desired rest); auto.
    + rewrite <- EA. auto.
    + intros s Hs. apply in_app_iff in Hs. destruct Hs as [Hs|[<-|[]]]; auto.
    + exists q. split; auto. destruct Hq; [congruence|auto].
    + rewrite <- EA, total_app, EP. lia.
Qed.

Lemma set_list_perm set_order l : set_list set_order -> NoDup l -> Permutation (set_order l) l.
Proof. intros H Hl. destruct (H l) as [H1 H2]. apply NoDup_Permutation; auto. Qed.

Lemma total_perm fs a b : Permutation a b -> total fs a = total fs b.
Proof.
  unfold total. induction 1; cbn [map list_sum fold_right]; auto; unfold list_sum in *; try lia.
Qed.

Lemma init_filled pm fs n r0 : filled pm fs [] (count_value n)
  (initialize_arrays pm {| r_samples := n; r_hash_vib := r_hash_vib r0; r_hash_rho := r_hash_rho r0; r_rho := []; r_g := []; r_gp := []; r_gm := [] |}).
Proof. unfold filled, initialize_arrays. cbn. destruct pm; auto. Qed.

Section Multi.
  Variable set_order : list string -> list string.
  Hypothesis Hset : set_list set_order.
  Variables (pm : bool) (fs : files) (paths : list string).
  Hypothesis Hfiles : forall p, In p paths -> fs p <> None.

  Let goods := set_order (filter (good pm fs) paths).

  Lemma In_goods p : In p goods <-> In p paths /\ good pm fs p = true.
  Proof. unfold goods. rewrite (proj2 (Hset _)), filter_In. tauto. Qed.

  (** the call once the files are known to exist and one has all keys *)
  Lemma load_unfold desired r :
    (exists p, In p paths /\ good pm fs p = true) ->
    let avail := total fs (filter (good pm fs) paths) in
    load_multiple_results set_order pm fs paths desired r =
      fill pm fs goods (match desired with None => avail | Some d => d end) (total fs [])
        (initialize_arrays pm {| r_samples := match desired with None => NpInt avail | Some d => if d <=? avail then PyInt d else NpInt avail end;
           r_hash_vib := r_hash_vib r; r_hash_rho := r_hash_rho r; r_rho := []; r_g := []; r_gp := []; r_gm := [] |}).
  Proof.
    intros (p & Hp & Hg) avail. unfold load_multiple_results.
    destruct (Nat.eqb_spec (length paths) 0) as [E|E]; [apply length_zero_iff_nil in E; subst; destruct Hp|].
    rewrite scan_spec by auto. cbn [bind app]. rewrite filter_not_bad. fold goods.
    assert (In p goods) as Hin by (apply In_goods; auto).
    destruct (Nat.eqb_spec (length goods) 0) as [E'|E']; [apply length_zero_iff_nil in E'; rewrite E' in Hin; destruct Hin|].
    assert (existsb (good pm fs) paths = true) as -> by (apply existsb_exists; eauto).
    cbn [is_0 count_value Nat.add]. fold avail. auto.
  Qed.

  Theorem pool_all r :
    NoDup paths -> (exists p, In p paths /\ good pm fs p = true) ->
    (forall p, In p paths -> good pm fs p = true -> consistent pm fs p /\ nonzero fs p) ->
    exists order r', Permutation order (filter (good pm fs) paths) /\
      load_multiple_results set_order pm fs paths None r = Ok r' /\
      count_value (r_samples r') = total fs order /\ r_hash_vib r' = r_hash_vib r /\ r_hash_rho r' = r_hash_rho r /\
      r_rho r' = cat z_rho fs order /\ r_g r' = cat z_g fs order /\
      (pm = true -> r_gp r' = cat z_gp fs order /\ r_gm r' = cat z_gm fs order).
  Proof.
    intros Hnd Hex Hok. exists goods.
    assert (Permutation goods (filter (good pm fs) paths)) as HP by (apply set_list_perm; auto; apply NoDup_filter; auto).
    set (avail := total fs (filter (good pm fs) paths)).
    assert (total fs goods = avail) as HT by (apply total_perm; auto).
    rewrite (load_unfold None r Hex).
    destruct (fill_all pm fs goods [] avail 0
      (initialize_arrays pm {| r_samples := NpInt avail; r_hash_vib := r_hash_vib r; r_hash_rho := r_hash_rho r; r_rho := []; r_g := []; r_gp := []; r_gm := [] |}))
      as (r' & S1 & S2 & S3 & (F1 & F2 & F3) & S5).
    - intros q Hq. apply In_goods in Hq. destruct Hq as [Hq Hg]. destruct (Hok q Hq Hg). split; auto.
    - cbn [app]. lia.
    - rewrite HT, Nat.add_0_r. apply (init_filled pm fs (NpInt avail)).
    - exists r'. cbv zeta. split; auto. split; [exact S5|]. cbn in F1, F2. rewrite app_nil_r in F1, F2.
      split; [rewrite S1, HT; auto|]. split; auto. split; auto. split; auto. split; auto. intros ->. cbn in F3. rewrite !app_nil_r in F3. auto.
  Qed.

  Theorem pool_zero r :
    NoDup paths ->
    (forall p, In p paths -> good pm fs p = true -> consistent pm fs p) ->
    (exists p q, In p paths /\ good pm fs p = true /\ In (Num q) (arr z_rho fs p) /\ (q == 0)%Q) ->
    load_multiple_results set_order pm fs paths None r = Raise AssertionError.
  Proof.
    intros Hnd Hok (p & q0 & Hp & Hg & Hz & Hz0). rewrite load_unfold by eauto. cbv zeta.
    set (avail := total fs (filter (good pm fs) paths)).
    assert (total fs goods = avail) as HT by (apply total_perm; apply set_list_perm; auto; apply NoDup_filter; auto).
    apply (fill_zero pm fs goods [] avail 0).
    - intros q Hq. apply In_goods in Hq. destruct Hq as [Hq Hqg]. split; auto.
    - intros q [].
    - exists p. split; [apply In_goods; auto|]. intros N. apply (N q0); auto.
    - cbn [app]. lia.
    - rewrite HT, Nat.add_0_r. apply (init_filled pm fs (NpInt avail)).
  Qed.

  Theorem pool_no_good desired r :
    (forall p, In p paths -> good pm fs p = false) -> load_multiple_results set_order pm fs paths desired r = Raise AssertionError.
  Proof.
    intros H. unfold load_multiple_results. destruct (length paths =? 0); auto. rewrite scan_spec by auto. cbn [bind app].
    rewrite filter_not_bad. fold goods.
    assert (goods = []) as ->; auto.
    destruct goods as [|x l] eqn:E; auto. assert (In x goods) as Hx by (rewrite E; left; auto).
    apply In_goods in Hx. rewrite H in Hx by tauto. destruct Hx; discriminate.
  Qed.

  (** ---- capped loading ---- *)
  (** the sizes of the files in the order read leave no file to be cut, except
      possibly the first non-empty one *)
  Fixpoint fits (D start : nat) (sizes : list nat) : bool :=
    match sizes with
    | [] => true
    | n :: ns => if D <=? start then true
                 else if (start =? 0) && (D <=? n) then true
                 else if start + n <=? D then fits D (start + n) ns else false
    end.

  Lemma total_snoc l p : total fs (l ++ [p]) = total fs l + size fs p.
  Proof. rewrite total_app. unfold total at 2. cbn. lia. Qed.

  Lemma firstn_cat sel D a b : (forall q, In q a -> length (arr sel fs q) = size fs q) -> D <= total fs a ->
    firstn D (cat sel fs (a ++ b)) = firstn D (cat sel fs a).
  Proof.
    intros H HD. rewrite cat_app, firstn_app, cat_length by auto. replace (D - total fs a) with 0 by lia. cbn. apply app_nil_r.
  Qed.

  Definition capped (D : nat) (ps : list string) (r : result) : Prop :=
    r_rho r = firstn D (cat z_rho fs ps) /\ r_g r = firstn D (cat z_g fs ps) /\
    (pm = true -> r_gp r = firstn D (cat z_gp fs ps) /\ r_gm r = firstn D (cat z_gm fs ps)).

  (** length of the result arrays: min D (everything) *)
  Lemma fill_capped ps : forall done D r,
    (forall q, In q (done ++ ps) -> usable pm fs q) ->
    filled pm fs done (Nat.min D (total fs (done ++ ps)) - total fs done) r -> total fs done <= D ->
    if fits D (total fs done) (map (size fs) ps)
    then exists r', fill pm fs ps D (total fs done) r = Ok r' /\ r_samples r' = r_samples r /\ capped D (done ++ ps) r'
    else fill pm fs ps D (total fs done) r = Raise ValueError.
  Proof.
    induction ps as [|p ps IH]; intros done D r Hu Hf Hd.
    - cbn [map fits fill]. exists r. do 2 (split; auto). rewrite app_nil_r in *. rewrite Nat.min_r in Hf by lia. rewrite Nat.sub_diag in Hf.
      assert (forall q, In q done -> consistent pm fs q) as HC by (intros; apply Hu; auto).
      assert (forall sel, (forall q, In q done -> length (arr sel fs q) = size fs q) -> firstn D (cat sel fs done) = cat sel fs done) as FA.
      { intros. apply firstn_all2. rewrite cat_length; auto. }
      destruct Hf as (F1 & F2 & F3). unfold capped. cbn [nans repeat] in *. rewrite app_nil_r in *.
      rewrite !FA by (intros q Hq; apply (HC q Hq)). split; auto. split; auto. intros ->.
      rewrite !app_nil_r in F3. rewrite !FA by (intros q Hq; apply (HC q Hq); auto). auto.
    - assert (total fs (p :: ps) = size fs p + total fs ps) as EP by reflexivity.
      assert (done ++ p :: ps = (done ++ [p]) ++ ps) as EA by (rewrite <- app_assoc; auto).
      assert (forall q, In q done -> consistent pm fs q) as HCd by (intros; apply Hu; apply in_app_iff; auto).
      assert (usable pm fs p) as (U1 & U2 & U3) by (apply Hu; apply in_app_iff; right; left; auto).
      rewrite total_app, EP in Hf. cbn [map fits].
      destruct (Nat.leb_spec D (total fs done)) as [L|L].
      + (* enough already *)
        exists r. cbn [fill]. destruct (Nat.leb_spec D (total fs done)); [|lia]. do 2 (split; auto).
        assert (D = total fs done) as -> by lia. rewrite Nat.min_l in Hf by lia. rewrite Nat.sub_diag in Hf.
        destruct Hf as (F1 & F2 & F3). cbn [nans repeat] in *. rewrite app_nil_r in *.
        assert (forall sel, (forall q, In q done -> length (arr sel fs q) = size fs q) -> firstn (total fs done) (cat sel fs (done ++ p :: ps)) = cat sel fs done) as FA.
        { intros sel H0. rewrite firstn_cat by auto. apply firstn_all2. rewrite cat_length; auto. }
        unfold capped. rewrite !FA by (intros q Hq; apply (HCd q Hq)). split; auto. split; auto. intros ->. rewrite !app_nil_r in F3.
        rewrite !FA by (intros q Hq; apply (HCd q Hq); auto). auto.
      + destruct (Nat.eqb_spec (total fs done) 0) as [Z|Z]; destruct (Nat.leb_spec D (size fs p)) as [LP|LP]; cbn [andb].
        * (* the first non-empty file alone is enough *)
          destruct (good_file pm fs p U1) as (z & E & E1 & E2 & E3 & E4). destruct U2 as (C1 & C2 & C3).
          assert (forall sel, (forall q, In q done -> length (arr sel fs q) = size fs q) -> cat sel fs done = []) as CZ.
          { intros sel H. apply length_zero_iff_nil. rewrite cat_length; auto. }
          destruct Hf as (F1 & F2 & F3). rewrite Nat.min_l in F1, F2, F3 by lia. rewrite Z in *. rewrite Nat.sub_0_r in *.
          rewrite (CZ z_rho) in F1 by (intros q Hq; apply (HCd q Hq)). rewrite (CZ z_g) in F2 by (intros q Hq; apply (HCd q Hq)). cbn [app] in F1, F2.
          assert (forall l, length l = size fs p -> assign_slice (nans D) 0 D (firstn D l) = Ok (firstn D l)) as A.
          { intros l Hl. rewrite <- (app_nil_l (nans D)). rewrite (assign_fits [] (firstn D l) 0); auto; try lia.
            - cbn. rewrite app_nil_r. auto.
            - rewrite firstn_length. lia. }
          assert (forall sel, (forall q, In q (done ++ [p]) -> length (arr sel fs q) = size fs q) -> firstn D (cat sel fs (done ++ p :: ps)) = firstn D (arr sel fs p)) as FA.
          { intros sel H. rewrite EA, firstn_cat.
            - rewrite cat_app, CZ by (intros; apply H; apply in_app_iff; auto). unfold cat. cbn [app flat_map]. rewrite app_nil_r. auto.
            - auto.
            - rewrite total_snoc. lia. }
          assert (forall q, In q (done ++ [p]) -> consistent pm fs q) as HC'.
          { intros q Hq. apply in_app_iff in Hq. destruct Hq as [Hq|[<-|[]]]; auto. split; auto. }
          cbn [fill]. destruct (Nat.leb_spec D 0); [lia|]. unfold np_load. rewrite E. cbn [bind]. rewrite E1. cbn [entry bind].
          rewrite E2. cbn [entry bind]. rewrite (Nat.min_r (size fs p)) by lia. rewrite (existsb_firstn is_zero) by (apply nonzero_existsb; exact U3). rewrite E3. cbn [entry bind].
          rewrite F1, F2. rewrite !A by auto. cbn [bind].
          assert (forall r', fill pm fs ps D (0 + D) r' = Ok r') as FE.
          { intros r'. destruct ps; cbn [fill]; auto. destruct (Nat.leb_spec D (0 + D)); [auto|lia]. }
          destruct pm eqn:EPM.
          -- destruct (E4 eq_refl) as [E5 E6]. destruct (C3 eq_refl) as [C5 C6]. destruct F3 as [F3 F4]. rewrite E5, E6. cbn [entry bind].
             rewrite (CZ z_gp) in F3 by (intros q Hq; apply (HCd q Hq); auto). rewrite (CZ z_gm) in F4 by (intros q Hq; apply (HCd q Hq); auto). cbn [app] in F3, F4.
             rewrite F3, F4. rewrite !A by auto. cbn [bind]. rewrite FE. eexists. split; [reflexivity|]. split; [auto|]. unfold capped. cbn [r_rho r_g r_gp r_gm].
             rewrite !FA; auto; intros q Hq; apply (HC' q Hq); auto.
          -- cbn [bind]. rewrite FE. eexists. split; [reflexivity|]. split; [auto|]. unfold capped. cbn [r_rho r_g r_gp r_gm].
             rewrite (FA z_rho), (FA z_g) by (intros q Hq; apply (HC' q Hq)). repeat split; congruence.
        * (* fits *)
          destruct (Nat.leb_spec (total fs done + size fs p) D) as [LF|LF]; [|lia].
          destruct (fill_step pm fs p ps done D (Nat.min D (total fs done + (size fs p + total fs ps)) - total fs done - size fs p) r)
            as (r1 & S1 & S2 & S3 & S4 & S5); auto; try lia.
          { replace (size fs p + (Nat.min D (total fs done + (size fs p + total fs ps)) - total fs done - size fs p))
              with (Nat.min D (total fs done + (size fs p + total fs ps)) - total fs done) by lia. auto. }
          specialize (IH (done ++ [p]) D r1). rewrite <- EA in IH. specialize (IH Hu). rewrite total_snoc in *.
          rewrite S5. destruct (fits D (total fs done + size fs p) (map (size fs) ps)).
          -- destruct IH as (r' & I1 & I2 & I3); try lia.
             { rewrite total_app, EP. replace (Nat.min D (total fs done + (size fs p + total fs ps)) - (total fs done + size fs p))
                 with (Nat.min D (total fs done + (size fs p + total fs ps)) - total fs done - size fs p) by lia. auto. }
             exists r'. split; auto. split; [congruence|auto].
          -- apply IH; try lia. rewrite total_app, EP. replace (Nat.min D (total fs done + (size fs p + total fs ps)) - (total fs done + size fs p))
                 with (Nat.min D (total fs done + (size fs p + total fs ps)) - total fs done - size fs p) by lia. auto.
        * (* cut: larger than the cap *)
          destruct (Nat.leb_spec (total fs done + size fs p) D) as [LF|LF]; [lia|].
          destruct (good_file pm fs p U1) as (z & E & E1 & E2 & E3 & E4). destruct U2 as (C1 & C2 & C3).
          destruct Hf as (F1 & F2 & F3).
          cbn [fill]. destruct (Nat.leb_spec D (total fs done)); [lia|]. unfold np_load. rewrite E. cbn [bind]. rewrite E1. cbn [entry bind].
          rewrite E2. cbn [entry bind]. rewrite (existsb_firstn is_zero) by (apply nonzero_existsb; exact U3). rewrite E3. cbn [entry bind].
          rewrite F2. rewrite assign_mismatch; auto; rewrite ?app_length, ?firstn_length, ?cat_length by (intros q Hq; apply (HCd q Hq)); unfold nans; rewrite ?repeat_length; lia.
        * (* either fits or is cut *)
          destruct (Nat.leb_spec (total fs done + size fs p) D) as [LF|LF].
          -- destruct (fill_step pm fs p ps done D (Nat.min D (total fs done + (size fs p + total fs ps)) - total fs done - size fs p) r)
            as (r1 & S1 & S2 & S3 & S4 & S5); auto; try lia.
             { replace (size fs p + (Nat.min D (total fs done + (size fs p + total fs ps)) - total fs done - size fs p))
                 with (Nat.min D (total fs done + (size fs p + total fs ps)) - total fs done) by lia. auto. }
             specialize (IH (done ++ [p]) D r1). rewrite <- EA in IH. specialize (IH Hu). rewrite total_snoc in *.
             rewrite S5. destruct (fits D (total fs done + size fs p) (map (size fs) ps)).
             ++ destruct IH as (r' & I1 & I2 & I3); try lia.
                { rewrite total_app, EP. replace (Nat.min D (total fs done + (size fs p + total fs ps)) - (total fs done + size fs p))
                    with (Nat.min D (total fs done + (size fs p + total fs ps)) - total fs done - size fs p) by lia. auto. }
                exists r'. split; auto. split; [congruence|auto].
             ++ apply IH; try lia. rewrite total_app, EP. replace (Nat.min D (total fs done + (size fs p + total fs ps)) - (total fs done + size fs p))
                    with (Nat.min D (total fs done + (size fs p + total fs ps)) - total fs done - size fs p) by lia. auto.
          -- destruct (good_file pm fs p U1) as (z & E & E1 & E2 & E3 & E4). destruct U2 as (C1 & C2 & C3).
             destruct Hf as (F1 & F2 & F3).
             cbn [fill]. destruct (Nat.leb_spec D (total fs done)); [lia|]. unfold np_load. rewrite E. cbn [bind]. rewrite E1. cbn [entry bind].
             rewrite E2. cbn [entry bind]. rewrite (existsb_firstn is_zero) by (apply nonzero_existsb; exact U3). rewrite E3. cbn [entry bind].
             rewrite F2. rewrite assign_mismatch; auto; rewrite ?app_length, ?firstn_length, ?cat_length by (intros q Hq; apply (HCd q Hq)); unfold nans; rewrite ?repeat_length; lia.
  Qed.

  Lemma fits_spec D sizes : forall start,
    start <= D ->
    fits D start sizes = true <->
      (start + list_sum sizes <= D \/ (exists k, start + list_sum (firstn k sizes) = D) \/
       (exists k, k < length sizes /\ start + list_sum (firstn k sizes) = 0 /\ D <= nth k sizes 0)).
  Proof.
    induction sizes as [|n ns IH]; intros start HD; cbn [fits].
    - cbn. split; auto. left. lia.
    - destruct (Nat.leb_spec D start).
      { split; auto. intros _. right. left. exists 0. cbn. lia. }
      destruct (Nat.eqb_spec start 0); destruct (Nat.leb_spec D n); cbn [andb].
      + split; auto. intros _. right. right. exists 0. cbn. lia.
      + destruct (Nat.leb_spec (start + n) D); [|lia].
        rewrite IH by lia. cbn [list_sum fold_right length]. fold (list_sum ns). split.
        * intros [?|[[k Hk]|[k Hk]]]; [left; lia|right; left; exists (S k); cbn; fold (list_sum (firstn k ns)); lia|].
          right. right. exists (S k). cbn. fold (list_sum (firstn k ns)). lia.
        * intros [?|[[k Hk]|[k Hk]]]; [left; lia| |].
          -- destruct k; cbn in Hk; [lia|]. fold (list_sum (firstn k ns)) in Hk. right. left. exists k. lia.
          -- destruct k; cbn in Hk; [lia|]. fold (list_sum (firstn k ns)) in Hk. right. right. exists k. lia.
      + destruct (Nat.leb_spec (start + n) D); [lia|]. split; [discriminate|].
        cbn [list_sum fold_right length]. fold (list_sum ns).
        intros [?|[[k Hk]|[k Hk]]]; [lia| |]; destruct k; cbn in Hk; try lia; fold (list_sum (firstn k ns)) in Hk; lia.
      + destruct (Nat.leb_spec (start + n) D).
        * rewrite IH by lia. cbn [list_sum fold_right length]. fold (list_sum ns). split.
          -- intros [?|[[k Hk]|[k Hk]]]; [left; lia|right; left; exists (S k); cbn; fold (list_sum (firstn k ns)); lia|].
             lia.
          -- intros [?|[[k Hk]|[k Hk]]]; [left; lia| |]; destruct k; cbn in Hk; try lia; fold (list_sum (firstn k ns)) in Hk; right; left; exists k; lia.
        * split; [discriminate|]. cbn [list_sum fold_right length]. fold (list_sum ns).
          intros [?|[[k Hk]|[k Hk]]]; [lia| |]; destruct k; cbn in Hk; try lia; fold (list_sum (firstn k ns)) in Hk; lia.
  Qed.

  Theorem pool_capped D r :
    NoDup paths -> (exists p, In p paths /\ good pm fs p = true) ->
    (forall p, In p paths -> good pm fs p = true -> consistent pm fs p /\ nonzero fs p) ->
    exists order, Permutation order (filter (good pm fs) paths) /\
      let sizes := map (size fs) order in
      let ok := list_sum sizes <= D \/ (exists k, list_sum (firstn k sizes) = D) \/
                (exists k, k < length sizes /\ list_sum (firstn k sizes) = 0 /\ D <= nth k sizes 0) in
      (ok -> exists r', load_multiple_results set_order pm fs paths (Some D) r = Ok r' /\
             count_value (r_samples r') = Nat.min D (list_sum sizes) /\
             r_rho r' = firstn D (cat z_rho fs order) /\ r_g r' = firstn D (cat z_g fs order) /\
             (pm = true -> r_gp r' = firstn D (cat z_gp fs order) /\ r_gm r' = firstn D (cat z_gm fs order))) /\
      (~ ok -> load_multiple_results set_order pm fs paths (Some D) r = Raise ValueError).
  Proof.
    intros Hnd Hex Hok. exists goods.
    assert (Permutation goods (filter (good pm fs) paths)) as HP by (apply set_list_perm; auto; apply NoDup_filter; auto).
    split; auto. cbv zeta. rewrite (load_unfold (Some D) r Hex).
    set (avail := total fs (filter (good pm fs) paths)).
    assert (total fs goods = avail) as HT by (apply total_perm; auto).
    set (n := if D <=? avail then PyInt D else NpInt avail).
    set (r0 := initialize_arrays pm _).
    assert (count_value n = Nat.min D avail) as Hn by (unfold n; destruct (Nat.leb_spec D avail); cbn; lia).
    pose proof (fill_capped goods [] D r0) as F. cbn [app] in F.
    assert (forall q, In q goods -> usable pm fs q) as HU.
    { intros q Hq. apply In_goods in Hq. destruct Hq as [Hq Hg]. destruct (Hok q Hq Hg). split; auto. }
    assert (filled pm fs [] (Nat.min D (total fs goods) - total fs []) r0) as HF.
    { cbn [total map list_sum]. unfold total at 2. cbn [map list_sum fold_right]. rewrite Nat.sub_0_r, HT, <- Hn. apply (init_filled pm fs n). }
    specialize (F HU HF). change (total fs []) with 0 in *. specialize (F ltac:(lia)).
    pose proof (fits_spec D (map (size fs) goods) 0 ltac:(lia)) as FS. cbn [Nat.add] in FS.
    destruct (fits D 0 (map (size fs) goods)).
    - destruct F as (r' & F1 & F2 & F3 & F4 & F5). split.
      + intros _. exists r'. split; [exact F1|]. split; [|auto]. rewrite F2. unfold r0. cbn [initialize_arrays r_samples]. rewrite Hn. fold (total fs goods). rewrite HT. auto.
      + intros N. exfalso. apply N, FS. auto.
    - split; [intros O; apply FS in O; discriminate|]. intros _. exact F.
  Qed.
End Multi.

Theorem pool_missing set_order pm fs paths desired r :
  (exists p, In p paths /\ fs p = None) -> load_multiple_results set_order pm fs paths desired r = Raise OSError.
Proof.
  intros H. unfold load_multiple_results. destruct (Nat.eqb_spec (length paths) 0) as [E|E].
  - apply length_zero_iff_nil in E. subst. destruct H as (p & [] & _).
  - rewrite scan_missing by auto. auto.
Qed.

(** the same path twice: the samples are counted twice but read once *)
Theorem pool_duplicate set_order pm fs p r :
  set_list set_order -> usable pm fs p -> 0 < size fs p ->
  exists r', load_multiple_results set_order pm fs [p; p] None r = Ok r' /\
    count_value (r_samples r') = 2 * size fs p /\ r_rho r' = arr z_rho fs p ++ nans (size fs p) /\ r_g r' = arr z_g fs p ++ nans (size fs p).
Proof.
  intros Hset (U1 & U2 & U3) Hpos.
  assert (fs p <> None) as Hf by (unfold good in U1; destruct (fs p); congruence).
  rewrite load_unfold; auto.
  2:{ intros q [<-|[<-|[]]]; auto. }
  2:{ exists p. split; [left; auto|auto]. }
  cbv zeta. cbn [filter]. rewrite U1.
  assert (set_order [p; p] = [p]) as ->.
  { destruct (Hset [p; p]) as [N I]. destruct (set_order [p; p]) as [|a [|b l]].
    - exfalso. apply (I p). left; auto.
    - f_equal. destruct (proj1 (I a)) as [|[|[]]]; auto; left; auto.
    - exfalso. inv N. apply H1. left. destruct (proj1 (I a)) as [|[|[]]]; try (left; auto; fail); destruct (proj1 (I b)) as [|[|[]]]; try (right; left; auto; fail); congruence. }
  change (total fs [p; p]) with (size fs p + (size fs p + 0)). set (n := NpInt _).
  destruct (fill_step pm fs p [] [] (size fs p + (size fs p + 0)) (size fs p)
     (initialize_arrays pm {| r_samples := n; r_hash_vib := r_hash_vib r; r_hash_rho := r_hash_rho r; r_rho := []; r_g := []; r_gp := []; r_gm := [] |}))
    as (r' & S1 & S2 & S3 & (F1 & F2 & _) & S5); auto; try (intros q []).
  { cbn. lia. } { lia. }
  { replace (size fs p + size fs p) with (count_value n) by (cbn; lia). apply init_filled. }
  exists r'. rewrite S5. cbn [fill]. split; auto. rewrite S1. cbn. cbn in F1, F2. rewrite app_nil_r in *. auto.
Qed.

(** ---- C20 ---- *)
Definition named (p : string) : bool := String.eqb (last_chars 4 p) ".npz" || String.eqb (last_chars 6 p) "thermo".
Definition matching (h : hashes_of) (hv hr : string) (p : string) : bool :=
  match h p with Some (Some a, Some b) => String.eqb a hv && String.eqb b hr | _ => false end.

Theorem prune_ok h hv hr paths :
  (forall p, In p paths -> named p = true /\ h p <> None) -> prune h hv hr paths = Ok (filter (matching h hv hr) paths).
Proof.
  induction paths as [|p ps IH]; intros H; auto. cbn [prune filter]. destruct (H p (or_introl eq_refl)) as [H1 H2].
  fold (named p). rewrite H1. rewrite IH by (intros; apply H; right; auto).
  destruct (matching h hv hr p) eqn:M; unfold matching in M; destruct (h p) as [[[a|] [b|]]|]; try congruence; cbn [bind]; rewrite ?M; auto.
Qed.

Theorem prune_fails h hv hr paths :
  (exists p, In p paths /\ (named p = false \/ h p = None)) -> exists e, prune h hv hr paths = Raise e.
Proof.
  induction paths as [|p ps IH]; intros (q & Hq & Hb); [destruct Hq|]. cbn [prune]. fold (named p).
  destruct (named p) eqn:N; [|eauto]. destruct (h p) as [[oa ob]|] eqn:E; [|eauto].
  assert (exists e, prune h hv hr ps = Raise e) as [e He].
  { apply IH. exists q. destruct Hq as [->|Hq]; [destruct Hb; congruence|]. auto. }
  rewrite He. destruct oa, ob; cbn [bind]; eauto.
Qed.

(** pooling does not look at the hashes *)
Definition drop_hashes (z : npz) : npz :=
  {| z_hash_vib := None; z_hash_rho := None; z_samples := z_samples z; z_rho := z_rho z; z_g := z_g z; z_gp := z_gp z; z_gm := z_gm z |}.

Theorem pool_ignores_hashes set_order pm fs fs' paths desired r :
  (forall p, option_map drop_hashes (fs p) = option_map drop_hashes (fs' p)) ->
  load_multiple_results set_order pm fs paths desired r = load_multiple_results set_order pm fs' paths desired r.
Proof.
  intros H.
  assert (forall z z', drop_hashes z = drop_hashes z' -> z_samples z = z_samples z' /\ z_rho z = z_rho z' /\ z_g z = z_g z' /\ z_gp z = z_gp z' /\ z_gm z = z_gm z') as D.
  { intros z z' E. unfold drop_hashes in E. injection E. auto. }
  assert (forall p n bad, scan pm fs p n bad = scan pm fs' p n bad) as S.
  { induction p as [|q p IH]; intros n bad; auto. cbn [scan]. unfold np_load. specialize (H q).
    destruct (fs q) as [z|], (fs' q) as [z'|]; try discriminate; auto. cbn [bind]. apply (f_equal (fun o => match o with Some a => a | None => drop_hashes z end)) in H. apply D in H as (D1 & D2 & D3 & D4 & D5).
    unfold keys_present. rewrite D1, D2, D3, D4, D5. destruct (z_samples z'); cbn [entry bind present andb]; rewrite ?IH; auto.
  }
  assert (forall l D0 st r0, fill pm fs l D0 st r0 = fill pm fs' l D0 st r0) as F.
  { induction l as [|q l IH]; intros D0 st r0; auto. cbn [fill]. unfold np_load. specialize (H q).
    destruct (fs q) as [z|], (fs' q) as [z'|]; try discriminate; auto. cbn [bind]. apply (f_equal (fun o => match o with Some a => a | None => drop_hashes z end)) in H. apply D in H as (D1 & D2 & D3 & D4 & D5).
    rewrite D1, D2, D3, D4, D5. destruct (D0 <=? st); auto. destruct (z_samples z'); cbn [entry bind]; auto.
    destruct (z_rho z'); cbn [entry bind]; auto. destruct (existsb _ _); auto. destruct (z_g z'); cbn [entry bind]; auto.
    destruct (assign_slice (r_g r0) _ _ _); cbn [bind]; auto. destruct (assign_slice (r_rho r0) _ _ _); cbn [bind]; auto.
    destruct (if pm then _ else _); cbn [bind]; auto. destruct (if pm then _ else _); cbn [bind]; auto. }
  unfold load_multiple_results. rewrite S. destruct (length paths =? 0); auto. destruct (scan pm fs' paths (PyInt 0) []) as [[n bad]|]; cbn [bind]; auto.
  destruct (length _ =? 0); auto. destruct (is_0 n); auto.
Qed.

(** ---- C21 ---- *)
Theorem save_load pm root P T job r path z fs r0 :
  save_results pm root P T job r = Ok (path, z) -> fs path = Some z -> r_samples r0 = PyInt 0 ->
  exists r', load_results pm fs path r0 = Ok r' /\ count_value (r_samples r') = count_value (r_samples r) /\
    r_rho r' = r_rho r /\ r_g r' = r_g r /\ (pm = true -> r_gp r' = r_gp r /\ r_gm r' = r_gm r).
Proof.
  intros Hs Hf H0. unfold save_results in Hs. destruct (is_0 (r_samples r)); [discriminate|].
  destruct (present (r_hash_vib r) && present (r_hash_rho r)); [|discriminate]. inv Hs.
  unfold load_results, np_load. rewrite Hf. cbn [bind]. unfold keys_present. rewrite H0. destruct pm; cbn; eexists; repeat split; auto; discriminate.
Qed.

Theorem save_ok pm root P T job r :
  (exists out, save_results pm root P T job r = Ok out) <-> r_samples r <> PyInt 0 /\ r_hash_vib r <> None /\ r_hash_rho r <> None.
Proof.
  unfold save_results. destruct (r_samples r) as [[|n]|n]; cbn [is_0].
  - split; [intros [? H]; discriminate|tauto].
  - destruct (r_hash_vib r), (r_hash_rho r); cbn; split; try (intros [? H]; discriminate); try tauto; intros; try (repeat split; congruence); eauto.
  - destruct (r_hash_vib r), (r_hash_rho r); cbn; split; try (intros [? H]; discriminate); try tauto; intros; try (repeat split; congruence); eauto.
Qed.

Theorem save_contents pm root P T job r path z :
  save_results pm root P T job r = Ok (path, z) ->
  path = join root (pimc_file P T (match job with Some j => j | None => 0%Z end)) /\
  z_hash_vib z = r_hash_vib r /\ z_hash_rho z = r_hash_rho r /\ z_samples z = Some (count_value (r_samples r)) /\
  z_rho z = Some (r_rho r) /\ z_g z = Some (r_g r) /\
  z_gp z = (if pm then Some (r_gp r) else None) /\ z_gm z = (if pm then Some (r_gm r) else None).
Proof.
  unfold save_results. intros H. destruct (is_0 (r_samples r)) eqn:E; [discriminate|].
  destruct (present (r_hash_vib r) && present (r_hash_rho r)); [|discriminate]. inv H. cbn. repeat split; auto.
Qed.

Theorem load_twice_fails pm fs path r r' path' :
  load_results pm fs path r = Ok r' -> exists e, load_results pm fs path' r' = Raise e.
Proof.
  unfold load_results. intros H. bdestr H. destruct (keys_present pm x) eqn:K; [|discriminate]. cbn [negb] in H. bdestr H.
  destruct (is_0 (r_samples r)); [|discriminate]. bdestr H. bdestr H. bdestr H. bdestr H. inv H. cbn [r_samples is_0].
  unfold np_load. destruct (fs path') as [z|]; cbn [bind]; [|eauto]. destruct (keys_present pm z); cbn [negb]; eauto.
  destruct (z_samples z); cbn [entry bind]; eauto.
Qed.

Theorem load_nonempty_fails pm fs path r z :
  r_samples r <> PyInt 0 -> fs path = Some z -> load_results pm fs path r = Raise AssertionError.
Proof.
  intros H Hf. unfold load_results, np_load. rewrite Hf. cbn [bind]. unfold keys_present.
  destruct (z_samples z); cbn; auto. assert (is_0 (r_samples r) = false) as ->.
  { destruct (r_samples r) as [[|]|]; auto. congruence. }
  destruct (negb _); auto.
Qed.

(** a file saved by the plain class cannot be loaded by the plus/minus class, the converse works *)
Theorem load_across root P T job r path z fs r0 :
  fs path = Some z -> r_samples r0 = PyInt 0 ->
  (save_results false root P T job r = Ok (path, z) -> load_results true fs path r0 = Raise AssertionError) /\
  (save_results true root P T job r = Ok (path, z) -> exists r', load_results false fs path r0 = Ok r' /\ r_rho r' = r_rho r /\ r_g r' = r_g r).
Proof.
  intros Hf H0. unfold save_results. destruct (is_0 (r_samples r)); [split; discriminate|].
  destruct (present (r_hash_vib r) && present (r_hash_rho r)); [|split; discriminate].
  split; intros Hs; inv Hs; unfold load_results, np_load; rewrite Hf; cbn [bind]; unfold keys_present; rewrite ?H0; cbn; eauto.
Qed.

(** ---- C22 ---- *)
Section Blocks.
  Variables X S : Type.
  Variable stream : nat -> X.
  Variable source : nat -> S.
  Variables frho fg fgp fgm : S * X -> fl.

  Definition sample (i : nat) : S * X := (source i, stream i).
  Definition computed (pm : bool) (n rest : nat) (r : result) : Prop :=
    r_rho r = map (fun i => frho (sample i)) (seq 0 n) ++ nans rest /\ r_g r = map (fun i => fg (sample i)) (seq 0 n) ++ nans rest /\
    (if pm then r_gp r = map (fun i => fgp (sample i)) (seq 0 n) ++ nans rest /\ r_gm r = map (fun i => fgm (sample i)) (seq 0 n) ++ nans rest
     else r_gp r = [] /\ r_gm r = []).

  Lemma combine_samples a b n : combine (map source (seq a n)) (map stream (seq b n)) = map (fun k => (source (a + k), stream (b + k))) (seq 0 n).
  Proof.
    revert a b. induction n as [|n IH]; intros a b; auto. cbn [seq map combine]. rewrite !Nat.add_0_r. f_equal.
    rewrite IH. rewrite <- seq_shift, map_map. apply map_ext. intros k. do 2 f_equal; lia.
  Qed.

  Lemma block_ok pm bsize k rest r :
    count_value (r_samples r) = k * bsize + (bsize + rest) ->
    computed pm (k * bsize) (bsize + rest) r ->
    exists r', block X S stream source frho fg fgp fgm pm bsize (r, k * bsize) k = Ok (r', (1 + k) * bsize) /\
      r_samples r' = r_samples r /\ r_hash_vib r' = r_hash_vib r /\ r_hash_rho r' = r_hash_rho r /\ computed pm ((1 + k) * bsize) rest r'.
  Proof.
    intros Hn (C1 & C2 & C3). unfold block, draw. rewrite combine_samples.
    destruct (Nat.ltb_spec (count_value (r_samples r)) (k * bsize + bsize)); [lia|].
    assert (forall f : S * X -> fl, assign_slice (map (fun i => f (sample i)) (seq 0 (k * bsize)) ++ nans (bsize + rest)) (k * bsize) bsize
       (map f (map (fun j => (source (k * bsize + j), stream (k * bsize + j))) (seq 0 bsize))) = Ok (map (fun i => f (sample i)) (seq 0 ((1 + k) * bsize)) ++ nans rest)) as A.
    { intros f. rewrite (assign_fits _ _ rest); try (rewrite ?map_length, ?seq_length; auto; fail).
      replace ((1 + k) * bsize) with (k * bsize + bsize) by lia. rewrite seq_app, map_app, <- app_assoc. do 3 f_equal.
      cbn [Nat.add]. rewrite map_map. clear. generalize (k * bsize). intros m.
      assert (seq m bsize = map (fun j => m + j) (seq 0 bsize)) as ->.
      { clear. revert m. induction bsize as [|b IH]; intros m; auto. cbn [seq map]. rewrite Nat.add_0_r. f_equal. rewrite IH, <- seq_shift, map_map. apply map_ext. intros; lia. }
      rewrite map_map. auto. }
    rewrite C1, C2, !A. cbn [bind]. replace (k * bsize + bsize) with ((1 + k) * bsize) by lia.
    destruct pm.
    - destruct C3 as [-> ->]. rewrite !A. cbn [bind]. eexists. split; [reflexivity|]. cbn. do 3 (split; auto). unfold computed. cbn. auto.
    - cbn [bind]. eexists. split; [reflexivity|]. cbn. do 3 (split; auto). unfold computed. cbn. auto.
  Qed.

  Lemma blocks_ok pm bsize blocks : forall k rest r,
    count_value (r_samples r) = k * bsize + (blocks * bsize + rest) ->
    computed pm (k * bsize) (blocks * bsize + rest) r ->
    exists r', for_res (block X S stream source frho fg fgp fgm pm bsize) (seq k blocks) (r, k * bsize) = Ok (r', (k + blocks) * bsize) /\
      r_samples r' = r_samples r /\ r_hash_vib r' = r_hash_vib r /\ r_hash_rho r' = r_hash_rho r /\ computed pm ((k + blocks) * bsize) rest r'.
  Proof.
    induction blocks as [|b IH]; intros k rest r Hn Hc.
    - exists r. rewrite Nat.add_0_r. cbn in *. auto.
    - cbn [seq for_res].
      destruct (block_ok pm bsize k (b * bsize + rest) r) as (r1 & E & S1 & S2 & S3 & C); try lia.
      { replace (bsize + (b * bsize + rest)) with (Datatypes.S b * bsize + rest) by (cbn; lia). auto. }
      rewrite E. destruct (IH (1 + k) rest r1) as (r2 & E2 & T1 & T2 & T3 & C2).
      { rewrite S1. cbn in *. lia. }
      { auto. }
      exists r2. replace (k + Datatypes.S b) with (1 + k + b) by lia. repeat split; try congruence; try apply C2. exact E2.
  Qed.

  Theorem compute_ok pm bsize blocks samples hv hr root P T job :
    0 < samples -> 0 < blocks -> blocks * bsize <= samples ->
    exists r' path z,
      block_compute X S stream source frho fg fgp fgm pm bsize blocks root P T job (new_result pm samples (Some hv) (Some hr)) = Ok (r', (path, z)) /\
      computed pm (blocks * bsize) (samples - blocks * bsize) r' /\
      save_results pm root P T job r' = Ok (path, z) /\ z_hash_vib z = Some hv /\ z_hash_rho z = Some hr /\ z_samples z = Some samples.
  Proof.
    intros Hs Hb Hle. set (r0 := new_result pm samples (Some hv) (Some hr)).
    destruct (blocks_ok pm bsize blocks 0 (samples - blocks * bsize) r0) as (r' & E & S1 & S2 & S3 & C).
    { cbn. lia. }
    { replace (blocks * bsize + (samples - blocks * bsize)) with samples by lia. unfold computed, r0, new_result, initialize_arrays. cbn. destruct pm; auto. }
    unfold block_compute. cbn [Nat.mul] in E. rewrite E. cbn [bind]. destruct (Nat.eqb_spec blocks 0); [lia|].
    cbn [Nat.add] in C.
    assert (exists path z, save_results pm root P T job r' = Ok (path, z) /\ z_hash_vib z = Some hv /\ z_hash_rho z = Some hr /\ z_samples z = Some samples) as (path & z & H1 & H2).
    { unfold save_results. rewrite S1, S2, S3. unfold r0. cbn. destruct samples; [lia|]. cbn. do 2 eexists. split; [reflexivity|]. cbn. auto. }
    exists r', path, z. rewrite H1. cbn [bind]. auto.
  Qed.

  Theorem compute_no_blocks pm bsize root P T job r :
    block_compute X S stream source frho fg fgp fgm pm bsize 0 root P T job r = Raise UnboundLocalError.
  Proof. reflexivity. Qed.

  Theorem compute_too_many pm bsize blocks samples hv hr root P T job :
    samples < blocks * bsize ->
    block_compute X S stream source frho fg fgp fgm pm bsize blocks root P T job (new_result pm samples hv hr) = Raise ValueError.
  Proof.
    intros H. assert (0 < bsize) as Hb by nia. set (q := samples / bsize).
    assert (q * bsize <= samples < (q + 1) * bsize) as Hq.
    { unfold q. pose proof (Nat.div_mod samples bsize ltac:(lia)). pose proof (Nat.mod_upper_bound samples bsize ltac:(lia)). nia. }
    assert (q < blocks) as Hqb by nia.
    set (r0 := new_result pm samples hv hr).
    destruct (blocks_ok pm bsize q 0 (samples - q * bsize) r0) as (r' & E & S1 & S2 & S3 & C).
    { cbn. lia. }
    { replace (q * bsize + (samples - q * bsize)) with samples by lia. unfold computed, r0, new_result, initialize_arrays. cbn. destruct pm; auto. }
    unfold block_compute. replace blocks with (q + Datatypes.S (blocks - q - 1)) at 1 by lia. rewrite seq_app, for_res_app. cbn [Nat.mul] in E. rewrite E. cbn [bind seq for_res].
    unfold block at 1, draw. rewrite S1. cbn [Nat.add]. unfold r0. cbn [new_result initialize_arrays r_samples count_value].
    destruct (Nat.ltb_spec samples (q * bsize + bsize)); [|lia]. auto.
  Qed.
End Blocks.

(** ---- C58 ---- *)
Definition name_of (x : Z * Q * Z) : string := pimc_file (fst (fst x)) (snd (fst x)) (snd x).
Definition same_point (P : Z) (T : Q) (x : Z * Q * Z) : bool := (P =? fst (fst x))%Z && (hundredths T =? hundredths (snd (fst x)))%Z.

Lemma pimc_data_paths set_order pm fs dir P T l r :
  (0 <= Qnum T)%Z -> Forall (fun x => (0 <= Qnum (snd (fst x)))%Z) l ->
  load_pimc_data set_order pm fs dir (map name_of l) P T r =
  load_multiple_results set_order pm fs (map (fun x => (dir ++ name_of x)%string) (filter (same_point P T) l)) None r.
Proof.
  intros HT Hl. unfold load_pimc_data. unfold name_of at 1. rewrite select_pimc_files_map by auto. rewrite map_map. reflexivity.
Qed.

Theorem pimc_data_pool set_order pm fs dir P T l r :
  set_list set_order -> (0 <= Qnum T)%Z -> Forall (fun x => (0 <= Qnum (snd (fst x)))%Z) l -> NoDup (map name_of l) ->
  let mine := map (fun x => (dir ++ name_of x)%string) (filter (same_point P T) l) in
  (forall p, In p mine -> fs p <> None) -> (exists p, In p mine /\ good pm fs p = true) ->
  (forall p, In p mine -> good pm fs p = true -> consistent pm fs p /\ nonzero fs p) ->
  exists order r', Permutation order (filter (good pm fs) mine) /\
    load_pimc_data set_order pm fs dir (map name_of l) P T r = Ok r' /\
    count_value (r_samples r') = total fs order /\
    r_rho r' = cat z_rho fs order /\ r_g r' = cat z_g fs order /\
    (pm = true -> r_gp r' = cat z_gp fs order /\ r_gm r' = cat z_gm fs order).
Proof.
  intros Hset HT Hl Hnd mine Hf Hex Hok. rewrite pimc_data_paths by auto. fold mine.
  assert (NoDup mine) as Hm.
  { unfold mine. clear -Hnd. induction l as [|x l IH]; [constructor|]. cbn [map] in Hnd. inversion_clear Hnd. cbn [filter].
    destruct (same_point P T x); auto. cbn [map]. constructor; auto. intros H1. apply in_map_iff in H1. destruct H1 as (y & E & Hy).
    apply append_inj_l in E. apply H. rewrite <- E. apply in_map. apply filter_In in Hy. tauto. }
  destruct (pool_all set_order Hset pm fs mine Hf r Hm Hex Hok) as (order & r' & H1 & H2 & H3 & _ & _ & H4). eauto 10.
Qed.

Theorem pimc_data_none set_order pm fs dir P T l r :
  (0 <= Qnum T)%Z -> Forall (fun x => (0 <= Qnum (snd (fst x)))%Z) l ->
  (forall x, In x l -> ~ (fst (fst x) = P /\ hundredths (snd (fst x)) = hundredths T)) ->
  load_pimc_data set_order pm fs dir (map name_of l) P T r = Raise AssertionError.
Proof.
  intros HT Hl H. rewrite pimc_data_paths by auto.
  assert (filter (same_point P T) l = []) as ->; auto.
  clear Hl. induction l as [|x l IH]; auto. cbn [filter]. unfold same_point at 1.
  destruct (Z.eqb_spec P (fst (fst x))); destruct (Z.eqb_spec (hundredths T) (hundredths (snd (fst x)))); cbn [andb];
    try (apply IH; intros; apply H; right; auto).
  exfalso. apply (H x); [left|]; auto.
Qed.
