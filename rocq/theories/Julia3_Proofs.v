(** Single runs, readers, commands. *)
From Coq Require Import QArith.
From Verif Require Import Common Common_Proofs PyStr_Model PyStr_Proofs Json_Model Json_Spec Json_Proofs Json5_Proofs FileStruct_Model FileStruct_Proofs Julia_Model Julia_Spec Julia_Proofs Julia2_Proofs.
Local Open Scope string_scope.
Local Open Scope nat_scope.

(** ---- rounding depends on the value only ---- *)
Lemma round_even_compat p q : (p == q)%Q -> round_even p = round_even q.
Proof.
  unfold Qeq. intros E. unfold round_even. cbv zeta. set (a := Qnum p) in *. set (b := Z.pos (Qden p)) in *. set (c := Qnum q) in *. set (d := Z.pos (Qden q)) in *.
  assert (B : (0 < b)%Z) by (unfold b; lia). assert (D : (0 < d)%Z) by (unfold d; lia).
  assert (Q : (a / b = c / d)%Z).
  { rewrite <- (Z.div_mul_cancel_r a b d), <- (Z.div_mul_cancel_r c d b) by lia. rewrite E. f_equal. lia. }
  assert (M : ((a mod b) * d = (c mod d) * b)%Z).
  { rewrite <- (Z.mul_mod_distr_r a b d), <- (Z.mul_mod_distr_r c d b) by lia. rewrite E. f_equal. lia. }
  rewrite Q. clearbody a b c d. clear p q E.
  assert (X : (2 * (a mod b) <? b)%Z = (2 * (c mod d) <? d)%Z) by (apply Bool.eq_iff_eq_true; rewrite !Z.ltb_lt; nia).
  assert (Y : (b <? 2 * (a mod b))%Z = (d <? 2 * (c mod d))%Z) by (apply Bool.eq_iff_eq_true; rewrite !Z.ltb_lt; nia).
  rewrite X, Y. reflexivity.
Qed.
Lemma hundredths_compat p q : (p == q)%Q -> hundredths p = hundredths q.
Proof. intros E. apply round_even_compat. unfold Qeq in *. cbn. lia. Qed.
Lemma fmt2_compat p q : (p == q)%Q -> fmt2 p = fmt2 q.
Proof.
  intros E. unfold fmt2. assert (S : (Qnum p <? 0)%Z = (Qnum q <? 0)%Z).
  { apply Bool.eq_iff_eq_true. rewrite !Z.ltb_lt. unfold Qeq in E. nia. }
  rewrite S, (hundredths_compat p q E), (hundredths_compat (- p) (- q)); auto. rewrite E. reflexivity.
Qed.
Lemma key_of_T t : ~ (t == 0)%Q -> key_of (beta_of_T t) = fmt2 t.
Proof.
  intros N. unfold key_of, extract_T_from_beta, beta_of_T. apply fmt2_compat.
  assert (B : ~ (boltzman == 0)%Q) by discriminate. field. auto.
Qed.

(** ---- one run ---- *)
Lemma stored_old fs dst d : stored fs dst d <-> old_data fs dst = Ok (JObj d).
Proof.
  unfold stored, old_data. destruct (fs dst) as [text|].
  - destruct (1 <? String.length text) eqn:L; [apply Nat.ltb_lt in L|apply Nat.ltb_ge in L]; split.
    + intros [[? _]|(t' & E & [[? _]|[_ ?]])]; try congruence. inv E. lia.
    + intros X. right. eauto 6.
    + intros [[? _]|(t' & E & [[_ ->]|[? _]])]; try congruence. inv E. lia.
    + intros X. inv X. right. eauto 6.
  - split; [intros [[_ ->]|(t' & E & _)]; congruence|]. intros X. inv X. auto.
Qed.
Lemma killed_spec err : contains "Killed" err = false <-> ~ exists a b, err = a ++ "Killed" ++ b.
Proof. rewrite <- (contains_spec "Killed" err). apply iff_sym, not_true_iff_false. Qed.

Local Opaque keyDict.
Section Run.
  Variable py_float : string -> res string.
  Lemma base_ok bin fs f t b bt out err dst cmd d names temp :
    target f t = Ok dst -> command bin f t bt = Ok cmd -> stored fs dst d -> contains "Killed" err = false ->
    parse_output out = Ok names -> names <> [] -> renamed py_float keyDict names = Ok temp ->
    base_func py_float bin fs f t b bt out err =
    (fs_write fs dst (dumps (JObj (validate t (dset String.eqb (validate t d f) (key_of b) (JObj temp)) f))), Ok tt).
  Proof.
    intros T C S K P N R. apply stored_old in S.
    assert (E1 : begin_run fs f t dst = Ok (validate t d f)) by (unfold begin_run; rewrite S; reflexivity).
    assert (E2 : compute py_float out err (validate t d f) b = Ok (Some (dset String.eqb (validate t d f) (key_of b) (JObj temp)))).
    { unfold compute. rewrite K, P. cbn [bind]. destruct names as [|n0 names]; [congruence|].
      unfold convert_keys. rewrite R. reflexivity. }
    assert (E3 : end_run py_float f t b (validate t d f) out err = Ok (dumps (JObj (validate t (dset String.eqb (validate t d f) (key_of b) (JObj temp)) f)))).
    { unfold end_run. rewrite E2. reflexivity. }
    unfold base_func. rewrite T, C. change (bind (Ok dst) ?g) with (g dst). cbv beta. rewrite E1.
    change (bind (Ok cmd) ?g) with (g cmd). cbv beta. change (bind (Ok (validate t d f)) ?g) with (g (validate t d f)). cbv beta. rewrite E3. reflexivity.
  Qed.
  Lemma base_result bin fs f t b bt out err fs' :
    base_func py_float bin fs f t b bt out err = (fs', Ok tt) ->
    exists dst cmd d names temp, target f t = Ok dst /\ command bin f t bt = Ok cmd /\ stored fs dst d /\ contains "Killed" err = false /\
      parse_output out = Ok names /\ names <> [] /\ renamed py_float keyDict names = Ok temp.
  Proof.
    unfold base_func. destruct (target f t) as [dst|]; cbn [bind]; [|congruence].
    destruct (command bin f t bt) as [cmd|]; cbn [bind]; [|congruence].
    unfold begin_run. destruct (old_data fs dst) as [v|] eqn:O; cbn [bind]; [|congruence].
    destruct v as [ | | | | | |d]; cbn [bind]; try congruence.
    destruct (end_run py_float f t b (validate t d f) out err) as [text|] eqn:E; cbn [bind]; [|congruence]. intros _.
    apply end_ok in E. destruct E as (d1 & E & _).
    assert (K : contains "Killed" err = false) by (unfold compute in E; destruct (contains "Killed" err); [discriminate|reflexivity]).
    apply compute_ok in E. destruct E as (names & temp & A & B & C & _).
    exists dst, cmd, d, names, temp. apply stored_old in O. auto 10.
  Qed.
  Lemma merged_get t d f b temp :
    let d' := validate t (dset String.eqb (validate t d f) (key_of b) (JObj temp)) f in
    carries t d' f /\ get d' (key_of b) = Some (JObj temp) /\
    forall k, k <> key_of b -> ~ In k (hash_names t) ->
      (carries t d f -> get d' k = get d k) /\ (~ carries t d f -> get d' k = None).
  Proof.
    intros d'. assert (CB : carries_b t (dset String.eqb (validate t d f) (key_of b) (JObj temp)) f = true).
    { destruct (key_not_hash b) as [K1 K2]. apply not_eq_sym in K1. apply not_eq_sym in K2. apply String.eqb_neq in K1. apply String.eqb_neq in K2.
      apply carries_b_spec. pose proof (validate_carries t d f) as V. apply carries_b_spec in V. unfold carries, get in *. rewrite !get_dset, K1, K2. exact V. }
    split; [apply carries_b_spec, validate_carries|]. unfold get, d'. split.
    - rewrite validate_get, CB, get_dset, String.eqb_refl. destruct (key_not_hash b) as [K1 K2]. apply String.eqb_neq in K1. apply String.eqb_neq in K2. rewrite K1, K2. destruct t; reflexivity.
    - intros k NK NH. rewrite validate_get, CB, get_dset. apply String.eqb_neq in NK. rewrite NK, validate_get.
      assert (E1 : String.eqb k "hash_vib" = false) by (apply String.eqb_neq; intros ->; apply NH; destruct t; cbn; auto).
      assert (E2 : match t with Sampling => String.eqb k "hash_rho" | _ => false end = false)
        by (destruct t; auto; apply String.eqb_neq; intros ->; apply NH; cbn; auto).
      rewrite E1, E2. split; intros C.
      + apply carries_b_spec in C. rewrite C. reflexivity.
      + destruct (carries_b t d f) eqn:X; auto. apply carries_b_spec in X. contradiction.
  Qed.
  Lemma merged_wf t d f b temp names : (forall s x, py_float s = Ok x -> float_text x) -> renamed py_float keyDict names = Ok temp ->
    valid (JObj d) -> distinct (JObj d) ->
    let d' := validate t (dset String.eqb (validate t d f) (key_of b) (JObj temp)) f in valid (JObj d') /\ distinct (JObj d').
  Proof.
    intros F R V D d'. destruct (merged_get t d f b temp) as (C & K & O). fold d' in C, K, O.
    rewrite valid_obj in V. rewrite distinct_obj in D. destruct D as [ND D].
    assert (N : NoDup (map fst d')) by (apply validate_nodup, nodup_dset, validate_nodup; auto).
    pose proof (renamed_valid _ _ _ _ R F) as RV. destruct (renamed_keys _ _ _ _ R keyDict_nodup) as [RN _]. rewrite Forall_forall in RV.
    assert (G : forall k v, In (k, v) d' -> valid v /\ distinct v).
    { intros k v I. apply (In_dget String.eqb String.eqb_eq) in I; auto. unfold get in *.
      destruct (string_dec k (key_of b)) as [->|NK].
      - rewrite K in I. inv I. split; [apply valid_obj|apply distinct_obj; split; auto]; intros k' v' I'; destruct (RV _ I') as (x & X & FT); cbn in X; subst v'; [exact FT|exact Logic.I].
      - destruct (in_dec string_dec k (hash_names t)) as [IH|NH].
        + destruct C as [C1 C2]. unfold get in *. assert (X : exists h, v = hash_value h).
          { destruct t; cbn in IH; repeat destruct IH as [<-|IH]; try tauto; rewrite ?C1, ?C2 in I by auto; inv I; eauto. }
          destruct X as [[h|] ->]; cbn; auto.
        + destruct (O k NK NH) as [O1 O2]. destruct (carries_b t d f) eqn:CB.
          * apply carries_b_spec in CB. rewrite (O1 CB) in I. apply (dget_In String.eqb String.eqb_eq) in I. split; [eapply V|eapply D]; eauto.
          * rewrite O2 in I; [discriminate|]. intros X. apply carries_b_spec in X. congruence. }
    split; [apply valid_obj|apply distinct_obj; split; auto]; intros k v I; apply (G k v I).
  Qed.
End Run.
