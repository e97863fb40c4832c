From Coq Require Import QArith Qabs FinFun.
From Verif Require Import Common Common_Proofs Arr_Model Arr_Proofs ModelIO_Model ModelIO_Spec ModelIO_Proofs ModelIO_Props ModelOp_Model ModelOp_Proofs ModelOp_Props Import_Model.
Local Open Scope nat_scope.
Local Open Scope list_scope.

(** the entries before those that are zero everywhere are dropped *)
Definition full (l : listing) : list (vmk * opval) :=
  [(N_, OInt (length (l_w l))); (A_, OInt (length (l_E l))); (E_, OMat (energy_matrix (l_E l))); (w_, OVec (l_w l));
   (G1_, OCoup 1 (complete_linear (length (l_E l)) (l_1 l))); (G2_, OCoup 2 (complete_higher (length (l_E l)) (l_2 l)));
   (G3_, OCoup 3 (complete_higher (length (l_E l)) (l_3 l))); (G4_, OCoup 4 (complete_higher (length (l_E l)) (l_4 l)))].
Definition entry_at (v : opval) (idx : list nat) : Q :=
  match v with
  | OInt _ => 0%Q
  | OVec w => nth (nth 0 idx 0) w 0%Q
  | OMat e => e (nth 0 idx 0) (nth 1 idx 0)
  | OCoup k t => t (firstn k idx) (nth k idx 0) (nth (k + 1) idx 0)
  end.

Section L.
  Variable l : listing.
  Variable vint : Q -> res Z.
  Let N := length (l_w l).
  Let A := length (l_E l).
  Definition dict := map (op_entry N A) (zero_free l).

  Lemma dict_has k v : has dict k v <-> exists m o, k = KV m /\ In (m, o) (full l) /\ all_zero N A o = false /\ v = snd (op_entry N A (m, o)).
  Proof.
    unfold has, dict. rewrite in_map_iff. split.
    - intros ([m o] & E & I). apply in_zero_free in I. destruct I as [Z I]. injection E as <- <-. exists m, o. auto.
    - intros (m & o & -> & I & Z & ->). exists (m, o). split; [reflexivity|]. apply in_zero_free. auto.
  Qed.
  Lemma full_fun m o o' : In (m, o) (full l) -> In (m, o') (full l) -> o = o'.
  Proof.
    assert (ND : NoDup (map fst (full l))) by (cbn; repeat constructor; cbn; intuition discriminate).
    intros I J. revert ND I J. generalize (full l). intros q. induction q as [|[k v] q IH]; cbn; [tauto|].
    intros ND [E|I] [F|J]; inversion_clear ND as [|? ? X Y].
    - congruence.
    - injection E as -> ->. destruct X. apply (in_map fst) in J. exact J.
    - injection F as -> ->. destruct X. apply (in_map fst) in I. exact I.
    - auto.
  Qed.
  Lemma dict_fine : dict_ok dict /\ known_keys dict /\ serialisable dict.
  Proof.
    split; [split|split].
    - unfold dict. rewrite map_map. cbn [fst op_entry]. rewrite <- map_map with (f := fst) (g := KV). apply FinFun.Injective_map_NoDup; [intros x y E; congruence|].
      unfold zero_free. assert (ND : NoDup (map fst (full l))) by (cbn; repeat constructor; cbn; intuition discriminate).
      revert ND. unfold full. fold A N. match goal with |- NoDup (map fst ?q) -> NoDup (map fst (filter ?p ?q)) => generalize p q end. clear.
      intros p q. induction q as [|x q IH]; cbn; [constructor|]. intros ND. inversion_clear ND as [|? ? X Y].
      destruct (p x); cbn; [|auto]. constructor; [|auto]. intros I. apply X. apply in_map_iff in I. destruct I as (y & E & I). apply filter_In in I. rewrite <- E. apply in_map, I.
    - intros k a H. apply dict_has in H. destruct H as (m & o & _ & I & _ & E). destruct o; cbn in E; try discriminate; injection E as ->; try apply wf_abuild.
      unfold wf_arr. cbn. lia.
    - intros k v H. apply dict_has in H. destruct H as (m & _ & -> & _). eauto.
    - intros k v H. apply dict_has in H. destruct H as (m & o & -> & _ & _ & ->). destruct o; discriminate.
  Qed.
  Lemma full_shape m o s : In (m, o) (full l) -> spec_shape Coupled (Z.of_nat A) (Z.of_nat N) m = Some s ->
    exists a, snd (op_entry N A (m, o)) = PArr a /\ map Z.of_nat (shape a) = s /\ wf_arr a /\
      forall idx, inb (shape a) idx -> aget a idx = Some (entry_at o idx).
  Proof.
    intros I S. cbn in I. repeat (destruct I as [I|I]; [injection I as <- <-|]); try contradiction; try discriminate; injection S as <-; (eexists; split; [reflexivity|]).
    1, 3, 4, 5, 6: (split; [reflexivity|]; split; [apply wf_abuild|]; intros idx H; rewrite aget_abuild by exact H; reflexivity).
    split; [reflexivity|]. split; [unfold wf_arr; cbn; lia|]. intros idx H. inversion H as [|i n t u Hi Ht]; subst. inversion Ht; subst.
    unfold aget. cbn [shape offset data entry_at nth prodn fold_right]. replace (i <? length (l_w l)) with true by (symmetry; apply Nat.ltb_lt; auto). rewrite Nat.mul_1_r, Nat.add_0_r. apply nth_error_nth'. auto.
  Qed.
  Lemma dict_valid : 0 < N -> 0 < A -> valid vint Coupled (Z.of_nat A) (Z.of_nat N) dict.
  Proof.
    intros HN HA. split; [split|].
    - exists (PInt (Z.of_nat N)). split; [|constructor]. apply dict_has. exists N_, (OInt N). split; auto. split; [left; reflexivity|]. split; [|reflexivity]. cbn. apply Nat.eqb_neq. lia.
    - exists (PInt (Z.of_nat A)). split; [|constructor]. apply dict_has. exists A_, (OInt A). split; auto. split; [right; left; reflexivity|]. split; [|reflexivity]. cbn. apply Nat.eqb_neq. lia.
    - intros m v s H S. apply dict_has in H. destruct H as (m' & o & E & I & _ & ->). injection E as <-. destruct (full_shape m o s I S) as (a & E & H & _). eauto.
  Qed.
  Lemma full_all m : exists o, In (m, o) (full l).
  Proof. destruct m; cbn; eauto 20. Qed.
  Lemma zero_entry m o s idx : In (m, o) (full l) -> spec_shape Coupled (Z.of_nat A) (Z.of_nat N) m = Some (map Z.of_nat s) ->
    inb s idx -> all_zero N A o = true -> (entry_at o idx == 0)%Q.
  Proof.
    assert (MZ : forall s t, map Z.of_nat s = map Z.of_nat t -> s = t).
    { clear. induction s as [|x s IH]; intros [|y t]; cbn; try discriminate; auto. intros E. injection E as E1 E2. apply IH in E2. f_equal; [lia|exact E2]. }
    assert (CP : forall k t, inb (repeat N k ++ [A; A]) idx -> all_zero N A (OCoup k t) = true -> (entry_at (OCoup k t) idx == 0)%Q).
    { intros k t IB Z. cbn [all_zero] in Z. apply all_entries_spec with (m := firstn k idx) (a := nth k idx 0) (b := nth (k + 1) idx 0) in Z; [apply Qeq_bool_iff; exact Z| | | |]; clear Z;
        unfold inb in IB; apply Forall2_app_inv_r in IB; destruct IB as (i1 & i2 & F1 & F2 & ->); assert (LL := F1); apply Forall2_length in LL; rewrite repeat_length in LL; subst k;
        inversion F2 as [|a ? t1 ? Ha F3]; subst; inversion F3 as [|b ? t2 ? Hb F4]; subst; inversion F4; subst.
      - rewrite firstn_length, app_length. cbn. lia.
      - rewrite firstn_app, firstn_all, Nat.sub_diag, app_nil_r. clear -F1. revert F1. generalize (length i1). intros n. revert i1. induction n as [|n IH]; intros i1 F; inversion F; subst; constructor; auto.
      - rewrite app_nth2, Nat.sub_diag by lia. exact Ha.
      - rewrite app_nth2 by lia. replace (length i1 + 1 - length i1) with 1 by lia. exact Hb. }
    intros I S IB Z. cbn [full In] in I.
    destruct I as [I|[I|[I|[I|[I|[I|[I|[I|[]]]]]]]]]; injection I as <- <-; try discriminate; injection S as S.
    - rewrite <- (MZ [A; A] s S) in IB. inversion IB as [|a ? t1 ? Ha F3]; subst. inversion F3 as [|b ? t2 ? Hb F4]; subst. inversion F4; subst.
      cbn [all_zero] in Z. rewrite forallb_forall in Z. specialize (Z (a, b) (proj2 (in_pairs _ _ _) (conj Ha Hb))). apply Qeq_bool_iff in Z. exact Z.
    - rewrite <- (MZ [N] s S) in IB. inversion IB as [|i ? t1 ? Hi F3]; subst. inversion F3; subst.
      cbn [all_zero] in Z. rewrite forallb_forall in Z. cbn [entry_at nth]. apply Qeq_bool_iff. apply Z. apply nth_In. exact Hi.
    - rewrite <- (MZ [N; A; A] s S) in IB. apply CP; [exact IB|exact Z].
    - rewrite <- (MZ [N; N; A; A] s S) in IB. apply CP; [exact IB|exact Z].
    - rewrite <- (MZ [N; N; N; A; A] s S) in IB. apply CP; [exact IB|exact Z].
    - rewrite <- (MZ [N; N; N; N; A; A] s S) in IB. apply CP; [exact IB|exact Z].
  Qed.

  Lemma loaded f vib : 0 < N -> 0 < A ->
    exists f' d', save is_zero vint Coupled f vib dict = (f', Ok tt) /\ (forall p, p <> vib -> f' p = f p) /\
      load_new 0%Q vint Coupled f' vib = Ok d' /\ valid vint Coupled (Z.of_nat A) (Z.of_nat N) d' /\
      (forall v, has d' (KV N_) v <-> v = PInt (Z.of_nat N)) /\ (forall v, has d' (KV A_) v <-> v = PInt (Z.of_nat A)) /\
      forall m o s idx, In (m, o) (full l) -> spec_shape Coupled (Z.of_nat A) (Z.of_nat N) m = Some (map Z.of_nat s) -> inb s idx ->
        exists x, reads 0%Q d' m idx x /\ (x == entry_at o idx)%Q.
  Proof.
    intros HN HA. destruct dict_fine as (D1 & D2 & D3). pose proof (dict_valid HN HA) as D4.
    destruct (C01_coupled_save_load Q 0%Q is_zero vint f vib dict (Z.of_nat A) (Z.of_nat N) D1 D2 D3 D4 ltac:(left; lia)) as (f' & d' & SV & FR & LD & DO & VA & KK & RT).
    pose proof (C01_same_numbers Q 0%Q is_zero vint _ _ dict d' eq_refl D1 DO D4 RT) as (S1 & S2 & S3).
    exists f', d'. split; [exact SV|]. split; [exact FR|]. split; [exact LD|]. split; [exact VA|]. split; [|split].
    - intros v. rewrite <- S1, dict_has. split.
      + intros (m & o & E & I & _ & ->). injection E as <-. rewrite (full_fun _ _ _ I (or_introl eq_refl : In (N_, OInt N) (full l))). reflexivity.
      + intros ->. exists N_, (OInt N). repeat split; [left; reflexivity|cbn; apply Nat.eqb_neq; lia].
    - intros v. rewrite <- S2, dict_has. split.
      + intros (m & o & E & I & _ & ->). injection E as <-. rewrite (full_fun _ _ _ I (or_intror (or_introl eq_refl) : In (A_, OInt A) (full l))). reflexivity.
      + intros ->. exists A_, (OInt A). repeat split; [right; left; reflexivity|cbn; apply Nat.eqb_neq; lia].
    - intros m o s idx I S IB.
      assert (MZ : forall s t, map Z.of_nat s = map Z.of_nat t -> s = t).
      { clear. induction s as [|x s IH]; intros [|y t]; cbn; try discriminate; auto. intros E. injection E as E1 E2. apply IH in E2. f_equal; [lia|exact E2]. }
      assert (I6 : In m [E_; w_; G1_; G2_; G3_; G4_]) by (destruct m; cbn; try discriminate; auto 10).
      assert (RX : exists x, reads 0%Q d' m idx x).
      { assert (DC : (exists v, has d' (KV m) v) \/ (forall v, ~ has d' (KV m) v)).
        { destruct (mget d' (KV m)) as [v|] eqn:G.
          - left. exists v. apply mget_has; [apply DO|exact G].
          - right. intros v H. apply mget_has in H; [congruence|apply DO]. }
        destruct DC as [[v H]|H]; [|exists 0%Q; apply reads_missing; exact H].
        destruct VA as [_ VA]. destruct (VA _ _ _ H S) as (a & -> & SH). apply MZ in SH.
        destruct (aget_some a idx) as [x X]; [apply DO in H; exact H|rewrite SH; exact IB|]. exists x. eapply reads_arr; eauto. }
      destruct RX as [x X]. exists x. split; [exact X|].
      assert (RY : exists y, reads 0%Q dict m idx y /\ (y == entry_at o idx)%Q).
      { destruct (all_zero N A o) eqn:Z.
        - exists 0%Q. split; [|symmetry; eapply zero_entry; eauto]. apply reads_missing. intros v H. apply dict_has in H.
          destruct H as (m' & o' & E & I' & Z' & _). injection E as <-. rewrite (full_fun _ _ _ I' I) in Z'. congruence.
        - destruct (full_shape m o _ I S) as (a & E & SH & _ & AG). exists (entry_at o idx). split; [|reflexivity]. eapply reads_arr with (a := a).
          + apply dict_has. exists m, o. repeat split; auto.
          + apply AG. apply MZ in SH. rewrite SH. exact IB. }
      destruct RY as (y & Y1 & Y2). rewrite <- Y2. destruct (S3 m idx y x I6 Y1 X) as [->|[Z1 Z2]]; [reflexivity|].
      apply Qeq_bool_iff in Z1, Z2. rewrite Z1, Z2. reflexivity.
  Qed.
End L.
