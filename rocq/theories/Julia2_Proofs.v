(** Histories of several processes. *)
From Coq Require Import QArith.
From Verif Require Import Common Common_Proofs PyStr_Model PyStr_Proofs Json_Model Json_Spec Json_Proofs Json5_Proofs FileStruct_Model FileStruct_Proofs Julia_Model Julia_Spec Julia_Proofs.
Local Open Scope string_scope.
Local Open Scope nat_scope.

Definition kind (t : task) : bool := match t with Sampling => true | _ => false end.

Lemma valid_obj d : valid (JObj d) <-> forall k v, In (k, v) d -> valid v.
Proof.
  unfold valid. rewrite every_obj. split.
  - intros [_ F] k v I. rewrite Forall_forall in F. apply (F (k, v)) in I. tauto.
  - intros F. split; auto. rewrite Forall_forall. intros [k v] I. split; auto. eapply F; eauto.
Qed.
Lemma distinct_obj d : distinct (JObj d) <-> NoDup (map fst d) /\ forall k v, In (k, v) d -> distinct v.
Proof.
  unfold distinct. rewrite every_obj. split.
  - intros [N F]. split; auto. intros k v I. rewrite Forall_forall in F. apply (F (k, v)) in I. tauto.
  - intros [N F]. split; auto. rewrite Forall_forall. intros [k v] I. split; auto. eapply F; eauto.
Qed.

Section History.
  Variable py_float : string -> res string.
  Hypothesis float_ok : forall s x, py_float s = Ok x -> float_text x.
  Variable H : string -> string.
  Variable w0 : world.
  Variable dst : string.
  Variable sampling : bool.
  Hypothesis no_procs : forall i, procs w0 i = None.
  Hypothesis no_file : files w0 dst = None.

  Notation after := (run py_float w0).

  Definition proper (evs : list event) : Prop :=
    (forall p c, In (Edit p c) evs -> p <> dst) /\
    (forall pre i f t b post, evs = (pre ++ Start i f t b :: post)%list -> target f t = Ok dst ->
       t <> Original /\ kind t = sampling /\ exists cv cr, fresh H (files (after pre)) f cv cr).

  (** the dictionary is well formed, carries h (and h'), and its entries are
      computed for models with these hashes *)
  Definition entries (evs : list event) (d : list (string * json)) (h h' : string) : Prop :=
    NoDup (map fst d) /\
    dget String.eqb d "hash_vib" = Some (JStr h) /\ (sampling = true -> dget String.eqb d "hash_rho" = Some (JStr h')) /\
    forall k v, dget String.eqb d k = Some v -> k <> "hash_vib" -> (sampling = true -> k <> "hash_rho") ->
      valid v /\ distinct v /\
      exists pre f t cv cr, computed py_float evs dst k v pre f t /\ t <> Original /\ kind t = sampling /\
        fresh H (files (after pre)) f cv cr /\ H cv = h /\ (sampling = true -> H cr = h').

  Lemma computed_app evs l k v pre f t : computed py_float evs dst k v pre f t -> computed py_float (evs ++ l) dst k v pre f t.
  Proof.
    intros (i & b & mid & out & err & post & names & temp & -> & R). exists i, b, mid, out, err, (post ++ l)%list, names, temp.
    split; auto. rewrite <- !app_assoc. cbn [app]. rewrite <- !app_assoc. reflexivity.
  Qed.
  Lemma entries_app evs l d h h' : entries evs d h h' -> entries (evs ++ l) d h h'.
  Proof.
    intros (N & A & B & C). repeat split; auto; intros; edestruct C as (V & D & pre & f & t & cv & cr & X & R); eauto.
    exists pre, f, t, cv, cr. split; auto. apply computed_app; auto.
  Qed.
  Lemma entries_wf evs d h h' : entries evs d h h' -> valid (JObj d) /\ distinct (JObj d).
  Proof.
    intros (N & A & B & C).
    assert (G : forall k v, In (k, v) d -> valid v /\ distinct v).
    { intros k v I. apply (In_dget String.eqb String.eqb_eq) in I; auto.
      destruct (string_dec k "hash_vib") as [->|N1]. { rewrite A in I. injection I as <-. cbn. auto. }
      destruct sampling.
      - destruct (string_dec k "hash_rho") as [->|N2]. { rewrite B in I by auto. injection I as <-. cbn. auto. }
        edestruct C as (V & D & _); eauto.
      - edestruct C as (V & D & _); eauto. congruence. }
    split; [apply valid_obj|apply distinct_obj]; [|split; auto]; intros k v I; apply (G k v I).
  Qed.
  (** the file read back *)
  Lemma begin_of evs fs f t d0 : kind t = sampling -> t <> Original ->
    (fs dst = None \/ exists d h h', fs dst = Some (dumps (JObj d)) /\ entries evs d h h') ->
    begin_run fs f t dst = Ok d0 -> forall cv cr, hash_vib f = Some (H cv) -> hash_rho f = Some (H cr) ->
    entries evs d0 (H cv) (H cr).
  Proof.
    intros K NO S B cv cr HV HR. unfold begin_run, old_data in B. destruct S as [S|(d & h & h' & S & E)]; rewrite S in B.
    - cbn [bind] in B. injection B as <-. split; [apply validate_nodup; constructor|].
      split; [rewrite validate_get, HV; reflexivity|]. split.
      { intros ->. destruct t; try discriminate K. rewrite validate_get, HR. reflexivity. }
      intros k v G N1 N2. rewrite validate_get in G. apply String.eqb_neq in N1. rewrite N1 in G.
      destruct t; try discriminate; cbn [kind] in K; subst sampling;
        try (specialize (N2 eq_refl); apply String.eqb_neq in N2; rewrite N2 in G);
        match type of G with context [if ?b then _ else _] => destruct b end; discriminate.
    - destruct (entries_wf _ _ _ _ E) as [V D].
      assert (L : loads (dumps (JObj d)) = Ok (JObj d)) by (apply loads_dumps; auto).
      replace (1 <? String.length (dumps (JObj d))) with true in B.
      2:{ symmetry. apply Nat.ltb_lt. unfold dumps. cbn [write]. rewrite !append_length. cbn [String.length]. lia. }
      rewrite L in B. cbn [bind] in B. injection B as <-. destruct E as (N & A & Bq & C).
      split; [apply validate_nodup; auto|].
      split; [rewrite validate_get, HV; reflexivity|]. split.
      { intros ->. destruct t; try discriminate. rewrite validate_get, HR. reflexivity. }
      intros k v G N1 N2. rewrite validate_get in G. pose proof N1 as N1'. apply String.eqb_neq in N1'. rewrite N1' in G. clear N1'.
      assert (G2 : (if carries_b t d f then dget String.eqb d k else None) = Some v).
      { destruct t; try discriminate; auto. cbn [kind] in K. specialize (N2 (eq_sym K)). apply String.eqb_neq in N2. rewrite N2 in G. exact G. }
      destruct (carries_b t d f) eqn:CB; [|discriminate]. apply carries_b_spec in CB. destruct CB as [C1 C2]. unfold get in *.
      rewrite A, HV in C1. injection C1 as ->. edestruct C as (Vv & Dv & pre & f' & t' & cv' & cr' & X & NO' & K' & F & E1 & E2); eauto.
      split; auto. split; auto. exists pre, f', t', cv', cr'. repeat split; auto; try apply F; try congruence.
      intros S1. rewrite (E2 S1). assert (T : t = Sampling) by (destruct t; try congruence; cbn in K; congruence).
      specialize (C2 T). rewrite (Bq S1), HR in C2. injection C2 as ->. auto.
  Qed.
  Lemma end_ok f t b d out err text : end_run py_float f t b d out err = Ok text ->
    exists d1, compute py_float out err d b = Ok (Some d1) /\ text = dumps (JObj (validate t d1 f)).
  Proof.
    unfold end_run. intros R. apply bind_ok in R. destruct R as (x & E & R). destruct x as [d1|]; [|discriminate].
    exists d1. split; [exact E|]. congruence.
  Qed.
  Lemma compute_ok out err d b d1 : compute py_float out err d b = Ok (Some d1) ->
    exists names temp, parse_output out = Ok names /\ names <> [] /\ renamed py_float keyDict names = Ok temp /\
      d1 = dset String.eqb d (key_of b) (JObj temp).
  Proof.
    unfold compute. destruct (contains "Killed" err); [discriminate|].
    destruct (parse_output out) as [names|]; cbn [bind]; [|discriminate].
    destruct names as [|n0 names]; [discriminate|]. set (nn := n0 :: names). unfold convert_keys.
    destruct (renamed py_float keyDict nn) as [temp|] eqn:R; cbn [bind]; [|discriminate]. intros E.
    exists nn, temp. split; [reflexivity|]. split; [discriminate|]. split; [exact R|]. congruence.
  Qed.
  Lemma end_of evs pre i f t b mid d out err text cv cr :
    evs = (pre ++ Start i f t b :: mid)%list -> Forall (other i) mid -> target f t = Ok dst -> t <> Original -> kind t = sampling ->
    fresh H (files (after pre)) f cv cr -> entries evs d (H cv) (H cr) ->
    end_run py_float f t b d out err = Ok text ->
    exists d', text = dumps (JObj d') /\ entries (evs ++ [Finish i out err]) d' (H cv) (H cr).
  Proof.
    intros -> O T NO K FR E R. apply end_ok in R. destruct R as (d1 & E0 & ->).
    apply compute_ok in E0. destruct E0 as (names & temp & E1 & NE & E0 & ->).
    set (d2 := dset String.eqb d (key_of b) (JObj temp)) in *.
    exists (validate t d2 f). split; auto. destruct E as (N & A & B & C). destruct FR as (F1 & F2 & F3 & F4).
    destruct (key_not_hash b) as [K1 K2].
    assert (CB : carries_b t d2 f = true).
    { apply carries_b_spec. unfold carries, get, d2. rewrite !get_dset.
      apply not_eq_sym in K1. apply not_eq_sym in K2. apply String.eqb_neq in K1. apply String.eqb_neq in K2. rewrite K1, K2, F2, F4.
      split; auto. intros ->. apply B. cbn in K. auto. }
    split; [apply validate_nodup, nodup_dset; auto|].
    split; [rewrite validate_get, F2; reflexivity|]. split.
    { intros S. assert (T' : t = Sampling) by (destruct t; try congruence; cbn in K; congruence). subst t. rewrite validate_get, F4. reflexivity. }
    intros k v G N1 N2. rewrite validate_get, CB in G. pose proof N1 as N1'. apply String.eqb_neq in N1'. rewrite N1' in G. clear N1'.
    assert (G2 : dget String.eqb d2 k = Some v).
    { destruct t; try exact G. cbn [kind] in K. specialize (N2 (eq_sym K)). apply String.eqb_neq in N2. rewrite N2 in G. exact G. }
    unfold d2 in G2. rewrite get_dset in G2. destruct (String.eqb_spec k (key_of b)) as [->|NK].
    - injection G2 as <-. pose proof (renamed_valid _ _ _ _ E0 float_ok) as RV. destruct (renamed_keys _ _ _ _ E0 keyDict_nodup) as [RN _].
      rewrite Forall_forall in RV. split; [|split].
      + apply valid_obj. intros k' v' I. destruct (RV _ I) as (x & X & FT). cbn in X. subst v'. exact FT.
      + apply distinct_obj. split; auto. intros k' v' I. destruct (RV _ I) as (x & X & FT). cbn in X. subst v'. exact Logic.I.
      + exists pre, f, t, cv, cr. split; [|repeat split; auto].
        exists i, b, mid, out, err, [], names, temp. repeat split; auto. rewrite <- app_assoc. reflexivity.
    - edestruct C as (Vv & Dv & pre' & f' & t' & cv' & cr' & X & R); eauto. split; auto. split; auto.
      exists pre', f', t', cv', cr'. split; auto. apply computed_app; auto.
  Qed.

  Lemma proper_app evs l : proper (evs ++ l) -> proper evs.
  Proof.
    intros [A B]. split; [intros p c I; apply (A p c), in_or_app; auto|].
    intros pre i f t b post -> T. apply (B pre i f t b (post ++ l)%list); auto. rewrite <- app_assoc. reflexivity.
  Qed.
  Lemma run_app l1 l2 : after (l1 ++ l2) = run py_float (after l1) l2.
  Proof. apply fold_left_app. Qed.

  Lemma invariant evs : proper evs ->
    (files (after evs) dst = None \/ exists d cv cr, files (after evs) dst = Some (dumps (JObj d)) /\ entries evs d (H cv) (H cr)) /\
    (forall i p, procs (after evs) i = Some p -> p_dst p = dst ->
       exists pre mid cv cr, evs = (pre ++ Start i (p_fs p) (p_task p) (p_beta p) :: mid)%list /\ Forall (other i) mid /\
         target (p_fs p) (p_task p) = Ok dst /\ p_task p <> Original /\ kind (p_task p) = sampling /\
         fresh H (files (after pre)) (p_fs p) cv cr /\ entries evs (p_dict p) (H cv) (H cr)).
  Proof.
    induction evs as [|e evs IH] using rev_ind; intros P.
    - split; [left; exact no_file|]. intros i p E. cbn in E. rewrite no_procs in E. discriminate.
    - specialize (IH (proper_app _ _ P)). destruct IH as [IF IP]. rewrite run_app. cbn [run fold_left].
      assert (IF' : files (after evs) dst = None \/ exists d cv cr, files (after evs) dst = Some (dumps (JObj d)) /\ entries (evs ++ [e]) d (H cv) (H cr)).
      { destruct IF as [?|(d & h & h' & ? & ?)]; auto. right. exists d, h, h'. split; auto. apply entries_app; auto. }
      assert (IP' : forall i p, other i e -> procs (after evs) i = Some p -> p_dst p = dst ->
       exists pre mid cv cr, (evs ++ [e])%list = (pre ++ Start i (p_fs p) (p_task p) (p_beta p) :: mid)%list /\ Forall (other i) mid /\
         target (p_fs p) (p_task p) = Ok dst /\ p_task p <> Original /\ kind (p_task p) = sampling /\
         fresh H (files (after pre)) (p_fs p) cv cr /\ entries (evs ++ [e]) (p_dict p) (H cv) (H cr)).
      { intros i p O E1 E2. destruct (IP i p E1 E2) as (pre & mid & cv & cr & X1 & X2 & X3 & X4 & X5 & X6 & X7).
        exists pre, (mid ++ [e])%list, cv, cr. split; [rewrite X1, <- app_assoc; reflexivity|].
        split; [apply Forall_app; split; auto|]. split; [exact X3|]. split; [exact X4|]. split; [exact X5|]. split; [exact X6|]. apply entries_app; exact X7. }
      destruct e as [p c|i f t b|i out err]; cbn [step files procs].
      + split; [|intros; apply IP'; auto; exact I].
        unfold set_file. assert (N : p <> dst) by (apply (proj1 P p c); apply in_or_app; cbn; auto).
        apply not_eq_sym, String.eqb_neq in N. rewrite N. exact IF'.
      + split; [exact IF'|]. intros j p E1 E2. unfold set_proc in E1. destruct (Nat.eqb_spec j i) as [->|NJ].
        2:{ apply IP'; auto. cbn. auto. }
        destruct (target f t) as [d1|] eqn:T; cbn [bind] in E1; [|discriminate].
        destruct (begin_run (files (after evs)) f t d1) as [d0|] eqn:BR; cbn [bind] in E1; [|discriminate].
        injection E1 as <-. cbn [p_dst] in E2. cbn [p_fs p_task p_beta p_dict] in *. subst d1.
        destruct (proj2 P evs i f t b [] eq_refl T) as (NO & K & cv & cr & FR).
        exists evs, [], cv, cr. split; auto. split; auto. split; auto. split; auto. split; auto. split; auto.
        eapply begin_of; [eauto|eauto| |eauto|apply FR|apply FR]. destruct IF' as [?|(d1 & cv1 & cr1 & ? & ?)]; eauto 8.
      + destruct (procs (after evs) i) as [p|] eqn:PI.
        2:{ split; auto. intros j p E1 E2. apply IP'; auto. cbn. intros <-. congruence. }
        split.
        2:{ intros j q E1 E2. cbn [procs] in E1. unfold set_proc in E1. destruct (Nat.eqb_spec j i) as [->|NJ]; [discriminate|]. apply IP'; auto. cbn. auto. }
        cbn [files].
        destruct (end_run py_float (p_fs p) (p_task p) (p_beta p) (p_dict p) out err) as [text|] eqn:ER; [|exact IF'].
        unfold set_file. destruct (String.eqb_spec dst (p_dst p)) as [ED|ND]; [|exact IF'].
        right. destruct (IP i p PI (eq_sym ED)) as (pre & mid & cv & cr & X1 & X2 & X3 & X4 & X5 & X6 & X7).
        destruct (end_of _ _ _ _ _ _ _ _ _ _ _ _ _ X1 X2 X3 X4 X5 X6 X7 ER) as (d' & -> & EN). exists d', cv, cr. auto.
  Qed.
End History.
