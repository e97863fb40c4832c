(** More proofs about ModelIO_Model.v: key conversion, unknown keys, other
    dimensions, removal of couplings. *)
From Verif Require Import Common Common_Proofs Arr_Model Arr_Proofs ModelIO_Model ModelIO_Spec ModelIO_Proofs.

Section P.
  Context {V : Type}.
  Variable zero : V.
  Variable isz : V -> bool.
  Variable vint : V -> res Z.
  Variable v_of_int : Z -> V.

  Notation valid := (valid vint).
  Notation verify := (verify vint).

  (** ---- keys ---- *)
  Theorem key_conversion_roundtrip (d : mdict V) :
    NoDup (map fst d) -> known_keys d -> string_to_enum (enum_to_string d) = Ok d.
  Proof.
    intros ND KK. destruct (known_kv KK) as [l ->]. apply NoDup_kv in ND.
    rewrite enum_to_string_kv; auto. apply string_to_enum_ks; auto.
  Qed.

  (** the text form really uses the text of each key *)
  Theorem enum_to_string_spec (d : mdict V) :
    NoDup (map fst d) -> known_keys d ->
    forall k v, has (enum_to_string d) k v <-> exists m, k = KS (vmk_value m) /\ has d (KV m) v.
  Proof.
    intros ND KK. destruct (known_kv KK) as [l ->]. apply NoDup_kv in ND.
    rewrite enum_to_string_kv; auto. intros k v. unfold has at 1, ks_dict. rewrite in_map_iff. split.
    - intros ([m v'] & H & Hin). inv H. exists m. split; auto. apply has_kv; auto.
    - intros (m & -> & H). apply has_kv in H. exists (m, v). auto.
  Qed.

  Lemma enum_to_string_other (d : mdict V) s v :
    (forall m, s <> vmk_value m) -> NoDup (map fst d) -> has d (KS s) v -> has (enum_to_string d) (KS s) v.
  Proof.
    intros Hs ND Hh. unfold enum_to_string.
    assert (forall (l acc : mdict V), mget acc (KS s) = Some v ->
      mget (fold_left (fun acc kv => match fst kv with
                 | KV m => mdel (mset acc (KS (vmk_value m)) (snd kv)) (KV m)
                 | KS _ => acc end) l acc) (KS s) = Some v) as G.
    { induction l as [|[k w] l IH]; intros acc Ha; simpl; auto. apply IH. destruct k as [m|t]; auto.
      unfold mget, mdel, mset in *. rewrite dget_ddel_other; [|apply key_eqb_eq|discriminate].
      rewrite dget_dset_other; auto; [apply key_eqb_eq|]. intros H. inv H. eapply Hs; eauto. }
    specialize (G d d). rewrite mget_has in G; auto. specialize (G Hh).
    unfold mget in G. apply dget_In in G; auto. apply key_eqb_eq.
  Qed.

  (** a file with an unknown key cannot be loaded *)
  Theorem load_unknown_key (f : fs V) path k o s j :
    f path = Some (CJson o) -> In (s, j) o -> (forall m, s <> vmk_value m) ->
    load_new zero vint k f path = Raise ValueError /\
    (forall d, verify k d = Ok tt -> load_into zero vint v_of_int k f path d = (d, Raise ValueError)).
  Proof.
    intros Hf Hin Hs.
    assert (In (KS s, j) (map (fun sj : string * jval V => (KS (fst sj), snd sj)) o)) as Hin'
      by (apply in_map_iff; exists (s, j); auto).
    split.
    - unfold load_new, load_raw, read_json. rewrite Hf. simpl bind.
      rewrite (@string_to_enum_unknown _ _ s j Hin' Hs). auto.
    - intros d Hd. unfold load_into. rewrite Hd. unfold load_inplace_raw, read_json. rewrite Hf. simpl bind.
      rewrite (@string_to_enum_unknown _ _ s j Hin' Hs). auto.
  Qed.

  Lemma dumps_In (d : list (key * (jval V + pval V))) o k v :
    dumps d = Ok o -> In (k, v) d -> exists s j, k = KS s /\ dumps_value v = Ok j /\ In (s, j) o.
  Proof.
    revert o. induction d as [|[k1 v1] d IH]; simpl; intros o H Hin; [easy|].
    destruct k1 as [m|s]; simpl in H; try discriminate.
    destruct (dumps_value v1) as [j|] eqn:EV; simpl in H; try discriminate.
    destruct (dumps d) as [r|] eqn:ED; simpl in H; try discriminate. inv H.
    destruct Hin as [Hin|Hin].
    - inv Hin. exists s, j. simpl. auto.
    - destruct (IH _ eq_refl Hin) as (s' & j' & H1 & H2 & H3). exists s', j'. simpl. auto.
  Qed.

  (** such a file is nevertheless written: the save functions accept additional
      keys, and unless the value is an all-zero array the file that results can
      not be loaded any more *)
  Theorem save_extra_key_unloadable f f' path k d s v :
    dict_ok d -> has d (KS s) v -> (forall m, s <> vmk_value m) ->
    (forall a, v = PArr a -> some_nonzero isz a) ->
    save isz vint k f path d = (f', Ok tt) ->
    load_new zero vint k f' path = Raise ValueError.
  Proof.
    intros [ND W] Hh Hs Hnz Hsv. unfold save in Hsv. destruct (verify k d) as [[]|]; [|inv Hsv].
    unfold save_raw in Hsv. destruct (dumps (strip_arrays isz (enum_to_string d))) as [o|] eqn:ED; inv Hsv.
    assert (exists x, In (KS s, x) (strip_arrays isz (enum_to_string d))) as [x Hx].
    { pose proof (enum_to_string_other d s v Hs ND Hh) as H2.
      unfold strip_arrays. destruct v as [z|y|a| |];
        try (eexists; apply in_flat_map; eexists; split; [exact H2|]; simpl; left; reflexivity).
      exists (inl (jlist_of (tolist a))). apply in_flat_map. exists (KS s, PArr a). split; auto. simpl.
      assert (any_nonzero isz a = true) as -> by (apply any_nonzero_spec; auto). left; auto. }
    destruct (dumps_In _ _ _ _ ED Hx) as (s' & j & H1 & _ & H3). inv H1.
    assert (fs_write (fs_write f path CText) path (CJson o) path = Some (CJson o)) as Hp
      by (unfold fs_write; rewrite String.eqb_refl; auto).
    apply (load_unknown_key _ _ k _ _ _ Hp H3 Hs).
  Qed.

  (** a verified model with a value json cannot write destroys the previous file *)
  Theorem save_unserialisable f path k d s :
    dict_ok d -> verify k d = Ok tt -> has d (KS s) PBad -> (forall m, s <> vmk_value m) ->
    exists f', save isz vint k f path d = (f', Raise TypeError) /\ f' path = Some CText.
  Proof.
    intros [ND W] Hv Hh Hs. unfold save. rewrite Hv. unfold save_raw.
    pose proof (enum_to_string_other d s PBad Hs ND Hh) as H2.
    assert (In (KS s, inr PBad) (strip_arrays isz (enum_to_string d))) as Hx
      by (unfold strip_arrays; apply in_flat_map; eexists; split; [exact H2|]; simpl; left; reflexivity).
    destruct (dumps (strip_arrays isz (enum_to_string d))) as [o|e] eqn:ED.
    - destruct (dumps_In _ _ _ _ ED Hx) as (s' & j & _ & H & _). discriminate.
    - exists (fs_write f path CText). split.
      + f_equal. f_equal. clear -ED. revert e ED.
        generalize (strip_arrays isz (enum_to_string d)) as dd. induction dd as [|[k1 v1] dd IH]; simpl; intros e H; try discriminate.
        destruct k1; simpl in H; [inv H; auto|].
        destruct (dumps_value v1) eqn:EV; simpl in H.
        * destruct (dumps dd) eqn:ED'; simpl in H; try discriminate. inv H. auto.
        * inv H. destruct v1 as [|[]]; simpl in EV; inv EV; auto.
      + unfold fs_write. rewrite String.eqb_refl. auto.
  Qed.

  (** ---- in-place load of a file for other dimensions ---- *)
  Lemma bc_ok_spec d s : bc_ok d s = true <-> Forall2 (fun y x => y = x \/ y = 1) s d.
  Proof.
    revert s; induction d; destruct s; simpl; split; intros H; try discriminate; auto; try (inv H; fail).
    - apply andb_true_iff in H. destruct H as [H1 H2]. constructor; [|apply IHd; auto].
      apply orb_true_iff in H1. rewrite !Nat.eqb_eq in H1. auto.
    - inv H. apply andb_true_iff. split; [|apply IHd; auto].
      apply orb_true_iff. rewrite !Nat.eqb_eq. auto.
  Qed.

  Lemma assign_all_same_ndim (dst src r : arr V) :
    length (shape src) = length (shape dst) -> assign_all dst src = Ok r ->
    Forall2 (fun y x => y = x \/ y = 1) (shape src) (shape dst).
  Proof.
    intros HL H. unfold assign_all, bc_align in H. rewrite HL, Nat.ltb_irrefl in H. rewrite HL, Nat.sub_diag in H.
    simpl skipn in H. destruct (bc_ok (shape dst) (shape src)) eqn:E; try discriminate.
    apply bc_ok_spec; auto.
  Qed.

  Lemma assign_all_same_ndim_ok (dst src : arr V) :
    wf_arr src -> Forall2 (fun y x => y = x \/ y = 1) (shape src) (shape dst) ->
    exists r, assign_all dst src = Ok r /\ wf_arr r /\ shape r = shape dst /\
      forall idx, inb (shape dst) idx -> aget r idx = aget src (bc_index (shape src) idx).
  Proof.
    intros W H. pose proof (Forall2_length _ _ _ H) as HL. apply bc_ok_spec in H.
    destruct (assign_all dst src) as [r|e] eqn:E.
    - exists r. split; auto. destruct (assign_all_spec dst src r W E) as (W' & S' & s & Hs & Hi).
      split; auto. split; auto. unfold bc_align in Hs. rewrite HL, Nat.ltb_irrefl in Hs. inv Hs.
      intros idx I. rewrite Hi; auto. rewrite HL, Nat.sub_diag. simpl. destruct src; auto.
    - exfalso. unfold assign_all, bc_align in E. rewrite HL, Nat.ltb_irrefl in E.
      rewrite HL, Nat.sub_diag in E. simpl skipn in E. rewrite H in E.
      destruct (opt_all _) eqn:EO; try discriminate.
      apply opt_all_none in EO. apply in_map_iff in EO. destruct EO as (idx & Hn & Hin).
      apply indices_in in Hin.
      assert (inb (shape src) (bc_index (shape src) idx)) as I by (eapply bc_index_inb; eauto).
      destruct (aget_some (mkArr (shape src) (data src)) _ W I) as [v Hv]. simpl in Hv.
      change (skipn 0 idx) with idx in Hn. congruence.
  Qed.

  Lemma load_inplace_entry_ok o d k v d' :
    load_inplace_loop zero v_of_int o d = (d', Ok tt) -> has d k v ->
    exists v', load_inplace_entry zero v_of_int o k v = Ok v' /\ has d' k v'.
  Proof.
    revert d'. induction d as [|[k1 v1] d IH]; simpl; intros d' H Hh; [easy|].
    destruct (load_inplace_entry zero v_of_int o k1 v1) as [v1'|] eqn:E; [|inv H].
    destruct (load_inplace_loop zero v_of_int o d) as [r out] eqn:EL. inv H.
    destruct Hh as [Hh|Hh].
    - inv Hh. exists v1'. split; auto. left; auto.
    - destruct (IH _ eq_refl Hh) as (v' & H1 & H2). exists v'. split; auto. right; auto.
  Qed.

  Lemma spec_shape_length k A N A' N' m s s' :
    spec_shape k A N m = Some s -> spec_shape k A' N' m = Some s' -> length s = length s'.
  Proof.
    unfold spec_shape. destruct (mode_axes m); try discriminate. intros H1 H2. inv H1. inv H2.
    rewrite !app_length, !repeat_length. auto.
  Qed.

  (** the file content seen by the in-place load *)
  Lemma saved_file_lookup f f' path k A N (d : mdict V) m a :
    dict_ok d -> known_keys d -> serialisable d -> valid k A N d ->
    save isz vint k f path d = (f', Ok tt) ->
    has d (KV m) (PArr a) -> some_nonzero isz a ->
    exists o, (do o <- read_json f' path; string_to_enum o) = Ok o /\
      dget key_eqb o (KV m) = Some (jlist_of (tolist a)) /\ to_array v_of_int (jlist_of (tolist a)) = Ok a.
  Proof.
    intros [ND W] KK S HV Hsave Ha Hnz.
    destruct (known_kv KK) as [l ->].
    assert (NoDup (map fst l)) as NDl by (apply NoDup_kv; auto).
    assert (verify k (kv_dict l) = Ok tt) as Hver by (apply verify_spec; eauto).
    destruct (@save_known V isz vint f path k _ l eq_refl NDl S Hver) as (f2 & Hs & Hf').
    rewrite Hsave in Hs. inv Hs.
    assert (f2 path = Some (CJson (map (fun p => (vmk_value (fst p), snd p)) (enc_all isz l)))) as Hp
      by (rewrite Hf', String.eqb_refl; auto).
    exists (kv_dict (enc_all isz l)). split.
    { rewrite (read_json_saved isz _ _ _ Hp). simpl bind.
      apply string_to_enum_ks, enc_all_NoDup; auto. }
    split.
    - apply In_dget; [apply key_eqb_eq|apply NoDup_kv, enc_all_NoDup; auto|]. unfold kv_dict. apply in_map_iff.
      exists (m, jlist_of (tolist a)). split; auto. unfold enc_all. apply in_flat_map.
      exists (m, PArr a). split; [apply has_kv; auto|]. simpl.
      apply any_nonzero_spec in Hnz. rewrite Hnz. left; auto.
    - destruct (valid_arrays _ _ ND HV Ha) as (Sa & _ & _). pose proof (W _ _ Ha) as Wa.
      assert (data a <> []) as NE by (destruct Hnz as (v & Hv & _); intros HE; rewrite HE in Hv; easy).
      pose proof (np_array_tolist a Wa (data_nonempty_dims a Wa NE)) as HT.
      destruct a as [s dat]; simpl in *. destruct s; [congruence|]. exact HT.
  Qed.

  (** if the load is accepted, every axis of a stored array has either the
      length the provided array has, or length one; in the latter case the
      single slice has been repeated silently *)
  Theorem load_into_other_dims f f' path k d d0 d' A N A0 N0 m a a0 :
    dict_ok d -> known_keys d -> serialisable d -> valid k A N d ->
    dict_ok d0 -> valid k A0 N0 d0 ->
    save isz vint k f path d = (f', Ok tt) ->
    load_into zero vint v_of_int k f' path d0 = (d', Ok tt) ->
    has d (KV m) (PArr a) -> some_nonzero isz a -> has d0 (KV m) (PArr a0) ->
    Forall2 (fun y x => y = x \/ y = 1) (shape a) (shape a0) /\
    exists a', has d' (KV m) (PArr a') /\ shape a' = shape a0 /\
      forall idx, inb (shape a0) idx -> aget a' idx = aget a (bc_index (shape a) idx).
  Proof.
    intros Hd KK S HV [ND0 W0] HV0 Hsave Hload Ha Hnz Ha0.
    destruct (saved_file_lookup _ _ _ _ _ _ _ _ _ Hd KK S HV Hsave Ha Hnz) as (o & Ho & Hg & Ht).
    unfold load_into in Hload. destruct (verify k d0) eqn:EV; [|inv Hload].
    unfold load_inplace_raw in Hload. rewrite Ho in Hload.
    destruct (load_inplace_loop zero v_of_int o d0) as [d1 [[]|e]] eqn:EL; [|inv Hload].
    assert (d1 = d') by (inv Hload; auto). subst d1.
    destruct (load_inplace_entry_ok _ _ _ _ _ EL Ha0) as (v' & Hv' & Hh').
    unfold load_inplace_entry in Hv'. rewrite Hg, Ht in Hv'. simpl bind in Hv'.
    assert (length (shape a) = length (shape a0)) as HL.
    { destruct Hd as [ND W]. destruct (valid_arrays _ _ ND HV Ha) as (_ & M1 & M2).
      destruct HV as [_ HV]. destruct HV0 as [_ HV0].
      destruct (spec_shape k A N m) as [s|] eqn:ES.
      - destruct (spec_shape k A0 N0 m) as [s0|] eqn:ES0.
        + destruct (HV _ _ _ Ha ES) as (x & Hx & Hsx). destruct (HV0 _ _ _ Ha0 ES0) as (y & Hy & Hsy).
          injection Hx as <-. injection Hy as <-.
          pose proof (spec_shape_length _ _ _ _ _ _ _ _ ES ES0) as L.
          rewrite <- Hsx, <- Hsy, !map_length in L. auto.
        + unfold spec_shape in *. destruct (mode_axes m); discriminate.
      - destruct m; simpl in ES; try discriminate; congruence. }
    assert (Wa : wf_arr a) by (destruct Hd; eauto).
    destruct (shape a0) as [|x xs] eqn:ES0.
    - discriminate.
    - destruct (assign_all a0 a) as [r|] eqn:EA; try discriminate. simpl in Hv'. inv Hv'.
      assert (Forall2 (fun y x => y = x \/ y = 1) (shape a) (shape a0)) as HF
        by (apply assign_all_same_ndim with r; auto; congruence).
      rewrite ES0 in HF. split; auto.
      destruct (assign_all_same_ndim_ok a0 a Wa) as (r' & Hr & Wr & Sr & Hi); [rewrite ES0; auto|].
      rewrite EA in Hr. inv Hr. exists r'. split; auto. split; [congruence|].
      intros idx I. apply Hi. rewrite ES0. auto.
  Qed.

  (** ---- dictionaries that come out of a file ---- *)
  Lemma ks_known {X} (o : list (string * X)) :
    (forall s x, In (s, x) o -> exists m, s = vmk_value m) ->
    exists l, o = map (fun p : vmk * X => (vmk_value (fst p), snd p)) l.
  Proof.
    induction o as [|[s x] o IH]; intros H.
    - exists []; auto.
    - destruct (H s x) as [m ->]; [left; auto|].
      destruct IH as [l ->]. { intros s0 x0 H0. apply (H s0 x0). right; auto. }
      exists ((m, x) :: l). auto.
  Qed.

  Lemma load_values_wf l d :
    load_values (kv_dict l) = Ok d ->
    map fst d = map fst (kv_dict l) /\ (forall k (a : arr V), has d k (PArr a) -> wf_arr a) /\
    (forall k v, has d k v -> v <> PBad).
  Proof.
    revert d. induction l as [|[m j] l IH]; simpl; intros d H.
    - inv H. split; auto. split; intros k v [].
    - destruct (load_value j) as [v|] eqn:EJ; simpl in H; try discriminate.
      destruct (load_values (kv_dict l)) as [r|] eqn:ER; simpl in H; try discriminate. inv H.
      destruct (IH _ eq_refl) as (H1 & H2 & H3). split; [simpl; congruence|]. split.
      + intros k a [Ha|Ha]; [|eauto]. inv Ha. destruct j; cbn [load_value] in EJ; try discriminate.
        destruct (np_array (NList l0)) eqn:EN; cbn [bind] in EJ; inv EJ. eapply np_array_wf; eauto.
      + intros k v0 [Hv|Hv]; [|eauto]. inv Hv. destruct j; cbn [load_value] in EJ; try (inv EJ; discriminate).
        destruct (np_array (NList l0)); cbn [bind] in EJ; inv EJ. discriminate.
  Qed.

  Lemma load_new_inv (f : fs V) path k d :
    (forall o, f path = Some (CJson o) -> NoDup (map fst o)) ->
    load_new zero vint k f path = Ok d ->
    dict_ok d /\ known_keys d /\ serialisable d /\ exists A N, valid k A N d.
  Proof.
    intros HND H. unfold load_new in H. bdestr H. bdestr H. inv H.
    unfold load_raw in E. bdestr E. unfold read_json in E1.
    destruct (f path) as [[o| |]|] eqn:EF; try discriminate. inv E1. specialize (HND o eq_refl).
    assert (exists l, o = map (fun p : vmk * jval V => (vmk_value (fst p), snd p)) l) as [l ->].
    { apply ks_known. intros s x Hin.
      destruct (vmk_of_string s) eqn:ES; [apply vmk_of_string_ok in ES; eauto|].
      apply vmk_of_string_err in ES. destruct ES as [_ ES]. exfalso.
      bdestr E. rewrite (@string_to_enum_unknown _ _ s x) in E1; auto; try discriminate.
      apply in_map_iff. exists (s, x); auto. }
    assert (NoDup (map fst l)) as NDl.
    { rewrite map_map in HND. simpl in HND. rewrite <- map_map with (g := vmk_value) in HND.
      apply NoDup_map_inv in HND. auto. }
    rewrite map_map in E. simpl in E. fold (ks_dict l) in E.
    change (map (fun x => (KS (vmk_value (fst x)), snd x)) l) with (ks_dict l) in E.
    rewrite string_to_enum_ks in E by auto. simpl bind in E.
    bdestr E. destruct (load_values_wf _ _ E1) as (HK & HW & HB).
    assert (NDx : NoDup (map fst x)) by (rewrite HK; apply NoDup_kv; auto).
    assert (KKx : known_keys x).
    { intros k0 v Hv. apply (in_map fst) in Hv. rewrite HK, kv_keys in Hv. apply in_map_iff in Hv.
      destruct Hv as (m & Hm & _). simpl in Hm. eauto. }
    destruct x0.
    assert (D : dict_ok d /\ known_keys d /\ serialisable d).
    { destruct (dmem key_eqb x (KV E_)) eqn:EM.
      - inv E. split; [split; auto|auto].
      - bdestr E. bdestr E. inv E. apply np_zeros_spec in E3. destruct E3 as (Wz & _ & _).
        unfold mset. rewrite dset_fresh; [|apply key_eqb_eq|].
        2:{ intros Hin. apply (dmem_In key_eqb key_eqb_eq) in Hin. congruence. }
        split; [split|split].
        + rewrite <- (dset_fresh key_eqb key_eqb_eq).
          * apply dset_NoDup; [apply key_eqb_eq|auto].
          * intros Hin. apply (dmem_In key_eqb key_eqb_eq) in Hin. congruence.
        + intros k0 a Ha. apply in_app_or in Ha. destruct Ha as [Ha|[Ha|[]]]; [eauto|inv Ha; auto].
        + intros k0 v Hv. apply in_app_or in Hv. destruct Hv as [Hv|[Hv|[]]]; [eauto|inv Hv; eauto].
        + intros k0 v Hv. apply in_app_or in Hv. destruct Hv as [Hv|[Hv|[]]]; [eauto|inv Hv; discriminate]. }
    destruct D as (D1 & D2 & D3). split; auto. split; auto. split; auto.
    apply verify_spec in E0; auto. apply D1.
  Qed.

  (** ---- arrays with two surface axes ---- *)
  Lemma inb_app s1 s2 i1 i2 : length i1 = length s1 -> (inb (s1 ++ s2) (i1 ++ i2) <-> inb s1 i1 /\ inb s2 i2).
  Proof.
    unfold inb. revert i1; induction s1; destruct i1; simpl; intros HL; try discriminate.
    - split; [intros; split; auto; constructor|tauto].
    - inv HL. split.
      + intros H. inv H. apply IHs1 in H6; auto. destruct H6. split; auto.
      + intros [H1 H2]. inv H1. constructor; auto. apply IHs1; auto.
  Qed.

  Lemma inb_length s idx : inb s idx -> length idx = length s.
  Proof. apply Forall2_length. Qed.

  Lemma split_last2 (s : list nat) : 2 <= length s -> exists pre x y, s = pre ++ [x; y] /\ length pre = length s - 2.
  Proof.
    intros H. destruct (exists_last (l := s)) as (s' & y & ->). { intros ->; simpl in H; lia. }
    rewrite app_length in *. simpl in *.
    destruct (exists_last (l := s')) as (s'' & x & ->). { intros ->; simpl in H; lia. }
    exists s'', x, y. rewrite <- app_assoc. simpl. split; auto. rewrite app_length. simpl. lia.
  Qed.

  Lemma nth_last2 (pre : list nat) x y n :
    n = length (pre ++ [x; y]) -> nth (n - 2) (pre ++ [x; y]) 0 = x /\ nth (n - 1) (pre ++ [x; y]) 0 = y.
  Proof.
    intros ->. rewrite app_length. simpl. rewrite !app_nth2 by lia.
    replace (length pre + 2 - 2 - length pre) with 0 by lia.
    replace (length pre + 2 - 1 - length pre) with 1 by lia. auto.
  Qed.

  Lemma aget_map_combine (a : arr V) (g : list nat -> V -> V) idx :
    wf_arr a -> inb (shape a) idx ->
    aget (mkArr (shape a) (map (fun iv => g (fst iv) (snd iv)) (combine (indices (shape a)) (data a)))) idx
    = match aget a idx with Some v => Some (g idx v) | None => None end.
  Proof.
    intros W I. apply offset_inb in I. destruct I as [k Hk]. unfold aget. simpl. rewrite Hk.
    rewrite nth_error_map.
    assert (nth_error (combine (indices (shape a)) (data a)) k
            = match nth_error (indices (shape a)) k, nth_error (data a) k with
              | Some i, Some v => Some (i, v) | _, _ => None end) as ->.
    { generalize (indices (shape a)) (data a). clear. induction k; intros [|x1 l1] [|x2 l2]; simpl; auto.
      destruct (nth_error l1 k); auto. }
    rewrite (nth_error_indices _ _ _ Hk). destruct (nth_error (data a) k); auto.
  Qed.

  Lemma zero_last2_spec (a : arr V) x y pre dx dy :
    wf_arr a -> shape a = pre ++ [dx; dy] -> x < dx -> y < dy ->
    exists a', zero_last2 zero x y a = Ok a' /\ wf_arr a' /\ shape a' = shape a /\
      forall p i j, inb (shape a) (p ++ [i; j]) ->
        aget a' (p ++ [i; j]) = if (i =? x) && (j =? y) then Some zero else aget a (p ++ [i; j]).
  Proof.
    intros W HS Hx Hy. unfold zero_last2.
    destruct (nth_last2 pre dx dy (length (shape a)) ltac:(rewrite HS; auto)) as [N1 N2].
    rewrite <- HS in N1, N2. rewrite N1, N2.
    replace ((x <? dx) && (y <? dy)) with true by (symmetry; apply andb_true_iff; rewrite !Nat.ltb_lt; auto).
    eexists; split; [reflexivity|]. split.
    { unfold wf_arr. simpl. rewrite map_length, combine_length, indices_length. unfold wf_arr in W. lia. }
    split; auto. intros p i j I.
    rewrite (aget_map_combine a (fun idx v => if (nth (length (shape a) - 2) idx 0 =? x) && (nth (length (shape a) - 1) idx 0 =? y)
                                  then zero else v)); auto.
    destruct (nth_last2 p i j (length (shape a))) as [M1 M2]. { symmetry. apply inb_length; auto. }
    rewrite M1, M2. destruct (aget_some a _ W I) as [v ->]. destruct (_ && _); auto.
  Qed.

  Lemma zero_loop_spec (l : list (nat * nat)) (a : arr V) pre dx dy :
    wf_arr a -> shape a = pre ++ [dx; dy] -> (forall x y, In (x, y) l -> x < dx /\ y < dy) ->
    exists a', for_res (fun acc ab => zero_last2 zero (fst ab) (snd ab) acc) l a = Ok a' /\ wf_arr a' /\ shape a' = shape a /\
      forall p i j, inb (shape a) (p ++ [i; j]) ->
        aget a' (p ++ [i; j]) = if existsb (fun xy => (i =? fst xy) && (j =? snd xy)) l then Some zero else aget a (p ++ [i; j]).
  Proof.
    revert a. induction l as [|[x y] l IH]; intros a W HS Hl; simpl.
    - exists a. auto.
    - destruct (Hl x y) as [Hx Hy]; [left; auto|].
      destruct (zero_last2_spec a x y pre dx dy W HS Hx Hy) as (a1 & H1 & W1 & S1 & G1). rewrite H1.
      destruct (IH a1) as (a2 & H2 & W2 & S2 & G2); auto; [congruence|intros; apply Hl; right; auto|].
      exists a2. split; auto. split; auto. split; [congruence|]. intros p i j I.
      rewrite G2 by (rewrite S1; auto). rewrite G1 by auto.
      destruct ((i =? x) && (j =? y)), (existsb _ l); auto.
  Qed.

  Lemma perms2_spec A x y : In (x, y) (perms2 A) <-> x < A /\ y < A /\ x <> y.
  Proof.
    unfold perms2. rewrite in_flat_map. split.
    - intros (a & Ha & H). apply in_map_iff in H. destruct H as (b & Hb & H). inv Hb.
      apply filter_In in H. destruct H as [H1 H2]. apply in_seq in Ha. apply in_seq in H1.
      destruct (Nat.eqb_spec x y); try discriminate. lia.
    - intros (Hx & Hy & Hne). exists x. split; [apply in_seq; lia|]. apply in_map_iff. exists y. split; auto.
      apply filter_In. split; [apply in_seq; lia|]. destruct (Nat.eqb_spec x y); auto.
  Qed.

  Lemma fill_loop_spec Av d :
    (forall k v, has d k v -> exists v', fill_entry zero Av v = Ok v') ->
    exists d', fill_loop zero Av d = Ok d' /\ map fst d' = map fst d /\
      (forall k v, has d k v -> exists v', has d' k v' /\ fill_entry zero Av v = Ok v') /\
      (forall k v', has d' k v' -> exists v, has d k v /\ fill_entry zero Av v = Ok v').
  Proof.
    induction d as [|[k v] d IH]; intros H; simpl.
    - exists []. split; auto. split; auto. split; intros k v [].
    - destruct (H k v) as [v1 Hv1]; [left; auto|]. rewrite Hv1. simpl.
      destruct IH as (d' & E & Hf & HI & HJ). { intros k0 v0 H0. apply (H k0 v0). right; auto. }
      rewrite E. simpl. exists ((k, v1) :: d'). split; auto. split; [simpl; congruence|]. split.
      + intros k0 v0 [H0|H0].
        * inv H0. exists v1. split; [left; auto|auto].
        * destruct (HI _ _ H0) as (v2 & H1 & H2). exists v2. split; [right; auto|auto].
      + intros k0 v0 [H0|H0].
        * inv H0. exists v. split; [left; auto|auto].
        * destruct (HJ _ _ H0) as (v2 & H1 & H2). exists v2. split; [right; auto|auto].
  Qed.

  Lemma coupled_shape A N (d : mdict V) m a :
    NoDup (map fst d) -> valid Coupled A N d -> has d (KV m) (PArr a) ->
    (m = w_ /\ exists n, shape a = [n]) \/
    (m <> w_ /\ exists pre, shape a = pre ++ [Z.to_nat A; Z.to_nat A] /\ (0 <= A)%Z).
  Proof.
    intros ND HV H. destruct (valid_arrays _ _ ND HV H) as (_ & M1 & M2).
    destruct HV as [_ HV]. destruct (spec_shape Coupled A N m) as [s|] eqn:ES.
    - destruct (HV _ _ _ H ES) as (x & Hx & Hs). injection Hx as <-.
      assert (shape a = map Z.to_nat s) as Hsh.
      { rewrite <- Hs, map_map. rewrite <- (map_id (shape a)) at 1. apply map_ext. intros; lia. }
      assert (Forall (fun z => (0 <= z)%Z) s) as Hpos.
      { rewrite <- Hs. apply Forall_forall. intros z Hz. apply in_map_iff in Hz. destruct Hz as (? & <- & _). lia. }
      destruct m; try congruence; simpl in ES; clear Hs; injection ES as <-; rewrite Hsh; simpl;
        try (left; split; [reflexivity|eexists; reflexivity]); right; (split; [discriminate|]);
        match goal with |- exists pre, ?l = _ /\ _ => exists (firstn (length l - 2) l); split; [reflexivity|] end;
        repeat match goal with H : Forall _ (_ :: _) |- _ => inv H end; auto.
    - destruct m; simpl in ES; try discriminate; congruence.
  Qed.

  Theorem fill_offdiagonal_correct d A N :
    dict_ok d -> known_keys d -> valid Coupled A N d -> has d (KV A_) (PInt A) ->
    exists d', fill_offdiagonal zero vint d = Ok d' /\ decoupled zero d d' /\ dict_ok d' /\ valid Coupled A N d'.
  Proof.
    intros [ND W] KK HV HA.
    assert (FE : forall k v, has d k v -> exists v', fill_entry zero (PInt A) v = Ok v' /\
       ((forall a, v <> PArr a) -> v' = v) /\
       (forall a, v = PArr a -> exists a', v' = PArr a' /\ wf_arr a' /\ shape a' = shape a /\
                   forall m, k = KV m -> if vmk_eqb m w_ then a' = a else offdiag_zeroed zero a a')).
    { intros k v Hv. destruct v as [z|x|a| |]; try (eexists; split; [reflexivity|]; split; [auto|intros; discriminate]).
      destruct (KK _ _ Hv) as [m ->]. pose proof (W _ _ Hv) as Wa. unfold fill_entry.
      destruct (coupled_shape _ _ _ _ _ ND HV Hv) as [[-> [n Hn]]|[Hm (pre & Hpre & HA0)]].
      - rewrite Hn. simpl. eexists; split; [reflexivity|]. split; auto.
        intros a' Ha'. inv Ha'. exists a'. split; auto. split; auto. split; auto. intros m Hm. inv Hm. simpl. auto.
      - assert (2 <=? length (shape a) = true) as ->.
        { apply Nat.leb_le. rewrite Hpre, app_length. simpl. lia. }
        destruct (zero_loop_spec (perms2 (Z.to_nat A)) a pre _ _ Wa Hpre) as (a' & H1 & W1 & S1 & G1).
        { intros x y Hxy. apply perms2_spec in Hxy. lia. }
        rewrite H1. simpl. eexists; split; [reflexivity|]. split; [intros Hx; exfalso; eapply Hx; eauto|].
        intros a0 Ha0. inv Ha0. exists a'. split; auto. split; auto. split; auto. intros m' Hm'. inv Hm'.
        destruct (vmk_eqb m' w_) eqn:EM; [apply vmk_eqb_eq in EM; congruence|].
        split; auto. split; auto. intros p i j I. rewrite G1 by auto.
        assert (i < Z.to_nat A /\ j < Z.to_nat A) as [Hi Hj].
        { pose proof (inb_length _ _ I) as L. rewrite Hpre in I, L. rewrite !app_length in L. simpl in L.
          apply inb_app in I; [|lia]. destruct I as [_ I]. inv I. match goal with H : Forall2 _ [j] _ |- _ => inv H end. auto. }
        destruct (existsb _ (perms2 (Z.to_nat A))) eqn:EX.
        + apply existsb_exists in EX. destruct EX as ([x y] & Hxy & HE). simpl in HE.
          apply andb_true_iff in HE. rewrite !Nat.eqb_eq in HE. destruct HE; subst. apply perms2_spec in Hxy.
          destruct (Nat.eqb_spec x y); auto. lia.
        + destruct (Nat.eqb_spec i j); auto. exfalso.
          assert (existsb (fun xy => (i =? fst xy) && (j =? snd xy)) (perms2 (Z.to_nat A)) = true); [|congruence].
          apply existsb_exists. exists (i, j). split; [apply perms2_spec; auto|]. simpl. rewrite !Nat.eqb_refl. auto. }
    destruct (fill_loop_spec (PInt A) d) as (d' & HF & HK & HI & HJ).
    { intros k v Hv. destruct (FE _ _ Hv) as (v' & H & _). eauto. }
    exists d'. split.
    { unfold fill_offdiagonal. assert (verify Coupled d = Ok tt) as -> by (apply verify_spec; eauto).
      simpl bind. unfold mitem. apply mget_has in HA; auto. rewrite HA. simpl. auto. }
    assert (D : decoupled zero d d').
    { split; [auto|]. split.
      - intros k v Hna. split; intros Hv.
        + destruct (HJ _ _ Hv) as (v0 & H0 & H1). destruct (FE _ _ H0) as (v' & H2 & H3 & H4).
          rewrite H1 in H2; inv H2. destruct v0 as [| |a0| |]; try (rewrite H3 by (intros; discriminate); auto; fail).
          destruct (H4 _ eq_refl) as (a' & -> & _). exfalso. eapply Hna; eauto.
        + destruct (HI _ _ Hv) as (v' & H1 & H2). destruct (FE _ _ Hv) as (v'' & H3 & H4 & _).
          rewrite H2 in H3; inv H3. rewrite H4 in H1; auto.
      - intros m a Ha. destruct (HI _ _ Ha) as (v' & H1 & H2). destruct (FE _ _ Ha) as (v'' & H3 & _ & H4).
        rewrite H2 in H3; inv H3. destruct (H4 _ eq_refl) as (a' & -> & _ & _ & H5). exists a'. split; [exact H1|apply H5; reflexivity]. }
    split; auto. split.
    - split; [rewrite HK; auto|]. intros k a Ha. destruct (HJ _ _ Ha) as (v0 & H0 & H1).
      destruct (FE _ _ H0) as (v' & H2 & H3 & H4). rewrite H1 in H2; inv H2.
      destruct v0 as [| |a0| |]; try (specialize (H3 ltac:(intros; discriminate)); discriminate).
      destruct (H4 _ eq_refl) as (a' & He & Hw & _). inv He. auto.
    - destruct D as (_ & D2 & _). destruct HV as [[(v & Hv & Iv) (v' & Hv' & Iv')] HV]. split.
      + split; [exists v | exists v']; split; auto; apply D2; auto; intros a ->; [inv Iv | inv Iv'].
      + intros m u s Hu Hsp. destruct (HJ _ _ Hu) as (v0 & H0 & H1).
        destruct (HV _ _ _ H0 Hsp) as (a0 & -> & Hsh). destruct (FE _ _ H0) as (v1 & H2 & _ & H4).
        rewrite H1 in H2; inv H2. destruct (H4 _ eq_refl) as (a2 & -> & _ & Hs2 & _). exists a2. split; auto. congruence.
  Qed.

  (** ---- np.diagonal ---- *)
  Lemma diagonal_last2_spec (a : arr V) pre x y :
    wf_arr a -> shape a = pre ++ [x; y] ->
    wf_arr (diagonal_last2 a) /\ shape (diagonal_last2 a) = pre ++ [Nat.min x y] /\
    forall p i, inb (pre ++ [Nat.min x y]) (p ++ [i]) -> aget (diagonal_last2 a) (p ++ [i]) = aget a (p ++ [i; i]).
  Proof.
    intros W HS. unfold diagonal_last2.
    destruct (nth_last2 pre x y (length (shape a)) ltac:(rewrite HS; auto)) as [N1 N2].
    rewrite HS in N1, N2 |- *. rewrite N1, N2.
    replace (firstn (length (pre ++ [x; y]) - 2) (pre ++ [x; y])) with pre.
    2:{ rewrite app_length. simpl. replace (length pre + 2 - 2) with (length pre + 0) by lia.
        rewrite firstn_app_2. simpl. rewrite app_nil_r. auto. }
    set (s' := pre ++ [Nat.min x y]).
    set (h := fun idx : list nat => match aget a (idx ++ [last idx 0]) with Some v => [v] | None => [] end).
    assert (GET : forall idx, inb s' idx -> exists v, aget a (idx ++ [last idx 0]) = Some v).
    { intros idx I. apply aget_some; auto. rewrite HS.
      pose proof (inb_length _ _ I) as L. unfold s' in L, I. rewrite app_length in L. simpl in L.
      destruct (exists_last (l := idx)) as (p & i & ->). { intros ->; simpl in L; lia. }
      rewrite last_last. rewrite app_length in L. simpl in L.
      apply inb_app in I; [|lia]. destruct I as [I1 I2]. rewrite <- app_assoc. simpl.
      apply inb_app; [lia|]. split; auto. inv I2. constructor; [lia|]. constructor; [lia|constructor]. }
    assert (HMAP : forall l, (forall idx, In idx l -> inb s' idx) ->
              exists g, flat_map h l = g /\ length g = length l /\
                 forall n idx, nth_error l n = Some idx -> nth_error g n = aget a (idx ++ [last idx 0])).
    { induction l as [|i0 l IH]; intros Hl; simpl.
      - exists []. split; auto. split; auto. intros n idx H. destruct n; discriminate.
      - destruct IH as (g & Hg & HL & Hn); [intros; apply Hl; right; auto|].
        destruct (GET i0) as [v Hv]; [apply Hl; left; auto|]. exists (v :: g).
        split. { unfold h at 1. rewrite Hv. simpl. congruence. }
        split; [simpl; auto|]. intros n idx H. destruct n; simpl in *; [inv H; auto|auto]. }
    destruct (HMAP (indices s')) as (g & Hg & HL & Hn); [intros; apply indices_in; auto|].
    rewrite Hg. split; [|split; auto].
    - unfold wf_arr; simpl. rewrite HL. apply indices_length.
    - intros p i I. apply offset_inb in I. destruct I as [k Hk]. unfold aget at 1. simpl.
      fold s' in Hk. rewrite Hk. rewrite (Hn k (p ++ [i])).
      + rewrite last_last, <- app_assoc. auto.
      + apply nth_error_indices; auto.
  Qed.

  Lemma has_map_snd (g : pval V -> pval V) (d : mdict V) k v' :
    has (map (fun kv => (fst kv, g (snd kv))) d) k v' <-> exists v, has d k v /\ g v = v'.
  Proof.
    unfold has. rewrite in_map_iff. split.
    - intros ([k0 v0] & H & Hin). simpl in H. inv H. eauto.
    - intros (v & Hin & <-). exists (k, v). auto.
  Qed.

  Theorem surface_diagonal_correct d A N :
    dict_ok d -> known_keys d -> serialisable d -> valid Coupled A N d ->
    let dd := map (fun kv => (fst kv, diagonal_entry (snd kv))) d in
    surface_diagonal d dd /\ dict_ok dd /\ known_keys dd /\ serialisable dd /\ valid Diagonal A N dd.
  Proof.
    intros [ND W] KK S HV dd.
    assert (HK : map fst dd = map fst d) by (unfold dd; rewrite map_map; apply map_ext; auto).
    assert (HD : forall m a, has d (KV m) (PArr a) ->
              exists a', diagonal_entry (PArr a) = PArr a' /\ wf_arr a' /\
              (if vmk_eqb m w_ then a' = a else diagonal_of a a') /\
              (forall s, spec_shape Diagonal A N m = Some s -> map Z.of_nat (shape a') = s)).
    { intros m a Ha. pose proof (W _ _ Ha) as Wa.
      destruct (valid_arrays _ _ ND HV Ha) as (_ & M1 & M2).
      assert (SH : forall s, spec_shape Coupled A N m = Some s -> map Z.of_nat (shape a) = s).
      { intros s Hs. destruct HV as [_ HV]. destruct (HV _ _ _ Ha Hs) as (x & Hx & E). inv Hx; auto. }
      destruct (coupled_shape _ _ _ _ _ ND HV Ha) as [[-> [n Hn]]|[Hm (pre & Hpre & HA0)]].
      - unfold diagonal_entry. rewrite Hn. simpl. exists a. split; auto.
      - unfold diagonal_entry.
        assert (2 <=? length (shape a) = true) as ->.
        { apply Nat.leb_le. rewrite Hpre, app_length. simpl. lia. }
        destruct (diagonal_last2_spec a _ _ _ Wa Hpre) as (W1 & S1 & G1).
        exists (diagonal_last2 a). split; auto. split; auto. split.
        + destruct (vmk_eqb m w_) eqn:EM; [apply vmk_eqb_eq in EM; congruence|].
          split; auto. split.
          * intros p x y Hp. rewrite Hpre in Hp.
            assert (pre ++ [Z.to_nat A; Z.to_nat A] = p ++ [x; y]) as Hp' by auto.
            replace (pre ++ [Z.to_nat A; Z.to_nat A]) with ((pre ++ [Z.to_nat A]) ++ [Z.to_nat A]) in Hp'
              by (rewrite <- app_assoc; auto).
            replace (p ++ [x; y]) with ((p ++ [x]) ++ [y]) in Hp' by (rewrite <- app_assoc; auto).
            apply app_inj_tail in Hp'. destruct Hp' as [Hp1 <-]. apply app_inj_tail in Hp1.
            destruct Hp1 as [<- <-]. auto.
          * intros p i I. apply G1. rewrite <- S1. auto.
        + intros s Hs. rewrite S1, Nat.min_id.
          destruct m; try congruence; simpl in Hs; inv Hs; specialize (SH _ eq_refl); simpl in SH;
            rewrite Hpre, map_app in SH; simpl in SH; rewrite map_app; simpl;
            rewrite Z2Nat.id in * by auto;
            match goal with
            | H : ?p ++ [A; A] = ?l |- ?p ++ [A] = _ =>
                assert (p = firstn (length l - 2) l) as Hp
                  by (rewrite <- H; rewrite app_length; simpl; replace (length p + 2 - 2) with (length p + 0) by lia;
                      rewrite firstn_app_2; simpl; rewrite app_nil_r; auto);
                rewrite Hp; reflexivity
            end. }
    assert (S2 : surface_diagonal d dd).
    { split; auto. split.
      - intros k v Hna. unfold dd. rewrite has_map_snd. split.
        + intros (v0 & H0 & H1). destruct v0 as [| |a0| |]; simpl in H1; subst; auto.
          destruct (KK _ _ H0) as [m ->]. destruct (HD _ _ H0) as (a' & E & _). simpl in E.
          exfalso. apply (Hna a'). auto.
        + intros H. exists v. split; auto. destruct v; simpl; auto. exfalso. eapply Hna; eauto.
      - intros m a Ha. destruct (HD _ _ Ha) as (a' & E & _ & H & _). exists a'. split; auto.
        unfold dd. apply has_map_snd. eauto. }
    split; auto. split.
    { split; [rewrite HK; auto|]. intros k a Ha. unfold dd in Ha. apply has_map_snd in Ha.
      destruct Ha as (v & Hv & E). destruct (KK _ _ Hv) as [m ->].
      destruct v as [| |a0| |]; simpl in E; try discriminate.
      destruct (HD _ _ Hv) as (a' & E' & Wa & _). simpl in E'. congruence. }
    split.
    { intros k v Hv. apply (in_map fst) in Hv. fold dd in Hv. rewrite HK in Hv. apply in_map_iff in Hv.
      destruct Hv as ([k0 v0] & HE & Hin). simpl in HE. subst k0. apply (KK _ _ Hin). }
    split.
    { intros k v Hv. unfold dd in Hv. apply has_map_snd in Hv. destruct Hv as (v0 & H0 & E).
      pose proof (S _ _ H0). intros ->. destruct v0 as [| |a0| |]; simpl in E; try discriminate; try congruence.
      destruct (shape a0) as [|? [|? ?]]; discriminate. }
    destruct S2 as (_ & S2 & _). pose proof HV as [[(v & Hv & Iv) (v' & Hv' & Iv')] HV']. split.
    - split; [exists v | exists v']; split; auto; apply S2; auto; intros a ->; [inv Iv | inv Iv'].
    - intros m u s Hu Hsp. unfold dd in Hu. apply has_map_snd in Hu. destruct Hu as (v0 & H0 & E).
      destruct (spec_shape Coupled A N m) as [sc|] eqn:ESc.
      + destruct (HV' _ _ _ H0 ESc) as (a & -> & _). destruct (HD _ _ H0) as (a' & E' & _ & _ & Hs').
        rewrite E' in E. subst u. exists a'. split; auto.
      + unfold spec_shape in *. destruct (mode_axes m); discriminate.
  Qed.

  Theorem remove_coupling_correct f src dst d A N :
    (forall o, f src = Some (CJson o) -> NoDup (map fst o)) ->
    load_new zero vint Coupled f src = Ok d -> valid Coupled A N d ->
    exists f' dd,
      remove_coupling zero isz vint f src dst = (f', Ok tt) /\
      (forall q, q <> dst -> f' q = f q) /\
      valid Diagonal A N dd /\ surface_diagonal d dd /\
      save isz vint Diagonal f dst dd = (f', Ok tt).
  Proof.
    intros HND HL HV. destruct (load_new_inv _ _ _ _ HND HL) as (D1 & D2 & D3 & _).
    destruct (surface_diagonal_correct _ _ _ D1 D2 D3 HV) as (S1 & S2 & S3 & S4 & S5).
    set (dd := map (fun kv => (fst kv, diagonal_entry (snd kv))) d) in *.
    destruct (save_load_diagonal zero isz v_of_int f dst S2 S3 S4 S5) as (f' & Hs & Ho & _).
    exists f', dd. unfold remove_coupling. rewrite HL. fold dd. auto.
  Qed.

  Theorem create_basic_diagonal_correct f vib har rho d A N :
    (forall o, f vib = Some (CJson o) -> NoDup (map fst o)) -> har <> rho ->
    load_new zero vint Coupled f vib = Ok d -> valid Coupled A N d ->
    exists f' f'' dd, create_basic_diagonal_model zero isz vint f vib har rho = (f'', Ok tt) /\
      surface_diagonal d dd /\ valid Diagonal A N dd /\
      save isz vint Diagonal f har dd = (f', Ok tt) /\
      f'' har = f' har /\ f'' rho = f' har /\ (forall q, q <> har -> q <> rho -> f'' q = f q).
  Proof.
    intros HND Hne HL HV. destruct (remove_coupling_correct f vib har d A N HND HL HV) as (f' & dd & H1 & H2 & H3 & H4 & H5).
    assert (exists c, f' har = Some c) as [c Hc].
    { unfold save in H5. destruct (verify Diagonal dd); [|inv H5]. unfold save_raw in H5.
      destruct (dumps _); inv H5. unfold fs_write. rewrite String.eqb_refl. eauto. }
    exists f', (fs_write f' rho c), dd. unfold create_basic_diagonal_model, create_harmonic_model.
    rewrite H1. unfold copyfile. rewrite Hc.
    destruct (String.eqb_spec har rho); [contradiction|].
    split; auto. split; auto. split; auto. split; auto. split; [|split].
    - unfold fs_write. destruct (String.eqb_spec har rho); congruence.
    - unfold fs_write. rewrite String.eqb_refl. auto.
    - intros q Hq1 Hq2. unfold fs_write. destruct (String.eqb_spec q rho); [contradiction|]. auto.
  Qed.

  (** ---- in-place loading, exact acceptance ---- *)
  Theorem load_into_accepts f f' path k d d0 A N A0 N0 :
    dict_ok d -> known_keys d -> serialisable d -> valid k A N d ->
    dict_ok d0 -> valid k A0 N0 d0 ->
    save isz vint k f path d = (f', Ok tt) ->
    ((exists d', load_into zero vint v_of_int k f' path d0 = (d', Ok tt)) <->
     (forall m a a0, has d (KV m) (PArr a) -> some_nonzero isz a -> has d0 (KV m) (PArr a0) ->
        Forall2 (fun y x => y = x \/ y = 1) (shape a) (shape a0))).
  Proof.
    intros Hd KK S HV Hd0 HV0 Hsave. split.
    { intros [d' HL] m a a0 Ha Hnz Ha0.
      destruct (load_into_other_dims _ _ _ _ _ _ _ _ _ _ _ _ _ _ Hd KK S HV Hd0 HV0 Hsave HL Ha Hnz Ha0); auto. }
    intros HC. pose proof Hd as [ND W]. pose proof Hd0 as [ND0 W0].
    destruct (known_kv KK) as [l ->].
    assert (NoDup (map fst l)) as NDl by (apply NoDup_kv; auto).
    assert (verify k (kv_dict l) = Ok tt) as Hver by (apply verify_spec; eauto).
    destruct (@save_known V isz vint f path k _ l eq_refl NDl S Hver) as (f2 & Hs & Hf').
    rewrite Hsave in Hs. inv Hs.
    assert (f2 path = Some (CJson (map (fun p => (vmk_value (fst p), snd p)) (enc_all isz l)))) as Hp
      by (rewrite Hf', String.eqb_refl; auto).
    set (o := kv_dict (enc_all isz l)).
    assert (Ho : (do o <- read_json f2 path; string_to_enum o) = Ok o).
    { rewrite (read_json_saved isz _ _ _ Hp). simpl bind. apply string_to_enum_ks, enc_all_NoDup; auto. }
    assert (NDo : NoDup (map fst o)) by (apply NoDup_kv, enc_all_NoDup; auto).
    assert (ENT : forall key v, has d0 key v -> exists v', load_inplace_entry zero v_of_int o key v = Ok v' /\
       ((forall a, v <> PArr a) -> v' = v) /\
       (forall a0, v = PArr a0 -> exists a', v' = PArr a' /\ shape a' = shape a0)).
    { intros key v Hv. destruct v as [z|x|a0| |];
        try (eexists; split; [reflexivity|]; split; [auto|intros; discriminate]).
      destruct (dget key_eqb o key) as [j|] eqn:EG.
      - apply (dget_In key_eqb key_eqb_eq) in EG. unfold o, kv_dict in EG. apply in_map_iff in EG.
        destruct EG as ([m j'] & HE & Hin). injection HE as <- <-. simpl in *.
        unfold enc_all in Hin. apply in_flat_map in Hin. destruct Hin as ([m' v] & Hin & Hj). simpl in Hj.
        destruct (enc isz v) eqn:EE; [|easy]. destruct Hj as [Hj|[]]. inv Hj. apply has_kv in Hin.
        destruct (valid_arrays _ _ ND0 HV0 Hv) as (Sa0 & M1 & M2).
        assert (exists a, v = PArr a) as [a ->].
        { destruct HV as [_ HV]. destruct (spec_shape k A N m) as [s|] eqn:ES.
          - destruct (HV _ _ _ Hin ES) as (a & -> & _). eauto.
          - destruct m; simpl in ES; try discriminate; congruence. }
        assert (some_nonzero isz a) as Hnz.
        { simpl in EE. destruct (any_nonzero isz a) eqn:EA; try discriminate. apply any_nonzero_spec; auto. }
        destruct (saved_file_lookup _ _ _ _ _ _ _ _ _ Hd KK S HV Hsave Hin Hnz) as (o' & Ho' & Hg & Ht).
        rewrite Ho in Ho'. inv Ho'. unfold load_inplace_entry. rewrite Hg, Ht. simpl bind.
        destruct (assign_all_same_ndim_ok a0 a) as (r & Hr & Wr & Sr & _); [eauto|eauto|].
        rewrite Hr. destruct (shape a0) eqn:ES0; [congruence|]. simpl. eexists; split; [reflexivity|].
        split; [intros H; exfalso; eapply H; eauto|]. intros a1 Ha1. inv Ha1. exists r. split; auto. congruence.
      - unfold load_inplace_entry. rewrite EG. eexists; split; [reflexivity|].
        split; [intros H; exfalso; eapply H; eauto|]. intros a1 Ha1. inv Ha1. eexists; split; [reflexivity|]. auto. }
    destruct (@load_inplace_ok V zero v_of_int o d0) as (d' & HL & HK & HI).
    { intros key v Hv. destruct (ENT _ _ Hv) as (v' & H & _). eauto. }
    assert (HI2 : forall key v, has d0 key v -> exists v', has d' key v' /\ load_inplace_entry zero v_of_int o key v = Ok v').
    { intros key v Hv. destruct (load_inplace_entry_ok _ _ _ _ _ HL Hv) as (v' & H1 & H2). eauto. }
    assert (ND' : NoDup (map fst d')) by (rewrite HK; auto).
    assert (HV' : valid k A0 N0 d').
    { destruct HV0 as [[(v & Hv & Iv) (v' & Hv' & Iv')] HV0]. split.
      - split.
        + destruct (HI2 _ _ Hv) as (u & Hu & Hl). destruct (ENT _ _ Hv) as (u' & Hl' & Hn & _).
          rewrite Hl in Hl'. inv Hl'. rewrite Hn in Hu by (intros a ->; inv Iv). eauto.
        + destruct (HI2 _ _ Hv') as (u & Hu & Hl). destruct (ENT _ _ Hv') as (u' & Hl' & Hn & _).
          rewrite Hl in Hl'. inv Hl'. rewrite Hn in Hu by (intros a ->; inv Iv'). eauto.
      - intros m u s Hu Hsp. destruct (HI _ _ Hu) as (v0 & H0 & H1).
        destruct (HV0 _ _ _ H0 Hsp) as (a0 & -> & Hsh). destruct (ENT _ _ H0) as (v1 & H2 & _ & H4).
        rewrite H1 in H2; inv H2. destruct (H4 _ eq_refl) as (a2 & -> & Hs2). exists a2. split; auto. congruence. }
    exists d'. unfold load_into. assert (verify k d0 = Ok tt) as -> by (apply verify_spec; eauto).
    unfold load_inplace_raw. rewrite Ho, HL.
    assert (verify k d' = Ok tt) as -> by (apply verify_spec; eauto). auto.
  Qed.

  (** ---- zero-filling twice ---- *)
  Lemma dict_same (d d' : mdict V) :
    NoDup (map fst d) -> map fst d' = map fst d -> (forall k v, has d k v -> has d' k v) -> d' = d.
  Proof.
    revert d'. induction d as [|[k v] d IH]; destruct d' as [|[k' v'] d']; simpl; intros ND HK H; try discriminate; auto.
    inversion HK; subst. inversion ND; subst.
    assert (v' = v).
    { destruct (H k v) as [HE|HE]; [left; auto|congruence|].
      exfalso. match goal with HN : ~ In k _ |- _ => apply HN end.
      match goal with HM : map fst d' = map fst d |- _ => rewrite <- HM end. apply (in_map fst) in HE. auto. }
    subst v'. f_equal. apply IH; auto.
    intros k1 v1 H1. destruct (H k1 v1) as [HE|HE]; [right; auto| |auto].
    injection HE as <- <-. exfalso. match goal with HN : ~ In k _ |- _ => apply HN end. apply (in_map fst) in H1. auto.
  Qed.

  Theorem fill_offdiagonal_idempotent d d' A N :
    dict_ok d -> known_keys d -> valid Coupled A N d -> has d (KV A_) (PInt A) ->
    fill_offdiagonal zero vint d = Ok d' -> fill_offdiagonal zero vint d' = Ok d'.
  Proof.
    intros HD KK HV HA HF.
    destruct (fill_offdiagonal_correct _ _ _ HD KK HV HA) as (d1 & H1 & (E1 & E2 & E3) & D1 & V1).
    rewrite HF in H1. injection H1 as <-.
    assert (KK' : known_keys d').
    { intros k v Hv. assert (In k (map fst d)) as Hin by (rewrite <- E1; apply (in_map fst) in Hv; auto).
      apply in_map_iff in Hin. destruct Hin as ([k' v'] & <- & Hin). eapply KK; eauto. }
    assert (HA' : has d' (KV A_) (PInt A)) by (apply E2; auto; intros; discriminate).
    destruct (fill_offdiagonal_correct _ _ _ D1 KK' V1 HA') as (d2 & H2 & (F1 & F2 & F3) & D2 & V2).
    rewrite H2. f_equal. apply dict_same; auto; [destruct D1; auto|].
    intros k v Hv.
    destruct v as [z|x|a'| |]; try (apply F2; auto; intros; discriminate; fail).
    destruct (KK' _ _ Hv) as [m ->].
    destruct (F3 _ _ Hv) as (a2 & Ha2 & HZ2). enough (a2 = a') by congruence.
    destruct (vmk_eqb m w_) eqn:EM; auto.
    assert (exists a, has d (KV m) (PArr a)) as [a Ha].
    { assert (In (KV m) (map fst d)) as Hin by (rewrite <- E1; apply (in_map fst) in Hv; auto).
      apply in_map_iff in Hin. destruct Hin as ([k' v] & Hk & Hin). simpl in Hk; subst.
      destruct v as [| |a| |]; eauto;
        exfalso; assert (has d' (KV m) (PArr a')) as Hx by auto;
        match type of Hin with In (_, ?v) _ =>
          assert (has d' (KV m) v) as Hy by (apply E2; auto; intros; discriminate) end;
        destruct D1 as [ND1 _]; pose proof (has_fun _ _ _ _ ND1 Hx Hy); discriminate. }
    destruct (E3 _ _ Ha) as (a1 & Ha1 & HZ1). rewrite EM in HZ1.
    assert (a1 = a') by (destruct D1 as [ND1 _]; pose proof (has_fun _ _ _ _ ND1 Ha1 Hv); congruence). subst a1.
    destruct HZ1 as (W1 & S1 & G1). destruct HZ2 as (W2 & S2 & G2).
    apply arr_ext; auto. intros idx I. rewrite S2 in I.
    destruct HD as [ND W]. destruct (coupled_shape _ _ _ _ _ ND HV Ha) as [[-> _]|[_ (pre & Hpre & _)]]; [discriminate EM|].
    assert (2 <= length idx) as L.
    { rewrite (inb_length _ _ I), S1, Hpre, app_length. simpl. lia. }
    destruct (split_last2 idx L) as (p & i & j & -> & _).
    rewrite G2 by auto. destruct (Nat.eqb_spec i j); auto.
    rewrite S1 in I. rewrite (G1 _ _ _ I). destruct (Nat.eqb_spec i j); auto. congruence.
  Qed.
End P.
