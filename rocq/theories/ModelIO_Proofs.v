(** Proofs about ModelIO_Model.v *)
From Coq Require Import FinFun.
From Verif Require Import Common Common_Proofs Arr_Model Arr_Proofs ModelIO_Model ModelIO_Spec.
Set Implicit Arguments.

Lemma vmk_eqb_eq a b : vmk_eqb a b = true <-> a = b.
Proof. destruct a, b; simpl; split; intros; congruence. Qed.

Lemma key_eqb_eq a b : key_eqb a b = true <-> a = b.
Proof.
  destruct a, b; simpl; split; intros H; try discriminate.
  - apply vmk_eqb_eq in H; congruence.
  - inv H. apply vmk_eqb_eq; auto.
  - apply String.eqb_eq in H; congruence.
  - inv H. apply String.eqb_refl.
Qed.

Lemma vmk_of_value m : vmk_of_string (vmk_value m) = Ok m.
Proof. destruct m; reflexivity. Qed.

Lemma vmk_value_inj m n : vmk_value m = vmk_value n -> m = n.
Proof. destruct m, n; simpl; intros H; try reflexivity; discriminate. Qed.

Lemma vmk_of_string_ok s m : vmk_of_string s = Ok m -> s = vmk_value m.
Proof.
  unfold vmk_of_string. destruct (find _ _) eqn:E; intros H; inv H.
  apply find_some in E. destruct E as [_ E]. apply String.eqb_eq in E; auto.
Qed.

Lemma vmk_of_string_err s e : vmk_of_string s = Raise e -> e = ValueError /\ forall m, s <> vmk_value m.
Proof.
  intros H. split.
  - unfold vmk_of_string in H. destruct (find _ _); inv H; auto.
  - intros m ->. rewrite vmk_of_value in H. discriminate.
Qed.

Lemma model_shape_spec k A N m : model_shape k A N m = spec_shape k A N m.
Proof. destruct k, m; reflexivity. Qed.

Lemma shape_eqb_eq s t : shape_eqb s t = true <-> map Z.of_nat s = t.
Proof.
  revert t; induction s; destruct t; simpl; split; intros H; try discriminate; auto.
  - apply andb_true_iff in H. destruct H as [H1 H2]. apply Z.eqb_eq in H1. apply IHs in H2. congruence.
  - inv H. rewrite Z.eqb_refl. simpl. apply IHs; auto.
Qed.

Section P.
  Context {V : Type}.
  Variable zero : V.
  Variable isz : V -> bool.
  Variable vint : V -> res Z.
  Variable v_of_int : Z -> V.

  Notation py_int := (py_int vint).
  Notation int_value := (int_value vint).
  Notation valid := (valid vint).
  Notation verify := (verify vint).

  Lemma py_int_spec v z : py_int v = Ok z <-> int_value v z.
  Proof.
    destruct v; simpl; split; intros H; try discriminate; inv H; try constructor; auto.
  Qed.

  Lemma mget_has (d : mdict V) k v : NoDup (map fst d) -> (mget d k = Some v <-> has d k v).
  Proof. apply dget_iff. apply key_eqb_eq. Qed.

  Lemma has_fun (d : mdict V) k v w : NoDup (map fst d) -> has d k v -> has d k w -> v = w.
  Proof. intros ND H1 H2. apply mget_has in H1; auto. apply mget_has in H2; auto. congruence. Qed.

  Lemma extract_dims_spec (d : mdict V) A N :
    NoDup (map fst d) -> (extract_dims vint d = Ok (A, N) <-> has_dims vint d A N).
  Proof.
    intros ND. unfold extract_dims, mitem, has_dims. split.
    - intros H. destruct (mget d (KV N_)) eqn:EN; try discriminate. simpl in H.
      destruct (py_int p) eqn:EPN; try discriminate. simpl in H.
      destruct (mget d (KV A_)) eqn:EA; try discriminate. simpl in H.
      destruct (py_int p0) eqn:EPA; try discriminate. simpl in H. inv H.
      split; eexists; split; try (apply mget_has; eauto); apply py_int_spec; auto.
    - intros [(v & Hv & Iv) (v' & Hv' & Iv')].
      apply mget_has in Hv; auto. apply mget_has in Hv'; auto. rewrite Hv, Hv'. simpl.
      apply py_int_spec in Iv. apply py_int_spec in Iv'. rewrite Iv. simpl. rewrite Iv'. auto.
  Qed.

  Lemma verify_spec k (d : mdict V) :
    NoDup (map fst d) -> (verify k d = Ok tt <-> exists A N, valid k A N d).
  Proof.
    intros ND. unfold verify. split.
    - intros H. bdestr H. bdestr H. bdestr H. destruct x1 as [A N]. simpl in H.
      exists A, N. split; [apply extract_dims_spec; auto|].
      rewrite (for_res_unit_all (verify_entry k A N)) in H.
      intros m v s Hh Hs. specialize (H _ Hh). unfold verify_entry in H. simpl in H.
      rewrite model_shape_spec, Hs in H. destruct v; try discriminate.
      exists a. split; auto. unfold passert in H. destruct (shape_eqb _ _) eqn:ES; try discriminate.
      apply shape_eqb_eq; auto.
    - intros (A & N & [HD HV]).
      pose proof HD as HD'. apply extract_dims_spec in HD'; auto.
      destruct HD as [(v & Hv & _) (v' & Hv' & _)].
      assert (dmem key_eqb d (KV N_) = true) as ->
        by (apply dmem_In; [apply key_eqb_eq|]; apply (in_map fst) in Hv; auto).
      assert (dmem key_eqb d (KV A_) = true) as ->
        by (apply dmem_In; [apply key_eqb_eq|]; apply (in_map fst) in Hv'; auto).
      simpl. rewrite HD'. simpl. apply for_res_unit_all. intros [kk vv] Hin.
      unfold verify_entry; simpl. destruct kk as [m|]; auto.
      destruct (model_shape k A N m) eqn:ES; auto. rewrite model_shape_spec in ES.
      destruct (HV _ _ _ Hin ES) as (a & -> & Ha). apply shape_eqb_eq in Ha. rewrite Ha. auto.
  Qed.


  (** ---- key conversion ---- *)
  Definition kv_dict {X} (l : list (vmk * X)) : list (key * X) := map (fun p => (KV (fst p), snd p)) l.
  Definition ks_dict {X} (l : list (vmk * X)) : list (key * X) := map (fun p => (KS (vmk_value (fst p)), snd p)) l.

  Lemma known_kv (d : mdict V) : known_keys d -> exists l, d = kv_dict l.
  Proof.
    induction d as [|[k v] d IH]; intros H.
    - exists []; auto.
    - destruct (H k v) as [m ->]; [left; auto|].
      destruct IH as [l ->]. { intros k' v' Hin. apply (H k' v'). right; auto. }
      exists ((m, v) :: l). auto.
  Qed.

  Lemma kv_keys {X} (l : list (vmk * X)) : map fst (kv_dict l) = map KV (map fst l).
  Proof. unfold kv_dict. rewrite !map_map. apply map_ext. auto. Qed.

  Lemma ks_keys {X} (l : list (vmk * X)) : map fst (ks_dict l) = map (fun m => KS (vmk_value m)) (map fst l).
  Proof. unfold ks_dict. rewrite !map_map. apply map_ext. auto. Qed.

  Lemma NoDup_kv {X} (l : list (vmk * X)) : NoDup (map fst (kv_dict l)) <-> NoDup (map fst l).
  Proof.
    rewrite kv_keys. split.
    - apply NoDup_map_inv.
    - apply Injective_map_NoDup. intros x y H; inv H; auto.
  Qed.

  Lemma enum_to_string_kv (l : list (vmk * pval V)) :
    NoDup (map fst l) -> enum_to_string (kv_dict l) = ks_dict l.
  Proof.
    intros ND. unfold enum_to_string.
    assert (forall l done : list (vmk * pval V), NoDup (map fst l) -> (forall m, In m (map fst l) -> ~ In m (map fst done)) ->
      fold_left (fun (acc : mdict V) kv => match fst kv with
                 | KV m => mdel (mset acc (KS (vmk_value m)) (snd kv)) (KV m)
                 | KS _ => acc end) (kv_dict l) (kv_dict l ++ ks_dict done) = ks_dict (done ++ l)) as G.
    { clear. induction l as [|[m v] l IH]; intros done ND Hd; simpl.
      - rewrite app_nil_r; auto.
      - inv ND. simpl in Hd. change ((KV m, v) :: kv_dict l ++ ks_dict done) with (((KV m, v) :: kv_dict l) ++ ks_dict done).
        unfold mset. rewrite dset_fresh; [|apply key_eqb_eq|].
        + rewrite (proj2 (vmk_eqb_eq m m) eq_refl).
          rewrite <- app_assoc.
          change (ks_dict done ++ [(KS (vmk_value m), v)]) with (ks_dict done ++ ks_dict [(m, v)]).
          unfold ks_dict at 1 2. rewrite <- map_app. fold (@ks_dict (pval V) (done ++ [(m, v)])).
          rewrite IH; auto.
          * rewrite <- app_assoc. auto.
          * intros m' Hm' Hin. rewrite map_app in Hin. apply in_app_or in Hin. simpl in Hin.
            destruct Hin as [Hin|[<-|[]]]; [apply (Hd m'); auto|auto].
        + rewrite map_app, ks_keys. simpl. rewrite kv_keys.
          intros Hin.
          apply in_app_or in Hin. destruct Hin as [Hin|Hin]; apply in_map_iff in Hin;
            destruct Hin as (m' & HE & Hin); try discriminate.
          inv HE. apply vmk_value_inj in H0; subst. apply (Hd m); auto. }
    specialize (G l [] ND). simpl in G. rewrite app_nil_r in G. apply G. auto.
  Qed.

  Lemma string_to_enum_ks {X} (l : list (vmk * X)) :
    NoDup (map fst l) -> string_to_enum (ks_dict l) = Ok (kv_dict l).
  Proof.
    intros ND. unfold string_to_enum.
    assert (forall l done : list (vmk * X), NoDup (map fst l) -> (forall m, In m (map fst l) -> ~ In m (map fst done)) ->
      for_res (fun acc kv =>
               match fst kv with
               | KV m => Ok (ddel key_eqb (dset key_eqb acc (KV m) (snd kv)) (KV m))
               | KS s => do m <- vmk_of_string s;
                         Ok (ddel key_eqb (dset key_eqb acc (KV m) (snd kv)) (KS s))
               end) (ks_dict l) (ks_dict l ++ kv_dict done) = Ok (@kv_dict X (done ++ l))) as G.
    { clear. induction l as [|[m v] l IH]; intros done ND Hd; simpl.
      - rewrite app_nil_r; auto.
      - inv ND. simpl in Hd. rewrite vmk_of_value. simpl bind.
        change ((KS (vmk_value m), v) :: ks_dict l ++ kv_dict done) with (((KS (vmk_value m), v) :: ks_dict l) ++ kv_dict done).
        rewrite dset_fresh; [|apply key_eqb_eq|].
        + simpl. rewrite String.eqb_refl.
          rewrite <- app_assoc.
          change (kv_dict done ++ [(KV m, v)]) with (kv_dict done ++ kv_dict [(m, v)]).
          unfold kv_dict at 1 2. rewrite <- map_app. fold (@kv_dict X (done ++ [(m, v)])).
          rewrite IH; auto.
          * rewrite <- app_assoc. auto.
          * intros m' Hm' Hin. rewrite map_app in Hin. apply in_app_or in Hin. simpl in Hin.
            destruct Hin as [Hin|[<-|[]]]; [apply (Hd m'); auto|auto].
        + rewrite map_app, kv_keys. simpl. rewrite ks_keys.
          intros Hin.
          apply in_app_or in Hin. destruct Hin as [Hin|Hin]; apply in_map_iff in Hin;
            destruct Hin as (m' & HE & Hin); try discriminate.
          inv HE. apply (Hd m); auto. }
    specialize (G l [] ND). simpl in G. rewrite app_nil_r in G. apply G. auto.
  Qed.

  (** an unknown key anywhere makes the conversion raise ValueError *)
  Lemma string_to_enum_unknown {X} (o : list (key * X)) s x :
    In (KS s, x) o -> (forall m, s <> vmk_value m) -> string_to_enum o = Raise ValueError.
  Proof.
    intros Hin Hs. unfold string_to_enum. generalize o at 2. revert Hin.
    induction o as [|[k y] o IH]; intros Hin acc; [easy|].
    simpl. destruct Hin as [Hin|Hin].
    - inv Hin. destruct (vmk_of_string s) eqn:E.
      + apply vmk_of_string_ok in E. exfalso; eapply Hs; eauto.
      + apply vmk_of_string_err in E. destruct E as [-> _]. auto.
    - destruct k as [m|t]; [apply IH; auto|]. destruct (vmk_of_string t) eqn:E; simpl.
      + apply IH; auto.
      + apply vmk_of_string_err in E. destruct E as [-> _]. auto.
  Qed.

  (** ---- saving ---- *)
  Lemma any_nonzero_spec (a : arr V) : any_nonzero isz a = true <-> some_nonzero isz a.
  Proof.
    unfold any_nonzero, some_nonzero. rewrite existsb_exists. split; intros (v & H1 & H2); exists v;
      split; auto; destruct (isz v); auto; discriminate.
  Qed.

  Definition enc (v : pval V) : option (jval V) :=
    match v with
    | PArr a => if any_nonzero isz a then Some (jlist_of (tolist a)) else None
    | PInt z => Some (JInt z)
    | PFloat x => Some (JFloat x)
    | PJson => Some JOther
    | PBad => None
    end.

  Definition enc_all (l : list (vmk * pval V)) : list (vmk * jval V) :=
    flat_map (fun p => match enc (snd p) with Some j => [(fst p, j)] | None => [] end) l.

  Lemma dumps_strip (l : list (vmk * pval V)) :
    (forall m v, In (m, v) l -> v <> PBad) ->
    dumps (strip_arrays isz (ks_dict l)) = Ok (map (fun p => (vmk_value (fst p), snd p)) (enc_all l)).
  Proof.
    induction l as [|[m v] l IH]; intros H; simpl; auto.
    assert (v <> PBad) by (apply (H m); left; auto).
    assert (forall m v, In (m, v) l -> v <> PBad) as H' by (intros; apply (H m0); right; auto).
    specialize (IH H').
    destruct v; simpl; try rewrite IH; auto.
    - destruct (any_nonzero isz a); simpl; rewrite IH; auto.
    - congruence.
  Qed.

  Lemma enc_all_keys l m j : In (m, j) (enc_all l) -> In m (map fst l).
  Proof.
    unfold enc_all. rewrite in_flat_map. intros ([m' v] & Hin & H). simpl in H.
    destruct (enc v); simpl in H; [|easy]. destruct H as [H|[]]. inv H.
    apply (in_map fst) in Hin. auto.
  Qed.

  Lemma enc_all_NoDup l : NoDup (map fst l) -> NoDup (map fst (enc_all l)).
  Proof.
    induction l as [|[m v] l IH]; simpl; intros ND; [constructor|]. inv ND.
    destruct (enc v); simpl; auto. constructor; auto.
    intros H. apply H1. apply in_map_iff in H. destruct H as ([m' j'] & <- & H).
    eapply enc_all_keys; eauto.
  Qed.

  Lemma save_known f path k (d : mdict V) l :
    d = kv_dict l -> NoDup (map fst l) -> serialisable d -> verify k d = Ok tt ->
    exists f', save isz vint k f path d = (f', Ok tt) /\
      (forall q, f' q = if String.eqb q path
                        then Some (CJson (map (fun p => (vmk_value (fst p), snd p)) (enc_all l)))
                        else f q).
  Proof.
    intros -> ND S Hv. unfold save. rewrite Hv. unfold save_raw.
    rewrite enum_to_string_kv; auto. rewrite dumps_strip.
    - eexists; split; [reflexivity|]. intros q. unfold fs_write. destruct (String.eqb q path); auto.
    - intros m v Hin. apply (S (KV m) v). unfold has, kv_dict. apply in_map_iff. exists (m, v); auto.
  Qed.

  (** ---- loading ---- *)
  Lemma load_value_enc v j :
    enc v = Some j -> (forall a, v = PArr a -> wf_arr a /\ shape a <> []) -> load_value j = Ok v.
  Proof.
    destruct v; simpl; intros H W; try (inv H; reflexivity).
    - destruct (any_nonzero isz a) eqn:E; try discriminate.
      destruct (W a eq_refl) as [Wa Sa].
      assert (data a <> []) as NE.
      { intros HE. unfold any_nonzero in E. rewrite HE in E. discriminate. }
      pose proof (np_array_tolist a Wa (data_nonempty_dims a Wa NE)) as HT.
      inv H. destruct a as [s dat]. simpl in *. destruct s as [|x s]; [congruence|].
      unfold tolist in *; simpl in *. rewrite HT. auto.
  Qed.

  Lemma load_values_enc_all l :
    (forall m a, In (m, PArr a) l -> wf_arr a /\ shape a <> []) ->
    load_values (kv_dict (enc_all l))
    = Ok (kv_dict (filter (fun p => match enc (snd p) with Some _ => true | None => false end) l)).
  Proof.
    induction l as [|[m v] l IH]; intros W; simpl; auto.
    assert (forall m a, In (m, PArr a) l -> wf_arr a /\ shape a <> []) as W'
      by (intros m0 a0 H0; apply (W m0 a0); right; auto).
    specialize (IH W').
    destruct (enc v) eqn:E; simpl.
    - rewrite (load_value_enc E). 2:{ intros a ->. apply (W m a); left; auto. }
      simpl. rewrite IH. auto.
    - apply IH.
  Qed.

  Lemma read_json_saved (f : fs V) path l :
    f path = Some (CJson (map (fun p => (vmk_value (fst p), snd p)) (enc_all l))) ->
    read_json f path = Ok (ks_dict (enc_all l)).
  Proof.
    intros H. unfold read_json. rewrite H. f_equal. unfold ks_dict. rewrite map_map. auto.
  Qed.

  Lemma np_zeros_spec s a :
    np_zeros zero s = Ok a ->
    wf_arr a /\ map Z.of_nat (shape a) = s /\ forall v, In v (data a) -> v = zero.
  Proof.
    unfold np_zeros. destruct (forallb _ _) eqn:E; intros H; inv H.
    split; [apply wf_afull|]. split.
    - simpl. rewrite map_map. rewrite <- (map_id s) at 2. apply map_ext_in. intros z Hz.
      rewrite forallb_forall in E. specialize (E z Hz). lia.
    - intros v Hv. unfold afull, abuild in Hv. simpl in Hv. rewrite tab_indices in Hv.
      apply in_map_iff in Hv. destruct Hv as (? & <- & _). auto.
  Qed.

  Lemma np_zeros_ok s : Forall (fun z => (0 <= z)%Z) s -> np_zeros zero s = Ok (afull (map Z.to_nat s) zero).
  Proof.
    intros H. unfold np_zeros. replace (forallb _ s) with true; auto.
    symmetry. apply forallb_forall. intros z Hz. rewrite Forall_forall in H. specialize (H z Hz). lia.
  Qed.

  Lemma afull_data s (v x : V) : In x (data (afull s v)) -> x = v.
  Proof.
    unfold afull, abuild; simpl. rewrite tab_indices. intros H.
    apply in_map_iff in H. destruct H as (? & <- & _). auto.
  Qed.

  Lemma has_kv (l : list (vmk * pval V)) m v : has (kv_dict l) (KV m) v <-> In (m, v) l.
  Proof.
    unfold has, kv_dict. rewrite in_map_iff. split.
    - intros ([m' v'] & H & Hin). inv H. auto.
    - intros H. exists (m, v); auto.
  Qed.

  Definition kept (l : list (vmk * pval V)) :=
    filter (fun p => match enc (snd p) with Some _ => true | None => false end) l.

  Lemma kept_In l m v : In (m, v) (kept l) <-> In (m, v) l /\ enc v <> None.
  Proof.
    unfold kept. rewrite filter_In. simpl. destruct (enc v); intuition congruence.
  Qed.

  Lemma kept_NoDup l : NoDup (map fst l) -> NoDup (map fst (kept l)).
  Proof.
    induction l as [|[m v] l IH]; simpl; intros ND; [constructor|]. inv ND.
    destruct (enc v); simpl; auto. constructor; auto.
    intros H. apply H1. apply in_map_iff in H. destruct H as ([m' j'] & <- & H).
    apply kept_In in H. destruct H as [H _]. apply (in_map fst) in H. auto.
  Qed.

  Lemma valid_arrays k A N d m a :
    NoDup (map fst d) -> valid k A N d -> has d (KV m) (PArr a) -> shape a <> [] /\ m <> N_ /\ m <> A_.
  Proof.
    intros ND [[(v & Hv & Iv) (v' & Hv' & Iv')] HV] H.
    assert (m <> N_) by (intros ->; pose proof (has_fun _ _ _ _ ND Hv H); subst; inv Iv).
    assert (m <> A_) by (intros ->; pose proof (has_fun _ _ _ _ ND Hv' H); subst; inv Iv').
    split; auto. intros HE.
    destruct (spec_shape k A N m) as [s|] eqn:ES.
    - destruct (HV _ _ _ H ES) as (a' & Ha & Hs). inv Ha. rewrite HE in ES. simpl in ES.
      destruct k, m; simpl in ES; discriminate.
    - destruct m; simpl in ES; try discriminate; congruence.
  Qed.

  (** the dictionary obtained from a saved file, before verification *)
  Lemma load_raw_saved (f : fs V) path k A N l :
    f path = Some (CJson (map (fun p => (vmk_value (fst p), snd p)) (enc_all l))) ->
    NoDup (map fst l) -> (forall m a, In (m, PArr a) l -> wf_arr a) -> valid k A N (kv_dict l) ->
    (In E_ (map fst (kept l)) \/ (0 <= A)%Z) ->
    load_raw zero vint f path =
      Ok (if dmem key_eqb (kv_dict (kept l)) (KV E_) then kv_dict (kept l)
          else kv_dict (kept l) ++ [(KV E_, PArr (afull [Z.to_nat A; Z.to_nat A] zero))]).
  Proof.
    intros Hf ND W HV HA. unfold load_raw. rewrite (read_json_saved _ _ _ Hf). simpl bind.
    rewrite string_to_enum_ks by (apply enc_all_NoDup; auto). simpl bind.
    assert (NoDup (map fst (kv_dict l))) as NDkv by (apply NoDup_kv; auto).
    rewrite load_values_enc_all.
    2:{ intros m a Hin. split; [eapply W; eauto|]. apply has_kv in Hin. eapply valid_arrays in Hin; eauto. tauto. }
    simpl bind. fold (kept l).
    destruct (dmem key_eqb (kv_dict (kept l)) (KV E_)) eqn:EM; auto.
    assert (extract_dims vint (kv_dict (kept l)) = Ok (A, N)) as ED.
    { apply extract_dims_spec; [apply NoDup_kv, kept_NoDup; auto|].
      destruct HV as [[(v & Hv & Iv) (v' & Hv' & Iv')] _].
      split; [exists v | exists v']; split; auto; apply has_kv; apply kept_In;
        (split; [apply has_kv; auto|]); [destruct Iv | destruct Iv']; simpl; discriminate. }
    rewrite ED. simpl bind.
    destruct HA as [HA|HA].
    - exfalso. assert (dmem key_eqb (kv_dict (kept l)) (KV E_) = true); [|congruence].
      apply dmem_In; [apply key_eqb_eq|]. rewrite kv_keys. apply in_map. auto.
    - rewrite np_zeros_ok by (repeat constructor; auto). simpl bind. f_equal.
      unfold mset. rewrite dset_fresh; auto; [apply key_eqb_eq|].
      intros HE. apply (dmem_In key_eqb key_eqb_eq) in HE. congruence.
  Qed.


  Lemma enc_some_arr v : v <> PBad -> (enc v <> None <-> forall a, v = PArr a -> some_nonzero isz a).
  Proof.
    intros NB. destruct v; simpl; split; intros H; try discriminate; try congruence.
    - intros a' Ha; inv Ha. destruct (any_nonzero isz a') eqn:E; [apply any_nonzero_spec; auto|congruence].
    - specialize (H a eq_refl). apply any_nonzero_spec in H. rewrite H. discriminate.
  Qed.

  Theorem save_load_coupled f path d A N :
    dict_ok d -> known_keys d -> serialisable d -> valid Coupled A N d ->
    (0 <= A)%Z \/ (exists a, has d (KV E_) (PArr a) /\ some_nonzero isz a) ->
    exists f' d',
      save isz vint Coupled f path d = (f', Ok tt) /\
      (forall q, q <> path -> f' q = f q) /\
      load_new zero vint Coupled f' path = Ok d' /\
      dict_ok d' /\ valid Coupled A N d' /\ known_keys d' /\
      roundtrip zero isz A d d'.
  Proof.
    intros [ND W] KK S HV HA.
    destruct (known_kv KK) as [l ->].
    assert (NoDup (map fst l)) as NDl by (apply NoDup_kv; auto).
    assert (verify Coupled (kv_dict l) = Ok tt) as Hver by (apply verify_spec; eauto).
    destruct (@save_known f path Coupled _ l eq_refl NDl S Hver) as (f' & Hs & Hf').
    assert (forall m a, In (m, PArr a) l -> wf_arr a) as Wl
      by (intros m a Hin; apply (W (KV m)); apply has_kv; auto).
    assert (In E_ (map fst (kept l)) \/ (0 <= A)%Z) as HA'.
    { destruct HA as [HA|(a & Ha & Hnz)]; auto. left.
      apply in_map_iff. exists (E_, PArr a); split; auto. apply kept_In. split; [apply has_kv; auto|].
      apply enc_some_arr; [discriminate|]. intros a' Ha'; inv Ha'; auto. }
    assert (f' path = Some (CJson (map (fun p => (vmk_value (fst p), snd p)) (enc_all l)))) as Hp
      by (rewrite Hf', String.eqb_refl; auto).
    pose proof (@load_raw_saved f' path Coupled A N l Hp NDl Wl HV HA') as HL.
    set (d1 := if dmem key_eqb (kv_dict (kept l)) (KV E_) then kv_dict (kept l)
               else kv_dict (kept l) ++ [(KV E_, PArr (afull [Z.to_nat A; Z.to_nat A] zero))]) in *.
    assert (Hhas : forall k v, has d1 k v <->
      (exists m, k = KV m /\ In (m, v) (kept l)) \/
      (~ In E_ (map fst (kept l)) /\ k = KV E_ /\ v = PArr (afull [Z.to_nat A; Z.to_nat A] zero))).
    { intros k v. unfold d1.
      assert (forall k v, has (kv_dict (kept l)) k v <-> exists m, k = KV m /\ In (m, v) (kept l)) as HK.
      { intros k0 v0. split.
        - intros H. assert (exists m, k0 = KV m) as [m ->].
          { apply in_map_iff in H. destruct H as ([m' v'] & H & _). inv H. eauto. }
          exists m. split; auto. apply has_kv; auto.
        - intros (m & -> & H). apply has_kv; auto. }
      destruct (dmem key_eqb (kv_dict (kept l)) (KV E_)) eqn:EM.
      - apply (dmem_In key_eqb key_eqb_eq) in EM. rewrite kv_keys in EM. apply in_map_iff in EM.
        destruct EM as (m & Hm & EM). inv Hm. rewrite HK. tauto.
      - assert (~ In E_ (map fst (kept l))) as NE.
        { intros HE. assert (dmem key_eqb (kv_dict (kept l)) (KV E_) = true); [|congruence].
          apply dmem_In; [apply key_eqb_eq|]. rewrite kv_keys. apply in_map; auto. }
        unfold has. rewrite in_app_iff. fold (has (kv_dict (kept l)) k v). rewrite HK. simpl.
        split.
        + intros [H|[H|[]]]; [left; auto|right]. inv H. auto.
        + intros [H|(_ & -> & ->)]; [left; auto|right; left; auto]. }
    assert (dict_ok d1) as Hok.
    { split.
      - unfold d1. destruct (dmem key_eqb (kv_dict (kept l)) (KV E_)) eqn:EM.
        + apply NoDup_kv, kept_NoDup; auto.
        + rewrite <- (dset_fresh key_eqb key_eqb_eq).
          * apply dset_NoDup; [apply key_eqb_eq|]. apply NoDup_kv, kept_NoDup; auto.
          * intros HE. apply (dmem_In key_eqb key_eqb_eq) in HE. congruence.
      - intros k a Ha. apply Hhas in Ha. destruct Ha as [(m & -> & Ha)|(_ & _ & Ha)].
        + apply kept_In in Ha. destruct Ha as [Ha _]. eauto.
        + inv Ha. apply wf_afull. }
    assert (valid Coupled A N d1) as HV1.
    { destruct HV as [[(v & Hv & Iv) (v' & Hv' & Iv')] HV]. split.
      - split; [exists v | exists v']; split; auto; apply Hhas; left; eexists; (split; [reflexivity|]);
          apply kept_In; (split; [apply has_kv; auto|]); [destruct Iv | destruct Iv']; simpl; discriminate.
      - intros m u s Hu Hsp. apply Hhas in Hu. destruct Hu as [(m' & Hm & Hu)|(Hne & Hm & ->)].
        + inv Hm. apply kept_In in Hu. destruct Hu as [Hu _]. apply (HV m'); auto. apply has_kv; auto.
        + inv Hm. simpl in Hsp. inv Hsp. eexists; split; [reflexivity|]. simpl.
          destruct HA' as [HA'|HA']; [contradiction|]. rewrite Z2Nat.id; auto. }
    exists f', d1. split; [auto|]. split.
    { intros q Hq. rewrite Hf'. destruct (String.eqb_spec q path); congruence. }
    split.
    { unfold load_new. rewrite HL. simpl bind.
      assert (verify Coupled d1 = Ok tt) as -> by (apply verify_spec; [apply Hok|eauto]). auto. }
    split; auto. split; auto. split.
    { intros k v Hk. apply Hhas in Hk. destruct Hk as [(m & -> & _)|(_ & -> & _)]; eauto. }
    intros m v'. rewrite Hhas. split.
    - intros [(m' & Hm & Hin)|(Hne & Hm & ->)].
      + inv Hm. left. apply kept_In in Hin. destruct Hin as [Hin Henc]. split; [apply has_kv; auto|].
        apply enc_some_arr; auto. apply (S (KV m')). apply has_kv; auto.
      + inv Hm. right. split; auto. split.
        * intros a Ha Hnz. apply Hne. apply in_map_iff. exists (E_, PArr a). split; auto.
          apply kept_In. split; [apply has_kv; auto|]. apply enc_some_arr; [discriminate|].
          intros a' Ha'; inv Ha'; auto.
        * eexists; split; [reflexivity|]. split; [apply wf_afull|]. split; auto. apply afull_data.
    - intros [[Hv Hnz]|(-> & Hno & z & -> & Wz & Sz & Dz)].
      + left. exists m. split; auto. apply kept_In. split; [apply has_kv; auto|].
        apply enc_some_arr; auto. apply (S _ _ Hv).
      + right. split; [|split; auto].
        * intros HE. apply in_map_iff in HE. destruct HE as ([m' v] & Hm & HE). simpl in Hm. subst.
          apply kept_In in HE. destruct HE as [HE Henc].
          destruct HV as [_ HV]. apply has_kv in HE.
          destruct (HV E_ v _ HE eq_refl) as (a & -> & _).
          apply (Hno a HE). rewrite enc_some_arr in Henc by discriminate. auto.
        * f_equal. apply arr_ext; auto; [apply wf_afull|]. intros idx I.
          unfold afull. rewrite aget_abuild; [|rewrite Sz in I; auto].
          destruct (aget_some z idx Wz I) as [x Hx]. rewrite Hx. f_equal. apply Dz.
          unfold aget in Hx. destruct (offset (shape z) idx); try discriminate.
          eapply nth_error_In; eauto.
  Qed.

  (** "describes the same model" follows from the exact round trip *)
  Theorem roundtrip_same_numbers A N d d' :
    isz zero = true -> dict_ok d -> dict_ok d' -> valid Coupled A N d ->
    roundtrip zero isz A d d' -> same_numbers zero isz d d'.
  Proof.
    intros HZ [ND W] [ND' W'] HV HR. unfold roundtrip in HR.
    assert (forall m v, has d (KV m) v -> (m = N_ \/ m = A_) -> forall a, v <> PArr a) as NA.
    { intros m v Hv Hm a ->. destruct (valid_arrays _ _ ND HV Hv) as (_ & H1 & H2). tauto. }
    split; [|split].
    - intros v. rewrite HR. split.
      + intros H. left. split; auto. intros a ->. exfalso. eapply NA; eauto.
      + intros [[H _]|[H _]]; auto. discriminate.
    - intros v. rewrite HR. split.
      + intros H. left. split; auto. intros a ->. exfalso. eapply NA; eauto.
      + intros [[H _]|[H _]]; auto. discriminate.
    - intros m idx x y Hm Hx Hy.
      assert (forall a, ~ some_nonzero isz a -> forall v, aget a idx = Some v -> isz v = true) as HZA.
      { intros a Hn v Hv. destruct (isz v) eqn:E; auto. exfalso. apply Hn. exists v. split; auto.
        unfold aget in Hv. destruct (offset (shape a) idx); try discriminate. eapply nth_error_In; eauto. }
      assert (forall a, has d (KV m) (PArr a) -> some_nonzero isz a \/ ~ some_nonzero isz a) as DEC.
      { intros a _. destruct (any_nonzero isz a) eqn:E.
        - left. apply any_nonzero_spec; auto.
        - right. rewrite <- any_nonzero_spec. congruence. }
      inv Hx; inv Hy.
      + apply HR in H1. destruct H1 as [[H1 _]|(-> & Hno & z & Hz & _ & _ & Dz)].
        * pose proof (has_fun _ _ _ _ ND H H1) as HE. inv HE. left. congruence.
        * inv Hz. right. split; [eapply HZA; eauto|].
          rewrite (Dz y); auto. unfold aget in H2. destruct (offset (shape z) idx); try discriminate.
          eapply nth_error_In; eauto.
      + right. split; auto. destruct (DEC _ H) as [Hs|Hs]; [|eapply HZA; eauto].
        exfalso. apply (H1 (PArr a)). apply HR. left. split; auto. intros a' Ha'; inv Ha'; auto.
      + apply HR in H0. destruct H0 as [[H0 _]|(-> & Hno & z & Hz & _ & _ & Dz)].
        * exfalso. eapply H; eauto.
        * inv Hz. left. symmetry. apply Dz. unfold aget in H1.
          destruct (offset (shape z) idx); try discriminate. eapply nth_error_In; eauto.
      + left; auto.
  Qed.

  (** ---- diagonal models ---- *)
  Lemma load_raw_saved_neg (f : fs V) path k A N l :
    f path = Some (CJson (map (fun p => (vmk_value (fst p), snd p)) (enc_all l))) ->
    NoDup (map fst l) -> (forall m a, In (m, PArr a) l -> wf_arr a) -> valid k A N (kv_dict l) ->
    ~ In E_ (map fst (kept l)) -> (A < 0)%Z ->
    load_raw zero vint f path = Raise ValueError.
  Proof.
    intros Hf ND W HV HNE HA. unfold load_raw. rewrite (read_json_saved _ _ _ Hf). simpl bind.
    rewrite string_to_enum_ks by (apply enc_all_NoDup; auto). simpl bind.
    assert (NoDup (map fst (kv_dict l))) as NDkv by (apply NoDup_kv; auto).
    rewrite load_values_enc_all.
    2:{ intros m a Hin. split; [eapply W; eauto|]. apply has_kv in Hin. eapply valid_arrays in Hin; eauto. tauto. }
    simpl bind. fold (kept l).
    destruct (dmem key_eqb (kv_dict (kept l)) (KV E_)) eqn:EM.
    { exfalso. apply HNE. apply (dmem_In key_eqb key_eqb_eq) in EM. rewrite kv_keys in EM.
      apply in_map_iff in EM. destruct EM as (m & Hm & EM). inv Hm. auto. }
    assert (extract_dims vint (kv_dict (kept l)) = Ok (A, N)) as ED.
    { apply extract_dims_spec; [apply NoDup_kv, kept_NoDup; auto|].
      destruct HV as [[(v & Hv & Iv) (v' & Hv' & Iv')] _].
      split; [exists v | exists v']; split; auto; apply has_kv; apply kept_In;
        (split; [apply has_kv; auto|]); [destruct Iv | destruct Iv']; simpl; discriminate. }
    rewrite ED. simpl. unfold np_zeros. simpl. destruct (Z.leb_spec 0 A); [lia|reflexivity].
  Qed.

  Theorem save_load_diagonal f path d A N :
    dict_ok d -> known_keys d -> serialisable d -> valid Diagonal A N d ->
    exists f',
      save isz vint Diagonal f path d = (f', Ok tt) /\
      (forall q, q <> path -> f' q = f q) /\
      ((exists a, has d (KV E_) (PArr a) /\ some_nonzero isz a) ->
         exists d', load_new zero vint Diagonal f' path = Ok d' /\
           dict_ok d' /\ valid Diagonal A N d' /\ known_keys d' /\
           forall m v, has d' (KV m) v <-> (has d (KV m) v /\ forall a, v = PArr a -> some_nonzero isz a)) /\
      ((forall a, has d (KV E_) (PArr a) -> ~ some_nonzero isz a) ->
         load_new zero vint Diagonal f' path = Raise (if (0 <=? A)%Z then AssertionError else ValueError)).
  Proof.
    intros [ND W] KK S HV.
    destruct (known_kv KK) as [l ->].
    assert (NoDup (map fst l)) as NDl by (apply NoDup_kv; auto).
    assert (verify Diagonal (kv_dict l) = Ok tt) as Hver by (apply verify_spec; eauto).
    destruct (@save_known f path Diagonal _ l eq_refl NDl S Hver) as (f' & Hs & Hf').
    assert (forall m a, In (m, PArr a) l -> wf_arr a) as Wl
      by (intros m a Hin; apply (W (KV m)); apply has_kv; auto).
    assert (f' path = Some (CJson (map (fun p => (vmk_value (fst p), snd p)) (enc_all l)))) as Hp
      by (rewrite Hf', String.eqb_refl; auto).
    exists f'. split; auto. split.
    { intros q Hq. rewrite Hf'. destruct (String.eqb_spec q path); congruence. }
    assert (NoDup (map fst (kv_dict (kept l)))) as NDk by (apply NoDup_kv, kept_NoDup; auto).
    split.
    - intros (a & Ha & Hnz).
      assert (In E_ (map fst (kept l))) as HE.
      { apply in_map_iff. exists (E_, PArr a); split; auto. apply kept_In. split; [apply has_kv; auto|].
        apply enc_some_arr; [discriminate|]. intros a' Ha'; inv Ha'; auto. }
      pose proof (@load_raw_saved f' path Diagonal A N l Hp NDl Wl HV (or_introl HE)) as HL.
      assert (dmem key_eqb (kv_dict (kept l)) (KV E_) = true) as EM
        by (apply dmem_In; [apply key_eqb_eq|]; rewrite kv_keys; apply in_map; auto).
      rewrite EM in HL.
      exists (kv_dict (kept l)).
      assert (forall m v, has (kv_dict (kept l)) (KV m) v <->
                (has (kv_dict l) (KV m) v /\ forall a, v = PArr a -> some_nonzero isz a)) as HH.
      { intros m v. rewrite has_kv, kept_In, has_kv. split; intros [H1 H2]; split; auto;
          apply enc_some_arr; auto; apply (S (KV m)); apply has_kv; auto. }
      assert (valid Diagonal A N (kv_dict (kept l))) as HV1.
      { destruct HV as [[(v & Hv & Iv) (v' & Hv' & Iv')] HV]. split.
        - split; [exists v | exists v']; split; auto; apply HH; (split; auto);
            intros a0 ->; [inv Iv | inv Iv'].
        - intros m u s Hv1 Hsp. apply HH in Hv1. destruct Hv1. eauto. }
      split; [|split; [|split; [auto|split; auto]]].
      + unfold load_new. rewrite HL. simpl bind.
        assert (verify Diagonal (kv_dict (kept l)) = Ok tt) as -> by (apply verify_spec; eauto). auto.
      + split; auto. intros k a0 Ha0. assert (exists m, k = KV m) as [m ->].
        { apply in_map_iff in Ha0. destruct Ha0 as ([m' v'] & H & _). inv H. eauto. }
        apply HH in Ha0. destruct Ha0. eauto.
      + intros k v Hk. apply in_map_iff in Hk. destruct Hk as ([m' v'] & H & _). inv H. eauto.
    - intros Hno.
      assert (~ In E_ (map fst (kept l))) as HNE.
      { intros HE. apply in_map_iff in HE. destruct HE as ([m' v] & Hm & HE). simpl in Hm. subst.
        apply kept_In in HE. destruct HE as [HE Henc]. apply has_kv in HE.
        destruct HV as [_ HV]. destruct (HV E_ v _ HE eq_refl) as (a & -> & _).
        apply (Hno a HE). rewrite enc_some_arr in Henc by discriminate. auto. }
      destruct (Z.leb_spec 0 A) as [HA|HA].
      + pose proof (@load_raw_saved f' path Diagonal A N l Hp NDl Wl HV (or_intror HA)) as HL.
        assert (dmem key_eqb (kv_dict (kept l)) (KV E_) = false) as EM.
        { destruct (dmem _ _ _) eqn:EM; auto. apply (dmem_In key_eqb key_eqb_eq) in EM.
          rewrite kv_keys in EM. apply in_map_iff in EM. destruct EM as (m & Hm & EM). inv Hm. contradiction. }
        rewrite EM in HL. unfold load_new. rewrite HL. simpl bind.
        set (dd := kv_dict (kept l) ++ _).
        assert (NoDup (map fst dd)) as NDd.
        { unfold dd. rewrite <- (dset_fresh key_eqb key_eqb_eq).
          - apply dset_NoDup; [apply key_eqb_eq|]; auto.
          - intros H. apply (dmem_In key_eqb key_eqb_eq) in H. congruence. }
        assert (HD : extract_dims vint dd = Ok (A, N)).
        { apply extract_dims_spec; auto. destruct HV as [[(v & Hv & Iv) (v' & Hv' & Iv')] _].
          split; [exists v | exists v']; (split; [|auto]); apply in_or_app; left; apply has_kv; apply kept_In;
          (split; [apply has_kv; auto|]); [destruct Iv | destruct Iv']; simpl; discriminate. }
        assert (HVE : forall p, In p (kv_dict (kept l)) -> verify_entry Diagonal A N p = Ok tt).
        { destruct HV as [_ HV]. intros [k v] Hin. assert (exists m, k = KV m) as [m ->].
          { apply in_map_iff in Hin. destruct Hin as ([m' v'] & H & _). inv H. eauto. }
          apply has_kv in Hin. apply kept_In in Hin. destruct Hin as [Hin _]. apply has_kv in Hin.
          unfold verify_entry; simpl fst; cbv iota. rewrite model_shape_spec.
          destruct (spec_shape Diagonal A N m) as [s|] eqn:ES; auto. simpl.
          destruct (HV _ _ _ Hin ES) as (a & -> & Hsh). apply shape_eqb_eq in Hsh. rewrite Hsh. auto. }
        unfold verify, ModelIO_Model.verify.
        replace (dmem key_eqb dd (KV N_)) with true.
        2:{ symmetry. apply dmem_In; [apply key_eqb_eq|]. apply extract_dims_spec in HD; auto.
            destruct HD as [(v & Hv & _) _]. apply (in_map fst) in Hv. auto. }
        replace (dmem key_eqb dd (KV A_)) with true.
        2:{ symmetry. apply dmem_In; [apply key_eqb_eq|]. apply extract_dims_spec in HD; auto.
            destruct HD as [_ (v & Hv & _)]. apply (in_map fst) in Hv. auto. }
        simpl bind. rewrite HD. simpl bind. unfold dd. rewrite for_res_app.
        assert (for_res (fun (_ : unit) kv => verify_entry Diagonal A N kv) (kv_dict (kept l)) tt = Ok tt) as ->
          by (apply for_res_unit_all; auto).
        cbn -[Z.of_nat Z.eqb Z.to_nat]. rewrite andb_false_r. reflexivity.
      + unfold load_new. rewrite (@load_raw_saved_neg f' path Diagonal A N l Hp NDl Wl HV HNE HA). auto.
  Qed.

  (** ---- rejected models leave the file system untouched ---- *)
  Theorem save_invalid f path k d :
    dict_ok d -> (forall A N, ~ valid k A N d) ->
    exists e, save isz vint k f path d = (f, Raise e).
  Proof.
    intros [ND _] H. unfold save. destruct (verify k d) as [[]|e] eqn:E; eauto.
    apply verify_spec in E; auto. destruct E as (A & N & HV). exfalso. eapply H; eauto.
  Qed.

  Theorem save_ok_valid f f' path k d :
    dict_ok d -> save isz vint k f path d = (f', Ok tt) -> exists A N, valid k A N d.
  Proof.
    intros [ND _] H. unfold save in H. destruct (verify k d) as [[]|e] eqn:E; inv H.
    apply verify_spec in E; auto.
  Qed.

  (** ---- in-place loading ---- *)
  Lemma load_inplace_ok (o : list (key * jval V)) d :
    (forall k v, has d k v -> exists v', load_inplace_entry zero v_of_int o k v = Ok v') ->
    exists d', load_inplace_loop zero v_of_int o d = (d', Ok tt) /\ map fst d' = map fst d /\
      forall k v', has d' k v' -> exists v, has d k v /\ load_inplace_entry zero v_of_int o k v = Ok v'.
  Proof.
    induction d as [|[k v] d IH]; intros H; simpl.
    - exists []. split; auto. split; auto. intros k v' [].
    - destruct (H k v) as [v' Hv']; [left; auto|]. rewrite Hv'.
      destruct IH as (d' & E & Hf & HI). { intros k0 v0 H0. apply (H k0 v0). right; auto. }
      rewrite E. exists ((k, v') :: d'). split; auto. split; [simpl; congruence|].
      intros k0 v0 [H0|H0].
      + inv H0. exists v. split; [left; auto|auto].
      + destruct (HI _ _ H0) as (v1 & H1 & H2). exists v1. split; [right; auto|auto].
  Qed.

  Theorem load_into_saved f f' path k d d0 A N :
    dict_ok d -> known_keys d -> serialisable d -> valid k A N d ->
    dict_ok d0 -> valid k A N d0 ->
    save isz vint k f path d = (f', Ok tt) ->
    exists d', load_into zero vint v_of_int k f' path d0 = (d', Ok tt) /\
      dict_ok d' /\ valid k A N d' /\ map fst d' = map fst d0 /\
      (forall key v, (forall a, v <> PArr a) -> (has d' key v <-> has d0 key v)) /\
      (forall key a0, has d0 key (PArr a0) -> exists a', has d' key (PArr a') /\ shape a' = shape a0) /\
      (forall m a', has d' (KV m) (PArr a') ->
         forall a, has d (KV m) (PArr a) -> some_nonzero isz a -> a' = a) /\
      (forall key a', has d' key (PArr a') ->
         (forall m a, key = KV m -> has d (KV m) (PArr a) -> ~ some_nonzero isz a) ->
         forall x, In x (data a') -> x = zero).
  Proof.
    intros [ND W] KK S HV [ND0 W0] HV0 Hsave.
    destruct (known_kv KK) as [l ->].
    assert (NoDup (map fst l)) as NDl by (apply NoDup_kv; auto).
    assert (verify k (kv_dict l) = Ok tt) as Hver by (apply verify_spec; eauto).
    destruct (@save_known f path k _ l eq_refl NDl S Hver) as (f2 & Hs & Hf').
    rewrite Hsave in Hs. inv Hs.
    assert (f2 path = Some (CJson (map (fun p => (vmk_value (fst p), snd p)) (enc_all l)))) as Hp
      by (rewrite Hf', String.eqb_refl; auto).
    set (o := kv_dict (enc_all l)).
    assert (NoDup (map fst o)) as NDo by (apply NoDup_kv, enc_all_NoDup; auto).
    (* what the file says about a key *)
    assert (forall m a, has (kv_dict l) (KV m) (PArr a) -> some_nonzero isz a ->
              dget key_eqb o (KV m) = Some (jlist_of (tolist a)) /\ to_array v_of_int (jlist_of (tolist a)) = Ok a) as Hfile.
    { intros m a Ha Hnz. split.
      - apply In_dget; auto; [apply key_eqb_eq|]. unfold o, kv_dict. apply in_map_iff.
        exists (m, jlist_of (tolist a)). split; auto. unfold enc_all. apply in_flat_map.
        exists (m, PArr a). split; [apply has_kv; auto|]. simpl.
        apply any_nonzero_spec in Hnz. rewrite Hnz. left; auto.
      - destruct (valid_arrays _ _ ND HV Ha) as (Sa & _ & _). pose proof (W _ _ Ha) as Wa.
        assert (data a <> []) as NE by (destruct Hnz as (v & Hv & _); intros HE; rewrite HE in Hv; easy).
        pose proof (np_array_tolist a Wa (data_nonempty_dims a Wa NE)) as HT.
        destruct a as [s dat]; simpl in *. destruct s; [congruence|]. exact HT. }
    assert (forall m a, (forall a', has (kv_dict l) (KV m) (PArr a') -> ~ some_nonzero isz a') ->
              has d0 (KV m) (PArr a) -> dget key_eqb o (KV m) = None) as Hnone.
    { intros m a Hn Ha. destruct (valid_arrays _ _ ND0 HV0 Ha) as (_ & M1 & M2).
      apply dget_None; [apply key_eqb_eq|]. unfold o. rewrite kv_keys. intros Hin.
      apply in_map_iff in Hin. destruct Hin as (m' & Hm & Hin). inv Hm.
      apply in_map_iff in Hin. destruct Hin as ([m' j] & Hm & Hin). simpl in Hm; subst.
      unfold enc_all in Hin. apply in_flat_map in Hin. destruct Hin as ([m' v] & Hin & Hj). simpl in Hj.
      destruct (enc v) eqn:EE; [|easy]. destruct Hj as [Hj|[]]. inv Hj. apply has_kv in Hin.
      destruct HV as [_ HV]. destruct (spec_shape k A N m) as [s|] eqn:ES.
      - destruct (HV _ _ _ Hin ES) as (a' & -> & _). apply (Hn a' Hin).
        simpl in EE. destruct (any_nonzero isz a') eqn:EA; try discriminate. apply any_nonzero_spec; auto.
      - destruct m; simpl in ES; try discriminate; congruence. }
    assert (forall s, dget key_eqb o (KS s) = None) as HKS.
    { intros s. apply dget_None; [apply key_eqb_eq|]. unfold o. rewrite kv_keys. intros Hin.
      apply in_map_iff in Hin. destruct Hin as (m' & Hm & _). discriminate. }
    assert (DEC : forall m, (exists a, has (kv_dict l) (KV m) (PArr a) /\ some_nonzero isz a) \/
                            (forall a, has (kv_dict l) (KV m) (PArr a) -> ~ some_nonzero isz a)).
    { intros m. destruct (mget (kv_dict l) (KV m)) as [v|] eqn:EM.
      - apply mget_has in EM; auto. destruct v as [| |a| |];
          try (right; intros a0 Ha0; pose proof (has_fun _ _ _ _ ND EM Ha0); discriminate).
        destruct (any_nonzero isz a) eqn:EA.
        + left. exists a. split; auto. apply any_nonzero_spec; auto.
        + right. intros a0 Ha0. pose proof (has_fun _ _ _ _ ND EM Ha0) as HE. inv HE.
          rewrite <- any_nonzero_spec. congruence.
      - right. intros a Ha. apply (mget_has _ _ _ ND) in Ha. congruence. }
    assert (SH : forall m a a0, has (kv_dict l) (KV m) (PArr a) -> has d0 (KV m) (PArr a0) -> shape a = shape a0).
    { intros m a a0 Ha Ha0. destruct (valid_arrays _ _ ND HV Ha) as (_ & M1 & M2).
      destruct HV as [_ HV]. destruct HV0 as [_ HV0].
      destruct (spec_shape k A N m) as [s|] eqn:ES.
      - destruct (HV _ _ _ Ha ES) as (x & Hx & Hsx). destruct (HV0 _ _ _ Ha0 ES) as (y & Hy & Hsy).
        injection Hx as <-. injection Hy as <-. rewrite <- Hsy in Hsx.
        clear -Hsx. revert Hsx. generalize (shape a), (shape a0). intros s1. induction s1; intros [|y s2]; simpl; intros H; inv H; auto.
        apply Nat2Z.inj in H1. f_equal; auto.
      - destruct m; simpl in ES; try discriminate; congruence. }
    (* every entry can be loaded *)
    assert (ENT : forall key v, has d0 key v -> exists v', load_inplace_entry zero v_of_int o key v = Ok v' /\
       ((forall a, v <> PArr a) -> v' = v) /\
       (forall a0, v = PArr a0 -> exists a', v' = PArr a' /\ shape a' = shape a0 /\ wf_arr a' /\
          (forall m a, key = KV m -> has (kv_dict l) (KV m) (PArr a) -> some_nonzero isz a -> a' = a) /\
          ((forall m a, key = KV m -> has (kv_dict l) (KV m) (PArr a) -> ~ some_nonzero isz a) ->
              forall x, In x (data a') -> x = zero))).
    { intros key v Hv. destruct v as [z|x|a0| |];
        try (eexists; split; [reflexivity|]; split; [auto|intros; discriminate]).
      assert (forall key, (forall m a, key = KV m -> has (kv_dict l) (KV m) (PArr a) -> ~ some_nonzero isz a) ->
                dget key_eqb o key = None -> has d0 key (PArr a0) ->
                exists v', load_inplace_entry zero v_of_int o key (PArr a0) = Ok v' /\
                ((forall a, PArr a0 <> PArr a) -> v' = PArr a0) /\
                (forall a1, PArr a0 = PArr a1 -> exists a', v' = PArr a' /\ shape a' = shape a1 /\ wf_arr a' /\
          (forall m a, key = KV m -> has (kv_dict l) (KV m) (PArr a) -> some_nonzero isz a -> a' = a) /\
          ((forall m a, key = KV m -> has (kv_dict l) (KV m) (PArr a) -> ~ some_nonzero isz a) ->
              forall x, In x (data a') -> x = zero))) as Hfill.
      { intros key1 Hn Hg Hh. unfold load_inplace_entry. rewrite Hg. eexists; split; [reflexivity|]. split.
        - intros H. exfalso. eapply H; eauto.
        - intros a1 Ha1. inv Ha1. eexists; split; [reflexivity|]. split; auto. split; [apply wf_afull|]. split.
          + intros m a -> Ha Hnz. exfalso. eapply Hn; eauto.
          + intros _. apply afull_data. }
      destruct key as [m|s].
      - destruct (DEC m) as [(a & Ha & Hnz)|Hno].
        + destruct (Hfile _ _ Ha Hnz) as [Hg Ht]. unfold load_inplace_entry. rewrite Hg, Ht. simpl bind.
          pose proof (SH _ _ _ Ha Hv) as HSH.
          destruct (valid_arrays _ _ ND HV Ha) as (Sa & _ & _).
          destruct (shape a0) as [|x xs] eqn:ES0; [congruence|].
          rewrite assign_all_same; [|eauto|congruence]. simpl.
          eexists; split; [reflexivity|]. split; [intros H; exfalso; eapply H; eauto|].
          intros a1 Ha1. inv Ha1. exists a. split; auto. split; [congruence|]. split; [eauto|]. split.
          * intros m' a' Hm Ha' _. inv Hm. pose proof (has_fun _ _ _ _ ND Ha Ha') as HE. inv HE. auto.
          * intros H. exfalso. eapply H; eauto.
        + apply Hfill; auto.
          * intros m' a Hm. inv Hm. apply Hno.
          * eapply Hnone; eauto.
      - apply Hfill; auto. intros; discriminate. }
    destruct (@load_inplace_ok o d0) as (d' & HL & HK & HI).
    { intros key v Hv. destruct (ENT _ _ Hv) as (v' & H & _). eauto. }
    assert (ND' : NoDup (map fst d')) by (rewrite HK; auto).
    assert (HI2 : forall key v, has d0 key v -> exists v', has d' key v' /\ load_inplace_entry zero v_of_int o key v = Ok v').
    { intros key v Hv. assert (In key (map fst d')) as Hin by (rewrite HK; apply (in_map fst) in Hv; auto).
      apply in_map_iff in Hin. destruct Hin as ([key' v'] & <- & Hin). exists v'. split; auto.
      destruct (HI _ _ Hin) as (v2 & H2 & H3). simpl in Hv. pose proof (has_fun _ _ _ _ ND0 Hv H2). subst. auto. }
    assert (P1 : forall key v, (forall a, v <> PArr a) -> (has d' key v <-> has d0 key v)).
    { intros key v Hna. split; intros Hv.
      - destruct (HI _ _ Hv) as (v0 & H0 & H1). destruct (ENT _ _ H0) as (v' & H2 & H3 & H4).
        rewrite H1 in H2; inv H2. destruct v0 as [| |a0| |]; try (rewrite H3 by (intros; discriminate); auto; fail).
        destruct (H4 _ eq_refl) as (a' & -> & _). exfalso. eapply Hna; eauto.
      - destruct (HI2 _ _ Hv) as (v' & H1 & H2). destruct (ENT _ _ Hv) as (v'' & H3 & H4 & _).
        rewrite H2 in H3; inv H3. rewrite H4 in H1; auto. }
    assert (P2 : forall key a', has d' key (PArr a') -> exists a0, has d0 key (PArr a0) /\ shape a' = shape a0 /\ wf_arr a' /\
          (forall m a, key = KV m -> has (kv_dict l) (KV m) (PArr a) -> some_nonzero isz a -> a' = a) /\
          ((forall m a, key = KV m -> has (kv_dict l) (KV m) (PArr a) -> ~ some_nonzero isz a) ->
              forall x, In x (data a') -> x = zero)).
    { intros key a' Ha'. destruct (HI _ _ Ha') as (v0 & H0 & H1). destruct (ENT _ _ H0) as (v' & H2 & H3 & H4).
      rewrite H1 in H2; inv H2. destruct v0 as [| |a0| |]; try (specialize (H3 ltac:(intros; discriminate)); discriminate).
      destruct (H4 _ eq_refl) as (a2 & He & Hrest). inv He. exists a0. auto. }
    assert (HV' : valid k A N d').
    { destruct HV0 as [[(v & Hv & Iv) (v' & Hv' & Iv')] HV0]. split.
      - split; [exists v | exists v']; split; auto; apply P1; auto; intros a ->; [inv Iv | inv Iv'].
      - intros m u s Hu Hsp. destruct (HI _ _ Hu) as (v0 & H0 & H1).
        destruct (HV0 _ _ _ H0 Hsp) as (a0 & -> & Hsh). destruct (ENT _ _ H0) as (v1 & H2 & _ & H4).
        rewrite H1 in H2; inv H2. destruct (H4 _ eq_refl) as (a2 & -> & Hs2 & _). exists a2. split; auto. congruence. }
    exists d'. split.
    { unfold load_into. assert (verify k d0 = Ok tt) as -> by (apply verify_spec; eauto).
      unfold load_inplace_raw. rewrite (read_json_saved _ _ _ Hp). simpl bind.
      rewrite string_to_enum_ks by (apply enc_all_NoDup; auto). fold o. rewrite HL.
      assert (verify k d' = Ok tt) as -> by (apply verify_spec; eauto). auto. }
    split. { split; auto. intros key a Ha. destruct (P2 _ _ Ha) as (_ & _ & _ & Hw & _). auto. }
    split; auto. split; auto. split; auto. split.
    { intros key a0 Ha0. destruct (HI2 _ _ Ha0) as (v' & H1 & H2). destruct (ENT _ _ Ha0) as (v'' & H3 & _ & H4).
      rewrite H2 in H3; inv H3. destruct (H4 _ eq_refl) as (a' & -> & Hs & _). eauto. }
    split.
    { intros m a' Ha' a Ha Hnz. destruct (P2 _ _ Ha') as (a0 & _ & _ & _ & H & _). eauto. }
    intros key a' Ha' Hno. destruct (P2 _ _ Ha') as (a0 & _ & _ & _ & _ & H). apply H. auto.
  Qed.
End P.
