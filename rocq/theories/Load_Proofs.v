From Coq Require Import Reals FunctionalExtensionality.
From Verif Require Import Common Common_Proofs Arr_Model Arr_Proofs ModelIO_Model ModelIO_Spec ModelIO_Proofs Pimc_Model Point_Model Point_Proofs Load_Model Load_Spec.

Section L.
  Context {V : Type}.
  Variable zero : V.
  Variable vint : V -> res Z.
  Variable v_of_int : Z -> V.

  (** a file with known, distinct keys as a list *)
  Lemma known_list (o : list (string * jval V)) : (forall s j, In (s, j) o -> exists m, s = vmk_value m) ->
    exists l : list (vmk * jval V), o = map (fun p => (vmk_value (fst p), snd p)) l.
  Proof.
    induction o as [|[s j] o IH]; intros H.
    - exists []; auto.
    - destruct (H s j (or_introl eq_refl)) as [m ->]. destruct IH as [l ->]; [intros; eapply H; right; eauto|].
      exists ((m, j) :: l). reflexivity.
  Qed.
  Lemma list_keys (l : list (vmk * jval V)) : NoDup (map fst (map (fun p => (vmk_value (fst p), snd p)) l)) -> NoDup (map fst l).
  Proof.
    rewrite map_map. cbn [fst]. intros H. rewrite <- map_map with (f := fst) (g := vmk_value) in H. eapply NoDup_map_inv; eauto.
  Qed.
  Lemma list_in (l : list (vmk * jval V)) m j : In (vmk_value m, j) (map (fun p => (vmk_value (fst p), snd p)) l) <-> In (m, j) l.
  Proof.
    rewrite in_map_iff. split.
    - intros ([m' j'] & E & I). cbn in E. injection E as E1 E2. apply vmk_value_inj in E1. subst. exact I.
    - intros I. exists (m, j). auto.
  Qed.
  Lemma list_mem (l : list (vmk * jval V)) m : In (vmk_value m) (map fst (map (fun p => (vmk_value (fst p), snd p)) l)) <-> In m (map fst l).
  Proof.
    rewrite map_map. cbn [fst]. rewrite !in_map_iff. split.
    - intros ([m' j'] & E & I). apply vmk_value_inj in E. cbn in E. subst. exists (m, j'). auto.
    - intros ([m' j'] & E & I). cbn in E. subst. exists (m, j'). auto.
  Qed.
  Lemma dget_kv (l : list (vmk * jval V)) m j : NoDup (map fst l) -> (dget key_eqb (kv_dict l) (KV m) = Some j <-> In (m, j) l).
  Proof.
    intros ND. rewrite dget_iff; [|apply key_eqb_eq|apply NoDup_kv; exact ND]. unfold kv_dict. rewrite in_map_iff. split.
    - intros ([m' j'] & E & I). cbn in E. injection E as -> ->. exact I.
    - intros I. exists (m, j). auto.
  Qed.
  Lemma dget_kv_none (l : list (vmk * jval V)) m : dget key_eqb (kv_dict l) (KV m) = None <-> ~ In m (map fst l).
  Proof.
    rewrite dget_None by apply key_eqb_eq. rewrite kv_keys. split; intros H I; apply H.
    - apply in_map. exact I.
    - apply in_map_iff in I. destruct I as (m' & E & I). injection E as ->. exact I.
  Qed.

  (** reading the file and converting its keys *)
  Lemma read_keys (f : fs V) path l : f path = Some (CJson (map (fun p => (vmk_value (fst p), snd p)) l)) -> NoDup (map fst l) ->
    (do o <- read_json f path; string_to_enum o) = Ok (kv_dict l).
  Proof.
    intros F ND. unfold read_json. rewrite F. cbn [bind]. rewrite map_map. cbn [fst snd].
    change (map (fun x : vmk * jval V => (KS (vmk_value (fst x)), snd x)) l) with (ks_dict l). apply string_to_enum_ks. exact ND.
  Qed.

  Lemma json_int_spec j z : json_int vint j = Ok z <-> json_integer vint j z.
  Proof.
    split.
    - destruct j; cbn; intros H; inv H; constructor; assumption.
    - intros []; cbn; auto.
  Qed.

  Lemma dims_ok k A N (f : fs V) path o : f path = Some (CJson o) -> model_file vint k A N o -> dims_of_file vint f path = Ok (A, N).
  Proof.
    intros F []. destruct (known_list _ mf_known) as [l ->]. apply list_keys in mf_unique.
    unfold dims_of_file. rewrite F. cbn [passert bind].
    pose proof (read_keys _ _ _ F mf_unique) as RK. destruct (read_json f path) as [oo|]; cbn [bind] in RK; [|discriminate]. cbn [bind]. rewrite RK. cbn [bind].
    destruct mf_modes as (jn & In1 & Jn). destruct mf_surfaces as (ja & In2 & Ja).
    change "number of modes"%string with (vmk_value N_) in In1. change "number of surfaces"%string with (vmk_value A_) in In2.
    apply list_in in In1. apply list_in in In2. apply (dget_kv _ _ _ mf_unique) in In1. apply (dget_kv _ _ _ mf_unique) in In2.
    unfold jitem. rewrite In1. cbn [bind]. apply json_int_spec in Jn. rewrite Jn. cbn [bind]. rewrite In2. cbn [bind].
    apply json_int_spec in Ja. rewrite Ja. reflexivity.
  Qed.

  (** one array *)
  Lemma entry_ok k A N l m s (a : arr V) : model_file vint k A N (map (fun p => (vmk_value (fst p), snd p)) l) ->
    spec_shape k A N m = Some s -> map Z.of_nat (shape a) = s -> s <> [] ->
    exists b, load_inplace_entry zero v_of_int (kv_dict l) (KV m) (PArr a) = Ok (PArr b) /\ wf_arr b /\ shape b = shape a /\
      forall idx, inb (shape a) idx -> exists x, aget b idx = Some x /\ file_number zero (map (fun p => (vmk_value (fst p), snd p)) l) m idx x.
  Proof.
    intros [] S SA SN. pose proof (list_keys _ mf_unique) as ND. unfold load_inplace_entry.
    destruct (dget key_eqb (kv_dict l) (KV m)) as [j|] eqn:G.
    - apply (dget_kv _ _ _ ND) in G. destruct (mf_arrays m j s) as (ll & b & -> & NP & SB); [apply list_in; exact G|exact S|].
      cbn [to_array]. rewrite NP. cbn [bind].
      assert (SH : shape b = shape a).
      { rewrite <- SA in SB. clear - SB. revert SB. generalize (shape a). induction (shape b) as [|x t IH]; intros [|y u] E; cbn in E; try discriminate; [reflexivity|]. injection E as E1 E2. f_equal; [lia|auto]. }
      destruct (shape a) as [|n t] eqn:SHa; [exfalso; apply SN; rewrite <- SA; reflexivity|]. rewrite <- SHa in *.
      exists b. rewrite assign_all_same; [|eapply np_array_wf; eauto|exact SH]. cbn [bind].
      split; [reflexivity|]. split; [eapply np_array_wf; eauto|]. split; [congruence|]. intros idx I.
      destruct (aget_some b idx) as [x X]; [eapply np_array_wf; eauto|rewrite SH; exact I|].
      exists x. split; [exact X|]. eapply fn_there; [apply list_in; exact G|exact NP|exact X].
    - apply dget_kv_none in G. exists (afull (shape a) zero). split; [reflexivity|]. split; [apply wf_afull|]. split; [reflexivity|].
      intros idx I. exists zero. split; [unfold afull; apply aget_abuild; exact I|]. apply fn_missing. intros J. apply G. apply list_mem. exact J.
  Qed.

  (** the parameters have the shapes of a model with A surfaces and N modes *)
  Definition shaped (k : kind) (A N : Z) (m : params V) : Prop :=
    p_states m = A /\ p_modes m = N /\
    spec_shape k A N E_ = Some (map Z.of_nat (shape (p_energy m))) /\ spec_shape k A N w_ = Some (map Z.of_nat (shape (p_omega m))) /\
    spec_shape k A N G1_ = Some (map Z.of_nat (shape (p_linear m))) /\ spec_shape k A N G2_ = Some (map Z.of_nat (shape (p_quadratic m))).
  (** array [a] holds the numbers of the file *)
  Definition holds o m (a : arr V) : Prop := wf_arr a /\
    forall idx, inb (shape a) idx -> exists x, aget a idx = Some x /\ file_number zero o m idx x.

  Lemma kwargs_nodup m : NoDup (map fst (@kwargs_of V m)).
  Proof. repeat constructor; cbn; intuition discriminate. Qed.
  Lemma kwargs_valid k A N m : shaped k A N m -> verify vint k (kwargs_of m) = Ok tt.
  Proof.
    intros (S1 & S2 & S3 & S4 & S5 & S6). apply verify_spec; [apply kwargs_nodup|]. exists A, N. split.
    - split; eexists; (split; [unfold has, kwargs_of; cbn; eauto|]); rewrite <- ?S1, <- ?S2; constructor.
    - intros mm v s H S. unfold has, kwargs_of in H. cbn in H. decompose [or] H; try contradiction;
        match goal with E : (_, _) = (_, _) |- _ => injection E as <- <- end; try discriminate S; eexists; (split; [reflexivity|congruence]).
  Qed.

  Lemma load_given_ok k A N (f : fs V) path o m : f path = Some (CJson o) -> model_file vint k A N o -> shaped k A N m ->
    exists m', load_given zero vint v_of_int k f path m = Ok m' /\ shaped k A N m' /\
      holds o E_ (p_energy m') /\ holds o w_ (p_omega m') /\ holds o G1_ (p_linear m') /\ holds o G2_ (p_quadratic m').
  Proof.
    intros F MF SH. pose proof SH as (S1 & S2 & S3 & S4 & S5 & S6).
    destruct (known_list _ (mf_known _ _ _ _ _ MF)) as [l El]. subst o.
    pose proof (list_keys _ (mf_unique _ _ _ _ _ MF)) as ND.
    assert (NE : forall mm s, In mm [E_; w_; G1_; G2_] -> spec_shape k A N mm = Some s -> s <> []).
    { intros mm s I S. destruct mm, k; cbn in I; try (exfalso; clear - I; intuition discriminate); cbn in S; injection S as <-; discriminate. }
    destruct (entry_ok _ _ _ _ _ _ _ MF S3 eq_refl (NE E_ _ ltac:(cbn; auto) S3)) as (e & Ee & We & She & He).
    destruct (entry_ok _ _ _ _ _ _ _ MF S4 eq_refl (NE w_ _ ltac:(cbn; auto) S4)) as (w & Ew & Ww & Shw & Hw).
    destruct (entry_ok _ _ _ _ _ _ _ MF S5 eq_refl (NE G1_ _ ltac:(cbn; auto) S5)) as (g & Eg & Wg & Shg & Hg).
    destruct (entry_ok _ _ _ _ _ _ _ MF S6 eq_refl (NE G2_ _ ltac:(cbn; auto) S6)) as (q & Eq & Wq & Shq & Hq).
    set (m' := {| p_states := p_states m; p_modes := p_modes m; p_energy := e; p_omega := w; p_linear := g; p_quadratic := q |}).
    assert (SH' : shaped k A N m').
    { unfold shaped, m'. cbn [p_states p_modes p_energy p_omega p_linear p_quadratic]. rewrite She, Shw, Shg, Shq. exact SH. }
    exists m'. unfold load_given, load_into. rewrite (kwargs_valid _ _ _ _ SH). unfold load_inplace_raw. rewrite (read_keys _ _ _ F ND).
    assert (LP : load_inplace_loop zero v_of_int (kv_dict l) (kwargs_of m) = (kwargs_of m', Ok tt)).
    { unfold kwargs_of. cbn [load_inplace_loop]. cbn [load_inplace_entry] in Ee, Ew, Eg, Eq |- *. rewrite Ee, Ew, Eg, Eq. reflexivity. }
    rewrite LP. rewrite (kwargs_valid _ _ _ _ SH'). split; [reflexivity|]. split; [exact SH'|].
    unfold m'; cbn [p_energy p_omega p_linear p_quadratic].
    repeat split; try assumption; [rewrite She|rewrite Shw|rewrite Shg|rewrite Shq]; assumption.
  Qed.

  Lemma zeros_shape s (a : arr V) : np_zeros zero s = Ok a -> map Z.of_nat (shape a) = s.
  Proof. intros H. apply np_zeros_spec in H. apply H. Qed.

  (** a file for A surfaces and N modes exists with an array only if these are not negative; so say so *)
  Lemma load_vib_ok A N (f : fs V) path o : f path = Some (CJson o) -> model_file vint Coupled A N o -> (0 <= A)%Z -> (0 <= N)%Z ->
    exists m, load_vib zero vint v_of_int f path A N = Ok m /\ shaped Coupled A N m /\
      holds o E_ (p_energy m) /\ holds o w_ (p_omega m) /\ holds o G1_ (p_linear m) /\ holds o G2_ (p_quadratic m).
  Proof.
    intros F MF HA HN. unfold load_vib. rewrite !np_zeros_ok by (repeat constructor; assumption). cbn [bind].
    apply (load_given_ok Coupled A N f path o); [exact F|exact MF|].
    assert (B : forall s, Forall (fun z => (0 <= z)%Z) s -> map Z.of_nat (shape (afull (map Z.to_nat s) zero)) = s).
    { intros s P. apply zeros_shape. apply np_zeros_ok. exact P. }
    repeat split; cbn [p_energy p_omega p_linear p_quadratic]; rewrite B by (repeat constructor; assumption); reflexivity.
  Qed.

  Lemma load_rho_ok A N (f : fs V) path o : f path = Some (CJson o) -> model_file vint Diagonal A N o -> (0 <= A)%Z -> (0 <= N)%Z ->
    exists m, load_rho zero vint v_of_int f path N = Ok m /\ shaped Diagonal A N m /\
      holds o E_ (p_energy m) /\ holds o w_ (p_omega m) /\ holds o G1_ (p_linear m) /\ holds o G2_ (p_quadratic m).
  Proof.
    intros F MF HA HN. unfold load_rho. cbn [extract_dimensions]. rewrite (dims_ok _ _ _ _ _ _ F MF). cbn [bind fst snd].
    rewrite !np_zeros_ok by (repeat constructor; assumption). cbn [bind].
    apply (load_given_ok Diagonal A N f path o); [exact F|exact MF|].
    assert (B : forall s, Forall (fun z => (0 <= z)%Z) s -> map Z.of_nat (shape (afull (map Z.to_nat s) zero)) = s).
    { intros s P. apply zeros_shape. apply np_zeros_ok. exact P. }
    repeat split; cbn [p_energy p_omega p_linear p_quadratic]; rewrite B by (repeat constructor; assumption); reflexivity.
  Qed.

  (** another number of modes in the sampling file *)
  Lemma load_rho_modes A N N0 (f : fs V) path o : f path = Some (CJson o) -> model_file vint Diagonal A N o -> (0 <= A)%Z -> (0 <= N0)%Z -> N <> N0 ->
    load_rho zero vint v_of_int f path N0 = Raise AssertionError.
  Proof.
    intros F MF HA HN NE. unfold load_rho. cbn [extract_dimensions]. rewrite (dims_ok _ _ _ _ _ _ F MF). cbn [bind fst snd].
    rewrite !np_zeros_ok by (repeat constructor; assumption). cbn [bind]. unfold load_given, load_into.
    match goal with |- context [verify vint Diagonal ?d] => replace (verify vint Diagonal d) with (@Raise unit AssertionError); [reflexivity|] end.
    symmetry. unfold verify, kwargs_of. cbn [p_modes p_states p_energy p_omega p_linear p_quadratic].
    cbn [dmem dget key_eqb vmk_eqb passert bind extract_dims mitem mget py_int fst snd for_res].
    assert (X : shape_eqb [Z.to_nat A] [A] = true) by (apply shape_eqb_eq; cbn; rewrite Z2Nat.id by exact HA; reflexivity).
    assert (Y : shape_eqb [Z.to_nat N0] [N] = false).
    { destruct (shape_eqb [Z.to_nat N0] [N]) eqn:B; [|reflexivity]. apply shape_eqb_eq in B. cbn in B. rewrite Z2Nat.id in B by exact HN. injection B as B. congruence. }
    unfold verify_entry. cbn [fst snd]. rewrite !model_shape_spec.
    cbn [for_res bind]. cbn [spec_shape mode_axes repeat app surface_axes afull abuild shape map bind].
    rewrite X. cbn [passert bind]. rewrite Y. reflexivity.
  Qed.

  Lemma assign_error (d t : arr V) e : assign_all d t = Raise e -> e = ValueError.
  Proof.
    unfold assign_all. destruct (bc_align _ _); [|congruence]. destruct (bc_ok _ _); [|congruence]. destruct (opt_all _); congruence.
  Qed.
  (** what can happen to one array of a file for other dimensions *)
  Lemma entry_error k A N l m s (a : arr V) e : model_file vint k A N (map (fun p => (vmk_value (fst p), snd p)) l) ->
    spec_shape k A N m = Some s -> shape a <> [] ->
    load_inplace_entry zero v_of_int (kv_dict l) (KV m) (PArr a) = Raise e -> e = ValueError.
  Proof.
    intros [] S SN. pose proof (list_keys _ mf_unique) as ND. unfold load_inplace_entry.
    destruct (dget key_eqb (kv_dict l) (KV m)) as [j|] eqn:G; [|discriminate].
    apply (dget_kv _ _ _ ND) in G. destruct (mf_arrays m j s) as (ll & b & -> & NP & SB); [apply list_in; exact G|exact S|].
    cbn [to_array]. rewrite NP. cbn [bind]. destruct (shape a); [contradiction|]. destruct (assign_all a b) as [r|e'] eqn:AS; cbn [bind]; [discriminate|].
    intros H. injection H as <-. eapply assign_error; eauto.
  Qed.

  Lemma load_vib_modes A N A0 N0 (f : fs V) path o : f path = Some (CJson o) -> model_file vint Coupled A N o -> (0 <= A0)%Z -> (0 <= N0)%Z ->
    (0 <= N)%Z -> N <> N0 -> N <> 1%Z -> In "frequencies"%string (map fst o) ->
    load_vib zero vint v_of_int f path A0 N0 = Raise ValueError.
  Proof.
    intros F MF HA HN HN' NE N1 IW. unfold load_vib. rewrite !np_zeros_ok by (repeat constructor; assumption). cbn [bind].
    destruct (known_list _ (mf_known _ _ _ _ _ MF)) as [l El]. subst o.
    pose proof (list_keys _ (mf_unique _ _ _ _ _ MF)) as ND.
    set (m := Build_params _ _ _ _ _ _).
    assert (SH : shaped Coupled A0 N0 m).
    { assert (B : forall s, Forall (fun z => (0 <= z)%Z) s -> map Z.of_nat (shape (afull (map Z.to_nat s) zero)) = s).
      { intros s P. apply zeros_shape. apply np_zeros_ok. exact P. }
      repeat split; unfold m; cbn [p_energy p_omega p_linear p_quadratic]; rewrite B by (repeat constructor; assumption); reflexivity. }
    unfold load_given, load_into. rewrite (kwargs_valid _ _ _ _ SH). unfold load_inplace_raw. rewrite (read_keys _ _ _ F ND).
    unfold kwargs_of. cbn [load_inplace_loop]. cbn [load_inplace_entry]. fold (load_inplace_entry zero v_of_int (kv_dict l) (KV E_) (PArr (p_energy m))).
    fold (load_inplace_entry zero v_of_int (kv_dict l) (KV w_) (PArr (p_omega m))).
    assert (WE : load_inplace_entry zero v_of_int (kv_dict l) (KV w_) (PArr (p_omega m)) = Raise ValueError).
    { unfold load_inplace_entry. change "frequencies"%string with (vmk_value w_) in IW. apply list_mem in IW. apply in_map_iff in IW. destruct IW as ([m' j] & Em & Ij). cbn in Em. subst m'.
      rewrite (proj2 (dget_kv _ _ _ ND) Ij). destruct (mf_arrays _ _ _ _ _ MF w_ j [N]) as (ll & b & -> & NP & SB); [apply list_in; exact Ij|reflexivity|].
      cbn [to_array]. rewrite NP. cbn [bind]. unfold m. cbn [p_omega]. cbn [afull abuild shape map].
      destruct (shape b) as [|n [|]] eqn:SHb; try discriminate. cbn in SB. injection SB as SB.
      unfold assign_all, bc_align. cbn [afull abuild shape map]. rewrite SHb. cbn [length Nat.ltb Nat.leb Nat.sub skipn bc_ok].
      destruct (Nat.eqb_spec n (Z.to_nat N0)); [exfalso; lia|]. destruct (Nat.eqb_spec n 1); [exfalso; lia|]. reflexivity. }
    rewrite WE.
    destruct (load_inplace_entry zero v_of_int (kv_dict l) (KV E_) (PArr (p_energy m))) as [v|e] eqn:EE; [reflexivity|].
    f_equal. eapply (entry_error Coupled A N l E_); [exact MF|reflexivity| |exact EE]. unfold m. discriminate.
  Qed.

  (** the numbers of a file are determined *)
  Lemma file_number_fun o m idx x y : NoDup (map fst o) -> file_number zero o m idx x -> file_number zero o m idx y -> x = y.
  Proof.
    intros ND X Y. destruct X as [l a x I1 P1 G1|M1]; destruct Y as [l' a' y I2 P2 G2|M2].
    - assert (E : JList l = JList l'). { clear - ND I1 I2. induction o as [|[s j] o IH]; [easy|]. cbn in ND. inv ND. destruct I1 as [I1|I1], I2 as [I2|I2]; try (inv I1; inv I2; reflexivity).
        - inv I1. exfalso. apply H1. apply (in_map fst) in I2. exact I2.
        - inv I2. exfalso. apply H1. apply (in_map fst) in I1. exact I1.
        - auto. }
      injection E as <-. congruence.
    - exfalso. apply M2. apply (in_map fst) in I1. exact I1.
    - exfalso. apply M1. apply (in_map fst) in I2. exact I2.
    - reflexivity.
  Qed.
End L.

Lemma entry_table (o : list (string * jval R)) m (a : arr R) s x : NoDup (map fst o) -> holds (IZR 0) o m a -> shape a = s ->
  table (IZR 0) o m s x -> forall idx, entry a idx = x idx.
Proof.
  intros ND [W H] <- T idx. destruct (T idx) as [T1 T2]. unfold entry.
  destruct (aget a idx) as [v|] eqn:G.
  - pose proof (aget_inb _ _ _ G) as I. destruct (H idx I) as (u & G' & F). rewrite G in G'. injection G' as <-.
    eapply file_number_fun; [exact ND|exact F|apply T1; exact I].
  - symmetry. apply T2. intros I. destruct (aget_some a idx W I). congruence.
Qed.

Lemma shape_eq s (t : list Z) : map Z.of_nat s = t -> s = map Z.to_nat t.
Proof. intros <-. rewrite map_map. rewrite <- (map_id s) at 1. apply map_ext. intros; lia. Qed.

Section B.
  Variable vint : R -> res Z.
  Variable v_of_int : Z -> R.
  Notation nn := Z.to_nat.

  Lemma to_vib_ok A N f path o Ex wx lx qx : f path = Some (CJson o) -> model_file vint Coupled A N o -> (0 <= A)%Z -> (0 <= N)%Z ->
    table (IZR 0) o E_ [nn A; nn A] Ex -> table (IZR 0) o w_ [nn N] wx -> table (IZR 0) o G1_ [nn N; nn A; nn A] lx -> table (IZR 0) o G2_ [nn N; nn N; nn A; nn A] qx ->
    exists m, load_vib (IZR 0) vint v_of_int f path A N = Ok m /\
      to_vib m = {| v_states := nn A; v_modes := nn N; v_omega := fun n => wx [n]; v_energy := fun a b => Ex [a; b]; v_linear := fun n a b => lx [n; a; b];
                    v_quadratic := fun n m a b => qx [n; m; a; b]; v_delta_weight := fun _ => IZR 0; v_state_shift := fun _ _ => IZR 0 |}.
  Proof.
    intros F MF HA HN TE Tw Tl Tq. destruct (load_vib_ok (IZR 0) vint v_of_int A N f path o F MF HA HN) as (m & L & (S1 & S2 & S3 & S4 & S5 & S6) & H1 & H2 & H3 & H4).
    exists m. split; [exact L|]. pose proof (mf_unique _ _ _ _ _ MF) as ND.
    cbn in S3, S4, S5, S6. injection S3 as S3. injection S4 as S4. injection S5 as S5. injection S6 as S6.
    symmetry in S3, S4, S5, S6. apply shape_eq in S3, S4, S5, S6. cbn in S3, S4, S5, S6.
    unfold to_vib. rewrite S1, S2. f_equal.
    - extensionality n. apply (entry_table _ _ _ _ _ ND H2 S4 Tw).
    - extensionality a. extensionality b. apply (entry_table _ _ _ _ _ ND H1 S3 TE).
    - extensionality n. extensionality a. extensionality b. apply (entry_table _ _ _ _ _ ND H3 S5 Tl).
    - extensionality n. extensionality n'. extensionality a. extensionality b. apply (entry_table _ _ _ _ _ ND H4 S6 Tq).
  Qed.

  Lemma to_rho_ok A N f path o Ex wx lx : f path = Some (CJson o) -> model_file vint Diagonal A N o -> (0 <= A)%Z -> (0 <= N)%Z ->
    table (IZR 0) o E_ [nn A] Ex -> table (IZR 0) o w_ [nn N] wx -> table (IZR 0) o G1_ [nn N; nn A] lx ->
    exists m, load_rho (IZR 0) vint v_of_int f path N = Ok m /\
      to_rho m = {| r_states := nn A; r_modes := nn N; r_omega := fun n => wx [n]; r_energy := Some (fun a => Ex [a]); r_linear := fun n a => lx [n; a];
                    r_delta_weight := fun _ => IZR 0; r_state_weight := fun _ => IZR 0; r_state_shift := fun _ _ => IZR 0 |}.
  Proof.
    intros F MF HA HN TE Tw Tl. destruct (load_rho_ok (IZR 0) vint v_of_int A N f path o F MF HA HN) as (m & L & (S1 & S2 & S3 & S4 & S5 & S6) & H1 & H2 & H3 & H4).
    exists m. split; [exact L|]. pose proof (mf_unique _ _ _ _ _ MF) as ND.
    cbn in S3, S4, S5, S6. injection S3 as S3. injection S4 as S4. injection S5 as S5. injection S6 as S6.
    symmetry in S3, S4, S5, S6. apply shape_eq in S3, S4, S5, S6. cbn in S3, S4, S5, S6.
    unfold to_rho. rewrite S1, S2. f_equal.
    - extensionality n. apply (entry_table _ _ _ _ _ ND H2 S4 Tw).
    - f_equal. extensionality a. apply (entry_table _ _ _ _ _ ND H1 S3 TE).
    - extensionality n. extensionality a. apply (entry_table _ _ _ _ _ ND H3 S5 Tl).
  Qed.
End B.

(** ---- files written by the saving functions are model files with the same numbers ---- *)
Lemma spec_shape_ne k A N m s : spec_shape k A N m = Some s -> s <> [].
Proof. destruct k, m; cbn; intros H; inv H; discriminate. Qed.

Lemma enc_all_in l m j : In (m, j) (@enc_all R is_zero l) <-> exists v, In (m, v) l /\ enc is_zero v = Some j.
Proof.
  unfold enc_all. rewrite in_flat_map. split.
  - intros ([m' v] & I & H). cbn in H. destruct (enc is_zero v) eqn:E; [|easy]. destruct H as [H|[]]. inv H. eauto.
  - intros (v & I & E). exists (m, v). split; [exact I|]. cbn. rewrite E. left. reflexivity.
Qed.

Lemma saved_model_file vint k A N (f f' : fs R) path d : dict_ok d -> known_keys d -> serialisable d -> valid vint k A N d ->
  save is_zero vint k f path d = (f', Ok tt) ->
  exists o, f' path = Some (CJson o) /\ model_file vint k A N o /\
    forall m idx x, In m [E_; w_; G1_; G2_; G3_; G4_] -> reads (IZR 0) d m idx x -> file_number (IZR 0) o m idx x.
Proof.
  intros [ND W] KK S Vd SV. destruct (known_kv KK) as [l ->].
  assert (NDl : NoDup (map fst l)) by (apply NoDup_kv; auto).
  assert (VE : verify vint k (kv_dict l) = Ok tt) by (apply verify_spec; eauto).
  destruct (@save_known R is_zero vint f path k _ l eq_refl NDl S VE) as (f2 & S2 & F2).
  rewrite SV in S2. injection S2 as <-. specialize (F2 path). rewrite String.eqb_refl in F2.
  exists (map (fun p => (vmk_value (fst p), snd p)) (enc_all is_zero l)). split; [exact F2|].
  assert (DIM : forall m z, (exists v, has (kv_dict l) (KV m) v /\ int_value vint v z) -> exists j, In (vmk_value m, j) (map (fun p => (vmk_value (fst p), snd p)) (enc_all is_zero l)) /\ json_integer vint j z).
  { intros m z (v & H & I). apply has_kv in H. destruct I as [z|x z Hx].
    - exists (JInt z). split; [apply list_in, enc_all_in; eauto|constructor].
    - exists (JFloat x). split; [apply list_in, enc_all_in; eauto|constructor; exact Hx]. }
  assert (ARR : forall m v s, In (m, v) l -> spec_shape k A N m = Some s -> exists a, v = PArr a /\ map Z.of_nat (shape a) = s /\ wf_arr a /\ shape a <> []).
  { intros m v s I SS. apply has_kv in I. destruct (proj2 Vd m v s I SS) as (a & -> & E). exists a. split; [reflexivity|]. split; [exact E|].
    split; [eapply W; eauto|]. intros Z. rewrite Z in E. cbn in E. apply (spec_shape_ne _ _ _ _ _ SS). congruence. }
  assert (NP : forall a : arr R, wf_arr a -> shape a <> [] -> any_nonzero is_zero a = true -> exists ll, jlist_of (tolist a) = JList ll /\ np_array (NList ll) = Ok a).
  { intros a Wa Sa Z. assert (NE : data a <> []) by (intros HE; unfold any_nonzero in Z; rewrite HE in Z; discriminate).
    pose proof (np_array_tolist a Wa (data_nonempty_dims a Wa NE)) as HT. destruct a as [sh dat]. cbn in Sa. destruct sh as [|n sh]; [congruence|].
    unfold tolist in *. cbn in *. eexists. split; [reflexivity|exact HT]. }
  split.
  - split.
    + rewrite map_map. cbn [fst]. rewrite <- map_map with (f := fst) (g := vmk_value).
      apply FinFun.Injective_map_NoDup; [intros x y; apply vmk_value_inj|]. apply enc_all_NoDup. exact NDl.
    + intros s j I. apply in_map_iff in I. destruct I as ([m v] & E & _). cbn in E. injection E as <- _. eauto.
    + change "number of modes"%string with (vmk_value N_). apply DIM. apply Vd.
    + change "number of surfaces"%string with (vmk_value A_). apply DIM. apply Vd.
    + intros m j s I SS. apply list_in, enc_all_in in I. destruct I as (v & I & E). destruct (ARR _ _ _ I SS) as (a & -> & SA & Wa & Sa).
      cbn in E. destruct (any_nonzero is_zero a) eqn:Z; [|discriminate]. injection E as <-. destruct (NP a Wa Sa Z) as (ll & J & P). exists ll, a. auto.
  - intros m idx x Hm [a v H G|Hn].
    + apply has_kv in H. destruct (spec_shape k A N m) as [s|] eqn:SS; [|exfalso; destruct m; cbn in SS; try discriminate SS; cbn in Hm; clear - Hm; intuition discriminate].
      destruct (ARR _ _ _ H SS) as (b & Eb & SA & Wa & Sa). injection Eb as <-.
      destruct (any_nonzero is_zero a) eqn:Z.
      * destruct (NP a Wa Sa Z) as (ll & J & P). eapply fn_there; [|exact P|exact G]. apply list_in, enc_all_in. exists (PArr a). split; [exact H|]. cbn. rewrite Z, J. reflexivity.
      * assert (v = IZR 0).
        { apply is_zero_true. destruct (is_zero v) eqn:I; [reflexivity|]. exfalso.
          assert (any_nonzero is_zero a = true); [|congruence]. apply any_nonzero_spec. exists v. split; [eapply aget_In; eauto|exact I]. }
        subst v. apply fn_missing. intros I. apply list_mem in I. apply in_map_iff in I. destruct I as ([m' j] & E & I). cbn in E. subst m'.
        apply enc_all_in in I. destruct I as (u & Iu & E). assert (u = PArr a) by (apply has_kv in H; apply has_kv in Iu; eapply has_fun; eauto). subst u. cbn in E. rewrite Z in E. discriminate.
    + apply fn_missing. intros I. apply list_mem in I. apply in_map_iff in I. destruct I as ([m' j] & E & I). cbn in E. subst m'.
      apply enc_all_in in I. destruct I as (u & Iu & E). apply has_kv in Iu. eapply Hn; eauto.
Qed.
