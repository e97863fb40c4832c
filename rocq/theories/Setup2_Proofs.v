(** Proofs about the preparation of the models: the iterative sampling models
    and the artificial systems. *)
From Coq Require Import Reals Lra.
From Verif Require Import Common Common_Proofs PyStr_Model PyStr_Proofs FileName_Model FileName_Proofs Json_Model Arr_Model ModelIO_Model ModelIO_Spec ModelIO_Proofs ModelIO2_Proofs
  Pimc_Spec Create_Model Point_Model Point_Spec Point_Proofs FileStruct_Model FileStruct_Proofs Submit_Model Submit2_Model Setup_Model Setup_Spec Setup_Proofs.
Local Open Scope string_scope.
Local Open Scope nat_scope.

Lemma load_ext {V} (zero : V) vint k (f g : fs V) p q : f p = g q -> load_new zero vint k f p = load_new zero vint k g q.
Proof. intros H. unfold load_new, load_raw, read_json. rewrite H. reflexivity. Qed.

Lemma two_models_at vint f g vib vib' path path' it cm Ai A N E w lin wi li :
  g vib' = f vib -> g path' = f path -> two_models vint f vib path it cm Ai A N E w lin wi li -> two_models vint g vib' path' it cm Ai A N E w lin wi li.
Proof.
  intros HV HP []. constructor; auto.
  - intros o. rewrite HP. auto.
  - intros o. rewrite HV. auto.
  - rewrite (load_ext _ _ _ g f path' path HP). assumption.
  - rewrite (load_ext _ _ _ g f vib' vib HV). assumption.
Qed.

(** the model with other energies can be written *)
Lemma new_energies vint f vib path it cm Ai A N E w lin wi li (Enew : nat -> R) g p :
  two_models vint f vib path it cm Ai A N E w lin wi li ->
  exists g' c, save is_zero vint Diagonal g p (mset it (KV E_) (PArr (mkArr [Z.to_nat Ai] (map Enew (seq 0 (Z.to_nat Ai)))))) = (g', Ok tt) /\
    g' p = Some c /\ (forall q, q <> p -> g' q = g q) /\
    with_energies it (Z.to_nat Ai) Enew (mset it (KV E_) (PArr (mkArr [Z.to_nat Ai] (map Enew (seq 0 (Z.to_nat Ai)))))).
Proof.
  intros T. pose proof T as []. set (nAi := Z.to_nat Ai). set (d' := mset it (KV E_) (PArr (mkArr [nAi] (map Enew (seq 0 nAi))))).
  destruct (load_new_inv _ _ _ _ _ _ tm_unique1 tm_load1) as (D1 & K1 & S1 & _).
  assert (PA : (0 <= Ai)%Z).
  { destruct (loaded_E _ _ _ _ _ tm_load1) as [v H]. apply mget_has in H; [|apply D1]. destruct (valid_is_arr _ _ _ _ _ _ _ _ tm_valid1 H eq_refl) as [a ->].
    pose proof (valid_arr _ _ _ _ _ _ _ tm_valid1 H _ eq_refl) as S. cbn in S. destruct (shape a) as [|n [|]]; try discriminate. cbn in S. injection S as <-. apply Zle_0_nat. }
  assert (HS : with_energies it nAi Enew d').
  { assert (ND : NoDup (map fst d')) by (apply dset_NoDup; [apply key_eqb_eq|apply D1]).
    intros k v. rewrite <- (mget_has d' k v ND). unfold d', mget, mset. split.
    - intros G. destruct (key_eqb k (KV E_)) eqn:K.
      + apply key_eqb_eq in K. subst k. rewrite dget_dset_same in G by apply key_eqb_eq. inv G. left; auto.
      + assert (KN : k <> KV E_) by (intros ->; rewrite (proj2 (key_eqb_eq _ _) eq_refl) in K; discriminate).
        rewrite dget_dset_other in G by (try apply key_eqb_eq; exact KN). right. split; [exact KN|]. apply mget_has; [apply D1|exact G].
    - intros [[-> ->]|[KN G]].
      + apply dget_dset_same, key_eqb_eq.
      + rewrite dget_dset_other by (try apply key_eqb_eq; exact KN). apply mget_has in G; [exact G|apply D1]. }
  assert (X1 : dict_ok d').
  { split; [apply dset_NoDup; [apply key_eqb_eq|apply D1]|]. intros k a G. apply HS in G. destruct G as [[_ G]|[_ G]].
    - injection G as ->. unfold wf_arr. cbn [shape data prodn fold_right]. rewrite map_length, seq_length. lia.
    - eapply (proj2 D1); eauto. }
  assert (X2 : known_keys d') by (intros k v G; apply HS in G; destruct G as [[-> _]|[_ G]]; [eauto|eapply K1; eauto]).
  assert (X3 : serialisable d') by (intros k v G; apply HS in G; destruct G as [[_ ->]|[_ G]]; [discriminate|eapply S1; eauto]).
  assert (X4 : valid vint Diagonal Ai N d').
  { destruct tm_valid1 as [[(x & Y1 & Y2) (y & Y3 & Y4)] VV]. split.
    - split; [exists x|exists y]; (split; [|assumption]); apply HS; right; (split; [discriminate|assumption]).
    - intros m v s G S. apply HS in G. destruct G as [[K ->]|[_ G]]; [|eapply VV; eauto]. injection K as ->.
      cbn in S. injection S as <-. eexists. split; [reflexivity|]. cbn [shape map]. unfold nAi. rewrite Z2Nat.id by exact PA. reflexivity. }
  destruct (@save_load_diagonal R 0%R is_zero vint (fun _ => 0%R) g p d' Ai N X1 X2 X3 X4) as (g' & SV & O & _).
  destruct (saved_exists _ _ _ _ _ _ _ SV) as [c C]. exists g', c. auto.
Qed.

(** ---- which files an operation can change, however it ends ---- *)
Lemma save_frame {V} isz vint k (f : fs V) p d q : q <> p -> fst (save isz vint k f p d) q = f q.
Proof.
  intros N. unfold save, save_raw. destruct (verify vint k d); [|reflexivity]. destruct (dumps _); cbn [fst]; rewrite ?write_other by exact N; reflexivity.
Qed.
Lemma copy_frame {V} (f : fs V) src dst q : q <> dst -> fst (copyfile f src dst) q = f q.
Proof. intros N. unfold copyfile. destruct (f src); [|reflexivity]. destruct (String.eqb src dst); [reflexivity|]. cbn [fst]. apply write_other. exact N. Qed.
Lemma remove_frame {V} (zero : V) isz vint f src dst q : q <> dst -> fst (remove_coupling zero isz vint f src dst) q = f q.
Proof. intros N. unfold remove_coupling. destruct (load_new zero vint Coupled f src); [|reflexivity]. apply save_frame. exact N. Qed.
Lemma basic_frame {V} (zero : V) isz vint f vib har rho q : q <> har -> q <> rho -> fst (create_basic_diagonal_model zero isz vint f vib har rho) q = f q.
Proof.
  intros N1 N2. unfold create_basic_diagonal_model, create_harmonic_model. pose proof (remove_frame zero isz vint f vib har q N1) as R.
  destruct (remove_coupling zero isz vint f vib har) as [f1 [[]|e]]; cbn [fst] in *; [|exact R]. rewrite copy_frame by exact N2. exact R.
Qed.
Lemma recalculate_frame vint eig f vib path q : q <> path -> fst (recalculate vint eig f vib path) q = f q.
Proof. intros N. unfold recalculate. destruct (bind _ _); [|reflexivity]. apply save_frame. exact N. Qed.
Lemma andthen_frame {V} (r : fs V * res unit) k (f : fs V) q : fst r q = f q -> (forall g, g q = f q -> fst (k g) q = f q) -> fst (andthen r k) q = f q.
Proof. intros H1 H2. destruct r as [g [[]|e]]; cbn [andthen fst] in *; auto. Qed.
Lemma third_frame vint eig f FS q : q <> path_rho_model FS -> fst (third vint eig f FS) q = f q.
Proof.
  intros N. unfold third. apply andthen_frame; [apply copy_frame; exact N|]. intros g Hg.
  match goal with |- fst (match ?b with Ok _ => _ | Raise _ => _ end) q = _ => destruct b as [m|e] end; [|exact Hg]. etransitivity; [apply save_frame; exact N|exact Hg].
Qed.

Section Iterative.
  Variable vint : R -> res Z.
  Variable eigvalsh : nat -> (nat -> nat -> R) -> list R.
  Variable job : string -> Z -> fs R -> fs R * res unit.

  Lemma run_iterative_ok valid server cwd host d f : valid d = Ok tt -> In host ["nlogn"; "feynman"] ->
    run_iterative job valid server cwd host true d f = job (abspath cwd server) d f.
  Proof.
    intros VD H. unfold run_iterative. rewrite VD. cbn [bind].
    pose proof (chosen_ok server host None server (or_intror (conj eq_refl (conj H eq_refl)))) as C. cbn [root_or_chosen] in C. rewrite C. reflexivity.
  Qed.
  Lemma run_iterative_elsewhere valid server cwd host b d f : valid d = Ok tt -> ~ In host ["nlogn"; "feynman"] ->
    run_iterative job valid server cwd host b d f = (f, Raise OtherException).
  Proof.
    intros VD H. unfold run_iterative. rewrite VD. cbn [bind]. unfold choose_root. destruct (existsb (String.eqb host) server_names) eqn:E; [|reflexivity].
    exfalso. apply existsb_exists in E. destruct E as (x & Hx & X). apply String.eqb_eq in X. subst x. exact (H Hx).
  Qed.

  Lemma setup_iterative_ok cwd host f FS root d f1 it cm Ai A N E w lin wi li :
    (exists n, in_paper n d) -> In host ["nlogn"; "feynman"] -> same_set cwd root d FS -> plain_root cwd root ->
    job (abspath cwd paper_root) d f = (f1, Ok tt) ->
    two_models vint f1 (vib_of root d) (iter_of root d) it cm Ai A N E w lin wi li -> eigvalsh_contract (Z.to_nat A) eigvalsh ->
    (forall i, (i < Z.to_nat N) -> wi i <> 0%R) ->
    exists f' m c Enew, setup_iterative vint eigvalsh job cwd host true f FS = (f', Ok tt) /\
      f' (iter_of root d) = Some c /\ f' (rho_of root d 11) = Some c /\ diagonal_text is_zero vint m c /\ with_energies it (Z.to_nat Ai) Enew m /\
      (forall a, (a < Z.to_nat Ai) -> least_eigenvalue (Z.to_nat A) (potential (Z.to_nat N) E w lin (minimum wi (fun i => li i a)))
         (surface (Z.to_nat N) Enew wi (fun i => li i a) a (minimum wi (fun i => li i a)))) /\
      (forall p, p <> iter_of root d -> p <> rho_of root d 11 -> f' p = f1 p).
  Proof.
    intros VD HH SS PL JB T C WZ. unfold setup_iterative. destruct (same_set_rho cwd root d FS iterative_model_id_rho SS) as [[] PR]. rewrite ss_d, ss_vib, ss_iter, PR.
    rewrite plain_rho by exact PL. rewrite run_iterative_ok by (try assumption; apply valid_ids_spec; exact VD). rewrite JB. cbn [andthen].
    pose proof T as []. destruct (recalculate_ok vint eigvalsh f1 (vib_of root d) (iter_of root d) it cm Ai A N tm_unique1 tm_unique2 tm_load1 tm_load2 tm_valid1 tm_valid2 tm_surfaces C tm_quad1 tm_quad2
             E w lin wi li tm_E tm_w tm_lin tm_wi tm_li tm_has_w1 tm_has_w2 tm_symE tm_symlin WZ) as (f2 & m & Enew & R1 & R2 & R3 & R4 & R5 & R6).
    rewrite R1. cbn [andthen]. destruct (saved_exists _ _ _ _ _ _ _ R2) as [c Hc].
    rewrite (copy_at f2 _ _ c Hc) by apart_names. exists (fs_write f2 (rho_of root d iterative_model_id_rho) c), m, c, Enew.
    split; [reflexivity|]. split; [rewrite write_other by apart_names; exact Hc|]. split; [apply write_same|]. split; [exists f1, (iter_of root d), f2; auto|].
    split; [exact R4|]. split; [exact R6|]. intros p N1 N2. rewrite write_other by exact N2.
    pose proof (recalculate_frame vint eigvalsh f1 (vib_of root d) (iter_of root d) p N1) as F. rewrite R1 in F. exact F.
  Qed.

  (** ---- the artificial systems ---- *)
  Lemma art_valid_spec d : art_assert_valid d = Ok tt <-> (11 <= d <= 15 \/ 21 <= d <= 25 \/ 31 <= d <= 35)%Z.
  Proof.
    unfold art_assert_valid, passert. destruct (existsb (Z.eqb d) (concat (map snd art_ids))) eqn:E.
    - split; [intros _|reflexivity]. apply existsb_exists in E. destruct E as (x & H & X). apply Z.eqb_eq in X. subst x. cbn in H. lia.
    - split; [discriminate|]. intros H. exfalso. apply not_true_iff_false in E. apply E. apply existsb_exists. exists d. split; [|apply Z.eqb_refl]. cbn. lia.
  Qed.

  Lemma map_nth_seq (l : list R) : map (fun a => nth a l 0%R) (seq 0 (length l)) = l.
  Proof. induction l as [|x l IH]; [reflexivity|]. cbn [length seq map nth]. f_equal. rewrite <- seq_shift, map_map. exact IH. Qed.

  Lemma third_ok g FS vib iter rho it cm Ai A N E w lin wi li :
    path_vib_model FS = vib -> path_iter_model FS = iter -> path_rho_model FS = rho -> iter <> rho -> vib <> rho ->
    two_models vint g vib iter it cm Ai A N E w lin wi li -> eigvalsh_contract (Z.to_nat A) eigvalsh ->
    exists g' m c Enew, third vint eigvalsh g FS = (g', Ok tt) /\ g' rho = Some c /\ diagonal_text is_zero vint m c /\ with_energies it (Z.to_nat Ai) Enew m /\
      (forall a, (a < Z.to_nat Ai) -> least_eigenvalue (Z.to_nat A) (potential (Z.to_nat N) E w lin (minimum wi (fun i => li i a))) (Enew a)) /\
      (forall p, p <> rho -> g' p = g p).
  Proof.
    intros <- <- <- NI NV T C. unfold third. set (rho := path_rho_model FS) in *. set (iter := path_iter_model FS) in *. set (vib := path_vib_model FS) in *.
    assert (EX : exists ci, g iter = Some ci).
    { pose proof T as []. unfold load_new, load_raw, read_json in tm_load1. destruct (g iter); [eauto|discriminate]. }
    destruct EX as [ci CI]. rewrite (copy_at g iter rho ci CI NI). cbn [andthen].
    assert (T1 : two_models vint (fs_write g rho ci) vib iter it cm Ai A N E w lin wi li) by (apply (two_models_at vint g _ vib vib iter iter); auto using write_other).
    pose proof T1 as []. destruct (single_point_ok vint eigvalsh (fs_write g rho ci) vib iter it cm Ai A N tm_unique1 tm_unique2 tm_load1 tm_load2 tm_valid1 tm_valid2 tm_surfaces C tm_quad1 tm_quad2
             E w lin wi li tm_E tm_w tm_lin tm_wi tm_li tm_has_w1 tm_has_w2 tm_symE tm_symlin) as (es & SP & LN & LE).
    rewrite SP. cbn [bind].
    rewrite (load_ext 0%R vint Diagonal (fs_write g rho ci) (fs_write g rho ci) rho iter) by (rewrite write_same, write_other by exact NI; auto).
    rewrite tm_load1. cbn [bind]. unfold energies_array. rewrite LN.
    assert (ES : es = map (fun a => nth a es 0%R) (seq 0 (Z.to_nat Ai))).
    { rewrite <- LN. symmetry. apply map_nth_seq. }
    replace (mkArr [Z.to_nat Ai] es) with (mkArr [Z.to_nat Ai] (map (fun a => nth a es 0%R) (seq 0 (Z.to_nat Ai)))) by (rewrite <- ES; reflexivity).
    destruct (new_energies vint (fs_write g rho ci) vib iter it cm Ai A N E w lin wi li (fun a => nth a es 0%R) (fs_write g rho ci) rho T1) as (g' & c & S1 & S2 & S3 & S4).
    rewrite S1. exists g', (mset it (KV E_) (PArr (mkArr [Z.to_nat Ai] (map (fun a => nth a es 0%R) (seq 0 (Z.to_nat Ai)))))), c, (fun a => nth a es 0%R).
    split; [reflexivity|]. split; [exact S2|]. split; [exists (fs_write g rho ci), rho, g'; auto|]. split; [exact S4|]. split; [exact LE|].
    intros p Hp. rewrite S3 by exact Hp. apply write_other. exact Hp.
  Qed.

  Theorem art_sampling_ok cwd host f FS root d cv co A N mv A' N' mo ci it Ai E w lin wi li :
    same_set cwd root d FS -> plain_root cwd root -> In host ["nlogn"; "feynman"] -> (11 <= d <= 15 \/ 21 <= d <= 25 \/ 31 <= d <= 35)%Z ->
    f (vib_of root d) = Some cv -> coupled_file 0%R vint cv A N mv -> f (orig_of root d) = Some co -> coupled_file 0%R vint co A' N' mo ->
    (forall g, (forall p, p <> har_of root d -> p <> rho_of root d 0 -> p <> rho_of root d 1 -> g p = f p) ->
       exists g', job (abspath cwd art_root) d g = (g', Ok tt) /\ g' (iter_of root d) = Some ci /\
         forall p, p <> iter_of root d -> p <> itermat_of root d -> g' p = g p) ->
    two_models vint (fs_write f (iter_of root d) ci) (vib_of root d) (iter_of root d) it mv Ai A N E w lin wi li -> eigvalsh_contract (Z.to_nat A) eigvalsh ->
    (forall i, (i < Z.to_nat N) -> wi i <> 0%R) ->
    exists f' c0 c1 c3 c4 m3 m4 E3 E4, art_sampling vint eigvalsh job cwd host true f FS = (f', Ok tt) /\
      f' (har_of root d) = Some c0 /\ f' (rho_of root d 0) = Some c0 /\ diagonal_file 0%R is_zero vint cv A N c0 /\
      f' (rho_of root d 1) = Some c1 /\ diagonal_file 0%R is_zero vint co A' N' c1 /\
      f' (iter_of root d) = Some ci /\ f' (rho_of root d 2) = Some ci /\
      f' (rho_of root d 3) = Some c3 /\ diagonal_text is_zero vint m3 c3 /\ with_energies it (Z.to_nat Ai) E3 m3 /\
      f' (rho_of root d 4) = Some c4 /\ diagonal_text is_zero vint m4 c4 /\ with_energies it (Z.to_nat Ai) E4 m4 /\
      (forall a, (a < Z.to_nat Ai) ->
         least_eigenvalue (Z.to_nat A) (potential (Z.to_nat N) E w lin (minimum wi (fun i => li i a))) (E3 a) /\
         least_eigenvalue (Z.to_nat A) (potential (Z.to_nat N) E w lin (minimum wi (fun i => li i a)))
           (surface (Z.to_nat N) E4 wi (fun i => li i a) a (minimum wi (fun i => li i a)))) /\
      (forall p, p <> har_of root d -> p <> iter_of root d -> p <> itermat_of root d -> (forall k, (0 <= k <= 4)%Z -> p <> rho_of root d k) -> f' p = f p).
  Proof.
    intros SS PL HH VD FV CV FO CO JB T C WZ. unfold art_sampling. cbv zeta.
    destruct (same_set_rho cwd root d FS 0 SS) as [S0 P0]. destruct (same_set_rho cwd root d (set_rho FS 0) 1 S0) as [S1 P1].
    destruct (same_set_rho cwd root d (set_rho (set_rho FS 0) 1) 2 S1) as [S2 P2]. destruct (same_set_rho cwd root d (set_rho (set_rho (set_rho FS 0) 1) 2) 3 S2) as [S3 P3].
    destruct (same_set_rho cwd root d (set_rho (set_rho (set_rho (set_rho FS 0) 1) 2) 3) 4 S3) as [S4 P4].
    rewrite plain_rho in P0, P1, P2, P3, P4 by exact PL.
    rewrite (ss_vib _ _ _ _ S0), (ss_har _ _ _ _ S0), P0, (ss_orig _ _ _ _ S1), P1, (ss_d _ _ _ _ S2), (ss_iter _ _ _ _ S2), P2, (ss_iter _ _ _ _ S4), (ss_vib _ _ _ _ S4), P4.
    destruct (basic_at 0%R is_zero vint f (vib_of root d) (har_of root d) (rho_of root d 0) cv A N mv FV) as (fa & c0 & B1 & B2 & B3 & B4 & B5); [apart_names|exact CV|].
    rewrite B1. cbn [andthen].
    assert (FO' : fa (orig_of root d) = Some co) by (rewrite B5 by apart_names; exact FO).
    destruct (remove_at 0%R is_zero vint fa (orig_of root d) (rho_of root d 1) co A' N' mo FO' CO) as (fb & c1 & D1 & D2 & D3 & D4).
    rewrite D1. cbn [andthen]. rewrite run_iterative_ok by (try assumption; apply art_valid_spec; exact VD).
    destruct (JB fb) as (fc & J1 & J2 & J3). { intros p N1 N2 N3. rewrite D4 by exact N3. apply B5; assumption. }
    rewrite J1. cbn [andthen]. rewrite (copy_at fc (iter_of root d) (rho_of root d 2) ci J2) by apart_names. cbn [andthen].
    set (fd := fs_write fc (rho_of root d 2) ci).
    assert (FDV : fd (vib_of root d) = Some cv).
    { unfold fd. rewrite write_other by apart_names. rewrite J3 by apart_names. rewrite D4 by apart_names. rewrite B5 by apart_names. exact FV. }
    assert (FDI : fd (iter_of root d) = Some ci) by (unfold fd; rewrite write_other by apart_names; exact J2).
    assert (TD : two_models vint fd (vib_of root d) (iter_of root d) it mv Ai A N E w lin wi li).
    { apply (two_models_at vint (fs_write f (iter_of root d) ci) fd (vib_of root d) (vib_of root d) (iter_of root d) (iter_of root d)); [|rewrite write_same; exact FDI|exact T].
      rewrite FDV, write_other by apart_names. symmetry. exact FV. }
    destruct (third_ok fd (set_rho (set_rho (set_rho (set_rho FS 0) 1) 2) 3) (vib_of root d) (iter_of root d) (rho_of root d 3) it mv Ai A N E w lin wi li
                (ss_vib _ _ _ _ S3) (ss_iter _ _ _ _ S3) P3) as (fe & m3 & c3 & E3 & K1 & K2 & K3 & K4 & K5 & K6); [apart_names|apart_names|exact TD|exact C|].
    rewrite K1. cbn [andthen].
    assert (FEI : fe (iter_of root d) = Some ci) by (rewrite K6 by apart_names; exact FDI).
    rewrite (copy_at fe (iter_of root d) (rho_of root d 4) ci FEI) by apart_names. cbn [andthen].
    set (ff := fs_write fe (rho_of root d 4) ci).
    assert (TF : two_models vint ff (vib_of root d) (rho_of root d 4) it mv Ai A N E w lin wi li).
    { apply (two_models_at vint fd ff (vib_of root d) (vib_of root d) (iter_of root d) (rho_of root d 4)); [|unfold ff; rewrite write_same; symmetry; exact FDI|exact TD].
      unfold ff. rewrite write_other by apart_names. apply K6. apart_names. }
    pose proof TF as []. destruct (recalculate_ok vint eigvalsh ff (vib_of root d) (rho_of root d 4) it mv Ai A N tm_unique1 tm_unique2 tm_load1 tm_load2 tm_valid1 tm_valid2 tm_surfaces C tm_quad1 tm_quad2
             E w lin wi li tm_E tm_w tm_lin tm_wi tm_li tm_has_w1 tm_has_w2 tm_symE tm_symlin WZ) as (fg & m4 & E4 & R1 & R2 & R3 & R4 & R5 & R6).
    destruct (saved_exists _ _ _ _ _ _ _ R2) as [c4 H4].
    assert (LAST : forall p, p <> rho_of root d 4 -> p <> rho_of root d 3 -> fg p = fd p).
    { intros p N1 N2. pose proof (recalculate_frame vint eigvalsh ff (vib_of root d) (rho_of root d 4) p N1) as F. rewrite R1 in F. cbn [fst] in F. rewrite F.
      unfold ff. rewrite write_other by exact N1. apply K6. exact N2. }
    exists fg, c0, c1, c3, c4, m3, m4, E3, E4. split; [exact R1|].
    split. { rewrite LAST by apart_names. unfold fd. rewrite write_other by apart_names. rewrite J3 by apart_names. rewrite D4 by apart_names. exact B2. }
    split. { rewrite LAST by apart_names. unfold fd. rewrite write_other by apart_names. rewrite J3 by apart_names. rewrite D4 by apart_names. exact B3. }
    split; [exact B4|].
    split. { rewrite LAST by apart_names. unfold fd. rewrite write_other by apart_names. rewrite J3 by apart_names. exact D2. }
    split; [exact D3|].
    split. { rewrite LAST by apart_names. exact FDI. }
    split. { rewrite LAST by apart_names. unfold fd. apply write_same. }
    split. { pose proof (recalculate_frame vint eigvalsh ff (vib_of root d) (rho_of root d 4) (rho_of root d 3)) as F. rewrite R1 in F. cbn [fst] in F. rewrite F by apart_names.
             unfold ff. rewrite write_other by apart_names. exact K2. }
    split; [exact K3|]. split; [exact K4|]. split; [exact H4|]. split; [exists ff, (rho_of root d 4), fg; auto|]. split; [exact R4|].
    split. { intros a Ha. split; [apply K5; exact Ha|apply R6; exact Ha]. }
    intros p N1 N2 N3 N4. assert (M : forall k, (0 <= k <= 4)%Z -> p <> rho_of root d k) by exact N4.
    rewrite LAST by (apply M; lia). unfold fd. rewrite write_other by (apply M; lia). rewrite J3 by assumption. rewrite D4 by (apply M; lia). apply B5; [exact N1|apply M; lia].
  Qed.

  (** ---- preparing a second time ---- *)
  Variable close : R -> R -> bool.
  Variable new_matrix : Z -> Z -> res (arr R).

  Lemma art_sampling_frame cwd host b f FS root d q :
    same_set cwd root d FS ->
    (forall r g, fst (job r d g) q = g q) -> q <> har_of root d -> (forall k, q <> rho_of (abspath cwd root) d k) ->
    fst (art_sampling vint eigvalsh job cwd host b f FS) q = f q.
  Proof.
    intros SS JB NH NR. unfold art_sampling. cbv zeta.
    destruct (same_set_rho cwd root d FS 0 SS) as [S0 P0]. destruct (same_set_rho cwd root d (set_rho FS 0) 1 S0) as [S1 P1].
    destruct (same_set_rho cwd root d (set_rho (set_rho FS 0) 1) 2 S1) as [S2 P2]. destruct (same_set_rho cwd root d (set_rho (set_rho (set_rho FS 0) 1) 2) 3 S2) as [S3 P3].
    destruct (same_set_rho cwd root d (set_rho (set_rho (set_rho (set_rho FS 0) 1) 2) 3) 4 S3) as [S4 P4].
    rewrite (ss_har _ _ _ _ S0), P0, P1, P2, P4, (ss_d _ _ _ _ S2).
    apply andthen_frame; [apply basic_frame; [exact NH|apply NR]|]. intros g1 G1.
    apply andthen_frame; [rewrite remove_frame by apply NR; exact G1|]. intros g2 G2.
    apply andthen_frame.
    { unfold run_iterative. destruct (art_assert_valid d); cbn [bind]; [|exact G2]. destruct (choose_root art_root host); cbn [bind]; [|exact G2].
      unfold new_fs. destruct (passert b); cbn [bind]; [|exact G2]. cbn [fst path_root id_data build_fs]. rewrite JB. exact G2. }
    intros g3 G3. apply andthen_frame; [rewrite copy_frame by apply NR; exact G3|]. intros g4 G4.
    apply andthen_frame; [rewrite third_frame by (rewrite P3; apply NR); exact G4|]. intros g5 G5.
    apply andthen_frame; [rewrite copy_frame by apply NR; exact G5|]. intros g6 G6.
    rewrite recalculate_frame by apply NR. exact G6.
  Qed.

  Let fake := create_fake 0%R 1%R Rplus Rmult is_zero vint close.
  Let prep := prepare_fake 0%R 1%R Rplus Rmult vint close.
  Let text (m : mdict R) := do _ <- verify vint Coupled m; dumps (strip_arrays is_zero (enum_to_string m)).
  (** what a successful transformation leaves, and on what it depends *)
  Lemma fake_inv gen f vib orig ortho u f' : fake gen f vib orig ortho u = (f', Ok tt) ->
    exists m U c o, prep gen f vib ortho u = Ok (m, U) /\ f vib = Some c /\ text m = Ok o.
  Proof.
    unfold fake, create_fake, create_fake_trace. fold prep. destruct (prep gen f vib ortho u) as [[m U]|]; [|discriminate].
    unfold copy_trace. destruct (copyfile f vib orig) as [f1 [[]|]] eqn:C; [|discriminate].
    unfold then_ at 1. cbn [last]. unfold save_trace. destruct (verify vint Coupled m) eqn:V; [|discriminate].
    unfold save_raw. destruct (dumps (strip_arrays is_zero (enum_to_string m))) as [o|] eqn:D; [|discriminate]. intros _.
    exists m, U. unfold copyfile in C. destruct (f vib) as [c|]; [|discriminate]. exists c, o. split; [reflexivity|]. split; [reflexivity|]. unfold text. rewrite V. cbn [bind]. exact D.
  Qed.
  Lemma fake_fwd gen f vib orig ortho u m U c o : vib <> orig -> vib <> ortho -> orig <> ortho ->
    prep gen f vib ortho u = Ok (m, U) -> f vib = Some c -> text m = Ok o ->
    exists f', fake gen f vib orig ortho u = (f', Ok tt) /\ f' vib = Some (CJson o) /\ f' orig = Some c /\ f' ortho = Some (CNpy U) /\
      (forall q, q <> vib -> q <> orig -> q <> ortho -> f' q = f q).
  Proof.
    intros N1 N2 N3 P F T. unfold fake, create_fake, create_fake_trace. fold prep. rewrite P.
    unfold copy_trace. rewrite (copy_at f vib orig c F N1). unfold then_ at 1. cbn [last]. unfold text in T. unfold save_trace.
    destruct (verify vint Coupled m); cbn [bind] in T; [|discriminate]. unfold save_raw. rewrite T. unfold then_. cbn [last npsave_trace app]. eexists. split; [reflexivity|].
    split; [rewrite !write_other by exact N2; apply write_same|].
    split; [rewrite !write_other by auto; apply write_same|].
    split; [apply write_same|]. intros q Q1 Q2 Q3. rewrite !write_other by assumption. reflexivity.
  Qed.

  (** the transformation only looks at the model and, when it is used again, at the matrix *)
  Lemma prep_again gen gen' f g vib ortho u m U : prep gen f vib ortho u = Ok (m, U) -> g vib = f vib -> g ortho = Some (CNpy U) ->
    prep gen' g vib ortho (MStr "re-use") = Ok (m, U).
  Proof.
    intros P GV GO. unfold prep, prepare_fake in *. rewrite GV. rewrite (load_ext 0%R vint Coupled g f vib vib GV).
    destruct (passert (match f vib with Some _ => true | None => false end)); cbn [bind] in *; [|discriminate].
    destruct (load_new 0%R vint Coupled f vib) as [d|]; cbn [bind] in *; [|discriminate]. destruct (extract_dims vint d) as [AN|]; cbn [bind] in *; [|discriminate].
    unfold obtain_matrix at 1. cbn [String.eqb Ascii.eqb Bool.eqb]. unfold np_load at 1. rewrite GO. cbn [bind].
    destruct (obtain_matrix _ _ _ _ _ _ _ _ (fst AN) u) as [U'|]; cbn [bind] in *; [|discriminate].
    destruct (symmetric_in_surfaces _ _ _ d) as [b1|]; cbn [bind] in *; [|discriminate]. destruct (passert b1); cbn [bind] in *; [|discriminate].
    destruct (symmetric_in_modes _ _ _ d) as [b2|]; cbn [bind] in *; [|discriminate]. destruct (passert b2); cbn [bind] in *; [|discriminate].
    destruct (rotate_model _ _ _ _ _ U' (snd AN) d) as [d'|] eqn:RM; cbn [bind] in *; [|discriminate]. injection P as -> ->. rewrite RM. reflexivity.
  Qed.

  Theorem art_twice dir cwd host name d root r f f1 f2 b1 b2 x1 x2 :
    chosen art_root host root r -> apart dir r -> plain_root cwd r ->
    (forall q g s, (q = vib_of r d \/ q = orig_of r d \/ q = ortho_of r d \/ q = art_input dir name) -> fst (job s d g) q = g q) ->
    art_prepare vint eigvalsh job close new_matrix dir cwd host b1 b2 f name d root = (f1, Ok x1) ->
    art_prepare vint eigvalsh job close new_matrix dir cwd host b1 b2 f1 name d root = (f2, x2) ->
    f2 (vib_of r d) = f1 (vib_of r d) /\ f2 (orig_of r d) = f1 (orig_of r d) /\ f2 (ortho_of r d) = f1 (ortho_of r d) /\
    f1 (orig_of r d) = f (art_input dir name).
  Proof.
    intros CH AP PL JB. unfold art_prepare. destruct (art_assert_valid d) as [[]|] eqn:VD; cbn [bind]; [|discriminate].
    rewrite (chosen_ok art_root host root r CH). cbn [bind]. unfold new_fs. destruct (passert b1) as [[]|]; cbn [bind]; [|discriminate]. cbn [fst].
    pose proof (same_set_build cwd r d) as SS. pose proof SS as []. set (FS := build_fs cwd r d 0) in *. rewrite ss_vib.
    set (vib := vib_of r d) in *. set (orig := orig_of r d) in *. set (ortho := ortho_of r d) in *. set (inp := art_input dir name) in *.
    assert (D1 : vib <> orig) by (unfold vib, orig; apart_names). assert (D2 : vib <> ortho) by (unfold vib, ortho; apart_names). assert (D3 : orig <> ortho) by (unfold orig, ortho; apart_names).
    assert (IN : forall q, relative q -> inp <> join r q).
    { intros q Q. unfold inp, art_input. rewrite join_input by (simpl; discriminate). apply AP; [split; [discriminate|reflexivity]|exact Q]. }
    assert (IP : forall x, inp <> join r (params_of d x)) by (intros x; apply IN, relative_rel, params_rel).
    (* frame of the last step *)
    assert (FR : forall g q, (q = vib \/ q = orig \/ q = ortho \/ q = inp) -> fst (art_sampling vint eigvalsh job cwd host b2 g FS) q = g q).
    { intros g q Hq. apply (art_sampling_frame cwd host b2 g FS r d q SS).
      - intros s h. apply JB. exact Hq.
      - destruct Hq as [->|[->|[->| ->]]]; [unfold vib; apart_names|unfold orig; apart_names|unfold ortho; apart_names|apply IP].
      - intros k. rewrite (plain_rho cwd r d k PL). destruct Hq as [->|[->|[->| ->]]]; [unfold vib; apart_names|unfold orig; apart_names|unfold ortho; apart_names|].
        unfold rho_of. apply IN, relative_rel. simpl. discriminate. }
    (* the first run *)
    destruct (f inp) as [c|] eqn:FI; [|intros H1; unfold copyfile in H1; rewrite FI in H1; discriminate H1].
    rewrite (copy_at f inp vib c FI (IP _)). cbn [andthen].
    set (g0 := fs_write f vib c).
    assert (GV : g0 vib = Some c) by apply write_same.
    unfold art_unitary. rewrite ss_vib, ss_orig, ss_ortho, ss_d. fold vib orig ortho.
    change (create_fake 0%R 1%R Rplus Rmult is_zero vint close) with fake.
    set (first := match g0 ortho with Some _ => _ | None => _ end).
    assert (F1 : exists gen u, first = (g0, Raise OtherException) \/ (exists e, first = (g0, Raise e)) \/ first = fake gen g0 vib orig ortho u).
    { unfold first. destruct (g0 ortho); [eauto|]. destruct (art_tuning d); [eauto|]. exists (fun _ => Raise OtherException), MNone. right; left. eauto. }
    destruct F1 as (gen & u & F1). destruct first as [g1 [[]|e]] eqn:EF; cbn [andthen]; [|discriminate].
    destruct F1 as [F1|[[e F1]|F1]]; [discriminate F1|discriminate F1|]. symmetry in F1.
    destruct (fake_inv gen g0 vib orig ortho u g1 F1) as (m & U & c' & o & P & C' & T). rewrite GV in C'. injection C' as <-.
    destruct (fake_fwd gen g0 vib orig ortho u m U c o D1 D2 D3 P GV T) as (g1' & F1' & V1 & O1 & Q1 & K1).
    rewrite F1 in F1'. injection F1' as <-. intros R1.
    assert (A1 : forall q, (q = vib \/ q = orig \/ q = ortho \/ q = inp) -> f1 q = g1 q).
    { intros q Hq. rewrite <- (FR g1 q Hq). rewrite R1. reflexivity. }
    assert (I1 : f1 inp = Some c).
    { rewrite A1 by tauto. rewrite K1 by apply IP. unfold g0. rewrite write_other by apply IP. exact FI. }
    (* the second *)
    rewrite (copy_at f1 inp vib c I1 (IP _)). cbn [andthen].
    set (h0 := fs_write f1 vib c).
    assert (HV : h0 vib = Some c) by apply write_same.
    assert (HO : h0 ortho = Some (CNpy U)) by (unfold h0; rewrite write_other by auto; rewrite A1 by tauto; exact Q1).
    rewrite HO. change (create_fake 0%R 1%R Rplus Rmult is_zero vint close) with fake.
    assert (P2 : prep (fun _ => Raise OtherException) h0 vib ortho (MStr "re-use") = Ok (m, U)) by (apply (prep_again gen _ g0 h0 vib ortho u); [exact P|congruence|exact HO]).
    destruct (fake_fwd (fun _ => Raise OtherException) h0 vib orig ortho (MStr "re-use") m U c o D1 D2 D3 P2 HV T) as (h1 & F2 & V2 & O2 & Q2 & K2).
    rewrite F2. cbn [andthen]. intros R2.
    assert (A2 : forall q, (q = vib \/ q = orig \/ q = ortho \/ q = inp) -> f2 q = h1 q).
    { intros q Hq. rewrite <- (FR h1 q Hq). rewrite R2. reflexivity. }
    rewrite !A1, !A2 by tauto. split; [congruence|]. split; [congruence|]. split; congruence.
  Qed.
End Iterative.
