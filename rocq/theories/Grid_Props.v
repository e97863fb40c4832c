(** C99: the pictures of the parameters of a model. *)
From Verif Require Import Common Common_Proofs PyStr_Model PyStr_Proofs FileName_Model FileName_Proofs Arr_Model Arr_Proofs ModelIO_Model ModelIO_Spec.
From Verif Require Import Load_Model Load_Spec Load_Proofs FileStruct_Model FileStruct_Proofs Submit2_Model Setup_Model Job_Spec Job_Proofs Job2_Proofs Grid_Model Grid_Spec Grid_Proofs Grid2_Proofs.
Local Open Scope string_scope.
Local Open Scope nat_scope.

(** ---- one picture ---- *)
(** C99: the number of texts is taken from the sampling model of the data set; if it is larger than the array nothing is
    saved, if it is smaller the rest has no texts *)
Theorem C99_single {V} vint (sign : V -> option comparison) f FS image filename title n m As N orho :
  wf_arr image -> shape image = [n; m] -> f (path_rho_model FS) = Some (CJson orho) -> model_file vint Diagonal (Z.of_nat As) (Z.of_nat N) orho ->
  (n < As \/ m < As -> plot_single vint sign f FS image filename title = ([], Raise IndexError)) /\
  (As <= n -> As <= m -> exists g, plot_single vint sign f FS image filename title = ([g], Ok tt) /\
     fig_path g = join (path_vib_plots FS) filename /\ fig_title g = titled title FS As N /\ fig_image g = image /\ NoDup (map fst (fig_marks g)) /\
     forall x y t, In (x, y, t) (fig_marks g) <-> x < As /\ y < As /\ exists v, aget image [x; y] = Some v /\ sign_is (sign v) t).
Proof.
  intros W S F MF. pose proof (dims_ok vint Diagonal _ _ f _ orho F MF) as D. split.
  - intros L. unfold plot_single. rewrite S. cbn [bind]. erewrite annotate_out by eauto. reflexivity.
  - intros L1 L2. erewrite single_ok by eauto. eexists. split; [reflexivity|]. cbn [fig_path fig_title fig_image fig_marks].
    split; [reflexivity|]. split; [reflexivity|]. split; [reflexivity|]. split; [apply marks_nodup|]. intros x y t. rewrite (marks_in sign image n m As) by auto.
    split; intros (X & Y & v & E & T); (split; [auto|split; [auto|exists v; split; [auto|]]]); apply sign_is_iff; auto.
Qed.
Print Assumptions C99_single.
(** C99: an array that has not two axes is not drawn *)
Theorem C99_axes {V} vint (sign : V -> option comparison) f FS image filename title :
  length (shape image) <> 2 -> plot_single vint sign f FS image filename title = ([], Raise TypeError).
Proof. intros L. unfold plot_single. destruct (shape image) as [|a [|b [|c s]]]; try reflexivity. cbn in L. lia. Qed.

(** C99: the text at a place belongs to the number shown there if the signs are symmetric, as they are in a symmetric model *)
Theorem C99_signs {V} (zero : V) sign o m pre A path title g :
  picture zero sign o m pre A path title g ->
  (forall x y v w, x < A -> y < A -> file_number zero o m (pre ++ [x; y]) v -> file_number zero o m (pre ++ [y; x]) w -> sign v = sign w) ->
  forall x y, x < A -> y < A ->
    exists v, aget (fig_image g) [y; x] = Some v /\ forall t, In (x, y, t) (fig_marks g) <-> sign_is (sign v) t.
Proof.
  intros [_ _ _ Pi Pm _] S x y X Y. destruct (Pi x y X Y) as (v & E & K). exists v. split; auto. intros t. rewrite Pm.
  destruct (Pi y x Y X) as (w & E' & K'). split.
  - intros (_ & _ & u & Ku & T). rewrite <- (S x y u v X Y Ku K). auto.
  - intros T. split; auto. split; auto. exists w. split; auto. rewrite (S x y w v X Y K' K). auto.
Qed.
Print Assumptions C99_signs.
Definition ex_sign (z : Z) : option comparison := Some (z ?= 0)%Z.
Definition ex_vint (z : Z) : res Z := Ok z.
Definition ex_rho (A N : Z) : list (string * jval Z) := [("number of modes", JInt N); ("number of surfaces", JInt A)].
Definition ex_coupled : list (string * jval Z) :=
  [("number of modes", JInt 2); ("number of surfaces", JInt 2); ("energies", JList [NList [NNum 5%Z; NNum (-1)%Z]; NList [NNum (-2)%Z; NNum 0%Z]]);
   ("linear couplings", JList [NList [NList [NNum 1%Z; NNum 2%Z]; NList [NNum 2%Z; NNum (-4)%Z]]; NList [NList [NNum 0%Z; NNum 6%Z]; NList [NNum 6%Z; NNum 8%Z]]])].
Definition ex_FS : fstruct := build_fs "/" "/r" 11 0.
Definition ex_files (p : string) : option (content Z) :=
  if String.eqb p (path_rho_model ex_FS) then Some (CJson (ex_rho 2 2)) else if String.eqb p (path_vib_model ex_FS) then Some (CJson ex_coupled)
  else if String.eqb p (path_orig_model ex_FS) then Some (CJson ex_coupled) else None.
(** C99: otherwise the texts are those of the transposed array *)
Theorem C99_transposed_refuted : exists (image : arr Z) g x y v t, plot_single ex_vint ex_sign ex_files ex_FS image "a.pdf" "a" = ([g], Ok tt) /\
  aget (fig_image g) [y; x] = Some v /\ In (x, y, t) (fig_marks g) /\ ~ sign_is (ex_sign v) t.
Proof.
  exists (mkArr [2; 2] [1; 2; -3; 4]%Z). eexists. exists 0, 1, (-3)%Z, "+". split; [vm_compute; reflexivity|]. split; [vm_compute; reflexivity|].
  split; [right; left; reflexivity|]. intros K. inversion K.
Qed.

(** ---- all pictures ---- *)
(** C99: two pictures of the energies *)
Theorem C99_energy {V} (zero : V) vint v_of_int sign f FS oo oc orho A N :
  grid_files vint f FS oo oc orho A N -> In "energies" (map fst oo) -> In "energies" (map fst oc) ->
  exists models g1 g2, load_data f FS = Ok models /\ plot_energy vint v_of_int sign f FS models = ([g1; g2], Ok tt) /\
    picture zero sign oo E_ [] A (join (path_vib_plots FS) ("original_energy_grid_D" ++ dec (id_data FS) ++ ".pdf")) (titled "Original Energy Grid" FS A N) g1 /\
    picture zero sign oc E_ [] A (join (path_vib_plots FS) ("coupled_energy_grid_D" ++ dec (id_data FS) ++ ".pdf")) (titled "Coupled Energy Grid" FS A N) g2.
Proof.
  intros [[F1 M1] [F2 M2] [F3 M3]] I1 I2.
  assert (R : forall p o, f p = Some (CJson o) -> exists l, read_json f p = Ok l) by (intros p o E; unfold read_json; rewrite E; eauto).
  destruct (R _ _ F1) as [l1 R1]. destruct (R _ _ F2) as [l2 R2].
  destruct (energy_grid zero vint v_of_int sign f FS oo orho A N "Original" "original" _ l1 F1 M1 F3 M3 I1 R1) as (g1 & E1 & P1).
  destruct (energy_grid zero vint v_of_int sign f FS oc orho A N "Coupled" "coupled" _ l2 F2 M2 F3 M3 I2 R2) as (g2 & E2 & P2).
  exists (l1, l2), g1, g2. unfold load_data. rewrite R1, R2. split; [reflexivity|]. unfold plot_energy. cbn [fst snd]. rewrite E1, E2. split; [reflexivity|]. split; [exact P1|exact P2].
Qed.
Print Assumptions C99_energy.

Definition linear_picture {V} (zero : V) sign FS A N (o : list (string * jval V)) (Which which : string) (j : nat) (g : figure V) : Prop :=
  picture zero sign o G1_ [j] A (join (path_vib_plots FS) (which ++ "_linear_grid_D" ++ dec (id_data FS) ++ "_N" ++ ordinal j ++ ".pdf"))
    (titled (Which ++ " linear terms Grid (Mode " ++ ordinal j ++ ")") FS A N) g.
(** C99: one picture for each mode, of the original and then of the coupled model *)
Theorem C99_linear {V} (zero : V) vint v_of_int sign f FS oo oc orho A N :
  grid_files vint f FS oo oc orho A N -> In "linear couplings" (map fst oo) -> In "linear couplings" (map fst oc) ->
  exists models l1 l2, load_data f FS = Ok models /\ plot_linear_coupling vint v_of_int sign f FS models = ((l1 ++ l2)%list, Ok tt) /\
    Forall2 (linear_picture zero sign FS A N oo "Original" "original") (seq 0 N) l1 /\
    Forall2 (linear_picture zero sign FS A N oc "Coupled" "coupled") (seq 0 N) l2.
Proof.
  intros [[F1 M1] [F2 M2] [F3 M3]] I1 I2.
  destruct (parameter_file zero vint v_of_int A N f _ oo G1_ 1 F1 M1 I1 eq_refl) as (l1 & a1 & R1 & P1 & _ & _ & _ & _).
  destruct (parameter_file zero vint v_of_int A N f _ oc G1_ 1 F2 M2 I2 eq_refl) as (l2 & a2 & R2 & P2 & _ & _ & D2 & _).
  destruct (linear_grids zero vint v_of_int sign f FS oo orho A N "Original" "original" _ l1 a1 F1 M1 F3 M3 I1 R1 P1) as (g1 & E1 & Q1).
  destruct (linear_grids zero vint v_of_int sign f FS oc orho A N "Coupled" "coupled" _ l2 a2 F2 M2 F3 M3 I2 R2 P2) as (g2 & E2 & Q2).
  exists (l1, l2), g1, g2. unfold load_data. rewrite R1, R2. split; [reflexivity|]. unfold plot_linear_coupling. cbn [fst snd]. rewrite D2, P1, P2. cbn [bind figs_of]. rewrite E1, E2.
  split; [reflexivity|]. split; auto.
Qed.
Print Assumptions C99_linear.

Definition quadratic_picture {V} (zero : V) sign FS A N (o : list (string * jval V)) (Which which : string) (j : nat * nat) (g : figure V) : Prop :=
  picture zero sign o G2_ [fst j; snd j] A
    (join (path_vib_plots FS) (which ++ "_quadratic_grid_D" ++ dec (id_data FS) ++ "_N" ++ ordinal (fst j) ++ "_N" ++ ordinal (snd j) ++ ".pdf"))
    (titled (Which ++ " quadratic terms Grid (Modes " ++ ordinal (fst j) ++ ordinal (snd j) ++ ")") FS A N) g.
(** C99: one picture for each pair of modes *)
Theorem C99_quadratic {V} (zero : V) vint v_of_int sign f FS oo oc orho A N :
  grid_files vint f FS oo oc orho A N -> In "quadratic couplings" (map fst oo) -> In "quadratic couplings" (map fst oc) ->
  exists models l1 l2, load_data f FS = Ok models /\ plot_quadratic_coupling vint v_of_int sign f FS models = ((l1 ++ l2)%list, Ok tt) /\
    Forall2 (quadratic_picture zero sign FS A N oo "Original" "original") (list_prod (seq 0 N) (seq 0 N)) l1 /\
    Forall2 (quadratic_picture zero sign FS A N oc "Coupled" "coupled") (list_prod (seq 0 N) (seq 0 N)) l2.
Proof.
  intros [[F1 M1] [F2 M2] [F3 M3]] I1 I2.
  destruct (parameter_file zero vint v_of_int A N f _ oo G2_ 2 F1 M1 I1 eq_refl) as (l1 & a1 & R1 & P1 & _ & _ & D1 & _).
  destruct (parameter_file zero vint v_of_int A N f _ oc G2_ 2 F2 M2 I2 eq_refl) as (l2 & a2 & R2 & P2 & _ & _ & D2 & _).
  destruct (quadratic_grids zero vint v_of_int sign f FS oo orho A N "Original" "original" _ l1 a1 F1 M1 F3 M3 I1 R1 P1) as (g1 & E1 & Q1).
  destruct (quadratic_grids zero vint v_of_int sign f FS oc orho A N "Coupled" "coupled" _ l2 a2 F2 M2 F3 M3 I2 R2 P2) as (g2 & E2 & Q2).
  exists (l1, l2), g1, g2. unfold load_data. rewrite R1, R2. split; [reflexivity|]. unfold plot_quadratic_coupling. cbn [fst snd]. rewrite D1, D2, P1, P2. cbn [bind figs_of andb]. rewrite E1, E2.
  split; [reflexivity|]. split; auto.
Qed.
Print Assumptions C99_quadratic.

(** C99: no picture overwrites another one *)
Theorem C99_names {V} (zero : V) sign FS A N oo oc l1 l2 q1 q2 g1 g2 t1 t2 :
  Forall2 (linear_picture zero sign FS A N oo "Original" "original") (seq 0 N) l1 ->
  Forall2 (linear_picture zero sign FS A N oc "Coupled" "coupled") (seq 0 N) l2 ->
  Forall2 (quadratic_picture zero sign FS A N oo "Original" "original") (list_prod (seq 0 N) (seq 0 N)) q1 ->
  Forall2 (quadratic_picture zero sign FS A N oc "Coupled" "coupled") (list_prod (seq 0 N) (seq 0 N)) q2 ->
  picture zero sign oo E_ [] A (join (path_vib_plots FS) ("original_energy_grid_D" ++ dec (id_data FS) ++ ".pdf")) t1 g1 ->
  picture zero sign oc E_ [] A (join (path_vib_plots FS) ("coupled_energy_grid_D" ++ dec (id_data FS) ++ ".pdf")) t2 g2 ->
  NoDup (map fig_path (g1 :: g2 :: l1 ++ l2 ++ q1 ++ q2)%list).
Proof.
  intros L1 L2 Q1 Q2 E1 E2.
  set (lin := fun w j => w ++ "_linear_grid_D" ++ dec (id_data FS) ++ "_N" ++ ordinal j ++ ".pdf").
  set (qua := fun w (j : nat * nat) => w ++ "_quadratic_grid_D" ++ dec (id_data FS) ++ "_N" ++ ordinal (fst j) ++ "_N" ++ ordinal (snd j) ++ ".pdf").
  set (ene := fun w => w ++ "_energy_grid_D" ++ dec (id_data FS) ++ ".pdf").
  assert (ML : forall o W w k l, Forall2 (linear_picture zero sign FS A N o W w) k l -> map fig_path l = map (join (path_vib_plots FS)) (map (lin w) k)).
  { intros o W w k l F. induction F as [|j g k l P F IH]; [reflexivity|]. cbn [map]. rewrite IH. destruct P as [-> _ _ _ _ _]. reflexivity. }
  assert (MQ : forall o W w k l, Forall2 (quadratic_picture zero sign FS A N o W w) k l -> map fig_path l = map (join (path_vib_plots FS)) (map (qua w) k)).
  { intros o W w k l F. induction F as [|j g k l P F IH]; [reflexivity|]. cbn [map]. rewrite IH. destruct P as [-> _ _ _ _ _]. reflexivity. }
  assert (X : map fig_path (g1 :: g2 :: l1 ++ l2 ++ q1 ++ q2)%list =
    map (join (path_vib_plots FS)) (ene "original" :: ene "coupled" :: map (lin "original") (seq 0 N) ++ map (lin "coupled") (seq 0 N) ++
       map (qua "original") (list_prod (seq 0 N) (seq 0 N)) ++ map (qua "coupled") (list_prod (seq 0 N) (seq 0 N)))%list).
  { cbn [map]. rewrite !map_app, (ML _ _ _ _ _ L1), (ML _ _ _ _ _ L2), (MQ _ _ _ _ _ Q1), (MQ _ _ _ _ _ Q2). destruct E1 as [-> _ _ _ _ _], E2 as [-> _ _ _ _ _]. reflexivity. }
  rewrite X. clear X. set (names := (ene "original" :: _)%list).
  assert (PX : forall x, In x names -> String.prefix "/" x = false).
  { intros x I. unfold names in I. cbn [In] in I. rewrite !in_app_iff, !in_map_iff in I.
    destruct I as [<-|[<-|[(j & <- & _)|[(j & <- & _)|[(j & <- & _)|(j & <- & _)]]]]]; reflexivity. }
  assert (ND : NoDup names).
  { assert (LI : forall w, FinFun.Injective (lin w)).
    { intros w i j E. unfold lin in E. apply append_inj_l in E. apply append_inj_l in E. apply append_inj_l in E. apply append_inj_l in E. apply append_inj_r in E. apply ordinal_inj in E. auto. }
    assert (DL : forall j, lacks "_" (ordinal j)) by (intros j; apply dec_lacks; [reflexivity|reflexivity|discriminate]).
    assert (QI : forall w, FinFun.Injective (qua w)).
    { intros w [i1 i2] [j1 j2] E. unfold qua in E. cbn [fst snd] in E. apply append_inj_l in E. apply append_inj_l in E. apply append_inj_l in E. apply append_inj_l in E.
      apply (first_split "_") in E; auto. destruct E as [E1' E2']. apply ordinal_inj in E1'. injection E2' as E2'. apply append_inj_r in E2'. apply ordinal_inj in E2'. congruence. }
    assert (PN : NoDup (list_prod (seq 0 N) (seq 0 N))).
    { pose proof (marks_nodup (V := V) sign (mkArr [] []) N) as K. unfold marks_of in K. rewrite map_map in K. cbn [fst] in K.
      rewrite (map_ext _ (fun ab : nat * nat => ab)) in K by (intros [a b]; reflexivity). rewrite map_id in K. exact K. }
    assert (AP : forall (l l' : list string), NoDup l -> NoDup l' -> (forall x, In x l -> ~ In x l') -> NoDup (l ++ l')%list).
    { clear. induction l as [|x l IH]; intros l' Nl Nl' D; auto. cbn [app]. inversion Nl; subst. constructor; [rewrite in_app_iff; intros [|]; [tauto|apply (D x); [left; auto|auto]]|].
      apply IH; auto. intros; apply D; right; auto. }
    unfold names. repeat constructor.
    - cbn [In]. rewrite !in_app_iff, !in_map_iff. intros [E|[(j & E & _)|[(j & E & _)|[(j & E & _)|(j & E & _)]]]]; discriminate.
    - rewrite !in_app_iff, !in_map_iff. intros [(j & E & _)|[(j & E & _)|[(j & E & _)|(j & E & _)]]]; discriminate.
    - apply AP; [apply FinFun.Injective_map_NoDup; auto; apply seq_NoDup| |].
      + apply AP; [apply FinFun.Injective_map_NoDup; auto; apply seq_NoDup| |].
        * apply AP; try (apply FinFun.Injective_map_NoDup; auto). intros x. rewrite !in_map_iff. intros (i & <- & _) (j & E & _). discriminate.
        * intros x. rewrite in_app_iff, !in_map_iff. intros (i & <- & _) [(j & E & _)|(j & E & _)]; discriminate.
      + intros x. rewrite !in_app_iff, !in_map_iff. intros (i & <- & _) [(j & E & _)|[(j & E & _)|(j & E & _)]]; discriminate. }
  clearbody names. clear -PX ND. induction ND as [|x l NI ND IH]; [constructor|]. cbn [map]. constructor.
  - rewrite in_map_iff. intros (y & E & I). apply join_inj in E; [subst; tauto|apply PX; right; auto|apply PX; left; auto].
  - apply IH. intros; apply PX; right; auto.
Qed.
Print Assumptions C99_names.
(** C99: the titles of the pictures of pairs of modes are not always different *)
Theorem C99_titles_refuted FS A N : exists i j, i <> j /\ fst i < 11 /\ snd i < 11 /\ fst j < 11 /\ snd j < 11 /\
  titled ("Coupled quadratic terms Grid (Modes " ++ ordinal (fst i) ++ ordinal (snd i) ++ ")") FS A N =
  titled ("Coupled quadratic terms Grid (Modes " ++ ordinal (fst j) ++ ordinal (snd j) ++ ")") FS A N.
Proof. exists (0, 10), (10, 0). cbn [fst snd]. repeat split; try lia; discriminate. Qed.

(** C99: the number of modes is that of the sampling model: with fewer modes in the array there are the pictures of those and
    then an exception *)
Theorem C99_modes {V} vint (sign : V -> option comparison) f FS a Which which n m k As N orho :
  wf_arr a -> shape a = [n; m; k] -> As <= m -> As <= k -> n < N -> f (path_rho_model FS) = Some (CJson orho) -> model_file vint Diagonal (Z.of_nat As) (Z.of_nat N) orho ->
  exists l, plot_linear_grids vint sign f FS a Which which = (l, Raise IndexError) /\ length l = n.
Proof.
  intros W Sh Lm Lk Ln F MF. pose proof (dims_ok vint Diagonal _ _ f _ orho F MF) as D. unfold plot_linear_grids. cbn [extract_dimensions]. rewrite D. cbn [bind fst snd figs_of]. rewrite Nat2Z.id.
  match goal with |- context [figs_all (map ?P _)] => set (P0 := P) end.
  assert (K1 : forall j, j < n -> exists g, P0 j = ([g], Ok tt)).
  { intros j J. unfold P0. destruct (slice_ok a n [m; k] j W Sh J) as (g & -> & Sg & Wg & _). cbn [bind figs_of]. erewrite single_ok by eauto. eexists. reflexivity. }
  assert (K2 : P0 n = ([], Raise IndexError)) by (unfold P0, aslice; rewrite Sh, Nat.ltb_irrefl; reflexivity).
  replace N with (n + S (N - n - 1)) by lia. rewrite seq_app, map_app, Nat.add_0_l. cbn [seq map].
  assert (G : forall c b rest, b + c = n -> exists l, figs_all (map P0 (seq b c) ++ P0 n :: rest)%list = (l, Raise IndexError) /\ length l = c).
  { induction c as [|c IH]; intros b rest E; cbn [seq map app figs_all fold_right].
    - rewrite K2. exists []. split; reflexivity.
    - destruct (K1 b) as [g ->]; [lia|]. destruct (IH (S b) rest) as (l & El & Ll); [lia|]. unfold figs_all in El. rewrite El. cbn. eexists. split; [reflexivity|]. cbn. lia. }
  apply (G n 0). reflexivity.
Qed.
Print Assumptions C99_modes.
Example C99_modes_example : exists l, plot_linear_grids ex_vint ex_sign ex_files ex_FS (mkArr [1; 2; 2] [1; 2; 2; -4]%Z) "Original" "original" = (l, Raise IndexError) /\ length l = 1.
Proof. vm_compute. eexists. split; reflexivity. Qed.

(** ---- missing parameters ---- *)
(** C99: without terms in the coupled model there is an exception, without terms in the original model only, a KeyError; the
    quadratic terms are asked for in both *)
Theorem C99_missing {V} vint v_of_int (sign : V -> option comparison) f FS oo oc :
  f (path_orig_model FS) = Some (CJson oo) -> f (path_vib_model FS) = Some (CJson oc) ->
  exists models, load_data f FS = Ok models /\
    (~ In "energies" (map fst oo) -> plot_energy vint v_of_int sign f FS models = ([], Raise KeyError)) /\
    (~ In "linear couplings" (map fst oc) -> plot_linear_coupling vint v_of_int sign f FS models = ([], Raise OtherException)) /\
    (In "linear couplings" (map fst oc) -> ~ In "linear couplings" (map fst oo) -> plot_linear_coupling vint v_of_int sign f FS models = ([], Raise KeyError)) /\
    (~ (In "quadratic couplings" (map fst oc) /\ In "quadratic couplings" (map fst oo)) -> plot_quadratic_coupling vint v_of_int sign f FS models = ([], Raise OtherException)).
Proof.
  intros F1 F2. set (ks := fun o : list (string * jval V) => map (fun sj => (KS (fst sj), snd sj)) o). exists (ks oo, ks oc). unfold load_data, read_json. rewrite F1, F2. split; [reflexivity|].
  assert (G : forall o s, ~ In s (map fst o) -> dget key_eqb (ks o) (KS s) = None).
  { intros o s K. induction o as [|[s' j] o IH]; [reflexivity|]. cbn [ks map dget fst snd key_eqb]. fold (ks o). cbn [map fst In] in K.
    destruct (String.eqb_spec s s'); [subst; tauto|]. apply IH. tauto. }
  assert (G' : forall o s, In s (map fst o) -> dmem key_eqb (ks o) (KS s) = true).
  { intros o s K. unfold dmem. induction o as [|[s' j] o IH]; [destruct K|]. cbn [ks map dget fst snd key_eqb]. fold (ks o).
    destruct (String.eqb_spec s s'); [reflexivity|]. apply IH. destruct K; [cbn in H; congruence|auto]. }
  split; [|split; [|split]].
  - intros K. unfold plot_energy, plot_energy_grid, parameter, jitem. cbn [fst vmk_value]. rewrite G by auto. reflexivity.
  - intros K. unfold plot_linear_coupling, dmem. cbn [snd vmk_value]. rewrite G by auto. reflexivity.
  - intros K K'. unfold plot_linear_coupling. cbn [fst snd vmk_value]. rewrite G' by auto. unfold parameter, jitem. cbn [vmk_value]. rewrite G by auto. reflexivity.
  - intros K. unfold plot_quadratic_coupling. cbn [fst snd vmk_value].
    destruct (in_dec string_dec "quadratic couplings" (map fst oc)) as [I|I]; [|unfold dmem at 1; rewrite G by auto; reflexivity].
    destruct (in_dec string_dec "quadratic couplings" (map fst oo)) as [I'|I']; [tauto|]. rewrite andb_comm. unfold dmem at 1. rewrite G by auto. reflexivity.
Qed.
Print Assumptions C99_missing.
(** C99: a file that is missing or holds something else *)
Theorem C99_files {V} (f : fs V) FS : 
  (f (path_orig_model FS) = None \/ (exists o, f (path_orig_model FS) = Some (CJson o)) /\ f (path_vib_model FS) = None -> load_data f FS = Raise OSError) /\
  (f (path_orig_model FS) = Some CText \/ (exists o, f (path_orig_model FS) = Some (CJson o)) /\ f (path_vib_model FS) = Some CText -> load_data f FS = Raise ValueError).
Proof. unfold load_data, read_json. split; (intros [->|((o & ->) & ->)]; reflexivity). Qed.

(** ---- the script ---- *)
(** C99: the pictures of the data sets in order, up to the first one that fails *)
Theorem C99_script {V} vint v_of_int (sign : V -> option comparison) cwd host is_dir (f : fs V) name ids l1 d l2 :
  In (name, ids) [("2x2", [11; 12; 13; 14; 15]); ("4x6", [21; 22; 23; 24; 25]); ("7x12", [31; 32; 33; 34; 35])]%Z -> host = "nlogn" \/ host = "feynman" ->
  let plots := grid_plots_of vint v_of_int sign cwd is_dir f "/work/ngraymon/pimc/artificial/" in
  ((forall d, In d ids -> snd (plots d) = Ok tt) -> automate_grid_plots vint v_of_int sign cwd host is_dir f name = (flat_map (fun d => fst (plots d)) ids, Ok tt)) /\
  (ids = (l1 ++ d :: l2)%list -> (forall d, In d l1 -> snd (plots d) = Ok tt) -> forall e, snd (plots d) = Raise e ->
     automate_grid_plots vint v_of_int sign cwd host is_dir f name = ((flat_map (fun d => fst (plots d)) l1 ++ fst (plots d))%list, Raise e)).
Proof.
  intros I Hh plots. set (P := plots).
  assert (E : automate_grid_plots vint v_of_int sign cwd host is_dir f name = figs_all (map P ids)).
  { unfold automate_grid_plots, choose_root. assert (Eh : existsb (String.eqb host) server_names = true) by (destruct Hh as [->| ->]; reflexivity). rewrite Eh.
    destruct I as [I|[I|[I|[]]]]; injection I as <- <-; reflexivity. }
  rewrite E. clear E I. clearbody P. split.
  - intros K. induction ids as [|x ids IH]; [reflexivity|]. cbn [map figs_all fold_right flat_map]. fold (figs_all (map P ids)). rewrite IH by (intros; apply K; right; auto).
    pose proof (K x (or_introl eq_refl)) as Kx. destruct (P x) as [l r]. cbn [snd] in Kx. subst r. reflexivity.
  - intros -> K e Ke. induction l1 as [|x l1 IH]; cbn [app map figs_all fold_right flat_map].
    + destruct (P d) as [l r]. cbn [snd] in Ke. subst r. reflexivity.
    + fold (figs_all (map P (l1 ++ d :: l2)%list)). rewrite IH by (intros; apply K; right; auto).
      pose proof (K x (or_introl eq_refl)) as Kx. destruct (P x) as [l r]. cbn [snd fst] in *. subst r. cbn [figs_then fst snd]. rewrite app_assoc. reflexivity.
Qed.
Print Assumptions C99_script.
(** C99: the pictures of one data set: the energies and the linear terms *)
Theorem C99_data_set {V} vint v_of_int (sign : V -> option comparison) cwd is_dir (f : fs V) root d :
  let FS := build_fs cwd root d 0 in
  grid_plots_of vint v_of_int sign cwd is_dir f root d =
  if is_dir then
    match load_data f FS with
    | Raise e => ([], Raise e)
    | Ok models =>
        match plot_energy vint v_of_int sign f FS models with
        | (l, Raise e) => (l, Raise e)
        | (l, Ok _) => ((l ++ fst (plot_linear_coupling vint v_of_int sign f FS models))%list, snd (plot_linear_coupling vint v_of_int sign f FS models))
        end
    end
  else ([], Raise AssertionError).
Proof.
  intros FS. unfold grid_plots_of, new_fs. destruct is_dir; cbn [passert bind figs_of fst]; [|reflexivity]. fold FS. destruct (load_data f FS) as [m|e]; [|reflexivity].
  cbn [bind figs_of]. destruct (plot_energy vint v_of_int sign f FS m) as [l [[]|e]]; reflexivity.
Qed.
(** C99: other hosts and names are refused *)
Theorem C99_refused {V} vint v_of_int (sign : V -> option comparison) cwd host is_dir (f : fs V) name :
  (~ In name ["2x2"; "4x6"; "7x12"] -> automate_grid_plots vint v_of_int sign cwd host is_dir f name = ([], Raise AssertionError)) /\
  (In name ["2x2"; "4x6"; "7x12"] -> ~ In host ["nlogn"; "feynman"] -> automate_grid_plots vint v_of_int sign cwd host is_dir f name = ([], Raise OtherException)).
Proof.
  assert (X : forall (x : string) l, existsb (String.eqb x) l = true <-> In x l).
  { intros x l. rewrite existsb_exists. split; [intros (y & I & E); apply String.eqb_eq in E; subst; auto|intros I; exists x; split; auto; apply String.eqb_refl]. }
  unfold automate_grid_plots, choose_root. split.
  - intros K. assert (E : existsb (String.eqb name) art_names = false) by (apply not_true_iff_false; rewrite X; exact K). rewrite E. reflexivity.
  - intros K K'. assert (E : existsb (String.eqb name) art_names = true) by (apply X; exact K). rewrite E.
    assert (E' : existsb (String.eqb host) server_names = false) by (apply not_true_iff_false; rewrite X; exact K'). rewrite E'. reflexivity.
Qed.

(** ---- examples ---- *)
Example C99_files_example : grid_files ex_vint ex_files ex_FS ex_coupled ex_coupled (ex_rho 2 2) 2 2.
Proof.
  assert (C : model_file ex_vint Coupled 2 2 ex_coupled).
  { split.
    - cbn. repeat (constructor; [cbn; intuition discriminate|]). constructor.
    - intros s j I. cbn in I. destruct I as [I|[I|[I|[I|[]]]]]; injection I as <- <-; [exists N_|exists A_|exists E_|exists G1_]; reflexivity.
    - exists (JInt 2). split; [left; reflexivity|constructor].
    - exists (JInt 2). split; [right; left; reflexivity|constructor].
    - intros m j s I S. destruct m; cbn in S; try discriminate; injection S as <-; cbn in I; destruct I as [I|[I|[I|[I|[]]]]]; try discriminate; injection I as <-;
        do 2 eexists; (split; [reflexivity|]); (split; [vm_compute; reflexivity|]); reflexivity. }
  assert (D : model_file ex_vint Diagonal 2 2 (ex_rho 2 2)).
  { split.
    - cbn. repeat (constructor; [cbn; intuition discriminate|]). constructor.
    - intros s j I. cbn in I. destruct I as [I|[I|[]]]; injection I as <- <-; [exists N_|exists A_]; reflexivity.
    - exists (JInt 2). split; [left; reflexivity|constructor].
    - exists (JInt 2). split; [right; left; reflexivity|constructor].
    - intros m j s I S. destruct m; cbn in S; try discriminate; injection S as <-; cbn in I; destruct I as [I|[I|[]]]; discriminate. }
  split; (split; [reflexivity|assumption]).
Qed.
Example C99_run_example :
  let r := grid_plots_of ex_vint (fun z => z) ex_sign "/" true ex_files "/r" 11 in
  snd r = Ok tt /\ map fig_path (fst r) = map (fun s => "/r/data_set_11/plots/" ++ s)
    ["original_energy_grid_D11.pdf"; "coupled_energy_grid_D11.pdf"; "original_linear_grid_D11_N1.pdf"; "original_linear_grid_D11_N2.pdf"; "coupled_linear_grid_D11_N1.pdf"; "coupled_linear_grid_D11_N2.pdf"] /\
  map fig_marks (fst r) = [[(0, 0, "+"); (0, 1, "-"); (1, 0, "-"); (1, 1, "0")]; [(0, 0, "+"); (0, 1, "-"); (1, 0, "-"); (1, 1, "0")]; [(0, 0, "+"); (0, 1, "+"); (1, 0, "+"); (1, 1, "-")];
    [(0, 0, "0"); (0, 1, "+"); (1, 0, "+"); (1, 1, "+")]; [(0, 0, "+"); (0, 1, "+"); (1, 0, "+"); (1, 1, "-")]; [(0, 0, "0"); (0, 1, "+"); (1, 0, "+"); (1, 1, "+")]] /\
  map (fun g => data (fig_image g)) (fst r) = [[5; -1; -2; 0]; [5; -1; -2; 0]; [1; 2; 2; -4]; [0; 6; 6; 8]; [1; 2; 2; -4]; [0; 6; 6; 8]]%Z.
Proof. vm_compute. repeat split. Qed.
