(** Lemmas about the pictures of the parameters, second part. *)
From Verif Require Import Common Common_Proofs PyStr_Model PyStr_Proofs FileName_Model FileName_Proofs Arr_Model Arr_Proofs ModelIO_Model ModelIO_Spec.
From Verif Require Import Load_Model Load_Spec Load_Proofs FileStruct_Model FileStruct_Proofs Submit2_Model Setup_Model Job_Spec Job_Proofs Job2_Proofs Grid_Model Grid_Spec Grid_Proofs.
Local Open Scope string_scope.
Local Open Scope nat_scope.

Section Grid.
  Context {V : Type}.
  Variable zero : V.
  Variable vint : V -> res Z.
  Variable v_of_int : Z -> V.
  Variable sign : V -> option comparison.

  Lemma sign_is_iff v t : sign_is (sign v) t <-> t = sign_text sign v.
  Proof.
    unfold sign_text. split.
    - intros K. inversion K as [E|E|E|E]; reflexivity.
    - intros ->. destruct (sign v) as [[]|]; constructor.
  Qed.
  Lemma number_unique o m idx v l a : NoDup (map fst o) -> In (vmk_value m, JList l) o -> np_array (NList l) = Ok a -> file_number zero o m idx v -> aget a idx = Some v.
  Proof.
    intros U I Na K. destruct K as [l' a' x I' Na' E|M].
    - assert (X : JList l = JList l').
      { clear -U I I'. induction o as [|[s j] o IH]; [destruct I|]. cbn [map fst] in U. inversion U; subst. destruct I as [I|I], I' as [I'|I'].
        - congruence.
        - inversion I; subst. destruct H1. apply in_map_iff. exists (vmk_value m, JList l'). auto.
        - inversion I'; subst. destruct H1. apply in_map_iff. exists (vmk_value m, JList l). auto.
        - auto. }
      inversion X; subst. congruence.
    - destruct M. apply in_map_iff. exists (vmk_value m, JList l). auto.
  Qed.

  (** everything about one parameter of one file *)
  Lemma parameter_file A N (f : fs V) path o m ax : f path = Some (CJson o) -> model_file vint Coupled (Z.of_nat A) (Z.of_nat N) o -> In (vmk_value m) (map fst o) ->
    spec_shape Coupled (Z.of_nat A) (Z.of_nat N) m = Some (map Z.of_nat (repeat N ax ++ [A; A])%list) ->
    exists l a, read_json f path = Ok l /\ parameter v_of_int l m = Ok a /\ wf_arr a /\ shape a = (repeat N ax ++ [A; A])%list /\ dmem key_eqb l (KS (vmk_value m)) = true /\
      (forall idx v, inb (shape a) idx -> aget a idx = Some v <-> file_number zero o m idx v).
  Proof.
    intros F MF I S. pose proof MF as [U _ _ _ _]. destruct (parameter_ok zero vint v_of_int Coupled _ _ f path o m _ F MF I S) as (l & l' & a & R & Pa & W & Sh & D & Nu & I').
    exists l, a. split; auto. split; auto. split; auto. assert (Sa : shape a = (repeat N ax ++ [A; A])%list).
    { clear -Sh. revert Sh. generalize (shape a) (repeat N ax ++ [A; A])%list. induction l as [|x l IH]; intros [|y l'] E; cbn in E; try discriminate; auto.
      inversion E. f_equal; [lia|auto]. }
    split; auto. split; auto. intros idx v B. split; [apply Nu|]. intros K.
    destruct MF as [_ _ _ _ Ar]. destruct (Ar m _ _ I' S) as (l1 & a1 & E & Na & _). inversion E; subst l1. pose proof (number_unique o m idx v l' a1 U I' Na K) as X.
    destruct (aget_some a idx W B) as [v' Ev]. rewrite Ev. pose proof (number_unique o m idx v' l' a1 U I' Na (Nu idx v' Ev)). congruence.
  Qed.

  Lemma single_picture f FS g filename title A N o m pre : dims_of_file vint f (path_rho_model FS) = Ok (Z.of_nat A, Z.of_nat N) ->
    wf_arr g -> shape g = [A; A] -> (forall x y v, x < A -> y < A -> aget g [x; y] = Some v <-> file_number zero o m (pre ++ [x; y]) v) ->
    exists p, plot_single vint sign f FS g filename title = ([p], Ok tt) /\ picture zero sign o m pre A (join (path_vib_plots FS) filename) (titled title FS A N) p.
  Proof.
    intros D W S K. rewrite (single_ok vint sign f FS g filename title A A A (Z.of_nat N)) by (auto; lia). eexists. split; [reflexivity|].
    split; cbn [fig_path fig_title fig_image fig_marks].
    - reflexivity.
    - reflexivity.
    - auto.
    - intros x y X Y. destruct (proj2 (get2 g A A y x W S)) as [v E]; [auto|]. exists v. split; auto. apply K; auto.
    - intros x y t. rewrite (marks_in sign g A A A) by (auto; lia). split.
      + intros (X & Y & v & E & ->). split; auto. split; auto. exists v. split; [apply K; auto|]. apply sign_is_iff. reflexivity.
      + intros (X & Y & v & E & T). split; auto. split; auto. exists v. split; [apply K; auto|]. apply sign_is_iff. auto.
    - apply marks_nodup.
  Qed.

  Lemma energy_grid f FS o orho A N Which which path l : f path = Some (CJson o) -> model_file vint Coupled (Z.of_nat A) (Z.of_nat N) o ->
    f (path_rho_model FS) = Some (CJson orho) -> model_file vint Diagonal (Z.of_nat A) (Z.of_nat N) orho -> In "energies" (map fst o) -> read_json f path = Ok l ->
    exists p, plot_energy_grid vint v_of_int sign f FS l Which which = ([p], Ok tt) /\
      picture zero sign o E_ [] A (join (path_vib_plots FS) (which ++ "_energy_grid_D" ++ dec (id_data FS) ++ ".pdf")) (titled (Which ++ " Energy Grid") FS A N) p.
  Proof.
    intros F MF Fr Mr I R. destruct (parameter_file A N f path o E_ 0 F MF I eq_refl) as (l' & a & R' & Pa & W & S & D & K). rewrite R in R'. inversion R'; subst l'.
    unfold plot_energy_grid. rewrite Pa. cbn [bind figs_of]. apply single_picture; auto.
    - eapply dims_ok; eauto.
    - intros x y v X Y. cbn [app]. apply K. rewrite S. repeat constructor; auto.
  Qed.

  Lemma collect {X} (g : X -> figs V) (Q : X -> figure V -> Prop) l : (forall x, In x l -> exists p, g x = ([p], Ok tt) /\ Q x p) ->
    exists ps, figs_all (map g l) = (ps, Ok tt) /\ Forall2 Q l ps.
  Proof.
    induction l as [|x l IH]; intros K; [exists []; split; [reflexivity|constructor]|].
    destruct IH as (ps & E & F); [intros; apply K; right; auto|]. destruct (K x) as (p & Ep & Qp); [left; auto|].
    exists (p :: ps). cbn [map figs_all fold_right]. fold (figs_all (map g l)). rewrite E, Ep. split; [reflexivity|]. constructor; auto.
  Qed.

  Lemma linear_grids f FS o orho A N Which which path l a : f path = Some (CJson o) -> model_file vint Coupled (Z.of_nat A) (Z.of_nat N) o ->
    f (path_rho_model FS) = Some (CJson orho) -> model_file vint Diagonal (Z.of_nat A) (Z.of_nat N) orho -> In "linear couplings" (map fst o) -> read_json f path = Ok l ->
    parameter v_of_int l G1_ = Ok a ->
    exists ps, plot_linear_grids vint sign f FS a Which which = (ps, Ok tt) /\
      Forall2 (fun j p => picture zero sign o G1_ [j] A (join (path_vib_plots FS) (which ++ "_linear_grid_D" ++ dec (id_data FS) ++ "_N" ++ ordinal j ++ ".pdf"))
                            (titled (Which ++ " linear terms Grid (Mode " ++ ordinal j ++ ")") FS A N) p) (seq 0 N) ps.
  Proof.
    intros F MF Fr Mr I R Pa'. destruct (parameter_file A N f path o G1_ 1 F MF I eq_refl) as (l' & a' & R' & Pa & W & S & D & K). rewrite R in R'. inversion R'; subst l'.
    assert (a' = a) by congruence. subst a'. unfold plot_linear_grids. cbn [extract_dimensions]. rewrite (dims_ok vint Diagonal _ _ f _ orho Fr Mr). cbn [bind figs_of snd]. rewrite Nat2Z.id.
    apply collect. intros j Ij. apply in_seq in Ij. destruct (slice_ok a N [A; A] j W S) as (g & Eg & Sg & Wg & Kg); [lia|]. rewrite Eg. cbn [bind figs_of].
    replace (Z.of_nat j + 1)%Z with (Z.of_nat (Datatypes.S j)) by lia. apply single_picture; auto.
    - eapply dims_ok; eauto.
    - intros x y v X Y. rewrite Kg. apply (K [j; x; y]). rewrite S. repeat constructor; auto; lia.
  Qed.

  Lemma quadratic_grids f FS o orho A N Which which path l a : f path = Some (CJson o) -> model_file vint Coupled (Z.of_nat A) (Z.of_nat N) o ->
    f (path_rho_model FS) = Some (CJson orho) -> model_file vint Diagonal (Z.of_nat A) (Z.of_nat N) orho -> In "quadratic couplings" (map fst o) -> read_json f path = Ok l ->
    parameter v_of_int l G2_ = Ok a ->
    exists ps, plot_quadratic_grids vint sign f FS a Which which = (ps, Ok tt) /\
      Forall2 (fun j p => picture zero sign o G2_ [fst j; snd j] A
                            (join (path_vib_plots FS) (which ++ "_quadratic_grid_D" ++ dec (id_data FS) ++ "_N" ++ ordinal (fst j) ++ "_N" ++ ordinal (snd j) ++ ".pdf"))
                            (titled (Which ++ " quadratic terms Grid (Modes " ++ ordinal (fst j) ++ ordinal (snd j) ++ ")") FS A N) p)
              (list_prod (seq 0 N) (seq 0 N)) ps.
  Proof.
    intros F MF Fr Mr I R Pa'. destruct (parameter_file A N f path o G2_ 2 F MF I eq_refl) as (l' & a' & R' & Pa & W & S & D & K). rewrite R in R'. inversion R'; subst l'.
    assert (a' = a) by congruence. subst a'. unfold plot_quadratic_grids. cbn [extract_dimensions]. rewrite (dims_ok vint Diagonal _ _ f _ orho Fr Mr). cbn [bind figs_of snd]. cbv zeta. rewrite Nat2Z.id.
    apply collect. intros [j1 j2] Ij. apply in_prod_iff in Ij. rewrite !in_seq in Ij. cbn [fst snd].
    destruct (slice_ok a N [N; A; A] j1 W S) as (g1 & Eg1 & Sg1 & Wg1 & Kg1); [lia|]. rewrite Eg1. cbn [bind].
    destruct (slice_ok g1 N [A; A] j2 Wg1 Sg1) as (g & Eg & Sg & Wg & Kg); [lia|]. rewrite Eg. cbn [bind figs_of].
    replace (Z.of_nat j1 + 1)%Z with (Z.of_nat (Datatypes.S j1)) by lia. replace (Z.of_nat j2 + 1)%Z with (Z.of_nat (Datatypes.S j2)) by lia. apply single_picture; auto.
    - eapply dims_ok; eauto.
    - intros x y v X Y. rewrite Kg, Kg1. apply (K [j1; j2; x; y]). rewrite S. repeat constructor; auto; lia.
  Qed.
End Grid.

(** ---- names ---- *)
Lemma join_inj p a b : String.prefix "/" a = false -> String.prefix "/" b = false -> join p a = join p b -> a = b.
Proof.
  intros A B. unfold join. rewrite A, B. destruct (ends_with_slash p); intros E.
  - apply append_inj_l in E. auto.
  - apply append_inj_l in E. apply (append_inj_l "/") in E. auto.
Qed.
Lemma ordinal_inj i j : ordinal i = ordinal j -> i = j.
Proof. unfold ordinal. intros E. apply dec_inj in E. lia. Qed.
Lemma first_split x a a' b b' : lacks x a -> lacks x a' -> a ++ String x b = a' ++ String x b' -> a = a' /\ b = b'.
Proof.
  revert a'. induction a as [|c a IH]; intros [|c' a'] L L' E; cbn in E.
  - split; [auto|]. congruence.
  - exfalso. injection E as <- _. apply L'. left. auto.
  - exfalso. injection E as -> _. apply L. left. auto.
  - injection E as -> E. destruct (IH a') as [-> ->]; auto; intros Y; [apply L|apply L']; right; auto.
Qed.
