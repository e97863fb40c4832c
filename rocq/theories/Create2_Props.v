(** C09, C10, continued: what the array operations of the functions that create models do, for all shapes. *)
From Verif Require Import Common Common_Proofs Arr_Model Arr_Proofs ModelIO_Model ModelIO_Spec ModelIO_Proofs ModelIO2_Proofs SameModel_Model ModelIO_Props Create_Model Create_Spec Create_Proofs Create2_Proofs Create3_Proofs Create4_Proofs Create_Props Bcast_Proofs.
Local Open Scope nat_scope.

Section Ops.
  Context {V : Type}.
  Variables (zero one : V) (add mul : V -> V -> V) (opp : V -> V) (div : V -> V -> V).
  Variable isz : V -> bool.
  Variable vint : V -> res Z.
  Variable close : V -> V -> bool.
  Variable rnd : nat -> V -> V -> list nat -> V.
  Variable linspace : V -> V -> nat -> nat -> V.

  (** C09: an array of random numbers has the requested shape and one draw at every position; a negative length is rejected *)
  Theorem C09_draw call lo hi s :
    ((exists z, In z s /\ (z < 0)%Z) -> uniform rnd call lo hi s = Raise ValueError) /\
    ((forall z, In z s -> (0 <= z)%Z) -> exists a, uniform rnd call lo hi s = Ok a /\ map Z.of_nat (shape a) = s /\
       forall idx, inb (shape a) idx -> aget a idx = Some (rnd call lo hi idx)).
  Proof.
    unfold uniform. split.
    - intros (z & Z1 & Z2). destruct (forallb _ s) eqn:E; [|reflexivity]. rewrite forallb_forall in E. apply E in Z1. lia.
    - intros H. destruct (forallb _ s) eqn:E.
      + eexists. split; [reflexivity|]. cbn [shape abuild]. split.
        * rewrite map_map. rewrite <- (map_id s) at 2. apply map_ext_in. intros z Hz. specialize (H z Hz). lia.
        * intros idx Hi. apply aget_abuild. auto.
      + exfalso. assert (forallb (fun z => (0 <=? z)%Z) s = true); [|congruence]. apply forallb_forall. intros z Hz. apply Z.leb_le; auto.
  Qed.
  (** C09: the frequencies *)
  Theorem C09_points lo hi n :
    ((n < 0)%Z -> np_linspace linspace lo hi n = Raise ValueError) /\
    ((0 <= n)%Z -> exists a, np_linspace linspace lo hi n = Ok a /\ shape a = [Z.to_nat n] /\
      forall i, i < Z.to_nat n -> aget a [i] = Some (linspace lo hi (Z.to_nat n) i)).
  Proof.
    unfold np_linspace. split; intros H.
    - destruct (Z.leb_spec 0 n); [lia|reflexivity].
    - destruct (Z.leb_spec 0 n); [|lia]. eexists. split; [reflexivity|]. split; [reflexivity|]. intros i Hi. rewrite aget_abuild; [reflexivity|]. repeat constructor. auto.
  Qed.

  (** C09: a[pre, ...] = sub writes exactly that part *)
  Theorem C09_assign (a sub : arr V) pre : wf_arr a -> wf_arr sub ->
    (~ (exists s1 s2, shape a = s1 ++ s2 /\ inb s1 pre) -> set_sub zero a pre sub = Raise IndexError) /\
    (forall s1 s2, shape a = s1 ++ s2 -> inb s1 pre ->
      (shape sub <> s2 -> set_sub zero a pre sub = Raise ValueError) /\
      (shape sub = s2 -> exists r, set_sub zero a pre sub = Ok r /\ shape r = shape a /\ wf_arr r /\
         (forall idx, inb s2 idx -> aget r (pre ++ idx) = aget sub idx) /\
         (forall i idx, inb s1 i -> i <> pre -> aget r (i ++ idx) = aget a (i ++ idx)))).
  Proof.
    intros Wa Ws.
    assert (B : forall pre s, in_bounds pre s = true <-> exists s1 s2, s = s1 ++ s2 /\ inb s1 pre).
    { clear. induction pre as [|i pre IH]; intros s.
      - split; [intros _; exists [], s; split; [reflexivity|constructor]|reflexivity].
      - destruct s as [|n s]; cbn [in_bounds].
        + split; [discriminate|]. intros (s1 & s2 & E & H). inversion H; subst. discriminate.
        + rewrite andb_true_iff, Nat.ltb_lt, IH. split.
          * intros (H & s1 & s2 & -> & K). exists (n :: s1), s2. split; [reflexivity|]. constructor; auto.
          * intros (s1 & s2 & E & H). inversion H as [|? ? ? ? H1 H2]; subst. injection E as <- ->. eauto. }
    assert (SK : forall (l m : list nat), skipn (length l) (l ++ m) = m) by (clear; induction l; cbn; auto).
    assert (FN : forall (l m : list nat), firstn (length l) (l ++ m) = l) by (clear; induction l; cbn; intros; f_equal; auto).
    assert (LE : forall x y, list_eqb x y = true <-> x = y).
    { clear. induction x as [|p x IH]; destruct y; cbn; split; intros; try discriminate; auto.
      - apply andb_true_iff in H. destruct H as [H1 H2]. apply Nat.eqb_eq in H1. apply IH in H2. congruence.
      - injection H as -> ->. rewrite Nat.eqb_refl. apply IH. reflexivity. }
    unfold set_sub. split.
    - intros N. destruct (in_bounds pre (shape a)) eqn:E; [|reflexivity]. exfalso. apply N, B, E.
    - intros s1 s2 S P. rewrite (proj2 (B pre (shape a))) by eauto. rewrite S.
      assert (L : length pre = length s1) by (apply inb_len; auto). rewrite L, SK. split.
      + intros N. destruct (list_eqb s2 (shape sub)) eqn:E; [|reflexivity]. apply LE in E. congruence.
      + intros <-. rewrite (proj2 (LE _ _) eq_refl). eexists. split; [reflexivity|]. split; [reflexivity|]. split; [apply wf_abuild|].
        assert (I : forall i idx, inb s1 i -> inb (shape sub) idx -> inb (s1 ++ shape sub) (i ++ idx)) by (intros; apply Forall2_app; auto).
        split.
        * intros idx Hi. rewrite aget_abuild by (apply I; auto). rewrite <- L, FN, (proj2 (LE _ _) eq_refl), SK. unfold getd.
          destruct (aget_some sub idx Ws Hi) as [x ->]. reflexivity.
        * intros i idx Hi Ne. destruct (inb_dec (shape a) (i ++ idx)) as [K|K].
          -- rewrite S in K. rewrite aget_abuild by auto. rewrite <- (inb_len _ _ Hi), FN.
             destruct (list_eqb i pre) eqn:E; [apply LE in E; congruence|]. unfold getd. rewrite <- S in K. destruct (aget_some a _ Wa K) as [x ->]. reflexivity.
          -- rewrite !aget_none; auto. cbn [shape abuild]. rewrite <- S. auto.
  Qed.

  (** C09: the sum of two arrays, and the diagonal of a matrix *)
  Theorem C09_add_diag (a b : arr V) : wf_arr a -> wf_arr b ->
    (shape a <> shape b -> add_arr zero add a b = Raise ValueError) /\
    (shape a = shape b -> exists c, add_arr zero add a b = Ok c /\ shape c = shape a /\
       forall idx x y, aget a idx = Some x -> aget b idx = Some y -> aget c idx = Some (add x y)) /\
    (forall n m, shape a = [n; m] -> shape (diag zero a) = [Nat.min n m] /\
       forall i, i < n -> i < m -> aget (diag zero a) [i] = aget a [i; i]).
  Proof.
    intros Wa Wb.
    assert (LE : forall x y, list_eqb x y = true <-> x = y).
    { clear. induction x as [|p x IH]; destruct y; cbn; split; intros; try discriminate; auto.
      - apply andb_true_iff in H. destruct H as [H1 H2]. apply Nat.eqb_eq in H1. apply IH in H2. congruence.
      - injection H as -> ->. rewrite Nat.eqb_refl. apply IH. reflexivity. }
    unfold add_arr. split; [|split].
    - intros N. destruct (list_eqb _ _) eqn:E; [|reflexivity]. apply LE in E. congruence.
    - intros S. rewrite (proj2 (LE _ _) S). eexists. split; [reflexivity|]. split; [reflexivity|]. intros idx x y X Y.
      rewrite aget_abuild by (eapply aget_inb; eauto). unfold getd. rewrite X, Y. reflexivity.
    - intros n m S. unfold diag. rewrite S. split; [reflexivity|]. intros i Hn Hm. rewrite aget_abuild by (repeat constructor; cbn; lia).
      cbn [nth]. unfold getd. destruct (aget_some a [i; i] Wa) as [x ->]; [rewrite S; repeat constructor; auto|reflexivity].
  Qed.

  (** C10: products of matrices whose sizes do not fit, and of arrays that are no matrices, are rejected *)
  Theorem C10_product (a b : arr V) :
    ((forall n m p, shape a = [n; m] -> shape b <> [m; p]) -> dot zero add mul a b = Raise ValueError) /\
    (forall n m p, shape a = [n; m] -> shape b = [m; p] -> wf_arr a -> wf_arr b -> exists c, dot zero add mul a b = Ok c /\ shape c = [n; p] /\
       forall i j, i < n -> j < p -> exists X Y, (forall k, k < m -> aget a [i; k] = Some (X k) /\ aget b [k; j] = Some (Y k)) /\
         aget c [i; j] = Some (fold_right add zero (map (fun k => mul (X k) (Y k)) (seq 0 m)))).
  Proof.
    unfold dot. split.
    - intros H. destruct (shape a) as [|n [|m [|? ?]]] eqn:A; try reflexivity. destruct (shape b) as [|m' [|p [|? ?]]] eqn:B; try reflexivity.
      destruct (Nat.eqb_spec m m') as [<-|]; [|reflexivity]. exfalso. eapply H; reflexivity.
    - intros n m p A B Wa Wb. rewrite A, B, Nat.eqb_refl. eexists. split; [reflexivity|]. split; [reflexivity|]. intros i j Hi Hj.
      exists (fun k => getd zero a [i; k]), (fun k => getd zero b [k; j]). split.
      + intros k Hk. unfold getd. destruct (aget_some a [i; k] Wa) as [x ->]; [rewrite A; repeat constructor; auto|].
        destruct (aget_some b [k; j] Wb) as [y ->]; [rewrite B; repeat constructor; auto|]. auto.
      + rewrite aget_abuild by (repeat constructor; auto). reflexivity.
  Qed.

  (** C10: the comparison of two arrays of any shapes, np.allclose *)
  Theorem C10_compare (a b : arr V) : wf_arr a -> wf_arr b ->
    (np_allclose close a b = Raise ValueError <-> ~ compatible (shape a) (shape b)) /\
    (compatible (shape a) (shape b) -> exists c, np_allclose close a b = Ok c /\
       (c = true <-> forall i j x y, aget a i = Some x -> aget b j = Some y -> aligned (shape a) (shape b) i j -> close x y = true)).
  Proof.
    intros Wa Wb. unfold np_allclose. destruct (bshape_spec (shape a) (shape b)) as [S1 S2].
    destruct (bshape (shape a) (shape b)) as [r|] eqn:E.
    - destruct (S2 r eq_refl) as [C _]. split; [split; [discriminate|intros H; exfalso; auto]|]. intros _. eexists. split; [reflexivity|].
      apply (compare_all close a b r Wa Wb E).
    - assert (N : ~ compatible (shape a) (shape b)) by (apply S1; reflexivity). split; [tauto|]. intros C. exfalso. auto.
  Qed.

  (** C10: np.einsum rejects operands in which one label would have two lengths, or with a wrong number of axes *)
  Theorem C10_einsum_rejects (spec out : string) (a : arr V) :
    (length (list_ascii_of_string spec) <> length (shape a) \/
     exists i j l n m, nth_error (list_ascii_of_string spec) i = Some l /\ nth_error (list_ascii_of_string spec) j = Some l /\
       nth_error (shape a) i = Some n /\ nth_error (shape a) j = Some m /\ n <> m) ->
    einsum zero one add mul [spec] out [a] = Raise ValueError.
  Proof.
    intros H. unfold einsum. cbn [combine for_res fst snd].
    assert (K : forall ls s env r, bind_labels ls s env = r -> match r with
        | Ok e => length ls = length s /\ (forall i l n, nth_error ls i = Some l -> nth_error s i = Some n -> dget Ascii.eqb e l = Some n) /\
                  (forall l n, dget Ascii.eqb env l = Some n -> dget Ascii.eqb e l = Some n)
        | Raise x => x = ValueError end).
    { clear. assert (AE : forall a b : ascii, Ascii.eqb a b = true <-> a = b) by (intros; apply Ascii.eqb_eq).
      induction ls as [|l ls IH]; intros [|n s] env r <-; cbn [bind_labels]; auto.
      - split; auto. split; auto. intros [|] ? ? E; discriminate E.
      - destruct (dget Ascii.eqb env l) as [n'|] eqn:D.
        + destruct (Nat.eqb_spec n n') as [<-|]; [|reflexivity]. specialize (IH s env _ eq_refl). destruct (bind_labels ls s env); auto.
          destruct IH as (I1 & I2 & I3). split; [cbn; congruence|]. split; auto. intros [|i] l0 n0; cbn; [intros [= <-] [= <-]; auto|apply I2].
        + specialize (IH s (dset Ascii.eqb env l n) _ eq_refl). destruct (bind_labels ls s (dset Ascii.eqb env l n)); auto.
          destruct IH as (I1 & I2 & I3). split; [cbn; congruence|]. split.
          * intros [|i] l0 n0; cbn; [intros [= <-] [= <-]|apply I2]. apply I3. apply dget_dset_same; auto.
          * intros l0 n0 E. apply I3. rewrite dget_dset_other; auto. congruence. }
    specialize (K (list_ascii_of_string spec) (shape a) [] _ eq_refl).
    destruct (bind_labels (list_ascii_of_string spec) (shape a) []) as [e|x].
    - exfalso. destruct K as (K1 & K2 & _). destruct H as [H|(i & j & l & n & m & A1 & A2 & A3 & A4 & A5)]; [auto|].
      pose proof (K2 _ _ _ A1 A3). pose proof (K2 _ _ _ A2 A4). congruence.
    - subst x. reflexivity.
  Qed.

  (** C10: re-using a matrix that was never stored fails and nothing is written *)
  Theorem C10_reuse_missing gen f vib orig ortho A N d :
    model_in zero vint f vib A N d -> f ortho = None ->
    create_fake zero one add mul isz vint close gen f vib orig ortho (MStr "re-use") = (f, Raise OSError) /\
    fst (create_fake_trace zero one add mul isz vint close gen f vib orig ortho (MStr "re-use")) = [].
  Proof.
    intros (HND & HL & Va) O. unfold create_fake, create_fake_trace, prepare_fake.
    assert (E : exists c, f vib = Some c).
    { unfold load_new, load_raw, read_json in HL. destruct (f vib) as [c|]; [eauto|discriminate]. }
    destruct E as [c ->]. cbn [passert bind]. rewrite HL. cbn [bind].
    destruct (load_new_inv _ _ _ _ _ _ HND HL) as (D & _).
    rewrite (proj2 (extract_dims_spec vint _ _ _ (proj1 D)) (proj1 Va)). cbn [bind fst snd]. unfold obtain_matrix, np_load. cbn [String.eqb Ascii.eqb eqb]. rewrite O. split; reflexivity.
  Qed.

  (** C10: with a usable matrix an asymmetric model fails the assertions *)
  Theorem C10_asymmetric_assertion gen f vib orig ortho d A N Ua : model_in zero vint f vib A N d -> gen (Z.of_nat A) = Ok Ua ->
    ~ surface_close close d \/ ~ mode_close close d ->
    create_fake zero one add mul isz vint close gen f vib orig ortho MNone = (f, Raise AssertionError) /\
    fst (create_fake_trace zero one add mul isz vint close gen f vib orig ortho MNone) = [].
  Proof.
    intros (HND & HL & Va) G Hb. destruct (load_new_inv _ _ _ _ _ _ HND HL) as (D & K & S & _).
    enough (prepare_fake zero one add mul vint close gen f vib ortho MNone = Raise AssertionError) as He
      by (unfold create_fake, create_fake_trace; rewrite He; split; reflexivity).
    unfold prepare_fake.
    assert (E : exists c, f vib = Some c).
    { unfold load_new, load_raw, read_json in HL. destruct (f vib) as [c|]; [eauto|discriminate]. }
    destruct E as [c ->]. cbn [passert bind]. rewrite HL. cbn [bind].
    rewrite (proj2 (extract_dims_spec vint _ _ _ (proj1 D)) (proj1 Va)). cbn [bind fst snd]. unfold obtain_matrix. rewrite G. cbn [bind].
    destruct (surfaces_iff zero isz vint close A N d D Va K) as (c1 & -> & H1). cbn [bind].
    destruct (modes_iff zero vint close A N d D Va) as (c2 & E2 & H2).
    destruct c1; [|reflexivity]. cbn [passert bind]. rewrite E2. cbn [bind].
    destruct c2; [|reflexivity]. exfalso. destruct Hb as [Hx|Hx]; apply Hx; [apply H1|apply H2]; auto.
  Qed.

  (** C09: whatever the comparison of numbers accepts (NaN, for example, is close to nothing), a coupled model that
      is returned has passed both symmetry checks; one that does not pass them is never returned *)
  Hypothesis add_zero_r : forall x, add x zero = x.
  Hypothesis add_zero_l : forall x, add zero x = x.
  Theorem C09_checked p A N : g_diagonal p = false -> g_states p = Z.of_nat A -> g_modes p = Z.of_nat N ->
    (exists d, generate_model zero add opp div vint close rnd linspace p = Ok d /\ surface_close close d /\ mode_close close d) \/
    (generate_model zero add opp div vint close rnd linspace p = Raise AssertionError /\
     exists d, generate_model zero add opp div vint (fun _ _ => true) rnd linspace p = Ok d /\ ~ (surface_close close d /\ mode_close close d)).
  Proof.
    intros HD HA HN.
    destruct (generated_coupled zero add opp div isz vint (fun _ _ => true) rnd linspace add_zero_r add_zero_l (fun _ => eq_refl) p A N HD HA HN)
      as (d & E & D & K & _ & Va & _).
    change (generate_model zero add opp div vint (fun _ _ => true) rnd linspace p = Ok d) in E.
    assert (R : generate_model zero add opp div vint close rnd linspace p =
      (do b <- symmetric_in_surfaces zero vint close d; do _ <- passert b; do b <- symmetric_in_modes zero vint close d; do _ <- passert b; Ok d)).
    { unfold generate_model in E |- *. cbv zeta in E |- *. rewrite HD in E |- *.
      repeat match type of E with (do _ <- ?x; _) = _ =>
        lazymatch x with symmetric_in_surfaces _ _ _ _ => fail | _ => destruct x; cbn [bind] in E |- *; [|discriminate E] end end.
      match type of E with (do _ <- symmetric_in_surfaces _ _ _ ?m; _) = _ => set (mm := m) in * end.
      assert (mm = d) as ->; [|reflexivity].
      destruct (symmetric_in_surfaces zero vint (fun _ _ => true) mm) as [[]|]; cbn in E; try discriminate.
      destruct (symmetric_in_modes zero vint (fun _ _ => true) mm) as [[]|]; cbn in E; try discriminate. congruence. }
    rewrite R. destruct (surfaces_iff zero isz vint close A N d D Va K) as (c1 & -> & H1). cbn [bind].
    destruct c1; cbn [passert bind]; [|right; split; [reflexivity|]; exists d; split; auto; intros [X _]; apply H1 in X; discriminate].
    destruct (modes_iff zero vint close A N d D Va) as (c2 & -> & H2). cbn [bind].
    destruct c2; cbn [passert bind]; [|right; split; [reflexivity|]; exists d; split; auto; intros [_ X]; apply H2 in X; discriminate].
    left. exists d. split; [reflexivity|]. split; [apply H1|apply H2]; reflexivity.
  Qed.
End Ops.
Print Assumptions C09_draw.
Print Assumptions C09_points.
Print Assumptions C09_assign.
Print Assumptions C09_add_diag.
Print Assumptions C10_product.
Print Assumptions C10_compare.
Print Assumptions C10_einsum_rejects.
Print Assumptions C10_reuse_missing.
Print Assumptions C10_asymmetric_assertion.
Print Assumptions C09_checked.

Example C09_ops_example :
  (do a <- set_sub 0%Z (mkArr [2; 2] [1; 2; 3; 4]%Z) [1] (mkArr [2] [8; 9]%Z); Ok (data a)) = Ok [1; 2; 8; 9]%Z /\
  set_sub 0%Z (mkArr [2; 2] [1; 2; 3; 4]%Z) [2] (mkArr [2] [8; 9]%Z) = Raise IndexError /\
  set_sub 0%Z (mkArr [2; 2] [1; 2; 3; 4]%Z) [1] (mkArr [3] [8; 9; 9]%Z) = Raise ValueError /\
  data (diag 0%Z (mkArr [2; 3] [1; 2; 3; 4; 5; 6]%Z)) = [1; 5]%Z /\
  (do a <- dot 0%Z Z.add Z.mul (mkArr [1; 2] [2; 3]%Z) (mkArr [2; 1] [5; 7]%Z); Ok (data a)) = Ok [31]%Z /\
  dot 0%Z Z.add Z.mul (mkArr [1; 2] [2; 3]%Z) (mkArr [1; 2] [5; 7]%Z) = Raise ValueError /\
  np_allclose Z.eqb (mkArr [2; 1] [5; 5]%Z) (mkArr [2] [5; 5]%Z) = Ok true /\
  einsum 0%Z 1%Z Z.add Z.mul ["ii"] "" [mkArr [2; 3] [1; 2; 3; 4; 5; 6]%Z] = Raise ValueError /\
  uniform (fun _ _ _ _ => 0%Z) 0 0%Z 1%Z [2; -1]%Z = Raise ValueError.
Proof. repeat split; vm_compute; reflexivity. Qed.
(** C10: a model without a stored matrix, and one that is not symmetric *)
Example C10_refused_example :
  let other := fs_write no_files "v" (z_file 3 [[1; 0; 0]; [0; 2; 5]; [0; 6; 3]]%Z) in
  (model_in 0%Z z_int z_start "v" 3 1 (z_model z_E) /\ z_start "u" = None) /\
  (is_matrix 3 (afull [3; 3] 1%Z) (mat (afull [3; 3] 1%Z)) /\ Z.eqb 3 1 = false) /\
  (model_in 0%Z z_int other "v" 3 1 (z_model (mkArr [3; 3] [1; 0; 0; 0; 2; 5; 0; 6; 3]%Z)) /\ ~ surface_close Z.eqb (z_model (mkArr [3; 3] [1; 0; 0; 0; 2; 5; 0; 6; 3]%Z))).
Proof.
  split; [split; [apply (z_model_in z_start [[1; 0; 0]; [0; 2; 5]; [0; 5; 3]]%Z); auto|reflexivity]|]. split; [split; [|reflexivity]|split].
  - split; [reflexivity|]. split; [reflexivity|]. intros i j Hi Hj. three; reflexivity.
  - apply (z_model_in _ [[1; 0; 0]; [0; 2; 5]; [0; 6; 3]]%Z); auto.
  - intros K. specialize (K E_ (mkArr [3; 3] [1; 0; 0; 0; 2; 5; 0; 6; 3]%Z) [] 1 2 5%Z 6%Z). discriminate K; [cbn; auto|unfold has, z_model; cbn [In]; auto|reflexivity|reflexivity].
Qed.
