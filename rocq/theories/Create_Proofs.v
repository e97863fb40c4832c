(** Proofs about Create_Model.v: the orthogonal transformation. *)
From Coq Require Import Ring_theory Ring.
From Verif Require Import Common Common_Proofs Arr_Model Arr_Proofs ModelIO_Model ModelIO_Spec ModelIO_Proofs ModelIO2_Proofs SameModel_Model SameModel_Proofs Create_Model Create_Spec.
Local Open Scope nat_scope.

Lemma inb_split s1 s2 i1 i2 : length i1 = length s1 -> (inb (s1 ++ s2) (i1 ++ i2) <-> inb s1 i1 /\ inb s2 i2).
Proof.
  unfold inb. revert i1; induction s1; destruct i1; simpl; intros HL; try discriminate.
  - split; [intros; split; auto; constructor|tauto].
  - inv HL. split.
    + intros H. inv H. apply IHs1 in H6; auto. destruct H6. split; auto.
    + intros [H1 H2]. inv H1. constructor; auto. apply IHs1; auto.
Qed.

Lemma map_repeat_ {X Y} (f : X -> Y) x n : map f (repeat x n) = repeat (f x) n.
Proof. induction n; simpl; congruence. Qed.

Section Create.
  Context {V : Type}.
  Variables (zero one : V) (add mul sub : V -> V -> V) (opp : V -> V).
  Variable isz : V -> bool.
  Variable vint : V -> res Z.
  Variable close : V -> V -> bool.
  Hypothesis RT : ring_theory zero one add mul sub opp eq.
  Hypothesis close_refl : forall x, close x x = true.
  Add Ring Vring : RT.
  Notation bsum := (bsum zero add).
  Notation getd := (getd zero).
  Notation vsum := (vsum zero add).
  Notation conjugate := (conjugate zero add mul).

  (** ** Sums *)
  Lemma vsum_app l l' : vsum (l ++ l') = add (vsum l) (vsum l').
  Proof. induction l; simpl; [ring|]. rewrite IHl. ring. Qed.
  Lemma vsum_seq n f : vsum (map f (seq 0 n)) = bsum n f.
  Proof. induction n; [reflexivity|]. rewrite seq_S, map_app, vsum_app, IHn. simpl. ring. Qed.
  Lemma vsum_flat {X} (f : X -> V) (g : nat -> list X) n : vsum (map f (flat_map g (seq 0 n))) = bsum n (fun i => vsum (map f (g i))).
  Proof.
    rewrite <- (vsum_seq n). induction (seq 0 n); simpl; auto. rewrite map_app, vsum_app, IHl. auto.
  Qed.
  Lemma bsum_ext n f g : (forall i, i < n -> f i = g i) -> bsum n f = bsum n g.
  Proof. induction n; intros H; simpl; auto. rewrite IHn, H; auto. Qed.
  Lemma vsum_indices2 n m f : vsum (map f (indices [n; m])) = bsum n (fun i => bsum m (fun j => f [i; j])).
  Proof.
    cbn [indices]. rewrite vsum_flat. apply bsum_ext. intros i _. rewrite map_map, vsum_flat. apply bsum_ext. intros j _. simpl. ring.
  Qed.
  Lemma bsum_zero n : bsum n (fun _ => zero) = zero.
  Proof. induction n; simpl; auto. rewrite IHn. ring. Qed.
  Lemma bsum_add n f g : bsum n (fun i => add (f i) (g i)) = add (bsum n f) (bsum n g).
  Proof. induction n; simpl; [ring|]. rewrite IHn. ring. Qed.
  Lemma bsum_scale n c f : bsum n (fun i => mul c (f i)) = mul c (bsum n f).
  Proof. induction n; simpl; [ring|]. rewrite IHn. ring. Qed.
  Lemma bsum_scale_r n c f : bsum n (fun i => mul (f i) c) = mul (bsum n f) c.
  Proof. induction n; simpl; [ring|]. rewrite IHn. ring. Qed.
  Lemma bsum_swap n m f : bsum n (fun i => bsum m (fun j => f i j)) = bsum m (fun j => bsum n (fun i => f i j)).
  Proof.
    induction n; simpl. { symmetry. apply bsum_zero. }
    rewrite IHn. rewrite <- bsum_add. auto.
  Qed.
  Lemma bsum_delta n i f : i < n -> bsum n (fun k => mul (delta zero one i k) (f k)) = f i.
  Proof.
    induction n; intros H; [lia|]. simpl. destruct (Nat.eq_dec i n) as [->|Hn].
    - rewrite (bsum_ext n _ (fun _ => zero)).
      + rewrite bsum_zero. unfold delta. rewrite Nat.eqb_refl. ring.
      + intros k Hk. unfold delta. destruct (Nat.eqb_spec n k); [lia|]. ring.
    - rewrite IHn by lia. unfold delta. destruct (Nat.eqb_spec i n); [lia|]. ring.
  Qed.

  (** ** Algebra of U X U^T *)
  Lemma conj_eq n U X b c : conjugate n U X b c = bsum n (fun j => mul (U b j) (bsum n (fun k => mul (X j k) (U c k)))).
  Proof.
    unfold Create_Spec.conjugate. apply bsum_ext. intros j _. rewrite <- bsum_scale. apply bsum_ext. intros k _. ring.
  Qed.
  Lemma conj_ext n U X Y b c : (forall j k, j < n -> k < n -> X j k = Y j k) -> conjugate n U X b c = conjugate n U Y b c.
  Proof. intros H. unfold Create_Spec.conjugate. apply bsum_ext. intros j Hj. apply bsum_ext. intros k Hk. rewrite H; auto. Qed.
  Lemma conj_zero n U b c : conjugate n U (fun _ _ => zero) b c = zero.
  Proof.
    unfold Create_Spec.conjugate. rewrite (bsum_ext n _ (fun _ => zero)); [apply bsum_zero|]. intros j _.
    rewrite (bsum_ext n _ (fun _ => zero)); [apply bsum_zero|]. intros k _. ring.
  Qed.
  Theorem conj_symmetric n U X b c : (forall j k, j < n -> k < n -> X j k = X k j) -> conjugate n U X b c = conjugate n U X c b.
  Proof.
    intros H. unfold Create_Spec.conjugate. rewrite bsum_swap. apply bsum_ext. intros j Hj. apply bsum_ext. intros k Hk. rewrite (H k j) by auto. ring.
  Qed.
  Theorem conj_trace n U X : row_orthonormal zero one add mul n (mtr U) ->
    bsum n (fun b => conjugate n U X b b) = bsum n (fun b => X b b).
  Proof.
    intros H. unfold Create_Spec.conjugate. rewrite bsum_swap. apply bsum_ext. intros j Hj. rewrite bsum_swap.
    rewrite <- (bsum_delta n j (fun k => X j k)) by auto. apply bsum_ext. intros k Hk.
    rewrite <- H by auto. unfold mtr. rewrite <- bsum_scale_r. apply bsum_ext. intros b _. ring.
  Qed.
  Theorem conj_back n U X b c : row_orthonormal zero one add mul n (mtr U) -> b < n -> c < n ->
    conjugate n (mtr U) (conjugate n U X) b c = X b c.
  Proof.
    intros H Hb Hc. rewrite conj_eq. unfold mtr at 1.
    rewrite (bsum_ext n _ (fun j => mul (U j b) (bsum n (fun p => mul (U j p) (X p c))))).
    - rewrite (bsum_ext n _ (fun j => bsum n (fun p => mul (mul (U j b) (U j p)) (X p c)))).
      + rewrite bsum_swap. rewrite <- (bsum_delta n b (fun p => X p c)) by auto. apply bsum_ext. intros p Hp.
        rewrite bsum_scale_r. f_equal. apply H; auto.
      + intros j Hj. rewrite <- bsum_scale. apply bsum_ext. intros p Hp. ring.
    - intros j Hj. f_equal.
      rewrite (bsum_ext n _ (fun k => bsum n (fun p => mul (mul (U j p) (bsum n (fun q => mul (X p q) (U k q)))) (U k c)))).
      + rewrite bsum_swap. apply bsum_ext. intros p Hp.
        rewrite (bsum_ext n _ (fun k => mul (U j p) (bsum n (fun q => mul (mul (U k c) (U k q)) (X p q))))).
        * rewrite bsum_scale. f_equal. rewrite bsum_swap. rewrite <- (bsum_delta n c (fun q => X p q)) by auto. apply bsum_ext. intros q Hq.
          rewrite bsum_scale_r. f_equal. apply H; auto.
        * intros k Hk. rewrite <- bsum_scale_r || idtac. replace (mul (mul (U j p) (bsum n (fun q => mul (X p q) (U k q)))) (U k c)) with (mul (U j p) (mul (U k c) (bsum n (fun q => mul (X p q) (U k q))))) by ring.
          f_equal. rewrite <- bsum_scale. apply bsum_ext. intros q _. ring.
      + intros k Hk. unfold mtr. rewrite bsum_scale_r || idtac. rewrite conj_eq. rewrite <- bsum_scale_r. auto.
  Qed.
  Theorem conj_identity n X b c : b < n -> c < n -> conjugate n (delta zero one) X b c = X b c.
  Proof.
    intros Hb Hc. rewrite conj_eq. rewrite bsum_delta by auto. rewrite <- (bsum_delta n c (fun k => X b k)) by auto. apply bsum_ext. intros. ring.
  Qed.

  (** ** Arrays *)
  Lemma getd_abuild s f idx : inb s idx -> getd (abuild s f) idx = f idx.
  Proof. intros H. unfold Create_Model.getd. rewrite aget_abuild; auto. Qed.
  Lemma aget_getd a idx : wf_arr a -> inb (shape a) idx -> aget a idx = Some (getd a idx).
  Proof. intros W H. unfold Create_Model.getd. destruct (aget_some a idx W H) as [v ->]. auto. Qed.
  Lemma allclose_eq a b : shape b = shape a -> wf_arr a -> wf_arr b -> (forall idx, inb (shape a) idx -> aget a idx = aget b idx) -> np_allclose close a b = Ok true.
  Proof.
    intros Hs Wa Wb H. unfold np_allclose. rewrite Hs, bshape_same. f_equal. apply forallb_forall. intros idx Hi. apply indices_in in Hi.
    rewrite !bget_same by congruence. rewrite <- H by auto. destruct (aget_some a idx Wa Hi) as [v ->]. auto.
  Qed.

  Ltac inbs := repeat match goal with
    | H : inb (_ :: _) _ |- _ => inversion H; subst; clear H
    | H : Forall2 lt _ (_ :: _) |- _ => inversion H; subst; clear H
    | H : inb [] _ |- _ => inversion H; subst; clear H
    | H : Forall2 lt _ [] |- _ => inversion H; subst; clear H
    end.
  Ltac inb_solve := unfold inb; repeat (constructor; auto).

  (** the shape of a surface array *)
  Definition rotated (A : nat) (U : nat -> nat -> V) (a a' : arr V) : Prop :=
    shape a' = shape a /\ wf_arr a' /\
    forall pre b c, inb (shape a) (pre ++ [b; c]) -> getd a' (pre ++ [b; c]) = conjugate A U (fun j k => getd a (pre ++ [j; k])) b c.

  Lemma rotate_ok A U M m n s a : mode_axes m = Some n -> In m surface_params -> length s = n -> is_matrix A U M -> shape a = s ++ [A; A] ->
    exists a', rotate zero one add mul U m a = Ok a' /\ rotated A M a a'.
  Proof.
    intros Hn Hm Hl (HU & WU & EU) Ha.
    assert (GU : forall i j, i < A -> j < A -> getd U [i; j] = M i j) by (intros; unfold Create_Model.getd; rewrite EU; auto).
    assert (G : forall (T : list nat), T = s ++ [A; A] -> forall f, (forall pre b c, inb T (pre ++ [b; c]) -> f (pre ++ [b; c]) =
        vsum (map (fun sidx => vprod one mul [getd U [b; nth 0 sidx 0]; getd a (pre ++ sidx); getd U [c; nth 1 sidx 0]]) (indices [A; A]))) ->
        rotated A M a (abuild T f)).
    { intros T -> f Hf. split; [simpl; auto|]. split; [apply wf_abuild|]. intros pre b c Hi. rewrite Ha in Hi. rewrite getd_abuild by auto. rewrite Hf by auto.
      rewrite vsum_indices2. unfold Create_Spec.conjugate. 
      assert (b < A /\ c < A) as [Hb Hc].
      { assert (length (pre ++ [b; c]) = length (s ++ [A; A])) as L by (apply (Forall2_length lt); auto). rewrite !app_length in L. simpl in L.
        apply (inb_split s [A; A] pre [b; c]) in Hi; [|lia]. destruct Hi as [_ Hi]. inbs. auto. }
      apply bsum_ext. intros j Hj. apply bsum_ext. intros k Hk. cbn [nth vprod fold_right]. unfold vprod. simpl. rewrite !GU by auto. ring. }
    destruct m; cbn in Hn; try discriminate; injection Hn as <-; try (exfalso; cbn in Hm; intuition discriminate);
      repeat (destruct s as [|? s]; try discriminate Hl); simpl in Ha;
      cbn [rotate]; unfold einsum; cbn [combine]; cbn [for_res fst snd list_ascii_of_string]; rewrite HU, Ha;
      cbn [bind_labels dget dset Ascii.eqb Bool.eqb]; rewrite ?Nat.eqb_refl; cbn [bind_labels dget dset Ascii.eqb Bool.eqb]; rewrite ?Nat.eqb_refl;
      cbn [bind map fst filter existsb Ascii.eqb Bool.eqb orb negb]; unfold lookup at 1 2; cbn [dget Ascii.eqb Bool.eqb]; eexists; (split; [reflexivity|]).
    all: apply G; [reflexivity|]; intros pre b c Hi;
      pose proof (Forall2_length lt _ _ Hi) as Lp; rewrite app_length in Lp; simpl in Lp;
      repeat (destruct pre as [|? pre]; simpl in Lp; try lia); try (exfalso; lia);
      f_equal; apply map_ext_in; intros sidx Hs; apply indices_in in Hs; inbs; reflexivity.
  Qed.

  (** ** Matrices *)
  Lemma matrix_get n a X i j : is_matrix n a X -> i < n -> j < n -> getd a [i; j] = X i j.
  Proof. intros (_ & _ & H) Hi Hj. unfold Create_Model.getd. rewrite H; auto. Qed.
  Lemma matrix_build n (f : list nat -> V) : is_matrix n (abuild [n; n] f) (fun i j => f [i; j]).
  Proof. split; [reflexivity|]. split; [apply wf_abuild|]. intros. rewrite aget_abuild; auto. inb_solve. Qed.
  Lemma dot_ok n a b X Y : is_matrix n a X -> is_matrix n b Y ->
    exists r, dot zero add mul a b = Ok r /\ is_matrix n r (fun i j => bsum n (fun k => mul (X i k) (Y k j))).
  Proof.
    intros Ha Hb. unfold dot. rewrite (proj1 Ha), (proj1 Hb), Nat.eqb_refl. eexists. split; [reflexivity|].
    split; [reflexivity|]. split; [apply wf_abuild|]. intros i j Hi Hj. rewrite aget_abuild by inb_solve. cbn [nth].
    rewrite vsum_seq. f_equal. apply bsum_ext. intros k Hk. rewrite (matrix_get n a X), (matrix_get n b Y) by auto. auto.
  Qed.
  Lemma transpose_ok n a X : is_matrix n a X -> is_matrix n (transpose zero [1; 0] a) (mtr X).
  Proof.
    intros Ha. unfold transpose. rewrite (proj1 Ha). cbn [map nth]. split; [reflexivity|]. split; [apply wf_abuild|].
    intros i j Hi Hj. rewrite aget_abuild by inb_solve. cbn. rewrite (matrix_get n a X) by auto. auto.
  Qed.
  Lemma get_sub_ok A s a pre : shape a = s ++ [A; A] -> wf_arr a -> inb s pre ->
    is_matrix A (get_sub zero a pre) (fun j k => getd a (pre ++ [j; k])).
  Proof.
    intros Ha Wa Hp. unfold get_sub. rewrite (Forall2_length lt _ _ Hp), Ha, skipn_app, skipn_all, Nat.sub_diag. cbn [skipn app].
    split; [reflexivity|]. split; [apply wf_abuild|]. intros i j Hi Hj. rewrite aget_abuild by inb_solve. auto.
  Qed.
  Lemma matrix_close n a b X Y : is_matrix n a X -> is_matrix n b Y -> (forall i j, i < n -> j < n -> X i j = Y i j) -> np_allclose close a b = Ok true.
  Proof.
    intros (Sa & Wa & Ea) (Sb & Wb & Eb) H. apply allclose_eq; auto; [congruence|]. intros idx Hi. rewrite Sa in Hi. inbs.
    rewrite Ea, Eb, H by auto. auto.
  Qed.
  Lemma eye_ok n : eye zero one (Z.of_nat n) = Ok (abuild [n; n] (fun idx => if nth 0 idx 0 =? nth 1 idx 0 then one else zero)).
  Proof. unfold eye. rewrite (proj2 (Z.leb_le 0 (Z.of_nat n))) by lia. rewrite Nat2Z.id. auto. Qed.

  Lemma obtain_given gen f ortho n a M : is_matrix n a M -> row_orthonormal zero one add mul n M ->
    obtain_matrix zero one add mul close gen f ortho (Z.of_nat n) (MArr a) = Ok a.
  Proof.
    intros Ha Ho. cbn [obtain_matrix]. destruct (dot_ok n a (transpose zero [1; 0] a) M (mtr M)) as (r & -> & Hr); auto using transpose_ok.
    cbn [bind]. rewrite eye_ok. cbn [bind]. rewrite (matrix_close n r _ _ _ Hr (matrix_build n _)).
    - reflexivity.
    - intros i j Hi Hj. cbn [nth]. apply Ho; auto.
  Qed.

  (** ** One entry *)
  Definition marr_ok (A N : nat) (m : vmk) (a : arr V) : Prop := exists n, mode_axes m = Some n /\ shape a = repeat N n ++ [A; A] /\ wf_arr a.

  Lemma rotate_entry_ok A N U M d m a : is_matrix A U M -> In m surface_params -> mget d (KV m) = Some (PArr a) -> marr_ok A N m a ->
    exists a', rotate_entry zero one add mul close U (Z.of_nat N) d m = Ok (mset d (KV m) (PArr a')) /\ rotated A M a a'.
  Proof.
    intros HU Hm Hg (n & Hn & Hs & Wa). destruct (rotate_ok A U M m n (repeat N n) a) as (a' & E & R); auto using repeat_length.
    exists a'. split; auto. unfold rotate_entry. rewrite Hg, E. cbn [bind].
    assert (mode_switcher m = Ok n) as ->.
    { cbn in Hm. destruct m; cbn in Hn; inversion Hn; subst; auto; exfalso; intuition discriminate. }
    cbn [bind]. rewrite Nat2Z.id. destruct R as (R1 & R2 & R3).
    match goal with |- context [for_res (fun _ x => @?g x) ?l tt] => assert (for_res (fun _ x => g x) l tt = Ok tt) as HH end.
    2:{ cbn beta in HH. rewrite HH. cbn [bind]. rewrite assign_all_same; auto. }
    - apply for_res_unit_all. intros idx Hi. apply indices_in in Hi.
      destruct (dot_ok A (get_sub zero a idx) (transpose zero [1; 0] U) (fun j k => getd a (idx ++ [j; k])) (mtr M)) as (r & -> & Hr); [eapply get_sub_ok; eauto|apply transpose_ok; auto|].
      cbn [bind]. destruct (dot_ok A U r _ _ HU Hr) as (r' & -> & Hr'). cbn [bind].
      assert (Hn' : is_matrix A (get_sub zero a' idx) (fun j k => getd a' (idx ++ [j; k]))) by (eapply get_sub_ok; eauto; congruence).
      rewrite (matrix_close A _ _ _ _ Hn' Hr'); [reflexivity|]. intros b c Hb Hc.
      rewrite R3; [apply conj_eq|]. rewrite Hs. apply inb_split; [apply (Forall2_length lt); auto|]. split; auto. inb_solve.
  Qed.

  Lemma mset_keys (d : mdict V) k v : In k (map fst d) -> map fst (mset d k v) = map fst d.
  Proof.
    unfold mset. induction d as [|[k0 v0] d IH]; simpl; [tauto|]. intros H. destruct (key_eqb k k0) eqn:E; simpl; auto.
    rewrite IH; auto. destruct H as [->|H]; auto. exfalso. rewrite (proj2 (key_eqb_eq k k) eq_refl) in E. discriminate.
  Qed.

  Definition upd_ok (A : nat) (M : nat -> nat -> V) (o o' : option (pval V)) : Prop :=
    match o with None => o' = None | Some (PArr a) => exists a', o' = Some (PArr a') /\ rotated A M a a' | Some _ => False end.

  Lemma rotate_loop A N U M ms : is_matrix A U M -> forall d, NoDup ms -> (forall m, In m ms -> In m surface_params) ->
    (forall m v, In m ms -> mget d (KV m) = Some v -> exists a, v = PArr a /\ marr_ok A N m a) ->
    exists d', for_res (rotate_entry zero one add mul close U (Z.of_nat N)) ms d = Ok d' /\ map fst d' = map fst d /\
      (forall k, (forall m, In m ms -> k <> KV m) -> mget d' k = mget d k) /\
      (forall m, In m ms -> upd_ok A M (mget d (KV m)) (mget d' (KV m))).
  Proof.
    intros HU. induction ms as [|m ms IH]; intros d ND Hp Hv.
    { exists d. split; [reflexivity|]. split; [auto|]. split; [auto|]. intros m []. }
    inv ND. cbn [for_res]. destruct (mget d (KV m)) as [v|] eqn:Eg.
    - destruct (Hv m v) as (a & -> & Ha); [left; auto|auto|]. destruct (rotate_entry_ok A N U M d m a) as (a' & -> & R); auto. { apply Hp. left; auto. }
      destruct (IH (mset d (KV m) (PArr a'))) as (d' & E & K & O & U'); auto.
      { intros m0 Hm0. apply Hp. right; auto. }
      { intros m0 v Hm0. unfold mget, mset. rewrite dget_dset_other; [intros; apply (Hv m0); auto; right; auto|apply key_eqb_eq|congruence]. }
      exists d'. split; auto. split.
      { rewrite K. apply mset_keys. apply dget_In in Eg; [|apply key_eqb_eq]. apply (in_map fst) in Eg. auto. }
      split.
      + intros k Hk. rewrite O; [|intros; apply Hk; right; auto]. unfold mget, mset. rewrite dget_dset_other; [auto|apply key_eqb_eq|]. apply Hk. left; auto.
      + intros m0 [<-|Hm0].
        * rewrite Eg. cbn. exists a'. split; auto. rewrite O; [|intros; congruence]. unfold mget, mset. apply dget_dset_same, key_eqb_eq.
        * specialize (U' m0 Hm0). assert (mget (mset d (KV m) (PArr a')) (KV m0) = mget d (KV m0)) as Eo by (apply dget_dset_other; [apply key_eqb_eq|congruence]). rewrite Eo in U'. exact U'.
    - unfold rotate_entry at 1. rewrite Eg. destruct (IH d) as (d' & E & K & O & U'); auto.
      { intros m0 Hm0. apply Hp. right; auto. } { intros m0 v Hm0. apply Hv. right; auto. }
      exists d'. split; auto. split; auto. split.
      + intros k Hk. apply O. intros; apply Hk; right; auto.
      + intros m0 [<-|Hm0]; [|apply U'; auto]. rewrite Eg. cbn. rewrite O; auto. intros; congruence.
  Qed.

  (** ** Symmetry checks *)
  Lemma allclose_iff a b : shape b = shape a -> wf_arr a -> wf_arr b ->
    exists c, np_allclose close a b = Ok c /\ (c = true <-> forall idx x y, aget a idx = Some x -> aget b idx = Some y -> close x y = true).
  Proof.
    intros Hs Wa Wb. unfold np_allclose. rewrite Hs, bshape_same. eexists. split; [reflexivity|]. rewrite forallb_forall. split.
    - intros H idx x y Hx Hy. pose proof (aget_inb _ _ _ Hx) as Hi. specialize (H idx (proj2 (indices_in _ _) Hi)).
      rewrite !bget_same, Hx, Hy in H by congruence. auto.
    - intros H idx Hi. apply indices_in in Hi. rewrite !bget_same by congruence.
      destruct (aget_some a idx Wa Hi) as [x Hx]. rewrite <- Hs in Hi. destruct (aget_some b idx Wb Hi) as [y Hy]. rewrite Hx, Hy. eauto.
  Qed.
  Lemma symmetric_array A s a : shape a = s ++ [A; A] -> length s <= 4 -> wf_arr a ->
    exists c, array_is_symmetric_in_A zero close a = Ok c /\
      (c = true <-> forall pre i j x y, aget a (pre ++ [i; j]) = Some x -> aget a (pre ++ [j; i]) = Some y -> close x y = true).
  Proof.
    intros Ha Hl Wa. unfold array_is_symmetric_in_A.
    set (t := transpose zero _ a).
    assert (Ht : shape t = shape a /\ forall pre i j, inb (shape a) (pre ++ [i; j]) -> aget t (pre ++ [i; j]) = aget a (pre ++ [j; i])).
    { unfold t, transpose. destruct s as [|n0 [|n1 [|n2 [|n3 [|n4 s]]]]]; try (exfalso; simpl in Hl; lia); simpl in Ha; rewrite Ha;
      cbn [length Nat.sub seq swap map nth Nat.eqb]; (split; [reflexivity|]);
      intros pre i j Hi; pose proof (Forall2_length lt _ _ Hi) as Lp; rewrite app_length in Lp; simpl in Lp;
      repeat (destruct pre as [|? pre]; simpl in Lp; try lia); try (exfalso; lia); rewrite aget_abuild by exact Hi; simpl in Hi; inbs; cbn;
      (symmetry; apply aget_getd; auto; rewrite Ha; inb_solve). }
    destruct Ht as [Ts Tg]. destruct (allclose_iff a t) as (c & -> & Hc); auto. { apply wf_abuild. }
    exists c. split; auto. rewrite Hc. split.
    - intros H pre i j x y Hx Hy. apply (H (pre ++ [i; j])); auto. rewrite Tg; auto. eapply aget_inb; eauto.
    - intros H idx x y Hx Hy. pose proof (aget_inb _ _ _ Hx) as Hi. pose proof (Forall2_length lt _ _ Hi) as L. rewrite Ha, app_length in L. simpl in L.
      assert (exists pre i j, idx = pre ++ [i; j]) as (pre & i & j & ->).
      { destruct (exists_last (l := idx)) as (l' & j & ->). { intros ->; simpl in L; lia. } rewrite app_length in L. simpl in L.
        destruct (exists_last (l := l')) as (l'' & i & ->). { intros ->; simpl in L; lia. } exists l'', i, j. rewrite <- app_assoc. auto. }
      apply (H pre i j); auto. rewrite <- Tg; auto.
  Qed.
  Lemma symmetric_loop_iff (P : arr V -> Prop) (d : mdict V) :
    (forall k a, In (k, PArr a) d -> 2 <= length (shape a) -> exists c, array_is_symmetric_in_A zero close a = Ok c /\ (c = true <-> P a)) ->
    exists c, symmetric_loop zero close d = Ok c /\ (c = true <-> forall k a, In (k, PArr a) d -> 2 <= length (shape a) -> P a).
  Proof.
    induction d as [|[k v] d IH]; intros H. { exists true. split; [reflexivity|]. split; auto. intros _ k a []. }
    destruct IH as (c & E & Hc). { intros k0 a0 H0. eapply H. right; eauto. }
    assert (Hskip : (forall a, v = PArr a -> length (shape a) < 2) -> (c = true <-> forall k0 a, In (k0, PArr a) ((k, v) :: d) -> 2 <= length (shape a) -> P a)).
    { intros Hs. rewrite Hc. split; intros HH k0 a Hin Hl.
      - destruct Hin as [Hin|Hin]; [|eauto]. injection Hin as <- ->. specialize (Hs a eq_refl). lia.
      - eapply HH; eauto. right; eauto. }
    cbn [symmetric_loop]. destruct v; try (exists c; split; [exact E|apply Hskip; intros; discriminate]).
    destruct (Nat.leb_spec 2 (length (shape a))) as [L|L].
    - destruct (H k a) as (c0 & -> & Hc0); [left; auto|auto|]. cbn [bind]. destruct c0.
      + exists c. split; auto. rewrite Hc. split; intros HH k0 a0 Hin Hl.
        * destruct Hin as [Hin|Hin]; [|eauto]. injection Hin as <- <-. apply Hc0; auto.
        * eapply HH; eauto. right; eauto.
      + exists false. split; auto. split; [discriminate|]. intros HH. apply Hc0. eapply HH; eauto. left; auto.
    - exists c. split; auto. apply Hskip. intros a0 [= <-]. auto.
  Qed.
  Lemma surfaces_iff A N d : dict_ok d -> valid vint Coupled (Z.of_nat A) (Z.of_nat N) d -> known_keys d ->
    exists c, symmetric_in_surfaces zero vint close d = Ok c /\ (c = true <-> surface_close close d).
  Proof.
    intros D Va K. unfold symmetric_in_surfaces.
    assert (verify vint Coupled d = Ok tt) as ->. { apply verify_spec; [apply D|]. eauto. }
    cbn [bind].
    assert (HC : forall m a, has d (KV m) (PArr a) -> (In m surface_params /\ exists s, shape a = s ++ [A; A] /\ length s <= 4 /\ wf_arr a) \/ (~ In m surface_params /\ length (shape a) < 2)).
    { intros m a Hin. destruct (In_dec (fun x y : vmk => ltac:(decide equality)) m surface_params) as [Hm|Hm].
      - left. split; auto. destruct (spec_shape Coupled (Z.of_nat A) (Z.of_nat N) m) as [s|] eqn:Es.
        + destruct Va as [_ Va]. destruct (Va m _ s Hin Es) as (a0 & E0 & Sh). injection E0 as <-.
          unfold spec_shape in Es. destruct (mode_axes m) as [n|] eqn:En; [|discriminate]. injection Es as <-.
          exists (repeat N n). split; [|split].
          * apply map_of_nat_inj. rewrite Sh, map_app, map_repeat_. f_equal. destruct m; try discriminate; auto. exfalso. cbn in Hm. intuition discriminate.
          * rewrite repeat_length. destruct m; inversion En; subst; lia.
          * eapply D; eauto.
        + destruct m; try discriminate; exfalso; cbn in Hm; intuition discriminate.
      - right. split; auto. destruct m; try (exfalso; apply Hm; cbn; tauto).
        + destruct Va as [[(v & Hv & Iv) _] _]. assert (PArr a = v) as <- by (eapply has_fun; [apply D|exact Hin|exact Hv]). inversion Iv.
        + destruct Va as [[_ (v & Hv & Iv)] _]. assert (PArr a = v) as <- by (eapply has_fun; [apply D|exact Hin|exact Hv]). inversion Iv.
        + destruct Va as [_ Va]. destruct (Va w_ _ _ Hin eq_refl) as (a0 & E0 & Sh). injection E0 as <-.
          assert (length (map Z.of_nat (shape a)) = 1) as L by (rewrite Sh; reflexivity). rewrite map_length in L. lia. }
    destruct (symmetric_loop_iff (fun a => forall pre i j x y, aget a (pre ++ [i; j]) = Some x -> aget a (pre ++ [j; i]) = Some y -> close x y = true) d) as (c & E & Hc).
    { intros k a Hin Hl. destruct (K _ _ Hin) as [m ->]. destruct (HC m a Hin) as [[Hm (s & S1 & S2 & S3)]|[_ Hn]]; [|lia]. eapply symmetric_array; eauto. }
    exists c. split; auto. rewrite Hc. split.
    - intros H m a pre i j x y Hm Hin. eapply H; eauto. destruct (HC m a Hin) as [[_ (s & S1 & _)]|[Hn _]]; [|contradiction]. rewrite S1, app_length. simpl. lia.
    - intros H k a Hin Hl. destruct (K _ _ Hin) as [m ->]. destruct (HC m a Hin) as [[Hm _]|[_ Hn]]; [|lia]. intros pre i j x y. eapply H; eauto.
  Qed.
  Lemma surface_close_refl d : surface_symmetric d -> surface_close close d.
  Proof. intros H m a pre i j x y Hm Ha Hx Hy. rewrite (H m a pre i j Hm Ha) in Hx. rewrite Hx in Hy. injection Hy as <-. auto. Qed.
  Lemma mode_close_refl (d : mdict V) : mode_symmetric d -> mode_close close d.
  Proof.
    intros [H2 H4]. split.
    - intros a i j x y u v Ha Hu Hv. rewrite (H2 a) in Hu by auto. rewrite Hu in Hv. injection Hv as <-. auto.
    - intros a i j k l x y u v Ha Hu Hv. rewrite (H4 a) in Hu by auto. rewrite Hu in Hv. injection Hv as <-. auto.
  Qed.
End Create.
