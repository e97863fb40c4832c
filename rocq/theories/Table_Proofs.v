(** Lemmas about the files of the tables (C101) *)
From Coq Require Import Reals QArith Qabs Lqa.
From Verif Require Import Common Common_Proofs PyStr_Model PyStr_Proofs FileName_Model FileStruct_Model Results_Model Sequences_Model Sequences_Proofs Table_Model.
Local Open Scope string_scope.
Local Open Scope nat_scope.

Lemma nth_error_Some_lt {A} (l : list A) i x : nth_error l i = Some x -> i < length l.
Proof. intros E. apply nth_error_Some. congruence. Qed.

(** ---- the grid ---- *)
Lemma n_bins_value : Z.of_nat n_bins = 10000%Z.
Proof. unfold n_bins. rewrite Z2Nat.id; lia. Qed.
Lemma linspace_length b : length (linspace b) = n_bins.
Proof. unfold linspace. rewrite map_length, seq_length. reflexivity. Qed.
Lemma linspace_nth b i : i < n_bins -> nth_error (linspace b) i = Some (b * (Z.of_nat i # 9999))%Q.
Proof.
  intros L. unfold linspace. rewrite nth_error_map. rewrite (nth_error_nth' (seq 0 n_bins) 0) by (rewrite seq_length; exact L). rewrite seq_nth by exact L. reflexivity.
Qed.
Definition far (grid : list Q) : Prop := forall i j x y z, nth_error grid i = Some x -> nth_error grid j = Some y -> (z == y)%Q -> (isclose x z = true <-> i = j).
Lemma isclose_iff a b : isclose a b = true <-> (Qabs (a - b) <= (1 # 100000000) + (1 # 100000) * Qabs b)%Q.
Proof. unfold isclose. apply Qle_bool_iff. Qed.
Lemma dims_far : far linspace_dims.
Proof.
  intros i j x y z Hi Hj Ez.
  assert (Li : i < n_bins) by (rewrite <- (linspace_length max_value); apply nth_error_Some; unfold linspace_dims in Hi; congruence).
  assert (Lj : j < n_bins) by (rewrite <- (linspace_length max_value); apply nth_error_Some; unfold linspace_dims in Hj; congruence).
  unfold linspace_dims in Hi, Hj. rewrite linspace_nth in Hi, Hj by assumption. injection Hi as <-. injection Hj as <-. rewrite isclose_iff, Ez.
  assert (X : forall k, (max_value * (Z.of_nat k # 9999) == (100 # 9999) * inject_Z (Z.of_nat k))%Q) by (intros k; unfold max_value, Qeq, inject_Z; cbn; lia). rewrite (X i), (X j).
  assert (Bj : (0 <= inject_Z (Z.of_nat j) <= 9999)%Q).
  { split; [change 0%Q with (inject_Z 0)|change 9999%Q with (inject_Z 9999)]; rewrite <- Zle_Qle; [lia|]. pose proof n_bins_value. lia. }
  rewrite (Qabs_pos ((100 # 9999) * inject_Z (Z.of_nat j))) by lra.
  setoid_replace ((100 # 9999) * inject_Z (Z.of_nat i) - (100 # 9999) * inject_Z (Z.of_nat j))%Q with ((100 # 9999) * inject_Z (Z.of_nat i - Z.of_nat j))%Q by (unfold Z.sub; rewrite inject_Z_plus, inject_Z_opp; ring).
  rewrite Qabs_Qmult. change (Qabs (100 # 9999)) with (100 # 9999)%Q. change (Qabs (inject_Z (Z.of_nat i - Z.of_nat j))) with (inject_Z (Z.abs (Z.of_nat i - Z.of_nat j))).
  split.
  - intros L. destruct (Nat.eq_dec i j) as [->|N]; [reflexivity|exfalso].
    assert (A : (1 <= inject_Z (Z.abs (Z.of_nat i - Z.of_nat j)))%Q) by (change 1%Q with (inject_Z 1); rewrite <- Zle_Qle; lia). lra.
  - intros ->. rewrite Z.sub_diag. cbn [Z.abs]. change (inject_Z 0) with 0%Q. lra.
Qed.

(** ---- the turning points are grid points ---- *)
Lemma turning_in scan p : In p (list_of_turning_points scan) -> px p = 0%Q \/ exists y, In (px p, y) scan.
Proof.
  unfold list_of_turning_points.
  assert (G : forall scan s, forall P : Q -> Prop, P (old_x s) -> (forall q, In q (xy s) -> P (px q)) -> (forall x y, In (x, y) scan -> P x) ->
    forall q, In q (xy (fold_left tstep scan s)) -> P (px q)).
  { clear. induction scan as [|[x d] scan IH]; intros s P O X Y q I; [auto|]. cbn [fold_left] in I. eapply IH; [| | |exact I].
    - unfold tstep. destruct (turn s); [destruct (Qle_bool _ _)|destruct (Qlt_bool _ _)]; cbn; eapply Y; left; reflexivity.
    - intros q' J. unfold tstep in J. destruct (turn s); [destruct (Qle_bool _ _)|destruct (Qlt_bool _ _)]; cbn [xy] in J; auto; apply in_app_iff in J; destruct J as [J|[<-|[]]]; auto; cbn; eauto using in_eq.
    - intros; eapply Y; right; eauto. }
  intros I. apply (G scan (mkT None 0 0 []) (fun x => x = 0%Q \/ exists y, In (x, y) scan)) in I; cbn; eauto. intros q [].
Qed.

(** ---- the list of turning points in the plot ---- *)
(** turning point number k lies at [i]; it and those before it lie at increasing places, the first not before [o] *)
Definition reached (o : nat) (idx : list nat) (k i : nat) : Prop :=
  nth_error idx k = Some i /\ (forall i0, nth_error idx 0 = Some i0 -> o <= i0) /\
  forall j a b, j < k -> nth_error idx j = Some a -> nth_error idx (S j) = Some b -> a < b.
Lemma reached_le o idx k i : reached o idx k i -> o + k <= i.
Proof.
  intros (E & O & S). revert i E. induction k as [|k IH]; intros i E; [specialize (O i E); lia|].
  destruct (nth_error idx k) as [a|] eqn:A; [|apply nth_error_None in A; apply nth_error_Some_lt in E; lia].
  specialize (S k a i (Nat.lt_succ_diag_r k) A E) as L. assert (o + k <= a); [|lia]. apply IH; auto. intros j x y Lj. apply S. lia.
Qed.
Lemma reached_cons o a idx k i : a = o -> (reached o (a :: idx) (Datatypes.S k) i <-> reached (Datatypes.S o) idx k i).
Proof.
  intros ->. split; intros (E & O & S).
  - split; [exact E|]. split.
    + intros i0 X. specialize (S 0 o i0 ltac:(lia) eq_refl X). lia.
    + intros j x y L X Y. apply (S (Datatypes.S j)); auto. lia.
  - split; [exact E|]. split; [intros i0 X; injection X as <-; lia|]. intros [|j] x y L X Y.
    + injection X as <-. specialize (O y Y). lia.
    + apply (S j); auto. lia.
Qed.
Lemma skipn_nth {A} (l : list A) o : (exists x, nth_error l o = Some x /\ skipn o l = x :: skipn (Datatypes.S o) l) \/ (length l <= o /\ skipn o l = []).
Proof.
  revert o. induction l as [|a l IH]; intros [|o]; cbn; [right; auto|right; split; [lia|reflexivity]|left; eauto|]. destruct (IH o) as [(x & E & F)|[L E]]; [left; eauto|right; split; [lia|exact E]].
Qed.
Lemma turning_spec grid : far grid -> forall n o ps idx, n + o = length grid -> Forall2 (fun p i => exists x, nth_error grid i = Some x /\ (px p == x)%Q) ps idx ->
  forall i y, nth_error (turning_points (skipn o grid) ps) i = Some (Some y) <-> exists k p a, nth_error ps k = Some p /\ reached o idx k a /\ i + o = a + k /\ y = py p.
Proof.
  intros F. induction n as [|n IH]; intros o ps idx EN F2 i y.
  - rewrite skipn_all2 by lia. cbn. split; [destruct i; discriminate|]. intros (k & p & a & Ep & R & _). exfalso.
    pose proof (reached_le _ _ _ _ R) as L. destruct R as (E & _). assert (X : exists p x, nth_error grid a = Some x /\ (px p == x)%Q).
    { clear - F2 E. revert k E. induction F2 as [|p i ps idx P F2 IH]; intros [|k] E; try discriminate; [injection E as <-; eauto|eauto]. }
    destruct X as (_ & x & X & _). apply nth_error_Some_lt in X. lia.
  - destruct (skipn_nth grid o) as [(x & Ex & ->)|[L _]]; [|lia]. cbn [turning_points].
    destruct F2 as [|p a ps idx (x' & Ea & Ep) F2].
    + split.
      * intros E. destruct i as [|i]; [discriminate|]. cbn in E. apply (IH (Datatypes.S o) [] [] ltac:(lia) (Forall2_nil _)) in E. destruct E as (k & p & a & E & _). destruct k; discriminate.
      * intros (k & p & a & E & _). destruct k; discriminate.
    + destruct (isclose x (px p)) eqn:C.
      * apply (F _ _ _ _ _ Ex Ea Ep) in C. subst a. destruct i as [|[|i]]; cbn [nth_error].
        -- split.
           ++ intros E. injection E as <-. exists 0, p, o. split; [reflexivity|]. split; [|split; [lia|reflexivity]]. split; [reflexivity|]. split; [intros i0 X; injection X as <-; lia|intros; lia].
           ++ intros (k & q & b & Eq & R & E & ->). destruct k as [|k]; [injection Eq as <-; reflexivity|]. exfalso. pose proof (reached_le _ _ _ _ R). lia.
        -- split; [discriminate|]. intros (k & q & b & Eq & R & E & ->). exfalso. pose proof (reached_le _ _ _ _ R). destruct k as [|k]; [destruct R as (X & _); injection X as <-; lia|]. lia.
        -- rewrite (IH (Datatypes.S o) ps idx ltac:(lia) F2). split.
           ++ intros (k & q & b & Eq & R & E & ->). exists (Datatypes.S k), q, b. split; [exact Eq|]. split; [apply reached_cons; auto|]. split; [lia|reflexivity].
           ++ intros (k & q & b & Eq & R & E & ->). destruct k as [|k]; [destruct R as (X & _); injection X as <-; lia|]. exists k, q, b. split; [exact Eq|]. split; [apply (reached_cons o o idx k b eq_refl); exact R|]. split; [lia|reflexivity].
      * assert (NE : a <> o) by (intros ->; assert (T : isclose x (px p) = true) by (apply (F _ _ _ _ _ Ex Ea Ep); reflexivity); congruence).
        assert (RR : forall k b, reached o (a :: idx) k b <-> reached (Datatypes.S o) (a :: idx) k b).
        { intros k b. split; intros (X & O & S); (split; [exact X|split; [|exact S]]); intros i0 Y; specialize (O i0 Y); injection Y as <-; lia. }
        destruct i as [|i]; cbn [nth_error].
        -- split; [discriminate|]. intros (k & q & b & Eq & R & E & ->). exfalso. apply RR in R. pose proof (reached_le _ _ _ _ R). lia.
        -- rewrite (IH (Datatypes.S o) (p :: ps) (a :: idx) ltac:(lia) (Forall2_cons p a (ex_intro _ x' (conj Ea Ep)) F2)). split; intros (k & q & b & Eq & R & E & ->); exists k, q, b; (split; [exact Eq|]); (split; [apply RR; exact R|]); (split; [lia|reflexivity]).
Qed.
Lemma turning_length grid : forall ps, length grid <= length (turning_points grid ps).
Proof. induction grid as [|x grid IH]; intros ps; [cbn; lia|]. cbn [turning_points]. destruct ps as [|p ps]; [cbn [length]; specialize (IH []); lia|]. destruct (isclose x (px p)); cbn [length]; [specialize (IH ps)|specialize (IH (p :: ps))]; lia. Qed.

(** ---- files ---- *)
Lemma numbers_some l : numbers (map Some l) = Ok l.
Proof. induction l as [|x l IH]; cbn; [reflexivity|]. rewrite IH. reflexivity. Qed.
Lemma load_two rows : map_res numbers (two rows) = Ok (map (fun r => [fst r; snd r]) rows).
Proof. unfold two. induction rows as [|[y x] rows IH]; [reflexivity|]. cbn [map map_res fst snd]. change [Some y; Some x] with (map Some [y; x]). rewrite numbers_some. cbn [bind]. rewrite IH. reflexivity. Qed.
Lemma rows_two rows : map_res row_pair (map (fun r : Q * Q => [fst r; snd r]) rows) = Ok rows.
Proof. induction rows as [|[y x] rows IH]; [reflexivity|]. cbn [map map_res fst snd]. cbn [row_pair item nth_error bind]. rewrite IH. reflexivity. Qed.
Lemma put_same {A} (fs : fsys A) p a : put fs p a p = Some a.
Proof. unfold put. rewrite String.eqb_refl. reflexivity. Qed.
Lemma put_other {A} (fs : fsys A) p q a : q <> p -> put fs p a q = fs q.
Proof. intros N. unfold put. apply String.eqb_neq in N. rewrite N. reflexivity. Qed.
Lemma map_res_raise {A B} (f : A -> res B) l x e : In x l -> f x = Raise e -> (forall y e', In y l -> f y = Raise e' -> e' = e) -> map_res f l = Raise e.
Proof.
  induction l as [|a l IH]; [intros []|]. intros I E U. cbn [map_res]. destruct (f a) as [b|e'] eqn:Ea; cbn [bind].
  - destruct I as [<-|I]; [congruence|]. rewrite IH; auto. intros; eapply U; eauto. right; auto.
  - rewrite (U a e'); auto. left; reflexivity.
Qed.
