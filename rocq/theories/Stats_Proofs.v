From Coq Require Import List Reals Lra Lia Permutation.
From Verif Require Import Stats_Model.
Import ListNotations.
Local Open Scope R_scope.

(** one sample: rho, g, g+, g- *)
Record point := { p_rho : R; p_g : R; p_gp : R; p_gm : R }.
Definition arrays (l : list point) : samples :=
  {| s_rho := map p_rho l; s_g := map p_g l; s_gp := map p_gp l; s_gm := map p_gm l |}.

(** ---- lists ---- *)
Lemma map2_map {A} f (a b : A -> R) l : map2 f (map a l) (map b l) = map (fun x => f (a x) (b x)) l.
Proof. induction l; simpl; congruence. Qed.
Lemma sum_app a b : sum (a ++ b) = sum a + sum b.
Proof. induction a; simpl; [lra|]. unfold sum in *. simpl. rewrite IHa. lra. Qed.
Lemma sum_cons x l : sum (x :: l) = x + sum l.
Proof. reflexivity. Qed.
Lemma sum_map_plus {A} (f g : A -> R) l : sum (map (fun x => f x + g x) l) = sum (map f l) + sum (map g l).
Proof. induction l; simpl; rewrite ?sum_cons; [unfold sum; simpl; lra|lra]. Qed.
Lemma sum_map_scale {A} c (f : A -> R) l : sum (map (fun x => c * f x) l) = c * sum (map f l).
Proof. induction l; simpl; rewrite ?sum_cons; [unfold sum; simpl; lra|rewrite IHl; lra]. Qed.
Lemma sum_const {A} c (l : list A) : sum (map (fun _ => c) l) = INR (length l) * c.
Proof. induction l as [|a l IH]; [unfold sum; simpl; lra|]. cbn [map length]. rewrite sum_cons, IH, S_INR. lra. Qed.
Lemma sum_perm a b : Permutation a b -> sum a = sum b.
Proof. induction 1; rewrite ?sum_cons; auto; lra. Qed.
Lemma mean_perm a b : Permutation a b -> mean a = mean b.
Proof. intros H. unfold mean. rewrite (sum_perm _ _ H), (Permutation_length H). auto. Qed.
Lemma std_perm d a b : Permutation a b -> std d a = std d b.
Proof.
  intros H. unfold std. rewrite (mean_perm _ _ H), (Permutation_length H). do 2 f_equal. apply sum_perm. apply Permutation_map. auto.
Qed.

Lemma jk_map {A} (f : A -> R) l :
  calculate_jackknife_term (length l) (map f l) = map (fun x => (sum (map f l) - f x) / (INR (length l) - 1)) l.
Proof.
  unfold calculate_jackknife_term. set (S := sum (map f l)). set (N := INR (length l) - 1). clearbody S N.
  assert (repeat S (length l) = map (fun _ => S) l) as -> by (induction l; simpl; congruence).
  rewrite map2_map, map_map. auto.
Qed.

(** ---- everything as functions of the sample points ---- *)
Definition q0 (x : point) := p_g x / p_rho x.
Definition qp (x : point) := p_gp x / p_rho x.
Definition qm (x : point) := p_gm x / p_rho x.
Definition d1 db (x : point) := (p_gp x - p_gm x) / p_rho x / (2 * db).
Definition d2 db (x : point) := (p_gp x - 2 * p_g x + p_gm x) / p_rho x / (db ^ 2).

Lemma basic_terms db l : calculate_basic_property_terms db (arrays l) = (map q0 l, map (d1 db) l, map (d2 db) l).
Proof.
  unfold calculate_basic_property_terms, arrays. cbn [s_rho s_g s_gp s_gm]. rewrite !map_map, !map2_map, !map_map. reflexivity.
Qed.

Lemma alpha_terms db l ap am : calculate_alpha_terms db (arrays l) ap am =
  ((map q0 l, (mean (map qp l) * ap - mean (map qm l) * am) / (2 * db), (mean (map qp l) * ap - 2 * mean (map q0 l) + mean (map qm l) * am) / db ^ 2),
   (map qp l, map qm l)).
Proof. unfold calculate_alpha_terms, arrays. cbn [s_rho s_g s_gp s_gm]. rewrite !map2_map. reflexivity. Qed.

Definition loo {A} (f : A -> R) (l : list A) (x : A) : R := (sum (map f l) - f x) / (INR (length l) - 1).

Lemma alpha_jk_terms db ap am l :
  calculate_alpha_jackknife_terms (length l) db (map q0 l) (map qp l) ap (map qm l) am =
  (map (loo q0 l) l,
   map (fun x => (loo qp l x * ap - loo qm l x * am) / (2 * db)) l,
   map (fun x => (loo qp l x * ap - 2 * loo q0 l x + loo qm l x * am) / db ^ 2) l).
Proof.
  unfold calculate_alpha_jackknife_terms. rewrite !jk_map, !map_map, !map2_map, !map_map. reflexivity.
Qed.

(** estimate_jackknife in terms of per-sample functions *)
Definition fE (j0 j1 : point -> R) x := -1 * j1 x / j0 x.
Definition fC T (j0 j1 j2 : point -> R) x := (j2 x / j0 x - fE j0 j1 x ^ 2) / (boltzman * T ^ 2).

Lemma estimate_jk_map X T d (j0 j1 j2 : point -> R) l :
  estimate_jackknife X T d (map j0 l) (map j1 l) (map j2 l) =
  {| j_E := INR X * e_E d - (INR X - 1) * mean (map (fE j0 j1) l);
     j_E_error := sqrt (INR X - 1) * std 1 (map (fE j0 j1) l);
     j_Cv := INR X * e_Cv d - (INR X - 1) * mean (map (fC T j0 j1 j2) l);
     j_Cv_error := sqrt (INR X - 1) * std 1 (map (fC T j0 j1 j2) l) |}.
Proof. unfold estimate_jackknife. rewrite !map_map, !map2_map, !map_map, !map2_map, !map_map. reflexivity. Qed.

(** ---- C31 ---- *)
Section Order.
  Variables l l' : list point.
  Hypothesis HP : Permutation l l'.

  Lemma len_eq : length l = length l'. Proof. apply Permutation_length, HP. Qed.
  Lemma sum_eq (f : point -> R) : sum (map f l) = sum (map f l'). Proof. apply sum_perm, Permutation_map, HP. Qed.
  Lemma mean_eq (f : point -> R) : mean (map f l) = mean (map f l'). Proof. apply mean_perm, Permutation_map, HP. Qed.
  Lemma std_eq n (f : point -> R) : std n (map f l) = std n (map f l'). Proof. apply std_perm, Permutation_map, HP. Qed.
  Lemma loo_eq (f : point -> R) x : loo f l x = loo f l' x. Proof. unfold loo. rewrite sum_eq, len_eq. auto. Qed.

  Theorem order_basic T a : basic_statistical_analysis T (length l) (arrays l) a = basic_statistical_analysis T (length l') (arrays l') a.
  Proof.
    unfold basic_statistical_analysis. rewrite !basic_terms. unfold estimate_basic_properties, basic_estimate_Z, basic_estimate_E, basic_estimate_Cv.
    rewrite !mean_eq, std_eq, len_eq. auto.
  Qed.
  Theorem order_alpha T a : alpha_statistical_analysis T (length l) (arrays l) a = alpha_statistical_analysis T (length l') (arrays l') a.
  Proof.
    unfold alpha_statistical_analysis. rewrite !alpha_terms. unfold estimate_basic_properties, basic_estimate_Z, basic_estimate_E, basic_estimate_Cv.
    rewrite !mean_eq, std_eq, len_eq. auto.
  Qed.
  Lemma jk_order T d j0 j1 j2 k0 k1 k2 :
    (forall x, j0 x = k0 x) -> (forall x, j1 x = k1 x) -> (forall x, j2 x = k2 x) ->
    estimate_jackknife (length l) T d (map j0 l) (map j1 l) (map j2 l) = estimate_jackknife (length l') T d (map k0 l') (map k1 l') (map k2 l').
  Proof.
    intros E0 E1 E2. rewrite (map_ext j0 k0), (map_ext j1 k1), (map_ext j2 k2) by auto. rewrite !estimate_jk_map.
    rewrite !mean_eq, !std_eq, len_eq. auto.
  Qed.

  Theorem order_basic_jk T a : basic_jackknife_analysis T (length l) (arrays l) a = basic_jackknife_analysis T (length l') (arrays l') a.
  Proof.
    pose proof (order_basic T a) as HB. unfold basic_statistical_analysis in HB.
    unfold basic_jackknife_analysis. rewrite !basic_terms in *. f_equal; [exact HB|]. f_equal.
    rewrite !jk_map. fold (@loo point q0 l) (@loo point (d1 delta_beta) l) (@loo point (d2 delta_beta) l) (@loo point q0 l') (@loo point (d1 delta_beta) l') (@loo point (d2 delta_beta) l').
    assert (estimate_basic_properties (length l) T (map q0 l) (mean (map (d1 delta_beta) l)) (mean (map (d2 delta_beta) l)) =
            estimate_basic_properties (length l') T (map q0 l') (mean (map (d1 delta_beta) l')) (mean (map (d2 delta_beta) l'))) as ->.
    { unfold estimate_basic_properties, basic_estimate_Z, basic_estimate_E, basic_estimate_Cv. rewrite !mean_eq, std_eq, len_eq. auto. }
    apply jk_order; intros; apply loo_eq.
  Qed.

  Theorem order_alpha_jk T a : alpha_jackknife_analysis T (length l) (arrays l) a = alpha_jackknife_analysis T (length l') (arrays l') a.
  Proof.
    pose proof (order_alpha T a) as HB. unfold alpha_statistical_analysis in HB.
    unfold alpha_jackknife_analysis. rewrite !alpha_terms in *. rewrite !alpha_jk_terms. f_equal; [exact HB|]. f_equal.
    match goal with |- estimate_jackknife _ _ ?d1 _ _ _ = estimate_jackknife _ _ ?d2 _ _ _ => assert (d1 = d2) as -> end.
    { unfold estimate_basic_properties, basic_estimate_Z, basic_estimate_E, basic_estimate_Cv. rewrite !mean_eq, std_eq, len_eq. auto. }
    apply jk_order; intros; rewrite ?loo_eq; auto.
  Qed.
End Order.

(** ---- C32 ---- *)
Definition rescale (c : R) (x : point) : point := {| p_rho := c * p_rho x; p_g := c * p_g x; p_gp := c * p_gp x; p_gm := c * p_gm x |}.
Definition rescaled (cs : list (R * point)) : list point := map (fun cx => rescale (fst cx) (snd cx)) cs.

Section Rescale.
  Variable cs : list (R * point).
  Hypothesis Hc : forall c x, In (c, x) cs -> c <> 0 /\ p_rho x <> 0.
  Let l := map snd cs.

  Lemma rescale_terms :
    map q0 (rescaled cs) = map q0 l /\ map qp (rescaled cs) = map qp l /\ map qm (rescaled cs) = map qm l /\
    forall db, map (d1 db) (rescaled cs) = map (d1 db) l /\ map (d2 db) (rescaled cs) = map (d2 db) l.
  Proof.
    unfold rescaled, l. rewrite !map_map. repeat split; try (rewrite !map_map); apply map_ext_in; intros [c x] Hx; destruct (Hc c x Hx) as [H1 H2];
      unfold q0, qp, qm, d1, d2; cbn [p_rho p_g p_gp p_gm rescale fst snd];
      first [solve [field; auto] | apply (f_equal (fun u => u / _)); field; auto].
  Qed.

  Theorem scale_all T a :
    basic_statistical_analysis T (length l) (arrays (rescaled cs)) a = basic_statistical_analysis T (length l) (arrays l) a /\
    alpha_statistical_analysis T (length l) (arrays (rescaled cs)) a = alpha_statistical_analysis T (length l) (arrays l) a /\
    basic_jackknife_analysis T (length l) (arrays (rescaled cs)) a = basic_jackknife_analysis T (length l) (arrays l) a /\
    alpha_jackknife_analysis T (length l) (arrays (rescaled cs)) a = alpha_jackknife_analysis T (length l) (arrays l) a.
  Proof.
    destruct rescale_terms as (E0 & Ep & Em & E12). destruct (E12 delta_beta) as [E1 E2].
    unfold basic_statistical_analysis, alpha_statistical_analysis, basic_jackknife_analysis, alpha_jackknife_analysis.
    rewrite !basic_terms, !alpha_terms, E0, Ep, Em, E1, E2. auto.
  Qed.
End Rescale.

(** ---- C33 ---- *)
(** rho and the coefficients of G *)
Record quad := { c_rho : R; c_0 : R; c_1 : R; c_2 : R }.
Definition G (x : quad) (b : R) := c_0 x + c_1 x * b + c_2 x * b ^ 2.
Definition G' (x : quad) (b : R) := c_1 x + 2 * c_2 x * b.
Definition G'' (x : quad) := 2 * c_2 x.
Definition on_quad (db b : R) (x : quad) : point := {| p_rho := c_rho x; p_g := G x b; p_gp := G x (b + db); p_gm := G x (b - db) |}.

Theorem quad_terms db b l : db <> 0 -> (forall x, In x l -> c_rho x <> 0) ->
  calculate_basic_property_terms db (arrays (map (on_quad db b) l)) =
    (map (fun x => G x b / c_rho x) l, map (fun x => G' x b / c_rho x) l, map (fun x => G'' x / c_rho x) l).
Proof.
  intros Hd Hr. rewrite basic_terms, !map_map. f_equal; [f_equal|]; apply map_ext_in; intros x Hx; specialize (Hr x Hx);
    unfold q0, d1, d2, on_quad, G, G', G''; cbn [p_rho p_g p_gp p_gm]; field; auto.
Qed.

Lemma boltzman_pos : 0 < boltzman.
Proof. unfold boltzman. lra. Qed.

Lemma delta_beta_pos : 0 < delta_beta.
Proof. unfold delta_beta. lra. Qed.

Theorem quad_estimates T b a l : T <> 0 ->
  (forall x, In x l -> c_rho x <> 0) -> sum (map (fun x => G x b / c_rho x) l) <> 0 ->
  let avg f := sum (map (fun x : quad => f x / c_rho x) l) / INR (length l) in
  let e := basic_statistical_analysis T (length l) (arrays (map (on_quad delta_beta b) l)) a in
  e_Z e = avg (fun x => G x b) /\
  e_E e = - (avg (fun x => G' x b) / avg (fun x => G x b)) + a_E a /\
  (e_Cv e - a_Cv a) * (boltzman * T ^ 2) = avg G'' / avg (fun x => G x b) - (avg (fun x => G' x b) / avg (fun x => G x b)) ^ 2.
Proof.
  intros HT Hr HS. cbv zeta. unfold basic_statistical_analysis. rewrite quad_terms; auto. 2:{ pose proof delta_beta_pos. lra. }
  unfold estimate_basic_properties, basic_estimate_Z, basic_estimate_E, basic_estimate_Cv, add_harmonic_contribution, mean. cbn [e_Z e_E e_Cv].
  rewrite !map_length. pose proof boltzman_pos.
  assert (INR (length l) <> 0) as HN.
  { apply not_0_INR. destruct l; [|discriminate]. exfalso. apply HS. reflexivity. }
  split; auto. split; field; repeat split; auto; lra.
Qed.

(** ---- C34 ---- *)
Lemma mean_lin3 {A} (f g h : A -> R) a b c l :
  mean (map (fun x => a * f x + b * g x + c * h x) l) = a * mean (map f l) + b * mean (map g l) + c * mean (map h l).
Proof.
  unfold mean. rewrite !map_length. rewrite (sum_map_plus (fun x => a * f x + b * g x)), (sum_map_plus (fun x => a * f x)), !sum_map_scale. unfold Rdiv. ring.
Qed.
Lemma mean_ext {A} (f g : A -> R) l : (forall x, f x = g x) -> mean (map f l) = mean (map g l).
Proof. intros H. rewrite (map_ext f g); auto. Qed.
Lemma sum_ext {A} (f g : A -> R) l : (forall x, f x = g x) -> sum (map f l) = sum (map g l).
Proof. intros H. rewrite (map_ext f g); auto. Qed.

Lemma d1_split db x : d1 db x = / (2 * db) * qp x + - / (2 * db) * qm x + 0 * q0 x.
Proof. unfold d1, qp, qm, q0, Rdiv. ring. Qed.
Lemma d2_split db x : d2 db x = / (db ^ 2) * qp x + / (db ^ 2) * qm x + - 2 * / (db ^ 2) * q0 x.
Proof. unfold d2, qp, qm, q0, Rdiv. ring. Qed.

Theorem alpha_one T a l : a_alpha_plus a = 1 -> a_alpha_minus a = 1 ->
  alpha_statistical_analysis T (length l) (arrays l) a = basic_statistical_analysis T (length l) (arrays l) a /\
  alpha_jackknife_analysis T (length l) (arrays l) a = basic_jackknife_analysis T (length l) (arrays l) a.
Proof.
  intros H1 H2.
  assert ((mean (map qp l) * 1 - mean (map qm l) * 1) / (2 * delta_beta) = mean (map (d1 delta_beta) l)) as E1.
  { rewrite (mean_ext (d1 delta_beta) _ l (d1_split delta_beta)), mean_lin3. unfold Rdiv. ring. }
  assert ((mean (map qp l) * 1 - 2 * mean (map q0 l) + mean (map qm l) * 1) / delta_beta ^ 2 = mean (map (d2 delta_beta) l)) as E2.
  { rewrite (mean_ext (d2 delta_beta) _ l (d2_split delta_beta)), mean_lin3. unfold Rdiv. ring. }
  unfold alpha_statistical_analysis, basic_statistical_analysis, alpha_jackknife_analysis, basic_jackknife_analysis.
  rewrite !alpha_terms, !basic_terms, H1, H2, E1, E2. split; auto.
  rewrite alpha_jk_terms, !jk_map. do 2 f_equal. f_equal; apply map_ext; intros x.
  - rewrite (sum_ext (d1 delta_beta) _ l (d1_split delta_beta)), d1_split.
    rewrite (sum_map_plus (fun x => / (2 * delta_beta) * qp x + - / (2 * delta_beta) * qm x)), (sum_map_plus (fun x => / (2 * delta_beta) * qp x)), !sum_map_scale.
    unfold loo, Rdiv. ring.
  - rewrite (sum_ext (d2 delta_beta) _ l (d2_split delta_beta)), d2_split.
    rewrite (sum_map_plus (fun x => / (delta_beta ^ 2) * qp x + / (delta_beta ^ 2) * qm x)), (sum_map_plus (fun x => / (delta_beta ^ 2) * qp x)), !sum_map_scale.
    unfold loo, Rdiv. ring.
Qed.

(** ---- C35 ---- *)
Theorem jk_leaves_one_out l1 x l2 :
  let l := l1 ++ x :: l2 in (2 <= length l)%nat ->
  length (calculate_jackknife_term (length l) l) = length l /\
  nth (length l1) (calculate_jackknife_term (length l) l) 0 = mean (l1 ++ l2).
Proof.
  intros l Hl. assert (calculate_jackknife_term (length l) l = map (fun x => (sum l - x) / (INR (length l) - 1)) l) as E.
  { pose proof (jk_map (fun x => x) l) as H. rewrite map_id in H. exact H. }
  rewrite E, map_length. split; auto. unfold l. rewrite map_app. rewrite app_nth2; rewrite map_length; auto. rewrite Nat.sub_diag. cbn [map nth].
  unfold mean. f_equal.
  - rewrite !sum_app, sum_cons. ring.
  - rewrite !app_length. cbn [length]. rewrite Nat.add_succ_r, S_INR. ring.
Qed.

Theorem jk_same_mean l : (2 <= length l)%nat -> mean (calculate_jackknife_term (length l) l) = mean l.
Proof.
  intros Hl. pose proof (jk_map (fun x => x) l) as E. rewrite map_id in E. rewrite E. unfold mean. rewrite map_length.
  rewrite (sum_ext _ (fun x => sum l / (INR (length l) - 1) + - / (INR (length l) - 1) * x)) by (intros; unfold Rdiv; ring).
  rewrite sum_map_plus, sum_const, sum_map_scale, map_id.
  assert (2 <= INR (length l)) by (apply (le_INR 2); auto). field. lra.
Qed.

(** squared deviations of the leave-one-out terms *)
Definition dev (l : list R) : R := sum (map (fun x => (x - mean l) * (x - mean l)) l).

Lemma sum_nonneg l : (forall x, In x l -> 0 <= x) -> 0 <= sum l.
Proof. induction l; intros H; [unfold sum; simpl; lra|]. rewrite sum_cons. assert (0 <= a) by (apply H; left; auto). assert (0 <= sum l) by (apply IHl; intros; apply H; right; auto). lra. Qed.
Lemma dev_nonneg l : 0 <= dev l.
Proof. apply sum_nonneg. intros x H. apply in_map_iff in H. destruct H as (y & <- & _). apply Rle_0_sqr. Qed.

Lemma dev_affine c k (l : list R) : l <> [] -> dev (map (fun x => c * x + k) l) = c ^ 2 * dev l.
Proof.
  intros Hl. assert (INR (length l) <> 0) as HN by (apply not_0_INR; destruct l; [congruence|discriminate]).
  assert (mean (map (fun x => c * x + k) l) = c * mean l + k) as EM.
  { unfold mean. rewrite map_length, (sum_map_plus (fun x => c * x)), sum_const, sum_map_scale, map_id. field. auto. }
  unfold dev. rewrite EM, map_map, <- sum_map_scale. apply sum_ext. intros x. ring.
Qed.

Lemma std_dev d l : std d l = sqrt (dev l / (INR (length l) - INR d)).
Proof. reflexivity. Qed.

(** the list without its i-th element *)
Definition without {A} (i : nat) (l : list A) : list A := firstn i l ++ skipn (S i) l.

Lemma map_index {A B} (g : A -> B) (l : list A) (h : nat -> B) :
  (forall i x, nth_error l i = Some x -> h i = g x) -> map g l = map h (seq 0 (length l)).
Proof.
  revert h. induction l as [|x l IH]; intros h H; auto. cbn [length seq map]. f_equal.
  - symmetry. apply (H 0%nat). auto.
  - rewrite <- seq_shift, map_map. apply (IH (fun i => h (S i))). intros i y Hi. apply (H (S i)). auto.
Qed.

Lemma without_length {A} i (l : list A) x : nth_error l i = Some x -> length l = S (length (without i l)).
Proof.
  intros H. unfold without. apply nth_error_split in H. destruct H as (a & b & -> & <-).
  rewrite firstn_app, Nat.sub_diag, firstn_all2, skipn_app, skipn_all2 by lia. replace (S (length a) - length a)%nat with 1%nat by lia. cbn [firstn skipn app].
  rewrite app_nil_r, !app_length. cbn. lia.
Qed.
Lemma without_sum {A} (f : A -> R) i l x : nth_error l i = Some x -> sum (map f l) - f x = sum (map f (without i l)).
Proof.
  intros H. unfold without. apply nth_error_split in H. destruct H as (a & b & -> & <-).
  rewrite firstn_app, Nat.sub_diag, firstn_all2, skipn_app, skipn_all2 by lia. replace (S (length a) - length a)%nat with 1%nat by lia. cbn [firstn skipn app].
  rewrite app_nil_r, !map_app, !sum_app. cbn [map]. rewrite sum_cons. ring.
Qed.
Lemma loo_without {A} (f : A -> R) i l x : nth_error l i = Some x -> loo f l x = mean (map f (without i l)).
Proof.
  intros H. unfold loo, mean. rewrite (without_sum f i l x H), map_length, (without_length i l x H), S_INR. f_equal. ring.
Qed.

Lemma err_dev X l : (2 <= X)%nat -> length l = X -> sqrt (INR X - 1) * std 1 l = sqrt (dev l).
Proof.
  intros H E. pose proof (le_INR 2 X H) as HN. simpl (INR 2) in HN. rewrite std_dev, E. rewrite <- sqrt_mult_alt by lra. f_equal. simpl. field. lra.
Qed.

Theorem jackknife_spec T a l : (2 <= length l)%nat ->
  let X := length l in
  let a0 := {| a_E := 0; a_Cv := 0; a_alpha_plus := a_alpha_plus a; a_alpha_minus := a_alpha_minus a |} in
  forall op, op = (basic_statistical_analysis, basic_jackknife_analysis) \/ op = (alpha_statistical_analysis, alpha_jackknife_analysis) ->
  let est := fun s => fst op T (length s) (arrays s) a0 in
  let E_i := map (fun i => e_E (est (without i l))) (seq 0 X) in
  let Cv_i := map (fun i => e_Cv (est (without i l))) (seq 0 X) in
  snd op T X (arrays l) a =
    (fst op T X (arrays l) a,
     {| j_E := INR X * e_E (est l) - (INR X - 1) * mean E_i + a_E a;
        j_E_error := sqrt (dev E_i);
        j_Cv := INR X * e_Cv (est l) - (INR X - 1) * mean Cv_i + a_Cv a;
        j_Cv_error := sqrt (dev Cv_i) |}).
Proof.
  intros HX X a0 op Hop est E_i Cv_i.
  assert (length E_i = X /\ length Cv_i = X) as [LE LC] by (unfold E_i, Cv_i; rewrite !map_length, !seq_length; auto).
  rewrite <- (err_dev X E_i), <- (err_dev X Cv_i) by auto.
  destruct Hop as [-> | ->]; cbn [fst snd] in *.
  - unfold basic_jackknife_analysis, basic_statistical_analysis. rewrite basic_terms. f_equal.
    unfold X. rewrite !jk_map.
    change (fun x => (sum (map q0 l) - q0 x) / (INR (length l) - 1)) with (loo q0 l).
    change (fun x => (sum (map (d1 delta_beta) l) - d1 delta_beta x) / (INR (length l) - 1)) with (loo (d1 delta_beta) l).
    change (fun x => (sum (map (d2 delta_beta) l) - d2 delta_beta x) / (INR (length l) - 1)) with (loo (d2 delta_beta) l).
    rewrite estimate_jk_map.
    assert (map (fE (loo q0 l) (loo (d1 delta_beta) l)) l = E_i) as ->.
    { apply map_index. intros i x Hi. unfold est, basic_statistical_analysis. rewrite basic_terms. cbn. rewrite Rplus_0_r. unfold fE.
      rewrite !(loo_without _ i l x Hi). auto. }
    assert (map (fC T (loo q0 l) (loo (d1 delta_beta) l) (loo (d2 delta_beta) l)) l = Cv_i) as ->.
    { apply map_index. intros i x Hi. unfold est, basic_statistical_analysis. rewrite basic_terms. cbn. rewrite Rplus_0_r. unfold fC, fE.
      rewrite !(loo_without _ i l x Hi). auto. }
    unfold add_harmonic_jk. cbn [j_E j_E_error j_Cv j_Cv_error]. unfold est, basic_statistical_analysis. rewrite basic_terms. cbn. rewrite !Rplus_0_r. reflexivity.
  - unfold alpha_jackknife_analysis, alpha_statistical_analysis. rewrite alpha_terms. unfold X. rewrite alpha_jk_terms. f_equal.
    rewrite (estimate_jk_map (length l) T _ (loo q0 l)).
    assert (map (fE (loo q0 l) (fun x => (loo qp l x * a_alpha_plus a - loo qm l x * a_alpha_minus a) / (2 * delta_beta))) l = E_i) as ->.
    { apply map_index. intros i x Hi. unfold est, alpha_statistical_analysis. rewrite alpha_terms. cbn. rewrite Rplus_0_r. unfold fE.
      rewrite !(loo_without _ i l x Hi). auto. }
    assert (map (fC T (loo q0 l) (fun x => (loo qp l x * a_alpha_plus a - loo qm l x * a_alpha_minus a) / (2 * delta_beta))
       (fun x => (loo qp l x * a_alpha_plus a - 2 * loo q0 l x + loo qm l x * a_alpha_minus a) / delta_beta ^ 2)) l = Cv_i) as ->.
    { apply map_index. intros i x Hi. unfold est, alpha_statistical_analysis. rewrite alpha_terms. cbn. rewrite Rplus_0_r. unfold fC, fE.
      rewrite !(loo_without _ i l x Hi). auto. }
    unfold add_harmonic_jk. cbn [j_E j_E_error j_Cv j_Cv_error]. unfold est, alpha_statistical_analysis. rewrite alpha_terms. cbn. rewrite !Rplus_0_r. reflexivity.
Qed.

(** the reported error of Z is the standard error of the mean *)
Theorem Z_error l X : (2 <= length l)%nat -> X = length l ->
  snd (basic_estimate_Z l X) = sqrt (dev l / (INR X * (INR X - 1))).
Proof.
  intros Hl ->. unfold basic_estimate_Z. cbn [snd]. rewrite std_dev. assert (2 <= INR (length l)) by (apply (le_INR 2); auto).
  rewrite <- sqrt_div_alt by lra. f_equal. cbn [INR]. field. lra.
Qed.

Section Linear.
  (** all ratios g/rho equal to z: the energy estimator is then linear in the derivative terms *)
  Variables (T z : R) (sym1 sym2 : list R).
  Let X := length sym1.
  Hypothesis HX : (2 <= X)%nat.
  Hypothesis Hz : z <> 0.
  Let ratios := map (fun _ => z) sym1.
  Let d := estimate_basic_properties X T ratios (mean sym1) (mean sym2).
  Let j := estimate_jackknife X T d (calculate_jackknife_term X ratios) (calculate_jackknife_term X sym1) (calculate_jackknife_term X sym2).

  Lemma NX : 2 <= INR X. Proof. apply (le_INR 2), HX. Qed.

  Lemma fE_linear :
    map2 Rdiv (map (fun x => -1 * x) (calculate_jackknife_term X sym1)) (calculate_jackknife_term X ratios) =
    map (fun x => / (z * (INR X - 1)) * x + - sum sym1 / (z * (INR X - 1))) sym1.
  Proof.
    pose proof NX. pose proof (jk_map (fun x => x) sym1) as E. rewrite map_id in E. fold X in E. rewrite E.
    unfold ratios. pose proof (jk_map (fun _ : R => z) sym1) as E'. fold X in E'. rewrite E', map_map, map2_map.
    apply map_ext. intros x. rewrite sum_const. fold X. field. split; try lra. split; auto. intros HH. 
    assert (z * (INR X - 1) = 0) by lra. apply Rmult_integral in H0. lra.
  Qed.

  Theorem linear_E : j_E j = e_E d.
  Proof.
    pose proof NX. unfold j, estimate_jackknife. cbn [j_E]. rewrite fE_linear. unfold mean at 1. rewrite map_length. fold X.
    rewrite (sum_map_plus (fun x => / (z * (INR X - 1)) * x)), sum_const, sum_map_scale, map_id. fold X.
    unfold d, estimate_basic_properties, basic_estimate_E, basic_estimate_Z, basic_estimate_Cv. cbn [e_E].
    assert (mean ratios = z) as ->.
    { unfold ratios, mean. rewrite sum_const, map_length. fold X. field. lra. }
    unfold mean. fold X. field. repeat split; lra.
  Qed.

  (** the true standard error is sqrt(dev / (X (X-1))) / |z|; the code returns sqrt(X/(X-1)) times it *)
  Theorem linear_E_error : j_E_error j = sqrt (INR X / (INR X - 1)) * (sqrt (dev sym1 / (INR X * (INR X - 1))) / Rabs z).
  Proof.
    pose proof NX. unfold j, estimate_jackknife. cbn [j_E_error]. rewrite fE_linear, std_dev, map_length. fold X. rewrite dev_affine.
    2:{ intros E. unfold X in HX. rewrite E in HX. simpl in HX. lia. }
    pose proof (dev_nonneg sym1).
    rewrite <- sqrt_mult_alt by lra.
    assert (Rabs z = sqrt (z ^ 2)) as -> by (rewrite <- Rsqr_pow2; symmetry; apply sqrt_Rsqr_abs).
    assert (0 < z ^ 2) by (rewrite <- Rsqr_pow2; apply Rsqr_pos_lt; auto).
    rewrite <- sqrt_div_alt by auto. rewrite <- sqrt_mult_alt.
    2:{ apply Rlt_le, Rdiv_lt_0_compat; lra. }
    f_equal. cbn [INR]. field. repeat split; lra.
  Qed.
End Linear.

Lemma map_repeat {A B} (f : A -> B) a n : map f (repeat a n) = repeat (f a) n.
Proof. induction n; simpl; congruence. Qed.

(** identical samples: no error at all *)
Theorem identical_errors T X x db : (2 <= X)%nat -> p_rho x <> 0 ->
  let l := repeat x X in
  let '(g_r, s1, s2) := calculate_basic_property_terms db (arrays l) in
  let d := estimate_basic_properties X T g_r (mean s1) (mean s2) in
  let j := estimate_jackknife X T d (calculate_jackknife_term X g_r) (calculate_jackknife_term X s1) (calculate_jackknife_term X s2) in
  e_Z_error d = 0 /\ (p_g x <> 0 -> j_E j = e_E d /\ j_Cv j = e_Cv d) /\ j_E_error j = 0 /\ j_Cv_error j = 0.
Proof.
  intros HX Hr. cbv zeta. rewrite basic_terms.
  assert (2 <= INR X) as NX by (apply (le_INR 2); auto).
  assert (forall f : point -> R, map f (repeat x X) = repeat (f x) X) as MR by (intros f; apply map_repeat).
  assert (forall c, sum (repeat c X) = INR X * c) as SR.
  { intros c. clear. induction X as [|n IH]; [unfold sum; simpl; lra|]. cbn [repeat]. rewrite sum_cons, IH, S_INR. ring. }
  assert (forall c, mean (repeat c X) = c) as ME.
  { intros c. unfold mean. rewrite repeat_length, SR. field. lra. }
  assert (forall n c, std n (repeat c X) = 0) as ST.
  { intros n c. unfold std. rewrite ME, map_repeat, SR. rewrite Rminus_diag_eq by auto. rewrite Rmult_0_l, Rmult_0_r. unfold Rdiv. rewrite Rmult_0_l. apply sqrt_0. }
  assert (forall f : point -> R, calculate_jackknife_term X (map f (repeat x X)) = map f (repeat x X)) as JK.
  { intros f. pose proof (jk_map f (repeat x X)) as E. rewrite repeat_length in E. rewrite E. rewrite !MR, SR.
    f_equal. field. lra. }
  rewrite !JK, estimate_jk_map. cbn [j_E j_E_error j_Cv j_Cv_error].
  rewrite !MR, !ME, !ST.
  unfold estimate_basic_properties, basic_estimate_Z, basic_estimate_E, basic_estimate_Cv. cbn [e_Z_error e_E e_Cv]. rewrite ST, !ME.
  split; [unfold Rdiv; ring|]. split; [|split; ring].
  intros Hg. unfold fE, fC, fE. split; ring.
Qed.

(** ---- C36 ---- *)
Theorem beta_inverse t : 0 < t -> 0 < beta t /\ extract_T_from_beta (beta t) = t /\ 0 < extract_T_from_beta t /\ beta (extract_T_from_beta t) = t.
Proof.
  intros H. pose proof boltzman_pos. unfold beta, extract_T_from_beta.
  assert (0 < 1 / (t * boltzman)) by (apply Rdiv_lt_0_compat; nra).
  split; auto. split; [field; lra|]. split; auto. field. lra.
Qed.
Theorem beta_decreasing t u : 0 < t -> t < u -> beta u < beta t /\ extract_T_from_beta u < extract_T_from_beta t.
Proof.
  intros H1 H2. pose proof boltzman_pos. unfold beta, extract_T_from_beta, Rdiv. rewrite !Rmult_1_l.
  assert (0 < t * boltzman) by (apply Rmult_lt_0_compat; lra). assert (0 < u * boltzman) by (apply Rmult_lt_0_compat; lra).
  assert (t * boltzman < u * boltzman) by (apply Rmult_lt_compat_r; lra).
  split; (apply Rinv_lt_contravar; [apply Rmult_lt_0_compat|]; auto).
Qed.

(** ---- C59 ---- *)
Definition basic_with db T X (s : samples) (a : analytic) : estimates :=
  let '(g_r, d1, d2) := calculate_basic_property_terms db s in
  add_harmonic_contribution (estimate_basic_properties X T g_r (mean d1) (mean d2)) (a_E a) (a_Cv a).
Definition alpha_with db T X (s : samples) (a : analytic) : estimates :=
  let '((g_r, d1, d2), _) := calculate_alpha_terms db s (a_alpha_plus a) (a_alpha_minus a) in
  add_harmonic_contribution (estimate_basic_properties X T g_r d1 d2) (a_E a) (a_Cv a).

(** exact sampling: the means of the ratios are the ratios of the partition functions *)
Definition exact_samples (Z Zr : R -> R) (b db : R) (l : list point) : Prop :=
  mean (map q0 l) = Z b / Zr b /\ mean (map qp l) = Z (b + db) / Zr b /\ mean (map qm l) = Z (b - db) / Zr b.
(** the analytic data of the sampling model (postprocessing.py:329-334) *)
Definition analytic_of (Zr : R -> R) (b db E Cv : R) : analytic :=
  {| a_E := E; a_Cv := Cv; a_alpha_plus := Zr b / Zr (b + db); a_alpha_minus := Zr b / Zr (b - db) |}.
(** symmetric difference quotients of a function f relative to its value *)
Definition sd1 (f : R -> R) (b db : R) : R := (f (b + db) - f (b - db)) / (2 * db) / f b.
Definition sd2 (f : R -> R) (b db : R) : R := (f (b + db) - 2 * f b + f (b - db)) / db ^ 2 / f b.

Theorem exact_basic Z Zr b db T E Cv l :
  exact_samples Z Zr b db l -> db <> 0 -> Z b <> 0 -> Zr b <> 0 ->
  let e := basic_with db T (length l) (arrays l) (analytic_of Zr b db E Cv) in
  e_E e = - sd1 Z b db + E /\ e_Cv e = (sd2 Z b db - sd1 Z b db ^ 2) / (boltzman * T ^ 2) + Cv.
Proof.
  intros (H0 & H1 & H2) Hd HZ Hr. cbv zeta. unfold basic_with. rewrite basic_terms.
  rewrite (mean_ext (d1 db) _ l (d1_split db)), mean_lin3, (mean_ext (d2 db) _ l (d2_split db)), mean_lin3.
  unfold estimate_basic_properties, basic_estimate_Z, basic_estimate_E, basic_estimate_Cv, add_harmonic_contribution, analytic_of. cbn [e_E e_Cv a_E a_Cv].
  rewrite H0, H1, H2. unfold sd1, sd2. split; [field; auto|]. apply (f_equal (fun u => u / (boltzman * T ^ 2) + Cv)). field. auto.
Qed.

Theorem exact_alpha Z Zr b db T E Cv l :
  exact_samples Z Zr b db l -> db <> 0 -> Z b <> 0 -> Zr b <> 0 -> Zr (b + db) <> 0 -> Zr (b - db) <> 0 ->
  let D := fun x => Z x / Zr x in
  let e := alpha_with db T (length l) (arrays l) (analytic_of Zr b db E Cv) in
  e_E e = - sd1 D b db + E /\ e_Cv e = (sd2 D b db - sd1 D b db ^ 2) / (boltzman * T ^ 2) + Cv.
Proof.
  intros (H0 & H1 & H2) Hd HZ Hr Hp Hm. cbv zeta. unfold alpha_with. rewrite alpha_terms.
  unfold estimate_basic_properties, basic_estimate_Z, basic_estimate_E, basic_estimate_Cv, add_harmonic_contribution, analytic_of. cbn [e_E e_Cv a_E a_Cv a_alpha_plus a_alpha_minus].
  rewrite H0, H1, H2. unfold sd1, sd2. split; [field; auto|]. apply (f_equal (fun u => u / (boltzman * T ^ 2) + Cv)). field. auto.
Qed.
