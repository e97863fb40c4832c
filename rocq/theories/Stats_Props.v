(** Properties C31-C36 and C59: the statistics.

    A [point] holds rho, g, g+ and g- of one sample; [arrays] turns a list of
    points into the four arrays of a result object; X is the number of samples. *)
From Coq Require Import List Reals Lra Lia Permutation.
From Verif Require Import Stats_Model Stats_Proofs Stats2_Proofs.
Import ListNotations.
Local Open Scope R_scope.

(** ---- C31 ---- *)
Theorem C31_order_independent l l' T a : Permutation l l' ->
  basic_statistical_analysis T (length l) (arrays l) a = basic_statistical_analysis T (length l') (arrays l') a /\
  alpha_statistical_analysis T (length l) (arrays l) a = alpha_statistical_analysis T (length l') (arrays l') a /\
  basic_jackknife_analysis T (length l) (arrays l) a = basic_jackknife_analysis T (length l') (arrays l') a /\
  alpha_jackknife_analysis T (length l) (arrays l) a = alpha_jackknife_analysis T (length l') (arrays l') a.
Proof. intros H. exact (conj (order_basic l l' H T a) (conj (order_alpha l l' H T a) (conj (order_basic_jk l l' H T a) (order_alpha_jk l l' H T a)))). Qed.
Print Assumptions C31_order_independent.

Lemma concat_perm {A} (f f' : list (list A)) : Permutation f f' -> Permutation (concat f) (concat f').
Proof.
  induction 1; simpl; auto.
  - apply Permutation_app_head. auto.
  - rewrite !app_assoc. apply Permutation_app_tail, Permutation_app_comm.
  - eapply Permutation_trans; eauto.
Qed.

(** the result files may be read in any order *)
Theorem C31_file_order (files files' : list (list point)) T a : Permutation files files' ->
  let s := concat files in let s' := concat files' in
  basic_statistical_analysis T (length s) (arrays s) a = basic_statistical_analysis T (length s') (arrays s') a /\
  alpha_statistical_analysis T (length s) (arrays s) a = alpha_statistical_analysis T (length s') (arrays s') a /\
  basic_jackknife_analysis T (length s) (arrays s) a = basic_jackknife_analysis T (length s') (arrays s') a /\
  alpha_jackknife_analysis T (length s) (arrays s) a = alpha_jackknife_analysis T (length s') (arrays s') a.
Proof. intros H. apply C31_order_independent, concat_perm, H. Qed.
Print Assumptions C31_file_order.

Definition pt r g p m : point := {| p_rho := r; p_g := g; p_gp := p; p_gm := m |}.
Example C31_example : Permutation [[pt 1 2 3 4]; [pt 2 2 2 2; pt 5 6 7 8]] [[pt 2 2 2 2; pt 5 6 7 8]; [pt 1 2 3 4]].
Proof. constructor. Qed.

(** ---- C32 ---- *)
Theorem C32_only_ratios (cs : list (R * point)) T a :
  (forall c x, In (c, x) cs -> c <> 0 /\ p_rho x <> 0) ->
  let l := map snd cs in
  let l' := map (fun cx => {| p_rho := fst cx * p_rho (snd cx); p_g := fst cx * p_g (snd cx);
                              p_gp := fst cx * p_gp (snd cx); p_gm := fst cx * p_gm (snd cx) |}) cs in
  basic_statistical_analysis T (length l) (arrays l') a = basic_statistical_analysis T (length l) (arrays l) a /\
  alpha_statistical_analysis T (length l) (arrays l') a = alpha_statistical_analysis T (length l) (arrays l) a /\
  basic_jackknife_analysis T (length l) (arrays l') a = basic_jackknife_analysis T (length l) (arrays l) a /\
  alpha_jackknife_analysis T (length l) (arrays l') a = alpha_jackknife_analysis T (length l) (arrays l) a.
Proof. intros H. exact (scale_all cs H T a). Qed.
Print Assumptions C32_only_ratios.

Example C32_example : forall c x, In (c, x) [(2, pt 1 2 3 4); (-3, pt 5 6 7 8)] -> c <> 0 /\ p_rho x <> 0.
Proof. intros c x [E|[E|[]]]; injection E as <- <-; cbn; lra. Qed.

(** ---- C33 ---- *)
(** [quad]: rho and the coefficients of G; G', G'' are its derivatives *)
Theorem C33_terms_exact db b l : db <> 0 -> (forall x, In x l -> c_rho x <> 0) ->
  calculate_basic_property_terms db (arrays (map (fun x => {| p_rho := c_rho x; p_g := G x b; p_gp := G x (b + db); p_gm := G x (b - db) |}) l)) =
    (map (fun x => G x b / c_rho x) l, map (fun x => G' x b / c_rho x) l, map (fun x => G'' x / c_rho x) l).
Proof. exact (quad_terms db b l). Qed.
Print Assumptions C33_terms_exact.

Theorem C33_estimates T b a l : T <> 0 ->
  (forall x, In x l -> c_rho x <> 0) -> sum (map (fun x => G x b / c_rho x) l) <> 0 ->
  let avg f := sum (map (fun x : quad => f x / c_rho x) l) / INR (length l) in
  (* the step of the finite difference is 2.0e-4, constants.py:28 *)
  let e := basic_statistical_analysis T (length l) (arrays (map (on_quad (2 / 10000) b) l)) a in
  e_Z e = avg (fun x => G x b) /\
  e_E e = - (avg (fun x => G' x b) / avg (fun x => G x b)) + a_E a /\
  (e_Cv e - a_Cv a) * (boltzman * T ^ 2) = avg G'' / avg (fun x => G x b) - (avg (fun x => G' x b) / avg (fun x => G x b)) ^ 2.
Proof. exact (quad_estimates T b a l). Qed.
Print Assumptions C33_estimates.

(** the basic and the alpha analysis report no error for E and Cv *)
Theorem C33_no_errors T X s a :
  let e := basic_statistical_analysis T X s a in let f := alpha_statistical_analysis T X s a in
  e_E_error e = 0 /\ e_Cv_error e = 0 /\ e_E_error f = 0 /\ e_Cv_error f = 0.
Proof. repeat split. Qed.
Print Assumptions C33_no_errors.

Theorem C33_derivatives x b : derivable_pt_lim (G x) b (G' x b) /\ derivable_pt_lim (G' x) b (G'' x).
Proof.
  unfold G, G', G''. split.
  - replace (c_1 x + 2 * c_2 x * b) with (0 + c_1 x * 1 + c_2 x * (INR 2 * b ^ 1)) by (simpl; ring).
    apply (derivable_pt_lim_plus (fun b => c_0 x + c_1 x * b)); [|apply derivable_pt_lim_scal, derivable_pt_lim_pow].
    apply (derivable_pt_lim_plus (fun _ => c_0 x)); [apply derivable_pt_lim_const|apply derivable_pt_lim_scal, derivable_pt_lim_id].
  - enough (derivable_pt_lim (fun b0 => c_1 x + 2 * c_2 x * b0) b (0 + 2 * c_2 x * 1)) as H by (rewrite Rplus_0_l, Rmult_1_r in H; exact H).
    apply (derivable_pt_lim_plus (fun _ => c_1 x)); [apply derivable_pt_lim_const|apply derivable_pt_lim_scal, derivable_pt_lim_id].
Qed.
Print Assumptions C33_derivatives.

Example C33_example :
  let l := [Build_quad 2 1 3 5; Build_quad (-1) 1 0 2] in
  (forall x, In x l -> c_rho x <> 0) /\ sum (map (fun x => G x 1 / c_rho x) l) <> 0.
Proof. cbv zeta. split; [intros x [<-|[<-|[]]]; cbn; lra|]. unfold sum, G. cbn. lra. Qed.

(** ---- C34 ---- *)
Theorem C34_alpha_one T a l : a_alpha_plus a = 1 -> a_alpha_minus a = 1 ->
  alpha_statistical_analysis T (length l) (arrays l) a = basic_statistical_analysis T (length l) (arrays l) a /\
  alpha_jackknife_analysis T (length l) (arrays l) a = basic_jackknife_analysis T (length l) (arrays l) a.
Proof. exact (alpha_one T a l). Qed.
Print Assumptions C34_alpha_one.

Example C34_example : exists a, a_alpha_plus a = 1 /\ a_alpha_minus a = 1 /\ a_E a = 5.
Proof. exists (Build_analytic 5 6 1 1). auto. Qed.

(** ---- C35 ---- *)
Theorem C35_leave_one_out l1 x l2 :
  let l := l1 ++ x :: l2 in (2 <= length l)%nat ->
  length (calculate_jackknife_term (length l) l) = length l /\
  nth (length l1) (calculate_jackknife_term (length l) l) 0 = sum (l1 ++ l2) / INR (length (l1 ++ l2)).
Proof. exact (jk_leaves_one_out l1 x l2). Qed.
Print Assumptions C35_leave_one_out.

Theorem C35_same_mean l : (2 <= length l)%nat -> mean (calculate_jackknife_term (length l) l) = mean l.
Proof. exact (jk_same_mean l). Qed.
Print Assumptions C35_same_mean.

(** the error of Z is the standard error of the mean; [dev] is the sum of squared deviations *)
Theorem C35_Z_error l : (2 <= length l)%nat ->
  basic_estimate_Z l (length l) = (mean l, sqrt (dev l / (INR (length l) * (INR (length l) - 1)))).
Proof. intros H. rewrite <- (Z_error l (length l) H eq_refl). reflexivity. Qed.
Print Assumptions C35_Z_error.

(** the jackknife estimates are built from the plain estimates with one sample left out *)
Theorem C35_jackknife T a l : (2 <= length l)%nat ->
  let X := length l in
  let a0 := {| a_E := 0; a_Cv := 0; a_alpha_plus := a_alpha_plus a; a_alpha_minus := a_alpha_minus a |} in
  forall op, op = (basic_statistical_analysis, basic_jackknife_analysis) \/ op = (alpha_statistical_analysis, alpha_jackknife_analysis) ->
  let est := fun s => fst op T (length s) (arrays s) a0 in
  let E_i := map (fun i => e_E (est (without i l))) (seq 0 X) in
  let Cv_i := map (fun i => e_Cv (est (without i l))) (seq 0 X) in
  snd op T X (arrays l) a =
    (fst op T X (arrays l) a,
     {| j_E := INR X * e_E (est l) - (INR X - 1) * mean E_i + a_E a;
        j_E_error := sqrt (dev E_i);
        j_Cv := INR X * e_Cv (est l) - (INR X - 1) * mean Cv_i + a_Cv a;
        j_Cv_error := sqrt (dev Cv_i) |}).
Proof. exact (jackknife_spec T a l). Qed.
Print Assumptions C35_jackknife.

(** linear statistic (all ratios equal to z): the jackknife energy is the plain one *)
Theorem C35_linear_energy T z sym1 sym2 :
  (2 <= length sym1)%nat -> z <> 0 ->
  let X := length sym1 in let ratios := map (fun _ => z) sym1 in
  let d := estimate_basic_properties X T ratios (mean sym1) (mean sym2) in
  let j := estimate_jackknife X T d (calculate_jackknife_term X ratios) (calculate_jackknife_term X sym1) (calculate_jackknife_term X sym2) in
  e_E d = - (mean sym1 / z) /\ j_E j = e_E d.
Proof.
  intros H Hz. cbv zeta. split; [|exact (linear_E T z sym1 sym2 H Hz)].
  unfold estimate_basic_properties, basic_estimate_Z, basic_estimate_E, basic_estimate_Cv. cbn [e_E].
  assert (mean (map (fun _ => z) sym1) = z) as ->; [|field; auto].
  unfold mean. rewrite sum_const, map_length. field. apply not_0_INR. lia.
Qed.
Print Assumptions C35_linear_energy.

(** finding: its error is the standard error of -mean(sym1)/z times sqrt(X/(X-1)),
    because the spread is computed with ddof=1 but multiplied by sqrt(X-1) *)
Theorem C35_linear_error_refuted T z sym1 sym2 :
  (2 <= length sym1)%nat -> z <> 0 ->
  let X := length sym1 in let ratios := map (fun _ => z) sym1 in
  let d := estimate_basic_properties X T ratios (mean sym1) (mean sym2) in
  let j := estimate_jackknife X T d (calculate_jackknife_term X ratios) (calculate_jackknife_term X sym1) (calculate_jackknife_term X sym2) in
  let standard_error := sqrt (dev sym1 / (INR X * (INR X - 1))) / Rabs z in
  j_E_error j = sqrt (INR X / (INR X - 1)) * standard_error /\ 1 < sqrt (INR X / (INR X - 1)).
Proof.
  intros H Hz. cbv zeta. split; [exact (linear_E_error T z sym1 sym2 H Hz)|].
  pose proof (le_INR 2 (length sym1) H) as HN. simpl (INR 2) in HN. rewrite <- sqrt_1 at 1. apply sqrt_lt_1_alt. split; [lra|].
  apply Rmult_lt_reg_r with (INR (length sym1) - 1); [lra|]. unfold Rdiv. rewrite Rmult_assoc, Rinv_l by lra. lra.
Qed.
Print Assumptions C35_linear_error_refuted.

Theorem C35_identical_samples T X x db : (2 <= X)%nat -> p_rho x <> 0 ->
  let '(g_r, s1, s2) := calculate_basic_property_terms db (arrays (repeat x X)) in
  let d := estimate_basic_properties X T g_r (mean s1) (mean s2) in
  let j := estimate_jackknife X T d (calculate_jackknife_term X g_r) (calculate_jackknife_term X s1) (calculate_jackknife_term X s2) in
  e_Z_error d = 0 /\ (p_g x <> 0 -> j_E j = e_E d /\ j_Cv j = e_Cv d) /\ j_E_error j = 0 /\ j_Cv_error j = 0.
Proof. exact (identical_errors T X x db). Qed.
Print Assumptions C35_identical_samples.

Example C35_example : calculate_jackknife_term 3 [1; 2; 6] = [4; 3.5; 1.5] /\ snd (basic_estimate_Z [1; 3] 2) = 1.
Proof.
  split.
  - unfold calculate_jackknife_term, sum. cbn. f_equal; [lra|f_equal; [lra|f_equal; lra]].
  - change 2%nat with (length [1; 3]). rewrite C35_Z_error by (cbn; lia). cbn [snd]. replace (dev [1; 3] / (INR (length [1; 3]) * (INR (length [1; 3]) - 1))) with 1; [apply sqrt_1|].
    unfold dev, mean, sum. cbn. field.
Qed.

(** ---- C36 ---- *)
Theorem C36_inverse t : 0 < t ->
  0 < beta t /\ extract_T_from_beta (beta t) = t /\ 0 < extract_T_from_beta t /\ beta (extract_T_from_beta t) = t.
Proof. exact (beta_inverse t). Qed.
Print Assumptions C36_inverse.

Theorem C36_decreasing t u : 0 < t -> t < u -> beta u < beta t /\ extract_T_from_beta u < extract_T_from_beta t.
Proof. exact (beta_decreasing t u). Qed.
Print Assumptions C36_decreasing.

(** the numbers: k = 1.38064852e-23 J/K and 1 eV = 1.6021766208e-19 J *)
Theorem C36_units t : 0 < t -> beta t * (138064852 / 10 ^ 31 * t) = 16021766208 / 10 ^ 29.
Proof. intros H. unfold beta, boltzman. field. lra. Qed.
Print Assumptions C36_units.

(** 300 K is about 38.68 per eV *)
Example C36_example : 38.68 < beta 300 < 38.69.
Proof. unfold beta, boltzman. lra. Qed.

(** ---- C59 ---- *)
(** Z and Zr are the partition functions of the model and of the sampling
    distribution as functions of beta; Z1, Z2, Zr1, Zr2 their derivatives.
    [exact_samples]: sampling without statistical error.  [analytic_of]: the
    analytic data of the sampling model.  [alpha_with db], [basic_with db] are
    the two analyses with delta_beta = db. *)
Theorem C59_analyses_with db : alpha_with delta_beta = alpha_statistical_analysis /\ basic_with delta_beta = basic_statistical_analysis /\
  (forall T X s a, let '(g_r, d1, d2) := calculate_basic_property_terms db s in
     e_E (basic_with db T X s a) = - 1 * mean d1 / mean g_r + a_E a).
Proof. repeat split. Qed.
Print Assumptions C59_analyses_with.

Theorem C59_alpha_correct Z Z1 Zr Zr1 b Z2 Zr2 d0 T l :
  0 < d0 ->
  (forall x, Rabs (x - b) < d0 -> derivable_pt_lim Z x (Z1 x) /\ derivable_pt_lim Zr x (Zr1 x) /\ 0 < Zr x) ->
  derivable_pt_lim Z1 b Z2 -> derivable_pt_lim Zr1 b Zr2 -> Z b <> 0 ->
  (forall db, exact_samples Z Zr b db (l db)) ->
  let a := fun db => analytic_of Zr b db (- (Zr1 b / Zr b)) ((Zr2 / Zr b - (Zr1 b / Zr b) ^ 2) / (boltzman * T ^ 2)) in
  tends (fun db => e_E (alpha_with db T (length (l db)) (arrays (l db)) (a db))) (- (Z1 b / Z b)) /\
  tends (fun db => e_Cv (alpha_with db T (length (l db)) (arrays (l db)) (a db))) ((Z2 / Z b - (Z1 b / Z b) ^ 2) / (boltzman * T ^ 2)).
Proof. intros H0 H1 H2 H3 H4 H5. exact (alpha_limit Z Z1 Zr Zr1 b Z2 Zr2 d0 T H0 H1 H2 H3 H4 l H5). Qed.
Print Assumptions C59_alpha_correct.

(** finding: the basic analysis adds the sampling model's energy and heat capacity once too often *)
Theorem C59_basic_double_counts_refuted Z Z1 Zr Zr1 b Z2 Zr2 d0 T l :
  0 < d0 ->
  (forall x, Rabs (x - b) < d0 -> derivable_pt_lim Z x (Z1 x) /\ derivable_pt_lim Zr x (Zr1 x) /\ 0 < Zr x) ->
  derivable_pt_lim Z1 b Z2 -> derivable_pt_lim Zr1 b Zr2 -> Z b <> 0 ->
  (forall db, exact_samples Z Zr b db (l db)) ->
  let E_sampling := - (Zr1 b / Zr b) in
  let Cv_sampling := (Zr2 / Zr b - (Zr1 b / Zr b) ^ 2) / (boltzman * T ^ 2) in
  let a := fun db => analytic_of Zr b db E_sampling Cv_sampling in
  tends (fun db => e_E (basic_with db T (length (l db)) (arrays (l db)) (a db))) (- (Z1 b / Z b) + E_sampling) /\
  tends (fun db => e_Cv (basic_with db T (length (l db)) (arrays (l db)) (a db))) ((Z2 / Z b - (Z1 b / Z b) ^ 2) / (boltzman * T ^ 2) + Cv_sampling).
Proof. intros H0 H1 H2 H3 H4 H5. exact (basic_limit Z Z1 Zr Zr1 b Z2 Zr2 d0 T H0 H1 H2 H4 l H5). Qed.
Print Assumptions C59_basic_double_counts_refuted.

(** with the actual delta_beta: sampling from the model itself leaves no error in the alpha analysis *)
Theorem C59_alpha_self Zr b T E Cv l :
  let db := 2 / 10000 in
  exact_samples Zr Zr b db l -> Zr b <> 0 -> Zr (b + db) <> 0 -> Zr (b - db) <> 0 ->
  let e := alpha_statistical_analysis T (length l) (arrays l) (analytic_of Zr b db E Cv) in
  e_Z e = 1 /\ e_E e = E /\ e_Cv e = Cv.
Proof. exact (alpha_self Zr b T E Cv l). Qed.
Print Assumptions C59_alpha_self.

Example C59_example :
  let Z := fun x => exp (- x) in
  (forall x, Rabs (x - 1) < 1 -> derivable_pt_lim Z x (- exp (- x)) /\ derivable_pt_lim Z x (- exp (- x)) /\ 0 < Z x) /\
  derivable_pt_lim (fun x => - exp (- x)) 1 (exp (- (1))) /\ Z 1 <> 0 /\
  (forall db, exact_samples Z Z 1 db [pt 1 1 (Z (1 + db) / Z 1) (Z (1 - db) / Z 1)]) /\
  - ((- exp (- (1))) / Z 1) = 1.
Proof.
  cbv zeta.
  assert (forall x, derivable_pt_lim (fun x => exp (- x)) x (- exp (- x))) as D.
  { intros x. replace (- exp (- x)) with (exp (- x) * (- 1)) by ring. apply (derivable_pt_lim_comp Ropp exp).
    - apply derivable_pt_lim_opp, derivable_pt_lim_id.
    - apply derivable_pt_lim_exp. }
  split; [intros x _; split; [|split]; auto; apply exp_pos|].
  split. { rewrite <- (Ropp_involutive (exp (- (1)))) at 1. apply (derivable_pt_lim_opp (fun x => exp (- x))), D. }
  split. { apply Rgt_not_eq, exp_pos. }
  split.
  - intros db. pose proof (exp_pos (- (1))). unfold exact_samples, mean, sum, q0, qp, qm. cbn. repeat split; field; lra.
  - field. apply Rgt_not_eq, exp_pos.
Qed.
