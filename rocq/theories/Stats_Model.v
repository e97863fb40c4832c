(** Model of the statistics: /repo/pibronic/stats/stats.py:38-130, 182-216,
    271-331, /repo/pibronic/stats/jackknife.py:14-105 and the constants of
    /repo/pibronic/constants.py.

    float64 arithmetic is modelled by exact real arithmetic; arrays are lists.
    Arrays combined elementwise have the same length in the code (numpy would
    raise otherwise); [map2] stops at the shorter one. *)
From Coq Require Import List Reals.
Import ListNotations.
Local Open Scope R_scope.

(** constants.py:24, 28 *)
Definition boltzman : R := 13806485200 / 16021766208 / 10000.
Definition delta_beta : R := 2 / 10000.

(** constants.py:41-44 *)
Definition beta (temperature : R) : R := 1 / (temperature * boltzman).
(** constants.py:47-50 *)
Definition extract_T_from_beta (b : R) : R := 1 / (b * boltzman).

(** numpy elementwise operations, np.sum, np.mean, np.std *)
Fixpoint map2 (f : R -> R -> R) (a b : list R) : list R :=
  match a, b with
  | x :: a', y :: b' => f x y :: map2 f a' b'
  | _, _ => []
  end.
Definition sum (l : list R) : R := fold_right Rplus 0 l.
Definition mean (l : list R) : R := sum l / INR (length l).
Definition std (ddof : nat) (l : list R) : R :=
  sqrt (sum (map (fun x => (x - mean l) * (x - mean l)) l) / (INR (length l) - INR ddof)).

(** the four arrays of a BoxResultPM object *)
Record samples := { s_rho : list R; s_g : list R; s_gp : list R; s_gm : list R }.

(** stats.py:38-55 *)
Definition calculate_basic_property_terms (db : R) (s : samples) : list R * list R * list R :=
  let ratio := map2 Rdiv (s_g s) (s_rho s) in
  let first := map (fun x => x / (2 * db)) (map2 Rdiv (map2 Rminus (s_gp s) (s_gm s)) (s_rho s)) in
  let second := map (fun x => x / (db ^ 2)) (map2 Rdiv (map2 Rplus (map2 Rminus (s_gp s) (map (fun x => 2 * x) (s_g s))) (s_gm s)) (s_rho s)) in
  (ratio, first, second).

(** stats.py:58-81; the derivative terms are numbers here *)
Definition calculate_alpha_terms (db : R) (s : samples) (alpha_plus alpha_minus : R) : (list R * R * R) * (list R * list R) :=
  let ratio := map2 Rdiv (s_g s) (s_rho s) in
  let ratio_plus := map2 Rdiv (s_gp s) (s_rho s) in
  let ratio_minus := map2 Rdiv (s_gm s) (s_rho s) in
  let first := (mean ratio_plus * alpha_plus - mean ratio_minus * alpha_minus) / (2 * db) in
  let second := (mean ratio_plus * alpha_plus - 2 * mean ratio + mean ratio_minus * alpha_minus) / (db ^ 2) in
  ((ratio, first, second), (ratio_plus, ratio_minus)).

(** the dictionary returned by estimate_basic_properties (stats.py:118-121) *)
Record estimates := { e_Z : R; e_Z_error : R; e_E : R; e_E_error : R; e_Cv : R; e_Cv_error : R }.

(** stats.py:84-90 *)
Definition basic_estimate_Z (g_over_rho : list R) (X : nat) : R * R :=
  (mean g_over_rho, std 0 g_over_rho / sqrt (INR X - 1)).
(** stats.py:93-97; [d1] is np.mean of the derivative term (of a number: the number) *)
Definition basic_estimate_E (d1 Z : R) : R * R := (- 1 * d1 / Z, 0).
(** stats.py:100-106 *)
Definition basic_estimate_Cv (d2 Z E T : R) : R * R := ((d2 / Z - E ^ 2) / (boltzman * T ^ 2), 0).
(** stats.py:109-123 *)
Definition estimate_basic_properties (X : nat) (T : R) (g_r : list R) (d1 d2 : R) : estimates :=
  let (Z, Z_err) := basic_estimate_Z g_r X in
  let (E, E_err) := basic_estimate_E d1 Z in
  let (Cv, Cv_err) := basic_estimate_Cv d2 Z E T in
  {| e_Z := Z; e_Z_error := Z_err; e_E := E; e_E_error := E_err; e_Cv := Cv; e_Cv_error := Cv_err |}.

(** stats.py:126-130 *)
Definition add_harmonic_contribution (d : estimates) (E_sampling Cv_sampling : R) : estimates :=
  {| e_Z := e_Z d; e_Z_error := e_Z_error d; e_E := e_E d + E_sampling; e_E_error := e_E_error d; e_Cv := e_Cv d + Cv_sampling; e_Cv_error := e_Cv_error d |}.

(** the analytic data used (postprocessing.py:329-334) *)
Record analytic := { a_E : R; a_Cv : R; a_alpha_plus : R; a_alpha_minus : R }.

(** stats.py:182-196 *)
Definition basic_statistical_analysis (T : R) (X : nat) (s : samples) (a : analytic) : estimates :=
  let '(g_r, d1, d2) := calculate_basic_property_terms delta_beta s in
  add_harmonic_contribution (estimate_basic_properties X T g_r (mean d1) (mean d2)) (a_E a) (a_Cv a).

(** stats.py:199-216 *)
Definition alpha_statistical_analysis (T : R) (X : nat) (s : samples) (a : analytic) : estimates :=
  let '((g_r, d1, d2), _) := calculate_alpha_terms delta_beta s (a_alpha_plus a) (a_alpha_minus a) in
  add_harmonic_contribution (estimate_basic_properties X T g_r d1 d2) (a_E a) (a_Cv a).

(** jackknife.py:60-70 *)
Definition calculate_jackknife_term (X : nat) (array : list R) : list R :=
  map (fun x => x / (INR X - 1)) (map2 Rminus (repeat (sum array) X) array).

(** jackknife.py:14-57 *)
Definition calculate_alpha_jackknife_terms (X : nat) (db : R) (ratio LN : list R) (alpha_plus : R) (RN : list R) (alpha_minus : R)
  : list R * list R * list R :=
  let jk_ratio := calculate_jackknife_term X ratio in
  let jk_LN := calculate_jackknife_term X LN in
  let jk_RN := calculate_jackknife_term X RN in
  let d1 := map (fun x => x / (2 * db)) (map2 Rminus (map (fun x => x * alpha_plus) jk_LN) (map (fun x => x * alpha_minus) jk_RN)) in
  let d2 := map (fun x => x / (db ^ 2))
              (map2 Rplus (map2 Rminus (map (fun x => x * alpha_plus) jk_LN) (map (fun x => 2 * x) jk_ratio)) (map (fun x => x * alpha_minus) jk_RN)) in
  (jk_ratio, d1, d2).

(** the dictionary returned by estimate_jackknife *)
Record jk_estimates := { j_E : R; j_E_error : R; j_Cv : R; j_Cv_error : R }.

(** jackknife.py:77-105 *)
Definition estimate_jackknife (X : nat) (T : R) (d : estimates) (jk_g_rho jk_sym1 jk_sym2 : list R) : jk_estimates :=
  let f_EJ := map2 Rdiv (map (fun x => - 1 * x) jk_sym1) jk_g_rho in
  let E := INR X * e_E d - (INR X - 1) * mean f_EJ in
  let E_err := sqrt (INR X - 1) * std 1 f_EJ in
  let f_CJ := map (fun x => x / (boltzman * T ^ 2)) (map2 Rminus (map2 Rdiv jk_sym2 jk_g_rho) (map (fun x => x ^ 2) f_EJ)) in
  let Cv := INR X * e_Cv d - (INR X - 1) * mean f_CJ in
  let Cv_err := sqrt (INR X - 1) * std 1 f_CJ in
  {| j_E := E; j_E_error := E_err; j_Cv := Cv; j_Cv_error := Cv_err |}.

(** add_harmonic_contribution on the jackknife dictionary *)
Definition add_harmonic_jk (d : jk_estimates) (E_sampling Cv_sampling : R) : jk_estimates :=
  {| j_E := j_E d + E_sampling; j_E_error := j_E_error d; j_Cv := j_Cv d + Cv_sampling; j_Cv_error := j_Cv_error d |}.

(** stats.py:271-299 *)
Definition basic_jackknife_analysis (T : R) (X : nat) (s : samples) (a : analytic) : estimates * jk_estimates :=
  let '(g_r, d1, d2) := calculate_basic_property_terms delta_beta s in
  let basic := estimate_basic_properties X T g_r (mean d1) (mean d2) in
  let jk := estimate_jackknife X T basic (calculate_jackknife_term X g_r) (calculate_jackknife_term X d1) (calculate_jackknife_term X d2) in
  (add_harmonic_contribution basic (a_E a) (a_Cv a), add_harmonic_jk jk (a_E a) (a_Cv a)).

(** stats.py:302-335 *)
Definition alpha_jackknife_analysis (T : R) (X : nat) (s : samples) (a : analytic) : estimates * jk_estimates :=
  let '((g_r, d1, d2), (LN, RN)) := calculate_alpha_terms delta_beta s (a_alpha_plus a) (a_alpha_minus a) in
  let '(j0, j1, j2) := calculate_alpha_jackknife_terms X delta_beta g_r LN (a_alpha_plus a) RN (a_alpha_minus a) in
  let basic := estimate_basic_properties X T g_r d1 d2 in
  let jk := estimate_jackknife X T basic j0 j1 j2 in
  (add_harmonic_contribution basic (a_E a) (a_Cv a), add_harmonic_jk jk (a_E a) (a_Cv a)).
