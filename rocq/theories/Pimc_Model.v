(** Model of the numerical core of /repo/pibronic/pimc/pimc.py: the working
    copies of the models (59-89, 152-269, 336-424), the ring of beads (613-631,
    683-688), the O matrices, their scaling, the denominator and the numerator
    (1062-1213) and the bodies of the block loops (1216-1462).

    float64 arithmetic is modelled by exact real arithmetic.  An array is a
    function of its indices; its shape is carried separately and only entries
    inside the shape mean anything.  Every array operation here acts on each
    sample of a block separately (the leading axis B), so one sample is
    modelled and that axis is left out.  [hbar] is 1 (constants.py:26). *)
From Coq Require Import Reals.
From Verif Require Import Common.
Local Open Scope R_scope.

Definition arr1 := nat -> R.
Definition arr2 := nat -> nat -> R.
Definition arr3 := nat -> nat -> nat -> R.
Definition arr4 := nat -> nat -> nat -> nat -> R.

(** np.sum, np.prod and np.amax along one axis of length [n] *)
Fixpoint rsum (n : nat) (f : arr1) : R := match n with O => 0 | S m => rsum m f + f m end.
Fixpoint rprod (n : nat) (f : arr1) : R := match n with O => 1 | S m => rprod m f * f m end.
Fixpoint rmax (n : nat) (f : arr1) : R :=
  match n with O => 0 | S O => f O | S m => Rmax (rmax m f) (f m) end.

(** ** The working copies of the models *)

(** pimc.py:152-170 ModelVibronic after load_model *)
Record vib_model := {
  v_states : nat; v_modes : nat; v_omega : arr1; v_energy : arr2; v_linear : arr3;
  v_quadratic : arr4; v_delta_weight : arr1; v_state_shift : arr2 }.

(** pimc.py:272-327 ModelSampling after load_model; [None] for an energy array
    filled with nan *)
Record rho_model := {
  r_states : nat; r_modes : nat; r_omega : arr1; r_energy : option arr1; r_linear : arr2;
  r_delta_weight : arr1; r_state_weight : arr1; r_state_shift : arr2 }.

(** pimc.py:59-89 TemperatureDependentClass.  The prefactor is the same for
    every bead (it is a broadcast), so the bead axis is left out. *)
Record tdc := { t_states : nat; t_coth : arr2; t_csch : arr2; t_prefactor : arr1 }.
Definition temperature_dependent (states modes : nat) (omega energy delta_weight : arr1) (tau : R) : tdc :=
  {| t_states := states;
     t_coth := fun a n => / tanh (1 * tau * omega n);
     t_csch := fun a n => / sinh (1 * tau * omega n);
     t_prefactor := fun a => exp (- tau * (energy a + delta_weight a))
                             * sqrt (rprod modes (fun n => / sinh (1 * tau * omega n))) |}.

(** pimc.py:172-177 ModelVibronic.compute_linear_displacement *)
Definition vib_linear_displacement (states : nat) (m : vib_model) : vib_model :=
  {| v_states := v_states m; v_modes := v_modes m; v_omega := v_omega m; v_energy := v_energy m;
     v_linear := v_linear m; v_quadratic := v_quadratic m;
     v_delta_weight := fun a => if (a <? states)%nat
                                then - / 2 * rsum (v_modes m) (fun n => v_linear m n a a * v_linear m n a a / v_omega m n)
                                else v_delta_weight m a;
     v_state_shift := v_state_shift m |}.

(** pimc.py:208-218 ModelVibronic.finish_folding_in_terms *)
Definition vib_finish_folding (states : nat) (m : vib_model) : vib_model :=
  {| v_states := v_states m; v_modes := v_modes m; v_omega := v_omega m;
     v_energy := fun a b => if ((a <? states) && (a =? b))%nat then 0 else v_energy m a b;
     v_linear := fun n a b => if ((a <? states) && (a =? b))%nat then 0 else v_linear m n a b;
     v_quadratic := v_quadratic m; v_delta_weight := v_delta_weight m;
     v_state_shift := fun a n => if (a <? states)%nat then - v_linear m n a a / v_omega m n else v_state_shift m a n |}.

(** pimc.py:203-206 initialize_TDP_object: the energy used is the diagonal *)
Definition vib_constants (m : vib_model) (tau : R) : tdc :=
  temperature_dependent (v_states m) (v_modes m) (v_omega m) (fun a => v_energy m a a) (v_delta_weight m) tau.

(** pimc.py:220-235 ModelVibronic.precompute; optimize_energy does nothing *)
Definition vib_precompute (states : nat) (tau : R) (m : vib_model) : vib_model * tdc :=
  let m1 := vib_linear_displacement states m in
  (vib_finish_folding states m1, vib_constants m1 tau).

(** pimc.py:251-269 ModelVibronicPM: the constants at beta, beta + delta_beta
    and beta - delta_beta *)
Definition vib_precompute_pm (states beads : nat) (beta tau delta_beta : R) (m : vib_model) : vib_model * (tdc * tdc * tdc) :=
  let beta_plus := beta + delta_beta in
  let beta_minus := beta - delta_beta in
  let tau_plus := beta_plus / INR beads in
  let tau_minus := beta_minus / INR beads in
  let m1 := vib_linear_displacement states m in
  (vib_finish_folding states m1, (vib_constants m1 tau, vib_constants m1 tau_plus, vib_constants m1 tau_minus)).

(** pimc.py:336-339 ModelSampling.compute_linear_displacement *)
Definition rho_linear_displacement (m : rho_model) : rho_model :=
  {| r_states := r_states m; r_modes := r_modes m; r_omega := r_omega m; r_energy := r_energy m; r_linear := r_linear m;
     r_delta_weight := fun a => - / 2 * rsum (r_modes m) (fun n => r_linear m n a * r_linear m n a / r_omega m n);
     r_state_weight := r_state_weight m; r_state_shift := r_state_shift m |}.

(** the energy array; entries of a nan array have no value *)
Definition r_energy_at (m : rho_model) : arr1 := match r_energy m with Some e => e | None => fun _ => 0 end.

(** pimc.py:341-351 ModelSampling.compute_weight_for_each_state *)
Definition rho_weights (beta : R) (m : rho_model) : rho_model :=
  let w := fun a => exp (- beta * (r_energy_at m a + r_delta_weight m a)) / rprod (r_modes m) (fun n => sinh (beta * r_omega m n / 2)) in
  {| r_states := r_states m; r_modes := r_modes m; r_omega := r_omega m; r_energy := r_energy m; r_linear := r_linear m;
     r_delta_weight := r_delta_weight m;
     r_state_weight := fun a => w a / rsum (r_states m) w;
     r_state_shift := r_state_shift m |}.

(** pimc.py:372-381 ModelSampling.finish_folding_in_terms *)
Definition rho_finish_folding (m : rho_model) : rho_model :=
  {| r_states := r_states m; r_modes := r_modes m; r_omega := r_omega m;
     r_energy := if (0 <? r_states m)%nat then None else r_energy m;
     r_linear := fun n a => if (a <? r_states m)%nat then 0 else r_linear m n a;
     r_delta_weight := r_delta_weight m; r_state_weight := r_state_weight m;
     r_state_shift := fun a n => if (a <? r_states m)%nat then - r_linear m n a / r_omega m n else r_state_shift m a n |}.

(** pimc.py:402-404: inverse covariance and standard deviation of one
    collective coordinate with circulant eigenvalue [lam] *)
Definition inverse_covariance (c : tdc) (lam : arr1) (a n k : nat) : R := 2 * t_coth c a n - t_csch c a n * lam k.
Definition standard_deviation (c : tdc) (lam : arr1) (a n k : nat) : R := sqrt (1 / inverse_covariance c lam a n k).

(** pimc.py:409-424 ModelSampling.precompute (the random draw of the surfaces
    is not part of it here) *)
Definition rho_precompute (beta tau : R) (m : rho_model) : rho_model * tdc :=
  let m1 := rho_weights beta (rho_linear_displacement m) in
  (rho_finish_folding m1,
   temperature_dependent (r_states m1) (r_modes m1) (r_omega m1) (r_energy_at m1) (r_delta_weight m1) tau).

(** pimc.py:683-685: the defining vector [0, 1, 0, ..., 0, 1] and
    scipy.linalg.circulant, whose entry (i, j) is c[(i - j) mod n] *)
Definition defining_vector (beads : nat) : list R := [0; 1] ++ repeat 0 (beads - 3) ++ [1].
Definition circulant (c : list R) (i j : nat) : R := nth ((i + (length c - j)) mod length c) c 0.
Definition circulant_matrix (beads : nat) : res arr2 :=
  if (3 <=? beads)%nat then Ok (circulant (defining_vector beads)) else Raise AssertionError.

(** ** One sample *)

(** pimc.py:655-690: the sizes, tau and the coordinates held by BoxData.
    [b_q] is qTensor with [b_states] surfaces, [b_qtemp] is qTempTensor with
    [b_rho_states] surfaces. *)
Record box := {
  b_states : nat; b_rho_states : nat; b_modes : nat; b_beads : nat; b_tau : R;
  b_q : arr3; b_qtemp : arr3 }.
Definition with_q (d : box) (q qt : arr3) : box :=
  {| b_states := b_states d; b_rho_states := b_rho_states d; b_modes := b_modes d; b_beads := b_beads d;
     b_tau := b_tau d; b_q := q; b_qtemp := qt |}.

(** pimc.py:613-631 transform_sampled_coordinates *)
Definition transform_sampled_coordinates (vects : arr2) (cc : arr2) (sample_shift : arr1) (d : box) : box :=
  let q := fun a n p => rsum (b_beads d) (fun b => vects p b * cc n b) + sample_shift n in
  let qt := fun a n p => if (a <? b_rho_states d)%nat then q 0%nat n p else b_qtemp d a n p in
  with_q d q qt.

(** np.roll(q, shift=-1, axis=3) *)
Definition roll (beads : nat) (q : arr3) : arr3 := fun a n p => q a n ((p + 1) mod beads)%nat.

(** pimc.py:1087-1129 build_o_matrix.  [shift_states] is state_shift.shape[0];
    [om] is model.omatrix with [t_states c] surfaces. *)
Definition all_below (n : nat) (f : nat -> bool) : bool := forallb f (seq 0 n).
Definition is_zero (x : R) : bool := if Req_EM_T x 0 then true else false.
Definition build_o_matrix (d : box) (c : tdc) (om : arr3) (shift_states : nat) (shift : arr2) : res (box * arr3) :=
  let own := (shift_states =? b_states d)%nat in
  let sub := fun (q : arr3) a n p => q a n p - shift a n in
  let add := fun (q : arr3) a n p => q a n p + shift a n in
  let d1 := if own then with_q d (sub (b_q d)) (b_qtemp d) else with_q d (b_q d) (sub (b_qtemp d)) in
  let q1 := if own then b_q d1 else b_qtemp d1 in
  if negb own && negb (shift_states =? b_rho_states d)%nat then Raise ValueError
  else
    let q2 := roll (b_beads d) q1 in
    let o := fun p a => exp (- / 2 * rsum (b_modes d) (fun n =>
               t_coth c a n * (q1 a n p * q1 a n p + q2 a n p * q2 a n p) - 2 * t_csch c a n * q1 a n p * q2 a n p)) in
    (* the loop over range(data.states) indexes axes of length model.omatrix.shape[2] *)
    if (t_states c <? b_states d)%nat then Raise IndexError
    else
      let om1 := fun p a b => if ((a =? b) && (a <? b_states d))%nat then o p a else om p a b in
      do _ <- passert (all_below (t_states c) (fun a => all_below (t_states c) (fun b =>
                 (a =? b)%nat || all_below (b_beads d) (fun p => is_zero (om1 p a b)))));
      let om2 := fun p a b => om1 p a b * t_prefactor c a in
      let d2 := if own then with_q d1 (add (b_q d1)) (b_qtemp d1) else with_q d1 (b_q d1) (add (b_qtemp d1)) in
      Ok (d2, om2).

(** pimc.py:1076-1084 build_scaling_factors: the factor of each bead *)
Definition omatrix_scaling (c : tdc) (om : arr3) (p : nat) : R := rmax (t_states c) (fun a => rmax (t_states c) (fun b => om p a b)).
Definition build_scaling_factors (c1 c2 : tdc) (om1 om2 : arr3) : arr1 :=
  fun p => Rmax (omatrix_scaling c1 om1 p) (omatrix_scaling c2 om2 p).

(** pimc.py:1062-1066 scale_o_matrices and the lines 1443 and 1448 *)
Definition scale_o_matrix (s : arr1) (om : arr3) : arr3 := fun p a b => om p a b / s p.
(** pimc.py:1069-1073 un_scale_o_matrices *)
Definition un_scale_o_matrix (s : arr1) (om : arr3) : arr3 := fun p a b => om p a b * s p.

(** pimc.py:1132-1136 build_denominator *)
Definition build_denominator (beads : nat) (c : tdc) (om : arr3) : R :=
  rsum (t_states c) (fun a => rprod beads (fun p => om p a a)).

(** pimc.py:1139-1168 diagonalize_coupling_matrix: the coupling matrix of bead [p] *)
Definition coupling_matrix (d : box) (m : vib_model) (p : nat) : arr2 := fun b c =>
  rsum (b_modes d) (fun i => rsum (b_modes d) (fun e => b_q d c e p * (/ 2 * v_quadratic m i e b c) * b_q d b i p))
  + rsum (b_modes d) (fun i => v_linear m i b c * b_q d b i p)
  + v_energy m b c.
(** np.allclose of two numbers with the default tolerances *)
Definition close (x y : R) : bool := if Rle_dec (Rabs (x - y)) (/ 100000000 + / 100000 * Rabs y) then true else false.
Definition check_coupling_symmetric (d : box) (m : vib_model) : res unit :=
  passert (all_below (b_beads d) (fun p => all_below (b_states d) (fun b => all_below (b_states d) (fun c =>
    close (coupling_matrix d m p c b) (coupling_matrix d m p b c))))).

(** pimc.py:1177-1213 build_numerator.  [eig p] are the eigenvalues and
    eigenvectors of bead [p]. *)
Definition matmul (n : nat) (x y : arr2) : arr2 := fun i j => rsum n (fun k => x i k * y k j).
Definition identity : arr2 := fun i j => if (i =? j)%nat then 1 else 0.
Definition m_matrix (states : nat) (tau : R) (eig : arr1 * arr2) : arr2 :=
  fun c e => rsum states (fun k => snd eig c k * exp (- tau * fst eig k) * snd eig e k).
Fixpoint numerator (states beads : nat) (mm : nat -> arr2) (om : arr3) : arr2 :=
  match beads with
  | O => identity
  | S p => matmul states (matmul states (numerator states p mm om) (mm p)) (om p)
  end.
Definition build_numerator (d : box) (eig : nat -> arr1 * arr2) (om : arr3) : R :=
  rsum (b_states d) (fun a => numerator (b_states d) (b_beads d) (fun p => m_matrix (b_states d) (b_tau d) (eig p)) om a a).

(** ** The block loops.  np.linalg.eigh is a parameter; the theorems ask of it
    that it returns a decomposition of the matrices it is given. *)
Section Loops.
  Variable eigh : arr2 -> arr1 * arr2.

  (** pimc.py:1165-1174: assertion and decomposition *)
  Definition diagonalize_coupling_matrix (d : box) (m : vib_model) : res (nat -> arr1 * arr2) :=
    do _ <- check_coupling_symmetric d m; Ok (fun p => eigh (coupling_matrix d m p)).

  (** the cached O matrices that live from block to block *)
  Record omats := { o_rho : arr3; o_vib : arr3; o_plus : arr3; o_minus : arr3 }.
  Definition zero3 : arr3 := fun _ _ _ => 0.
  Definition omats0 : omats := {| o_rho := zero3; o_vib := zero3; o_plus := zero3; o_minus := zero3 |}.

  (** everything the loops read and do not change *)
  Record setup := {
    u_vib : vib_model; u_rho : rho_model;
    u_crho : tdc; u_cvib : tdc; u_cplus : tdc; u_cminus : tdc }.

  (** pimc.py:1430-1449, the part of block_compute_pm after the coordinates are set *)
  Definition evaluate_pm (u : setup) (d : box) (w : omats) : res (box * omats * (R * R * R * R)) :=
    do (d, om_rho) <- build_o_matrix d (u_crho u) (o_rho w) (r_states (u_rho u)) (r_state_shift (u_rho u));
    do (d, om_vib) <- build_o_matrix d (u_cvib u) (o_vib w) (v_states (u_vib u)) (v_state_shift (u_vib u));
    let s12 := build_scaling_factors (u_crho u) (u_cvib u) om_rho om_vib in
    let om_rho := scale_o_matrix s12 om_rho in
    let om_vib := scale_o_matrix s12 om_vib in
    let y_rho := build_denominator (b_beads d) (u_crho u) om_rho in
    do eig <- diagonalize_coupling_matrix d (u_vib u);
    let y_g := build_numerator d eig om_vib in
    do (d, om_plus) <- build_o_matrix d (u_cplus u) (o_plus w) (v_states (u_vib u)) (v_state_shift (u_vib u));
    let om_plus := scale_o_matrix s12 om_plus in
    let y_gp := build_numerator d eig om_plus in
    do (d, om_minus) <- build_o_matrix d (u_cminus u) (o_minus w) (v_states (u_vib u)) (v_state_shift (u_vib u));
    let om_minus := scale_o_matrix s12 om_minus in
    let y_gm := build_numerator d eig om_minus in
    Ok (d, {| o_rho := om_rho; o_vib := om_vib; o_plus := om_plus; o_minus := om_minus |}, (y_rho, y_g, y_gp, y_gm)).

  (** pimc.py:1371-1381, the same part of block_compute *)
  Definition evaluate (u : setup) (d : box) (w : omats) : res (box * omats * (R * R)) :=
    do (d, om_rho) <- build_o_matrix d (u_crho u) (o_rho w) (r_states (u_rho u)) (r_state_shift (u_rho u));
    do (d, om_vib) <- build_o_matrix d (u_cvib u) (o_vib w) (v_states (u_vib u)) (v_state_shift (u_vib u));
    let s12 := build_scaling_factors (u_crho u) (u_cvib u) om_rho om_vib in
    let om_rho := scale_o_matrix s12 om_rho in
    let om_vib := scale_o_matrix s12 om_vib in
    let y_rho := build_denominator (b_beads d) (u_crho u) om_rho in
    do eig <- diagonalize_coupling_matrix d (u_vib u);
    let y_g := build_numerator d eig om_vib in
    Ok (d, {| o_rho := om_rho; o_vib := om_vib; o_plus := o_plus w; o_minus := o_minus w |}, (y_rho, y_g)).

  (** pimc.py:1413-1449: the block loop; one element of [draws] holds the
      collective coordinates of the sample and the surface it was drawn from *)
  Fixpoint blocks_pm (u : setup) (vects : arr2) (draws : list (arr2 * nat)) (d : box) (w : omats) : res (list (R * R * R * R)) :=
    match draws with
    | [] => Ok []
    | (cc, source) :: rest =>
        let d := transform_sampled_coordinates vects cc (r_state_shift (u_rho u) source) d in
        do (d, w, y) <- evaluate_pm u d w;
        do ys <- blocks_pm u vects rest d w;
        Ok (y :: ys)
    end.
  (** pimc.py:1360-1381 *)
  Fixpoint blocks (u : setup) (vects : arr2) (draws : list (arr2 * nat)) (d : box) (w : omats) : res (list (R * R)) :=
    match draws with
    | [] => Ok []
    | (cc, source) :: rest =>
        let d := transform_sampled_coordinates vects cc (r_state_shift (u_rho u) source) d in
        do (d, w, y) <- evaluate u d w;
        do ys <- blocks u vects rest d w;
        Ok (y :: ys)
    end.

  (** pimc.py:602-611 generate_random_R_values and 1292-1295: the coordinates of
      the training data are shifted by the displacements of the vibronic model *)
  Definition raw_coordinates (m : vib_model) (x : arr2) (d : box) : box :=
    with_q d (fun a n p => x n p - v_state_shift m a n) (b_qtemp d).
  (** pimc.py:1327-1334: one sample of block_compute_gR_from_raw_samples *)
  Definition raw_g (u : setup) (x : arr2) (d : box) (w : omats) : res R :=
    let d := raw_coordinates (u_vib u) x d in
    do (d, om) <- build_o_matrix d (u_cvib u) (o_vib w) (v_states (u_vib u)) (v_state_shift (u_vib u));
    do eig <- diagonalize_coupling_matrix d (u_vib u);
    Ok (build_numerator d eig om).
  (** pimc.py:1292-1299: one sample of block_compute_rhoR_from_input_samples *)
  Definition raw_rho (u : setup) (x : arr2) (d : box) (w : omats) : res R :=
    let d := raw_coordinates (u_vib u) x d in
    do (d, om) <- build_o_matrix d (u_crho u) (o_rho w) (r_states (u_rho u)) (r_state_shift (u_rho u));
    Ok (build_denominator (b_beads d) (u_crho u) om).
  (** pimc.py:1237-1244: one sample of block_compute_gR *)
  Definition block_gR (u : setup) (vects : arr2) (draw : arr2 * nat) (d : box) (w : omats) : res R :=
    let d := transform_sampled_coordinates vects (fst draw) (r_state_shift (u_rho u) (snd draw)) d in
    do (d, om) <- build_o_matrix d (u_cvib u) (o_vib w) (v_states (u_vib u)) (v_state_shift (u_vib u));
    do eig <- diagonalize_coupling_matrix d (u_vib u);
    Ok (build_numerator d eig om).
End Loops.

(** pimc.py:647-692 and 714-738: preprocess and initialize_models of BoxDataPM *)
Definition prepare_pm (beads : nat) (beta delta_beta : R) (vm : vib_model) (rm : rho_model) : res setup :=
  do _ <- circulant_matrix beads;
  let tau := beta / INR beads in
  let (v, cs) := vib_precompute_pm (v_states vm) beads beta tau delta_beta vm in
  let (r, crho) := rho_precompute beta tau rm in
  Ok {| u_vib := v; u_rho := r; u_crho := crho; u_cvib := fst (fst cs); u_cplus := snd (fst cs); u_cminus := snd cs |}.
(** pimc.py:633-692: the same of BoxData; the plus and minus constants are not
    computed and [block_compute] does not look at them *)
Definition prepare (beads : nat) (beta : R) (vm : vib_model) (rm : rho_model) : res setup :=
  do _ <- circulant_matrix beads;
  let tau := beta / INR beads in
  let (v, c) := vib_precompute (v_states vm) tau vm in
  let (r, crho) := rho_precompute beta tau rm in
  Ok {| u_vib := v; u_rho := r; u_crho := crho; u_cvib := c; u_cplus := c; u_cminus := c |}.
(** pimc.py:672, 643-644: the coordinate arrays start as zeros *)
Definition new_box (beads : nat) (beta : R) (vm : vib_model) (rm : rho_model) : box :=
  {| b_states := v_states vm; b_rho_states := r_states rm; b_modes := v_modes vm; b_beads := beads; b_tau := beta / INR beads;
     b_q := fun _ _ _ => 0; b_qtemp := fun _ _ _ => 0 |}.
