(** What the numerical core is meant to compute, written from the physics and
    not from the code: the harmonic propagators of the displaced surfaces, the
    sampling function rho(R) and the path integrand g(R).  Nothing here uses a
    definition of the model. *)
From Coq Require Import Reals List Arith Bool.
Import ListNotations.
Local Open Scope R_scope.

Definition Sum (n : nat) (f : nat -> R) : R := fold_right Rplus 0 (map f (seq 0 n)).
Definition Prod (n : nat) (f : nat -> R) : R := fold_right Rmult 1 (map f (seq 0 n)).

(** Harmonic surface with linear coupling: minimum and lowering of the energy. *)
Definition minimum (omega lin : nat -> R) (n : nat) : R := - (lin n / omega n).
Definition lowering (N : nat) (omega lin : nat -> R) : R := - (Sum N (fun n => lin n ^ 2 / omega n) / 2).

(** Propagator of a displaced harmonic surface over imaginary time [tau] from
    [x] to [y], without the constant (2 pi)^(-N/2). *)
Definition propagator (N : nat) (omega : nat -> R) (E : R) (lin : nat -> R) (tau : R) (x y : nat -> R) : R :=
  let d := minimum omega lin in
  exp (- (tau * (E + lowering N omega lin)))
  * sqrt (Prod N (fun n => 1 / sinh (tau * omega n)))
  * exp (- (Sum N (fun n => cosh (tau * omega n) / sinh (tau * omega n) * ((x n - d n) ^ 2 + (y n - d n) ^ 2)
                            - 2 * (x n - d n) * (y n - d n) / sinh (tau * omega n)) / 2)).

(** A path is a function from bead and mode to coordinate; bead P is bead 0. *)
Definition next (P p : nat) : nat := if (p + 1 =? P)%nat then 0%nat else (p + 1)%nat.

(** Product of the propagators of one surface around the ring. *)
Definition ring (P N : nat) (omega : nat -> R) (E : R) (lin : nat -> R) (tau : R) (x : nat -> nat -> R) : R :=
  Prod P (fun p => propagator N omega E lin tau (x p) (x (next P p))).

(** rho(R) of a mixture of [A] displaced surfaces. *)
Definition rho_of (A P N : nat) (omega E : nat -> R) (lin : nat -> nat -> R) (tau : R) (x : nat -> nat -> R) : R :=
  Sum A (fun a => ring P N omega (E a) (fun n => lin n a) tau x).

(** Potential coupling left after the diagonal energies and linear terms were
    folded into the oscillators. *)
Definition coupling (N : nat) (E : nat -> nat -> R) (lin : nat -> nat -> nat -> R) (quad : nat -> nat -> nat -> nat -> R)
  (x : nat -> R) (b c : nat) : R :=
  (if (b =? c)%nat then 0 else E b c + Sum N (fun n => lin n b c * x n))
  + Sum N (fun n => Sum N (fun m => quad n m b c * x n * x m)) / 2.

(** Square matrices. *)
Definition one (i j : nat) : R := if (i =? j)%nat then 1 else 0.
Definition times (A : nat) (x y : nat -> nat -> R) (i j : nat) : R := Sum A (fun k => x i k * y k j).
Fixpoint power (A : nat) (x : nat -> nat -> R) (m : nat) : nat -> nat -> R :=
  match m with O => one | S k => times A x (power A x k) end.
(** [m] is the matrix exponential of [x]: entrywise limit of the power series *)
Definition is_mexp (A : nat) (x m : nat -> nat -> R) : Prop :=
  forall i j, (i < A)%nat -> (j < A)%nat -> infinite_sum (fun k => power A x k i j / INR (fact k)) (m i j).
Definition trace (A : nat) (x : nat -> nat -> R) : R := Sum A (fun i => x i i).

(** M(0) D(0) M(1) D(1) ... with diagonal D *)
Definition chain (A P : nat) (m : nat -> nat -> nat -> R) (d : nat -> nat -> R) : nat -> nat -> R :=
  fold_right (fun p acc => times A (m p) (times A (fun i j => d p i * one i j) acc)) one (seq 0 P).

(** [y] is g(R): the trace of the alternating product of exp(-tauV V(R_p)) and
    the diagonal of propagators over [tauO]. *)
Definition is_g (A P N : nat) (omega : nat -> R) (E : nat -> nat -> R) (lin : nat -> nat -> nat -> R) (quad : nat -> nat -> nat -> nat -> R)
  (tauV tauO : R) (x : nat -> nat -> R) (y : R) : Prop :=
  exists M, (forall p, (p < P)%nat -> is_mexp A (fun i j => - tauV * coupling N E lin quad (x p) i j) (M p))
  /\ y = trace A (chain A P M (fun p a => propagator N omega (E a a) (fun n => lin n a a) tauO (x p) (x (next P p)))).

(** The columns of [q] are an orthonormal eigenbasis of [x] with eigenvalues [l]. *)
Definition eigenbasis (A : nat) (x : nat -> nat -> R) (lq : (nat -> R) * (nat -> nat -> R)) : Prop :=
  let (l, q) := lq in
  (forall i j, (i < A)%nat -> (j < A)%nat -> x i j = Sum A (fun k => q i k * l k * q j k))
  /\ (forall i j, (i < A)%nat -> (j < A)%nat -> Sum A (fun k => q i k * q j k) = one i j)
  /\ (forall i j, (i < A)%nat -> (j < A)%nat -> Sum A (fun k => q k i * q k j) = one i j).

(** Density of a centred normal distribution. *)
Definition normal_density (sd y : R) : R := / (sd * sqrt (2 * PI)) * exp (- (y ^ 2 / (2 * sd ^ 2))).

(** A path from collective coordinates [cc] (mode, index) through the ring's
    eigenvectors [u], around the point [d]. *)
Definition path (P : nat) (u cc : nat -> nat -> R) (d : nat -> R) (p n : nat) : R := Sum P (fun k => u p k * cc n k) + d n.

(** Adjacency matrix of the ring of beads (three or more). *)
Definition ring_matrix (P i j : nat) : R := if orb (j =? next P i)%nat (i =? next P j)%nat then 1 else 0.
