(** What re-weighting a sampling model means, from the physics: the energy of a
    surface of the sampling model, the potential matrix of the coupled model and
    its lowest eigenvalue. *)
From Coq Require Import Reals List Arith Bool ZArith.
From Verif Require Import Common Arr_Model ModelIO_Model ModelIO_Spec Pimc_Spec.
Import ListNotations.
Local Open Scope R_scope.

(** the number stored at [idx] of parameter [m]: zero if the parameter is missing *)
Definition stored (d : mdict R) (m : vmk) (idx : list nat) (x : R) : Prop := reads 0 d m idx x.

(** energy of surface [a] of a sampling model at [q]: E_a + sum of (w q^2 / 2 + lin q) *)
Definition surface (N : nat) (E w lin : nat -> R) (a : nat) (q : nat -> R) : R :=
  E a + Sum N (fun i => w i * q i ^ 2 / 2 + lin i * q i).

(** potential matrix of the coupled model at [q] *)
Definition potential (N : nat) (E : nat -> nat -> R) (w : nat -> R) (lin : nat -> nat -> nat -> R) (q : nat -> R) (a b : nat) : R :=
  E a b + (if (a =? b)%nat then Sum N (fun i => w i * q i ^ 2) / 2 else 0) + Sum N (fun i => lin i a b * q i).

(** x is an eigenvalue of the A x A matrix m *)
Definition eigenvalue (A : nat) (m : nat -> nat -> R) (x : R) : Prop :=
  exists v : nat -> R, (exists i, (i < A)%nat /\ v i <> 0) /\
    forall i, (i < A)%nat -> Sum A (fun j => m i j * v j) = x * v i.
Definition least_eigenvalue (A : nat) (m : nat -> nat -> R) (x : R) : Prop :=
  eigenvalue A m x /\ forall y, eigenvalue A m y -> x <= y.

Definition symmetric (A : nat) (m : nat -> nat -> R) : Prop :=
  forall i j, (i < A)%nat -> (j < A)%nat -> m i j = m j i.
(** contract of numpy.linalg.eigvalsh for symmetric matrices of order A: it returns the eigenvalues *)
Definition eigvalsh_contract (A : nat) (eigvalsh : nat -> (nat -> nat -> R) -> list R) : Prop :=
  forall m, symmetric A m -> eigvalsh A m <> [] /\ forall x, In x (eigvalsh A m) <-> eigenvalue A m x.

(** every stored number of quadratic terms is within numpy's tolerance of zero *)
Definition no_quad (d : mdict R) : Prop := forall a x, has d (KV G2_) (PArr a) -> In x (data a) -> Rabs x <= / 100000000.

(** A sampling model [it] (file [path]) with Ai surfaces and a coupled model [cm] (file [vib]) with A
    surfaces, both with N modes, together with the numbers stored in them *)
Record two_models (vint : R -> res Z) (f : fs R) (vib path : string) (it cm : mdict R) (Ai A N : Z)
    (E : nat -> nat -> R) (w : nat -> R) (lin : nat -> nat -> nat -> R) (wi : nat -> R) (li : nat -> nat -> R) : Prop := {
  tm_unique1 : forall o, f path = Some (CJson o) -> NoDup (map fst o);
  tm_unique2 : forall o, f vib = Some (CJson o) -> NoDup (map fst o);
  tm_load1 : load_new 0 vint Diagonal f path = Ok it;
  tm_load2 : load_new 0 vint Coupled f vib = Ok cm;
  tm_valid1 : valid vint Diagonal Ai N it;
  tm_valid2 : valid vint Coupled A N cm;
  tm_surfaces : (0 < A)%Z;
  tm_quad1 : no_quad it;
  tm_quad2 : no_quad cm;
  tm_E : forall a b, (a < Z.to_nat A)%nat -> (b < Z.to_nat A)%nat -> stored cm E_ [a; b] (E a b);
  tm_w : forall i, (i < Z.to_nat N)%nat -> stored cm w_ [i] (w i);
  tm_lin : forall i a b, (i < Z.to_nat N)%nat -> (a < Z.to_nat A)%nat -> (b < Z.to_nat A)%nat -> stored cm G1_ [i; a; b] (lin i a b);
  tm_wi : forall i, (i < Z.to_nat N)%nat -> stored it w_ [i] (wi i);
  tm_li : forall i a, (i < Z.to_nat N)%nat -> (a < Z.to_nat Ai)%nat -> stored it G1_ [i; a] (li i a);
  tm_has_w1 : exists v, has it (KV w_) v;
  tm_has_w2 : exists v, has cm (KV w_) v;
  tm_symE : symmetric (Z.to_nat A) E;
  tm_symlin : forall i, (i < Z.to_nat N)%nat -> symmetric (Z.to_nat A) (lin i) }.

(** the dictionary [d'] is [d] with the energies replaced *)
Definition with_energies (d : mdict R) (Ai : nat) (Enew : nat -> R) (d' : mdict R) : Prop :=
  forall k v, has d' k v <-> (k = KV E_ /\ v = PArr (mkArr [Ai] (map Enew (seq 0 Ai)))) \/ (k <> KV E_ /\ has d k v).
