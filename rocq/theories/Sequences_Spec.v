(** Notions used to state the properties of the generated matrices and tables,
    independent of the code. *)
From Coq Require Import Reals QArith Qabs.
From Verif Require Import Common.
Local Open Scope nat_scope.

(** |a - b| <= 1e-8 + 1e-5 |b| *)
Definition near (a b : Q) : Prop := (Qabs (a - b) <= (1 # 100000000) + (1 # 100000) * Qabs b)%Q.

(** a list of rows is increasing in its first component *)
Definition increasing (l : list (Q * Q)) : Prop :=
  forall i j r s, i < j -> nth_error l i = Some r -> nth_error l j = Some s -> (fst r < fst s)%Q.

(** ** real matrices *)
Definition rmat := nat -> nat -> R.
Fixpoint total (n : nat) (f : nat -> R) : R := match n with O => 0%R | S m => (total m f + f m)%R end.
Fixpoint power (n : nat) (a : rmat) (k : nat) : rmat :=
  match k with
  | O => fun i j => if i =? j then 1%R else 0%R
  | S k' => fun i j => total n (fun l => (a i l * power n a k' l j)%R)
  end.
(** e is the exponential of the n x n matrix a: every entry is the sum of the
    series over a^k / k! *)
Definition is_exponential (n : nat) (a e : rmat) : Prop :=
  forall i j, i < n -> j < n -> infinite_sum (fun k => (power n a k i j / INR (fact k))%R) (e i j).
Definition orthogonal (n : nat) (e : rmat) : Prop :=
  forall i j, i < n -> j < n -> total n (fun k => (e i k * e j k)%R) = (if i =? j then 1 else 0)%R.
Definition skew (n : nat) (a : rmat) : Prop := forall i j, i < n -> j < n -> a j i = (- a i j)%R.
(** the squared Frobenius distance of a matrix from the identity *)
Definition distance2 (n : nat) (e : rmat) : R :=
  total n (fun i => total n (fun j => ((e i j - (if i =? j then 1 else 0)) * (e i j - (if i =? j then 1 else 0)))%R)).

(** the points (x, y) of a scan at which y is at least as large as everywhere
    before; [m] is the largest value so far *)
Fixpoint records (m : Q) (scan : list (Q * Q)) : list (Q * Q) :=
  match scan with
  | [] => []
  | (x, y) :: scan' => if Qle_bool m y then (x, y) :: records y scan' else records m scan'
  end.
Fixpoint peak (m : Q) (scan : list (Q * Q)) : Q :=
  match scan with
  | [] => m
  | (x, y) :: scan' => if Qle_bool m y then peak y scan' else peak m scan'
  end.
