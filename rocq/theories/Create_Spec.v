(** Independent notions used to describe created models: finite sums, matrices
    as functions, orthogonality, symmetry. *)
From Verif Require Import Common Arr_Model Arr_Proofs ModelIO_Model ModelIO_Spec.
Local Open Scope nat_scope.

Section Spec.
  Context {V : Type}.
  Variables (zero one : V) (add mul : V -> V -> V).

  (** f 0 + ... + f (n-1) *)
  Fixpoint bsum (n : nat) (f : nat -> V) : V :=
    match n with 0 => zero | S n' => add (bsum n' f) (f n') end.

  (** array [a] is the n x n matrix [M] *)
  Definition is_matrix (n : nat) (a : arr V) (M : nat -> nat -> V) : Prop :=
    shape a = [n; n] /\ wf_arr a /\ forall i j, i < n -> j < n -> aget a [i; j] = Some (M i j).

  Definition delta (i j : nat) : V := if i =? j then one else zero.
  Definition mtr (M : nat -> nat -> V) : nat -> nat -> V := fun i j => M j i.
  (** M M^T = 1 *)
  Definition row_orthonormal (n : nat) (M : nat -> nat -> V) : Prop :=
    forall i j, i < n -> j < n -> bsum n (fun k => mul (M i k) (M j k)) = delta i j.
  Definition orthogonal (n : nat) (M : nat -> nat -> V) : Prop := row_orthonormal n M /\ row_orthonormal n (mtr M).

  (** entry (b, c) of U X U^T *)
  Definition conjugate (n : nat) (U X : nat -> nat -> V) (b c : nat) : V :=
    bsum n (fun j => bsum n (fun k => mul (mul (U b j) (X j k)) (U c k))).

  (** the arrays with surface indices *)
  Definition surface_params : list vmk := [E_; G1_; G2_; G3_; G4_].

  (** all parameters are symmetric in the two surface indices *)
  Definition surface_symmetric (d : mdict V) : Prop :=
    forall m a pre i j, In m surface_params -> has d (KV m) (PArr a) -> aget a (pre ++ [i; j]) = aget a (pre ++ [j; i]).
  (** quadratic and quartic terms are symmetric in the modes (the quartic ones
      under simultaneous exchange in both pairs) *)
  Definition mode_symmetric (d : mdict V) : Prop :=
    (forall a i j x y, has d (KV G2_) (PArr a) -> aget a [i; j; x; y] = aget a [j; i; x; y]) /\
    (forall a i j k l x y, has d (KV G4_) (PArr a) -> aget a [i; j; k; l; x; y] = aget a [j; i; l; k; x; y]).

  (** the same up to the tolerance [close] *)
  Variable close : V -> V -> bool.
  Definition surface_close (d : mdict V) : Prop :=
    forall m a pre i j x y, In m surface_params -> has d (KV m) (PArr a) ->
      aget a (pre ++ [i; j]) = Some x -> aget a (pre ++ [j; i]) = Some y -> close x y = true.
  Definition mode_close (d : mdict V) : Prop :=
    (forall a i j x y u v, has d (KV G2_) (PArr a) ->
       aget a [i; j; x; y] = Some u -> aget a [j; i; x; y] = Some v -> close u v = true) /\
    (forall a i j k l x y u v, has d (KV G4_) (PArr a) ->
       aget a [i; j; k; l; x; y] = Some u -> aget a [j; i; l; k; x; y] = Some v -> close u v = true).

  (** [d'] is the model [d] with every surface matrix X replaced by U X U^T *)
  Definition conjugated (A N : nat) (U : nat -> nat -> V) (d d' : mdict V) : Prop :=
    (forall v, has d' (KV N_) v <-> has d (KV N_) v) /\
    (forall v, has d' (KV A_) v <-> has d (KV A_) v) /\
    (forall idx x, inb [N] idx -> (reads zero d' w_ idx x <-> reads zero d w_ idx x)) /\
    (forall m n pre X b c, In m surface_params -> mode_axes m = Some n -> inb (repeat N n) pre ->
       (forall j k, j < A -> k < A -> reads zero d m (pre ++ [j; k]) (X j k)) -> b < A -> c < A ->
       reads zero d' m (pre ++ [b; c]) (conjugate A U X b c)).
End Spec.
