(** Independent description of vibronic model dictionaries: what a valid model
    is, and what it means that a file read back describes the same model. *)
From Verif Require Import Common Arr_Model Arr_Proofs ModelIO_Model.

(** [d] maps [k] to [v] *)
Definition has {V} (d : mdict V) (k : key) (v : pval V) : Prop := In (k, v) d.

(** Python dictionaries have distinct keys; ndarrays are well formed *)
Definition dict_ok {V} (d : mdict V) : Prop :=
  NoDup (map fst d) /\ forall k a, has d k (PArr a) -> wf_arr a.

(** number of mode axes of each parameter array *)
Definition mode_axes (m : vmk) : option nat :=
  match m with
  | N_ | A_ => None
  | E_ => Some 0
  | w_ | G1_ => Some 1
  | G2_ => Some 2
  | G3_ => Some 3
  | G4_ => Some 4
  end.

(** surface axes: none for the frequencies, two in a coupled model, one in a
    diagonal one *)
Definition surface_axes (k : kind) (m : vmk) : nat :=
  match m with
  | w_ => 0
  | _ => match k with Coupled => 2 | Diagonal => 1 end
  end.

Definition spec_shape (k : kind) (A N : Z) (m : vmk) : option (list Z) :=
  match mode_axes m with
  | None => None
  | Some n => Some (repeat N n ++ repeat A (surface_axes k m))
  end.

Section Spec.
  Context {V : Type}.
  Variable zero : V.
  Variable isz : V -> bool.
  Variable vint : V -> res Z.

  (** the integer a dictionary entry stands for *)
  Inductive int_value : pval V -> Z -> Prop :=
  | iv_int z : int_value (PInt z) z
  | iv_float v z : vint v = Ok z -> int_value (PFloat v) z.

  Definition has_dims (d : mdict V) (A N : Z) : Prop :=
    (exists v, has d (KV N_) v /\ int_value v N) /\ (exists v, has d (KV A_) v /\ int_value v A).

  (** a valid model with A surfaces and N modes *)
  Definition valid (k : kind) (A N : Z) (d : mdict V) : Prop :=
    has_dims d A N /\
    forall m v s, has d (KV m) v -> spec_shape k A N m = Some s ->
      exists a, v = PArr a /\ map Z.of_nat (shape a) = s.

  Definition some_nonzero (a : arr V) : Prop := exists v, In v (data a) /\ isz v = false.

  (** only the eight known keys occur, and every value can be written as JSON *)
  Definition known_keys (d : mdict V) : Prop := forall k v, has d k v -> exists m, k = KV m.
  Definition serialisable (d : mdict V) : Prop := forall k v, has d k v -> v <> PBad.

  (** the number at [idx] of parameter [m]; a missing parameter means zero *)
  Inductive reads (d : mdict V) (m : vmk) (idx : list nat) : V -> Prop :=
  | reads_arr a v : has d (KV m) (PArr a) -> aget a idx = Some v -> reads d m idx v
  | reads_missing : (forall v, ~ has d (KV m) v) -> reads d m idx zero.

  (** equal as stored numbers, or both zero (0.0 and -0.0 are both zero) *)
  Definition num_eq (x y : V) : Prop := x = y \/ (isz x = true /\ isz y = true).

  (** [d'] describes the same model as [d] *)
  Definition same_numbers (d d' : mdict V) : Prop :=
    (forall v, has d (KV N_) v <-> has d' (KV N_) v) /\
    (forall v, has d (KV A_) v <-> has d' (KV A_) v) /\
    forall m idx x y, In m [E_; w_; G1_; G2_; G3_; G4_] ->
      reads d m idx x -> reads d' m idx y -> num_eq x y.

  (** exact contents after a save / load round trip *)
  Definition roundtrip (A : Z) (d d' : mdict V) : Prop :=
    forall m v', has d' (KV m) v' <->
      (has d (KV m) v' /\ forall a, v' = PArr a -> some_nonzero a)
      \/ (m = E_ /\ (forall a, has d (KV E_) (PArr a) -> ~ some_nonzero a)
          /\ exists z, v' = PArr z /\ wf_arr z /\ shape z = [Z.to_nat A; Z.to_nat A]
                       /\ forall x, In x (data z) -> x = zero).
End Spec.

Section Spec2.
  Context {V : Type}.
  Variable zero : V.

  (** entry [idx] of array [a'] in terms of [a] when the couplings between
      different surfaces have been set to zero *)
  Definition offdiag_zeroed (a a' : arr V) : Prop :=
    wf_arr a' /\ shape a' = shape a /\
    forall pre i j, inb (shape a) (pre ++ [i; j]) ->
      aget a' (pre ++ [i; j]) = if i =? j then aget a (pre ++ [i; j]) else Some zero.

  (** [d'] is [d] with the couplings between different surfaces set to zero *)
  Definition decoupled (d d' : mdict V) : Prop :=
    map fst d' = map fst d /\
    (forall k v, (forall a, v <> PArr a) -> (has d' k v <-> has d k v)) /\
    (forall m a, has d (KV m) (PArr a) ->
       exists a', has d' (KV m) (PArr a') /\ (if vmk_eqb m w_ then a' = a else offdiag_zeroed a a')).

  (** [a'] is the surface diagonal of [a]: a'[..., i] = a[..., i, i] *)
  Definition diagonal_of (a a' : arr V) : Prop :=
    wf_arr a' /\
    (forall pre x y, shape a = pre ++ [x; y] -> shape a' = pre ++ [Nat.min x y]) /\
    forall pre i, inb (shape a') (pre ++ [i]) -> aget a' (pre ++ [i]) = aget a (pre ++ [i; i]).

  Definition surface_diagonal (d d' : mdict V) : Prop :=
    map fst d' = map fst d /\
    (forall k v, (forall a, v <> PArr a) -> (has d' k v <-> has d k v)) /\
    (forall m a, has d (KV m) (PArr a) ->
       exists a', has d' (KV m) (PArr a') /\ (if vmk_eqb m w_ then a' = a else diagonal_of a a')).
End Spec2.
