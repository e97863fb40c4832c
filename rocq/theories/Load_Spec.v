(** What a model file says, independently of the functions that read it. *)
From Verif Require Import Common Arr_Model Arr_Proofs ModelIO_Model ModelIO_Spec.

Section Spec.
  Context {V : Type}.
  Variable zero : V.
  Variable vint : V -> res Z.

  (** the integer a JSON value stands for *)
  Inductive json_integer : jval V -> Z -> Prop :=
  | ji_int z : json_integer (JInt z) z
  | ji_float v z : vint v = Ok z -> json_integer (JFloat v) z.

  (** a file with the parameters of a model with A surfaces and N modes *)
  Record model_file (k : kind) (A N : Z) (o : list (string * jval V)) : Prop := {
    mf_unique : NoDup (map fst o);
    mf_known : forall s j, In (s, j) o -> exists m, s = vmk_value m;
    mf_modes : exists j, In ("number of modes"%string, j) o /\ json_integer j N;
    mf_surfaces : exists j, In ("number of surfaces"%string, j) o /\ json_integer j A;
    mf_arrays : forall m j s, In (vmk_value m, j) o -> spec_shape k A N m = Some s ->
                  exists l a, j = JList l /\ np_array (NList l) = Ok a /\ map Z.of_nat (shape a) = s }.

  (** the number the file holds at [idx] of parameter [m]; zero for a parameter that is missing *)
  Inductive file_number (o : list (string * jval V)) (m : vmk) (idx : list nat) : V -> Prop :=
  | fn_there l a x : In (vmk_value m, JList l) o -> np_array (NList l) = Ok a -> aget a idx = Some x -> file_number o m idx x
  | fn_missing : ~ In (vmk_value m) (map fst o) -> file_number o m idx zero.

  (** [x] is the table of the numbers the file holds for parameter [m], zero outside of the array *)
  Definition table (o : list (string * jval V)) (m : vmk) (s : list nat) (x : list nat -> V) : Prop :=
    forall idx, (inb s idx -> file_number o m idx (x idx)) /\ (~ inb s idx -> x idx = zero).
End Spec.
