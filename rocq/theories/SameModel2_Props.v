(** C06, continued: the comparison of single values, for arrays of any shapes, and the values
    that make it fail. *)
From Coq Require Import QArith Qabs.
From Verif Require Import Common Common_Proofs Arr_Model Arr_Proofs ModelIO_Model ModelIO_Spec ModelIO_Proofs SameModel_Model SameModel_Proofs ModelIO_Props SameModel_Props Bcast_Proofs.
Local Open Scope nat_scope.

(** C06: two arrays are compared after aligning them at the last axis.  The comparison fails if two aligned
    axes have different lengths and neither is one; otherwise it is True exactly when all aligned numbers agree. *)
Theorem C06_compare (a b : arr num) : wf_arr a -> wf_arr b ->
  (allclose (PArr a) (PArr b) = Raise ValueError <-> ~ compatible (shape a) (shape b)) /\
  (compatible (shape a) (shape b) -> exists c, allclose (PArr a) (PArr b) = Ok c /\
     (c = true <-> forall i j x y, aget a i = Some x -> aget b j = Some y -> aligned (shape a) (shape b) i j -> agree x y)).
Proof.
  intros Wa Wb. unfold allclose. cbn [as_array bind]. destruct (bshape_spec (shape a) (shape b)) as [S1 S2].
  destruct (bshape (shape a) (shape b)) as [r|] eqn:E.
  - destruct (S2 r eq_refl) as [C _]. split; [split; [discriminate|intros H; exfalso; auto]|]. intros _. eexists. split; [reflexivity|].
    rewrite (compare_all isclose a b r Wa Wb E). split; intros H i j x y Hx Hy A; apply isclose_agree; eapply H; eauto.
  - assert (N : ~ compatible (shape a) (shape b)) by (apply S1; reflexivity). split; [tauto|]. intros C. exfalso. auto.
Qed.
Print Assumptions C06_compare.
(** C06: numbers are compared as arrays without axes; anything else cannot be compared *)
Theorem C06_values v1 v2 : 
  (forall z, allclose (PInt z) v2 = allclose (PFloat (Num (inject_Z z))) v2 /\ allclose v1 (PInt z) = allclose v1 (PFloat (Num (inject_Z z)))) /\
  (forall x, allclose (PFloat x) v2 = allclose (PArr (mkArr [] [x])) v2 /\ allclose v1 (PFloat x) = allclose v1 (PArr (mkArr [] [x]))) /\
  (v1 = PJson \/ v1 = PBad \/ v2 = PJson \/ v2 = PBad -> allclose v1 v2 = Raise TypeError).
Proof.
  split; [|split].
  - intros z. split; [reflexivity|]. destruct v1; reflexivity.
  - intros x. split; [reflexivity|]. destruct v1; reflexivity.
  - intros [->|[->|[->| ->]]]; try reflexivity; destruct v1; reflexivity.
Qed.
Print Assumptions C06_values.
(** C06: a model whose number of modes is NaN is not compared *)
Theorem C06_nan_dimension k d1 d2 : mget d1 (KV N_) = Some (PFloat NaN) -> (exists v, mget d1 (KV A_) = Some v) ->
  same_model k d1 d2 = Raise ValueError.
Proof.
  intros H [v Hv]. unfold same_model, verify, extract_dims, mitem, dmem. unfold mget in *. rewrite H, Hv. reflexivity.
Qed.
Print Assumptions C06_nan_dimension.

(** a vector against the last axis of a matrix; a column against a row; lengths 2 and 3 *)
Example C06_compare_example :
  allclose (PArr (mkArr [2] [Num 1; Num 2])) (PArr (mkArr [2; 2] [Num 1; Num 2; Num 1; Num 2])) = Ok true /\
  allclose (PArr (mkArr [2] [Num 1; Num 2])) (PArr (mkArr [2; 2] [Num 1; Num 1; Num 2; Num 2])) = Ok false /\
  allclose (PArr (mkArr [2; 1] [Num 5; Num 5])) (PArr (mkArr [1; 3] [Num 5; Num 5; Num 5])) = Ok true /\
  allclose (PArr (mkArr [2] [Num 1; Num 2])) (PArr (mkArr [3] [Num 1; Num 2; Num 3])) = Raise ValueError /\
  same_model Coupled [(KV N_, PFloat NaN); (KV A_, PInt 1)] [] = Raise ValueError.
Proof. repeat split; vm_compute; reflexivity. Qed.
