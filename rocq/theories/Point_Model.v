(** Model of the re-weighting of a sampling model,
    /repo/pibronic/vibronic/vibronic_model_io.py:653-730.

    float64 arithmetic is modelled by exact real arithmetic (the files are those
    of ModelIO_Model with real numbers); a division by a zero frequency, which
    numpy answers with inf or nan, is therefore not modelled.
    [eigvalsh n m] are the eigenvalues numpy.linalg.eigvalsh returns for the n x n
    matrix m, in any order. *)
From Coq Require Import Reals.
From Verif Require Import Common Arr_Model ModelIO_Model.
Local Open Scope R_scope.

(** the test of np.count_nonzero on floats *)
Definition is_zero (x : R) : bool := if Req_EM_T x 0 then true else false.
(** a[idx]; only used inside the bounds *)
Definition entry (a : arr R) (idx : list nat) : R := match aget a idx with Some v => v | None => 0 end.
(** np.sum of a one dimensional array of length [n] *)
Fixpoint total (n : nat) (f : nat -> R) : R := match n with O => 0 | S m => total m f + f m end.
(** np.allclose(a, 0.0): |a - 0| <= 1e-8 + 1e-5 * |0| for every element *)
Definition close_to_zero (a : arr R) : bool :=
  forallb (fun x => if Rle_dec (Rabs (x - 0)) (/ 100000000 + / 100000 * Rabs 0) then true else false) (data a).
(** elementwise product of one dimensional arrays of lengths [n] and [m], with the broadcasting of numpy *)
Definition times1 (n : nat) (a : nat -> R) (m : nat) (b : nat -> R) : res (nat * (nat -> R)) :=
  if (n =? m)%nat then Ok (n, fun i => a i * b i)
  else if (n =? 1)%nat then Ok (m, fun i => a O * b i)
  else if (m =? 1)%nat then Ok (n, fun i => a i * b O)
  else Raise ValueError.
(** np.sum(a * b) *)
Definition sum_times (n : nat) (a : nat -> R) (m : nat) (b : nat -> R) : res R :=
  do p <- times1 n a m b; Ok (total (fst p) (snd p)).

Section Point.
  Variable vint : R -> res Z.
  Variable eigvalsh : nat -> (nat -> nat -> R) -> list R.

  (** model[key] where an array is needed; a verified model has arrays there *)
  Definition marr (d : mdict R) (m : vmk) : res (arr R) :=
    do v <- mitem d (KV m); match v with PArr a => Ok a | _ => Raise TypeError end.
  (** VMK.G2 in model and not np.allclose(model[VMK.G2], 0.0): raise Exception, 660-661 and 687-688 *)
  Definition no_quadratic (d : mdict R) : res unit :=
    match mget d (KV G2_) with
    | None => Ok tt
    | Some (PArr a) => if close_to_zero a then Ok tt else Raise OtherException
    | Some _ => Raise TypeError
    end.

  (** the minima of the oscillators, 665-675: minimums[idx, i] *)
  Definition minimums (d : mdict R) (Ai Ni : Z) : res (nat -> nat -> R) :=
    do _ <- np_zeros 0 [Ai; Ni];
    match mget d (KV G1_) with
    | None => Ok (fun _ _ => 0)
    | Some _ =>
        do w <- marr d w_;
        do lin <- marr d G1_;
        Ok (fun a i => - entry lin [i; a] / entry w [i])
    end.

  (** the linear terms of the coupled model, 681-686 *)
  Definition coupled_linear (d : mdict R) (A N : Z) : res (arr R) :=
    do z <- np_zeros 0 [N; A; A];
    match mget d (KV G1_) with
    | None => Ok z
    | Some (PArr a) => assign_all z a
    | Some _ => Raise TypeError
    end.

  (** the body of the loop, 692-706, for the point [q] (an array of length [Ni]) *)
  Definition lowest_energy (A N Ni : nat) (E w lin : arr R) (q : nat -> R) : res R :=
    do h <- sum_times N (fun i => entry w [i]) Ni (fun i => q i * q i);
    do terms <- for_res (fun acc aa => do s <- sum_times N (fun i => entry lin [i; fst aa; snd aa]) Ni q; Ok (acc ++ [s]))
                        (list_prod (seq 0 A) (seq 0 A)) [];
    let V := fun a1 a2 => entry E [a1; a2] + (if (a1 =? a2)%nat then h * / 2 else 0) + nth (a1 * A + a2) terms 0 in
    match eigvalsh A V with
    | [] => Raise ValueError                        (* min() of an empty array *)
    | x :: l => Ok (fold_left Rmin l x)
    end.

  (** simple_single_point_energy_calculation, 653-708; [vib] is FS.path_vib_model *)
  Definition single_point (f : fs R) (vib path : string) : res (list R) :=
    do it <- load_new 0 vint Diagonal f path;
    do _ <- no_quadratic it;
    do AiNi <- extract_dims vint it;
    do mins <- minimums it (fst AiNi) (snd AiNi);
    do cm <- load_new 0 vint Coupled f vib;
    do AN <- extract_dims vint cm;
    do E <- marr cm E_;
    do w <- marr cm w_;
    do lin <- coupled_linear cm (fst AN) (snd AN);
    do _ <- no_quadratic cm;
    for_res (fun acc a => do e <- lowest_energy (Z.to_nat (fst AN)) (Z.to_nat (snd AN)) (Z.to_nat (snd AiNi)) E w lin (mins a);
                          Ok (acc ++ [e]))
            (seq 0 (Z.to_nat (fst AiNi))) [].

  (** recalculate_energy_values_of_diagonal_model, 711-730 *)
  Definition recalculate (f : fs R) (vib path : string) : fs R * res unit :=
    match
      (do new <- single_point f vib path;
       do model <- load_new 0 vint Diagonal f path;
       do AN <- extract_dims vint model;
       do z <- np_zeros 0 [snd AN; fst AN];
       do lin <- match mget model (KV G1_) with
                 | None => Ok z
                 | Some (PArr a) => assign_all z a
                 | Some _ => Raise TypeError
                 end;
       do w <- marr model w_;
       let N := Z.to_nat (snd AN) in
       let delta := fun a => - / 2 * total N (fun i => entry lin [i; a] * entry lin [i; a] / entry w [i]) in
       let energies := map (fun a => nth a new 0 - delta a) (seq 0 (Z.to_nat (fst AN))) in
       Ok (mset model (KV E_) (PArr (mkArr [Z.to_nat (fst AN)] energies))))
    with
    | Ok d => save is_zero vint Diagonal f path d
    | Raise e => (f, Raise e)
    end.
End Point.
