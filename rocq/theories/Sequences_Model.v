(** Model of /repo/pibronic/vibronic/orthonormal/sequences.py and create.py: the
    tabulated scaling parameters and the orthonormal matrices built from them.

    The numbers in the tables are rationals (floating point rounding, NaN and
    infinities are not modelled); matrices have real entries.  The file of a
    table is given by its rows; np.savetxt and np.loadtxt are taken to be exact.
    The matrix exponential (scipy.linalg.expm) is a parameter. *)
From Coq Require Import Reals QArith Qreals Qabs.
From Verif Require Import Common.
Local Open Scope nat_scope.

(** sequences.py:85 *)
Record pair := mkPair { px : Q; py : Q }.
Definition Qlt_bool (a b : Q) : bool := negb (Qle_bool b a).

(** np.isclose(a, b) with the default tolerances *)
Definition isclose (a b : Q) : bool := Qle_bool (Qabs (a - b)) ((1 # 100000000) + (1 # 100000) * Qabs b).

(** l[i] for a possibly negative index *)
Definition py_index {A} (l : list A) (i : Z) : res A :=
  let j := if (i <? 0)%Z then (i + Z.of_nat (length l))%Z else i in
  if (j <? 0)%Z then Raise IndexError
  else match nth_error l (Z.to_nat j) with Some a => Ok a | None => Raise IndexError end.

(** sequences.py:149-155; a row is (y, x) *)
Fixpoint search (sequence : list (Q * Q)) (desired : Q) (idx : nat) (rows : list (Q * Q)) : res pair :=
  match rows with
  | [] => Raise OtherException
  | s :: rows' =>
      if isclose (fst s) desired then Ok (mkPair (snd s) (fst s))
      else if Qlt_bool desired (fst s) then do p <- py_index sequence (Z.of_nat idx - 1); Ok (mkPair (snd p) (fst p))
      else search sequence desired (S idx) rows'
  end.
(** sequences.py:136-157 *)
Definition select_pair (sequence : list (Q * Q)) (t : Q) : res pair :=
  do _ <- passert (Qle_bool 0 t && Qle_bool t 1);
  do last <- py_index sequence (-1);
  let desired := (fst last * t)%Q in
  if Qeq_bool t 0 then Ok (mkPair 0 0)
  else if Qeq_bool t 1 then Ok (mkPair (snd last) (fst last))
  else search sequence desired 0 sequence.

(** sequences.py:78, 93-97 *)
Definition minimum_length_of_sequence : nat := 50.
Definition check_minimum_length_of_sequence {A} (sequence : list A) : res unit :=
  passert (minimum_length_of_sequence <=? length sequence).

(** ** the turning points *)
(** sequences.py:174-192; [scan] lists the points of the grid with their
    distances *)
Fixpoint first_turn_around (old : option (Q * Q)) (scan : list (Q * Q)) : res (Q * Q) :=
  match scan with
  | [] => Raise AssertionError
  | (x, distance) :: scan' =>
      match old with
      | Some (old_distance, old_x) =>
          if Qlt_bool distance old_distance then Ok (old_distance, old_x)
          else first_turn_around (Some (distance, x)) scan'
      | None => first_turn_around (Some (distance, x)) scan'
      end
  end.
Definition find_first_turn_around_point (scan : list (Q * Q)) : res (Q * Q) := first_turn_around None scan.

(** sequences.py:226-255.  The variables of the loop: descending together with
    previous_turn_around, old_distance, old_x, xy_list *)
Record tstate := mkT { turn : option Q; old_distance : Q; old_x : Q; xy : list pair }.
Definition tstep (s : tstate) (p : Q * Q) : tstate :=
  let (x, distance) := p in
  match turn s with
  | None =>
      if Qlt_bool distance (old_distance s)
      then mkT (Some (old_distance s)) distance x (xy s ++ [mkPair (old_x s) (old_distance s)])
      else mkT None distance x (xy s)
  | Some previous_turn_around =>
      if Qle_bool previous_turn_around distance
      then mkT None distance x (xy s ++ [mkPair x distance])
      else mkT (Some previous_turn_around) distance x (xy s)
  end.
Definition list_of_turning_points (scan : list (Q * Q)) : list pair :=
  xy (fold_left tstep scan (mkT None 0 0 [])).

(** sequences.py:213-223: the pairs that are saved; range(1, len, 2) *)
Fixpoint x_pairs_from (l : list pair) : res (list (Q * Q)) :=
  match l with
  | [] => Ok []
  | [_] => Raise IndexError
  | a :: b :: l' => do r <- x_pairs_from l'; Ok ((px a, px b) :: r)
  end.
Definition generate_x_pairs (p_list : list pair) : res (list (Q * Q)) :=
  match p_list with
  | [] => Raise IndexError
  | p :: l => do r <- x_pairs_from l; Ok ((0%Q, px p) :: r)
  end.
(** sequences.py:303-305: keep the rows (y, x) with x inside a pair *)
Definition prune (pairs : list (Q * Q)) (full : list (Q * Q)) : list (Q * Q) :=
  flat_map (fun r => filter (fun p => Qle_bool (fst r) (snd p) && Qle_bool (snd p) (snd r)) full) pairs.

(** sequences.py:288-298: x - step for the first sample beyond the wanted
    distance *)
Fixpoint best_x (dist : Q -> Q) (best_y step : Q) (samples : list Q) : res Q :=
  match samples with
  | [] => Raise OtherException
  | x :: samples' =>
      if Qlt_bool best_y (dist x)
      then do _ <- passert (Qle_bool (dist (x - step)%Q) best_y); Ok (x - step)%Q
      else best_x dist best_y step samples'
  end.
(** the two files written: x pairs, sequence *)
Record saved := mkSaved { pairs_file : option (list (Q * Q)); data_file : option (list (Q * Q)) }.
(** sequences.py:258-314.  [dist] is the norm of expm(x * SKSM) - identity,
    [best_y] is sqrt(order) / 2, [linspace b] is np.linspace(0, b, n_bins) and [step]
    its spacing, [old] the files present before *)
Definition generate_full_monotonic_sequence
    (dist : Q -> Q) (best_y : Q) (scan_grid : list Q) (linspace : Q -> list Q) (step : Q -> Q) (old : saved) : saved * res unit :=
  let p_list := list_of_turning_points (map (fun x => (x, dist x)) scan_grid) in
  match generate_x_pairs p_list with
  | Raise e => (old, Raise e)
  | Ok pairs =>
      let files := mkSaved (Some pairs) (data_file old) in
      match (do m <- py_index p_list (-1);
             do b <- best_x dist best_y (step (px m)) (linspace (px m));
             let sequence := prune pairs (map (fun x => (dist x, x)) (linspace b)) in
             do _ <- check_minimum_length_of_sequence sequence;
             Ok sequence) with
      | Raise e => (files, Raise e)
      | Ok sequence => (mkSaved (Some pairs) (Some sequence), Ok tt)
      end
  end.

(** ** orthonormal matrices *)
Definition mat := nat -> nat -> R.
(** np.tri(n, k=0): ones where column <= row *)
Definition tri : mat := fun i j => if j <=? i then 1%R else 0%R.
Definition tr (a : mat) : mat := fun i j => a j i.
Definition eye : mat := fun i j => if i =? j then 1%R else 0%R.
(** sequences.py:160-171 *)
Definition build_SKSM_and_identity (order : Z) : res (mat * mat) :=
  do _ <- passert (0 <? order)%Z;
  let upper_tri := tr tri in
  Ok (fun i j => (upper_tri i j - tr upper_tri i j)%R, eye).

Fixpoint rsum (n : nat) (f : nat -> R) : R :=
  match n with
  | O => 0%R
  | S n' => (rsum n' f + f n')%R
  end.
Definition dot (n : nat) (a b : mat) : mat := fun i j => rsum n (fun k => (a i k * b k j)%R).
Definition scale (x : R) (a : mat) : mat := fun i j => (x * a i j)%R.

(** np.allclose(a, b) on n x n matrices, default tolerances *)
Definition Rleb (a b : R) : bool := if Rle_dec a b then true else false.
Definition allclose (n : nat) (a b : mat) : bool :=
  forallb (fun i => forallb (fun j => Rleb (Rabs (a i j - b i j)) (/ 100000000 + / 100000 * Rabs (b i j))) (seq 0 n)) (seq 0 n).

(** create.py:14-37; [tables] are the sequence files next to the module
    (sequences.py:117-125) *)
Definition create_orthonormal (expm : nat -> mat -> mat) (tables : Z -> option (list (Q * Q))) (order : Z) (t : Q) : res mat :=
  do _ <- passert (Qle_bool 0 t && Qle_bool t 1);
  do si <- build_SKSM_and_identity order;
  let (SKSM, identity) := si : mat * mat in
  if Qeq_bool t 0 then Ok identity
  else
    do sequence <- match tables order with Some s => Ok s | None => Raise AssertionError end;
    do p <- select_pair sequence t;
    let n := Z.to_nat order in
    let m := expm n (scale (Q2R (px p)) SKSM) in
    do _ <- passert (allclose n (dot n m (tr m)) eye);
    Ok m.
