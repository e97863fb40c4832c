(** Model of the comparison of two models,
    /repo/pibronic/vibronic/vibronic_model_io.py:204-266.
    Floats are exact rationals or NaN (infinities are not modelled). *)
From Coq Require Import QArith Qabs.
From Verif Require Import Common Arr_Model ModelIO_Model.
Local Open Scope nat_scope.

Inductive num := Num (q : Q) | NaN.
Definition n_zero : num := Num 0.
Definition n_isz (x : num) : bool := match x with Num q => Qeq_bool q 0 | NaN => false end.
(** int(float): towards zero, ValueError for NaN *)
Definition n_int (x : num) : res Z :=
  match x with Num q => Ok (Z.quot (Qnum q) (Zpos (Qden q))) | NaN => Raise ValueError end.
Definition n_of_int (z : Z) : num := Num (inject_Z z).

(** np.isclose(a, b) with the default rtol=1e-5, atol=1e-8 *)
Definition isclose (a b : num) : bool :=
  match a, b with
  | Num x, Num y => Qle_bool (Qabs (x - y)) ((1 # 100000000) + (1 # 100000) * Qabs y)
  | _, _ => false
  end.

(** numpy broadcasting of two shapes against each other *)
Fixpoint bzip (s t : list nat) : option (list nat) :=
  match s, t with
  | [], [] => Some []
  | x :: s', y :: t' =>
      if (x =? y) || (x =? 1) || (y =? 1)
      then match bzip s' t' with Some r => Some ((if x =? 1 then y else x) :: r) | None => None end
      else None
  | _, _ => None
  end.
Definition pad (n : nat) (s : list nat) : list nat := repeat 1 (n - length s) ++ s.
Definition bshape (s t : list nat) : option (list nat) :=
  let n := Nat.max (length s) (length t) in bzip (pad n s) (pad n t).
Definition bget {V} (a : arr V) (idx : list nat) : option V :=
  aget a (bc_index (shape a) (skipn (length idx - length (shape a)) idx)).

(** np.asarray of a dictionary value.  Simplified: values that are neither
    numbers nor arrays make np.allclose raise TypeError *)
Definition as_array (v : pval num) : res (arr num) :=
  match v with
  | PInt z => Ok (mkArr [] [n_of_int z])
  | PFloat x => Ok (mkArr [] [x])
  | PArr a => Ok a
  | PJson | PBad => Raise TypeError
  end.

(** np.allclose(v1, v2) *)
Definition allclose (v1 v2 : pval num) : res bool :=
  do a <- as_array v1;
  do b <- as_array v2;
  match bshape (shape a) (shape b) with
  | None => Raise ValueError
  | Some s => Ok (forallb (fun idx => match bget a idx, bget b idx with
                                      | Some x, Some y => isclose x y
                                      | _, _ => false
                                      end) (indices s))
  end.

(** the for loops at vibronic_model_io.py:224-234 and 259-264 *)
Fixpoint same_loop (new1 new2 : mdict num) (keys : list key) : res bool :=
  match keys with
  | [] => Ok true
  | k :: keys' =>
      do v1 <- mitem new1 k;
      do v2 <- mitem new2 k;
      do c <- allclose v1 v2;
      if c then same_loop new1 new2 keys' else Ok false
  end.

(** vibronic_model_io.py:204-236 _same_model (Coupled), 239-266
    _same_diagonal_model (Diagonal).  The dimensions of d2 are taken from d1, as
    in the source (213 / 248). *)
Definition same_model (k : kind) (d1 d2 : mdict num) : res bool :=
  do _ <- verify n_int k d1;
  do _ <- verify n_int k d2;
  do AN1 <- extract_dims n_int d1;
  do AN2 <- extract_dims n_int d1;
  if negb (fst AN1 =? fst AN2)%Z || negb (snd AN1 =? snd AN2)%Z then Ok false
  else
    do t1 <- zeros_template n_zero k (fst AN1) (snd AN1);
    let new1 := dupdate key_eqb t1 d1 in
    do t2 <- zeros_template n_zero k (fst AN2) (snd AN2);
    let new2 := dupdate key_eqb t2 d2 in
    same_loop new1 new2 (dkeys new1).
