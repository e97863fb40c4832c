(** numpy arrays of floats as used by /repo/pibronic: a shape and the elements
    in row-major order.  The element type is abstract. *)
From Verif Require Import Common.

Section Arr.
  Context {V : Type}.

  (** np.ndarray: shape and row-major contents. *)
  Record arr := mkArr { shape : list nat; data : list V }.

  Definition prodn (s : list nat) : nat := fold_right Nat.mul 1 s.

  (** the representation invariant of an ndarray *)
  Definition wf_arr (a : arr) : Prop := length (data a) = prodn (shape a).

  (** row-major offset of a multi-index; [None] when it is out of bounds *)
  Fixpoint offset (s idx : list nat) : option nat :=
    match s, idx with
    | [], [] => Some 0
    | d :: s', i :: idx' =>
        if i <? d then
          match offset s' idx' with
          | Some k => Some (i * prodn s' + k)
          | None => None
          end
        else None
    | _, _ => None
    end.

  (** a[idx] *)
  Definition aget (a : arr) (idx : list nat) : option V :=
    match offset (shape a) idx with
    | Some k => nth_error (data a) k
    | None => None
    end.

  (** elements of an array given as a function of the multi-index *)
  Fixpoint tab (s : list nat) (f : list nat -> V) : list V :=
    match s with
    | [] => [f []]
    | d :: s' => flat_map (fun i => tab s' (fun idx => f (i :: idx))) (seq 0 d)
    end.

  Definition abuild (s : list nat) (f : list nat -> V) : arr := mkArr s (tab s f).

  (** np.full / np.zeros *)
  Definition afull (s : list nat) (v : V) : arr := abuild s (fun _ => v).

  (** nested Python lists as produced by ndarray.tolist() and read by json *)
  Inductive nest :=
  | NNum (v : V)
  | NList (l : list nest).

  Fixpoint chunks (k m : nat) (l : list V) : list (list V) :=
    match k with
    | 0 => []
    | S k' => firstn m l :: chunks k' m (skipn m l)
    end.

  (** ndarray.tolist() *)
  Fixpoint tolist_ (s : list nat) (l : list V) : nest :=
    match s with
    | [] => match l with v :: _ => NNum v | [] => NList [] end
    | d :: s' => NList (map (tolist_ s') (chunks d (prodn s') l))
    end.
  Definition tolist (a : arr) : nest := tolist_ (shape a) (data a).

  Fixpoint list_eqb (a b : list nat) : bool :=
    match a, b with
    | [], [] => true
    | x :: a', y :: b' => Nat.eqb x y && list_eqb a' b'
    | _, _ => false
    end.

  (** np.array(nested list, dtype=float): ragged input is a ValueError *)
  Fixpoint np_array (x : nest) : res arr :=
    match x with
    | NNum v => Ok (mkArr [] [v])
    | NList [] => Ok (mkArr [0] [])
    | NList (y :: ys) =>
        do a0 <- np_array y;
        do rest <- (fix go (l : list nest) : res (nat * list V) :=
                     match l with
                     | [] => Ok (0, [])
                     | z :: zs =>
                         do a <- np_array z;
                         if list_eqb (shape a) (shape a0)
                         then do r <- go zs; Ok (S (fst r), data a ++ snd r)
                         else Raise ValueError
                     end) ys;
        Ok (mkArr (S (fst rest) :: shape a0) (data a0 ++ snd rest))
    end.

  (** numpy broadcasting of [src] into the shape [d] (assignment [dst[:] = src]):
      aligned at the last axis, axes of length one are repeated, missing leading
      axes are repeated, surplus leading axes of length one are dropped. *)
  Fixpoint strip_ones (n : nat) (s : list nat) : option (list nat) :=
    match n, s with
    | 0, _ => Some s
    | S n', 1 :: s' => strip_ones n' s'
    | _, _ => None
    end.

  (** both lists of the same length: can [s] be broadcast to [d]? *)
  Fixpoint bc_ok (d s : list nat) : bool :=
    match d, s with
    | [], [] => true
    | x :: d', y :: s' => ((y =? x) || (y =? 1)) && bc_ok d' s'
    | _, _ => false
    end.

  Fixpoint bc_index (s idx : list nat) : list nat :=
    match s, idx with
    | y :: s', i :: idx' => (if y =? 1 then 0 else i) :: bc_index s' idx'
    | _, _ => []
    end.

  (** aligned source shape, if the number of axes can be reconciled *)
  Definition bc_align (d s : list nat) : option (list nat) :=
    if length d <? length s then strip_ones (length s - length d) s else Some s.

  (** all multi-indices of a shape, in row-major order *)
  Fixpoint indices (s : list nat) : list (list nat) :=
    match s with
    | [] => [[]]
    | d :: s' => flat_map (fun i => map (cons i) (indices s')) (seq 0 d)
    end.

  Fixpoint opt_all (l : list (option V)) : option (list V) :=
    match l with
    | [] => Some []
    | Some v :: l' => match opt_all l' with Some r => Some (v :: r) | None => None end
    | None :: _ => None
    end.

  (** dst[:] = src  (the shape of dst never changes) *)
  Definition assign_all (dst src : arr) : res arr :=
    match bc_align (shape dst) (shape src) with
    | None => Raise ValueError
    | Some s =>
        let lead := length (shape dst) - length s in
        if bc_ok (skipn lead (shape dst)) s then
          match opt_all (map (fun idx => aget (mkArr s (data src)) (bc_index s (skipn lead idx)))
                             (indices (shape dst)))
          with
          | Some l => Ok (mkArr (shape dst) l)
          | None => Raise ValueError   (* not reachable for well formed arrays *)
          end
        else Raise ValueError
    end.
End Arr.
Arguments arr : clear implicits.
Arguments nest : clear implicits.
