(** Model of the functions of /repo/pibronic/vibronic/vibronic_model_io.py that
    create models: generate_vibronic_model_data (353-416),
    create_fake_coupled_model (802-872), and the symmetry checks (76-131).

    Numbers are elements of an abstract type [V] with the operations used;
    [close] is the element test of np.allclose.  Rounding is not modelled: the
    theorems assume ring laws for [add] and [mul]. *)
From Verif Require Import Common Arr_Model ModelIO_Model SameModel_Model.
Local Open Scope nat_scope.

Section Create.
  Context {V : Type}.
  Variables (zero one : V) (add mul : V -> V -> V) (opp : V -> V) (div : V -> V -> V).
  Variable isz : V -> bool.
  Variable vint : V -> res Z.
  Variable close : V -> V -> bool.

  (** ** numpy operations *)
  Definition getd (a : arr V) (idx : list nat) : V := match aget a idx with Some v => v | None => zero end.

  (** np.allclose(a, b) *)
  Definition np_allclose (a b : arr V) : res bool :=
    match bshape (shape a) (shape b) with
    | None => Raise ValueError
    | Some s => Ok (forallb (fun idx => match bget a idx, bget b idx with
                                        | Some x, Some y => close x y
                                        | _, _ => false
                                        end) (indices s))
    end.

  (** position of the first occurrence *)
  Fixpoint pos (x : nat) (l : list nat) : nat :=
    match l with [] => 0 | y :: l' => if x =? y then 0 else S (pos x l') end.
  (** a.transpose(p): axis k of the result is axis p[k] of a *)
  Definition transpose (p : list nat) (a : arr V) : arr V :=
    abuild (map (fun ax => nth ax (shape a) 0) p)
           (fun idx => getd a (map (fun ax => nth (pos ax p) idx 0) (seq 0 (length p)))).
  (** l[i], l[j] = l[j], l[i] *)
  Definition swap (i j : nat) (l : list nat) : list nat :=
    map (fun k => nth (if k =? i then j else if k =? j then i else k) l 0) (seq 0 (length l)).

  Definition vsum (l : list V) : V := fold_right add zero l.
  Definition vprod (l : list V) : V := fold_right mul one l.

  (** a.dot(b) of two matrices (other dimensions: not modelled, ValueError) *)
  Definition dot (a b : arr V) : res (arr V) :=
    match shape a, shape b with
    | [n; m], [m'; p] =>
        if m =? m'
        then Ok (abuild [n; p] (fun idx => vsum (map (fun k => mul (getd a [nth 0 idx 0; k]) (getd b [k; nth 1 idx 0])) (seq 0 m))))
        else Raise ValueError
    | _, _ => Raise ValueError
    end.

  (** np.eye(n) *)
  Definition eye (n : Z) : res (arr V) :=
    if (0 <=? n)%Z
    then Ok (abuild [Z.to_nat n; Z.to_nat n] (fun idx => if nth 0 idx 0 =? nth 1 idx 0 then one else zero))
    else Raise ValueError.

  (** np.einsum("s1,s2,..->out", ops): one string of labels per operand.
      Simplified: a label with two different sizes is a ValueError also when one
      of them is 1. *)
  Fixpoint bind_labels (ls : list ascii) (s : list nat) (env : list (ascii * nat)) : res (list (ascii * nat)) :=
    match ls, s with
    | [], [] => Ok env
    | l :: ls', n :: s' =>
        match dget Ascii.eqb env l with
        | None => bind_labels ls' s' (dset Ascii.eqb env l n)
        | Some n' => if n =? n' then bind_labels ls' s' env else Raise ValueError
        end
    | _, _ => Raise ValueError
    end.
  Definition lookup (env : list (ascii * nat)) (l : ascii) : nat :=
    match dget Ascii.eqb env l with Some n => n | None => 0 end.
  Definition einsum (specs : list string) (out : string) (ops : list (arr V)) : res (arr V) :=
    do env <- for_res (fun e so => bind_labels (list_ascii_of_string (fst so)) (shape (snd so)) e) (combine specs ops) [];
    let outl := list_ascii_of_string out in
    let summed := filter (fun l => negb (existsb (Ascii.eqb l) outl)) (map fst env) in
    Ok (abuild (map (lookup env) outl)
         (fun idx => vsum (map (fun sidx =>
            let e := combine (outl ++ summed) (idx ++ sidx) in
            vprod (map (fun so => getd (snd so) (map (lookup e) (list_ascii_of_string (fst so)))) (combine specs ops)))
            (indices (map (lookup env) summed))))).

  (** a[pre, ...] *)
  Definition get_sub (a : arr V) (pre : list nat) : arr V :=
    abuild (skipn (length pre) (shape a)) (fun idx => getd a (pre ++ idx)).
  Fixpoint in_bounds (pre s : list nat) : bool :=
    match pre, s with
    | [], _ => true
    | i :: pre', n :: s' => (i <? n) && in_bounds pre' s'
    | _, [] => false
    end.
  (** a[pre, ...] = sub.  Simplified: no broadcasting. *)
  Definition set_sub (a : arr V) (pre : list nat) (sub : arr V) : res (arr V) :=
    if in_bounds pre (shape a) then
      if list_eqb (skipn (length pre) (shape a)) (shape sub) then
        Ok (abuild (shape a) (fun idx => if list_eqb (firstn (length pre) idx) pre
                                         then getd sub (skipn (length pre) idx) else getd a idx))
      else Raise ValueError
    else Raise IndexError.

  (** np.tril(a, k) of a matrix *)
  Definition tril (k : Z) (a : arr V) : arr V :=
    abuild (shape a) (fun idx => if (Z.of_nat (nth 1%nat idx 0%nat) <=? Z.of_nat (nth 0%nat idx 0%nat) + k)%Z then getd a idx else zero).
  (** a + b.  Simplified: no broadcasting. *)
  Definition add_arr (a b : arr V) : res (arr V) :=
    if list_eqb (shape a) (shape b) then Ok (abuild (shape a) (fun idx => add (getd a idx) (getd b idx))) else Raise ValueError.
  (** np.diag of a matrix *)
  Definition diag (a : arr V) : arr V :=
    abuild [Nat.min (nth 0 (shape a) 0) (nth 1 (shape a) 0)] (fun idx => getd a [nth 0 idx 0; nth 0 idx 0]).

  (** ** Symmetry checks *)
  (** vibronic_model_io.py:76-86 *)
  Definition array_is_symmetric_in_A (a : arr V) : res bool :=
    let n := length (shape a) in
    np_allclose a (transpose (swap (n - 1) (n - 2) (seq 0 n)) a).

  (** vibronic_model_io.py:96-100, the loop *)
  Fixpoint symmetric_loop (d : mdict V) : res bool :=
    match d with
    | [] => Ok true
    | (k, PArr a) :: d' =>
        if 2 <=? length (shape a)
        then do b <- array_is_symmetric_in_A a; if b then symmetric_loop d' else Ok false
        else symmetric_loop d'
    | _ :: d' => symmetric_loop d'
    end.
  (** vibronic_model_io.py:89-102 *)
  Definition symmetric_in_surfaces (d : mdict V) : res bool :=
    do _ <- verify vint Coupled d; symmetric_loop d.

  (** vibronic_model_io.py:113-117 and 123-128: exchange mode axes *)
  Definition modes_check (d : mdict V) (m : vmk) (sw : list nat -> list nat) : res bool :=
    match mget d (KV m) with
    | None => Ok true
    | Some (PArr a) => np_allclose a (transpose (sw (seq 0 (length (shape a)))) a)
    | Some _ => Raise AttributeError
    end.
  (** vibronic_model_io.py:105-131 *)
  Definition symmetric_in_modes (d : mdict V) : res bool :=
    do _ <- verify vint Coupled d;
    do b <- modes_check d G2_ (swap 0 1);
    if b then modes_check d G4_ (fun l => swap 2 3 (swap 0 1 l)) else Ok false.

  (** ** generate_vibronic_model_data *)
  (** np.random.uniform(lo, hi, shape): the numbers come from a source [rnd]
      which is given the number of the call *)
  Variable rnd : nat -> V -> V -> list nat -> V.
  Definition uniform (call : nat) (lo hi : V) (s : list Z) : res (arr V) :=
    if forallb (fun z => (0 <=? z)%Z) s then Ok (abuild (map Z.to_nat s) (rnd call lo hi)) else Raise ValueError.
  (** np.linspace(lo, hi, num): values from a function *)
  Variable linspace : V -> V -> nat -> nat -> V.
  Definition np_linspace (lo hi : V) (n : Z) : res (arr V) :=
    if (0 <=? n)%Z then Ok (abuild [Z.to_nat n] (fun idx => linspace lo hi (Z.to_nat n) (nth 0 idx 0))) else Raise ValueError.

  (** np.tril(x) + np.tril(x, k=-1).T, vibronic_model_io.py:339, 348, 386 *)
  Definition sym_fill (x : arr V) : res (arr V) := add_arr (tril 0 x) (transpose [1; 0] (tril (-1) x)).

  (** vibronic_model_io.py:334-340; [disp] is the array of displacements,
      [first] the number of the first call of the generator *)
  Definition generate_linear_terms (first : nat) (G1 : arr V) (A : Z) (disp : arr V) (N : nat) : res (arr V) :=
    for_res (fun acc i =>
      do x <- uniform (first + i) (opp (getd disp [i])) (getd disp [i]) [A; A];
      do s <- sym_fill x;
      set_sub acc [i] s) (seq 0 N) G1.

  (** vibronic_model_io.py:343-350 *)
  Definition generate_quadratic_terms (first : nat) (G2 : arr V) (A : Z) (disp : arr V) (N : nat) : res (arr V) :=
    for_res (fun acc ij =>
      let '(i, j) := ij in
      do x <- uniform (first + (i * N + j)) (opp (getd disp [i; j])) (getd disp [i; j]) [A; A];
      do s <- sym_fill x;
      do acc' <- set_sub acc [i; j] s;
      do s' <- sym_fill x;
      set_sub acc' [j; i] s') (list_prod (seq 0 N) (seq 0 N)) G2.

  (** paramDict after the update with input_parameters (355-366); the entry
      'quadratic_scaling' is not used *)
  Record gen_params := { g_freq : V * V; g_energy : V * V; g_linear : V; g_diagonal : bool; g_states : Z; g_modes : Z }.

  (** d[key] for an entry that holds an array *)
  Definition marr (d : mdict V) (m : vmk) : res (arr V) :=
    do v <- mitem d (KV m); match v with PArr a => Ok a | _ => Raise TypeError end.

  (** vibronic_model_io.py:353-416 *)
  Definition generate_model (p : gen_params) : res (mdict V) :=
    let A := g_states p in
    let N := g_modes p in
    do model <- zeros_template zero Coupled A N;
    do w <- np_linspace (fst (g_freq p)) (snd (g_freq p)) N;
    let model := mset model (KV w_) (PArr w) in
    do e <- uniform 0 (fst (g_energy p)) (snd (g_energy p)) [A; A];
    do e <- sym_fill e;
    let model := mset model (KV E_) (PArr e) in
    let l_shift := abuild (shape w) (fun idx => div (g_linear p) (getd w idx)) in
    do G1 <- marr model G1_;
    do G1 <- generate_linear_terms 1 G1 A l_shift (Z.to_nat N);
    let model := mset model (KV G1_) (PArr G1) in
    if g_diagonal p then
      do d_model <- zeros_template zero Diagonal A N;
      let d_model := mset d_model (KV E_) (PArr (diag e)) in
      let d_model := mset d_model (KV w_) (PArr w) in
      do D1 <- marr d_model G1_;
      do D1 <- for_res (fun acc i => set_sub acc [i] (diag (get_sub G1 [i]))) (seq 0 (Z.to_nat N)) D1;
      do G2 <- marr model G2_;
      do D2 <- marr d_model G2_;
      do D2 <- for_res (fun acc ij => set_sub acc [fst ij; snd ij] (diag (get_sub G2 [fst ij; snd ij])))
                       (list_prod (seq 0 (Z.to_nat N)) (seq 0 (Z.to_nat N))) D2;
      Ok (mset (mset d_model (KV G1_) (PArr D1)) (KV G2_) (PArr D2))
    else
      do b <- symmetric_in_surfaces model;
      do _ <- passert b;
      do b <- symmetric_in_modes model;
      do _ <- passert b;
      Ok model.

  (** ** create_fake_coupled_model *)
  (** the argument transformation_matrix *)
  Inductive matrix_arg := MNone | MStr (s : string) | MArr (a : arr V) | MOther.

  (** np.load(path) *)
  Definition np_load (f : fs V) (path : string) : res (arr V) :=
    match f path with
    | Some (CNpy a) => Ok a
    | _ => Raise OSError
    end.

  (** vibronic_model_io.py:818-832; [gen] is the outcome of
      create_orthonormal_matrix_lambda_close_to_identity(A, tuning_parameter) *)
  Definition obtain_matrix (gen : res (arr V)) (f : fs V) (ortho : string) (A : Z) (u : matrix_arg) : res (arr V) :=
    match u with
    | MNone => gen
    | MStr s => if String.eqb s "re-use" then np_load f ortho else Raise OtherException
    | MArr a =>
        do p <- dot a (transpose [1; 0] a);
        do e <- eye A;
        do b <- np_allclose p e;
        do _ <- passert b;
        Ok a
    | MOther => Raise OtherException
    end.

  (** vibronic_model_io.py:844-850, op_switcher[key](array) *)
  Definition rotate (U : arr V) (m : vmk) (old : arr V) : res (arr V) :=
    match m with
    | E_ => einsum ["bj"; "jk"; "ck"] "bc" [U; old; U]
    | G1_ => einsum ["bj"; "ajk"; "ck"] "abc" [U; old; U]
    | G2_ => einsum ["cj"; "abjk"; "dk"] "abcd" [U; old; U]
    | G3_ => einsum ["dj"; "abcjk"; "ek"] "abcde" [U; old; U]
    | G4_ => einsum ["ej"; "abcdjk"; "fk"] "abcdef" [U; old; U]
    | N_ | A_ | w_ => Raise KeyError
    end.
  (** vibronic_model_io.py:856 *)
  Definition mode_switcher (m : vmk) : res nat :=
    match m with
    | E_ => Ok 0 | G1_ => Ok 1 | G2_ => Ok 2 | G3_ => Ok 3 | G4_ => Ok 4
    | N_ | A_ | w_ => Raise KeyError
    end.

  (** vibronic_model_io.py:838-864, the body of the loop for one key *)
  Definition rotate_entry (U : arr V) (N : Z) (d : mdict V) (m : vmk) : res (mdict V) :=
    match mget d (KV m) with
    | None => Ok d                                  (* filter(model.__contains__, ...) *)
    | Some (PArr old) =>
        do new <- rotate U m old;
        do n <- mode_switcher m;
        do _ <- for_res (fun _ idx =>
                  do r <- dot (get_sub old idx) (transpose [1; 0] U);
                  do r <- dot U r;
                  do b <- np_allclose (get_sub new idx) r;
                  passert b) (indices (repeat (Z.to_nat N) n)) tt;
        do a <- assign_all old new;
        Ok (mset d (KV m) (PArr a))
    | Some _ => Raise AttributeError                (* no attribute 'view' *)
    end.
  Definition rotate_model (U : arr V) (N : Z) (d : mdict V) : res (mdict V) :=
    for_res (rotate_entry U N) key_list d.

  (** vibronic_model_io.py:812-864: everything before the first file is written *)
  Definition prepare_fake (gen : Z -> res (arr V)) (f : fs V) (vib ortho : string) (u : matrix_arg) : res (mdict V * arr V) :=
    do _ <- passert (match f vib with Some _ => true | None => false end);
    do d <- load_new zero vint Coupled f vib;
    do AN <- extract_dims vint d;
    do U <- obtain_matrix (gen (fst AN)) f ortho (fst AN) u;
    do b <- symmetric_in_surfaces d;
    do _ <- passert b;
    do b <- symmetric_in_modes d;
    do _ <- passert b;
    do d' <- rotate_model U (snd AN) d;
    Ok (d', U).

  (** The states the file system passes through.  Opening a file for writing
      empties it ([CText] stands for empty or partial contents). *)
  Definition copy_trace (f : fs V) (src dst : string) : list (fs V) * res unit :=
    match copyfile f src dst with
    | (f', Ok _) => ([fs_write f dst CText; f'], Ok tt)
    | (_, Raise e) => ([], Raise e)
    end.
  Definition save_trace (f : fs V) (path : string) (d : mdict V) : list (fs V) * res unit :=
    match verify vint Coupled d with
    | Raise e => ([], Raise e)
    | Ok _ => let (f', r) := save_raw isz f path d in ([fs_write f path CText; f'], r)
    end.
  (** np.save(path, a); path ends in ".npy" *)
  Definition npsave_trace (f : fs V) (path : string) (a : arr V) : list (fs V) * res unit :=
    ([fs_write f path CText; fs_write f path (CNpy a)], Ok tt).

  (** run the second computation from the last state of the first *)
  Definition then_ (f : fs V) (t : list (fs V) * res unit) (k : fs V -> list (fs V) * res unit) : list (fs V) * res unit :=
    match t with
    | (l, Ok _) => let (l', r) := k (last l f) in (l ++ l', r)
    | (l, Raise e) => (l, Raise e)
    end.

  (** vibronic_model_io.py:802-872; the states after the start and the outcome *)
  Definition create_fake_trace (gen : Z -> res (arr V)) (f : fs V) (vib orig ortho : string) (u : matrix_arg) : list (fs V) * res unit :=
    match prepare_fake gen f vib ortho u with
    | Raise e => ([], Raise e)
    | Ok (d', U) =>
        then_ f (copy_trace f vib orig) (fun f1 =>
        then_ f1 (save_trace f1 vib d') (fun f2 =>
        npsave_trace f2 ortho U))
    end.
  (** the state in which it ends *)
  Definition create_fake (gen : Z -> res (arr V)) (f : fs V) (vib orig ortho : string) (u : matrix_arg) : fs V * res unit :=
    let (l, r) := create_fake_trace gen f vib orig ortho u in (last l f, r).
End Create.
Arguments matrix_arg : clear implicits.
Arguments gen_params : clear implicits.
