(** Model of /repo/pibronic/vibronic/vibronic_model_keys.py and of the
    save / load / verify / compare part of
    /repo/pibronic/vibronic/vibronic_model_io.py.

    Floats are elements of an abstract type [V]; [zero] is 0.0, [isz] is the
    test used by np.count_nonzero (true for 0.0 and -0.0, false for NaN), [vint]
    is Python's int(float).  JSON text is abstracted to the object it denotes
    (json.dumps / json.loads and repr(float) are trusted to round-trip). *)
From Verif Require Import Common Arr_Model.

(** vibronic_model_keys.py:9-16, with the aliases of lines 19-26 *)
Inductive vmk := N_ | A_ | E_ | w_ | G1_ | G2_ | G3_ | G4_.

Definition vmk_eqb (a b : vmk) : bool :=
  match a, b with
  | N_, N_ | A_, A_ | E_, E_ | w_, w_ | G1_, G1_ | G2_, G2_ | G3_, G3_ | G4_, G4_ => true
  | _, _ => false
  end.

(** vibronic_model_keys.py:9-16  (Enum.value) *)
Definition vmk_value (m : vmk) : string :=
  match m with
  | N_ => "number of modes"
  | A_ => "number of surfaces"
  | E_ => "energies"
  | w_ => "frequencies"
  | G1_ => "linear couplings"
  | G2_ => "quadratic couplings"
  | G3_ => "cubic couplings"
  | G4_ => "quartic couplings"
  end.

Definition all_vmk : list vmk := [N_; A_; E_; w_; G1_; G2_; G3_; G4_].

(** VMK(string), the Enum constructor used at vibronic_model_keys.py:41 *)
Definition vmk_of_string (s : string) : res vmk :=
  match find (fun m => String.eqb s (vmk_value m)) all_vmk with
  | Some m => Ok m
  | None => Raise ValueError
  end.

(** vibronic_model_keys.py:45-49 *)
Definition key_list : list vmk := [E_; G1_; G2_; G3_; G4_].

(** keys of a model dictionary: an enum member or some other string *)
Inductive key := KV (m : vmk) | KS (s : string).

Definition key_eqb (a b : key) : bool :=
  match a, b with
  | KV m, KV n => vmk_eqb m n
  | KS s, KS t => String.eqb s t
  | _, _ => false
  end.

(** coupled models have the shapes of model_shape_dict, diagonal (sampling)
    models those of diagonal_model_shape_dict *)
Inductive kind := Coupled | Diagonal.

(** vibronic_model_io.py:42-56 (coupled) and 59-73 (diagonal).  [None]: the key
    is not in the shape dictionary. *)
Definition model_shape (k : kind) (A N : Z) (m : vmk) : option (list Z) :=
  match k, m with
  | Coupled, E_ => Some [A; A]
  | Coupled, w_ => Some [N]
  | Coupled, G1_ => Some [N; A; A]
  | Coupled, G2_ => Some [N; N; A; A]
  | Coupled, G3_ => Some [N; N; N; A; A]
  | Coupled, G4_ => Some [N; N; N; N; A; A]
  | Diagonal, E_ => Some [A]
  | Diagonal, w_ => Some [N]
  | Diagonal, G1_ => Some [N; A]
  | Diagonal, G2_ => Some [N; N; A]
  | Diagonal, G3_ => Some [N; N; N; A]
  | Diagonal, G4_ => Some [N; N; N; N; A]
  | _, N_ => None
  | _, A_ => None
  end.

Fixpoint shape_eqb (s : list nat) (t : list Z) : bool :=
  match s, t with
  | [], [] => true
  | a :: s', b :: t' => Z.eqb (Z.of_nat a) b && shape_eqb s' t'
  | _, _ => false
  end.

Section ModelIO.
  Context {V : Type}.
  Variable zero : V.
  Variable isz : V -> bool.
  Variable vint : V -> res Z.
  Variable v_of_int : Z -> V.      (* int -> float conversion done by np.array *)

  (** values of an in-memory model dictionary.  [PJson]: some other value that
      json.dumps accepts, [PBad]: a value on which json.dumps raises TypeError *)
  Inductive pval :=
  | PInt (z : Z)
  | PFloat (v : V)
  | PArr (a : arr V)
  | PJson
  | PBad.

  (** values of a JSON object.  [JList]: nested lists of numbers, [JBadList]: a
      list that contains something else, [JOther]: string, bool, null, object *)
  Inductive jval :=
  | JInt (z : Z)
  | JFloat (v : V)
  | JList (l : list (nest V))
  | JBadList
  | JOther.

  (** contents of a file: a JSON object, a .npy matrix, anything else *)
  Inductive content :=
  | CJson (o : list (string * jval))
  | CNpy (a : arr V)
  | CText.

  Definition mdict := list (key * pval).
  Definition mget (d : mdict) := dget key_eqb d.
  Definition mset (d : mdict) := dset key_eqb d.
  Definition mdel (d : mdict) := ddel key_eqb d.
  Definition fs := fsys content.

  (** np.zeros(shape) *)
  Definition np_zeros (s : list Z) : res (arr V) :=
    if forallb (fun z => (0 <=? z)%Z) s
    then Ok (afull (map Z.to_nat s) zero)
    else Raise ValueError.

  (** int(x) for the value of a dictionary entry.  Simplified: int() of a
      one-element ndarray or of a numeric string is not modelled (TypeError). *)
  Definition py_int (v : pval) : res Z :=
    match v with
    | PInt z => Ok z
    | PFloat v => vint v
    | PArr _ | PJson | PBad => Raise TypeError
    end.

  (** d[key] *)
  Definition mitem (d : mdict) (k : key) : res pval :=
    match mget d k with Some v => Ok v | None => Raise KeyError end.

  (** vibronic_model_io.py:473-477; returns (A, N) *)
  Definition extract_dims (d : mdict) : res (Z * Z) :=
    do vN <- mitem d (KV N_);
    do n <- py_int vN;
    do vA <- mitem d (KV A_);
    do a <- py_int vA;
    Ok (a, n).

  (** vibronic_model_io.py:178-182 / 195-199, body of the loop *)
  Definition verify_entry (k : kind) (A N : Z) (kv : key * pval) : res unit :=
    match fst kv with
    | KS _ => Ok tt
    | KV m =>
        match model_shape k A N m with
        | None => Ok tt
        | Some s =>
            match snd kv with
            | PArr a => passert (shape_eqb (shape a) s)
            | _ => Raise AttributeError   (* no attribute 'shape' *)
            end
        end
    end.

  (** vibronic_model_io.py:170-184 verify_model_parameters (Coupled) and
      187-201 verify_diagonal_model_parameters (Diagonal) *)
  Definition verify (k : kind) (d : mdict) : res unit :=
    do _ <- passert (dmem key_eqb d (KV N_));
    do _ <- passert (dmem key_eqb d (KV A_));
    do AN <- extract_dims d;
    for_res (fun _ kv => verify_entry k (fst AN) (snd AN) kv) d tt.

  (** vibronic_model_keys.py:28-35.  [key in cls] is False for strings
      (Python 3.6, the version named in .travis.yml). *)
  Definition enum_to_string (d : mdict) : mdict :=
    fold_left (fun acc kv =>
                 match fst kv with
                 | KV m => mdel (mset acc (KS (vmk_value m)) (snd kv)) (KV m)
                 | KS _ => acc
                 end) d d.

  (** vibronic_model_keys.py:37-43 *)
  Definition string_to_enum {X} (d : list (key * X)) : res (list (key * X)) :=
    for_res (fun acc kv =>
               match fst kv with
               | KV m => Ok (ddel key_eqb (dset key_eqb acc (KV m) (snd kv)) (KV m))
               | KS s => do m <- vmk_of_string s;
                         Ok (ddel key_eqb (dset key_eqb acc (KV m) (snd kv)) (KS s))
               end) d d.

  (** np.count_nonzero(a) > 0 *)
  Definition any_nonzero (a : arr V) : bool := existsb (fun v => negb (isz v)) (data a).

  Definition jlist_of (n : nest V) : jval :=
    match n with
    | NNum v => JFloat v     (* 0-d array: tolist() is a scalar *)
    | NList l => JList l
    end.

  (** vibronic_model_io.py:521-528, the loop that replaces arrays by lists; the
      result maps keys to JSON-ready values or to the untouched Python value *)
  Definition strip_arrays (d : mdict) : list (key * (jval + pval)) :=
    flat_map (fun kv => match snd kv with
                        | PArr a => if any_nonzero a
                                    then [(fst kv, inl (jlist_of (tolist a)))]
                                    else []
                        | v => [(fst kv, inr v)]
                        end) d.

  (** json.dumps *)
  Definition dumps_value (v : jval + pval) : res jval :=
    match v with
    | inl j => Ok j
    | inr (PInt z) => Ok (JInt z)
    | inr (PFloat v) => Ok (JFloat v)
    | inr PJson => Ok JOther
    | inr (PArr _) | inr PBad => Raise TypeError
    end.

  Definition dumps_key (k : key) : res string :=
    match k with KS s => Ok s | KV _ => Raise TypeError end.

  Fixpoint dumps (d : list (key * (jval + pval))) : res (list (string * jval)) :=
    match d with
    | [] => Ok []
    | (k, v) :: d' =>
        do s <- dumps_key k;
        do j <- dumps_value v;
        do r <- dumps d';
        Ok ((s, j) :: r)
    end.

  (** vibronic_model_io.py:517-533.  [open(path, 'w')] truncates the file before
      [json.dumps] is evaluated. *)
  Definition save_raw (f : fs) (path : string) (d : mdict) : fs * res unit :=
    let dict_copy := strip_arrays (enum_to_string d) in
    let opened := fs_write f path CText in
    match dumps dict_copy with
    | Ok o => (fs_write opened path (CJson o), Ok tt)
    | Raise e => (opened, Raise e)
    end.

  (** vibronic_model_io.py:536-543 save_model_to_JSON (Coupled) and 546-553
      save_diagonal_model_to_JSON (Diagonal) *)
  Definition save (k : kind) (f : fs) (path : string) (d : mdict) : fs * res unit :=
    match verify k d with
    | Ok _ => save_raw f path d
    | Raise e => (f, Raise e)
    end.

  (** open(path) ; json.loads(file.read()) -- 559-560 and 578-579 *)
  Definition read_json (f : fs) (path : string) : res (list (key * jval)) :=
    match f path with
    | None => Raise OSError
    | Some (CJson o) => Ok (map (fun sj => (KS (fst sj), snd sj)) o)
    | Some (CNpy _) | Some CText => Raise ValueError
    end.

  (** np.array(value, dtype=F64) *)
  Definition to_array (j : jval) : res (arr V) :=
    match j with
    | JList l => np_array (NList l)
    | JFloat v => np_array (NNum v)
    | JInt z => np_array (NNum (v_of_int z))
    | JBadList | JOther => Raise ValueError
    end.

  (** one entry of the loop at vibronic_model_io.py:583-586 *)
  Definition load_value (j : jval) : res pval :=
    match j with
    | JInt z => Ok (PInt z)
    | JFloat v => Ok (PFloat v)
    | JList l => do a <- np_array (NList l); Ok (PArr a)
    | JBadList => Raise ValueError
    | JOther => Ok PJson
    end.

  Fixpoint load_values (o : list (key * jval)) : res mdict :=
    match o with
    | [] => Ok []
    | (k, j) :: o' => do v <- load_value j; do r <- load_values o'; Ok ((k, v) :: r)
    end.

  (** vibronic_model_io.py:575-596 *)
  Definition load_raw (f : fs) (path : string) : res mdict :=
    do o <- read_json f path;
    do o' <- string_to_enum o;
    do d <- load_values o';
    if dmem key_eqb d (KV E_) then Ok d
    else
      do AN <- extract_dims d;
      do z <- np_zeros [fst AN; fst AN];   (* model_shape_dict(A, N)[VMK.E] *)
      Ok (mset d (KV E_) (PArr z)).

  (** vibronic_model_io.py:608-614 / 635-641: no dictionary is given *)
  Definition load_new (k : kind) (f : fs) (path : string) : res mdict :=
    do d <- load_raw f path;
    do _ <- verify k d;
    Ok d.

  (** one iteration of the loop at vibronic_model_io.py:564-571 *)
  Definition load_inplace_entry (o : list (key * jval)) (k : key) (v : pval) : res pval :=
    match v with
    | PArr a =>
        match dget key_eqb o k with
        | None => Ok (PArr (afull (shape a) zero))      (* ndarray.fill(0.0) *)
        | Some j =>
            do s <- to_array j;
            match shape a with
            | [] => Raise IndexError                    (* x[:] on a 0-d array *)
            | _ => do r <- assign_all a s; Ok (PArr r)
            end
        end
    | _ => Ok v
    end.

  (** the loop; the first component is the dictionary as left behind, also when
      an exception is raised half way *)
  Fixpoint load_inplace_loop (o : list (key * jval)) (d : mdict) : mdict * res unit :=
    match d with
    | [] => ([], Ok tt)
    | (k, v) :: d' =>
        match load_inplace_entry o k v with
        | Raise e => ((k, v) :: d', Raise e)
        | Ok v' => let (r, out) := load_inplace_loop o d' in ((k, v') :: r, out)
        end
    end.

  (** vibronic_model_io.py:556-572 *)
  Definition load_inplace_raw (f : fs) (path : string) (d : mdict) : mdict * res unit :=
    match (do o <- read_json f path; string_to_enum o) with
    | Raise e => (d, Raise e)
    | Ok o => load_inplace_loop o d
    end.

  (** vibronic_model_io.py:599-623 (Coupled) / 626-649 (Diagonal) when a non
      empty dictionary is given *)
  Definition load_into (k : kind) (f : fs) (path : string) (d : mdict) : mdict * res unit :=
    match verify k d with
    | Raise e => (d, Raise e)
    | Ok _ =>
        match load_inplace_raw f path d with
        | (d', Raise e) => (d', Raise e)
        | (d', Ok _) => (d', verify k d')
        end
    end.

  (** vibronic_model_io.py:134-149 (Coupled) / 152-167 (Diagonal) *)
  Definition zeros_template (k : kind) (A N : Z) : res mdict :=
    do arrays <- (fix go (l : list vmk) : res mdict :=
                    match l with
                    | [] => Ok []
                    | m :: l' =>
                        match model_shape k A N m with
                        | None => Raise KeyError
                        | Some s => do z <- np_zeros s; do r <- go l'; Ok ((KV m, PArr z) :: r)
                        end
                    end) [E_; w_; G1_; G2_; G3_; G4_];
    Ok ((KV N_, PInt N) :: (KV A_, PInt A) :: arrays).

  (** vibronic_model_io.py:733-746.  [model[key][..., a, b] = 0.0] *)
  Definition zero_last2 (x y : nat) (a : arr V) : res (arr V) :=
    let s := shape a in
    let n := length s in
    if (x <? nth (n - 2) s 0) && (y <? nth (n - 1) s 0) then
      Ok (mkArr s (map (fun iv => if (nth (n - 2) (fst iv) 0 =? x) && (nth (n - 1) (fst iv) 0 =? y)
                                  then zero else snd iv)
                       (combine (indices s) (data a))))
    else Raise IndexError.

  (** itertools.permutations(range(A), 2) *)
  Definition perms2 (A : nat) : list (nat * nat) :=
    flat_map (fun a => map (pair a) (filter (fun b => negb (a =? b)) (seq 0 A))) (seq 0 A).

  Definition fill_entry (A : pval) (v : pval) : res pval :=
    match v with
    | PArr a =>
        if 2 <=? length (shape a) then
          match A with
          | PInt z =>
              do r <- for_res (fun acc ab => zero_last2 (fst ab) (snd ab) acc)
                              (perms2 (Z.to_nat z)) a;
              Ok (PArr r)
          | _ => Raise TypeError       (* range() of a non-integer *)
          end
        else Ok v
    | _ => Ok v
    end.

  Fixpoint fill_loop (A : pval) (d : mdict) : res mdict :=
    match d with
    | [] => Ok []
    | (k, v) :: d' => do v' <- fill_entry A v; do r <- fill_loop A d'; Ok ((k, v') :: r)
    end.

  Definition fill_offdiagonal (d : mdict) : res mdict :=
    do _ <- verify Coupled d;
    do A <- mitem d (KV A_);
    fill_loop A d.

  (** np.diagonal(a, axis1=ndim-2, axis2=ndim-1) *)
  Definition diagonal_last2 (a : arr V) : arr V :=
    let s := shape a in
    let n := length s in
    let r := Nat.min (nth (n - 2) s 0) (nth (n - 1) s 0) in
    let s' := firstn (n - 2) s ++ [r] in
    mkArr s' (flat_map (fun idx => match aget a (idx ++ [last idx 0]) with Some v => [v] | None => [] end)
                       (indices s')).

  Definition diagonal_entry (v : pval) : pval :=
    match v with
    | PArr a => if 2 <=? length (shape a) then PArr (diagonal_last2 a) else v
    | _ => v
    end.

  (** vibronic_model_io.py:749-761 *)
  Definition remove_coupling (f : fs) (src dst : string) : fs * res unit :=
    match load_new Coupled f src with
    | Raise e => (f, Raise e)
    | Ok d => save Diagonal f dst (map (fun kv => (fst kv, diagonal_entry (snd kv))) d)
    end.
End ModelIO.

Arguments pval : clear implicits.
Arguments jval : clear implicits.
Arguments content : clear implicits.
Arguments mdict : clear implicits.
Arguments fs : clear implicits.

Section Create.
  Context {V : Type}.
  Variable zero : V.
  Variable isz : V -> bool.
  Variable vint : V -> res Z.

  (** shutil.copyfile(src, dst) *)
  Definition copyfile (f : fs V) (src dst : string) : fs V * res unit :=
    match f src with
    | None => (f, Raise OSError)
    | Some c => if String.eqb src dst then (f, Raise OtherException)   (* SameFileError *)
                else (fs_write f dst c, Ok tt)
    end.

  (** vibronic_model_io.py:764-771, [vib] and [har] are FS.path_vib_model and
      FS.path_har_model *)
  Definition create_harmonic_model (f : fs V) (vib har : string) : fs V * res unit :=
    remove_coupling zero isz vint f vib har.

  (** vibronic_model_io.py:774-787, [rho] is FS.path_rho_model *)
  Definition create_basic_diagonal_model (f : fs V) (vib har rho : string) : fs V * res unit :=
    match create_harmonic_model f vib har with
    | (f', Ok _) => copyfile f' har rho
    | r => r
    end.
End Create.
