(** Model of the way model files get into the sampling program,
    /repo/pibronic/pimc/pimc.py:92-170, 272-324, 480-492, 633-645, and of the
    functions that read the dimensions,
    /repo/pibronic/vibronic/vibronic_model_io.py:480-514.

    Simplified: arrays that are given and of which loading fails half way are not
    looked at again (the exception ends the program). *)
From Coq Require Import Reals.
From Verif Require Import Common Arr_Model ModelIO_Model Pimc_Model Point_Model.

Section Load.
  Context {V : Type}.
  Variable zero : V.
  Variable vint : V -> res Z.
  Variable v_of_int : Z -> V.

  (** int(x) of a value read by json.loads; numeric strings are not modelled, as in [py_int] *)
  Definition json_int (j : jval V) : res Z :=
    match j with JInt z => Ok z | JFloat v => vint v | _ => Raise TypeError end.
  (** input_dictionary[key] *)
  Definition jitem (o : list (key * jval V)) (k : key) : res (jval V) :=
    match dget key_eqb o k with Some j => Ok j | None => Raise KeyError end.

  (** vibronic_model_io.py:480-486 _extract_dimensions_from_file, with 473-477; returns (A, N) *)
  Definition dims_of_file (f : fs V) (path : string) : res (Z * Z) :=
    do _ <- passert (match f path with Some _ => true | None => false end);
    do o <- read_json f path;
    do o' <- string_to_enum o;
    do jN <- jitem o' (KV N_);
    do n <- json_int jN;
    do jA <- jitem o' (KV A_);
    do a <- json_int jA;
    Ok (a, n).

  (** vibronic_model_io.py:489-498 extract_dimensions_of_model ([fs_path] is FS.path_vib_model)
      and 501-514 extract_dimensions_of_diagonal_model ([fs_path] is FS.path_rho_model) *)
  Definition extract_dimensions (f : fs V) (fs_path path : option string) : res (Z * Z) :=
    match fs_path with
    | Some p => dims_of_file f p
    | None => match path with
              | None => Raise AssertionError
              | Some p => dims_of_file f p
              end
    end.

  (** the parameters held by a model object, pimc.py:92-110 *)
  Record params := { p_states : Z; p_modes : Z; p_energy : arr V; p_omega : arr V; p_linear : arr V; p_quadratic : arr V }.

  (** the dictionary handed to the loader and what is taken out of it afterwards, pimc.py:133-148 and 306-322 *)
  Definition kwargs_of (m : params) : mdict V :=
    [(KV N_, PInt (p_modes m)); (KV A_, PInt (p_states m)); (KV E_, PArr (p_energy m)); (KV w_, PArr (p_omega m));
     (KV G1_, PArr (p_linear m)); (KV G2_, PArr (p_quadratic m))].
  Definition karr (d : mdict V) (m : vmk) : res (arr V) :=
    do v <- mitem d (KV m); match v with PArr a => Ok a | _ => Raise TypeError end.
  Definition kint (d : mdict V) (m : vmk) : res Z :=
    do v <- mitem d (KV m); match v with PInt z => Ok z | _ => Raise TypeError end.
  Definition from_kwargs (d : mdict V) : res params :=
    do n <- kint d N_;
    do a <- kint d A_;
    do e <- karr d E_;
    do w <- karr d w_;
    do l <- karr d G1_;
    do q <- karr d G2_;
    Ok {| p_states := a; p_modes := n; p_energy := e; p_omega := w; p_linear := l; p_quadratic := q |}.
  Definition load_given (k : kind) (f : fs V) (path : string) (m : params) : res params :=
    match load_into zero vint v_of_int k f path (kwargs_of m) with
    | (_, Raise e) => Raise e
    | (d, Ok _) => from_kwargs d
    end.

  (** ModelVibronic(data) followed by load_model, pimc.py:152-170 and 132-149: [A] and [N] are data.states and data.modes *)
  Definition load_vib (f : fs V) (path : string) (A N : Z) : res params :=
    do w <- np_zeros zero [N];
    do e <- np_zeros zero [A; A];
    do l <- np_zeros zero [N; A; A];
    do q <- np_zeros zero [N; N; A; A];
    load_given Coupled f path {| p_states := A; p_modes := N; p_energy := e; p_omega := w; p_linear := l; p_quadratic := q |}.

  (** ModelSampling.load_model, pimc.py:278-324: the number of surfaces comes from
      the file, the number of modes of the arrays ([N]) from the vibronic model *)
  Definition load_rho (f : fs V) (path : string) (N : Z) : res params :=
    do AN <- extract_dimensions f None (Some path);
    do w <- np_zeros zero [N];
    do e <- np_zeros zero [fst AN];
    do l <- np_zeros zero [N; fst AN];
    do q <- np_zeros zero [N; N; fst AN];
    load_given Diagonal f path {| p_states := fst AN; p_modes := snd AN; p_energy := e; p_omega := w; p_linear := l; p_quadratic := q |}.

  (** ModelClass.load_model of an object that has no arrays yet, pimc.py:123-131 and 143-149; the
      dimensions are whatever the file holds *)
  Definition load_fresh (f : fs V) (path : string) : res (pval V * pval V * list (pval V)) :=
    do kw <- load_new zero vint Coupled f path;
    do _ <- mitem kw (KV E_);
    do _ <- mitem kw (KV w_);
    do _ <- mitem kw (KV G1_);
    do n <- mitem kw (KV N_);
    do a <- mitem kw (KV A_);
    do e <- mitem kw (KV E_);
    do w <- mitem kw (KV w_);
    do l <- mitem kw (KV G1_);
    do q <- mitem kw (KV G2_);
    Ok (n, a, [e; w; l; q]).
End Load.
Arguments params : clear implicits.

Section Initialize.
  Variable vint : R -> res Z.
  Variable v_of_int : Z -> R.
  Local Open Scope R_scope.

  (** the objects of Pimc_Model made of loaded parameters; delta_weight, state_weight and state_shift are zeros,
      pimc.py:166-169 and 300-303 *)
  Definition to_vib (p : params R) : vib_model :=
    {| v_states := Z.to_nat (p_states p); v_modes := Z.to_nat (p_modes p);
       v_omega := fun n => entry (p_omega p) [n]; v_energy := fun a b => entry (p_energy p) [a; b];
       v_linear := fun n a b => entry (p_linear p) [n; a; b]; v_quadratic := fun n m a b => entry (p_quadratic p) [n; m; a; b];
       v_delta_weight := fun _ => 0; v_state_shift := fun _ _ => 0 |}.
  Definition to_rho (p : params R) : rho_model :=
    {| r_states := Z.to_nat (p_states p); r_modes := Z.to_nat (p_modes p);
       r_omega := fun n => entry (p_omega p) [n]; r_energy := Some (fun a => entry (p_energy p) [a]);
       r_linear := fun n a => entry (p_linear p) [n; a];
       r_delta_weight := fun _ => 0; r_state_weight := fun _ => 0; r_state_shift := fun _ _ => 0 |}.

  (** BoxData.from_FileStructure, pimc.py:480-492: the dimensions are those of the vibronic model's file *)
  Definition from_FileStructure (f : fs R) (vib : string) : res (Z * Z) := extract_dimensions vint f (Some vib) None.

  (** preprocess and initialize_models of BoxData, pimc.py:633-692 (the check of the number of beads comes first) *)
  Definition initialize (f : fs R) (vib rho : string) (A N : Z) (beads : nat) (beta : R) : res (vib_model * rho_model * setup) :=
    do _ <- circulant_matrix beads;
    do v <- load_vib 0 vint v_of_int f vib A N;
    do r <- load_rho 0 vint v_of_int f rho N;
    do u <- prepare beads beta (to_vib v) (to_rho r);
    Ok (to_vib v, to_rho r, u).
End Initialize.
