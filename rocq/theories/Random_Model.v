(** Random models (pibronic/vibronic/vibronic_model_io.py:269-290, 353-369) and the
    regeneration of the input models of the artificial systems
    (examples/artificial_systems/generate_initial_model_parameters.py:16-53).
    Simplified: the values of a parameter dictionary are numbers, ints, bools and
    lists of two numbers; a value of the wrong type raises TypeError before
    anything is computed (in python the entry 'linear_scaling' is read later, and
    a list of two numbers can be used for it with one or two modes). *)
From Coq Require Import QArith.
From Verif Require Import Common PyStr_Model Arr_Model ModelIO_Model Create_Model.
Local Open Scope string_scope.

(** the names of the artificial systems, examples/artificial_systems/systems.py:13 *)
Definition system_names : list string := ["2x2"; "4x6"; "7x12"].

Section Random.
  Context {V : Type}.
  Variables (zero : V) (add : V -> V -> V) (opp : V -> V) (div : V -> V -> V).
  Variable isz : V -> bool.
  Variable vint : V -> res Z.
  Variable close : V -> V -> bool.
  Variable linspace : V -> V -> nat -> nat -> V.
  (** the float written as a decimal number or converted from an int *)
  Variable lit : Q -> V.

  (** the values of the dictionaries of parameters *)
  Inductive gval := GNum (v : V) | GInt (z : Z) | GBool (b : bool) | GPair (lo hi : V).

  (** minE, maxE = v, vibronic_model_io.py:369-370 *)
  Definition as_pair (v : gval) : res (V * V) := match v with GPair a b => Ok (a, b) | _ => Raise TypeError end.
  (** v as the argument of range and as a dimension, 373-379; bool is a kind of int *)
  Definition as_int (v : gval) : res Z :=
    match v with GInt z => Ok z | GBool b => Ok (Z.b2z b) | _ => Raise TypeError end.
  (** v / array of floats, 393 *)
  Definition as_num (v : gval) : res V :=
    match v with GNum x => Ok x | GInt z => Ok (lit (inject_Z z)) | GBool b => Ok (lit (inject_Z (Z.b2z b))) | GPair _ _ => Raise TypeError end.
  (** if v: , 402 *)
  Definition truth (v : gval) : bool :=
    match v with GNum x => negb (isz x) | GInt z => negb (z =? 0)%Z | GBool b => b | GPair _ _ => true end.

  (** vibronic_model_io.py:355-363 *)
  Definition default_params : list (string * gval) :=
    [("frequency_range", GPair (lit (2 # 100)) (lit (4 # 100)));
     ("energy_range", GPair (lit 0) (lit 2));
     ("quadratic_scaling", GNum (lit (8 # 100)));
     ("linear_scaling", GNum (lit (4 # 100)));
     ("diagonal", GBool false);
     ("numStates", GInt 2);
     ("numModes", GInt 3)].

  (** paramDict[key] *)
  Definition pitem (d : list (string * gval)) (k : string) : res gval :=
    match dget String.eqb d k with Some v => Ok v | None => Raise KeyError end.

  (** vibronic_model_io.py:365-374, 393, 402 *)
  Definition read_params (input : option (list (string * gval))) : res (gen_params V) :=
    let d := match input with None => default_params | Some i => dupdate String.eqb default_params i end in
    do e <- pitem d "energy_range"; do e <- as_pair e;
    do f <- pitem d "frequency_range"; do f <- as_pair f;
    do n <- pitem d "numModes"; do n <- as_int n;
    do a <- pitem d "numStates"; do a <- as_int a;
    do l <- pitem d "linear_scaling"; do l <- as_num l;
    do g <- pitem d "diagonal";
    Ok {| g_freq := f; g_energy := e; g_linear := l; g_diagonal := truth g; g_states := a; g_modes := n |}.

  (** generate_vibronic_model_data, 353-416; [rnd] is np.random.uniform *)
  Definition generate_data (rnd : nat -> V -> V -> list nat -> V) (input : option (list (string * gval))) : res (mdict V) :=
    do p <- read_params input;
    generate_model zero add opp div vint close rnd linspace p.

  (** random.randint(lo, hi) and random.uniform(lo, hi) for the number of the call *)
  Variable randint : nat -> Z -> Z -> Z.
  Variable runif : nat -> V -> V -> V.

  (** the dictionaries of 272-277 and 284-289 *)
  Definition random_params (diagonal : bool) : list (string * gval) :=
    [("numStates", GInt (randint 0 2 10));
     ("numModes", GInt (randint 1 2 20));
     ("quadratic_scaling", GNum (runif 2 (lit (4 # 100)) (lit (12 # 100))));
     ("linear_scaling", GNum (runif 3 (lit (2 # 100)) (lit (6 # 100))));
     ("diagonal", GBool diagonal)].
  (** create_random_model, 269-278 *)
  Definition create_random_model rnd : res (mdict V) := generate_data rnd (Some (random_params false)).
  (** create_random_diagonal_model, 281-290 *)
  Definition create_random_diagonal_model rnd : res (mdict V) := generate_data rnd (Some (random_params true)).

  (** generate_initial_model_parameters.py:16-38 *)
  Definition initial_parameters : list (string * list (string * gval)) :=
    [("4x6", [("frequency_range", GPair (lit (14 # 100)) (lit (45 # 100)));
              ("energy_range", GPair (lit (103 # 10)) (lit (109 # 10)));
              ("quadratic_scaling", GNum (lit (8 # 100)));
              ("linear_scaling", GNum (lit (4 # 100)));
              ("nonadiabatic", GBool false);
              ("numStates", GInt 4);
              ("numModes", GInt 6)]);
     ("7x12", [("frequency_range", GPair (lit (1 # 10)) (lit (39 # 100)));
               ("energy_range", GPair (lit 14) (lit (148 # 10)));
               ("quadratic_scaling", GNum (lit (8 # 100)));
               ("linear_scaling", GNum (lit (4 # 100)));
               ("nonadiabatic", GBool false);
               ("numStates", GInt 7);
               ("numModes", GInt 12)])].

  (** generate_input_file, 41-47; [dir] is the directory of the script *)
  Definition generate_input_file rnd (dir : string) (f : fs V) (name : string) : fs V * res unit :=
    let path := join (join dir "input_json") ("model_" ++ name ++ ".json") in
    match dget String.eqb initial_parameters name with
    | None => (f, Raise KeyError)
    | Some p => match generate_data rnd (Some p) with
                | Raise e => (f, Raise e)
                | Ok d => save isz vint Coupled f path d
                end
    end.

  (** 50-53; [rnds] gives the random numbers of each file *)
  Fixpoint generate_files (rnds : string -> nat -> V -> V -> list nat -> V) (dir : string) (f : fs V) (l : list string) : fs V * res unit :=
    match l with
    | [] => (f, Ok tt)
    | name :: l' => match generate_input_file (rnds name) dir f name with
                    | (f', Ok _) => generate_files rnds dir f' l'
                    | (f', Raise e) => (f', Raise e)
                    end
    end.
  Definition regenerate rnds (dir : string) (f : fs V) : fs V * res unit := generate_files rnds dir f (tl system_names).
End Random.
Arguments GNum {V}. Arguments GInt {V}. Arguments GBool {V}. Arguments GPair {V}.
