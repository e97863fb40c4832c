(** Model of the functions of /repo/pibronic/vibronic/orthonormal/sequences.py that write the
    files of a table (sequences.py:77-126, 195-210, 317-412), of debugging_matrix_checking_function
    and main (sequences.py:415-436) and of create.py:40-50 main.

    Simplified as in Sequences_Model: numbers are rationals, np.savetxt and np.loadtxt are exact, the
    norms are parameters.  A cell None stands for the word None in the file.  The module directory
    exists (the assertions of sequences.py:104 and 112).  Printing is left out. *)
From Coq Require Import Reals QArith.
From Verif Require Import Common PyStr_Model FileName_Model FileStruct_Model Results_Model Sequences_Model.
Local Open Scope string_scope.
Local Open Scope nat_scope.

(** a file of np.savetxt: its rows *)
Definition table := list (list (option Q)).
(** sequences.py:78, 101-106 *)
Definition path_to_x_pair_file (dir : string) (order : Z) : string := join dir ("sequence_" ++ dec order ++ ".pairs").
(** sequences.py:77, 109-114 *)
Definition path_to_sequence_file (dir : string) (order : Z) : string := join dir ("sequence_" ++ dec order ++ ".data").

(** np.linspace(0, b, n), sequences.py:82-84 *)
Definition n_bins : nat := Z.to_nat 10000.
Definition max_value : Q := 100.
Definition linspace (b : Q) : list Q := map (fun i => (b * (Z.of_nat i # 9999))%Q) (seq 0 n_bins).
Definition linspace_dims : list Q := linspace max_value.

(** a file is written *)
Definition put {A} (fs : fsys A) (p : string) (a : A) : fsys A := fun q => if String.eqb q p then Some a else fs q.
(** sequences.py:128-134 *)
Definition save_sequence (dir : string) (fs : fsys table) (order : Z) (sequence : table) : fsys table * res unit :=
  match check_minimum_length_of_sequence sequence with
  | Raise e => (fs, Raise e)
  | Ok _ => (put fs (path_to_sequence_file dir order) sequence, Ok tt)
  end.
(** np.loadtxt: every word has to be a number *)
Fixpoint numbers (row : list (option Q)) : res (list Q) :=
  match row with
  | [] => Ok []
  | None :: _ => Raise ValueError
  | Some x :: row' => do r <- numbers row'; Ok (x :: r)
  end.
(** sequences.py:117-125 *)
Definition load_sequence (dir : string) (fs : fsys table) (order : Z) : res (list (list Q)) :=
  match fs (path_to_sequence_file dir order) with
  | None => Raise AssertionError
  | Some t => map_res numbers t
  end.
(** the rows as select_pair looks at them, s[0] and s[1], sequences.py:141-155 *)
Definition row_pair (row : list Q) : res (Q * Q) := do y <- item row 0; do x <- item row 1; Ok (y, x).
(** create.py:14-37 with the file *)
Definition create_from (expm : nat -> mat -> mat) (dir : string) (fs : fsys table) (order : Z) (t : Q) : res mat :=
  do _ <- passert (Qle_bool 0 t && Qle_bool t 1);
  do si <- build_SKSM_and_identity order;
  let (SKSM, identity) := si : mat * mat in
  if Qeq_bool t 0 then Ok identity
  else
    do rows <- load_sequence dir fs order;
    do sequence <- map_res row_pair rows;
    do p <- select_pair sequence t;
    let n := Z.to_nat order in
    let m := expm n (scale (Q2R (px p)) SKSM) in
    do _ <- passert (allclose n (dot n m (tr m)) eye);
    Ok m.

(** a table of two columns (y, x) *)
Definition two (rows : list (Q * Q)) : table := map (fun r => [Some (fst r); Some (snd r)]) rows.

Section Writers.
  Variable dir : string.
  (** the norms of expm(x * SKSM) - identity for a given order: one, frobenius, infinity *)
  Variables one_norm frobenius_norm infinity_norm : Z -> Q -> Q.

  (** sequences.py:195-210 *)
  Definition generate_monotonic_sequence_to_first_turn_around (fs : fsys table) (order : Z) : fsys table * res unit :=
    match (do _ <- build_SKSM_and_identity order; find_first_turn_around_point (map (fun x => (x, frobenius_norm order x)) linspace_dims)) with
    | Raise e => (fs, Raise e)
    | Ok (max_distance, max_x) =>
        let end_point := (max_x / 2)%Q in
        save_sequence dir fs order (two (map (fun x => (frobenius_norm order x, x)) (linspace end_point)))
    end.

  (** sequences.py:317-353: generate_and_save_x_pairs is called without the order *)
  Definition generate_full_monotonic_sequence_for_plotting (fs : fsys table) (order : Z) : fsys table * res unit :=
    match build_SKSM_and_identity order with
    | Raise e => (fs, Raise e)
    | Ok _ => (fs, Raise TypeError)
    end.

  (** sequences.py:364-368 *)
  Fixpoint turning_points (grid : list Q) (p_list : list pair) : list (option Q) :=
    match grid with
    | [] => []
    | x :: grid' =>
        match p_list with
        | p :: p_list' => if isclose x (px p) then Some (py p) :: None :: turning_points grid' p_list' else None :: turning_points grid' p_list
        | [] => None :: turning_points grid' []
        end
    end.
  (** sequences.py:373-378 *)
  Fixpoint three (order : Z) (grid : list Q) (tps : list (option Q)) : res table :=
    match grid, tps with
    | [], _ => Ok []
    | x :: grid', t :: tps' => do r <- three order grid' tps'; Ok ([Some (frobenius_norm order x); t; Some x] :: r)
    | _ :: _, [] => Raise IndexError
    end.
  (** sequences.py:356-381 *)
  Definition generate_turning_point_sequence_for_plotting (fs : fsys table) (order : Z) : fsys table * res unit :=
    match (do _ <- build_SKSM_and_identity order;
           let p_list := list_of_turning_points (map (fun x => (x, frobenius_norm order x)) linspace_dims) in
           three order linspace_dims (turning_points linspace_dims p_list)) with
    | Raise e => (fs, Raise e)
    | Ok sequence => save_sequence dir fs order sequence
    end.

  (** sequences.py:384-412 *)
  Definition generate_sequences_for_plotting (fs : fsys table) (order : Z) : fsys table * res unit :=
    match build_SKSM_and_identity order with
    | Raise e => (fs, Raise e)
    | Ok _ => save_sequence dir fs order (map (fun x => [Some (one_norm order x); Some (frobenius_norm order x); Some (infinity_norm order x); Some x]) linspace_dims)
    end.

  (** sequences.py:415-427; sys.argv is used, not the argument *)
  Definition debugging_matrix_checking_function (fs : fsys table) (argv : list string) : res (list (Q * pair)) :=
    do a <- item argv 1;
    do order <- py_int_str a;
    do _ <- build_SKSM_and_identity order;
    do rows <- load_sequence dir fs order;
    do sequence <- map_res row_pair rows;
    map_res (fun x => do p <- select_pair sequence x; Ok (x, p)) [0; 1 # 4; 1 # 2; 3 # 4; 1]%Q.

  (** sequences.py:258-314 with the files *)
  Variable best_y : Z -> Q.
  Definition write_full_sequence (fs : fsys table) (order : Z) : fsys table * res unit :=
    match build_SKSM_and_identity order with
    | Raise e => (fs, Raise e)
    | Ok _ =>
        let (s, r) := generate_full_monotonic_sequence (frobenius_norm order) (best_y order) linspace_dims linspace (fun b => (b / 9999)%Q) (mkSaved None None) in
        let fs := match pairs_file s with Some l => put fs (path_to_x_pair_file dir order) (two l) | None => fs end in
        (match data_file s with Some l => put fs (path_to_sequence_file dir order) (two l) | None => fs end, r)
    end.
  (** sequences.py:430-433 *)
  Fixpoint main_orders (fs : fsys table) (orders : list Z) : fsys table * res unit :=
    match orders with
    | [] => (fs, Ok tt)
    | order :: orders' =>
        match write_full_sequence fs order with
        | (fs', Ok _) => main_orders fs' orders'
        | (fs', Raise e) => (fs', Raise e)
        end
    end.
  Definition main (fs : fsys table) : fsys table * res unit := main_orders fs [2; 3; 4; 5; 6; 7; 8; 9; 10]%Z.
End Writers.

(** the arguments of create.main *)
Inductive arg := AInt (z : Z) | AFloat (q : Q) | AStr (s : string).
(** create.py:40-50 *)
Definition create_main (expm : nat -> mat -> mat) (dir : string) (fs : fsys table) (args : list arg) : res unit :=
  do _ <- passert (length args =? 3);
  do order <- item args 1;
  do tuning_parameter <- item args 2;
  match order with
  | AInt n => match tuning_parameter with AFloat t => do _ <- create_from expm dir fs n t; Ok tt | _ => Raise AssertionError end
  | _ => Raise AssertionError
  end.
