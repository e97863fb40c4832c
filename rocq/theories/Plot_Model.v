(** Model of the data behind the plots, /repo/pibronic/plotting/plotting.py:23-129 (loaders used by several
    classes), 132-227 (plot_Z_multiple_FS), 230-350 (plot_original_Z_test), 434-488
    (plot_original_Z_vs_diagonal_test), 656-699 (plot_sos_Z_vs_rho_n), 870-925 (plot_rectangle) and 950-1022
    (plot_Z_test), with postprocessing.py:54-57.

    The numbers of the arrays are an abstract type with the operations that are used: nothing is assumed
    about them.  Drawing is not modelled.  Only files that survived prune_results_using_hashes are loaded,
    so their text is a JSON object (for anything else, TypeError).  A list as a factor of an array is not
    modelled (TypeError). *)
From Coq Require Import QArith.
From Verif Require Import Common PyStr_Model FileName_Model FileStruct_Model Json_Model Analysis_Model.
Local Open Scope string_scope.
Local Open Scope list_scope.
Local Open Scope nat_scope.

(** postprocessing.py:54-57 *)
Definition retrive_jackknife_file_list (dir : string) (names : list string) : list string :=
  map (fun name => (dir ++ name)%string) (filter (glob_parts ["P"; "_T"; "_X"; "_thermo"]) names).

(** the parameters of the plots: beads, temperatures and samples *)
Record params := mkParams { lst_P : list Z; lst_T : list Q; lst_X : list Z }.
(** 144-165, 242-265 and 961-984 generate_parameter_lists: sorted lists of sets *)
Definition generate_parameter_lists (paths : list string) : res params :=
  do ps <- map_res extract_bead paths;
  do ts <- map_res extract_temperature_thermo paths;
  do xs <- map_res extract_sample_thermo paths;
  Ok (mkParams (sorted_set ps) (fold_right insert_q [] ts) (sorted_set xs)).

(** list.index(x) *)
Fixpoint index {A} (eqb : A -> A -> bool) (x : A) (l : list A) : res nat :=
  match l with
  | [] => Raise ValueError
  | y :: l' => if eqb y x then Ok 0 else do i <- index eqb x l'; Ok (S i)
  end.

(** the names of the fields of an element, 186-190, 280-284 and 998-1002 *)
Definition field_names : list string :=
  ["Z"; "Z error"; "E"; "E error"; "Cv"; "Cv error"; "jk_E"; "jk_E error"; "jk_Cv"; "jk_Cv error"].

(** with open(path, 'r') as file: data = json.loads(file.read()) *)
Definition load_json (fs : fsys string) (path : string) : res json :=
  match fs path with None => Raise OSError | Some text => loads text end.

(** the loaders of 28-36 and 46-54: data[f"{T:.2f}"] for each temperature *)
Definition load_analytical (fs : fsys string) (path : string) (ts : list Q) : res (list (string * json)) :=
  do data <- load_json fs path;
  for_res (fun d T => do v <- sub data (fmt2 T); Ok (dset String.eqb d (fmt2 T) v)) ts [].
(** 59-76 load_sos; the local variable data keeps the value of an earlier turn if the file does not exist *)
Definition sos_path (f : fstruct) (basis_size : Z) : res string := py_format (t_sos_vib f) [("B:d", dec basis_size)].
Definition load_sos_turn (fs : fsys string) (basis_size : Z) (st : option json * list (list (string * json))) (x : fstruct * params)
  : res (option json * list (list (string * json))) :=
  do path <- sos_path (fst x) basis_size;
  do data <- match fs path with None => Ok (fst st) | Some text => do j <- loads text; Ok (Some j) end;
  do d <- for_res (fun d T =>
                     do v <- match data with None => Raise UnboundLocalError | Some j => sub j (fmt2 T) end;
                     Ok (dset String.eqb d (fmt2 T) v)) (lst_T (snd x)) [];
  Ok (data, snd st ++ [d]).
Definition load_sos (fs : fsys string) (basis_size : Z) (l : list (fstruct * params)) : res (list (list (string * json))) :=
  do st <- for_res (load_sos_turn fs basis_size) l (None, []); Ok (snd st).

Section Plot.
  Variable F : Type.
  Variable nan : F.
  (** float(int), which may overflow, float of the text repr() gives, float(text) *)
  Variable of_int : Z -> res F.
  Variable of_repr : string -> F.
  Variable of_text : string -> res F.
  Variable mul sub_ div : F -> F -> F.
  Variable hundred : F.
  (** beta(temperature) *)
  Variable beta : Q -> F.

  (** the arrays: sizes and, for every element, the fields *)
  Definition element := string -> F.
  Record grid := mkGrid { dimP : nat; dimT : nat; dimX : nat; cell : nat -> nat -> nat -> element }.
  (** np.full(dims, np.nan, dtype=dicttype), 278-286 *)
  Definition empty_grid (p : params) : grid :=
    mkGrid (List.length (lst_P p)) (List.length (lst_T p)) (List.length (lst_X p)) (fun _ _ _ _ => nan).
  (** assignment of a value to a field of type float64 *)
  Definition to_f64 (v : json) : res F :=
    match v with
    | JNull => Ok nan
    | JBool b => of_int (if b then 1 else 0)%Z
    | JInt z => of_int z
    | JFloat r => Ok (of_repr r)
    | JStr s => of_text s
    | JArr _ => Raise ValueError
    | JObj _ => Raise TypeError
    end.
  Definition set_field (e : element) (key : string) (v : json) : res element :=
    if existsb (String.eqb key) field_names then do x <- to_f64 v; Ok (fun k => if String.eqb k key then x else e k)
    else Raise ValueError.
  (** for key in data: …, 218-220, 300-302 and 1019-1021 *)
  Definition fill (data : json) (e : element) : res element :=
    match data with
    | JObj l => for_res (fun e kv => if String.eqb (fst kv) "hash_vib" || String.eqb (fst kv) "hash_rho" then Ok e else set_field e (fst kv) (snd kv)) l e
    | _ => Raise TypeError
    end.
  Definition with_cell (g : grid) (i j k : nat) (e : element) : grid :=
    mkGrid (dimP g) (dimT g) (dimX g) (fun i' j' k' => if Nat.eqb i' i && Nat.eqb j' j && Nat.eqb k' k then e else cell g i' j' k').
  (** one turn of 200-220 ([skip] is true: "if P not in self.lst_P: continue"), 288-302 and 1006-1021 *)
  Definition load_turn (skip : bool) (fs : fsys string) (p : params) (g : grid) (path : string) : res grid :=
    do P <- extract_bead path;
    do T <- extract_temperature_thermo path;
    do X <- extract_sample_thermo path;
    if skip && negb (existsb (Z.eqb P) (lst_P p)) then Ok g
    else
      do i <- index Z.eqb P (lst_P p);
      do j <- index Qeq_bool T (lst_T p);
      do k <- index Z.eqb X (lst_X p);
      do data <- load_json fs path;
      do e <- fill data (cell g i j k);
      Ok (with_cell g i j k e).
  (** load_pimc_data, 176-222 and 272-302, and load_data, 991-1022 *)
  Definition load_pimc_data (skip : bool) (fs : fsys string) (p : params) (paths : list string) : res grid :=
    for_res (load_turn skip fs p) paths (empty_grid p).

  (** a json number as a factor of an array *)
  Definition as_number (v : json) : res F :=
    match v with
    | JBool b => of_int (if b then 1 else 0)%Z
    | JInt z => of_int z
    | JFloat r => Ok (of_repr r)
    | _ => Raise TypeError
    end.
  (** d[f"{T:.2f}"][key] *)
  Definition value_at (d : list (string * json)) (T : Q) (key : string) : res F :=
    match dget String.eqb d (fmt2 T) with
    | None => Raise KeyError
    | Some v => do x <- sub v key; as_number x
    end.
  (** arr[:, j, :][key] op= value *)
  Definition update_T (f : F -> F) (key : string) (j : nat) (g : grid) : grid :=
    mkGrid (dimP g) (dimT g) (dimX g) (fun i' j' k' n => if Nat.eqb j' j && String.eqb n key then f (cell g i' j' k' n) else cell g i' j' k' n).
  (** arr[:, j, k][key] op= value *)
  Definition update_TX (f : F -> F) (key : string) (j k : nat) (g : grid) : grid :=
    mkGrid (dimP g) (dimT g) (dimX g) (fun i' j' k' n => if Nat.eqb j' j && Nat.eqb k' k && String.eqb n key then f (cell g i' j' k' n) else cell g i' j' k' n).
  (** the factor Z_rho, 327-331, 453-458 *)
  Definition scale_by_rho (p : params) (rho : list (string * json)) (g : grid) : res grid :=
    for_res (fun g T =>
               do z <- value_at rho T "Z_sampling";
               do j <- index Qeq_bool T (lst_T p);
               Ok (update_T (fun x => mul x z) "Z error" j (update_T (fun x => mul x z) "Z" j g))) (lst_T p) g.
  (** 325-343 prepare_data of plot_original_Z_test *)
  Definition prepare_single (p : params) (rho orig : list (string * json)) (g : grid) : res grid :=
    do g <- scale_by_rho p rho g;
    for_res (fun g T =>
               do j <- index Qeq_bool T (lst_T p);
               do z <- value_at orig T "Z_coupled";
               let g := update_T (fun x => sub_ x z) "Z" j g in
               let g := update_T (fun x => mul x hundred) "Z" j g in
               let g := update_T (fun x => div x z) "Z" j g in
               let g := update_T (fun x => mul x hundred) "Z error" j g in
               Ok (update_T (fun x => div x z) "Z error" j g)) (lst_T p) g.
  (** the second half of 450-481, for one FS *)
  Definition percent_by_X (p : params) (orig : list (string * json)) (g : grid) : res grid :=
    for_res (fun g X =>
      do k <- index Z.eqb X (lst_X p);
      for_res (fun g T =>
               do j <- index Qeq_bool T (lst_T p);
               do z <- value_at orig T "Z_coupled";
               let g := update_TX (fun x => sub_ x z) "Z" j k g in
               let g := update_TX (fun x => mul x hundred) "Z" j k g in
               let g := update_TX (fun x => div x z) "Z" j k g in
               let g := update_TX (fun x => mul x hundred) "Z error" j k g in
               Ok (update_TX (fun x => div x z) "Z error" j k g)) (lst_T p) g) (lst_X p) g.
  (** what is known of one FS: parameters, analytical values of rho and of the original model, array *)
  Definition loaded := (params * list (string * json) * list (string * json) * grid)%type.
  (** 450-481 prepare_data of plot_original_Z_vs_diagonal_test *)
  Definition prepare_several (l : list loaded) : res (list grid) :=
    do gs <- map_res (fun x : loaded => let '(p, rho, orig, g) := x in do g <- scale_by_rho p rho g; Ok (p, rho, orig, g)) l;
    map_res (fun x : loaded => let '(p, rho, orig, g) := x in percent_by_X p orig g) gs.
  (** 661-692 prepare_data of plot_sos_Z_vs_rho_n: the attribute sos_params is nowhere set *)
  Definition prepare_sos (l : list loaded) : res (list grid) :=
    do gs <- map_res (fun x : loaded => let '(p, rho, orig, g) := x in do g <- scale_by_rho p rho g; Ok (p, rho, orig, g)) l;
    map_res (fun x : loaded => let '(p, rho, orig, g) := x in
               match lst_X p, lst_T p with _ :: _, _ :: _ => Raise AttributeError | _, _ => Ok g end) gs.
  (** 875-884 prepare_data of plot_rectangle: a json value has no method view *)
  Definition prepare_rectangle (l : list loaded) : res (list grid) :=
    map_res (fun x : loaded => let '(p, rho, orig, g) := x in
               match lst_T p with
               | [] => Ok g
               | T :: _ => match dget String.eqb rho (fmt2 T) with
                           | None => Raise KeyError
                           | Some v => do _ <- sub v "Z_sampling"; Raise AttributeError
                           end
               end) l.

  (** 79-120 load_trotter_coupled, for one FS *)
  Definition trotter_keys : list string := ["Z_trotter"; "E_trotter"; "SvN_trotter"; "S2_trotter"].
  Definition trotter_path (f : fstruct) (P basis_size : Z) : res string := py_format (t_trotter_vib f) [("P:d", dec P); ("B:d", dec basis_size)].
  (** data[f"{T:.2f}"].get(key, None) *)
  Definition get_or_none (v : json) (key : string) : res json :=
    match v with JObj l => Ok (match dget String.eqb l key with Some x => x | None => JNull end) | _ => Raise AttributeError end.
  (** one turn of the loop over the beads: a value for each key, None after any exception inside try *)
  Definition trotter_values (fs : fsys string) (path : string) (T : Q) : list json :=
    match (do data <- load_json fs path; map_res (fun key => do v <- sub data (fmt2 T); get_or_none v key) trotter_keys) with
    | Ok vs => vs
    | Raise _ => map (fun _ => JNull) trotter_keys
    end.
  (** np.array(values, dtype=F64): the values of one key for all beads *)
  Definition trotter_column (fs : fsys string) (f : fstruct) (p : params) (basis_size : Z) (T : Q) : res (list (string * list F)) :=
    do rows <- map_res (fun P => do path <- trotter_path f P basis_size; Ok (trotter_values fs path T)) (lst_P p);
    map_res (fun ik => do col <- map_res (fun row => do v <- item row (fst ik); to_f64 v) rows; Ok (snd ik, col)) (combine (seq 0 (List.length trotter_keys)) trotter_keys).
  Definition load_trotter (fs : fsys string) (f : fstruct) (p : params) (basis_size : Z) : res (list (string * list (string * list F))) :=
    for_res (fun d T => do c <- trotter_column fs f p basis_size T; Ok (dset String.eqb d (fmt2 T) c)) (lst_T p) [].

  (** 124-129 generate_tau_values *)
  Definition generate_tau_values (p : params) (T : Q) : res (list F) := map_res (fun P => do x <- of_int P; Ok (div (beta T) x)) (lst_P p).
End Plot.
