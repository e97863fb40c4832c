(** Model of the cache of results of the external program:
    /repo/pibronic/julia_wrapper.py (keyDict, parse_ouput, convert_keys, compute,
    validate_old_rho_data, validate_old_model_data, base_func, the four methods
    built on it, the commands, main and the command line) and of the readers
    /repo/pibronic/data/postprocessing.py:313-375.

    Result files and model files are text; the text is read and written by the
    character-level model of the json module in Json_Model.  The external program
    is any source of output and error text.  Simplifications: a float is
    represented by the text json.dump gives it; beta is the rational number the
    float denotes and extract_T_from_beta is exact; beta = 0 is not modelled;
    finding the julia installation (prepare_julia, construct_command_dictionary
    lines 303-310) is replaced by the path of the scripts; writing a file is one
    step. *)
From Coq Require Import QArith.
From Verif Require Import Common PyStr_Model Json_Model FileStruct_Model.
Local Open Scope string_scope.
Local Open Scope nat_scope.

(** json.dump(v, file) / json.dumps(v) with the default separators *)
Definition dumps (v : json) : string := write ", " ": " v.

(** julia_wrapper.py:25-53: (new name, name printed by the program) *)
Definition keyDict : list (string * string) :=
  [("Z_MC", "Z_MC"); ("E_MC", "E_MC"); ("Cv_MC", "Cv_MC"); ("SvN_MC", "SvN_MC"); ("S2_MC", "S2_MC");
   ("Z_trotter", "Z_trotter"); ("E_trotter", "E_trotter"); ("Cv_trotter", "Cv_trotter"); ("SvN_trotter", "SvN_trotter"); ("S2_trotter", "S2_trotter");
   ("Z_sos", "Z_sos"); ("E_sos", "E_sos"); ("Cv_sos", "Cv_sos"); ("SvN_sos", "SvN_sos"); ("S2_sos", "S2_sos");
   ("E0_exact", "E0_exact"); ("SvN_exact", "SvN_exact"); ("S2_exact", "S2_exact");
   ("Z_rho", "Z_analytical"); ("E_rho", "E_analytical"); ("Cv_rho", "Cv_analytical"); ("SvN_rho", "SvN_analytical"); ("S2_rho", "S2_analytical");
   ("beta", "beta"); ("tau", "tau")].

(** "\n" *)
Definition newline : string := String (ascii_of_nat 10) "".

(** julia_wrapper.py:63: the non-empty lines *)
Definition line_list (raw : string) : list string := filter (fun s => negb (String.eqb s "")) (split newline raw).
(** dict(pairs) from the lists line.split(":"), julia_wrapper.py:68 *)
Fixpoint dict_of (l : list (list string)) (acc : list (string * string)) : res (list (string * string)) :=
  match l with
  | [] => Ok acc
  | [k; v] :: l' => dict_of l' (dset String.eqb acc k v)
  | _ :: _ => Raise ValueError
  end.
(** julia_wrapper.py:56-69, the output already decoded *)
Definition parse_output (raw : string) : res (list (string * string)) :=
  let lines := line_list raw in
  do _ <- passert (forallb (contains ":") lines);
  dict_of (map (split ":") lines) [].

(** constants.py:24: ev / kelvin *)
Definition boltzman : Q := 138064852 # 1602176620800.
(** constants.py:41-44 *)
Definition beta_of_T (t : Q) : Q := 1 / (t * boltzman).
(** constants.py:47-50 *)
Definition extract_T_from_beta (b : Q) : Q := 1 / (b * boltzman).
(** julia_wrapper.py:83 *)
Definition key_of (b : Q) : string := fmt2 (extract_T_from_beta b).

Section Float.
  (** float(text), as the text json.dump gives to it; ValueError if it is none *)
  Variable py_float : string -> res string.

  (** julia_wrapper.py:77-81 *)
  Fixpoint renamed (keys : list (string * string)) (out : list (string * string)) : res (list (string * json)) :=
    match keys with
    | [] => Ok []
    | (new, old) :: keys' =>
        match dget String.eqb out old with
        | None => renamed keys' out
        | Some text => do x <- py_float text; do r <- renamed keys' out; Ok ((new, JFloat x) :: r)
        end
    end.
  (** julia_wrapper.py:72-89: returns old_dict after the update *)
  Definition convert_keys (old_dict : list (string * json)) (out : list (string * string)) (b : Q) : res (list (string * json)) :=
    do temp <- renamed keyDict out;
    Ok (dset String.eqb old_dict (key_of b) (JObj temp)).

  (** julia_wrapper.py:92-116, after the program has ended; None for False *)
  Definition compute (out err : string) (old_dict : list (string * json)) (b : Q) : res (option (list (string * json))) :=
    if contains "Killed" err then Ok None
    else do output_dict <- parse_output out;
         match output_dict with
         | [] => Ok None
         | _ => do d <- convert_keys old_dict output_dict b; Ok (Some d)
         end.
End Float.

(** a hash of the FileStructure in a dictionary *)
Definition hash_json (h : option string) : json := match h with Some s => JStr s | None => JNull end.
(** old_dict[k] == hash *)
Definition same_hash (v : option json) (h : option string) : bool :=
  match v, h with
  | Some (JStr s), Some t => String.eqb s t
  | Some JNull, None => true
  | _, _ => false
  end.
(** julia_wrapper.py:119-134 *)
Definition validate_rho (d : list (string * json)) (f : fstruct) : list (string * json) :=
  let kept := if dmem String.eqb d "hash_vib" && dmem String.eqb d "hash_rho" &&
                 same_hash (dget String.eqb d "hash_vib") (hash_vib f) && same_hash (dget String.eqb d "hash_rho") (hash_rho f)
              then d else [] in
  dset String.eqb (dset String.eqb kept "hash_vib" (hash_json (hash_vib f))) "hash_rho" (hash_json (hash_rho f)).
(** julia_wrapper.py:137-151 *)
Definition validate_model (d : list (string * json)) (f : fstruct) : list (string * json) :=
  let kept := if dmem String.eqb d "hash_vib" && same_hash (dget String.eqb d "hash_vib") (hash_vib f) then d else [] in
  dset String.eqb kept "hash_vib" (hash_json (hash_vib f)).

(** the four methods that keep results: analytic_of_sampling_model (185-197),
    analytic_of_original_coupled_model (200-212), sos_of_coupled_model (224-236),
    trotter_of_coupled_model (249-261) *)
Inductive task := Sampling | Original | Sos (B : Z) | Trotter (P B : Z).
Definition validate (t : task) (d : list (string * json)) (f : fstruct) : list (string * json) :=
  match t with Sampling => validate_rho d f | _ => validate_model d f end.
(** path_dst *)
Definition target (f : fstruct) (t : task) : res string :=
  match t with
  | Sampling => Ok (path_analytic_rho f)
  | Original => Ok (path_analytic_orig f)
  | Sos B => py_format (t_sos_vib f) [("B:d", dec B)]
  | Trotter P B => py_format (t_trotter_vib f) [("P:d", dec P); ("B:d", dec B)]
  end.
(** the file given as --conf (lines 180, 219, 243) *)
Definition source (f : fstruct) (t : task) : string :=
  match t with
  | Sampling => path_rho_model f
  | Original => path_orig_model f
  | Sos _ | Trotter _ _ => path_vib_model f
  end.

(** julia_wrapper.py:312-366; [bin] is the directory of the scripts *)
Definition commands (bin : string) : list (string * string) :=
  let j_path := "julia " ++ bin in
  [("analytical coupled", String.concat " " [j_path ++ "analytical.jl"; "--conf {F:}"; "--beta {T:}"; "--uncoupled"]);
   ("analytical uncoupled", String.concat " " [j_path ++ "analytical.jl"; "--conf {F:}"; "--beta {T:}"]);
   ("sos", String.concat " " [j_path ++ "sos.jl"; "--conf {F:}"; "--beta {T:}"; "--basis-size {B:}"]);
   ("trotter", String.concat " " [j_path ++ "trotter.jl"; "--conf {F:}"; "--beta {T:}"; "--basis-size {B:}"; "--num-links {P:}"]);
   ("sampling", String.concat " " [j_path ++ "sampling.jl"; "--conf {F:}"; "--beta {T:}"; "--num-links {P:}"; "--num-samples {X:}"]);
   ("finite difference sampling",
    String.concat " " [j_path ++ "sampling.jl"; "--conf {F:}"; "--beta {T:}"; "--num-links {P:}"; "--num-samples {X:}";
                       "--dbeta {:}"; "--sampling-beta {:}"; "--samplings-conf {:}"]);
   ("iterative", String.concat " " [j_path ++ "iterative_decomposition.jl"; "--conf {F:}"; "--max-iter {N:}"; "--out-conf {P:}"; "--out-vs {VS:}"])].
(** construct_command_dictionary()[name] *)
Definition command_named (bin name : string) : res string :=
  match dget String.eqb (commands bin) name with Some c => Ok c | None => Raise KeyError end.
(** the command run by each method (lines 180, 192, 207, 219, 231, 243-244,
    256); [btext] is str(beta) *)
Definition command (bin : string) (f : fstruct) (t : task) (btext : string) : res string :=
  match t with
  | Sampling => do c <- command_named bin "analytical uncoupled"; py_format c [("F:", source f t); ("T:", btext)]
  | Original => do c <- command_named bin "analytical coupled"; py_format c [("F:", source f t); ("T:", btext)]
  | Sos B => do c <- command_named bin "sos"; py_format c [("F:", source f t); ("T:", btext); ("B:", dec B)]
  | Trotter P B => do c <- command_named bin "trotter"; py_format c [("F:", source f t); ("T:", btext); ("B:", dec B); ("P:", dec P)]
  end.
(** julia_wrapper.py:264-283 *)
Definition iterate_command (bin : string) (f : fstruct) (n : Z) : res string :=
  do c <- command_named bin "iterative";
  py_format c [("F:", path_vib_model f); ("P:", path_iter_model f); ("VS:", path_iter_mat f); ("N:", dec n)].

(** julia_wrapper.py:156-162 *)
Definition old_data (fs : fsys string) (dst : string) : res json :=
  match fs dst with
  | None => Ok (JObj [])
  | Some data => if 1 <? String.length data then loads data else Ok (JObj [])
  end.
(** julia_wrapper.py:164: validate(old_dict, FS) when the file holds something
    else than a dictionary: membership, clear and assignment fail *)
Definition not_a_dict (t : task) (v : json) : exn :=
  match v with
  | JStr s => if contains "hash_vib" s && match t with Sampling => contains "hash_rho" s | _ => true end then TypeError else AttributeError
  | _ => TypeError
  end.
(** julia_wrapper.py:154-164: what is in memory when the program is started *)
Definition begin_run (fs : fsys string) (f : fstruct) (t : task) (dst : string) : res (list (string * json)) :=
  do v <- old_data fs dst;
  match v with
  | JObj d => Ok (validate t d f)
  | _ => Raise (not_a_dict t v)
  end.
(** julia_wrapper.py:166-171: after the program has ended; the new contents of
    the file *)
Definition end_run (py_float : string -> res string) (f : fstruct) (t : task) (b : Q) (d : list (string * json)) (out err : string) : res string :=
  do r <- compute py_float out err d b;
  match r with
  | Some d' => Ok (dumps (JObj (validate t d' f)))
  | None => Raise OtherException
  end.
(** julia_wrapper.py:154-173 and the methods, without interruption; the command
    is made before (180, 219, 243) *)
Definition base_func (py_float : string -> res string) (bin : string) (fs : fsys string) (f : fstruct) (t : task) (b : Q) (btext out err : string)
  : fsys string * res unit :=
  match
    (do dst <- target f t;
     do _ <- command bin f t btext;
     do d <- begin_run fs f t dst;
     do text <- end_run py_float f t b d out err;
     Ok (dst, text))
  with
  | Ok (dst, text) => (fs_write fs dst text, Ok tt)
  | Raise e => (fs, Raise e)
  end.

(** ---- several processes ----
    one process between julia_wrapper.py:164 and 166: what it holds in memory *)
Record proc := mkProc { p_fs : fstruct; p_task : task; p_beta : Q; p_dst : string; p_dict : list (string * json) }.
Record world := mkWorld { files : fsys string; procs : nat -> option proc }.
Inductive event :=
| Edit (p : string) (c : option string)        (* a file is written or removed by something else *)
| Start (pid : nat) (f : fstruct) (t : task) (b : Q)
| Finish (pid : nat) (out err : string).
Definition set_file (fs : fsys string) (p : string) (c : option string) : fsys string :=
  fun q => if String.eqb q p then c else fs q.
Definition set_proc (ps : nat -> option proc) (i : nat) (p : option proc) : nat -> option proc :=
  fun j => if j =? i then p else ps j.
Section World.
  Variable py_float : string -> res string.
  Definition step (w : world) (e : event) : world :=
    match e with
    | Edit p c => mkWorld (set_file (files w) p c) (procs w)
    | Start i f t b =>
        mkWorld (files w) (set_proc (procs w) i
          match (do dst <- target f t; do d <- begin_run (files w) f t dst; Ok (mkProc f t b dst d)) with
          | Ok p => Some p
          | Raise _ => None
          end)
    | Finish i out err =>
        match procs w i with
        | None => w
        | Some p =>
            mkWorld (match end_run py_float (p_fs p) (p_task p) (p_beta p) (p_dict p) out err with
                     | Ok text => set_file (files w) (p_dst p) (Some text)
                     | Raise _ => files w
                     end)
                    (set_proc (procs w) i None)
        end
    end.
  Definition run (w : world) (l : list event) : world := fold_left step l w.
End World.

(** ---- readers ---- *)
Section Readers.
  (** x / y and x == y on numbers *)
  Variable divide : json -> json -> res json.
  Variable num_eqb : json -> json -> bool.

  (** data/postprocessing.py:313-343; the dictionary [analytic] is filled step by
      step and keeps what was stored before an exception *)
  Definition analytic_steps (in_dict entry : json) (a : list (string * json)) : list (string * json) * res unit :=
    match sub entry "Z_sampling" with
    | Raise e => (a, Raise e)
    | Ok z =>
        let a := dset String.eqb a "Z" z in
        match sub entry "E_sampling" with
        | Raise e => (a, Raise e)
        | Ok x =>
            let a := dset String.eqb a "E" x in
            match sub entry "Cv_sampling" with
            | Raise e => (a, Raise e)
            | Ok c =>
                let a := dset String.eqb a "Cv" c in
                match (do zp <- sub entry "Z_sampling+beta"; divide z zp) with
                | Raise e => (a, Raise e)
                | Ok ap =>
                    let a := dset String.eqb a "alpha_plus" ap in
                    match (do zm <- sub entry "Z_sampling-beta"; divide z zm) with
                    | Raise e => (a, Raise e)
                    | Ok am => (dset String.eqb a "alpha_minus" am, Ok tt)
                    end
                end
            end
        end
    end.
  (** lines 318-330: the checks, and the entry of the temperature *)
  Definition analytic_entry (fs : fsys string) (f : fstruct) (T : Q) : res (json * json) :=
    match fs (path_analytic_rho f) with
    | None => Raise AssertionError
    | Some text =>
        do in_dict <- loads text;
        do hv <- sub in_dict "hash_vib";
        do _ <- passert (same_hash (Some hv) (hash_vib f));
        do hr <- sub in_dict "hash_rho";
        do _ <- passert (same_hash (Some hr) (hash_rho f));
        do m <- mem in_dict (fmt2 T);
        do _ <- passert m;
        do entry <- sub in_dict (fmt2 T);
        Ok (in_dict, entry)
    end.
  Definition load_analytic_data (fs : fsys string) (f : fstruct) (T : Q) (a : list (string * json)) : list (string * json) * res unit :=
    match analytic_entry fs f T with
    | Raise e => (a, Raise e)
    | Ok (in_dict, entry) => analytic_steps in_dict entry a
    end.

  (** l.index(x) *)
  Fixpoint index_of (x : json) (l : list json) : option nat :=
    match l with
    | [] => None
    | y :: l' => if num_eqb x y then Some 0 else match index_of x l' with Some i => Some (S i) | None => None end
    end.
  (** v[i] with a number *)
  Definition at_index (v : json) (i : nat) : res json :=
    match v with
    | JArr l => item l i
    | JStr s => match get i s with Some c => Ok (JStr (String c "")) | None => Raise IndexError end
    | JObj _ => Raise KeyError
    | _ => Raise TypeError
    end.
  (** data/postprocessing.py:346-375 *)
  Definition load_rho_sos_data (fs : fsys string) (f : fstruct) (B : Z) (T : json) (a : list (string * json)) : list (string * json) * res unit :=
    match (do path <- py_format (t_sos_rho f) [("B:d", dec B)];
           match fs path with
           | None => Raise AssertionError
           | Some text =>
               do rho_dict <- loads text;
               do ts <- sub rho_dict "temperature";
               match ts with
               | JArr l => match index_of T l with Some i => Ok (rho_dict, i) | None => Raise ValueError end
               | JStr _ => Raise TypeError
               | _ => Raise AttributeError
               end
           end)
    with
    | Raise e => (a, Raise e)
    | Ok (rho_dict, i) =>
        match (do v <- sub rho_dict "Z_sampling"; at_index v i) with
        | Raise e => (a, Raise e)
        | Ok z =>
            let a := dset String.eqb a "Z" z in
            match (do v <- sub rho_dict "E_sampling"; at_index v i) with
            | Raise e => (a, Raise e)
            | Ok x =>
                let a := dset String.eqb a "E" x in
                match (do v <- sub rho_dict "Cv_sampling"; at_index v i) with
                | Raise e => (a, Raise e)
                | Ok c =>
                    let a := dset String.eqb a "Cv" c in
                    match (do v <- sub rho_dict "Z_sampling+beta"; do zp <- at_index v i; divide z zp) with
                    | Raise e => (a, Raise e)
                    | Ok ap =>
                        let a := dset String.eqb a "alpha_plus" ap in
                        match (do v <- sub rho_dict "Z_sampling-beta"; do zm <- at_index v i; divide z zm) with
                        | Raise e => (a, Raise e)
                        | Ok am => (dset String.eqb a "alpha_minus" am, Ok tt)
                        end
                    end
                end
            end
        end
    end.
End Readers.

(** ---- command line: julia_wrapper.py:403-449 ---- *)
Record cli := mkCli { c_temperature : Q; c_beta : option Q; c_id_rho : Z; c_nbeads : option Z; c_basis : option Z; c_method : option string }.
(** a number given on the command line counts as absent if it is 0 *)
Definition given_Q (x : option Q) : bool := match x with Some q => negb (Qeq_bool q 0) | None => false end.
Definition given_Z (x : option Z) : bool := match x with Some z => negb (z =? 0)%Z | None => false end.
(** args.method counts as absent if it is empty *)
Definition given_method (m : option string) : option string := match m with Some "" => None | _ => m end.
(** the tests of lines 419-446; false is parser.error *)
Definition accepted (bin : string) (a : cli) : bool :=
  (0 <=? c_id_rho a)%Z &&
  negb (given_Q (Some (c_temperature a)) && given_Q (c_beta a)) &&
  negb (given_Q (Some (c_temperature a)) && negb (negb (Qle_bool (c_temperature a) 0))) &&
  (if given_Z (c_nbeads a) then
     match given_method (c_method a) with Some m => contains "sampling" m | None => true end &&
     match c_nbeads a with Some n => (3 <=? n)%Z | None => true end
   else true) &&
  (if given_Z (c_basis a) then
     match given_method (c_method a) with Some m => contains "trotter" m || contains "sos" m | None => true end &&
     match c_basis a with Some n => (2 <=? n)%Z | None => true end
   else true) &&
  match given_method (c_method a) with Some m => dmem String.eqb (commands bin) m | None => true end.

(** julia_wrapper.py:370-400: what main does with the keyword arguments made from
    the command line: every name is present, "beads" never is *)
Inductive action := Iterate | Kept (t : task).
Definition main_action (a : cli) : res action :=
  if Qeq_bool (c_temperature a) 0 then Raise ZeroDivisionError (* constants.beta(temperature), line 378 *) else
  match c_method a with
  | None => Raise OtherException
  | Some m =>
      if String.eqb m "iterate" then Ok Iterate
      else if String.eqb m "analytical_original" then Ok (Kept Original)
      else if String.eqb m "analytical_sampling" then Ok (Kept Sampling)
      else if String.eqb m "trotter_coupled" then
        match c_basis a with Some B => Ok (Kept (Trotter 10 B)) | None => Raise TypeError end
      else if String.eqb m "sos" then
        match c_basis a with Some B => Ok (Kept (Sos B)) | None => Raise TypeError end
      else Raise OtherException
  end.
(** None: the program ends with a usage message *)
Definition command_line (bin : string) (a : cli) : option (res action) :=
  if accepted bin a then Some (main_action a) else None.
