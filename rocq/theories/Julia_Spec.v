(** Notions used to state the properties of the cache of results, independent of
    the functions of the model. *)
From Coq Require Import QArith.
From Verif Require Import Common Json_Model Json_Spec FileStruct_Model Julia_Model.
Local Open Scope string_scope.
Local Open Scope nat_scope.

Definition get {V} (d : list (string * V)) (k : string) : option V := dget String.eqb d k.

(** the character does not occur in the text *)
Definition free (c : ascii) (s : string) : Prop := ~ In c (chars s).
Definition nl : ascii := "010".
(** the text made of the given lines *)
Definition lines_text (l : list string) : string := String.concat (String nl "") l.
(** the last of the lines "k:..." is "k:v" *)
Definition last_line (lines : list string) (k v : string) : Prop :=
  exists a b, lines = (a ++ [(k ++ ":" ++ v)%string] ++ b)%list /\ forall v', ~ In (k ++ ":" ++ v') b.

(** what a file holds: nothing, or a dictionary *)
Definition stored (fs : fsys string) (p : string) (d : list (string * json)) : Prop :=
  (fs p = None /\ d = []) \/
  exists text, fs p = Some text /\ ((String.length text <= 1 /\ d = []) \/ (1 < String.length text /\ loads text = Ok (JObj d))).

Definition hash_value (h : option string) : json := match h with Some s => JStr s | None => JNull end.
(** the dictionary carries the hashes of [f] *)
Definition carries (t : task) (d : list (string * json)) (f : fstruct) : Prop :=
  get d "hash_vib" = Some (hash_value (hash_vib f)) /\
  (t = Sampling -> get d "hash_rho" = Some (hash_value (hash_rho f))).
(** the names of the dictionary that are not results *)
Definition hash_names (t : task) : list string := match t with Sampling => ["hash_vib"; "hash_rho"] | _ => ["hash_vib"] end.

(** [f] carries the hashes of the present model files *)
Definition fresh (H : string -> string) (fs : fsys string) (f : fstruct) (cv cr : string) : Prop :=
  fs (path_vib_model f) = Some cv /\ hash_vib f = Some (H cv) /\ fs (path_rho_model f) = Some cr /\ hash_rho f = Some (H cr).

(** the events of other processes *)
Definition other (i : nat) (e : event) : Prop :=
  match e with Edit _ _ => True | Start j _ _ _ => j <> i | Finish j _ _ => j <> i end.

(** in the history [evs], a process was started after [pre] with [f] and the task
    [t], ended later with an output whose results are [v], and so stored [v] in
    the file [dst] under [k] *)
Definition computed (py_float : string -> res string) (evs : list event) (dst k : string) (v : json) (pre : list event) (f : fstruct) (t : task) : Prop :=
  exists i b mid out err post names temp,
    evs = (pre ++ Start i f t b :: mid ++ Finish i out err :: post)%list /\ Forall (other i) mid /\
    target f t = Ok dst /\ k = key_of b /\
    parse_output out = Ok names /\ renamed py_float keyDict names = Ok temp /\ v = JObj temp.

(** the names under which results are stored, and the names the program prints *)
Definition kept_names : list (string * string) :=
  (flat_map (fun m => map (fun q => ((q ++ "_" ++ m)%string, (q ++ "_" ++ m)%string)) ["Z"; "E"; "Cv"; "SvN"; "S2"]) ["MC"; "trotter"; "sos"] ++
   [("E0_exact", "E0_exact"); ("SvN_exact", "SvN_exact"); ("S2_exact", "S2_exact")] ++
   map (fun q => (q ++ "_rho", q ++ "_analytical")%string) ["Z"; "E"; "Cv"; "SvN"; "S2"] ++
   [("beta", "beta"); ("tau", "tau")])%list.
(** [temp] holds the numbers printed under the known names, and nothing else *)
Definition results_of (py_float : string -> res string) (names : list (string * string)) (temp : list (string * json)) : Prop :=
  NoDup (map fst temp) /\
  forall new v, get temp new = Some v <->
    exists old text x, In (new, old) kept_names /\ get names old = Some text /\ py_float text = Ok x /\ v = JFloat x.

(** every start of a process that writes [dst] uses hashes of the present model
    files, and nothing else writes [dst] *)
Definition disciplined (py_float : string -> res string) (H : string -> string) (w0 : world) (dst : string) (is_rho : bool) (evs : list event) : Prop :=
  (forall p c, In (Edit p c) evs -> p <> dst) /\
  (forall pre i f t b post, evs = (pre ++ Start i f t b :: post)%list -> target f t = Ok dst ->
     t <> Original /\ (if is_rho then t = Sampling else t <> Sampling) /\ exists cv cr, fresh H (files (run py_float w0 pre)) f cv cr).
