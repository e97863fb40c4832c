(** Notions used to state the properties of the submission of calculations,
    independent of the functions of the model. *)
From Coq Require Import QArith.
From Verif Require Import Common PyStr_Model Json_Model Json_Spec FileStruct_Model Julia_Model Julia_Spec.
Local Open Scope string_scope.
Local Open Scope nat_scope.

(** the file holds the result for the temperature, for the present model *)
Definition finished (fs : fsys string) (f : fstruct) (path : string) (T : Q) : Prop :=
  exists text d h v, fs path = Some text /\ loads text = Ok (JObj d) /\ hash_vib f = Some h /\ get d "hash_vib" = Some (JStr h) /\ get d (fmt2 T) = Some v.
(** there is no file, or it holds results of another model, or not this temperature *)
Definition missing (fs : fsys string) (f : fstruct) (path : string) (T : Q) : Prop :=
  fs path = None \/
  exists text d h x, fs path = Some text /\ loads text = Ok (JObj d) /\ hash_vib f = Some h /\ get d "hash_vib" = Some x /\ (x <> JStr h \/ get d (fmt2 T) = None).
(** there is a file that is not a dictionary with a hash, or there is nothing to compare with *)
Definition unreadable (fs : fsys string) (f : fstruct) (path : string) : Prop :=
  exists text, fs path = Some text /\ (hash_vib f = None \/ forall d, loads text = Ok (JObj d) -> get d "hash_vib" = None).

(** what is started for a list of calculations, and whether the end is reached:
    [world k] are the files at the k-th check, [where_ t] the file of the results *)
Inductive submits (text : task -> Q -> string) (where_ : task -> string) (world : nat -> fsys string) (f : fstruct) : nat -> list (task * Q) -> list string -> bool -> Prop :=
| sub_end k : submits text where_ world f k [] [] true
| sub_skip k t T l cs b : finished (world k) f (where_ t) T -> submits text where_ world f (S k) l cs b -> submits text where_ world f k ((t, T) :: l) cs b
| sub_start k t T l cs b : missing (world k) f (where_ t) T -> submits text where_ world f (S k) l cs b -> submits text where_ world f k ((t, T) :: l) (text t T :: cs) b
| sub_stop k t T l : unreadable (world k) f (where_ t) -> submits text where_ world f k ((t, T) :: l) [] false.

Definition quote : string := String (ascii_of_nat 34) "".
(** the program of a job, for the root directory [p], data set [d] and distribution [r] *)
Definition job_code (p : string) (d r : Z) (t : task) (T : Q) : string :=
  "import pibronic;from pibronic.data import file_structure as fs;from pibronic import julia_wrapper as jw;from pibronic.constants import beta;b = beta(" ++ fmt2 T ++ ");" ++
  match t with Trotter P _ => "P = " ++ dec P ++ ";" | _ => "" end ++
  match t with Trotter _ B | Sos B => "BS = " ++ dec B ++ ";" | _ => "" end ++
  "FS = fs.FileStructure(" ++ quote ++ p ++ quote ++ ", " ++ dec d ++ ", " ++ dec r ++ ");FS.generate_model_hashes();jw.prepare_julia();pibronic.julia_wrapper." ++
  match t with
  | Sos _ => "sos_of_coupled_model(FS, BS, b);"
  | Trotter _ _ => "trotter_of_coupled_model(FS, P, BS, b);"
  | _ => "analytic_of_sampling_model(FS, b);"
  end.
Definition job_text (p : string) (d r : Z) (t : task) (T : Q) : string :=
  "srun --job-name=" ++
  match t with Sos _ => "sos_D" ++ dec d | Trotter P _ => "trotter_D" ++ dec d ++ "_P" ++ dec P | _ => "analytic_D" ++ dec d end ++ "_T" ++ fmt2 T ++
  match t with Sos _ | Trotter _ _ => " --mem=20GB" | _ => "" end ++ " python3 -c '" ++ job_code p d r t T ++ "'".

(** the calculations [l] were done one after the other, all with success, by
    jobs that took the temperature rounded to two decimals *)
Inductive ran (py_float : string -> res string) (bin : string) (g : fstruct) : fsys string -> list (task * Q) -> fsys string -> Prop :=
| ran_end fs : ran py_float bin g fs [] fs
| ran_job fs t T T' bt out err fs1 l fs2 :
    base_func py_float bin fs g t (beta_of_T T') bt out err = (fs1, Ok tt) -> fmt2 T' = fmt2 T -> ~ (T' == 0)%Q ->
    ran py_float bin g fs1 l fs2 -> ran py_float bin g fs ((t, T) :: l) fs2.
(** a calculation on the coupled model *)
Definition coupled (t : task) : Prop := match t with Sos _ | Trotter _ _ => True | _ => False end.
