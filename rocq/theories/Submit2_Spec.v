(** Notions used to state the properties of the submission of the artificial
    systems, independent of the functions of the model. *)
From Coq Require Import QArith.
From Verif Require Import Common PyStr_Model Json_Model Json_Spec FileStruct_Model Julia_Model Julia_Spec Submit_Spec.
Local Open Scope string_scope.
Local Open Scope nat_scope.

(** every number of beads of the list was found finished, from the k-th check on *)
Definition all_finished (where_ : task -> string) (world : nat -> fsys string) (f : fstruct) (B : Z) (T : Q) (k : nat) (Ps : list Z) : Prop :=
  forall i P, nth_error Ps i = Some P -> finished (world (k + i)) f (where_ (Trotter P B)) T.
(** [P] is the last number of beads that was found missing *)
Definition last_missing (where_ : task -> string) (world : nat -> fsys string) (f : fstruct) (B : Z) (T : Q) (k : nat) (Ps : list Z) (P : Z) : Prop :=
  exists Ps1 Ps2, Ps = (Ps1 ++ P :: Ps2)%list /\ missing (world (k + length Ps1)) f (where_ (Trotter P B)) T /\
    all_finished where_ world f B T (k + length Ps1 + 1) Ps2 /\
    forall i Q, nth_error Ps1 i = Some Q -> finished (world (k + i)) f (where_ (Trotter Q B)) T \/ missing (world (k + i)) f (where_ (Trotter Q B)) T.
(** what is started for a list of sizes and temperatures, and the outcome; [prev]
    is the command started before *)
Inductive art_runs (text : task -> Q -> string) (where_ : task -> string) (world : nat -> fsys string) (f : fstruct) (Ps : list Z)
  : nat -> option string -> list (Z * Q) -> list string -> res unit -> Prop :=
| art_end k prev : art_runs text where_ world f Ps k prev [] [] (Ok tt)
| art_new k prev B T P l cs r : last_missing where_ world f B T k Ps P ->
    art_runs text where_ world f Ps (k + length Ps) (Some (text (Trotter P B) T)) l cs r ->
    art_runs text where_ world f Ps k prev ((B, T) :: l) (text (Trotter P B) T :: cs) r
| art_again k c B T l cs r : all_finished where_ world f B T k Ps ->
    art_runs text where_ world f Ps (k + length Ps) (Some c) l cs r -> art_runs text where_ world f Ps k (Some c) ((B, T) :: l) (c :: cs) r
| art_unbound k B T l : all_finished where_ world f B T k Ps -> art_runs text where_ world f Ps k None ((B, T) :: l) [] (Raise UnboundLocalError)
| art_stop k prev B T l i P e : nth_error Ps i = Some P -> unreadable (world (k + i)) f (where_ (Trotter P B)) ->
    art_runs text where_ world f Ps k prev ((B, T) :: l) [] (Raise e).

(** the commands of the analytic results, for the root [p] *)
Definition analytic_text (p : string) (d r : Z) (name function : string) (T : Q) : string :=
  "srun --job-name=" ++ name ++ "_T" ++ fmt2 T ++ " python3 -c '" ++
  "import pibronic;from pibronic.data import file_structure as fs;from pibronic import julia_wrapper as jw;from pibronic.constants import beta;b = beta(" ++ fmt2 T ++ ");" ++
  "FS = fs.FileStructure(" ++ quote ++ p ++ quote ++ ", " ++ dec d ++ ", " ++ dec r ++ ");FS.generate_model_hashes();jw.prepare_julia();pibronic.julia_wrapper." ++ function ++ "(FS, b);'".
