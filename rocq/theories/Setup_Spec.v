(** What the preparation of the models is meant to leave behind, in terms of
    the names of the files. *)
From Verif Require Import Common PyStr_Model Arr_Model ModelIO_Model ModelIO_Spec FileStruct_Model.
Local Open Scope string_scope.

(** the names of the files below a root *)
Definition params_of (d : Z) (file : string) : string := "data_set_" ++ dec d ++ "/parameters/" ++ file.
Definition vib_of (root : string) (d : Z) : string := join root (params_of d "coupled_model.json").
Definition har_of (root : string) (d : Z) : string := join root (params_of d "harmonic_model.json").
Definition iter_of (root : string) (d : Z) : string := join root (params_of d "iterative_model.json").
Definition itermat_of (root : string) (d : Z) : string := join root (params_of d "iterative_matrix.txt").
Definition orig_of (root : string) (d : Z) : string := join root (params_of d "original_coupled_model.json").
Definition ortho_of (root : string) (d : Z) : string := join root (params_of d "orthogonal_matrix.npy").
Definition rho_of (root : string) (d r : Z) : string :=
  join root ("data_set_" ++ dec d ++ "/rho_" ++ dec r ++ "/parameters/sampling_model.json").

(** a relative path *)
Definition relative (p : string) : Prop := p <> "" /\ String.prefix "/" p = false.
(** no file below the one is below the other *)
Definition apart (dir root : string) : Prop := forall p q, relative p -> relative q -> join dir p <> join root q.

(** the root of the data sets: the one that is given, or that of the server *)
Definition chosen (server_root host : string) (root : option string) (r : string) : Prop :=
  root = Some r \/ (root = None /\ In host ["nlogn"; "feynman"] /\ r = server_root).
(** the names of the files do not change when the root is made absolute *)
Definition plain_root (cwd root : string) : Prop := forall q, relative q -> join (abspath cwd root) q = join root q.

(** the file of the directory of the paper with the coupled model, and that with sampling model [r] *)
Definition input_of (dir name : string) (d : Z) : string := join dir ("input_json/" ++ name ++ "_" ++ dec (d mod 10) ++ ".json").
Definition alternate_name (name : string) (d : Z) (x : string) : string := name ++ "_D" ++ dec (d mod 10) ++ "_R" ++ x ++ ".json".
Definition alternate_of (dir name : string) (d r : Z) : string := join dir ("alternate_rhos/" ++ alternate_name name d (dec r)).
(** [rs] are the numbers of the sampling models that the directory listing [names] offers *)
Definition offers (names : list string) (name : string) (d : Z) (rs : list Z) : Prop :=
  (forall r, In r rs -> In (alternate_name name d (dec r)) names) /\
  (forall x, In (alternate_name name d x) names -> exists r, In r rs /\ x = dec r).

(** the names and the data sets of the paper *)
Definition in_paper (name : string) (d : Z) : Prop :=
  (name = "superimposed" /\ 11 <= d <= 16 \/ name = "displaced" /\ 21 <= d <= 26 \/ name = "elevated" /\ 31 <= d <= 36 \/ name = "jahnteller" /\ 41 <= d <= 46)%Z.

Section Files.
  Context {V : Type}.
  Variable zero : V.
  Variable isz : V -> bool.
  Variable vint : V -> res Z.

  (** the file contents [c] hold the coupled model [m] with A surfaces and N modes *)
  Definition coupled_file (c : content V) (A N : Z) (m : mdict V) : Prop :=
    (forall o, c = CJson o -> NoDup (map fst o)) /\ load_new zero vint Coupled (fun _ => Some c) "" = Ok m /\ valid vint Coupled A N m.
  (** the file contents [c] are what is written for the diagonal model [m] *)
  Definition diagonal_text (m : mdict V) (c : content V) : Prop :=
    exists f p f', save isz vint Diagonal f p m = (f', Ok tt) /\ f' p = Some c.
  (** the file contents [c'] are the diagonal of the coupled model in [c] *)
  Definition diagonal_file (c : content V) (A N : Z) (c' : content V) : Prop :=
    exists m m', coupled_file c A N m /\ surface_diagonal m m' /\ valid vint Diagonal A N m' /\ diagonal_text m' c'.

  (** the files needed to prepare a data set are there, with the sampling models [rs] *)
  Definition provided (f : fs V) (dir : string) (names : list string) (name : string) (d : Z) (rs : list Z) : Prop :=
    offers names name d rs /\
    (exists c A N m, f (input_of dir name d) = Some c /\ coupled_file c A N m) /\
    forall k, In k rs -> exists c, f (alternate_of dir name d k) = Some c.
  (** data set [d] has been prepared in [f'] from the files [f] *)
  Definition prepared (f f' : fs V) (dir root name : string) (d : Z) (rs : list Z) : Prop :=
    f' (vib_of root d) = f (input_of dir name d) /\
    (exists c c' A N, f (input_of dir name d) = Some c /\ f' (har_of root d) = Some c' /\ diagonal_file c A N c' /\
    (~ In 0%Z rs -> f' (rho_of root d 0) = Some c')) /\
    forall k, In k rs -> f' (rho_of root d k) = f (alternate_of dir name d k).
  (** the files that are written for it *)
  Definition written (root : string) (d : Z) (rs : list Z) (p : string) : Prop :=
    p = vib_of root d \/ p = har_of root d \/ p = rho_of root d 0 \/ exists k, In k rs /\ p = rho_of root d k.
End Files.
