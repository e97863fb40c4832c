(** What the arrays of the plots should contain, without the model *)
From Coq Require Import QArith Sorting.Sorted.
From Verif Require Import Common PyStr_Model FileName_Model.
Local Open Scope string_scope.
Local Open Scope list_scope.

(** the parameters of a result file: beads, temperature, samples *)
Definition entry := (Z * Q * Z)%type.
(** a directory whose name can not be confused with a part of a file name *)
Definition quiet_dir (dir : string) : Prop :=
  ~ In "P"%char (list_ascii_of_string dir) /\ (forall a b, dir <> a ++ "_T" ++ b)%string /\ (forall a b, dir <> a ++ "_X" ++ b)%string.
Definition entry_ok (x : entry) : Prop := (0 <= fst (fst x))%Z /\ (0 <= Qnum (snd (fst x)))%Z.
(** the name of the file *)
Definition entry_path (dir : string) (x : entry) : string := (dir ++ thermo_file (fst (fst x)) (snd (fst x)) (snd x))%string.
(** two entries that the names do not tell apart: temperatures are shown in hundredths *)
Definition same_entry (x y : entry) : Prop :=
  fst (fst x) = fst (fst y) /\ hundredths (snd (fst x)) = hundredths (snd (fst y)) /\ snd x = snd y.
(** [l] has no two elements x, y with [same_entry x y] *)
Definition distinct_entries (l : list entry) : Prop :=
  forall i j x y, nth_error l i = Some x -> nth_error l j = Some y -> same_entry x y -> i = j.
(** strictly increasing values *)
Definition increasing_Z (l : list Z) : Prop := forall i j x y, nth_error l i = Some x -> nth_error l j = Some y -> (i < j)%nat -> (x < y)%Z.
Definition increasing_Q (l : list Q) : Prop := forall i j x y, nth_error l i = Some x -> nth_error l j = Some y -> (i < j)%nat -> (x < y)%Q.
