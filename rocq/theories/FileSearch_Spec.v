(** Notions used to state the properties of file navigation, independent of the
    search functions. *)
From Verif Require Import Common.

Definition newline_at (d : list ascii) (i : nat) : Prop := nth_error d i = Some (ascii_of_nat 10).
(** the target occurs at position i *)
Definition occurs_at (target d : list ascii) (i : nat) : Prop :=
  exists a b, d = (a ++ target ++ b)%list /\ length a = i.
(** the number of newlines in a piece of text *)
Definition newlines (l : list ascii) : nat := count_occ ascii_dec l (ascii_of_nat 10).
(** the bytes at positions i, ..., j - 1 *)
Definition piece (d : list ascii) (i j : nat) : list ascii := firstn (j - i) (skipn i d).
